(** The socket of a connection that DialUPlane made is never replaced, so the goroutine that
    serves it does not race for it. *)
From Coq Require Import String Lia Bool Arith.
From Verif Require Import Base RaceModel RaceStatic RaceSpec RaceProofs.
Open Scope N_scope.
Open Scope list_scope.

Definition mem_str (x : string) (l : list string) : bool := existsb (String.eqb x) l.
Lemma mem_str_in : forall x l, mem_str x l = true -> In x l.
Proof. intros x l H. apply existsb_exists in H. destruct H as [y [A B]]. apply String.eqb_eq in B. subst. exact A. Qed.

Definition is_goroutine (g : string) : bool := mem_str g (map fst goroutines).
Arguments is_goroutine : simpl never.
Lemma kind_beq_true : forall a b, kind_beq a b = true -> a = b.
Proof. intros [] [] H; reflexivity || discriminate. Qed.

(** Code that does not write the socket of a given connection: [b] says whether variable 1 may
    be that connection.  If it is not [strict], the connection is known to have a socket; if it
    is, the code does not make the connection known either. *)
Fixpoint quiet (strict b : bool) (c : cmd) : option bool :=
  match c with
  | Wr f x _ => if field_beq f UPkt && negb ((x =? 1) && negb b) then None else Some b
  | Publish k x => if strict && kind_beq k KU && negb ((x =? 1) && negb b) then None else Some b
  | If f x a d =>
      match quiet strict b a, quiet strict (if negb strict && field_beq f UPkt && (x =? 1) then false else b) d with
      | Some p, Some q => Some (p || q) | _, _ => None end
  | IfKnown _ _ a d | Choice a d => match quiet strict b a, quiet strict b d with Some p, Some q => Some (p || q) | _, _ => None end
  | Seq a d => match quiet strict b a with Some p => quiet strict p d | None => None end
  | Loop a => match quiet strict b a with Some p => if implb p b then Some b else None | None => None end
  | Fresh x => Some (if x =? 1 then false else b)
  | Pick x => if x =? 1 then None else Some b
  | Go g => if is_goroutine g then Some b else None
  | _ => Some b
  end.
Inductive quiets (strict : bool) : bool -> list cmd -> Prop :=
| qs_nil b : quiets strict b []
| qs_cons b b' b'' c k : quiet strict b c = Some b' -> implb b' b'' = true -> quiets strict b'' k -> quiets strict b (c :: k).
Definition quiet_thr (strict : bool) (o : N) (t : thr) : Prop :=
  exists b, (b = false -> t_env t 1 <> o) /\ quiets strict b (t_code t).

Lemma quiet_mono : forall c m m2 b b2 b', quiet m b c = Some b' -> implb m2 m = true -> implb b2 b = true ->
  exists b2', quiet m2 b2 c = Some b2' /\ implb b2' b' = true.
Proof.
  assert (OR : forall p q p' q', implb p' p = true -> implb q' q = true -> implb (p' || q') (p || q) = true) by (intros [] [] [] []; auto).
  induction c as [|f x|f x|f x v|f x c1 IH1 c2 IH2|l x w|l x w|kk x c1 IH1 c2 IH2|kk x|x|x|c1 IH1 c2 IH2|c1 IH1 c2 IH2|c1 IH1|g]; cbn; intros m m2 b b2 b' H M B;
    try (injection H as <-; exists b2; split; [reflexivity|exact B]).
  - destruct (field_beq f UPkt), (x =? 1), b, b2; cbn in *; try discriminate; injection H as <-; eexists; split; reflexivity.
  - destruct (quiet m b c1) as [p|] eqn:P; [|discriminate]. destruct (quiet m _ c2) as [q|] eqn:Q; [|discriminate]. injection H as <-.
    destruct (IH1 _ _ _ _ _ P M B) as [p2 [P2 P3]]. rewrite P2.
    assert (X : implb (if negb m2 && field_beq f UPkt && (x =? 1) then false else b2) (if negb m && field_beq f UPkt && (x =? 1) then false else b) = true)
      by (destruct m, m2, (field_beq f UPkt), (x =? 1), b, b2; cbn in *; auto).
    destruct (IH2 _ _ _ _ _ Q M X) as [q2 [Q2 Q3]]. rewrite Q2. eexists; split; [reflexivity|]. apply OR; assumption.
  - destruct (quiet m b c1) as [p|] eqn:P; [|discriminate]. destruct (quiet m b c2) as [q|] eqn:Q; [|discriminate]. injection H as <-.
    destruct (IH1 _ _ _ _ _ P M B) as [p2 [P2 P3]]. rewrite P2. destruct (IH2 _ _ _ _ _ Q M B) as [q2 [Q2 Q3]]. rewrite Q2.
    eexists; split; [reflexivity|]. apply OR; assumption.
  - destruct m, m2, (kind_beq kk KU), (x =? 1), b, b2; cbn in *; try discriminate; injection H as <-; eexists; split; reflexivity.
  - injection H as <-. eexists; split; [reflexivity|]. destruct (x =? 1); [reflexivity|exact B].
  - destruct (x =? 1); [discriminate|]. injection H as <-. eexists; split; [reflexivity|exact B].
  - destruct (quiet m b c1) as [p|] eqn:P; [|discriminate]. destruct (IH1 _ _ _ _ _ P M B) as [p2 [P2 P3]]. rewrite P2. eapply IH2; eassumption.
  - destruct (quiet m b c1) as [p|] eqn:P; [|discriminate]. destruct (quiet m b c2) as [q|] eqn:Q; [|discriminate]. injection H as <-.
    destruct (IH1 _ _ _ _ _ P M B) as [p2 [P2 P3]]. rewrite P2. destruct (IH2 _ _ _ _ _ Q M B) as [q2 [Q2 Q3]]. rewrite Q2.
    eexists; split; [reflexivity|]. apply OR; assumption.
  - destruct (quiet m b c1) as [p|] eqn:P; [|discriminate]. destruct (implb p b) eqn:PB; [|discriminate]. injection H as <-.
    destruct b.
    + destruct b2.
      * destruct (IH1 _ m2 _ true _ P M eq_refl) as [p2 [P2 P3]]. rewrite P2. exists true. split; [destruct p2; reflexivity|reflexivity].
      * assert (Z : forall c m b', quiet m false c = Some b' -> b' = false).
        { clear. induction c as [|f x|f x|f x v|f x c1 IH1 c2 IH2|l x w|l x w|kk x c1 IH1 c2 IH2|kk x|x|x|c1 IH1 c2 IH2|c1 IH1 c2 IH2|c1 IH1|g]; cbn; intros m b' H; try (injection H as <-; reflexivity).
          - destruct (_ && _); [discriminate|]. injection H as <-. reflexivity.
          - destruct (quiet m false c1) as [p|] eqn:P; [|discriminate]. destruct (negb m && field_beq f UPkt && (x =? 1));
            (destruct (quiet m false c2) as [q|] eqn:Q; [|discriminate]); injection H as <-; rewrite (IH1 _ _ P), (IH2 _ _ Q); reflexivity.
          - destruct (quiet m false c1) as [p|] eqn:P; [|discriminate]. destruct (quiet m false c2) as [q|] eqn:Q; [|discriminate]. injection H as <-. rewrite (IH1 _ _ P), (IH2 _ _ Q). reflexivity.
          - destruct (_ && _); [discriminate|]. injection H as <-. reflexivity.
          - destruct (x =? 1); injection H as <-; reflexivity.
          - destruct (x =? 1); [discriminate|]. injection H as <-. reflexivity.
          - destruct (quiet m false c1) as [p|] eqn:P; [|discriminate]. rewrite (IH1 _ _ P) in H. eapply IH2; exact H.
          - destruct (quiet m false c1) as [p|] eqn:P; [|discriminate]. destruct (quiet m false c2) as [q|] eqn:Q; [|discriminate]. injection H as <-. rewrite (IH1 _ _ P), (IH2 _ _ Q). reflexivity.
          - destruct (quiet m false c1) as [p|] eqn:P; [|discriminate]. destruct (implb p false); [|discriminate]. injection H as <-. reflexivity.
          - destruct (is_goroutine g); [|discriminate]. injection H as <-. reflexivity. }
        destruct (IH1 _ m2 _ false _ P M eq_refl) as [p2 [P2 P3]]. rewrite P2. rewrite (Z _ _ _ P2). exists false. split; reflexivity.
    + destruct b2; [discriminate|]. destruct (IH1 _ m2 _ false _ P M eq_refl) as [p2 [P2 P3]]. rewrite P2. destruct p; [discriminate|]. destruct p2; [discriminate|]. exists false. split; reflexivity.
  - destruct (is_goroutine g); [|discriminate]. injection H as <-. eexists; split; [reflexivity|exact B].
Qed.
Lemma quiets_mono : forall k m m2 b b2, quiets m b k -> implb m2 m = true -> implb b2 b = true -> quiets m2 b2 k.
Proof.
  induction k as [|c k IH]; intros m m2 b b2 H M B; [constructor|]. inversion H as [|b0 b' b'' c0 k0 Q I K]; subst.
  destruct (quiet_mono _ _ m2 _ b2 _ Q M B) as [b2' [Q2 I2]]. eapply qs_cons; [exact Q2| |eapply IH; [exact K|exact M|]].
  - instantiate (1 := b2'). destruct b2'; reflexivity.
  - destruct b2', b', b''; auto.
Qed.
Lemma quiet_thr_weaken : forall o t, quiet_thr true o t -> quiet_thr false o t.
Proof. intros o t [b [B Q]]. exists b. split; [exact B|]. eapply quiets_mono; [exact Q|reflexivity|destruct b; reflexivity]. Qed.

Lemma goroutines_quiet : forallb (fun g => match quiet true true (body g) with Some _ => true | None => false end) (map fst goroutines) = true.
Proof. vm_compute. reflexivity. Qed.
Lemma body_quiet : forall m g o e, In g (map fst goroutines) -> quiet_thr m o (Thr g e [body g] []).
Proof.
  intros m g o e H. pose proof goroutines_quiet as X. rewrite forallb_forall in X. specialize (X _ H).
  destruct (quiet true true (body g)) as [b'|] eqn:E; [|discriminate].
  exists true. split; [discriminate|]. cbn. eapply quiets_mono with (m := true) (b := true); [|destruct m; reflexivity|reflexivity].
  eapply qs_cons; [exact E| |constructor]. instantiate (1 := true). destruct b'; reflexivity.
Qed.

(** what a step of one goroutine changes *)
Record moved (s s' : st) (i : nat) (t t' : thr) : Prop := Moved {
  mv_self : nth_error (s_thr s') i = Some t';
  mv_others : forall j, (j < List.length (s_thr s))%nat -> j <> i -> nth_error (s_thr s') j = nth_error (s_thr s) j;
  mv_new : forall j q, (List.length (s_thr s) <= j)%nat -> nth_error (s_thr s') j = Some q ->
      exists g k, t_code t = Go g :: k /\ q = Thr g (t_env t) [body g] [];
  mv_tag : t_tag t' = t_tag t;
  mv_next : s_next s <= s_next s' }.
Lemma move_moved : forall s i t o0 s', nth_error (s_thr s) i = Some t -> In s' (moves s i o0) -> exists t', moved s s' i t t'.
Proof.
  intros s i [t e code h] o0 s' N M. assert (B : (i < List.length (s_thr s))%nat) by (apply nth_error_Some; congruence).
  assert (G : forall t' m kn nx, t_tag t' = t -> s_next s <= nx -> exists t'', moved s (St (s_thr (set_thr s i t')) m kn nx) i (Thr t e code h) t'').
  { intros t' m kn nx E L. exists t'. split; cbn.
    - rewrite nth_set, Nat.eqb_refl by exact B. reflexivity.
    - intros j J D. rewrite nth_set by exact B. apply Nat.eqb_neq in D. rewrite D. reflexivity.
    - intros j q J Q. exfalso. assert (j < List.length (s_thr s))%nat; [|lia]. rewrite nth_set in Q by exact B. destruct (Nat.eqb j i) eqn:E1; [apply Nat.eqb_eq in E1; lia|]. apply nth_error_Some. congruence.
    - exact E.
    - exact L. }
  unfold moves in M. rewrite N in M. destruct code as [|c k]; [destruct M|].
  destruct c; cbn zeta in M; repeat match type of M with
    | In _ (match ?x with _ => _ end) => destruct x
    | In _ (if ?x then _ else _) => destruct x
    end; cbn [In] in M; repeat (destruct M as [<-|M]); try (destruct M; fail); try (apply G; [reflexivity|cbn; lia]).
  (* Go *)
  eexists (Thr t e k h). assert (L : List.length (firstn i (s_thr s) ++ Thr t e k h :: skipn (S i) (s_thr s)) = List.length (s_thr s)).
  { rewrite app_length, firstn_length. cbn [List.length]. rewrite skipn_length. lia. }
  split; unfold set_thr; cbn [s_thr s_next s_mem s_known t_code t_env t_tag].
  - rewrite nth_error_app1 by (rewrite L; exact B). rewrite nth_set, Nat.eqb_refl by exact B. reflexivity.
  - intros j J D. rewrite nth_error_app1 by (rewrite L; exact J). rewrite nth_set by exact B. apply Nat.eqb_neq in D. rewrite D. reflexivity.
  - intros j q J Q. rewrite nth_error_app2 in Q by (rewrite L; exact J). destruct (j - _)%nat as [|[|n]]; cbn in Q; try discriminate. injection Q as <-. eauto.
  - reflexivity.
  - lia.
Qed.

Lemma quiet_step : forall m s i t o0 s' t' o, nth_error (s_thr s) i = Some t -> In s' (moves s i o0) -> moved s s' i t t' ->
  o < s_next s \/ s_next s' <= o -> (m = false -> s_mem s UPkt o = true) -> quiet_thr m o t ->
  quiet_thr m o t' /\ (forall j q, (List.length (s_thr s) <= j)%nat -> nth_error (s_thr s') j = Some q -> quiet_thr m o q /\ In (t_tag q) (map fst goroutines)) /\
  s_mem s' UPkt o = s_mem s UPkt o /\ (m = true -> s_known s' KU o = s_known s KU o).
Proof.
  intros m s i [t e code h] o0 s' t' o N M MV LT ME [b [BE Q]]. cbn in BE, Q.
  assert (B : (i < List.length (s_thr s))%nat) by (apply nth_error_Some; congruence).
  split; [|split].
  2: { intros j q J NQ. destruct (mv_new _ _ _ _ _ MV j q J NQ) as [g [k [C ->]]]. cbn in C. subst code. inversion Q; subst. cbn in *.
       destruct (is_goroutine g) eqn:G; [|discriminate]. apply mem_str_in in G. split; [apply body_quiet; exact G|exact G]. }
  - pose proof (mv_self _ _ _ _ _ MV) as S'. clear MV. unfold moves in M. rewrite N in M. destruct code as [|c k]; [destruct M|].
    inversion Q as [|b0 b' b'' c0 k0 QC I QK]; subst.
    assert (G : forall e' k' h' b1, (b1 = false -> e' 1 <> o) -> quiets m b1 k' -> nth_error (s_thr (set_thr s i (Thr t e' k' h'))) i = Some t' -> quiet_thr m o t').
    { intros e' k' h' b1 E1 Q1 X. cbn in X. rewrite nth_set, Nat.eqb_refl in X by exact B. injection X as <-. exists b1. split; assumption. }
    assert (SAME : b' = b -> quiets m b k). { intros ->. eapply quiets_mono; [exact QK|destruct m; reflexivity|exact I]. }
    assert (IN : forall b1 d b1', (quiet m b1 d = Some b1') -> implb b1' b' = true -> quiets m b1 (d :: k)).
    { intros b1 d b1' D L. eapply qs_cons; [exact D| |exact QK]. destruct b1', b', b''; auto. }
    destruct c as [|f x|f x|f x v|f x c1 c2|l x w|l x w|kk x c1 c2|kk x|x|x|c1 c2|c1 c2|c1|g]; cbn in QC; cbn zeta in M.
    + destruct M as [<-|[]]. injection QC as <-. eapply G; [exact BE|apply SAME; reflexivity|exact S'].
    + destruct M as [<-|[]]. injection QC as <-. eapply G; [exact BE|apply SAME; reflexivity|exact S'].
    + destruct (s_mem s f (e x)); [|destruct M]. destruct M as [<-|[]]. injection QC as <-. eapply G; [exact BE|apply SAME; reflexivity|exact S'].
    + destruct (field_beq f UPkt && _); [discriminate|]. injection QC as <-.
      destruct v; [destruct M as [<-|[]]|destruct M as [<-|[<-|[]]]]; (eapply G; [exact BE|apply SAME; reflexivity|exact S']).
    + destruct M as [<-|[]]. destruct (quiet m b c1) as [p|] eqn:P; [|discriminate]. destruct (quiet m _ c2) as [q|] eqn:P2; [|discriminate]. injection QC as <-.
      destruct (s_mem s f (e x)) eqn:MM.
      * eapply G; [exact BE|eapply IN; [exact P|destruct p, q; reflexivity]|exact S'].
      * destruct (negb m && field_beq f UPkt && (x =? 1)) eqn:C.
        -- eapply (G e (c2 :: k) h false); [|eapply IN; [exact P2|destruct p, q; reflexivity]|exact S'].
           intros _ EQ. rewrite !andb_true_iff in C. destruct C as [[C1 C2] C3]. destruct m; [discriminate|]. apply field_beq_true in C2. apply N.eqb_eq in C3. subst f x.
           rewrite EQ, (ME eq_refl) in MM. discriminate.
        -- eapply G; [exact BE|eapply IN; [exact P2|destruct p, q; reflexivity]|exact S'].
    + destruct (free s l (e x) w); [|destruct M]. destruct M as [<-|[]]. injection QC as <-. eapply G; [exact BE|apply SAME; reflexivity|exact S'].
    + destruct (release l x w h); [|destruct M]. destruct M as [<-|[]]. injection QC as <-. eapply G; [exact BE|apply SAME; reflexivity|exact S'].
    + destruct M as [<-|[]]. destruct (quiet m b c1) as [p|] eqn:P; [|discriminate]. destruct (quiet m b c2) as [q|] eqn:P2; [|discriminate]. injection QC as <-.
      destruct (s_known s kk (e x)); (refine (G _ _ _ _ BE _ S'); eapply IN; [eassumption|destruct p, q; reflexivity]).
    + destruct (m && _ && _); [discriminate|]. injection QC as <-. destruct M as [<-|[]]. eapply G; [exact BE|apply SAME; reflexivity|exact S'].
    + destruct M as [<-|[]]. cbn in LT. injection QC as <-. destruct (x =? 1) eqn:X.
      * apply N.eqb_eq in X. subst x. eapply (G _ _ _ false); [|eapply quiets_mono; [exact QK|destruct m; reflexivity|exact I]|exact S'].
        intros _. unfold upd. cbn. lia.
      * eapply (G _ _ _ b); [|eapply quiets_mono; [exact QK|destruct m; reflexivity|exact I]|exact S'].
        intros Z. unfold upd. rewrite N.eqb_sym, X. apply BE; exact Z.
    + destruct M as [<-|[]]. destruct (x =? 1) eqn:X; [discriminate|]. injection QC as <-.
      eapply (G _ _ _ b); [|eapply quiets_mono; [exact QK|destruct m; reflexivity|exact I]|exact S'].
      intros Z. unfold upd. rewrite N.eqb_sym, X. apply BE; exact Z.
    + destruct M as [<-|[]]. destruct (quiet m b c1) as [p|] eqn:P; [|discriminate].
      eapply G; [exact BE| |exact S']. eapply qs_cons; [exact P|instantiate (1 := p); destruct p; reflexivity|]. eapply qs_cons; [exact QC|exact I|exact QK].
    + destruct (quiet m b c1) as [p|] eqn:P; [|discriminate]. destruct (quiet m b c2) as [q|] eqn:P2; [|discriminate]. injection QC as <-.
      destruct M as [<-|[<-|[]]]; (refine (G _ _ _ _ BE _ S'); eapply IN; [eassumption|destruct p, q; reflexivity]).
    + destruct (quiet m b c1) as [p|] eqn:P; [|discriminate]. destruct (implb p b) eqn:PB; [|discriminate]. injection QC as <-.
      destruct M as [<-|[<-|[]]]; (eapply G; [exact BE| |exact S']); [apply SAME; reflexivity|].
      eapply qs_cons; [exact P|exact PB|]. eapply qs_cons; [cbn; rewrite P, PB; reflexivity|exact I|exact QK].
    + destruct (is_goroutine g); [|discriminate]. injection QC as <-. destruct M as [<-|[]]. eapply G; [exact BE|apply SAME; reflexivity|].
      unfold set_thr in S' |- *. cbn [s_thr] in S' |- *. rewrite nth_error_app1 in S' by (rewrite app_length, firstn_length; cbn [List.length]; rewrite skipn_length; lia). exact S'.
  - clear MV. unfold moves in M. rewrite N in M. destruct code as [|c k]; [destruct M|]. inversion Q as [|b0 b' b'' c0 k0 QC I QK]; subst.
    destruct c as [|f x|f x|f x v|f x c1 c2|l x w|l x w|kk x c1 c2|kk x|x|x|c1 c2|c1 c2|c1|g]; cbn in QC; cbn zeta in M.
    all: try (repeat match type of M with
      | In _ (match ?x with _ => _ end) => destruct x
      | In _ (if ?x then _ else _) => destruct x
      end; cbn [In] in M; repeat (destruct M as [<-|M]); try (destruct M; fail); split; [reflexivity|intros; reflexivity]).
    + split.
      * assert (F : field_beq UPkt f && (o =? e x) = false).
        { destruct (field_beq f UPkt) eqn:F; cbn in QC.
          - apply field_beq_true in F. subst f. cbn. destruct (x =? 1) eqn:X; cbn in QC; [|discriminate]. destruct b; [discriminate|].
            apply N.eqb_eq in X. subst x. apply N.eqb_neq. intro Z. apply BE; congruence.
          - destruct (field_beq UPkt f) eqn:F2; [|reflexivity]. apply field_beq_true in F2. subst f. discriminate. }
        destruct v; [destruct M as [<-|[]]|destruct M as [<-|[<-|[]]]]; cbn; unfold upd_mem; rewrite F; reflexivity.
      * intros _. destruct v; [destruct M as [<-|[]]|destruct M as [<-|[<-|[]]]]; reflexivity.
    + destruct M as [<-|[]]. split; [reflexivity|]. intros ->. cbn. unfold upd_known. cbn in QC.
      destruct (kind_beq KU kk && (o =? e x)) eqn:E; [|reflexivity]. exfalso. apply andb_true_iff in E. destruct E as [E1 E2].
      apply kind_beq_true in E1. subst kk. apply N.eqb_eq in E2. cbn in QC. destruct (x =? 1) eqn:X; [|discriminate]. destruct b; [discriminate|].
      apply N.eqb_eq in X. subst x. apply BE; congruence.
    + destruct M as [<-|[<-|[]]]; split; reflexivity || (intros; reflexivity).
    + destruct M as [<-|[<-|[]]]; split; reflexivity || (intros; reflexivity).
Qed.

(** ** DialUPlane *)
(** no such goroutine is started; variable 1 is not changed, and only through it sockets are used *)
Fixpoint no_serving (c : cmd) : bool :=
  match c with
  | Go g => negb (String.eqb g "UPlaneConn serving")
  | If _ _ a b | IfKnown _ _ a b | Seq a b | Choice a b => no_serving a && no_serving b
  | Loop a => no_serving a
  | _ => true
  end.
Fixpoint keeps1 (c : cmd) : bool :=
  match c with
  | Fresh x | Pick x => negb (x =? 1)
  | Rd f x | Use f x | Wr f x _ => implb (field_beq f UPkt) (x =? 1)
  | If f x a b => implb (field_beq f UPkt) (x =? 1) && keeps1 a && keeps1 b
  | IfKnown _ _ a b | Seq a b | Choice a b => keeps1 a && keeps1 b
  | Loop a => keeps1 a
  | _ => true
  end.
Lemma no_serving_step : forall s i t o0 s' t', nth_error (s_thr s) i = Some t -> In s' (moves s i o0) -> nth_error (s_thr s') i = Some t' ->
  forallb no_serving (t_code t) = true -> forallb no_serving (t_code t') = true.
Proof.
  intros s i [t e code h] o0 s' t' N M S' H. assert (B : (i < List.length (s_thr s))%nat) by (apply nth_error_Some; congruence).
  assert (G : forall u, nth_error (s_thr (set_thr s i u)) i = Some t' -> t' = u).
  { intros u X. unfold set_thr in X. cbn [s_thr] in X. rewrite nth_set, Nat.eqb_refl in X by exact B. congruence. }
  unfold moves in M. rewrite N in M. destruct code as [|c k]; [destruct M|]. cbn in H. apply andb_true_iff in H. destruct H as [H1 H2].
  destruct c as [|f x|f x|f x v|f x c1 c2|l x w|l x w|kk x c1 c2|kk x|x|x|c1 c2|c1 c2|c1|g]; cbn in H1; cbn zeta in M;
    try (apply andb_true_iff in H1; destruct H1 as [H1 H3]).
  - destruct M as [<-|[]]. rewrite (G _ S'). exact H2.
  - destruct M as [<-|[]]. rewrite (G _ S'). exact H2.
  - destruct (s_mem s f (e x)); [|destruct M]. destruct M as [<-|[]]. rewrite (G _ S'). exact H2.
  - destruct v; [destruct M as [<-|[]]|destruct M as [<-|[<-|[]]]]; rewrite (G _ S'); exact H2.
  - destruct M as [<-|[]]. rewrite (G _ S'). cbn. rewrite H2. destruct (s_mem _ _ _); rewrite ?H1, ?H3; reflexivity.
  - destruct (free s l (e x) w); [|destruct M]. destruct M as [<-|[]]. rewrite (G _ S'). exact H2.
  - destruct (release l x w h); [|destruct M]. destruct M as [<-|[]]. rewrite (G _ S'). exact H2.
  - destruct M as [<-|[]]. rewrite (G _ S'). cbn. rewrite H2. destruct (s_known _ _ _); rewrite ?H1, ?H3; reflexivity.
  - destruct M as [<-|[]]. rewrite (G _ S'). exact H2.
  - destruct M as [<-|[]]. rewrite (G _ S'). exact H2.
  - destruct M as [<-|[]]. rewrite (G _ S'). exact H2.
  - destruct M as [<-|[]]. rewrite (G _ S'). cbn. rewrite H1, H2, H3. reflexivity.
  - destruct M as [<-|[<-|[]]]; rewrite (G _ S'); cbn; rewrite ?H1, ?H2, ?H3; reflexivity.
  - destruct M as [<-|[<-|[]]]; rewrite (G _ S'); cbn; rewrite ?H1, ?H2, ?H3; reflexivity.
  - destruct M as [<-|[]]. unfold set_thr in S'. cbn [s_thr] in S'. rewrite nth_error_app1 in S' by (rewrite app_length, firstn_length; cbn [List.length]; rewrite skipn_length; lia).
    rewrite (G _ S'). exact H2.
Qed.
Lemma keeps1_step : forall s i t o0 s' t', nth_error (s_thr s) i = Some t -> In s' (moves s i o0) -> nth_error (s_thr s') i = Some t' ->
  forallb keeps1 (t_code t) = true -> forallb keeps1 (t_code t') = true /\ t_env t' 1 = t_env t 1.
Proof.
  intros s i [t e code h] o0 s' t' N M S' H. assert (B : (i < List.length (s_thr s))%nat) by (apply nth_error_Some; congruence).
  assert (G : forall u, nth_error (s_thr (set_thr s i u)) i = Some t' -> t' = u).
  { intros u X. unfold set_thr in X. cbn [s_thr] in X. rewrite nth_set, Nat.eqb_refl in X by exact B. congruence. }
  unfold moves in M. rewrite N in M. destruct code as [|c k]; [destruct M|]. cbn in H. apply andb_true_iff in H. destruct H as [H1 H2].
  destruct c as [|f x|f x|f x v|f x c1 c2|l x w|l x w|kk x c1 c2|kk x|x|x|c1 c2|c1 c2|c1|g]; cbn in H1; cbn zeta in M;
    try (apply andb_true_iff in H1; destruct H1 as [H1 H3]).
  - destruct M as [<-|[]]. rewrite (G _ S'). split; [exact H2|reflexivity].
  - destruct M as [<-|[]]. rewrite (G _ S'). split; [exact H2|reflexivity].
  - destruct (s_mem s f (e x)); [|destruct M]. destruct M as [<-|[]]. rewrite (G _ S'). split; [exact H2|reflexivity].
  - destruct v; [destruct M as [<-|[]]|destruct M as [<-|[<-|[]]]]; rewrite (G _ S'); (split; [exact H2|reflexivity]).
  - apply andb_true_iff in H1. destruct H1 as [_ H1]. destruct M as [<-|[]]. rewrite (G _ S'). cbn. rewrite H2. split; [destruct (s_mem _ _ _); rewrite ?H1, ?H3; reflexivity|reflexivity].
  - destruct (free s l (e x) w); [|destruct M]. destruct M as [<-|[]]. rewrite (G _ S'). split; [exact H2|reflexivity].
  - destruct (release l x w h); [|destruct M]. destruct M as [<-|[]]. rewrite (G _ S'). split; [exact H2|reflexivity].
  - destruct M as [<-|[]]. rewrite (G _ S'). cbn. rewrite H2. split; [destruct (s_known _ _ _); rewrite ?H1, ?H3; reflexivity|reflexivity].
  - destruct M as [<-|[]]. rewrite (G _ S'). split; [exact H2|reflexivity].
  - destruct M as [<-|[]]. rewrite (G _ S'). split; [exact H2|]. cbn. unfold upd. rewrite N.eqb_sym. apply negb_true_iff in H1. rewrite H1. reflexivity.
  - destruct M as [<-|[]]. rewrite (G _ S'). split; [exact H2|]. cbn. unfold upd. rewrite N.eqb_sym. apply negb_true_iff in H1. rewrite H1. reflexivity.
  - destruct M as [<-|[]]. rewrite (G _ S'). cbn. rewrite H1, H2, H3. split; reflexivity.
  - destruct M as [<-|[<-|[]]]; rewrite (G _ S'); cbn; rewrite ?H1, ?H2, ?H3; split; reflexivity.
  - destruct M as [<-|[<-|[]]]; rewrite (G _ S'); cbn; rewrite ?H1, ?H2, ?H3; split; reflexivity.
  - destruct M as [<-|[]]. unfold set_thr in S'. cbn [s_thr] in S'. rewrite nth_error_app1 in S' by (rewrite app_length, firstn_length; cbn [List.length]; rewrite skipn_length; lia).
    rewrite (G _ S'). split; [exact H2|reflexivity].
Qed.

Definition advance (k : list cmd) : list cmd :=
  match k with Seq a b :: r => a :: b :: r | _ :: r => r | [] => [] end.
(** DialUPlane, with what it does once the connection has a socket *)
Definition dial_of (rest : cmd) : cmd :=
  seqs [u_init; If UPkt 1 rest (Choice (Wr UPkt 1 (Some false)) (Seq (Wr UPkt 1 (Some true)) rest))].
Definition dial_rest : cmd := Eval vm_compute in match body "DialUPlane" with Seq _ (Seq (If _ _ a _) _) => a | _ => Skip end.
Lemma dial_body : body "DialUPlane" = dial_of dial_rest.
Proof. vm_compute. reflexivity. Qed.
Definition after (rest : cmd) (n : nat) : list cmd := Nat.iter n advance [dial_of rest].
(** before the connection is made; until it has a socket; with one *)
Definition before (rest : cmd) : list (list cmd) := Eval cbv in map (after rest) [0; 1; 2]%nat.
Definition making (rest : cmd) : list (list cmd) := Eval cbv in
  map (after rest) (seq 3 15) ++ match after rest 17 with If _ _ _ (Choice a (Seq b c)) :: k => [Choice a (Seq b c) :: k; a :: k; k; []; Seq b c :: k; b :: c :: k] | _ => [] end.
Definition having (rest : cmd) : list cmd := [rest; Skip].

Ltac here := cbn [In]; solve [repeat (first [left; reflexivity|right])].
Lemma making_step : forall rest s i t e k h o0 s', nth_error (s_thr s) i = Some (Thr t e k h) -> In k (making rest) -> In s' (moves s i o0) ->
  s_next s' = s_next s /\ s_known s' = s_known s /\
  exists k', nth_error (s_thr s') i = Some (Thr t e k' h) /\ List.length (s_thr s') = List.length (s_thr s) /\ (In k' (making rest) \/ k' = having rest /\ s_mem s' UPkt (e 1) = true).
Proof.
  intros rest s i t e k h o0 s' N K M. assert (B : (i < List.length (s_thr s))%nat) by (apply nth_error_Some; congruence).
  assert (G : forall k', nth_error (s_thr (set_thr s i (Thr t e k' h))) i = Some (Thr t e k' h) /\ List.length (s_thr (set_thr s i (Thr t e k' h))) = List.length (s_thr s)).
  { intros k'. unfold set_thr. cbn [s_thr]. split; [rewrite nth_set, Nat.eqb_refl by exact B; reflexivity|].
    rewrite app_length, firstn_length. cbn [List.length]. rewrite skipn_length. lia. }
  unfold moves in M. rewrite N in M. unfold making in K. cbn [In] in K.
  repeat (destruct K as [<-|K]); try (destruct K; fail); cbn beta iota zeta in M; cbn [In] in M; try contradiction.
  all: try (destruct M as [<-|[]]; split; [reflexivity|split; [reflexivity|]]; eexists;
    split; [apply G|split; [apply G|left; unfold making; here]]).
  all: try (destruct M as [<-|[<-|[]]]; (split; [reflexivity|split; [reflexivity|]]); eexists;
    (split; [apply G|split; [apply G|left; unfold making; here]])).
  - destruct M as [<-|[]]. split; [reflexivity|split; [reflexivity|]]. destruct (s_mem s UPkt (e 1)) eqn:E; eexists; (split; [apply G|split; [apply G|]]).
    + right. split; [reflexivity|exact E].
    + left. unfold making. here.
  - destruct M as [<-|[]]. split; [reflexivity|split; [reflexivity|]]. eexists. split; [apply G|split; [apply G|]]. right. split; [reflexivity|].
    cbn. unfold upd_mem. rewrite N.eqb_refl. reflexivity.
Qed.
Lemma before_step : forall rest s i t e k h o0 s', nth_error (s_thr s) i = Some (Thr t e k h) -> In k (before rest) -> In s' (moves s i o0) ->
  s_known s' = s_known s /\ List.length (s_thr s') = List.length (s_thr s) /\
  exists k', (s_next s' = s_next s /\ nth_error (s_thr s') i = Some (Thr t e k' h) /\ In k' (before rest)) \/
             (s_next s' = N.succ (s_next s) /\ nth_error (s_thr s') i = Some (Thr t (upd e 1 (s_next s)) k' h) /\ In k' (making rest)).
Proof.
  intros rest s i t e k h o0 s' N K M. assert (B : (i < List.length (s_thr s))%nat) by (apply nth_error_Some; congruence).
  assert (G : forall u, nth_error (s_thr (set_thr s i u)) i = Some u /\ List.length (s_thr (set_thr s i u)) = List.length (s_thr s)).
  { intros u. unfold set_thr. cbn [s_thr]. split; [rewrite nth_set, Nat.eqb_refl by exact B; reflexivity|].
    rewrite app_length, firstn_length. cbn [List.length]. rewrite skipn_length. lia. }
  unfold moves in M. rewrite N in M. unfold before in K. cbn [In] in K.
  destruct K as [<-|[<-|[<-|[]]]]; cbn beta iota zeta in M; cbn [In] in M; (destruct M as [<-|[]]); (split; [reflexivity|]); (split; [apply G|]); eexists.
  - left. split; [reflexivity|]. split; [apply G|unfold before; here].
  - left. split; [reflexivity|]. split; [apply G|unfold before; here].
  - right. split; [reflexivity|]. split; [apply G|unfold making; here].
Qed.

(** no goroutine will write the socket of [o], which is there *)
Definition settled (s : st) (o : N) : Prop :=
  o < s_next s /\ s_mem s UPkt o = true /\ forall j q, nth_error (s_thr s) j = Some q -> quiet_thr false o q.
Definition dial : string := "DialUPlane".
Definition serving : string := "UPlaneConn serving".
Definition dial_ok (s : st) (i : nat) (t : thr) : Prop :=
  In (t_code t) (before dial_rest) \/
  (In (t_code t) (making dial_rest) /\ t_env t 1 < s_next s /\ s_known s KU (t_env t 1) = false /\
     forall j q, j <> i -> nth_error (s_thr s) j = Some q -> quiet_thr true (t_env t 1) q) \/
  (forallb keeps1 (t_code t) = true /\ settled s (t_env t 1)).
Definition dials (s : st) : Prop :=
  (forall j q o, nth_error (s_thr s) j = Some q -> s_next s <= o -> quiet_thr true o q) /\
  (forall i t, nth_error (s_thr s) i = Some t -> t_tag t <> dial -> forallb no_serving (t_code t) = true) /\
  (forall i t, nth_error (s_thr s) i = Some t -> t_tag t = dial -> dial_ok s i t) /\
  (forall i t, nth_error (s_thr s) i = Some t -> t_tag t = serving -> forallb keeps1 (t_code t) = true /\ settled s (t_env t 1)).

Definition takes_u (t : string) : bool := existsb (fun a => match a with (KU, x) => x =? 1 | _ => false end) (args t).
Definition is_some {A} (x : option A) : bool := match x with Some _ => true | None => false end.
Lemma ops_quiet : forallb (fun t => is_some (quiet true (negb (takes_u t)) (body t)) && is_some (quiet false true (body t)) && negb (String.eqb t serving)
  && (String.eqb t dial || no_serving (body t))) (map fst ops) = true.
Proof. vm_compute. reflexivity. Qed.
Lemma goroutines_ok : forallb (fun t => negb (String.eqb t dial) && no_serving (body t)) (map fst goroutines) = true.
Proof. vm_compute. reflexivity. Qed.
Lemma quiets_one : forall m b c, is_some (quiet m b c) = true -> quiets m b [c].
Proof.
  intros m b c H. destruct (quiet m b c) as [b'|] eqn:E; [|discriminate]. eapply qs_cons; [exact E| |constructor]. instantiate (1 := b'). destruct b'; reflexivity.
Qed.

Lemma dials_call : forall s t e, inv s -> dials s -> In t (map fst ops) -> Forall (fun a => s_known s (fst a) (e (snd a)) = true) (args t) -> dials (call s t e).
Proof.
  intros s t e [made [shared [_ [_ [I3 [I4 _]]]]]] [D1 [D2 [D3 D4]]] T F.
  pose proof ops_quiet as X. rewrite forallb_forall in X. specialize (X _ T). rewrite !andb_true_iff in X. destruct X as [[[X1 X2] X3] X4].
  assert (NTH : forall j q, nth_error (s_thr (call s t e)) j = Some q -> nth_error (s_thr s) j = Some q \/ j = List.length (s_thr s) /\ q = Thr t e [body t] []).
  { intros j q J. cbn in J. destruct (Nat.lt_ge_cases j (List.length (s_thr s))) as [B|B]; [left; rewrite nth_error_app1 in J by exact B; exact J|].
    rewrite nth_error_app2 in J by exact B. destruct (j - List.length (s_thr s))%nat as [|[|n]] eqn:Z; cbn in J; try discriminate. injection J as <-. right. split; [lia|reflexivity]. }
  assert (NEW : forall o, s_known s KU o = false -> quiet_thr true o (Thr t e [body t] [])).
  { intros o U. exists (negb (takes_u t)). cbn. split; [|apply quiets_one; exact X1]. intros Z. apply negb_false_iff in Z.
    apply existsb_exists in Z. destruct Z as [[kk x] [Z1 Z2]]. destruct kk; try discriminate. apply N.eqb_eq in Z2. subst x.
    rewrite Forall_forall in F. specialize (F _ Z1). cbn in F. congruence. }
  assert (NEW2 : forall o, quiet_thr false o (Thr t e [body t] [])).
  { intros o. exists true. split; [discriminate|]. cbn. apply quiets_one; exact X2. }
  assert (ST : forall o, settled s o -> settled (call s t e) o).
  { intros o [A [B C]]. split; [exact A|]. split; [exact B|]. intros j q J. destruct (NTH _ _ J) as [J'|[_ ->]]; [eapply C; exact J'|apply NEW2]. }
  split; [|split; [|split]].
  - intros j q o J L. destruct (NTH _ _ J) as [J'|[_ ->]]; [eapply D1; [exact J'|exact L]|]. apply NEW. destruct (s_known s KU o) eqn:U; [|reflexivity].
    pose proof (I4 _ (I3 _ _ U)) as W. cbn in L. lia.
  - intros j q J TG. destruct (NTH _ _ J) as [J'|[_ ->]]; [eapply D2; eassumption|]. cbn in TG |- *. apply orb_true_iff in X4. destruct X4 as [X4|X4]; [apply String.eqb_eq in X4; contradiction|]. rewrite X4. reflexivity.
  - intros j q J TG. destruct (NTH _ _ J) as [J'|[_ ->]].
    + destruct (D3 _ _ J' TG) as [H|[[H1 [H2 [H3 H4]]]|[H1 H2]]]; [left; exact H| |right; right; split; [exact H1|apply ST; exact H2]].
      right. left. split; [exact H1|]. split; [exact H2|]. split; [exact H3|]. intros j' q' D J2. destruct (NTH _ _ J2) as [J2'|[_ ->]]; [eapply H4; eassumption|apply NEW; exact H3].
    + left. cbn [t_code t_tag] in TG |- *. subst t. unfold dial. rewrite dial_body. left. reflexivity.
  - intros j q J TG. destruct (NTH _ _ J) as [J'|[_ ->]].
    + destruct (D4 _ _ J' TG) as [A B]. split; [exact A|apply ST; exact B].
    + cbn in TG. subst t. discriminate.
Qed.

Lemma dials_move : forall s i o0 s', inv s -> dials s -> In s' (moves s i o0) -> dials s'.
Proof.
  intros s i o0 s' [made [shared [_ [_ [I3 [I4 _]]]]]] [D1 [D2 [D3 D4]]] M.
  destruct (nth_error (s_thr s) i) as [t|] eqn:N; [|unfold moves in M; rewrite N in M; destruct M].
  assert (B : (i < List.length (s_thr s))%nat) by (apply nth_error_Some; congruence).
  destruct (move_moved _ _ _ _ _ N M) as [t' MV].
  assert (NTH : forall j q, nth_error (s_thr s') j = Some q -> (j <> i /\ nth_error (s_thr s) j = Some q) \/ (j = i /\ q = t') \/ (List.length (s_thr s) <= j)%nat).
  { intros j q J. destruct (Nat.eq_dec j i) as [->|D]; [right; left; split; [reflexivity|rewrite (mv_self _ _ _ _ _ MV) in J; congruence]|].
    destruct (Nat.lt_ge_cases j (List.length (s_thr s))) as [L|L]; [left; split; [exact D|]; rewrite <- (mv_others _ _ _ _ _ MV j L D); exact J|right; right; exact L]. }
  assert (ST : forall o, settled s o -> settled s' o).
  { intros o [A1 [A2 A3]]. destruct (quiet_step false _ _ _ _ _ _ o N M MV (or_introl A1) (fun _ => A2) (A3 _ _ N)) as [Q1 [Q2 [Q3 _]]].
    split; [pose proof (mv_next _ _ _ _ _ MV); lia|]. split; [congruence|].
    intros j q J. destruct (NTH _ _ J) as [[_ J']|[[-> ->]|L]]; [eapply A3; exact J'|exact Q1|apply (Q2 _ _ L J)]. }
  assert (NEWTAG : forall j q, (List.length (s_thr s) <= j)%nat -> nth_error (s_thr s') j = Some q -> In (t_tag q) (map fst goroutines)).
  { intros j q L J. assert (LE : s_next s' <= N.max (s_next s) (s_next s')) by lia.
    destruct (quiet_step true _ _ _ _ _ _ (N.max (s_next s) (s_next s')) N M MV (or_intror LE) ltac:(discriminate) (D1 i t (N.max (s_next s) (s_next s')) N ltac:(lia))) as [_ [Q2 _]]. apply (Q2 _ _ L J). }
  pose proof goroutines_ok as GK. rewrite forallb_forall in GK.
  assert (OTHER : forall j u, j <> i -> nth_error (s_thr s) j = Some u -> t_tag u = dial -> dial_ok s j u -> dial_ok s' j u).
  { intros j u D J TG [H|[[H1 [H2 [H3 H4]]]|[H1 H2]]]; [left; exact H| |right; right; split; [exact H1|apply ST; exact H2]].
    destruct (quiet_step true _ _ _ _ _ _ _ N M MV (or_introl H2) ltac:(discriminate) (H4 i t (not_eq_sym D) N)) as [Q1 [Q2 [_ Q3]]].
    right. left. split; [exact H1|]. split; [pose proof (mv_next _ _ _ _ _ MV); lia|]. split; [rewrite (Q3 eq_refl); exact H3|].
    intros j' q' D' J'. destruct (NTH _ _ J') as [[_ J2]|[[-> ->]|L]]; [eapply H4; eassumption|exact Q1|apply (Q2 _ _ L J')]. }
  split; [|split; [|split]].
  - intros j q o J L. assert (LN := mv_next _ _ _ _ _ MV). destruct (NTH _ _ J) as [[_ J']|X]; [eapply D1; [exact J'|lia]|].
    destruct (quiet_step true _ _ _ _ _ _ o N M MV (or_intror L) ltac:(discriminate) (D1 i t o N ltac:(lia))) as [Q1 [Q2 _]].
    destruct X as [[-> ->]|X]; [exact Q1|apply (Q2 _ _ X J)].
  - intros j q J TG. destruct (NTH _ _ J) as [[_ J']|[[-> ->]|L]]; [eapply D2; eassumption| |].
    + eapply no_serving_step; [exact N|exact M|exact J|]. eapply D2; [exact N|]. rewrite <- (mv_tag _ _ _ _ _ MV). exact TG.
    + specialize (GK _ (NEWTAG _ _ L J)). apply andb_true_iff in GK. destruct (mv_new _ _ _ _ _ MV _ _ L J) as [g [k [_ ->]]]. cbn in GK |- *. rewrite (proj2 GK). reflexivity.
  - intros j q J TG. destruct (NTH _ _ J) as [[D J']|[[-> ->]|L]]; [apply OTHER; try assumption; apply D3; assumption| |].
    + rewrite (mv_tag _ _ _ _ _ MV) in TG. destruct t as [tg e k h]. cbn in TG. subst tg. destruct (D3 _ _ N eq_refl) as [H|[[H1 [H2 [H3 H4]]]|[H1 H2]]]; cbn in *.
      * destruct (before_step _ _ _ _ _ _ _ _ _ N H M) as [KN [LEN [k' [[NX [S' K']]|[NX [S' K']]]]]]; rewrite J in S'; injection S' as ->.
        -- left. exact K'.
        -- right. left. cbn [t_env t_code]. change (upd e 1 (s_next s) 1) with (s_next s). split; [exact K'|]. split; [lia|].
           split; [rewrite KN; destruct (s_known s KU (s_next s)) eqn:U; [pose proof (I4 _ (I3 _ _ U)); lia|reflexivity]|].
           intros j' q' D' J'. destruct (NTH _ _ J') as [[_ J2]|[[-> ->]|L]]; [eapply D1; [exact J2|lia]|contradiction|].
           exfalso. assert (j' < List.length (s_thr s'))%nat by (apply nth_error_Some; congruence). lia.
      * destruct (making_step _ _ _ _ _ _ _ _ _ N H1 M) as [NX [KN [k' [S' [LEN [K'|[K' ME]]]]]]]; rewrite J in S'; injection S' as ->.
        -- right. left. cbn. split; [exact K'|]. split; [lia|]. split; [congruence|].
           intros j' q' D' J'. destruct (NTH _ _ J') as [[_ J2]|[[-> ->]|L]]; [eapply H4; [|exact J2]; assumption|contradiction|].
           exfalso. assert (j' < List.length (s_thr s'))%nat by (apply nth_error_Some; congruence). lia.
        -- right. right. subst k'. split; [vm_compute; reflexivity|]. cbn. split; [lia|]. split; [exact ME|].
           intros j' q' J'. destruct (NTH _ _ J') as [[D2' J2]|[[-> ->]|L]].
           ++ apply quiet_thr_weaken. eapply H4; eassumption.
           ++ exists true. split; [discriminate|]. cbn [t_code]. unfold having. eapply qs_cons; [vm_compute; reflexivity|instantiate (1 := true); reflexivity|].
              eapply qs_cons; [reflexivity|instantiate (1 := true); reflexivity|constructor].
           ++ exfalso. assert (j' < List.length (s_thr s'))%nat by (apply nth_error_Some; congruence). lia.
      * destruct (keeps1_step _ _ _ _ _ _ N M J H1) as [K1 E1]. right. right. split; [exact K1|]. rewrite E1. cbn. apply ST; exact H2.
    + specialize (GK _ (NEWTAG _ _ L J)). rewrite TG in GK. discriminate.
  - intros j q J TG. destruct (NTH _ _ J) as [[D J']|[[-> ->]|L]].
    + destruct (D4 _ _ J' TG) as [A C]. split; [exact A|apply ST; exact C].
    + rewrite (mv_tag _ _ _ _ _ MV) in TG. destruct (D4 _ _ N TG) as [A C]. destruct (keeps1_step _ _ _ _ _ _ N M J A) as [K1 E1]. split; [exact K1|]. rewrite E1. apply ST; exact C.
    + destruct (mv_new _ _ _ _ _ MV _ _ L J) as [g [k [C ->]]]. cbn in TG. subst g. split; [vm_compute; reflexivity|]. cbn [t_env]. apply ST.
      destruct (string_dec (t_tag t) dial) as [TD|TD].
      * destruct (D3 _ _ N TD) as [H|[[H1 _]|[_ H2]]]; [| |exact H2]; exfalso; rewrite C in *.
        -- unfold before in H. cbn [In] in H. repeat (destruct H as [H|H]); try discriminate; exact H.
        -- unfold making in H1. cbn [In] in H1. repeat (destruct H1 as [H1|H1]); try discriminate; exact H1.
      * pose proof (D2 _ _ N TD) as X. rewrite C in X. discriminate.
Qed.

Lemma dials_reachable : forall s, reachable s -> dials s.
Proof.
  intros s R. induction R as [|s s' R IH H].
  - split; [|split; [|split]]; intros i t; intros; destruct i; discriminate.
  - pose proof (inv_reachable _ R) as I. inversion H; subst; [apply dials_call; assumption|eapply dials_move; eassumption].
Qed.
Lemma quiet_no_write : forall t o, quiet_thr false o t -> ~ about_to t UPkt o true.
Proof.
  intros [t e k h] o [b [E Q]] A. unfold about_to in A. cbn in *. destruct k as [|c k]; [contradiction|].
  destruct c; try contradiction; destruct A as [-> [EX W]]; try discriminate. inversion Q as [|b0 b' b'' c0 k0 QC]; subst. cbn in QC.
  destruct (x =? 1) eqn:X; [|discriminate]. destruct b; [discriminate|]. apply N.eqb_eq in X. subst x. apply E; reflexivity.
Qed.
Theorem serving_no_race : forall s a, reachable s -> ~ racy s serving a UPkt.
Proof.
  intros s a R [i [j [p [q [o [w [v [D [P [Q [TP [TQ [Ap [Aq W]]]]]]]]]]]]]].
  destruct (dials_reachable _ R) as [_ [_ [_ D4]]]. destruct (D4 _ _ P TP) as [K [_ [_ S]]].
  assert (E : t_env p 1 = o).
  { destruct (t_code p) as [|c k] eqn:C; [unfold about_to in Ap; rewrite C in Ap; contradiction|].
    unfold about_to in Ap. rewrite C in Ap. cbn in K. apply andb_true_iff in K. destruct K as [K _].
    destruct c; try contradiction; destruct Ap as [-> [EX _]]; cbn in K; rewrite <- ?andb_assoc in K; try (apply andb_true_iff in K; destruct K as [K _]);
      apply N.eqb_eq in K; subst x; exact EX. }
  subst o. destruct w; [eapply quiet_no_write; [apply (S _ _ P)|exact Ap]|]. destruct v; [|discriminate]. eapply quiet_no_write; [apply (S _ _ Q)|exact Aq].
Qed.
