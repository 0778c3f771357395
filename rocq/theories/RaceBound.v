(** From the invariant: only the listed data races, and no deadlock. *)
From Coq Require Import String Lia Bool Arith.
From Verif Require Import Base RaceModel RaceStatic RaceSpec RaceProofs RaceDial.
Open Scope N_scope.
Open Scope list_scope.

(** ** Only the listed data races *)
Lemma about_row : forall made shared next i t f o w, thread_ok made shared next i t -> about_to t f o w ->
  exists a x c, t_env t x = o /\ look (av a) x = Some c /\ sat made shared next i (t_env t) (av a) /\
    t_held t = map (conc (t_env t)) (ah a) /\ In (Acc f w (lks (ah a) x) c) (rows (t_tag t)).
Proof.
  intros made shared next i [t e k h] f o w [a [S [H T]]] A. cbn in *. unfold about_to in A. cbn in A.
  destruct k as [|c k]; [contradiction|]. destruct (typeds_head _ _ _ _ T) as [b [b' [T1 _]]].
  assert (G : forall x, e x = o -> forall r, access a f w x = Some r -> allow t r ->
    exists a0 x0 c0, e x0 = o /\ look (av a0) x0 = Some c0 /\ sat made shared next i e (av a0) /\ h = map (conc e) (ah a0) /\ In (Acc f w (lks (ah a0) x0) c0) (rows t)).
  { intros x E r Q R. unfold access in Q. destruct (look (av a) x) as [c0|] eqn:L; [|discriminate]. injection Q as <-. exists a, x, c0. auto 6. }
  destruct c; try contradiction; destruct A as [<- [E ->]]; inversion T1; subst; eapply G; eauto.
Qed.

Lemma lks_held : forall e h x l w, In (l, w) (lks h x) -> In (l, x, e x, w) (map (conc e) h).
Proof.
  intros e h x l w H. unfold lks in H. apply in_map_iff in H. destruct H as [[[l' x'] w'] [E H]]. cbn in E. injection E as <- <-.
  apply filter_In in H. destruct H as [H E]. cbn in E. apply N.eqb_eq in E. subst x'. apply in_map_iff. exists (l', x, w'). split; [reflexivity|exact H].
Qed.

Lemma race_rows : forall s a b f, reachable s -> racy s a b f ->
  exists p q, In p (rows a) /\ In q (rows b) /\ In f (clash p q).
Proof.
  intros s a b f R [i [j [p [q [o [w [v [D [P [Q [<- [<- [Ap [Aq W]]]]]]]]]]]]]].
  destruct (inv_reachable _ R) as [made [shared [I1 [_ [_ [_ [_ I6]]]]]]].
  destruct (about_row _ _ _ _ _ _ _ _ (I1 _ _ P) Ap) as [a1 [x [c [E1 [L1 [S1 [H1 R1]]]]]]].
  destruct (about_row _ _ _ _ _ _ _ _ (I1 _ _ Q) Aq) as [a2 [y [d [E2 [L2 [S2 [H2 R2]]]]]]].
  eexists _, _. split; [exact R1|]. split; [exact R2|]. unfold clash.
  assert (SH : shared o = true).
  { destruct (usable_of _ _ _ _ _ _ _ _ S1 L1) as [[U|U] _]; rewrite E1 in U; [exact U|].
    destruct (usable_of _ _ _ _ _ _ _ _ S2 L2) as [[V|V] _]; rewrite E2 in V; [exact V|]. congruence. }
  rewrite field_beq_refl, W. cbn [andb].
  assert (X : excl (lks (ah a1) x) (lks (ah a2) y) = false).
  { destruct (excl _ _) eqn:X; [|reflexivity]. exfalso. unfold excl in X. apply existsb_exists in X. destruct X as [[l1 w1] [X1 X]].
    apply existsb_exists in X. destruct X as [[l2 w2] [X2 X]]. cbn in X. apply andb_true_iff in X. destruct X as [X3 X4].
    apply lockk_beq_true in X3. subst l2.
    apply (lks_held (t_env p)) in X1. apply (lks_held (t_env q)) in X2. rewrite <- H1, E1 in X1. rewrite <- H2, E2 in X2.
    rewrite (I6 i j p q l1 x y o w1 w2 D P Q X1 X2) in X4. discriminate. }
  rewrite X. cbn [negb andb].
  destruct (proj1 S1 _ _ L1) as [_ C1]. destruct (proj1 S2 _ _ L2) as [_ C2]. rewrite E1 in C1. rewrite E2 in C2.
  destruct c, d; cbn; try (left; reflexivity); exfalso; try (destruct C1; congruence); try (destruct C2; congruence). congruence.
Qed.

Lemma racy_sym : forall s a b f, racy s a b f -> racy s b a f.
Proof.
  intros s a b f (i & j & p & q & o & w & v & D & P & Q & A & B & X & Y & W).
  exists j, i, q, p, o, v, w. repeat (split; [congruence || assumption|]). rewrite orb_comm. exact W.
Qed.

(** the rows without repetition *)
Definition row_eqb (p q : row) : bool :=
  match p, q with
  | Acc f w ls c, Acc g v ms d =>
      field_beq f g && Bool.eqb w v && lks_eqb (map (fun e => (fst e, 0, snd e)) ls) (map (fun e => (fst e, 0, snd e)) ms)
      && match c, d with Priv, Priv | Made, Made | Valid, Valid => true | _, _ => false end
  | Acq a, Acq b => Bool.eqb a b
  | _, _ => false
  end.
Definition shareable (r : row) : bool := match r with Acc _ _ _ Priv | Acq _ => false | _ => true end.
Fixpoint dedup (l : list row) : list row :=
  match l with [] => [] | r :: q => let d := dedup q in if existsb (row_eqb r) d then d else r :: d end.
Lemma row_eqb_true : forall p q, row_eqb p q = true -> p = q.
Proof.
  intros [f w ls c|a] [g v ms d|b] H; cbn in H; try discriminate.
  - rewrite !andb_true_iff in H. destruct H as [[[H1 H2] H3] H4]. apply field_beq_true in H1. apply eqb_prop in H2. apply lks_eqb_true in H3.
    subst. assert (ls = ms) as ->.
    { clear -H3. revert ms H3. induction ls as [|[l w] ls IH]; intros [|[m v] ms] H; cbn in H; try discriminate; [reflexivity|].
      injection H as -> -> H. f_equal. apply IH; exact H. }
    destruct c, d; try discriminate; reflexivity.
  - apply eqb_prop in H. subst. reflexivity.
Qed.
Lemma dedup_in : forall l r, In r l -> In r (dedup l).
Proof.
  induction l as [|p l IH]; intros r H; [destruct H|]. destruct H as [<-|H]; cbn; destruct (existsb (row_eqb p) (dedup l)) eqn:E.
  - apply existsb_exists in E. destruct E as [q [Q E]]. apply row_eqb_true in E. subst q. exact Q.
  - left; reflexivity.
  - apply IH; exact H.
  - right. apply IH; exact H.
Qed.
Definition brief (t : string) : list row := dedup (filter shareable (rows t)).
Lemma clash_brief : forall a b p q f, In p (rows a) -> In q (rows b) -> In f (clash p q) ->
  In p (brief a) /\ In q (brief b).
Proof.
  intros a b p q f P Q H. assert (shareable p = true /\ shareable q = true) as [A B].
  { destruct p as [f1 w ls c|x], q as [g v ms d|y]; cbn in H; try contradiction.
    destruct (field_beq f1 g && (w || v) && negb (excl ls ms) && match c, d with Priv, _ | _, Priv | Made, Made => false | _, _ => true end) eqn:E; [|destruct H].
    apply andb_true_iff in E. destruct E as [_ E]. destruct c, d; try discriminate; split; reflexivity. }
  split; apply dedup_in; apply filter_In; split; assumption.
Qed.

Definition inb (x : string) (l : list string) : bool := existsb (String.eqb x) l.
Definition listedb (a b : string) (f : field) : bool :=
  existsb (fun e => match e with (g, ws, os) => field_beq g f && (inb a ws && inb b os || inb b ws && inb a os) end) races.
Lemma inb_in : forall x l, inb x l = true <-> In x l.
Proof.
  intros x l. unfold inb. rewrite existsb_exists. split.
  - intros [y [H E]]. apply String.eqb_eq in E. subst y. exact H.
  - intros H. exists x. split; [exact H|apply String.eqb_refl].
Qed.
Lemma listedb_iff : forall a b f, listedb a b f = true <-> listed a b f.
Proof.
  intros a b f. unfold listedb, listed. rewrite existsb_exists. split.
  - intros [[[g ws] os] [H E]]. apply andb_true_iff in E. destruct E as [E1 E]. apply field_beq_true in E1. subst g.
    exists ws, os. split; [exact H|]. apply orb_true_iff in E. destruct E as [E|E]; apply andb_true_iff in E; destruct E as [X Y];
      apply inb_in in X; apply inb_in in Y; [left|right]; split; assumption.
  - intros [ws [os [H E]]]. exists (f, ws, os). split; [exact H|]. rewrite field_beq_refl. cbn. apply orb_true_iff.
    destruct E as [[X Y]|[X Y]]; apply inb_in in X; apply inb_in in Y; [left|right]; rewrite X, Y; reflexivity.
Qed.

Definition briefs : list (string * list row) := Eval vm_compute in map (fun t => (t, brief t)) names.
Lemma briefs_ok : briefs = map (fun t => (t, brief t)) names.
Proof. vm_compute. reflexivity. Qed.
(** what the mutexes alone do not exclude *)
Definition dialled (a b : string) (f : field) : bool := field_beq f UPkt && (String.eqb a serving || String.eqb b serving).
Lemma all_listed : forallb (fun a => forallb (fun b => forallb (fun p => forallb (fun q => forallb (fun f => listedb (fst a) (fst b) f || dialled (fst a) (fst b) f) (clash p q)) (snd b)) (snd a)) briefs) briefs = true.
Proof. vm_compute. reflexivity. Qed.
Lemma rows_none : forall t, ~ In t names -> rows t = [].
Proof. intros t H. unfold rows, body, first_abs, args. rewrite (entry_none t H). reflexivity. Qed.

Theorem only_listed : forall a b f, can_race a b f -> listed a b f.
Proof.
  intros a b f [s [R H]]. destruct (race_rows _ _ _ _ R H) as [p [q [P [Q C]]]].
  destruct (clash_brief _ _ _ _ _ P Q C) as [P' Q'].
  assert (IN : forall t, rows t <> [] -> In (t, brief t) briefs).
  { intros t Z. rewrite briefs_ok. apply (in_map (fun t => (t, brief t))).
    destruct (in_dec string_dec t names) as [I|I]; [exact I|]. exfalso. apply Z, rows_none; exact I. }
  pose proof all_listed as X. rewrite forallb_forall in X.
  specialize (X (a, brief a) (IN a ltac:(intros Z; rewrite Z in P; exact P))). cbn [fst snd] in X. rewrite forallb_forall in X.
  specialize (X (b, brief b) (IN b ltac:(intros Z; rewrite Z in Q; exact Q))). cbn [fst snd] in X. rewrite forallb_forall in X.
  specialize (X _ P'). rewrite forallb_forall in X. specialize (X _ Q'). rewrite forallb_forall in X.
  specialize (X _ C). cbn [fst snd] in X. apply orb_true_iff in X. destruct X as [X|X]; [apply listedb_iff; exact X|].
  exfalso. apply andb_true_iff in X. destruct X as [X1 X2]. apply field_beq_true in X1. subst f. apply orb_true_iff in X2.
  destruct X2 as [X2|X2]; apply String.eqb_eq in X2; subst; [|apply racy_sym in H]; eapply serving_no_race; eassumption.
Qed.

(** ** No deadlock *)
Definition loggings : list string := ["gtpv1.EnableLogging"%string; "gtpv2.EnableLogging"%string].
Lemma ordered_names : forallb (fun t => ordered t || inb t loggings) names = true.
Proof. vm_compute. reflexivity. Qed.
Lemma ordered_all : forall t, ~ In t loggings -> ordered t = true.
Proof.
  intros t H. destruct (in_dec string_dec t names) as [I|I].
  - pose proof ordered_names as O. rewrite forallb_forall in O. specialize (O _ I). apply orb_true_iff in O. destruct O as [O|O]; [exact O|].
    apply inb_in in O. contradiction.
  - unfold ordered. rewrite (rows_none t I). reflexivity.
Qed.

Lemma stuck_lock : forall s i t, inv s -> nth_error (s_thr s) i = Some t -> t_code t <> [] -> ~ can_move s i -> ~ panics s i ->
  exists l x w k, t_code t = Lock l x w :: k /\ free s l (t_env t x) w = false.
Proof.
  intros s i [t e k h] [made [shared I]] N NE NM NP. cbn in *. destruct k as [|c k]; [contradiction|].
  destruct (proj1 I _ _ N) as [a [S [H T]]]. cbn in S, H, T. destruct (typeds_head _ _ _ _ T) as [b [b' [T1 _]]].
  destruct c as [|f x|f x|f x v|f x c1 c2|l x w|l x w|kk x c1 c2|kk x|x|x|c1 c2|c1 c2|c1|g];
    try (exfalso; apply NM; exists 0; unfold moves; rewrite N; discriminate).
  - exfalso. destruct (s_mem s f (e x)) eqn:E.
    + apply NM. exists 0. unfold moves. rewrite N, E. discriminate.
    + apply NP. eexists _, f, x, k. split; [exact N|]. split; [reflexivity|exact E].
  - exfalso. apply NM. exists 0. unfold moves. rewrite N. destruct v; discriminate.
  - exists l, x, w, k. split; [reflexivity|]. destruct (free s l (e x) w) eqn:F; [|reflexivity].
    exfalso. apply NM. exists 0. unfold moves. rewrite N, F. discriminate.
  - exfalso. apply NM. exists 0. unfold moves. rewrite N. inversion T1; subst. erewrite release_unlk by eassumption. discriminate.
Qed.

Lemma not_free : forall s l o w, free s l o w = false -> exists j u y v, nth_error (s_thr s) j = Some u /\ In (l, y, o, v) (t_held u) /\ w || v = true.
Proof.
  intros s l o w F. unfold free in F.
  assert (X : existsb (fun t => negb (forallb (fun h => match h with (l', _, o', w') => negb (lockk_beq l' l && (o' =? o) && (w || w')) end) (t_held t))) (s_thr s) = true).
  { clear -F. induction (s_thr s) as [|u q IH]; cbn in *; [discriminate|]. apply andb_false_iff in F. destruct F as [F|F]; [rewrite F; reflexivity|].
    rewrite (IH F). apply orb_true_r. }
  apply existsb_exists in X. destruct X as [u [U X]]. apply negb_true_iff in X.
  assert (Y : existsb (fun h : lockk * N * N * bool => match h with (l', _, o', w') => lockk_beq l' l && (o' =? o) && (w || w') end) (t_held u) = true).
  { clear -X. induction (t_held u) as [|[[[l' y] o'] w'] q IH]; cbn in *; [discriminate|]. apply andb_false_iff in X. destruct X as [X|X].
    - apply negb_false_iff in X. rewrite X. reflexivity.
    - rewrite (IH X). apply orb_true_r. }
  apply existsb_exists in Y. destruct Y as [[[[l' y] o'] w'] [Y1 Y2]]. rewrite !andb_true_iff in Y2. destruct Y2 as [[Y2 Y3] Y4].
  apply lockk_beq_true in Y2. apply N.eqb_eq in Y3. subst. apply In_nth_error in U. destruct U as [j U]. exists j, u, y, w'. auto.
Qed.

(** the mutex a goroutine wants comes after all it holds *)
Lemma wants_above : forall s i t l x w k, inv s -> nth_error (s_thr s) i = Some t -> ordered (t_tag t) = true -> t_code t = Lock l x w :: k ->
  forall l' y o v, In (l', y, o, v) (t_held t) -> rank l' < rank l.
Proof.
  intros s i [t e c h] l x w k [made [shared I]] N O C l' y o v H. cbn in *. subst c.
  destruct (proj1 I _ _ N) as [a [S [HH T]]]. cbn in S, HH, T. destruct (typeds_head _ _ _ _ T) as [b [b' [T1 _]]].
  inversion T1; subst. unfold ordered in O. rewrite forallb_forall in O. match goal with Q : allow t _ |- _ => specialize (O _ Q) end. cbn in O.
  unfold above in O. rewrite forallb_forall in O. apply in_map_iff in H. destruct H as [[[l1 x1] w1] [E H]]. cbn in E. injection E as <- <- <- <-.
  specialize (O _ H). cbn in O. apply N.ltb_lt. exact O.
Qed.
Lemma holder_unfinished : forall s j u q, inv s -> nth_error (s_thr s) j = Some u -> In q (t_held u) -> t_code u <> [].
Proof.
  intros s j [t e c h] q [made [shared I]] N H E. cbn in *. subst c. destruct (proj1 I _ _ N) as [a [S [HH T]]]. cbn in HH, T.
  inversion T; subst. match goal with Q : ah a = [] |- _ => rewrite Q in H end. exact H.
Qed.

Lemma can_move_dec : forall s i, can_move s i \/ ~ can_move s i.
Proof.
  intros s i. destruct (moves s i 0) as [|m ms] eqn:E; [|left; exists 0; rewrite E; discriminate].
  right. intros [o H]. apply H. revert E. unfold moves. destruct (nth_error (s_thr s) i) as [[t e [|c k] h]|]; try reflexivity.
  destruct c; try discriminate; auto.
Qed.
Lemma panics_dec : forall s i, panics s i \/ ~ panics s i.
Proof.
  intros s i. unfold panics. destruct (nth_error (s_thr s) i) as [[t e c h]|] eqn:E; [|right; intros (t & f & x & k & H & _); discriminate].
  destruct c as [|c k]; [right; intros (t' & f & x & k' & H & H2 & _); injection H as <-; discriminate|].
  destruct c as [|f x|f x|f x v|f x c1 c2|l x w|l x w|kk x c1 c2|kk x|x|x|c1 c2|c1 c2|c1|g];
    try (right; intros (t' & f' & x' & k' & H & H2 & _); injection H as <-; discriminate).
  destruct (s_mem s f (e x)) eqn:M.
  - right. intros (t' & f' & x' & k' & H & H2 & H3). injection H as <-. cbn in H2, H3. injection H2 as <- <- <-. congruence.
  - left. eexists _, f, x, k. split; [reflexivity|]. split; [reflexivity|exact M].
Qed.

Theorem all_served : forall s, reachable s ->
  (forall t, In t (s_thr s) -> ~ In (t_tag t) loggings) -> forall i, unfinished s i -> served s i.
Proof.
  intros s R NL. pose proof (inv_reachable _ R) as I.
  assert (G : forall n i t, nth_error (s_thr s) i = Some t -> t_code t <> [] ->
            (forall l x w k, t_code t = Lock l x w :: k -> 4 - rank l <= n) -> served s i).
  { apply (N.peano_ind (fun n => forall i t, nth_error (s_thr s) i = Some t -> t_code t <> [] ->
            (forall l x w k, t_code t = Lock l x w :: k -> 4 - rank l <= n) -> served s i));
      [|intros n IH]; intros i t N NE Q;
      (destruct (can_move_dec s i) as [M|M]; [apply served_self; left; exact M|]);
      (destruct (panics_dec s i) as [P|P]; [apply served_self; right; exact P|]);
      destruct (stuck_lock s i t I N NE M P) as [l [x [w [k [C F]]]]]; specialize (Q _ _ _ _ C).
    - destruct l; cbn in Q; lia.
    - destruct (not_free _ _ _ _ F) as [j [u [y [v [U [H V]]]]]].
      apply (served_by s i j); [exists t, u, l, x, y, w, v, k; auto 6|].
      apply (IH j u U); [eapply holder_unfinished; eassumption|].
      intros l2 x2 w2 k2 C2. assert (O : ordered (t_tag u) = true) by (apply ordered_all, NL; eapply nth_error_In; exact U).
      pose proof (wants_above s j u l2 x2 w2 k2 I U O C2 _ _ _ _ H). lia. }
  intros i [t [N NE]]. apply (G 4 i t N NE). intros. lia.
Qed.
