(** EnableLogging locks a mutex and then calls a function that locks it again. *)
From Coq Require Import String Lia Bool Arith.
From Verif Require Import Base RaceModel RaceStatic RaceSpec RaceProofs RaceDial RaceBound.
Open Scope N_scope.
Open Scope list_scope.

(** variable 0 is not changed *)
Fixpoint keeps0 (c : cmd) : bool :=
  match c with
  | Fresh x | Pick x => negb (x =? 0)
  | If _ _ a b | IfKnown _ _ a b | Seq a b | Choice a b => keeps0 a && keeps0 b
  | Loop a => keeps0 a
  | _ => true
  end.
Lemma keeps0_step : forall s i t o0 s' t', nth_error (s_thr s) i = Some t -> In s' (moves s i o0) -> nth_error (s_thr s') i = Some t' ->
  forallb keeps0 (t_code t) = true -> forallb keeps0 (t_code t') = true /\ t_env t' 0 = t_env t 0.
Proof.
  intros s i [t e code h] o0 s' t' N M S' H. assert (B : (i < List.length (s_thr s))%nat) by (apply nth_error_Some; congruence).
  assert (G : forall u, nth_error (s_thr (set_thr s i u)) i = Some t' -> t' = u).
  { intros u X. unfold set_thr in X. cbn [s_thr] in X. rewrite nth_set, Nat.eqb_refl in X by exact B. congruence. }
  unfold moves in M. rewrite N in M. destruct code as [|c k]; [destruct M|]. cbn in H. apply andb_true_iff in H. destruct H as [H1 H2].
  destruct c as [|f x|f x|f x v|f x c1 c2|l x w|l x w|kk x c1 c2|kk x|x|x|c1 c2|c1 c2|c1|g]; cbn in H1; cbn zeta in M;
    try (apply andb_true_iff in H1; destruct H1 as [H1 H3]).
  - destruct M as [<-|[]]. rewrite (G _ S'). split; [exact H2|reflexivity].
  - destruct M as [<-|[]]. rewrite (G _ S'). split; [exact H2|reflexivity].
  - destruct (s_mem s f (e x)); [|destruct M]. destruct M as [<-|[]]. rewrite (G _ S'). split; [exact H2|reflexivity].
  - destruct v; [destruct M as [<-|[]]|destruct M as [<-|[<-|[]]]]; rewrite (G _ S'); (split; [exact H2|reflexivity]).
  - destruct M as [<-|[]]. rewrite (G _ S'). cbn. rewrite H2. split; [destruct (s_mem _ _ _); rewrite ?H1, ?H3; reflexivity|reflexivity].
  - destruct (free s l (e x) w); [|destruct M]. destruct M as [<-|[]]. rewrite (G _ S'). split; [exact H2|reflexivity].
  - destruct (release l x w h); [|destruct M]. destruct M as [<-|[]]. rewrite (G _ S'). split; [exact H2|reflexivity].
  - destruct M as [<-|[]]. rewrite (G _ S'). cbn. rewrite H2. split; [destruct (s_known _ _ _); rewrite ?H1, ?H3; reflexivity|reflexivity].
  - destruct M as [<-|[]]. rewrite (G _ S'). split; [exact H2|reflexivity].
  - destruct M as [<-|[]]. rewrite (G _ S'). split; [exact H2|]. cbn. unfold upd. rewrite N.eqb_sym. apply negb_true_iff in H1. rewrite H1. reflexivity.
  - destruct M as [<-|[]]. rewrite (G _ S'). split; [exact H2|]. cbn. unfold upd. rewrite N.eqb_sym. apply negb_true_iff in H1. rewrite H1. reflexivity.
  - destruct M as [<-|[]]. rewrite (G _ S'). cbn. rewrite H1, H2, H3. split; reflexivity.
  - destruct M as [<-|[<-|[]]]; rewrite (G _ S'); cbn; rewrite ?H1, ?H2, ?H3; split; reflexivity.
  - destruct M as [<-|[<-|[]]]; rewrite (G _ S'); cbn; rewrite ?H1, ?H2, ?H3; split; reflexivity.
  - destruct M as [<-|[]]. unfold set_thr in S'. cbn [s_thr] in S'. rewrite nth_error_app1 in S' by (rewrite app_length, firstn_length; cbn [List.length]; rewrite skipn_length; lia).
    rewrite (G _ S'). split; [exact H2|reflexivity].
Qed.
Lemma names_keep0 : forallb (fun t => keeps0 (body t)) names = true.
Proof. vm_compute. reflexivity. Qed.
Lemma body_keep0 : forall t, keeps0 (body t) = true.
Proof.
  intros t. destruct (in_dec string_dec t names) as [I|I].
  - pose proof names_keep0 as H. rewrite forallb_forall in H. apply H; exact I.
  - unfold body. rewrite (entry_none t I). reflexivity.
Qed.
Definition package (s : st) : Prop := forall i t, nth_error (s_thr s) i = Some t -> t_env t 0 = 0 /\ forallb keeps0 (t_code t) = true.

(** the threads of a state after a step *)
Lemma step_threads : forall s s', step s s' ->
  (forall i t, nth_error (s_thr s) i = Some t -> exists t', nth_error (s_thr s') i = Some t' /\ (t' = t \/ exists o0, In s' (moves s i o0))) /\
  (forall j t', nth_error (s_thr s') j = Some t' -> (List.length (s_thr s) <= j)%nat ->
     (exists i t g k, nth_error (s_thr s) i = Some t /\ t_code t = Go g :: k /\ t' = Thr g (t_env t) [body g] []) \/
     (exists g e, e 0 = 0 /\ In g (map fst ops) /\ t' = Thr g e [body g] [])).
Proof.
  intros s s' H. inversion H as [s0 g e G E F|s0 i o0 s1 M]; subst.
  - split.
    + intros i t N. exists t. split; [|left; reflexivity]. cbn. rewrite nth_error_app1 by (apply nth_error_Some; congruence). exact N.
    + intros j t' N L. right. cbn in N. rewrite nth_error_app2 in N by exact L. destruct (j - _)%nat as [|[|n]]; cbn in N; try discriminate. injection N as <-. eauto.
  - destruct (nth_error (s_thr s) i) as [t|] eqn:N; [|unfold moves in M; rewrite N in M; destruct M].
    destruct (move_moved _ _ _ _ _ N M) as [t' MV]. split.
    + intros j u J. destruct (Nat.eq_dec j i) as [->|D].
      * exists t'. split; [apply (mv_self _ _ _ _ _ MV)|right; exists o0; exact M].
      * exists u. split; [|left; reflexivity]. rewrite (mv_others _ _ _ _ _ MV j); [exact J| |exact D]. apply nth_error_Some. congruence.
    + intros j u J L. left. destruct (mv_new _ _ _ _ _ MV j u L J) as [g [k [C ->]]]. exists i, t, g, k. auto.
Qed.

Lemma package_reachable : forall s, reachable s -> package s.
Proof.
  intros s R. induction R as [|s s' R IH H]; [intros i t N; destruct i; discriminate|].
  destruct (step_threads _ _ H) as [OLD NEW]. intros j u J.
  destruct (Nat.lt_ge_cases j (List.length (s_thr s))) as [L|L].
  - destruct (nth_error (s_thr s) j) as [t|] eqn:N; [|apply nth_error_None in N; lia].
    destruct (OLD _ _ N) as [t' [N' [->|[o0 M]]]]; rewrite J in N'; injection N' as ->; [apply IH with j; exact N|].
    destruct (IH _ _ N) as [E K]. destruct (keeps0_step _ _ _ _ _ _ N M J K) as [K' E']. split; [congruence|exact K'].
  - destruct (NEW _ _ J L) as [[i [t [g [k [N [C ->]]]]]]|[g [e [E [_ ->]]]]]; cbn.
    + split; [apply (IH _ _ N)|]. rewrite body_keep0. reflexivity.
    + split; [exact E|]. rewrite body_keep0. reflexivity.
Qed.

(** ** Where EnableLogging can be *)
Definition log_name (v2 : bool) : string := if v2 then "gtpv2.EnableLogging" else "gtpv1.EnableLogging".
Definition log_lock (v2 : bool) : lockk := if v2 then MLog2 else MLog1.
Definition log_field (v2 : bool) : field := if v2 then Log2 else Log1.
Definition log_inner (v2 : bool) : cmd := locked (log_lock v2) 0 [Wr (log_field v2) 0 None].
Definition log_outer (v2 : bool) : cmd := Seq (log_inner v2) (Seq (Unlock (log_lock v2) 0 true) Skip).
Lemma log_body : forall v2, body (log_name v2) = Seq (Lock (log_lock v2) 0 true) (log_outer v2).
Proof. intros []; reflexivity. Qed.
Definition logging_at (v2 : bool) (t : thr) : Prop :=
  (t_held t = [] /\ (t_code t = [Seq (Lock (log_lock v2) 0 true) (log_outer v2)] \/ t_code t = [Lock (log_lock v2) 0 true; log_outer v2])) \/
  (t_held t = [(log_lock v2, 0, t_env t 0, true)] /\
     (t_code t = [log_outer v2] \/ t_code t = [log_inner v2; Seq (Unlock (log_lock v2) 0 true) Skip] \/
      exists k, t_code t = Lock (log_lock v2) 0 true :: k)).
Lemma lockk_refl : forall l, lockk_beq l l = true. Proof. intros []; reflexivity. Qed.
Lemma held_blocks : forall s i t l x y w v, nth_error (s_thr s) i = Some t -> In (l, x, y, v) (t_held t) -> (w || v = true)%bool -> free s l y w = false.
Proof.
  intros s i t l x y w v N H W. destruct (free s l y w) eqn:F; [|reflexivity]. unfold free in F. rewrite forallb_forall in F.
  specialize (F _ (nth_error_In _ _ N)). rewrite forallb_forall in F. specialize (F _ H). cbn in F. rewrite lockk_refl, N.eqb_refl, W in F. discriminate.
Qed.
Lemma logging_step : forall v2 s i t o0 s' t', nth_error (s_thr s) i = Some t -> In s' (moves s i o0) -> nth_error (s_thr s') i = Some t' -> logging_at v2 t ->
  logging_at v2 t' /\ t_env t' 0 = t_env t 0 /\ (t_held t <> [] -> t_held t' = t_held t).
Proof.
  intros v2 s i [t e code h] o0 s' t' N M S' L. assert (B : (i < List.length (s_thr s))%nat) by (apply nth_error_Some; congruence).
  assert (G : forall u, nth_error (s_thr (set_thr s i u)) i = Some t' -> t' = u).
  { intros u X. unfold set_thr in X. cbn [s_thr] in X. rewrite nth_set, Nat.eqb_refl in X by exact B. congruence. }
  unfold logging_at in L. cbn [t_held t_code t_env] in L. unfold moves in M. rewrite N in M.
  destruct L as [[-> [->| ->]]|[-> [->|[->|[k ->]]]]]; cbn beta iota zeta in M.
  - destruct M as [<-|[]]. rewrite (G _ S'). split; [left; cbn; auto|]. split; [reflexivity|]. cbn. congruence.
  - destruct (free s (log_lock v2) (e 0) true); [|destruct M]. destruct M as [<-|[]]. rewrite (G _ S'). split; [right; cbn; auto|]. split; [reflexivity|]. cbn. congruence.
  - destruct M as [<-|[]]. rewrite (G _ S'). split; [right; cbn; auto|]. split; reflexivity.
  - destruct M as [<-|[]]. rewrite (G _ S'). split; [right; cbn; split; [reflexivity|right; right; eexists; reflexivity]|]. split; reflexivity.
  - rewrite (held_blocks s i _ (log_lock v2) 0 (e 0) true true N) in M; [destruct M|left; reflexivity|reflexivity].
Qed.
Lemma logging_reachable : forall v2 s, reachable s -> forall i t, nth_error (s_thr s) i = Some t -> t_tag t = log_name v2 -> logging_at v2 t.
Proof.
  intros v2 s R. induction R as [|s s' R IH H]; [intros i t N; destruct i; discriminate|].
  destruct (step_threads _ _ H) as [OLD NEW]. intros j u J TG.
  destruct (Nat.lt_ge_cases j (List.length (s_thr s))) as [L|L].
  - destruct (nth_error (s_thr s) j) as [t|] eqn:N; [|apply nth_error_None in N; lia].
    destruct (OLD _ _ N) as [t' [N' [->|[o0 M]]]]; rewrite J in N'; injection N' as ->; [apply IH with j; assumption|].
    destruct (move_moved _ _ _ _ _ N M) as [t2 MV]. pose proof (mv_self _ _ _ _ _ MV) as S2. rewrite J in S2. injection S2 as <-.
    eapply logging_step; [exact N|exact M|exact J|]. eapply IH; [exact N|]. rewrite <- (mv_tag _ _ _ _ _ MV). exact TG.
  - assert (u = Thr (log_name v2) (t_env u) [body (log_name v2)] []) as ->.
    { destruct (NEW _ _ J L) as [[i [t [g [k [N [C ->]]]]]]|[g [e [E [_ ->]]]]]; cbn in TG |- *; rewrite TG; reflexivity. }
    left. cbn. rewrite log_body. auto.
Qed.

(** it never returns *)
Lemma logging_unfinished : forall v2 s i t, reachable s -> nth_error (s_thr s) i = Some t -> t_tag t = log_name v2 -> t_code t <> [].
Proof.
  intros v2 s i t R N T. destruct (logging_reachable v2 s R i t N T) as [[_ [->| ->]]|[_ [->|[->|[k ->]]]]]; discriminate.
Qed.
Lemma later_reachable : forall s s', reachable s -> later s s' -> reachable s'.
Proof. intros s s' R L. induction L as [|s' s'' L IH H]; [exact R|eapply reach_step; eassumption]. Qed.
(** and keeps the mutex once it has it *)
Lemma logging_keeps : forall v2 s s' i t, reachable s -> later s s' -> nth_error (s_thr s) i = Some t -> t_tag t = log_name v2 -> t_held t <> [] ->
  exists t', nth_error (s_thr s') i = Some t' /\ t_tag t' = log_name v2 /\ t_held t' <> [].
Proof.
  intros v2 s s' i t R L N T H. induction L as [|s' s'' L IH ST]; [eauto|]. destruct IH as [u [NU [TU HU]]].
  pose proof (later_reachable _ _ R L) as R'. destruct (step_threads _ _ ST) as [OLD _]. destruct (OLD _ _ NU) as [u' [N' [->|[o0 M]]]]; [eauto|].
  exists u'. split; [exact N'|]. destruct (move_moved _ _ _ _ _ NU M) as [t2 MV]. pose proof (mv_self _ _ _ _ _ MV) as S2. rewrite N' in S2. injection S2 as <-.
  split; [rewrite (mv_tag _ _ _ _ _ MV); exact TU|].
  destruct (logging_step v2 _ _ _ _ _ _ NU M N' (logging_reachable v2 _ R' _ _ NU TU)) as [_ [_ K]]. rewrite (K HU). exact HU.
Qed.
Lemma logging_blocks : forall v2 s s' i t j u k w, reachable s -> later s s' -> nth_error (s_thr s) i = Some t -> t_tag t = log_name v2 -> t_held t <> [] ->
  nth_error (s_thr s') j = Some u -> t_code u = Lock (log_lock v2) 0 w :: k -> ~ can_move s' j.
Proof.
  intros v2 s s' i t j u k w R L N T H J C [o M]. destruct (logging_keeps v2 _ _ _ _ R L N T H) as [t' [N' [T' H']]].
  pose proof (later_reachable _ _ R L) as R'. destruct (logging_reachable v2 _ R' _ _ N' T') as [[HH _]|[HH _]]; [contradiction|].
  destruct (package_reachable _ R' _ _ N') as [E _]. destruct (package_reachable _ R' _ _ J) as [E2 _].
  apply M. unfold moves. rewrite J. destruct u as [tg e c h]. cbn in C, E2. subst c. rewrite E2.
  rewrite (held_blocks s' i t' (log_lock v2) 0 0 w true N'); [reflexivity| |apply orb_true_r]. rewrite HH, E. left. reflexivity.
Qed.
(** functions that lock it first never return if they are called after that *)
Lemma logging_stops : forall v2 g rest, body g = Seq (Lock (log_lock v2) 0 true) rest ->
  forall s s' i t, reachable s -> later s s' -> nth_error (s_thr s) i = Some t -> t_tag t = log_name v2 -> t_held t <> [] ->
  forall j u, (List.length (s_thr s) <= j)%nat -> nth_error (s_thr s') j = Some u -> t_tag u = g ->
  t_code u = [Seq (Lock (log_lock v2) 0 true) rest] \/ t_code u = [Lock (log_lock v2) 0 true; rest].
Proof.
  intros v2 g rest BD s s' i t R L N T H. induction L as [|s' s'' L IH ST]; intros j u LE J TG.
  - exfalso. assert (j < List.length (s_thr s))%nat; [|lia]. apply nth_error_Some. congruence.
  - destruct (step_threads _ _ ST) as [OLD NEW]. destruct (Nat.lt_ge_cases j (List.length (s_thr s'))) as [B|B].
    + destruct (nth_error (s_thr s') j) as [q|] eqn:Q; [|apply nth_error_None in Q; lia].
      destruct (OLD _ _ Q) as [q' [N' [->|[o0 M]]]]; rewrite J in N'; injection N' as ->; [eapply IH; eassumption|].
      destruct (move_moved _ _ _ _ _ Q M) as [t2 MV]. pose proof (mv_self _ _ _ _ _ MV) as S2. rewrite J in S2. injection S2 as <-.
      assert (TQ : t_tag q = g) by (rewrite <- (mv_tag _ _ _ _ _ MV); exact TG).
      destruct (IH _ _ LE Q TQ) as [C|C].
      * destruct q as [tg e c h]. cbn in C. subst c. unfold moves in M. rewrite Q in M. destruct M as [<-|[]].
        cbn [s_thr set_thr] in J. rewrite nth_set, Nat.eqb_refl in J by exact B. injection J as <-. right. reflexivity.
      * exfalso. eapply (logging_blocks v2 s s' i t j q); try eassumption. exists o0. intros Z. rewrite Z in M. exact M.
    + assert (u = Thr g (t_env u) [body g] []) as ->.
      { destruct (NEW _ _ J B) as [[i' [t' [g' [k [N' [C ->]]]]]]|[g' [e [E [_ ->]]]]]; cbn in TG |- *; rewrite TG; reflexivity. }
      left. cbn [t_code]. rewrite BD. reflexivity.
Qed.
(** and waits for nobody but itself *)
Lemma logging_alone : forall v2 s i t k, reachable s -> nth_error (s_thr s) i = Some t -> t_tag t = log_name v2 -> t_held t <> [] ->
  t_code t = Lock (log_lock v2) 0 true :: k -> ~ served s i.
Proof.
  intros v2 s i t k R N T H C S. assert (HH : t_held t = [(log_lock v2, 0, t_env t 0, true)]) by (destruct (logging_reachable v2 _ R _ _ N T) as [[HH _]|[HH _]]; [contradiction|exact HH]).
  remember i as j eqn:J in S. revert J. induction S as [j [CM|P]|j m W S IH]; intros ->.
  - eapply (logging_blocks v2 s s i t i t); try eassumption. constructor.
  - destruct P as [t' [f [x [k' [N' [C' _]]]]]]. rewrite N in N'. injection N' as <-. rewrite C in C'. discriminate.
  - destruct W as [p [q [l [x [y [w [v [k' [P [Q [CP [HQ _]]]]]]]]]]]]. rewrite N in P. injection P as <-. rewrite C in CP. injection CP as <- <- <- <-.
    apply IH. destruct (Nat.eq_dec m i) as [E|D]; [exact E|]. exfalso.
    destruct (inv_reachable _ R) as [made [shared [_ [_ [_ [_ [_ ON]]]]]]].
    pose proof (ON i m t q (log_lock v2) 0 y (t_env t 0) true v (not_eq_sym D) N Q) as X. rewrite HH in X. specialize (X (or_introl eq_refl) HQ). discriminate.
Qed.
