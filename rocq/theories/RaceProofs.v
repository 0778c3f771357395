(** The invariant behind the data races and the deadlocks: every goroutine follows what the
    checker of [RaceStatic] found, and a mutex is held once. *)
From Coq Require Import String Lia Bool Arith.
From Verif Require Import Base RaceModel RaceStatic RaceSpec.
Open Scope N_scope.
Open Scope list_scope.

(** ** What the checker establishes *)
Definition le (a b : abs) : Prop :=
  ah a = ah b /\ forall x c, look (av b) x = Some c -> exists c', look (av a) x = Some c' /\ cle c' c = true.

Section Typed.
Context (R : row -> Prop).
Inductive typed : abs -> cmd -> abs -> Prop :=
| ty_skip a : typed a Skip a
| ty_rd a f x r : access a f false x = Some r -> R r -> typed a (Rd f x) a
| ty_use a f x r : access a f false x = Some r -> R r -> typed a (Use f x) a
| ty_wr a f x v r : access a f true x = Some r -> R r -> typed a (Wr f x v) a
| ty_if a f x c1 c2 r b1 b2 b : access a f false x = Some r -> R r ->
    typed a c1 b1 -> typed a c2 b2 -> le b1 b -> le b2 b -> typed a (If f x c1 c2) b
| ty_lock a l x w c : look (av a) x = Some c -> R (Acq (above (ah a) l)) -> typed a (Lock l x w) (Abs ((l, x, w) :: ah a) (av a))
| ty_unlock a l x w h : unlk l x w (ah a) = Some h -> typed a (Unlock l x w) (Abs h (av a))
| ty_known a k x c1 c2 b1 b2 b : look (av a) x = None ->
    typed (Abs (ah a) (put (av a) x Valid)) c1 b1 -> typed a c2 b2 -> le b1 b -> le b2 b -> typed a (IfKnown k x c1 c2) b
| ty_publish a k x c : look (av a) x = Some c -> typed a (Publish k x) (Abs (ah a) (put (av a) x (share c)))
| ty_fresh a x : unheld (ah a) x = true -> typed a (Fresh x) (Abs (ah a) (put (av a) x Priv))
| ty_pick a x : unheld (ah a) x = true -> typed a (Pick x) (Abs (ah a) (drop (av a) x))
| ty_seq a c1 c2 b d : typed a c1 b -> typed b c2 d -> typed a (Seq c1 c2) d
| ty_choice a c1 c2 b1 b2 b : typed a c1 b1 -> typed a c2 b2 -> le b1 b -> le b2 b -> typed a (Choice c1 c2) b
| ty_loop a c b b1 : le a b -> typed b c b1 -> le b1 b -> typed a (Loop c) b
| ty_go a g v : shares (av a) (0 :: map snd (args g)) = Some v -> typed a (Go g) (Abs (ah a) v).
Inductive typeds : abs -> list cmd -> Prop :=
| tys_nil a : ah a = [] -> typeds a []
| tys_cons a c b b' k : typed a c b -> le b b' -> typeds b' k -> typeds a (c :: k).
End Typed.

Lemma lockk_beq_true : forall a b, lockk_beq a b = true -> a = b.
Proof. intros a b H. apply internal_lockk_dec_bl; exact H. Qed.
Lemma lockk_beq_refl : forall a, lockk_beq a a = true.
Proof. destruct a; reflexivity. Qed.
Lemma field_beq_true : forall a b, field_beq a b = true -> a = b.
Proof. intros a b H. apply internal_field_dec_bl; exact H. Qed.
Lemma field_beq_refl : forall a, field_beq a a = true.
Proof. destruct a; reflexivity. Qed.

Lemma lks_eqb_true : forall a b, lks_eqb a b = true -> a = b.
Proof.
  induction a as [|[[l x] w] a IH]; intros [|[[l' x'] w'] b] H; cbn in H; try discriminate; [reflexivity|].
  unfold lk_eqb in H. cbn in H. apply andb_true_iff in H. destruct H as [H1 H2].
  apply andb_true_iff in H1. destruct H1 as [H1 H3]. apply andb_true_iff in H1. destruct H1 as [H1 H4].
  apply lockk_beq_true in H1. apply N.eqb_eq in H4. apply eqb_prop in H3. subst. f_equal. apply IH; exact H2.
Qed.
Lemma look_in : forall v x c, look v x = Some c -> In (x, c) v.
Proof.
  induction v as [|[y d] v IH]; cbn; intros x c H; [discriminate|].
  destruct (y =? x) eqn:E; [apply N.eqb_eq in E; injection H as <-; subst; left; reflexivity|right; apply IH; exact H].
Qed.
Lemma leb_le : forall a b, leb a b = true -> le a b.
Proof.
  intros a b H. unfold leb in H. apply andb_true_iff in H. destruct H as [H1 H2]. split; [apply lks_eqb_true; exact H1|].
  intros x c L. unfold leb_v in H2. rewrite forallb_forall in H2. specialize (H2 _ (look_in _ _ _ L)). cbn in H2.
  rewrite L in H2. destruct (look (av a) x) as [c'|]; [exists c'; split; [reflexivity|exact H2]|discriminate].
Qed.
Lemma le_refl : forall a, le a a.
Proof. intros a. split; [reflexivity|]. intros x c H. exists c. split; [exact H|]. destruct c; reflexivity. Qed.

Lemma check_sound : forall (R : row -> Prop) c a b rs, check c a = Some (b, rs) -> (forall r, In r rs -> R r) -> typed R a c b.
Proof.
  intros R. induction c; intros s t rs H HR; cbn in H.
  - injection H as <- <-. constructor.
  - destruct (access s f false x) as [r|] eqn:E; [|discriminate]. injection H as <- <-. econstructor; [exact E|apply HR; left; reflexivity].
  - destruct (access s f false x) as [r|] eqn:E; [|discriminate]. injection H as <- <-. econstructor; [exact E|apply HR; left; reflexivity].
  - destruct (access s f true x) as [r|] eqn:E; [|discriminate]. injection H as <- <-. econstructor; [exact E|apply HR; left; reflexivity].
  - destruct (access s f false x) as [r|] eqn:E; [|discriminate].
    destruct (check c1 s) as [[b1 r1]|] eqn:E1; [|discriminate]. destruct (check c2 s) as [[b2 r2]|] eqn:E2; [|discriminate].
    destruct (leb b1 (join b1 b2) && leb b2 (join b1 b2)) eqn:L; [|discriminate]. injection H as <- <-.
    apply andb_true_iff in L. destruct L as [L1 L2].
    eapply ty_if; [exact E|apply HR; left; reflexivity|eapply IHc1; [exact E1|]|eapply IHc2; [exact E2|]|apply leb_le; exact L1|apply leb_le; exact L2];
      intros q Q; apply HR; right; apply in_or_app; [left|right]; exact Q.
  - destruct (look (av s) x) as [c|] eqn:E; [|discriminate]. injection H as <- <-. econstructor; [exact E|apply HR; left; reflexivity].
  - destruct (unlk l x w (ah s)) as [h|] eqn:E; [|discriminate]. injection H as <- <-. constructor. exact E.
  - destruct (look (av s) x) as [c|] eqn:E; [discriminate|].
    destruct (check c1 (Abs (ah s) (put (av s) x Valid))) as [[b1 r1]|] eqn:E1; [|discriminate]. destruct (check c2 s) as [[b2 r2]|] eqn:E2; [|discriminate].
    destruct (leb b1 (join b1 b2) && leb b2 (join b1 b2)) eqn:L; [|discriminate]. injection H as <- <-.
    apply andb_true_iff in L. destruct L as [L1 L2].
    eapply ty_known; [exact E|eapply IHc1; [exact E1|]|eapply IHc2; [exact E2|]|apply leb_le; exact L1|apply leb_le; exact L2];
      intros q Q; apply HR; apply in_or_app; [left|right]; exact Q.
  - destruct (look (av s) x) as [c|] eqn:E; [|discriminate]. injection H as <- <-. constructor. exact E.
  - destruct (unheld (ah s) x) eqn:E; [|discriminate]. injection H as <- <-. constructor. exact E.
  - destruct (unheld (ah s) x) eqn:E; [|discriminate]. injection H as <- <-. constructor. exact E.
  - destruct (check c1 s) as [[b1 r1]|] eqn:E1; [|discriminate]. destruct (check c2 b1) as [[b2 r2]|] eqn:E2; [|discriminate].
    injection H as <- <-. econstructor; [eapply IHc1; [exact E1|]|eapply IHc2; [exact E2|]];
      intros q Q; apply HR; apply in_or_app; [left|right]; exact Q.
  - destruct (check c1 s) as [[b1 r1]|] eqn:E1; [|discriminate]. destruct (check c2 s) as [[b2 r2]|] eqn:E2; [|discriminate].
    destruct (leb b1 (join b1 b2) && leb b2 (join b1 b2)) eqn:L; [|discriminate]. injection H as <- <-.
    apply andb_true_iff in L. destruct L as [L1 L2].
    eapply ty_choice; [eapply IHc1; [exact E1|]|eapply IHc2; [exact E2|]|apply leb_le; exact L1|apply leb_le; exact L2];
      intros q Q; apply HR; apply in_or_app; [left|right]; exact Q.
  - destruct (check c s) as [[a1 r1]|] eqn:E1; [|discriminate]. destruct (check c (join s a1)) as [[b1 r]|] eqn:E2; [|discriminate].
    destruct (leb s (join s a1) && leb b1 (join s a1)) eqn:L; [|discriminate]. injection H as <- <-.
    apply andb_true_iff in L. destruct L as [L1 L2].
    eapply ty_loop; [apply leb_le; exact L1|eapply IHc; [exact E2|exact HR]|apply leb_le; exact L2].
  - destruct (look (av s) 0) as [c|] eqn:E; [|discriminate].
    destruct (shares (put (av s) 0 (share c)) (map snd (args g))) as [v|] eqn:E2; [|discriminate]. injection H as <- <-.
    constructor. cbn. rewrite E. exact E2.
Qed.

(** every function passes the check *)
Definition names : list string := map fst (ops ++ goroutines).
Lemma checks_names : forallb checks names = true.
Proof. vm_compute. reflexivity. Qed.
Lemma entry_none : forall t, ~ In t names -> entry t = ([], Skip).
Proof.
  intros t H. unfold entry. destruct (find _ _) as [e|] eqn:F; [|reflexivity].
  apply find_some in F. destruct F as [F1 F2]. apply String.eqb_eq in F2. exfalso. apply H. subst t. apply in_map. exact F1.
Qed.
Lemma checks_all : forall t, checks t = true.
Proof.
  intros t. destruct (in_dec string_dec t names) as [I|I].
  - pose proof checks_names as H. rewrite forallb_forall in H. apply H; exact I.
  - unfold checks, body, first_abs, args. rewrite (entry_none t I). reflexivity.
Qed.
Definition allow (t : string) (r : row) : Prop := In r (rows t).
Lemma first_typeds : forall t, typeds (allow t) (first_abs t) [body t].
Proof.
  intros t. pose proof (checks_all t) as H. unfold checks in H. unfold allow, rows.
  destruct (check (body t) (first_abs t)) as [[a r]|] eqn:E; [|discriminate].
  eapply tys_cons; [eapply check_sound; [exact E|auto]|apply le_refl|].
  constructor. destruct (ah a); [reflexivity|discriminate].
Qed.

(** ** The invariant *)
Definition usable (made : N -> option nat) (shared : N -> bool) (i : nat) (o : N) : Prop := shared o = true \/ made o = Some i.
Definition sat (made : N -> option nat) (shared : N -> bool) (next : N) (i : nat) (e : N -> N) (v : list (N * cls)) : Prop :=
  (forall x c, look v x = Some c -> e x < next /\
     match c with Priv => made (e x) = Some i /\ shared (e x) = false | Made => made (e x) = Some i | Valid => usable made shared i (e x) end) /\
  (forall x y c, look v y = Some Priv -> look v x = Some c -> x <> y -> e x <> e y).
Definition conc (e : N -> N) (h : lk) : lockk * N * N * bool := match h with (l, x, w) => (l, x, e x, w) end.
Definition thread_ok made shared next (i : nat) (t : thr) : Prop :=
  exists a, sat made shared next i (t_env t) (av a) /\ t_held t = map (conc (t_env t)) (ah a) /\ typeds (allow (t_tag t)) a (t_code t).
Definition once (l : list thr) : Prop :=
  forall i j t u k x y o w v, i <> j -> nth_error l i = Some t -> nth_error l j = Some u ->
    In (k, x, o, w) (t_held t) -> In (k, y, o, v) (t_held u) -> w || v = false.
Definition inv_with (made : N -> option nat) (shared : N -> bool) (s : st) : Prop :=
  (forall i t, nth_error (s_thr s) i = Some t -> thread_ok made shared (s_next s) i t) /\
  shared 0 = true /\ (forall k o, s_known s k o = true -> shared o = true) /\
  (forall o, shared o = true -> o < s_next s) /\ (forall o i, made o = Some i -> o < s_next s) /\ once (s_thr s).
Definition inv (s : st) : Prop := exists made shared, inv_with made shared s.

Lemma look_drop : forall v x y, look (drop v x) y = if y =? x then None else look v y.
Proof.
  induction v as [|[z c] v IH]; intros x y; cbn; [destruct (y =? x); reflexivity|].
  destruct (z =? x) eqn:E.
  - rewrite IH. apply N.eqb_eq in E. subst z. destruct (y =? x) eqn:F; [reflexivity|].
    rewrite N.eqb_sym, F. reflexivity.
  - cbn. destruct (z =? y) eqn:G.
    + apply N.eqb_eq in G. subst z. rewrite E. reflexivity.
    + apply IH.
Qed.
Lemma look_put : forall v x c y, look (put v x c) y = if y =? x then Some c else look v y.
Proof.
  intros v x c y. unfold put. cbn. rewrite look_drop, (N.eqb_sym x y). destruct (y =? x); reflexivity.
Qed.

Lemma sat_le : forall made shared next i e a b, sat made shared next i e (av a) -> le a b -> sat made shared next i e (av b).
Proof.
  intros made shared next i e a b [S1 S2] [_ L]. split.
  - intros x c H. destruct (L _ _ H) as [c' [H' C]]. destruct (S1 _ _ H') as [B P]. split; [exact B|].
    unfold usable in *. destruct c', c; cbn in C; try discriminate; tauto.
  - intros x y c Hy Hx N. destruct (L _ _ Hy) as [cy [Hy' Cy]]. destruct cy; try discriminate.
    destruct (L _ _ Hx) as [cx [Hx' _]]. eapply S2; eassumption.
Qed.

(** giving away an object the goroutine may use *)
Definition give (shared : N -> bool) (o : N) : N -> bool := fun p => if p =? o then true else shared p.
Lemma sat_other : forall made shared next i j e v o, i <> j -> usable made shared j o ->
  sat made shared next i e v -> sat made (give shared o) next i e v.
Proof.
  intros made shared next i j e v o D U [S1 S2]. split; [|exact S2].
  intros x c H. destruct (S1 _ _ H) as [B P]. split; [exact B|]. unfold give, usable in *.
  destruct c; [|exact P|destruct (e x =? o); tauto].
  destruct P as [P1 P2]. split; [exact P1|]. destruct (e x =? o) eqn:E; [|exact P2].
  apply N.eqb_eq in E. rewrite E in P1, P2. destruct U as [U|U]; congruence.
Qed.
Lemma sat_self : forall made shared next i e v x c, sat made shared next i e v -> look v x = Some c ->
  sat made (give shared (e x)) next i e (put v x (share c)).
Proof.
  intros made shared next i e v x c [S1 S2] L. split.
  - intros y d H. rewrite look_put in H. destruct (y =? x) eqn:E.
    + apply N.eqb_eq in E. subst y. injection H as <-. destruct (S1 _ _ L) as [B P]. split; [exact B|].
      unfold give, usable in *. rewrite N.eqb_refl. destruct c; cbn; tauto.
    + apply N.eqb_neq in E. destruct (S1 _ _ H) as [B P]. split; [exact B|]. unfold give, usable in *.
      destruct d; [|exact P|destruct (e y =? e x); tauto].
      destruct P as [P1 P2]. split; [exact P1|]. destruct (e y =? e x) eqn:F; [|exact P2].
      apply N.eqb_eq in F. exfalso. apply (S2 x y c H L); [intros Q; apply E; symmetry; exact Q|symmetry; exact F].
  - intros y z d Hz Hy D. rewrite look_put in Hz, Hy. destruct (z =? x) eqn:E; [injection Hz as Hz; destruct c; discriminate|].
    apply N.eqb_neq in E. destruct (y =? x) eqn:F.
    + apply N.eqb_eq in F. subst y. eapply S2; [exact Hz|exact L|exact D].
    + eapply S2; eassumption.
Qed.
Lemma usable_of : forall made shared next i e v x c, sat made shared next i e v -> look v x = Some c -> usable made shared i (e x) /\ e x < next.
Proof.
  intros made shared next i e v x c [S1 _] L. destruct (S1 _ _ L) as [B P]. split; [|exact B]. unfold usable in *. destruct c; tauto.
Qed.

Lemma shares_sat : forall made next i e xs v v' shared, shares v xs = Some v' -> sat made shared next i e v ->
  exists shared', sat made shared' next i e v' /\ (forall x, In x xs -> shared' (e x) = true) /\
    (forall o, shared o = true -> shared' o = true) /\ ((forall o, shared o = true -> o < next) -> forall o, shared' o = true -> o < next) /\
    (forall j f w, j <> i -> sat made shared next j f w -> sat made shared' next j f w).
Proof.
  intros made next i e. induction xs as [|x xs IH]; intros v v' shared H S; cbn in H.
  - injection H as <-. exists shared. split; [exact S|]. split; [intros x []|]. auto.
  - destruct (look v x) as [c|] eqn:L; [|discriminate].
    destruct (usable_of _ _ _ _ _ _ _ _ S L) as [U B].
    destruct (IH _ _ _ H (sat_self _ _ _ _ _ _ _ _ S L)) as [sh [A1 [A2 [A3 [A4 A5]]]]].
    exists sh. split; [exact A1|]. split; [|split; [|split]].
    + intros y [<-|Y]; [|apply A2; exact Y]. apply A3. unfold give. rewrite N.eqb_refl. reflexivity.
    + intros o O. apply A3. unfold give. destruct (o =? e x); [reflexivity|exact O].
    + intros Q o O. eapply A4; [|exact O]. intros p. unfold give. destruct (p =? e x) eqn:E; [|apply Q].
      apply N.eqb_eq in E. subst p. intros _. exact B.
    + intros j f w D T. apply A5; [exact D|]. apply (sat_other _ _ _ j i); assumption.
Qed.

Lemma nth_set : forall (l : list thr) i t j, (i < List.length l)%nat ->
  nth_error (firstn i l ++ t :: skipn (S i) l) j = if Nat.eqb j i then Some t else nth_error l j.
Proof.
  induction l as [|u l IH]; intros i t j H; cbn in H; [lia|]. destruct i as [|i]; cbn [firstn skipn app].
  - destruct j; reflexivity.
  - destruct j as [|j]; [reflexivity|]. cbn [nth_error Nat.eqb]. apply IH. lia.
Qed.
Lemma len_set : forall (l : list thr) i t, (i < List.length l)%nat -> List.length (firstn i l ++ t :: skipn (S i) l) = List.length l.
Proof.
  intros l i t H. rewrite app_length, firstn_length. cbn [List.length]. rewrite skipn_length. lia.
Qed.

Lemma conc_upd : forall e x o h, unheld h x = true -> map (conc (upd e x o)) h = map (conc e) h.
Proof.
  intros e x o. induction h as [|[[l y] w] h IH]; cbn; intros H; [reflexivity|].
  apply andb_true_iff in H. destruct H as [H1 H2]. rewrite (IH H2). unfold upd.
  destruct (y =? x); [discriminate|reflexivity].
Qed.
Lemma release_unlk : forall e l x w h h', unlk l x w h = Some h' -> release l x w (map (conc e) h) = Some (map (conc e) h').
Proof.
  intros e l x w. induction h as [|[[l' x'] w'] h IH]; cbn; intros h' H; [discriminate|].
  destruct (lockk_beq l' l && (x' =? x) && Bool.eqb w' w); [injection H as <-; reflexivity|].
  destruct (unlk l x w h) as [r|]; [|discriminate]. injection H as <-. rewrite (IH _ eq_refl). reflexivity.
Qed.
Lemma release_sub : forall l x w h h', release l x w h = Some h' -> incl h' h.
Proof.
  intros l x w. induction h as [|[[[l' x'] o'] w'] h IH]; cbn; intros h' H; [discriminate|].
  destruct (lockk_beq l' l && (x' =? x) && Bool.eqb w' w); [injection H as <-; apply incl_tl, incl_refl|].
  destruct (release l x w h) as [r|]; [|discriminate]. injection H as <-. intros q [Q|Q]; [left; exact Q|right; apply (IH _ eq_refl); exact Q].
Qed.

(** replacing one goroutine *)
Lemma once_set : forall l i t u, once l -> nth_error l i = Some t -> incl (t_held u) (t_held t) -> once (firstn i l ++ u :: skipn (S i) l).
Proof.
  intros l i t u O N I. assert (B : (i < List.length l)%nat) by (apply nth_error_Some; congruence).
  intros a b p q k x y o w v D A1 A2 H1 H2. rewrite nth_set in A1, A2 by exact B.
  destruct (Nat.eqb a i) eqn:E1, (Nat.eqb b i) eqn:E2.
  - apply Nat.eqb_eq in E1, E2. congruence.
  - apply Nat.eqb_eq in E1. subst a. injection A1 as <-. eapply (O i b); [exact D|exact N|exact A2|apply I; exact H1|exact H2].
  - apply Nat.eqb_eq in E2. subst b. injection A2 as <-. eapply (O a i); [exact D|exact A1|exact N|exact H1|apply I; exact H2].
  - eapply (O a b); eassumption.
Qed.
Lemma once_app : forall l u, once l -> t_held u = [] -> once (l ++ [u]).
Proof.
  intros l u O E a b p q k x y o w v D A1 A2 H1 H2.
  assert (P : forall c r, nth_error (l ++ [u]) c = Some r -> t_held r <> [] -> nth_error l c = Some r).
  { intros c r C Z. destruct (Nat.lt_ge_cases c (List.length l)) as [B|B]; [rewrite nth_error_app1 in C by exact B; exact C|].
    rewrite nth_error_app2 in C by exact B. destruct (c - List.length l)%nat as [|[|m]]; cbn in C; try discriminate. injection C as <-. contradiction. }
  apply P in A1; [|intros Z; rewrite Z in H1; exact H1]. apply P in A2; [|intros Z; rewrite Z in H2; exact H2].
  eapply (O a b); eassumption.
Qed.

Lemma free_spec : forall s l o w, free s l o w = true -> forall i t x v, nth_error (s_thr s) i = Some t -> In (l, x, o, v) (t_held t) -> w || v = false.
Proof.
  intros s l o w F i t x v N H. unfold free in F. rewrite forallb_forall in F. specialize (F _ (nth_error_In _ _ N)).
  rewrite forallb_forall in F. specialize (F _ H). cbn in F. rewrite lockk_beq_refl, N.eqb_refl in F. cbn in F.
  destruct (w || v); [discriminate|reflexivity].
Qed.

Lemma inv_start : inv start.
Proof.
  exists (fun _ => None), (fun o => o =? 0). split; [intros i t H; destruct i; discriminate|].
  split; [reflexivity|]. split; [intros k o H; discriminate|]. split; [intros o H; apply N.eqb_eq in H; subst; cbn; lia|].
  split; [intros o i H; discriminate|]. intros i j t u k x y o w v D N; destruct i; discriminate.
Qed.

Lemma look_first : forall l x c, look (map (fun e : kind * N => (snd e, Valid)) l) x = Some c -> c = Valid /\ In x (map snd l).
Proof.
  induction l as [|[k y] l IH]; cbn; intros x c H; [discriminate|].
  destruct (y =? x) eqn:E; [apply N.eqb_eq in E; injection H as <-; split; [reflexivity|left; exact E]|].
  destruct (IH _ _ H) as [A B]. split; [exact A|right; exact B].
Qed.
Lemma first_sat : forall made shared next i e t, (forall o, shared o = true -> o < next) ->
  shared (e 0) = true -> (forall x, In x (map snd (args t)) -> shared (e x) = true) -> sat made shared next i e (av (first_abs t)).
Proof.
  intros made shared next i e t B H0 H.
  assert (P : forall x c, look (av (first_abs t)) x = Some c -> c = Valid /\ shared (e x) = true).
  { intros x c L. cbn [first_abs av look] in L. destruct (0 =? x) eqn:E.
    - apply N.eqb_eq in E. subst x. injection L as <-. split; [reflexivity|exact H0].
    - apply look_first in L. destruct L as [A C]. split; [exact A|apply H; exact C]. }
  split.
  - intros x c L. destruct (P _ _ L) as [-> S]. split; [apply B; exact S|left; exact S].
  - intros x y c L. destruct (P _ _ L) as [Q _]. discriminate.
Qed.
Lemma new_ok : forall made shared next i e t, (forall o, shared o = true -> o < next) ->
  shared (e 0) = true -> (forall x, In x (map snd (args t)) -> shared (e x) = true) -> thread_ok made shared next i (Thr t e [body t] []).
Proof.
  intros made shared next i e t B H0 H. exists (first_abs t). cbn [t_env t_held t_tag t_code].
  split; [apply first_sat; assumption|]. split; [reflexivity|]. apply first_typeds.
Qed.

Lemma inv_call : forall s t e, inv s -> e 0 = 0 -> Forall (fun a => s_known s (fst a) (e (snd a)) = true) (args t) -> inv (call s t e).
Proof.
  intros s t e [made [shared [I1 [I2 [I3 [I4 [I5 I6]]]]]]] E F. exists made, shared. cbn.
  split; [|split; [exact I2|split; [exact I3|split; [exact I4|split; [exact I5|apply once_app; [exact I6|reflexivity]]]]]].
  intros i u N. cbn in N. destruct (Nat.lt_ge_cases i (List.length (s_thr s))) as [B|B].
  - rewrite nth_error_app1 in N by exact B. apply I1; exact N.
  - rewrite nth_error_app2 in N by exact B. destruct (i - List.length (s_thr s))%nat as [|[|m]]; cbn in N; try discriminate. injection N as <-.
    apply new_ok; [exact I4|rewrite E; exact I2|]. intros x X. apply in_map_iff in X. destruct X as [[k y] [Y Z]]. cbn in Y. subst y.
    rewrite Forall_forall in F. apply I3 with k. exact (F _ Z).
Qed.

(** a step that changes neither the variables nor who may use what *)
Lemma inv_local : forall made shared s i t u, inv_with made shared s -> nth_error (s_thr s) i = Some t ->
  thread_ok made shared (s_next s) i u -> (incl (t_held u) (t_held t)) -> inv_with made shared (set_thr s i u).
Proof.
  intros made shared s i t u [I1 [I2 [I3 [I4 [I5 I6]]]]] N K H. unfold set_thr. cbn.
  assert (B : (i < List.length (s_thr s))%nat) by (apply nth_error_Some; congruence).
  split; [|split; [exact I2|split; [exact I3|split; [exact I4|split; [exact I5|]]]]].
  - cbn. intros j w J. rewrite nth_set in J by exact B. destruct (Nat.eqb j i) eqn:E; [apply Nat.eqb_eq in E; subst j; injection J as <-; exact K|apply I1; exact J].
  - cbn. eapply once_set; eassumption.
Qed.
Lemma inv_mem : forall made shared s m, inv_with made shared s -> inv_with made shared (with_mem s m).
Proof. intros made shared s m H. exact H. Qed.

Lemma typeds_head : forall (R : row -> Prop) a c k, typeds R a (c :: k) -> exists b b', typed R a c b /\ le b b' /\ typeds R b' k.
Proof. intros R a c k H. inversion H; subst. eauto. Qed.

Lemma inv_move : forall s i o s', inv s -> In s' (moves s i o) -> inv s'.
Proof.
  intros s i o s' [made [shared I]] M. unfold moves in M.
  destruct (nth_error (s_thr s) i) as [[t e [|c k] h]|] eqn:N; try (destruct M; fail).
  pose proof I as I0. destruct I0 as [I1 [I2 [I3 [I4 [I5 I6]]]]].
  destruct (I1 _ _ N) as [a [SA [HA TA]]]. cbn [t_env t_held t_tag t_code] in SA, HA, TA.
  destruct (typeds_head _ _ _ _ TA) as [b [b' [T1 [L1 T2]]]].
  assert (B : (i < List.length (s_thr s))%nat) by (apply nth_error_Some; congruence).
  (* a step to code [k'] that is fine from [a'], which [a] meets *)
  assert (GO : forall k' a', sat made shared (s_next s) i e (av a') -> ah a' = ah a -> typeds (allow t) a' k' ->
            inv_with made shared (set_thr s i (Thr t e k' h))).
  { intros k' a' S' A' T'. eapply inv_local; [exact I|exact N| |apply incl_refl].
    exists a'. cbn. split; [exact S'|]. split; [rewrite A'; exact HA|exact T']. }
  assert (LE : forall a', le a a' -> sat made shared (s_next s) i e (av a') /\ ah a' = ah a).
  { intros a' L. split; [eapply sat_le; eassumption|symmetry; apply L]. }
  assert (STAY : b = a -> inv_with made shared (set_thr s i (Thr t e k h))).
  { intros ->. destruct (LE _ L1) as [Q1 Q2]. eapply GO; eassumption. }
  assert (IN : forall c' d, typed (allow t) a c' d -> le d b -> inv_with made shared (set_thr s i (Thr t e (c' :: k) h))).
  { intros c' d T' L'. apply (GO _ a SA eq_refl). eapply tys_cons; [exact T'| |exact T2].
    destruct L' as [L'1 L'2], L1 as [L11 L12]. split; [congruence|]. intros x z Z. destruct (L12 _ _ Z) as [z1 [Z1 C1]].
    destruct (L'2 _ _ Z1) as [z2 [Z2 C2]]. exists z2. split; [exact Z2|]. destruct z2, z1, z; try discriminate; reflexivity. }
  destruct c as [|f x|f x|f x v|f x c1 c2|l x w|l x w|kk x c1 c2|kk x|x|x|c1 c2|c1 c2|c1|g]; inversion T1; subst; clear T1.
  - (* Skip *) destruct M as [<-|[]]. exists made, shared. apply STAY. reflexivity.
  - (* Rd *) destruct M as [<-|[]]. exists made, shared. apply STAY. reflexivity.
  - (* Use *) destruct (s_mem s f (e x)); [|destruct M]. destruct M as [<-|[]]. exists made, shared. apply STAY. reflexivity.
  - (* Wr *) exists made, shared. destruct v as [v|]; [destruct M as [<-|[]]|destruct M as [<-|[<-|[]]]]; apply inv_mem, STAY; reflexivity.
  - (* If *) destruct M as [<-|[]]. exists made, shared. destruct (s_mem s f (e x)); eapply IN; eassumption.
  - (* Lock *)
    destruct (free s l (e x) w) eqn:F; [|destruct M]. destruct M as [<-|[]].
    exists made, shared. unfold set_thr. cbn. split; [|split; [exact I2|split; [exact I3|split; [exact I4|split; [exact I5|]]]]].
    + cbn. intros j u J. rewrite nth_set in J by exact B. destruct (Nat.eqb j i) eqn:E; [|apply I1; exact J].
      apply Nat.eqb_eq in E. subst j. injection J as <-. exists b'. cbn. split; [eapply sat_le; [|exact L1]; exact SA|].
      split; [|exact T2]. rewrite <- (proj1 L1). reflexivity.
    + cbn. intros a1 b1 p q k1 x1 y1 o1 w1 v1 D A1 A2 H1 H2. rewrite nth_set in A1, A2 by exact B.
      destruct (Nat.eqb a1 i) eqn:E1, (Nat.eqb b1 i) eqn:E2.
      * apply Nat.eqb_eq in E1, E2. congruence.
      * apply Nat.eqb_eq in E1. subst a1. injection A1 as <-. cbn in H1. destruct H1 as [H1|H1].
        -- injection H1 as <- <- <- <-. eapply free_spec; [exact F|exact A2|exact H2].
        -- eapply (I6 i b1); [exact D|exact N|exact A2|exact H1|exact H2].
      * apply Nat.eqb_eq in E2. subst b1. injection A2 as <-. cbn in H2. destruct H2 as [H2|H2].
        -- injection H2 as <- <- <- <-. rewrite orb_comm. eapply free_spec; [exact F|exact A1|exact H1].
        -- eapply (I6 a1 i); [exact D|exact A1|exact N|exact H1|exact H2].
      * eapply (I6 a1 b1); eassumption.
  - (* Unlock *)
    rewrite (release_unlk e _ _ _ _ _ H4) in M. destruct M as [<-|[]].
    exists made, shared. eapply inv_local; [exact I|exact N| |].
    + exists b'. cbn. split; [eapply sat_le; [|exact L1]; exact SA|]. split; [|exact T2]. rewrite <- (proj1 L1). reflexivity.
    + cbn. apply (release_sub l x w). apply release_unlk. exact H4.
  - (* IfKnown *)
    destruct M as [<-|[]]. exists made, shared. destruct (s_known s kk (e x)) eqn:E; [|eapply IN; eassumption].
    eapply (GO (c1 :: k) (Abs (ah a) (put (av a) x Valid))); [|reflexivity|].
    + split.
      * intros y d Y. change (look (put (av a) x Valid) y = Some d) in Y. rewrite look_put in Y.
        destruct (y =? x) eqn:F; [|apply SA; exact Y].
        apply N.eqb_eq in F. subst y. injection Y as <-. pose proof (I3 _ _ E) as G. split; [apply I4; exact G|left; exact G].
      * intros y z d Z Y D. change (look (put (av a) x Valid) z = Some Priv) in Z. change (look (put (av a) x Valid) y = Some d) in Y. rewrite look_put in Z, Y.
        destruct (z =? x) eqn:F; [discriminate|]. destruct (y =? x) eqn:G; [|eapply SA; eassumption].
        apply N.eqb_eq in G. subst y. destruct (proj1 SA _ _ Z) as [_ [_ Q]]. intros W. rewrite <- W in Q. rewrite (I3 _ _ E) in Q. discriminate.
    + eapply tys_cons; [eassumption| |exact T2].
      destruct L1 as [L11 L12]. match goal with H : le b1 b |- _ => destruct H as [L'1 L'2] end. split; [congruence|].
      intros y z Z. destruct (L12 _ _ Z) as [z1 [Z1 C1]].
      destruct (L'2 _ _ Z1) as [z2 [Z2 C2]]. exists z2. split; [exact Z2|]. destruct z2, z1, z; try discriminate; reflexivity.
  - (* Publish *)
    destruct M as [<-|[]]. match goal with H : look (av a) x = Some _ |- _ => rename H into LX end. destruct (usable_of _ _ _ _ _ _ _ _ SA LX) as [U BD].
    exists made, (give shared (e x)). unfold set_thr, with_known. cbn. split; [|split; [|split; [|split; [|split; [exact I5|]]]]].
    + cbn. intros j u J. rewrite nth_set in J by exact B. destruct (Nat.eqb j i) eqn:E.
      * apply Nat.eqb_eq in E. subst j. injection J as <-. exists b'. cbn. split; [eapply sat_le; [|exact L1]; apply sat_self; assumption|].
        split; [rewrite <- (proj1 L1); reflexivity|exact T2].
      * apply Nat.eqb_neq in E. destruct (I1 _ _ J) as [d [D1 [D2 D3]]]. exists d. split; [|split; assumption].
        eapply sat_other; [exact E|exact U|exact D1].
    + unfold give. destruct (0 =? e x); [reflexivity|exact I2].
    + cbn. intros k1 o1 K. unfold upd_known in K. unfold give. destruct (o1 =? e x) eqn:E; [reflexivity|].
      rewrite andb_false_r in K. eapply I3; exact K.
    + cbn. intros o1. unfold give. destruct (o1 =? e x) eqn:E; [apply N.eqb_eq in E; subst o1; intros _; exact BD|apply I4].
    + cbn. eapply once_set; [exact I6|exact N|apply incl_refl].
  - (* Fresh *)
    destruct M as [<-|[]]. exists (upd made (s_next s) (Some i)), shared. cbn.
    assert (MD : forall p, p < s_next s -> upd made (s_next s) (Some i) p = made p).
    { intros p P. unfold upd. destruct (p =? s_next s) eqn:E; [apply N.eqb_eq in E; lia|reflexivity]. }
    assert (SN : shared (s_next s) = false).
    { destruct (shared (s_next s)) eqn:E; [apply I4 in E; lia|reflexivity]. }
    assert (KEEP : forall j f v, sat made shared (s_next s) j f v -> sat (upd made (s_next s) (Some i)) shared (N.succ (s_next s)) j f v).
    { intros j f v [S1 S2]. split; [|exact S2]. intros y d Y. destruct (S1 _ _ Y) as [Q1 Q2]. split; [lia|].
      unfold usable in *. rewrite MD by exact Q1. exact Q2. }
    split; [|split; [exact I2|split; [exact I3|split; [|split]]]].
    + cbn. intros j u J. rewrite nth_set in J by exact B. destruct (Nat.eqb j i) eqn:E.
      * apply Nat.eqb_eq in E. subst j. injection J as <-. exists b'. cbn.
        split; [|split; [rewrite <- (proj1 L1); cbn; rewrite conc_upd by assumption; reflexivity|exact T2]].
        eapply sat_le; [|exact L1]. destruct (KEEP _ _ _ SA) as [K1 K2].
        split.
        -- intros y d Y. change (look (put (av a) x Priv) y = Some d) in Y. rewrite look_put in Y.
           assert (EY : upd e x (s_next s) y = if y =? x then s_next s else e y) by reflexivity. rewrite EY. clear EY.
           destruct (y =? x) eqn:F.
           ++ injection Y as <-. split; [lia|]. split; [unfold upd; rewrite N.eqb_refl; reflexivity|exact SN].
           ++ apply K1; exact Y.
        -- intros y z d Z Y D. change (look (put (av a) x Priv) z = Some Priv) in Z. change (look (put (av a) x Priv) y = Some d) in Y. rewrite look_put in Z, Y. unfold upd.
           destruct (z =? x) eqn:F, (y =? x) eqn:G.
           ++ apply N.eqb_eq in F, G. congruence.
           ++ destruct (proj1 SA _ _ Y) as [Q _]. lia.
           ++ destruct (proj1 SA _ _ Z) as [Q _]. lia.
           ++ eapply K2; eassumption.
      * destruct (I1 _ _ J) as [d [D1 [D2 D3]]]. exists d. split; [apply KEEP; exact D1|split; assumption].
    + cbn. intros p P. apply I4 in P. lia.
    + cbn. intros p j. unfold upd. destruct (p =? s_next s) eqn:E; [apply N.eqb_eq in E; subst; intros _; lia|]. intros P. apply I5 in P. lia.
    + cbn. eapply once_set; [exact I6|exact N|apply incl_refl].
  - (* Pick *)
    destruct M as [<-|[]]. exists made, shared. eapply inv_local; [exact I|exact N| |apply incl_refl].
    exists b'. cbn. split; [|split; [rewrite <- (proj1 L1); cbn; rewrite conc_upd by assumption; reflexivity|exact T2]].
    eapply sat_le; [|exact L1]. cbn. split.
    + intros y d Y. cbn in Y. rewrite look_drop in Y. unfold upd. destruct (y =? x); [discriminate|apply SA; exact Y].
    + intros y z d Z Y D. rewrite look_drop in Z, Y. unfold upd. destruct (z =? x); [discriminate|]. destruct (y =? x); [discriminate|]. eapply SA; eassumption.
  - (* Seq *)
    destruct M as [<-|[]]. exists made, shared. apply (GO _ a SA eq_refl).
    eapply tys_cons; [eassumption|apply le_refl|]. eapply tys_cons; eassumption.
  - (* Choice *) exists made, shared. destruct M as [<-|[<-|[]]]; eapply IN; eassumption.
  - (* Loop *)
    exists made, shared. match goal with H : le a b |- _ => destruct (LE _ H) as [Q1 Q2]; rename H into LAB end.
    destruct M as [<-|[<-|[]]].
    + eapply (GO k b'); [eapply sat_le; [exact Q1|exact L1]|rewrite <- (proj1 L1); exact Q2|exact T2].
    + apply (GO _ b Q1 Q2). eapply tys_cons; [eassumption|eassumption|].
      eapply tys_cons; [eapply ty_loop; [apply le_refl|eassumption|eassumption]|exact L1|exact T2].
  - (* Go *)
    destruct M as [<-|[]].
    match goal with H : shares _ _ = Some _ |- _ => destruct (shares_sat _ _ _ _ _ _ _ _ H SA) as [sh [A1 [A2 [A3 [A4 A5]]]]] end.
    exists made, sh. cbn. split; [|split; [apply A3; exact I2|split; [intros q p P; apply A3; eapply I3; exact P|split; [apply A4; exact I4|split; [exact I5|]]]]].
    + cbn. intros j u J. destruct (Nat.lt_ge_cases j (List.length (s_thr s))) as [BJ|BJ].
      * rewrite nth_error_app1 in J by (rewrite len_set; assumption). rewrite nth_set in J by exact B. destruct (Nat.eqb j i) eqn:E.
        -- apply Nat.eqb_eq in E. subst j. injection J as <-. exists b'. cbn. split; [apply (sat_le _ _ _ _ _ (Abs (ah a) v)); [exact A1|exact L1]|].
           split; [rewrite <- (proj1 L1); reflexivity|exact T2].
        -- apply Nat.eqb_neq in E. destruct (I1 _ _ J) as [d [D1 [D2 D3]]]. exists d. split; [apply A5; assumption|split; assumption].
      * rewrite nth_error_app2 in J by (rewrite len_set; assumption). rewrite len_set in J by exact B.
        destruct (j - List.length (s_thr s))%nat as [|[|m]]; cbn in J; try discriminate. injection J as <-.
        apply new_ok; [apply A4; exact I4|apply A2; left; reflexivity|]. intros y Y. apply A2. right. exact Y.
    + cbn. apply once_app; [|reflexivity]. eapply once_set; [exact I6|exact N|apply incl_refl].
Qed.

Theorem inv_reachable : forall s, reachable s -> inv s.
Proof.
  intros s H. induction H as [|s s' R IH S]; [exact inv_start|].
  destruct S as [s t e T E F|s i o s' M]; [apply inv_call; assumption|eapply inv_move; eassumption].
Qed.
