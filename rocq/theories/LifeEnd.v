(** * The library comes to rest; a closed socket stays as it is; Close works once *)
From Verif Require Import Base Life LifeSpec LifeProofs.
From Coq Require Import Lia.
Local Open Scope nat_scope.

Fixpoint total {A} (f : A -> nat) (l : list A) : nat := match l with [] => 0 | a :: r => f a + total f r end.
Lemma total_app {A} (f : A -> nat) l m : total f (l ++ m) = total f l + total f m.
Proof. induction l as [|a l IH]; cbn; [reflexivity|]. rewrite IH. lia. Qed.
Lemma total_upd {A} (f : A -> nat) i y t l : nth_error l i = Some t -> total f (upd i y l) + f t = total f l + f y.
Proof.
  intros H. unfold upd. assert (L : i < List.length l) by (apply nth_error_Some; congruence).
  apply Nat.ltb_lt in L. rewrite L. rewrite <- (firstn_skipn i l) at 3. rewrite !total_app. cbn [total].
  assert (D : skipn i l = t :: skipn (S i) l).
  { clear L. revert l H. induction i as [|i IH]; intros [|a l] H; try discriminate; cbn in H |- *; [congruence|apply IH, H]. }
  rewrite D. cbn [total]. lia.
Qed.

(** ** Rest *)
Definition weight (t : thread) : nat :=
  match t with
  | TListenU _ => 8 | TListen _ => 7
  | TServe _ SStart => 6 | TServe _ SCheck => 3 | TServe _ SLoad => 2 | TServe _ (SRead _) => 1
  | TCloser _ KWait => 2 | TCloser _ KClose => 1
  | THandle _ => 2 | TReadFrom => 2
  | TOffer _ | TReadGTP | TReadOn _ | TWrite _ | TClose => 1
  | Ended _ => 0
  end.
Definition waiting (x : core) : nat := total (fun a => List.length (sk_in a)) (socks x).
Definition measure (s : st) : nat :=
  if panicked s then 0 else S (total weight (threads s) + 5 * waiting (co s)).

Lemma read_waiting j x d x' : read_sock j x = RGot d x' -> waiting x = S (waiting x').
Proof.
  unfold read_sock, waiting. destruct (nth_error (socks x) j) as [[[|] [|e q]]|] eqn:E; try discriminate.
  intros [= -> <-]. cbn [set_socks socks].
  pose proof (total_upd (fun a => List.length (sk_in a)) j (Sk true q) _ _ E) as T. cbn [sk_in List.length] in T. lia.
Qed.
Lemma shut_waiting j x : waiting (shut j x) = waiting x.
Proof.
  unfold shut, waiting. destruct (nth_error (socks x) j) as [a|] eqn:E; [|reflexivity]. cbn [set_socks socks].
  pose proof (total_upd (fun a => List.length (sk_in a)) j (Sk false (sk_in a)) _ _ E) as T. cbn [sk_in] in T. lia.
Qed.
Lemma open_waiting x : total (fun a => List.length (sk_in a)) (socks x ++ [Sk true []]) = waiting x.
Proof. rewrite total_app. cbn. unfold waiting. lia. Qed.

Lemma turn_weight k x t h x' t' new : turn k x t h = Some (Next x' t' new) ->
  weight t' + total weight new + 5 * waiting x' < weight t + 5 * waiting x.
Proof.
  intros H. destruct t; cbn [turn] in H.
  - destruct h; try discriminate. destruct (cur x); injection H as <- <- <-; cbn; lia.
  - unfold listen in H. destruct h.
    + injection H as <- <- <-. pose proof (open_waiting x). unfold waiting in *. cbn [set_cur set_socks socks].
      destruct next; cbn [weight total]; lia.
    + injection H as <- <- <-. unfold waiting. cbn [set_cur set_socks socks weight total]. lia.
    + destruct k; [discriminate|]. injection H as <- <- <-. pose proof (open_waiting x). unfold waiting in *.
      cbn [set_cur set_socks socks weight total]. lia.
  - destruct h; try discriminate. destruct p; cbn [serve] in H.
    + injection H as <- <- <-. destruct k; cbn [weight total]; lia.
    + destruct (over c x); injection H as <- <- <-; cbn [weight total]; lia.
    + destruct (cur x); [|discriminate]. injection H as <- <- <-. cbn [weight total]; lia.
    + destruct (read_sock j x) eqn:E; try discriminate; injection H as <- <- <-.
      * apply read_waiting in E. destruct k; cbn [weight total]; lia.
      * cbn [weight total]; lia.
  - destruct h; try discriminate. destruct p; cbn [closer] in H.
    + destruct (over c x); [|discriminate]. injection H as <- <- <-. cbn [weight total]; lia.
    + destruct (cur x).
      * injection H as <- <- <-. rewrite shut_waiting. cbn [weight total]; lia.
      * destruct k; [discriminate|]. injection H as <- <- <-. cbn [weight total]; lia.
  - destruct h.
    + injection H as <- <- <-. cbn [weight total]; lia.
    + destruct k; [discriminate|]. injection H as <- <- <-. cbn [weight total]; lia.
    + injection H as H. unfold write in H. destruct (cur x); [|discriminate].
      destruct (nth_error (socks x) n) as [[[|] q]|]; injection H as <- <- <-; unfold waiting, sends; cbn [weight total socks]; lia.
  - destruct h; try discriminate. injection H as <- <- <-. cbn [weight total]; lia.
  - destruct h; try discriminate. destruct (closed x); [|discriminate]. injection H as <- <- <-. cbn [weight total]; lia.
  - destruct h; try discriminate. destruct (cur x); [|discriminate]. injection H as <- <- <-. cbn [weight total]; lia.
  - destruct h; try discriminate. destruct (read_sock j x) eqn:E; try discriminate; injection H as <- <- <-.
    + apply read_waiting in E. cbn [weight total]; lia.
    + cbn [weight total]; lia.
  - destruct h; try discriminate. injection H as H. unfold write in H. destruct (cur x); [|discriminate].
    destruct (nth_error (socks x) n) as [[[|] q]|]; injection H as <- <- <-; unfold waiting, sends; cbn [weight total socks]; lia.
  - destruct h; try discriminate. destruct (closed x); [discriminate|]. injection H as <- <- <-. unfold waiting, set_closed. cbn [weight total socks]; lia.
  - destruct h; discriminate.
Qed.

Lemma lib_measure k s s' : lib_step k s s' -> measure s' < measure s.
Proof.
  intros [a H]. unfold lib in H. unfold measure at 2. destruct (panicked s) eqn:P; [discriminate|]. destruct a as [i h|i j].
  - destruct (nth_error (threads s) i) as [t|] eqn:N; [|discriminate].
    destruct (turn k (co s) t h) as [[|x' t' new]|] eqn:T; [| |discriminate]; injection H as <-.
    + cbn. lia.
    + unfold measure. cbn [panicked threads co]. rewrite total_app.
      apply turn_weight in T. pose proof (total_upd weight i t' _ _ N). lia.
  - destruct (nth_error (threads s) i) as [t|] eqn:N; [|discriminate]. destruct t; try discriminate.
    destruct (nth_error (threads s) j) as [t|] eqn:M; [|discriminate]. destruct t; try discriminate.
    injection H as <-. unfold measure. cbn [panicked threads co].
    assert (M' : nth_error (upd i (Ended (Offered d)) (threads s)) j = Some TReadGTP).
    { rewrite upd_nth. destruct (Nat.eqb_spec j i) as [->|Q]; [congruence|]. exact M. }
    pose proof (total_upd weight j (Ended (ReadGTP (Some d) false)) _ _ M') as A.
    pose proof (total_upd weight i (Ended (Offered d)) _ _ N) as B.
    cbn [weight] in A, B. lia.
Qed.
Lemma run_measure k n s s' : lib_run k n s s' -> n + measure s' <= measure s.
Proof.
  induction 1; [lia|]. apply lib_measure in H0. lia.
Qed.

(** From any state, turns alone lead to one where nothing is left to do, or to a panic. *)
Definition acts (s : st) : list act :=
  let r := seq 0 (List.length (threads s)) in
  flat_map (fun i => Run i First :: Run i Second :: Run i Third :: map (Meet i) r) r.
Lemma acts_all k s a s' : lib k s a = Some s' -> In a (acts s).
Proof.
  intros H. unfold lib in H. destruct (panicked s); [discriminate|]. unfold acts. apply in_flat_map.
  destruct a as [i h|i j]; exists i.
  - destruct (nth_error (threads s) i) as [t|] eqn:N; [|discriminate].
    assert (L : i < List.length (threads s)) by (apply nth_error_Some; congruence).
    split; [apply in_seq; lia|]. destruct h; cbn; auto.
  - destruct (nth_error (threads s) i) as [t|] eqn:N; [|discriminate]. destruct t; try discriminate.
    destruct (nth_error (threads s) j) as [t|] eqn:M; [|discriminate].
    assert (L : i < List.length (threads s)) by (apply nth_error_Some; congruence).
    assert (L' : j < List.length (threads s)) by (apply nth_error_Some; congruence).
    split; [apply in_seq; lia|]. right. right. right. apply in_map, in_seq. lia.
Qed.
Definition restb (k : kind) (s : st) : bool :=
  forallb (fun a => match lib k s a with Some _ => false | None => true end) (acts s).
Lemma restb_ok k s : restb k s = true -> forall s', ~ lib_step k s s'.
Proof.
  unfold restb. rewrite forallb_forall. intros H s' [a A]. pose proof (H a (acts_all _ _ _ _ A)) as Q. rewrite A in Q. discriminate.
Qed.
Lemma act_dec k s : (exists s', lib_step k s s') \/ forall s', ~ lib_step k s s'.
Proof.
  destruct (restb k s) eqn:R; [right; apply restb_ok, R|].
  left. unfold restb in R. induction (acts s) as [|a l IH]; [discriminate|]. cbn in R.
  destruct (lib k s a) as [s'|] eqn:E; [exists s', a; exact E|]. apply IH, R.
Qed.
Lemma play_steps k l s s' : play k l s = Some s' -> steps k s s'.
Proof.
  assert (F : forall a b c, step k a b -> steps k b c -> steps k a c).
  { intros a b c S R. revert S. induction R; intros S; [eapply steps_more; [apply steps_refl|exact S]|]. eapply steps_more; eauto. }
  revert s. induction l as [|m l IH]; intros s H; cbn in H; [injection H as <-; constructor|].
  destruct m as [a|e].
  - destruct (lib k s a) as [s1|] eqn:E; [|discriminate]. eapply F; [left; exists a; exact E|auto].
  - destruct (env k s e) as [s1|] eqn:E; [|discriminate]. eapply F; [right; exists e; exact E|auto].
Qed.
Lemma play_quiet k l s : play k l new_conn = Some s -> panicked s = false -> restb k s = true -> reachable k s /\ quiet k s.
Proof. intros P Q R. split; [eapply play_steps; eauto|]. split; [exact Q|apply restb_ok, R]. Qed.
Lemma run_front k s s' n s'' : lib_step k s s' -> lib_run k n s' s'' -> lib_run k (S n) s s''.
Proof.
  intros H R. induction R.
  - eapply run_more; [apply run_none|exact H].
  - eapply run_more; [apply IHR; exact H|exact H0].
Qed.
Lemma comes_to_rest k s : exists n s', lib_run k n s s' /\ forall s'', ~ lib_step k s' s''.
Proof.
  remember (measure s) as m eqn:E. revert s E. induction m as [m IH] using lt_wf_ind. intros s E.
  destruct (act_dec k s) as [[s' H]|H].
  - pose proof (lib_measure _ _ _ H) as L. destruct (IH (measure s') ltac:(lia) s' eq_refl) as (n & s'' & R & Q).
    exists (S n), s''. split; [eapply run_front; eauto|exact Q].
  - exists 0, s. split; [constructor|exact H].
Qed.

(** ** A closed socket *)

Definition frozen (j : nat) (x x' : core) : Prop :=
  nth_error (socks x') j = nth_error (socks x) j /\ sent_from j x' = sent_from j x.
Lemma frozen_refl j x : frozen j x x. Proof. split; reflexivity. Qed.
Lemma frozen_upd j i y x : dead j x -> (forall a, nth_error (socks x) i = Some a -> sk_open a = true) -> frozen j x (set_socks (upd i y (socks x)) x).
Proof.
  intros [q D] O. split; [|reflexivity]. cbn [set_socks socks]. rewrite upd_nth.
  destruct (Nat.eqb_spec j i) as [->|N]; [|reflexivity]. apply O in D. discriminate D.
Qed.
Lemma frozen_open j x z : dead j x -> frozen j x (set_cur z (set_socks (socks x ++ [Sk true []]) x)).
Proof.
  intros [q D]. split; [|reflexivity]. cbn [set_cur set_socks socks]. apply nth_error_app1.
  apply nth_error_Some. congruence.
Qed.
Lemma frozen_shut j i x : dead j x -> frozen j x (shut i x).
Proof.
  intros [q D]. unfold shut. destruct (nth_error (socks x) i) as [a|] eqn:E; [|apply frozen_refl].
  split; [|reflexivity]. cbn [set_socks socks]. rewrite upd_nth.
  destruct (Nat.eqb_spec j i) as [->|N]; [|reflexivity].
  assert (L : i < List.length (socks x)) by (apply nth_error_Some; congruence).
  apply Nat.ltb_lt in L. rewrite L. cbn [andb]. rewrite E in D. injection D as ->. cbn. rewrite E. reflexivity.
Qed.
Lemma frozen_read j i x d x' : dead j x -> read_sock i x = RGot d x' -> frozen j x x'.
Proof.
  intros D. unfold read_sock. destruct (nth_error (socks x) i) as [[[|] [|e q]]|] eqn:E; try discriminate.
  intros [= -> <-]. apply frozen_upd; [exact D|]. intros a A. rewrite E in A. injection A as <-. reflexivity.
Qed.
Lemma frozen_write j x d ok ko x' t' new : dead j x -> write x d ok ko = Next x' t' new -> frozen j x x'.
Proof.
  intros [q D]. unfold write. destruct (cur x) as [i|]; [|discriminate].
  destruct (nth_error (socks x) i) as [[[|] p]|] eqn:E; intros [= <- <- <-]; try apply frozen_refl.
  split; [reflexivity|]. unfold sent_from. cbn [sends wire]. rewrite filter_app. cbn [filter fst].
  destruct (Nat.eqb_spec i j) as [->|N]; [congruence|]. apply app_nil_r.
Qed.
Lemma turn_frozen k j x t h x' t' new : dead j x -> turn k x t h = Some (Next x' t' new) -> frozen j x x'.
Proof.
  intros D H. destruct t; cbn [turn] in H.
  - destruct h; try discriminate. destruct (cur x); injection H as <- <- <-; apply frozen_refl.
  - unfold listen in H. destruct h.
    + injection H as <- <- <-. apply frozen_open, D.
    + injection H as <- <- <-. split; reflexivity.
    + destruct k; [discriminate|]. injection H as <- <- <-. apply frozen_open, D.
  - destruct h; try discriminate. destruct p; cbn [serve] in H.
    + injection H as <- <- <-. apply frozen_refl.
    + injection H as <- <- <-. apply frozen_refl.
    + destruct (cur x); [|discriminate]. injection H as <- <- <-. apply frozen_refl.
    + destruct (read_sock j0 x) eqn:E; try discriminate; injection H as <- <- <-; [eapply frozen_read; eauto|apply frozen_refl].
  - destruct h; try discriminate. destruct p; cbn [closer] in H.
    + destruct (over c x); [|discriminate]. injection H as <- <- <-. apply frozen_refl.
    + destruct (cur x).
      * injection H as <- <- <-. apply frozen_shut, D.
      * destruct k; [discriminate|]. injection H as <- <- <-. apply frozen_refl.
  - destruct h.
    + injection H as <- <- <-. apply frozen_refl.
    + destruct k; [discriminate|]. injection H as <- <- <-. apply frozen_refl.
    + injection H as H. eapply frozen_write; eauto.
  - destruct h; try discriminate. injection H as <- <- <-. apply frozen_refl.
  - destruct h; try discriminate. destruct (closed x); [|discriminate]. injection H as <- <- <-. apply frozen_refl.
  - destruct h; try discriminate. destruct (cur x); [|discriminate]. injection H as <- <- <-. apply frozen_refl.
  - destruct h; try discriminate. destruct (read_sock j0 x) eqn:E; try discriminate; injection H as <- <- <-; [eapply frozen_read; eauto|apply frozen_refl].
  - destruct h; try discriminate. injection H as H. eapply frozen_write; eauto.
  - destruct h; try discriminate. destruct (closed x); [discriminate|]. injection H as <- <- <-. split; reflexivity.
  - destruct h; discriminate.
Qed.
Lemma step_frozen k j s s' : dead j (co s) -> step k s s' -> frozen j (co s) (co s').
Proof.
  intros D [[a H]|[e H]].
  - unfold lib in H. destruct (panicked s); [discriminate|]. destruct a as [i h|i i'].
    + destruct (nth_error (threads s) i) as [t|] eqn:N; [|discriminate].
      destruct (turn k (co s) t h) as [[|x' t' new]|] eqn:T; [| |discriminate]; injection H as <-; [apply frozen_refl|].
      eapply turn_frozen; eauto.
    + destruct (nth_error (threads s) i) as [t|]; [|discriminate]. destruct t; try discriminate.
      destruct (nth_error (threads s) i') as [t|]; [|discriminate]. destruct t; try discriminate.
      injection H as <-. apply frozen_refl.
  - unfold env in H. destruct (panicked s); [discriminate|]. destruct e.
    + destruct (a_call k t); [|discriminate]. injection H as <-. apply frozen_refl.
    + injection H as <-. split; reflexivity.
    + destruct (nth_error (socks (co s)) j0) as [[[|] q]|] eqn:E; try discriminate. injection H as <-.
      apply frozen_upd; [exact D|]. intros a A. rewrite E in A. injection A as <-. reflexivity.
    + destruct (nth_error (threads s) i) as [t|]; [|discriminate]. destruct t; try discriminate.
      destruct p; try discriminate. destruct (nth_error (socks (co s)) j0) as [[[|] q]|]; try discriminate.
      destruct (cur (co s)); injection H as <-; apply frozen_refl.
Qed.
Lemma steps_frozen k j s s' : steps k s s' -> dead j (co s) -> frozen j (co s) (co s').
Proof.
  induction 1; intros D; [apply frozen_refl|].
  destruct (IHsteps D) as [A B]. assert (D' : dead j (co s')) by (destruct D as [q D]; exists q; rewrite A; exact D).
  destruct (step_frozen _ _ _ _ D' H0) as [A' B']. split; congruence.
Qed.

(** ** Close and the errors of ReadFromGTP *)
Definition is_close_ok (t : thread) : nat := match t with Ended CloseOk => 1 | _ => 0 end.
Definition bad_read (t : thread) : nat := match t with Ended (ReadGTP _ true) => 1 | _ => 0 end.
Definition b2n (b : bool) : nat := if b then 1 else 0.
Lemma turn_close k x t h x' t' new : turn k x t h = Some (Next x' t' new) ->
  is_close_ok t = 0 /\ total is_close_ok new = 0 /\ is_close_ok t' + b2n (closed x) = b2n (closed x') /\
  bad_read t = 0 /\ bad_read t' = 0 /\ total bad_read new = 0.
Proof.
  intros H. destruct t; cbn [turn] in H.
  - destruct h; try discriminate. destruct (cur x); injection H as <- <- <-; repeat split.
  - unfold listen in H. destruct h; [| |destruct k; [discriminate|]]; injection H as <- <- <-; try destruct next; repeat split.
  - destruct h; try discriminate. destruct p; cbn [serve] in H.
    + injection H as <- <- <-. repeat split.
    + injection H as <- <- <-. destruct (over c x); repeat split.
    + destruct (cur x); [|discriminate]. injection H as <- <- <-. repeat split.
    + destruct (read_sock j x) eqn:E; try discriminate; injection H as <- <- <-; [|repeat split].
      apply read_got in E. destruct E as [E _]. cbn. rewrite (sm_closed _ _ E). repeat split.
  - destruct h; try discriminate. destruct p; cbn [closer] in H.
    + destruct (over c x); [|discriminate]. injection H as <- <- <-. repeat split.
    + destruct (cur x).
      * injection H as <- <- <-. pose proof (shut_rest n x) as (_ & B & _). rewrite B. repeat split.
      * destruct k; [discriminate|]. injection H as <- <- <-. repeat split.
  - destruct h.
    + injection H as <- <- <-. repeat split.
    + destruct k; [discriminate|]. injection H as <- <- <-. repeat split.
    + injection H as H. unfold write in H. destruct (cur x); [|discriminate].
      destruct (nth_error (socks x) n) as [[[|] q]|]; injection H as <- <- <-; repeat split.
  - destruct h; try discriminate. injection H as <- <- <-. repeat split.
  - destruct h; try discriminate. destruct (closed x) eqn:C; [|discriminate]. injection H as <- <- <-. rewrite C. repeat split.
  - destruct h; try discriminate. destruct (cur x); [|discriminate]. injection H as <- <- <-. repeat split.
  - destruct h; try discriminate. destruct (read_sock j x) eqn:E; try discriminate; injection H as <- <- <-; [|repeat split].
    apply read_got in E. destruct E as [E _]. cbn. rewrite (sm_closed _ _ E). repeat split.
  - destruct h; try discriminate. injection H as H. unfold write in H. destruct (cur x); [|discriminate].
    destruct (nth_error (socks x) n) as [[[|] q]|]; injection H as <- <- <-; repeat split.
  - destruct h; try discriminate. destruct (closed x) eqn:C; [discriminate|]. injection H as <- <- <-. repeat split.
  - destruct h; discriminate.
Qed.
Lemma reach_close k s : reachable k s ->
  total is_close_ok (threads s) = b2n (closed (co s)) /\ total bad_read (threads s) = 0.
Proof.
  intros H. unfold reachable in H. remember new_conn as s0 eqn:E0. induction H; [subst; split; reflexivity|].
  destruct (IHsteps E0) as [A B]. clear IHsteps. destruct H0 as [[a H0]|[e H0]].
  - unfold lib in H0. destruct (panicked s'); [discriminate|]. destruct a as [i h|i j].
    + destruct (nth_error (threads s') i) as [t|] eqn:N; [|discriminate].
      destruct (turn k (co s') t h) as [[|x' t' new]|] eqn:T; [| |discriminate]; injection H0 as <-; [split; assumption|].
      cbn [threads co]. apply turn_close in T. destruct T as (T1 & T2 & T3 & T4 & T5 & T6).
      pose proof (total_upd is_close_ok i t' _ _ N). pose proof (total_upd bad_read i t' _ _ N).
      rewrite !total_app. lia.
    + destruct (nth_error (threads s') i) as [t|] eqn:N; [|discriminate]. destruct t; try discriminate.
      destruct (nth_error (threads s') j) as [t|] eqn:M; [|discriminate]. destruct t; try discriminate.
      injection H0 as <-. cbn [threads co].
      assert (M' : nth_error (upd i (Ended (Offered d)) (threads s')) j = Some TReadGTP).
      { rewrite upd_nth. destruct (Nat.eqb_spec j i) as [->|Q]; [congruence|]. exact M. }
      pose proof (total_upd is_close_ok j (Ended (ReadGTP (Some d) false)) _ _ M').
      pose proof (total_upd is_close_ok i (Ended (Offered d)) _ _ N).
      pose proof (total_upd bad_read j (Ended (ReadGTP (Some d) false)) _ _ M').
      pose proof (total_upd bad_read i (Ended (Offered d)) _ _ N).
      cbn [is_close_ok bad_read] in *. lia.
  - unfold env in H0. destruct (panicked s'); [discriminate|]. destruct e.
    + destruct (a_call k t) eqn:C; [|discriminate]. injection H0 as <-. cbn [threads co]. rewrite !total_app. cbn [total].
      destruct t; try (destruct k; discriminate C); cbn [is_close_ok bad_read]; lia.
    + injection H0 as <-. split; assumption.
    + destruct (nth_error (socks (co s')) j) as [[[|] q]|]; try discriminate. injection H0 as <-. split; assumption.
    + destruct (nth_error (threads s') i) as [t|] eqn:N; [|discriminate]. destruct t; try discriminate.
      destruct p; try discriminate. destruct (nth_error (socks (co s')) j) as [[[|] q]|]; try discriminate.
      destruct (cur (co s')); injection H0 as <-; [|split; assumption]. cbn [threads co].
      pose proof (total_upd is_close_ok i (Ended (ServeErr c)) _ _ N).
      pose proof (total_upd bad_read i (Ended (ServeErr c)) _ _ N). cbn [is_close_ok bad_read] in *. lia.
Qed.
Lemma total_in {A} (f : A -> nat) l a : In a l -> f a <= total f l.
Proof. induction l as [|b l IH]; cbn; [intros []|]. intros [->|I]; [lia|]. apply IH in I. lia. Qed.
