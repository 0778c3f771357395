(** C60: writing with a DSCP/ECN mark, over every schedule of calls. *)
From Coq Require Import Lia.
From Verif Require Import Base Maps MapsProofs UDscp DscpSpec DscpProofs.
Open Scope N_scope.
Open Scope list_scope.

(** a plain write and two marked ones, interleaved; the second marked one waits for the first *)
Definition busy : list label :=
  [LWriteMarked 184 7 [1; 2]; LWrite 8 [3]; LWriteMarked 46 9 [4];
   LRun 0 true; LRun 1 true; LRun 0 true; LRun 0 true; LRun 0 true; LRun 0 true; LRun 0 true;
   LRun 2 true; LRun 2 true; LRun 2 true; LRun 2 true; LRun 2 true; LRun 2 true;
   LRun 1 true; LRun 1 true; LRun 1 true; LRun 1 true; LRun 1 true; LRun 1 true; LRun 1 true].
Definition busy_log : list event :=
  match run (start 5) busy with Some w => w_log w | None => [] end.

(** A call puts at most one datagram on the wire: the packet it was given, to the address it
    was given, with the mark it asked for (WriteTo asks for 0), whatever other calls do. *)
Theorem C60_v1_marks : forall m ls w id k,
  run (start m) ls = Some w -> In (EvCall id k) (w_log w) ->
  wire_of id (w_log w) = [] \/ wire_of id (w_log w) = [(k_mark k, k_to k, k_pkt k)].
Proof.
  intros m ls w id k H Hin. destruct (reach _ _ _ H) as [I Ho]. apply Ho in Hin.
  destruct (aget (w_threads w) id) as [th|] eqn:E.
  - apply (i_told _ _ I) in E as [_ [k' [Hc [_ Ht]]]].
    assert (k' = k) by congruence. subst k'.
    destruct th; try (left; apply Ht); rewrite Ht; destruct r; cbn; auto.
  - destruct (N.lt_ge_cases id (w_next w)) as [Hlt|Hge].
    + destruct (i_done _ _ I id E Hlt) as [k' [r [Hc [_ Hw]]]].
      assert (k' = k) by congruence. subst k'. rewrite Hw. destruct r; cbn; auto.
    + destruct (i_new _ _ I id Hge) as [Hc _]. congruence.
Qed.
Print Assumptions C60_v1_marks.
Example C60_v1_marks_example :
  wire_of 0 busy_log = [(184, 7, [1; 2])] /\ wire_of 1 busy_log = [(0, 8, [3])] /\ wire_of 2 busy_log = [(46, 9, [4])].
Proof. vm_compute. auto. Qed.

(** Nothing is on the wire that no call asked for. *)
Theorem C60_v1_only_calls : forall m ls w id mk a b,
  run (start m) ls = Some w -> In (EvWire id mk a b) (w_log w) -> In (EvCall id (Call mk a b)) (w_log w).
Proof.
  intros m ls w id mk a b H Hin. destruct (reach _ _ _ H) as [I Ho]. apply in_wire_of in Hin.
  assert (Hk : exists k, call_of id (w_log w) = Some k).
  { destruct (aget (w_threads w) id) as [th|] eqn:E.
    - apply (i_told _ _ I) in E as [_ [k [Hc _]]]. eauto.
    - destruct (N.lt_ge_cases id (w_next w)) as [Hlt|Hge].
      + destruct (i_done _ _ I id E Hlt) as [k [r [Hc _]]]. eauto.
      + destruct (i_new _ _ I id Hge) as [_ [_ Hw]]. rewrite Hw in Hin. contradiction. }
  destruct Hk as [k Hk]. apply call_of_in in Hk.
  destruct (C60_v1_marks _ _ _ _ _ H Hk) as [E|E]; rewrite E in Hin; [contradiction|].
  destruct k as [km kt kp]. cbn in Hin. destruct Hin as [[= -> -> ->]|[]]. exact Hk.
Qed.
Print Assumptions C60_v1_only_calls.
Example C60_v1_only_calls_example : In (EvWire 1 0 8 [3]) busy_log.
Proof. vm_compute. auto 30. Qed.

(** A call returns at most once; it returns a nil error exactly when its datagram was sent. *)
Theorem C60_v1_result : forall m ls w id k,
  run (start m) ls = Some w -> In (EvCall id k) (w_log w) ->
  rets_of id (w_log w) = [] \/
  (rets_of id (w_log w) = [true] /\ wire_of id (w_log w) = [(k_mark k, k_to k, k_pkt k)]) \/
  (rets_of id (w_log w) = [false] /\ wire_of id (w_log w) = []).
Proof.
  intros m ls w id k H Hin. destruct (reach _ _ _ H) as [I Ho]. apply Ho in Hin.
  destruct (aget (w_threads w) id) as [th|] eqn:E.
  - apply (i_told _ _ I) in E as [_ [k' [_ [Hr _]]]]. auto.
  - destruct (N.lt_ge_cases id (w_next w)) as [Hlt|Hge].
    + destruct (i_done _ _ I id E Hlt) as [k' [r [Hc [Hr Hw]]]].
      assert (k' = k) by congruence. subst k'. rewrite Hr, Hw. destruct r; cbn; auto.
    + destruct (i_new _ _ I id Hge) as [Hc _]. congruence.
Qed.
Print Assumptions C60_v1_result.
Example C60_v1_result_example :
  rets_of 1 busy_log = [true] /\
  option_map (fun w => rets_of 0 (w_log w))
    (run (start 5) [LWriteMarked 184 7 [1]; LRun 0 true; LRun 0 true; LRun 0 false; LRun 0 true]) = Some [false].
Proof. vm_compute. auto. Qed.

(** Once every call has returned, and if no attempt to set the option back failed, the socket
    has the option it started with. *)
Theorem C60_v1_option_kept : forall m ls w,
  run (start m) ls = Some w -> (forall id k, In (EvCall id k) (w_log w) -> rets_of id (w_log w) <> []) ->
  all_back (w_log w) -> w_opt w = m.
Proof.
  intros m ls w H Hall HB. destruct (reach _ _ _ H) as [I _]. pose proof (i_opt _ _ I) as HO. unfold opt_ok in HO.
  destruct (w_mu w) as [id|] eqn:E; [|auto]. exfalso.
  apply (i_mu _ _ I) in E as [th [Ht _]]. apply (i_told _ _ I) in Ht as [_ [k [Hc [Hr _]]]].
  apply call_of_in in Hc. exact (Hall _ _ Hc Hr).
Qed.
Print Assumptions C60_v1_option_kept.
Example C60_v1_option_kept_example :
  option_map (fun w => (w_opt w, List.length (w_log w), existsb (fun e => match e with EvBack _ false => true | _ => false end) (w_log w)))
             (run (start 5) busy) = Some (5, 12%nat, false).
Proof. vm_compute. reflexivity. Qed.

(** The error of setting the option back is dropped: a call can report success and leave the
    socket with its own mark. *)
Theorem C60_v1_option_kept_refuted : forall m mk (a : addr) (b : bytes), mk <> m ->
  exists ls w, run (start m) ls = Some w /\ rets_of 0 (w_log w) = [true] /\ w_threads w = [] /\ w_opt w = mk.
Proof.
  intros m mk a b Hne.
  exists [LWriteMarked mk a b; LRun 0 true; LRun 0 true; LRun 0 true; LRun 0 true; LRun 0 false; LRun 0 true].
  eexists. split; [reflexivity|]. cbn. auto.
Qed.
Print Assumptions C60_v1_option_kept_refuted.

(** No deadlock: while some call has not returned, some call can take its next step, whether
    its system call succeeds or fails; a schedule with n calls has at most 8 n steps; and
    every call made so far can be run to its end. *)
Theorem C60_v1_no_deadlock : forall m ls w id k,
  run (start m) ls = Some w -> In (EvCall id k) (w_log w) -> rets_of id (w_log w) = [] ->
  exists x, forall ok, exists w', run (start m) (ls ++ [LRun x ok]) = Some w'.
Proof.
  intros m ls w id k H Hin Hr. destruct (reach _ _ _ H) as [I Ho]. apply Ho in Hin.
  assert (Hne : w_threads w <> []).
  { destruct (aget (w_threads w) id) as [th|] eqn:E; [intros E'; rewrite E' in E; discriminate|].
    destruct (N.lt_ge_cases id (w_next w)) as [Hlt|Hge].
    - destruct (i_done _ _ I id E Hlt) as [k' [r [_ [Hr' _]]]]. congruence.
    - destruct (i_new _ _ I id Hge) as [Hc _]. congruence. }
  destruct (can_go m w I Hne) as [x Hx]. exists x. intros ok. destruct (Hx ok) as [w' Hs]. exists w'.
  rewrite run_app, H. cbn [run]. rewrite Hs. reflexivity.
Qed.
Print Assumptions C60_v1_no_deadlock.
Theorem C60_v1_steps_bounded : forall m ls w,
  run (start m) ls = Some w -> (steps ls <= 8 * calls ls)%nat.
Proof. intros m ls w H. apply run_work in H. cbn [start w_threads] in H. unfold work in H at 2. cbn in H. lia. Qed.
Print Assumptions C60_v1_steps_bounded.
Theorem C60_v1_all_return : forall m ls w,
  run (start m) ls = Some w ->
  exists ls' w', run (start m) (ls ++ ls') = Some w' /\ calls ls' = 0%nat /\
    forall id k, In (EvCall id k) (w_log w') -> exists r, rets_of id (w_log w') = [r].
Proof.
  intros m ls w H. destruct (reach _ _ _ H) as [I _].
  destruct (finish m _ w I (Nat.le_refl _)) as [ls' [w' [H1 [H2 H3]]]].
  assert (H' : run (start m) (ls ++ ls') = Some w') by (rewrite run_app, H; exact H1).
  exists ls', w'. split; [exact H'|split; [exact H3|]]. intros id k Hin.
  destruct (reach _ _ _ H') as [I' Ho']. apply Ho' in Hin.
  assert (E : aget (w_threads w') id = None) by (rewrite H2; reflexivity).
  destruct (N.lt_ge_cases id (w_next w')) as [Hlt|Hge].
  - destruct (i_done _ _ I' id E Hlt) as [k' [r [_ [Hr _]]]]. eauto.
  - destruct (i_new _ _ I' id Hge) as [Hc _]. congruence.
Qed.
Print Assumptions C60_v1_all_return.
Definition runs (w : world) (id : N) : bool := match step w (LRun id false) with Some _ => true | None => false end.
Example C60_v1_no_deadlock_example :
  (* the calls 1 and 2 wait, call 0 holds the lock *)
  option_map (fun w => (rets_of 1 (w_log w), runs w 1, runs w 2, runs w 0)) (run (start 5) (firstn 6 busy)) =
  Some ([], false, false, true).
Proof. vm_compute. reflexivity. Qed.
