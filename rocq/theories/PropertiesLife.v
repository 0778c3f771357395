(** * Properties of the life of a connection: what Close and the end of a context do *)
From Verif Require Import Base Life LifeSpec LifeProofs LifeEnd.
From Coq Require Import Lia.
Local Open Scope nat_scope.
Arguments quiet : simpl never.
Arguments reachable : simpl never.

(** ** C70: closing a connection *)

(** The library never works for ever by itself: between two events from outside it takes only
    so many steps, and then rests. *)
Theorem C70_comes_to_rest : forall k s,
  (exists n, forall m s', lib_run k m s s' -> m <= n) /\
  (exists n s', lib_run k n s s' /\ forall s'', ~ lib_step k s' s'').
Proof.
  intros k s. split; [|apply comes_to_rest]. exists (measure s). intros m s' R. apply run_measure in R. lia.
Qed.
Print Assumptions C70_comes_to_rest.

(** After Close, on a connection opened once and served, everything has ended when the library
    rests: each call has returned, each goroutine has ended, the socket is closed. *)
Theorem C70_close_ends_everything : forall k s c,
  reachable k s -> closed (co s) = true -> opened_once s -> served s c -> quiet k s ->
  all_ended s /\ all_shut s.
Proof.
  intros k s c R C O S Q. apply reach_inv in R.
  assert (F : flags (co s) = [false]) by (eapply over_shut; eauto using over_closed).
  split; [|apply shut_all, F]. intros t I.
  destruct (quiet_threads _ _ _ R Q I) as [H|[(j & _ & H)|[(c' & _ & H)|[_ H]]]]; [exact H| | |congruence].
  - rewrite F in H. destruct j as [|[|j]]; discriminate H.
  - rewrite over_closed in H by exact C. discriminate H.
Qed.
Print Assumptions C70_close_ends_everything.

(** Serving a connection, a T-PDU on the way to a reader, another waiting, and Close *)
Definition c70_run : list move :=
  [E (Call (TListenU 7)); L (Run 0 First); L (Run 0 First); L (Run 0 First); L (Run 0 First); L (Run 0 First);
   E (Arrive 0 42); L (Run 0 First); L (Run 2 Second); E (Call TReadGTP); L (Meet 3 4); E (Call TReadGTP); E (Call TReadFrom); L (Run 6 First)].
Definition c70_end : list move :=
  [E (Call TClose); L (Run 7 First); L (Run 1 First); L (Run 1 First); L (Run 0 First); L (Run 5 First); L (Run 6 First)].
Example C70_close_ends_everything_case : exists s,
  play UP (c70_run ++ c70_end) new_conn = Some s /\ reachable UP s /\ closed (co s) = true /\ opened_once s /\ served s 7 /\ quiet UP s /\
  In (Ended (ServeNil 7)) (threads s) /\ In (Ended (ReadGTP (Some 42%N) false)) (threads s) /\ In (Ended (ReadFrom None)) (threads s) /\
  socks (co s) = [Sk false []].
Proof.
  destruct (play UP (c70_run ++ c70_end) new_conn) as [s|] eqn:P; [|vm_compute in P; discriminate P]. exists s.
  assert (X := P). apply play_quiet in X; [|vm_compute in P; injection P as <-; reflexivity|vm_compute in P; injection P as <-; vm_compute; reflexivity].
  destruct X as [R Q]. split; [reflexivity|]. split; [exact R|]. revert Q. vm_compute in P. injection P as <-. intros Q.
  split; [reflexivity|]. split; [split; [reflexivity|cbn; intuition discriminate]|]. split; [left; cbn; auto|]. split; [exact Q|]. cbn. auto 12.
Qed.

(** When the context given to one Serve ends, the socket is closed and every Serve and every
    blocked ReadFrom returns; only ReadFromGTP, and the goroutines that wait for the end of
    the other contexts, are left. *)
Theorem C70_cancel_ends_serving : forall k s c,
  reachable k s -> In c (cancelled (co s)) -> opened_once s -> served s c -> quiet k s ->
  all_shut s /\
  forall t, In t (threads s) -> (exists o, t = Ended o) \/
    closed (co s) = false /\ (t = TReadGTP \/ exists c', t = TCloser c' KWait /\ ~ In c' (cancelled (co s))).
Proof.
  intros k s c R C O S Q. apply reach_inv in R.
  assert (F : flags (co s) = [false]) by (eapply over_shut; eauto using over_can).
  split; [apply shut_all, F|]. intros t I.
  destruct (quiet_threads _ _ _ R Q I) as [H|[(j & _ & H)|[(c' & E & H)|[E H]]]]; [auto| | |auto].
  - rewrite F in H. destruct j as [|[|j]]; discriminate H.
  - right. assert (closed (co s) = false) by (unfold over in H; apply orb_false_iff in H; apply H).
    split; [assumption|]. right. exists c'. split; [exact E|]. intros X. apply over_can in X. congruence.
Qed.
Print Assumptions C70_cancel_ends_serving.

Definition c70_cancel : list move := c70_run ++ [E (Cancel 7); L (Run 1 First); L (Run 1 First); L (Run 0 First); L (Run 6 First)].
Lemma c70_cancel_state : exists s,
  play UP c70_cancel new_conn = Some s /\ reachable UP s /\ quiet UP s /\ In 7 (cancelled (co s)) /\ opened_once s /\ served s 7 /\ In TReadGTP (threads s).
Proof.
  destruct (play UP c70_cancel new_conn) as [s|] eqn:P; [|vm_compute in P; discriminate P]. exists s.
  assert (X := P). apply play_quiet in X; [|vm_compute in P; injection P as <-; reflexivity|vm_compute in P; injection P as <-; vm_compute; reflexivity].
  destruct X as [R Q]. split; [reflexivity|]. split; [exact R|]. split; [exact Q|]. vm_compute in P. injection P as <-.
  split; [cbn; auto|]. split; [split; [reflexivity|cbn; intuition discriminate]|]. split; [left; cbn; auto|]. cbn. auto 12.
Qed.
Example C70_cancel_ends_serving_case : exists s, reachable UP s /\ In 7 (cancelled (co s)) /\ opened_once s /\ served s 7 /\ quiet UP s.
Proof. destruct c70_cancel_state as (s & _ & R & Q & C & O & S & _). exists s. auto. Qed.

(** False: a blocked ReadFromGTP does not return when the context ends; the connection is dead
    and the reader waits for ever. *)
Theorem C70_cancel_unblocks_readers_refuted :
  ~ (forall k s c, reachable k s -> In c (cancelled (co s)) -> opened_once s -> served s c -> quiet k s -> all_ended s).
Proof.
  intros H. destruct c70_cancel_state as (s & _ & R & Q & C & O & S & I).
  destruct (H _ _ _ R C O S Q _ I) as [o X]. discriminate X.
Qed.
Print Assumptions C70_cancel_unblocks_readers_refuted.

(** ReadFromGTP never returns an error, whatever happens. *)
Theorem C70_readers_get_no_error : forall k s r e, reachable k s -> In (Ended (ReadGTP r e)) (threads s) -> e = false.
Proof.
  intros k s r e R I. apply reach_close in R. destruct R as [_ R]. apply (total_in bad_read) in I. destruct e; [|reflexivity].
  cbn in I. lia.
Qed.
Print Assumptions C70_readers_get_no_error.
(** False: that a blocked read returns an error when the connection is closed, as the comment
    of Close says.  A caller of ReadFromGTP sees no bytes, no address and no error. *)
Theorem C70_close_gives_readers_an_error_refuted :
  ~ (forall k s e, reachable k s -> In (Ended (ReadGTP None e)) (threads s) -> e = true).
Proof.
  intros H. destruct C70_close_ends_everything_case as (s & P & R & _).
  specialize (H UP s false R). vm_compute in P. injection P as <-. cbn in H. discriminate H. auto 12.
Qed.
Print Assumptions C70_close_gives_readers_an_error_refuted.

(** False: that Close unblocks every read and releases the socket.  Nothing does if the
    connection was opened with Listen and is not served. *)
Theorem C70_close_without_serve_refuted :
  ~ (forall k s, reachable k s -> closed (co s) = true -> opened_once s -> quiet k s -> all_ended s \/ all_shut s).
Proof.
  intros H.
  set (l := [E (Call (TListen None)); L (Run 0 First); E (Call TReadFrom); L (Run 1 First); E (Call TClose); L (Run 2 First)]).
  destruct (play CP l new_conn) as [s|] eqn:P; [|vm_compute in P; discriminate P].
  assert (X := P). apply play_quiet in X; [|vm_compute in P; injection P as <-; reflexivity|vm_compute in P; injection P as <-; vm_compute; reflexivity].
  destruct X as [R Q]. specialize (H CP s R). vm_compute in P. injection P as <-. cbn in H.
  destruct (H eq_refl) as [A|A].
  - split; [reflexivity|]. cbn. intuition discriminate.
  - exact Q.
  - destruct (A (TReadOn 0)) as [o X]; [cbn; auto|discriminate X].
  - specialize (A (Sk true [])). discriminate A. cbn. auto.
Qed.
Print Assumptions C70_close_without_serve_refuted.

(** False: that closing a served connection releases all its sockets.  Listen followed by
    ListenAndServe opens two, and only the second is closed. *)
Theorem C70_close_after_listen_twice_refuted :
  ~ (forall k s c, reachable k s -> closed (co s) = true -> ~ In (Ended ListenErr) (threads s) -> served s c -> quiet k s -> all_shut s).
Proof.
  intros H.
  set (l := [E (Call (TListen None)); L (Run 0 First); E (Call (TListen (Some 7))); L (Run 1 First); L (Run 1 First); L (Run 1 First);
             E (Call TClose); L (Run 3 First); L (Run 2 First); L (Run 2 First); L (Run 1 First)]).
  destruct (play CP l new_conn) as [s|] eqn:P; [|vm_compute in P; discriminate P].
  assert (X := P). apply play_quiet in X; [|vm_compute in P; injection P as <-; reflexivity|vm_compute in P; injection P as <-; vm_compute; reflexivity].
  destruct X as [R Q]. specialize (H CP s 7 R). vm_compute in P. injection P as <-.
  unfold served in H. cbn in H. specialize (H eq_refl). specialize (H ltac:(intuition discriminate)).
  specialize (H ltac:(auto 8) Q (Sk true [])). discriminate H. cbn. auto.
Qed.
Print Assumptions C70_close_after_listen_twice_refuted.

(** False: that ListenAndServe, when it fails, leaves no socket behind.  For a local address
    that is no IP address the user plane opens a socket nothing can close. *)
Theorem C70_failed_listen_leaves_no_socket_refuted :
  ~ (forall k s, reachable k s -> closed (co s) = true -> (forall t, In t (threads s) -> t = Ended ListenErr \/ t = Ended CloseOk) -> all_shut s).
Proof.
  intros H.
  set (l := [E (Call (TListenU 7)); L (Run 0 First); L (Run 0 Third); E (Call TClose); L (Run 1 First)]).
  destruct (play UP l new_conn) as [s|] eqn:P; [|vm_compute in P; discriminate P].
  assert (R := play_steps _ _ _ _ P). specialize (H UP s R). vm_compute in P. injection P as <-. cbn in H.
  specialize (H eq_refl ltac:(intuition) (Sk true [])). discriminate H. cbn. auto.
Qed.
Print Assumptions C70_failed_listen_leaves_no_socket_refuted.

(** False: that a Serve that has returned leaves no socket open: one that returns because a
    read failed does, until Close or the end of its context. *)
Theorem C70_returned_means_shut_refuted :
  ~ (forall k s c, reachable k s -> quiet k s -> opened_once s -> In (Ended (ServeErr c)) (threads s) -> all_shut s).
Proof.
  intros H.
  set (l := [E (Call (TListen (Some 7))); L (Run 0 First); L (Run 0 First); L (Run 0 First); E (Fail 0)]).
  destruct (play CP l new_conn) as [s|] eqn:P; [|vm_compute in P; discriminate P].
  assert (X := P). apply play_quiet in X; [|vm_compute in P; injection P as <-; reflexivity|vm_compute in P; injection P as <-; vm_compute; reflexivity].
  destruct X as [R Q]. specialize (H CP s 7 R Q). vm_compute in P. injection P as <-. unfold opened_once in H. cbn in H.
  specialize (H ltac:(intuition discriminate) ltac:(auto) (Sk true [])). discriminate H. cbn. auto.
Qed.
Print Assumptions C70_returned_means_shut_refuted.

(** False: that no handler runs once Serve has returned and the socket is closed. *)
Theorem C70_returned_means_handled_refuted :
  ~ (forall k s c d, reachable k s -> opened_once s -> In (Ended (ServeNil c)) (threads s) -> all_shut s -> ~ In (THandle d) (threads s)).
Proof.
  intros H.
  set (l := [E (Call (TListen (Some 7))); L (Run 0 First); L (Run 0 First); L (Run 0 First); E (Arrive 0 42); L (Run 0 First); L (Run 0 First);
             E (Call TClose); L (Run 3 First); L (Run 1 First); L (Run 1 First); L (Run 0 First)]).
  destruct (play CP l new_conn) as [s|] eqn:P; [|vm_compute in P; discriminate P].
  assert (R := play_steps _ _ _ _ P). specialize (H CP s 7 42%N R). vm_compute in P. injection P as <-.
  unfold opened_once, all_shut in H. cbn in H. apply H; auto 8.
  - intuition discriminate.
  - intros x [<-|[]]. reflexivity.
Qed.
Print Assumptions C70_returned_means_handled_refuted.

(** Serve returns nil only after Close or after the end of the context of a Serve of this
    connection. *)
Theorem C70_serve_returns_why : forall k s c, reachable k s -> In (Ended (ServeNil c)) (threads s) ->
  closed (co s) = true \/ exists c', In c' (cancelled (co s)) /\ served s c'.
Proof.
  intros k s c R I. apply reach_inv in R.
  assert (D : exists c', over c' (co s) = true /\ served s c').
  { destruct (i_nil _ _ _ R _ I) as [O|(c' & O)].
    - exists c. split; [exact O|left; exact I].
    - exists c'. split; [apply (i_over _ _ _ R); auto|].
      assert (B : begun c' (threads s)) by (apply (i_rev _ _ _ R); right; right; exact O).
      destruct B as [B|[B|(p & _ & B)]]; [left; auto|right; left; auto|right; right; eauto]. }
  destruct D as (c' & O & S). unfold over in O. apply orb_true_iff in O. destruct O as [O|O]; [|auto].
  right. exists c'. split; [|exact S]. apply existsb_exists in O. destruct O as (y & Y & E). apply Nat.eqb_eq in E. subst y. exact Y.
Qed.
Print Assumptions C70_serve_returns_why.
Example C70_serve_returns_why_case : exists s, reachable UP s /\ In (Ended (ServeNil 7)) (threads s) /\ cancelled (co s) = [].
Proof.
  destruct C70_close_ends_everything_case as (s & P & R & _ & _ & _ & _ & I & _). exists s. split; [exact R|]. split; [exact I|].
  vm_compute in P. injection P as <-. reflexivity.
Qed.

(** A socket that has been closed stays closed; no datagram is taken from it or added to it, and
    nothing is sent from it, ever after. *)
Theorem C70_a_closed_socket_is_dead : forall k s s' j, steps k s s' -> dead j (co s) ->
  nth_error (socks (co s')) j = nth_error (socks (co s)) j /\ sent_from j (co s') = sent_from j (co s).
Proof. intros k s s' j R D. exact (steps_frozen _ _ _ _ R D). Qed.
Print Assumptions C70_a_closed_socket_is_dead.
(** a write after the end sends nothing and returns an error *)
Example C70_a_closed_socket_is_dead_case : exists s s',
  play UP (c70_run ++ c70_end) new_conn = Some s /\ dead 0 (co s) /\
  play UP [E (Call (TWrite 9)); L (Run 8 First)] s = Some s' /\ In (Ended (Wrote 9 false)) (threads s') /\ wire (co s') = [].
Proof.
  destruct (play UP (c70_run ++ c70_end) new_conn) as [s|] eqn:P; [|vm_compute in P; discriminate P]. vm_compute in P. injection P as <-.
  eexists. eexists. split; [reflexivity|]. split; [exists []; reflexivity|]. split; [vm_compute; reflexivity|]. cbn. auto 12.
Qed.

(** Close succeeds once in the life of a connection. *)
Theorem C70_close_works_once : forall k s, reachable k s ->
  List.length (filter (fun t => match t with Ended CloseOk => true | _ => false end) (threads s)) = (if closed (co s) then 1 else 0).
Proof.
  intros k s R. apply reach_close in R. destruct R as [R _]. unfold b2n in R. rewrite <- R. clear R.
  induction (threads s) as [|t l IH]; [reflexivity|]. cbn [filter total]. destruct t as [| | | | | | | | | | |o]; try exact IH.
  destruct o; try exact IH. cbn. rewrite IH. reflexivity.
Qed.
Print Assumptions C70_close_works_once.

(** On a connection that was opened once, nothing of this but a second Close panics. *)
Theorem C70_only_a_second_close_panics : forall k s s', reachable k s -> opened_once s -> step k s s' -> panicked s' = true ->
  closed (co s) = true /\ In TClose (threads s).
Proof.
  intros k s s' R [L NE] S P. apply reach_inv in R.
  assert (C : exists j, cur (co s) = Some j).
  { destruct (cur (co s)) as [j|] eqn:E; [eauto|]. apply (i_none _ _ _ R) in E; [|exact NE].
    rewrite <- flags_len, E in L. discriminate L. }
  destruct C as [j C]. destruct S as [[a H]|[e H]].
  - unfold lib in H. destruct (panicked s) eqn:Ps; [discriminate|]. destruct a as [i h|i i'].
    + destruct (nth_error (threads s) i) as [t|] eqn:N; [|discriminate].
      destruct (turn k (co s) t h) as [[|x' t' new]|] eqn:T; [| |discriminate]; injection H as <-; [|vm_compute in P; discriminate P].
      apply nth_error_In in N. clear P L NE R. destruct t; cbn [turn] in T.
      * destruct h; discriminate.
      * unfold listen in T. destruct h; try discriminate. destruct k; discriminate.
      * destruct h; try discriminate. destruct p; cbn [serve] in T; try discriminate.
        -- rewrite C in T. discriminate.
        -- destruct (read_sock j0 (co s)); discriminate.
      * destruct h; try discriminate. destruct p; cbn [closer] in T.
        -- destruct (over c (co s)); discriminate.
        -- rewrite C in T. discriminate.
      * destruct h; try discriminate; [destruct k; discriminate|]. unfold write in T. rewrite C in T.
        destruct (nth_error (socks (co s)) j) as [[[|] q]|]; discriminate.
      * destruct h; discriminate.
      * destruct h; try discriminate. destruct (closed (co s)); discriminate.
      * destruct h; try discriminate. rewrite C in T. discriminate.
      * destruct h; try discriminate. destruct (read_sock j0 (co s)); discriminate.
      * destruct h; try discriminate. unfold write in T. rewrite C in T.
        destruct (nth_error (socks (co s)) j) as [[[|] q]|]; discriminate.
      * destruct h; try discriminate. destruct (closed (co s)); [auto|discriminate].
      * destruct h; discriminate.
    + destruct (nth_error (threads s) i) as [t|]; [|discriminate]. destruct t; try discriminate.
      destruct (nth_error (threads s) i') as [t|]; [|discriminate]. destruct t; try discriminate. injection H as <-. discriminate P.
  - unfold env in H. destruct (panicked s) eqn:Ps; [discriminate|]. destruct e.
    + destruct (a_call k t); [|discriminate]. injection H as <-. discriminate P.
    + injection H as <-. discriminate P.
    + destruct (nth_error (socks (co s)) j0) as [[[|] q]|]; try discriminate. injection H as <-. discriminate P.
    + destruct (nth_error (threads s) i) as [t|]; [|discriminate]. destruct t; try discriminate.
      destruct p; try discriminate. destruct (nth_error (socks (co s)) j0) as [[[|] q]|]; try discriminate.
      rewrite C in H. injection H as <-. discriminate P.
Qed.
Print Assumptions C70_only_a_second_close_panics.
Example C70_only_a_second_close_panics_case : exists s s',
  reachable CP s /\ opened_once s /\ step CP s s' /\ panicked s' = true.
Proof.
  set (l := [E (Call (TListen None)); L (Run 0 First); E (Call TClose); L (Run 1 First); E (Call TClose)]).
  destruct (play CP l new_conn) as [s|] eqn:P; [|vm_compute in P; discriminate P]. assert (R := play_steps _ _ _ _ P).
  destruct (lib CP s (Run 2 First)) as [s'|] eqn:Q; [|vm_compute in P; injection P as <-; vm_compute in Q; discriminate Q].
  exists s, s'. split; [exact R|]. assert (S : step CP s s') by (left; exists (Run 2 First); exact Q).
  split; [|split; [exact S|]]; vm_compute in P; injection P as <-.
  - split; [reflexivity|]. cbn. intuition discriminate.
  - vm_compute in Q. injection Q as <-. reflexivity.
Qed.

(** False: that only a second Close panics, whatever the order of calls: to serve or to read
    before Listen does. *)
Theorem C70_only_close_panics_refuted :
  ~ (forall k s, reachable k s -> panicked s = true -> closed (co s) = true).
Proof.
  intros H. set (l := [E (Call (TServe 7 SStart)); L (Run 0 First); L (Run 0 First)]).
  destruct (play CP l new_conn) as [s|] eqn:P; [|vm_compute in P; discriminate P]. assert (R := play_steps _ _ _ _ P).
  specialize (H CP s R). vm_compute in P. injection P as <-. discriminate (H eq_refl).
Qed.
Print Assumptions C70_only_close_panics_refuted.
