(** C68, C69: which exported functions race, and which calls never return. *)
From Coq Require Import String Lia Bool Arith.
From Verif Require Import Base RaceModel RaceStatic RaceSpec RaceProofs RaceDial RaceBound RaceRun RaceWitness RaceLogging.
Open Scope string_scope.
Open Scope N_scope.
Open Scope list_scope.

(** C68: two goroutines inside two exported functions (or goroutines the library started) can
    race for a variable if and only if the table says so. *)
Theorem C68_data_races : forall a b f, can_race a b f <-> listed a b f.
Proof. intros a b f. split; [apply only_listed|apply all_listed_race]. Qed.
Print Assumptions C68_data_races.
(* the two sides of the table at work: a server that starts while somebody asks for its address;
   two writers that the mutex keeps apart *)
Example C68_data_races_ex :
  can_race "UPlaneConn.LocalAddr" "UPlaneConn.ListenAndServe" UPkt /\ ~ can_race "UPlaneConn.WriteTo" "UPlaneConn.ListenAndServe" UPkt /\
  ~ can_race "Session.Activate" "Session.IsActive" SActive.
Proof.
  split; [apply C68_data_races, listedb_iff; vm_compute; reflexivity|].
  split; rewrite C68_data_races, <- listedb_iff; vm_compute; discriminate.
Qed.

(** the variables that no two goroutines race for: the sequence number, whether a session is
    active, the tunnels of a Relay, the loggers, the table of grouped IE types *)
Theorem C68_guarded : forall a b f, In f [CSeq; SActive; RPair; Log1; Log2; GMap] -> ~ can_race a b f.
Proof.
  intros a b f F R. apply C68_data_races in R. destruct R as [ws [os [I _]]].
  unfold races in I. cbn [In app] in I. repeat (destruct I as [I|I]; [injection I as <- _ _; cbn in F; repeat (destruct F as [F|F]; [discriminate|]); exact F|]). exact I.
Qed.
Print Assumptions C68_guarded.
(* they are written concurrently: two goroutines, each to increment the sequence number next or
   to wait for the mutex *)
Example C68_guarded_ex : exists s, reachable s /\ exists p q k h, nth_error (s_thr s) 1 = Some p /\ nth_error (s_thr s) 2 = Some q /\
  about_to p CSeq 1 true /\ t_code q = Lock MC 2 true :: k /\ h = t_env q 2 /\ h = 1.
Proof.
  destruct (run start [C "NewConn" []; R 0 11; C "Conn.IncSequence" [1]; R 1 5; C "Conn.IncSequence" [1]; R 2 1]) as [s|] eqn:E; [|vm_compute in E; discriminate].
  exists s. split; [eapply run_reachable; [apply reach_start|exact E]|].
  destruct (nth_error (s_thr s) 1) as [p|] eqn:P; [|vm_compute in E; injection E as <-; vm_compute in P; discriminate].
  destruct (nth_error (s_thr s) 2) as [q|] eqn:Q; [|vm_compute in E; injection E as <-; vm_compute in Q; discriminate].
  exists p, q. vm_compute in E. injection E as <-. vm_compute in P, Q. injection P as <-. injection Q as <-.
  eexists _, _. split; [reflexivity|]. split; [reflexivity|]. split; [cbn; auto|]. split; [reflexivity|]. split; reflexivity.
Qed.

(** the functions that race with no function *)
Definition safe : list string := [
  "gtpv1.SetLogger"; "gtpv1.EnableLogging"; "gtpv1.DisableLogging"; "gtpv2.SetLogger"; "gtpv2.EnableLogging"; "gtpv2.DisableLogging";
  "NewUPlaneConn"; "DialUPlane"; "UPlaneConn.Close"; "UPlaneConn.ReadFromGTP"; "UPlaneConn.Restarts"; "UPlaneConn.AddHandler"; "UPlaneConn.AddHandlers";
  "UPlaneConn.NewFTEID"; "UPlaneConn serving"; "NewRelay"; "Relay.Run"; "Relay.AddPeer"; "ie.AddGroupedIEType";
  "NewConn"; "Conn.Close"; "Conn.AddHandler"; "Conn.AddHandlers"; "Conn.IncSequence"; "Conn.DecSequence"; "Conn.SequenceNumber";
  "Conn.GetSessionByIMSI"; "Conn.NewSenderFTEID"; "Conn.Sessions"; "Conn.SessionCount"; "Conn.BearerCount";
  "NewSession"; "Session.Deactivate"; "Session.IsActive"; "Session.AddTEID"; "Session.GetTEID"; "PassMessageTo"; "Session.WaitMessage";
  "Session.AddBearer"; "Session.RemoveBearer"; "Session.GetDefaultBearer"; "Session.SetDefaultBearer"; "Session.Bearers"; "Session.BearerCount"; "NewBearer"].
Theorem C68_safe_functions : forall a, In a (map fst (ops ++ goroutines)) -> (forall b f, ~ can_race a b f) <-> In a safe.
Proof.
  assert (F : forallb (fun a => Bool.eqb (inb a safe) (negb (existsb (fun e => match e with (_, ws, os) => inb a ws && negb (match os with [] => true | _ => false end) || inb a os && negb (match ws with [] => true | _ => false end) end) races))) (map fst (ops ++ goroutines)) = true) by (vm_compute; reflexivity).
  intros a I. rewrite forallb_forall in F. specialize (F _ I). apply eqb_prop in F. rewrite <- inb_in, F, negb_true_iff. split.
  - intros H. apply Bool.not_true_iff_false. intros X. apply existsb_exists in X. destruct X as [[[f ws] os] [X Y]].
    apply orb_true_iff in Y. destruct Y as [Y|Y]; apply andb_true_iff in Y; destruct Y as [Y1 Y2]; apply inb_in in Y1.
    + destruct os as [|b os]; [discriminate|]. apply (H b f). apply C68_data_races. eexists _, _. split; [exact X|]. left. split; [exact Y1|left; reflexivity].
    + destruct ws as [|b ws]; [discriminate|]. apply (H b f). apply C68_data_races. eexists _, _. split; [exact X|]. right. split; [left; reflexivity|exact Y1].
  - intros H b f R. apply C68_data_races in R. destruct R as [ws [os [X Y]]]. apply Bool.not_true_iff_false in H. apply H. apply existsb_exists.
    exists (f, ws, os). split; [exact X|]. apply orb_true_iff. destruct Y as [[Y1 Y2]|[Y1 Y2]]; [left|right]; apply andb_true_iff; (split; [apply inb_in; assumption|]).
    + destruct os; [destruct Y2|reflexivity].
    + destruct ws; [destruct Y1|reflexivity].
Qed.
Print Assumptions C68_safe_functions.
Example C68_safe_functions_ex : (forall b f, ~ can_race "Conn.SequenceNumber" b f) /\ ~ (forall b f, ~ can_race "Session.UpdatePeerAddr" b f).
Proof.
  split; [|intros H; apply C68_safe_functions in H]; [apply C68_safe_functions| |]; try (apply inb_in; vm_compute; reflexivity).
  apply inb_in in H. vm_compute in H. discriminate.
Qed.

(** C69: as long as EnableLogging is not used, every call that has not returned can go on, or a
    goroutine it waits for can (or would panic). *)
Theorem C69_no_deadlock : forall s, reachable s ->
  (forall t, In t (s_thr s) -> t_tag t <> "gtpv1.EnableLogging" /\ t_tag t <> "gtpv2.EnableLogging") ->
  forall i, unfinished s i -> served s i.
Proof.
  intros s R H. apply all_served; [exact R|]. intros t T [X|[X|[]]]; destruct (H _ T) as [A B]; [apply A|apply B]; symmetry; exact X.
Qed.
Print Assumptions C69_no_deadlock.
(* a call that has to wait for another *)
Example C69_no_deadlock_ex : exists s, reachable s /\ (forall t, In t (s_thr s) -> t_tag t <> "gtpv1.EnableLogging" /\ t_tag t <> "gtpv2.EnableLogging") /\
  unfinished s 2 /\ ~ can_move s 2 /\ waits_for s 2 1 /\ can_move s 1.
Proof.
  destruct (run start [C "NewConn" []; R 0 11; C "Conn.IncSequence" [1]; R 1 5; C "Conn.IncSequence" [1]; R 2 1]) as [s|] eqn:E; [|vm_compute in E; discriminate].
  exists s. split; [eapply run_reachable; [apply reach_start|exact E]|].
  vm_compute in E. injection E as <-.
  split; [intros t [<-|[<-|[<-|[]]]]; cbn; split; discriminate|].
  split; [eexists; split; [reflexivity|discriminate]|].
  split; [intros [o H]; vm_compute in H; apply H; reflexivity|].
  split; [|exists 0; vm_compute; discriminate].
  eexists _, _, MC, 2, 2, true, true, _. split; [reflexivity|]. split; [reflexivity|]. split; [reflexivity|]. split; [left; reflexivity|reflexivity].
Qed.

(** EnableLogging of gtpv1 and gtpv2 never returns ... *)
Theorem C69_enable_logging_never_returns : forall s i t, reachable s -> nth_error (s_thr s) i = Some t ->
  t_tag t = "gtpv1.EnableLogging" \/ t_tag t = "gtpv2.EnableLogging" -> t_code t <> [].
Proof. intros s i t R N [T|T]; [apply (logging_unfinished false s i t R N T)|apply (logging_unfinished true s i t R N T)]. Qed.
Print Assumptions C69_enable_logging_never_returns.
(** ... it ends up waiting for a mutex only itself holds ... *)
Theorem C69_every_call_returns_refuted : exists s i t, reachable s /\ nth_error (s_thr s) i = Some t /\ t_tag t = "gtpv1.EnableLogging" /\ unfinished s i /\ ~ served s i.
Proof.
  destruct (run start [C "gtpv1.EnableLogging" []; R 0 4]) as [s|] eqn:E; [|vm_compute in E; discriminate].
  assert (RE : reachable s) by (eapply run_reachable; [apply reach_start|exact E]).
  destruct (nth_error (s_thr s) 0) as [t|] eqn:N; [|vm_compute in E; injection E as <-; vm_compute in N; discriminate].
  exists s, 0%nat, t. split; [exact RE|]. split; [exact N|]. pose proof N as N2. vm_compute in E. injection E as E. rewrite <- E in N2. vm_compute in N2. injection N2 as N2.
  assert (T : t_tag t = "gtpv1.EnableLogging") by (rewrite <- N2; reflexivity).
  split; [exact T|]. split; [exists t; split; [exact N|eapply C69_enable_logging_never_returns; eauto]|].
  eapply (logging_alone false s 0 t); [exact RE|exact N|exact T|rewrite <- N2; discriminate|rewrite <- N2; reflexivity].
Qed.
Print Assumptions C69_every_call_returns_refuted.
(** ... and from the moment it holds the mutex nobody gets past it: no goroutine logs a message,
    and SetLogger, EnableLogging and DisableLogging do not return to later callers. *)
Theorem C69_enable_logging_blocks : forall s s' i t l, reachable s -> later s s' -> nth_error (s_thr s) i = Some t ->
  (t_tag t = "gtpv1.EnableLogging" /\ l = MLog1 \/ t_tag t = "gtpv2.EnableLogging" /\ l = MLog2) -> t_held t <> [] ->
  forall j u w k, nth_error (s_thr s') j = Some u -> t_code u = Lock l 0 w :: k -> ~ can_move s' j.
Proof.
  intros s s' i t l R L N [[T ->]|[T ->]] H j u w k J C.
  - exact (logging_blocks false s s' i t j u k w R L N T H J C).
  - exact (logging_blocks true s s' i t j u k w R L N T H J C).
Qed.
Print Assumptions C69_enable_logging_blocks.
Theorem C69_enable_logging_stops : forall s s' i t, reachable s -> later s s' -> nth_error (s_thr s) i = Some t -> t_held t <> [] ->
  forall j u, (List.length (s_thr s) <= j)%nat -> nth_error (s_thr s') j = Some u ->
  (t_tag t = "gtpv1.EnableLogging" /\ In (t_tag u) ["gtpv1.SetLogger"; "gtpv1.EnableLogging"; "gtpv1.DisableLogging"] \/
   t_tag t = "gtpv2.EnableLogging" /\ In (t_tag u) ["gtpv2.SetLogger"; "gtpv2.EnableLogging"; "gtpv2.DisableLogging"]) -> t_code u <> [].
Proof.
  intros s s' i t R L N H j u LE J T.
  assert (G : forall v2 rest, body (t_tag u) = Seq (Lock (log_lock v2) 0 true) rest -> t_tag t = log_name v2 -> t_code u <> []).
  { intros v2 rest B TT. destruct (logging_stops v2 _ _ B s s' i t R L N TT H j u LE J eq_refl) as [->| ->]; discriminate. }
  destruct T as [[T U]|[T U]]; (destruct U as [U|[U|[U|[]]]]; rewrite <- U in G); [eapply (G false)|eapply (G false)|eapply (G false)|eapply (G true)|eapply (G true)|eapply (G true)]; try exact T; reflexivity.
Qed.
Print Assumptions C69_enable_logging_stops.
(* it gets there: with the mutex, and with a goroutine that wants to log a colliding TEID *)
Example C69_enable_logging_ex : exists s t u k, reachable s /\ nth_error (s_thr s) 1 = Some t /\ t_tag t = "gtpv1.EnableLogging" /\ t_held t <> [] /\
  nth_error (s_thr s) 2 = Some u /\ t_tag u = "UPlaneConn.NewFTEID" /\ t_code u = Lock MLog1 0 true :: k.
Proof.
  destruct (run start [C "NewUPlaneConn" []; R 0 17; C "gtpv1.EnableLogging" []; R 1 2; C "UPlaneConn.NewFTEID" [1]; M 2 1 0; R 2 1]) as [s|] eqn:E; [|vm_compute in E; discriminate].
  assert (RE : reachable s) by (eapply run_reachable; [apply reach_start|exact E]).
  exists s. vm_compute in E. injection E as <-. eexists _, _, _. split; [exact RE|]. split; [reflexivity|]. split; [reflexivity|]. split; [discriminate|].
  split; [reflexivity|]. split; reflexivity.
Qed.
