(** The GTPv2 control plane (CPlane.v) against its specification (CSpec.v). *)
From Coq Require Import String Lia Permutation.
From Verif Require Import Base BaseLemmas Maps MapsProofs Utils V2IE V2Header MsgModel Msgs2Gen V2Msg V2Codec V2Codec2
  CPlane CSpec CPlaneProofs CPlaneProofs2 CPlaneProofs3 CPlaneProofs4.
Open Scope N_scope.
Open Scope list_scope.

(** the connections of the examples: interface type 10, restart counter 7 *)
Definition ift10 : N -> N := fun _ => 10.
Definition seven : N -> N := fun _ => 7.
(** run the steps and show a goal about the state *)
Lemma show_case (P : world -> Prop) ift counter ls :
  match run (start ift counter) ls with Some w => P w | None => False end -> exists w, reachable ift counter w /\ P w.
Proof. destruct (run _ ls) as [w|] eqn:E; [|contradiction]. intros H. exists w. split; [now exists ls|exact H]. Qed.
Ltac show ls := apply (show_case _ _ _ ls); vm_compute.
(** "001" *)
Definition imsi1 : bytes := [48; 48; 49].
Definition imsi2 : bytes := [48; 48; 50].
(** sessions 0 and 1 with peers 5 and 6; session 0 is registered under TEID 100 by call 0 *)
Definition setup : list label :=
  [LOpen 0; LNewSession 5 imsi1; LNewSession 6 imsi2; LCall (KRegister 0 100 0); LRun 0 true; LRun 0 true; LRun 0 true; LRun 0 true].

(** ** C46 *)
Theorem C46_v2_session_by_teid : forall ift counter w c t peer, reachable ift counter w ->
  get_by_teid w c t peer =
  match teid_known c t (w_log w) with
  | Registered s => if peer =? peer_of s (w_log w) then Ok s else Err EInvalidTEID
  | Reserved => Panic
  | Unknown => Err EInvalidTEID
  end.
Proof. exact by_teid. Qed.
Theorem C46_v2_session_by_imsi : forall ift counter w c im, reachable ift counter w ->
  get_by_imsi w c im = imsi_known c im (w_log w).
Proof. exact by_imsi. Qed.
Theorem C46_v2_imsi_by_teid : forall ift counter w c t peer, reachable ift counter w ->
  imsi_by_teid w c t peer =
  match teid_known c t (w_log w) with
  | Registered s => if peer =? peer_of s (w_log w) then Ok (imsi_of s (w_log w)) else Err EInvalidTEID
  | Reserved => Panic
  | Unknown => Err EInvalidTEID
  end.
Proof. exact imsi_teid. Qed.
Example C46_example : exists w, reachable ift10 seven w /\
  get_by_teid w 0 100 5 = Ok 0 /\ get_by_teid w 0 100 6 = Err EInvalidTEID /\ get_by_teid w 0 7 5 = Err EInvalidTEID /\
  get_by_imsi w 0 imsi1 = Some 0 /\ get_by_imsi w 0 imsi2 = None /\ imsi_by_teid w 0 100 5 = Ok imsi1.
Proof. show setup. repeat split. Qed.

(** a session is found under a TEID only if it was registered under it *)
Theorem C46_v2_registered_by_call : forall ift counter l c t s, history ift counter l -> teid_known c t l = Registered s ->
  exists id, In (EvCall id (KRegister c t s)) l \/
    exists a ies i, In (EvCall id (KCreate c s a ies)) l /\
      In (Some i) ies /\ i2_type i = 87 /\ acc_if_type i = Ok (ift c) /\ acc_teid i = Ok t.
Proof.
  intros ift counter l c t s H K. destruct (registered_call ift counter l c t s (history_good _ _ _ H) K) as (id & [I|(a & ies & I & i & Q)]);
    exists id; [now left|right; exists a, ies, i; auto].
Qed.
Theorem C46_v2_imsi_by_call : forall ift counter l c im s, history ift counter l -> imsi_known c im l = Some s ->
  exists id l2 l1, l = l2 ++ EvImsiOn id c im s :: l1 /\ imsi_of s l1 = im /\
    ((exists t, In (EvCall id (KRegister c t s)) l1) \/ exists a ies, In (EvCall id (KCreate c s a ies)) l1).
Proof. intros. eapply imsi_call; eauto using history_good. Qed.

(** RegisterSession makes the session known under the TEID and under its IMSI, and changes
    nothing else *)
Theorem C46_v2_register : forall ift counter w c t s, reachable ift counter w -> w_crashed w = false -> exists_session s (w_log w) ->
  exists w', alone w (KRegister c t s) 4 = Some w' /\ w_crashed w' = false /\
    get_by_teid w' c t (peer_of s (w_log w)) = Ok s /\
    get_by_imsi w' c (imsi_of s (w_log w)) = Some s /\
    get_teid w' s (ift c) = Some t /\
    (forall c' t' peer, c' <> c \/ t' <> t -> get_by_teid w' c' t' peer = get_by_teid w c' t' peer) /\
    (forall c' im, c' <> c \/ im <> imsi_of s (w_log w) -> get_by_imsi w' c' im = get_by_imsi w c' im).
Proof.
  intros ift counter w c t s R C X. destruct (register_alone _ _ w c t s R C X) as (w' & E & C' & L).
  pose proof (reach_alone _ _ _ _ _ _ R E) as R'. exists w'. split; [exact E|]. split; [exact C'|].
  rewrite !(by_teid _ _ w'), !(by_imsi _ _ w'), (get_teid_is _ _ w') by exact R'. rewrite L.
  cbn [teid_known imsi_known teid_of peer_of]. rewrite !N.eqb_refl, bytes_eqb_refl. cbn [andb]. rewrite N.eqb_refl.
  split; [reflexivity|]. split; [reflexivity|]. split; [reflexivity|]. split.
  - intros c' t' peer D. rewrite (by_teid _ _ w _ _ _ R), (by_teid _ _ w' _ _ _ R'), L. cbn [teid_known peer_of].
    destruct (c =? c') eqn:E1; [|reflexivity]. destruct (t =? t') eqn:E2; [|reflexivity]. apply N.eqb_eq in E1, E2. subst. destruct D; congruence.
  - intros c' im D. rewrite (by_imsi _ _ w _ _ R), (by_imsi _ _ w' _ _ R'), L. cbn [imsi_known].
    destruct (c =? c') eqn:E1; [|reflexivity]. destruct (bytes_eqb _ im) eqn:E2; [|reflexivity].
    apply N.eqb_eq in E1. apply bytes_eqb_eq in E2. subst. destruct D; congruence.
Qed.
(** RemoveSession of a session with a local TEID: it is no longer known under that TEID nor
    under its IMSI, and nothing else changes *)
Theorem C46_v2_remove : forall ift counter w c s t, reachable ift counter w -> w_crashed w = false -> exists_session s (w_log w) ->
  get_teid w s (ift c) = Some t ->
  exists w', alone w (KRemove c s) 3 = Some w' /\ w_crashed w' = false /\
    (forall peer, get_by_teid w' c t peer = Err EInvalidTEID) /\
    get_by_imsi w' c (imsi_of s (w_log w)) = None /\
    (forall c' t' peer, c' <> c \/ t' <> t -> get_by_teid w' c' t' peer = get_by_teid w c' t' peer) /\
    (forall c' im, c' <> c \/ im <> imsi_of s (w_log w) -> get_by_imsi w' c' im = get_by_imsi w c' im).
Proof.
  intros ift counter w c s t R C X T. rewrite (get_teid_is _ _ _ _ _ R) in T.
  destruct (remove_alone _ _ w c s t R C X T) as (w' & E & C' & L).
  pose proof (reach_alone _ _ _ _ _ _ R E) as R'. exists w'. split; [exact E|]. split; [exact C'|].
  split; [|split; [|split]].
  - intros peer. rewrite (by_teid _ _ w' _ _ _ R'), L. cbn [teid_known]. now rewrite !N.eqb_refl.
  - rewrite (by_imsi _ _ w' _ _ R'), L. cbn [imsi_known]. now rewrite N.eqb_refl, bytes_eqb_refl.
  - intros c' t' peer D. rewrite (by_teid _ _ w _ _ _ R), (by_teid _ _ w' _ _ _ R'), L. cbn [teid_known peer_of].
    destruct (c =? c') eqn:E1; [|reflexivity]. destruct (t =? t') eqn:E2; [|reflexivity]. apply N.eqb_eq in E1, E2. subst. destruct D; congruence.
  - intros c' im D. rewrite (by_imsi _ _ w _ _ R), (by_imsi _ _ w' _ _ R'), L. cbn [imsi_known].
    destruct (c =? c') eqn:E1; [|reflexivity]. destruct (bytes_eqb _ im) eqn:E2; [|reflexivity].
    apply N.eqb_eq in E1. apply bytes_eqb_eq in E2. subst. destruct D; congruence.
Qed.
(** without a local TEID, every TEID of a session with the same IMSI goes, and the process
    crashes if any TEID is reserved *)
Theorem C46_v2_remove_without_teid : forall ift counter w c s, reachable ift counter w -> w_crashed w = false -> exists_session s (w_log w) ->
  get_teid w s (ift c) = None ->
  exists w', alone w (KRemove c s) 3 = Some w' /\
    (w_crashed w' = true <-> exists t, teid_known c t (w_log w) = Reserved) /\
    (w_crashed w' = false ->
     get_by_imsi w' c (imsi_of s (w_log w)) = None /\
     forall t s', teid_known c t (w_log w') = Registered s' <->
       teid_known c t (w_log w) = Registered s' /\ imsi_of s' (w_log w) <> imsi_of s (w_log w)).
Proof.
  intros ift counter w c s R C X T. rewrite (get_teid_is _ _ _ _ _ R) in T.
  destruct (remove_alone_none _ _ w c s R C X T) as (w' & E & [(Q & C' & L)|(Q & C' & L)]); exists w'; (split; [exact E|]).
  - split; [split; auto|]. congruence.
  - split; [split; [congruence|contradiction]|]. intros _. pose proof (reach_alone _ _ _ _ _ _ R E) as R'. split.
    + rewrite (by_imsi _ _ w' _ _ R'), L. cbn [imsi_known]. now rewrite N.eqb_refl, bytes_eqb_refl.
    + intros t s'. rewrite L. cbn [teid_known imsi_of]. rewrite N.eqb_refl.
      destruct (teid_known c t (w_log w)) as [x| |] eqn:K; [|split; [discriminate|intros [? _]; discriminate]..].
      destruct (bytes_eqb (imsi_of x (w_log w)) (imsi_of s (w_log w))) eqn:B.
      * apply bytes_eqb_eq in B. split; [discriminate|]. intros [[= ->] D]. congruence.
      * apply bytes_eqb_neq in B. split; [intros [= ->]; auto|intros [[= ->] _]; reflexivity].
Qed.
Theorem C46_v2_remove_by_imsi : forall ift counter w c im s t, reachable ift counter w -> w_crashed w = false ->
  get_by_imsi w c im = Some s -> get_teid w s (ift c) = Some t ->
  exists w', alone w (KRemoveImsi c im) 4 = Some w' /\ w_crashed w' = false /\
    (forall peer, get_by_teid w' c t peer = Err EInvalidTEID) /\
    get_by_imsi w' c (imsi_of s (w_log w)) = None /\
    (forall t' peer, t' <> t -> get_by_teid w' c t' peer = get_by_teid w c t' peer) /\
    (forall im', im' <> imsi_of s (w_log w) -> get_by_imsi w' c im' = get_by_imsi w c im').
Proof.
  intros ift counter w c im s t R C K T. rewrite (get_teid_is _ _ _ _ _ R) in T. rewrite (by_imsi _ _ _ _ _ R) in K.
  destruct (remove_imsi_alone _ _ w c im R C) as [_ H]. destruct (H s t K T) as (w' & E & C' & L). clear H.
  pose proof (reach_alone _ _ _ _ _ _ R E) as R'. exists w'. split; [exact E|]. split; [exact C'|].
  split; [|split; [|split]].
  - intros peer. rewrite (by_teid _ _ w' _ _ _ R'), L. cbn [teid_known]. now rewrite !N.eqb_refl.
  - rewrite (by_imsi _ _ w' _ _ R'), L. cbn [imsi_known]. now rewrite N.eqb_refl, bytes_eqb_refl.
  - intros t' peer D. rewrite (by_teid _ _ w _ _ _ R), (by_teid _ _ w' _ _ _ R'), L. cbn [teid_known peer_of].
    rewrite N.eqb_refl. apply N.eqb_neq in D. rewrite N.eqb_sym in D. rewrite D. reflexivity.
  - intros im' D. rewrite (by_imsi _ _ w _ _ R), (by_imsi _ _ w' _ _ R'), L. cbn [imsi_known]. rewrite N.eqb_refl.
    destruct (bytes_eqb _ im') eqn:E2; [|reflexivity]. apply bytes_eqb_eq in E2. congruence.
Qed.
Example C46_register_example : exists w, reachable ift10 seven w /\ w_crashed w = false /\ exists_session 0 (w_log w) /\
  get_teid w 0 (ift10 0) = Some 100 /\ get_teid w 1 (ift10 0) = None /\ exists_session 1 (w_log w) /\ get_by_imsi w 0 imsi1 = Some 0.
Proof.
  show setup. repeat split.
  - exists 5, imsi1, 0. cbn. tauto.
  - exists 6, imsi2, 1. cbn. tauto.
Qed.

(** A session registered under a second TEID stays known under the first one after
    RemoveSession. *)
Theorem C46_v2_second_teid_refuted : forall ift counter w c s t t', reachable ift counter w -> w_crashed w = false ->
  exists_session s (w_log w) -> get_teid w s (ift c) = Some t -> t' <> t -> get_by_teid w c t' (peer_of s (w_log w)) = Ok s ->
  exists w', alone w (KRemove c s) 3 = Some w' /\ get_by_teid w' c t' (peer_of s (w_log w)) = Ok s.
Proof.
  intros ift counter w c s t t' R C X T D K. destruct (C46_v2_remove _ _ _ _ _ _ R C X T) as (w' & E & _ & _ & _ & A & _).
  exists w'. split; [exact E|]. rewrite A by auto. exact K.
Qed.
Example C46_second_teid_example : exists w, reachable ift10 seven w /\ w_crashed w = false /\
  get_teid w 0 (ift10 0) = Some 200 /\ get_by_teid w 0 100 5 = Ok 0 /\ peer_of 0 (w_log w) = 5.
Proof.
  show (setup ++ [LCall (KRegister 0 200 0); LRun 1 true; LRun 1 true; LRun 1 true; LRun 1 true]). repeat split.
Qed.
(** A session whose IMSI was changed stays known under the old one after RemoveSession. *)
Theorem C46_v2_changed_imsi_refuted : forall ift counter w c s t im, reachable ift counter w -> w_crashed w = false ->
  exists_session s (w_log w) -> get_teid w s (ift c) = Some t -> get_by_imsi w c im = Some s -> im <> imsi_of s (w_log w) ->
  exists w', alone w (KRemove c s) 3 = Some w' /\ get_by_imsi w' c im = Some s.
Proof.
  intros ift counter w c s t im R C X T K D. destruct (C46_v2_remove _ _ _ _ _ _ R C X T) as (w' & E & _ & _ & _ & _ & A).
  exists w'. split; [exact E|]. rewrite A by auto. exact K.
Qed.
Example C46_changed_imsi_example : exists w, reachable ift10 seven w /\ get_by_imsi w 0 imsi1 = Some 0 /\ imsi_of 0 (w_log w) = imsi2.
Proof. show (setup ++ [LSet 0 (SImsi imsi2)]). repeat split. Qed.
(** Removing a session removes another one with the same IMSI from the IMSI table, although
    it stays known under its TEID. *)
Theorem C46_v2_same_imsi_refuted : forall ift counter w c s s' t t', reachable ift counter w -> w_crashed w = false ->
  exists_session s (w_log w) -> get_teid w s (ift c) = Some t -> t' <> t ->
  get_by_imsi w c (imsi_of s (w_log w)) = Some s' -> get_by_teid w c t' (peer_of s' (w_log w)) = Ok s' ->
  exists w', alone w (KRemove c s) 3 = Some w' /\ get_by_imsi w' c (imsi_of s (w_log w)) = None /\
    get_by_teid w' c t' (peer_of s' (w_log w)) = Ok s'.
Proof.
  intros ift counter w c s s' t t' R C X T D K1 K2. destruct (C46_v2_remove _ _ _ _ _ _ R C X T) as (w' & E & _ & _ & A1 & A2 & _).
  exists w'. split; [exact E|]. split; [exact A1|]. rewrite A2 by auto. exact K2.
Qed.
Example C46_same_imsi_example : exists w, reachable ift10 seven w /\ w_crashed w = false /\ get_teid w 0 (ift10 0) = Some 100 /\
  get_by_imsi w 0 (imsi_of 0 (w_log w)) = Some 1 /\ get_by_teid w 0 300 (peer_of 1 (w_log w)) = Ok 1.
Proof.
  show (setup ++ [LSet 1 (SImsi imsi1); LCall (KRegister 0 300 1); LRun 1 true; LRun 1 true; LRun 1 true; LRun 1 true]).
  repeat split.
Qed.
(** RegisterSession and RemoveSession of one session at the same time can leave it known
    under its TEID only: both calls have returned. *)
Theorem C46_v2_concurrent_refuted : exists w, reachable ift10 seven w /\ w_threads w = [] /\
  In (EvDone 1) (w_log w) /\ In (EvDone 2) (w_log w) /\
  get_by_teid w 0 100 5 = Err EInvalidTEID /\ get_by_teid w 0 200 5 = Ok 0 /\ get_by_imsi w 0 imsi1 = None.
Proof.
  show (setup ++ [LCall (KRegister 0 200 0); LCall (KRemove 0 0); LRun 1 true; LRun 1 true;
                  LRun 2 true; LRun 2 true; LRun 2 true; LRun 1 true; LRun 1 true]).
  repeat split; tauto.
Qed.

(** the sessions, and how many are active *)
Theorem C46_v2_sessions : forall ift counter w c order, reachable ift counter w -> visits order (c_imsi (w_conns w c)) = true ->
  exists keys, NoDup keys /\ (forall im, In im keys <-> imsi_known c im (w_log w) <> None) /\
    map Some (sessions order) = map (fun im => imsi_known c im (w_log w)) keys /\
    session_count w order =
      List.length (filter (fun im => match imsi_known c im (w_log w) with Some s => active_of s (w_log w) | None => false end) keys).
Proof. exact sessions_is. Qed.
Example C46_sessions_example : exists w, reachable ift10 seven w /\ visits [(imsi1, 0)] (c_imsi (w_conns w 0)) = true /\
  sessions [(imsi1, 0)] = [0] /\ session_count w [(imsi1, 0)] = 1%nat.
Proof. show (setup ++ [LSet 0 (SActive true)]). repeat split. Qed.
(** a session is active only after Activate, which needs an IMSI *)
Theorem C46_v2_activate : forall ift counter l2 s l1, history ift counter (l2 ++ EvSet s (SActive true) :: l1) -> imsi_of s l1 <> [].
Proof. intros ift counter l2 s l1 H. apply history_good in H. apply good_at in H. cbn in H. now rewrite sess_imsi in H. Qed.

(** ** C47 *)
Theorem C47_v2_sequence_range : forall ift counter l2 id c n l1, history ift counter (l2 ++ EvSeq id c n :: l1) -> n <= 8388607.
Proof. intros. eapply seq_small; eauto using history_good. Qed.
(** Two calls draw the same number only if 8388607 others were drawn between them, unless
    DecSequence ran in between. *)
Theorem C47_v2_sequence_distinct_partial : forall ift counter l2 id2 c n2 l1 id1 n1 l0,
  history ift counter (l2 ++ EvSeq id2 c n2 :: l1 ++ EvSeq id1 c n1 :: l0) ->
  (forall i k, ~ In (EvDec i c k) l1) -> n2 = n1 -> (N.to_nat 8388607 <= drawn c l1)%nat.
Proof. intros. eapply seq_distinct; eauto using history_good. Qed.
(** what SendMessageTo writes carries the number it returns, which it drew itself, and is
    the message given to it *)
Theorem C47_v2_sent_number : forall ift counter l2 id c a n b l1, history ift counter (l2 ++ EvSent id c a n b :: l1) ->
  seq_octets b = octets24 n /\
  (exists l3 l4, l1 = l3 ++ EvSeq id c n :: l4 /\ hist id l3 = [] /\ n <= 8388607) /\
  (forall d m, In (EvCall id (KSend c d m a)) l1 ->
   exists m', v2_marshal g2 d (Msg (h2_set_seq (m_hdr m) n) (m_fs m)) = Ok (b, m')).
Proof.
  intros ift counter l2 id c a n b l1 H. apply history_good in H. split; [|split].
  - apply good_at in H as (d & m & h0 & m' & _ & _ & E). unfold v2_marshal, msg_marshal in E. apply bind_ok_inv in E as (k & _ & E).
    apply (mto_seq ift10 seven) in E. exact E.
  - eapply sent_drawn. exact H.
  - intros d m I. apply good_at in H as (d' & m' & h0 & m1 & Eh & S & E).
    assert (In (EvCall id (KSend c d m a)) (EvSeq id c n :: h0)) as I' by (rewrite <- Eh; apply filter_In; split; [exact I|cbn; apply N.eqb_refl]).
    destruct I' as [I'|I']; [discriminate|]. destruct S as [->|(s & ies & h1 & -> & Rg & _)].
    + destruct I' as [I'|[]]. injection I' as <- <-. eauto.
    + apply in_app_or in I' as [I'|[I'|[]]]; [|discriminate]. unfold reg_events in Rg. rewrite Forall_forall in Rg.
      destruct (Rg _ I') as [(? & Q)|(? & Q)]; discriminate.
Qed.
(** the echo response carries the sequence number of the request *)
Theorem C47_v2_echo_reply : forall ift counter l2 id c a b l1, history ift counter (l2 ++ EvReply id c a b :: l1) ->
  exists raw d m, In (EvCall id (KDatagram c a raw)) l1 /\ v2_parse g2 (received raw) = Ok (d, m) /\ md_name d = "EchoRequest"%string /\
    b = echo_octets (counter c) (h2_seq (m_hdr m)).
Proof. intros. eapply reply_is; eauto using history_good. Qed.
(** RespondTo: the response carries the number of the request *)
Theorem C47_v2_response_number : forall d m seq b, respond_bytes d m seq = Ok b -> seq_octets b = octets24 seq.
Proof.
  intros d m seq b H. unfold respond_bytes in H. apply bind_ok_inv in H as (n & _ & H). apply bind_ok_inv in H as ([b' m'] & E & H).
  apply (mto_seq ift10 seven) in E. injection H as <-. exact E.
Qed.
(** an Echo Request with no IEs but Recovery *)
Definition echo_msg : msg2 := match v2_new g2 d_EchoRequest 0 0 [Some (IE2 3 1 0 [9] [])] with Ok m => m | _ => Msg (new_hdr2 0 0 0 0 []) [] end.
Definition echo_octets1 : bytes := [64; 1; 0; 9; 0; 0; 7; 0; 3; 0; 1; 0; 9].
Example C47_example : exists w, reachable ift10 seven w /\
  w_log w = [EvReply 1 0 5 [64; 2; 0; 9; 0; 0; 7; 0; 3; 0; 1; 0; 7];
             EvDispatch 1 0 1 (Some HEchoReq); EvFlag 1 0 true; EvCall 1 (KDatagram 0 5 echo_octets1);
             EvSent 0 0 5 1 [64; 1; 0; 9; 0; 0; 1; 0; 3; 0; 1; 0; 9]; EvSeq 0 0 1; EvCall 0 (KSend 0 d_EchoRequest echo_msg 5); EvOpen 0].
Proof.
  show [LOpen 0; LCall (KSend 0 d_EchoRequest echo_msg 5); LRun 0 true; LRun 0 true;
        LCall (KDatagram 0 5 echo_octets1); LRun 1 true; LRun 1 true; LRun 1 true; LRun 1 true; LRun 1 true].
  vm_compute. reflexivity.
Qed.
(** A send that fails while another one is under way makes two requests carry one number:
    calls 1 and 2 both send number 2, and nobody called DecSequence. *)
Theorem C47_v2_sequence_shared_refuted : exists w, reachable ift10 seven w /\
  exists b, In (EvSent 1 0 5 2 b) (w_log w) /\ In (EvSent 2 0 5 2 b) (w_log w).
Proof.
  show [LOpen 0; LCall (KSend 0 d_EchoRequest echo_msg 5); LCall (KSend 0 d_EchoRequest echo_msg 5);
      LRun 0 true; LRun 1 true; LRun 1 true; LRun 0 false; LRun 0 true; LCall (KSend 0 d_EchoRequest echo_msg 5); LRun 2 true; LRun 2 true].
  exists [64; 1; 0; 9; 0; 0; 2; 0; 3; 0; 1; 0; 9]. split; tauto.
Qed.

(** ** C48 *)
Theorem C48_v2_queue_fifo : forall ift counter l s, history ift counter l ->
  exists rest, queued s l = took s l ++ rest /\ (List.length rest <= 1000)%nat.
Proof.
  intros ift counter l s H. destruct (queue_is ift counter s l (history_good _ _ _ H)) as [A B]. eauto.
Qed.
(** WaitMessage takes the oldest message; it returns it iff its number is the one awaited *)
Theorem C48_v2_wait : forall ift counter l2 id s n m r l1, history ift counter (l2 ++ EvTook id s n m r :: l1) ->
  In (EvCall id (KWait s n)) l1 /\ nth_error (queued s l1) (List.length (took s l1)) = Some m /\
  r = (if qm_seq m =? n then Some m else None).
Proof.
  intros ift counter l2 id s n m r l1 H. apply history_good in H. pose proof (good_at _ _ _ _ _ H) as (E & (q & Q) & ->).
  apply good_app, good_tail in H. destruct (queue_is _ _ s l1 H) as [A _]. split; [now apply call_in|]. split; [|reflexivity].
  rewrite A, Q. rewrite nth_error_app2 by lia. now rewrite Nat.sub_diag.
Qed.
(** PassMessageTo succeeds at once if fewer than 1000 messages wait; WaitMessage if any does *)
Theorem C48_v2_progress : forall ift counter w s id, reachable ift counter w -> w_crashed w = false ->
  (forall m, aget (w_threads w) id = Some (TPass s m) -> (List.length (queued s (w_log w)) < 1000 + List.length (took s (w_log w)))%nat ->
   exists w', step w (LRun id true) = Some w' /\ w_log w' = EvQueued id s m :: w_log w) /\
  (forall n, aget (w_threads w) id = Some (TWait s n) -> queued s (w_log w) <> took s (w_log w) ->
   exists w' m r, step w (LRun id true) = Some w' /\ w_log w' = EvTook id s n m r :: w_log w).
Proof.
  intros ift counter w s id R C. destruct (queue_is _ _ s (w_log w) (reach_good _ _ _ R)) as [A _].
  pose proof (iv_ses _ _ _ (reach_inv _ _ _ R) s) as S. rewrite <- S in A. split.
  - intros m T L. rewrite A, app_length in L. unfold step. rewrite C, T. cbn [run_thread].
    replace (List.length (s_queue (w_sess (ends w id) s)) <? 1000)%nat with true; [eexists; split; reflexivity|]. symmetry. apply Nat.ltb_lt. cbn [w_sess ends]. lia.
  - intros n T L. unfold step. rewrite C, T. cbn [run_thread]. cbn [w_sess ends]. destruct (s_queue (w_sess w s)) as [|m q].
    + exfalso. apply L. now rewrite A, app_nil_r.
    + do 3 eexists. split; reflexivity.
Qed.
Example C48_example : exists w, reachable ift10 seven w /\ queued 0 (w_log w) = [QMsg 1 11; QMsg 2 12] /\ took 0 (w_log w) = [QMsg 1 11] /\
  In (EvTook 3 0 11 (QMsg 1 11) (Some (QMsg 1 11))) (w_log w) /\ aget (w_threads w) 4 = Some (TWait 0 99).
Proof.
  show (setup ++ [LCall (KPass 0 (QMsg 1 11)); LCall (KPass 0 (QMsg 2 12)); LRun 1 true; LRun 2 true; LCall (KWait 0 11); LRun 3 true; LCall (KWait 0 99)]).
  repeat split; tauto.
Qed.
(** A message with another number is taken from the queue and returned to nobody. *)
Theorem C48_v2_mismatch_lost_refuted : forall ift counter l2 id s n m l1, history ift counter (l2 ++ EvTook id s n m None :: l1) ->
  qm_seq m <> n /\ took s (EvTook id s n m None :: l1) = took s l1 ++ [m].
Proof.
  intros ift counter l2 id s n m l1 H. apply history_good, good_at in H as (_ & _ & H). split.
  - destruct (qm_seq m =? n) eqn:E; [discriminate|]. now apply N.eqb_neq.
  - cbn. now rewrite N.eqb_refl.
Qed.
Example C48_mismatch_example : exists w, reachable ift10 seven w /\ In (EvTook 2 0 99 (QMsg 1 11) None) (w_log w).
Proof.
  show (setup ++ [LCall (KPass 0 (QMsg 1 11)); LRun 1 true; LCall (KWait 0 99); LRun 2 true]). tauto.
Qed.

(** ** C49 *)
Theorem C49_v2_bearer_by_name : forall ift counter w s n, reachable ift counter w -> exists_session s (w_log w) ->
  by_name w s n = named s n (w_log w).
Proof. exact by_name_is. Qed.
Theorem C49_v2_ebi_by_name : forall ift counter w s n, reachable ift counter w -> exists_session s (w_log w) ->
  ebi_by_name w s n = match named s n (w_log w) with Some b => ebi_of b (w_log w) | None => 0 end.
Proof. exact ebi_by_name_is. Qed.
Theorem C49_v2_bearer_by_ebi : forall ift counter w s order ebi, reachable ift counter w -> exists_session s (w_log w) ->
  visits order (s_bearers (w_sess w s)) = true ->
  match by_ebi w order ebi with
  | Some b => (exists n, named s n (w_log w) = Some b) /\ ebi_of b (w_log w) = ebi
  | None => forall n b, named s n (w_log w) = Some b -> ebi_of b (w_log w) <> ebi
  end.
Proof. exact by_ebi_is. Qed.
Theorem C49_v2_ebi_by_teid : forall ift counter w s order t, reachable ift counter w -> exists_session s (w_log w) ->
  visits order (s_bearers (w_sess w s)) = true ->
  let has b := in_of b (w_log w) = t \/ out_of b (w_log w) = t in
  (exists n b, named s n (w_log w) = Some b /\ has b /\ ebi_by_teid w order t = ebi_of b (w_log w)) \/
  ((forall n b, named s n (w_log w) = Some b -> ~ has b) /\ ebi_by_teid w order t = 0).
Proof. exact ebi_by_teid_is. Qed.
Theorem C49_v2_name_by_ebi_partial : forall ift counter w s order ebi, reachable ift counter w -> exists_session s (w_log w) ->
  visits order (s_bearers (w_sess w s)) = true ->
  match name_by_ebi (w_brs w) order ebi with
  | Some n => n <> [] /\ exists b, named s n (w_log w) = Some b /\ ebi_of b (w_log w) = ebi
  | None => (forall n b, named s n (w_log w) = Some b -> ebi_of b (w_log w) <> ebi) \/
            exists b, named s [] (w_log w) = Some b /\ ebi_of b (w_log w) = ebi
  end.
Proof. exact name_by_ebi_is. Qed.
Theorem C49_v2_bearers : forall ift counter w s order, reachable ift counter w -> exists_session s (w_log w) ->
  visits order (s_bearers (w_sess w s)) = true ->
  exists names, NoDup names /\ (forall n, In n names <-> named s n (w_log w) <> None) /\
    map Some (bearers order) = map (fun n => named s n (w_log w)) names.
Proof. exact bearers_is. Qed.
Theorem C49_v2_teids : forall ift counter w s i, reachable ift counter w -> get_teid w s i = teid_of s i (w_log w).
Proof. exact get_teid_is. Qed.
(** every visiting order is allowed, so the claims above hold for each *)
Theorem C49_v2_orders : forall order m, visits order m = true <-> Permutation order m.
Proof. intros. split; [apply visits_perm|apply perm_visits]. Qed.
Definition ims : bytes := [105; 109; 115].
Definition with_bearers : list label := setup ++ [LNewBearer 6; LSet 0 (SBearer ims 2); LBSet 0 (BEbi 5); LBSet 2 (BOut 777)].
Example C49_example : exists w, reachable ift10 seven w /\ exists_session 0 (w_log w) /\
  visits [(default_name, 0); (ims, 2)] (s_bearers (w_sess w 0)) = true /\
  by_name w 0 ims = Some 2 /\ ebi_by_name w 0 ims = 6 /\ by_ebi w [(default_name, 0); (ims, 2)] 5 = Some 0 /\
  ebi_by_teid w [(default_name, 0); (ims, 2)] 777 = 6 /\ name_by_ebi (w_brs w) [(ims, 2); (default_name, 0)] 6 = Some ims.
Proof. show with_bearers. split; [exists 5, imsi1, 0; cbn; tauto|]. repeat split. Qed.
(** RemoveBearerByEBI removes a bearer with that EBI *)
Theorem C49_v2_remove_by_ebi_partial : forall ift counter w s ebi order w', reachable ift counter w -> exists_session s (w_log w) ->
  step w (LRemoveBearerByEBI s ebi order) = Some w' ->
  (exists n b, named s n (w_log w) = Some b /\ ebi_of b (w_log w) = ebi /\
     forall n', named s n' (w_log w') = if bytes_eqb n n' then None else named s n' (w_log w)) \/
  w' = w /\ ((forall n b, named s n (w_log w) = Some b -> ebi_of b (w_log w) <> ebi) \/
             exists b, named s [] (w_log w) = Some b /\ ebi_of b (w_log w) = ebi).
Proof.
  intros ift counter w s ebi order w' R X E. unfold step in E. destruct (w_crashed w); [discriminate|].
  destruct ((s <? w_ns w) && visits order (s_bearers (w_sess w s)))%bool eqn:V; [|discriminate]. apply andb_prop in V as [_ V].
  pose proof (name_by_ebi_is _ _ _ _ _ ebi R X V) as H. destruct (name_by_ebi _ _ _) as [n|]; injection E as <-.
  - left. destruct H as (_ & b & H1 & H2). exists n, b. repeat split; auto. intros n'. cbn. now rewrite N.eqb_refl.
  - right. auto.
Qed.
(** A bearer named "" is not found by its EBI by name, and RemoveBearerByEBI leaves it. *)
Theorem C49_v2_unnamed_refuted : exists w, reachable ift10 seven w /\ named 0 [] (w_log w) = Some 2 /\ ebi_of 2 (w_log w) = 6 /\
  forall order, visits order (s_bearers (w_sess w 0)) = true -> name_by_ebi (w_brs w) order 6 = None /\
    step w (LRemoveBearerByEBI 0 6 order) = Some w.
Proof.
  show (setup ++ [LNewBearer 6; LSet 0 (SBearer [] 2)]). split; [reflexivity|]. split; [reflexivity|]. intros order V.
  assert (order = [([], 2); (default_name, 0)] \/ order = [(default_name, 0); ([], 2)]) as [->| ->].
  { apply visits_perm in V. cbn in V. apply Permutation_length_2_inv. now symmetry. }
  - split; vm_compute; reflexivity.
  - split; vm_compute; reflexivity.
Qed.

(** ** C50 *)
(** Every message that gets to the handler table was received in a datagram; validation was
    off, or its TEID is zero, or it was looked up as a session's whose peer is the sender. *)
Theorem C50_v2_validated_partial : forall ift counter l2 id c typ r l1, history ift counter (l2 ++ EvDispatch id c typ r :: l1) ->
  exists from raw d m l3 b l4, l1 = l3 ++ EvFlag id c b :: l4 /\ b = validating c l4 /\
    In (EvCall id (KDatagram c from raw)) l4 /\ v2_parse g2 (received raw) = Ok (d, m) /\ typ = h2_type (m_hdr m) /\
    (b = true -> h2_get_teid (m_hdr m) <> 0 ->
     exists s l5 l6 l7, l3 = l5 ++ EvPassed id c :: l6 ++ EvLook id c (h2_get_teid (m_hdr m)) (Some (Some s)) :: l7 /\
       teid_known c (h2_get_teid (m_hdr m)) (l7 ++ EvFlag id c b :: l4) = Registered s /\
       from = peer_of s (l6 ++ EvLook id c (h2_get_teid (m_hdr m)) (Some (Some s)) :: l7 ++ EvFlag id c b :: l4)).
Proof. intros. eapply dispatched; eauto using history_good. Qed.
(** a message that passes is handled by the handler in force *)
Theorem C50_v2_accepted : forall ift counter w c from raw d m, reachable ift counter w -> w_crashed w = false ->
  opened c (w_log w) = true -> bytes_ok raw ->
  v2_parse g2 (received raw) = Ok (d, m) -> accepts c from (h2_get_teid (m_hdr m)) (w_log w) ->
  exists n w' l, alone w (KDatagram c from raw) n = Some w' /\
    w_log w' = handled (counter c) (w_next w) c from d m (handler_for c (h2_type (m_hdr m)) (w_log w)) :: l /\
    (w_crashed w' = true <-> handler_for c (h2_type (m_hdr m)) (w_log w) = Some HNil).
Proof. exact receive_accepted. Qed.
(** a message for an unknown TEID or from another sender is dropped: no handler is looked up *)
Theorem C50_v2_rejected : forall ift counter w c from raw d m, reachable ift counter w -> w_crashed w = false ->
  opened c (w_log w) = true -> bytes_ok raw ->
  v2_parse g2 (received raw) = Ok (d, m) -> let t := h2_get_teid (m_hdr m) in
  validating c (w_log w) = true -> t <> 0 ->
  (teid_known c t (w_log w) = Unknown \/ exists s, teid_known c t (w_log w) = Registered s /\ peer_of s (w_log w) <> from) ->
  exists w' r, alone w (KDatagram c from raw) 3 = Some w' /\ w_crashed w' = false /\
    w_log w' = EvFail (w_next w) :: EvRejected (w_next w) c :: EvLook (w_next w) c t r :: EvFlag (w_next w) c true ::
               EvCall (w_next w) (KDatagram c from raw) :: w_log w.
Proof.
  intros ift counter w c from raw d m R C O B P t V Z K.
  destruct (receive_rejected _ _ w c from raw d m R C O B P V Z) as (w' & E & H). fold t in H. exists w'.
  destruct K as [K|(s & K & D)]; rewrite K in H.
  - exists None. tauto.
  - exists (Some (Some s)). tauto.
Qed.
(** what cannot be parsed is dropped *)
Theorem C50_v2_unparsable : forall ift counter w c from raw e, reachable ift counter w -> w_crashed w = false ->
  opened c (w_log w) = true -> bytes_ok raw -> v2_parse g2 (received raw) = Err e ->
  exists w', alone w (KDatagram c from raw) 1 = Some w' /\
    w_log w' = EvFail (w_next w) :: EvCall (w_next w) (KDatagram c from raw) :: w_log w.
Proof.
  intros ift counter w c from raw e R C O B P. unfold alone. cbn [repeat].
  rewrite (run_call w _ (TRecv c from (received raw))); [|exact C|].
  - rewrite run_goes by exact C. cbn [run_thread]. rewrite P. eexists. split; reflexivity.
  - cbn. rewrite (reach_open _ _ _ _ R), O. cbn [andb]. replace (forallb octet raw) with true; [reflexivity|].
    symmetry. apply forallb_forall. intros x Hx. unfold octet. apply N.ltb_lt. unfold bytes_ok in B. rewrite Forall_forall in B. exact (B x Hx).
Qed.
(** Delete Session Request for TEID t *)
Definition del_req (version t : N) : bytes := [version * 32 + 8; 36; 0; 13] ++ enc32 t ++ [0; 0; 7; 0; 73; 0; 1; 0; 5].
Example C50_example : exists w, reachable ift10 seven w /\ opened 0 (w_log w) = true /\ validating 0 (w_log w) = true /\
  handler_for 0 36 (w_log w) = Some (HUser 9) /\ accepts 0 5 100 (w_log w) /\ teid_known 0 101 (w_log w) = Unknown /\
  peer_of 0 (w_log w) <> 6 /\
  (exists m, v2_parse g2 (received (del_req 2 100)) = Ok (d_DeleteSessionRequest, m) /\ h2_get_teid (m_hdr m) = 100).
Proof.
  show (setup ++ [LAddHandler 0 36 (HUser 9)]). split; [reflexivity|]. split; [reflexivity|]. split; [reflexivity|].
  split; [right; right; exists 0; split; reflexivity|]. split; [reflexivity|]. split; [discriminate|].
  eexists. split; vm_compute; reflexivity.
Qed.
(** Header.Version() is always 2, so the version is not checked: with validation on, a
    message of any version reaches the handler. *)
Theorem C50_v2_version_refuted : forall v, v < 8 -> exists w m, reachable ift10 seven w /\ validating 0 (w_log w) = true /\
  In (EvCall 1 (KDatagram 0 5 (del_req v 100))) (w_log w) /\ In (EvUser 1 9 d_DeleteSessionRequest m) (w_log w).
Proof.
  intros v L.
  assert (forall v, v < 8 -> match run (start ift10 seven) (setup ++ [LAddHandler 0 36 (HUser 9); LCall (KDatagram 0 5 (del_req v 100));
    LRun 1 true; LRun 1 true; LRun 1 true; LRun 1 true; LRun 1 true]) with
    | Some w => exists m l, w_log w = EvUser 1 9 d_DeleteSessionRequest m :: l /\ validating 0 (w_log w) = true /\ In (EvCall 1 (KDatagram 0 5 (del_req v 100))) (w_log w)
    | None => False end) as H.
  { intros x Lx. assert (x = 0 \/ x = 1 \/ x = 2 \/ x = 3 \/ x = 4 \/ x = 5 \/ x = 6 \/ x = 7) as D by lia.
    repeat destruct D as [->|D]; try subst x; vm_compute; (eexists; eexists; split; [reflexivity|]); split; try reflexivity; tauto. }
  specialize (H v L). destruct (run _ _) as [w|] eqn:E; [|contradiction]. destruct H as (m & l & Lg & V & I). exists w, m.
  split; [eexists; exact E|]. split; [exact V|]. split; [exact I|]. rewrite Lg. now left.
Qed.

(** ** C45 *)
Theorem C45_v2_handler_invoked : forall ift counter l2 id k d m l1, history ift counter (l2 ++ EvUser id k d m :: l1) ->
  exists c l3 l4, l1 = l3 ++ EvDispatch id c (h2_type (m_hdr m)) (Some (HUser k)) :: l4 /\
    handler_for c (h2_type (m_hdr m)) l4 = Some (HUser k).
Proof. intros. eapply user_handler; eauto using history_good. Qed.
Theorem C45_v2_handler_lookup : forall ift counter l2 id c typ r l1, history ift counter (l2 ++ EvDispatch id c typ r :: l1) ->
  r = handler_for c typ l1.
Proof. intros. eapply dispatch_is; eauto using history_good. Qed.
Theorem C45_v2_no_handler : forall ift counter l2 id c typ l1, history ift counter (l2 ++ EvDispatch id c typ None :: l1) ->
  (forall k d m, ~ In (EvUser id k d m) l2) /\ (forall c' a b, ~ In (EvReply id c' a b) l2).
Proof. intros. eapply no_handler; eauto using history_good. Qed.
Example C45_v2_example : exists w, reachable ift10 seven w /\
  handler_for 0 36 (w_log w) = Some (HUser 8) /\ handler_for 0 1 (w_log w) = Some HEchoReq /\ handler_for 0 37 (w_log w) = None /\
  exists m l, w_log w = EvUser 1 8 d_DeleteSessionRequest m :: l.
Proof.
  show (setup ++ [LAddHandler 0 36 (HUser 9); LAddHandler 0 36 (HUser 8); LCall (KDatagram 0 5 (del_req 2 100)); LRun 1 true; LRun 1 true; LRun 1 true; LRun 1 true; LRun 1 true]).
  split; [reflexivity|]. split; [reflexivity|]. split; [reflexivity|]. eexists. eexists. reflexivity.
Qed.

(** ** C51 *)
Theorem C51_v2_allocated : forall ift counter l2 id c t r l1, history ift counter (l2 ++ EvFTEID id c t r :: l1) ->
  exists v4 v6 l3 l4, l1 = l3 ++ EvReserved id c t :: l4 /\ In (EvCall id (KNewFTEID c v4 v6)) l4 /\
    r = new_fteid g2 (ift c) t v4 v6 /\ t <> 0 /\ t < 4294967296 /\ teid_known c t l4 = Unknown.
Proof.
  intros ift counter l2 id c t r l1 H. apply history_good in H.
  destruct (fteid_is _ _ _ _ _ _ _ _ H) as (v4 & v6 & l3 & l4 & -> & I & E). exists v4, v6, l3, l4.
  apply good_app, good_tail, reserved_new in H. tauto.
Qed.
(** a TEID is handed out twice only if RemoveSession released it in between *)
Theorem C51_v2_not_reused : forall ift counter l2 id2 c t l1 id1 l0,
  history ift counter (l2 ++ EvReserved id2 c t :: l1 ++ EvReserved id1 c t :: l0) ->
  exists e, In e l1 /\ ((exists i, e = EvTeidOff i c t) \/ exists i im, e = EvOffByImsi i c im).
Proof. intros. eapply reserved_once; eauto using history_good. Qed.
Theorem C51_v2_gives_up : forall ift counter l2 id c l1, history ift counter (l2 ++ EvNoFTEID id c :: l1) ->
  List.length (filter (fun e => match e with EvMiss i _ _ => i =? id | _ => false end) l1) = N.to_nat attempts.
Proof. intros. eapply gave_up; eauto using history_good. Qed.
Theorem C51_v2_misses : forall ift counter l2 id c t l1, history ift counter (l2 ++ EvMiss id c t :: l1) ->
  t = 0 \/ teid_known c t l1 <> Unknown.
Proof. intros. eapply miss_is; eauto using history_good. Qed.
Example C51_example : exists w, reachable ift10 seven w /\
  w_log w = [EvFTEID 1 0 55 (new_fteid g2 10 55 (Some [1; 2; 3; 4]) None); EvReserved 1 0 55; EvMiss 1 0 100; EvMiss 1 0 0;
             EvCall 1 (KNewFTEID 0 (Some [1; 2; 3; 4]) None);
             EvDone 0; EvSet 0 (STeid 10 100); EvImsiOn 0 0 imsi1 0; EvTeidOn 0 0 100 0; EvCall 0 (KRegister 0 100 0);
             EvSession 1 6 imsi2 1; EvSession 0 5 imsi1 0; EvOpen 0].
Proof.
  show (setup ++ [LCall (KNewFTEID 0 (Some [1; 2; 3; 4]) None); LTry 1 0; LTry 1 100; LTry 1 55; LRun 1 true]).
  vm_compute. reflexivity.
Qed.
(** Any message for a TEID which NewSenderFTEID handed out and which is not registered yet
    crashes the process. *)
Theorem C51_v2_reserved_crash_refuted : forall ift counter w c from raw d m, reachable ift counter w -> w_crashed w = false ->
  opened c (w_log w) = true -> bytes_ok raw -> v2_parse g2 (received raw) = Ok (d, m) ->
  validating c (w_log w) = true -> h2_get_teid (m_hdr m) <> 0 -> teid_known c (h2_get_teid (m_hdr m)) (w_log w) = Reserved ->
  exists w', alone w (KDatagram c from raw) 3 = Some w' /\ w_crashed w' = true.
Proof.
  intros ift counter w c from raw d m R C O B P V Z K.
  destruct (receive_rejected _ _ w c from raw d m R C O B P V Z) as (w' & E & H). rewrite K in H. eauto.
Qed.
Example C51_crash_example : exists w, reachable ift10 seven w /\ w_crashed w = false /\ opened 0 (w_log w) = true /\
  validating 0 (w_log w) = true /\ teid_known 0 55 (w_log w) = Reserved /\
  exists m, v2_parse g2 (received (del_req 2 55)) = Ok (d_DeleteSessionRequest, m) /\ h2_get_teid (m_hdr m) = 55.
Proof.
  show (setup ++ [LCall (KNewFTEID 0 (Some [1; 2; 3; 4]) None); LTry 1 55; LRun 1 true]).
  do 4 (split; [reflexivity|]). eexists. split; vm_compute; reflexivity.
Qed.

(** ** C59 *)
(** the process crashes only for one of these reasons *)
Theorem C59_v2_crash_causes : forall ift counter id l, history ift counter (EvPanic id :: l) ->
  (* a connection was closed twice *)
  (exists c, closed_ev c l = true) \/
  (* CreateSession was given an IE which cannot be decoded, or a message that cannot be built *)
  (exists c s a ies, In (EvCall id (KCreate c s a ies)) l /\
     ((exists i, In (Some i) ies /\ snd (create_ie (ift c) i) = Panics) \/ v2_new g2 d_CreateSessionRequest 0 0 ies = Panic)) \/
  (* RemoveSession, while a TEID was reserved *)
  (exists c s t, (In (EvCall id (KRemove c s)) l \/ exists im, In (EvCall id (KRemoveImsi c im)) l) /\ teid_known c t l = Reserved) \/
  (* a message was sent which cannot be marshalled, or on a connection not opened *)
  (exists c d m a n, ((In (EvCall id (KSend c d m a)) l \/ exists s ies, In (EvCall id (KCreate c s a ies)) l) /\
     (v2_marshal g2 d (Msg (h2_set_seq (m_hdr m) n) (m_fs m)) = Panic \/ opened c l = false))) \/
  (* a datagram for a reserved TEID, or for which a nil handler was registered *)
  (exists c from raw, In (EvCall id (KDatagram c from raw)) l /\
     ((exists d m l2 l1, v2_parse g2 (received raw) = Ok (d, m) /\
         l = l2 ++ EvLook id c (h2_get_teid (m_hdr m)) (Some None) :: l1 /\ teid_known c (h2_get_teid (m_hdr m)) l1 = Reserved) \/
      (exists typ l2 l1, l = l2 ++ EvDispatch id c typ (Some HNil) :: l1 /\ handler_for c typ l1 = Some HNil))).
Proof. intros ift counter id l H. eapply crash_is. apply history_good. exact H. Qed.
(** hence no datagram crashes it if every TEID handed out is registered and no handler is nil *)
Theorem C59_v2_no_crash_by_datagram : forall ift counter id l c from raw, history ift counter (EvPanic id :: l) ->
  In (EvCall id (KDatagram c from raw)) l ->
  (forall i t, ~ In (EvReserved i c t) l) -> (forall t, ~ In (EvHandler c t HNil) l) -> (exists c', closed_ev c' l = true).
Proof.
  intros ift counter id l c from raw H I NR NH. pose proof (good_tail _ _ _ _ (history_good _ _ _ H)) as G.
  apply C59_v2_crash_causes in H. destruct H as [H|[(c' & s & a & ies & J & _)|[(c' & s & t & [J|(im & J)] & _)|
    [(c' & d & m & a & n & [J|(s & ies & J)] & _)|(c' & f & r & J & H)]]]]; [exact H|..]; pose proof (one_call _ _ _ _ _ _ G I J) as X;
    try discriminate; injection X as <- <- <-.
  destruct H as [(d & m & l2 & l1 & _ & -> & K)|(typ & l2 & l1 & -> & K)].
  - apply reserved_in in K as (i & K). destruct (NR i (h2_get_teid (m_hdr m))). apply in_or_app. right. now right.
  - apply handler_in in K as [K|K].
    + exfalso. unfold handler_default in K. repeat (destruct (typ =? _); [discriminate|]). discriminate.
    + destruct (NH typ). apply in_or_app. right. now right.
Qed.
Example C59_example : exists w, reachable ift10 seven w /\ exists l, w_log w = EvPanic 0 :: l /\ closed_ev 0 l = true.
Proof. show [LOpen 0; LClose 0; LClose 0]. eexists. split; reflexivity. Qed.

Print Assumptions C46_v2_session_by_teid.
Print Assumptions C46_v2_session_by_imsi.
Print Assumptions C46_v2_imsi_by_teid.
Print Assumptions C46_v2_registered_by_call.
Print Assumptions C46_v2_imsi_by_call.
Print Assumptions C46_v2_register.
Print Assumptions C46_v2_remove.
Print Assumptions C46_v2_remove_without_teid.
Print Assumptions C46_v2_remove_by_imsi.
Print Assumptions C46_v2_second_teid_refuted.
Print Assumptions C46_v2_changed_imsi_refuted.
Print Assumptions C46_v2_same_imsi_refuted.
Print Assumptions C46_v2_concurrent_refuted.
Print Assumptions C46_v2_sessions.
Print Assumptions C46_v2_activate.
Print Assumptions C47_v2_sequence_range.
Print Assumptions C47_v2_sequence_distinct_partial.
Print Assumptions C47_v2_sent_number.
Print Assumptions C47_v2_echo_reply.
Print Assumptions C47_v2_response_number.
Print Assumptions C47_v2_sequence_shared_refuted.
Print Assumptions C48_v2_queue_fifo.
Print Assumptions C48_v2_wait.
Print Assumptions C48_v2_progress.
Print Assumptions C48_v2_mismatch_lost_refuted.
Print Assumptions C49_v2_bearer_by_name.
Print Assumptions C49_v2_ebi_by_name.
Print Assumptions C49_v2_bearer_by_ebi.
Print Assumptions C49_v2_ebi_by_teid.
Print Assumptions C49_v2_name_by_ebi_partial.
Print Assumptions C49_v2_bearers.
Print Assumptions C49_v2_teids.
Print Assumptions C49_v2_orders.
Print Assumptions C49_v2_remove_by_ebi_partial.
Print Assumptions C49_v2_unnamed_refuted.
Print Assumptions C50_v2_validated_partial.
Print Assumptions C50_v2_accepted.
Print Assumptions C50_v2_rejected.
Print Assumptions C50_v2_unparsable.
Print Assumptions C50_v2_version_refuted.
Print Assumptions C45_v2_handler_invoked.
Print Assumptions C45_v2_handler_lookup.
Print Assumptions C45_v2_no_handler.
Print Assumptions C51_v2_allocated.
Print Assumptions C51_v2_not_reused.
Print Assumptions C51_v2_gives_up.
Print Assumptions C51_v2_misses.
Print Assumptions C51_v2_reserved_crash_refuted.
Print Assumptions C59_v2_crash_causes.
Print Assumptions C59_v2_no_crash_by_datagram.
