(** The procedures of a session that is set up (SessReq.v): C64. *)
From Coq Require Import String Lia.
From Verif Require Import Base BaseLemmas Maps Utils V2IE V2IESpec V2IEProofs V2Header MsgModel MsgSpec MsgProofs MsgProofs2 MsgProofs3 Msgs2Gen V2Msg V2MsgProofs V2Codec V2Codec2
  CPlane CSpec CSpec2 CPlaneProofs CPlaneProofs2 CPlaneProofs3 CPlaneProofs4 CPlaneProofs5 PropertiesC SessReq SessReqProofs.
Open Scope N_scope.
Open Scope list_scope.

(** the message type of each procedure, TS 29.274 table 6.1-1 *)
Definition request_type (p : procedure) : N := match p with DeleteSession => 36 | ModifyBearer => 34 | DeleteBearer => 99 end.

(** DeleteSession, ModifyBearer and DeleteBearer, not interrupted, on an open connection:
    one message is sent, to the session's peer, under the connection's next sequence number;
    it is the request of the procedure with the TEID and the fields that the IEs given
    make; no session and no bearer changes, and every session is found as before *)
Theorem C64_v2_request : forall ift counter w p c teid s ies, reachable ift counter w -> w_crashed w = false -> opened c (w_log w) = true ->
  teid < 4294967296 -> Forall (wf2 g2) (nonnil ies) -> N.of_nat (12 + len (flat_map (wire2 g2) (nonnil ies))) < 65536 ->
  exists w' m raw m1 e, v2_new g2 (request_of p) teid 0 ies = Ok m /\
    run_procedure w p c teid s ies 2 = Some w' /\ w_crashed w' = false /\
    (let n := next_number (last_seq c (w_log w)) in
     w_log w' = EvSent (w_next w) c (peer_of s (w_log w)) n raw :: EvSeq (w_next w) c n :: EvCall (w_next w) e :: w_log w /\
     v2_parse g2 raw = Ok (request_of p, m1) /\ h2_type (m_hdr m1) = request_type p /\ h2_get_teid (m_hdr m1) = teid /\
     h2_seq (m_hdr m1) = n /\ m_fs m1 = m_fs m) /\
    w_sess w' = w_sess w /\ w_brs w' = w_brs w /\
    (forall c' t peer, get_by_teid w' c' t peer = get_by_teid w c' t peer) /\ (forall c' im, get_by_imsi w' c' im = get_by_imsi w c' im).
Proof.
  intros ift counter w p c teid s ies R C O Ht Hf Hl. destruct (request_built p) as (Hb & a & b & Ec).
  destruct (built_octets g2 _ teid ies _ _ _ Hb Ec Ht Hf Hl) as (m & M & _ & B).
  destruct (seq24 ift counter w c R) as [S24 _]. destruct (B _ S24) as (raw & m1 & B1 & B2 & B3 & B4 & B5 & B6 & B7 & B8).
  destruct (send_alone ift counter w c _ m (peer_of s (w_log w)) _ raw m1 R C O eq_refl B1) as (w' & W1 & W2 & W3 & W4 & W5 & W6 & W7).
  exists w', m, raw, m1, (KSend c (request_of p) m (peer_of s (w_log w))). split; [exact M|]. split.
  { unfold run_procedure, procedure_call. rewrite M. cbn [bind]. rewrite (reach_peer _ _ _ _ R). exact W1. }
  split; [exact W2|]. cbv zeta. split; [repeat split; assumption|]. split; [exact W5|]. split; [exact W6|]. split.
  - intros c' t peer. unfold get_by_teid. rewrite W5, W7. unfold upd. destruct (c' =? c) eqn:Q; [|reflexivity]. apply N.eqb_eq in Q. subst c'. reflexivity.
  - intros c' im. unfold get_by_imsi. rewrite W7. unfold upd. destruct (c' =? c) eqn:Q; [|reflexivity]. apply N.eqb_eq in Q. subst c'. reflexivity.
Qed.
Print Assumptions C64_v2_request.
(** a Linked EBI, the session's own F-TEID *)
Definition r_ies : list (option ie2) := [Some (new_ebi g2 5); None; match new_fteid g2 10 4660 (Some [127; 0; 0; 1]) None with Ok i => i | _ => None end].
Example C64_request_example : exists w, reachable ift10 seven w /\ (* the hypotheses are met *)
  (w_crashed w = false /\ opened 0 (w_log w) = true /\ (N.of_nat (12 + len (flat_map (wire2 g2) (nonnil r_ies))) <? 65536) = true /\
   match run_procedure w DeleteSession 0 77 0 r_ies 2 with
   | Some w' => match w_log w' with
                | EvSent 1 0 5 1 raw :: _ => raw = [72; 36; 0; 26; 0; 0; 0; 77; 0; 0; 1; 0; 73; 0; 1; 0; 5; 87; 0; 9; 0; 138; 0; 0; 18; 52; 127; 0; 0; 1]
                | _ => False end
   | None => False end).
Proof. show setup. repeat split. Qed.
Example C64_request_wf : Forall (wf2 g2) (nonnil r_ies).
Proof. repeat constructor. Qed.

(** RespondTo: whatever sequence number the response was made with, it leaves as the message
    that was made, under the sequence number of the message received *)
Theorem C64_v2_respond : forall d a b rt teid seq ies (m : msg2), In d built2 -> md_ctor d = Ctor 2 a b rt true -> teid < 4294967296 ->
  Forall (wf2 g2) (nonnil ies) -> N.of_nat (12 + len (flat_map (wire2 g2) (nonnil ies))) < 65536 -> h2_seq (m_hdr m) < 16777216 ->
  exists r raw m1, v2_new g2 d teid seq ies = Ok r /\ response d teid seq ies m = Ok raw /\ bytes_ok raw /\
    (len raw <= 12 + len (flat_map (wire2 g2) (nonnil ies)))%nat /\
    v2_parse g2 raw = Ok (d, m1) /\ h2_type (m_hdr m1) = rt /\ h2_get_teid (m_hdr m1) = teid /\
    h2_seq (m_hdr m1) = h2_seq (m_hdr m) /\ m_fs m1 = m_fs r.
Proof.
  intros d a b rt teid seq ies m Hb Ec Ht Hf Hl Hs. destruct (built_octets g2 d teid ies _ _ _ Hb Ec Ht Hf Hl) as (m0 & M & _ & B).
  destruct (B _ Hs) as (raw & m1 & B1 & B2 & B3 & B4 & B5 & B6 & B7 & B8). pose proof (new_seq _ _ _ _ _ seq _ _ _ _ _ Ec M) as Mn.
  exists (Msg (h2_set_seq (m_hdr m0) seq) (m_fs m0)), raw, m1. split; [exact Mn|]. split.
  { unfold response. rewrite Mn. cbn [bind]. unfold respond_bytes. cbn [m_hdr m_fs]. cbv zeta.
    unfold v2_marshal, msg_marshal in B1. apply bind_ok_inv in B1 as (k & K1 & K2). unfold v2_len, v2_mto.
    replace (h2_set_seq (h2_set_seq (m_hdr m0) seq) (h2_seq (m_hdr m))) with (h2_set_seq (m_hdr m0) (h2_seq (m_hdr m))) by reflexivity.
    rewrite K1. cbn [bind]. rewrite K2. reflexivity. }
  repeat split; assumption.
Qed.
Print Assumptions C64_v2_respond.

(** End to end.  The peer answers the request from its handler, with RespondTo; the answer
    reaches this side's handler under the sequence number that the call returned.  The two
    connections may belong to one process or to two: nothing relates them but the octets. *)
Theorem C64_v2_transaction : forall ift counter w p c teid s ies c2 a1 k2 d x y rt teid2 seq2 ies2 a2 k1,
  reachable ift counter w -> w_crashed w = false -> opened c (w_log w) = true -> opened c2 (w_log w) = true ->
  (* the request *)
  teid < 4294967296 -> Forall (wf2 g2) (nonnil ies) -> (12 + len (flat_map (wire2 g2) (nonnil ies)) <= 1500)%nat ->
  (* the peer takes it *)
  handler_for c2 (request_type p) (w_log w) = Some (HUser k2) -> accepts c2 a1 teid (w_log w) ->
  (* the response *)
  In d built2 -> md_ctor d = Ctor 2 x y rt true -> teid2 < 4294967296 -> Forall (wf2 g2) (nonnil ies2) ->
  (12 + len (flat_map (wire2 g2) (nonnil ies2)) <= 1500)%nat ->
  (* this side takes it *)
  handler_for c rt (w_log w) = Some (HUser k1) -> accepts c a2 teid2 (w_log w) ->
  exists w1 raw l1 n2 w2 m1 l2 raw2 n3 w3 m2 l3,
    let n := next_number (last_seq c (w_log w)) in
    run_procedure w p c teid s ies 2 = Some w1 /\ w_log w1 = EvSent (w_next w) c (peer_of s (w_log w)) n raw :: l1 /\
    alone w1 (KDatagram c2 a1 raw) n2 = Some w2 /\ w_log w2 = EvUser (w_next w1) k2 (request_of p) m1 :: l2 /\
    h2_seq (m_hdr m1) = n /\ h2_get_teid (m_hdr m1) = teid /\
    (exists r, v2_new g2 (request_of p) teid 0 ies = Ok r /\ m_fs m1 = m_fs r) /\
    response d teid2 seq2 ies2 m1 = Ok raw2 /\
    alone w2 (KDatagram c a2 raw2) n3 = Some w3 /\ w_log w3 = EvUser (w_next w2) k1 d m2 :: l3 /\
    h2_seq (m_hdr m2) = n /\ h2_get_teid (m_hdr m2) = teid2 /\
    (exists r, v2_new g2 d teid2 seq2 ies2 = Ok r /\ m_fs m2 = m_fs r).
Proof.
  intros ift counter w p c teid s ies c2 a1 k2 d x y rt teid2 seq2 ies2 a2 k1 R C O O2 Ht Hf Hl H2 A2 Hb Ec Ht2 Hf2 Hl2 H1 A1.
  destruct (request_built p) as (Hbp & a & b & Ecp).
  destruct (built_octets g2 _ teid ies _ _ _ Hbp Ecp Ht Hf ltac:(lia)) as (m & M & _ & B).
  destruct (seq24 ift counter w c R) as [S24 _]. destruct (B _ S24) as (raw & m1 & B1 & B2 & B3 & B4 & B5 & B6 & B7 & B8). clear B.
  set (n := next_number (last_seq c (w_log w))) in *.
  destruct (send_alone ift counter w c _ m (peer_of s (w_log w)) n raw m1 R C O eq_refl B1) as (w1 & W1 & W2 & W3 & W4 & W5 & W6 & W7).
  assert (P1 : run_procedure w p c teid s ies 2 = Some w1).
  { unfold run_procedure, procedure_call. rewrite M. cbn [bind]. rewrite (reach_peer _ _ _ _ R). exact W1. }
  pose proof (reach_run _ _ _ _ _ R W1) as R1.
  assert (Q1 : exists q, w_log w1 = q ++ w_log w /\ forallb quiet q = true).
  { eexists [_; _; _]. split; [exact W3|reflexivity]. }
  destruct Q1 as (q & Q1 & Q2).
  assert (Rc : received raw = raw) by (unfold received; apply firstn_all2; lia).
  destruct (receive_user ift counter w1 c2 a1 raw (request_of p) m1 k2) as (n2 & w2 & l0 & V1 & V2 & V3 & V4); try assumption.
  { rewrite Q1. now rewrite quiet_opened. }
  { rewrite Rc. exact B4. }
  { rewrite B7, Q1. now apply quiet_accepts. }
  { rewrite B8, Q1, quiet_handler by exact Q2. replace (type_of p) with (request_type p) by (now destruct p). exact H2. }
  pose proof (reach_run _ _ _ _ _ R1 V1) as R2.
  assert (Q3 : w_log w2 = (EvUser (w_next w1) k2 (request_of p) m1 :: l0 ++ q) ++ w_log w).
  { rewrite V3, Q1. cbn [app]. now rewrite app_assoc. }
  assert (Q4 : forallb quiet (EvUser (w_next w1) k2 (request_of p) m1 :: l0 ++ q) = true).
  { cbn [forallb quiet andb]. rewrite forallb_app, V4, Q2. reflexivity. }
  destruct (C64_v2_respond d x y rt teid2 seq2 ies2 m1 Hb Ec Ht2 Hf2 ltac:(lia)) as (r & raw2 & m2 & D1 & D2 & D3 & D4 & D5 & D6 & D7 & D8 & D9).
  { rewrite B6. exact S24. }
  assert (Rc2 : received raw2 = raw2) by (unfold received; apply firstn_all2; lia).
  destruct (receive_user ift counter w2 c a2 raw2 d m2 k1) as (n3 & w3 & l3 & U1 & U2 & U3 & U4); try assumption.
  { rewrite Q3. now rewrite quiet_opened. }
  { rewrite Rc2. exact D5. }
  { rewrite D7, Q3. now apply quiet_accepts. }
  { rewrite D6, Q3, quiet_handler by exact Q4. exact H1. }
  exists w1, raw, (EvSeq (w_next w) c n :: EvCall (w_next w) (KSend c (request_of p) m (peer_of s (w_log w))) :: w_log w), n2, w2, m1, (l0 ++ w_log w1), raw2, n3, w3, m2, (l3 ++ w_log w2).
  cbv zeta. split; [exact P1|]. split; [exact W3|]. split; [exact V1|]. split; [exact V3|]. split; [exact B6|]. split; [exact B7|].
  split; [exists m; now split|]. split; [exact D2|]. split; [exact U1|]. split; [exact U3|]. split; [congruence|]. split; [exact D7|].
  exists r. now split.
Qed.
Print Assumptions C64_v2_transaction.

(** connection 0 with session 0 (peer 5, TEID 100), connection 1 where TEID 200 is that of
    session 2 (peer 6); handler 8 answers on connection 1, handler 9 waits on connection 0 *)
Definition two_ends : list label :=
  setup ++ [LOpen 1; LNewSession 6 imsi2; LCall (KRegister 1 200 2); LRun 1 true; LRun 1 true; LRun 1 true; LRun 1 true;
            LAddHandler 1 36 (HUser 8); LAddHandler 0 37 (HUser 9)].
Definition r_cause : list (option ie2) := [Some (IE2 2 2 0 [16; 0] [])].
Example C64_transaction_example : exists w, reachable ift10 seven w /\ (* the hypotheses are met *)
  (w_crashed w = false /\ opened 0 (w_log w) = true /\ opened 1 (w_log w) = true /\
   handler_for 1 36 (w_log w) = Some (HUser 8) /\ teid_known 1 200 (w_log w) = Registered 2 /\ peer_of 2 (w_log w) = 6 /\
   handler_for 0 37 (w_log w) = Some (HUser 9) /\ teid_known 0 100 (w_log w) = Registered 0 /\ peer_of 0 (w_log w) = 5).
Proof. show two_ends. repeat split. Qed.
Example C64_response_built : In d_DeleteSessionResponse built2 /\ (exists a b, md_ctor d_DeleteSessionResponse = Ctor 2 a b 37 true) /\
  Forall (wf2 g2) (nonnil r_cause).
Proof.
  split; [|split; [do 2 eexists; reflexivity|repeat constructor]].
  unfold built2. rewrite filter_In. split; [|vm_compute; reflexivity]. unfold all_msgs2. repeat first [left; reflexivity|right].
Qed.
(** what travels back *)
Example C64_response_example : match v2_new g2 d_DeleteSessionRequest 200 1 r_ies with
  | Ok m => response d_DeleteSessionResponse 100 9 r_cause m = Ok [72; 37; 0; 14; 0; 0; 0; 100; 0; 0; 1; 0; 2; 0; 2; 0; 16; 0] | _ => False end.
Proof. vm_compute. reflexivity. Qed.
