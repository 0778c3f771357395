(** The user plane does answer: runs of one datagram from any reachable state. *)
From Coq Require Import String Lia.
From Verif Require Import Maps MapsProofs Base BaseLemmas TvIE V1Header V2IE V2Codec MsgModel Msgs1Gen V1Msg
  V1HeaderSpec V1HeaderProofs MsgSpec MsgProofs V1MsgProofs TpduProofs UPlane USpec UPlaneProofs UPlaneProofs2.
Open Scope N_scope.
Open Scope list_scope.

Lemma aget_put {A} (m : amap A) k v : aget (aput m k v) k = Some v.
Proof. rewrite aget_aput, N.eqb_refl. reflexivity. Qed.
Lemma run_cons w l ls w1 w' : step w l = Some w1 -> run w1 ls = w' -> run w (l :: ls) = w'.
Proof. intros E. cbn. now rewrite E. Qed.
Lemma step_run w id th ok : w_crashed w = false -> aget (w_threads w) id = Some th ->
  step w (LRun id ok) = run_thread w id th ok.
Proof. intros C E. unfold step. now rewrite C, E. Qed.
Lemma ok_octets d : bytes_ok d -> forallb octet d = true.
Proof. intros H. apply forallb_forall. intros x Hx. apply N.ltb_lt. unfold bytes_ok in H. rewrite Forall_forall in H. exact (H x Hx). Qed.
Lemma step_datagram w c from d : w_crashed w = false -> u_open (w_conns w c) = true -> bytes_ok d ->
  step w (LDatagram c from d) =
  Some (emit (spawn w (TRecv c from (received d))) (EvRecv (w_next w) c from d)).
Proof. intros C O H. unfold step. now rewrite C, O, (ok_octets d H). Qed.
Lemma received_short d : (len d <= 1500)%nat -> received d = d.
Proof. intros H. now apply firstn_all2. Qed.

Ltac next := eapply run_cons; [rewrite step_run with (1 := eq_refl) (2 := aget_put _ _ _); cbn [run_thread]|].

Section Reachable.
Context (local : N -> option bytes) (ls : list label) (w : world).
Context (HL : locals_ok local) (HR : run (start local) ls = Some w) (HC : w_crashed w = false).
Let I : inv local w := reachable_inv local ls w HL HR.

Lemma relay_progress c from d t p : opened c (w_log w) = true -> opened (p_conn p) (w_log w) = true ->
  relay_for c t (w_log w) = Some p -> bytes_ok d -> (len d <= 1500)%nat -> t < 4294967296 -> gpdu_for t d ->
  exists w', run w [LDatagram c from d; LRun (w_next w) true; LRun (w_next w) true; LRun (w_next w) true] = Some w' /\
    w_log w' = EvRelayed (w_next w) (p_conn p) (p_addr p) (readdressed (p_teid p) d) ::
               EvLookup (w_next w) c t (Some p) :: EvRecv (w_next w) c from d :: w_log w.
Proof.
  intros O1 O2 Rl Hb Ld Ht G. pose proof (gpdu_relay_read d t Ht G) as (E1 & E2 & E4).
  destruct (iv_con _ _ I c) as (_ & _ & C3 & _ & _ & C6 & _).
  destruct (iv_con _ _ I (p_conn p)) as (_ & _ & _ & _ & _ & D6 & _).
  eexists. split.
  - eapply run_cons; [apply step_datagram; auto; now rewrite C6|].
    rewrite (received_short d Ld).
    eapply run_cons.
    { rewrite (step_run _ (w_next w) (TRecv c from d)); [|exact HC|apply aget_put]. cbn [run_thread emit spawn w_conns w_threads w_next].
      destruct (u_relay (w_conns w c)) eqn:Eu.
      - exfalso. pose proof (C3 t) as X. cbn in X. congruence.
      - rewrite E1, N.eqb_refl. rewrite (proj2 (Nat.ltb_ge (len d) 11) E2). reflexivity. }
    eapply run_cons.
    { rewrite (step_run _ (w_next w) (TLookup c from d)); [|exact HC|apply aget_put]. cbn [run_thread emit spawn goes w_conns w_threads w_next].
      rewrite E4, C3, Rl. reflexivity. }
    eapply run_cons.
    { rewrite (step_run _ (w_next w) (TRelay p d)); [|exact HC|apply aget_put]. cbn [run_thread emit spawn goes w_conns w_threads w_next].
      destruct (readdress_some d (p_teid p) E2) as [b Eb]. rewrite Eb, D6, O2.
      rewrite (readdress_is _ _ _ E2 Eb). reflexivity. }
    cbn [run]. reflexivity.
  - reflexivity.
Qed.

(** a short G-PDU is dropped as soon as any relay exists *)
Lemma short_dropped c from d : opened c (w_log w) = true -> (exists t p, relay_for c t (w_log w) = Some p) ->
  bytes_ok d -> (2 <= len d < 11)%nat -> nth 1 d 0 = 255 ->
  exists w', run w [LDatagram c from d; LRun (w_next w) true] = Some w' /\
    w_log w' = EvDropped (w_next w) :: EvRecv (w_next w) c from d :: w_log w /\
    aget (w_threads w') (w_next w) = None.
Proof.
  intros O1 (t & p & Rl) Hb Ld E1.
  destruct (iv_con _ _ I c) as (_ & _ & C3 & _ & _ & C6 & _).
  eexists. split; [|split].
  - eapply run_cons; [apply step_datagram; auto; now rewrite C6|].
    rewrite (received_short d) by lia.
    eapply run_cons; [|reflexivity].
    rewrite (step_run _ (w_next w) (TRecv c from d)); [|exact HC|apply aget_put]. cbn [run_thread emit spawn w_conns w_threads w_next].
    destruct (u_relay (w_conns w c)) eqn:Eu.
    + exfalso. pose proof (C3 t) as X. cbn in X. congruence.
    + destruct d as [|x [|y d]]; cbn in Ld; try lia. cbn in E1. subst y. cbn [idx nth_error]. rewrite N.eqb_refl.
      rewrite (proj2 (Nat.ltb_lt (len (x :: 255 :: d)) 11)) by (cbn; lia). reflexivity.
  - reflexivity.
  - cbn [w_threads ends]. now rewrite aget_adel, N.eqb_refl.
Qed.

(** reaching the handler, when the TEID is not relayed *)
Lemma to_parse c from d : opened c (w_log w) = true -> bytes_ok d -> (len d <= 1500)%nat -> unrelayed c d (w_log w) ->
  exists n h0 w1, run w (LDatagram c from d :: repeat (LRun (w_next w) true) n) = Some w1 /\
    arrived (w_next w) c from d h0 /\ w_log w1 = h0 ++ w_log w /\
    w_conns w1 = w_conns w /\ w_crashed w1 = false /\ aget (w_threads w1) (w_next w) = Some (TParse c from d) /\
    (forall i, i <> w_next w -> aget (w_threads w1) i = aget (w_threads w) i).
Proof.
  intros O1 Hb Ld U. destruct (iv_con _ _ I c) as (_ & _ & C3 & _ & _ & C6 & _).
  pose proof (step_datagram w c from d HC (eq_trans C6 O1) Hb) as SD. rewrite (received_short d Ld) in SD.
  set (w0 := emit (spawn w (TRecv c from d)) (EvRecv (w_next w) c from d)) in *.
  assert (S0 : step w0 (LRun (w_next w) true) = run_thread w0 (w_next w) (TRecv c from d) true).
  { apply step_run; [exact HC|apply aget_put]. }
  cbn [run_thread] in S0. change (w_conns w0) with (w_conns w) in S0.
  assert (F0 : forall i x, i <> w_next w -> aget (aput (w_threads w0) (w_next w) x) i = aget (w_threads w) i).
  { intros i x Hi. unfold w0. cbn [w_threads emit spawn]. rewrite !aget_aput. apply N.eqb_neq in Hi. now rewrite Hi. }
  destruct (u_relay (w_conns w c)) as [|[k v] r] eqn:Eu.
  - exists 1%nat, [EvRecv (w_next w) c from d]. eexists. split; [|split; [left; reflexivity|split; [|split; [|split; [|split]]]]].
    + cbn [repeat]. eapply run_cons; [exact SD|]. eapply run_cons; [exact S0|reflexivity].
    + reflexivity. + reflexivity. + exact HC. + apply aget_put. + intros i Hi. apply (F0 i _ Hi).
  - assert (X : exists t p, relay_for c t (w_log w) = Some p).
    { exists k, v. rewrite <- C3. cbn. now rewrite N.eqb_refl. }
    destruct (U X) as [L2 G]. destruct d as [|x [|y d]]; cbn in L2; try lia. cbn [nth] in G.
    cbn [idx nth_error] in S0. destruct (y =? 255) eqn:Ey.
    + apply N.eqb_eq in Ey. destruct (G Ey) as [L11 Gt]. rewrite (proj2 (Nat.ltb_ge (len (x :: y :: d)) 11) L11) in S0.
      destruct (relay_slice (x :: y :: d) L11 Hb) as [t Et].
      assert (RR : relay_read (x :: y :: d) t). { split; [cbn; congruence|]. split; assumption. }
      pose proof (Gt t (relay_read_gpdu _ _ Hb RR)) as Rt.
      exists 2%nat, [EvLookup (w_next w) c t None; EvRecv (w_next w) c from (x :: y :: d)]. eexists.
      split; [|split; [right; exists t; reflexivity|split; [|split; [|split; [|split]]]]].
      * cbn [repeat]. eapply run_cons; [exact SD|]. eapply run_cons; [exact S0|]. eapply run_cons; [|reflexivity].
        rewrite (step_run _ (w_next w) (TLookup c from (x :: y :: d))); [|exact HC|apply aget_put]. cbn [run_thread].
        rewrite Et. change (u_relay (w_conns (goes w0 (w_next w) (TLookup c from (x :: y :: d))) c)) with (u_relay (w_conns w c)).
        rewrite Eu, C3, Rt. reflexivity.
      * reflexivity. * reflexivity. * exact HC. * apply aget_put.
      * intros i Hi. cbn [w_threads goes emit]. rewrite aget_aput. rewrite (proj2 (N.eqb_neq _ _) Hi). apply (F0 i _ Hi).
    + exists 1%nat, [EvRecv (w_next w) c from (x :: y :: d)]. eexists. split; [|split; [left; reflexivity|split; [|split; [|split; [|split]]]]].
      * cbn [repeat]. eapply run_cons; [exact SD|]. eapply run_cons; [exact S0|reflexivity].
      * reflexivity. * reflexivity. * exact HC. * apply aget_put. * intros i Hi. apply (F0 i _ Hi).
Qed.
Lemma run_app w0 a b w1 : run w0 a = Some w1 -> run w0 (a ++ b) = run w1 b.
Proof.
  revert w0. induction a as [|l a IH]; intros w0 E; cbn in *; [now injection E as ->|].
  destruct (step w0 l); [auto|discriminate].
Qed.

(** the handler in force is called with the parsed message *)
Lemma to_handler c from d p h : opened c (w_log w) = true -> bytes_ok d -> (len d <= 1500)%nat -> unrelayed c d (w_log w) ->
  v1_parse d = Ok p -> handler_for c (h1_type (pdu_hdr p)) (w_log w) = Some h ->
  exists n h0 w2, run w (LDatagram c from d :: repeat (LRun (w_next w) true) n) = Some w2 /\
    arrived (w_next w) c from d h0 /\
    w_log w2 = EvDispatch (w_next w) c (h1_type (pdu_hdr p)) (Some h) :: h0 ++ w_log w /\
    w_conns w2 = w_conns w /\ w_crashed w2 = false /\ aget (w_threads w2) (w_next w) = Some (THandle c from p h) /\
    (forall i, i <> w_next w -> aget (w_threads w2) i = aget (w_threads w) i).
Proof.
  intros O1 Hb Ld U Ep Eh. destruct (to_parse c from d O1 Hb Ld U) as (n & h0 & w1 & R1 & A1 & L1 & S1 & X1 & T1 & F1).
  destruct (iv_con _ _ I c) as (_ & _ & _ & C4 & _).
  exists (n + 1)%nat, h0. eexists. split; [|split; [exact A1|split; [|split; [|split; [|split]]]]].
  - rewrite repeat_app, app_comm_cons. cbn [repeat].
    rewrite (run_app _ _ _ _ R1). eapply run_cons; [|reflexivity].
    rewrite (step_run _ _ _ _ X1 T1). cbn [run_thread]. rewrite Ep, S1, C4, Eh. reflexivity.
  - cbn [goes emit w_log]. now rewrite L1.
  - exact S1.
  - exact X1.
  - apply aget_put.
  - intros i Hi. cbn [w_threads goes emit]. rewrite aget_aput. rewrite <- (F1 i Hi). apply N.eqb_neq in Hi. now rewrite Hi.
Qed.
Lemma type_of_name b p (nm : string) (ty : N) : bytes_ok b -> v1_parse b = Ok p -> pdu1_name p = nm ->
  forallb (fun x => (negb (String.eqb (name1 (struct1 x)) nm) || (x =? ty))%bool) (below 256) = true -> h1_type (pdu1_hdr p) = ty.
Proof.
  intros Hb Ep En X. destruct (v1_parse_parts b _ Hb Ep) as (t & F1 & F2 & _ & F4 & _).
  assert (B : t < 256) by exact (idx_byte _ _ _ Hb F1).
  rewrite forallb_forall in X. specialize (X t (below_complete 256 t B)). cbv beta in X.
  rewrite <- F4, En, String.eqb_refl in X. cbn [negb orb] in X. apply N.eqb_eq in X. congruence.
Qed.
Lemma echo_type b m : bytes_ok b -> v1_parse b = Ok (P1 d_EchoRequest m) -> h1_type (m_hdr m) = 1.
Proof. intros Hb Ep. apply (type_of_name b _ "EchoRequest" 1 Hb Ep); [reflexivity|vm_compute; reflexivity]. Qed.
Lemma errind_type b m : bytes_ok b -> v1_parse b = Ok (P1 d_ErrorIndication m) -> h1_type (m_hdr m) = 26.
Proof. intros Hb Ep. apply (type_of_name b _ "ErrorIndication" 26 Hb Ep); [reflexivity|vm_compute; reflexivity]. Qed.
Lemma tpdu_type b x : bytes_ok b -> v1_parse b = Ok (P1_tpdu x) -> h1_type x = 255.
Proof. intros Hb Ep. apply (type_of_name b _ "TPDU" 255 Hb Ep); [reflexivity|vm_compute; reflexivity]. Qed.

(** Echo Request answered *)
Lemma echo_progress c from d m : opened c (w_log w) = true -> bytes_ok d -> (len d <= 1500)%nat -> unrelayed c d (w_log w) ->
  handler_for c 1 (w_log w) = Some HEchoReq -> v1_parse d = Ok (P1 d_EchoRequest m) ->
  exists n h0 w', run w (LDatagram c from d :: repeat (LRun (w_next w) true) n) = Some w' /\
    arrived (w_next w) c from d h0 /\
    w_log w' = EvSent (w_next w) c from (echo_octets (h1_seq (m_hdr m))) ::
               EvDispatch (w_next w) c 1 (Some HEchoReq) :: h0 ++ w_log w.
Proof.
  intros O1 Hb Ld U Eh Ep. pose proof (echo_type d m Hb Ep) as Ty.
  destruct (to_handler c from d (P1 d_EchoRequest m) HEchoReq O1 Hb Ld U Ep) as (n & h0 & w2 & R2 & A2 & L2 & S2 & X2 & T2 & F2).
  { cbn [pdu_hdr]. now rewrite Ty. }
  cbn [pdu_hdr] in L2. rewrite Ty in L2.
  destruct (iv_con _ _ I c) as (_ & _ & _ & _ & _ & C6 & _).
  exists (n + 2)%nat, h0. eexists. split; [|split; [exact A2|]].
  - rewrite repeat_app, app_comm_cons. cbn [repeat].
    rewrite (run_app _ _ _ _ R2). eapply run_cons.
    { rewrite (step_run _ _ _ _ X2 T2). cbn [run_thread run_handler]. cbn [is_struct md_name d_EchoRequest String.eqb Ascii.eqb Bool.eqb].
      rewrite echo_response_is. reflexivity. }
    eapply run_cons; [|reflexivity].
    erewrite step_run; [|exact X2|apply aget_put]. cbn [run_thread goes w_conns]. rewrite S2, C6, O1. reflexivity.
  - cbn [ends emit goes w_log pdu_hdr]. now rewrite L2.
Qed.

(** a T-PDU answered with an Error Indication, or offered to the reader *)
Lemma errind_progress c from d x : opened c (w_log w) = true -> bytes_ok d -> (len d <= 1500)%nat -> unrelayed c d (w_log w) ->
  handler_for c 255 (w_log w) = Some HTpdu -> err_ind c (w_log w) = true -> v1_parse d = Ok (P1_tpdu x) ->
  exists n h0 w', run w (LDatagram c from d :: repeat (LRun (w_next w) true) n) = Some w' /\
    arrived (w_next w) c from d h0 /\
    w_log w' = EvSent (w_next w) c from (errind_octets (gsn_ip (local c)) (h1_teid x) (h1_seq x)) :: EvFlag (w_next w) c true ::
               EvDispatch (w_next w) c 255 (Some HTpdu) :: h0 ++ w_log w.
Proof.
  intros O1 Hb Ld U Eh Ef Ep. pose proof (tpdu_type d x Hb Ep) as Ty.
  destruct (to_handler c from d (P1_tpdu x) HTpdu O1 Hb Ld U Ep) as (n & h0 & w2 & R2 & A2 & L2 & S2 & X2 & T2 & F2).
  { cbn [pdu_hdr]. now rewrite Ty. }
  cbn [pdu_hdr] in L2. rewrite Ty in L2.
  destruct (iv_con _ _ I c) as (C1 & _ & _ & _ & C5 & C6 & _).
  exists (n + 2)%nat, h0. eexists. split; [|split; [exact A2|]].
  - rewrite repeat_app, app_comm_cons. cbn [repeat].
    rewrite (run_app _ _ _ _ R2). eapply run_cons.
    { rewrite (step_run _ _ _ _ X2 T2). cbn [run_thread run_handler]. cbn [w_conns emit].
      rewrite S2, C5, Ef, C1, error_indication_is by apply HL. reflexivity. }
    eapply run_cons; [|reflexivity].
    erewrite step_run; [|exact X2|apply aget_put]. cbn [run_thread goes emit w_conns]. rewrite S2, C6, O1. reflexivity.
  - cbn [ends emit goes w_log pdu_hdr]. now rewrite L2.
Qed.
Lemma delivery_progress c from d x k rd : opened c (w_log w) = true -> bytes_ok d -> (len d <= 1500)%nat -> unrelayed c d (w_log w) ->
  handler_for c 255 (w_log w) = Some HTpdu -> err_ind c (w_log w) = false -> v1_parse d = Ok (P1_tpdu x) ->
  aget (w_threads w) rd = Some (TRead c k) ->
  exists n h0 w', run w (LDatagram c from d :: repeat (LRun (w_next w) true) n ++ [LRendezvous rd (w_next w)]) = Some w' /\
    arrived (w_next w) c from d h0 /\
    w_log w' = EvDelivered (w_next w) rd c from (h1_teid x) (firstn k (h1_payload x)) :: EvFlag (w_next w) c false ::
               EvDispatch (w_next w) c 255 (Some HTpdu) :: h0 ++ w_log w.
Proof.
  intros O1 Hb Ld U Eh Ef Ep Er. pose proof (tpdu_type d x Hb Ep) as Ty.
  destruct (to_handler c from d (P1_tpdu x) HTpdu O1 Hb Ld U Ep) as (n & h0 & w2 & R2 & A2 & L2 & S2 & X2 & T2 & F2).
  { cbn [pdu_hdr]. now rewrite Ty. }
  cbn [pdu_hdr] in L2. rewrite Ty in L2.
  assert (Hrd : rd <> w_next w). { pose proof (running _ _ _ _ I Er). lia. }
  destruct (iv_con _ _ I c) as (C1 & _ & _ & _ & C5 & C6 & _).
  exists (n + 1)%nat, h0. eexists. split; [|split; [exact A2|]].
  - rewrite repeat_app, <- app_assoc, app_comm_cons. cbn [repeat].
    rewrite (run_app _ _ _ _ R2). cbn [app]. eapply run_cons.
    { rewrite (step_run _ _ _ _ X2 T2). cbn [run_thread run_handler]. cbn [w_conns emit].
      rewrite S2, C5, Ef. reflexivity. }
    eapply run_cons; [|reflexivity].
    unfold step. cbn [goes emit w_crashed w_threads]. rewrite X2, aget_put, aget_aput.
    rewrite (proj2 (N.eqb_neq _ _) Hrd), (F2 rd Hrd), Er, N.eqb_refl. reflexivity.
  - cbn [ends emit goes w_log pdu_hdr]. now rewrite L2.
Qed.
End Reachable.
