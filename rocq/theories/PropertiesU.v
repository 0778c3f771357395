(** Properties C40-C45: the GTPv1 user plane.  The model is UPlane.v (a transition system;
    an execution is any list of labels), the specification USpec.v (histories, newest event
    first).  [history local l]: some execution has produced the history [l]; [locals_ok]:
    the local addresses are what net.ParseIP returns. *)
From Coq Require Import String Lia Permutation.
From Verif Require Import Maps MapsProofs Base BaseLemmas TvIE V1Header V2IE V2Codec CodecSpec V2CodecProofs MsgModel Msgs1Gen V1Msg TpduProofs
  UPlane USpec UPlaneProofs UPlaneProofs2 UPlaneProofs3 UPlaneProofs4.
Open Scope N_scope.
Open Scope list_scope.

Definition x_local (c : N) : option bytes := Some [0; 0; 0; 0; 0; 0; 0; 0; 0; 0; 255; 255; 127; 0; 0; c mod 256].
Lemma x_local_ok : locals_ok x_local.
Proof.
  intros c. split; [reflexivity|]. unfold bytes_ok. repeat constructor; try (cbv; reflexivity).
  unfold is_byte. apply N.mod_lt. discriminate.
Qed.
Definition log_of (ls : list label) : option (list event) := option_map w_log (run (start x_local) ls).
Lemma log_of_history ls l : log_of ls = Some l -> history x_local l.
Proof.
  unfold log_of, history. intros H. destruct (run (start x_local) ls) as [w|] eqn:E; [|discriminate].
  exists ls, w. split; [exact E|]. cbn in H. congruence.
Qed.

(** ** C40: TEIDs *)
(** a TEID is taken only if non-zero and not among those taken and not released; whatever
    was drawn and whoever else runs *)
Theorem C40_taken_fresh : forall local l2 id c t l1, locals_ok local ->
  history local (l2 ++ EvTaken id c t :: l1) -> t <> 0 /\ t < 4294967296 /\ ~ In t (held c l1).
Proof. exact taken_fresh. Qed.
(** what NewFTEID returns differs from everything returned before and not released, if
    releases concern TEIDs that were returned *)
Theorem C40_returned_unique : forall local l2 id c t r l1, locals_ok local ->
  history local (l2 ++ EvTeid id c t r :: l1) -> releases_owned c l1 -> ~ In t (owned c l1).
Proof. exact returned_unique. Qed.
Theorem C40_returned_taken : forall local l2 id c t r l1, locals_ok local ->
  history local (l2 ++ EvTeid id c t r :: l1) ->
  In (EvTaken id c t) l1 /\ t <> 0 /\ t < 4294967296 /\ exists ift v4 v6, r = new_fteid default_grouped ift t v4 v6.
Proof. exact returned_taken. Qed.
(** NewFTEID gives up only after 65535 draws, each zero or taken at that time *)
Theorem C40_gives_up : forall local l2 id c l1, locals_ok local -> history local (l2 ++ EvNoTeid id c :: l1) ->
  Forall (fun e => exists t, e = EvMiss id c t) (hist id l1) /\ List.length (hist id l1) = N.to_nat 65535.
Proof. exact gave_up. Qed.
Theorem C40_missed : forall local l2 id c t l1, locals_ok local -> history local (l2 ++ EvMiss id c t :: l1) ->
  (t = 0 \/ In t (held c l1)) /\ (List.length (hist id l1) < N.to_nat 65535)%nat.
Proof. exact missed. Qed.
(** from any reachable state: the first free number drawn is returned, in an F-TEID with the
    interface type and addresses of the call *)
Theorem C40_allocates : forall local ls w, locals_ok local -> run (start local) ls = Some w -> w_crashed w = false ->
  forall c ift v4 v6 ms t, (List.length ms < N.to_nat 65535)%nat ->
  Forall (fun t => t < 4294967296 /\ (t = 0 \/ In t (held c (w_log w)))) ms ->
  t <> 0 -> t < 4294967296 -> ~ In t (held c (w_log w)) ->
  exists w', run w (LNewFTEID c ift v4 v6 :: map (LTry (w_next w)) ms ++ [LTry (w_next w) t; LRun (w_next w) true]) = Some w' /\
    w_log w' = EvTeid (w_next w) c t (new_fteid default_grouped ift t v4 v6) :: EvTaken (w_next w) c t ::
               map (EvMiss (w_next w) c) (rev ms) ++ w_log w.
Proof. exact alloc_progress. Qed.
Theorem C40_returned_ie : forall ift t v4 v6, ift < 64 -> t < 4294967296 -> ip_arg_ok v4 -> ip_arg_ok v6 ->
  exists i, new_fteid default_grouped ift t v4 v6 = Ok (Some i) /\ acc_teid i = Ok t /\ acc_if_type i = Ok ift.
Proof.
  intros ift t v4 v6 Hi Ht H4 H6.
  destruct (fteid_all default_grouped ift t v4 v6 Hi Ht H4 H6) as (i & (E & _) & _ & E1 & E2 & _).
  exists i. auto.
Qed.
Theorem C40_exhausted : forall local ls w, locals_ok local -> run (start local) ls = Some w -> w_crashed w = false ->
  forall c ift v4 v6 ms, List.length ms = N.to_nat 65535 ->
  Forall (fun t => t < 4294967296 /\ (t = 0 \/ In t (held c (w_log w)))) ms ->
  exists w', run w (LNewFTEID c ift v4 v6 :: map (LTry (w_next w)) ms ++ [LRun (w_next w) true]) = Some w' /\
    w_log w' = EvNoTeid (w_next w) c :: map (EvMiss (w_next w) c) (rev ms) ++ w_log w.
Proof. exact alloc_exhausted. Qed.
(** two calls interleaved, drawing the same number: the second draws again; after a release
    the number is given out again *)
Example C40_example :
  match log_of [LNewFTEID 0 1 None None; LNewFTEID 0 1 None None; LTry 0 0; LTry 0 5; LTry 1 5; LTry 1 6; LRun 1 true; LRun 0 true;
          LCloseRelay 0 5; LRun 2 true; LRun 2 true; LNewFTEID 0 1 None None; LTry 3 6; LTry 3 5; LRun 3 true] with
  | Some [EvTeid 3 0 5 _; EvTaken 3 0 5; EvMiss 3 0 6; EvFreed 0 5; EvRelayOff 0 5; EvTeid 0 0 5 _; EvTeid 1 0 6 _;
          EvTaken 1 0 6; EvMiss 1 0 5; EvTaken 0 0 5; EvMiss 0 0 0] => True
  | _ => False
  end.
Proof. vm_compute. exact I. Qed.
(** RelayTo does not mark its incoming TEID as taken: in any reachable state NewFTEID can
    return a TEID that a relay uses *)
Theorem C40_relayed_refuted : forall local ls w c t p, locals_ok local -> run (start local) ls = Some w -> w_crashed w = false ->
  relay_for c t (w_log w) = Some p -> t <> 0 -> t < 4294967296 -> ~ In t (held c (w_log w)) ->
  exists ls' l r, history local (EvTeid (w_next w) c t r :: l) /\ relay_for c t l = Some p /\ run w ls' <> None.
Proof.
  intros local ls w c t p HL HR HC Rl Z B Fr.
  destruct (alloc_progress local ls w HL HR HC c 1 None None [] t) as (w' & R & G); try assumption; try (cbn; lia); [constructor|].
  exists (LNewFTEID c 1 None None :: map (LTry (w_next w)) [] ++ [LTry (w_next w) t; LRun (w_next w) true]).
  exists (EvTaken (w_next w) c t :: w_log w), (new_fteid default_grouped 1 t None None). split; [|split].
  - exists (ls ++ LNewFTEID c 1 None None :: map (LTry (w_next w)) [] ++ [LTry (w_next w) t; LRun (w_next w) true]), w'.
    split; [|exact G]. rewrite (run_app _ _ _ _ HR). exact R.
  - exact Rl.
  - rewrite R. discriminate.
Qed.
Example C40_relayed_example :
  match log_of [LRelayTo 0 7 9 1 1; LRun 0 true; LNewFTEID 0 1 None None; LTry 1 7; LRun 1 true] with
  | Some [EvTeid 1 0 7 _; EvTaken 1 0 7; EvRelayOn 0 7 _] => True | _ => False end.
Proof. vm_compute. exact I. Qed.

(** ** C41: relaying *)
(** every packet sent by relaying is one received G-PDU whose TEID had, when looked up, a
    relay: sent through that relay's connection to that relay's peer, with the TEID replaced
    and no other byte changed, once, and the datagram has no other effect.  The datagram is
    what fits 1500 bytes. *)
Theorem C41_relayed_exact : forall local l2 id c' a b l1, locals_ok local -> history local (l2 ++ EvRelayed id c' a b :: l1) ->
  exists c from d t p l1a l1b,
    l1 = l1a ++ EvLookup id c t (Some p) :: l1b /\ relay_for c t l1b = Some p /\
    hist id l1b = [EvRecv id c from d] /\ t < 4294967296 /\ gpdu_for t (firstn 1500 d) /\
    c' = p_conn p /\ a = p_addr p /\ b = readdressed (p_teid p) (firstn 1500 d) /\
    hist id l1a = [] /\ hist id l2 = [].
Proof. exact relayed_exact. Qed.
(** after CloseRelay has taken effect, and until RelayTo for the same TEID, no datagram
    received for that TEID is relayed *)
Theorem C41_closed : forall local l2 c t l1 id from d, locals_ok local -> history local (l2 ++ EvRelayOff c t :: l1) ->
  (forall p, ~ In (EvRelayOn c t p) l2) -> In (EvRecv id c from d) l2 -> t < 4294967296 ->
  firstn 4 (skipn 4 d) = enc32 t -> forall c' a b, ~ In (EvRelayed id c' a b) (l2 ++ EvRelayOff c t :: l1).
Proof. exact relay_off. Qed.
(** from any reachable state a G-PDU of 11 to 1500 bytes for a relayed TEID is relayed *)
Theorem C41_relays_partial : forall local ls w, locals_ok local -> run (start local) ls = Some w -> w_crashed w = false ->
  forall c from d t p, opened c (w_log w) = true -> opened (p_conn p) (w_log w) = true ->
  relay_for c t (w_log w) = Some p -> bytes_ok d -> (len d <= 1500)%nat -> t < 4294967296 -> gpdu_for t d ->
  exists w', run w [LDatagram c from d; LRun (w_next w) true; LRun (w_next w) true; LRun (w_next w) true] = Some w' /\
    w_log w' = EvRelayed (w_next w) (p_conn p) (p_addr p) (readdressed (p_teid p) d) ::
               EvLookup (w_next w) c t (Some p) :: EvRecv (w_next w) c from d :: w_log w.
Proof. exact relay_progress. Qed.
(** a T-PDU of 8 to 10 bytes is dropped as soon as there is any relay, for whatever TEID *)
Theorem C41_short_refuted : forall local ls w, locals_ok local -> run (start local) ls = Some w -> w_crashed w = false ->
  forall c from d, opened c (w_log w) = true -> (exists t p, relay_for c t (w_log w) = Some p) ->
  bytes_ok d -> (2 <= len d < 11)%nat -> nth 1 d 0 = 255 ->
  exists w', run w [LDatagram c from d; LRun (w_next w) true] = Some w' /\
    w_log w' = EvDropped (w_next w) :: EvRecv (w_next w) c from d :: w_log w /\
    aget (w_threads w') (w_next w) = None.
Proof. exact short_dropped. Qed.
(** a datagram over 1500 bytes is relayed cut short: never with every other byte unchanged *)
Theorem C41_long_refuted : forall local l2 id c' a b l1 c from d, locals_ok local ->
  history local (l2 ++ EvRelayed id c' a b :: l1) -> In (EvRecv id c from d) l1 -> (1500 < len d)%nat -> len b = 1500%nat.
Proof.
  intros local l2 id c' a b l1 c from d HL H Hin Hd.
  destruct (relayed_exact _ _ _ _ _ _ _ HL H) as (c0 & from0 & d0 & t & p & l1a & l1b & E1 & _ & Eh & _ & G & _ & _ & Eb & Ea & _).
  assert (Hi : In (EvRecv id c from d) (hist id l1)) by (apply filter_In; split; [exact Hin|cbn; apply N.eqb_refl]).
  rewrite E1, hist_app, Ea, hist_cons in Hi by (cbn; apply N.eqb_refl). rewrite Eh in Hi. cbn in Hi.
  destruct Hi as [Hi|[Hi|[]]]; [discriminate|]. injection Hi as _ _ <-.
  rewrite Eb. unfold readdressed. rewrite !app_length, enc32_len, skipn_length, !firstn_length.
  rewrite (Nat.min_l 1500) by lia. cbn [Nat.min]. lia.
Qed.
Definition x_gpdu (t : N) (p : bytes) : bytes := tpdu_octets 48 t [] p.
Example C41_example :
  log_of [LOpen 0; LOpen 1; LRelayTo 0 7 9 33 1; LRun 0 true; LDatagram 0 44 (x_gpdu 7 [1; 2; 3; 4]); LRun 1 true; LRun 1 true; LRun 1 true] =
  Some [EvRelayed 1 1 33 (x_gpdu 9 [1; 2; 3; 4]); EvLookup 1 0 7 (Some (Peer 9 33 1)); EvRecv 1 0 44 (x_gpdu 7 [1; 2; 3; 4]);
        EvRelayOn 0 7 (Peer 9 33 1); EvOpen 1; EvOpen 0].
Proof. vm_compute. reflexivity. Qed.
Example C41_gpdu_example : gpdu_for 7 (x_gpdu 7 [1; 2; 3; 4]) /\ readdressed 9 (x_gpdu 7 [1; 2; 3; 4]) = x_gpdu 9 [1; 2; 3; 4].
Proof. vm_compute. repeat split; lia. Qed.
(** a T-PDU with an empty payload for a relayed TEID is lost *)
Example C41_short_example :
  log_of [LOpen 0; LOpen 1; LRelayTo 0 7 9 33 1; LRun 0 true; LDatagram 0 44 (x_gpdu 7 [1; 2]); LRun 1 true] =
  Some [EvDropped 1; EvRecv 1 0 44 (x_gpdu 7 [1; 2]); EvRelayOn 0 7 (Peer 9 33 1); EvOpen 1; EvOpen 0].
Proof. vm_compute. reflexivity. Qed.
Example C41_closed_example :
  match log_of [LOpen 0; LOpen 1; LRelayTo 0 7 9 33 1; LRun 0 true; LCloseRelay 0 7; LRun 1 true; LRun 1 true;
          LDatagram 0 44 (x_gpdu 7 [1; 2; 3; 4]); LRun 2 true; LRun 2 true] with
  | Some [EvDispatch 2 0 255 (Some HTpdu); EvRecv 2 0 44 _; EvFreed 0 7; EvRelayOff 0 7; EvRelayOn 0 7 _; EvOpen 1; EvOpen 0] => True
  | _ => False end.
Proof. vm_compute. exact I. Qed.

(** ** C42: crashes *)
(** the process ends only for one of these reasons; in particular no datagram of two bytes or
    more ends it, unless it is an Error Indication without one of its two IEs or a relay or
    handler was set up wrongly *)
Theorem C42_panic_causes_partial : forall local l2 id l1, locals_ok local -> history local (l2 ++ EvPanic id :: l1) ->
  (exists c from d, hist id l1 = [EvRecv id c from d] /\ (len d < 2)%nat /\ exists t p, relay_for c t l1 = Some p) \/
  (exists c from d t p, hist id l1 = [EvLookup id c t (Some p); EvRecv id c from d] /\ opened (p_conn p) l1 = false) \/
  (exists c from d h0 m, hist id l1 = EvDispatch id c 26 (Some HErrInd) :: h0 /\ arrived id c from d h0 /\
     v1_parse (firstn 1500 d) = Ok (P1 d_ErrorIndication m) /\ ~ two_ies (h1_payload (m_hdr m))) \/
  (exists c typ h0, hist id l1 = EvDispatch id c typ (Some HNil) :: h0) \/
  (exists c t p a, hist id l1 = [EvWrite id c t p a] /\ opened c l1 = false) \/
  (hist id l1 = [] /\ exists c, closed_ev c l1 = true).
Proof. exact panic_causes. Qed.
(** in any reachable state with a relay, any datagram of 0 or 1 bytes ends the process *)
Theorem C42_short_refuted : forall local ls w, locals_ok local -> run (start local) ls = Some w -> w_crashed w = false ->
  forall c from d, opened c (w_log w) = true -> (exists t p, relay_for c t (w_log w) = Some p) ->
  bytes_ok d -> (len d < 2)%nat ->
  exists w', run w [LDatagram c from d; LRun (w_next w) true] = Some w' /\ w_crashed w' = true /\
    w_log w' = EvPanic (w_next w) :: EvRecv (w_next w) c from d :: w_log w.
Proof. exact short_panics. Qed.
(** in any reachable state with the default handler, any Error Indication without TEID Data I
    or GTP-U Peer Address ends the process *)
Theorem C42_error_indication_refuted : forall local ls w, locals_ok local -> run (start local) ls = Some w -> w_crashed w = false ->
  forall c from d m, opened c (w_log w) = true -> bytes_ok d -> (len d <= 1500)%nat -> unrelayed c d (w_log w) ->
  handler_for c 26 (w_log w) = Some HErrInd -> v1_parse d = Ok (P1 d_ErrorIndication m) -> ~ two_ies (h1_payload (m_hdr m)) ->
  exists n w', run w (LDatagram c from d :: repeat (LRun (w_next w) true) n) = Some w' /\ w_crashed w' = true.
Proof. exact errind_panics. Qed.
(** the eight bytes of an Error Indication without IEs are enough *)
Example C42_error_indication_example :
  match log_of [LOpen 0; LDatagram 0 44 [48; 26; 0; 0; 0; 0; 0; 0]; LRun 0 true; LRun 0 true; LRun 0 true] with
  | Some [EvPanic 0; EvDispatch 0 0 26 (Some HErrInd); EvRecv 0 0 44 _; EvOpen 0] => True | _ => False end.
Proof. vm_compute. exact I. Qed.
(** one with both IEs is accepted *)
Example C42_accepted_example :
  match log_of [LOpen 0; LDatagram 0 44 (errind_octets (Some [10; 0; 0; 1]) 7 1); LRun 0 true; LRun 0 true; LRun 0 true] with
  | Some [EvDropped 0; EvDispatch 0 0 26 (Some HErrInd); EvRecv 0 0 44 _; EvOpen 0] => True | _ => False end.
Proof. vm_compute. exact I. Qed.
Example C42_short_example :
  log_of [LOpen 0; LRelayTo 0 7 9 33 1; LRun 0 true; LDatagram 0 44 []; LRun 1 true] =
  Some [EvPanic 1; EvRecv 1 0 44 []; EvRelayOn 0 7 (Peer 9 33 1); EvOpen 0].
Proof. vm_compute. reflexivity. Qed.
(** relaying through a connection that has no socket; a nil handler; closing twice *)
Example C42_other_examples :
  (match log_of [LOpen 0; LRelayTo 0 7 9 33 1; LRun 0 true; LDatagram 0 44 (x_gpdu 7 [1; 2; 3]); LRun 1 true; LRun 1 true; LRun 1 true] with
   | Some (EvPanic 1 :: _) => True | _ => False end) /\
  (match log_of [LOpen 0; LAddHandler 0 1 HNil; LDatagram 0 44 [50; 1; 0; 4; 0; 0; 0; 0; 0; 1; 0; 0]; LRun 0 true; LRun 0 true; LRun 0 true] with
   | Some (EvPanic 0 :: _) => True | _ => False end) /\
  log_of [LOpen 0; LClose 0; LClose 0] = Some [EvPanic 0; EvClose 0; EvOpen 0].
Proof. vm_compute. repeat split. Qed.

(** ** C43: T-PDU delivery *)
(** ReadFromGTP returns only what one received T-PDU carries: sender, TEID, payload (cut to
    the reader's buffer), if Error Indication was off when the T-PDU was handled; each T-PDU
    at most once, each call of ReadFromGTP at most once *)
Theorem C43_delivered : forall local l2 id rd c a t p l1, locals_ok local -> history local (l2 ++ EvDelivered id rd c a t p :: l1) ->
  hist id l2 = [] /\ hist rd l2 = [] /\
  exists d payload n h0 l1a l1b, l1 = l1a ++ EvFlag id c false :: l1b /\ err_ind c l1b = false /\ hist id l1a = [] /\
    hist id l1b = EvDispatch id c 255 (Some HTpdu) :: h0 /\ arrived id c a d h0 /\
    hist rd l1 = [EvRead rd c n] /\ bytes_ok d /\
    decapsulate1 (firstn 1500 d) = Ok (t, payload) /\ p = firstn n payload.
Proof. exact delivered_facts. Qed.
(** from WriteToGTP to ReadFromGTP: what is written, and what becomes of it *)
Theorem C43_written : forall local ls w, locals_ok local -> run (start local) ls = Some w -> w_crashed w = false ->
  forall c t p a, opened c (w_log w) = true -> t < 4294967296 -> bytes_ok p -> N.of_nat (8 + len p) < 65536 ->
  exists w', run w [LWriteGTP c t p a; LRun (w_next w) true] = Some w' /\
    w_log w' = EvSent (w_next w) c a (tpdu_octets 48 t [] p) :: EvWrite (w_next w) c t p a :: w_log w.
Proof. exact write_progress. Qed.
Theorem C43_end_to_end_partial : forall local l2 id rd c a t' p' l1 t p from, locals_ok local ->
  history local (l2 ++ EvDelivered id rd c a t' p' :: l1) -> In (EvRecv id c from (tpdu_octets 48 t [] p)) l1 ->
  t < 4294967296 -> bytes_ok p -> (len p <= 1492)%nat ->
  t' = t /\ a = from /\ exists n, hist rd l1 = [EvRead rd c n] /\ p' = firstn n p.
Proof. exact written_delivered. Qed.
(** from any reachable state with a waiting reader, Error Indication off and the TEID not
    relayed, the T-PDU can be delivered *)
Theorem C43_delivers_partial : forall local ls w, locals_ok local -> run (start local) ls = Some w -> w_crashed w = false ->
  forall c from d x k rd, opened c (w_log w) = true -> bytes_ok d -> (len d <= 1500)%nat -> unrelayed c d (w_log w) ->
  handler_for c 255 (w_log w) = Some HTpdu -> err_ind c (w_log w) = false -> v1_parse d = Ok (P1_tpdu x) ->
  aget (w_threads w) rd = Some (TRead c k) ->
  exists n h0 w', run w (LDatagram c from d :: repeat (LRun (w_next w) true) n ++ [LRendezvous rd (w_next w)]) = Some w' /\
    arrived (w_next w) c from d h0 /\
    w_log w' = EvDelivered (w_next w) rd c from (h1_teid x) (firstn k (h1_payload x)) :: EvFlag (w_next w) c false ::
               EvDispatch (w_next w) c 255 (Some HTpdu) :: h0 ++ w_log w.
Proof. exact delivery_progress. Qed.
(** a T-PDU over 1492 bytes is never delivered *)
Theorem C43_long_refuted : forall local l2 id rd c a t' p' l1 t p from, locals_ok local -> t < 4294967296 -> (1492 < len p)%nat ->
  N.of_nat (8 + len p) < 65536 -> In (EvRecv id c from (tpdu_octets 48 t [] p)) l1 ->
  ~ history local (l2 ++ EvDelivered id rd c a t' p' :: l1).
Proof. exact long_lost. Qed.
(** the order of arrival is not kept: datagram 2 arrived before datagram 3 and was delivered
    after it *)
Theorem C43_order_refuted : history x_local
  [EvDelivered 2 1 0 44 7 [1]; EvFlag 2 0 false; EvDispatch 2 0 255 (Some HTpdu);
   EvDelivered 3 0 0 44 7 [2]; EvFlag 3 0 false; EvDispatch 3 0 255 (Some HTpdu);
   EvRecv 3 0 44 (x_gpdu 7 [2]); EvRecv 2 0 44 (x_gpdu 7 [1]); EvRead 1 0 9; EvRead 0 0 9; EvErrInd 0 false; EvOpen 0].
Proof.
  apply (log_of_history [LOpen 0; LErrInd 0 false; LReadGTP 0 9; LReadGTP 0 9; LDatagram 0 44 (x_gpdu 7 [1]); LDatagram 0 44 (x_gpdu 7 [2]);
              LRun 3 true; LRun 3 true; LRun 3 true; LRendezvous 0 3; LRun 2 true; LRun 2 true; LRun 2 true; LRendezvous 1 2]).
  vm_compute. reflexivity.
Qed.
Example C43_example :
  log_of [LOpen 0; LOpen 1; LErrInd 1 false; LReadGTP 1 9; LWriteGTP 0 7 [1; 2; 3] 33; LRun 1 true; LDatagram 1 44 (x_gpdu 7 [1; 2; 3]);
          LRun 2 true; LRun 2 true; LRun 2 true; LRendezvous 0 2] =
  Some [EvDelivered 2 0 1 44 7 [1; 2; 3]; EvFlag 2 1 false; EvDispatch 2 1 255 (Some HTpdu); EvRecv 2 1 44 (x_gpdu 7 [1; 2; 3]);
        EvSent 1 0 33 (x_gpdu 7 [1; 2; 3]); EvWrite 1 0 7 [1; 2; 3] 33; EvRead 0 1 9; EvErrInd 1 false; EvOpen 1; EvOpen 0].
Proof. vm_compute. reflexivity. Qed.

(** ** C44: Echo Response and Error Indication *)
(** every packet written is a T-PDU of WriteToGTP, an Echo Response to the sender of an Echo
    Request with its sequence number, or, if enabled at that time, an Error Indication to
    the sender of a T-PDU with its TEID and sequence number and the local address; nothing
    else is written, and each at most once *)
Theorem C44_sent_only : forall local l2 id c a b l1, locals_ok local -> history local (l2 ++ EvSent id c a b :: l1) ->
  hist id l2 = [] /\
  ((exists t p, hist id l1 = [EvWrite id c t p a] /\
      (t < 4294967296 -> bytes_ok p -> N.of_nat (8 + len p) < 65536 -> b = tpdu_octets 48 t [] p)) \/
   (exists d m h0, hist id l1 = EvDispatch id c 1 (Some HEchoReq) :: h0 /\ arrived id c a d h0 /\
      v1_parse (firstn 1500 d) = Ok (P1 d_EchoRequest m) /\ b = echo_octets (h1_seq (m_hdr m))) \/
   (exists d x h0 l1a l1b, l1 = l1a ++ EvFlag id c true :: l1b /\ err_ind c l1b = true /\ hist id l1a = [] /\
      hist id l1b = EvDispatch id c 255 (Some HTpdu) :: h0 /\ arrived id c a d h0 /\
      v1_parse (firstn 1500 d) = Ok (P1_tpdu x) /\ b = errind_octets (gsn_ip (local c)) (h1_teid x) (h1_seq x))).
Proof. exact sent_cases. Qed.
Theorem C44_echo : forall local ls w, locals_ok local -> run (start local) ls = Some w -> w_crashed w = false ->
  forall c from d m, opened c (w_log w) = true -> bytes_ok d -> (len d <= 1500)%nat -> unrelayed c d (w_log w) ->
  handler_for c 1 (w_log w) = Some HEchoReq -> v1_parse d = Ok (P1 d_EchoRequest m) ->
  exists n h0 w', run w (LDatagram c from d :: repeat (LRun (w_next w) true) n) = Some w' /\
    arrived (w_next w) c from d h0 /\
    w_log w' = EvSent (w_next w) c from (echo_octets (h1_seq (m_hdr m))) ::
               EvDispatch (w_next w) c 1 (Some HEchoReq) :: h0 ++ w_log w.
Proof. exact echo_progress. Qed.
Theorem C44_error_indication : forall local ls w, locals_ok local -> run (start local) ls = Some w -> w_crashed w = false ->
  forall c from d x, opened c (w_log w) = true -> bytes_ok d -> (len d <= 1500)%nat -> unrelayed c d (w_log w) ->
  handler_for c 255 (w_log w) = Some HTpdu -> err_ind c (w_log w) = true -> v1_parse d = Ok (P1_tpdu x) ->
  exists n h0 w', run w (LDatagram c from d :: repeat (LRun (w_next w) true) n) = Some w' /\
    arrived (w_next w) c from d h0 /\
    w_log w' = EvSent (w_next w) c from (errind_octets (gsn_ip (local c)) (h1_teid x) (h1_seq x)) :: EvFlag (w_next w) c true ::
               EvDispatch (w_next w) c 255 (Some HTpdu) :: h0 ++ w_log w.
Proof. exact errind_progress. Qed.
Example C44_example :
  (match log_of [LOpen 0; LDatagram 0 44 [50; 1; 0; 4; 0; 0; 0; 0; 18; 52; 0; 0]; LRun 0 true; LRun 0 true; LRun 0 true; LRun 0 true] with
   | Some [EvSent 0 0 44 b; EvDispatch 0 0 1 (Some HEchoReq); EvRecv 0 0 44 _; EvOpen 0] =>
       b = [50; 2; 0; 6; 0; 0; 0; 0; 18; 52; 0; 0; 14; 0] | _ => False end) /\
  (match log_of [LOpen 3; LDatagram 3 44 (x_gpdu 7 [1; 2]); LRun 0 true; LRun 0 true; LRun 0 true; LRun 0 true] with
   | Some [EvSent 0 3 44 b; EvFlag 0 3 true; EvDispatch 0 3 255 (Some HTpdu); EvRecv 0 3 44 _; EvOpen 3] =>
       b = [50; 26; 0; 16; 0; 0; 0; 0; 0; 0; 0; 0; 16; 0; 0; 0; 7; 133; 0; 4; 127; 0; 0; 3] | _ => False end).
Proof. vm_compute. split; reflexivity. Qed.
(** the Error Indication sent is one that a peer accepts: it parses, with the TEID and address *)
Example C44_parses_example :
  match v1_parse (errind_octets (Some [127; 0; 0; 3]) 7 5) with
  | Ok (P1 d m) => md_name d = "ErrorIndication"%string /\ fget (m_fs m) "TEIDDataI" = [Some (IE1 16 0 [0; 0; 0; 7])] /\
      fget (m_fs m) "GTPUPeerAddress" = [Some (IE1 133 4 [127; 0; 0; 3])] /\ h1_seq (m_hdr m) = 5
  | _ => False end.
Proof. vm_compute. repeat split; reflexivity. Qed.

(** ** C45: handlers *)
(** the handler looked up for a message is the one in force for its type octet at that time;
    if there is none, nothing more happens *)
Theorem C45_dispatched : forall local l2 id c typ r l1, locals_ok local -> history local (l2 ++ EvDispatch id c typ r :: l1) ->
  r = handler_for c typ l1 /\ (r = None -> hist id l2 = []) /\
  exists from d p, arrived id c from d (hist id l1) /\ v1_parse (firstn 1500 d) = Ok p /\ idx (firstn 1500 d) 1 = Ok typ.
Proof. exact dispatched. Qed.
(** a handler of the user runs only when it is in force for the type of a received message,
    once, with that message *)
Theorem C45_user_called : forall local l2 id k p l1, locals_ok local -> history local (l2 ++ EvUser id k p :: l1) ->
  hist id l2 = [] /\ exists c typ from d l1a l1b, l1 = l1a ++ EvDispatch id c typ (Some (HUser k)) :: l1b /\
    handler_for c typ l1b = Some (HUser k) /\ hist id l1a = [] /\ arrived id c from d (hist id l1b) /\
    v1_parse (firstn 1500 d) = Ok p /\ idx (firstn 1500 d) 1 = Ok typ.
Proof. exact user_called. Qed.
Theorem C45_calls_user : forall local ls w, locals_ok local -> run (start local) ls = Some w -> w_crashed w = false ->
  forall c from d p k, opened c (w_log w) = true -> bytes_ok d -> (len d <= 1500)%nat -> unrelayed c d (w_log w) ->
  v1_parse d = Ok p -> handler_for c (h1_type (pdu_hdr p)) (w_log w) = Some (HUser k) ->
  exists n h0 w', run w (LDatagram c from d :: repeat (LRun (w_next w) true) n) = Some w' /\
    arrived (w_next w) c from d h0 /\
    w_log w' = EvUser (w_next w) k p :: EvDispatch (w_next w) c (h1_type (pdu_hdr p)) (Some (HUser k)) :: h0 ++ w_log w.
Proof. exact user_progress. Qed.
(** in force is the last one registered for the type on the connection, else the default *)
Theorem C45_last_registered : forall c typ h l2 l1, (forall h', ~ In (EvHandler c typ h') l2) ->
  handler_for c typ (l2 ++ EvHandler c typ h :: l1) = Some h.
Proof. exact handler_last. Qed.
Theorem C45_default : forall c typ l, (forall h', ~ In (EvHandler c typ h') l) -> handler_for c typ l = handler_default typ.
Proof. exact handler_none. Qed.
(** AddHandlers: the order in which Go walks the map does not matter *)
Theorem C45_add_handlers_order : forall c a b w, w_crashed w = false -> NoDup (map fst a) -> Permutation a b ->
  exists wa wb, run w (add_all c a) = Some wa /\ run w (add_all c b) = Some wb /\
    (forall k, aget (u_handlers (w_conns wa c)) k = aget (u_handlers (w_conns wb c)) k) /\
    (forall k h, In (k, h) a -> aget (u_handlers (w_conns wa c)) k = Some h) /\
    (forall k, ~ In k (map fst a) -> aget (u_handlers (w_conns wa c)) k = aget (u_handlers (w_conns w c)) k).
Proof.
  intros c a b w HC Hn P. assert (Hb : NoDup (map fst b)) by exact (Permutation_NoDup (Permutation_map fst P) Hn).
  destruct (add_all_run c a w HC Hn) as (wa & Ra & _ & Ga & _).
  destruct (add_all_run c b w HC Hb) as (wb & Rb & _ & Gb & _).
  exists wa, wb. split; [exact Ra|]. split; [exact Rb|]. split; [|split].
  - intros k. rewrite Ga, Gb, (find_key_perm a b k P Hn). reflexivity.
  - intros k h Hin. rewrite Ga. destruct (find (fun r => fst r =? k) a) as [[k' h']|] eqn:F.
    + apply find_some in F. destruct F as [F1 F2]. cbn in F2. apply N.eqb_eq in F2. subst k'. f_equal.
      clear -Hn Hin F1. induction a as [|[x y] a IH]; [destruct Hin|]. cbn in Hn. apply NoDup_cons_iff in Hn. destruct Hn as [Hx Hn].
      destruct Hin as [Hin|Hin]; destruct F1 as [F1|F1].
      * congruence.
      * injection Hin as -> ->. exfalso. apply Hx. apply in_map_iff. now exists (k, h').
      * injection F1 as -> ->. exfalso. apply Hx. apply in_map_iff. now exists (k, h).
      * now apply IH.
    + exfalso. apply (find_none _ _ F) in Hin. cbn in Hin. now rewrite N.eqb_refl in Hin.
  - intros k Hk. rewrite Ga. destruct (find (fun r => fst r =? k) a) as [[k' h']|] eqn:F; [|reflexivity].
    exfalso. apply find_some in F. destruct F as [F1 F2]. cbn in F2. apply N.eqb_eq in F2. subst k'.
    apply Hk. apply in_map_iff. now exists (k, h').
Qed.
Example C45_example :
  (match log_of [LOpen 0; LAddHandler 0 1 (HUser 5); LAddHandler 1 1 (HUser 9); LAddHandler 0 2 (HUser 7); LAddHandler 0 1 (HUser 6);
                 LDatagram 0 44 [50; 1; 0; 4; 0; 0; 0; 0; 0; 1; 0; 0]; LRun 0 true; LRun 0 true; LRun 0 true] with
   | Some (EvUser 0 6 p :: EvDispatch 0 0 1 (Some (HUser 6)) :: _) => h1_seq (pdu_hdr p) = 1 | _ => False end) /\
  (** no handler for an Update PDP Context Request *)
  (match log_of [LOpen 0; LDatagram 0 44 [48; 18; 0; 0; 0; 0; 0; 0]; LRun 0 true; LRun 0 true] with
   | Some [EvDispatch 0 0 18 None; EvRecv 0 0 44 _; EvOpen 0] => True | _ => False end).
Proof. vm_compute. split; [reflexivity|exact I]. Qed.

Print Assumptions C40_taken_fresh.
Print Assumptions C40_returned_unique.
Print Assumptions C40_returned_taken.
Print Assumptions C40_gives_up.
Print Assumptions C40_missed.
Print Assumptions C40_allocates.
Print Assumptions C40_returned_ie.
Print Assumptions C40_exhausted.
Print Assumptions C40_relayed_refuted.
Print Assumptions C41_relayed_exact.
Print Assumptions C41_closed.
Print Assumptions C41_relays_partial.
Print Assumptions C41_short_refuted.
Print Assumptions C41_long_refuted.
Print Assumptions C42_panic_causes_partial.
Print Assumptions C42_short_refuted.
Print Assumptions C42_error_indication_refuted.
Print Assumptions C43_delivered.
Print Assumptions C43_written.
Print Assumptions C43_end_to_end_partial.
Print Assumptions C43_delivers_partial.
Print Assumptions C43_long_refuted.
Print Assumptions C43_order_refuted.
Print Assumptions C44_sent_only.
Print Assumptions C44_echo.
Print Assumptions C44_error_indication.
Print Assumptions C45_dispatched.
Print Assumptions C45_user_called.
Print Assumptions C45_calls_user.
Print Assumptions C45_last_registered.
Print Assumptions C45_default.
Print Assumptions C45_add_handlers_order.
