(** The example P-GW and MME (ExPgw.v), continued: C75. *)
From Coq Require Import String Lia.
From Verif Require Import Base BaseLemmas Maps MapsProofs Utils UtilsProofs V2IE V2IESpec V2IEProofs V2Header MsgModel MsgSpec MsgProofs MsgProofs2 MsgProofs3 Msgs2Gen V2Msg V2MsgProofs
  V2Codec V2Codec2 V2Ctx CodecSpec CodecSpec4 V2CodecProofs V2CodecProofs2 V2CodecProofs5 V2IdProofs V2AccProofs PropertiesBase PropertiesCtx CPlane SessReq SessReqProofs PropertiesReq ExPgw PropertiesEx.
Open Scope string_scope.
Open Scope N_scope.
Open Scope list_scope.

(** Whatever Create Session Request arrives, the handler returns: no panic as long as TEIDs
    can be found *)
Lemma needs_safe {A} (m : msg2) f (rd : ie2 -> res A) : ~ In None (fget (m_fs m) f) -> (forall i, In (Some i) (fget (m_fs m) f) -> rd i <> Panic) -> needs m f rd <> Panic.
Proof. intros H1 H2. unfold needs. destruct (fget (m_fs m) f) as [|[i|] r]; [discriminate| |elim H1; left; reflexivity]. apply H2. left. reflexivity. Qed.
Lemma bind_np {A B} (r : res A) (k : A -> res B) : r <> Panic -> (forall v, r = Ok v -> k v <> Panic) -> bind r k <> Panic.
Proof. intros H1 H2. destruct r; cbn [bind]; [now apply H2|discriminate|congruence]. Qed.
Lemma acc_ebi_np c : wf2 g2 c -> acc_ebi g2 c <> Panic.
Proof. intros W. apply via_safe; [now apply (wf2_payload_ok g2)|]. intros x _. apply u8_safe. Qed.
Lemma read_context_np b cs : Forall (wf2 g2) cs -> forall e s, read_context b cs e s <> Panic.
Proof.
  induction 1 as [|c r W _ IH]; intros e s; cbn [read_context]; [discriminate|].
  destruct (i2_type c =? 73); [apply bind_np; [now apply acc_ebi_np|intros; apply IH]|].
  destruct (i2_type c =? 87); [|apply IH]. destruct (b && negb (i2_instance c =? 0)); [apply IH|].
  apply bind_np; [change (safe (acc_if_type c)); unfold acc_if_type, typed; safe_tac|]. intros. apply bind_np; [change (safe (acc_teid c)); unfold acc_teid; safe_tac|]. intros. apply IH.
Qed.
Theorem C75_pgw_returns : forall b m peer tc tu cip uip, bytes_ok b -> v2_parse g2 b = Ok (d_CreateSessionRequest, m) ->
  tc < 4294967296 -> tu < 4294967296 -> octets 4 cip -> octets 4 uip ->
  pgw_create m peer (Some tc) (Some tu) cip uip <> Panic.
Proof.
  intros b m peer tc tu cip uip Hb Hp Hc Hu Oc Ou. destruct (request_facts b _ m Hb Hp) as (Hs & Hw & Hn).
  assert (K : pgw_keep m peer <> Panic).
  { unfold pgw_keep.
    apply bind_np; [apply needs_safe; [apply Hn|intros; apply imsi_safe]|intros v1 _].
    apply bind_np; [apply needs_safe; [apply Hn|intros; apply typed_safe, digits_safe]|intros v2 _].
    apply bind_np; [apply needs_safe; [apply Hn|intros; apply typed_safe, digits_safe]|intros v3 _].
    apply bind_np; [apply needs_safe; [apply Hn|intros; apply typed_safe, fqdn_safe]|intros v4 _].
    apply bind_np; [apply needs_safe; [apply Hn|intros i _; change (safe (acc_mcc_mnc i)); unfold acc_mcc_mnc, slice_to; safe_tac; apply decode_plmn_safe; slice_facts; lia]|intros v5 _].
    apply bind_np; [apply needs_safe; [apply Hn|intros; apply typed_safe, u8_safe]|intros v6 _].
    apply bind_np; [apply needs_safe; [apply Hn|intros i _; change (safe (acc_teid i)); unfold acc_teid; safe_tac]|intros v7 _].
    apply needs_safe; [apply Hn|]. intros i Hi. apply read_context_np, wf2_children, (Hw _ i Hi). }
  destruct (pgw_keep m peer) as [[ebi s]|e|] eqn:E; [|unfold pgw_create; rewrite E; discriminate|congruence].
  destruct (subscriber_ip (s_imsi s)) as [ip|e|] eqn:I.
  - destruct (subscriber_known _ _ I) as (k & Hk & Ek). destruct (keep_ok _ _ _ E) as (teid & cs & H1 & H2 & H3 & H4 & H5 & H6 & H7 & H8 & H9 & _).
    cbn [snd] in H1. rewrite Ek in H1.
    destruct (C75_pgw_answers b m peer tc tu cip uip k cs teid Hb Hp) as (r & -> & _); try assumption; [|discriminate].
    exact (conj Hk (conj H1 (conj H2 (conj H3 (conj H4 (conj H5 (conj H6 (conj H7 (conj H8 H9))))))))).
  - unfold pgw_create. rewrite E. cbn [bind]. rewrite I. discriminate.
  - unfold subscriber_ip in I. destruct (find _ _) as [[? ?]|]; discriminate.
Qed.
Print Assumptions C75_pgw_returns.

(** ... but an acceptable request that finds no TEID ends the program *)
Theorem C75_no_teid_refuted : forall m peer tu cip uip k cs teid, acceptable m k cs teid ->
  pgw_create m peer None tu cip uip = Panic.
Proof.
  intros m peer tu cip uip k cs teid Ha. destruct (keep_complete m peer k cs teid Ha) as ([ebi s] & K1 & K2 & _). cbn [snd] in K2.
  unfold pgw_create. rewrite K1. cbn [bind]. rewrite K2, (proj1 (known_ip k (proj1 Ha))). reflexivity.
Qed.
Print Assumptions C75_no_teid_refuted.
(** the user plane answers under TEID 0, whatever TEID the S-GW gave for it *)
Theorem C75_downlink_refuted : forall m peer tc tu cip uip r, pgw_create m peer tc tu cip uip = Ok r -> pd_down r = 0.
Proof.
  intros m peer tc tu cip uip r H. unfold pgw_create in H. cbv zeta in H. apply bind_ok_inv in H as ([ebi s] & _ & H). do 3 apply bind_ok_inv in H as (? & _ & H).
  destruct (aget (s_teids s) 6); [|discriminate]. do 7 apply bind_ok_inv in H as (? & _ & H). destruct (aget _ 7); [|discriminate].
  destruct (s_imsi _); [discriminate|]. injection H as <-. reflexivity.
Qed.
Print Assumptions C75_downlink_refuted.

(** a request of subscriber 1: the S-GW's control plane TEID is 257, its user plane TEID 513 *)
Definition x_unwrap (r : res (option ie2)) : option ie2 := match r with Ok o => o | _ => None end.
Definition x_ies (it : N) : list (option ie2) :=
  [x_unwrap (new_imsi g2 (known_imsi 1)); x_unwrap (new_msisdn g2 [56; 49; 57; 48]); x_unwrap (new_mei g2 [49; 50; 51; 52; 53; 54; 55; 56; 57; 48; 49; 50; 51; 52; 53]);
   match new_fqdn g2 71 [97; 112; 110] with Ok i => Some i | _ => None end; Some (IE2 83 3 0 [33; 243; 84] []); Some (new_uint8 g2 82 6);
   x_unwrap (new_fteid g2 6 257 (Some [127; 0; 0; 2]) None);
   x_unwrap (new_bearer_context g2 [Some (new_ebi g2 5); x_unwrap (do o <- new_fteid g2 it 513 (Some [127; 0; 0; 3]) None; Ok (option_map (fun i => set_instance2 i 2) o))])].
Definition x_request (it : N) : res bytes := do m <- v2_new g2 d_CreateSessionRequest 0 77 (x_ies it); do r <- v2_marshal g2 d_CreateSessionRequest m; Ok (fst r).
Definition x_bytes (it : N) : bytes := match x_request it with Ok b => b | _ => [] end.
Definition x_msg (it : N) : msg2 := match v2_parse g2 (x_bytes it) with Ok (_, m) => m | _ => Msg (new_hdr2 0 0 0 0 []) [] end.
Definition x_children (it : N) : list ie2 := match fget (m_fs (x_msg it)) "BearerContextsToBeCreated" with Some c :: _ => i2_children c | _ => [] end.
Example C75_pgw_example : bytes_okb (x_bytes 4) = true /\ v2_parse g2 (x_bytes 4) = Ok (d_CreateSessionRequest, x_msg 4) /\ acceptable (x_msg 4) 1 (x_children 4) 257 /\
  last_ebi (x_children 4) 0 = 5 /\ last_teid 6 (x_children 4) 257 = 257 /\ last_teid 4 (x_children 4) 0 = 513.
Proof.
  split; [vm_compute; reflexivity|]. split; [vm_compute; reflexivity|]. split; [|vm_compute; repeat split].
  unfold acceptable. split; [left; reflexivity|].
  repeat (split; [first [(eexists; eexists; split; vm_compute; reflexivity) | (eexists; eexists; eexists; split; vm_compute; reflexivity)]|]).
  let v := eval vm_compute in (x_children 4) in assert (E : x_children 4 = v) by (vm_compute; reflexivity). rewrite E.
  apply Forall_cons; [split; cbn [i2_type]; intros H; [eexists; vm_compute; reflexivity|discriminate H]|].
  apply Forall_cons; [split; cbn [i2_type]; intros H; [discriminate H|eexists; eexists; split; vm_compute; reflexivity]|]. apply Forall_nil.
Qed.
(** ... answered under 257; the sender's F-TEID (interface type 6) sent again in the Bearer
    Context turns the answer to the TEID given there *)
Example C75_pgw_example_2 :
  match pgw_create (x_msg 4) 9 (Some 1025) (Some 1026) [127; 0; 0; 1] [127; 0; 0; 5] with
  | Ok r => skipn 4 (firstn 12 (pd_sent r)) = [0; 0; 1; 1; 0; 0; 77; 0] /\ pd_down r = 0 | _ => False end /\
  match pgw_create (x_msg 6) 9 (Some 1025) (Some 1026) [127; 0; 0; 1] [127; 0; 0; 5] with
  | Ok r => skipn 4 (firstn 12 (pd_sent r)) = [0; 0; 2; 1; 0; 0; 77; 0] | _ => False end /\
  pgw_create (x_msg 4) 9 None (Some 1026) [127; 0; 0; 1] [127; 0; 0; 5] = Panic.
Proof. vm_compute. repeat split. Qed.

(** the session made of it (C75_pgw_keeps): the country code 123 is lost *)
Example C75_keeps_example : match pgw_create (x_msg 4) 9 (Some 1025) (Some 1026) [127; 0; 0; 1] [127; 0; 0; 5] with
  | Ok r => let s := pd_session r in s_peer s = 9 /\ s_msisdn s = [56; 49; 57; 48] /\ s_mcc s = [] /\ s_mnc s = [52; 53] /\ s_rat s = 6 /\
      aget (s_teids s) 4 = Some 513 /\ aget (s_teids s) 3 = None | _ => False end /\ reads (x_msg 4) "ServingNetwork" acc_mcc_mnc ([49; 50; 51], [52; 53]).
Proof. split; [vm_compute; repeat split|eexists; eexists; split; vm_compute; reflexivity]. Qed.

(** ** The packets answered by the P-GW's user plane *)
(** same packet with source and destination swapped, octet 20 (ICMP type) 0 and octet 22 155 *)
Definition echo_octet (p : bytes) (k : nat) : N :=
  if ((12 <=? k) && (k <? 16))%nat then nth (k + 4) p 0 else if ((16 <=? k) && (k <? 20))%nat then nth (k - 4) p 0 else
  if (k =? 20)%nat then 0 else if (k =? 22)%nat then 155 else nth k p 0.
Theorem C75_echo : forall p, (23 <= len p)%nat ->
  exists q, pgw_echo p = Ok q /\ len q = len p /\ forall k, (k < len p)%nat -> nth k q 0 = echo_octet p k.
Proof.
  intros p H. do 23 (destruct p as [|? p]; [cbn in H; lia|]). eexists. split; [vm_compute; reflexivity|]. split; [reflexivity|].
  intros k Hk. do 23 (destruct k as [|k]; [reflexivity|]). reflexivity.
Qed.
Print Assumptions C75_echo.
Theorem C75_echo_short_refuted : forall p, (len p <= 22)%nat -> pgw_echo p = Panic.
Proof.
  intros p H. do 23 (destruct p as [|? p]; [vm_compute; reflexivity|]). cbn in H. lia.
Qed.
Print Assumptions C75_echo_short_refuted.
Example C75_echo_example : pgw_echo [69; 0; 0; 24; 0; 0; 0; 0; 64; 1; 0; 0; 10; 10; 10; 1; 8; 8; 8; 8; 8; 0; 1; 2] =
  Ok [69; 0; 0; 24; 0; 0; 0; 0; 64; 1; 0; 0; 8; 8; 8; 8; 10; 10; 10; 1; 0; 0; 155; 2].
Proof. reflexivity. Qed.

(** ** Delete Session Request *)
Definition deletion_answer (m : msg2) (raw : bytes) (teid cause : N) : Prop :=
  exists a, v2_parse g2 raw = Ok (d_DeleteSessionResponse, a) /\ h2_get_teid (m_hdr a) = teid /\ h2_seq (m_hdr a) = h2_seq (m_hdr m) /\
    reads a "Cause" (acc_cause g2) cause.
Lemma dsrsp_run l1 p1 c1 : run_table (io2 g2) (md_new d_DeleteSessionResponse) [Some (IE2 2 l1 0 p1 c1)] (fempty d_DeleteSessionResponse) =
  Ok (fset (fempty d_DeleteSessionResponse) "Cause" [Some (IE2 2 l1 0 p1 c1)]).
Proof. vm_compute. reflexivity. Qed.
Lemma dsrsp_run1 i : i2_type i = 2 -> i2_inst i = 0 -> run_table (io2 g2) (md_new d_DeleteSessionResponse) [Some i] (fempty d_DeleteSessionResponse) =
  Ok (fset (fempty d_DeleteSessionResponse) "Cause" [Some i]).
Proof. destruct i. cbn [i2_type i2_inst]. intros -> ->. apply dsrsp_run. Qed.
Lemma dsrsp_cause (v : list (option ie2)) : fget (fset (fempty d_DeleteSessionResponse) "Cause" v) "Cause" = v.
Proof. vm_compute. reflexivity. Qed.
Lemma dsrsp_answer_of (m : msg2) t c i : t < 4294967296 -> h2_seq (m_hdr m) < 16777216 -> wf2 g2 i -> i2_type i = 2 -> i2_inst i = 0 -> acc_cause g2 i = Ok c ->
  N.of_nat (12 + len (flat_map (wire2 g2) (nonnil [Some i]))) < 65536 ->
  exists raw, (do r <- v2_new g2 d_DeleteSessionResponse t 0 [Some i]; respond_bytes d_DeleteSessionResponse r (h2_seq (m_hdr m))) = Ok raw /\ deletion_answer m raw t c.
Proof.
  intros Ht Hs W T0 I0 A L. assert (F1 := dsrsp_run1 i T0 I0).
  destruct (C64_v2_respond d_DeleteSessionResponse 0 1 37 t 0 [Some i] m dsrsp_built eq_refl Ht) as (r & raw & a & R1 & R2 & _ & _ & R3 & _ & R4 & R5 & R6).
  { apply Forall_cons; [exact W|apply Forall_nil]. } { exact L. } { exact Hs. }
  exists raw. split; [unfold response in R2; exact R2|]. exists a. split; [exact R3|]. split; [exact R4|]. split; [exact R5|].
  destruct (new_shape _ _ _ _ _ _ R1) as (fs & l & F & ->). cbn [m_fs] in R6.
  rewrite F1 in F. injection F as <-.
  exists i, []. rewrite R6. split; [apply dsrsp_cause|exact A].
Qed.
Lemma dsrsp_answer (m : msg2) t c : t < 4294967296 -> c < 256 -> h2_seq (m_hdr m) < 16777216 ->
  exists raw, (do r <- v2_new g2 d_DeleteSessionResponse t 0 [Some (new_cause g2 c 0 0 0 None)]; respond_bytes d_DeleteSessionResponse r (h2_seq (m_hdr m))) = Ok raw /\ deletion_answer m raw t c.
Proof.
  intros Ht Hc Hs. apply dsrsp_answer_of; try assumption; try reflexivity.
  apply wf2_plain; try reflexivity; try lia. cbn [i2_payload new_cause]. apply Forall_cons; [exact Hc|apply Forall_cons; [reflexivity|apply Forall_nil]].
Qed.
Theorem C75_pgw_delete : forall b m s t, bytes_ok b -> v2_parse g2 b = Ok (d_DeleteSessionRequest, m) ->
  aget (s_teids s) 6 = Some t -> t < 4294967296 ->
  exists raw, pgw_delete m (Some s) = Ok (Some raw, true) /\ deletion_answer m raw t 16.
Proof.
  intros b m s t Hb Hp E Ht. destruct (request_facts b _ m Hb Hp) as (Hs & _). destruct (dsrsp_answer m t 16 Ht eq_refl Hs) as (raw & R & A).
  exists raw. split; [|exact A]. unfold pgw_delete. rewrite E. cbv zeta. rewrite R. reflexivity.
Qed.
Print Assumptions C75_pgw_delete.
Theorem C75_pgw_delete_unknown : forall b m, bytes_ok b -> v2_parse g2 b = Ok (d_DeleteSessionRequest, m) ->
  exists raw, pgw_delete m None = Ok (Some raw, false) /\ deletion_answer m raw 0 96.
Proof.
  intros b m Hb Hp. destruct (request_facts b _ m Hb Hp) as (Hs & _). destruct (dsrsp_answer m 0 96 eq_refl eq_refl Hs) as (raw & R & A).
  exists raw. split; [|exact A]. unfold pgw_delete. cbv zeta. rewrite R. reflexivity.
Qed.
Print Assumptions C75_pgw_delete_unknown.
(** without a TEID of the S-GW there is no answer, and the session stays *)
Theorem C75_pgw_delete_silent_refuted : forall m s, aget (s_teids s) 6 = None -> pgw_delete m (Some s) = Ok (None, false).
Proof. intros m s E. unfold pgw_delete. now rewrite E. Qed.
Print Assumptions C75_pgw_delete_silent_refuted.
Definition x_delete : res bytes := do m <- v2_new g2 d_DeleteSessionRequest 1025 78 [Some (new_ebi g2 5)]; do r <- v2_marshal g2 d_DeleteSessionRequest m; Ok (fst r).
Definition x_delete_msg : msg2 := match (do b <- x_delete; v2_parse g2 b) with Ok (_, m) => m | _ => Msg (new_hdr2 0 0 0 0 []) [] end.
Example C75_delete_example : (do b <- x_delete; v2_parse g2 b) = Ok (d_DeleteSessionRequest, x_delete_msg) /\
  pgw_delete x_delete_msg (Some (Sess 9 true (known_imsi 1) [] [] [] [] 0 [(6, 257); (7, 1025)] [] [])) = Ok (Some [72; 37; 0; 14; 0; 0; 1; 1; 0; 0; 78; 0; 2; 0; 2; 0; 16; 0], true) /\
  pgw_delete x_delete_msg None = Ok (Some [72; 37; 0; 14; 0; 0; 0; 0; 0; 0; 78; 0; 2; 0; 2; 0; 96; 0], false).
Proof. vm_compute. repeat split. Qed.

(** ** The MME: Create Session Response *)
(** a child of the bearer context that is not skipped is read *)
Definition child_read0 (c : ie2) : Prop :=
  (i2_type c = 73 -> exists e, acc_ebi g2 c = Ok e) /\
  (i2_type c = 87 -> i2_instance c = 0 -> exists it t, acc_if_type c = Ok it /\ acc_teid c = Ok t).
(** the TEID of the last F-TEID child of instance 0 for interface [it], t without one *)
Fixpoint last_teid0 (it : N) (cs : list ie2) (t : N) : N :=
  match cs with
  | [] => t
  | c :: r => last_teid0 it r (if (i2_type c =? 87) && (i2_instance c =? 0) then
      match acc_if_type c, acc_teid c with Ok k, Ok v => if k =? it then v else t | _, _ => t end else t)
  end.
Lemma context0_ok cs : forall e s x, read_context true cs e s = Ok x ->
  Forall child_read0 cs /\ fst x = last_ebi cs e /\ s_imsi (snd x) = s_imsi s /\
  (forall it t, aget (s_teids s) it = Some t -> aget (s_teids (snd x)) it = Some (last_teid0 it cs t)).
Proof.
  induction cs as [|c r IH]; intros e s x H; cbn [read_context] in H.
  { injection H as <-. repeat split; try assumption. apply Forall_nil. intros; assumption. }
  cbn [last_ebi last_teid0]. destruct (i2_type c =? 73) eqn:E73.
  - apply bind_ok_inv in H as (v & V & H). apply IH in H as (H1 & H2 & H3 & H4).
    assert (E87 : i2_type c =? 87 = false) by (apply N.eqb_eq in E73; apply N.eqb_neq; lia). rewrite E87, V. cbn [andb].
    split; [apply Forall_cons; [|exact H1]|now repeat split]. split; [intros _; now exists v|]. intros E. apply N.eqb_neq in E87. contradiction.
  - destruct (i2_type c =? 87) eqn:E87; cbn [andb] in *.
    + destruct (i2_instance c =? 0) eqn:E0; cbn [negb] in H.
      * apply bind_ok_inv in H as (it & I & H). apply bind_ok_inv in H as (t & T & H). apply IH in H as (H1 & H2 & H3 & H4).
        rewrite I, T. split; [apply Forall_cons; [|exact H1]|].
        { split; [intros E; apply N.eqb_neq in E73; contradiction|]. intros _ _. exists it, t. now split. }
        split; [exact H2|]. split; [exact H3|]. intros k v K. apply H4. unfold add_teid. cbn [set_s s_teids]. rewrite aget_aput.
        destruct (it =? k); [reflexivity|exact K].
      * apply IH in H as (H1 & H2 & H3 & H4). split; [apply Forall_cons; [|exact H1]|now repeat split].
        split; [intros E; apply N.eqb_neq in E73; contradiction|]. intros _ E. apply N.eqb_neq in E0. contradiction.
    + apply IH in H as (H1 & H2 & H3 & H4). split; [apply Forall_cons; [|exact H1]|now repeat split].
      split; intros E; [apply N.eqb_neq in E73|apply N.eqb_neq in E87]; contradiction.
Qed.
Lemma context0_complete cs : Forall child_read0 cs -> forall e s, exists x, read_context true cs e s = Ok x.
Proof.
  induction 1 as [|c r [H1 H2] _ IH]; intros e s; cbn [read_context]; [eexists; reflexivity|].
  destruct (i2_type c =? 73) eqn:E73; [apply N.eqb_eq in E73; destruct (H1 E73) as (v & ->); cbn [bind]; apply IH|].
  destruct (i2_type c =? 87) eqn:E87; [|apply IH]. cbn [andb]. destruct (i2_instance c =? 0) eqn:E0; cbn [negb]; [|apply IH].
  apply N.eqb_eq in E87, E0. destruct (H2 E87 E0) as (it & t & -> & ->). cbn [bind]. apply IH.
Qed.
(** the response is taken: accepted by the S-GW, its TEID and a Bearer Context read, an
    address read when there is one, and the session has the MME's own TEID and an IMSI *)
Definition taken (m : msg2) (s : session) (cs : list ie2) (sgw : N) : Prop :=
  reads m "Cause" (acc_cause g2) 16 /\ (forall i r, fget (m_fs m) "PAA" = Some i :: r -> exists a, acc_ip i = Ok a) /\
  reads m "SenderFTEIDC" acc_teid sgw /\ (exists t, aget (s_teids s) 10 = Some t) /\
  (exists c r, fget (m_fs m) "BearerContextsCreated" = Some c :: r /\ i2_children c = cs) /\ Forall child_read0 cs /\ s_imsi s <> [].
Theorem C75_mme_created : forall m s ip0 ebi0,
  (forall r, mme_created m (Some s) ip0 ebi0 = Ok r -> exists cs sgw, taken m s cs sgw) /\
  forall cs sgw, taken m s cs sgw -> exists ip s', mme_created m (Some s) ip0 ebi0 = Ok (ip, last_ebi cs ebi0, s') /\
    s_active s' = true /\ s_imsi s' = s_imsi s /\ aget (s_teids s') 11 = Some (last_teid0 11 cs sgw) /\
    (forall k t, k <> 11 -> aget (s_teids s) k = Some t -> aget (s_teids s') k = Some (last_teid0 k cs t)) /\
    (fget (m_fs m) "PAA" = [] -> ip = ip0) /\ forall i r, fget (m_fs m) "PAA" = Some i :: r -> acc_ip i = Ok ip.
Proof.
  intros m s ip0 ebi0. assert (T10 : forall t, aget (s_teids (add_teid s 11 t)) 10 = aget (s_teids s) 10) by (intros t; unfold add_teid; cbn [set_s s_teids]; rewrite aget_aput; reflexivity).
  split.
  - intros r H. unfold mme_created in H. apply bind_ok_inv in H as (c & C & H). destruct (c =? 16) eqn:E; [|discriminate]. apply N.eqb_eq in E. subst c. cbn [negb] in H.
    apply bind_ok_inv in H as (ip & P & H). apply bind_ok_inv in H as (t & T & H). cbv zeta in H. rewrite T10 in H.
    destruct (aget (s_teids s) 10) as [u|] eqn:U; [|discriminate]. apply bind_ok_inv in H as ([ebi s'] & X & H).
    apply needs_ok in C, T, X. destruct X as (i & l & F & X). destruct (context0_ok _ _ _ _ X) as (X1 & _ & X3 & _). cbn [snd] in X3.
    exists (i2_children i), t. split; [exact C|]. split. { intros j l' E. rewrite E in P. now exists ip. }
    split; [exact T|]. split; [now exists u|]. split; [exists i, l; now split|]. split; [exact X1|]. intros E.
    rewrite X3 in H. unfold add_teid in H. cbn [set_s s_imsi] in H. rewrite E in H. discriminate.
  - intros cs sgw (C & P & T & (u & U) & (c & l & F & Ec) & K & Hi). unfold mme_created.
    rewrite (proj2 (needs_ok _ _ _ _) C). cbn [bind]. change (negb (16 =? 16)) with false. cbv iota.
    assert (Q : exists ip, (match fget (m_fs m) "PAA" with Some i :: _ => acc_ip i | _ => Ok ip0 end) = Ok ip /\
      (fget (m_fs m) "PAA" = [] -> ip = ip0) /\ forall i r, fget (m_fs m) "PAA" = Some i :: r -> acc_ip i = Ok ip).
    { destruct (fget (m_fs m) "PAA") as [|[i|] r] eqn:E.
      - exists ip0. split; [reflexivity|]. split; [reflexivity|discriminate].
      - destruct (P i r eq_refl) as (a & A). exists a. split; [exact A|]. split; [discriminate|]. intros j r' H. injection H as <- <-. exact A.
      - exists ip0. split; [reflexivity|]. split; discriminate. }
    destruct Q as (ip & Q1 & Q2 & Q3). rewrite Q1. cbn [bind]. rewrite (proj2 (needs_ok _ _ _ _) T). cbn [bind]. cbv zeta. rewrite T10, U.
    unfold needs. rewrite F, Ec. destruct (context0_complete cs K ebi0 (add_teid s 11 sgw)) as ([ebi s'] & X). rewrite X. cbn [bind].
    destruct (context0_ok _ _ _ _ X) as (_ & X2 & X3 & X4). cbn [fst snd] in *. unfold add_teid in X3, X4. cbn [set_s s_imsi s_teids] in X3, X4.
    rewrite X3. destruct (s_imsi s) as [|d ds] eqn:E; [contradiction|]. exists ip, (set_s s' (SActive true)). rewrite X2. split; [reflexivity|].
    split; [reflexivity|]. split; [exact X3|]. split; [apply X4; rewrite aget_aput, N.eqb_refl; reflexivity|]. split; [|now split].
    intros k t Nk Hk. apply X4. rewrite aget_aput. apply N.eqb_neq in Nk. try rewrite Nk; try rewrite N.eqb_sym, Nk. exact Hk.
Qed.
Print Assumptions C75_mme_created.
(** a response under an unknown TEID, and the first attach of a subscriber, end the program *)
Theorem C75_mme_unknown_refuted : (forall m ip ebi, mme_created m None ip ebi = Panic) /\ mme_attach None = Panic.
Proof. split; reflexivity. Qed.
Print Assumptions C75_mme_unknown_refuted.
Definition x_sgw_ies : list (option ie2) :=
  [Some (new_cause g2 16 0 0 0 None); x_unwrap (new_fteid g2 11 769 (Some [127; 0; 0; 2]) None);
   x_unwrap (new_bearer_context g2 [Some (new_ebi g2 5); x_unwrap (new_fteid g2 1 770 (Some [127; 0; 0; 3]) None);
     x_unwrap (do o <- new_fteid g2 11 771 (Some [127; 0; 0; 4]) None; Ok (option_map (fun i => set_instance2 i 2) o))])].
Definition x_sgw_msg : msg2 := match (do m <- v2_new g2 d_CreateSessionResponse 10 77 x_sgw_ies; do r <- v2_marshal g2 d_CreateSessionResponse m; v2_parse g2 (fst r)) with Ok (_, m) => m | _ => Msg (new_hdr2 0 0 0 0 []) [] end.
Definition x_mme_session : session := Sess 9 false (known_imsi 1) [] [] [] [] 0 [(10, 10)] [] [].
(** the F-TEID of instance 2 is not looked at *)
Example C75_mme_example : (exists cs, taken x_sgw_msg x_mme_session cs 769 /\ last_ebi cs 0 = 5 /\ last_teid0 11 cs 769 = 769 /\ length cs = 3%nat) /\
  match mme_created x_sgw_msg (Some x_mme_session) None 0 with Ok (None, 5, s') => aget (s_teids s') 11 = Some 769 /\ aget (s_teids s') 1 = Some 770 | _ => False end.
Proof.
  split; [|vm_compute; split; reflexivity].
  exists (match fget (m_fs x_sgw_msg) "BearerContextsCreated" with Some c :: _ => i2_children c | _ => [] end).
  match goal with |- context [taken _ _ ?c _] => let v := eval vm_compute in c in assert (E : c = v) by (vm_compute; reflexivity) end. rewrite E.
  split; [|vm_compute; repeat split].
  split; [eexists; eexists; split; vm_compute; reflexivity|]. split. { intros i r H. vm_compute in H. discriminate. }
  split; [eexists; eexists; split; vm_compute; reflexivity|]. split; [eexists; vm_compute; reflexivity|].
  split; [eexists; eexists; split; [vm_compute; reflexivity|reflexivity]|]. split; [|discriminate].
  apply Forall_cons; [split; cbn [i2_type]; intros H; [eexists; vm_compute; reflexivity|discriminate H]|].
  apply Forall_cons; [split; cbn [i2_type]; intros H; [discriminate H|intros _; eexists; eexists; split; vm_compute; reflexivity]|].
  apply Forall_cons; [split; cbn [i2_type]; intros H; [discriminate H|intros _; eexists; eexists; split; vm_compute; reflexivity]|]. apply Forall_nil.
Qed.
