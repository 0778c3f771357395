(** What the example S-GW asks of the P-GW (ExSgw3.v), and the attachment from the MME's request on: C80. *)
From Coq Require Import String Lia.
From Verif Require Import Base BaseLemmas Maps MapsProofs Utils UtilsProofs V2IE V2IESpec V2IEProofs V2Header V2HeaderProofs MsgModel MsgSpec MsgProofs MsgProofs2 MsgProofs3 GenericMsg Msgs2Gen V2Msg V2MsgProofs MsgRepair
  V2Codec V2Codec2 V2Ctx CodecSpec V2CodecProofs V2AccProofs PropertiesCtx FieldSpec FieldProofs FieldProofs2 Properties52 PropertiesBase PropertiesBase2 Properties2Fix CPlane SessReq SessReqProofs PropertiesReq ExPgw PropertiesEx PropertiesEx2 PropertiesFwd ExSgw PropertiesSgw PropertiesFill ExSgw2 PropertiesSgw2 PropertiesSgw3 ExMme PropertiesJoin ExSgw3 SgwAskSpec SgwAskProofs.
Open Scope string_scope.
Open Scope N_scope.
Open Scope list_scope.


Lemma fields_kept f : In f passed_fields <-> exists ty k, In (f, ty, k) kept_tab.
Proof.
  change passed_fields with (map (fun p => fst (fst p)) kept_tab). rewrite in_map_iff. split; [intros ([[f' ty] k] & E & H); cbn [fst] in E; subst f'; now exists ty, k|intros (ty & k & H); now exists (f, ty, k)].
Qed.
Lemma needs_reads {A} m f (rd : ie2 -> res A) v : reads m f rd v -> needs m f rd = Ok v.
Proof. intros (i & r & F & V). unfold needs. now rewrite F. Qed.
Lemma reads_same {A} m x f (rd : ie2 -> res A) v : fget (m_fs x) f = fget (m_fs m) f -> reads m f rd v -> reads x f rd v.
Proof. intros E (i & r & F & V). exists i, r. now rewrite E. Qed.
(** The request to the P-GW has the MME's IEs of the fields passed on, the S-GW's own F-TEIDs and
    FQ-CSID, and no other IE; both sessions are the subscriber's. *)
Theorem C80_sgw_asks : forall b m peer pgw a imsi mme ts tc tu i11 i5c i5u n, bytes_ok b -> v2_parse g2 b = Ok (csreq, m) -> complete m a imsi mme ->
  N.of_nat (len b) + 100 < 65536 -> ts < 4294967296 -> tc < 4294967296 -> tu < 4294967296 -> octets 4 i11 -> octets 4 i5c -> octets 4 i5u -> n < 16777216 ->
  exists r x ctx u, sgw_ask m peer pgw (Some ts) (Some tc) (Some tu) i11 i5c i5u n = Ok r /\ as_to r = a /\
    bytes_ok (as_sent r) /\ v2_parse g2 (as_sent r) = Ok (csreq, x) /\ h2_get_teid (m_hdr x) = 0 /\ h2_seq (m_hdr x) = n /\
    asks_for m x ctx u tc tu i5c i5u /\ as_t11 r = ts /\ as_t5 r = tc /\
    s_imsi (as_s11 r) = imsi /\ s_peer (as_s11 r) = peer /\ aget (s_teids (as_s11 r)) 10 = Some mme /\ aget (s_teids (as_s11 r)) 11 = Some ts /\
    s_imsi (as_s5 r) = imsi /\ s_peer (as_s5 r) = pgw /\ aget (s_teids (as_s5 r)) 6 = Some tc /\ aget (s_teids (as_s5 r)) 4 = Some tu /\
    forall it tp, reads m "PGWS5S8FTEIDC" acc_if_type it -> reads m "PGWS5S8FTEIDC" acc_teid tp -> as_reg r = tc :: if it =? 6 then [tp] else [].
Proof.
  intros b m peer pgw a imsi mme ts tc tu i11 i5c i5u n Hb Hp Hc Hl Hts Htc Htu O11 O5c O5u Hn. pose proof Hc as ((ip & Pi & P4) & (tp & Pt) & Cm & Ci & (msisdn & Cs) & (mei & Ce) & (apn & Ca) & (net & Cn) & (rat & Cr)).
  destruct (fteid_plain 11 ts i11 ltac:(lia) Hts O11) as (sender & Fs1 & _ & _ & _ & _ & Fs2 & _). destruct (fteid_reads _ _ _ _ Fs2) as (_ & _ & Fs3 & _).
  destruct (fteid_plain 6 tc i5c ltac:(lia) Htc O5c) as (s5c & Fc1 & Fc2 & Fc3 & Fc4 & Fc5 & Fc6 & Fc7). destruct (fteid_reads _ _ _ _ Fc6) as (_ & _ & Fc8 & _).
  destruct (fteid_made 4 tu i5u 2 ltac:(lia) Htu O5u ltac:(lia)) as (u & U1 & U2 & U3 & U4 & U5 & U6 & U7 & U8). destruct (fteid_reads _ _ _ _ U7) as (_ & U9 & _ & _).
  destruct (own_context u U2 U3 U5 U6) as (ctx & X1 & X2 & X3 & X4 & X5 & X6).
  destruct (fqcsid_made i5u O5u) as (q & Q1 & Q2 & Q3 & Q4 & Q5 & Q6). destruct (inst_facts q 1 ltac:(lia) Q4) as (K1 & K2 & K3 & _ & _ & K6 & _).
  set (csid := set_instance2 q 1) in *.
  assert (Ki : i2_instance csid = 1) by (unfold i2_instance; rewrite K2; reflexivity).
  assert (Lc : len (wire2 g2 s5c) = 13%nat). { rewrite len_wire. destruct s5c as [ty l ins p c]. cbn [i2_type i2_children i2_payload] in *. subst. cbn. rewrite Fc5. reflexivity. }
  assert (Lq : len (wire2 g2 csid) = 11%nat). { rewrite len_wire. unfold csid. rewrite <- Q5. destruct q as [ty l ins p c]. reflexivity. }
  destruct (request_sent b m s5c ctx csid n Hb Hp Hl Hn Fc2 Fc3 Fc7 X2 X3 X4 K1 ltac:(congruence) Ki ltac:(lia)) as (r & w & x & R1 & R2 & R3 & R4 & R5 & R6 & R7 & R8).
  pose proof (ies_go b m a imsi mme s5c ctx csid tc tu i5c i5u u Hb Hp Hc Fc6 X3 X4 X5 U7 ltac:(congruence)) as Go.
  destruct (script_goes 6 _ Go) as [G1 G2].
  eexists. exists x, ctx, u. split.
  { unfold sgw_ask, sgw_keep. rewrite (needs_reads m "PGWS5S8FTEIDC" _ (ip, tp)) by (apply reads_both; split; assumption). cbn [bind fst snd].
    rewrite (needs_reads _ _ _ _ Cm). cbn [bind]. unfold udp_addr. rewrite P4. cbn [bind]. rewrite (needs_reads _ _ _ _ Ci), (needs_reads _ _ _ _ Cs), (needs_reads _ _ _ _ Ce), (needs_reads _ _ _ _ Ca), (needs_reads _ _ _ _ Cn), (needs_reads _ _ _ _ Cr). cbn [bind fst snd].
    unfold made. cbn [allocated]. rewrite Fs1. cbn [bind]. rewrite Fs3. cbn [must bind]. cbv zeta. unfold allocated in U1. rewrite U1. cbn [bind]. rewrite bqos_made. cbn [bind]. rewrite X1. cbn [bind].
    unfold with_instance. rewrite Q1. cbn [bind]. fold csid. rewrite Fc1. cbn [bind]. rewrite G1, R1. cbn [bind]. rewrite R2. cbn [bind fst snd]. rewrite U9, U8, Fc8. cbn [must bind]. reflexivity. }
  cbn [as_to as_sent as_s11 as_s5 as_t11 as_t5 as_reg]. split; [reflexivity|]. split; [exact R3|]. split; [exact R4|]. split; [exact R5|]. split; [exact R6|]. split.
  { unfold asks_for. split; [|split; [|split; [|split; [|split; [|split; [|split]]]]]].
    - intros f H. apply fields_kept in H as (ty & k & H). rewrite (field_get b m f ty k Hb Hp H). apply R7. clear - H. cbn [kept_tab In] in H. decompose [or] H; clear H; try contradiction; match goal with E : _ = (f, ty, k) |- _ => injection E as <- <- <- end;
        unfold pairs; cbn [In]; repeat first [left; reflexivity|right].
    - exists s5c. split; [|exact Fc6]. apply (R7 "SenderFTEIDC" (Some s5c)). unfold pairs. cbn [In]. repeat first [left; reflexivity|right].
    - apply (R7 "BearerContextsToBeCreated" (Some ctx)). unfold pairs. cbn [In]. repeat first [left; reflexivity|right].
    - exact X5.
    - exact U7.
    - unfold i2_instance. rewrite U4. reflexivity.
    - exists csid. split; [apply (R7 "SGWFQCSID" (Some csid)); unfold pairs; cbn [In]; repeat first [left; reflexivity|right]|]. unfold acc_fqcsid, typed in *. rewrite K3. rewrite Q2 in *. cbn [N.eqb Pos.eqb] in *. rewrite K6. exact Q6.
    - intros f H. apply R8. intros K. apply H. clear - K. cbn [pairs map fst In passed_fields] in *. tauto. }
  split; [reflexivity|]. split; [reflexivity|]. cbn [snd]. split; [reflexivity|]. split; [reflexivity|]. split; [reflexivity|]. split; [reflexivity|].
  assert (Hi : exists l, fst (create_script 6 (sgw_ies m s5c (Some ctx) csid)) = DoS (SImsi imsi) :: l /\ Forall no_imsi l).
  { rewrite G2. destruct Ci as (i & q1 & F & V). assert (Fi : field m "IMSI" = Some i) by (unfold field; now rewrite F).
    exists (flat_map (fun o => match o with Some i => fst (create_ie 6 i) | None => [] end) (tl (sgw_ies m s5c (Some ctx) csid))). split.
    - unfold sgw_ies at 1. cbn [flat_map tl]. rewrite Fi. assert (Ti : i2_type i = 1).
      { apply (kept_type b m "IMSI" 1 None i Hb Hp); [left; reflexivity|rewrite F; left; reflexivity]. }
      unfold create_ie at 1. cbv zeta. rewrite Ti. eqs. rewrite V. reflexivity.
    - apply Forall_flat_map, Forall_forall. intros [j|] J; [|constructor]. apply ie_no_imsi.
      assert (J' : In (Some j) (map snd (tl (pairs m s5c ctx csid)))) by exact J. apply in_map_iff in J' as ([f o] & E & J'). cbn [snd] in E. subst o.
      assert (Nf : f <> "IMSI"). { intros ->. cbn [tl pairs In] in J'. clear - J'. decompose [or] J'; try discriminate; contradiction. }
      assert (J2 : In (f, Some j) (pairs m s5c ctx csid)) by (right; exact J').
      apply pairs_in in J2 as [(ty & k & H & E)|[[_ E]|[[_ E]|[_ E]]]]; try (injection E as ->; congruence).
      assert (Hj : In (Some j) (fget (m_fs m) f)) by (rewrite (field_get b m f ty k Hb Hp H), <- E; left; reflexivity).
      destruct (kept_type b m f ty k j Hb Hp H Hj) as (_ & -> & _). clear - H Nf. cbn [kept_tab In] in H. decompose [or] H; clear H; try contradiction; match goal with E : _ = (f, ty, k) |- _ => injection E as <- <- <- end; try discriminate. congruence. }
  assert (Rg : forall it tp, reads m "PGWS5S8FTEIDC" acc_if_type it -> reads m "PGWS5S8FTEIDC" acc_teid tp -> teids_of (fst (create_script 6 (sgw_ies m s5c (Some ctx) csid))) = tc :: if it =? 6 then [tp] else []).
  { intros it tp' (i & q1 & F & V1) (i' & q2 & F' & V2). rewrite F in F'. injection F' as <- <-. rewrite G2, teids_flat.
    set (T := fun o : option ie2 => teids_of (match o with Some i0 => fst (create_ie 6 i0) | None => [] end)).
    assert (Z : forall f ty k, In (f, ty, k) kept_tab -> ty <> 87 -> T (field m f) = []).
    { intros f ty k H N. unfold T. destruct (field m f) as [j|] eqn:E; [|reflexivity]. apply no_teids, ie_no_teid.
      destruct (kept_type b m f ty k j Hb Hp H) as (_ & -> & _); [rewrite (field_get b m f ty k Hb Hp H), E; left; reflexivity|exact N]. }
    assert (T5 : T (Some s5c) = [tc]).
    { destruct (fteid_reads _ _ _ _ Fc6) as (S1 & S2 & S3 & _). unfold T, create_ie. cbv zeta. rewrite S1. eqs. rewrite S2, S3. reflexivity. }
    assert (Tp : T (field m "PGWS5S8FTEIDC") = if it =? 6 then [tp'] else []).
    { unfold field. rewrite F. unfold T, create_ie. cbv zeta. destruct (kept_type b m "PGWS5S8FTEIDC" 87 (Some 1) i Hb Hp) as (_ & -> & _); [cbn [kept_tab In]; tauto|rewrite F; left; reflexivity|].
      eqs. rewrite V1, V2. cbn [require fst]. destruct (it =? 6); reflexivity. }
    assert (Tx : T (Some ctx) = []) by (apply no_teids, ie_no_teid; congruence). assert (Td : T (Some csid) = []) by (apply no_teids, ie_no_teid; congruence).
    unfold sgw_ies. cbn [flat_map]. rewrite T5, Tp, Tx, Td.
    rewrite (Z "IMSI" 1 None), (Z "MSISDN" 76 None), (Z "MEI" 75 None), (Z "ServingNetwork" 83 None), (Z "RATType" 82 None), (Z "IndicationFlags" 77 None), (Z "APN" 71 None), (Z "SelectionMode" 128 None),
      (Z "PDNType" 99 None), (Z "PAA" 79 None), (Z "APNRestriction" 127 None), (Z "AMBR" 72 None), (Z "ULI" 86 (Some 0)), (Z "MMEFQCSID" 132 (Some 0)); try discriminate; try (cbn [kept_tab In]; tauto).
    destruct (it =? 6); reflexivity. }
  split; [|split; [|split; [|split; [|exact Rg]]]]; clear Rg; destruct Hi as (l & -> & Hl'); cbn [add_teid set_s s_imsi s_peer s_teids];
    change (session_of (DoS (SImsi imsi) :: l) ?s) with (session_of l (set_s s (SImsi imsi))); destruct (keeps_imsi l Hl' (set_s (Sess pgw false [] [] [] [] [] 0 [] [(default_name, 0)] []) (SImsi imsi))) as [I1 I2].
  - exact I1.
  - exact I2.
  - reflexivity.
  - reflexivity.
Qed.
Print Assumptions C80_sgw_asks.
(** Nothing less is enough *)
Lemma keep_only m peer a s : sgw_keep m peer = Ok (a, s) -> exists mme, complete m a (s_imsi s) mme /\ aget (s_teids s) 10 = Some mme.
Proof.
  intros K. unfold sgw_keep in K. apply bind_ok_inv in K as ([ip tp] & P & K). apply needs_ok in P. apply reads_both in P as [P1 P2]. apply bind_ok_inv in K as (mme & M & K). apply needs_ok in M.
  apply bind_ok_inv in K as (a' & A & K). do 6 (let v := fresh "v" in let V := fresh "V" in apply bind_ok_inv in K as (v & V & K); apply needs_ok in V). injection K as <- <-. cbn [add_teid set_s s_imsi].
  exists mme. split; [|reflexivity]. unfold complete. split. { exists ip. split; [exact P1|]. unfold udp_addr in A. cbn [fst] in A. destruct (to4 ip); [injection A as ->; reflexivity|discriminate]. }
  split; [now exists tp|]. split; [exact M|]. split; [exact V|]. split; [now exists v0|]. split; [now exists v1|]. split; [now exists v2|]. split; [now exists v3|now exists v4].
Qed.
Lemma ok_inj {A} (x y : A) : Ok x = Ok y -> x = y.
Proof. intros [= H]. exact H. Qed.
Lemma ask_kept m peer pgw ts tc tu i11 i5c i5u n r : sgw_ask m peer pgw ts tc tu i11 i5c i5u n = Ok r -> exists a s t, sgw_keep m peer = Ok (a, s) /\ as_to r = a /\ as_s11 r = add_teid s 11 t.
Proof.
  intros H. unfold sgw_ask in H. apply bind_ok_inv in H as ([a s] & K & H). cbn [fst snd] in H. exists a, s.
  do 2 apply bind_ok_inv in H as (? & _ & H). cbv zeta in H. do 5 apply bind_ok_inv in H as (? & _ & H). destruct (snd (create_script _ _)); try discriminate.
  do 5 apply bind_ok_inv in H as (? & _ & H). apply ok_inj in H as <-. cbn [as_to as_s11]. eexists. split; [exact K|]. split; reflexivity.
Qed.
Theorem C80_sgw_asks_only : forall m peer pgw ts tc tu i11 i5c i5u n r, sgw_ask m peer pgw ts tc tu i11 i5c i5u n = Ok r ->
  exists mme, complete m (as_to r) (s_imsi (as_s11 r)) mme /\ aget (s_teids (as_s11 r)) 10 = Some mme.
Proof.
  intros m peer pgw ts tc tu i11 i5c i5u n r H. destruct (ask_kept _ _ _ _ _ _ _ _ _ _ _ H) as (a & s & t & K & -> & ->).
  destruct (keep_only _ _ _ _ K) as (mme & C & T). exists mme. split; [exact C|]. rewrite add_teid_get. exact T.
Qed.
Print Assumptions C80_sgw_asks_only.
(** What it keeps of the subscriber is what the request says *)
Theorem C80_sgw_keeps : forall m peer pgw ts tc tu i11 i5c i5u n r, sgw_ask m peer pgw ts tc tu i11 i5c i5u n = Ok r ->
  reads m "IMSI" acc_imsi (s_imsi (as_s11 r)) /\ reads m "MSISDN" acc_msisdn (s_msisdn (as_s11 r)) /\ reads m "MEI" acc_mei (s_imei (as_s11 r)) /\
  reads m "ServingNetwork" acc_mcc_mnc (s_mcc (as_s11 r), s_mnc (as_s11 r)) /\ reads m "RATType" (acc_u8 g2 82) (s_rat (as_s11 r)) /\ s_peer (as_s11 r) = peer /\
  exists tp, reads m "PGWS5S8FTEIDC" acc_teid tp /\ aget (s_teids (as_s11 r)) 7 = Some tp.
Proof.
  intros m peer pgw ts tc tu i11 i5c i5u n r H. destruct (ask_kept _ _ _ _ _ _ _ _ _ _ _ H) as (a & s & t & K & _ & ->). clear H.
  unfold sgw_keep in K. apply bind_ok_inv in K as ([ip tp] & P & K). apply needs_ok in P. apply reads_both in P as [P1 P2]. apply bind_ok_inv in K as (mme & M & K).
  apply bind_ok_inv in K as (a' & A & K). do 6 (let v := fresh "v" in let V := fresh "V" in apply bind_ok_inv in K as (v & V & K); apply needs_ok in V). injection K as <- <-.
  cbn [add_teid set_s s_imsi s_msisdn s_imei s_mcc s_mnc s_rat s_peer fst snd]. split; [exact V|]. split; [exact V0|]. split; [exact V1|]. split; [rewrite <- surjective_pairing; exact V3|]. split; [exact V4|]. split; [reflexivity|].
  exists tp. split; [exact P2|reflexivity].
Qed.
Print Assumptions C80_sgw_keeps.
(** A request that the S-GW takes up, for a subscriber that the P-GW knows, ends in a session that
    the three nodes agree on.  The bearer is number 5, whatever the MME asked for. *)
Theorem C80_attach : forall b m peer pgw sgw a k mme ts tc tu i11 i5c i5u n pc pu cip uip br (sm : session) ip0 ebi0 t1 ui,
  bytes_ok b -> v2_parse g2 b = Ok (csreq, m) -> In k [1; 2; 3; 4; 5] -> complete m a (known_imsi k) mme -> N.of_nat (len b) + 100 < 65536 ->
  mme < 4294967296 -> ts < 4294967296 -> tc < 4294967296 -> tu < 4294967296 -> pc < 4294967296 -> pu < 4294967296 -> t1 < 4294967296 ->
  octets 4 i11 -> octets 4 i5c -> octets 4 i5u -> octets 4 cip -> octets 4 uip -> octets 4 ui -> n < 16777216 ->
  (exists o, aget (s_teids sm) 10 = Some o) -> s_imsi sm <> [] ->
  exists r x d ans s' br' sender csid s1u raw y sm',
    sgw_ask m peer pgw (Some ts) (Some tc) (Some tu) i11 i5c i5u n = Ok r /\ as_to r = a /\ v2_parse g2 (as_sent r) = Ok (csreq, x) /\
    pgw_create x sgw (Some pc) (Some pu) cip uip = Ok d /\ v2_parse g2 (pd_sent d) = Ok (d_CreateSessionResponse, ans) /\
    h2_get_teid (m_hdr ans) = as_t5 r /\ h2_seq (m_hdr ans) = n /\
    sgw_created ans (Some (as_s5 r)) br true true = Ok (Given s' br') /\
    new_fteid g2 11 ts (Some i11) None = Ok (Some sender) /\ with_instance (new_fqcsid g2 (NodeIP ui) [1]) 1 = Ok csid /\ new_fteid g2 1 t1 (Some ui) None = Ok (Some s1u) /\
    sgw_relay ans sender csid s1u mme (h2_seq (m_hdr m)) = Ok raw /\ v2_parse g2 raw = Ok (d_CreateSessionResponse, y) /\
    h2_get_teid (m_hdr y) = mme /\ h2_seq (m_hdr y) = h2_seq (m_hdr m) /\
    mme_created y (Some sm) ip0 ebi0 = Ok (Some [10; 10; 10; k], 5, sm') /\
    br' = UBearer (Some [10; 10; 10; k]) 5 (Some uip) pu 0 /\
    s_imsi (pd_session d) = known_imsi k /\ s_imsi (as_s5 r) = known_imsi k /\ s_imsi (as_s11 r) = known_imsi k /\
    aget (s_teids (pd_session d)) 6 = Some (as_t5 r) /\ aget (s_teids (as_s5 r)) 6 = Some (as_t5 r) /\
    aget (s_teids (pd_session d)) 4 = Some tu /\ aget (s_teids (as_s5 r)) 4 = Some tu /\
    aget (s_teids (pd_session d)) 7 = Some pc /\ aget (s_teids s') 7 = Some pc /\
    aget (s_teids (pd_session d)) 5 = Some pu /\ aget (s_teids s') 5 = Some pu /\
    aget (s_teids sm') 11 = Some (as_t11 r) /\ aget (s_teids sm') 1 = Some t1 /\
    s_active (pd_session d) = true /\ s_active s' = true /\ s_active sm' = true.
Proof.
  intros b m peer pgw sgw a k mme ts tc tu i11 i5c i5u n pc pu cip uip br sm ip0 ebi0 t1 ui Hb Hp Hk Hc Hl Hmme Hts Htc Htu Hpc Hpu Ht1 O11 O5c O5u Oc Ou Oui Hn Ho Hsm.
  destruct (request_facts b _ m Hb Hp) as (Hs & _).
  destruct (C80_sgw_asks b m peer pgw a (known_imsi k) mme ts tc tu i11 i5c i5u n Hb Hp Hc Hl Hts Htc Htu O11 O5c O5u Hn)
    as (r & x & ctx & u & R1 & R2 & R3 & R4 & R5 & R6 & (A1 & (s5c & A2 & A3) & A4 & A5 & A6 & A7 & _) & R7 & R8 & R9 & _ & _ & _ & R10 & _ & R11 & R12 & _).
  destruct (fteid_reads _ _ _ _ A3) as (_ & _ & A8 & _). destruct (fteid_reads _ _ _ _ A6) as (U1 & U2 & U3 & _). destruct (ebi_facts 5) as (_ & E2 & E3 & _).
  fold own_qos in A5. set (e := new_ebi g2 5) in *.
  assert (Tq : i2_type own_qos = 80) by reflexivity.
  assert (Ke : forall f, In f ["IMSI"; "MSISDN"; "MEI"; "APN"; "ServingNetwork"; "RATType"] -> fget (m_fs x) f = fget (m_fs m) f).
  { intros f H. apply A1. unfold passed_fields. cbn [In] in *. tauto. }
  assert (Acc : acceptable x k [e; u; own_qos] tc).
  { destruct Hc as (_ & _ & _ & Ci & (v1 & Cs) & (v2 & Ce) & (v3 & Ca) & (v4 & Cn) & (v5 & Cr)).
    split; [exact Hk|]. split; [apply (reads_same m); [apply Ke; cbn [In]; tauto|exact Ci]|].
    split; [exists v1; apply (reads_same m); [apply Ke; cbn [In]; tauto|exact Cs]|]. split; [exists v2; apply (reads_same m); [apply Ke; cbn [In]; tauto|exact Ce]|].
    split; [exists v3; apply (reads_same m); [apply Ke; cbn [In]; tauto|exact Ca]|]. split; [exists v4; apply (reads_same m); [apply Ke; cbn [In]; tauto|exact Cn]|].
    split; [exists v5; apply (reads_same m); [apply Ke; cbn [In]; tauto|exact Cr]|]. split; [exists s5c, []; split; [exact A2|exact A8]|].
    split; [exists ctx, []; split; [exact A4|exact A5]|].
    constructor; [split; [intros _; eexists; exact E3|rewrite E2; discriminate]|]. constructor; [split; [rewrite U1; discriminate|intros _; exists 4, tu; split; assumption]|].
    constructor; [split; rewrite Tq; discriminate|constructor]. }
  assert (Le : last_ebi [e; u; own_qos] 0 = 5). { cbn [last_ebi]. rewrite E2, E3, U1, Tq. reflexivity. }
  assert (Lt : last_teid 6 [e; u; own_qos] tc = tc /\ last_teid 4 [e; u; own_qos] 0 = tu). { cbn [last_teid]. rewrite E2, U1, Tq, U2, U3. split; reflexivity. }
  destruct Lt as [Lt Lt4].
  destruct (C75_pgw_answers _ x sgw pc pu cip uip k _ tc R3 R4 Acc Hpc Hpu Oc Ou) as (d0 & D1 & (_ & _ & a0 & D2 & D3 & D4 & _) & _ & D5 & _ & _ & _ & D6).
  destruct (C75_pgw_keeps x sgw _ _ _ _ _ D1) as (_ & _ & _ & _ & _ & _ & _ & cs & te & (c1 & r1 & F1 & F2) & _ & D7). rewrite A4 in F1. injection F1 as <- <-. rewrite A5 in F2. subst cs.
  assert (S5 : s_imsi (as_s5 r) <> []). { rewrite R10. exact (proj1 (proj2 (proj2 (proj2 (known_ip k Hk))))). }
  destruct (C79_attach _ x sgw pc pu cip uip k _ tc (as_s5 r) br sm ip0 ebi0 ts t1 i11 ui mme (h2_seq (m_hdr m)) R3 R4 Acc Hpc Hpu Oc Ou S5 Ho Hsm Hts Ht1 O11 Oui Hmme Hs)
    as (d & ans & s' & br' & sender & csid & s1u & raw & y & sm' & B1 & B2 & B3 & B4 & B5 & B6 & B7 & B8 & B9 & B10 & B11 & B12 & B13 & B14 & B15 & B16 & B17 & B18 & B19 & B20 & B21).
  rewrite D1 in B1. injection B1 as <-. rewrite D2 in B2. injection B2 as <-. rewrite Le in B11, B12. change (5 mod 16) with 5 in B11, B12. rewrite Lt in D3, D6.
  specialize (D7 4 ltac:(discriminate) ltac:(discriminate) ltac:(discriminate)). rewrite Lt4 in D7. cbn [existsb] in D7. rewrite U1, U2 in D7. rewrite orb_true_r in D7.
  exists r, x, d0, a0, s', br', sender, csid, s1u, raw, y, sm'. rewrite R7, R8.
  repeat (split; [first [assumption|congruence]|]). assumption.
Qed.
Print Assumptions C80_attach.
(** The session is also registered with a TEID of the MME's choice, when the F-TEID given for the P-GW
    has the interface type of the S-GW *)
Theorem C80_sgw_registered_refuted : forall b m peer pgw a imsi mme ts tc tu i11 i5c i5u n tp, bytes_ok b -> v2_parse g2 b = Ok (csreq, m) -> complete m a imsi mme ->
  N.of_nat (len b) + 100 < 65536 -> ts < 4294967296 -> tc < 4294967296 -> tu < 4294967296 -> octets 4 i11 -> octets 4 i5c -> octets 4 i5u -> n < 16777216 ->
  reads m "PGWS5S8FTEIDC" acc_if_type 6 -> reads m "PGWS5S8FTEIDC" acc_teid tp ->
  exists r, sgw_ask m peer pgw (Some ts) (Some tc) (Some tu) i11 i5c i5u n = Ok r /\ In tp (as_reg r).
Proof.
  intros b m peer pgw a imsi mme ts tc tu i11 i5c i5u n tp Hb Hp Hc Hl H1 H2 H3 O1 O2 O3 Hn R6 Rt.
  destruct (C80_sgw_asks b m peer pgw a imsi mme ts tc tu i11 i5c i5u n Hb Hp Hc Hl H1 H2 H3 O1 O2 O3 Hn) as (r & x & ctx & u & H). exists r. split; [apply H|].
  destruct H as (_&_&_&_&_&_&_&_&_&_&_&_&_&_&_&_&_&H). rewrite (H 6 tp R6 Rt). right. left. reflexivity.
Qed.
Print Assumptions C80_sgw_registered_refuted.
(** no request ends the program, as long as TEIDs can be found ... *)
Theorem C80_sgw_ask_returns : forall b m peer pgw ts tc tu i11 i5c i5u n, bytes_ok b -> v2_parse g2 b = Ok (csreq, m) ->
  N.of_nat (len b) + 100 < 65536 -> ts < 4294967296 -> tc < 4294967296 -> tu < 4294967296 -> octets 4 i11 -> octets 4 i5c -> octets 4 i5u -> n < 16777216 ->
  sgw_ask m peer pgw (Some ts) (Some tc) (Some tu) i11 i5c i5u n <> Panic.
Proof.
  intros b m peer pgw ts tc tu i11 i5c i5u n Hb Hp Hl H1 H2 H3 O1 O2 O3 Hn. destruct (request_facts b _ m Hb Hp) as (_ & Hw & Hnn).
  assert (K : sgw_keep m peer <> Panic).
  { unfold sgw_keep.
    apply bind_np; [apply needs_safe; [apply Hnn|intros i _; apply bind_np; [apply (ip_safe g2)|intros ip _; apply bind_np; [change (safe (acc_teid i)); unfold acc_teid; safe_tac|intros; discriminate]]]|intros v0 _].
    apply bind_np; [apply needs_safe; [apply Hnn|intros i _; change (safe (acc_teid i)); unfold acc_teid; safe_tac]|intros v7 _].
    apply bind_np; [unfold udp_addr; destruct (to4 (fst v0)); discriminate|intros v8 _].
    apply bind_np; [apply needs_safe; [apply Hnn|intros; apply imsi_safe]|intros v1 _].
    apply bind_np; [apply needs_safe; [apply Hnn|intros; apply typed_safe, digits_safe]|intros v2 _].
    apply bind_np; [apply needs_safe; [apply Hnn|intros; apply typed_safe, digits_safe]|intros v3 _].
    apply bind_np; [apply needs_safe; [apply Hnn|intros; apply typed_safe, fqdn_safe]|intros v4 _].
    apply bind_np; [apply needs_safe; [apply Hnn|intros i _; change (safe (acc_mcc_mnc i)); unfold acc_mcc_mnc, slice_to; safe_tac; apply decode_plmn_safe; slice_facts; lia]|intros v5 _].
    apply bind_np; [apply needs_safe; [apply Hnn|intros; apply typed_safe, u8_safe]|intros v6 _]. discriminate. }
  destruct (sgw_keep m peer) as [[a s]|e|] eqn:E; [|unfold sgw_ask; rewrite E; discriminate|congruence].
  destruct (keep_only _ _ _ _ E) as (mme & C & _).
  destruct (C80_sgw_asks b m peer pgw a _ mme ts tc tu i11 i5c i5u n Hb Hp C Hl H1 H2 H3 O1 O2 O3 Hn) as (r & _ & _ & _ & -> & _). discriminate.
Qed.
Print Assumptions C80_sgw_ask_returns.
(** ... and a complete one does when none is found *)
Theorem C80_sgw_no_teid_refuted : forall m peer pgw a imsi mme tc tu i11 i5c i5u n, complete m a imsi mme -> sgw_ask m peer pgw None tc tu i11 i5c i5u n = Panic.
Proof.
  intros m peer pgw a imsi mme tc tu i11 i5c i5u n ((ip & Pi & P4) & (tp & Pt) & Cm & Ci & (msisdn & Cs) & (mei & Ce) & (apn & Ca) & (net & Cn) & (rat & Cr)).
  unfold sgw_ask, sgw_keep. rewrite (needs_reads m "PGWS5S8FTEIDC" _ (ip, tp)) by (apply reads_both; split; assumption). cbn [bind fst snd].
  rewrite (needs_reads _ _ _ _ Cm). cbn [bind]. unfold udp_addr. rewrite P4. cbn [bind]. rewrite (needs_reads _ _ _ _ Ci), (needs_reads _ _ _ _ Cs), (needs_reads _ _ _ _ Ce), (needs_reads _ _ _ _ Ca), (needs_reads _ _ _ _ Cn), (needs_reads _ _ _ _ Cr). reflexivity.
Qed.
Print Assumptions C80_sgw_no_teid_refuted.

(** ** Examples *)
(** an MME's request for bearer 7; [it]: the interface type given for the P-GW *)
Definition w_ies (it : N) : list (option ie2) :=
  firstn 6 (PropertiesEx2.x_ies 4) ++
  [x_unwrap (new_fteid g2 10 769 (Some [127; 0; 0; 1]) None);
   x_unwrap (do o <- new_fteid g2 it 1281 (Some [127; 0; 0; 8]) None; Ok (option_map (fun i => set_instance2 i 1) o));
   x_unwrap (new_bearer_context g2 [Some (new_ebi g2 7)])].
Definition w_bytes (it : N) : bytes :=
  match (do m <- v2_new g2 csreq 0 78 (w_ies it); do r <- v2_marshal g2 csreq m; Ok (fst r)) with Ok b => b | _ => [] end.
Definition w_ask (it : N) := sgw_ask (y_msg (w_bytes it)) 3 4 (Some 257) (Some 258) (Some 513) [127; 0; 0; 2] [127; 0; 0; 3] [127; 0; 0; 4] 99.
Example C80_request_example : bytes_okb (w_bytes 7) = true /\ v2_parse g2 (w_bytes 7) = Ok (csreq, y_msg (w_bytes 7)) /\ complete (y_msg (w_bytes 7)) [127; 0; 0; 8] (known_imsi 1) 769.
Proof.
  split; [vm_compute; reflexivity|]. split; [vm_compute; reflexivity|]. unfold complete.
  assert (G : forall {A} f (rd : ie2 -> res A) v, (match fget (m_fs (y_msg (w_bytes 7))) f with Some i :: _ => rd i = Ok v | _ => False end) -> reads (y_msg (w_bytes 7)) f rd v).
  { intros A f rd v H. unfold reads. destruct (fget _ f) as [|[i|] r]; try destruct H. eauto. }
  split. { exists (Some [127; 0; 0; 8]). split; [apply G; vm_compute; reflexivity|vm_compute; reflexivity]. }
  split. { exists 1281. apply G. vm_compute. reflexivity. }
  split. { apply G. vm_compute. reflexivity. }
  split. { apply G. vm_compute. reflexivity. }
  repeat split; eexists; apply G; vm_compute; reflexivity.
Qed.
(** the request sent reaches the P-GW's handler, and its answer comes back to the MME for bearer 5 *)
Example C80_attach_example :
  match w_ask 7 with
  | Ok r =>
      as_to r = [127; 0; 0; 8] /\ as_t11 r = 257 /\ as_t5 r = 258 /\ as_reg r = [258] /\
      match pgw_create (y_msg (as_sent r)) 2 (Some 1025) (Some 1026) [127; 0; 0; 8] [127; 0; 0; 9] with
      | Ok d =>
          match sgw_created (y_msg (pd_sent d)) (Some (as_s5 r)) z_none true true, new_fteid g2 11 257 (Some [127; 0; 0; 2]) None, with_instance (new_fqcsid g2 (NodeIP [127; 0; 0; 3]) [1]) 1, new_fteid g2 1 515 (Some [127; 0; 0; 3]) None with
          | Ok (Given s' br), Ok (Some sender), Ok csid, Ok (Some s1u) =>
              match sgw_relay (y_msg (pd_sent d)) sender csid s1u 769 78 with
              | Ok raw => match mme_created (y_msg raw) (Some x_mme_session) None 0 with Ok (ip, 5, _) => ip = Some [10; 10; 10; 1] | _ => False end
              | _ => False end
          | _, _, _, _ => False end
      | _ => False end
  | _ => False end.
Proof. vm_compute. repeat split. Qed.
(** a P-GW's F-TEID of the S-GW's own interface type: TEID 1281 is registered too *)
Example C80_registered_example : match w_ask 6 with Ok r => as_reg r = [258; 1281] | _ => False end.
Proof. vm_compute. reflexivity. Qed.
