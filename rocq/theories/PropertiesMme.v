(** The example MME's Create Session Request (ExMme2.v), and the attachment from there on: C81. *)
From Coq Require Import String Lia.
From Verif Require Import Base BaseLemmas Maps MapsProofs Utils UtilsProofs V2IE V2IESpec V2IEProofs V2Header V2HeaderProofs MsgModel MsgSpec MsgProofs MsgProofs2 MsgProofs3 GenericMsg Msgs2Gen V2Msg V2MsgProofs MsgRepair
  V2Codec V2Codec2 V2Ctx CodecSpec V2CodecProofs V2AccProofs PropertiesCtx FieldSpec FieldProofs FieldProofs2 Properties52 PropertiesBase PropertiesBase2 Properties2Fix CPlane SessReq SessReqProofs PropertiesReq ExPgw PropertiesEx PropertiesEx2 PropertiesFwd ExSgw PropertiesSgw PropertiesFill ExSgw2 PropertiesSgw2 PropertiesSgw3 ExMme PropertiesJoin ExSgw3 SgwAskSpec SgwAskProofs PropertiesSgw4 V2Uli V2Ind ExMme2.
Open Scope string_scope.
Open Scope N_scope.
Open Scope list_scope.

(** a Create Session Request made of IEs that each have a field of their own *)
Lemma request_made (ps : list (string * option ie2)) n : n < 16777216 -> NoDup (map fst ps) -> (forall f, In f (map fst ps) -> In f (keys (fempty (I:=ie2) csreq))) ->
  ~ In "PrivateExtension" (map fst ps) ->
  (forall f i, In (f, Some i) ps -> wf2 g2 i /\ lands i f /\ belongs2 "CreateSessionRequest" (map fst (md_fields csreq)) f (i2_type i) (i2_instance i) = true) ->
  (len (flat_map (wire2 g2) (nonnil (map snd ps))) <= 1000)%nat ->
  exists r w x, v2_new g2 csreq 0 0 (map snd ps) = Ok r /\ (len w <= 1012)%nat /\ v2_marshal g2 csreq (Msg (h2_set_seq (m_hdr r) n) (m_fs r)) = Ok (w, x) /\
    bytes_ok w /\ v2_parse g2 w = Ok (csreq, x) /\ h2_get_teid (m_hdr x) = 0 /\ h2_seq (m_hdr x) = n /\
    (forall f o, In (f, o) ps -> fget (m_fs x) f = match o with Some i => [Some i] | None => [] end) /\
    forall f, ~ In f (map fst ps) -> fget (m_fs x) f = [].
Proof.
  intros Hn Nd Ky Np Own Sz.
  destruct (run_pairs ps Nd (fempty csreq)) as (fs & R & Ks & G1 & G2 & G3 & G4).
  { intros f i H. apply (Own f i H). } { intros f H. split; [exact (Ky f H)|apply fget_empty]. }
  assert (Wi : Forall (wf2 g2) (nonnil (map snd ps))).
  { apply Forall_forall. intros i H. assert (H' : In (Some i) (map snd ps)).
    { clear - H. induction (map snd ps) as [|[j|] l IH]; cbn [nonnil flat_map] in H; [destruct H| |right; auto]. destruct H as [->|H]; [left; reflexivity|right; auto]. }
    apply in_map_iff in H' as ([f o] & E & H'). cbn [snd] in E. subst o. apply (Own f i H'). }
  destruct (C15_v2_create_session_request g2 0 0 (map snd ps) ltac:(reflexivity) ltac:(reflexivity) Wi) as (r & Nr & Ty & _).
  destruct (new_shape _ _ _ _ _ _ Nr) as (fs' & l & R' & Er). rewrite R in R'. injection R' as <-.
  assert (Ef : m_fs r = fs) by (rewrite Er; reflexivity). rewrite Ef in Ty.
  assert (P0 : MsgSpec.present (fempty (I:=ie2) csreq) = []) by (vm_compute; reflexivity). rewrite P0 in G3, G4.
  assert (Hh : h2_ok (m_hdr r)). { rewrite Er. cbn [m_hdr]. constructor; try (vm_compute; reflexivity). }
  assert (Hh' : h2_ok (h2_set_seq (m_hdr r) n)). { destruct Hh. constructor; try assumption. }
  assert (Nk : forall f, ~ In f (map fst ps) -> fget fs f = []) by (intros f H; rewrite (G2 f H); apply fget_empty).
  assert (Pe : fget fs "PrivateExtension" = []) by (apply Nk; exact Np).
  assert (Wp : Forall (wf2 g2) (MsgSpec.present fs)).
  { apply Forall_forall. intros i H. apply G4 in H as [[]|H]. apply in_map_iff in H as ([f o] & E & H). cbn [snd] in E. subst o. apply (Own f i H). }
  assert (Rf : rightly_filled csreq fs).
  { intros f i H. split; [exact (csreq_exact f)|]. destruct (in_dec String.string_dec f (map fst ps)) as [K|K]; [|rewrite (Nk f K) in H; destruct H].
    apply in_map_iff in K as ([f' o] & E & K). cbn [fst] in E. subst f'. rewrite (G1 f o K) in H. destruct o as [j|]; [|destruct H]. destruct H as [H|[]]. injection H as ->. apply (Own f i K). }
  assert (Bs : h2_base (h2_set_seq (m_hdr r) n) = 12%nat) by (rewrite Er; reflexivity).
  cbn [flat_map List.length] in G3. change (len (@nil N)) with 0%nat in G3.
  assert (Nn : N.of_nat (h2_base (h2_set_seq (m_hdr r) n) + len (flat_map (wire2 g2) (MsgSpec.present fs))) < 65536) by (rewrite Bs; lia).
  destruct (C77_v2_fill g2 csreq (Msg (h2_set_seq (m_hdr r) n) fs) csreq_all ltac:(discriminate)) as (w & x & M1 & M2 & M3 & M4 & M5 & M6 & M7 & M8 & M9).
  { intros _. left. exact Pe. } { rewrite Er. vm_compute. reflexivity. } { exact Hh'. } { exact Ty. } { exact Wp. } { exact Rf. } { exact Nn. } { cbn [m_hdr]. rewrite Bs. lia. }
  exists r, w, x. split; [exact Nr|]. split; [cbn [m_hdr m_fs] in M2; rewrite M2, Bs; lia|]. rewrite Ef. split; [exact M1|]. cbn [m_fs m_hdr] in *. split.
  { apply (csreq_octets (Msg (h2_set_seq (m_hdr r) n) fs) w x); [left; exact Pe|exact Ty|exact Wp|exact Hh'|exact M1|exact Nn]. }
  split; [exact M3|]. split. { unfold h2_get_teid, h2_has_teid. rewrite M5, M7, Er. reflexivity. }
  split; [exact M8|]. rewrite M4. split; [exact G1|exact Nk].
Qed.


(** ** The IEs that are the same for every TEID and address *)
Definition plainb (i : ie2) : bool :=
  negb (g2 (i2_type i)) && (i2_type i <? 256) && (i2_inst i <? 256) && forallb (fun x => x <? 256) (i2_payload i) && (i2_length i <? 65536) &&
  (N.to_nat (i2_length i) =? len (i2_payload i))%nat && match i2_children i with [] => true | _ => false end.
Definition landsb (f : string) (i : ie2) : bool :=
  match assoc_act (t_cases (md_new csreq)) (t_default (md_new csreq)) (i2_type i) with
  | ASet h => String.eqb h f
  | AInst cs dd => match assoc_act cs dd (i2_instance i) with ASet h => String.eqb h f | AApp h => String.eqb h f | _ => false end
  | _ => false
  end && belongs2 "CreateSessionRequest" (map fst (md_fields csreq)) f (i2_type i) (i2_instance i).
Lemma plain_wf i : plainb i = true -> wf2 g2 i.
Proof.
  destruct i as [t l n p c]. unfold plainb. cbn [i2_type i2_inst i2_payload i2_length i2_children]. rewrite !andb_true_iff. intros [[[[[[A B] C] D] E] F] G]. destruct c; [|discriminate].
  apply negb_true_iff in A. apply N.ltb_lt in B, C, E. apply Nat.eqb_eq in F. apply wf2_plain; try assumption. apply Forall_forall. intros x X. rewrite forallb_forall in D. apply N.ltb_lt, D, X.
Qed.
Lemma landsb_ok f i : landsb f i = true -> lands i f /\ belongs2 "CreateSessionRequest" (map fst (md_fields csreq)) f (i2_type i) (i2_instance i) = true.
Proof.
  unfold landsb. rewrite andb_true_iff. intros [A B]. split; [|exact B]. destruct (assoc_act (t_cases (md_new csreq)) _ _) eqn:E; try discriminate.
  - apply String.eqb_eq in A. subst. apply lands_set. exact E.
  - eapply lands_inst; [exact E|reflexivity|]. destruct (assoc_act _ _ (i2_instance i)); try discriminate; apply String.eqb_eq in A; subst; [left|right]; reflexivity.
Qed.
Definition mme_fields : list string :=
  ["IMSI"; "MSISDN"; "MEI"; "ULI"; "RATType"; "IndicationFlags"; "SenderFTEIDC"; "PGWS5S8FTEIDC"; "APN"; "SelectionMode"; "PDNType"; "PAA"; "APNRestriction"; "AMBR";
   "BearerContextsToBeCreated"; "MMEFQCSID"; "ServingNetwork"; "UETimeZone"].
Lemma mme_names : NoDup mme_fields /\ (forall f, In f mme_fields -> In f (keys (fempty (I:=ie2) csreq))) /\ ~ In "PrivateExtension" mme_fields.
Proof.
  split; [|split].
  - unfold mme_fields. repeat (constructor; [cbn [In]; intros H; decompose [or] H; try discriminate; contradiction|]). constructor.
  - unfold mme_fields. intros f H. apply mem_In. cbn [In] in H. decompose [or] H; clear H; try contradiction; subst f; vm_compute; reflexivity.
  - unfold mme_fields. cbn [In]. intros H. decompose [or] H; try discriminate; contradiction.
Qed.
Definition mme_ctx : ie2 := match mme_context with Ok (Some i) => i | _ => IE2 0 0 0 [] [] end.
Lemma ctx_wf : wf2 g2 mme_ctx.
Proof.
  let v := eval vm_compute in mme_ctx in change (wf2 g2 v). apply wf2_grouped; try (vm_compute; reflexivity). repeat (apply Forall_cons; [apply plain_wf; vm_compute; reflexivity|]). apply Forall_nil.
Qed.
(** the list, with the F-TEIDs and the FQ-CSID left open *)
Record fixed (k : N) (a2 : bool) (e : list ie2) : Prop := {
  fx_list : forall s p c, mme_ies k a2 (Some s) p c = Ok (map Some (firstn 6 e ++ [s; p] ++ skipn 6 (firstn 12 e) ++ [mme_ctx; c] ++ skipn 12 e));
  fx_len : length e = 14%nat;
  fx_plain : forallb plainb e = true;
  fx_lands : forallb (fun p => landsb (fst p) (snd p)) (combine (firstn 6 mme_fields ++ skipn 8 (firstn 14 mme_fields) ++ skipn 16 mme_fields) e) = true;
  fx_size : (len (flat_map (wire2 g2) e) <= 400)%nat;
  fx_imsi : match nth_error e 0 with Some i => acc_imsi i = Ok (known_imsi k) | None => False end;
  fx_msisdn : match nth_error e 1 with Some i => acc_msisdn i = Ok (sub_msisdn k) | None => False end;
  fx_mei : match nth_error e 2 with Some i => acc_mei i = Ok (sub_imei k) | None => False end;
  fx_rat : match nth_error e 4 with Some i => acc_u8 g2 82 i = Ok 6 | None => False end;
  fx_apn : match nth_error e 6 with Some i => acc_fqdn g2 71 i = Ok (apn_of a2) | None => False end;
  fx_net : match nth_error e 12 with Some i => acc_mcc_mnc i = Ok (sub_mcc, sub_mnc) | None => False end;
  fx_script : forall s p c t z, create_ie 10 s = ([DoS (STeid 10 t); DoTeid t; DoImsi; DoS (STeid 10 t)], Goes) -> create_ie 10 p = ([DoS (STeid 7 0)], Goes) -> create_ie 10 c = ([], Goes) ->
    let sc := create_script 10 (map Some (firstn 6 e ++ [s; p] ++ skipn 6 (firstn 12 e) ++ [mme_ctx; c] ++ skipn 12 e)) in
    snd sc = Goes /\ teids_of (fst sc) = [t] /\
    let x := session_of (fst sc) (Sess z false [] [] [] [] [] 0 [] [(default_name, 0)] []) in s_imsi x = known_imsi k /\ s_peer x = z /\ aget (s_teids x) 10 = Some t }.
Definition fixed_of (k : N) (a2 : bool) : list ie2 :=
  match mme_ies k a2 None (IE2 0 0 0 [] []) (IE2 0 0 0 [] []) with
  | Ok [Some a; Some b; Some c; Some d; Some e; Some f; None; _; Some g; Some h; Some i; Some j; Some k; Some l; _; _; Some m; Some n] => [a; b; c; d; e; f; g; h; i; j; k; l; m; n]
  | _ => []
  end.
Lemma fixed_all k a2 : In k [1; 2; 3; 4; 5] -> fixed k a2 (fixed_of k a2).
Proof.
  intros H. cbn [In] in H. decompose [or] H; clear H; try contradiction; subst k; destruct a2;
    (match goal with |- fixed ?k ?a (fixed_of ?k ?a) => let v := eval vm_compute in (fixed_of k a) in change (fixed_of k a) with v end;
     constructor; [intros s p c; vm_compute; reflexivity|reflexivity|vm_compute; reflexivity|vm_compute; reflexivity|vm_compute; repeat constructor|vm_compute; reflexivity|vm_compute; reflexivity|vm_compute; reflexivity|vm_compute; reflexivity|vm_compute; reflexivity|vm_compute; reflexivity|
      intros s p c t z E1 E2 E3; cbn [firstn skipn app map create_script fold_right]; rewrite E1, E2, E3; vm_compute; repeat split]).
Qed.

(** ** C81 *)
(** For each of its subscribers, and whichever APNs are read, the MME sends a request that has all the S-GW asks
    for, and keeps a session for the IMSI, registered with the TEID it drew *)
Theorem C81_mme_asks : forall k a1 a2 t lip sgw n, In k [1; 2; 3; 4; 5] -> t < 4294967296 -> octets 4 lip -> n < 16777216 ->
  exists w s x, mme_ask k a1 a2 (Some t) lip sgw n = Ok (w, s, [t]) /\ bytes_ok w /\ v2_parse g2 w = Ok (csreq, x) /\ (len w <= 1012)%nat /\
    h2_get_teid (m_hdr x) = 0 /\ h2_seq (m_hdr x) = n /\ complete x (pgw_of a1) (known_imsi k) t /\
    reads x "PGWS5S8FTEIDC" acc_ip (Some (pgw_of a1)) /\ reads x "MSISDN" acc_msisdn (sub_msisdn k) /\ reads x "MEI" acc_mei (sub_imei k) /\ reads x "APN" (acc_fqdn g2 71) (apn_of a2) /\ reads x "ServingNetwork" acc_mcc_mnc (sub_mcc, sub_mnc) /\
    s_imsi s = known_imsi k /\ s_peer s = sgw /\ aget (s_teids s) 10 = Some t.
Proof.
  intros k a1 a2 t lip sgw n Hk Ht Ol Hn.
  destruct (fteid_plain 10 t lip ltac:(lia) Ht Ol) as (s & S1 & S2 & S3 & S4 & S5 & S6 & S7). destruct (fteid_reads _ _ _ _ S6) as (_ & S8 & S9 & _).
  assert (Op : octets 4 (pgw_of a1)) by (split; [reflexivity|destruct a1; repeat constructor]).
  destruct (fteid_made 7 0 (pgw_of a1) 1 ltac:(lia) ltac:(lia) Op ltac:(lia)) as (p & P1 & P2 & P3 & P4 & P5 & P6 & P7 & P8). destruct (fteid_reads _ _ _ _ P7) as (_ & P9 & _ & P10).
  destruct (fqcsid_made lip Ol) as (c & C1 & C2 & C3 & C4 & C5 & C6).
  assert (Pi : i2_instance p = 1) by (unfold i2_instance; rewrite P4; reflexivity). assert (Ci : i2_instance c = 0) by (unfold i2_instance; rewrite C3; reflexivity).
  pose proof (fixed_all k a2 Hk) as [F1 F2 F3 F4 F5 F6 F7 F8 F9 F10 F11 F12]. revert F1 F2 F3 F4 F5 F6 F7 F8 F9 F10 F11 F12. generalize (fixed_of k a2).
  intros e F1 F2 F3 F4 F5 F6 F7 F8 F9 F10 F11 F12.
  destruct e as [|e0 [|e1 [|e2 [|e3 [|e4 [|e5 [|e6 [|e7 [|e8 [|e9 [|e10 [|e11 [|e12 [|e13 [|? ?]]]]]]]]]]]]]]]; try discriminate F2. clear F2.
  specialize (F1 s p c). cbn [firstn skipn app map nth_error] in *.
  assert (W0 : forall i, In i [e0; e1; e2; e3; e4; e5; e6; e7; e8; e9; e10; e11; e12; e13] -> wf2 g2 i) by (rewrite forallb_forall in F3; intros i H; apply plain_wf, F3, H).
  set (ps := combine mme_fields [Some e0; Some e1; Some e2; Some e3; Some e4; Some e5; Some s; Some p; Some e6; Some e7; Some e8; Some e9; Some e10; Some e11; Some mme_ctx; Some c; Some e12; Some e13]).
  destruct mme_names as (Nd & Ky & Np).
  assert (Own : forall f i, In (f, Some i) ps -> wf2 g2 i /\ landsb f i = true).
  { cbn [mme_fields firstn skipn app combine forallb fst snd] in F4. rewrite !andb_true_iff in F4. decompose [and] F4. intros f i HH. unfold ps in HH. cbn [mme_fields combine In] in HH.
    decompose [or] HH; clear HH; try contradiction; match goal with E : _ = (f, Some i) |- _ => injection E as <- <- end;
      (split; [first [exact S2|exact P2|exact C4|exact ctx_wf|apply W0; cbn [In]; tauto]|]);
      first [assumption|unfold landsb; rewrite ?S3, ?S7, ?P3, ?Pi, ?C2, ?Ci; vm_compute; reflexivity]. }
  assert (Lw : len (wire2 g2 s) = 13%nat /\ len (wire2 g2 p) = 13%nat /\ len (wire2 g2 c) = 11%nat /\ len (wire2 g2 mme_ctx) = 35%nat).
  { split; [|split; [|split; [rewrite len_wire; exact C5|vm_compute; reflexivity]]]; rewrite len_wire.
    - destruct s as [ty l ins q ch]. cbn [i2_type i2_children i2_payload] in *. subst. cbn. rewrite S5. reflexivity.
    - destruct p as [ty l ins q ch]. cbn [i2_type i2_children i2_payload] in *. subst. cbn. rewrite P6. reflexivity. }
  destruct Lw as (Lw1 & Lw2 & Lw3 & Lw4).
  destruct (request_made ps n Hn Nd Ky Np) as (r & w & x & R1 & R2 & R3 & R4 & R5 & R6 & R7 & R8 & _).
  { intros f i H. destruct (Own f i H) as [A B]. apply landsb_ok in B. tauto. }
  { cbn [ps mme_fields combine map snd nonnil flat_map app]. cbn [flat_map] in F5. rewrite !app_length in *. change (len (@nil N)) with 0%nat in *. lia. }
  destruct (F12 s p c t sgw) as (G1 & G2 & G3 & G4 & G5).
  { unfold create_ie. cbv zeta. rewrite S3. eqs. rewrite S8, S9. reflexivity. }
  { unfold create_ie. cbv zeta. rewrite P3. eqs. rewrite P9, P8. reflexivity. }
  { unfold create_ie. cbv zeta. rewrite C2. reflexivity. }
  exists w. eexists. exists x. split.
  { unfold mme_ask. cbn [allocated]. rewrite S1. cbn [bind]. cbn [allocated] in P1. rewrite P1. cbn [bind]. unfold made. rewrite C1. cbn [bind]. rewrite F1. cbn [bind]. cbv zeta. rewrite G1.
    change (map snd ps) with [Some e0; Some e1; Some e2; Some e3; Some e4; Some e5; Some s; Some p; Some e6; Some e7; Some e8; Some e9; Some e10; Some e11; Some mme_ctx; Some c; Some e12; Some e13] in R1.
    rewrite R1. cbn [bind]. rewrite R3. cbn [bind fst]. rewrite G2. reflexivity. }
  split; [exact R4|]. split; [exact R5|]. split; [exact R2|]. split; [exact R6|]. split; [exact R7|].
  assert (Rd : forall {A} f i (rd : ie2 -> res A) v, In (f, Some i) ps -> rd i = Ok v -> reads x f rd v). { intros A f i rd v H V. exists i, []. split; [exact (R8 f (Some i) H)|exact V]. }
  assert (Im : reads x "IMSI" acc_imsi (known_imsi k)) by (apply (Rd _ _ e0); [cbn [ps mme_fields combine In]; tauto|exact F6]).
  assert (Ms : reads x "MSISDN" acc_msisdn (sub_msisdn k)) by (apply (Rd _ _ e1); [cbn [ps mme_fields combine In]; tauto|exact F7]).
  assert (Me : reads x "MEI" acc_mei (sub_imei k)) by (apply (Rd _ _ e2); [cbn [ps mme_fields combine In]; tauto|exact F8]).
  assert (Ra : reads x "RATType" (acc_u8 g2 82) 6) by (apply (Rd _ _ e4); [cbn [ps mme_fields combine In]; tauto|exact F9]).
  assert (Ap : reads x "APN" (acc_fqdn g2 71) (apn_of a2)) by (apply (Rd _ _ e6); [cbn [ps mme_fields combine In]; tauto|exact F10]).
  assert (Sn : reads x "ServingNetwork" acc_mcc_mnc (sub_mcc, sub_mnc)) by (apply (Rd _ _ e12); [cbn [ps mme_fields combine In]; tauto|exact F11]).
  split.
  { split; [exists (Some (pgw_of a1)); split; [apply (Rd _ _ p); [cbn [ps mme_fields combine In]; tauto|exact P10]|reflexivity]|].
    split; [exists 0; apply (Rd _ _ p); [cbn [ps mme_fields combine In]; tauto|exact P8]|]. split; [apply (Rd _ _ s); [cbn [ps mme_fields combine In]; tauto|exact S9]|].
    split; [exact Im|]. split; [eexists; exact Ms|]. split; [eexists; exact Me|]. split; [eexists; exact Ap|]. split; [eexists; exact Sn|eexists; exact Ra]. }
  split; [apply (Rd _ _ p); [cbn [ps mme_fields combine In]; tauto|exact P10]|]. split; [exact Ms|]. split; [exact Me|]. split; [exact Ap|]. split; [exact Sn|]. split; [exact G3|]. split; [exact G4|exact G5].
Qed.
Print Assumptions C81_mme_asks.
(** ... and so the subscriber is attached: the MME's octets, handled by the S-GW, the P-GW, the S-GW and the MME, leave
    the three with active sessions that agree *)
Theorem C81_attach : forall k a1 a2 t lip sgwa n0 peer pgw sgw ts tc tu i11 i5c i5u n pc pu cip uip br ip0 ebi0 t1 ui,
  In k [1; 2; 3; 4; 5] -> t < 4294967296 -> octets 4 lip -> n0 < 16777216 ->
  ts < 4294967296 -> tc < 4294967296 -> tu < 4294967296 -> pc < 4294967296 -> pu < 4294967296 -> t1 < 4294967296 ->
  octets 4 i11 -> octets 4 i5c -> octets 4 i5u -> octets 4 cip -> octets 4 uip -> octets 4 ui -> n < 16777216 ->
  exists w s m, mme_ask k a1 a2 (Some t) lip sgwa n0 = Ok (w, s, [t]) /\ v2_parse g2 w = Ok (csreq, m) /\ h2_seq (m_hdr m) = n0 /\
    exists r x d ans s' br' sender csid s1u raw y sm',
    sgw_ask m peer pgw (Some ts) (Some tc) (Some tu) i11 i5c i5u n = Ok r /\ as_to r = pgw_of a1 /\ v2_parse g2 (as_sent r) = Ok (csreq, x) /\
    pgw_create x sgw (Some pc) (Some pu) cip uip = Ok d /\ v2_parse g2 (pd_sent d) = Ok (d_CreateSessionResponse, ans) /\
    h2_get_teid (m_hdr ans) = as_t5 r /\ h2_seq (m_hdr ans) = n /\
    sgw_created ans (Some (as_s5 r)) br true true = Ok (Given s' br') /\
    new_fteid g2 11 ts (Some i11) None = Ok (Some sender) /\ with_instance (new_fqcsid g2 (NodeIP ui) [1]) 1 = Ok csid /\ new_fteid g2 1 t1 (Some ui) None = Ok (Some s1u) /\
    sgw_relay ans sender csid s1u t (h2_seq (m_hdr m)) = Ok raw /\ v2_parse g2 raw = Ok (d_CreateSessionResponse, y) /\
    h2_get_teid (m_hdr y) = t /\ h2_seq (m_hdr y) = h2_seq (m_hdr m) /\
    mme_created y (Some s) ip0 ebi0 = Ok (Some [10; 10; 10; k], 5, sm') /\
    br' = UBearer (Some [10; 10; 10; k]) 5 (Some uip) pu 0 /\
    s_imsi (pd_session d) = known_imsi k /\ s_imsi (as_s5 r) = known_imsi k /\ s_imsi (as_s11 r) = known_imsi k /\
    aget (s_teids (pd_session d)) 6 = Some (as_t5 r) /\ aget (s_teids (as_s5 r)) 6 = Some (as_t5 r) /\
    aget (s_teids (pd_session d)) 4 = Some tu /\ aget (s_teids (as_s5 r)) 4 = Some tu /\
    aget (s_teids (pd_session d)) 7 = Some pc /\ aget (s_teids s') 7 = Some pc /\
    aget (s_teids (pd_session d)) 5 = Some pu /\ aget (s_teids s') 5 = Some pu /\
    aget (s_teids sm') 11 = Some (as_t11 r) /\ aget (s_teids sm') 1 = Some t1 /\
    s_active (pd_session d) = true /\ s_active s' = true /\ s_active sm' = true.
Proof.
  intros k a1 a2 t lip sgwa n0 peer pgw sgw ts tc tu i11 i5c i5u n pc pu cip uip br ip0 ebi0 t1 ui Hk Ht Ol Hn0 H1 H2 H3 H4 H5 H6 O1 O2 O3 O4 O5 O6 Hn.
  destruct (C81_mme_asks k a1 a2 t lip sgwa n0 Hk Ht Ol Hn0) as (w & s & m & A1 & A2 & A3 & A4 & _ & A5 & A6 & _ & _ & _ & _ & _ & A7 & _ & A8).
  exists w, s, m. split; [exact A1|]. split; [exact A3|]. split; [exact A5|].
  apply (C80_attach w m peer pgw sgw (pgw_of a1) k t ts tc tu i11 i5c i5u n pc pu cip uip br s ip0 ebi0 t1 ui); try assumption; [lia|eexists; exact A8|].
  rewrite A7. discriminate.
Qed.
Print Assumptions C81_attach.
(** The P-GW asked need not be the one of the APN named: the APN is a field of a bearer that all subscribers share *)
Theorem C81_mme_apn_refuted : forall k t lip sgw n, In k [1; 2; 3; 4; 5] -> t < 4294967296 -> octets 4 lip -> n < 16777216 ->
  exists w s x, mme_ask k true false (Some t) lip sgw n = Ok (w, s, [t]) /\ v2_parse g2 w = Ok (csreq, x) /\
    reads x "APN" (acc_fqdn g2 71) (apn_of false) /\ reads x "PGWS5S8FTEIDC" acc_ip (Some (pgw_of true)) /\ pgw_of true <> pgw_of false.
Proof.
  intros k t lip sgw n Hk Ht Ol Hn. destruct (C81_mme_asks k true false t lip sgw n Hk Ht Ol Hn) as (w & s & x & A1 & _ & A2 & _ & _ & _ & _ & A3 & _ & _ & A4 & _).
  exists w, s, x. split; [exact A1|]. split; [exact A2|]. split; [exact A4|]. split; [exact A3|discriminate].
Qed.
Print Assumptions C81_mme_apn_refuted.

(** ** Example *)
Definition v_octets : bytes := match mme_ask 2 true true (Some 769) [127; 0; 0; 1] 9 78 with Ok (w, _, _) => w | _ => [] end.
Example C81_attach_example :
  bytes_okb v_octets = true /\ (200 <=? len v_octets)%nat = true /\
  match sgw_ask (y_msg v_octets) 3 4 (Some 257) (Some 258) (Some 513) [127; 0; 0; 2] [127; 0; 0; 3] [127; 0; 0; 4] 99 with
  | Ok r =>
      as_to r = [127; 0; 0; 53] /\ s_imsi (as_s11 r) = known_imsi 2 /\ aget (s_teids (as_s11 r)) 10 = Some 769 /\
      match pgw_create (y_msg (as_sent r)) 2 (Some 1025) (Some 1026) [127; 0; 0; 8] [127; 0; 0; 9] with Ok d => s_imsi (pd_session d) = known_imsi 2 | _ => False end
  | _ => False end.
Proof. vm_compute. repeat split. Qed.
