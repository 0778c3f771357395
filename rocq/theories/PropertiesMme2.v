(** The example MME's Modify Bearer Request (ExMme3.v), and where packets go after it: C82. *)
From Coq Require Import String Lia.
From Verif Require Import Base BaseLemmas Maps MapsProofs Utils UtilsProofs V2IE V2IESpec V2IEProofs V2Header V2HeaderProofs MsgModel MsgSpec MsgProofs MsgProofs2 MsgProofs3 GenericMsg Msgs2Gen V2Msg V2MsgProofs MsgRepair
  V2Codec V2Codec2 V2Ctx CodecSpec V2CodecProofs V2AccProofs PropertiesCtx FieldSpec FieldProofs FieldProofs2 Properties52 PropertiesBase PropertiesBase2 Properties2Fix CPlane SessReq SessReqProofs PropertiesReq ExPgw PropertiesEx PropertiesEx2 PropertiesFwd ExSgw PropertiesSgw PropertiesFill ExSgw2 PropertiesSgw2 PropertiesSgw3 ExMme PropertiesJoin ExSgw3 SgwAskSpec SgwAskProofs PropertiesSgw4 V2Ind ExMme3.
Open Scope string_scope.
Open Scope N_scope.
Open Scope list_scope.

Lemma mbreq_built : In d_ModifyBearerRequest built2.
Proof. unfold built2. rewrite filter_In. split; [|vm_compute; reflexivity]. exact mbreq_all. Qed.
Definition zero_flags : ie2 := new_indication_octets g2 [0; 0; 0; 0; 0; 0; 0].
Definition mbreq_of (a b : ie2) : @fmap ie2 := fset (fset (fempty d_ModifyBearerRequest) "IndicationFlags" [Some a]) "BearerContextsToBeModified" [Some b].
Lemma mbreq_run a l2 p2 c2 : i2_type a = 77 ->
  run_table (io2 g2) (md_new d_ModifyBearerRequest) [Some a; Some (IE2 93 l2 0 p2 c2)] (fempty d_ModifyBearerRequest) = Ok (mbreq_of a (IE2 93 l2 0 p2 c2)).
Proof. destruct a as [t l n p c]. cbn [i2_type]. intros ->. vm_compute. reflexivity. Qed.
Lemma mbreq_fields a b : fget (mbreq_of a b) "BearerContextsToBeModified" = [Some b].
Proof. vm_compute. reflexivity. Qed.
Lemma flags_facts : wf2 g2 zero_flags /\ i2_type zero_flags = 77 /\ len (wire2 g2 zero_flags) = 11%nat.
Proof.
  split; [|split; vm_compute; reflexivity]. let v := eval vm_compute in zero_flags in change (wf2 g2 v). apply wf2_plain; try reflexivity. repeat constructor; reflexivity.
Qed.
Lemma context_of e f : wf2 g2 f -> i2_type f = 87 -> i2_children f = [] -> len (i2_payload f) = 9%nat ->
  exists ctx, new_bearer_context g2 [Some (new_ebi g2 e); Some f] = Ok (Some ctx) /\ wf2 g2 ctx /\ i2_type ctx = 93 /\ i2_inst ctx = 0 /\
    i2_children ctx = [new_ebi g2 e; f] /\ len (wire2 g2 ctx) = 22%nat.
Proof.
  intros W T C P. destruct (ebi_facts e) as (B1 & B2 & B3 & _). set (e' := new_ebi g2 e) in *. set (cies := [Some e'; Some f]).
  assert (Lf : len (wire2 g2 f) = 13%nat). { rewrite len_wire. destruct f as [ty l ins p c]. cbn [i2_type i2_children i2_payload] in *. subst. cbn. rewrite P. reflexivity. }
  assert (Lx : len (flat_map (wire2 g2) (nonnil cies)) = 18%nat). { cbn [cies nonnil flat_map app]. rewrite !app_length, Lf. reflexivity. }
  assert (Fx : fits g2 cies).
  { split; [cbn [cies nonnil flat_map app]; repeat (apply Forall_cons; [assumption|]); apply Forall_nil|]. split; [rewrite Lx; lia|discriminate]. }
  destruct (new_bears g2 cies eq_refl Fx) as (ctx & X1 & X2 & X3 & _ & X4 & _ & _).
  assert (X7 : i2_inst ctx = 0). { unfold new_bearer_context in X1. rewrite new_grouped_ok in X1. injection X1 as <-. reflexivity. }
  exists ctx. split; [exact X1|]. split; [exact X2|]. split; [exact X3|]. split; [exact X7|]. split; [exact X4|].
  destruct ctx as [ty l ins p c]. cbn [i2_type i2_children] in *. subst ty c. cbn [wire2]. change (g2 93) with true. cbv iota. rewrite ?app_length. fold (wire2 g2). rewrite Lx. reflexivity.
Qed.

(** ** C82 *)
(** The MME asks the S-GW, under the TEID it has of it, to send packets for the bearer to the TEID drawn for the eNB
    and the eNB's address; without a TEID of the S-GW it sends all the same, under TEID 0 *)
Theorem C82_mme_modifies : forall s ebi te eip n t, match aget (s_teids s) 11 with Some u => t = u | None => t = 0 end -> t < 4294967296 -> te < 4294967296 -> octets 4 eip -> n < 16777216 ->
  exists w m f, mme_modify (Some s) ebi (Some te) eip n = Ok (w, add_teid s 0 te) /\ bytes_ok w /\ v2_parse g2 w = Ok (d_ModifyBearerRequest, m) /\
    h2_get_teid (m_hdr m) = t /\ h2_seq (m_hdr m) = n /\ to_modify m [new_ebi g2 ebi; f] /\ acc_fteid f = Ok (FTeid 128 0 te (Some eip) None) /\ i2_instance f = 0.
Proof.
  intros s ebi te eip n t Hs Ht Hte Oe Hn. destruct (fteid_plain 0 te eip ltac:(lia) Hte Oe) as (f & F1 & F2 & F3 & F4 & F5 & F6 & F7). destruct (fteid_reads _ _ _ _ F6) as (_ & F8 & F9 & _).
  destruct (context_of ebi f F2 F3 F4 F5) as (ctx & X1 & X2 & X3 & X4 & X5 & X6). destruct flags_facts as (Z1 & Z2 & Z3).
  destruct (C64_v2_respond d_ModifyBearerRequest 0 1 34 t 0 [Some zero_flags; Some ctx] (Msg (Hdr2 0 0 0 0 n 0 []) []) mbreq_built eq_refl Ht) as (r & raw & x & R1 & R2 & R0 & _ & R3 & _ & R4 & R5 & R6).
  { constructor; [exact Z1|]. constructor; [exact X2|constructor]. } { cbn [nonnil flat_map app]. rewrite !app_length, Z3, X6. reflexivity. } { exact Hn. }
  assert (Fs : m_fs x = mbreq_of zero_flags ctx).
  { destruct (new_shape _ _ _ _ _ _ R1) as (fs & l & F & ->). cbn [m_fs] in R6. rewrite R6. destruct ctx as [t2 l2 n2 p2 c2]. cbn [i2_type i2_inst] in X3, X4. subst t2 n2.
    rewrite (mbreq_run zero_flags l2 p2 c2 Z2) in F. injection F as <-. reflexivity. }
  exists raw, x, f. split.
  { unfold mme_modify, made. cbn [allocated]. rewrite F1. cbn [bind]. cbv zeta. rewrite X1. cbn [bind]. fold zero_flags.
    replace (match aget (s_teids s) 11 with Some u => u | None => 0 end) with t by (destruct (aget (s_teids s) 11); exact Hs).
    change (sent_as d_ModifyBearerRequest t n [Some zero_flags; Some ctx] = Ok raw) in R2. rewrite R2. cbn [bind]. rewrite F8. cbn [bind]. rewrite F9. reflexivity. }
  split; [exact R0|]. split; [exact R3|]. split; [exact R4|]. split; [exact R5|]. split; [|split; [exact F6|exact F7]].
  right. exists ctx, []. split; [rewrite Fs; apply mbreq_fields|rewrite X5; reflexivity].
Qed.
Print Assumptions C82_mme_modifies.
(** After the request and its answer packets find their way both ways: what the eNB sends goes to the S-GW's address
    and S1-U TEID, from which the S-GW relays to where the P-GW asked; what arrives at the S-GW's S5-U TEID goes to the
    eNB's address and the TEID that was drawn for it *)
Theorem C82_user_plane : forall sm ebi te eip n t s s5 br br5 ip mme s1u s5u, aget (s_teids sm) 11 = Some t -> t < 4294967296 -> te < 4294967296 -> octets 4 eip -> n < 16777216 ->
  octets 4 ip -> mme < 4294967296 -> s1u < 4294967296 -> aget (s_teids s) 10 = Some mme -> aget (s_teids s) 1 = Some s1u -> aget (s_teids s5) 4 = Some s5u ->
  exists w sm1 m x a sm2, mme_modify (Some sm) ebi (Some te) eip n = Ok (w, sm1) /\ v2_parse g2 w = Ok (d_ModifyBearerRequest, m) /\ h2_get_teid (m_hdr m) = t /\
    sgw_modify m (Some s) (Some s5) br br5 ip = Ok x /\ mo_down x = (s5u, te, Some eip) /\ mo_up x = (s1u, ub_out br5, ub_remote br5) /\
    v2_parse g2 (mo_answer x) = Ok (d_ModifyBearerResponse, a) /\ h2_get_teid (m_hdr a) = mme /\ h2_seq (m_hdr a) = n /\
    mme_modified a (Some sm1) = Ok (sm2, (Some ip, s1u)) /\ aget (s_teids sm1) 0 = Some te.
Proof.
  intros sm ebi te eip n t s s5 br br5 ip mme s1u s5u Hs Ht Hte Oe Hn Oi Hm H1 G10 G1 G4.
  destruct (C82_mme_modifies sm ebi te eip n t) as (w & m & f & A1 & A2 & A3 & A4 & A5 & A6 & A7 & A8); try assumption; [rewrite Hs; reflexivity|].
  destruct (fteid_reads _ _ _ _ A7) as (U1 & U2 & U3 & U4). destruct (ebi_facts ebi) as (_ & E2 & _). set (e := new_ebi g2 ebi) in *.
  assert (T4 : to4 (Some eip) = Some eip) by (unfold to4; rewrite (proj1 Oe); reflexivity).
  assert (Hr : reachable [e; f]). { constructor; [rewrite E2; discriminate|]. constructor; [|constructor]. intros _. exists (Some eip), eip, 0, te. split; [exact U4|]. split; [exact T4|]. split; assumption. }
  assert (L : forall it v, it <> 0 -> last_teid it [e; f] v = v). { intros it v N. cbn [last_teid]. rewrite E2, U1. eqs. rewrite U2, U3. destruct (N.eqb_spec 0 it); [congruence|reflexivity]. }
  assert (Lf : forall y, last_far [e; f] y = (Some eip, te)). { intros y. cbn [last_far]. rewrite E2, U1. eqs. rewrite U4, U3, T4. reflexivity. }
  destruct (C78_sgw_modify w m [e; f] s s5 br br5 ip mme s1u s5u A2 A3 A6 Hr Oi Hm H1 G10 G1 G4) as (x & a & ctx & g & B1 & B2 & B3 & B4 & B5 & B6 & _).
  destruct (C79_modify w m [e; f] s s5 br br5 ip mme s1u s5u (add_teid sm 0 te) A2 A3 A6 Hr Oi Hm H1 G10 G1 G4) as (x' & a' & sm2 & t' & D1 & D2 & D3 & D4 & D5).
  rewrite B1 in D1. injection D1 as <-. rewrite B4 in D2. injection D2 as <-. rewrite (L 1 s1u ltac:(discriminate)) in B2. rewrite B2 in D4. injection D4 as <-.
  rewrite Lf in B3. rewrite (L 10 mme ltac:(discriminate)) in B5.
  exists w, (add_teid sm 0 te), m, x, a, sm2. split; [exact A1|]. split; [exact A3|]. split; [exact A4|]. split; [exact B1|]. split; [exact B3|]. split; [exact B2|].
  split; [exact B4|]. split; [exact B5|]. split; [rewrite B6; exact A5|]. split; [exact D3|]. rewrite add_teid_get. reflexivity.
Qed.
Print Assumptions C82_user_plane.
(** A session without a TEID of the S-GW is asked about all the same, under TEID 0 *)
Theorem C82_mme_teid0_refuted : forall s ebi te eip n, aget (s_teids s) 11 = None -> te < 4294967296 -> octets 4 eip -> n < 16777216 ->
  exists w m s', mme_modify (Some s) ebi (Some te) eip n = Ok (w, s') /\ v2_parse g2 w = Ok (d_ModifyBearerRequest, m) /\ h2_get_teid (m_hdr m) = 0.
Proof.
  intros s ebi te eip n Hs Hte Oe Hn. destruct (C82_mme_modifies s ebi te eip n 0) as (w & m & f & A1 & _ & A3 & A4 & _); try assumption; [rewrite Hs; reflexivity|reflexivity|].
  exists w, m, (add_teid s 0 te). split; [exact A1|]. split; [exact A3|exact A4].
Qed.
Print Assumptions C82_mme_teid0_refuted.
(** and when no TEID is found for the eNB the program ends *)
Theorem C82_mme_no_teid_refuted : forall s ebi eip n, mme_modify (Some s) ebi None eip n = Panic.
Proof. reflexivity. Qed.
Print Assumptions C82_mme_no_teid_refuted.

(** ** Example *)
Definition u_session : session := Sess 9 true (known_imsi 1) [] [] [] [] 0 [(10, 769); (11, 257); (1, 515)] [] [].
Example C82_user_plane_example :
  match mme_modify (Some u_session) 5 (Some 771) [127; 0; 0; 4] 81 with
  | Ok (w, sm) =>
      bytes_okb w = true /\ aget (s_teids sm) 0 = Some 771 /\
      match sgw_modify (y_msg w) (Some (Sess 3 true (known_imsi 1) [] [] [] [] 0 [(10, 769); (1, 515)] [] [])) (Some (Sess 4 true (known_imsi 1) [] [] [] [] 0 [(4, 513)] [] []))
              (UBearer None 5 None 0 0) (UBearer (Some [10; 10; 10; 1]) 5 (Some [127; 0; 0; 9]) 1026 0) [127; 0; 0; 3] with
      | Ok x => mo_down x = (513, 771, Some [127; 0; 0; 4]) /\ mo_up x = (515, 1026, Some [127; 0; 0; 9]) /\
                match mme_modified (y_msg (mo_answer x)) (Some sm) with Ok (_, far) => far = (Some [127; 0; 0; 3], 515) | _ => False end
      | _ => False end
  | _ => False end.
Proof. vm_compute. repeat split. Qed.
