(** C39: information element codecs of GTPv0. *)
From Coq Require Import String ZArith.
From Verif Require Import Base BaseLemmas Utils UtilsProofs TvIE TvIESpec TvIEProofs Spec V2Codec V2Codec2 CodecSpec CodecSpec2 CodecSpec4
  TvCodec TvCodecSpec TvCodecProofs TvCodecProofs2 TvCodecProofs3 TvCodecProofs4 TvCodecProofs5.
Open Scope N_scope.
Open Scope list_scope.

(** [made1 tv0 xl0 r t v i]: the constructor returned [i], an IE of type [t] with value [v]
    that marshals and parses (C09). *)

(** ** Single values *)
Theorem C39_v0_octet : forall n t v, In (n, t) octet_codes0 -> v < 256 ->
  In (n, t) octet_ies0 /\ made1 tv0 xl0 (Ok (Some (new8 tv0 t v))) t [v] (new8 tv0 t v) /\ acc8 t (new8 tv0 t v) = Ok v.
Proof. exact octet0. Qed.
Example C39_v0_octet_case : In ("MSNotReachableReason"%string, 19) octet_codes0 /\ marshal1 tv0 xl0 (new8 tv0 19 3) = Ok [19; 3].
Proof. split; [cbn; tauto|reflexivity]. Qed.
Print Assumptions C39_v0_octet.
Theorem C39_v0_word : forall n t v, In (n, t) word_codes0 -> v < 2 ^ 32 ->
  In (n, t) word_ies0 /\ exists i, made1 tv0 xl0 (some1 (new32 tv0 t v)) t (enc32 v) i /\ acc32 t i = Ok v.
Proof. exact word0. Qed.
Example C39_v0_word_case : exists i, new32 tv0 4 0xff00aa55 = Ok i /\ marshal1 tv0 xl0 i = Ok [4; 255; 0; 170; 85].
Proof. eexists; split; reflexivity. Qed.
Print Assumptions C39_v0_word.
(** Flow Label Data I and Flow Label Signalling *)
Theorem C39_v0_flow_label : forall t v, t = 16 \/ t = 17 -> v < 2 ^ 16 ->
  exists i, made1 tv0 xl0 (some1 (new16 tv0 t v)) t (enc16 v) i /\ acc_flow t i = Ok v /\ acc_flow_data i = Ok v.
Proof. exact flow0. Qed.
Example C39_v0_flow_label_case : new16 tv0 17 0x1234 = Ok (IE1 17 0 [18; 52]).
Proof. reflexivity. Qed.
Print Assumptions C39_v0_flow_label.
Theorem C39_v0_flow_label_ii : forall nsapi v, nsapi < 16 -> v < 2 ^ 16 ->
  exists i, made1 tv0 xl0 (some1 (new_flow_ii nsapi v)) 18 ([nsapi + 240] ++ enc16 v) i /\ acc_nsapi0 i = Ok nsapi /\ acc_flow_data i = Ok v.
Proof. exact flow_ii0. Qed.
Example C39_v0_flow_label_ii_case : new_flow_ii 5 0x1234 = Ok (IE1 18 0 [245; 18; 52]).
Proof. reflexivity. Qed.
Print Assumptions C39_v0_flow_label_ii.
Theorem C39_v0_ptmsi_signature : forall v, v < 2 ^ 24 ->
  made1 tv0 xl0 (Ok (Some (new_ptmsi_sig1 tv0 v))) 12 (enc24 v) (new_ptmsi_sig1 tv0 v) /\ acc_ptmsi_sig1 (new_ptmsi_sig1 tv0 v) = Ok v.
Proof. exact ptmsi_sig0_all. Qed.
Example C39_v0_ptmsi_signature_case : new_ptmsi_sig1 tv0 0xbeebee = IE1 12 0 [190; 235; 238].
Proof. reflexivity. Qed.
Print Assumptions C39_v0_ptmsi_signature.
Theorem C39_v0_reordering : forall b,
  made1 tv0 xl0 (Ok (Some (new_flag tv0 8 b))) 8 [if b then 255 else 254] (new_flag tv0 8 b) /\ acc_flag 8 (new_flag tv0 8 b) = Ok b.
Proof. exact flag0. Qed.
Example C39_v0_reordering_case : marshal1 tv0 xl0 (new_flag tv0 8 true) = Ok [8; 255].
Proof. reflexivity. Qed.
Print Assumptions C39_v0_reordering.
Theorem C39_v0_private_extension : forall id v, id < 2 ^ 16 -> bytes_ok v -> (len v < N.to_nat 65534)%nat ->
  exists i, made1 tv0 xl0 (some1 (new_private tv0 id v)) 255 (enc16 id ++ v) i /\ acc_ext_id i = Ok id /\ acc_raw 255 i = Ok (enc16 id ++ v) /\
    acc_ext_value i = (if (len v =? 0)%nat then Err EUnexpectedEOF else Ok v).
Proof. intros id v. apply private_any; reflexivity. Qed.
Example C39_v0_private_extension_case : exists i, new_private tv0 128 [222; 173] = Ok i /\ acc_ext_value i = Ok [222; 173] /\ acc_ext_id i = Ok 128.
Proof. eexists; repeat split; reflexivity. Qed.
Print Assumptions C39_v0_private_extension.

(** ** Identities *)
Theorem C39_v0_imsi : forall s, Forall digit s -> len s = 15%nat -> exists i, made1 tv0 xl0 (some1 (new_imsi0 s)) 2 (tbcd s) i /\ acc_imsi1 i = Ok s.
Proof. exact imsi0_15. Qed.
Definition some_digits : bytes := [49; 50; 51; 52; 53; 49; 50; 51; 52; 53; 54; 55; 56; 57].
Example C39_v0_imsi_case : exists i, new_imsi0 (some_digits ++ [48]) = Ok i /\ acc_imsi1 i = Ok (some_digits ++ [48]).
Proof. eexists; split; reflexivity. Qed.
Print Assumptions C39_v0_imsi.
(** a string that is no number is sent as the IMSI 000000000000000 *)
Theorem C39_v0_imsi_invalid_refuted : forall s c, In c s -> hexval c = None ->
  exists i j, new_imsi0 s = Ok i /\ marshal1 tv0 xl0 i = Ok (2 :: zeros 8) /\ parse1 tv0 xl0 (2 :: zeros 8) = Ok j /\ acc_imsi1 j = Ok (repeat 48 15).
Proof.
  intros s c Hc Hx. exists (new1 tv0 2 []), (IE1 2 0 (zeros 8)). split; [|repeat split; reflexivity].
  unfold new_imsi0. rewrite (str_to_swapped_bad s _ c Hc Hx). reflexivity.
Qed.
Example C39_v0_imsi_invalid_refuted_case : In 120 [49; 50; 120] /\ hexval 120 = None.
Proof. split; [cbn; tauto|reflexivity]. Qed.
Print Assumptions C39_v0_imsi_invalid_refuted.
Theorem C39_v0_msisdn : forall s, Forall digit s -> s <> [] -> (len s < N.to_nat 131000)%nat -> Nat.even (len s) = true ->
  exists i, made1 tv0 xl0 (new_msisdn1 tv0 s) 134 (nature_of_address :: tbcd s) i /\ acc_msisdn1 i = Ok s.
Proof. intros s H N L E. destruct (msisdn0_made s H N L) as (i & M & A). rewrite E in A. eauto. Qed.
Example C39_v0_msisdn_case : exists i, new_msisdn1 tv0 some_digits = Ok (Some i) /\ acc_msisdn1 i = Ok some_digits.
Proof. eexists; split; reflexivity. Qed.
Print Assumptions C39_v0_msisdn.
(** a number with an odd number of digits is read back with an f *)
Theorem C39_v0_msisdn_odd_refuted : forall s, Forall digit s -> (len s < N.to_nat 131000)%nat -> Nat.even (len s) = false ->
  exists i, made1 tv0 xl0 (new_msisdn1 tv0 s) 134 (nature_of_address :: tbcd s) i /\ acc_msisdn1 i = Ok (s ++ [102]).
Proof. intros s H L E. destruct (msisdn0_made s H) as (i & M & A); [intros ->; discriminate|exact L|]. rewrite E in A. eauto. Qed.
Example C39_v0_msisdn_odd_refuted_case : exists i, new_msisdn1 tv0 [56; 49; 57] = Ok (Some i) /\ acc_msisdn1 i = Ok [56; 49; 57; 102].
Proof. eexists; split; reflexivity. Qed.
Print Assumptions C39_v0_msisdn_odd_refuted.

(** ** Routeing area *)
Theorem C39_v0_rai : forall mcc mnc lac rac, is_mcc mcc -> is_mnc mnc -> lac < 2 ^ 16 -> rac < 256 ->
  exists i, made1 tv0 xl0 (new_rai0 mcc mnc lac rac) 3 (plmn_octets mcc mnc ++ enc16 lac ++ [rac]) i /\
    acc_raw 3 i = Ok (plmn_octets mcc mnc ++ enc16 lac ++ [rac]) /\ acc_lac0 i = Ok lac /\ acc_rac0 i = Ok rac.
Proof. intros mcc mnc lac rac H1 H2 H3 H4. destruct (rai0_all mcc mnc lac rac H1 H2 H3 H4) as (i & A & B & C & D & _). eauto 10. Qed.
Example C39_v0_rai_case : exists i, new_rai0 [49; 50; 51] [52; 53] 0x1111 0x22 = Ok (Some i) /\ i1_payload i = [33; 243; 84; 17; 17; 34] /\ acc_lac0 i = Ok 0x1111.
Proof. eexists; repeat split; reflexivity. Qed.
Print Assumptions C39_v0_rai.
(** MCC has a fourth character, the third of the MNC or f; MNC is the third digit of the MCC *)
Theorem C39_v0_rai_mcc_mnc_refuted : forall mcc mnc lac rac, is_mcc mcc -> is_mnc mnc -> lac < 2 ^ 16 -> rac < 256 ->
  exists i, new_rai0 mcc mnc lac rac = Ok (Some i) /\ acc_mcc0 i = Ok (mcc ++ [nth 2 mnc 102]) /\ acc_mnc0 i = Ok [nth 2 mcc 0].
Proof. intros mcc mnc lac rac H1 H2 H3 H4. destruct (rai0_all mcc mnc lac rac H1 H2 H3 H4) as (i & (A & _) & _ & _ & _ & B & C). eauto. Qed.
Example C39_v0_rai_mcc_mnc_refuted_case : exists i, new_rai0 [49; 50; 51] [52; 53] 1 2 = Ok (Some i) /\ acc_mcc0 i = Ok [49; 50; 51; 102] /\ acc_mnc0 i = Ok [51].
Proof. eexists; repeat split; reflexivity. Qed.
Print Assumptions C39_v0_rai_mcc_mnc_refuted.

(** ** Addresses *)
(** GSN Address and Charging Gateway Address *)
Theorem C39_v0_address : forall t ip, t = 133 \/ t = 251 -> ipv4_or_6 ip ->
  made1 tv0 xl0 (Ok (Some (new_address0 t (Some ip)))) t ip (new_address0 t (Some ip)) /\ acc_address t (new_address0 t (Some ip)) = Ok ip /\
  (t = 133 -> acc_ip1 (new_address0 t (Some ip)) = Ok ip).
Proof. exact address0_all. Qed.
Example C39_v0_address_case : new_address0 251 (Some (v4in6 ++ [10; 0; 0; 1])) = IE1 251 4 [10; 0; 0; 1].
Proof. reflexivity. Qed.
Print Assumptions C39_v0_address.
Theorem C39_v0_end_user_address : forall ip, ipv4_or_6 ip ->
  exists i, made1 tv0 xl0 (some1 (new_eua0 (Some ip))) 128 (eua_octets ip) i /\ acc_ip1 i = Ok ip /\ acc_pdp_org i = Ok 241 /\
    acc_pdp_number i = Ok (if (len ip =? 4)%nat then 33 else 87) /\ acc_raw 128 i = Ok (eua_octets ip).
Proof. exact eua0_all. Qed.
Example C39_v0_end_user_address_case : new_eua0 (Some [10; 0; 0; 1]) = Ok (IE1 128 6 [241; 33; 10; 0; 0; 1]).
Proof. reflexivity. Qed.
Print Assumptions C39_v0_end_user_address.
(** a string that is no address is sent as the IPv6 address :: *)
Theorem C39_v0_eua_invalid_refuted : exists i, made1 tv0 xl0 (some1 (new_eua0 None)) 128 (eua_octets (zeros 16)) i /\ acc_ip1 i = Ok (zeros 16) /\ acc_pdp_number i = Ok 87.
Proof. exact eua0_invalid. Qed.
Print Assumptions C39_v0_eua_invalid_refuted.
Theorem C39_v0_ppp : exists i, made1 tv0 xl0 (some1 (new_eua_ppp tv0)) 128 [240; 241] i /\ acc_pdp_org i = Ok 240 /\ acc_pdp_number i = Ok 241.
Proof. apply ppp_made; reflexivity. Qed.
Example C39_v0_ppp_case : new_eua_ppp tv0 = Ok (IE1 128 2 [240; 241]).
Proof. reflexivity. Qed.
Print Assumptions C39_v0_ppp.
(** the encoding of access point names *)
Theorem C39_v0_apn_layout : forall ls, ls <> [] -> Forall (fun l => ~ In dot l /\ bytes_ok l /\ (len l < 256)%nat) ls -> (len (labels_octets ls) < N.to_nat 65536)%nat ->
  exists i, made1 tv0 xl0 (some1 (new_apn1 tv0 (labels_to_string ls))) 131 (labels_octets ls) i.
Proof. intros ls H1 H2 H3. destruct (apn0_made ls H1 H2 H3) as (i & A & _). eauto. Qed.
Example C39_v0_apn_layout_case : exists i, new_apn1 tv0 (labels_to_string [[115; 111; 109; 101]; [97; 112; 110]]) = Ok i /\ i1_payload i = [4; 115; 111; 109; 101; 3; 97; 112; 110].
Proof. eexists; repeat split; reflexivity. Qed.
Print Assumptions C39_v0_apn_layout.
(** no payload at all has an access point name *)
Theorem C39_v0_apn_refuted : forall i, acc_apn0 i = Err (if i1_type i =? 131 then EUnexpectedEOF else EInvalidType).
Proof. exact acc_apn0_fails. Qed.
Example C39_v0_apn_refuted_case : acc_apn0 (IE1 131 9 [4; 115; 111; 109; 101; 3; 97; 112; 110]) = Err EUnexpectedEOF.
Proof. reflexivity. Qed.
Print Assumptions C39_v0_apn_refuted.

(** ** Quality of service *)
Theorem C39_v0_qos : forall delay rel peak prec mean, delay < 8 -> rel < 8 -> peak < 16 -> prec < 8 -> mean < 32 ->
  exists i, made1 tv0 xl0 (some1 (new_qos0 delay rel peak prec mean)) 6 (qos0_octets delay rel peak prec mean) i /\
    acc_raw 6 i = Ok (qos0_octets delay rel peak prec mean) /\ acc_qos_reliability i = Ok rel /\ acc_qos_precedence i = Ok prec.
Proof. intros d r p q m H1 H2 H3 H4 H5. destruct (qos0_all d r p q m H1 H2 H3 H4 H5) as (i & A & B & C & D & _). eauto 10. Qed.
Example C39_v0_qos_case : exists i, new_qos0 1 2 3 4 17 = Ok i /\ i1_payload i = [10; 52; 17] /\ acc_qos_reliability i = Ok 2 /\ acc_qos_precedence i = Ok 4.
Proof. eexists; repeat split; reflexivity. Qed.
Print Assumptions C39_v0_qos.
(** QoSDelay and QoSPeak are not shifted, QoSMean loses a bit *)
Theorem C39_v0_qos_values_refuted : forall delay rel peak prec mean, delay < 8 -> rel < 8 -> peak < 16 -> prec < 8 -> mean < 32 ->
  exists i, new_qos0 delay rel peak prec mean = Ok i /\ acc_qos_delay i = Ok (8 * delay) /\ acc_qos_peak i = Ok (16 * peak) /\ acc_qos_mean i = Ok (mean mod 16).
Proof.
  intros d r p q m H1 H2 H3 H4 H5. destruct (qos0_all d r p q m H1 H2 H3 H4 H5) as (i & (A & _) & _ & _ & _ & B & C & D).
  exists i. split; [|auto]. destruct (new_qos0 d r p q m) as [j| |]; [|discriminate A|discriminate A]. unfold some1 in A; cbn [bind] in A; inversion A; reflexivity.
Qed.
Example C39_v0_qos_values_refuted_case : exists i, new_qos0 1 2 3 4 17 = Ok i /\ acc_qos_delay i = Ok 8 /\ acc_qos_peak i = Ok 48 /\ acc_qos_mean i = Ok 1.
Proof. eexists; repeat split; reflexivity. Qed.
Print Assumptions C39_v0_qos_values_refuted.

(** ** Accessors on any IE, built or parsed *)
Theorem C39_v0_accessors_total : forall i, Forall (fun a => snd a i <> Panic) accessors0 /\ (forall t, acc_flag t i <> Panic).
Proof. intros i. split; [apply accessors0_safe|]. intros t. apply acc_flag_safe. Qed.
Example C39_v0_accessors_total_case : List.length accessors0 = 36%nat /\ acc_mcc0 (IE1 3 0 [33]) = Err EUnexpectedEOF.
Proof. repeat split; reflexivity. Qed.
Print Assumptions C39_v0_accessors_total.
Theorem C39_v0_accessors_types : forall i, Forall (fun a => snd a i = Ok tt -> In (i1_type i) (snd (fst a))) accessors0.
Proof. exact accessors0_types. Qed.
Example C39_v0_accessors_types_case : acc8 1 (IE1 14 0 [128]) = Err EInvalidType /\ acc8 14 (IE1 14 0 [128]) = Ok 128.
Proof. split; reflexivity. Qed.
Print Assumptions C39_v0_accessors_types.
