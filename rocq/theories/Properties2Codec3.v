(** Properties C35 and C36: timers and identities.  Specifications: CodecSpec4.v, CodecSpec.v
    (made), Spec.v (digits, TBCD, PLMN), V2IESpec.v (wf2). *)
From Coq Require Import ZArith.
From Verif Require Import Base BaseLemmas Utils V2IE V2IESpec V2IEProofs Spec V2Codec V2Codec2
  CodecSpec CodecSpec4 V2CodecProofs V2IdProofs V2TimeProofs PropertiesBase.
Open Scope N_scope.
Open Scope list_scope.

(** ** C36 *)
Theorem C36_imsi_partial : forall g s, Forall digit s -> Nat.odd (len s) = true -> (len s < N.to_nat 131070)%nat ->
  exists i, made g (new_imsi g s) 1 (tbcd s) i /\ acc_imsi i = Ok s.
Proof. exact imsi_all. Qed.
(** an even number of digits: the last one is lost, always *)
Theorem C36_imsi_even_refuted : forall g s, Forall digit s -> s <> [] -> Nat.even (len s) = true -> (len s < N.to_nat 131070)%nat ->
  exists i, made g (new_imsi g s) 1 (tbcd s) i /\ acc_imsi i = Ok (firstn (len s - 1) s).
Proof. exact imsi_even. Qed.
Theorem C36_msisdn : forall g s, Forall digit s -> s <> [] -> (len s < N.to_nat 131070)%nat ->
  exists i, made g (new_msisdn g s) 76 (tbcd s) i /\ acc_msisdn i = Ok s.
Proof. intros g s H N L. exact (trimmed_all g 76 s H N eq_refl L). Qed.
Theorem C36_mei : forall g s, Forall digit s -> s <> [] -> (len s < N.to_nat 131070)%nat ->
  exists i, made g (new_mei g s) 75 (tbcd s) i /\ acc_mei i = Ok s.
Proof. intros g s H N L. exact (trimmed_all g 75 s H N eq_refl L). Qed.
Theorem C36_serving_network : forall g mcc mnc, is_mcc mcc -> is_mnc mnc ->
  exists i, made g (new_serving_network g mcc mnc) 83 (plmn_octets mcc mnc) i /\
    acc_serving_network i = Ok (mcc ++ mnc) /\ acc_mcc_mnc i = Ok (mcc, mnc).
Proof. intros g mcc mnc H1 H2. destruct (plmn_ie_all g 83 mcc mnc H1 H2 eq_refl) as (i & A & B & C). exists i. auto. Qed.
Theorem C36_plmn_id : forall g mcc mnc, is_mcc mcc -> is_mnc mnc ->
  exists i, made g (new_plmn_id g mcc mnc) 120 (plmn_octets mcc mnc) i /\
    acc_plmn_id i = Ok (mcc ++ mnc) /\ acc_mcc_mnc i = Ok (mcc, mnc).
Proof. intros g mcc mnc H1 H2. destruct (plmn_ie_all g 120 mcc mnc H1 H2 eq_refl) as (i & A & B & C). exists i. auto. Qed.
Theorem C36_global_cn_id : forall g mcc mnc cnid, is_mcc mcc -> is_mnc mnc -> cnid < 2 ^ 12 ->
  exists i, made g (new_global_cn_id mcc mnc cnid) 89 (plmn_octets mcc mnc ++ enc16 cnid) i /\
    acc_cnid i = Ok cnid /\ acc_mcc_mnc i = Ok (mcc, mnc).
Proof. exact global_cn_id_all. Qed.
(** the accessors of the parts; GUTI itself is refuted below *)
Theorem C36_guti_partial : forall g mcc mnc group code tmsi,
  is_mcc mcc -> is_mnc mnc -> group < 2 ^ 16 -> code < 256 -> tmsi < 2 ^ 32 ->
  exists i, made g (new_guti g mcc mnc group code tmsi) 117 (plmn_octets mcc mnc ++ enc16 group ++ [code] ++ enc32 tmsi) i /\
    acc_mme_group i = Ok group /\ acc_mme_code i = Ok code /\ acc_mtmsi i = Ok tmsi /\ acc_mcc_mnc i = Ok (mcc, mnc).
Proof. exact guti_all. Qed.
Theorem C36_user_csg_information : forall g mcc mnc csg mode lcsg cmi,
  is_mcc mcc -> is_mnc mnc -> csg < 2 ^ 27 -> mode < 4 -> lcsg < 2 -> cmi < 2 ->
  exists i, made g (new_uci g mcc mnc csg mode lcsg cmi) 145 (plmn_octets mcc mnc ++ enc32 csg ++ [64 * mode + 2 * lcsg + cmi]) i /\
    (exists f, acc_uci i = Ok f /\ uc_mcc f = mcc /\ uc_mnc f = mnc /\ uc_csg f = csg /\ uc_mode f = mode /\ uc_flags f = 2 * lcsg + cmi) /\
    acc_access_mode i = Ok mode /\ (g 145 = false -> acc_csg_id g i = Ok csg) /\ acc_mcc_mnc i = Ok (mcc, mnc).
Proof. exact uci_all. Qed.
Theorem C36_trace_reference : forall g mcc mnc tid, is_mcc mcc -> is_mnc mnc -> tid < 2 ^ 24 ->
  exists i, made g (new_trace_reference g mcc mnc tid) 115 (plmn_octets mcc mnc ++ enc24 tid) i /\
    trace_reference_parse (i2_payload i) = Ok (mcc, mnc, tid) /\ acc_trace_id i = Ok tid /\ acc_mcc_mnc i = Ok (mcc, mnc).
Proof. exact trace_reference_all. Qed.
Theorem C36_fq_csid : forall g n csids t o, (forall ip, n = NodeIP ip -> bytes_ok ip) -> node_octets n t o ->
  (List.length csids < 16)%nat -> Forall (fun c => c < 2 ^ 16) csids ->
  exists i, made g (new_fqcsid g n csids) 132 ([16 * t + N.of_nat (List.length csids)] ++ o ++ csid_octets csids) i /\
    acc_fqcsid i = Ok (FqCsid t (N.of_nat (List.length csids)) o csids) /\
    acc_node_id_type i = Ok t /\ acc_csids i = Ok csids /\ (csids <> [] -> acc_node_id i = Ok o).
Proof. exact fqcsid_all. Qed.

Definition x_mcc : bytes := [50; 48; 56].
Definition x_mnc : bytes := [57; 51].
Lemma x_mcc_ok : is_mcc x_mcc. Proof. split; [reflexivity|]. repeat constructor; cbv; discriminate. Qed.
Lemma x_mnc_ok : is_mnc x_mnc. Proof. split; [left; reflexivity|]. repeat constructor; cbv; discriminate. Qed.
Definition x_digits : bytes := [50; 48; 56; 57; 51; 49; 50; 51; 52; 53; 54; 55; 56; 57; 48].
Example C36_example : is_mcc x_mcc /\ is_mnc x_mnc /\ Forall digit x_digits /\ Nat.odd (len x_digits) = true /\
  tbcd x_digits = [2; 152; 19; 50; 84; 118; 152; 240] /\
  plmn_octets x_mcc x_mnc ++ enc16 513 ++ [5] ++ enc32 16909060 = [2; 248; 57; 2; 1; 5; 1; 2; 3; 4] /\
  node_octets (NodeIP [10; 0; 0; 1]) 0 [10; 0; 0; 1] /\ node_octets (NodeHex [49; 50; 51; 52; 53; 54; 55; 56]) 2 [18; 52; 86; 120].
Proof.
  split; [exact x_mcc_ok|]. split; [exact x_mnc_ok|]. split; [repeat constructor; cbv; discriminate|].
  split; [reflexivity|]. split; [reflexivity|]. split; [reflexivity|]. split; [left; split; reflexivity|]. repeat split.
Qed.
(** GUTI() returns a PLMN that is not the one given *)
Theorem C36_guti_refuted : exists g i f, made g (new_guti g x_mcc x_mnc 513 5 16909060) 117
    (plmn_octets x_mcc x_mnc ++ enc16 513 ++ [5] ++ enc32 16909060) i /\
  acc_guti [] i = Ok f /\ gu_mcc f <> x_mcc /\ gu_mnc f <> x_mnc /\ gu_group f = 513 /\ gu_code f = 5 /\ gu_tmsi f = 16909060.
Proof.
  exists dg. destruct (guti_all dg x_mcc x_mnc 513 5 16909060 x_mcc_ok x_mnc_ok eq_refl eq_refl eq_refl) as (i & M & _).
  exists i. destruct M as (M1 & M2 & M3 & M4 & M5). unfold acc_guti, typed. rewrite M2, M4. eexists.
  split; [repeat split; assumption|]. split; [reflexivity|]. repeat split; vm_compute; discriminate.
Qed.
(** a GUTI payload of three octets with nothing behind it in memory panics *)
Theorem C36_guti_panics_refuted : exists i, i2_type i = 117 /\ len (i2_payload i) = 3%nat /\ acc_guti [] i = Panic.
Proof. exists (IE2 117 3 0 [2; 248; 57] []). repeat split. Qed.
(** NewGUTI with an MCC that is not a number makes an IE of zeros instead of failing *)
Theorem C36_guti_bad_plmn_refuted : exists g mcc mnc i, new_guti g mcc mnc 513 5 16909060 = Ok (Some i) /\
  encode_plmn mcc mnc = Err EHex /\ i2_payload i = [0; 0; 0; 0; 0; 0; 0; 0; 0; 0].
Proof. exists dg, [120; 48; 56], x_mnc. eexists. repeat split. Qed.
(** CMI() of a User CSG Information IE is the octet that holds it, access mode and all *)
Theorem C36_cmi_of_uci_refuted : exists g i, new_uci g x_mcc x_mnc 7 2 0 1 = Ok (Some i) /\ acc_cmi g i = Ok 129.
Proof. exists dg. eexists. split; vm_compute; reflexivity. Qed.
(** an FQ-CSID built from a node identifier that is neither an address nor hex panics, and the
    node identifier of an FQ-CSID without CSIDs cannot be read *)
Theorem C36_fq_csid_refuted :
  (exists g s, hex_decode s = Err EHex /\ new_fqcsid g (NodeHex s) [1] = Panic) /\
  (exists g i, new_fqcsid g (NodeIP [10; 0; 0; 1]) [] = Ok (Some i) /\ acc_node_id i = Err EUnexpectedEOF).
Proof.
  split; [exists dg, [120; 121]; split; reflexivity|]. exists dg. eexists. split; reflexivity.
Qed.

(** ** C35 *)
Open Scope Z_scope.
Theorem C35_epc_timer : forall g d, timer_expressible d ->
  exists i, made g (Ok (Some (new_epc_timer g d))) 156 [epc_timer_octet d] i /\ acc_timer i = Ok d.
Proof. exact epc_timer_all. Qed.
(** for every duration whatsoever: it comes back exactly when it is expressible, or "infinite" *)
Theorem C35_epc_timer_exact : forall g d, acc_timer (new_epc_timer g d) = Ok d <-> timer_expressible d \/ d = max_int64.
Proof. exact epc_timer_exact. Qed.
Theorem C35_throttling : forall g d factor, timer_expressible d -> (factor < 256)%N ->
  exists i x, made g (new_throttling g d factor) 154 [x; factor] i /\ acc_throttling i = Ok (throttling_unit d, d, factor) /\
    x = epc_timer_octet d.
Proof. exact throttling_all. Qed.
Theorem C35_ue_time_zone : forall g k dst, -79 <= k <= 79 -> (dst < 4)%N ->
  exists i, made g (Ok (Some (new_ue_time_zone g (k * (15 * minute)) dst))) 114 [tz_spec k; dst] i /\
    acc_time_zone i = Ok (k * (15 * minute)) /\ acc_dst i = Ok dst.
Proof. exact ue_time_zone_all. Qed.
(** encoding only: decoding is refuted below *)
Theorem C35_delay_value_partial : forall g k, 0 <= k < 256 ->
  made g (Ok (Some (new_delay_value g (k * (50 * msec))))) 92 [Z.to_N k] (new_delay_value g (k * (50 * msec))) /\
  new_delay_value_raw g (Z.to_N k) = new_delay_value g (k * (50 * msec)).
Proof. exact delay_value_all. Qed.
(** every time from 1900 to 2106 is encoded modulo 2^32 seconds; from 1970 on it comes back *)
Theorem C35_uli_timestamp : forall g x frac, - ntp_unix <= x < 2 ^ 32 -> 0 <= frac < sec ->
  exists i, made g (Ok (Some (new_uli_timestamp g ((x + ntp_unix) * sec + frac)))) 170 (enc32 (Z.to_N ((x + ntp_unix) mod 2 ^ 32))) i /\
    acc_timestamp i = Ok (x mod 2 ^ 32) /\ (0 <= x -> acc_timestamp i = Ok x).
Proof.
  intros g x frac Hx Hf. destruct (uli_timestamp_all g x frac Hx Hf) as (i & M & A). exists i. split; [exact M|]. split; [exact A|].
  intros H0. rewrite A. f_equal. apply Z.mod_small. lia.
Qed.
Example C35_example : timer_expressible (17 * 600 * 1000000000) /\ epc_timer_octet (17 * 600 * 1000000000) = 81%N /\
  ~ timer_expressible (32 * 2 * 1000000000) /\ tz_spec (-14) = 73%N /\ tz_spec 36 = 99%N.
Proof.
  split. { exists 2%N, (600 * 1000000000), 17. split; [cbn; tauto|lia]. }
  split; [reflexivity|]. split; [|split; reflexivity].
  intros (c & u & k & Hu & Hk & E). cbn in Hu. decompose [or] Hu; try contradiction;
    match goal with X : _ = (c, u) |- _ => injection X as _ <- end; lia.
Qed.
(** one minute and four seconds, 32 units of two seconds, becomes zero *)
Theorem C35_timer_too_long_refuted : exists g d, d = 64 * 1000000000 /\ acc_timer (new_epc_timer g d) = Ok 0 /\
  exists i, new_throttling g d 50 = Ok (Some i) /\ acc_throttling i = Ok (0%N, 0, 50%N).
Proof. exists dg, (64 * 1000000000). split; [reflexivity|]. split; [reflexivity|]. eexists. split; reflexivity. Qed.
(** one second of throttling becomes none *)
Theorem C35_throttling_odd_seconds_refuted : exists g i, new_throttling g (1 * 1000000000) 50 = Ok (Some i) /\
  acc_throttling i = Ok (0%N, 0, 50%N).
Proof. exists dg. eexists. split; reflexivity. Qed.
(** a delay of 100 ms comes back as zero, one of 5 s as two milliseconds *)
Theorem C35_delay_value_refuted : exists g, acc_delay_value (new_delay_value g (100 * msec)) = Ok 0 /\
  acc_delay_value (new_delay_value g (5 * sec)) = Ok (2 * msec).
Proof. exists dg. split; vm_compute; reflexivity. Qed.
(** 1 January 1960 comes back as a date after 2095 *)
Theorem C35_uli_timestamp_before_1970_refuted : exists g x i, x < 0 /\ new_uli_timestamp g ((x + ntp_unix) * sec) = i /\
  acc_timestamp i = Ok (x + 2 ^ 32).
Proof. exists dg, (-315619200). eexists. split; [reflexivity|]. split; [reflexivity|]. vm_compute. reflexivity. Qed.

Print Assumptions C36_imsi_partial.
Print Assumptions C36_imsi_even_refuted.
Print Assumptions C36_msisdn.
Print Assumptions C36_mei.
Print Assumptions C36_serving_network.
Print Assumptions C36_plmn_id.
Print Assumptions C36_global_cn_id.
Print Assumptions C36_guti_partial.
Print Assumptions C36_user_csg_information.
Print Assumptions C36_trace_reference.
Print Assumptions C36_fq_csid.
Print Assumptions C36_guti_refuted.
Print Assumptions C36_guti_panics_refuted.
Print Assumptions C36_guti_bad_plmn_refuted.
Print Assumptions C36_cmi_of_uci_refuted.
Print Assumptions C36_fq_csid_refuted.
Print Assumptions C35_epc_timer.
Print Assumptions C35_epc_timer_exact.
Print Assumptions C35_throttling.
Print Assumptions C35_ue_time_zone.
Print Assumptions C35_delay_value_partial.
Print Assumptions C35_uli_timestamp.
Print Assumptions C35_timer_too_long_refuted.
Print Assumptions C35_throttling_odd_seconds_refuted.
Print Assumptions C35_delay_value_refuted.
Print Assumptions C35_uli_timestamp_before_1970_refuted.
