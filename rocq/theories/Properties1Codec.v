(** C38: information element codecs of GTPv1. *)
From Coq Require Import String ZArith.
From Verif Require Import Base BaseLemmas Utils UtilsProofs TvIE TvIESpec TvIEProofs Spec V2Codec V2Codec2 V2Pco CodecSpec CodecSpec2 CodecSpec4 V2TimeProofs
  TvCodec TvCodecSpec TvCodecProofs TvCodecProofs2 TvCodecProofs3 TvCodecProofs4 TvCodecProofs5.
Open Scope N_scope.
Open Scope list_scope.

(** [made1 tv1 xl1 r t v i]: the constructor returned [i], an IE of type [t] with value [v]
    that marshals and parses (C08). *)

(** ** Single values *)
Theorem C38_v1_octet : forall n t v, In (n, t) octet_codes1 -> v < 256 ->
  In (n, t) octet_ies1 /\ made1 tv1 xl1 (Ok (Some (new8 tv1 t v))) t [v] (new8 tv1 t v) /\ acc8 t (new8 tv1 t v) = Ok v.
Proof. exact octet1. Qed.
Example C38_v1_octet_case : In ("RATType"%string, 151) octet_codes1 /\ marshal1 tv1 xl1 (new8 tv1 151 6) = Ok [151; 0; 1; 6].
Proof. split; [cbn; tauto|reflexivity]. Qed.
Print Assumptions C38_v1_octet.

Theorem C38_v1_word : forall n t v, In (n, t) word_codes1 -> v < 2 ^ 32 ->
  In (n, t) word_ies1 /\ exists i, made1 tv1 xl1 (some1 (new32 tv1 t v)) t (enc32 v) i /\ acc32 t i = Ok v.
Proof. exact word1. Qed.
Example C38_v1_word_case : new32 tv1 127 0xdeadbeef = Ok (IE1 127 0 [222; 173; 190; 239]).
Proof. reflexivity. Qed.
Print Assumptions C38_v1_word.

Theorem C38_v1_teid : forall n t v, In (n, t) teid_codes1 -> v < 2 ^ 32 ->
  In (n, t) teid_ies1 /\ exists i, made1 tv1 xl1 (some1 (new32 tv1 t v)) t (enc32 v) i /\ acc_teid1 i = Ok v.
Proof. exact teid1. Qed.
Example C38_v1_teid_case : exists i, new32 tv1 17 0x11223344 = Ok i /\ acc_teid1 i = Ok 0x11223344.
Proof. eexists; split; reflexivity. Qed.
Print Assumptions C38_v1_teid.

Theorem C38_v1_raw : forall n t v, In (n, t) raw_codes1 -> bytes_ok v -> (len v < 256)%nat \/ (t = 135 /\ (len v < N.to_nat 65536)%nat) ->
  In (n, t) raw_ies1 /\ made1 tv1 xl1 (Ok (Some (new1 tv1 t v))) t v (new1 tv1 t v) /\ acc_raw t (new1 tv1 t v) = Ok v.
Proof. exact raw1. Qed.
Example C38_v1_raw_case : marshal1 tv1 xl1 (new1 tv1 141 [133; 192]) = Ok [141; 2; 133; 192] /\ marshal1 tv1 xl1 (new1 tv1 135 [3; 11; 146]) = Ok [135; 0; 3; 3; 11; 146].
Proof. split; reflexivity. Qed.
Print Assumptions C38_v1_raw.

Theorem C38_v1_flag : forall n t b, In (n, t) flag_codes1 ->
  In (n, t) flag_ies1 /\ made1 tv1 xl1 (Ok (Some (new_flag tv1 t b))) t [if b then 255 else 254] (new_flag tv1 t b) /\ acc_flag t (new_flag tv1 t b) = Ok b.
Proof. exact flag1. Qed.
Example C38_v1_flag_case : acc_flag 19 (new_flag tv1 19 true) = Ok true /\ acc_flag 19 (new_flag tv1 8 true) = Ok false.
Proof. split; reflexivity. Qed.
Print Assumptions C38_v1_flag.

Theorem C38_v1_ptmsi_signature : forall v, v < 2 ^ 24 ->
  made1 tv1 xl1 (Ok (Some (new_ptmsi_sig1 tv1 v))) 12 (enc24 v) (new_ptmsi_sig1 tv1 v) /\ acc_ptmsi_sig1 (new_ptmsi_sig1 tv1 v) = Ok v.
Proof. exact ptmsi_sig1_all. Qed.
Example C38_v1_ptmsi_signature_case : new_ptmsi_sig1 tv1 0xbeebee = IE1 12 0 [190; 235; 238].
Proof. reflexivity. Qed.
Print Assumptions C38_v1_ptmsi_signature.

Theorem C38_v1_private_extension : forall id v, id < 2 ^ 16 -> bytes_ok v -> (len v < N.to_nat 65534)%nat ->
  exists i, made1 tv1 xl1 (some1 (new_private tv1 id v)) 255 (enc16 id ++ v) i /\ acc_ext_id i = Ok id /\ acc_raw 255 i = Ok (enc16 id ++ v) /\
    acc_ext_value i = (if (len v =? 0)%nat then Err EUnexpectedEOF else Ok v).
Proof. intros id v. apply private_any; reflexivity. Qed.
Example C38_v1_private_extension_case : exists i, new_private tv1 128 [222; 173] = Ok i /\ acc_ext_value i = Ok [222; 173] /\ acc_ext_id i = Ok 128.
Proof. eexists; repeat split; reflexivity. Qed.
Print Assumptions C38_v1_private_extension.

(** the eight Common Flags and Extended Common Flags, the three of Extended Common Flags II;
    the numbers are bit positions, highest first, as in the tables of accessors *)
Theorem C38_v1_flags : forall t a b c d e f g h, t = 148 \/ t = 193 -> let i := new_flags1 t (map b2n [a; b; c; d; e; f; g; h]) in
  made1 tv1 xl1 (Ok (Some i)) t [bits_octet [a; b; c; d; e; f; g; h]] i /\
  map (fun k => is_set1 t k i) (map snd common_flags) = map (@Ok bool) [a; b; c; d; e; f; g; h] /\
  map (fun k => is_set1 t k i) (map snd extended_common_flags) = map (@Ok bool) [a; b; c; d; e; f; g; h] /\
  acc8 t i = Ok (bits_octet [a; b; c; d; e; f; g; h]).
Proof. intros t a b c d e f g h Ht. destruct (flags8 t a b c d e f g h Ht) as (A & B & C). repeat split; try apply A; assumption. Qed.
Example C38_v1_flags_case : new_flags1 148 [0; 1; 0; 0; 0; 0; 0; 1] = IE1 148 1 [65] /\ is_set1 148 6 (IE1 148 1 [65]) = Ok true /\ is_set1 148 7 (IE1 148 1 [65]) = Ok false.
Proof. repeat split; reflexivity. Qed.
Print Assumptions C38_v1_flags.
Theorem C38_v1_flags_ii : forall a b c, let i := new_flags1 218 (map b2n [a; b; c]) in
  made1 tv1 xl1 (Ok (Some i)) 218 [bits_octet [a; b; c]] i /\
  map (fun k => is_set1 218 k i) (map snd extended_common_flags_ii) = map (@Ok bool) [a; b; c] /\ acc8 218 i = Ok (bits_octet [a; b; c]).
Proof. exact flags3. Qed.
Example C38_v1_flags_ii_case : new_flags1 218 [1; 0; 1] = IE1 218 1 [5].
Proof. reflexivity. Qed.
Print Assumptions C38_v1_flags_ii.

(** ** Identities *)
Theorem C38_v1_imsi : forall s, Forall digit s -> len s = 15%nat -> exists i, made1 tv1 xl1 (new_imsi1 s) 2 (tbcd s) i /\ acc_imsi1 i = Ok s.
Proof. exact imsi1_15. Qed.
Definition some_digits : bytes := [49; 50; 51; 52; 53; 49; 50; 51; 52; 53; 54; 55; 56; 57].
Example C38_v1_imsi_case : exists i, new_imsi1 (some_digits ++ [48]) = Ok (Some i) /\ acc_imsi1 i = Ok (some_digits ++ [48]).
Proof. eexists; split; reflexivity. Qed.
Print Assumptions C38_v1_imsi.
(** an IMSI of fourteen digits is read back with a fifteenth, and of sixteen digits the last is lost *)
Theorem C38_v1_imsi_length_refuted : forall s, Forall digit s ->
  (len s = 14%nat -> exists i b j, new_imsi1 s = Ok (Some i) /\ marshal1 tv1 xl1 i = Ok b /\ parse1 tv1 xl1 b = Ok j /\ acc_imsi1 j = Ok (s ++ [48])) /\
  (len s = 16%nat -> exists i, made1 tv1 xl1 (new_imsi1 s) 2 (tbcd s) i /\ acc_imsi1 i = Ok (firstn 15 s)).
Proof. intros s H. split; intros L; [apply imsi1_14|apply imsi1_16]; assumption. Qed.
Example C38_v1_imsi_length_refuted_case : exists i b j, new_imsi1 some_digits = Ok (Some i) /\ marshal1 tv1 xl1 i = Ok b /\ parse1 tv1 xl1 b = Ok j /\ acc_imsi1 j = Ok (some_digits ++ [48]).
Proof. eexists _, _, _; repeat split; reflexivity. Qed.
Print Assumptions C38_v1_imsi_length_refuted.

Theorem C38_v1_imeisv : forall s, Forall digit s -> s <> [] -> (len s < N.to_nat 131070)%nat ->
  exists i, made1 tv1 xl1 (new_imeisv s) 154 (tbcd s) i /\ acc_imeisv i = Ok s.
Proof. exact imeisv_all. Qed.
Example C38_v1_imeisv_case : exists i, new_imeisv (some_digits ++ [48; 49]) = Ok (Some i) /\ acc_imeisv i = Ok (some_digits ++ [48; 49]).
Proof. eexists; split; reflexivity. Qed.
Print Assumptions C38_v1_imeisv.

Theorem C38_v1_msisdn : forall s, Forall digit s -> s <> [] -> (len s < N.to_nat 131000)%nat -> Nat.even (len s) = true ->
  exists i, made1 tv1 xl1 (new_msisdn1 tv1 s) 134 (nature_of_address :: tbcd s) i /\ acc_msisdn1 i = Ok s.
Proof. intros s H N L E. destruct (msisdn1_made s H N L) as (i & M & A). rewrite E in A. eauto. Qed.
Example C38_v1_msisdn_case : exists i, new_msisdn1 tv1 some_digits = Ok (Some i) /\ acc_msisdn1 i = Ok some_digits.
Proof. eexists; split; reflexivity. Qed.
Print Assumptions C38_v1_msisdn.
(** a number with an odd number of digits is read back with an f *)
Theorem C38_v1_msisdn_odd_refuted : forall s, Forall digit s -> (len s < N.to_nat 131000)%nat -> Nat.even (len s) = false ->
  exists i, made1 tv1 xl1 (new_msisdn1 tv1 s) 134 (nature_of_address :: tbcd s) i /\ acc_msisdn1 i = Ok (s ++ [102]).
Proof. intros s H L E. destruct (msisdn1_made s H) as (i & M & A); [intros ->; discriminate|exact L|]. rewrite E in A. eauto. Qed.
Example C38_v1_msisdn_odd_refuted_case : exists i, new_msisdn1 tv1 [56; 49; 57] = Ok (Some i) /\ acc_msisdn1 i = Ok [56; 49; 57; 102].
Proof. eexists; split; reflexivity. Qed.
Print Assumptions C38_v1_msisdn_odd_refuted.

(** ** Areas *)
Theorem C38_v1_rai : forall mcc mnc lac rac, is_mcc mcc -> Forall digit mnc -> len mnc = 2%nat -> lac < 2 ^ 16 -> rac < 256 ->
  exists i, made1 tv1 xl1 (new_rai1 mcc mnc lac rac) 3 (plmn_octets mcc mnc ++ enc16 lac ++ [rac]) i /\
    acc_mcc1 i = Ok mcc /\ acc_mnc1 i = Ok mnc /\ acc_lac1 i = Ok lac /\ acc_rac1 i = Ok rac.
Proof.
  intros mcc mnc lac rac H1 H2 L Hl Hr. destruct (rai1_two mcc mnc lac rac H1 H2 ltac:(lia) Hl Hr) as (i & R).
  rewrite firstn_all2 in R by lia. exists i. exact R.
Qed.
Example C38_v1_rai_case : exists i, new_rai1 [52; 52; 48] [49; 48] 0x1111 0x22 = Ok (Some i) /\ acc_mcc1 i = Ok [52; 52; 48] /\ acc_mnc1 i = Ok [49; 48].
Proof. eexists; repeat split; reflexivity. Qed.
Print Assumptions C38_v1_rai.
(** the third digit of the MNC is dropped; an empty MNC panics *)
Theorem C38_v1_rai_mnc_refuted : forall mcc mnc lac rac, is_mcc mcc -> Forall digit mnc -> lac < 2 ^ 16 -> rac < 256 ->
  (len mnc = 3%nat -> exists i, made1 tv1 xl1 (new_rai1 mcc mnc lac rac) 3 (plmn_octets mcc (firstn 2 mnc) ++ enc16 lac ++ [rac]) i /\
     acc_mcc1 i = Ok mcc /\ acc_mnc1 i = Ok (firstn 2 mnc)) /\
  new_rai1 mcc [] lac rac = Panic.
Proof.
  intros mcc mnc lac rac H1 H2 Hl Hr. split; [|apply rai1_empty, H1]. intros L.
  destruct (rai1_two mcc mnc lac rac H1 H2 ltac:(lia) Hl Hr) as (i & M & A & B & _). eauto.
Qed.
Example C38_v1_rai_mnc_refuted_case : new_rai1 [51; 49; 48] [50; 54; 48] 1 2 = new_rai1 [51; 49; 48] [50; 54] 1 2 /\ new_rai1 [51; 49; 48] [] 1 2 = Panic.
Proof. split; reflexivity. Qed.
Print Assumptions C38_v1_rai_mnc_refuted.

(** location 0 is a cell, 1 a service area *)
Theorem C38_v1_uli_area : forall loc mcc mnc lac x, loc < 2 -> is_mcc mcc -> is_mnc mnc -> lac < 2 ^ 16 -> x < 2 ^ 16 ->
  exists i, made1 tv1 xl1 (new_uli_area loc mcc mnc lac x) 152 (area_octets loc (plmn_octets mcc mnc) lac (enc16 x)) i /\
    acc_mcc1 i = Ok mcc /\ acc_mnc1 i = Ok mnc /\ acc_lac1 i = Ok lac /\ acc_area loc i = Ok x /\
    acc_rac1 i = Err EInvalidType /\ (forall l, l <> loc -> acc_area l i = Err EInvalidType).
Proof. exact uli_area_all. Qed.
(** the two constructors and the accessors that read them *)
Theorem C38_v1_uli_cgi_sai : forall mcc mnc lac x, is_mcc mcc -> is_mnc mnc -> lac < 2 ^ 16 -> x < 2 ^ 16 ->
  (exists i, made1 tv1 xl1 (new_uli_cgi mcc mnc lac x) 152 (area_octets 0 (plmn_octets mcc mnc) lac (enc16 x)) i /\
     acc_mcc1 i = Ok mcc /\ acc_mnc1 i = Ok mnc /\ acc_lac1 i = Ok lac /\ acc_cgi1 i = Ok x /\ acc_sac1 i = Err EInvalidType) /\
  (exists i, made1 tv1 xl1 (new_uli_sai mcc mnc lac x) 152 (area_octets 1 (plmn_octets mcc mnc) lac (enc16 x)) i /\
     acc_mcc1 i = Ok mcc /\ acc_mnc1 i = Ok mnc /\ acc_lac1 i = Ok lac /\ acc_sac1 i = Ok x /\ acc_cgi1 i = Err EInvalidType).
Proof.
  intros mcc mnc lac x M N L X. split.
  - destruct (C38_v1_uli_area 0 mcc mnc lac x ltac:(lia) M N L X) as [i [H1 [H2 [H3 [H4 [H5 [_ H6]]]]]]].
    exists i. repeat (split; [assumption|]). apply H6. discriminate.
  - destruct (C38_v1_uli_area 1 mcc mnc lac x ltac:(lia) M N L X) as [i [H1 [H2 [H3 [H4 [H5 [_ H6]]]]]]].
    exists i. repeat (split; [assumption|]). apply H6. discriminate.
Qed.
Print Assumptions C38_v1_uli_cgi_sai.
Example C38_v1_uli_area_case : exists i, new_uli_sai [51; 49; 48] [50; 54; 48] 0x1111 0x2222 = Ok (Some i) /\ acc_sac1 i = Ok 0x2222 /\ acc_mnc1 i = Ok [50; 54; 48].
Proof. eexists; repeat split; reflexivity. Qed.
Print Assumptions C38_v1_uli_area.
Theorem C38_v1_uli_rai : forall mcc mnc lac rac, is_mcc mcc -> is_mnc mnc -> lac < 2 ^ 16 -> rac < 256 ->
  exists i, made1 tv1 xl1 (new_uli_rai mcc mnc lac rac) 152 (area_octets 2 (plmn_octets mcc mnc) lac [rac]) i /\
    acc_mcc1 i = Ok mcc /\ acc_mnc1 i = Ok mnc /\ acc_lac1 i = Ok lac /\ acc_rac1 i = Ok rac /\
    acc_cgi1 i = Err EInvalidType /\ acc_sac1 i = Err EInvalidType.
Proof. exact uli_rai_all. Qed.
Example C38_v1_uli_rai_case : exists i, new_uli_rai [51; 49; 48] [50; 54; 48] 0x1111 0x22 = Ok (Some i) /\ acc_rac1 i = Ok 0x22.
Proof. eexists; repeat split; reflexivity. Qed.
Print Assumptions C38_v1_uli_rai.

(** ** Addresses *)
(** for all addresses as net.ParseIP and net.IP hold them: 4 octets, or 16 that are not an
    IPv4 address in IPv6 form; that form is the same as the 4 octets *)
Theorem C38_v1_gsn_address : forall ip, ipv4_or_6 ip ->
  exists i, made1 tv1 xl1 (Ok (new_gsn1 (Some ip))) 133 ip i /\ acc_address 133 i = Ok ip /\ acc_ip1 i = Ok ip.
Proof. exact gsn1_all. Qed.
Example C38_v1_gsn_address_case : ipv4_or_6 [10; 0; 0; 1] /\ ipv4_or_6 ([32; 1; 13; 184] ++ zeros 11 ++ [1]).
Proof. split; (split; [|repeat constructor]); [left; reflexivity|right]. split; [reflexivity|discriminate]. Qed.
Print Assumptions C38_v1_gsn_address.
Theorem C38_v1_gsn_address_mapped : forall a, octets 4 a -> new_gsn1 (Some (v4in6 ++ a)) = new_gsn1 (Some a).
Proof. exact gsn1_mapped. Qed.
Example C38_v1_gsn_address_mapped_case : new_gsn1 (Some (v4in6 ++ [10; 0; 0; 1])) = Some (IE1 133 4 [10; 0; 0; 1]) /\ new_gsn1 None = None.
Proof. split; reflexivity. Qed.
Print Assumptions C38_v1_gsn_address_mapped.
Theorem C38_v1_end_user_address : forall ip, ipv4_or_6 ip ->
  exists i, made1 tv1 xl1 (new_eua1 (Some ip)) 128 (eua_octets ip) i /\ acc_ip1 i = Ok ip /\ acc_pdp_org i = Ok 241 /\
    acc_pdp_number i = Ok (if (len ip =? 4)%nat then 33 else 87) /\ acc_raw 128 i = Ok (eua_octets ip).
Proof. exact eua1_all. Qed.
Example C38_v1_end_user_address_case : new_eua1 (Some [10; 0; 0; 1]) = Ok (Some (IE1 128 6 [241; 33; 10; 0; 0; 1])).
Proof. reflexivity. Qed.
Print Assumptions C38_v1_end_user_address.
Theorem C38_v1_ppp : exists i, made1 tv1 xl1 (some1 (new_eua_ppp tv1)) 128 [240; 241] i /\ acc_pdp_org i = Ok 240 /\ acc_pdp_number i = Ok 241.
Proof. apply ppp_made; reflexivity. Qed.
Example C38_v1_ppp_case : new_eua_ppp tv1 = Ok (IE1 128 2 [240; 241]).
Proof. reflexivity. Qed.
Print Assumptions C38_v1_ppp.
Theorem C38_v1_apn : forall ls, ls <> [] -> Forall (fun l => ~ In dot l /\ bytes_ok l /\ (len l < 256)%nat) ls -> (len (labels_octets ls) < N.to_nat 65536)%nat ->
  exists i, made1 tv1 xl1 (some1 (new_apn1 tv1 (labels_to_string ls))) 131 (labels_octets ls) i /\ acc_apn1 i = Ok (labels_to_string ls).
Proof. exact apn1_all. Qed.
Example C38_v1_apn_case : exists i, new_apn1 tv1 (labels_to_string [[115; 111; 109; 101]; [97; 112; 110]]) = Ok i /\ i1_payload i = [4; 115; 111; 109; 101; 3; 97; 112; 110] /\
  acc_apn1 i = Ok [115; 111; 109; 101; 46; 97; 112; 110].
Proof. eexists; repeat split; reflexivity. Qed.
Print Assumptions C38_v1_apn.

(** ** Authentication vectors *)
Theorem C38_v1_triplet : forall rand sres kc, octets 16 rand -> octets 4 sres -> octets 8 kc ->
  exists i, made1 tv1 xl1 (some1 (new_triplet rand sres kc)) 9 (rand ++ sres ++ kc) i /\
    acc_rand i = Ok rand /\ acc_sres i = Ok sres /\ acc_kc i = Ok kc /\ acc_raw 9 i = Ok (rand ++ sres ++ kc).
Proof. exact triplet_all. Qed.
Example C38_v1_triplet_case : exists i, new_triplet (below 16) [1; 2; 3; 4] (below 8) = Ok i /\ acc_sres i = Ok [1; 2; 3; 4] /\ acc_kc i = Ok (below 8).
Proof. eexists; repeat split; reflexivity. Qed.
Print Assumptions C38_v1_triplet.
Theorem C38_v1_quintuplet : forall rand xres ck ik autn, octets 16 rand -> octets 16 ck -> octets 16 ik ->
  bytes_ok xres -> (len xres < 256)%nat -> bytes_ok autn -> (len autn < 256)%nat -> let q := quintuplet_octets rand xres ck ik autn in
  exists i, made1 tv1 xl1 (some1 (new_quintuplet rand xres ck ik autn)) 136 q i /\
    acc_rand i = Ok rand /\ acc_xres i = Ok xres /\ acc_ck i = Ok ck /\ acc_ik i = Ok ik /\ acc_quintuplet i = Ok q.
Proof. exact quintuplet_all. Qed.
Definition some_quintuplet : res ie1 := new_quintuplet (below 16) (below 8) (repeat 7 16) (repeat 9 16) (map (N.add 64) (below 16)).
Example C38_v1_quintuplet_case : (do i <- some_quintuplet; do x <- acc_xres i; do c <- acc_ck i; do k <- acc_ik i; Ok (x, c, k)) = Ok (below 8, repeat 7 16, repeat 9 16).
Proof. vm_compute. reflexivity. Qed.
Print Assumptions C38_v1_quintuplet.
(** AUTN is read back only if each of its octets is its own length *)
Theorem C38_v1_autn_refuted : forall rand xres ck ik autn i, octets 16 rand -> octets 16 ck -> octets 16 ik -> (len xres < 256)%nat -> (len autn < 256)%nat ->
  new_quintuplet rand xres ck ik autn = Ok i -> acc_autn i = Ok autn -> Forall (fun x => x = N.of_nat (len autn)) autn.
Proof. exact autn_constant. Qed.
Example C38_v1_autn_refuted_case : (do i <- some_quintuplet; acc_autn i) = Ok (16 :: map (N.add 64) (below 8)).
Proof. vm_compute. reflexivity. Qed.
Print Assumptions C38_v1_autn_refuted.
(** and it panics for a quintuplet of fifty octets, which NewAuthenticationQuintuplet makes of an empty
    XRES and AUTN and a peer may send *)
Theorem C38_v1_autn_panics : forall i, bytes_ok (i1_payload i) -> (acc_autn i = Panic <-> i1_type i = 136 /\ len (i1_payload i) = 50%nat).
Proof. exact autn_panics. Qed.
Example C38_v1_autn_panics_case :
  (do i <- new_quintuplet (below 16) [] (below 16) (below 16) []; do b <- marshal1 tv1 xl1 i; do j <- parse1 tv1 xl1 b; Ok (i1_type j, len (i1_payload j))) = Ok (136, 50%nat) /\
  (do i <- new_quintuplet (below 16) [] (below 16) (below 16) []; do b <- marshal1 tv1 xl1 i; do j <- parse1 tv1 xl1 b; acc_autn j) = Panic.
Proof. split; vm_compute; reflexivity. Qed.
Print Assumptions C38_v1_autn_panics.

(** ** Times and configuration options *)
(** offsets are multiples of a quarter of an hour up to 79 quarters *)
Theorem C38_v1_ms_time_zone : forall k dst, (-79 <= k <= 79)%Z -> dst < 4 ->
  exists i, made1 tv1 xl1 (some1 (new_ms_time_zone (k * (15 * minute)) dst)) 153 [tz_spec k; dst] i /\
    acc_ms_time_zone i = Ok (k * (15 * minute))%Z /\ acc_ms_dst i = Ok dst.
Proof. exact ms_time_zone_all. Qed.
Example C38_v1_ms_time_zone_case : new_ms_time_zone (36 * (15 * minute)) 0 = Ok (IE1 153 2 [99; 0]).
Proof. reflexivity. Qed.
Print Assumptions C38_v1_ms_time_zone.
(** [x] Unix seconds *)
Theorem C38_v1_uli_timestamp : forall x frac, (- ntp_unix <= x < 2 ^ 32)%Z -> (0 <= frac < sec)%Z ->
  exists i, made1 tv1 xl1 (some1 (new_uli_timestamp1 ((x + ntp_unix) * sec + frac))) 214 (enc32 (Z.to_N ((x + ntp_unix) mod 2 ^ 32))) i /\
    acc_timestamp1 i = Ok (x mod 2 ^ 32)%Z.
Proof. exact uli_timestamp1_all. Qed.
Example C38_v1_uli_timestamp_case : (do i <- new_uli_timestamp1 ((1546300800 + ntp_unix) * sec); acc_timestamp1 i) = Ok 1546300800%Z.
Proof. vm_compute. reflexivity. Qed.
Print Assumptions C38_v1_uli_timestamp.
Theorem C38_v1_pco : forall proto l, proto < 8 -> Forall container_val_ok l -> (len (pco_octets proto l) < N.to_nat 65536)%nat ->
  exists i, made1 tv1 xl1 (new_pco1 proto (map (fun c => new_container (fst c) (snd c)) l)) 132 (pco_octets proto l) i /\
    acc_pco1 i = Ok (proto, map (fun c => new_container (fst c) (snd c)) l).
Proof. exact pco1_all. Qed.
Example C38_v1_pco_case : exists i, new_pco1 0 [new_container 0x8021 [16; 1; 0; 4]; new_container 13 []] = Ok (Some i) /\
  i1_payload i = [128; 128; 33; 4; 16; 1; 0; 4; 0; 13; 0].
Proof. eexists; split; reflexivity. Qed.
Print Assumptions C38_v1_pco.

(** ** Accessors on any IE, built or parsed *)
(** none of the accessors but AUTN panics, whatever the type and the payload *)
Theorem C38_v1_accessors_total : forall i, Forall (fun a => snd a i <> Panic) accessors1 /\
  (forall t k, acc_flag t i <> Panic /\ is_set1 t k i <> Panic) /\ acc_xres i <> Panic.
Proof. intros i. split; [apply accessors1_safe|]. split; [intros t k; destruct (flags_safe t k i) as (A & B & _); auto|apply (flags_safe 0 0 i)]. Qed.
Example C38_v1_accessors_total_case : List.length accessors1 = 49%nat /\ acc_pco1 (IE1 132 1 [128]) = Ok (0, []) /\ acc_apn1 (IE1 131 1 [5]) = Err EUnexpectedEOF.
Proof. repeat split; reflexivity. Qed.
Print Assumptions C38_v1_accessors_total.
(** an accessor answers only for the types it is named after *)
Theorem C38_v1_accessors_types : forall i, Forall (fun a => snd a i = Ok tt -> In (i1_type i) (snd (fst a))) accessors1.
Proof. exact accessors1_types. Qed.
Example C38_v1_accessors_types_case : acc8 1 (IE1 14 1 [128]) = Err EInvalidType /\ acc8 14 (IE1 14 1 [128]) = Ok 128.
Proof. split; reflexivity. Qed.
Print Assumptions C38_v1_accessors_types.
(** except XRES, which answers nothing for an empty IE of any type *)
Theorem C38_v1_xres_type_refuted : forall t l, acc_xres (IE1 t l []) = Ok [].
Proof. reflexivity. Qed.
Print Assumptions C38_v1_xres_type_refuted.
