(** Properties C27-C29, C34, C55, C56: what typed GTPv2 IEs hold and what their accessors
    return.  Specifications: CodecSpec.v (layouts), V2IESpec.v (wf2). *)
From Coq Require Import String.
From Verif Require Import Base BaseLemmas Utils UtilsProofs V2IE V2IESpec V2IEProofs V2Codec CodecSpec
  V2CodecProofs V2CodecProofs2 V2CodecProofs3 V2CodecProofs4 V2CodecProofs5 PropertiesBase.
Open Scope N_scope.
Open Scope list_scope.

Definition x_v4 : bytes := [192; 0; 2; 1].
Definition x_v6 : bytes := [32; 1; 13; 184; 0; 0; 0; 0; 0; 0; 0; 0; 0; 0; 0; 1].
Lemma x_v4_ok : ip_arg_ok (Some x_v4).
Proof. intros b E. assert (b = x_v4) as -> by congruence. repeat constructor. Qed.
Lemma x_v6_ok : ip_arg_ok (Some x_v6).
Proof. intros b E. assert (b = x_v6) as -> by congruence. repeat constructor. Qed.

(** ** C27: F-TEID *)
Theorem C27_fteid_codec : exact_codec fteid_ok
  (fun f => fteid_octets (ft_if f) (ft_teid f) (ft_v4 f) (ft_v6 f)) no_spare fteid_marshal fteid_parse.
Proof. exact fteid_codec. Qed.
Theorem C27_fteid_accessors : forall g ift teid v4 v6,
  ift < 64 -> teid < 2 ^ 32 -> ip_arg_ok v4 -> ip_arg_ok v6 ->
  exists i,
  made g (new_fteid g ift teid v4 v6) 87 (fteid_octets ift teid (to4 v4) (to16 v6)) i /\
  (exists f, acc_fteid i = Ok f /\ ft_if f = ift /\ ft_teid f = teid /\ ft_v4 f = to4 v4 /\ ft_v6 f = to16 v6) /\
  acc_if_type i = Ok ift /\ acc_teid i = Ok teid /\
  has_ipv4 i = present (to4 v4) /\ has_ipv6 i = present (to16 v6) /\
  (forall a, to4 v4 = Some a -> acc_ip i = Ok (Some a) /\ acc_ipv4 i = Ok a) /\
  (forall a, to16 v6 = Some a -> acc_ipv6 i = Ok a) /\
  (forall a, to4 v4 = None -> to16 v6 = Some a -> acc_ip i = Ok (Some a)) /\
  (to16 v6 = None -> acc_ipv6 i = Err EIEValueNotFound) /\
  (to4 v4 = None -> to16 v6 = None -> acc_ip i = Err EIEValueNotFound /\ acc_ipv4 i = Err EIEValueNotFound) /\
  (to4 v4 <> None \/ to16 v6 <> None -> acc_gre_key i = Ok teid).
Proof. exact fteid_all. Qed.
Example C27_example : ip_arg_ok (Some x_v4) /\ ip_arg_ok (Some x_v6) /\
  to4 (Some x_v4) = Some x_v4 /\ to16 (Some x_v6) = Some x_v6 /\
  fteid_octets 10 305419896 (Some x_v4) None = [138; 18; 52; 86; 120; 192; 0; 2; 1] /\
  fteid_parse [138; 18; 52; 86; 120; 192; 0; 2; 1] = Ok (FTeid 128 10 305419896 (Some x_v4) None) /\
  (** what the flags announce must be there *)
  fteid_parse [202; 18; 52; 86; 120; 192; 0; 2; 1] = Err EUnexpectedEOF.
Proof. split; [exact x_v4_ok|]. split; [exact x_v6_ok|]. vm_compute. repeat split. Qed.
(** GREKey on an F-TEID without address fails although the key is there. *)
Theorem C27_gre_key_without_address_refuted : exists g i, made g (new_fteid g 3 7 None None) 87 (fteid_octets 3 7 None None) i /\
  acc_teid i = Ok 7 /\ acc_gre_key i = Err EUnexpectedEOF.
Proof.
  exists dg. destruct (fteid_all dg 3 7 None None) as (i & M & _ & _ & T & _); try reflexivity; try discriminate.
  exists i. split; [exact M|]. split; [exact T|]. destruct M as (_ & Et & _ & Ep & _).
  unfold acc_gre_key. rewrite Et, Ep. reflexivity.
Qed.

(** ** C28: PAA and IP address *)
Theorem C28_paa_codec : exact_codec paa_ok paa_octets (clear_first 7) paa_marshal paa_parse.
Proof. exact paa_codec. Qed.
Theorem C28_paa_v4 : forall g ip v prefix, ip_arg_ok ip -> to4 ip = Some v ->
  exists i, made g (new_paa g ip prefix) 79 ([1] ++ v) i /\
    acc_ip i = Ok (Some v) /\ acc_ipv4 i = Ok v /\ acc_ipv6 i = Err EIEValueNotFound /\ (g 79 = false -> acc_pdn_type g i = Ok 1).
Proof. exact paa_v4_all. Qed.
Theorem C28_paa_v6 : forall g ip v prefix, ip_arg_ok ip -> to4 ip = None -> to16 ip = Some v -> prefix < 256 ->
  exists i, made g (new_paa g ip prefix) 79 ([2] ++ [prefix] ++ v) i /\
    acc_ip i = Ok (Some v) /\ acc_ipv6 i = Ok v /\ (g 79 = false -> acc_pdn_type g i = Ok 2).
Proof. exact paa_v6_all. Qed.
Theorem C28_paa_dual : forall g ip4 ip6 v4 v6 prefix, ip_arg_ok ip4 -> ip_arg_ok ip6 ->
  to4 ip4 = Some v4 -> to16 ip6 = Some v6 -> prefix < 256 ->
  exists i, made g (new_paa_dual g ip4 ip6 prefix) 79 ([3] ++ [prefix] ++ v6 ++ v4) i /\
    acc_ip i = Ok (Some v4) /\ acc_ipv4 i = Ok v4 /\ acc_ipv6 i = Ok v6 /\ (g 79 = false -> acc_pdn_type g i = Ok 3).
Proof. exact paa_dual_all. Qed.
Theorem C28_ip_address : forall g ip, ip_arg_ok ip ->
  (forall v, to4 ip = Some v -> made g (Ok (Some (new_ip_address g ip))) 74 v (new_ip_address g ip) /\
     acc_ip (new_ip_address g ip) = Ok (Some v) /\ acc_ipv4 (new_ip_address g ip) = Ok v) /\
  (forall v, to4 ip = None -> to16 ip = Some v -> made g (Ok (Some (new_ip_address g ip))) 74 v (new_ip_address g ip) /\
     acc_ip (new_ip_address g ip) = Ok (Some v) /\ acc_ipv6 (new_ip_address g ip) = Ok v).
Proof. exact ip_address_all. Qed.
Example C28_example : to4 (Some x_v6) = None /\ to16 (Some x_v6) = Some x_v6 /\ to4 (Some x_v4) = Some x_v4 /\ dg 79 = false /\
  paa_parse ([3; 64] ++ x_v6 ++ x_v4) = Ok (Paa 3 (Some x_v4) 64 (Some x_v6)) /\
  paa_parse ([3; 64] ++ x_v6) = Err EUnexpectedEOF /\
  (** an IPv4 address in its 16-octet form is stored in four octets *)
  to4 (Some ([0;0;0;0;0;0;0;0;0;0;255;255] ++ x_v4)) = Some x_v4.
Proof. vm_compute. repeat split. Qed.

(** ** C29: AMBR, ARP, Bearer QoS, Flow QoS *)
Theorem C29_qos_codecs :
  exact_codec ambr_ok ambr_octets no_spare ambr_marshal ambr_parse /\
  exact_codec bqos_ok bqos_octets no_spare bqos_marshal bqos_parse /\
  exact_codec fqos_ok fqos_octets no_spare fqos_marshal fqos_parse.
Proof. split; [exact ambr_codec|]. split; [exact bqos_codec|exact fqos_codec]. Qed.
Theorem C29_ambr : forall g up down, up < 2 ^ 32 -> down < 2 ^ 32 ->
  exists i, made g (new_ambr g up down) 72 (enc32 up ++ enc32 down) i /\
    acc_ambr i = Ok (up, down) /\ acc_ambr_up i = Ok up /\ acc_ambr_down i = Ok down.
Proof. exact ambr_all. Qed.
Theorem C29_arp : forall g pci pl pvi, g 155 = false -> pci < 2 -> pl < 16 -> pvi < 2 ->
  let i := new_arp g pci pl pvi in
  made g (Ok (Some i)) 155 [arp_spec pci pl pvi] i /\
  acc_priority_level g i = Ok pl /\ has_pci g i = (pci =? 1) /\ has_pvi g i = (pvi =? 1).
Proof. exact arp_all. Qed.
Theorem C29_bearer_qos : forall g pci pl pvi qci umbr dmbr ugbr dgbr,
  g 80 = false -> pci < 2 -> pl < 16 -> pvi < 2 -> qci < 256 ->
  umbr < 2 ^ 40 -> dmbr < 2 ^ 40 -> ugbr < 2 ^ 40 -> dgbr < 2 ^ 40 ->
  let f := BQos (arp_spec pci pl pvi) qci umbr dmbr ugbr dgbr in
  exists i, made g (new_bqos g pci pl pvi qci umbr dmbr ugbr dgbr) 80 (bqos_octets f) i /\
    acc_bqos g i = Ok f /\ acc_priority_level g i = Ok pl /\ acc_qci g i = Ok qci /\
    acc_umbr i = Ok umbr /\ acc_dmbr i = Ok dmbr /\ acc_ugbr i = Ok ugbr /\ acc_dgbr i = Ok dgbr.
Proof. exact bqos_all. Qed.
Theorem C29_flow_qos : forall g qci umbr dmbr ugbr dgbr,
  g 81 = false -> qci < 256 -> umbr < 2 ^ 40 -> dmbr < 2 ^ 40 -> ugbr < 2 ^ 40 -> dgbr < 2 ^ 40 ->
  let f := FQos qci umbr dmbr ugbr dgbr in
  exists i, made g (new_fqos g qci umbr dmbr ugbr dgbr) 81 (fqos_octets f) i /\
    acc_fqos i = Ok f /\ acc_qci g i = Ok qci /\
    acc_dmbr i = Ok dmbr /\ acc_ugbr i = Ok ugbr /\ acc_dgbr i = Ok dgbr.
Proof. exact fqos_all. Qed.
Example C29_example : dg 80 = false /\ dg 81 = false /\ dg 155 = false /\
  acc_umbr (new2 dg 80 0 (bqos_octets (BQos (arp_spec 1 9 0) 5 1099511627775 1 2 3))) = Ok 1099511627775.
Proof. vm_compute. repeat split. Qed.
(** MBRForUplink on a Flow QoS IE loses the value. *)
Theorem C29_flow_qos_mbr_uplink_refuted : exists g i, made g (new_fqos g 5 1000 2000 3000 4000) 81
    (fqos_octets (FQos 5 1000 2000 3000 4000)) i /\ acc_umbr i = Ok 0.
Proof.
  exists dg. destruct (fqos_all dg 5 1000 2000 3000 4000) as (i & M & _); try reflexivity.
  exists i. split; [exact M|]. destruct M as (_ & Et & _ & Ep & _).
  unfold acc_umbr, rate. rewrite Et, Ep. vm_compute. reflexivity.
Qed.

(** ** C34: Cause *)
Theorem C34_cause : forall g cause pce bce cs off,
  g 2 = false -> cause < 256 -> pce < 2 -> bce < 2 -> cs < 2 -> (forall t, off = Some t -> t < 256) ->
  let i := new_cause g cause pce bce cs off in
  made g (Ok (Some i)) 2 (cause_octets cause pce bce cs off) i /\
  acc_cause g i = Ok cause /\ acc_cause_flags g i = Ok (4 * pce + 2 * bce + cs) /\
  has_pce g i = (pce =? 1) /\ is_bearer_context_ie_error i = (bce =? 1) /\
  match off with
  | None => acc_offending g i = Err EUnexpectedEOF
  | Some t => acc_offending g i = Ok (IE2 t 0 0 [] [])
  end.
Proof. exact cause_all. Qed.
Example C34_example : dg 2 = false /\ i2_payload (new_cause dg 70 1 0 1 (Some 93)) = [70; 5; 93; 0; 0; 0].
Proof. vm_compute. repeat split. Qed.
(** HasCS reads the BCE bit and HasBCE the CS bit; IsRemoteCause reads PCE and
    IsPDNConnectionIEError reads CS. *)
Theorem C34_cause_flags_refuted : exists g,
  (has_cs g (new_cause g 64 0 1 0 None) = true /\ has_bce g (new_cause g 64 0 1 0 None) = false) /\
  (has_cs g (new_cause g 64 0 0 1 None) = false /\ has_bce g (new_cause g 64 0 0 1 None) = true) /\
  (is_remote_cause (new_cause g 64 0 0 1 None) = false /\ is_remote_cause (new_cause g 64 1 0 0 None) = true) /\
  (is_pdn_connection_ie_error (new_cause g 64 1 0 0 None) = false /\ is_pdn_connection_ie_error (new_cause g 64 0 0 1 None) = true).
Proof. exists dg. vm_compute. repeat split. Qed.

(** ** C55: accessors applied to a Bearer Context *)
(** the first child of the given type *)
Definition child_of (t : N) (i : ie2) : option ie2 := find (fun c => i2_type c =? t) (i2_children i).
(** An accessor for type [t] applied to a received (well-formed, non-empty) Bearer Context
    gives what it gives for the first child of type [t]. *)
Definition through_context (g : N -> bool) {A} (t : N) (acc : ie2 -> res A) : Prop :=
  forall i, wf2 g i -> i2_type i = 93 -> i2_children i <> [] ->
  acc i = match child_of t i with Some c => acc c | None => Err EIENotFound end.
Lemma through_via g A t (f : ie2 -> res A) : g 93 = true -> t <> 93 -> through_context g t (via_context g t f).
Proof.
  intros Hg Hn i Hw Ht Hc. rewrite via_context_wf by assumption. unfold child_of.
  destruct (find (fun c => i2_type c =? t) (i2_children i)) as [c|] eqn:E; [|reflexivity].
  apply find_some in E. destruct E as [_ E]. unfold via_context. rewrite E. reflexivity.
Qed.
Theorem C55_bearer_context_lookup : forall g, g 93 = true ->
  through_context g 73 (acc_ebi g) /\ through_context g 94 (acc_charging_id g) /\
  through_context g 97 (acc_bearer_flags g) /\ through_context g 2 (acc_cause g) /\
  through_context g 80 (acc_bqos g) /\ through_context g 172 (acc_ran_nas_cause g).
Proof. intros g Hg. repeat split; apply through_via; (exact Hg || discriminate). Qed.
Example C55_example : wf2 dg sample_grouped /\ dg 93 = true /\ i2_type sample_grouped = 93 /\ i2_children sample_grouped <> [] /\
  child_of 73 sample_grouped = Some sample_child1 /\ acc_ebi dg sample_grouped = Ok 5 /\ acc_cause dg sample_grouped = Err EIENotFound.
Proof. split; [exact sample_grouped_wf|]. vm_compute. repeat split. discriminate. Qed.

(** CauseFlags on a Bearer Context returns the cause value instead of the flags. *)
Definition x_bc_cause : ie2 := IE2 93 6 0 [2; 0; 2; 0; 16; 4] [IE2 2 2 0 [16; 4] []].
Theorem C55_cause_flags_refuted : exists g i, wf2 g i /\ g 93 = true /\ i2_type i = 93 /\
  child_of 2 i = Some (IE2 2 2 0 [16; 4] []) /\ acc_cause_flags g (IE2 2 2 0 [16; 4] []) = Ok 4 /\ acc_cause_flags g i = Ok 16.
Proof.
  exists dg, x_bc_cause. split.
  - apply wf2_grouped; try reflexivity. repeat constructor; reflexivity.
  - vm_compute. repeat split.
Qed.

(** ** C56: one-value IEs, flag octets, data forwarding, private extension, RAN/NAS cause *)
Theorem C56_one_value : forall g,
  Forall (fun e => In e ie_type_code /\ forall v, g (snd e) = false -> v < 256 ->
     let i := new_uint8 g (snd e) v in made g (Ok (Some i)) (snd e) [v] i /\ acc_u8 g (snd e) i = Ok v) u8_ies /\
  Forall (fun e => In e ie_type_code /\ forall v, g (snd e) = false -> v < 2 ^ 16 ->
     let i := new_uint16 g (snd e) v in made g (Ok (Some i)) (snd e) (enc16 v) i /\ acc_u16 g (snd e) i = Ok v) u16_ies /\
  Forall (fun e => In e ie_type_code /\ forall v, g (snd e) = false -> v < 2 ^ 32 ->
     let i := new_uint32 g (snd e) v in made g (Ok (Some i)) (snd e) (enc32 v) i /\ acc_u32 g (snd e) i = Ok v) u32_ies /\
  Forall (fun e => In e ie_type_code /\ forall v, g (snd e) = false -> bytes_ok v -> (len v < N.to_nat 65536)%nat ->
     let i := new_string g (snd e) v in made g (Ok (Some i)) (snd e) v i /\ acc_string g (snd e) i = Ok v) string_ies.
Proof. exact one_value_all. Qed.
Theorem C56_ebi : forall g e, g 73 = false -> e < 16 ->
  let i := new_ebi g e in made g (Ok (Some i)) 73 [e] i /\ acc_ebi g i = Ok e.
Proof. exact ebi_all. Qed.
Theorem C56_charging_id : forall g v, g 94 = false -> v < 2 ^ 32 ->
  let i := new_charging_id g v in made g (Ok (Some i)) 94 (enc32 v) i /\ acc_charging_id g i = Ok v.
Proof. exact charging_id_all. Qed.
Theorem C56_csg_id : forall g v, g 147 = false -> v < 2 ^ 27 ->
  let i := new_csg_id g v in made g (Ok (Some i)) 147 (enc32 v) i /\ acc_csg_id g i = Ok v.
Proof. exact csg_id_all. Qed.
Theorem C56_ptmsi_signature : forall g v, v < 2 ^ 24 ->
  let i := new_ptmsi_sig g v in made g (Ok (Some i)) 112 (enc24 v) i /\ acc_ptmsi_sig i = Ok v.
Proof. exact ptmsi_sig_all. Qed.
Theorem C56_bearer_flags : forall g asi vind vb ppc, g 97 = false -> asi < 2 -> vind < 2 -> vb < 2 -> ppc < 2 ->
  let i := new_bearer_flags g asi vind vb ppc in
  made g (Ok (Some i)) 97 [bearer_flags_octet asi vind vb ppc] i /\
  has_asi g i = (asi =? 1) /\ has_vind g i = (vind =? 1) /\ has_vb g i = (vb =? 1) /\ has_ppc g i = (ppc =? 1).
Proof. exact bearer_flags_all. Qed.
Theorem C56_mbms_flags : forall g lmri msri, g 171 = false -> lmri < 2 -> msri < 2 ->
  let i := new_mbms_flags g lmri msri in
  made g (Ok (Some i)) 171 [2 * lmri + msri] i /\ has_lmri g i = (lmri =? 1) /\ has_msri g i = (msri =? 1).
Proof. exact mbms_flags_all. Qed.
Theorem C56_node_features : forall g k v, g 152 = false -> v < 256 ->
  has_node_feature g k (new_uint8 g 152 v) = N.testbit v k.
Proof. exact node_feature_spec. Qed.
Theorem C56_private_extension : forall g id v, id < 2 ^ 16 -> bytes_ok v -> v <> [] -> (len v < N.to_nat 65534)%nat ->
  exists i, new_private_extension id v = Ok i /\
    made g (Ok (Some i)) 255 (enc16 id ++ v) i /\ acc_enterprise_id i = Ok id /\ acc_private_extension i = Ok v.
Proof. exact private_extension_all. Qed.
Theorem C56_ran_nas_cause : forall g f, ran_nas_ok f -> (len (snd f) < N.to_nat 65535)%nat ->
  exists i, made g (new_ran_nas_cause g (fst (fst f)) (snd (fst f)) (snd f)) 172 (ran_nas_octets f) i /\
    acc_ran_nas_cause g i = Ok f.
Proof. exact ran_nas_all. Qed.
Theorem C56_s1u_data_forwarding : forall g ebi ip a teid, ip_arg_ok ip -> ebi < 16 -> teid < 2 ^ 32 ->
  (to4 ip = Some a ->
   exists i, made g (new_s1udf g ebi ip teid) 91 ([ebi; 4] ++ a ++ enc32 teid) i /\
    s1udf_parse (i2_payload i) = Ok (S1udf ebi 4 a teid) /\ acc_ip i = Ok (Some a) /\ acc_ipv4 i = Ok a) /\
  (to4 ip = None -> to16 ip = Some a ->
   exists i, made g (new_s1udf g ebi ip teid) 91 ([ebi; 16] ++ a ++ enc32 teid) i /\
    s1udf_parse (i2_payload i) = Ok (S1udf ebi 16 a teid) /\ acc_ip i = Ok (Some a) /\ acc_ipv6 i = Ok a).
Proof. intros g ebi ip a teid H1 H2 H3. split; [apply s1udf_v4_all; assumption|apply s1udf_v6_all; assumption]. Qed.
Theorem C56_s103_data_forwarding : forall g ip a key ebis, ip_arg_ok ip -> key < 2 ^ 32 ->
  Forall (fun e => e < 16) ebis -> (len ebis < 256)%nat ->
  (to4 ip = Some a ->
   exists i, made g (new_s103 g ip key ebis) 90 ([4] ++ a ++ enc32 key ++ [N.of_nat (len ebis)] ++ ebis) i /\
    s103_parse (i2_payload i) = Ok (S103 4 a key (N.of_nat (len ebis)) ebis) /\
    acc_ip i = Ok (Some a) /\ acc_ipv4 i = Ok a /\ acc_gre_key i = Ok key /\ acc_ebis i = Ok ebis) /\
  (to4 ip = None -> to16 ip = Some a ->
   exists i, made g (new_s103 g ip key ebis) 90 ([16] ++ a ++ enc32 key ++ [N.of_nat (len ebis)] ++ ebis) i /\
    s103_parse (i2_payload i) = Ok (S103 16 a key (N.of_nat (len ebis)) ebis) /\
    acc_ip i = Ok (Some a) /\ acc_ipv6 i = Ok a /\ acc_gre_key i = Ok key /\ acc_ebis i = Ok ebis).
Proof. intros g ip a key ebis H1 H2 H3 H4. split; [apply s103_v4_all; assumption|apply s103_v6_all; assumption]. Qed.
Theorem C56_s1u_codec : exact_codec s1udf_ok s1udf_octets (clear_first 15) s1udf_marshal s1udf_parse.
Proof. exact s1udf_codec. Qed.
Example C56_example : Forall (fun e => dg (snd e) = false) (u8_ies ++ u16_ies ++ u32_ies ++ string_ies) /\
  dg 73 = false /\ dg 94 = false /\ dg 147 = false /\ dg 97 = false /\ dg 171 = false /\ dg 152 = false /\
  ran_nas_ok (3, 2, [16; 17]) /\ ip_arg_ok (Some x_v4) /\ to4 (Some x_v4) = Some x_v4 /\
  ip_arg_ok (Some x_v6) /\ to4 (Some x_v6) = None /\ to16 (Some x_v6) = Some x_v6.
Proof.
  split; [repeat constructor|]. repeat (split; [reflexivity|]).
  split; [unfold ran_nas_ok; cbn; repeat split; try reflexivity; [repeat constructor|discriminate]|].
  split; [exact x_v4_ok|]. split; [reflexivity|]. split; [exact x_v6_ok|]. split; reflexivity.
Qed.
(** TEID() on an S1-U data forwarding IE looks at the EBI octet for the address length. *)
Theorem C56_s1u_teid_refuted : exists g i, made g (new_s1udf g 5 (Some x_v4) 7) 91 ([5; 4] ++ x_v4 ++ enc32 7) i /\
  acc_teid i = Err EMalformed.
Proof.
  exists dg. destruct (s1udf_v4_all dg 5 (Some x_v4) x_v4 7 x_v4_ok) as (i & M & _); try reflexivity.
  exists i. split; [exact M|]. destruct M as (_ & Et & _ & Ep & _). unfold acc_teid. rewrite Et, Ep. reflexivity.
Qed.
(** ActivityStatusIndicator, VSRVCC and VoiceBearer, and LocalMBMSBearerContextRelease, are
    false even when their bit is set. *)
Theorem C56_named_flags_refuted : exists g,
  activity_status_indicator g (new_bearer_flags g 1 0 0 0) = false /\ vsrvcc g (new_bearer_flags g 0 1 0 0) = false /\
  voice_bearer g (new_bearer_flags g 0 0 1 0) = false /\ local_mbms_release g (new_mbms_flags g 1 0) = false.
Proof. exists dg. vm_compute. repeat split. Qed.
(** An empty private extension or RAN/NAS cause cannot be read back. *)
Theorem C56_empty_value_refuted : exists g i j, new_private_extension 10415 [] = Ok i /\ acc_private_extension i = Err EUnexpectedEOF /\
  new_ran_nas_cause g 3 2 [] = Ok (Some j) /\ acc_ran_nas_cause g j = Err EUnexpectedEOF.
Proof. exists dg. eexists. eexists. repeat split. Qed.
(** More than 255 EBIs make NewS103PDNDataForwardingInfo panic. *)
Theorem C56_s103_many_ebis_refuted : exists g ebis, new_s103 g (Some x_v4) 7 ebis = Panic.
Proof. exists dg, (repeat 5 (N.to_nat 256)). vm_compute. reflexivity. Qed.
(** Paging and service information: the flags are read from the EBI octet, so the paging
    policy indication is lost or invented. *)
Theorem C56_paging_refuted : exists g i j,
  new_pasi g 6 1 9 = Ok (Some i) /\ acc_ppi i = Err EIEValueNotFound /\
  new_pasi g 5 0 0 = Ok (Some j) /\ acc_pasi j = Err EUnexpectedEOF.
Proof. exists dg. eexists. eexists. repeat split. Qed.

Print Assumptions C27_fteid_codec.
Print Assumptions C27_fteid_accessors.
Print Assumptions C28_paa_codec.
Print Assumptions C28_paa_dual.
Print Assumptions C29_bearer_qos.
Print Assumptions C34_cause.
Print Assumptions C55_bearer_context_lookup.
Print Assumptions C56_one_value.
Print Assumptions C56_s103_data_forwarding.
