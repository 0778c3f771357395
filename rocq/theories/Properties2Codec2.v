(** Properties C31-C33: traffic flow templates, protocol configuration options, indication.
    Specifications: CodecSpec2.v, CodecSpec3.v (layouts), CodecSpec.v (made), V2IESpec.v (wf2). *)
From Coq Require Import String.
From Verif Require Import Base BaseLemmas Utils V2IE V2IESpec V2IEProofs V2Codec V2Tft V2Pco V2Ind
  CodecSpec CodecSpec2 CodecSpec3 V2CodecProofs V2IndProofs PropertiesBase.
From Verif Require V2PcoProofs V2TftProofs.
Open Scope N_scope.
Open Scope list_scope.

(** ** C31 *)
(** no parameters, or an odd number of them: what the encoder announces correctly *)
Definition announced (f : tft) : Prop := tf_params f = [] \/ Nat.odd (List.length (tf_params f)) = true.
Theorem C31_tft_encoding_partial : forall f, body_ok f -> announced f -> tft_marshal f = Ok (tft_octets f).
Proof. exact V2TftProofs.tft_marshal_spec. Qed.
(** what follows the template is ignored, unless parameters are announced: these reach to the end *)
Theorem C31_tft_decoding : forall f rest, body_ok f -> (tf_params f <> [] -> rest = []) ->
  tft_parse (tft_octets f ++ rest) = Ok f.
Proof. exact V2TftProofs.tft_parse_spec. Qed.
(** whatever is accepted is a well-formed template, and so has an encoding that decodes to it *)
Theorem C31_tft_accepted_well_formed : forall b f, bytes_ok b -> tft_parse b = Ok f -> body_ok f.
Proof. exact V2TftProofs.tft_parse_ok. Qed.
Theorem C31_tft_never_panics : forall b, bytes_ok b -> tft_parse b <> Panic.
Proof. exact V2TftProofs.tft_parse_safe. Qed.
Theorem C31_tft_ies_partial : forall g f, body_ok f -> announced f -> (len (tft_octets f) < N.to_nat 65536)%nat ->
  (exists i, made g (new_bearer_tft g (tf_op f) (map Some (tf_filters f)) (tf_ids f) (map Some (tf_params f))) 84 (tft_octets f) i /\ acc_tft g i = Ok f) /\
  (exists i, made g (new_tad g (tf_op f) (map Some (tf_filters f)) (tf_ids f) (map Some (tf_params f))) 85 (tft_octets f) i /\ acc_tft g i = Ok f).
Proof. exact V2TftProofs.tft_all. Qed.
Theorem C31_components : forall t,
  (forall v, v < 256 -> get_u8_comp t (new_u8_comp t v) = Ok v) /\
  (forall v, v < 2 ^ 16 -> get_u16_comp t (new_u16_comp t v) = Ok v) /\
  (forall lo hi, lo < 2 ^ 16 -> hi < 2 ^ 16 -> get_range_comp t (new_range_comp t lo hi) = Ok (lo, hi)) /\
  (forall v, v < 2 ^ 32 -> get_spi_comp (new_spi_comp v) = Ok v) /\
  (forall c m, get_tos_comp (new_tos_comp c m) = Ok (c, m)) /\
  (forall v, v < 2 ^ 24 -> get_flow_label_comp (new_flow_label_comp v) = Ok v) /\
  (forall v, len v = 6%nat -> get_mac_comp t (new_mac_comp t v) = Ok v) /\
  (forall a v m, to4 a = Some v -> len v = 4%nat -> len m = 4%nat -> get_ipv4_comp t (new_ipv4_comp t a m) = Ok (v, m)).
Proof.
  intros t. split; [exact (V2TftProofs.u8_comp_all t)|]. split; [exact (V2TftProofs.u16_comp_all t)|].
  split; [exact (V2TftProofs.range_comp_all t)|]. split; [exact V2TftProofs.spi_comp_all|].
  split; [exact V2TftProofs.tos_comp_all|]. split; [exact V2TftProofs.flow_label_comp_all|].
  split; [exact (V2TftProofs.mac_comp_all t)|exact (V2TftProofs.ipv4_comp_all t)].
Qed.
(** every component constructor of the tables makes a component of the announced size *)
Theorem C31_component_sizes :
  (forall n t v, In (n, t) u8_comps -> v < 256 -> comp_ok (new_u8_comp t v)) /\
  (forall n t v, In (n, t) u16_comps -> v < 2 ^ 16 -> comp_ok (new_u16_comp t v)) /\
  (forall n t lo hi, In (n, t) range_comps -> lo < 2 ^ 16 -> hi < 2 ^ 16 -> comp_ok (new_range_comp t lo hi)) /\
  (forall v, v < 2 ^ 32 -> comp_ok (new_spi_comp v)) /\
  (forall v, v < 2 ^ 24 -> comp_ok (new_flow_label_comp v)) /\
  (forall c m, c < 256 -> m < 256 -> comp_ok (new_tos_comp c m)).
Proof.
  assert (E : forall v, bytes_ok (enc16 v)) by (intros v; repeat constructor; apply mod256_byte).
  assert (E4 : forall v, bytes_ok (enc32 v)) by (intros v; repeat constructor; apply mod256_byte).
  split; [|split; [|split; [|split; [|split]]]].
  - intros n t v H Hv. cbn in H. decompose [or] H; try contradiction;
      match goal with X : _ = (n, t) |- _ => injection X as _ <- end; repeat split; repeat constructor; assumption.
  - intros n t v H Hv. cbn [u16_comps In] in H. decompose [or] H; try contradiction;
      match goal with X : _ = (n, t) |- _ => injection X as _ <- end; (split; [reflexivity|]; split; [apply E|reflexivity]).
  - intros n t lo hi H Hl Hh. cbn [range_comps In] in H. decompose [or] H; try contradiction;
      match goal with X : _ = (n, t) |- _ => injection X as _ <- end;
      (split; [reflexivity|]; split; [apply bytes_ok_app; apply E|reflexivity]).
  - intros v Hv. split; [reflexivity|]. split; [apply E4|reflexivity].
  - intros v Hv. split; [reflexivity|]. split; [repeat constructor; apply mod256_byte|reflexivity].
  - intros c m Hc Hm. repeat split. repeat constructor; assumption.
Qed.
Theorem C31_component_getters_never_panic : forall t c,
  get_u8_comp t c <> Panic /\ get_u16_comp t c <> Panic /\ get_range_comp t c <> Panic /\ get_spi_comp c <> Panic /\
  get_tos_comp c <> Panic /\ get_mac_comp t c <> Panic /\ get_ipv4_comp t c <> Panic /\ get_ipv6_comp c <> Panic /\
  get_flow_label_comp c <> Panic.
Proof. exact V2TftProofs.comp_getters_safe. Qed.
Definition x_filter : pfilter := new_filter 3 5 10 [new_u8_comp 48 17; new_range_comp 81 1000 2000; new_ipv4_comp 16 (Some [10; 0; 0; 1]) [255; 255; 255; 0]].
Definition x_tft : tft := Tft 1 [x_filter; new_filter 1 2 0 []] [] [new_param 3 [9; 9]].
Definition x_del : tft := Tft 5 [] [1; 2; 7] [].
Example C31_example : body_ok x_tft /\ announced x_tft /\ body_ok x_del /\ announced x_del /\
  tft_octets x_tft = [50; 53; 10; 16; 48; 17; 81; 3; 232; 7; 208; 16; 10; 0; 0; 1; 255; 255; 255; 0; 18; 0; 0; 3; 2; 9; 9] /\
  tft_octets x_del = [163; 1; 2; 7] /\ tft_marshal x_del = Ok [163; 1; 2; 7] /\ tft_parse [163; 1; 2] = Err EUnexpectedEOF.
Proof.
  split. { repeat split; try (repeat constructor; fail); try discriminate; cbn; try lia; try (repeat constructor; reflexivity). }
  split; [right; reflexivity|]. split. { repeat split; try (repeat constructor; fail); try discriminate; cbn; try lia; congruence. }
  split; [left; reflexivity|]. vm_compute. repeat split.
Qed.
(** an even number of parameters is encoded without the E bit, and they are lost *)
Theorem C31_even_params_refuted : exists f b, body_ok f /\ List.length (tf_params f) = 2%nat /\ tft_marshal f = Ok b /\
  b <> tft_octets f /\ tft_parse b = Ok (Tft (tf_op f) (tf_filters f) (tf_ids f) []).
Proof.
  exists (Tft 2 [] [] [new_param 1 [7]; new_param 2 [8]]). exists [64; 1; 1; 7; 2; 1; 8].
  split. { repeat split; try (repeat constructor; fail); try discriminate; cbn; lia. }
  split; [reflexivity|]. split; [reflexivity|]. split; [discriminate|reflexivity].
Qed.
(** more than fifteen filters do not fit the four-bit counter *)
Theorem C31_sixteen_filters_refuted : exists f b, Forall filter_ok (tf_filters f) /\ List.length (tf_filters f) = 16%nat /\
  tft_marshal f = Ok b /\ tft_parse b = Ok (Tft (tf_op f) [] [] []).
Proof.
  exists (Tft 1 (repeat (new_filter 0 1 1 []) 16) [] []). eexists.
  split. { apply Forall_forall. intros x H. apply repeat_spec in H. subst x. repeat split; constructor. }
  split; [reflexivity|]. split; vm_compute; reflexivity.
Qed.
(** the IPv6 prefix getters read past the 17 octets their constructor makes and panic *)
Theorem C31_ipv6_prefix_refuted : exists ip c, c = new_ipv6_prefix_comp 33 (Some ip) 64 /\ comp_ok c /\
  get_ipv6_prefix_comp 33 c = Panic.
Proof.
  exists [32; 1; 13; 184; 0; 0; 0; 0; 0; 0; 0; 0; 0; 0; 0; 1]. eexists. split; [reflexivity|].
  split; [|reflexivity]. repeat split. repeat constructor.
Qed.
(** the IPv6 mask comes back without its first octet *)
Theorem C31_ipv6_mask_refuted : exists ip m a m', get_ipv6_comp (new_ipv6_comp 32 (Some ip) m) = Ok (a, m') /\ a = ip /\
  len m = 16%nat /\ m' <> m /\ len m' = 15%nat.
Proof.
  exists [32; 1; 13; 184; 0; 0; 0; 0; 0; 0; 0; 0; 0; 0; 0; 1], (repeat 255 8 ++ repeat 0 8). do 2 eexists.
  split; [vm_compute; reflexivity|]. repeat split. discriminate.
Qed.

(** ** C32 *)
Definition cont (c : N * bytes) : container := new_container (fst c) (snd c).
Theorem C32_pco_encoding : forall ext proto l, proto < 8 -> Forall container_val_ok l ->
  pco_marshal (Pco ext proto (map cont l)) = Ok (pco_octets proto l).
Proof. exact V2PcoProofs.pco_marshal_spec. Qed.
Theorem C32_pco_decoding : forall proto l, proto < 8 -> Forall container_val_ok l ->
  pco_parse (pco_octets proto l) = Ok (Pco 1 proto (map cont l)).
Proof. exact V2PcoProofs.pco_parse_spec. Qed.
(** whatever is decoded with no container cut short is what the payload says *)
Theorem C32_pco_decoding_exact : forall b f, bytes_ok b -> pco_parse b = Ok f ->
  Forall (fun c => ct_length c = N.of_nat (len (ct_contents c))) (pc_opts f) ->
  exists l, Forall container_val_ok l /\ pc_opts f = map cont l /\ pc_proto f < 8 /\
    exists x, b = x :: flat_map (fun c => container_octets (fst c) (snd c)) l /\ pc_proto f = x mod 8 /\ pc_ext f = x / 128.
Proof. exact V2PcoProofs.pco_parse_inv. Qed.
Theorem C32_pco_never_panics : forall b, pco_parse b <> Panic.
Proof. exact V2PcoProofs.pco_parse_safe. Qed.
Theorem C32_pco_ie : forall g proto l, proto < 8 -> Forall container_val_ok l -> (len (pco_octets proto l) < N.to_nat 65536)%nat ->
  exists i, made g (new_pco g proto (map cont l)) 78 (pco_octets proto l) i /\ acc_pco g i = Ok (Pco 1 proto (map cont l)).
Proof. exact V2PcoProofs.pco_all. Qed.
Theorem C32_ppp : forall code id data rest, code < 256 -> id < 256 -> data <> [] -> (4 + len data < N.to_nat 65536)%nat ->
  ppp_marshal (new_ppp code id data) = Ok (ppp_octets code id data) /\
  ppp_parse (ppp_octets code id data ++ rest) = Ok (new_ppp code id data).
Proof. exact V2PcoProofs.ppp_all. Qed.
Theorem C32_pap : forall id pw rest, (len id < 256)%nat -> (len pw < 256)%nat ->
  pap_marshal (new_pap id pw) = Ok (pap_octets id pw) /\ pap_parse (pap_octets id pw ++ rest) = Ok (new_pap id pw).
Proof. exact V2PcoProofs.pap_all. Qed.
Theorem C32_chap : forall v name, (len v < 256)%nat -> (1 <= len v + len name)%nat ->
  chap_marshal (new_chap v name) = Ok (chap_octets v name) /\ chap_parse (chap_octets v name) = Ok (new_chap v name).
Proof. exact V2PcoProofs.chap_all. Qed.
Theorem C32_chap_never_panics : forall b, chap_parse b <> Panic.
Proof. exact V2PcoProofs.chap_parse_safe. Qed.
Theorem C32_ipcp : forall t data rest, data <> [] -> (2 + len data < 256)%nat ->
  ipcp_marshal (new_ipcp t data) = Ok (ipcp_octets t data) /\ ipcp_parse (ipcp_octets t data ++ rest) = Ok (new_ipcp t data).
Proof. exact V2PcoProofs.ipcp_all. Qed.
(** the PPP decoder panics exactly on an announced length below the header's own four octets *)
Theorem C32_ppp_panics_exactly : forall b, bytes_ok b ->
  (ppp_parse b = Panic <-> exists c i n d, b = [c; i; 0; n] ++ d /\ n < 4 /\ d <> []).
Proof. exact V2PcoProofs.ppp_parse_panics. Qed.
Example C32_example : Forall container_val_ok [(13, [8; 8; 8; 8]); (33, []); (32801, ppp_octets 1 0 (ipcp_octets 129 [0; 0; 0; 0]))] /\
  pco_octets 0 [(13, [8; 8; 8; 8]); (33, [])] = [128; 0; 13; 4; 8; 8; 8; 8; 0; 33; 0] /\
  ppp_octets 1 0 (ipcp_octets 129 [0; 0; 0; 0]) = [1; 0; 0; 10; 129; 6; 0; 0; 0; 0] /\
  pco_parse [128; 0; 13; 4; 8; 8; 8; 8; 0; 33; 0] = Ok (Pco 1 0 (map cont [(13, [8; 8; 8; 8]); (33, [])])).
Proof. split; [repeat constructor; cbn; lia|]. vm_compute. repeat split. Qed.
(** PPP, PAP and IPCP decoding panics on a crafted length octet *)
Theorem C32_ppp_family_panics_refuted : exists b1 b2 b3, bytes_ok b1 /\ bytes_ok b2 /\ bytes_ok b3 /\
  ppp_parse b1 = Panic /\ pap_parse b2 = Panic /\ ipcp_parse b3 = Panic.
Proof. exists [1; 0; 0; 3; 9], [1; 65], [129; 1; 0]. repeat split; repeat constructor. Qed.
(** a container announcing more than there is decodes without error, as if it were empty, and
    the bytes that are there are read as further containers *)
Theorem C32_truncated_container_refuted : exists b, bytes_ok b /\
  pco_parse b = Ok (Pco 1 0 [Container 13 4 []; Container 2056 8 []]).
Proof. exists [128; 0; 13; 4; 8; 8; 8]. split; [repeat constructor|reflexivity]. Qed.

(** ** C33 *)
Theorem C33_indication : forall g args, List.length args = 72%nat -> Forall (fun a => a < 2) args ->
  exists i, new_indication g args = Ok i /\ made g (Ok (Some i)) 77 (pack args) i /\
    acc_indication i = Ok (pack args) /\
    new_indication_bits g (map (fun a => 48 + a) args) = Ok (Some i) /\
    new_indication_octets g (pack args) = i /\
    forall n k, nth_error ind_flags k = Some n -> n <> ""%string -> has_ind n i = Some (Ok (nth k args 0 =? 1)).
Proof. exact indication_all. Qed.
(** any payload, however short *)
Theorem C33_flags_of_any_payload : forall n k i, nth_error ind_flags k = Some n -> n <> ""%string -> i2_type i = 77 ->
  has_ind n i = Some (Ok (flag_at k (i2_payload i))).
Proof. exact has_ind_spec. Qed.
Example C33_example : List.length ind_flags = 72%nat /\ nth_error ind_flags 12 = Some "PS"%string /\
  (let args := repeat 0 12 ++ [1] ++ repeat 0 58 ++ [1] in
   List.length args = 72%nat /\ Forall (fun a => a < 2) args /\ pack args = [0; 8; 0; 0; 0; 0; 0; 0; 1]) /\
  flag_at 12 [0; 8] = true /\ flag_at 71 [0; 8] = false.
Proof. split; [reflexivity|]. split; [reflexivity|]. split; [|split; reflexivity]. cbv zeta. split; [reflexivity|]. split; [repeat constructor|reflexivity]. Qed.

Print Assumptions C31_tft_encoding_partial.
Print Assumptions C31_tft_decoding.
Print Assumptions C31_tft_accepted_well_formed.
Print Assumptions C31_tft_never_panics.
Print Assumptions C31_tft_ies_partial.
Print Assumptions C31_components.
Print Assumptions C31_component_sizes.
Print Assumptions C31_component_getters_never_panic.
Print Assumptions C31_even_params_refuted.
Print Assumptions C31_sixteen_filters_refuted.
Print Assumptions C31_ipv6_prefix_refuted.
Print Assumptions C31_ipv6_mask_refuted.
Print Assumptions C32_pco_encoding.
Print Assumptions C32_pco_decoding.
Print Assumptions C32_pco_decoding_exact.
Print Assumptions C32_pco_never_panics.
Print Assumptions C32_pco_ie.
Print Assumptions C32_ppp.
Print Assumptions C32_pap.
Print Assumptions C32_chap.
Print Assumptions C32_chap_never_panics.
Print Assumptions C32_ipcp.
Print Assumptions C32_ppp_panics_exactly.
Print Assumptions C32_ppp_family_panics_refuted.
Print Assumptions C32_truncated_container_refuted.
Print Assumptions C33_indication.
Print Assumptions C33_flags_of_any_payload.
