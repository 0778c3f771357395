(** Properties C05-C07, C10, C21-C26 for utils, the GTPv2 IE and the GTPv2 header.
    Specifications: Spec.v, V2IESpec.v (wire2, wf2). *)
From Verif Require Import Base BaseLemmas Utils UtilsProofs V2IE V2IESpec V2IEProofs V2Header V2HeaderProofs Spec V2EditProofs.

Definition dg := default_grouped.
(** a bearer context holding an EBI and an F-TEID-like IE *)
Definition sample_child1 : ie2 := IE2 73 1 0 [5] [].
Definition sample_child2 : ie2 := IE2 87 3 1 [1; 2; 3] [].
Definition sample_grouped : ie2 :=
  IE2 93 12 0 [73; 0; 1; 0; 5; 87; 0; 3; 1; 1; 2; 3] [sample_child1; sample_child2].
Lemma sample_grouped_wf : wf2 dg sample_grouped.
Proof.
  apply wf2_grouped; try reflexivity. repeat constructor; try reflexivity.
Qed.

(** ** C05 (v2) *)
Theorem C05_v2_multi_total : forall g b, bytes_ok b -> multi2 g b <> Panic.
Proof. exact multi2_safe. Qed.
Theorem C05_v2_multi_consumes_all : forall g b ies, bytes_ok b -> multi2 g b = Ok ies ->
  b = flat_map (wire2 g) ies.
Proof. intros g b ies Hb H. exact (proj2 (multi2_inv g b ies Hb H)). Qed.
Example C05_v2_example : multi2 dg (wire2 dg sample_grouped ++ wire2 dg sample_child1) = Ok [sample_grouped; sample_child1].
Proof. vm_compute. reflexivity. Qed.
(** the parser does reject: a truncated IE *)
Example C05_v2_rejects : multi2 dg [73; 0; 2; 0; 5] = Err EInvalidLength.
Proof. vm_compute. reflexivity. Qed.

(** ** C06 *)
Theorem C06_v2_ie_roundtrip : forall g i rest, wf2 g i ->
  marshal2 g i = Ok (wire2 g i) /\ len (wire2 g i) = mlen2 g i /\ parse2 g (wire2 g i ++ rest) = Ok i.
Proof.
  intros g i rest H. split; [apply marshal2_ok|]. split; [apply len_wire|]. apply parse2_wire, H.
Qed.
Theorem C06_v2_ie_list_roundtrip : forall g ies, Forall (wf2 g) ies -> multi2 g (flat_map (wire2 g) ies) = Ok ies.
Proof. exact multi2_wire. Qed.
Theorem C06_v2_new_consistent : forall g t ins data, g t = false -> t < 256 -> bytes_ok data ->
  (len data < N.to_nat 65536)%nat ->
  wf2 g (new2 g t ins data) /\ i2_type (new2 g t ins data) = t /\ i2_payload (new2 g t ins data) = data
  /\ i2_instance (new2 g t ins data) = ins mod 16.
Proof.
  intros. split; [apply new2_wf; assumption|]. split; [reflexivity|]. split; [reflexivity|].
  rewrite inst_mod. cbn [new2 set_length2 i2_inst]. change 15 with (N.ones 4). rewrite N.land_ones. apply N.mod_mod. discriminate.
Qed.
Theorem C06_v2_new_grouped_consistent : forall g t ies, g t = true -> t < 256 ->
  let cs := flat_map (fun o => match o with Some x => [x] | None => [] end) ies in
  Forall (wf2 g) cs -> N.of_nat (len (flat_map (wire2 g) cs)) < 65536 ->
  exists i, new_grouped g t ies = Ok (Some i) /\ wf2 g i /\ i2_children i = cs /\ i2_type i = t.
Proof.
  intros g t ies Hg Ht cs Hf Hl. rewrite new_grouped_ok. eexists. split; [reflexivity|].
  split; [|split; reflexivity]. apply wf2_grouped; auto; try reflexivity.
  - unfold u16. apply N.mod_lt. discriminate.
  - unfold u16. rewrite N.mod_small by exact Hl. apply Nnat.Nat2N.id.
Qed.
Example C06_example : wf2 dg sample_grouped /\ marshal2 dg sample_grouped
  = Ok [93; 0; 12; 0; 73; 0; 1; 0; 5; 87; 0; 3; 1; 1; 2; 3].
Proof. split; [exact sample_grouped_wf|vm_compute; reflexivity]. Qed.
(** New with a grouped type stores no children: Marshal then drops the payload. *)
Theorem C06_new_with_grouped_type_refuted : exists t data b,
  marshal2 dg (new2 dg t 0 data) = Ok b /\ i2_length (new2 dg t 0 data) = 5 /\ len b = 4%nat
  /\ parse2 dg b = Err EInvalidLength.
Proof. exists 93, [73; 0; 1; 0; 5]. eexists. vm_compute. repeat split; reflexivity. Qed.

(** ** C07 *)
Theorem C07_v2_parse_marshal_exact : forall g b i, bytes_ok b -> parse2 g b = Ok i ->
  exists w rest, marshal2 g i = Ok w /\ b = w ++ rest /\ len w = (4 + N.to_nat (i2_length i))%nat.
Proof.
  intros g b i Hb H. destruct (parse2_inv g b i Hb H) as [W [q E]].
  exists (wire2 g i), q. split; [apply marshal2_ok|]. split; [exact E|].
  rewrite len_wire. destruct (wf_mlen g i W) as [-> _]. destruct i as [t l n p c]. apply wf_inv in W.
  cbn [i2_payload i2_length]. destruct W as (_&_&_&->&_). reflexivity.
Qed.
Example C07_example : parse2 dg [93; 0; 12; 0; 73; 0; 1; 0; 5; 87; 0; 3; 1; 1; 2; 3; 255; 255] = Ok sample_grouped.
Proof. vm_compute. reflexivity. Qed.

(** ** C10 *)
Theorem C10_v2_header_roundtrip : forall h rest, h2_wf h -> (12 <= h2_mlen h)%nat ->
  h2_marshal h = Ok (h2_wire h) /\ len (h2_wire h) = h2_mlen h /\ h2_parse (h2_wire h ++ rest) = Ok h.
Proof.
  intros h rest W H. split; [apply h2_marshal_ok|]. split; [apply h2_wire_len|]. apply h2_parse_wire; assumption.
Qed.
(** NewHeader and SetLength produce such headers *)
Theorem C10_v2_new_header_consistent : forall flags t teid seq p,
  flags < 256 -> t < 256 -> teid < 4294967296 -> seq < 16777216 -> bytes_ok p ->
  (N.testbit flags 3 = false -> teid = 0) ->
  N.of_nat (h2_mlen (new_hdr2 flags t teid seq p)) < 65536 ->
  h2_wf (new_hdr2 flags t teid seq p).
Proof.
  intros flags t teid seq p Hf Ht Hte Hs Hp Hn Hm.
  constructor; try assumption.
  - unfold h2_has_teid, h2_has_teid_f. cbn. intros E. apply Hn. rewrite N.testbit_eqb.
    rewrite N.shiftr_div_pow2 in E. change 1 with (N.ones 1) in E at 1. rewrite N.land_ones in E. exact E.
  - reflexivity.
  - exact (h2_set_length_exact (Hdr2 flags t 0 teid seq 0 p) Hm).
Qed.
Theorem C10_v2_header_parse_total : forall b, bytes_ok b -> h2_parse b <> Panic.
Proof. exact h2_parse_safe. Qed.
Example C10_example : h2_wf (new_hdr2 72 32 305419896 66051 [1; 2; 3]) /\
  h2_marshal (new_hdr2 72 32 305419896 66051 [1; 2; 3]) = Ok [72; 32; 0; 11; 18; 52; 86; 120; 1; 2; 3; 0; 1; 2; 3].
Proof.
  split; [|vm_compute; reflexivity].
  apply C10_v2_new_header_consistent; try reflexivity; try discriminate. repeat constructor.
Qed.
(** A header without TEID and with fewer than four payload bytes cannot be parsed back. *)
Theorem C10_short_header_refuted : exists h b, h2_wf h /\ h2_marshal h = Ok b /\ h2_parse b = Err ETooShortToParse.
Proof.
  exists (new_hdr2 64 1 0 5 []). eexists. split; [|vm_compute; split; reflexivity].
  apply C10_v2_new_header_consistent; try reflexivity; constructor.
Qed.
(** A TEID stored in a header whose T flag is off does not survive. *)
Theorem C10_teid_without_flag_refuted : exists h b h', h2_marshal h = Ok b /\ h2_parse b = Ok h' /\ h2_teid h <> h2_teid h'.
Proof. exists (new_hdr2 64 1 7 5 [1; 2; 3; 4]). eexists _, _. vm_compute. repeat split; discriminate. Qed.

(** ** C21 for IEs and headers *)
Theorem C21_v2_ie_marshal_to : forall g i b, (mlen2 g i <= len b)%nat ->
  exists w, marshal2 g i = Ok w /\ len w = mlen2 g i /\ mto2 g i b = Ok (w ++ skipn (len w) b).
Proof.
  intros g i b H. exists (wire2 g i). split; [apply marshal2_ok|]. split; [apply len_wire|].
  apply mto_writes. rewrite len_wire. exact H.
Qed.
Theorem C21_v2_header_marshal_to : forall h b, (h2_mlen h <= len b)%nat ->
  exists w, h2_marshal h = Ok w /\ len w = h2_mlen h /\ h2_mto h b = Ok (w ++ skipn (len w) b).
Proof.
  intros h b H. exists (h2_wire h). split; [apply h2_marshal_ok|]. split; [apply h2_wire_len|].
  apply h2_mto_writes. rewrite h2_wire_len. exact H.
Qed.
Example C21_example : mto2 dg sample_child2 [9; 9; 9; 9; 9; 9; 9; 9; 9] = Ok [87; 0; 3; 1; 1; 2; 3; 9; 9].
Proof. vm_compute. reflexivity. Qed.
(** A grouped IE marshalled into a buffer too short for its members reports success
    (ie.go:229-238): the output is truncated silently. *)
Theorem C21_short_buffer_grouped_refuted : exists b b', (len b < mlen2 dg sample_grouped)%nat /\ mto2 dg sample_grouped b = Ok b'.
Proof. exists (zeros 10). eexists. vm_compute. split; [repeat constructor|reflexivity]. Qed.

(** ** C22 *)
Theorem C22_grouped_editing : forall g t n l c es, g t = true -> es <> [] ->
  let c' := fold_left edit_list es c in
  exists l', apply_edits g (IE2 t l n (flat_map (wire2 g) c) c) es = Ok (IE2 t l' n (flat_map (wire2 g) c') c')
    /\ l' = N.of_nat (len (flat_map (wire2 g) c')) mod 65536
    /\ (forall typ ins, find2 g (IE2 t l' n (flat_map (wire2 g) c') c') typ ins =
        match filter (fun x => (i2_type x =? typ) && (i2_inst x mod 16 =? ins)) c' with
        | x :: _ => Ok x | [] => Err EIENotFound end).
Proof.
  intros g t n l c es Hg Hne c'. destruct (edits_ok g t n es Hg l c) as (l' & E & Hl). exists l'.
  split; [exact E|]. split; [apply Hl, Hne|]. intros typ ins. apply find_ok, Hg.
Qed.
Example C22_example :
  apply_edits dg sample_grouped [EAdd [Some sample_child1; None]; ERemove 73 0; EAdd [Some sample_child1]]
  = Ok (IE2 93 12 0 [87; 0; 3; 1; 1; 2; 3; 73; 0; 1; 0; 5] [sample_child2; sample_child1]).
Proof. vm_compute. reflexivity. Qed.

(** ** C23 *)
Theorem C23_plmn_roundtrip : forall mcc mnc rest, is_mcc mcc -> is_mnc mnc ->
  encode_plmn mcc mnc = Ok (plmn_octets mcc mnc) /\ len (plmn_octets mcc mnc) = 3%nat /\
  decode_plmn (plmn_octets mcc mnc ++ rest) = Ok (mcc, mnc).
Proof.
  intros mcc mnc rest H1 H2. destruct (plmn_roundtrip mcc mnc rest H1 H2) as (b & E & L & _ & D).
  pose proof (plmn_layout mcc mnc H1 H2) as E'. rewrite E in E'. injection E' as ->. auto.
Qed.
Theorem C23_plmn_injective : forall mcc mnc mcc' mnc', is_mcc mcc -> is_mnc mnc -> is_mcc mcc' -> is_mnc mnc' ->
  encode_plmn mcc mnc = encode_plmn mcc' mnc' -> mcc = mcc' /\ mnc = mnc'.
Proof. exact plmn_injective. Qed.
Theorem C23_decode_plmn_total : forall b, (3 <= len b)%nat -> decode_plmn b <> Panic.
Proof. exact decode_plmn_safe. Qed.
Example C23_example : is_mcc [50; 48; 56] /\ is_mnc [57; 51] /\ encode_plmn [50; 48; 56] [57; 51] = Ok [2; 248; 57]
  /\ encode_plmn [51; 49; 48] [52; 49; 48] = Ok [19; 0; 20].
Proof.
  unfold is_mcc, is_mnc. repeat split; auto; repeat constructor; unfold digit; try (cbv; discriminate).
Qed.
(** an empty MNC panics *)
Theorem C23_empty_mnc_refuted : encode_plmn [50; 48; 56] [] = Panic.
Proof. vm_compute. reflexivity. Qed.

(** ** C24 *)
Theorem C24_bcd_roundtrip : forall s, Forall lowhex s ->
  str_to_swapped s [102] = Ok (tbcd s) /\ swapped_to_str (tbcd s) (Nat.odd (len s)) = Ok s.
Proof.
  intros s H. pose proof (bcd_layout s H) as L. split; [exact L|].
  rewrite <- Nat.negb_even. destruct (Nat.even (len s)) eqn:E.
  - destruct (bcd_even s H E) as (b & E1 & E2 & _). rewrite L in E1. injection E1 as <-. exact E2.
  - destruct (bcd_odd s H E) as (b & E1 & E2 & _). rewrite L in E1. injection E1 as <-. exact E2.
Qed.
Theorem C24_bcd_rejects : forall s f c, In c s -> hexval c = None -> str_to_swapped s f = Err EHex.
Proof. exact str_to_swapped_bad. Qed.
Theorem C24_bcd_total : forall s f c b, str_to_swapped s f <> Panic /\ swapped_to_str b c <> Panic.
Proof. intros. split; [apply str_to_swapped_safe|apply swapped_to_str_safe]. Qed.
Example C24_example : Forall lowhex [49; 50; 51; 52; 53] /\ str_to_swapped [49; 50; 51; 52; 53] [102] = Ok [33; 67; 245]
  /\ hexval 103 = None.
Proof. split; [|vm_compute; auto]. repeat constructor; cbv; discriminate. Qed.

(** ** C25 *)
Theorem C25_fqdn_roundtrip : forall ls, ls <> [] -> Forall (fun l => ~ In dot l /\ (len l < 256)%nat) ls ->
  encode_fqdn (labels_to_string ls) = Ok (labels_octets ls) /\ decode_fqdn (labels_octets ls) = Ok (labels_to_string ls).
Proof. exact fqdn_layout. Qed.
Theorem C25_fqdn_total : forall b s, decode_fqdn b <> Panic /\ exists r, encode_fqdn s = Ok r.
Proof. intros b s. split; [apply decode_fqdn_safe|]. rewrite encode_fqdn_spec. eexists; reflexivity. Qed.
Example C25_example : encode_fqdn [97; 98; 46; 99] = Ok [2; 97; 98; 1; 99] /\ labels_to_string [[97; 98]; [99]] = [97; 98; 46; 99].
Proof. vm_compute. auto. Qed.
Theorem C25_long_label_refuted : exists s b, encode_fqdn s = Ok b /\ decode_fqdn b <> Ok s.
Proof. exists (repeat 97 256), (0 :: repeat 97 256). split; [vm_compute; reflexivity|vm_compute; discriminate]. Qed.

(** ** C26 *)
Theorem C26_uint24 : forall n, uint24to32 (uint32to24 n) = n mod 2 ^ 24 /\ uint32to24 n = enc24 n.
Proof. intros n. split; [apply uint24_roundtrip|apply uint32to24_enc]. Qed.
Theorem C26_uint24_inverse : forall b, bytes_ok b -> len b = 3%nat -> uint32to24 (uint24to32 b) = b /\ uint24to32 b < 2 ^ 24.
Proof. intros b H L. split; [apply uint24_inverse; assumption|apply uint24_lt, H]. Qed.
Theorem C26_uint40 : forall n, uint40to64 (uint64to40 n) = n mod 2 ^ 40 /\ uint64to40 n = enc40 n.
Proof. intros n. split; [apply uint40_roundtrip|apply uint64to40_enc]. Qed.
Theorem C26_uint40_inverse : forall b, bytes_ok b -> len b = 5%nat -> uint64to40 (uint40to64 b) = b.
Proof. exact uint40_inverse. Qed.
Example C26_example : uint32to24 66051 = [1; 2; 3] /\ uint40to64 [1; 2; 3; 4; 5] = 4328719365.
Proof. vm_compute. auto. Qed.

Print Assumptions C05_v2_multi_total.
Print Assumptions C05_v2_multi_consumes_all.
Print Assumptions C06_v2_ie_roundtrip.
Print Assumptions C06_v2_ie_list_roundtrip.
Print Assumptions C06_v2_new_consistent.
Print Assumptions C06_v2_new_grouped_consistent.
Print Assumptions C07_v2_parse_marshal_exact.
Print Assumptions C10_v2_header_roundtrip.
Print Assumptions C10_v2_new_header_consistent.
Print Assumptions C10_v2_header_parse_total.
Print Assumptions C21_v2_ie_marshal_to.
Print Assumptions C21_v2_header_marshal_to.
Print Assumptions C22_grouped_editing.
Print Assumptions C23_plmn_roundtrip.
Print Assumptions C23_plmn_injective.
Print Assumptions C23_decode_plmn_total.
Print Assumptions C24_bcd_roundtrip.
Print Assumptions C24_bcd_rejects.
Print Assumptions C24_bcd_total.
Print Assumptions C25_fqdn_roundtrip.
Print Assumptions C25_fqdn_total.
Print Assumptions C26_uint24.
Print Assumptions C26_uint24_inverse.
Print Assumptions C26_uint40.
Print Assumptions C26_uint40_inverse.
