(** Properties C02-C05, C08, C09, C11-C13, C17-C21 for GTPv1 and GTPv0.  Specifications:
    TvIESpec.v (wire1, wf1), V1HeaderSpec.v (h1_octets, h1_ok, h1_known, eh_chain),
    V0HeaderSpec.v (h0_octets), MsgSpec.v (present, typed_fields), MsgSpec1.v (ts29060, ts0960). *)
From Coq Require Import String Permutation Lia.
From Verif Require Import Base BaseLemmas TvIE TvIESpec TvIEProofs V1Header V1HeaderSpec V1HeaderProofs
  V0Header V0HeaderSpec V0HeaderProofs MsgModel MsgProofs MsgProofs2 MsgProofs3 GenericMsg MsgSpec MsgSpec1
  Msgs1Gen Msgs0Gen V1Msg V1MsgProofs V0Msg V0MsgProofs Gtp TpduProofs V1BuildProofs PropertiesBase Properties2Msg V2Msg.
Open Scope string_scope.
Open Scope N_scope.
Open Scope list_scope.

(** ** C02, C03: parsing is total on datagrams *)
Theorem C02_v1_parse_total : forall b, bytes_ok b -> N.of_nat (len b) < 65536 -> v1_parse b <> Panic.
Proof. exact v1_parse_safe. Qed.
Theorem C02_v1_parse_as_total : forall d b, bytes_ok b -> N.of_nat (len b) < 65536 -> v1_parse_as d b <> Panic.
Proof. exact v1_parse_as_safe. Qed.
Theorem C02_v1_decapsulate_total : forall b, bytes_ok b -> N.of_nat (len b) < 65536 ->
  decapsulate1 b <> Panic /\ decapsulate1_exts b <> Panic.
Proof. exact decapsulate1_safe. Qed.
Theorem C03_v0_parse_total : forall b, bytes_ok b -> N.of_nat (len b) < 65536 -> v0_parse b <> Panic.
Proof. exact v0_parse_safe. Qed.
Theorem C03_v0_parse_as_total : forall d b, bytes_ok b -> N.of_nat (len b) < 65536 -> v0_parse_as d b <> Panic.
Proof. exact v0_parse_as_safe. Qed.
(** Beyond datagram size the 16-bit sum 8+Length (20+Length) wraps (header.go). *)
Theorem C02_long_input_refuted : exists b, bytes_ok b /\ v1_parse b = Panic.
Proof.
  exists ([48; 1; 255; 255; 0; 0; 0; 0] ++ zeros (N.to_nat 65535)). split.
  - apply bytes_ok_app; [repeat constructor|apply bytes_ok_zeros].
  - vm_compute. reflexivity.
Qed.
Theorem C03_long_input_refuted : exists b, bytes_ok b /\ v0_parse b = Panic.
Proof.
  exists ([30; 1; 255; 255] ++ zeros (16 + N.to_nat 65535)). split.
  - apply bytes_ok_app; [repeat constructor|apply bytes_ok_zeros].
  - vm_compute. reflexivity.
Qed.
Example C02_example : exists m, v1_parse [50; 2; 0; 6; 0; 0; 0; 0; 0; 7; 0; 0; 14; 9] = Ok (P1 Msgs1Gen.d_EchoResponse m)
  /\ fget (m_fs m) "Recovery" = [Some (IE1 14 0 [9])] /\ h1_seq (m_hdr m) = 7.
Proof.
  ok_val (v1_parse [50; 2; 0; 6; 0; 0; 0; 0; 0; 7; 0; 0; 14; 9]) ltac:(fun p => match p with P1 _ ?m => exists m end). done.
Qed.
Example C03_example : exists m, v0_parse [30; 2; 0; 2; 0; 7; 0; 0; 255; 255; 255; 255; 0; 0; 0; 0; 0; 0; 0; 0; 14; 9] = Ok (P0 Msgs0Gen.d_EchoResponse m)
  /\ fget (m_fs m) "Recovery" = [Some (IE1 14 0 [9])] /\ h0_seq (m_hdr m) = 7.
Proof.
  ok_val (v0_parse [30; 2; 0; 2; 0; 7; 0; 0; 255; 255; 255; 255; 0; 0; 0; 0; 0; 0; 0; 0; 14; 9]) ltac:(fun p => match p with P0 _ ?m => exists m end). done.
Qed.

(** ** C04 *)
Theorem C04_gtp_parse_total : forall g b, bytes_ok b -> N.of_nat (len b) < 65536 -> gtp_parse g b <> Panic.
Proof. exact gtp_parse_safe. Qed.
Theorem C04_gtp_parse_version : forall g b p, bytes_ok b -> gtp_parse g b = Ok p ->
  (8 <= len b)%nat /\ exists f, idx b 0 = Ok f /\
  f / 32 = match p with G0 _ => 0 | G1 _ => 1 | G2 _ _ => 2 end /\
  match p with G0 m => v0_parse b = Ok m | G1 m => v1_parse b = Ok m | G2 d m => v2_parse g b = Ok (d, m) end.
Proof.
  intros g b p Hb H. destruct (gtp_parse_version g b p Hb H) as (A & f & B & C & D). split; [exact A|].
  exists f. split; [exact B|]. split; [symmetry; exact C|exact D].
Qed.
Theorem C04_gtp_parse_accepts : forall g b f, bytes_ok b -> (8 <= len b)%nat -> idx b 0 = Ok f ->
  (f / 32 = 0 -> gtp_parse g b = match v0_parse b with Ok m => Ok (G0 m) | Err e => Err e | Panic => Panic end) /\
  (f / 32 = 1 -> gtp_parse g b = match v1_parse b with Ok m => Ok (G1 m) | Err e => Err e | Panic => Panic end) /\
  (f / 32 = 2 -> gtp_parse g b = match v2_parse g b with Ok (d, m) => Ok (G2 d m) | Err e => Err e | Panic => Panic end) /\
  (3 <= f / 32 -> gtp_parse g b = Err EInvalidVersion).
Proof.
  intros g b f Hb Hl Hf. destruct (gtp_parse_accepts g b f Hb Hl Hf) as (A & B & C & D).
  split; [exact A|]. split; [exact B|]. split; [|exact D].
  intros E. rewrite (C E). destruct (v2_parse g b) as [[d m]|e|]; reflexivity.
Qed.
Theorem C04_gtp_parse_short : forall g b, (len b < 8)%nat -> gtp_parse g b = Err ETooShortToParse.
Proof. intros g b H. unfold gtp_parse. rewrite (proj2 (Nat.ltb_lt (len b) 8) H). reflexivity. Qed.
Example C04_example : exists m, gtp_parse dg [72; 36; 0; 13; 0; 0; 0; 1; 0; 0; 7; 0; 73; 0; 1; 0; 5] = Ok (G2 Msgs2Gen.d_DeleteSessionRequest m).
Proof.
  ok_val (gtp_parse dg [72; 36; 0; 13; 0; 0; 0; 1; 0; 0; 7; 0; 73; 0; 1; 0; 5]) ltac:(fun p => match p with G2 _ ?m => exists m end). done.
Qed.
Example C04_rejects : gtp_parse dg [96; 1; 0; 0; 0; 0; 0; 0] = Err EInvalidVersion.
Proof. reflexivity. Qed.

(** ** C05 for v1 and v0 *)
Theorem C05_v1_multi_total : forall b, bytes_ok b -> multi1 tv1 xl1 b <> Panic.
Proof. exact (multi1_safe _ _ tv1_lt xl1_ge). Qed.
Theorem C05_v0_multi_total : forall b, bytes_ok b -> multi1 tv0 xl0 b <> Panic.
Proof. exact (multi1_safe _ _ tv0_lt xl0_ge). Qed.
Theorem C05_v1_multi_consumes_all : forall b ies, bytes_ok b -> multi1 tv1 xl1 b = Ok ies -> b = flat_map (wire1 xl1) ies.
Proof. intros b ies Hb H. apply (multi1_inv _ _ tv1_lt xl1_ge b ies Hb H). Qed.
Theorem C05_v0_multi_consumes_all : forall b ies, bytes_ok b -> multi1 tv0 xl0 b = Ok ies -> b = flat_map (wire1 xl0) ies.
Proof. intros b ies Hb H. apply (multi1_inv _ _ tv0_lt xl0_ge b ies Hb H). Qed.
Example C05_v1_example : multi1 tv1 xl1 [14; 9; 141; 2; 64; 192; 133; 0; 4; 10; 0; 0; 1] =
  Ok [IE1 14 0 [9]; IE1 141 2 [64; 192]; IE1 133 4 [10; 0; 0; 1]].
Proof. vm_compute. reflexivity. Qed.
Example C05_v0_example : multi1 tv0 xl0 [14; 9; 16; 1; 2; 133; 0; 1; 7] = Ok [IE1 14 0 [9]; IE1 16 0 [1; 2]; IE1 133 1 [7]].
Proof. vm_compute. reflexivity. Qed.

(** ** C08, C09 *)
Theorem C08_v1_ie_roundtrip : forall i rest, wf1 tv1 xl1 i ->
  marshal1 tv1 xl1 i = Ok (wire1 xl1 i) /\ len (wire1 xl1 i) = mlen1 tv1 xl1 i /\ parse1 tv1 xl1 (wire1 xl1 i ++ rest) = Ok i.
Proof.
  intros i rest Hi. split; [apply (marshal1_ok _ _ tv1_lt xl1_ge), Hi|]. split; [apply (wf1_len _ _ tv1_lt xl1_ge), Hi|].
  apply (parse1_wire _ _ tv1_lt xl1_ge), Hi.
Qed.
Theorem C09_v0_ie_roundtrip : forall i rest, wf1 tv0 xl0 i ->
  marshal1 tv0 xl0 i = Ok (wire1 xl0 i) /\ len (wire1 xl0 i) = mlen1 tv0 xl0 i /\ parse1 tv0 xl0 (wire1 xl0 i ++ rest) = Ok i.
Proof.
  intros i rest Hi. split; [apply (marshal1_ok _ _ tv0_lt xl0_ge), Hi|]. split; [apply (wf1_len _ _ tv0_lt xl0_ge), Hi|].
  apply (parse1_wire _ _ tv0_lt xl0_ge), Hi.
Qed.
Theorem C08_v1_ie_list_roundtrip : forall ies, Forall (wf1 tv1 xl1) ies -> multi1 tv1 xl1 (flat_map (wire1 xl1) ies) = Ok ies.
Proof. exact (multi1_wire _ _ tv1_lt xl1_ge). Qed.
Theorem C09_v0_ie_list_roundtrip : forall ies, Forall (wf1 tv0 xl0) ies -> multi1 tv0 xl0 (flat_map (wire1 xl0) ies) = Ok ies.
Proof. exact (multi1_wire _ _ tv0_lt xl0_ge). Qed.
(** New builds such IEs: TV types need a value of the listed size, TLV types one below
    2^16 (2^8 for type 141). *)
Theorem C08_v1_new_consistent : forall t p, t < 256 -> bytes_ok p ->
  (t < 128 -> exists n, tv1 t = Some n /\ n = len p /\ (1 <= n)%nat) ->
  N.of_nat (len p) < (if t =? 141 then 256 else 65536) -> wf1 tv1 xl1 (new1 tv1 t p) /\ i1_type (new1 tv1 t p) = t /\ i1_payload (new1 tv1 t p) = p.
Proof.
  intros t p Ht Hp Htv Hl. split; [|split; reflexivity]. apply (new1_wf _ _ tv1_lt xl1_ge); auto.
  - intros n E. destruct (Htv (tv1_lt _ _ E)) as (n' & E' & -> & H1). rewrite E in E'. injection E' as ->. auto.
  - intros E. destruct (N.ltb_spec t 128) as [H|H]; [|exact H]. destruct (Htv H) as (n & E' & _). congruence.
Qed.
Theorem C09_v0_new_consistent : forall t p, t < 256 -> bytes_ok p ->
  (t < 128 -> exists n, tv0 t = Some n /\ n = len p /\ (1 <= n)%nat) ->
  N.of_nat (len p) < 65536 -> wf1 tv0 xl0 (new1 tv0 t p) /\ i1_type (new1 tv0 t p) = t /\ i1_payload (new1 tv0 t p) = p.
Proof.
  intros t p Ht Hp Htv Hl. split; [|split; reflexivity]. apply (new1_wf _ _ tv0_lt xl0_ge); auto.
  - intros n E. destruct (Htv (tv0_lt _ _ E)) as (n' & E' & -> & H1). rewrite E in E'. injection E' as ->. auto.
  - intros E. destruct (N.ltb_spec t 128) as [H|H]; [|exact H]. destruct (Htv H) as (n & E' & _). congruence.
Qed.
(** What parses is re-marshalled to the same octets (TV IEs of unknown size excepted). *)
Theorem C08_v1_parse_exact : forall b i, bytes_ok b -> parse1 tv1 xl1 b = Ok i ->
  (exists q, b = wire1 xl1 i ++ q) /\ (wf1 tv1 xl1 i \/ bare1 tv1 i).
Proof. intros b i Hb H. destruct (parse1_inv _ _ tv1_lt xl1_ge b i Hb H). auto. Qed.
Theorem C09_v0_parse_exact : forall b i, bytes_ok b -> parse1 tv0 xl0 b = Ok i ->
  (exists q, b = wire1 xl0 i ++ q) /\ (wf1 tv0 xl0 i \/ bare1 tv0 i).
Proof. intros b i Hb H. destruct (parse1_inv _ _ tv0_lt xl0_ge b i Hb H). auto. Qed.
Example C08_example : wf1 tv1 xl1 (IE1 2 0 [66; 16; 33; 67; 101; 135; 9; 240]) /\ wf1 tv1 xl1 (IE1 141 2 [64; 192]) /\ wf1 tv1 xl1 (IE1 131 3 [3; 97; 98]).
Proof.
  split; [|split].
  - eapply wf1_tv; [reflexivity|reflexivity|repeat constructor|reflexivity|repeat constructor].
  - apply wf1_xl; try reflexivity; try (repeat constructor); discriminate.
  - apply wf1_tlv; try reflexivity; try (repeat constructor); discriminate.
Qed.
Example C09_example : wf1 tv0 xl0 (IE1 6 0 [1; 2; 3]) /\ wf1 tv0 xl0 (IE1 131 3 [3; 97; 98]).
Proof.
  split.
  - eapply wf1_tv; [reflexivity|reflexivity|repeat constructor|reflexivity|repeat constructor].
  - apply wf1_tlv; try reflexivity; try (repeat constructor); discriminate.
Qed.
(** A TV IE of unknown type loses its value; a lone zero-size TV octet cannot be parsed. *)
Theorem C08_unknown_tv_refuted : exists i b, i1_type i < 128 /\ marshal1 tv1 xl1 i = Ok b /\ parse1 tv1 xl1 b = Ok (IE1 30 0 []) /\ i1_payload i = [7].
Proof. exists (IE1 30 0 [7]), [30; 7]. vm_compute. repeat split. Qed.
Theorem C08_empty_tv_refuted : exists i b, marshal1 tv1 xl1 i = Ok b /\ parse1 tv1 xl1 b = Err ETooShortToParse.
Proof. exists (IE1 0 0 []), [0]. vm_compute. split; reflexivity. Qed.
Theorem C08_long_ext_list_refuted : exists p b i, marshal1 tv1 xl1 (new1 tv1 141 p) = Ok b /\ parse1 tv1 xl1 b = Ok i /\ i1_payload i = [] /\ len p = 256%nat.
Proof.
  exists (zeros 256), (141 :: zeros 257), (IE1 141 0 []). vm_compute. repeat split.
Qed.
(** A TV IE with a value of the wrong size is padded or cut silently. *)
Theorem C09_wrong_size_tv_refuted : exists i b j, marshal1 tv0 xl0 i = Ok b /\ parse1 tv0 xl0 b = Ok j /\ i = new1 tv0 6 [1; 2] /\ i1_payload j = [1; 2; 0].
Proof. exists (new1 tv0 6 [1; 2]), [6; 1; 2; 0], (IE1 6 0 [1; 2; 0]). vm_compute. repeat split. Qed.

(** ** C11, C13 *)
Theorem C11_v1_header_roundtrip : forall h q, h1_ok h -> bytes_ok (h1_payload h) ->
  N.of_nat (h1_mlen h) < 65536 -> h1_length h = N.of_nat (h1_mlen h) - 8 ->
  exists w, h1_marshal h = Ok w /\ w = h1_octets (zeros (len w)) h /\ len w = h1_mlen h /\ h1_parse (w ++ q) = Ok (h1_known h).
Proof.
  intros h q Hok Hp Hm HL. assert (Hx : exts_fine h) by (intros E; apply (h1o_exts h Hok E)).
  pose proof (h1_wire_len h Hx) as Hw. exists (h1_wire h). split; [apply h1_marshal_ok, Hx|]. split.
  - symmetry. apply h1_octets_zeros; [exact Hx|rewrite Hw; apply le_n].
  - split; [exact Hw|]. apply h1_parse_wire; assumption.
Qed.
Theorem C11_v1_built_header_roundtrip : forall f t teid seq p ops q, f < 256 -> N.testbit f 2 = false -> t < 256 -> teid < 4294967296 ->
  seq < 65536 -> bytes_ok p -> Forall h1_op_ok ops -> (List.length (filter is_exts ops) <= 1)%nat ->
  let h := fold_left h1_do ops (new_hdr1 f t teid seq p) in
  N.of_nat (h1_mlen h) < 65536 ->
  exists w, h1_marshal h = Ok w /\ len w = h1_mlen h /\ h1_parse (w ++ q) = Ok (h1_known h) /\
    h1_payload h = p /\ h1_payload (h1_known h) = p /\ h1_length h = N.of_nat (len w) - 8.
Proof. exact h1_build_roundtrip. Qed.
Theorem C11_v1_header_parse_total : forall b, bytes_ok b -> N.of_nat (len b) < 65536 -> h1_parse b <> Panic.
Proof. exact h1_parse_safe. Qed.
(** Every header ParseHeader returns satisfies the hypotheses of the round trip, and
    nothing is hidden: the octets of the header stand at the start of the input. *)
Theorem C11_v1_header_parse_exact : forall b h, bytes_ok b -> h1_parse b = Ok h ->
  h1_ok h /\ h1_length h = N.of_nat (h1_mlen h) - 8 /\ h1_known h = h /\ exists q, b = h1_octets b h ++ q.
Proof. intros b h Hb H. destruct (h1_parse_inv b h Hb H) as (A & _ & B & _ & C & _ & D). auto. Qed.
Example C11_example :
  let h := fold_left h1_do [OpSeq 7; OpNPDU 3; OpExts [new_ext1 64 [9; 9] 133; new_ext1 133 [1; 2; 3; 4; 5; 6] 0]; OpTEID 258]
             (new_hdr1 48 255 1 0 [69; 0]) in
  h1_marshal h = Ok [63; 255; 0; 18; 0; 0; 1; 2; 0; 7; 3; 64; 1; 9; 9; 133; 2; 1; 2; 3; 4; 5; 6; 0; 69; 0] /\
  Forall h1_op_ok [OpSeq 7; OpNPDU 3; OpExts [new_ext1 64 [9; 9] 133; new_ext1 133 [1; 2; 3; 4; 5; 6] 0]; OpTEID 258].
Proof.
  split; [vm_compute; reflexivity|]. apply Forall_cons; [reflexivity|]. apply Forall_cons; [reflexivity|].
  apply Forall_cons; [|apply Forall_cons; [reflexivity|constructor]]. split.
  - apply Forall_cons; [|apply Forall_cons; [|constructor]]; apply new_ext1_ok; try reflexivity; try (repeat constructor); cbn; lia.
  - exists (new_ext1 64 [9; 9] 133), [new_ext1 133 [1; 2; 3; 4; 5; 6] 0]. vm_compute. repeat split; discriminate.
Qed.

(** Refutations of C11: headers the API builds that do not survive. *)
(** NewTPDUWithExtentionHeader without extension headers sets the E flag (t-pdu.go:29-34);
    the receiver takes payload octets for an extension header. *)
Theorem C11_empty_extension_list_refuted : exists w h t p es, bytes_ok w /\
  tpdu1_marshal (new_tpdu1_exts 1 [1; 9; 9; 0; 69; 0] []) = Ok (w, h) /\
  decapsulate1_exts w = Ok (t, p, es) /\ p = [69; 0] /\ es = [Ext1 0 1 [9; 9] 0].
Proof.
  ok_pair (tpdu1_marshal (new_tpdu1_exts 1 [1; 9; 9; 0; 69; 0] [])) ltac:(fun w h => exists w, h).
  exists 1, [69; 0], [Ext1 0 1 [9; 9] 0]. split; [repeat constructor|]. done.
Qed.
(** SetNextExtensionHeaderType alone leaves Length as it was (header.go:233-236). *)
Theorem C11_set_next_type_refuted : exists w, h1_marshal (h1_set_next (new_hdr1 48 255 1 0 [69; 0]) 133) = Ok w /\
  len w = 14%nat /\ h1_parse w = Err ETooShortToParse.
Proof. ok_val (h1_marshal (h1_set_next (new_hdr1 48 255 1 0 [69; 0]) 133)) ltac:(fun w => exists w). done. Qed.
(** Two calls of AddExtensionHeaders: both succeed, the chain is broken (header.go:296-319). *)
Theorem C11_add_twice_refuted : exists e1 e2 h1 h2 w h', eh_ok e1 /\ eh_ok e2 /\
  h1_add_exts (new_hdr1 48 255 1 0 [69; 0]) [e1] = (h1, false) /\ h1_add_exts h1 [e2] = (h2, false) /\
  h1_marshal h2 = Ok w /\ h1_parse w = Ok h' /\ h1_exts h' = [Ext1 64 1 [9; 9] 0] /\ h1_payload h' = [1; 8; 8; 0; 69; 0].
Proof.
  exists (new_ext1 133 [9; 9] 0), (new_ext1 64 [8; 8] 0).
  match eval vm_compute in (h1_add_exts (new_hdr1 48 255 1 0 [69; 0]) [new_ext1 133 [9; 9] 0]) with (?h1, _) =>
  exists h1; match eval vm_compute in (h1_add_exts h1 [new_ext1 64 [8; 8] 0]) with (?h2, _) => exists h2;
  ok_val (h1_marshal h2) ltac:(fun w => exists w; ok_val (h1_parse w) ltac:(fun h' => exists h')) end end.
  split; [apply new_ext1_ok; try reflexivity; [repeat constructor|cbn; lia]|].
  split; [apply new_ext1_ok; try reflexivity; [repeat constructor|cbn; lia]|]. done.
Qed.

(** ** C13 *)
Theorem C13_chain_roundtrip : forall e r q, Forall eh_ok (e :: r) -> eh_chain (eh_next e) r ->
  eh_multi (flat_map eh_wire (e :: r) ++ q) = Ok (eh_known (Ext1 0 (eh_length e) (eh_content e) (eh_next e)) :: map eh_known r).
Proof.
  intros e r q H Hc. apply Forall_cons_iff in H. destruct H as [He Hr]. unfold eh_multi.
  apply (eh_multi_wire r Hr e 0 _ q He Hc). rewrite app_length. lia.
Qed.
Theorem C13_one_roundtrip : forall e b q, eh_ok e -> (eh_mlen e <= len b)%nat ->
  eh_marshal e = Ok (eh_wire e) /\ len (eh_wire e) = eh_mlen e /\
  eh_mto e b = Ok (eh_octets b e ++ skipn (eh_mlen e) b) /\
  eh_parse (eh_wire e ++ q) = Ok (eh_known (Ext1 0 (eh_length e) (eh_content e) (eh_next e))).
Proof.
  intros e b q He Hb. assert (Hl : len (eh_wire e) = eh_mlen e) by (rewrite eh_wire_len, eh_ok_mlen by exact He; reflexivity).
  split; [|split; [exact Hl|split; [apply eh_mto_ok; assumption|apply eh_parse_wire, He]]].
  unfold eh_marshal. rewrite eh_mto_ok; [|exact He|rewrite len_zeros; apply le_n].
  rewrite eh_octets_zeros; [|exact He|apply le_n]. rewrite skipn_all2 by (rewrite len_zeros; apply le_n). rewrite app_nil_r. reflexivity.
Qed.
(** NewExtensionHeader builds them for every content up to 1018 octets; contents that fill
    the unit (length 2 modulo 4) come back unchanged. *)
Theorem C13_new_ext_ok : forall t c nx, t < 256 -> nx < 256 -> bytes_ok c -> (len c <= 1018)%nat ->
  eh_ok (new_ext1 t c nx) /\ (Nat.modulo (len c) 4 = 2%nat -> eh_known (new_ext1 t c nx) = new_ext1 t c nx).
Proof.
  intros t c nx Ht Hn Hc Hl. pose proof (new_ext1_ok t c nx Ht Hn Hc Hl) as H. split; [exact H|].
  intros Hm. assert (Hp : eh_pad (new_ext1 t c nx) = 0%nat).
  { destruct H as [_ _ _ _ Hf]. unfold eh_pad. cbn [new_ext1 eh_set_length eh_content eh_length] in *.
    set (k := N.to_nat _) in *. clearbody k. pose proof (Nat.div_mod (len c) 4). lia. }
  unfold eh_known. rewrite Hp. cbn [zeros repeat]. rewrite app_nil_r. reflexivity.
Qed.
(** The parser stops exactly at the header announcing 0 and consumes whole headers. *)
Theorem C13_parse_exact : forall b es, bytes_ok b -> eh_multi b = Ok es ->
  exists e r q, es = e :: r /\ Forall eh_ok es /\ eh_chain (eh_next e) r /\ b = flat_map eh_wire es ++ q.
Proof.
  intros b es Hb H. destruct (eh_multi_inv _ 0 b es ltac:(lia) Hb H) as (e & r & q & A & _ & B & _ & C & D). exists e, r, q. auto.
Qed.
Theorem C13_parse_total : forall b, bytes_ok b -> eh_multi b <> Panic.
Proof. intros b Hb. apply eh_multi_safe; [exact Hb|lia]. Qed.
Example C13_example : eh_multi [1; 9; 9; 133; 2; 1; 2; 3; 4; 5; 6; 0; 69; 0] = Ok [Ext1 0 1 [9; 9] 133; Ext1 133 2 [1; 2; 3; 4; 5; 6] 0].
Proof. vm_compute. reflexivity. Qed.
(** Content of 1019 octets or more makes the one-octet length wrap: MarshalTo panics. *)
Theorem C13_long_content_refuted : exists c, len c = N.to_nat 1019 /\ eh_marshal (new_ext1 133 c 0) = Panic.
Proof. exists (zeros (N.to_nat 1019)). split; vm_compute; reflexivity. Qed.
(** Other contents come back with zeros appended. *)
Theorem C13_padding_refuted : exists c w e, eh_marshal (new_ext1 133 c 0) = Ok w /\ eh_parse w = Ok e /\ c = [7] /\ eh_content e = [7; 0].
Proof. exists [7], [1; 7; 0; 0], (Ext1 0 1 [7; 0] 0). vm_compute. repeat split. Qed.

(** ** C12 *)
Theorem C12_v0_header_roundtrip : forall h, h0_ok h -> h0_length h = N.of_nat (len (h0_payload h)) -> N.of_nat (h0_mlen h) < 65536 ->
  h0_marshal h = Ok (h0_octets h) /\ len (h0_octets h) = h0_mlen h /\
  exists h', h0_parse (h0_octets h) = Ok h' /\
    h0_flags h' = h0_flags h /\ h0_type h' = h0_type h /\ h0_length h' = h0_length h /\ h0_seq h' = h0_seq h /\
    h0_label h' = h0_label h /\ h0_tid h' = h0_tid h /\ h0_payload h' = h0_payload h /\
    (h0_sndcp h = 255 -> h' = h).
Proof.
  intros h Hok HL Hm. split; [apply h0_marshal_ok, Hok|]. split; [apply h0_octets_len|].
  exists (h0_known h). split; [apply h0_parse_octets; assumption|]. repeat split.
  intros E. unfold h0_known. rewrite <- E. destruct h; reflexivity.
Qed.
Theorem C12_v0_new_header_consistent : forall f t seq label tid p, f < 256 -> t < 256 -> seq < 65536 -> label < 65536 ->
  tid < 18446744073709551616 -> N.of_nat (len p) < 65536 ->
  let h := new_hdr0 f t seq label tid p in
  h0_ok h /\ h0_length h = N.of_nat (len p) /\ h0_payload h = p /\ h0_sndcp h = 255 /\ h0_tid h = tid /\ h0_seq h = seq /\ h0_label h = label.
Proof.
  intros. cbn. repeat split; auto. unfold u16. apply N.mod_small. assumption.
Qed.
Theorem C12_v0_header_parse_total : forall b, bytes_ok b -> N.of_nat (len b) < 65536 -> h0_parse b <> Panic.
Proof. exact h0_parse_safe. Qed.
Example C12_example : h0_marshal (new_hdr0 30 16 7 8 9 [1; 2]) = Ok [30; 16; 0; 2; 0; 7; 0; 8; 255; 255; 255; 255; 0; 0; 0; 0; 0; 0; 0; 9; 1; 2].
Proof. vm_compute. reflexivity. Qed.
Theorem C12_sndcp_refuted : exists h h', h0_ok h /\ h0_length h = 0 /\ h0_payload h = [] /\ h0_parse (h0_octets h) = Ok h' /\ h0_sndcp h = 3 /\ h0_sndcp h' = 255.
Proof.
  exists (Hdr0 31 255 0 1 3 1 1 []), (Hdr0 31 255 0 1 255 1 1 []). split; [constructor; cbn; lia|]. done.
Qed.

(** ** C17, C18: sizes and layout *)
Theorem C17_v1_size_and_layout : forall d, In d (d_Generic1 :: all_msgs1) ->
  exists order, Permutation order (map fst (md_fields d)) /\
  forall m, typed_fields d (m_fs m) -> Forall (wf1 tv1 xl1) (present (m_fs m)) -> h1_ok (m_hdr m) ->
  (md_reset d = true \/ h1_payload (m_hdr m) = []) ->
  let l := ies_of order (m_fs m) in
  Permutation l (present (m_fs m)) /\
  exists n h', v1_len d m = Ok n /\
    h' = h1_set_payload (h1_set_len (m_hdr m) (u16 (N.of_nat n - 8))) (flat_map (wire1 xl1) l) /\
    v1_marshal d m = Ok (h1_octets (zeros n) h', Msg h' (m_fs m)) /\ len (h1_octets (zeros n) h') = n /\
    (forall b, (n <= len b)%nat -> v1_mto d m b = Ok (h1_octets b h' ++ skipn n b, Msg h' (m_fs m)) /\ len (h1_octets b h') = n).
Proof.
  intros d Hd. exists (order_of d). split.
  - destruct (all1_parts d Hd) as (D1 & D2 & D4 & _). apply order_perm; assumption.
  - intros m Hs Hw Hh Hr. destruct (v1_marshal_layout d m Hd Hs Hw Hh Hr) as (A & B & C & D & E). cbv zeta. split; [exact A|].
    eexists _, _. split; [exact B|]. split; [reflexivity|]. split; [exact C|]. split; [exact D|exact E].
Qed.
Theorem C18_v0_size_and_layout : forall d, In d (d_Generic0 :: all_msgs0) ->
  exists order, Permutation order (map fst (md_fields d)) /\
  forall m, typed_fields d (m_fs m) -> Forall (wf1 tv0 xl0) (present (m_fs m)) -> h0_ok (m_hdr m) ->
  (md_reset d = true \/ h0_payload (m_hdr m) = []) ->
  let l := ies_of order (m_fs m) in
  Permutation l (present (m_fs m)) /\
  let n := (20 + len (flat_map (wire1 xl0) l))%nat in
  v0_len d m = Ok n /\
  exists h', h' = h0_set_payload (h0_set_len (m_hdr m) (u16 (N.of_nat n - 20))) (flat_map (wire1 xl0) l) /\
    v0_marshal d m = Ok (h0_octets h', Msg h' (m_fs m)) /\ len (h0_octets h') = n /\
    (forall b, (n <= len b)%nat -> v0_mto d m b = Ok (h0_octets h' ++ skipn n b, Msg h' (m_fs m))).
Proof.
  intros d Hd. exists (order_of d). split.
  - destruct (all0_parts d Hd) as (D1 & D2 & D4 & _). apply order_perm; assumption.
  - intros m Hs Hw Hh Hr. destruct (v0_marshal_layout d m Hd Hs Hw Hh Hr) as (A & B & C & D & E). cbv zeta. split; [exact A|].
    split; [exact B|]. eexists. split; [reflexivity|]. split; [exact C|]. split; [exact D|exact E].
Qed.
(** round trips *)
Theorem C17_v1_roundtrip : forall d teid seq ies, In d all_msgs1 -> teid < 4294967296 -> seq < 65536 ->
  Forall (wf1 tv1 xl1) (nonnil ies) ->
  exists m, v1_new d teid seq ies = Ok m /\ typed_fields d (m_fs m) /\
    (forall n, v1_len d m = Ok n -> N.of_nat n < 65536 ->
     exists b m1 m2, v1_marshal d m = Ok (b, m1) /\ len b = n /\
       v1_parse b = Ok (P1 d m2) /\ m_fs m2 = m_fs m /\
       exists f mt t s, md_ctor d = Ctor1 f mt t s /\ h1_flags (m_hdr m2) = f /\
       h1_teid (m_hdr m2) = (if t then teid else 0) /\
       h1_seq (m_hdr m2) = (if N.testbit f 1 && s then seq else 0) /\
       ts29060 (h1_type (m_hdr m2)) = md_name d).
Proof. exact v1_new_roundtrip. Qed.
Theorem C17_v1_generic_roundtrip : forall mt teid seq ies, mt < 256 -> teid < 4294967296 -> seq < 65536 ->
  Forall (wf1 tv1 xl1) ies -> N.of_nat (12 + len (flat_map (wire1 xl1) ies)) < 65536 ->
  exists m b m1, v1_new_generic mt teid seq (map Some ies) = Ok m /\
    v1_marshal d_Generic1 m = Ok (b, m1) /\ v1_parse_as d_Generic1 b = Ok m1 /\
    fget (m_fs m1) "IEs" = map Some ies /\ h1_type (m_hdr m1) = mt /\ h1_teid (m_hdr m1) = teid /\ h1_seq (m_hdr m1) = seq.
Proof. exact v1_generic_roundtrip. Qed.
Theorem C18_v0_roundtrip : forall d seq label tid ies, In d all_msgs0 -> seq < 65536 -> label < 65536 -> tid < 18446744073709551616 ->
  Forall (wf1 tv0 xl0) (nonnil ies) ->
  exists m, v0_new d seq label tid ies = Ok m /\ typed_fields d (m_fs m) /\
    (forall n, v0_len d m = Ok n -> N.of_nat n < 65536 ->
     exists b m1, v0_marshal d m = Ok (b, m1) /\ len b = n /\
       v0_parse b = Ok (P0 d m1) /\ m_fs m1 = m_fs m /\
       h0_seq (m_hdr m1) = seq /\ h0_label (m_hdr m1) = label /\ h0_tid (m_hdr m1) = tid /\
       h0_flags (m_hdr m1) = 30 /\ ts0960 (h0_type (m_hdr m1)) = md_name d).
Proof. exact v0_new_roundtrip. Qed.
(** re-marshalling *)
Theorem C17_v1_remarshal : forall b d m, bytes_ok b -> N.of_nat (len b) < 65536 -> v1_parse b = Ok (P1 d m) ->
  md_reset d = true -> Forall (wf1 tv1 xl1) (present (m_fs m)) ->
  exists b' m1, v1_marshal d m = Ok (b', m1) /\ v1_parse b' = Ok (P1 d m1) /\ m_fs m1 = m_fs m /\
    (len b' <= len b)%nat /\
    h1_set_len (h1_set_payload (m_hdr m1) []) 0 = h1_set_len (h1_set_payload (m_hdr m) []) 0.
Proof. exact v1_remarshal. Qed.
Theorem C17_v1_tpdu_remarshal : forall b h, bytes_ok b -> v1_parse b = Ok (P1_tpdu h) ->
  exists w, tpdu1_marshal h = Ok (w, h) /\ h1_parse w = Ok h /\ (len w <= len b)%nat.
Proof. exact tpdu1_remarshal. Qed.
Theorem C18_v0_remarshal : forall b d m, bytes_ok b -> N.of_nat (len b) < 65536 -> v0_parse b = Ok (P0 d m) ->
  md_reset d = true -> Forall (wf1 tv0 xl0) (present (m_fs m)) ->
  exists b' m1 m2, v0_marshal d m = Ok (b', m1) /\ v0_parse b' = Ok (P0 d m2) /\ m_fs m2 = m_fs m /\
    (len b' <= len b)%nat /\
    h0_flags (m_hdr m2) = h0_flags (m_hdr m) /\ h0_type (m_hdr m2) = h0_type (m_hdr m) /\
    h0_seq (m_hdr m2) = h0_seq (m_hdr m) /\ h0_label (m_hdr m2) = h0_label (m_hdr m) /\ h0_tid (m_hdr m2) = h0_tid (m_hdr m).
Proof. exact v0_remarshal. Qed.
(** The messages whose MarshalTo does not reset the header payload: which they are, and
    that none of them can be marshalled after a parse or a second time. *)
Theorem C17_v1_not_reset_refuted :
  map md_name (filter (fun d => negb (md_reset d)) (d_Generic1 :: all_msgs1)) =
    ["CreatePDPContextRequest"; "CreatePDPContextResponse"; "DeletePDPContextRequest"; "DeletePDPContextResponse";
     "ErrorIndication"; "SupportedExtensionHeaderNotification"; "UpdatePDPContextRequest"; "UpdatePDPContextResponse"; "VersionNotSupported"] /\
  (forall b d m b' x, bytes_ok b -> v1_parse b = Ok (P1 d m) -> md_reset d = false ->
     Forall (wf1 tv1 xl1) (present (m_fs m)) -> present (m_fs m) <> [] -> v1_mto d m b' <> Ok x) /\
  (forall d m b b1 m1 b2 x, In d (d_Generic1 :: all_msgs1) -> md_reset d = false -> typed_fields d (m_fs m) ->
     Forall (wf1 tv1 xl1) (present (m_fs m)) -> present (m_fs m) <> [] -> h1_ok (m_hdr m) -> h1_payload (m_hdr m) = [] ->
     v1_mto d m b = Ok (b1, m1) -> v1_mto d m1 b2 <> Ok x).
Proof.
  split; [vm_compute; reflexivity|]. split; [exact v1_remarshal_fails|exact v1_second_marshal_fails].
Qed.
Theorem C18_v0_not_reset_refuted :
  map md_name (filter (fun d => negb (md_reset d)) (d_Generic0 :: all_msgs0)) = ["DeletePDPContextResponse"] /\
  (forall b d m b' x, bytes_ok b -> v0_parse b = Ok (P0 d m) -> md_reset d = false ->
     Forall (wf1 tv0 xl0) (present (m_fs m)) -> present (m_fs m) <> [] -> v0_mto d m b' <> Ok x).
Proof. split; [vm_compute; reflexivity|exact v0_remarshal_fails]. Qed.
Example C17_not_reset_example : exists m b m1,
  v1_new Msgs1Gen.d_DeletePDPContextResponse 1 7 [Some (IE1 1 0 [128])] = Ok m /\
  v1_marshal Msgs1Gen.d_DeletePDPContextResponse m = Ok (b, m1) /\
  b = [50; 21; 0; 6; 0; 0; 0; 1; 0; 7; 0; 0; 1; 128] /\
  v1_parse b = Ok (P1 Msgs1Gen.d_DeletePDPContextResponse m1) /\
  v1_marshal Msgs1Gen.d_DeletePDPContextResponse m1 = Err ETooShortToMarshal.
Proof.
  ok_val (v1_new Msgs1Gen.d_DeletePDPContextResponse 1 7 [Some (IE1 1 0 [128])]) ltac:(fun m => exists m;
  ok_pair (v1_marshal Msgs1Gen.d_DeletePDPContextResponse m) ltac:(fun w m1 => exists w, m1)). done.
Qed.
Example C17_example : exists m b m1, v1_new Msgs1Gen.d_EchoResponse 0 7 [Some (IE1 14 0 [9]); None; Some (IE1 255 3 [1; 2; 3])] = Ok m /\
  v1_marshal Msgs1Gen.d_EchoResponse m = Ok (b, m1) /\ b = [50; 2; 0; 12; 0; 0; 0; 0; 0; 7; 0; 0; 14; 9; 255; 0; 3; 1; 2; 3] /\
  v1_parse b = Ok (P1 Msgs1Gen.d_EchoResponse m1).
Proof.
  ok_val (v1_new Msgs1Gen.d_EchoResponse 0 7 [Some (IE1 14 0 [9]); None; Some (IE1 255 3 [1; 2; 3])]) ltac:(fun m => exists m;
  ok_pair (v1_marshal Msgs1Gen.d_EchoResponse m) ltac:(fun w m1 => exists w, m1)). done.
Qed.
Example C18_example : exists m b m1, v0_new Msgs0Gen.d_DeletePDPContextResponse 7 8 9 [Some (IE1 1 0 [128])] = Ok m /\
  v0_marshal Msgs0Gen.d_DeletePDPContextResponse m = Ok (b, m1) /\
  b = [30; 21; 0; 2; 0; 7; 0; 8; 255; 255; 255; 255; 0; 0; 0; 0; 0; 0; 0; 9; 1; 128] /\
  v0_parse b = Ok (P0 Msgs0Gen.d_DeletePDPContextResponse m1) /\
  v0_marshal Msgs0Gen.d_DeletePDPContextResponse m1 = Err ETooShortToMarshal.
Proof.
  ok_val (v0_new Msgs0Gen.d_DeletePDPContextResponse 7 8 9 [Some (IE1 1 0 [128])]) ltac:(fun m => exists m;
  ok_pair (v0_marshal Msgs0Gen.d_DeletePDPContextResponse m) ltac:(fun w m1 => exists w, m1)). done.
Qed.
(** The Supported Extension Headers Notification takes a sequence number but its flags say
    there is none: it is lost (supported-extension-headers-notification.go). *)
Theorem C17_notification_sequence_refuted : exists m b m1 m2,
  v1_new Msgs1Gen.d_SupportedExtensionHeaderNotification 1 7 [Some (IE1 141 1 [64])] = Ok m /\
  v1_marshal Msgs1Gen.d_SupportedExtensionHeaderNotification m = Ok (b, m1) /\
  v1_parse b = Ok (P1 Msgs1Gen.d_SupportedExtensionHeaderNotification m2) /\
  h1_seq (m_hdr m) = 7 /\ h1_seq (m_hdr m2) = 0.
Proof.
  ok_val (v1_new Msgs1Gen.d_SupportedExtensionHeaderNotification 1 7 [Some (IE1 141 1 [64])]) ltac:(fun m => exists m;
  ok_pair (v1_marshal Msgs1Gen.d_SupportedExtensionHeaderNotification m) ltac:(fun w m1 => exists w, m1;
  ok_val (v1_parse w) ltac:(fun p => match p with P1 _ ?m2 => exists m2 end))). done.
Qed.
(** A parsed one-octet TV IE may become the last IE, and then is not parsed again. *)
Theorem C17_bare_tv_remarshal_refuted : exists b m b' m1, bytes_ok b /\
  v1_parse b = Ok (P1 Msgs1Gen.d_EchoRequest m) /\ v1_marshal Msgs1Gen.d_EchoRequest m = Ok (b', m1) /\
  v1_parse b' = Err ETooShortToParse.
Proof.
  exists [50; 1; 0; 9; 0; 0; 0; 0; 0; 7; 0; 0; 30; 255; 0; 1; 5].
  ok_val (v1_parse [50; 1; 0; 9; 0; 0; 0; 0; 0; 7; 0; 0; 30; 255; 0; 1; 5]) ltac:(fun p => match p with P1 _ ?m => exists m;
  ok_pair (v1_marshal Msgs1Gen.d_EchoRequest m) ltac:(fun w m1 => exists w, m1) end). split; [repeat constructor|]. done.
Qed.

(** ** T-PDUs (C17, C18) *)
Theorem C17_v1_encapsulate : forall teid p b, teid < 4294967296 -> bytes_ok p -> N.of_nat (8 + len p) < 65536 -> (8 + len p <= len b)%nat ->
  exists h, tpdu1_mto (encapsulate1 teid p) b = Ok (([48; 255] ++ enc16 (N.of_nat (len p)) ++ enc32 teid ++ p) ++ skipn (8 + len p) b, h) /\
  forall q, v1_parse (([48; 255] ++ enc16 (N.of_nat (len p)) ++ enc32 teid ++ p) ++ q) = Ok (P1_tpdu h) /\ h1_teid h = teid /\ h1_payload h = p.
Proof. exact tpdu1_plain. Qed.
Theorem C17_v1_encapsulate_exts : forall teid p es q, teid < 4294967296 -> bytes_ok p -> es <> [] ->
  (forall e r, es = e :: r -> eh_chain (eh_type e) es) -> Forall eh_ok es ->
  N.of_nat (12 + list_sum (map (fun e => 4 * N.to_nat (eh_length e)) es) + len p)%nat < 65536 ->
  exists w h, tpdu1_marshal (encapsulate1_exts teid p es) = Ok (w, h) /\
    w = [52; 255] ++ enc16 (N.of_nat (len w) - 8) ++ enc32 teid ++ [0; 0; 0; eh_type (hd (Ext1 0 0 [] 0) es)] ++ flat_map eh_wire es ++ p /\
    decapsulate1_exts (w ++ q) = Ok (teid, p, map eh_known es) /\ decapsulate1 (w ++ q) = Ok (teid, p).
Proof. exact tpdu1_exts_roundtrip. Qed.
Theorem C17_v1_tpdu_sequence : forall teid seq p q, teid < 4294967296 -> seq < 65536 -> bytes_ok p -> N.of_nat (12 + len p) < 65536 ->
  exists w h, tpdu1_marshal (new_tpdu1_seq teid seq p) = Ok (w, h) /\
  w = [50; 255] ++ enc16 (N.of_nat (4 + len p)) ++ enc32 teid ++ (enc16 seq ++ [0; 0]) ++ p /\
  h1_parse (w ++ q) = Ok h /\ h1_teid h = teid /\ h1_seq h = seq /\ h1_payload h = p.
Proof.
  intros teid seq p q A B C D. destruct (tpdu1_seq_roundtrip teid seq p q A B C D) as (h & H). eexists _, h. split; [apply H|]. split; [reflexivity|apply H].
Qed.
Theorem C18_v0_tpdu : forall seq label tid p b, seq < 65536 -> label < 65536 -> tid < 18446744073709551616 ->
  bytes_ok p -> N.of_nat (20 + len p) < 65536 -> (20 + len p <= len b)%nat ->
  exists w h, w = [30; 255] ++ enc16 (N.of_nat (len p)) ++ enc16 seq ++ enc16 label ++ [255; 255; 255; 255] ++ enc64 tid ++ p /\
    tpdu0_mto (new_tpdu0 seq label tid p) b = Ok (w ++ skipn (20 + len p) b, h) /\
    v0_parse w = Ok (P0_tpdu h) /\ decapsulate0 w = Ok (Some p).
Proof.
  intros seq label tid p b A B C D E F. destruct (tpdu0_roundtrip seq label tid p b A B C D E F) as (h & H1 & H2 & H3 & H4).
  exists (h0_octets h), h. split; [exact H4|]. rewrite <- H4 in H1. auto.
Qed.
Example C17_encapsulate_example : tpdu1_marshal (encapsulate1_exts 258 [69; 0] [new_ext1 133 [1; 2] 0]) =
  Ok ([52; 255; 0; 10; 0; 0; 1; 2; 0; 0; 0; 133; 1; 1; 2; 0; 69; 0], encapsulate1_exts 258 [69; 0] [new_ext1 133 [1; 2] 0]).
Proof. vm_compute. reflexivity. Qed.

(** ** C19 *)
Theorem C19_v1_dispatch : forall b p, bytes_ok b -> v1_parse b = Ok p ->
  exists t, idx b 1 = Ok t /\ h1_type (pdu1_hdr p) = t /\ pdu1_name p = ts29060 t.
Proof. exact v1_dispatch. Qed.
Theorem C19_v0_dispatch : forall b p, bytes_ok b -> v0_parse b = Ok p ->
  exists t, idx b 1 = Ok t /\ h0_type (pdu0_hdr p) = t /\ pdu0_name p = ts0960 t.
Proof. exact v0_dispatch. Qed.
Theorem C19_v1_names_distinct : forall d d', In d (d_Generic1 :: all_msgs1) -> In d' (d_Generic1 :: all_msgs1) -> md_name d = md_name d' -> d = d'.
Proof. intros d d'. apply name_unique1, nodups_NoDup, names1_nodup. Qed.
Theorem C19_v0_names_distinct : forall d d', In d (d_Generic0 :: all_msgs0) -> In d' (d_Generic0 :: all_msgs0) -> md_name d = md_name d' -> d = d'.
Proof. intros d d'. apply name_unique1, nodups_NoDup, names0_nodup. Qed.
Example C19_v1_example : pdu1_name (P1_tpdu (new_tpdu1 1 [])) = ts29060 255 /\ exists p, v1_parse [48; 77; 0; 0; 0; 0; 0; 1] = Ok p /\ pdu1_name p = "Generic".
Proof. split; [reflexivity|]. ok_val (v1_parse [48; 77; 0; 0; 0; 0; 0; 1]) ltac:(fun p => exists p). done. Qed.

(** ** C20 *)
Theorem C20_v1_new_keeps : forall d teid seq pre i post m, In d keeping1 ->
  v1_new d teid seq (pre ++ Some i :: post) = Ok m ->
  (exists f, In f (map fst (md_fields d)) /\ In (Some i) (fget (m_fs m) f)) \/
  (exists f j, In (f, FSingle) (md_fields d) /\ In (Some j) post /\ i1_type j = i1_type i /\ fget (m_fs m) f = [Some j]).
Proof. exact v1_new_keeps. Qed.
Theorem C20_v1_parse_keeps : forall b d m pre i post, In d keeping1p -> bytes_ok b -> v1_parse b = Ok (P1 d m) ->
  h1_payload (m_hdr m) = flat_map (wire1 xl1) (pre ++ i :: post) -> Forall (wf1 tv1 xl1) (pre ++ i :: post) ->
  (exists f, In f (map fst (md_fields d)) /\ In (Some i) (fget (m_fs m) f)) \/
  (exists f j, In (f, FSingle) (md_fields d) /\ In j post /\ i1_type j = i1_type i /\ fget (m_fs m) f = [Some j]).
Proof. exact v1_parse_keeps. Qed.
Theorem C20_v0_new_keeps : forall d seq label tid pre i post m, In d (d_Generic0 :: all_msgs0) ->
  v0_new d seq label tid (pre ++ Some i :: post) = Ok m ->
  (exists f, In f (map fst (md_fields d)) /\ In (Some i) (fget (m_fs m) f)) \/
  (exists f j, In (f, FSingle) (md_fields d) /\ In (Some j) post /\ i1_type j = i1_type i /\ fget (m_fs m) f = [Some j]).
Proof. exact v0_new_keeps. Qed.
Theorem C20_v0_parse_keeps : forall b d m pre i post, bytes_ok b -> v0_parse b = Ok (P0 d m) ->
  h0_payload (m_hdr m) = flat_map (wire1 xl0) (pre ++ i :: post) -> Forall (wf1 tv0 xl0) (pre ++ i :: post) ->
  (exists f, In f (map fst (md_fields d)) /\ In (Some i) (fget (m_fs m) f)) \/
  (exists f j, In (f, FSingle) (md_fields d) /\ In j post /\ i1_type j = i1_type i /\ fget (m_fs m) f = [Some j]).
Proof. exact v0_parse_keeps. Qed.
Example C20_v1_covered : map md_name (filter (fun d => mem (md_name d) drops_new1) (d_Generic1 :: all_msgs1)) = ["CreatePDPContextResponse"; "UpdatePDPContextResponse"]
  /\ map md_name (filter (fun d => mem (md_name d) drops_unm1) (d_Generic1 :: all_msgs1)) = ["UpdatePDPContextResponse"].
Proof. split; vm_compute; reflexivity. Qed.
(** Both responses have two charging gateway fields and lose a third one. *)
Theorem C20_v1_dropping_refuted : exists i1 i2 i3 m m', NoDup [i1; i2; i3] /\ Forall (wf1 tv1 xl1) [i1; i2; i3] /\
  v1_new Msgs1Gen.d_CreatePDPContextResponse 1 7 [Some i1; Some i2; Some i3] = Ok m /\
  v1_new Msgs1Gen.d_UpdatePDPContextResponse 1 7 [Some i1; Some i2; Some i3] = Ok m' /\
  present (m_fs m) = [i1; i2] /\ present (m_fs m') = [i1; i2].
Proof.
  exists (IE1 251 4 [1; 1; 1; 1]), (IE1 251 4 [2; 2; 2; 2]), (IE1 251 4 [3; 3; 3; 3]).
  ok_val (v1_new Msgs1Gen.d_CreatePDPContextResponse 1 7 [Some (IE1 251 4 [1; 1; 1; 1]); Some (IE1 251 4 [2; 2; 2; 2]); Some (IE1 251 4 [3; 3; 3; 3])]) ltac:(fun m => exists m).
  ok_val (v1_new Msgs1Gen.d_UpdatePDPContextResponse 1 7 [Some (IE1 251 4 [1; 1; 1; 1]); Some (IE1 251 4 [2; 2; 2; 2]); Some (IE1 251 4 [3; 3; 3; 3])]) ltac:(fun m => exists m).
  split; [repeat constructor; cbn; intuition discriminate|]. split.
  - repeat (apply Forall_cons; [apply wf1_tlv; try reflexivity; try (repeat constructor); discriminate|]). constructor.
  - done.
Qed.

(** ** C21 for v1 and v0 IEs and headers *)
Theorem C21_v1_ie_marshal_to : forall i b, wf1 tv1 xl1 i -> (mlen1 tv1 xl1 i <= len b)%nat ->
  exists w, marshal1 tv1 xl1 i = Ok w /\ len w = mlen1 tv1 xl1 i /\ mto1 tv1 xl1 i b = Ok (w ++ skipn (len w) b).
Proof.
  intros i b Hi H. pose proof (wf1_len _ _ tv1_lt xl1_ge i Hi) as Hl. exists (wire1 xl1 i).
  split; [apply (marshal1_ok _ _ tv1_lt xl1_ge), Hi|]. split; [exact Hl|]. apply (mto1_writes _ _ tv1_lt xl1_ge i Hi). rewrite Hl. exact H.
Qed.
Theorem C21_v0_ie_marshal_to : forall i b, wf1 tv0 xl0 i -> (mlen1 tv0 xl0 i <= len b)%nat ->
  exists w, marshal1 tv0 xl0 i = Ok w /\ len w = mlen1 tv0 xl0 i /\ mto1 tv0 xl0 i b = Ok (w ++ skipn (len w) b).
Proof.
  intros i b Hi H. pose proof (wf1_len _ _ tv0_lt xl0_ge i Hi) as Hl. exists (wire1 xl0 i).
  split; [apply (marshal1_ok _ _ tv0_lt xl0_ge), Hi|]. split; [exact Hl|]. apply (mto1_writes _ _ tv0_lt xl0_ge i Hi). rewrite Hl. exact H.
Qed.
Theorem C21_v0_header_marshal_to : forall h b, h0_ok h -> (h0_mlen h <= len b)%nat ->
  exists w, h0_marshal h = Ok w /\ len w = h0_mlen h /\ h0_mto h b = Ok (w ++ skipn (len w) b).
Proof.
  intros h b Hh H. exists (h0_octets h). split; [apply h0_marshal_ok, Hh|]. split; [apply h0_octets_len|].
  apply h0_mto_ok; [apply Hh|rewrite h0_octets_len; exact H].
Qed.
(** GTPv1: nothing behind the announced size is touched; inside it the optional octets
    whose flag is not set keep what the buffer held (next theorem). *)
Theorem C21_v1_header_marshal_to : forall h b, h1_ok h -> (h1_mlen h <= len b)%nat ->
  exists w, len w = h1_mlen h /\ h1_mto h b = Ok (w ++ skipn (h1_mlen h) b) /\
    (N.land (h1_flags h) 7 = 0 \/ (N.land (h1_flags h) 7 = 7 /\ Forall (fun e => Nat.modulo (len (eh_content e)) 4 = 2%nat) (h1_exts h)) ->
     h1_marshal h = Ok w).
Proof.
  intros h b Hh H. assert (Hx : exts_fine h) by (intros E; apply (h1o_exts h Hh E)).
  destruct (h1_mto_ok h b Hx H) as [E L]. exists (h1_octets b h). split; [exact L|]. split; [exact E|].
  intros Hf. rewrite h1_marshal_ok by exact Hx. rewrite <- (h1_octets_zeros h (h1_mlen h)) by (auto; apply le_n). f_equal.
  pose proof (N.land_spec (h1_flags h) 7) as S. pose proof (S 2) as S2. pose proof (S 1) as S1. pose proof (S 0) as S0.
  change (N.testbit 7 2) with true in S2. change (N.testbit 7 1) with true in S1. change (N.testbit 7 0) with true in S0.
  rewrite andb_true_r in S0, S1, S2. unfold h1_octets. cbv zeta. rewrite <- S0, <- S1, <- S2.
  destruct Hf as [Hf|[Hf Hp]]; rewrite Hf; [reflexivity|].
  change (N.testbit 7 2) with true. change (N.testbit 7 1) with true. change (N.testbit 7 0) with true. cbn [orb].
  assert (Hz : Forall (fun e => eh_pad e = 0%nat) (h1_exts h)).
  { rewrite Hf in S2. assert (Hxx : Forall eh_ok (h1_exts h)) by (apply Hx; rewrite <- S2; reflexivity).
    rewrite Forall_forall in *. intros e He. specialize (Hp e He). destruct (Hxx e He) as [_ _ _ _ Hfit]. unfold eh_pad.
    pose proof (Nat.div_mod (len (eh_content e)) 4). lia. }
  rewrite !exts_octets_exact by exact Hz. reflexivity.
Qed.
Theorem C21_v1_dirty_buffer_refuted : exists b w b', len b = 12%nat /\
  h1_marshal (new_hdr1 50 1 0 7 []) = Ok w /\ h1_mto (new_hdr1 50 1 0 7 []) b = Ok b' /\ len w = 12%nat /\ w <> b' /\
  b' = [50; 1; 0; 4; 0; 0; 0; 0; 0; 7; 99; 99].
Proof. exists (repeat 99 12), [50; 1; 0; 4; 0; 0; 0; 0; 0; 7; 0; 0], [50; 1; 0; 4; 0; 0; 0; 0; 0; 7; 99; 99]. vm_compute. repeat split; discriminate. Qed.
Example C21_v1_example : mto1 tv1 xl1 (IE1 141 2 [64; 192]) [9; 9; 9; 9; 9; 9] = Ok [141; 2; 64; 192; 9; 9].
Proof. vm_compute. reflexivity. Qed.

Print Assumptions C02_v1_parse_total.
Print Assumptions C02_v1_parse_as_total.
Print Assumptions C02_v1_decapsulate_total.
Print Assumptions C03_v0_parse_total.
Print Assumptions C03_v0_parse_as_total.
Print Assumptions C04_gtp_parse_total.
Print Assumptions C04_gtp_parse_version.
Print Assumptions C04_gtp_parse_accepts.
Print Assumptions C04_gtp_parse_short.
Print Assumptions C05_v1_multi_total.
Print Assumptions C05_v0_multi_total.
Print Assumptions C05_v1_multi_consumes_all.
Print Assumptions C05_v0_multi_consumes_all.
Print Assumptions C08_v1_ie_roundtrip.
Print Assumptions C09_v0_ie_roundtrip.
Print Assumptions C08_v1_ie_list_roundtrip.
Print Assumptions C09_v0_ie_list_roundtrip.
Print Assumptions C08_v1_new_consistent.
Print Assumptions C09_v0_new_consistent.
Print Assumptions C08_v1_parse_exact.
Print Assumptions C09_v0_parse_exact.
Print Assumptions C11_v1_header_roundtrip.
Print Assumptions C11_v1_built_header_roundtrip.
Print Assumptions C11_v1_header_parse_total.
Print Assumptions C11_v1_header_parse_exact.
Print Assumptions C13_chain_roundtrip.
Print Assumptions C13_one_roundtrip.
Print Assumptions C13_new_ext_ok.
Print Assumptions C13_parse_exact.
Print Assumptions C13_parse_total.
Print Assumptions C12_v0_header_roundtrip.
Print Assumptions C12_v0_new_header_consistent.
Print Assumptions C12_v0_header_parse_total.
Print Assumptions C17_v1_size_and_layout.
Print Assumptions C18_v0_size_and_layout.
Print Assumptions C17_v1_roundtrip.
Print Assumptions C17_v1_generic_roundtrip.
Print Assumptions C18_v0_roundtrip.
Print Assumptions C17_v1_remarshal.
Print Assumptions C17_v1_tpdu_remarshal.
Print Assumptions C18_v0_remarshal.
Print Assumptions C17_v1_encapsulate.
Print Assumptions C17_v1_encapsulate_exts.
Print Assumptions C17_v1_tpdu_sequence.
Print Assumptions C18_v0_tpdu.
Print Assumptions C19_v1_dispatch.
Print Assumptions C19_v0_dispatch.
Print Assumptions C19_v1_names_distinct.
Print Assumptions C19_v0_names_distinct.
Print Assumptions C20_v1_new_keeps.
Print Assumptions C20_v1_parse_keeps.
Print Assumptions C20_v0_new_keeps.
Print Assumptions C20_v0_parse_keeps.
Print Assumptions C21_v1_ie_marshal_to.
Print Assumptions C21_v0_ie_marshal_to.
Print Assumptions C21_v0_header_marshal_to.
Print Assumptions C21_v1_header_marshal_to.
