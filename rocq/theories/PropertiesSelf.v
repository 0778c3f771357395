(** C65: what a parsed message says about itself is what the datagram says. *)
From Coq Require Import String Lia.
From Verif Require Import Base BaseLemmas Utils UtilsProofs V2IE V2Header V1Header V0Header MsgModel MsgProofs MsgSpec MsgSpec1
  MsgProofs2 MsgProofs3 GenericMsg Msgs2Gen V2Msg V1Msg V0Msg V1HeaderSpec V0HeaderSpec V2HeaderProofs V1HeaderProofs V0HeaderProofs
  V2MsgProofs V1MsgProofs V0MsgProofs MsgSelf SelfSpec.
Open Scope string_scope.
Open Scope N_scope.
Open Scope list_scope.

Lemma num16 v r : v < 65536 -> fold_left (fun a x => a * 256 + x) (firstn 2 (enc16 v ++ r)) 0 = v.
Proof. intros H. unfold enc16. cbn [app firstn fold_left]. lia. Qed.
Lemma num24 v r : v < 16777216 -> fold_left (fun a x => a * 256 + x) (firstn 3 (enc24 v ++ r)) 0 = v.
Proof. intros H. unfold enc24. cbn [app firstn fold_left]. lia. Qed.
Lemma num32 v r : v < 4294967296 -> fold_left (fun a x => a * 256 + x) (firstn 4 (enc32 v ++ r)) 0 = v.
Proof. intros H. unfold enc32. cbn [app firstn fold_left]. lia. Qed.
Lemma skip4 (f t l : N) x : skipn 4 ([f; t] ++ enc16 l ++ x) = x.
Proof. reflexivity. Qed.
Lemma skip8 (f t l d : N) x : skipn 8 ([f; t] ++ enc16 l ++ enc32 d ++ x) = x.
Proof. reflexivity. Qed.
Lemma bit_of f k : (N.land (N.shiftr f k) 1 =? 1) = N.testbit f k.
Proof. rewrite N.testbit_eqb, <- N.shiftr_div_pow2. change 1 with (N.ones 1) at 1. rewrite N.land_ones. reflexivity. Qed.
Lemma upper_half x : x < 256 -> N.land x 240 = x / 16 * 16.
Proof.
  intros H. apply N.eqb_eq. revert x H. apply (below_sweep 256 (fun x => N.land x 240 =? x / 16 * 16)). vm_compute. reflexivity.
Qed.

(** ** GTPv2-C *)
Lemma names2_spec : forallb (fun t => String.eqb (name_of names2 (ts29274 t) t) (name29274 t)) (below 256) = true.
Proof. vm_compute. reflexivity. Qed.
Lemma v2_hdr g b d m : v2_parse g b = Ok (d, m) -> h2_parse b = Ok (m_hdr m).
Proof.
  intros H. destruct (v2_parse_parts g b d m H) as (t & _ & _ & _ & Hp). unfold v2_parse_as, msg_parse in Hp.
  apply bind_ok_inv in Hp. destruct Hp as (h & Eh & Hp). cbn [ho2 ho_parse] in Eh. rewrite Eh. f_equal.
  destruct (len (ho_payload ho2 h) <? md_min d)%nat; [injection Hp as <-; reflexivity|].
  destruct (io_multi (io2 g) (ho_payload ho2 h)) as [l|e|]; [| |discriminate].
  - rewrite run_table_some in Hp. injection Hp as <-. reflexivity.
  - destruct e; try discriminate. destruct (md_soft d); [injection Hp as <-; reflexivity|discriminate].
Qed.
(** MessageType is octet 1, MessageTypeName its name in TS 29.274, TEID the octets 4 to 7 if
    the T flag is set and 0 otherwise, Sequence the three octets after that, and the flags are
    the bits of octet 0. *)
Theorem C65_v2_says : forall g b d m, bytes_ok b -> v2_parse g b = Ok (d, m) ->
  let h := m_hdr m in let t := N.testbit (octet b 0) 3 in
  message_type2 h = octet b 1 /\
  name_of names2 (md_name d) (h2_type h) = name29274 (octet b 1) /\
  teid2 h = (if t then number b 4 4 else 0) /\
  sequence2 h = number b (if t then 8 else 4)%nat 3 /\
  h2_has_teid h = t /\ h2_piggy h = N.testbit (octet b 0) 4 /\ h2_has_prio h = N.testbit (octet b 0) 2 /\
  h2_prio h = octet b (if t then 11 else 7)%nat / 16 * 16.
Proof.
  intros g b d m Hb H h t. pose proof (v2_dispatch g b d m Hb H) as (y & Ey & Ety & En). pose proof (v2_hdr g b d m H) as Hp. fold h in Hp, Ety.
  destruct (h2_parse_inv b h Hb Hp) as (R1 & R2 & R3 & R4 & R5 & R6 & R7 & R8 & I0 & I1 & q & Eb).
  assert (O0 : octet b 0 = h2_flags h) by (rewrite Eb; reflexivity).
  assert (O1 : octet b 1 = h2_type h) by (rewrite Eb; reflexivity).
  assert (Et : h2_has_teid h = t) by (unfold t; rewrite O0; apply bit_of).
  rewrite O1. split; [reflexivity|]. split.
  { rewrite En, <- Ety. pose proof names2_spec as S. rewrite forallb_forall in S. apply String.eqb_eq, S, below_complete, R2. }
  unfold teid2, sequence2, h2_get_teid, h2_prio. rewrite Et.
  unfold h2_wire, h2_wire_head in Eb. rewrite Et in Eb. unfold number, octet. rewrite Eb. rewrite <- !app_assoc.
  rewrite upper_half by exact R7.
  assert (B4 : h2_piggy h = N.testbit (h2_flags h) 4) by apply bit_of.
  assert (B2 : h2_has_prio h = N.testbit (h2_flags h) 2) by apply bit_of.
  rewrite Eb in O0. unfold octet in O0. rewrite <- !app_assoc in O0. rewrite O0, B4, B2.
  destruct t.
  - rewrite skip4, skip8, num32, num24 by assumption. repeat split; reflexivity.
  - rewrite app_nil_l, skip4, num24 by assumption. repeat split; reflexivity.
Qed.
Print Assumptions C65_v2_says.
Example C65_v2_says_example : let b := [72; 33; 0; 9; 0; 0; 1; 2; 0; 0; 7; 0; 0] in
  bytes_ok b /\ option_map (fun x => (name_of names2 (md_name (fst x)) (h2_type (m_hdr (snd x))), teid2 (m_hdr (snd x)), sequence2 (m_hdr (snd x))))
    (match v2_parse default_grouped [72; 33; 0; 8; 0; 0; 1; 2; 0; 0; 7; 0] with Ok x => Some x | _ => None end) =
  Some ("Create Session Response", 258, 7).
Proof. split; [repeat constructor|vm_compute; reflexivity]. Qed.
(** Two received messages with the same name are of the same type. *)
Theorem C65_v2_name_tells : forall g b1 d1 m1 b2 d2 m2, bytes_ok b1 -> bytes_ok b2 ->
  v2_parse g b1 = Ok (d1, m1) -> v2_parse g b2 = Ok (d2, m2) ->
  name_of names2 (md_name d1) (h2_type (m_hdr m1)) = name_of names2 (md_name d2) (h2_type (m_hdr m2)) ->
  octet b1 1 = octet b2 1.
Proof.
  intros g b1 d1 m1 b2 d2 m2 Hb1 Hb2 H1 H2 E.
  destruct (C65_v2_says g b1 d1 m1 Hb1 H1) as (_ & N1 & _). destruct (C65_v2_says g b2 d2 m2 Hb2 H2) as (_ & N2 & _).
  rewrite N1, N2 in E.
  assert (B : forall b k, bytes_ok b -> octet b k < 256).
  { intros b k Hb. unfold octet. destruct (nth_in_or_default k b 0) as [Hi| ->]; [|reflexivity]. exact (proj1 (Forall_forall _ _) Hb _ Hi). }
  assert (S : forallb (fun x => forallb (fun y => implb (String.eqb (name29274 x) (name29274 y)) (x =? y)) (below 256)) (below 256) = true)
    by (vm_compute; reflexivity).
  rewrite forallb_forall in S. specialize (S _ (below_complete 256 _ (B b1 1%nat Hb1))). rewrite forallb_forall in S.
  specialize (S _ (below_complete 256 _ (B b2 1%nat Hb2))). rewrite E, String.eqb_refl in S. apply N.eqb_eq, S.
Qed.
Print Assumptions C65_v2_name_tells.
(** Version says 2 even if the datagram says otherwise. *)
Theorem C65_v2_version_refuted : forall v, v < 8 -> exists b d m,
  bytes_ok b /\ octet b 0 / 32 = v /\ v2_parse default_grouped b = Ok (d, m) /\ version2 (m_hdr m) = 2.
Proof.
  intros v Hv. exists [v * 32 + 8; 33; 0; 8; 0; 0; 1; 2; 0; 0; 7; 0].
  assert (E : In v (below 8)) by (apply below_complete, Hv).
  repeat (destruct E as [<-|E]; [do 2 eexists; split; [repeat constructor|]; split; [reflexivity|]; split; [vm_compute; reflexivity|reflexivity]|]).
  destruct E.
Qed.
Print Assumptions C65_v2_version_refuted.

(** ** GTPv1 *)
Definition named1 (p : pdu1) : string := name_of names1 (pdu1_name p) (h1_type (pdu1_hdr p)).
Lemma names1_spec : forallb (fun t => implb (negb ((t =? 26) || (t =? 31) || (t =? 255)))
  (String.eqb (name_of names1 (ts29060 t) t) (name29060 t))) (below 256) = true.
Proof. vm_compute. reflexivity. Qed.
Theorem C65_v1_says : forall b p, bytes_ok b -> v1_parse b = Ok p ->
  let h := pdu1_hdr p in
  message_type1 h = octet b 1 /\ teid1 h = number b 4 4 /\
  sequence1 h = (if N.testbit (octet b 0) 1 then number b 8 2 else 0) /\
  h1_npdu h = (if N.testbit (octet b 0) 0 then octet b 10 else 0) /\
  has_sequence1 h = N.testbit (octet b 0) 1 /\ has_npdu1 h = N.testbit (octet b 0) 0 /\ has_ext1 h = N.testbit (octet b 0) 2.
Proof.
  intros b p Hb H h. destruct (v1_parse_parts b p Hb H) as (y & Ey & Ety & Eh & _ & _). fold h in Ety, Eh.
  destruct (h1_parse_inv b h Hb Eh) as (Hok & _ & _ & _ & Kn & _ & q & Eb). destruct Hok as [R1 R2 R3 R4 R5 R6 _].
  assert (O0 : octet b 0 = h1_flags h) by (rewrite Eb; reflexivity).
  assert (O1 : octet b 1 = h1_type h) by (rewrite Eb; reflexivity).
  destruct (f1_bits (h1_flags h)) as (B2 & B1 & B0).
  rewrite O0, O1. split; [reflexivity|].
  split. { unfold teid1, number. rewrite Eb. unfold h1_octets. rewrite <- !app_assoc, skip4, num32 by assumption. reflexivity. }
  split. { unfold sequence1, number. destruct (N.testbit (h1_flags h) 1) eqn:E1.
    - rewrite Eb. unfold h1_octets. rewrite E1, Bool.orb_true_r, Bool.orb_true_l, <- !app_assoc, skip8, num16 by assumption. reflexivity.
    - rewrite <- Kn. unfold h1_known. cbn [h1_seq]. rewrite E1. reflexivity. }
  split. { destruct (N.testbit (h1_flags h) 0) eqn:E1.
    - unfold octet. pose proof (f_equal (fun l => nth 10 l 0) Eb) as E10. cbv beta in E10.
      unfold h1_octets in E10. rewrite E1, Bool.orb_true_r, <- !app_assoc in E10. rewrite E10 at 1. clear E10.
      assert (L : forall (x : bytes) y, len x = 2%nat -> nth 10 ([h1_flags h; h1_type h] ++ enc16 (h1_length h) ++ enc32 (h1_teid h) ++ x ++ [h1_npdu h] ++ y) 0 = h1_npdu h).
      { intros [|x1 [|x2 [|]]] z; try discriminate. reflexivity. }
      symmetry. apply L. destruct (N.testbit (h1_flags h) 1); [reflexivity|].
      assert (Hl : (11 <= len b)%nat).
      { pose proof (f_equal (@List.length N) Eb) as El. unfold h1_octets in El. rewrite E1, Bool.orb_true_r in El.
        rewrite !app_length in El. cbn [List.length enc16 enc32] in El.
        destruct (le_lt_dec 11 (len b)) as [|Hs]; [assumption|exfalso].
        unfold h1_parse in Eh. destruct (len b <? 8)%nat eqn:E8; [discriminate|]. apply Nat.ltb_ge in E8.
        assert (I0 : idx b 0 = Ok (h1_flags h)) by (rewrite Eb; reflexivity).
        rewrite I0 in Eh. cbn [bind] in Eh. apply bind_ok_inv in Eh. destruct Eh as (ty & _ & Eh).
        apply bind_ok_inv in Eh. destruct Eh as (s1 & _ & Eh). apply bind_ok_inv in Eh. destruct Eh as (ln & _ & Eh).
        apply bind_ok_inv in Eh. destruct Eh as (s2 & _ & Eh). apply bind_ok_inv in Eh. destruct Eh as (te & _ & Eh).
        destruct (len b <? N.to_nat ln + 8)%nat eqn:EL; [discriminate|]. apply Nat.ltb_ge in EL.
        apply bind_ok_inv in Eh. destruct Eh as (o & Ho & _). rewrite f1_opt_bits, E1, Bool.orb_true_r in Ho.
        destruct (ln <? 4) eqn:E4; [discriminate|]. apply N.ltb_ge in E4. lia. }
      rewrite firstn_length, skipn_length. lia.
    - rewrite <- Kn. unfold h1_known. cbn [h1_npdu]. rewrite E1. reflexivity. }
  unfold has_sequence1, has_npdu1, has_ext1. auto.
Qed.
Print Assumptions C65_v1_says.
Example C65_v1_says_example : let b := [51; 255; 0; 6; 0; 0; 1; 2; 0; 9; 4; 0; 69; 0] in
  bytes_ok b /\ option_map (fun p => (teid1 (pdu1_hdr p), sequence1 (pdu1_hdr p), h1_npdu (pdu1_hdr p)))
    (match v1_parse b with Ok p => Some p | _ => None end) = Some (258, 9, 4).
Proof. split; [repeat constructor|vm_compute; reflexivity]. Qed.
(** The name is the one of the 3GPP tables but for three types. *)
Theorem C65_v1_name_partial : forall b p, bytes_ok b -> v1_parse b = Ok p ->
  octet b 1 <> 26 -> octet b 1 <> 31 -> octet b 1 <> 255 -> named1 p = name29060 (octet b 1).
Proof.
  intros b p Hb H N1 N2 N3. destruct (v1_dispatch b p Hb H) as (y & Ey & Ety & En).
  destruct (C65_v1_says b p Hb H) as (Hm & _). unfold message_type1 in Hm. unfold named1. rewrite En, Ety. rewrite Ety in Hm. rewrite Hm.
  assert (Hy : octet b 1 < 256).
  { unfold octet. destruct (nth_in_or_default 1 b 0) as [Hi| ->]; [|reflexivity]. exact (proj1 (Forall_forall _ _) Hb _ Hi). }
  pose proof names1_spec as S. rewrite forallb_forall in S. specialize (S _ (below_complete 256 _ Hy)).
  apply N.eqb_neq in N1, N2, N3. rewrite N1, N2, N3 in S. apply String.eqb_eq, S.
Qed.
Print Assumptions C65_v1_name_partial.
Example C65_v1_name_example :
  option_map named1 (match v1_parse [50; 1; 0; 4; 0; 0; 0; 0; 0; 9; 0; 0] with Ok p => Some p | _ => None end) = Some "Echo Request" /\
  option_map named1 (match v1_parse [48; 77; 0; 0; 0; 0; 0; 0] with Ok p => Some p | _ => None end) = Some "Unknown (77)".
Proof. vm_compute. auto. Qed.
(** Error Indication is misspelt, type 31 lacks an s, and the G-PDU is named after its content. *)
Theorem C65_v1_name_refuted : forall b p, bytes_ok b -> v1_parse b = Ok p ->
  (octet b 1 = 26 -> named1 p = "Errror Indication") /\
  (octet b 1 = 31 -> named1 p = "Supported Extension Header Notification") /\
  (octet b 1 = 255 -> named1 p = "T-PDU").
Proof.
  intros b p Hb H. destruct (v1_dispatch b p Hb H) as (y & Ey & Ety & En).
  destruct (C65_v1_says b p Hb H) as (Hm & _). unfold message_type1 in Hm. unfold named1. rewrite En, Ety. rewrite Ety in Hm. rewrite Hm.
  repeat split; intros ->; reflexivity.
Qed.
Print Assumptions C65_v1_name_refuted.
(** Still, two received messages with the same name are of the same type. *)
Theorem C65_v1_name_tells : forall b1 p1 b2 p2, bytes_ok b1 -> bytes_ok b2 -> v1_parse b1 = Ok p1 -> v1_parse b2 = Ok p2 ->
  named1 p1 = named1 p2 -> octet b1 1 = octet b2 1.
Proof.
  intros b1 p1 b2 p2 Hb1 Hb2 H1 H2 E.
  destruct (v1_dispatch b1 p1 Hb1 H1) as (y1 & _ & T1 & N1). destruct (C65_v1_says b1 p1 Hb1 H1) as (M1 & _).
  destruct (v1_dispatch b2 p2 Hb2 H2) as (y2 & _ & T2 & N2). destruct (C65_v1_says b2 p2 Hb2 H2) as (M2 & _).
  unfold message_type1 in M1, M2. unfold named1 in E. rewrite N1, N2, T1, T2 in E. rewrite T1 in M1. rewrite T2 in M2. rewrite M1, M2 in E.
  assert (B : forall b k, bytes_ok b -> octet b k < 256).
  { intros b k Hb. unfold octet. destruct (nth_in_or_default k b 0) as [Hi| ->]; [|reflexivity]. exact (proj1 (Forall_forall _ _) Hb _ Hi). }
  assert (S : forallb (fun x => forallb (fun y => implb (String.eqb (name_of names1 (ts29060 x) x) (name_of names1 (ts29060 y) y)) (x =? y)) (below 256)) (below 256) = true)
    by (vm_compute; reflexivity).
  rewrite forallb_forall in S. specialize (S _ (below_complete 256 _ (B b1 1%nat Hb1))). rewrite forallb_forall in S.
  specialize (S _ (below_complete 256 _ (B b2 1%nat Hb2))). rewrite E, String.eqb_refl in S. apply N.eqb_eq, S.
Qed.
Print Assumptions C65_v1_name_tells.

(** ** GTPv0 *)
Definition named0 (p : pdu0) : string := name_of names0 (pdu0_name p) (h0_type (pdu0_hdr p)).
Lemma names0_spec : forallb (fun t => String.eqb (name_of names0 (ts0960 t) t) (name0960 t)) (below 256) = true.
Proof. vm_compute. reflexivity. Qed.
Lemma halves_byte : forallb (fun x => match hex_encode [swap_byte x] with [a; c] => (a =? half (x mod 16)) && (c =? half (x / 16)) | _ => false end)
  (below 256) = true.
Proof. vm_compute. reflexivity. Qed.
Lemma swapped_halves b : bytes_ok b -> swapped_to_str b false = Ok (halves b).
Proof.
  intros H. rewrite swapped_to_str_alt. destruct b as [|x0 r0] eqn:Eb; [reflexivity|]. cbn [List.length Nat.eqb]. rewrite <- Eb in *. clear Eb.
  f_equal. induction H as [|x r Hx Hr IH]; [reflexivity|].
  change (hex_encode (swap (x :: r))) with (hex_encode [swap_byte x] ++ hex_encode (swap r)). rewrite IH.
  change (halves (x :: r)) with ([half (x mod 16); half (x / 16)] ++ halves r). f_equal.
  pose proof halves_byte as S. rewrite forallb_forall in S. specialize (S _ (below_complete 256 _ Hx)).
  destruct (hex_encode [swap_byte x]) as [|a [|c [|]]]; try discriminate S.
  apply andb_true_iff in S. destruct S as [S1 S2]. apply N.eqb_eq in S1, S2. subst. reflexivity.
Qed.
(** TID is the octets 12 to 19 as digits. *)
Theorem C65_v0_says : forall b p, bytes_ok b -> v0_parse b = Ok p ->
  let h := pdu0_hdr p in
  message_type0 h = octet b 1 /\ named0 p = name0960 (octet b 1) /\
  h0_seq h = number b 4 2 /\ h0_label h = number b 6 2 /\ h0_tid h = number b 12 8 /\
  tid0 h = Ok (halves (firstn 8 (skipn 12 b))).
Proof.
  intros b p Hb H h. destruct (v0_parse_parts b p Hb H) as (y & Ey & Ety & Eh & _ & _). fold h in Ety, Eh.
  destruct (v0_dispatch b p Hb H) as (y' & Ey' & Ety' & En). fold h in Ety'. rewrite Ey in Ey'. injection Ey' as <-. clear Ety'.
  assert (O1 : octet b 1 = y).
  { unfold idx in Ey. unfold octet. destruct (nth_error b 1) as [x|] eqn:E1; [|discriminate]. injection Ey as ->.
    exact (nth_error_nth _ _ _ E1). }
  rewrite O1. split; [exact Ety|]. split.
  { unfold named0. fold h. rewrite En, Ety. pose proof names0_spec as S. rewrite forallb_forall in S.
    apply String.eqb_eq, S, below_complete. rewrite <- O1. unfold octet.
    destruct (nth_in_or_default 1 b 0) as [Hi| ->]; [|reflexivity]. exact (proj1 (Forall_forall _ _) Hb _ Hi). }
  unfold h0_parse in Eh. destruct (len b <? 20)%nat eqn:E; [discriminate|]. apply Nat.ltb_ge in E.
  destruct (len20 b E) as (a0 & a1 & a2 & a3 & a4 & a5 & a6 & a7 & a8 & a9 & b0 & b1 & b2 & b3 & b4 & b5 & b6 & b7 & b8 & b9 & r & Eb).
  assert (Hall : b2 < 256 /\ b3 < 256 /\ b4 < 256 /\ b5 < 256 /\ b6 < 256 /\ b7 < 256 /\ b8 < 256 /\ b9 < 256).
  { rewrite Eb in Hb. repeat match goal with H : bytes_ok (_ :: _) |- _ => inv H | H : Forall _ (_ :: _) |- _ => inv H end. repeat split; assumption. }
  assert (I0 : idx b 0 = Ok a0) by (rewrite Eb; reflexivity).
  assert (I1 : idx b 1 = Ok a1) by (rewrite Eb; reflexivity).
  assert (I9 : idx b 9 = Ok a9) by (rewrite Eb; reflexivity).
  assert (I2 : slice b 2 4 = Ok [a2; a3]) by (rewrite Eb; reflexivity).
  assert (I4 : slice b 4 6 = Ok [a4; a5]) by (rewrite Eb; reflexivity).
  assert (I6 : slice b 6 8 = Ok [a6; a7]) by (rewrite Eb; reflexivity).
  assert (I12 : slice b 12 20 = Ok [b2; b3; b4; b5; b6; b7; b8; b9]) by (rewrite Eb; reflexivity).
  rewrite I0, I1, I2, I4, I6, I9, I12 in Eh. cbn [bind be16 be64] in Eh.
  assert (N4 : number b 4 2 = a4 * 256 + a5) by (rewrite Eb; reflexivity).
  assert (N6 : number b 6 2 = a6 * 256 + a7) by (rewrite Eb; reflexivity).
  assert (N12 : number b 12 8 = (b2 * 16777216 + b3 * 65536 + b4 * 256 + b5) * 4294967296 + (b6 * 16777216 + b7 * 65536 + b8 * 256 + b9)).
  { rewrite Eb. unfold number. cbn [skipn firstn fold_left]. lia. }
  assert (S12 : firstn 8 (skipn 12 b) = [b2; b3; b4; b5; b6; b7; b8; b9]) by (rewrite Eb; reflexivity).
  assert (Hh : h0_seq h = a4 * 256 + a5 /\ h0_label h = a6 * 256 + a7 /\
     h0_tid h = (b2 * 16777216 + b3 * 65536 + b4 * 256 + b5) * 4294967296 + (b6 * 16777216 + b7 * 65536 + b8 * 256 + b9)).
  { destruct (negb _) in Eh; apply bind_ok_inv in Eh; destruct Eh as (q & _ & Eh); injection Eh as Eh; rewrite <- Eh; auto. }
  rewrite N4, N6, N12, S12. destruct Hh as (H1 & H2 & H3). repeat split; try assumption.
  unfold tid0, h0_tid_str. rewrite H3.
  assert (Ee : enc64 ((b2 * 16777216 + b3 * 65536 + b4 * 256 + b5) * 4294967296 + (b6 * 16777216 + b7 * 65536 + b8 * 256 + b9)) =
     [b2; b3; b4; b5; b6; b7; b8; b9]).
  { unfold enc64, enc32. cbn [app]. repeat f_equal; lia. }
  rewrite Ee. apply swapped_halves. repeat (apply bytes_ok_cons; [tauto|]). constructor.
Qed.
Print Assumptions C65_v0_says.
Example C65_v0_says_example :
  let b := [30; 1; 0; 0; 0; 9; 0; 0; 255; 255; 255; 255; 33; 67; 101; 135; 9; 33; 67; 245] in
  bytes_ok b /\ option_map (fun p => (named0 p, tid0 (pdu0_hdr p))) (match v0_parse b with Ok p => Some p | _ => None end) =
  Some ("Echo Request", Ok [49; 50; 51; 52; 53; 54; 55; 56; 57; 48; 49; 50; 51; 52; 53; 102]).
Proof. split; [repeat constructor|vm_compute; reflexivity]. Qed.
