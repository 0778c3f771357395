(** Proofs about TvCodec.v: GTPv0. *)
From Coq Require Import String ZArith.
From Verif Require Import Base BaseLemmas Utils UtilsProofs TvIE TvIESpec TvIEProofs V2IEProofs V2EditProofs Spec
  V2Codec V2Codec2 V2Pco CodecSpec CodecSpec2 CodecSpec4 V2CodecProofs V2CodecProofs3 V2IdProofs V2TimeProofs V2PcoProofs TvCodec TvCodecSpec
  TvCodecProofs TvCodecProofs2 TvCodecProofs3 TvCodecProofs4.
Open Scope N_scope.
Open Scope list_scope.

Notation made_0 := (made1 tv0 xl0).
Lemma octet0 n t v : In (n, t) octet_codes0 -> v < 256 ->
  In (n, t) octet_ies0 /\ made_0 (Ok (Some (new8 tv0 t v))) t [v] (new8 tv0 t v) /\ acc8 t (new8 tv0 t v) = Ok v.
Proof.
  intros H Hv. split; [exact H|]. apply octet_all; [|exact Hv].
  cbn in H. decompose [or] H; try contradiction; match goal with E : (_, _) = (n, t) |- _ => injection E as <- <- end;
    (fit; apply bytes_ok1, Hv).
Qed.
Lemma word0 n t v : In (n, t) word_codes0 -> v < 2 ^ 32 ->
  In (n, t) word_ies0 /\ exists i, made_0 (some1 (new32 tv0 t v)) t (enc32 v) i /\ acc32 t i = Ok v.
Proof.
  intros H Hv. split; [exact H|]. eexists. apply word_all; [|exact Hv].
  cbn in H. decompose [or] H; try contradiction; match goal with E : (_, _) = (n, t) |- _ => injection E as <- <- end;
    (fit; apply enc32_ok).
Qed.
Lemma flow0 t v : t = 16 \/ t = 17 -> v < 2 ^ 16 ->
  exists i, made_0 (some1 (new16 tv0 t v)) t (enc16 v) i /\ acc_flow t i = Ok v /\ acc_flow_data i = Ok v.
Proof.
  intros Ht Hv. exists (new1 tv0 t (enc16 v)).
  assert (E : new16 tv0 t v = Ok (new1 tv0 t (enc16 v))) by (unfold new16; change (put16 v (zeros 2)) with (Ok (enc16 v)); cbn [bind]; rewrite filled1_new by reflexivity; reflexivity).
  rewrite E. assert (A : acc_flow t (new1 tv0 t (enc16 v)) = Ok v) by (unfold acc_flow; rewrite typed1_new; rewrite at_least_ok by (cbn; lia); apply be16_enc', Hv).
  split; [|split; [exact A|]].
  - apply new1_made. destruct Ht as [->| ->]; (fit; apply enc16_ok).
  - unfold acc_flow_data. destruct Ht as [->| ->]; exact A.
Qed.
Lemma nibble n : n < 16 -> N.lor n 240 = n + 240 /\ N.land (n + 240) 15 = n /\ n + 240 < 256.
Proof.
  intros H. assert (F : forallb (fun n => (N.lor n 240 =? n + 240) && (N.land (n + 240) 15 =? n)) (below 16) = true) by reflexivity.
  rewrite forallb_forall in F. specialize (F n ltac:(apply below_complete; cbn; lia)). apply andb_prop in F. lia.
Qed.
Lemma flow_ii0 nsapi v : nsapi < 16 -> v < 2 ^ 16 ->
  exists i, made_0 (some1 (new_flow_ii nsapi v)) 18 ([nsapi + 240] ++ enc16 v) i /\ acc_nsapi0 i = Ok nsapi /\ acc_flow_data i = Ok v.
Proof.
  intros Hn Hv. destruct (nibble nsapi Hn) as (B1 & B2 & B3). exists (new1 tv0 18 ([nsapi + 240] ++ enc16 v)).
  assert (E : new_flow_ii nsapi v = Ok (new1 tv0 18 ([nsapi + 240] ++ enc16 v))) by (unfold new_flow_ii; rewrite B1; reflexivity).
  rewrite E. split; [|split].
  - apply new1_made. fit. apply bytes_ok_app; [apply bytes_ok1, B3|apply enc16_ok].
  - unfold acc_nsapi0. ty1. cbn [app List.length Nat.eqb]. change (idx (nsapi + 240 :: enc16 v) 0) with (Ok (nsapi + 240)). cbn [bind]. rewrite B2. reflexivity.
  - unfold acc_flow_data. ty1. replace (len ([nsapi + 240] ++ enc16 v)%N <? 2)%nat with false by reflexivity. cbv iota. rewrite at_least_ok by (cbn; lia). unfold be16_at.
    change (slice ([nsapi + 240] ++ enc16 v) 1 (1 + 2)) with (Ok (enc16 v)). cbn [bind]. apply be16_enc', Hv.
Qed.
Lemma ptmsi_sig0_all v : v < 2 ^ 24 -> made_0 (Ok (Some (new_ptmsi_sig1 tv0 v))) 12 (enc24 v) (new_ptmsi_sig1 tv0 v) /\ acc_ptmsi_sig1 (new_ptmsi_sig1 tv0 v) = Ok v.
Proof. intros H. apply (ptmsi_sig_all tv0 xl0); [fit; apply enc24_ok|exact H]. Qed.
Lemma flag0 b : made_0 (Ok (Some (new_flag tv0 8 b))) 8 [if b then 255 else 254] (new_flag tv0 8 b) /\ acc_flag 8 (new_flag tv0 8 b) = Ok b.
Proof. apply flag_all. fit; destruct b; repeat constructor. Qed.
Lemma imsi0_15 s : Forall digit s -> len s = 15%nat -> exists i, made_0 (some1 (new_imsi0 s)) 2 (tbcd s) i /\ acc_imsi1 i = Ok s.
Proof.
  intros H L. exists (new1 tv0 2 (tbcd s)). pose proof (tbcd_len s H) as T. rewrite L in T. split.
  - assert (E : new_imsi0 s = Ok (new1 tv0 2 (tbcd s))) by (unfold new_imsi0; rewrite (bcd_layout s (digits_lowhex s H)); reflexivity).
    rewrite E. apply new1_made. fit; apply tbcd_ok, H.
  - unfold acc_imsi1. rewrite typed1_new, at_least_ok by lia. destruct (tbcd_back s (digits_lowhex s H)) as [B _]. rewrite L in B. exact B.
Qed.
Lemma msisdn0_made s : Forall digit s -> s <> [] -> (len s < N.to_nat 131000)%nat ->
  exists i, made_0 (new_msisdn1 tv0 s) 134 (nature_of_address :: tbcd s) i /\ acc_msisdn1 i = Ok (if Nat.even (len s) then s else s ++ [102]).
Proof.
  intros H N L. apply (msisdn1_all tv0 xl0); auto. pose proof (tbcd_len s H) as T.
  assert (L' : (len (nature_of_address :: tbcd s) < N.to_nat 65536)%nat) by (cbn [List.length]; lia).
  fit. apply bytes_ok_cons; [reflexivity|apply tbcd_ok, H].
Qed.
Lemma private_any tv xl id v : tv 255 = None -> xl 255 = false -> id < 2 ^ 16 -> bytes_ok v -> (len v < N.to_nat 65534)%nat ->
  exists i, made1 tv xl (some1 (new_private tv id v)) 255 (enc16 id ++ v) i /\ acc_ext_id i = Ok id /\ acc_raw 255 i = Ok (enc16 id ++ v) /\
    acc_ext_value i = (if (len v =? 0)%nat then Err EUnexpectedEOF else Ok v).
Proof.
  intros Ht Hx Hid Hv L. apply private_all; [|exact Hid]. split; [reflexivity|]. split; [apply bytes_ok_app; [apply enc16_ok|exact Hv]|].
  rewrite Ht, Hx, app_length. change (len (enc16 id)) with 2%nat. lia.
Qed.
(** ** Addresses *)
Lemma address0_all t ip : t = 133 \/ t = 251 -> ipv4_or_6 ip ->
  made_0 (Ok (Some (new_address0 t (Some ip)))) t ip (new_address0 t (Some ip)) /\ acc_address t (new_address0 t (Some ip)) = Ok ip /\
  (t = 133 -> acc_ip1 (new_address0 t (Some ip)) = Ok ip).
Proof.
  intros Ht H. pose proof (address_len ip H).
  assert (E : new_address0 t (Some ip) = new1 tv0 t ip).
  { unfold new_address0. destruct (to4_address ip H) as [[_ ->]|[_ ->]]; reflexivity. }
  rewrite E. split; [|apply (address_acc tv0 xl0); lia].
  apply new1_made. destruct Ht as [->| ->]; (fit; apply H).
Qed.
Lemma eua0_all ip : ipv4_or_6 ip ->
  exists i, made_0 (some1 (new_eua0 (Some ip))) 128 (eua_octets ip) i /\ acc_ip1 i = Ok ip /\ acc_pdp_org i = Ok 241 /\
    acc_pdp_number i = Ok (if (len ip =? 4)%nat then 33 else 87) /\ acc_raw 128 i = Ok (eua_octets ip).
Proof.
  intros H. pose proof (address_len ip H). destruct (eua_made tv0 xl0 ip H eq_refl eq_refl) as (i & n & E & Eo & -> & F).
  exists (new1 tv0 128 ([241; n] ++ ip)). destruct (eua_acc tv0 xl0 n ip ltac:(lia)) as (A & B & C & D). rewrite Eo. split.
  - assert (E' : new_eua0 (Some ip) = Ok (new1 tv0 128 ([241; n] ++ ip))).
    { unfold new_eua0. destruct (to4_address ip H) as [[L T]|[L T]]; rewrite T; rewrite L in E; cbn [Nat.eqb] in E; rewrite <- E; reflexivity. }
    rewrite E'. apply new1_made, F.
  - rewrite C. unfold eua_octets in Eo. injection Eo as <-. repeat split; assumption.
Qed.
(** an address that is none becomes the IPv6 address of zeros *)
Lemma eua0_invalid : exists i, made_0 (some1 (new_eua0 None)) 128 (eua_octets (zeros 16)) i /\ acc_ip1 i = Ok (zeros 16) /\ acc_pdp_number i = Ok 87.
Proof.
  exists (new1 tv0 128 (eua_octets (zeros 16))). split; [|split; reflexivity].
  assert (E : new_eua0 None = Ok (new1 tv0 128 (eua_octets (zeros 16)))) by reflexivity. rewrite E. apply new1_made. fit.
  repeat constructor.
Qed.
Lemma apn0_made ls : ls <> [] -> Forall (fun l => ~ In dot l /\ bytes_ok l /\ (len l < 256)%nat) ls -> (len (labels_octets ls) < N.to_nat 65536)%nat ->
  exists i, made_0 (some1 (new_apn1 tv0 (labels_to_string ls))) 131 (labels_octets ls) i /\ acc_apn0 i = Err EUnexpectedEOF.
Proof.
  intros Hne Hf Hs. destruct (apn_labels ls Hne) as (E1 & E2 & Hl & J). { eapply Forall_impl; [|exact Hf]. cbn; tauto. }
  assert (B : bytes_ok (labels_octets ls)) by (apply labels_bytes; eapply Forall_impl; [|exact Hf]; cbn; tauto).
  eexists. split. { rewrite <- E1. apply (apn_made tv0 xl0). rewrite E1. fit. exact B. }
  rewrite acc_apn0_fails. reflexivity.
Qed.
(** ** Quality of service *)
Lemma qos_bits d r : d < 8 -> r < 8 -> N.lor (u8 (N.shiftl (N.land d 7) 3)) (N.land r 7) = 8 * d + r /\ N.land (8 * d + r) 56 = 8 * d /\ N.land (8 * d + r) 7 = r.
Proof.
  intros Hd Hr.
  assert (F : forallb (fun d => forallb (fun r => (N.lor (u8 (N.shiftl (N.land d 7) 3)) (N.land r 7) =? 8 * d + r) && (N.land (8 * d + r) 56 =? 8 * d) && (N.land (8 * d + r) 7 =? r)) (below 8)) (below 8) = true) by reflexivity.
  rewrite forallb_forall in F. specialize (F d ltac:(apply below_complete; cbn; lia)). rewrite forallb_forall in F. specialize (F r ltac:(apply below_complete; cbn; lia)).
  rewrite !Bool.andb_true_iff in F. lia.
Qed.
Lemma qos_bits2 d r : d < 16 -> r < 8 -> N.lor (u8 (N.shiftl (N.land d 15) 4)) (N.land r 7) = 16 * d + r /\ N.land (16 * d + r) 240 = 16 * d /\ N.land (16 * d + r) 7 = r.
Proof.
  intros Hd Hr.
  assert (F : forallb (fun d => forallb (fun r => (N.lor (u8 (N.shiftl (N.land d 15) 4)) (N.land r 7) =? 16 * d + r) && (N.land (16 * d + r) 240 =? 16 * d) && (N.land (16 * d + r) 7 =? r)) (below 8)) (below 16) = true) by reflexivity.
  rewrite forallb_forall in F. specialize (F d ltac:(apply below_complete; cbn; lia)). rewrite forallb_forall in F. specialize (F r ltac:(apply below_complete; cbn; lia)).
  rewrite !Bool.andb_true_iff in F. lia.
Qed.
Lemma qos0_all delay rel peak prec mean : delay < 8 -> rel < 8 -> peak < 16 -> prec < 8 -> mean < 32 ->
  exists i, made_0 (some1 (new_qos0 delay rel peak prec mean)) 6 (qos0_octets delay rel peak prec mean) i /\
    acc_raw 6 i = Ok (qos0_octets delay rel peak prec mean) /\ acc_qos_reliability i = Ok rel /\ acc_qos_precedence i = Ok prec /\
    acc_qos_delay i = Ok (8 * delay) /\ acc_qos_peak i = Ok (16 * peak) /\ acc_qos_mean i = Ok (mean mod 16).
Proof.
  intros H1 H2 H3 H4 H5. destruct (qos_bits delay rel H1 H2) as (A1 & A2 & A3). destruct (qos_bits2 peak prec H3 H4) as (B1 & B2 & B3).
  assert (M : N.land mean 31 = mean) by (change 31 with (N.ones 5); rewrite N.land_ones; apply N.mod_small; exact H5).
  assert (M' : N.land mean 15 = mean mod 16) by (change 15 with (N.ones 4); rewrite N.land_ones; reflexivity).
  exists (new1 tv0 6 (qos0_octets delay rel peak prec mean)).
  assert (E : new_qos0 delay rel peak prec mean = Ok (new1 tv0 6 (qos0_octets delay rel peak prec mean))) by (unfold new_qos0; rewrite A1, B1, M; reflexivity).
  rewrite E. split.
  - apply new1_made. fit. repeat constructor; unfold is_byte; lia.
  - unfold acc_raw, acc_qos_reliability, acc_qos_precedence, acc_qos_delay, acc_qos_peak, acc_qos_mean, masked. rewrite !typed1_new. rewrite !at_least_ok by (cbn; lia).
    unfold qos0_octets. cbn [idx nth_error bind]. rewrite A2, A3, B2, B3, M'. repeat split.
Qed.
(** ** Routeing area *)
Lemma swapped_one c d : lowhex c -> lowhex d -> swapped_to_str [hex_value d * 16 + hex_value c] true = Ok [c].
Proof.
  intros Hc Hd. destruct (tbcd_back [c; d]) as [B _]. { rewrite !Forall_cons_iff. auto. } change (Nat.odd (len [c; d])) with false in B. cbn [tbcd] in B.
  rewrite swapped_to_str_alt in *. cbn [List.length Nat.eqb] in *. cbv zeta in *. apply Ok_inj in B. rewrite B. reflexivity.
Qed.
Lemma rai0_all mcc mnc lac rac : is_mcc mcc -> is_mnc mnc -> lac < 2 ^ 16 -> rac < 256 ->
  exists i, made_0 (new_rai0 mcc mnc lac rac) 3 (plmn_octets mcc mnc ++ enc16 lac ++ [rac]) i /\
    acc_raw 3 i = Ok (plmn_octets mcc mnc ++ enc16 lac ++ [rac]) /\ acc_lac0 i = Ok lac /\ acc_rac0 i = Ok rac /\
    acc_mcc0 i = Ok (mcc ++ [nth 2 mnc 102]) /\ acc_mnc0 i = Ok [nth 2 mcc 0].
Proof.
  intros H1 H2 Hl Hr. destruct (plmn_parts mcc mnc H1 H2) as (p & q & s & Ep & E & Hp & Hq & Hs & Dm & Dn).
  rewrite Ep. set (v := [p; q; s] ++ enc16 lac ++ [rac]). exists (new1 tv0 3 v). split.
  - assert (Ev : new_rai0 mcc mnc lac rac = Ok (Some (new1 tv0 3 v))) by (unfold new_rai0; rewrite E; reflexivity).
    rewrite Ev. apply new1_made. fit. unfold v. apply bytes_ok_app; [repeat constructor; assumption|]. apply bytes_ok_app; [apply enc16_ok|apply bytes_ok1, Hr].
  - unfold acc_raw, acc_lac0, acc_rac0, acc_mcc0, acc_mnc0. rewrite !typed1_new. rewrite !at_least_ok by (cbn; lia).
    split; [reflexivity|]. split; [|split; [reflexivity|]].
    { unfold be16_at. change (slice v 3 (3 + 2)) with (Ok (enc16 lac)). cbn [bind]. apply be16_enc', Hl. }
    change (slice v 0 2) with (Ok [p; q]). change (slice v 1 2) with (Ok [q]). cbn [bind].
    destruct H1 as [L1 D1]. destruct (len3 mcc L1) as (a & b & c & ->).
    assert (F : forall d, digit d -> hex_value d = d - 48) by (intros d Hd; unfold digit in Hd; unfold hex_value; replace (d <? 58) with true by lia; reflexivity).
    assert (G : forall d, digit d -> lowhex d) by (intros d Hd; left; exact Hd).
    rewrite !Forall_cons_iff in D1. destruct D1 as (Da & Db & Dc & _).
    assert (K : exists d, lowhex d /\ nth 2 mnc 102 = d /\ p = hex_value b * 16 + hex_value a /\ q = hex_value d * 16 + hex_value c).
    { destruct H2 as [[L2|L2] D2].
      - destruct (len2 mnc L2) as (x & y & ->). exists 102. split; [right; lia|]. split; [reflexivity|]. cbn in Ep. injection Ep as <- <- <-.
        rewrite (F a Da), (F b Db), (F c Dc). split; reflexivity.
      - destruct (len3 mnc L2) as (x & y & z & ->). rewrite !Forall_cons_iff in D2. destruct D2 as (Dx & Dy & Dz & _). exists z. split; [apply G, Dz|]. split; [reflexivity|].
        cbn [plmn_octets] in Ep. injection Ep as <- <- <-. rewrite (F a Da), (F b Db), (F c Dc), (F z Dz). split; reflexivity. }
    destruct K as (d & Hd & Nd & -> & ->). rewrite Nd. split; [|apply swapped_one; auto].
    destruct (tbcd_back [a; b; c; d]) as [B _]. { rewrite !Forall_cons_iff. auto 10. } exact B.
Qed.
