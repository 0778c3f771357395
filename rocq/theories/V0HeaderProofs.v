From Coq Require Import Lia ZifyBool.
From Verif Require Import Base BaseLemmas V0Header V0HeaderSpec V1HeaderProofs.

Lemma h0_octets_len h : len (h0_octets h) = h0_mlen h.
Proof. unfold h0_octets, h0_mlen. rewrite !app_length. reflexivity. Qed.

Lemma sndcp_word s : s < 256 -> enc32 (u32 (N.lor (N.shiftl s 24) 16777215)) = [s; 255; 255; 255].
Proof.
  intros Hs.
  pose proof (byte_sweep (fun s => u32 (N.lor (N.shiftl s 24) 16777215) =? s * 16777216 + 255 * 65536 + 255 * 256 + 255) ltac:(vm_compute; reflexivity) s Hs) as H.
  apply N.eqb_eq in H. rewrite H. apply enc32_be; unfold is_byte; lia.
Qed.

Theorem h0_mto_ok h : h0_sndcp h < 256 -> writes (h0_mto h) (h0_octets h).
Proof.
  intros Hs b Hb. rewrite h0_octets_len in *. unfold h0_mto. rewrite (proj2 (Nat.ltb_ge _ _)) by exact Hb.
  assert (E0 : set_idx b 0 (h0_flags h) = Ok ([h0_flags h] ++ skipn 1 b)).
  { apply (set_idx_w _ [] b 0); unfold h0_mlen in *; cbn; lia. }
  unfold h0_mlen in *. rewrite E0. cbn [bind].
  rewrite set_idx_w by (cbn; lia). cbn [bind].
  rewrite (on_slice_w _ (enc16 (h0_length h))) by (try apply put16_writes; cbn; lia). cbn [bind].
  rewrite (on_slice_w _ (enc16 (h0_seq h))) by (try apply put16_writes; rewrite ?app_length; cbn; lia). cbn [bind].
  rewrite (on_slice_w _ (enc16 (h0_label h))) by (try apply put16_writes; rewrite ?app_length; cbn; lia). cbn [bind].
  rewrite (on_slice_w _ [h0_sndcp h; 255; 255; 255]); [|rewrite <- sndcp_word by exact Hs; apply put32_writes|rewrite ?app_length; cbn; lia|cbn; lia|lia]. cbn [bind].
  rewrite (on_slice_w _ (enc64 (h0_tid h))) by (try apply put64_writes; rewrite ?app_length; cbn; lia). cbn [bind].
  unfold copy_at. rewrite (on_slice_w _ (h0_payload h)) by (try apply go_copy_writes; rewrite ?app_length; cbn; lia).
  unfold h0_octets. rewrite <- !app_assoc. reflexivity.
Qed.

Theorem h0_marshal_ok h : h0_sndcp h < 256 -> h0_marshal h = Ok (h0_octets h).
Proof. intros Hs. unfold h0_marshal. rewrite <- h0_octets_len. apply writes_zeros, h0_mto_ok, Hs. Qed.

Theorem h0_parse_octets h : h0_ok h -> h0_length h = N.of_nat (len (h0_payload h)) -> N.of_nat (h0_mlen h) < 65536 ->
  h0_parse (h0_octets h) = Ok (h0_known h).
Proof.
  intros [H1 H2 H3 H4 H5 H6] HL Hm. unfold h0_parse. rewrite h0_octets_len. unfold h0_mlen in *.
  rewrite (proj2 (Nat.ltb_ge _ _)) by lia.
  assert (HLb : h0_length h < 65536) by lia.
  change (idx (h0_octets h) 0) with (@Ok N (h0_flags h)). change (idx (h0_octets h) 1) with (@Ok N (h0_type h)). cbn [bind].
  assert (S2 : slice (h0_octets h) 2 4 = Ok (enc16 (h0_length h))) by (apply (slice_mid [h0_flags h; h0_type h]); reflexivity).
  assert (S4 : slice (h0_octets h) 4 6 = Ok (enc16 (h0_seq h))).
  { unfold h0_octets. rewrite (app_assoc [_; _]). apply slice_mid; reflexivity. }
  assert (S6 : slice (h0_octets h) 6 8 = Ok (enc16 (h0_label h))).
  { unfold h0_octets. rewrite (app_assoc [_; _]), app_assoc. apply slice_mid; reflexivity. }
  assert (S12 : slice (h0_octets h) 12 20 = Ok (enc64 (h0_tid h))).
  { unfold h0_octets. rewrite (app_assoc [_; _]), !app_assoc, <- app_assoc. apply slice_mid; reflexivity. }
  rewrite S2. cbn [bind]. rewrite be16_enc' by exact HLb. cbn [bind].
  rewrite S4. cbn [bind]. rewrite be16_enc' by exact H3. cbn [bind].
  rewrite S6. cbn [bind]. rewrite be16_enc' by exact H5. cbn [bind].
  change (idx (h0_octets h) 9) with (@Ok N 255). cbn [bind].
  rewrite S12. cbn [bind]. rewrite be64_enc' by exact H6. cbn [bind].
  rewrite (proj2 (Nat.eqb_eq (N.to_nat (h0_length h) + 20) (20 + len (h0_payload h)))) by lia. cbn [negb].
  replace (N.to_nat (u16 (20 + h0_length h))) with (len (h0_octets h)) by (rewrite h0_octets_len; unfold h0_mlen, u16; lia).
  rewrite slice_ok by (rewrite ?h0_octets_len; unfold h0_mlen; lia).
  assert (K20 : skipn 20 (h0_octets h) = h0_payload h) by reflexivity. rewrite K20.
  rewrite firstn_all2 by (rewrite h0_octets_len; unfold h0_mlen; lia). reflexivity.
Qed.

Lemma len20 (b : bytes) : (20 <= len b)%nat -> exists a0 a1 a2 a3 a4 a5 a6 a7 a8 a9 b0 b1 b2 b3 b4 b5 b6 b7 b8 b9 r,
  b = a0::a1::a2::a3::a4::a5::a6::a7::a8::a9::b0::b1::b2::b3::b4::b5::b6::b7::b8::b9::r.
Proof.
  intros H. destruct (len8 b) as (a0 & a1 & a2 & a3 & a4 & a5 & a6 & a7 & r & ->); [lia|]. cbn [List.length] in H.
  destruct (len8 r) as (a8 & a9 & b0 & b1 & b2 & b3 & b4 & b5 & r1 & ->); [lia|]. cbn [List.length] in H.
  destruct (len4 r1) as (b6 & b7 & b8 & b9 & r2 & ->); [lia|]. do 21 eexists. reflexivity.
Qed.

Lemma be64_lt a b c d e f g h : a < 256 -> b < 256 -> c < 256 -> d < 256 -> e < 256 -> f < 256 -> g < 256 -> h < 256 ->
  (a * 16777216 + b * 65536 + c * 256 + d) * 4294967296 + (e * 16777216 + f * 65536 + g * 256 + h) < 18446744073709551616.
Proof. lia. Qed.

(** What ParseHeader returns; the payload is whatever follows the 20 octets. *)
Theorem h0_parse_inv b h : bytes_ok b -> h0_parse b = Ok h ->
  h0_ok h /\ bytes_ok (h0_payload h) /\ (20 <= len b)%nat /\ h0_payload h = skipn 20 b /\ idx b 1 = Ok (h0_type h).
Proof.
  intros Hb H. unfold h0_parse in H. destruct (len b <? 20)%nat eqn:E; [discriminate|]. apply Nat.ltb_ge in E.
  destruct (len20 b E) as (a0 & a1 & a2 & a3 & a4 & a5 & a6 & a7 & a8 & a9 & b0 & b1 & b2 & b3 & b4 & b5 & b6 & b7 & b8 & b9 & r & Eb).
  assert (Hall : bytes_ok r /\ a0 < 256 /\ a1 < 256 /\ a2 < 256 /\ a3 < 256 /\ a4 < 256 /\ a5 < 256 /\ a6 < 256 /\ a7 < 256 /\ a9 < 256 /\
     b2 < 256 /\ b3 < 256 /\ b4 < 256 /\ b5 < 256 /\ b6 < 256 /\ b7 < 256 /\ b8 < 256 /\ b9 < 256).
  { rewrite Eb in Hb. repeat match goal with H : bytes_ok (_ :: _) |- _ => inversion H; clear H; subst
                       | H : Forall _ (_ :: _) |- _ => inversion H; clear H; subst end. repeat split; assumption. }
  assert (I0 : idx b 0 = Ok a0) by (rewrite Eb; reflexivity).
  assert (I1 : idx b 1 = Ok a1) by (rewrite Eb; reflexivity).
  assert (I9 : idx b 9 = Ok a9) by (rewrite Eb; reflexivity).
  assert (I2 : slice b 2 4 = Ok [a2; a3]) by (rewrite Eb; reflexivity).
  assert (I4 : slice b 4 6 = Ok [a4; a5]) by (rewrite Eb; reflexivity).
  assert (I6 : slice b 6 8 = Ok [a6; a7]) by (rewrite Eb; reflexivity).
  assert (I12 : slice b 12 20 = Ok [b2; b3; b4; b5; b6; b7; b8; b9]) by (rewrite Eb; reflexivity).
  rewrite I0, I1, I2, I4, I6, I9, I12 in H. cbn [bind be16 be64] in H.
  assert (Hp : exists p, p = skipn 20 b /\ Ok h = Ok (Hdr0 a0 a1 (a2 * 256 + a3) (a4 * 256 + a5) a9 (a6 * 256 + a7)
      ((b2 * 16777216 + b3 * 65536 + b4 * 256 + b5) * 4294967296 + (b6 * 16777216 + b7 * 65536 + b8 * 256 + b9)) p)).
  { destruct (negb _) eqn:En; apply bind_ok_inv in H; destruct H as (p & Ep & H); exists p.
    - apply slice_from_inv in Ep. destruct Ep as [_ Ep]. split; [apply Ep|]. symmetry. exact H.
    - apply negb_false_iff, Nat.eqb_eq in En. apply slice_inv in Ep. destruct Ep as (S1 & S2 & S3 & S4).
      split; [|symmetry; exact H]. rewrite S3. apply firstn_all2. rewrite len_skipn. unfold u16 in *. lia. }
  destruct Hp as (p & Ep & Hh). injection Hh as Hh. rewrite Hh. cbn [h0_payload h0_type].
  destruct Hall as (Hr & ? & ? & ? & ? & ? & ? & ? & ? & ? & ? & ? & ? & ? & ? & ? & ? & ?).
  split; [constructor; cbn; try lia; apply be64_lt; assumption|].
  split; [rewrite Ep; apply bytes_ok_skipn, Hb|]. auto.
Qed.

Theorem h0_parse_safe b : bytes_ok b -> N.of_nat (len b) < 65536 -> safe (h0_parse b).
Proof.
  intros Hb Hl. unfold h0_parse. destruct (len b <? 20)%nat eqn:E; [discriminate|]. apply Nat.ltb_ge in E.
  repeat (apply safe_bind; [first [apply safe_idx|apply safe_slice]; lia|intros ? ?];
          try (match goal with H : slice _ _ _ = Ok _ |- _ => apply slice_len in H end;
               apply safe_bind; [first [apply safe_be16|apply safe_be64]; lia|intros ? ?])).
  destruct (negb _) eqn:En; (apply safe_bind; [|discriminate]).
  - apply safe_slice_from. lia.
  - apply negb_false_iff, Nat.eqb_eq in En. apply safe_slice; unfold u16; lia.
Qed.
