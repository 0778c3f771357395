From Verif Require Import Base BaseLemmas Utils UtilsProofs V2Header.

(** The header on the wire (TS 29.274 clause 5.1). *)
Definition h2_wire_head (h : hdr2) : bytes :=
  [h2_flags h; h2_type h] ++ enc16 (h2_length h)
  ++ (if h2_has_teid h then enc32 (h2_teid h) else [])
  ++ enc24 (h2_seq h) ++ [h2_spare h].
Definition h2_wire (h : hdr2) : bytes := h2_wire_head h ++ h2_payload h.

Lemma h2_wire_len h : len (h2_wire h) = h2_mlen h.
Proof.
  unfold h2_wire, h2_wire_head, h2_mlen. rewrite !app_length.
  destruct (h2_has_teid h); cbn [List.length enc16 enc24 enc32]; lia.
Qed.

Lemma copy_at_writes src done b hi :
  hi = (len done + len src)%nat -> (hi <= len b)%nat ->
  copy_at (done ++ skipn (len done) b) (len done) hi src
  = Ok ((done ++ src) ++ skipn (len (done ++ src)) b).
Proof. intros. apply on_slice_writes; [apply go_copy_writes|assumption|assumption]. Qed.

Lemma h2_mto_writes h : writes (h2_mto h) (h2_wire h).
Proof.
  intros b Hb. rewrite h2_wire_len in Hb. unfold h2_mlen in Hb. unfold h2_mto.
  set (d1 := [h2_flags h]). set (d2 := d1 ++ [h2_type h]).
  assert (E1 : set_idx b 0 (h2_flags h) = Ok (d1 ++ skipn (len d1) b))
    by (apply (set_idx_writes (h2_flags h) [] b); cbn; lia).
  rewrite E1. cbn [bind].
  assert (E2 : set_idx (d1 ++ skipn (len d1) b) 1 (h2_type h) = Ok (d2 ++ skipn (len d2) b))
    by (apply (set_idx_writes (h2_type h) d1 b); cbn; lia).
  rewrite E2. cbn [bind]. set (d3 := d2 ++ enc16 (h2_length h)).
  assert (E3 : on_slice (d2 ++ skipn (len d2) b) 2 4 (put16 (h2_length h)) = Ok (d3 ++ skipn (len d3) b))
    by (apply (on_slice_writes _ (enc16 (h2_length h)) d2 b 4 (put16_writes _)); cbn; lia).
  rewrite E3. cbn [bind].
  destruct (h2_has_teid h) eqn:Et.
  - set (d4 := d3 ++ enc32 (h2_teid h)).
    assert (E4 : on_slice (d3 ++ skipn (len d3) b) 4 8 (put32 (h2_teid h)) = Ok (d4 ++ skipn (len d4) b))
      by (apply (on_slice_writes _ (enc32 (h2_teid h)) d3 b 8 (put32_writes _)); cbn; lia).
    rewrite E4. cbn [bind]. rewrite uint32to24_enc. set (d5 := d4 ++ enc24 (h2_seq h)).
    assert (E5 : copy_at (d4 ++ skipn (len d4) b) 8 (8+3) (enc24 (h2_seq h)) = Ok (d5 ++ skipn (len d5) b))
      by (apply (copy_at_writes (enc24 (h2_seq h)) d4 b 11); cbn; lia).
    rewrite E5. cbn [bind]. set (d6 := d5 ++ [h2_spare h]).
    assert (E6 : set_idx (d5 ++ skipn (len d5) b) (8 + 3) (h2_spare h) = Ok (d6 ++ skipn (len d6) b))
      by (apply (set_idx_writes (h2_spare h) d5 b); cbn; lia).
    rewrite E6. cbn [bind].
    assert (E7 : copy_at (d6 ++ skipn (len d6) b) (8 + 4) (h2_mlen h) (h2_payload h)
                 = Ok ((d6 ++ h2_payload h) ++ skipn (len (d6 ++ h2_payload h)) b)).
    { apply (copy_at_writes (h2_payload h) d6 b); unfold h2_mlen; rewrite Et; cbn; lia. }
    rewrite E7. unfold h2_wire, h2_wire_head. rewrite Et. reflexivity.
  - cbn [bind]. rewrite uint32to24_enc. set (d5 := d3 ++ enc24 (h2_seq h)).
    assert (E5 : copy_at (d3 ++ skipn (len d3) b) 4 (4+3) (enc24 (h2_seq h)) = Ok (d5 ++ skipn (len d5) b))
      by (apply (copy_at_writes (enc24 (h2_seq h)) d3 b 7); cbn; lia).
    rewrite E5. cbn [bind]. set (d6 := d5 ++ [h2_spare h]).
    assert (E6 : set_idx (d5 ++ skipn (len d5) b) (4 + 3) (h2_spare h) = Ok (d6 ++ skipn (len d6) b))
      by (apply (set_idx_writes (h2_spare h) d5 b); cbn; lia).
    rewrite E6. cbn [bind].
    assert (E7 : copy_at (d6 ++ skipn (len d6) b) (4 + 4) (h2_mlen h) (h2_payload h)
                 = Ok ((d6 ++ h2_payload h) ++ skipn (len (d6 ++ h2_payload h)) b)).
    { apply (copy_at_writes (h2_payload h) d6 b); unfold h2_mlen; rewrite Et; cbn; lia. }
    rewrite E7. unfold h2_wire, h2_wire_head. rewrite Et. reflexivity.
Qed.

Lemma h2_marshal_ok h : h2_marshal h = Ok (h2_wire h).
Proof. unfold h2_marshal. rewrite <- h2_wire_len. apply writes_zeros, h2_mto_writes. Qed.

(** Well-formed header: fields in range, TEID absent when its flag is off, Length as
    SetLength computes it, and the whole message fits the 16-bit length. *)
Record h2_wf (h : hdr2) : Prop := {
  h2w_flags : h2_flags h < 256;
  h2w_type : h2_type h < 256;
  h2w_teid : h2_teid h < 4294967296;
  h2w_noteid : h2_has_teid h = false -> h2_teid h = 0;
  h2w_seq : h2_seq h < 16777216;
  h2w_spare : h2_spare h < 256;
  h2w_payload : bytes_ok (h2_payload h);
  h2w_length : h2_length h = N.of_nat (h2_mlen h) - 4;
  h2w_fits : N.of_nat (h2_mlen h) < 65536 }.

Lemma h2_set_length_exact h : N.of_nat (h2_mlen h) < 65536 ->
  h2_length (h2_set_length h) = N.of_nat (h2_mlen h) - 4.
Proof.
  intros H. unfold h2_set_length, h2_mlen in *. cbn [h2_length h2_set_len].
  destruct (h2_has_teid h); unfold u16; lia.
Qed.

Lemma h2_parse_wire h : h2_wf h -> (12 <= h2_mlen h)%nat ->
  forall q, h2_parse (h2_wire h ++ q) = Ok h.
Proof.
  intros W H12 q. pose proof (h2_wire_len h) as Hl. destruct W as [Wf Wt Wd Wn Ws Wp Wb Wl Wx].
  assert (HL : (len (h2_wire h ++ q) = h2_mlen h + len q)%nat) by (rewrite app_length; lia).
  unfold h2_parse. cbv zeta. rewrite HL. rewrite (proj2 (Nat.ltb_ge _ _)) by lia.
  destruct h as [fl ty ln te se sp pa].
  cbn [h2_flags h2_type h2_length h2_teid h2_seq h2_spare h2_payload] in *.
  unfold h2_wire, h2_wire_head, h2_mlen, h2_has_teid in *.
  cbn [h2_flags h2_type h2_length h2_teid h2_seq h2_spare h2_payload] in *.
  destruct (h2_has_teid_f fl) eqn:Et.
  - set (B := (([fl; ty] ++ enc16 ln ++ enc32 te ++ enc24 se ++ [sp]) ++ pa) ++ q).
    replace (idx B 0) with (@Ok N fl) by reflexivity.
    replace (idx B 1) with (@Ok N ty) by reflexivity.
    replace (slice B 2 4) with (@Ok bytes (enc16 ln)).
    2:{ symmetry. unfold B. rewrite <- !app_assoc. apply slice_mid; reflexivity. }
    cbn [bind]. rewrite be16_enc' by lia. cbn [bind]. rewrite Et.
    rewrite !(proj2 (N.ltb_ge _ _)) by lia.
    replace (slice B 4 8) with (@Ok bytes (enc32 te)).
    2:{ symmetry. unfold B. rewrite <- !app_assoc.
        change ([fl; ty] ++ enc16 ln ++ enc32 te ++ enc24 se ++ [sp] ++ pa ++ q)
          with (([fl; ty] ++ enc16 ln) ++ enc32 te ++ (enc24 se ++ [sp] ++ pa ++ q)).
        apply slice_mid; reflexivity. }
    cbn [bind]. rewrite be32_enc' by lia. cbn [bind].
    replace (slice B 8 11) with (@Ok bytes (enc24 se)).
    2:{ symmetry. unfold B. rewrite <- !app_assoc.
        change ([fl; ty] ++ enc16 ln ++ enc32 te ++ enc24 se ++ [sp] ++ pa ++ q)
          with (([fl; ty] ++ enc16 ln ++ enc32 te) ++ enc24 se ++ ([sp] ++ pa ++ q)).
        apply slice_mid; reflexivity. }
    cbn [bind]. rewrite <- uint32to24_enc, uint24_roundtrip. rewrite N.mod_small by assumption.
    replace (idx B 11) with (@Ok N sp) by reflexivity. cbn [bind].
    rewrite (proj2 (Nat.ltb_ge _ _)) by lia.
    replace (u16 (4 + ln)) with (4 + ln) by (unfold u16; lia).
    rewrite (proj2 (N.leb_le _ _)) by lia.
    replace (slice B 12 (N.to_nat (4 + ln))) with (@Ok bytes pa).
    2:{ symmetry. unfold B.
        change ((([fl; ty] ++ enc16 ln ++ enc32 te ++ enc24 se ++ [sp]) ++ pa) ++ q)
          with ((([fl; ty] ++ enc16 ln ++ enc32 te ++ enc24 se ++ [sp]) ++ pa) ++ q).
        rewrite <- app_assoc. apply slice_mid; [reflexivity|]. cbn. lia. }
    reflexivity.
  - rewrite (Wn eq_refl) in *. clear Wn.
    change ([] ++ enc24 se ++ [sp]) with (enc24 se ++ [sp]) in *.
    set (B := (([fl; ty] ++ enc16 ln ++ enc24 se ++ [sp]) ++ pa) ++ q).
    replace (idx B 0) with (@Ok N fl) by reflexivity.
    replace (idx B 1) with (@Ok N ty) by reflexivity.
    replace (slice B 2 4) with (@Ok bytes (enc16 ln)).
    2:{ symmetry. unfold B. rewrite <- !app_assoc. apply slice_mid; reflexivity. }
    cbn [bind]. rewrite be16_enc' by lia. cbn [bind]. rewrite Et.
    rewrite !(proj2 (N.ltb_ge _ _)) by lia.
    replace (slice B 4 7) with (@Ok bytes (enc24 se)).
    2:{ symmetry. unfold B. rewrite <- !app_assoc.
        change ([fl; ty] ++ enc16 ln ++ enc24 se ++ [sp] ++ pa ++ q)
          with (([fl; ty] ++ enc16 ln) ++ enc24 se ++ ([sp] ++ pa ++ q)).
        apply slice_mid; reflexivity. }
    cbn [bind]. rewrite <- uint32to24_enc, uint24_roundtrip. rewrite N.mod_small by assumption.
    replace (idx B 7) with (@Ok N sp) by reflexivity. cbn [bind].
    rewrite (proj2 (Nat.ltb_ge _ _)) by lia.
    replace (u16 (4 + ln)) with (4 + ln) by (unfold u16; lia).
    rewrite (proj2 (N.leb_le _ _)) by lia.
    replace (slice B 8 (N.to_nat (4 + ln))) with (@Ok bytes pa).
    2:{ symmetry. unfold B. rewrite <- app_assoc. apply slice_mid; [reflexivity|]. cbn. lia. }
    reflexivity.
Qed.

Lemma h2_parse_safe b : bytes_ok b -> safe (h2_parse b).
Proof.
  intros Hb. unfold h2_parse. cbv zeta.
  destruct (len b <? 12)%nat eqn:E; [apply safe_err|]. apply Nat.ltb_ge in E.
  apply safe_bind; [safe_tac|]. intros fl Hfl.
  apply safe_bind; [safe_tac|]. intros ty Hty.
  apply safe_bind; [safe_tac|]. intros s Hs.
  apply safe_bind; [safe_tac|]. intros ln Hln.
  assert (Hln16 : ln < 65536) by (eapply be16_lt; [|exact Hln]; eapply slice_bytes_ok; eauto).
  destruct (ln <? 4) eqn:E4; [apply safe_err|].
  destruct (h2_has_teid_f fl).
  - destruct (ln <? 8) eqn:E8; [apply safe_err|]. safe_tac.
    apply safe_slice; unfold u16 in *; lia.
  - safe_tac. apply safe_slice; unfold u16 in *; lia.
Qed.

(** Parsing any bytes: what the fields are. *)
Lemma h2_parse_inv b h : bytes_ok b -> h2_parse b = Ok h ->
  h2_flags h < 256 /\ h2_type h < 256 /\ h2_length h < 65536 /\ h2_teid h < 4294967296
  /\ (h2_has_teid h = false -> h2_teid h = 0)
  /\ h2_seq h < 16777216 /\ h2_spare h < 256 /\ bytes_ok (h2_payload h)
  /\ idx b 0 = Ok (h2_flags h) /\ idx b 1 = Ok (h2_type h)
  /\ exists q, b = h2_wire h ++ q.
Proof.
  intros Hb. unfold h2_parse. cbv zeta.
  destruct (len b <? 12)%nat eqn:E; [discriminate|]. apply Nat.ltb_ge in E.
  destruct b as [|b0 [|b1 [|b2 [|b3 [|b4 [|b5 [|b6 [|b7 [|b8 [|b9 [|b10 [|b11 r]]]]]]]]]]]];
    cbn [List.length] in E; try lia. clear E.
  set (B := b0 :: b1 :: b2 :: b3 :: b4 :: b5 :: b6 :: b7 :: b8 :: b9 :: b10 :: b11 :: r) in *.
  assert (HB := Hb).
  repeat match goal with H : bytes_ok (_ :: _) |- _ => inv H | H : Forall _ (_ :: _) |- _ => inv H end.
  unfold B in HB.
  repeat match goal with H : bytes_ok (_ :: _) |- _ => inv H | H : Forall _ (_ :: _) |- _ => inv H end.
  change (idx B 0) with (@Ok N b0). change (idx B 1) with (@Ok N b1).
  change (slice B 2 4) with (@Ok bytes [b2; b3]). cbn [bind be16].
  change (slice B 4 8) with (@Ok bytes [b4; b5; b6; b7]).
  change (slice B 8 11) with (@Ok bytes [b8; b9; b10]).
  change (slice B 4 7) with (@Ok bytes [b4; b5; b6]).
  change (idx B 11) with (@Ok N b11). change (idx B 7) with (@Ok N b7). cbn [bind be32].
  set (ln := b2 * 256 + b3).
  assert (Hln : ln < 65536) by (unfold ln, is_byte in *; lia).
  destruct (ln <? 4) eqn:E4; [discriminate|]. apply N.ltb_ge in E4.
  destruct (h2_has_teid_f b0) eqn:Et.
  - destruct (ln <? 8) eqn:E8; [discriminate|]. apply N.ltb_ge in E8.
    assert (Hp : forall p q, r = p ++ q -> forall h, Ok (Hdr2 b0 b1 ln (b4 * 16777216 + b5 * 65536 + b6 * 256 + b7)
              (uint24to32 [b8; b9; b10]) b11 p) = Ok h -> bytes_ok p ->
       h2_flags h < 256 /\ h2_type h < 256 /\ h2_length h < 65536 /\ h2_teid h < 4294967296
       /\ (h2_has_teid h = false -> h2_teid h = 0)
       /\ h2_seq h < 16777216 /\ h2_spare h < 256 /\ bytes_ok (h2_payload h)
       /\ @Ok N b0 = Ok (h2_flags h) /\ @Ok N b1 = Ok (h2_type h) /\ exists q, B = h2_wire h ++ q).
    { intros p q Hr h0 Hh Hpo. assert (Hh' := f_equal (fun r => match r with Ok x => x | _ => h0 end) Hh); cbv beta iota in Hh'; subst h0; clear Hh.
      cbn [h2_flags h2_type h2_length h2_teid h2_seq h2_spare h2_payload]. unfold h2_has_teid. cbn [h2_flags].
      rewrite Et. repeat split; auto; try (unfold is_byte in *; lia).
      - apply (uint24_lt [b8; b9; b10]). repeat constructor; assumption.
      - exists q. unfold h2_wire, h2_wire_head, h2_has_teid.
        cbn [h2_flags h2_type h2_length h2_teid h2_seq h2_spare h2_payload]. rewrite Et.
        rewrite enc32_be by assumption. unfold ln. rewrite enc16_be by assumption.
        rewrite <- uint32to24_enc, (uint24_inverse [b8; b9; b10]); [|repeat constructor; assumption|reflexivity].
        unfold B. rewrite Hr. reflexivity. }
    destruct (_ <? _)%nat eqn:EL.
    + change (slice_from B 12) with (@Ok bytes r). cbn [bind].
      intros H. apply (Hp r []); [rewrite app_nil_r; reflexivity|exact H|assumption].
    + destruct (12 <=? u16 (4 + ln)) eqn:E12; [|discriminate].
      apply N.leb_le in E12. apply Nat.ltb_ge in EL.
      intros H. apply bind_ok_inv in H. destruct H as (p & Hs & H).
      apply slice_inv in Hs. destruct Hs as (_ & _ & Hs & _).
      change (skipn 12 B) with r in Hs.
      apply (Hp p (skipn (N.to_nat (u16 (4 + ln)) - 12) r)); [|exact H|].
      * rewrite Hs. symmetry. apply firstn_skipn.
      * rewrite Hs. apply bytes_ok_firstn. assumption.
  - assert (Hp : forall p q, b8 :: b9 :: b10 :: b11 :: r = p ++ q -> forall h, Ok (Hdr2 b0 b1 ln 0
              (uint24to32 [b4; b5; b6]) b7 p) = Ok h -> bytes_ok p ->
       h2_flags h < 256 /\ h2_type h < 256 /\ h2_length h < 65536 /\ h2_teid h < 4294967296
       /\ (h2_has_teid h = false -> h2_teid h = 0)
       /\ h2_seq h < 16777216 /\ h2_spare h < 256 /\ bytes_ok (h2_payload h)
       /\ @Ok N b0 = Ok (h2_flags h) /\ @Ok N b1 = Ok (h2_type h) /\ exists q, B = h2_wire h ++ q).
    { intros p q Hr h0 Hh Hpo. assert (Hh' := f_equal (fun r => match r with Ok x => x | _ => h0 end) Hh); cbv beta iota in Hh'; subst h0; clear Hh.
      cbn [h2_flags h2_type h2_length h2_teid h2_seq h2_spare h2_payload]. unfold h2_has_teid. cbn [h2_flags].
      rewrite Et. repeat split; auto; try (unfold is_byte in *; lia).
      - apply (uint24_lt [b4; b5; b6]). repeat constructor; assumption.
      - exists q. unfold h2_wire, h2_wire_head, h2_has_teid.
        cbn [h2_flags h2_type h2_length h2_teid h2_seq h2_spare h2_payload]. rewrite Et.
        unfold ln. rewrite enc16_be by assumption.
        rewrite <- uint32to24_enc, (uint24_inverse [b4; b5; b6]); [|repeat constructor; assumption|reflexivity].
        unfold B. rewrite Hr. reflexivity. }
    assert (Hr8 : bytes_ok (b8 :: b9 :: b10 :: b11 :: r)) by (repeat (apply bytes_ok_cons; [assumption|]); assumption).
    destruct (_ <? _)%nat eqn:EL.
    + change (slice_from B 8) with (@Ok bytes (b8 :: b9 :: b10 :: b11 :: r)). cbn [bind].
      intros H. apply (Hp (b8 :: b9 :: b10 :: b11 :: r) []); [rewrite app_nil_r; reflexivity|exact H|assumption].
    + destruct (8 <=? u16 (4 + ln)) eqn:E12; [|discriminate].
      apply N.leb_le in E12. apply Nat.ltb_ge in EL.
      intros H. apply bind_ok_inv in H. destruct H as (p & Hs & H).
      apply slice_inv in Hs. destruct Hs as (_ & _ & Hs & _).
      change (skipn 8 B) with (b8 :: b9 :: b10 :: b11 :: r) in Hs.
      apply (Hp p (skipn (N.to_nat (u16 (4 + ln)) - 8) (b8 :: b9 :: b10 :: b11 :: r))); [|exact H|].
      * rewrite Hs. symmetry. apply firstn_skipn.
      * rewrite Hs. apply bytes_ok_firstn. assumption.
Qed.
