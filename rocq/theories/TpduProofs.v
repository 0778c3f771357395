(** T-PDUs, encapsulation and the version dispatch. *)
From Coq Require Import String Lia ZifyBool.
From Verif Require Import Base BaseLemmas V1Header V1HeaderSpec V1HeaderProofs V0Header V0HeaderSpec V0HeaderProofs.
From Verif Require Import MsgModel MsgProofs V1Msg V1MsgProofs V0Msg V0MsgProofs V2Header V2Msg V2MsgProofs Gtp.
Open Scope N_scope.
Open Scope list_scope.

Lemma tpdu1_mto_ok h b : exts_fine h -> (h1_mlen h <= len b)%nat ->
  tpdu1_mto h b = Ok (h1_octets b (h1_set_length h) ++ skipn (h1_mlen h) b, h1_set_length h).
Proof.
  intros Hx Hb. unfold tpdu1_mto. rewrite (proj2 (Nat.ltb_ge (len b) (h1_mlen h)) Hb).
  destruct (h1_mto_ok (h1_set_length h) b Hx Hb) as [E _]. rewrite E. reflexivity.
Qed.
Lemma tpdu1_marshal_ok h : exts_fine h -> tpdu1_marshal h = Ok (h1_wire (h1_set_length h), h1_set_length h).
Proof.
  intros Hx. unfold tpdu1_marshal. rewrite tpdu1_mto_ok; [|exact Hx|rewrite len_zeros; lia].
  rewrite h1_octets_zeros; [|exact Hx|apply le_n]. rewrite skipn_all2 by (rewrite len_zeros; lia).
  rewrite app_nil_r. reflexivity.
Qed.
Lemma h1_set_length_id h : h1_length h = N.of_nat (h1_mlen h) - 8 -> N.of_nat (h1_mlen h) < 65536 -> h1_set_length h = h.
Proof.
  intros HL Hm. unfold h1_set_length, h1_set_len. transitivity (Hdr1 (h1_flags h) (h1_type h) (h1_length h) (h1_teid h) (h1_seq h) (h1_npdu h) (h1_next h) (h1_exts h) (h1_payload h)).
  - f_equal. rewrite HL. unfold u16. rewrite N.mod_small by lia. lia.
  - destruct h; reflexivity.
Qed.
Lemma h1_set_length_fit h : N.of_nat (h1_mlen h) < 65536 -> h1_length (h1_set_length h) = N.of_nat (h1_mlen h) - 8.
Proof. intros Hm. unfold h1_set_length, h1_set_len. cbn [h1_length]. unfold u16. rewrite N.mod_small by lia. lia. Qed.
Lemma h1_set_length_ok h : h1_ok h -> h1_ok (h1_set_length h).
Proof. intros []. constructor; assumption. Qed.

(** any T-PDU with consistent fields *)
Theorem tpdu1_roundtrip h q : h1_ok h -> bytes_ok (h1_payload h) -> h1_type h = 255 -> N.of_nat (h1_mlen h) < 65536 ->
  exists w, tpdu1_marshal h = Ok (w, h1_set_length h) /\ len w = h1_mlen h /\
    h1_parse (w ++ q) = Ok (h1_known (h1_set_length h)) /\
    decapsulate1 (w ++ q) = Ok (h1_teid h, h1_payload h) /\
    decapsulate1_exts (w ++ q) = Ok (h1_teid h, h1_payload h, if N.testbit (h1_flags h) 2 then map eh_known (h1_exts h) else []).
Proof.
  intros Hok Hp Ht Hm. assert (Hx : exts_fine h) by (intros E; apply (h1o_exts h Hok E)).
  exists (h1_wire (h1_set_length h)). split; [apply tpdu1_marshal_ok, Hx|].
  split; [exact (h1_wire_len (h1_set_length h) Hx)|].
  assert (Hpw : h1_parse (h1_wire (h1_set_length h) ++ q) = Ok (h1_known (h1_set_length h))).
  { apply h1_parse_wire; [apply h1_set_length_ok, Hok|exact Hp|apply (h1_set_length_fit h Hm)|exact Hm]. }
  split; [exact Hpw|]. unfold decapsulate1, decapsulate1_exts. rewrite Hpw. cbn [bind].
  change (h1_type (h1_known (h1_set_length h))) with (h1_type h). rewrite Ht. split; reflexivity.
Qed.

Definition tpdu_octets (flags teid : N) (opt p : bytes) : bytes :=
  [flags; 255] ++ enc16 (N.of_nat (len opt + len p)) ++ enc32 teid ++ opt ++ p.

Theorem tpdu1_plain teid p b : teid < 4294967296 -> bytes_ok p -> N.of_nat (8 + len p) < 65536 -> (8 + len p <= len b)%nat ->
  exists h, tpdu1_mto (new_tpdu1 teid p) b = Ok (tpdu_octets 48 teid [] p ++ skipn (8 + len p) b, h) /\
  forall q, v1_parse (tpdu_octets 48 teid [] p ++ q) = Ok (P1_tpdu h) /\ h1_teid h = teid /\ h1_payload h = p.
Proof.
  intros Ht Hp Hm Hb. set (h := new_tpdu1 teid p).
  assert (Hml : h1_mlen h = (8 + len p)%nat) by (change (h1_mlen h) with (len p + 8 + 0 + 0)%nat; lia).
  assert (Hmm : N.of_nat (h1_mlen h) < 65536) by (rewrite Hml; exact Hm).
  assert (Hx : exts_fine h) by (intros E; discriminate).
  assert (Hok : h1_ok h) by (constructor; cbn; try lia; discriminate).
  assert (Hid : h1_set_length h = h).
  { apply h1_set_length_id; [|exact Hmm]. change h with (h1_set_length (new_hdr1 48 255 teid 0 p)). rewrite h1_set_length_fit; [reflexivity|].
    change (h1_mlen (new_hdr1 48 255 teid 0 p)) with (h1_mlen h). exact Hmm. }
  assert (Hw : h1_wire h = tpdu_octets 48 teid [] p).
  { unfold h1_wire, tpdu_octets. rewrite <- !app_assoc. change (h1_wire_opt h) with (@nil N). change (h1_wire_exts h) with (@nil N).
    cbn [app]. do 2 f_equal. f_equal. change h with (h1_set_length (new_hdr1 48 255 teid 0 p)). rewrite h1_set_length_fit.
    - change (h1_mlen (new_hdr1 48 255 teid 0 p)) with (h1_mlen h). rewrite Hml. f_equal. cbn [List.length]. lia.
    - change (h1_mlen (new_hdr1 48 255 teid 0 p)) with (h1_mlen h). exact Hmm. }
  exists h. split.
  - rewrite tpdu1_mto_ok; [|exact Hx|rewrite Hml; exact Hb]. rewrite Hid, Hml. change (h1_octets b h) with ([48; 255] ++ enc16 (h1_length h) ++ enc32 teid ++ p).
    rewrite <- Hw. unfold h1_wire. rewrite <- !app_assoc. reflexivity.
  - intros q. rewrite <- Hw. assert (Hpw : h1_parse (h1_wire h ++ q) = Ok h).
    { rewrite (h1_parse_wire h q); [reflexivity|exact Hok|exact Hp| |exact Hmm].
      rewrite <- Hid. apply (h1_set_length_fit h), Hmm. }
    split; [|split; reflexivity]. unfold v1_parse.
    rewrite (proj2 (Nat.ltb_ge (len (h1_wire h ++ q)) 2)) by (rewrite app_length, (h1_wire_len h Hx), Hml; lia).
    change (idx (h1_wire h ++ q) 1) with (Ok 255). cbn [bind]. change (struct1 255) with (@None mdesc).
    unfold tpdu1_parse. rewrite Hpw. reflexivity.
Qed.

Theorem tpdu1_seq_roundtrip teid seq p q : teid < 4294967296 -> seq < 65536 -> bytes_ok p -> N.of_nat (12 + len p) < 65536 ->
  exists h, tpdu1_marshal (new_tpdu1_seq teid seq p) = Ok (tpdu_octets 50 teid (enc16 seq ++ [0; 0]) p, h) /\
  h1_parse (tpdu_octets 50 teid (enc16 seq ++ [0; 0]) p ++ q) = Ok h /\ h1_teid h = teid /\ h1_seq h = seq /\ h1_payload h = p.
Proof.
  intros Ht Hs Hp Hm. set (h := new_tpdu1_seq teid seq p).
  assert (Hml : h1_mlen h = (12 + len p)%nat) by (change (h1_mlen h) with (len p + 8 + 4 + 0)%nat; lia).
  assert (Hmm : N.of_nat (h1_mlen h) < 65536) by (rewrite Hml; exact Hm).
  assert (Hx : exts_fine h) by (intros E; discriminate).
  assert (Hok : h1_ok h) by (constructor; cbn; try lia; discriminate).
  assert (Hl : h1_length h = N.of_nat (4 + len p)).
  { change h with (h1_set_length (new_hdr1 50 255 teid seq p)). rewrite h1_set_length_fit.
    - change (h1_mlen (new_hdr1 50 255 teid seq p)) with (h1_mlen h). rewrite Hml. lia.
    - change (h1_mlen (new_hdr1 50 255 teid seq p)) with (h1_mlen h). exact Hmm. }
  assert (Hl' : h1_length h = N.of_nat (h1_mlen h) - 8) by (rewrite Hl, Hml; lia).
  assert (Hid : h1_set_length h = h) by (apply h1_set_length_id; assumption).
  assert (Hw : h1_wire h = tpdu_octets 50 teid (enc16 seq ++ [0; 0]) p).
  { unfold h1_wire, tpdu_octets. rewrite <- !app_assoc, Hl. reflexivity. }
  exists h. rewrite <- Hw. split.
  - rewrite tpdu1_marshal_ok by exact Hx. rewrite Hid. reflexivity.
  - split; [|repeat split]. rewrite (h1_parse_wire h q); [reflexivity|exact Hok|exact Hp|exact Hl'|exact Hmm].
Qed.

(** a chain handed to NewTPDUWithExtentionHeader *)
Lemma add_exts_chain es : forall t acc, eh_chain t es -> add_exts t acc es = (acc ++ es, Some 0).
Proof.
  induction es as [|e r IH]; cbn [eh_chain add_exts]; intros t acc H; [subst t; rewrite app_nil_r; reflexivity|].
  destruct H as (Hn & Ht & Hc). rewrite <- Ht, N.eqb_refl, IH by exact Hc. rewrite <- app_assoc. reflexivity.
Qed.
Theorem tpdu1_exts_roundtrip teid p es q : teid < 4294967296 -> bytes_ok p -> es <> [] ->
  (forall e r, es = e :: r -> eh_chain (eh_type e) es) -> Forall eh_ok es ->
  N.of_nat (12 + list_sum (map (fun e => 4 * N.to_nat (eh_length e)) es) + len p)%nat < 65536 ->
  exists w h, tpdu1_marshal (new_tpdu1_exts teid p es) = Ok (w, h) /\
    w = [52; 255] ++ enc16 (N.of_nat (len w) - 8) ++ enc32 teid ++ [0; 0; 0; eh_type (hd (Ext1 0 0 [] 0) es)] ++ flat_map eh_wire es ++ p /\
    decapsulate1_exts (w ++ q) = Ok (teid, p, map eh_known es) /\ decapsulate1 (w ++ q) = Ok (teid, p).
Proof.
  intros Ht Hp Hne Hc Hes Hm. destruct es as [|e r]; [congruence|]. clear Hne. specialize (Hc e r eq_refl).
  set (h := new_tpdu1_exts teid p (e :: r)).
  assert (Ea : h1_add_exts (new_hdr1 52 255 teid 0 p) (e :: r) =
    (h1_set_length (Hdr1 52 255 (h1_length (new_hdr1 52 255 teid 0 p)) teid 0 0 (eh_type e) (e :: r) p), false)).
  { unfold h1_add_exts. rewrite add_exts_chain by exact Hc. reflexivity. }
  assert (Eh : h = h1_set_length (h1_set_length (Hdr1 52 255 (h1_length (new_hdr1 52 255 teid 0 p)) teid 0 0 (eh_type e) (e :: r) p))).
  { unfold h, new_tpdu1_exts, new_hdr1_exts. rewrite Ea. reflexivity. }
  assert (Hml : h1_mlen h = (12 + list_sum (map (fun e => 4 * N.to_nat (eh_length e)) (e :: r)) + len p)%nat).
  { rewrite Eh. unfold h1_mlen. cbn [h1_set_length h1_set_len h1_flags h1_exts h1_payload]. change (f1_opt 52) with true. change (f1_e 52) with true.
    cbv iota. assert (E : map eh_mlen (e :: r) = map (fun e => 4 * N.to_nat (eh_length e))%nat (e :: r)); [|rewrite E; lia].
    apply map_ext_in. intros a Ha. rewrite Forall_forall in Hes. apply eh_ok_mlen, Hes, Ha. }
  assert (Hf : h1_flags h = 52) by (rewrite Eh; reflexivity).
  assert (Hex : h1_exts h = e :: r) by (rewrite Eh; reflexivity).
  assert (Hpp : h1_payload h = p) by (rewrite Eh; reflexivity).
  assert (Htt : h1_teid h = teid) by (rewrite Eh; reflexivity).
  assert (Hty : h1_type h = 255) by (rewrite Eh; reflexivity).
  assert (Hok : h1_ok h).
  { apply Forall_cons_iff in Hes as He0; destruct He0 as [He Hr'].
    constructor; rewrite Eh; cbn [h1_set_length h1_set_len h1_flags h1_type h1_teid h1_seq h1_npdu h1_next h1_exts]; try lia.
    - apply eho_type, He.
    - intros _. split; [exact Hes|]. split; [discriminate|]. exists e, r. repeat split. cbn [eh_chain] in Hc. apply Hc. }
  assert (Hx : exts_fine h) by (intros E; apply (h1o_exts h Hok E)).
  destruct (tpdu1_roundtrip h q Hok ltac:(rewrite Hpp; exact Hp) Hty ltac:(lia)) as (w & W1 & W2 & W3 & W4 & W5).
  exists w, (h1_set_length h). split; [exact W1|].
  rewrite Hf, Hex, Hpp, Htt in W5. rewrite Hpp, Htt in W4. split; [|split; [exact W5|exact W4]].
  rewrite tpdu1_marshal_ok in W1 by exact Hx. injection W1 as W1.
  assert (Hlw : h1_length (h1_set_length h) = N.of_nat (len w) - 8) by (rewrite W2; apply h1_set_length_fit; lia).
  rewrite <- Hlw. rewrite <- W1. unfold h1_wire. rewrite <- !app_assoc. unfold h1_wire_opt, h1_wire_exts.
  cbn [h1_set_length h1_set_len h1_flags h1_type h1_teid h1_next h1_exts h1_payload h1_seq h1_npdu].
  rewrite Hf, Hex, Hpp, Htt, Hty.
  assert (Hnx : h1_next h = eh_type e) by (rewrite Eh; reflexivity). rewrite Hnx. reflexivity.
Qed.

Lemma decapsulate1_safe b : bytes_ok b -> N.of_nat (len b) < 65536 -> safe (decapsulate1 b) /\ safe (decapsulate1_exts b).
Proof.
  intros Hb Hl. pose proof (h1_parse_safe b Hb Hl). unfold decapsulate1, decapsulate1_exts.
  destruct (h1_parse b) as [h|e|]; cbn [bind]; [|split; apply safe_err|contradiction H; reflexivity].
  destruct (_ =? 255); split; first [apply safe_ok|apply safe_err].
Qed.
(** Re-marshalling what Parse returned *)
Theorem tpdu1_remarshal b h : bytes_ok b -> v1_parse b = Ok (P1_tpdu h) ->
  exists w, tpdu1_marshal h = Ok (w, h) /\ h1_parse w = Ok h /\ (len w <= len b)%nat.
Proof.
  intros Hb H. destruct (v1_parse_parts b _ Hb H) as (t & _ & _ & Hh & _). cbn [pdu1_hdr] in Hh.
  destruct (h1_parse_inv b h Hb Hh) as (Hok & Hp & HL & Hm & Hk & _ & q & Eq).
  assert (Hx : exts_fine h) by (intros E; apply (h1o_exts h Hok E)).
  exists (h1_wire h). rewrite tpdu1_marshal_ok by exact Hx. rewrite h1_set_length_id by assumption.
  split; [reflexivity|]. split.
  - pose proof (h1_parse_wire h [] Hok Hp HL Hm) as P. rewrite app_nil_r in P. rewrite P, Hk. reflexivity.
  - rewrite h1_wire_len by exact Hx. unfold h1_parse in Hh. clear - Hh HL Hm.
    destruct (len b <? 8)%nat; [discriminate|].
    apply bind_ok_inv in Hh. destruct Hh as (? & _ & Hh). apply bind_ok_inv in Hh. destruct Hh as (? & _ & Hh).
    apply bind_ok_inv in Hh. destruct Hh as (? & _ & Hh). apply bind_ok_inv in Hh. destruct Hh as (L & _ & Hh).
    apply bind_ok_inv in Hh. destruct Hh as (? & _ & Hh). apply bind_ok_inv in Hh. destruct Hh as (? & _ & Hh).
    destruct (len b <? N.to_nat L + 8)%nat eqn:E; [discriminate|]. apply Nat.ltb_ge in E.
    apply bind_ok_inv in Hh. destruct Hh as ((((? & ?) & ?) & ?) & _ & Hh). apply bind_ok_inv in Hh. destruct Hh as ((? & ?) & _ & Hh).
    destruct (_ <? _)%nat; [discriminate|]. apply bind_ok_inv in Hh. destruct Hh as (? & _ & Hh). injection Hh as <-.
    cbn [h1_length] in HL. unfold h1_mlen in *. cbn [h1_flags h1_exts h1_payload] in *. lia.
Qed.

(** ** GTPv0 T-PDU *)
Theorem tpdu0_roundtrip seq label tid p b : seq < 65536 -> label < 65536 -> tid < 18446744073709551616 ->
  bytes_ok p -> N.of_nat (20 + len p) < 65536 -> (20 + len p <= len b)%nat ->
  exists h, tpdu0_mto (new_tpdu0 seq label tid p) b =
      Ok (([30; 255] ++ enc16 (N.of_nat (len p)) ++ enc16 seq ++ enc16 label ++ [255; 255; 255; 255] ++ enc64 tid ++ p) ++ skipn (20 + len p) b, h) /\
    v0_parse (h0_octets h) = Ok (P0_tpdu h) /\ decapsulate0 (h0_octets h) = Ok (Some p) /\
    h0_octets h = [30; 255] ++ enc16 (N.of_nat (len p)) ++ enc16 seq ++ enc16 label ++ [255; 255; 255; 255] ++ enc64 tid ++ p.
Proof.
  intros Hs Hl Ht Hp Hm Hb. set (h := new_tpdu0 seq label tid p).
  assert (HL : h0_length h = N.of_nat (len p)) by (unfold h, new_tpdu0; cbn; unfold u16; apply N.mod_small; lia).
  assert (Hid : h0_set_length h = h).
  { unfold h0_set_length, h0_set_len, h, new_tpdu0. reflexivity. }
  assert (Hok : h0_ok h) by (constructor; cbn; lia).
  assert (Hoct : h0_octets h = [30; 255] ++ enc16 (N.of_nat (len p)) ++ enc16 seq ++ enc16 label ++ [255; 255; 255; 255] ++ enc64 tid ++ p).
  { unfold h0_octets. rewrite HL. reflexivity. }
  exists h. rewrite <- Hoct. split.
  - unfold tpdu0_mto. rewrite (proj2 (Nat.ltb_ge (len b) (h0_mlen h))) by (unfold h0_mlen; cbn; lia). rewrite Hid. cbv zeta.
    rewrite (h0_mto_ok h ltac:(cbn; lia) b).
    + cbn [bind]. rewrite h0_octets_len. reflexivity.
    + rewrite h0_octets_len. unfold h0_mlen. cbn. lia.
  - assert (Hpp : h0_parse (h0_octets h) = Ok h).
    { rewrite h0_parse_octets; [reflexivity|exact Hok|exact HL|unfold h0_mlen; cbn; lia]. }
    split; [|split; [|reflexivity]].
    + unfold v0_parse. rewrite (proj2 (Nat.ltb_ge (len (h0_octets h)) 2)) by (rewrite h0_octets_len; unfold h0_mlen; lia).
      change (idx (h0_octets h) 1) with (Ok 255). cbn [bind]. change (struct0 255) with (@None mdesc). unfold tpdu0_parse. rewrite Hpp. reflexivity.
    + unfold decapsulate0. rewrite Hpp. reflexivity.
Qed.

(** ** Version dispatch *)
Theorem gtp_parse_safe g b : bytes_ok b -> N.of_nat (len b) < 65536 -> safe (gtp_parse g b).
Proof.
  intros Hb Hl. unfold gtp_parse. destruct (len b <? 8)%nat eqn:E; [apply safe_err|]. apply Nat.ltb_ge in E.
  apply safe_bind; [safe_tac|]. intros f Hf.
  destruct (N.shiftr f 5) as [|[[]|[]|]]; try apply safe_err.
  - apply safe_bind; [apply v0_parse_safe; assumption|]. intros; apply safe_ok.
  - apply safe_bind; [apply v2_parse_safe; assumption|]. intros; apply safe_ok.
  - apply safe_bind; [apply v1_parse_safe; assumption|]. intros; apply safe_ok.
Qed.
Definition gtp_version (p : gtp_pdu) : N := match p with G0 _ => 0 | G1 _ => 1 | G2 _ _ => 2 end.
Theorem gtp_parse_version g b p : bytes_ok b -> gtp_parse g b = Ok p ->
  (8 <= len b)%nat /\ exists f, idx b 0 = Ok f /\ gtp_version p = f / 32 /\
  match p with G0 m => v0_parse b = Ok m | G1 m => v1_parse b = Ok m | G2 d m => v2_parse g b = Ok (d, m) end.
Proof.
  intros Hb H. unfold gtp_parse in H. destruct (len b <? 8)%nat eqn:E; [discriminate|]. apply Nat.ltb_ge in E.
  split; [exact E|]. apply bind_ok_inv in H. destruct H as (f & Hf & H). exists f. split; [exact Hf|].
  rewrite N.shiftr_div_pow2 in H. change (2 ^ 5) with 32 in H.
  destruct (f / 32) as [|[[]|[]|]]; try discriminate; apply bind_ok_inv in H; destruct H as (x & Hx & H); injection H as <-; cbn [gtp_version]; auto.
  destruct x. auto.
Qed.
Theorem gtp_parse_accepts g b f : bytes_ok b -> (8 <= len b)%nat -> idx b 0 = Ok f ->
  (f / 32 = 0 -> gtp_parse g b = (do p <- v0_parse b; Ok (G0 p))) /\
  (f / 32 = 1 -> gtp_parse g b = (do p <- v1_parse b; Ok (G1 p))) /\
  (f / 32 = 2 -> gtp_parse g b = (do p <- v2_parse g b; Ok (G2 (fst p) (snd p)))) /\
  (3 <= f / 32 -> gtp_parse g b = Err EInvalidVersion).
Proof.
  intros Hb Hl Hf. unfold gtp_parse. rewrite (proj2 (Nat.ltb_ge (len b) 8) Hl), Hf. cbn [bind].
  rewrite N.shiftr_div_pow2. change (2 ^ 5) with 32.
  repeat split; intros E; try (rewrite E; reflexivity).
  destruct (f / 32) as [|[[]|[]|]]; try reflexivity; lia.
Qed.
