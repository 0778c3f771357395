From Verif Require Import Base BaseLemmas V2IEProofs V1Header V1HeaderSpec.

(** ** Writers with explicit offsets *)
Lemma set_idx_w v done b n : n = len done -> (n + 1 <= len b)%nat ->
  set_idx (done ++ skipn n b) n v = Ok ((done ++ [v]) ++ skipn (n + 1) b).
Proof.
  intros -> H. rewrite set_idx_writes by lia. rewrite app_length. reflexivity.
Qed.
Lemma on_slice_w f out done b n hi : writes f out -> n = len done -> hi = (n + len out)%nat -> (hi <= len b)%nat ->
  on_slice (done ++ skipn n b) n hi f = Ok ((done ++ out) ++ skipn hi b).
Proof.
  intros Hf -> -> H. rewrite (on_slice_writes f out) by auto. rewrite app_length. reflexivity.
Qed.
Lemma skip_w (done b : bytes) n k : done ++ skipn n b = (done ++ firstn k (skipn n b)) ++ skipn (n + k) b.
Proof. rewrite <- app_assoc, <- skipn_skipn', firstn_skipn. reflexivity. Qed.
Lemma on_slice_from_gen f done b n r : n = len done -> (n <= len b)%nat -> f (skipn n b) = Ok r ->
  on_slice_from (done ++ skipn n b) n f = Ok (done ++ r).
Proof.
  intros -> Hl Hf. unfold on_slice_from, on_slice.
  set (B := done ++ skipn (len done) b).
  assert (HB : len B = len b) by (unfold B; rewrite app_length, skipn_length; lia).
  rewrite slice_ok by lia. simpl bind at 1.
  replace (skipn (len done) B) with (skipn (len done) b) by (unfold B; rewrite skipn_app_exact; reflexivity).
  rewrite firstn_all2 by (rewrite skipn_length; lia).
  rewrite Hf. cbn [bind]. rewrite (skipn_all2 B) by lia. rewrite app_nil_r.
  unfold B. rewrite firstn_app_exact by reflexivity. reflexivity.
Qed.
Lemma on_slice_gen f done b n hi s r : n = len done -> (n <= hi)%nat -> (hi <= len b)%nat ->
  s = firstn (hi - n) (skipn n b) -> f s = Ok r ->
  on_slice (done ++ skipn n b) n hi f = Ok (done ++ r ++ skipn hi b).
Proof.
  intros -> H1 H2 -> Hf. unfold on_slice.
  set (B := done ++ skipn (len done) b).
  assert (HB : len B = len b) by (unfold B; rewrite app_length, skipn_length; lia).
  rewrite slice_ok by lia. simpl bind at 1.
  replace (skipn (len done) B) with (skipn (len done) b) by (unfold B; rewrite skipn_app_exact; reflexivity).
  rewrite Hf. cbn [bind]. unfold B at 1. rewrite firstn_app_exact by reflexivity.
  replace (skipn hi B) with (skipn hi b); [reflexivity|].
  unfold B. rewrite skipn_app. rewrite (skipn_all2 done) by lia. cbn [app].
  rewrite skipn_skipn'. f_equal. lia.
Qed.

(** ** Flags *)
Lemma f1_bits f : f1_e f = N.testbit f 2 /\ f1_s f = N.testbit f 1 /\ f1_pn f = N.testbit f 0.
Proof.
  unfold f1_e, f1_s, f1_pn. rewrite !N.testbit_eqb, <- !N.shiftr_div_pow2, N.shiftr_0_r.
  change 1 with (N.ones 1). rewrite !N.land_ones. auto.
Qed.
Lemma f1_opt_bits f : f1_opt f = N.testbit f 2 || N.testbit f 1 || N.testbit f 0.
Proof.
  unfold f1_opt. destruct (f1_bits f) as (-> & -> & ->).
  destruct (N.testbit f 2), (N.testbit f 1), (N.testbit f 0); reflexivity.
Qed.

(** ** Extension headers *)
Lemma pad4_spec n : exists k, pad4 n = (4 * k)%nat /\ (n <= 4 * k < n + 4)%nat.
Proof.
  unfold pad4. pose proof (Nat.div_mod n 4 ltac:(lia)) as Hd.
  pose proof (Nat.mod_upper_bound n 4 ltac:(lia)) as Hm.
  destruct (Nat.eq_dec (n mod 4) 0) as [E|E].
  - exists (n / 4)%nat. rewrite E. change ((4 - 0) mod 4)%nat with 0%nat. lia.
  - exists (n / 4 + 1)%nat. rewrite (Nat.mod_small (4 - n mod 4) 4) by lia. lia.
Qed.
Lemma pad4_unique n k : (n <= 4 * k < n + 4)%nat -> pad4 n = (4 * k)%nat.
Proof. destruct (pad4_spec n) as (j & -> & Hj). lia. Qed.
Lemma eh_ok_mlen e : eh_ok e -> eh_mlen e = (4 * N.to_nat (eh_length e))%nat.
Proof. intros []. unfold eh_mlen. apply pad4_unique. lia. Qed.
Lemma new_ext1_ok t c nx : t < 256 -> nx < 256 -> bytes_ok c -> (len c <= 1018)%nat -> eh_ok (new_ext1 t c nx).
Proof.
  intros Ht Hn Hc Hl. unfold new_ext1, eh_set_length; cbn [eh_type eh_content eh_next].
  destruct (pad4_spec (len c + 2)) as (k & E & Hk).
  assert (Ek : (pad4 (len c + 2) / 4 = k)%nat) by (rewrite E, Nat.mul_comm; apply Nat.div_mul; lia).
  rewrite Ek. assert (Eu : u8 (N.of_nat k) = N.of_nat k) by (unfold u8; lia).
  rewrite Eu. constructor; cbn [eh_type eh_length eh_content eh_next]; auto; lia.
Qed.

Lemma eh_octets_len e b : eh_ok e -> (eh_mlen e <= len b)%nat -> len (eh_octets b e) = eh_mlen e.
Proof.
  intros He Hb. rewrite eh_ok_mlen in * by exact He. destruct He as [_ _ _ _ Hf]. unfold eh_octets, eh_pad.
  rewrite !app_length. cbn [List.length]. rewrite firstn_length, skipn_length. lia.
Qed.
Lemma eh_mto_ok e b : eh_ok e -> (eh_mlen e <= len b)%nat ->
  eh_mto e b = Ok (eh_octets b e ++ skipn (eh_mlen e) b).
Proof.
  intros He Hb. pose proof He as He0. unfold eh_mto. rewrite (proj2 (Nat.ltb_ge _ _) Hb).
  rewrite eh_ok_mlen in * by exact He. destruct He as [_ _ _ _ Hf].
  set (n := (4 * N.to_nat (eh_length e))%nat) in *. set (c := eh_content e) in *.
  assert (E0 : set_idx b 0 (eh_length e) = Ok ([eh_length e] ++ skipn 1 b))
    by (apply (set_idx_w _ [] b 0); cbn; lia).
  rewrite E0. cbn [bind]. rewrite (proj2 (Nat.ltb_ge (len b) n)) by lia.
  destruct n as [|off] eqn:En; [lia|].
  assert (E1 : copy_at ([eh_length e] ++ skipn 1 b) 1 off c
     = Ok (([eh_length e] ++ c ++ firstn (off - 1 - len c) (skipn (1 + len c) b)) ++ skipn off b)).
  { unfold copy_at. rewrite (on_slice_gen (fun s => Ok (go_copy s c)) [eh_length e] b 1 off _ _ eq_refl ltac:(lia) ltac:(lia) eq_refl eq_refl).
    f_equal. rewrite <- !app_assoc. f_equal. unfold go_copy.
    rewrite firstn_length, skipn_length, Nat.min_l by lia.
    rewrite (firstn_all2 c) by lia. rewrite <- app_assoc. f_equal. f_equal.
    rewrite skipn_firstn_comm, skipn_skipn'. reflexivity. }
  rewrite E1. cbn [bind]. rewrite set_idx_w.
  2:{ rewrite !app_length. cbn [List.length]. rewrite firstn_length, skipn_length. lia. }
  2:{ lia. }
  f_equal. unfold eh_octets. fold c. unfold eh_pad. fold c.
  assert (En' : (4 * N.to_nat (eh_length e) = S off)%nat) by exact En. rewrite En'.
  replace (S off - 2 - len c)%nat with (off - 1 - len c)%nat by lia.
  rewrite <- !app_assoc. replace (off + 1)%nat with (S off) by lia. reflexivity.
Qed.

Lemma exts_octets_len es : Forall eh_ok es -> forall b, (list_sum (map eh_mlen es) <= len b)%nat ->
  len (exts_octets b es) = list_sum (map eh_mlen es).
Proof.
  induction 1 as [|e r He Hr IH]; intros b Hb; [reflexivity|].
  cbn [map] in *. change (list_sum (eh_mlen e :: map eh_mlen r)) with (eh_mlen e + list_sum (map eh_mlen r))%nat in *.
  cbn [exts_octets]. rewrite app_length, eh_octets_len by (auto; lia).
  rewrite IH by (rewrite skipn_length, <- eh_ok_mlen by exact He; lia). reflexivity.
Qed.
Lemma exts_mto_ok es : Forall eh_ok es -> forall done b n, n = len done ->
  (n + list_sum (map eh_mlen es) <= len b)%nat ->
  exts_mto es n (done ++ skipn n b)
  = Ok ((done ++ exts_octets (skipn n b) es) ++ skipn (n + list_sum (map eh_mlen es)) b,
        (n + list_sum (map eh_mlen es))%nat).
Proof.
  induction 1 as [|e r He Hr IH]; intros done b n Hn Hb.
  - cbn [exts_mto exts_octets map list_sum fold_right]. rewrite app_nil_r, Nat.add_0_r. reflexivity.
  - cbn [map] in *. change (list_sum (eh_mlen e :: map eh_mlen r)) with (eh_mlen e + list_sum (map eh_mlen r))%nat in *.
    cbn [exts_mto exts_octets].
    assert (Hs : (eh_mlen e <= len (skipn n b))%nat) by (rewrite skipn_length; lia).
    rewrite (on_slice_from_gen _ done b n _ Hn ltac:(lia) (eh_mto_ok e (skipn n b) He Hs)). cbn [bind].
    rewrite app_assoc, skipn_skipn'. rewrite IH.
    + rewrite <- eh_ok_mlen, skipn_skipn', <- !app_assoc by exact He.
      replace (n + eh_mlen e + list_sum (map eh_mlen r))%nat with (n + (eh_mlen e + list_sum (map eh_mlen r)))%nat by lia.
      reflexivity.
    + rewrite app_length, eh_octets_len by assumption. lia.
    + lia.
Qed.

(** ** Header marshalling *)
Definition h1_base (h : hdr1) : nat :=
  (8 + (if f1_opt (h1_flags h) then 4 else 0) + (if f1_e (h1_flags h) then list_sum (map eh_mlen (h1_exts h)) else 0))%nat.
Lemma h1_mlen_base h : h1_mlen h = (h1_base h + len (h1_payload h))%nat.
Proof. unfold h1_mlen, h1_base. destruct (f1_opt _), (f1_e _); lia. Qed.

Definition exts_fine (h : hdr1) : Prop := N.testbit (h1_flags h) 2 = true -> Forall eh_ok (h1_exts h).

Theorem h1_mto_ok h b : exts_fine h -> (h1_mlen h <= len b)%nat ->
  h1_mto h b = Ok (h1_octets b h ++ skipn (h1_mlen h) b) /\ len (h1_octets b h) = h1_mlen h.
Proof.
  intros Hx Hb. unfold h1_mto. rewrite (proj2 (Nat.ltb_ge _ _) Hb).
  unfold h1_mlen, h1_octets, exts_fine in *. cbv zeta. rewrite <- f1_opt_bits.
  destruct (f1_bits (h1_flags h)) as (Be & Bs & Bp). rewrite <- Be, <- Bs, <- Bp in *.
  rewrite f1_opt_bits, <- Be, <- Bs, <- Bp in *.
  set (F := h1_flags h) in *. set (T := h1_type h). set (L := h1_length h). set (D := h1_teid h).
  assert (E0 : set_idx b 0 F = Ok ([F] ++ skipn 1 b)) by (apply (set_idx_w _ [] b 0); cbn; lia).
  rewrite E0. cbn [bind].
  rewrite (set_idx_w T [F] b 1) by (cbn; lia). cbn [bind]. change (1 + 1)%nat with 2%nat.
  rewrite (on_slice_w (put16 L) (enc16 L) ([F] ++ [T]) b 2 4 (put16_writes L)) by (cbn; lia). cbn [bind].
  rewrite (on_slice_w (put32 D) (enc32 D) (([F] ++ [T]) ++ enc16 L) b 4 8 (put32_writes D)) by (cbn; lia). cbn [bind].
  set (d := (([F] ++ [T]) ++ enc16 L) ++ enc32 D).
  assert (Hd : len d = 8%nat) by reflexivity.
  change ([F; T] ++ enc16 L ++ enc32 D ++ ?x) with (d ++ x).
  destruct (f1_e F || f1_s F || f1_pn F) eqn:Eo.
  - set (s := if f1_s F then enc16 (h1_seq h) else firstn 2 (skipn 8 b)).
    assert (Ls : len s = 2%nat).
    { unfold s. destruct (f1_s F); [reflexivity|]. rewrite firstn_length, skipn_length. lia. }
    assert (E1 : (if f1_s F then on_slice (d ++ skipn 8 b) 8 10 (put16 (h1_seq h)) else Ok (d ++ skipn 8 b))
                 = Ok ((d ++ s) ++ skipn 10 b)).
    { unfold s. destruct (f1_s F).
      - apply on_slice_w; [apply put16_writes|reflexivity|reflexivity|lia].
      - rewrite (skip_w d b 8 2). reflexivity. }
    rewrite E1. cbn [bind].
    set (n := if f1_pn F then [h1_npdu h] else firstn 1 (skipn 10 b)).
    assert (Ln : len n = 1%nat).
    { unfold n. destruct (f1_pn F); [reflexivity|]. rewrite firstn_length, skipn_length. lia. }
    assert (E2 : (if f1_pn F then set_idx ((d ++ s) ++ skipn 10 b) 10 (h1_npdu h) else Ok ((d ++ s) ++ skipn 10 b))
                 = Ok (((d ++ s) ++ n) ++ skipn 11 b)).
    { unfold n. destruct (f1_pn F).
      - rewrite set_idx_w; [reflexivity|rewrite app_length; lia|lia].
      - rewrite (skip_w (d ++ s) b 10 1). reflexivity. }
    rewrite E2. cbn [bind].
    set (x := if f1_e F then [h1_next h] else firstn 1 (skipn 11 b)).
    assert (Lx : len x = 1%nat).
    { unfold x. destruct (f1_e F); [reflexivity|]. rewrite firstn_length, skipn_length. lia. }
    assert (E3 : (if f1_e F then set_idx (((d ++ s) ++ n) ++ skipn 11 b) 11 (h1_next h) else Ok (((d ++ s) ++ n) ++ skipn 11 b))
                 = Ok ((((d ++ s) ++ n) ++ x) ++ skipn 12 b)).
    { unfold x. destruct (f1_e F).
      - rewrite set_idx_w; [reflexivity|rewrite !app_length; lia|lia].
      - rewrite (skip_w ((d ++ s) ++ n) b 11 1). reflexivity. }
    rewrite E3. cbn [bind].
    set (d2 := ((d ++ s) ++ n) ++ x). assert (Hd2 : len d2 = 12%nat) by (unfold d2; rewrite !app_length; lia).
    set (X := if f1_e F then exts_octets (skipn 12 b) (h1_exts h) else []).
    set (k := if f1_e F then list_sum (map eh_mlen (h1_exts h)) else 0%nat) in *.
    assert (LX : len X = k).
    { unfold X, k. destruct (f1_e F); [|reflexivity]. apply exts_octets_len; [apply Hx; reflexivity|].
      rewrite skipn_length. lia. }
    assert (E4 : (if f1_e F then exts_mto (h1_exts h) 12 (d2 ++ skipn 12 b) else Ok (d2 ++ skipn 12 b, 12%nat))
                 = Ok ((d2 ++ X) ++ skipn (12 + k) b, (12 + k)%nat)).
    { unfold X, k. destruct (f1_e F).
      - apply exts_mto_ok; [apply Hx; reflexivity|symmetry; exact Hd2|lia].
      - rewrite app_nil_r, Nat.add_0_r. reflexivity. }
    rewrite E4. cbn [bind].
    assert (Hw : copy_from ((d2 ++ X) ++ skipn (12 + k) b) (12 + k) (h1_payload h)
            = Ok ((d2 ++ X) ++ h1_payload h ++ skipn (12 + k + len (h1_payload h)) b)).
    { unfold copy_from. apply on_slice_from_gen; [rewrite app_length; lia|lia|].
      rewrite go_copy_writes by (rewrite skipn_length; lia). rewrite skipn_skipn'. reflexivity. }
    rewrite Hw. split.
    + f_equal. unfold d2. rewrite <- !app_assoc. do 6 f_equal. f_equal. lia.
    + rewrite !app_length, LX. lia.
  - assert (Ee : f1_e F = false /\ f1_s F = false /\ f1_pn F = false) by (destruct (f1_e F), (f1_s F), (f1_pn F); auto; discriminate).
    destruct Ee as (Ee & Es & Ep). rewrite Ee, Es, Ep. cbn [bind].
    rewrite Ee in Hb.
    assert (Hw : copy_from (d ++ skipn 8 b) 8 (h1_payload h)
            = Ok (d ++ h1_payload h ++ skipn (8 + len (h1_payload h)) b)).
    { unfold copy_from. apply on_slice_from_gen; [reflexivity|lia|].
      rewrite go_copy_writes by (rewrite skipn_length; lia). rewrite skipn_skipn'. reflexivity. }
    rewrite Hw. cbn [app]. split.
    + f_equal. rewrite <- !app_assoc. do 2 f_equal. f_equal. lia.
    + rewrite !app_length. lia.
Qed.

(** ** Into a fresh buffer *)
Definition h1_wire_opt (h : hdr1) : bytes :=
  if f1_opt (h1_flags h) then
     (if f1_s (h1_flags h) then enc16 (h1_seq h) else [0; 0]) ++
     (if f1_pn (h1_flags h) then [h1_npdu h] else [0]) ++
     (if f1_e (h1_flags h) then [h1_next h] else [0])
  else [].
Definition h1_wire_exts (h : hdr1) : bytes := if f1_e (h1_flags h) then flat_map eh_wire (h1_exts h) else [].
Definition h1_wire (h : hdr1) : bytes :=
  ([h1_flags h; h1_type h] ++ enc16 (h1_length h) ++ enc32 (h1_teid h)) ++ h1_wire_opt h ++ h1_wire_exts h ++ h1_payload h.

Lemma skipn_zeros n k : skipn k (zeros n) = zeros (n - k).
Proof.
  unfold zeros. revert k; induction n as [|n IH]; intros [|k]; cbn [repeat skipn]; try reflexivity.
  rewrite IH. f_equal.
Qed.
Lemma firstn_zeros n k : (k <= n)%nat -> firstn k (zeros n) = zeros k.
Proof.
  unfold zeros. revert k; induction n as [|n IH]; intros [|k] H; cbn [repeat firstn]; try reflexivity; try lia.
  rewrite IH by lia. reflexivity.
Qed.
Lemma eh_octets_zeros e n : eh_ok e -> (eh_mlen e <= n)%nat -> eh_octets (zeros n) e = eh_wire e.
Proof.
  intros He Hn. rewrite eh_ok_mlen in Hn by exact He. destruct He as [_ _ _ _ Hf].
  unfold eh_octets, eh_wire, eh_pad. rewrite skipn_zeros, firstn_zeros by lia. rewrite <- !app_assoc. reflexivity.
Qed.
Lemma exts_octets_zeros es : Forall eh_ok es -> forall n, (list_sum (map eh_mlen es) <= n)%nat ->
  exts_octets (zeros n) es = flat_map eh_wire es.
Proof.
  induction 1 as [|e r He Hr IH]; intros n Hn; [reflexivity|].
  cbn [map] in *. change (list_sum (eh_mlen e :: map eh_mlen r)) with (eh_mlen e + list_sum (map eh_mlen r))%nat in *.
  cbn [exts_octets flat_map]. rewrite eh_octets_zeros by (auto; lia). rewrite skipn_zeros, <- eh_ok_mlen by exact He.
  rewrite IH by lia. reflexivity.
Qed.
Lemma h1_octets_zeros h n : exts_fine h -> (h1_mlen h <= n)%nat -> h1_octets (zeros n) h = h1_wire h.
Proof.
  intros Hx Hn. unfold h1_octets, h1_wire, h1_wire_opt, h1_wire_exts, h1_mlen, exts_fine in *. cbv zeta.
  rewrite f1_opt_bits in *. destruct (f1_bits (h1_flags h)) as (Be & Bs & Bp). rewrite Be, Bs, Bp in *.
  rewrite <- !app_assoc. do 3 f_equal. f_equal.
  - destruct (N.testbit (h1_flags h) 2 || _ || _) eqn:Eo; [|reflexivity].
    rewrite !skipn_zeros, !firstn_zeros by lia. reflexivity.
  - f_equal. destruct (N.testbit (h1_flags h) 2) eqn:E2; [|reflexivity]. rewrite skipn_zeros. apply exts_octets_zeros; [auto|].
    cbn [orb] in Hn. lia.
Qed.
Lemma h1_wire_len h : exts_fine h -> len (h1_wire h) = h1_mlen h.
Proof.
  intros Hx. rewrite <- (h1_octets_zeros h (h1_mlen h)) by (auto; lia).
  apply (h1_mto_ok h (zeros (h1_mlen h))); [exact Hx|rewrite len_zeros; lia].
Qed.
Lemma h1_marshal_ok h : exts_fine h -> h1_marshal h = Ok (h1_wire h).
Proof.
  intros Hx. unfold h1_marshal. destruct (h1_mto_ok h (zeros (h1_mlen h)) Hx) as [E _]; [rewrite len_zeros; lia|].
  rewrite E, h1_octets_zeros by (auto; lia). rewrite skipn_zeros, Nat.sub_diag, app_nil_r. reflexivity.
Qed.

(** ** Parsing extension headers *)
Lemma eh_wire_len e : eh_ok e -> len (eh_wire e) = (4 * N.to_nat (eh_length e))%nat.
Proof.
  intros He. destruct He as [_ _ _ _ Hf]. unfold eh_wire, eh_pad. rewrite !app_length, len_zeros. cbn [List.length]. lia.
Qed.
Lemma eh_parse_wire e q : eh_ok e ->
  eh_parse (eh_wire e ++ q) = Ok (Ext1 0 (eh_length e) (eh_content e ++ zeros (eh_pad e)) (eh_next e)).
Proof.
  intros He. pose proof (eh_wire_len e He) as Hl. unfold eh_parse.
  assert (Hpos : (1 <= N.to_nat (eh_length e))%nat) by (destruct He; lia).
  assert (HL : len (eh_wire e ++ q) = (4 * N.to_nat (eh_length e) + len q)%nat) by (rewrite app_length; lia).
  rewrite HL. rewrite (proj2 (Nat.ltb_ge (4 * N.to_nat (eh_length e) + len q) 2)) by lia.
  replace (idx (eh_wire e ++ q) 0) with (@Ok N (eh_length e)) by reflexivity. cbn [bind].
  rewrite (proj2 (N.eqb_neq (eh_length e) 0)) by lia.
  rewrite (proj2 (Nat.ltb_ge _ _)) by lia.
  set (c := eh_content e ++ zeros (eh_pad e)).
  assert (Hc : len c = (4 * N.to_nat (eh_length e) - 2)%nat).
  { unfold eh_wire in Hl. fold c in Hl. rewrite !app_length in Hl. cbn [List.length] in Hl. lia. }
  unfold eh_wire. fold c. rewrite <- !app_assoc.
  rewrite (slice_mid [eh_length e] c ([eh_next e] ++ q)) by (cbn; lia). cbn [bind].
  rewrite (idx_app_r [eh_length e]) by (cbn; lia). rewrite idx_app_r by (cbn; lia).
  replace (4 * N.to_nat (eh_length e) - 1 - len [eh_length e] - len c)%nat with 0%nat by (cbn; lia).
  reflexivity.
Qed.
Lemma eh_known_mlen e t : eh_ok e -> eh_mlen (Ext1 t (eh_length e) (eh_content e ++ zeros (eh_pad e)) (eh_next e)) = len (eh_wire e).
Proof.
  intros He. rewrite eh_wire_len by exact He. unfold eh_mlen; cbn [eh_content]. apply pad4_unique.
  rewrite app_length, len_zeros. destruct He as [_ _ _ _ Hf]. unfold eh_pad. lia.
Qed.
Definition with_type (t : N) (e : ext1) : ext1 := Ext1 t (eh_length e) (eh_content e) (eh_next e).
Lemma eh_multi_wire r : Forall eh_ok r -> forall e t fuel q, eh_ok e -> eh_chain (eh_next e) r ->
  (len (flat_map eh_wire (e :: r)) < fuel)%nat ->
  eh_multi_f fuel t (flat_map eh_wire (e :: r) ++ q) = Ok (eh_known (with_type t e) :: map eh_known r).
Proof.
  induction 1 as [|e' r He' Hr IH]; intros e t fuel q He Hc Hf; (destruct fuel as [|f]; [lia|]);
    cbn [eh_multi_f flat_map] in *; rewrite <- app_assoc; rewrite eh_parse_wire by exact He; cbn [bind eh_length eh_content eh_next];
    rewrite slice_from_app by (apply eh_known_mlen, He); cbn [bind eh_chain] in *.
  - unfold with_type, eh_known, eh_pad; cbn [map eh_type eh_length eh_content eh_next]. rewrite Hc. reflexivity.
  - destruct Hc as (Hnz & Ht & Hc). rewrite (proj2 (N.eqb_neq _ _) Hnz).
    change (flat_map eh_wire (e' :: r)) with (eh_wire e' ++ flat_map eh_wire r) in *.
    rewrite IH; [|exact He'|exact Hc|]. 2:{ rewrite app_length in Hf. pose proof (eh_wire_len e He). destruct He. cbn [flat_map]. lia. }
    cbn [bind map]. do 2 f_equal. f_equal. unfold with_type, eh_known, eh_pad; cbn [eh_type eh_length eh_content eh_next].
    rewrite Ht. reflexivity.
Qed.

(** ** Parsing what was marshalled *)
Theorem h1_parse_wire h q : h1_ok h -> bytes_ok (h1_payload h) ->
  h1_length h = N.of_nat (h1_mlen h) - 8 -> N.of_nat (h1_mlen h) < 65536 ->
  h1_parse (h1_wire h ++ q) = Ok (h1_known h).
Proof.
  intros Hok Hp Hlen Hfit.
  assert (Hx : exts_fine h) by (intros E; apply (h1o_exts h Hok E)).
  pose proof (h1_wire_len h Hx) as Hwl.
  assert (HL : len (h1_wire h ++ q) = (h1_mlen h + len q)%nat) by (rewrite app_length; lia).
  assert (Hm : h1_mlen h = (8 + (if f1_opt (h1_flags h) then 4 else 0) + (if f1_e (h1_flags h) then list_sum (map eh_mlen (h1_exts h)) else 0) + len (h1_payload h))%nat).
  { unfold h1_mlen. destruct (f1_opt _), (f1_e _); lia. }
  unfold h1_parse. rewrite HL. rewrite (proj2 (Nat.ltb_ge (h1_mlen h + len q) 8)) by lia.
  set (F := h1_flags h) in *. set (T := h1_type h). set (L := h1_length h) in *. set (D := h1_teid h).
  assert (EB : h1_wire h ++ q = [F; T] ++ enc16 L ++ enc32 D ++ h1_wire_opt h ++ h1_wire_exts h ++ h1_payload h ++ q).
  { unfold h1_wire. rewrite <- !app_assoc. reflexivity. }
  replace (idx (h1_wire h ++ q) 0) with (@Ok N F) by reflexivity.
  replace (idx (h1_wire h ++ q) 1) with (@Ok N T) by reflexivity. cbn [bind].
  rewrite EB at 1. rewrite (slice_mid [F; T] (enc16 L)) by reflexivity. cbn [bind].
  rewrite be16_enc' by lia. cbn [bind].
  rewrite EB at 1. rewrite (app_assoc [F; T]). rewrite (slice_mid ([F; T] ++ enc16 L) (enc32 D)) by reflexivity. cbn [bind].
  rewrite be32_enc' by (apply h1o_teid, Hok). cbn [bind].
  rewrite (proj2 (Nat.ltb_ge (h1_mlen h + len q) (N.to_nat L + 8))) by lia.
  set (hd := [F; T] ++ enc16 L ++ enc32 D).
  assert (EB2 : h1_wire h ++ q = hd ++ h1_wire_opt h ++ h1_wire_exts h ++ h1_payload h ++ q) by (rewrite EB; reflexivity).
  assert (Hhd : len hd = 8%nat) by reflexivity.
  rewrite EB2. clear EB EB2.
  destruct (f1_bits F) as (Be & Bs & Bp).
  set (off := (if f1_opt F then 12 else 8)%nat).
  assert (Hopt : len (h1_wire_opt h) = (off - 8)%nat).
  { unfold h1_wire_opt, off. fold F. destruct (f1_opt F); [|reflexivity]. destruct (f1_s F), (f1_pn F), (f1_e F); reflexivity. }
  set (R := h1_wire_exts h ++ h1_payload h ++ q) in *.
  assert (E1 : (if f1_opt F then
       if L <? 4 then Err ETooShortToParse else
       do seq <- (if f1_s F then do s <- slice (hd ++ h1_wire_opt h ++ R) 8 10; be16 s else Ok 0);
       do np <- (if f1_pn F then idx (hd ++ h1_wire_opt h ++ R) 10 else Ok 0);
       do nx <- (if f1_e F then idx (hd ++ h1_wire_opt h ++ R) 11 else Ok 0);
       Ok (seq, np, nx, 12%nat)
     else Ok (0, 0, 0, 8%nat))
     = Ok (if f1_s F then h1_seq h else 0, if f1_pn F then h1_npdu h else 0, if f1_e F then h1_next h else 0, off)).
  { unfold off, h1_wire_opt. fold F. destruct (f1_opt F) eqn:Eo.
    - rewrite (proj2 (N.ltb_ge L 4)) by lia.
      pose proof (be16_enc' _ (h1o_seq h Hok)) as Hs.
      destruct (f1_s F), (f1_pn F), (f1_e F); cbn [app enc16] in *;
        try (match goal with |- context [slice ?B 8 10] => change (slice B 8 10) with (@Ok bytes (enc16 (h1_seq h))) end);
        cbn [bind]; rewrite ?Hs; cbn [bind];
        repeat match goal with |- context [idx ?B ?k] => let r := eval cbn in (idx B k) in change (idx B k) with r end; reflexivity.
    - unfold f1_opt in Eo. destruct (f1_s F), (f1_pn F), (f1_e F); try discriminate; reflexivity. }
  rewrite E1. cbn [bind]. clear E1.
  set (hd2 := hd ++ h1_wire_opt h). assert (Hhd2 : len hd2 = off) by (unfold hd2; rewrite app_length, Hopt, Hhd; unfold off; destruct (f1_opt F); lia).
  rewrite (app_assoc hd). fold hd2.
  assert (Hxl : f1_e F = true -> len (h1_wire_exts h) = list_sum (map eh_mlen (h1_exts h))).
  { intros E. unfold h1_wire_exts. fold F. rewrite E. rewrite <- (exts_octets_zeros (h1_exts h) (Hx (eq_trans (eq_sym Be) E)) _ (Nat.le_refl _)).
    apply exts_octets_len; [apply Hx; exact (eq_trans (eq_sym Be) E)|rewrite len_zeros; lia]. }
  assert (E2 : (if f1_e F then
      do s <- slice_from (hd2 ++ R) off; do es <- eh_multi s;
      do es0 <- set_first_type es (if f1_e F then h1_next h else 0);
      Ok (es0, (off + list_sum (map eh_mlen es0))%nat) else Ok ([], off))
      = Ok (if f1_e F then map eh_known (h1_exts h) else [], (off + len (h1_wire_exts h))%nat)).
  { destruct (f1_e F) eqn:Ee.
    - rewrite slice_from_app by (symmetry; exact Hhd2). cbn [bind].
      destruct (h1o_exts h Hok (eq_sym Be)) as (Hall & _ & e & r & Ex & Et & Hch).
      unfold R, eh_multi. unfold h1_wire_exts. fold F. rewrite Ee. rewrite Ex in *. inv Hall.
      rewrite eh_multi_wire; [|assumption|assumption|assumption|].
      2:{ rewrite app_length. lia. }
      cbn [bind set_first_type]. f_equal. f_equal.
      + cbn [map]. f_equal. unfold with_type, eh_known, eh_pad; cbn [eh_type eh_length eh_content eh_next]. rewrite Et. reflexivity.
      + f_equal. rewrite len_flat_map. rewrite <- Et. change (Ext1 (eh_type e) _ _ _ :: map eh_known r) with (map eh_known (e :: r)).
        rewrite map_map. f_equal. apply map_ext_in. intros x Hin. unfold eh_known. apply eh_known_mlen.
        destruct Hin as [<-|Hin]; [assumption|]. rewrite Forall_forall in H2. auto.
    - unfold h1_wire_exts. fold F. rewrite Ee. cbn. rewrite Nat.add_0_r. reflexivity. }
  rewrite E2. cbn [bind]. clear E2.
  assert (Hoff : (off + len (h1_wire_exts h) + len (h1_payload h) = h1_mlen h)%nat).
  { rewrite Hm. unfold off. destruct (f1_e F) eqn:Ee; [rewrite (Hxl eq_refl)|unfold h1_wire_exts; fold F; rewrite Ee; cbn [List.length]]; destruct (f1_opt F); lia. }
  rewrite (proj2 (Nat.ltb_ge (N.to_nat L + 8) (off + len (h1_wire_exts h)))) by lia.
  replace (u16 (8 + L)) with (8 + L) by (unfold u16; lia).
  unfold R. rewrite (app_assoc hd2). rewrite slice_mid; [|rewrite app_length; lia|rewrite app_length; lia].
  cbn [bind]. unfold h1_known. cbv zeta. fold F T L D. rewrite <- Be, <- Bs, <- Bp. reflexivity.
Qed.

(** ** Parsing arbitrary bytes *)
Lemma eh_parse_inv b e : bytes_ok b -> eh_parse b = Ok e ->
  eh_type e = 0 /\ 1 <= eh_length e < 256 /\ (len (eh_content e) + 2 = 4 * N.to_nat (eh_length e))%nat /\
  eh_next e < 256 /\ bytes_ok (eh_content e) /\ b = eh_wire e ++ skipn (eh_mlen e) b.
Proof.
  intros Hb H. unfold eh_parse in H. destruct (len b <? 2)%nat eqn:E2; [discriminate|].
  apply bind_ok_inv in H. destruct H as (n & Hn & H). pose proof (idx_byte _ _ _ Hb Hn) as Hnb.
  destruct (n =? 0) eqn:En; [discriminate|]. apply N.eqb_neq in En.
  destruct (len b <? 4 * N.to_nat n - 1 + 1)%nat eqn:El; [discriminate|]. apply Nat.ltb_ge in El.
  apply bind_ok_inv in H. destruct H as (c & Hc & H). apply bind_ok_inv in H. destruct H as (nx & Hx & H).
  injection H as <-. cbn [eh_type eh_length eh_content eh_next].
  pose proof (idx_byte _ _ _ Hb Hx) as Hxb. pose proof (slice_bytes_ok _ _ _ _ Hb Hc) as Hcb.
  apply slice_inv in Hc. destruct Hc as (_ & _ & Hc & Hcl).
  repeat split; auto; try lia.
  assert (Hm : eh_mlen (Ext1 0 n c nx) = (4 * N.to_nat n)%nat) by (unfold eh_mlen; cbn [eh_content]; apply pad4_unique; lia).
  rewrite Hm. unfold eh_wire, eh_pad. cbn [eh_length eh_content eh_next].
  replace (4 * N.to_nat n - 2 - len c)%nat with 0%nat by lia. cbn [zeros repeat]. rewrite app_nil_r.
  rewrite Hc. destruct b as [|b0 r]; [cbn in E2; discriminate|]. cbn in Hn. injection Hn as ->.
  cbn [app skipn]. change (skipn 1 (n :: r)) with r.
  replace (4 * N.to_nat n)%nat with (S (4 * N.to_nat n - 1)) by lia.
  set (k := (4 * N.to_nat n - 1)%nat) in *. cbn [skipn]. f_equal.
  replace (S k - 1)%nat with k by lia. apply idx_inv in Hx.
  assert (Hr : skipn (k - 1) r = nx :: skipn k r).
  { assert (Hk : (1 <= k)%nat) by lia. clearbody k. destruct k as [|k']; [lia|]. cbn [nth_error] in Hx. replace (S k' - 1)%nat with k' by lia.
    clear -Hx. revert r Hx. induction k' as [|k IH]; intros [|x r] Hx; cbn in *; try discriminate; [congruence|apply IH, Hx]. }
  rewrite <- app_assoc. cbn [app]. rewrite <- Hr. symmetry. apply firstn_skipn.
Qed.
Lemma eh_multi_inv fuel : forall t b es, t < 256 -> bytes_ok b -> eh_multi_f fuel t b = Ok es ->
  exists e r q, es = e :: r /\ eh_type e = t /\ Forall eh_ok es /\ Forall (fun e => eh_pad e = 0%nat) es /\
    eh_chain (eh_next e) r /\ b = flat_map eh_wire es ++ q.
Proof.
  induction fuel as [|f IH]; intros t b es Ht Hb H; [discriminate|]. cbn [eh_multi_f] in H.
  apply bind_ok_inv in H. destruct H as (e0 & He & H). destruct (eh_parse_inv _ _ Hb He) as (_ & Hl & Hc & Hn & Hcb & Eb).
  set (e := Ext1 t (eh_length e0) (eh_content e0) (eh_next e0)) in *.
  assert (Hok : eh_ok e) by (constructor; cbn; auto; lia).
  assert (Hpad : eh_pad e = 0%nat) by (unfold eh_pad, e; cbn [eh_length eh_content]; lia).
  change (eh_wire e0) with (eh_wire e) in Eb. change (eh_mlen e0) with (eh_mlen e) in Eb.
  apply bind_ok_inv in H. destruct H as (b' & Hb' & H).
  pose proof (slice_from_bytes_ok _ _ _ Hb Hb') as Hbb. apply slice_from_inv in Hb'. destruct Hb' as (_ & -> & _).
  destruct (eh_next e =? 0) eqn:En.
  - injection H as <-. apply N.eqb_eq in En. exists e, [], (skipn (eh_mlen e) b).
    split; [reflexivity|]. split; [reflexivity|]. split; [auto|]. split; [auto|]. split; [exact En|].
    cbn [flat_map]. rewrite app_nil_r. exact Eb.
  - apply N.eqb_neq in En. apply bind_ok_inv in H. destruct H as (r & Hr & H). injection H as <-.
    destruct (IH _ _ _ Hn Hbb Hr) as (e' & r' & q & -> & Ht' & Hall & Hpads & Hch & Eq).
    exists e, (e' :: r'), q. split; [reflexivity|]. split; [reflexivity|]. split; [auto|]. split; [auto|].
    split; [cbn [eh_chain]; auto|]. rewrite Eb at 1. rewrite Eq.
    cbn [flat_map]. rewrite <- !app_assoc. reflexivity.
Qed.
Lemma eh_parse_safe b : bytes_ok b -> safe (eh_parse b).
Proof.
  intros Hb. unfold eh_parse. destruct (len b <? 2)%nat eqn:E2; [discriminate|]. apply Nat.ltb_ge in E2.
  apply safe_bind; [apply safe_idx; lia|]. intros n Hn. destruct (n =? 0) eqn:En; [discriminate|]. apply N.eqb_neq in En.
  destruct (len b <? 4 * N.to_nat n - 1 + 1)%nat eqn:El; [discriminate|]. apply Nat.ltb_ge in El.
  apply safe_bind; [apply safe_slice; lia|]. intros c Hc. apply safe_bind; [apply safe_idx; lia|]. discriminate.
Qed.
Lemma eh_multi_safe fuel : forall t b, bytes_ok b -> (len b < fuel)%nat -> safe (eh_multi_f fuel t b).
Proof.
  induction fuel as [|f IH]; intros t b Hb Hf; [lia|]. cbn [eh_multi_f].
  apply safe_bind; [apply eh_parse_safe, Hb|]. intros e0 He.
  destruct (eh_parse_inv _ _ Hb He) as (_ & Hl & Hc & Hn & Hcb & Eb).
  assert (Hm : eh_mlen (Ext1 t (eh_length e0) (eh_content e0) (eh_next e0)) = len (eh_wire e0)).
  { unfold eh_mlen, eh_wire, eh_pad; cbn [eh_content]. rewrite !app_length, len_zeros. cbn [List.length]. rewrite (pad4_unique _ (N.to_nat (eh_length e0))); lia. }
  assert (Hle : (len (eh_wire e0) <= len b)%nat) by (rewrite Eb, app_length; lia).
  assert (Hpos : (4 <= len (eh_wire e0))%nat) by (unfold eh_wire; rewrite !app_length, len_zeros; cbn [List.length]; lia).
  apply safe_bind; [apply safe_slice_from; lia|]. intros b' Hb'.
  pose proof (slice_from_bytes_ok _ _ _ Hb Hb') as Hbb. apply slice_from_inv in Hb'. destruct Hb' as (_ & _ & Hlb).
  destruct (eh_next _ =? 0); [discriminate|]. apply safe_bind; [apply IH; [exact Hbb|lia]|]. discriminate.
Qed.

Lemma eh_wire_sum es : Forall eh_ok es -> len (flat_map eh_wire es) = list_sum (map eh_mlen es).
Proof.
  intros H. rewrite len_flat_map. f_equal. apply map_ext_in. intros e He. rewrite Forall_forall in H.
  rewrite eh_wire_len, eh_ok_mlen by auto. reflexivity.
Qed.
Lemma exts_octets_exact es : Forall (fun e => eh_pad e = 0%nat) es -> forall b, exts_octets b es = flat_map eh_wire es.
Proof.
  induction 1 as [|e r He Hr IH]; intros b; [reflexivity|]. cbn [exts_octets flat_map]. rewrite IH. f_equal.
  unfold eh_octets, eh_wire. rewrite He. cbn [firstn zeros repeat]. rewrite app_nil_r. reflexivity.
Qed.
Lemma eh_known_exact es : Forall (fun e => eh_pad e = 0%nat) es -> map eh_known es = es.
Proof.
  induction 1 as [|e r He Hr IH]; [reflexivity|]. cbn [map]. rewrite IH. f_equal. unfold eh_known. rewrite He.
  cbn [zeros repeat]. rewrite app_nil_r. destruct e; reflexivity.
Qed.

Lemma len8 (b : bytes) : (8 <= len b)%nat -> exists a0 a1 a2 a3 a4 a5 a6 a7 r, b = a0::a1::a2::a3::a4::a5::a6::a7::r.
Proof. destruct b as [|a0 [|a1 [|a2 [|a3 [|a4 [|a5 [|a6 [|a7 r]]]]]]]]; cbn [List.length]; intros; try lia. do 9 eexists. reflexivity. Qed.
Lemma len4 (b : bytes) : (4 <= len b)%nat -> exists a0 a1 a2 a3 r, b = a0::a1::a2::a3::r.
Proof. destruct b as [|a0 [|a1 [|a2 [|a3 r]]]]; cbn [List.length]; intros; try lia. do 5 eexists. reflexivity. Qed.

(** What a parsed header is: in range, a proper chain, its Length field correct, nothing in
    fields whose flag is off; and its octets are the beginning of the input. *)
Theorem h1_parse_inv b h : bytes_ok b -> h1_parse b = Ok h ->
  h1_ok h /\ bytes_ok (h1_payload h) /\ h1_length h = N.of_nat (h1_mlen h) - 8 /\ N.of_nat (h1_mlen h) < 65536 /\
  h1_known h = h /\ Forall (fun e => eh_pad e = 0%nat) (h1_exts h) /\ exists q, b = h1_octets b h ++ q.
Proof.
  intros Hb H. unfold h1_parse in H. destruct (len b <? 8)%nat eqn:E8; [discriminate|]. apply Nat.ltb_ge in E8.
  destruct (len8 b E8) as (a0 & a1 & a2 & a3 & a4 & a5 & a6 & a7 & r & Eb).
  assert (Hr : bytes_ok r /\ a0 < 256 /\ a1 < 256 /\ a2 < 256 /\ a3 < 256 /\ a4 < 256 /\ a5 < 256 /\ a6 < 256 /\ a7 < 256).
  { rewrite Eb in Hb. repeat match goal with H : bytes_ok (_ :: _) |- _ => inversion H; clear H; subst
                       | H : Forall _ (_ :: _) |- _ => inversion H; clear H; subst end. repeat split; assumption. }
  destruct Hr as (Hr & H0 & H1 & H2 & H3 & H4 & H5 & H6 & H7).
  assert (I0 : idx b 0 = Ok a0) by (rewrite Eb; reflexivity).
  assert (I1 : idx b 1 = Ok a1) by (rewrite Eb; reflexivity).
  assert (I2 : slice b 2 4 = Ok [a2; a3]) by (rewrite Eb; reflexivity).
  assert (I4 : slice b 4 8 = Ok [a4; a5; a6; a7]) by (rewrite Eb; reflexivity).
  rewrite I0, I1, I2, I4 in H.
  cbn [bind be16 be32] in H.
  set (L := a2 * 256 + a3) in *. set (D := a4 * 16777216 + a5 * 65536 + a6 * 256 + a7) in *.
  destruct (len b <? N.to_nat L + 8)%nat eqn:EL; [discriminate|]. apply Nat.ltb_ge in EL.
  assert (Hlb : len b = (8 + len r)%nat) by (rewrite Eb; reflexivity).
  assert (HLb : L < 65536) by (unfold L; lia).
  apply bind_ok_inv in H. destruct H as (((( seq, np), nx), off) & Ho & H). cbv iota in H.
  destruct (f1_bits a0) as (Be & Bs & Bp). pose proof (f1_opt_bits a0) as Bo.
  set (hd := [a0; a1; a2; a3; a4; a5; a6; a7]).
  (* optional octets *)
  assert (Ho' : exists o r', len o = (off - 8)%nat /\ r = o ++ r' /\ bytes_ok o /\ bytes_ok r' /\
     off = (if f1_opt a0 then 12 else 8)%nat /\ (f1_opt a0 = true -> 4 <= L) /\
     seq < 65536 /\ np < 256 /\ nx < 256 /\
     o = (if f1_opt a0 then
       (if f1_s a0 then enc16 seq else firstn 2 (skipn 8 b)) ++
       (if f1_pn a0 then [np] else firstn 1 (skipn 10 b)) ++
       (if f1_e a0 then [nx] else firstn 1 (skipn 11 b)) else []) /\
     (f1_s a0 = false -> seq = 0) /\ (f1_pn a0 = false -> np = 0) /\ (f1_e a0 = false -> nx = 0)).
  { destruct (f1_opt a0) eqn:Eo.
    - destruct (L <? 4) eqn:E4; [discriminate|]. apply N.ltb_ge in E4.
      destruct (len4 r ltac:(lia)) as (o0 & o1 & o2 & o3 & r' & Er).
      assert (Hr4 : bytes_ok r' /\ o0 < 256 /\ o1 < 256 /\ o2 < 256 /\ o3 < 256).
      { rewrite Er in Hr. repeat match goal with H : bytes_ok (_ :: _) |- _ => inversion H; clear H; subst
                       | H : Forall _ (_ :: _) |- _ => inversion H; clear H; subst end. repeat split; assumption. }
      destruct Hr4 as (Hr' & G0 & G1 & G2 & G3).
      assert (J0 : slice b 8 10 = Ok [o0; o1]) by (rewrite Eb, Er; reflexivity).
      assert (J2 : idx b 10 = Ok o2) by (rewrite Eb, Er; reflexivity).
      assert (J3 : idx b 11 = Ok o3) by (rewrite Eb, Er; reflexivity).
      rewrite J0, J2, J3 in Ho.
      cbn [bind be16] in Ho.
      exists [o0; o1; o2; o3], r'.
      assert (Hoff : off = 12%nat) by (destruct (f1_s a0), (f1_pn a0), (f1_e a0); cbn [bind] in Ho; congruence).
      rewrite Hoff. split; [reflexivity|]. split; [exact Er|]. split; [repeat constructor; assumption|]. split; [exact Hr'|].
      split; [reflexivity|]. split; [auto|].
      rewrite Eb, Er. cbn [skipn firstn].
      destruct (f1_s a0), (f1_pn a0), (f1_e a0); cbn [bind] in Ho; injection Ho as <- <- <- _;
        rewrite ?enc16_be by assumption; repeat split; try reflexivity; try discriminate; try assumption; lia.
    - injection Ho as <- <- <- <-. exists [], r. repeat split; auto; try lia; try discriminate. constructor. }
  destruct Ho' as (o & r' & Lo & Er & Hob & Hr' & Hoff & H4L & Gs & Gn & Gx & Eo & Z1 & Z2 & Z3).
  assert (Eb2 : b = (hd ++ o) ++ r') by (rewrite Eb, Er; unfold hd; rewrite <- app_assoc; reflexivity).
  assert (Lho : len (hd ++ o) = off) by (rewrite app_length, Lo, Hoff; cbn [List.length hd]; destruct (f1_opt a0); reflexivity).
  apply bind_ok_inv in H. destruct H as ((es, off') & Hx & H). cbv iota in H.
  (* extension headers *)
  assert (Hx' : exists x r2, r' = x ++ r2 /\ off' = (off + len x)%nat /\ Forall (fun e => eh_pad e = 0%nat) es /\ bytes_ok r2 /\
      len x = (if f1_e a0 then list_sum (map eh_mlen es) else 0)%nat /\
      x = (if f1_e a0 then exts_octets (skipn 12 b) es else []) /\ (f1_e a0 = false -> es = []) /\
      (f1_e a0 = true -> Forall eh_ok es /\ es <> [] /\ exists e r, es = e :: r /\ eh_type e = nx /\ eh_chain (eh_next e) r)).
  { destruct (f1_e a0) eqn:Ee.
    - apply bind_ok_inv in Hx. destruct Hx as (s & Hs & Hx). apply bind_ok_inv in Hx. destruct Hx as (es0 & Hm & Hx).
      rewrite Eb2 in Hs. rewrite slice_from_app in Hs by (symmetry; exact Lho). injection Hs as <-.
      destruct (eh_multi_inv _ 0 r' es0 ltac:(lia) Hr' Hm) as (e & rr & q & -> & Ht & Hall & Hpads & Hch & Eq).
      cbn [set_first_type bind] in Hx. injection Hx as <- <-.
      set (e' := Ext1 nx (eh_length e) (eh_content e) (eh_next e)).
      assert (Hall' : Forall eh_ok (e' :: rr)).
      { inv Hall. constructor; [|assumption]. destruct H10 as [? ? ? ? Hfit]. constructor; cbn; assumption. }
      assert (Hpads' : Forall (fun e => eh_pad e = 0%nat) (e' :: rr)) by (inv Hpads; constructor; assumption).
      exists (flat_map eh_wire (e' :: rr)), q. split; [rewrite Eq; reflexivity|].
      split; [rewrite eh_wire_sum by exact Hall'; reflexivity|]. split; [exact Hpads'|].
      split; [rewrite Eq in Hr'; apply bytes_ok_app_inv in Hr'; apply Hr'|].
      split; [apply eh_wire_sum, Hall'|]. split; [symmetry; apply exts_octets_exact, Hpads'|].
      split; [discriminate|]. intros _. split; [exact Hall'|]. split; [discriminate|]. exists e', rr. auto.
    - injection Hx as <- <-. exists [], r'. repeat split; auto; try discriminate. }
  destruct Hx' as (x & r2 & Er2 & Hoff' & Hpads & Hr2 & Lx & Ex & Zx & Hch).
  destruct (N.to_nat L + 8 <? off')%nat eqn:Elim; [discriminate|]. apply Nat.ltb_ge in Elim.
  apply bind_ok_inv in H. destruct H as (p & Hp & H). injection H as <-.
  pose proof (slice_bytes_ok _ _ _ _ Hb Hp) as Hpb. apply slice_inv in Hp. destruct Hp as (Hle & Hle2 & Hp & Hpl).
  assert (Hoff8 : (8 <= off')%nat) by (rewrite Hoff', Hoff; destruct (f1_opt a0); lia).
  assert (HL65 : 8 + L < 65536) by (unfold u16 in *; lia).
  assert (HL8 : u16 (8 + L) = 8 + L) by (unfold u16; lia).
  rewrite HL8 in Hp, Hle, Hle2, Hpl.
  assert (Hb2 : b = ((hd ++ o) ++ x) ++ r2) by (rewrite Eb2, Er2, <- !app_assoc; reflexivity).
  assert (Hs : skipn off' b = r2).
  { rewrite Hb2. apply skipn_app_exact. rewrite app_length, Lho. exact Hoff'. }
  rewrite Hs in Hp.
  assert (Hml : h1_mlen (Hdr1 a0 a1 L D seq np nx es p) = (off' + len p)%nat).
  { unfold h1_mlen; cbn [h1_flags h1_exts h1_payload]. rewrite Hoff', Lx, Hoff. destruct (f1_opt a0), (f1_e a0); lia. }
  assert (HD : enc32 D = [a4; a5; a6; a7]) by (apply enc32_be; assumption).
  assert (HL : enc16 L = [a2; a3]) by (apply enc16_be; assumption).
  split.
  { constructor; cbn [h1_flags h1_type h1_length h1_teid h1_seq h1_npdu h1_next h1_exts h1_payload]; auto; try (unfold D; lia).
    rewrite <- Be. exact Hch. }
  split; [exact Hpb|]. rewrite Hml. cbn [h1_length]. split; [lia|]. split; [lia|].
  split.
  { unfold h1_known; cbn [h1_flags h1_type h1_length h1_teid h1_seq h1_npdu h1_next h1_exts h1_payload].
    rewrite <- Be, <- Bs, <- Bp. f_equal.
    - destruct (f1_s a0); [reflexivity|symmetry; auto].
    - destruct (f1_pn a0); [reflexivity|symmetry; auto].
    - destruct (f1_e a0); [reflexivity|symmetry; auto].
    - destruct (f1_e a0); [apply eh_known_exact, Hpads|symmetry; auto]. }
  split; [exact Hpads|].
  exists (skipn (N.to_nat (8 + L) - off') r2).
  unfold h1_octets; cbn [h1_flags h1_type h1_length h1_teid h1_seq h1_npdu h1_next h1_exts h1_payload]. cbv zeta.
  rewrite <- Bo, <- Be, <- Bs, <- Bp. rewrite HD, HL, <- Ex, <- Eo, Hp.
  rewrite Hb2 at 1. unfold hd. rewrite <- !app_assoc. cbn [app]. do 10 f_equal. symmetry. apply firstn_skipn.
Qed.

Theorem h1_parse_safe b : bytes_ok b -> N.of_nat (len b) < 65536 -> safe (h1_parse b).
Proof.
  intros Hb Hlb. unfold h1_parse. destruct (len b <? 8)%nat eqn:E8; [discriminate|]. apply Nat.ltb_ge in E8.
  apply safe_bind; [apply safe_idx; lia|]. intros fl Hfl.
  apply safe_bind; [apply safe_idx; lia|]. intros ty Hty.
  apply safe_bind; [apply safe_slice; lia|]. intros s Hs. pose proof (slice_bytes_ok _ _ _ _ Hb Hs) as Hsb. apply slice_len in Hs.
  apply safe_bind; [apply safe_be16; lia|]. intros L HL. pose proof (be16_lt _ _ Hsb HL) as HLb.
  apply safe_bind; [apply safe_slice; lia|]. intros s2 Hs2. apply slice_len in Hs2.
  apply safe_bind; [apply safe_be32; lia|]. intros D HD.
  destruct (len b <? N.to_nat L + 8)%nat eqn:EL; [discriminate|]. apply Nat.ltb_ge in EL.
  assert (Hopt : f1_opt fl = true -> L < 4 \/ (12 <= len b)%nat) by lia.
  apply safe_bind.
  { destruct (f1_opt fl); [|discriminate]. destruct (L <? 4) eqn:E4; [discriminate|]. apply N.ltb_ge in E4.
    apply safe_bind. { destruct (f1_s fl); [|discriminate]. apply safe_bind; [apply safe_slice; lia|]. intros x Hx. apply slice_len in Hx. apply safe_be16. lia. }
    intros sq _. apply safe_bind. { destruct (f1_pn fl); [|discriminate]. apply safe_idx; lia. }
    intros np _. apply safe_bind. { destruct (f1_e fl); [|discriminate]. apply safe_idx; lia. } discriminate. }
  intros [[[sq np] nx] off] Ho.
  assert (Hoff : (8 <= off <= len b)%nat).
  { destruct (f1_opt fl).
    - destruct (L <? 4) eqn:E4; [discriminate|]. apply N.ltb_ge in E4.
      apply bind_ok_inv in Ho. destruct Ho as (? & _ & Ho). apply bind_ok_inv in Ho. destruct Ho as (? & _ & Ho).
      apply bind_ok_inv in Ho. destruct Ho as (? & _ & Ho). injection Ho as _ _ _ <-. lia.
    - injection Ho as _ _ _ <-. lia. }
  apply safe_bind.
  { destruct (f1_e fl); [|discriminate]. apply safe_bind; [apply safe_slice_from; lia|]. intros x Hx.
    pose proof (slice_from_bytes_ok _ _ _ Hb Hx) as Hxb.
    apply safe_bind; [apply eh_multi_safe; [exact Hxb|lia]|]. intros es Hes.
    destruct (eh_multi_inv _ 0 _ _ ltac:(lia) Hxb Hes) as (e & r & _ & -> & _). discriminate. }
  intros [es off'] Hx.
  assert (Hoff' : (8 <= off')%nat).
  { destruct (f1_e fl).
    - apply bind_ok_inv in Hx. destruct Hx as (? & _ & Hx). apply bind_ok_inv in Hx. destruct Hx as (? & _ & Hx).
      apply bind_ok_inv in Hx. destruct Hx as (? & _ & Hx). injection Hx as _ <-. lia.
    - injection Hx as _ <-. lia. }
  destruct (N.to_nat L + 8 <? off')%nat eqn:Elim; [discriminate|]. apply Nat.ltb_ge in Elim.
  apply safe_bind; [|discriminate]. assert (HL8 : u16 (8 + L) = 8 + L) by (unfold u16; lia). rewrite HL8.
  apply safe_slice; lia.
Qed.
