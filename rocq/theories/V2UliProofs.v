(** Proofs about V2Uli.v. *)
From Coq Require Import Lia.
From Verif Require Import Base BaseLemmas Utils UtilsProofs V2IE V2IESpec V2IEProofs V2EditProofs Spec V2Codec V2Codec2 CodecSpec CodecSpec4
  V2CodecProofs V2CodecProofs3 V2IdProofs V2Uli UliSpec.
Open Scope N_scope.
Open Scope list_scope.

Lemma plmn_len mcc mnc : is_mcc mcc -> is_mnc mnc -> len (plmn_octets mcc mnc) = 3%nat.
Proof. intros A B. destruct (plmn_cells mcc mnc A B) as (x & y & z & -> & _). reflexivity. Qed.
Lemma plmn_bytes mcc mnc : is_mcc mcc -> is_mnc mnc -> bytes_ok (plmn_octets mcc mnc).
Proof. intros A B. destruct (plmn_cells mcc mnc A B) as (x & y & z & -> & _ & X & Y & Z & _). repeat constructor; assumption. Qed.
Lemma plmn_dec mcc mnc q : is_mcc mcc -> is_mnc mnc -> decode_plmn (plmn_octets mcc mnc ++ q) = Ok (mcc, mnc).
Proof. intros A B. destruct (plmn_cells mcc mnc A B) as (x & y & z & -> & _ & _ & _ & _ & D). apply D. Qed.
Lemma loc2_len v : loc2_ok v -> len (loc2_octets v) = 7%nat.
Proof. intros (A & B & _). unfold loc2_octets. now rewrite !app_length, plmn_len, !enc16_len. Qed.
Lemma loc1_len enc bits n v : (forall x, len (enc x) = n) -> loc1_ok bits v -> len (loc1_octets enc v) = (3 + n)%nat.
Proof. intros E (A & B & _). unfold loc1_octets. now rewrite !app_length, plmn_len, E. Qed.
Lemma loc2_bytes v : loc2_ok v -> bytes_ok (loc2_octets v).
Proof. intros (A & B & _). unfold loc2_octets. repeat apply bytes_ok_app; auto using plmn_bytes, enc16_ok. Qed.
Lemma loc1_bytes enc bits v : (forall x, bytes_ok (enc x)) -> loc1_ok bits v -> bytes_ok (loc1_octets enc v).
Proof. intros E (A & B & _). unfold loc1_octets. repeat apply bytes_ok_app; auto using plmn_bytes. Qed.

(** ** Encoding *)
Definition puts {A} (w : A -> nat -> bytes -> res bytes) (oct : A -> bytes) (n : nat) (v : A) : Prop :=
  len (oct v) = n /\
  forall pre b, (len pre + n <= len b)%nat ->
    w v (len pre) (pre ++ skipn (len pre) b) = Ok ((pre ++ oct v) ++ skipn (len (pre ++ oct v)) b).
Lemma copy_writes src pre b : (len pre + len src <= len b)%nat ->
  copy_at (pre ++ skipn (len pre) b) (len pre) (len pre + len src) src = Ok ((pre ++ src) ++ skipn (len (pre ++ src)) b).
Proof. intros H. unfold copy_at. apply on_slice_writes; [apply go_copy_writes|reflexivity|exact H]. Qed.
Lemma put_plmn mcc mnc pre b : is_mcc mcc -> is_mnc mnc -> (len pre + 3 <= len b)%nat ->
  copy_at (pre ++ skipn (len pre) b) (len pre) (len pre + 3) (plmn_octets mcc mnc) =
  Ok ((pre ++ plmn_octets mcc mnc) ++ skipn (len (pre ++ plmn_octets mcc mnc)) b).
Proof. intros A B H. pose proof (plmn_len _ _ A B) as L. rewrite <- L. apply copy_writes. lia. Qed.
Lemma put_loc2_ok v : loc2_ok v -> puts put_loc2 loc2_octets 7 v.
Proof.
  intros H. split; [now apply loc2_len|]. destruct H as (A & B & C & D). intros pre b L.
  unfold put_loc2. rewrite (plmn_layout _ _ A B). cbn [bind]. rewrite put_plmn by (assumption || lia). cbn [bind].
  pose proof (plmn_len _ _ A B) as LP.
  replace (len pre + 3)%nat with (len (pre ++ plmn_octets (l2_mcc v) (l2_mnc v))) by (rewrite app_length; lia).
  rewrite (on_slice_writes _ _ _ _ _ (put16_writes (l2_lac v))); [|rewrite app_length, enc16_len; lia|lia]. cbn [bind].
  replace (len pre + 5)%nat with (len ((pre ++ plmn_octets (l2_mcc v) (l2_mnc v)) ++ enc16 (l2_lac v))) by (rewrite !app_length, enc16_len; lia).
  rewrite (on_slice_writes _ _ _ _ _ (put16_writes (l2_x v))); [|rewrite !app_length, !enc16_len; lia|lia].
  unfold loc2_octets. now rewrite <- !app_assoc.
Qed.
Lemma put_loc16_ok v : loc1_ok 16 v -> puts put_loc16 (loc1_octets enc16) 5 v.
Proof.
  intros H. split; [now apply (loc1_len enc16 16 2)|]. destruct H as (A & B & C). intros pre b L.
  unfold put_loc16. rewrite (plmn_layout _ _ A B). cbn [bind]. rewrite put_plmn by (assumption || lia). cbn [bind].
  pose proof (plmn_len _ _ A B) as LP.
  replace (len pre + 3)%nat with (len (pre ++ plmn_octets (l1_mcc v) (l1_mnc v))) by (rewrite app_length; lia).
  rewrite (on_slice_writes _ _ _ _ _ (put16_writes (l1_x v))); [|rewrite app_length, enc16_len; lia|lia].
  unfold loc1_octets. now rewrite <- !app_assoc.
Qed.
Lemma put_loc32_ok v : loc1_ok 32 v -> puts put_loc32 (loc1_octets enc32) 7 v.
Proof.
  intros H. split; [now apply (loc1_len enc32 32 4)|]. destruct H as (A & B & C). intros pre b L.
  unfold put_loc32. rewrite (plmn_layout _ _ A B). cbn [bind]. rewrite put_plmn by (assumption || lia). cbn [bind].
  pose proof (plmn_len _ _ A B) as LP.
  replace (len pre + 3)%nat with (len (pre ++ plmn_octets (l1_mcc v) (l1_mnc v))) by (rewrite app_length; lia).
  rewrite (on_slice_writes _ _ _ _ _ (put32_writes (l1_x v))); [|rewrite app_length, enc32_len; lia|lia].
  unfold loc1_octets. now rewrite <- !app_assoc.
Qed.
Lemma put_loc24_ok v : loc1_ok 24 v -> puts put_loc24 (loc1_octets enc24) 6 v.
Proof.
  intros H. split; [now apply (loc1_len enc24 24 3)|]. destruct H as (A & B & C). intros pre b L.
  unfold put_loc24. rewrite (plmn_layout _ _ A B). cbn [bind]. rewrite put_plmn by (assumption || lia). cbn [bind].
  pose proof (plmn_len _ _ A B) as LP. rewrite uint32to24_enc.
  replace (len pre + 6)%nat with (len (pre ++ plmn_octets (l1_mcc v) (l1_mnc v)) + len (enc24 (l1_x v)))%nat by (rewrite app_length, enc24_len; lia).
  replace (len pre + 3)%nat with (len (pre ++ plmn_octets (l1_mcc v) (l1_mnc v))) by (rewrite app_length; lia).
  rewrite copy_writes by (rewrite app_length, enc24_len; lia).
  unfold loc1_octets. now rewrite <- !app_assoc.
Qed.
Lemma enc_step_ok {A} fl k n (w : A -> nat -> bytes -> res bytes) oct o pre b :
  hasbit k fl = present o -> opt_ok (puts w oct n) o -> (len (pre ++ part oct o) <= len b)%nat ->
  enc_step fl k n w o (pre ++ skipn (len pre) b, len pre) =
  Ok ((pre ++ part oct o) ++ skipn (len (pre ++ part oct o)) b, len (pre ++ part oct o)).
Proof.
  intros H P L. unfold enc_step. rewrite H. destruct o as [v|]; cbn [present part] in *.
  - destruct P as [P1 P2]. rewrite app_length, P1 in L.
    rewrite (proj2 (Nat.ltb_ge _ _)) by (rewrite app_length, skipn_length; lia).
    rewrite P2 by lia. cbn [bind]. do 2 f_equal. rewrite app_length. lia.
  - now rewrite app_nil_r.
Qed.
(** the length *)
Lemma part_len {A} (oct : A -> bytes) n o : opt_ok (fun v => len (oct v) = n) o -> len (part oct o) = (if present o then n else 0)%nat.
Proof. destruct o; cbn; auto. Qed.

(** ** Decoding *)
Definition gets {A} (r : bytes -> nat -> res A) (oct : A -> bytes) (n : nat) (v : A) : Prop :=
  len (oct v) = n /\ forall pre q, r (pre ++ oct v ++ q) (len pre) = Ok v.
Lemma slice_at {A} (pre m q : list A) lo hi : lo = List.length pre -> hi = (lo + List.length m)%nat -> slice (pre ++ m ++ q) lo hi = Ok m.
Proof. intros. apply slice_mid; lia. Qed.
Lemma get_loc2_ok v : loc2_ok v -> gets get_loc2 loc2_octets 7 v.
Proof.
  intros H. split; [now apply loc2_len|]. destruct H as (A & B & C & D). intros pre q. pose proof (plmn_len _ _ A B) as LP.
  unfold get_loc2, loc2_octets. rewrite <- !app_assoc.
  rewrite (slice_at pre (plmn_octets _ _)) by (rewrite ?LP; reflexivity). cbn [bind].
  rewrite <- (app_nil_r (plmn_octets _ _)) at 1. rewrite plmn_dec by assumption. cbn [bind].
  rewrite (app_assoc pre), (slice_at (pre ++ _) (enc16 _)) by (rewrite ?app_length, ?enc16_len; lia). cbn [bind].
  rewrite be16_enc' by exact C. cbn [bind].
  rewrite (app_assoc (pre ++ _)), (slice_at ((pre ++ _) ++ _) (enc16 _)) by (rewrite ?app_length, ?enc16_len; lia). cbn [bind].
  rewrite be16_enc' by exact D. cbn. now destruct v.
Qed.
Lemma get_loc16_ok v : loc1_ok 16 v -> gets get_loc16 (loc1_octets enc16) 5 v.
Proof.
  intros H. split; [now apply (loc1_len enc16 16 2)|]. destruct H as (A & B & C). intros pre q. pose proof (plmn_len _ _ A B) as LP.
  unfold get_loc16, loc1_octets. rewrite <- !app_assoc.
  rewrite (slice_at pre (plmn_octets _ _)) by (rewrite ?LP; reflexivity). cbn [bind].
  rewrite <- (app_nil_r (plmn_octets _ _)) at 1. rewrite plmn_dec by assumption. cbn [bind].
  rewrite (app_assoc pre), (slice_at (pre ++ _) (enc16 _)) by (rewrite ?app_length, ?enc16_len; lia). cbn [bind].
  rewrite be16_enc' by exact C. cbn. now destruct v.
Qed.
Lemma get_loc32_ok v : loc1_ok 32 v -> gets get_loc32 (loc1_octets enc32) 7 v.
Proof.
  intros H. split; [now apply (loc1_len enc32 32 4)|]. destruct H as (A & B & C). intros pre q. pose proof (plmn_len _ _ A B) as LP.
  unfold get_loc32, loc1_octets. rewrite <- !app_assoc.
  rewrite (slice_at pre (plmn_octets _ _)) by (rewrite ?LP; reflexivity). cbn [bind].
  rewrite <- (app_nil_r (plmn_octets _ _)) at 1. rewrite plmn_dec by assumption. cbn [bind].
  rewrite (app_assoc pre), (slice_at (pre ++ _) (enc32 _)) by (rewrite ?app_length, ?enc32_len; lia). cbn [bind].
  rewrite be32_enc' by exact C. cbn. now destruct v.
Qed.
Lemma get_loc24_ok v : loc1_ok 24 v -> gets get_loc24 (loc1_octets enc24) 6 v.
Proof.
  intros H. split; [now apply (loc1_len enc24 24 3)|]. destruct H as (A & B & C). intros pre q. pose proof (plmn_len _ _ A B) as LP.
  unfold get_loc24, loc1_octets. rewrite <- !app_assoc.
  rewrite (slice_at pre (plmn_octets _ _)) by (rewrite ?LP; reflexivity). cbn [bind].
  rewrite <- (app_nil_r (plmn_octets _ _)) at 1. rewrite plmn_dec by assumption. cbn [bind].
  rewrite (app_assoc pre), (slice_at (pre ++ _) (enc24 _)) by (rewrite ?app_length, ?enc24_len; lia). cbn [bind].
  rewrite <- uint32to24_enc, uint24_roundtrip. change (2 ^ 24) with 16777216 in C. rewrite N.mod_small by exact C. cbn. now destruct v.
Qed.
Lemma dec_step_ok {A} fl k n (r : bytes -> nat -> res A) oct o pre q b : b = pre ++ part oct o ++ q ->
  hasbit k fl = present o -> opt_ok (gets r oct n) o ->
  dec_step fl k n r b (len pre) = Ok (o, len (pre ++ part oct o)).
Proof.
  intros -> H P. unfold dec_step. rewrite H. destruct o as [v|]; cbn [present part] in *.
  - destruct P as [P1 P2]. rewrite (proj2 (Nat.ltb_ge _ _)) by (rewrite !app_length; lia).
    rewrite P2. cbn [bind]. now rewrite app_length, P1.
  - now rewrite app_nil_r.
Qed.
(** a payload that ends before the component, or in it, or after it *)
Definition cut_of (t full : bytes) : Prop := exists d, d <> [] /\ t ++ d = full.
Lemma dec_step_cut {A} fl k n (r : bytes -> nat -> res A) oct o pre t q : cut_of t (part oct o ++ q) ->
  hasbit k fl = present o -> opt_ok (gets r oct n) o ->
  dec_step fl k n r (pre ++ t) (len pre) = Err EUnexpectedEOF \/
  (dec_step fl k n r (pre ++ t) (len pre) = Ok (o, len (pre ++ part oct o)) /\ exists t', pre ++ t = (pre ++ part oct o) ++ t' /\ cut_of t' q).
Proof.
  intros (d & D & E) H P. destruct o as [v|].
  - cbn [present part opt_ok] in *. destruct P as [P1 P2]. destruct (Nat.lt_ge_cases (len t) n) as [L|L].
    + left. unfold dec_step. rewrite H. rewrite (proj2 (Nat.ltb_lt _ _)) by (rewrite app_length; lia). reflexivity.
    + right. assert (t = oct v ++ skipn n t) as T.
      { rewrite <- (firstn_skipn n t) at 1. f_equal.
        assert (F : firstn n (t ++ d) = firstn n (oct v ++ q)) by now rewrite E.
        rewrite firstn_app in F. replace (n - len t)%nat with 0%nat in F by lia. cbn [firstn] in F. rewrite app_nil_r in F.
        rewrite F. now rewrite firstn_app_exact. }
      split.
      * apply (dec_step_ok fl k n r oct (Some v) pre (skipn n t)); [|exact H|now split]. cbn [part]. now rewrite T at 1.
      * exists (skipn n t). split; [rewrite <- app_assoc; now rewrite T at 1|]. exists d. split; [exact D|].
        rewrite T in E. rewrite <- app_assoc in E. now apply app_inv_head in E.
  - right. cbn [present part] in *. rewrite app_nil_r. split; [unfold dec_step; now rewrite H|]. exists t. split; [reflexivity|].
    now exists d.
Qed.

Lemma opt_impl {A} (P Q : A -> Prop) o : (forall v, P v -> Q v) -> opt_ok P o -> opt_ok Q o.
Proof. destruct o; cbn; auto. Qed.

Section U.
Context (cgi sai rai : option loc2) (tai ecgi lai menbi emenbi : option loc1).
Context (OK : uli_ok cgi sai rai tai ecgi lai menbi emenbi).
Notation fl := (uli_flags cgi sai rai tai ecgi lai menbi emenbi).
Notation oct := (uli_octets cgi sai rai tai ecgi lai menbi emenbi).
Lemma flags_bits : hasbit 0 fl = present cgi /\ hasbit 1 fl = present sai /\ hasbit 2 fl = present rai /\ hasbit 3 fl = present tai /\
  hasbit 4 fl = present ecgi /\ hasbit 5 fl = present lai /\ hasbit 6 fl = present menbi /\ hasbit 7 fl = present emenbi.
Proof.
  unfold uli_flags. generalize (present cgi) (present sai) (present rai) (present tai) (present ecgi) (present lai) (present menbi) (present emenbi).
  intros [|] [|] [|] [|] [|] [|] [|] [|]; repeat split.
Qed.
Lemma flags_lt : fl < 256.
Proof.
  unfold uli_flags. generalize (present cgi) (present sai) (present rai) (present tai) (present ecgi) (present lai) (present menbi) (present emenbi).
  intros [|] [|] [|] [|] [|] [|] [|] [|]; reflexivity.
Qed.
Lemma flags_new : u_flags (new_uli_fields cgi sai rai tai ecgi lai menbi emenbi) = fl.
Proof.
  unfold new_uli_fields, uli_flags. cbn [u_flags]. unfold flag_if.
  destruct cgi, sai, rai, tai, ecgi, lai, menbi, emenbi; reflexivity.
Qed.
Lemma uli_len : len oct = uli_mlen fl.
Proof.
  destruct flags_bits as (B0 & B1 & B2 & B3 & B4 & B5 & B6 & B7). destruct OK as (O0 & O1 & O2 & O3 & O4 & O5 & O6 & O7).
  unfold uli_mlen, uli_octets. rewrite B0, B1, B2, B3, B4, B5, B6, B7. rewrite !app_length.
  rewrite (part_len loc2_octets 7 cgi), (part_len loc2_octets 7 sai), (part_len loc2_octets 7 rai) by (eapply opt_impl; [|eassumption]; apply loc2_len).
  rewrite (part_len (loc1_octets enc16) 5 tai), (part_len (loc1_octets enc16) 5 lai) by (eapply opt_impl; [|eassumption]; intros ? ?; apply (loc1_len enc16 16 2); [reflexivity|assumption]).
  rewrite (part_len (loc1_octets enc32) 7 ecgi) by (eapply opt_impl; [|eassumption]; intros ? ?; apply (loc1_len enc32 32 4); [reflexivity|assumption]).
  rewrite (part_len (loc1_octets enc24) 6 menbi), (part_len (loc1_octets enc24) 6 emenbi) by (eapply opt_impl; [|eassumption]; intros ? ?; apply (loc1_len enc24 24 3); [reflexivity|assumption]).
  cbn [List.length]. lia.
Qed.
Lemma uli_bytes : bytes_ok oct.
Proof.
  destruct OK as (O0 & O1 & O2 & O3 & O4 & O5 & O6 & O7).
  assert (Q : forall A (f : A -> bytes) o P, opt_ok P o -> (forall v, P v -> bytes_ok (f v)) -> bytes_ok (part f o)).
  { intros A f [v|] P H1 H2; [now apply H2|constructor]. }
  unfold uli_octets. repeat apply bytes_ok_app.
  - constructor; [apply flags_lt|constructor].
  - eapply Q; [exact O0|apply loc2_bytes].
  - eapply Q; [exact O1|apply loc2_bytes].
  - eapply Q; [exact O2|apply loc2_bytes].
  - eapply Q; [exact O3|]. intros v. apply loc1_bytes, enc16_ok.
  - eapply Q; [exact O4|]. intros v. apply loc1_bytes, enc32_ok.
  - eapply Q; [exact O5|]. intros v. apply loc1_bytes, enc16_ok.
  - eapply Q; [exact O6|]. intros v. apply loc1_bytes, enc24_ok.
  - eapply Q; [exact O7|]. intros v. apply loc1_bytes, enc24_ok.
Qed.
Lemma uli_short : (len oct < N.to_nat 65536)%nat.
Proof.
  rewrite uli_len. destruct flags_bits as (B0 & B1 & B2 & B3 & B4 & B5 & B6 & B7). unfold uli_mlen. rewrite B0, B1, B2, B3, B4, B5, B6, B7.
  destruct (present cgi), (present sai), (present rai), (present tai), (present ecgi), (present lai), (present menbi), (present emenbi); lia.
Qed.
(** the writing steps, from any buffer that is long enough *)
Lemma enc_all b : (len oct <= len b)%nat ->
  (do b <- set_idx b 0 fl;
   do st <- enc_step fl 0 7 put_loc2 cgi (b, 1%nat);
   do st <- enc_step fl 1 7 put_loc2 sai st;
   do st <- enc_step fl 2 7 put_loc2 rai st;
   do st <- enc_step fl 3 5 put_loc16 tai st;
   do st <- enc_step fl 4 7 put_loc32 ecgi st;
   do st <- enc_step fl 5 5 put_loc16 lai st;
   do st <- enc_step fl 6 6 put_loc24 menbi st;
   do st <- enc_step fl 7 6 put_loc24 emenbi st;
   Ok (fst st)) = Ok (oct ++ skipn (len oct) b).
Proof.
  intros L. destruct flags_bits as (B0 & B1 & B2 & B3 & B4 & B5 & B6 & B7). destruct OK as (O0 & O1 & O2 & O3 & O4 & O5 & O6 & O7).
  assert (LL : len oct = (1 + len (part loc2_octets cgi) + len (part loc2_octets sai) + len (part loc2_octets rai) +
     len (part (loc1_octets enc16) tai) + len (part (loc1_octets enc32) ecgi) + len (part (loc1_octets enc16) lai) +
     len (part (loc1_octets enc24) menbi) + len (part (loc1_octets enc24) emenbi))%nat).
  { unfold uli_octets. rewrite !app_length. cbn [List.length]. lia. }
  assert (S0 : set_idx b 0 fl = Ok ([fl] ++ skipn (len [fl]) b)) by (apply (set_idx_writes fl [] b); cbn; lia).
  rewrite S0. cbn [bind]. change 1%nat with (len [fl]) at 2.
  rewrite (enc_step_ok fl 0 7 put_loc2 loc2_octets) by
    (first [exact B0|eapply opt_impl; [|exact O0]; apply put_loc2_ok|rewrite !app_length; cbn [List.length]; lia]). cbn [bind].
  rewrite (enc_step_ok fl 1 7 put_loc2 loc2_octets) by
    (first [exact B1|eapply opt_impl; [|exact O1]; apply put_loc2_ok|rewrite !app_length; cbn [List.length]; lia]). cbn [bind].
  rewrite (enc_step_ok fl 2 7 put_loc2 loc2_octets) by
    (first [exact B2|eapply opt_impl; [|exact O2]; apply put_loc2_ok|rewrite !app_length; cbn [List.length]; lia]). cbn [bind].
  rewrite (enc_step_ok fl 3 5 put_loc16 (loc1_octets enc16)) by
    (first [exact B3|eapply opt_impl; [|exact O3]; apply put_loc16_ok|rewrite !app_length; cbn [List.length]; lia]). cbn [bind].
  rewrite (enc_step_ok fl 4 7 put_loc32 (loc1_octets enc32)) by
    (first [exact B4|eapply opt_impl; [|exact O4]; apply put_loc32_ok|rewrite !app_length; cbn [List.length]; lia]). cbn [bind].
  rewrite (enc_step_ok fl 5 5 put_loc16 (loc1_octets enc16)) by
    (first [exact B5|eapply opt_impl; [|exact O5]; apply put_loc16_ok|rewrite !app_length; cbn [List.length]; lia]). cbn [bind].
  rewrite (enc_step_ok fl 6 6 put_loc24 (loc1_octets enc24)) by
    (first [exact B6|eapply opt_impl; [|exact O6]; apply put_loc24_ok|rewrite !app_length; cbn [List.length]; lia]). cbn [bind].
  rewrite (enc_step_ok fl 7 6 put_loc24 (loc1_octets enc24)) by
    (first [exact B7|eapply opt_impl; [|exact O7]; apply put_loc24_ok|rewrite !app_length; cbn [List.length]; lia]). cbn [bind fst].
  assert (E : ((((((((([fl] ++ part loc2_octets cgi) ++ part loc2_octets sai) ++ part loc2_octets rai) ++ part (loc1_octets enc16) tai) ++
    part (loc1_octets enc32) ecgi) ++ part (loc1_octets enc16) lai) ++ part (loc1_octets enc24) menbi) ++ part (loc1_octets enc24) emenbi) = oct))
    by (unfold uli_octets; now rewrite <- !app_assoc).
  rewrite E. reflexivity.
Qed.
Lemma marshal_all : uli_marshal (new_uli_fields cgi sai rai tai ecgi lai menbi emenbi) = Ok oct.
Proof.
  unfold uli_marshal, uli_mto. rewrite flags_new. rewrite <- uli_len.
  rewrite len_zeros. rewrite (proj2 (Nat.ltb_ge _ _)) by (unfold uli_octets; rewrite app_length; cbn; lia).
  cbn [u_cgi u_sai u_rai u_tai u_ecgi u_lai u_menbi u_emenbi new_uli_fields].
  rewrite enc_all by (rewrite len_zeros; lia). rewrite skipn_all2 by (rewrite len_zeros; lia). now rewrite app_nil_r.
Qed.
(** decoding *)
Lemma parse_all q : uli_parse (oct ++ q) = Ok (uli_value cgi sai rai tai ecgi lai menbi emenbi).
Proof.
  destruct flags_bits as (B0 & B1 & B2 & B3 & B4 & B5 & B6 & B7). destruct OK as (O0 & O1 & O2 & O3 & O4 & O5 & O6 & O7).
  unfold uli_parse. rewrite (proj2 (Nat.ltb_ge _ _)) by (unfold uli_octets; rewrite !app_length; cbn [List.length]; lia).
  assert (I : idx (oct ++ q) 0 = Ok fl) by reflexivity. rewrite I. cbn [bind].
  set (b := oct ++ q).
  change 1%nat with (len [fl]).
  rewrite (dec_step_ok fl 0 7 get_loc2 loc2_octets cgi [fl] (part loc2_octets sai ++ part loc2_octets rai ++
     part (loc1_octets enc16) tai ++ part (loc1_octets enc32) ecgi ++ part (loc1_octets enc16) lai ++
     part (loc1_octets enc24) menbi ++ part (loc1_octets enc24) emenbi ++ q));
    [|unfold b, uli_octets; now rewrite <- !app_assoc|exact B0|eapply opt_impl; [|exact O0]; apply get_loc2_ok]. cbn [bind snd fst].
  rewrite (dec_step_ok fl 1 7 get_loc2 loc2_octets sai _ (part loc2_octets rai ++
     part (loc1_octets enc16) tai ++ part (loc1_octets enc32) ecgi ++ part (loc1_octets enc16) lai ++
     part (loc1_octets enc24) menbi ++ part (loc1_octets enc24) emenbi ++ q));
    [|unfold b, uli_octets; now rewrite <- !app_assoc|exact B1|eapply opt_impl; [|exact O1]; apply get_loc2_ok]. cbn [bind snd fst].
  rewrite (dec_step_ok fl 2 7 get_loc2 loc2_octets rai _ (
     part (loc1_octets enc16) tai ++ part (loc1_octets enc32) ecgi ++ part (loc1_octets enc16) lai ++
     part (loc1_octets enc24) menbi ++ part (loc1_octets enc24) emenbi ++ q));
    [|unfold b, uli_octets; now rewrite <- !app_assoc|exact B2|eapply opt_impl; [|exact O2]; apply get_loc2_ok]. cbn [bind snd fst].
  rewrite (dec_step_ok fl 3 5 get_loc16 (loc1_octets enc16) tai _ (
     part (loc1_octets enc32) ecgi ++ part (loc1_octets enc16) lai ++
     part (loc1_octets enc24) menbi ++ part (loc1_octets enc24) emenbi ++ q));
    [|unfold b, uli_octets; now rewrite <- !app_assoc|exact B3|eapply opt_impl; [|exact O3]; apply get_loc16_ok]. cbn [bind snd fst].
  rewrite (dec_step_ok fl 4 7 get_loc32 (loc1_octets enc32) ecgi _ (part (loc1_octets enc16) lai ++
     part (loc1_octets enc24) menbi ++ part (loc1_octets enc24) emenbi ++ q));
    [|unfold b, uli_octets; now rewrite <- !app_assoc|exact B4|eapply opt_impl; [|exact O4]; apply get_loc32_ok]. cbn [bind snd fst].
  rewrite (dec_step_ok fl 5 5 get_loc16 (loc1_octets enc16) lai _ (
     part (loc1_octets enc24) menbi ++ part (loc1_octets enc24) emenbi ++ q));
    [|unfold b, uli_octets; now rewrite <- !app_assoc|exact B5|eapply opt_impl; [|exact O5]; apply get_loc16_ok]. cbn [bind snd fst].
  rewrite (dec_step_ok fl 6 6 get_loc24 (loc1_octets enc24) menbi _ (part (loc1_octets enc24) emenbi ++ q));
    [|unfold b, uli_octets; now rewrite <- !app_assoc|exact B6|eapply opt_impl; [|exact O6]; apply get_loc24_ok]. cbn [bind snd fst].
  rewrite (dec_step_ok fl 7 6 get_loc24 (loc1_octets enc24) emenbi _ q);
    [|unfold b, uli_octets; now rewrite <- !app_assoc|exact B7|eapply opt_impl; [|exact O7]; apply get_loc24_ok]. cbn [bind snd fst].
  reflexivity.
Qed.
(** a payload cut short *)
Lemma parse_cut t : cut_of t oct -> uli_parse t = Err EUnexpectedEOF.
Proof.
  destruct flags_bits as (B0 & B1 & B2 & B3 & B4 & B5 & B6 & B7). destruct OK as (O0 & O1 & O2 & O3 & O4 & O5 & O6 & O7).
  intros (d & D & E). destruct t as [|x t]; [reflexivity|]. unfold uli_octets in E. cbn [app] in E. injection E as -> E.
  unfold uli_parse. change (len (fl :: t) <? 1)%nat with false. cbv iota. change (idx (fl :: t) 0) with (Ok fl). cbn [bind].
  assert (C : cut_of t (part loc2_octets cgi ++ part loc2_octets sai ++ part loc2_octets rai ++
     part (loc1_octets enc16) tai ++ part (loc1_octets enc32) ecgi ++ part (loc1_octets enc16) lai ++
     part (loc1_octets enc24) menbi ++ part (loc1_octets enc24) emenbi)) by now exists d.
  clear D E d. change (fl :: t) with ([fl] ++ t).
  change (dec_step fl 0 7 get_loc2 ([fl] ++ t) 1) with (dec_step fl 0 7 get_loc2 ([fl] ++ t) (len [fl])).
  destruct (dec_step_cut fl 0 7 get_loc2 loc2_octets cgi [fl] t _ C B0) as [->|(-> & t1 & -> & C1)];
    [eapply opt_impl; [|exact O0]; apply get_loc2_ok|reflexivity|]. cbn [bind snd fst].
  match goal with |- context [(?P ++ t1)%list] => destruct (dec_step_cut fl 1 7 get_loc2 loc2_octets sai P t1 _ C1 B1) as [->|(-> & t2 & -> & C2)] end;
    [eapply opt_impl; [|exact O1]; apply get_loc2_ok|reflexivity|]. cbn [bind snd fst].
  match goal with |- context [(?P ++ t2)%list] => destruct (dec_step_cut fl 2 7 get_loc2 loc2_octets rai P t2 _ C2 B2) as [->|(-> & t3 & -> & C3)] end;
    [eapply opt_impl; [|exact O2]; apply get_loc2_ok|reflexivity|]. cbn [bind snd fst].
  match goal with |- context [(?P ++ t3)%list] => destruct (dec_step_cut fl 3 5 get_loc16 (loc1_octets enc16) tai P t3 _ C3 B3) as [->|(-> & t4 & -> & C4)] end;
    [eapply opt_impl; [|exact O3]; apply get_loc16_ok|reflexivity|]. cbn [bind snd fst].
  match goal with |- context [(?P ++ t4)%list] => destruct (dec_step_cut fl 4 7 get_loc32 (loc1_octets enc32) ecgi P t4 _ C4 B4) as [->|(-> & t5 & -> & C5)] end;
    [eapply opt_impl; [|exact O4]; apply get_loc32_ok|reflexivity|]. cbn [bind snd fst].
  match goal with |- context [(?P ++ t5)%list] => destruct (dec_step_cut fl 5 5 get_loc16 (loc1_octets enc16) lai P t5 _ C5 B5) as [->|(-> & t6 & -> & C6)] end;
    [eapply opt_impl; [|exact O5]; apply get_loc16_ok|reflexivity|]. cbn [bind snd fst].
  match goal with |- context [(?P ++ t6)%list] => destruct (dec_step_cut fl 6 6 get_loc24 (loc1_octets enc24) menbi P t6 _ C6 B6) as [->|(-> & t7 & -> & C7)] end;
    [eapply opt_impl; [|exact O6]; apply get_loc24_ok|reflexivity|]. cbn [bind snd fst].
  rewrite <- (app_nil_r (part (loc1_octets enc24) emenbi)) in C7.
  match goal with |- context [(?P ++ t7)%list] => destruct (dec_step_cut fl 7 6 get_loc24 (loc1_octets enc24) emenbi P t7 _ C7 B7) as [->|(-> & t8 & _ & (d & D & E))] end;
    [eapply opt_impl; [|exact O7]; apply get_loc24_ok|reflexivity|].
  exfalso. apply app_eq_nil in E as [_ E]. contradiction.
Qed.
End U.

(** ** Any payload *)
Lemma decode_plmn_any x y z : exists p, decode_plmn [x; y; z] = Ok p.
Proof.
  unfold decode_plmn, decode_mcc, decode_mnc. cbn.
  repeat match goal with |- context [if ?c then _ else _] => destruct c; cbn end; eexists; reflexivity.
Qed.
Lemma slice3 (b : bytes) lo : (lo + 3 <= len b)%nat -> exists x y z, slice b lo (lo + 3) = Ok [x; y; z].
Proof.
  intros H. rewrite slice_ok by lia. replace (lo + 3 - lo)%nat with 3%nat by lia.
  assert (L : len (firstn 3 (skipn lo b)) = 3%nat) by (rewrite firstn_length, skipn_length; lia).
  destruct (firstn 3 (skipn lo b)) as [|x [|y [|z [|? ?]]]]; try discriminate L. now exists x, y, z.
Qed.
Lemma slice_n (b : bytes) lo hi n : hi = (lo + n)%nat -> (hi <= len b)%nat -> exists s, slice b lo hi = Ok s /\ len s = n.
Proof. intros -> H. rewrite slice_ok by lia. eexists. split; [reflexivity|]. rewrite firstn_length, skipn_length. lia. Qed.
Lemma be16_any s : len s = 2%nat -> exists v, be16 s = Ok v.
Proof. destruct s as [|x [|y [|? ?]]]; try discriminate. intros _. eexists. reflexivity. Qed.
Lemma be32_any s : len s = 4%nat -> exists v, be32 s = Ok v.
Proof. destruct s as [|x [|y [|z [|t [|? ?]]]]]; try discriminate. intros _. eexists. reflexivity. Qed.
Ltac any_plmn b off := let x := fresh in let y := fresh in let z := fresh in let E := fresh in let p := fresh in let D := fresh in
  destruct (slice3 b off) as (x & y & z & E); [lia|]; rewrite E; cbn [bind]; destruct (decode_plmn_any x y z) as [p D]; rewrite D; cbn [bind].
Ltac any_16 b lo hi := let s := fresh in let E := fresh in let L := fresh in let v := fresh in let D := fresh in
  destruct (slice_n b lo hi 2) as (s & E & L); [lia|lia|]; rewrite E; cbn [bind]; destruct (be16_any s L) as [v D]; rewrite D; cbn [bind].
Lemma get_loc2_any b off : (off + 7 <= len b)%nat -> exists v, get_loc2 b off = Ok v.
Proof. intros H. unfold get_loc2. any_plmn b off. any_16 b (off + 3)%nat (off + 5)%nat. any_16 b (off + 5)%nat (off + 7)%nat. eexists. reflexivity. Qed.
Lemma get_loc16_any b off : (off + 5 <= len b)%nat -> exists v, get_loc16 b off = Ok v.
Proof. intros H. unfold get_loc16. any_plmn b off. any_16 b (off + 3)%nat (off + 5)%nat. eexists. reflexivity. Qed.
Lemma get_loc32_any b off : (off + 7 <= len b)%nat -> exists v, get_loc32 b off = Ok v.
Proof.
  intros H. unfold get_loc32. any_plmn b off. destruct (slice_n b (off + 3) (off + 7) 4) as (s & E & L); [lia|lia|]. rewrite E. cbn [bind].
  destruct (be32_any s L) as [v D]. rewrite D. eexists. reflexivity.
Qed.
Lemma get_loc24_any b off : (off + 6 <= len b)%nat -> exists v, get_loc24 b off = Ok v.
Proof.
  intros H. unfold get_loc24. any_plmn b off. destruct (slice_n b (off + 3) (off + 6) 3) as (s & E & L); [lia|lia|]. rewrite E. eexists. reflexivity.
Qed.
Lemma dec_step_any {A} fl k n (r : bytes -> nat -> res A) b off : (forall o, (o + n <= len b)%nat -> exists v, r b o = Ok v) ->
  (off <= len b)%nat ->
  (exists v, dec_step fl k n r b off = Ok (v, (off + (if hasbit k fl then n else 0))%nat) /\ present v = hasbit k fl /\
     (off + (if hasbit k fl then n else 0) <= len b)%nat) \/
  (dec_step fl k n r b off = Err EUnexpectedEOF /\ (len b < off + (if hasbit k fl then n else 0))%nat).
Proof.
  intros R H. unfold dec_step. destruct (hasbit k fl).
  - destruct (Nat.ltb_spec (len b) (off + n)) as [L|L]; [now right|]. left. destruct (R off L) as [v ->]. exists (Some v). cbn. auto.
  - left. exists None. rewrite Nat.add_0_r. cbn. auto.
Qed.
Lemma hasbit_testbit fl : fl < 256 -> forall k, (k < 8)%nat -> hasbit (N.of_nat k) fl = N.testbit fl (N.of_nat k).
Proof.
  assert (B : forallb (fun f => forallb (fun k => Bool.eqb (hasbit (N.of_nat k) f) (N.testbit f (N.of_nat k))) (seq 0 8)) (below 256) = true) by (vm_compute; reflexivity).
  intros H k K. rewrite forallb_forall in B. pose proof (B fl) as B1. cbv beta in B1. rewrite forallb_forall in B1. 
  apply Bool.eqb_prop. apply B1; [apply below_complete; exact H|apply in_seq; lia].
Qed.
Lemma mlen_size fl : fl < 256 -> uli_mlen fl = uli_size fl.
Proof.
  intros H. pose proof (hasbit_testbit fl H) as T. unfold uli_mlen, uli_size.
  assert (T0 : hasbit 0 fl = N.testbit fl 0) by (apply (T 0%nat); lia). assert (T1 : hasbit 1 fl = N.testbit fl 1) by (apply (T 1%nat); lia). assert (T2 : hasbit 2 fl = N.testbit fl 2) by (apply (T 2%nat); lia). assert (T3 : hasbit 3 fl = N.testbit fl 3) by (apply (T 3%nat); lia).
  assert (T4 : hasbit 4 fl = N.testbit fl 4) by (apply (T 4%nat); lia). assert (T5 : hasbit 5 fl = N.testbit fl 5) by (apply (T 5%nat); lia). assert (T6 : hasbit 6 fl = N.testbit fl 6) by (apply (T 6%nat); lia). assert (T7 : hasbit 7 fl = N.testbit fl 7) by (apply (T 7%nat); lia).
  rewrite T0, T1, T2, T3, T4, T5, T6, T7. reflexivity.
Qed.
Lemma parse_any fl r : fl < 256 ->
  if (len (fl :: r) <? uli_size fl)%nat then uli_parse (fl :: r) = Err EUnexpectedEOF
  else exists f, uli_parse (fl :: r) = Ok f /\ u_flags f = fl /\
    present (u_cgi f) = N.testbit fl 0 /\ present (u_sai f) = N.testbit fl 1 /\ present (u_rai f) = N.testbit fl 2 /\
    present (u_tai f) = N.testbit fl 3 /\ present (u_ecgi f) = N.testbit fl 4 /\ present (u_lai f) = N.testbit fl 5 /\
    present (u_menbi f) = N.testbit fl 6 /\ present (u_emenbi f) = N.testbit fl 7.
Proof.
  intros H. pose proof (hasbit_testbit fl H) as T. rewrite <- mlen_size by exact H.
  assert (T0 : hasbit 0 fl = N.testbit fl 0) by (apply (T 0%nat); lia). assert (T1 : hasbit 1 fl = N.testbit fl 1) by (apply (T 1%nat); lia). assert (T2 : hasbit 2 fl = N.testbit fl 2) by (apply (T 2%nat); lia). assert (T3 : hasbit 3 fl = N.testbit fl 3) by (apply (T 3%nat); lia).
  assert (T4 : hasbit 4 fl = N.testbit fl 4) by (apply (T 4%nat); lia). assert (T5 : hasbit 5 fl = N.testbit fl 5) by (apply (T 5%nat); lia). assert (T6 : hasbit 6 fl = N.testbit fl 6) by (apply (T 6%nat); lia). assert (T7 : hasbit 7 fl = N.testbit fl 7) by (apply (T 7%nat); lia). clear T.
  rewrite <- T0, <- T1, <- T2, <- T3, <- T4, <- T5, <- T6, <- T7. clear T0 T1 T2 T3 T4 T5 T6 T7.
  unfold uli_parse, uli_mlen. change (len (fl :: r) <? 1)%nat with false. cbv iota. change (idx (fl :: r) 0) with (Ok fl). cbn [bind].
  assert (L0 : (1 <= len (fl :: r))%nat) by (cbn; lia). set (b := fl :: r) in *. clearbody b.
  destruct (dec_step_any fl 0 7 get_loc2 b 1 (get_loc2_any b) L0) as [(v0 & E0 & P0 & L1)|[E0 L1]]; rewrite E0; cbn [bind snd fst].
  2: { rewrite (proj2 (Nat.ltb_lt _ _)) by lia. reflexivity. }
  destruct (dec_step_any fl 1 7 get_loc2 b _ (get_loc2_any b) L1) as [(v1 & E1 & P1 & L2)|[E1 L2]]; rewrite E1; cbn [bind snd fst].
  2: { rewrite (proj2 (Nat.ltb_lt _ _)) by lia. reflexivity. }
  destruct (dec_step_any fl 2 7 get_loc2 b _ (get_loc2_any b) L2) as [(v2 & E2 & P2 & L3)|[E2 L3]]; rewrite E2; cbn [bind snd fst].
  2: { rewrite (proj2 (Nat.ltb_lt _ _)) by lia. reflexivity. }
  destruct (dec_step_any fl 3 5 get_loc16 b _ (get_loc16_any b) L3) as [(v3 & E3 & P3 & L4)|[E3 L4]]; rewrite E3; cbn [bind snd fst].
  2: { rewrite (proj2 (Nat.ltb_lt _ _)) by lia. reflexivity. }
  destruct (dec_step_any fl 4 7 get_loc32 b _ (get_loc32_any b) L4) as [(v4 & E4 & P4 & L5)|[E4 L5]]; rewrite E4; cbn [bind snd fst].
  2: { rewrite (proj2 (Nat.ltb_lt _ _)) by lia. reflexivity. }
  destruct (dec_step_any fl 5 5 get_loc16 b _ (get_loc16_any b) L5) as [(v5 & E5 & P5 & L6)|[E5 L6]]; rewrite E5; cbn [bind snd fst].
  2: { rewrite (proj2 (Nat.ltb_lt _ _)) by lia. reflexivity. }
  destruct (dec_step_any fl 6 6 get_loc24 b _ (get_loc24_any b) L6) as [(v6 & E6 & P6 & L7)|[E6 L7]]; rewrite E6; cbn [bind snd fst].
  2: { rewrite (proj2 (Nat.ltb_lt _ _)) by lia. reflexivity. }
  destruct (dec_step_any fl 7 6 get_loc24 b _ (get_loc24_any b) L7) as [(v7 & E7 & P7 & L8)|[E7 L8]]; rewrite E7; cbn [bind snd fst].
  2: { rewrite (proj2 (Nat.ltb_lt _ _)) by lia. reflexivity. }
  rewrite (proj2 (Nat.ltb_ge _ _)) by lia. eexists. split; [reflexivity|]. cbn [u_flags u_cgi u_sai u_rai u_tai u_ecgi u_lai u_menbi u_emenbi].
  rewrite <- P0, <- P1, <- P2, <- P3, <- P4, <- P5, <- P6, <- P7. repeat split.
Qed.
Lemma uli_parse_safe b : bytes_ok b -> safe (uli_parse b).
Proof.
  intros H. destruct b as [|fl r]; [intros E; discriminate E|]. inversion H; subst. pose proof (parse_any fl r) as P.
  destruct (len (fl :: r) <? uli_size fl)%nat; [rewrite P by assumption; intros E; discriminate E|].
  destruct P as (f & -> & _); [assumption|]. intros E. discriminate E.
Qed.

(** ** The IE *)
Lemma uli_has_bits cgi sai rai tai ecgi lai menbi emenbi f : u_flags f = uli_flags cgi sai rai tai ecgi lai menbi emenbi ->
  uli_has 0 f = present cgi /\ uli_has 1 f = present sai /\ uli_has 2 f = present rai /\ uli_has 3 f = present tai /\
  uli_has 4 f = present ecgi /\ uli_has 5 f = present lai /\ uli_has 6 f = present menbi /\ uli_has 7 f = present emenbi.
Proof.
  unfold uli_has. intros ->. unfold uli_flags.
  generalize (present cgi) (present sai) (present rai) (present tai) (present ecgi) (present lai) (present menbi) (present emenbi).
  intros [|] [|] [|] [|] [|] [|] [|] [|]; repeat split.
Qed.
Lemma some_len cgi sai rai tai ecgi lai menbi emenbi : uli_ok cgi sai rai tai ecgi lai menbi emenbi ->
  first_plmn cgi sai rai tai ecgi lai menbi emenbi <> None -> (3 <= len (uli_octets cgi sai rai tai ecgi lai menbi emenbi))%nat.
Proof.
  intros OK H. rewrite uli_len by exact OK. destruct (flags_bits cgi sai rai tai ecgi lai menbi emenbi) as (B0 & B1 & B2 & B3 & B4 & B5 & B6 & B7).
  unfold uli_mlen. rewrite B0, B1, B2, B3, B4, B5, B6, B7. 
  destruct cgi, sai, rai, tai, ecgi, lai, menbi, emenbi; cbn; lia || (now elim H).
Qed.
Lemma first_none cgi sai rai tai ecgi lai menbi emenbi : first_plmn cgi sai rai tai ecgi lai menbi emenbi = None ->
  uli_octets cgi sai rai tai ecgi lai menbi emenbi = [0].
Proof. destruct cgi, sai, rai, tai, ecgi, lai, menbi, emenbi; discriminate || reflexivity. Qed.
Lemma mcc_mnc_uli cgi sai rai tai ecgi lai menbi emenbi i : uli_ok cgi sai rai tai ecgi lai menbi emenbi ->
  i2_type i = 86 -> i2_payload i = uli_octets cgi sai rai tai ecgi lai menbi emenbi ->
  acc_uli i = Ok (uli_value cgi sai rai tai ecgi lai menbi emenbi) ->
  acc_mcc_mnc_all i = mcc_mnc_result (first_plmn cgi sai rai tai ecgi lai menbi emenbi).
Proof.
  intros OK T P A. unfold acc_mcc_mnc_all. rewrite T, P, A. change (86 =? 86) with true. cbv iota. cbn [bind].
  destruct (first_plmn cgi sai rai tai ecgi lai menbi emenbi) eqn:F.
  2: { rewrite (first_none _ _ _ _ _ _ _ _ F). reflexivity. }
  rewrite (proj2 (Nat.ltb_ge _ _)) by (apply some_len; [exact OK|now rewrite F]).
  destruct (uli_has_bits cgi sai rai tai ecgi lai menbi emenbi (uli_value cgi sai rai tai ecgi lai menbi emenbi) eq_refl) as
    (-> & -> & -> & -> & -> & -> & -> & ->).
  cbn [uli_value u_cgi u_sai u_rai u_tai u_ecgi u_lai u_menbi u_emenbi]. rewrite <- F. clear A P OK.
  destruct cgi; [reflexivity|]. destruct sai; [reflexivity|]. destruct rai; [reflexivity|]. destruct tai; [reflexivity|].
  destruct ecgi; [reflexivity|]. destruct lai; [reflexivity|]. destruct menbi; [reflexivity|].
  destruct emenbi; [reflexivity|discriminate F].
Qed.
Lemma uli_all g cgi sai rai tai ecgi lai menbi emenbi : uli_ok cgi sai rai tai ecgi lai menbi emenbi ->
  exists i, made g (new_uli g cgi sai rai tai ecgi lai menbi emenbi) 86 (uli_octets cgi sai rai tai ecgi lai menbi emenbi) i /\
    acc_uli i = Ok (uli_value cgi sai rai tai ecgi lai menbi emenbi) /\
    acc_mcc_mnc_all i = mcc_mnc_result (first_plmn cgi sai rai tai ecgi lai menbi emenbi).
Proof.
  intros OK. exists (new2 g 86 0 (uli_octets cgi sai rai tai ecgi lai menbi emenbi)).
  assert (A : acc_uli (new2 g 86 0 (uli_octets cgi sai rai tai ecgi lai menbi emenbi)) = Ok (uli_value cgi sai rai tai ecgi lai menbi emenbi)).
  { unfold acc_uli. rewrite typed_new2. cbn [new2 set_length2 i2_payload].
    rewrite <- (app_nil_r (uli_octets cgi sai rai tai ecgi lai menbi emenbi)). now apply parse_all. }
  split; [|split]; [|exact A|].
  - unfold new_uli. apply new_or_nil_made; [now apply marshal_all|lia|now apply uli_bytes|now apply uli_short].
  - now apply mcc_mnc_uli.
Qed.

(** ** The positional constructors *)
Lemma enc_given {A} fl k n (w : A -> nat -> bytes -> res bytes) v st h : hasbit k fl = h ->
  enc_step fl k n w (Some v) st = enc_step fl k n w (given h v) st.
Proof. intros <-. unfold enc_step. destruct st as [b off]. destruct (hasbit k fl); reflexivity. Qed.
Lemma args_flags (hcgi hsai hrai htai hecgi hlai hmenbi hemenbi : bool) (c0 c1 c2 : loc2) (c3 c4 c5 c6 c7 : loc1) :
  N.lor (N.lor (N.lor (N.lor (N.lor (N.lor (N.lor (u8 (N.shiftl (N.land (b2n hemenbi) 1) 7))
             (u8 (N.shiftl (N.land (b2n hmenbi) 1) 6))) (u8 (N.shiftl (N.land (b2n hlai) 1) 5))) (u8 (N.shiftl (N.land (b2n hecgi) 1) 4)))
             (u8 (N.shiftl (N.land (b2n htai) 1) 3))) (u8 (N.shiftl (N.land (b2n hrai) 1) 2))) (u8 (N.shiftl (N.land (b2n hsai) 1) 1))) (N.land (b2n hcgi) 1) =
  uli_flags (given hcgi c0) (given hsai c1) (given hrai c2) (given htai c3) (given hecgi c4) (given hlai c5) (given hmenbi c6) (given hemenbi c7).
Proof. destruct hcgi, hsai, hrai, htai, hecgi, hlai, hmenbi, hemenbi; reflexivity. Qed.
Lemma given_present {A} h (v : A) : present (given h v) = h.
Proof. now destruct h. Qed.
Lemma given_ok {A} (P : A -> Prop) h v : (h = true -> P v) -> opt_ok P (given h v).
Proof. destruct h; cbn; auto. Qed.
Lemma args_all g (hcgi hsai hrai htai hecgi hlai hmenbi hemenbi : bool) mcc mnc lac ci sac rac tac eci menbi emenbi :
  is_mcc mcc -> is_mnc mnc -> lac < 2 ^ 16 -> ci < 2 ^ 16 -> sac < 2 ^ 16 -> rac < 2 ^ 16 -> tac < 2 ^ 16 ->
  (hmenbi = true -> menbi < 2 ^ 24) -> (hemenbi = true -> emenbi < 2 ^ 24) ->
  let c0 := given hcgi (Loc2 mcc mnc lac ci) in let c1 := given hsai (Loc2 mcc mnc lac sac) in let c2 := given hrai (Loc2 mcc mnc lac rac) in
  let c3 := given htai (Loc1 mcc mnc tac) in let c4 := given hecgi (Loc1 mcc mnc (eci mod 2 ^ 20)) in let c5 := given hlai (Loc1 mcc mnc lac) in
  let c6 := given hmenbi (Loc1 mcc mnc menbi) in let c7 := given hemenbi (Loc1 mcc mnc emenbi) in
  uli_ok c0 c1 c2 c3 c4 c5 c6 c7 /\
  exists i, made g (new_uli_args (b2n hcgi) (b2n hsai) (b2n hrai) (b2n htai) (b2n hecgi) (b2n hlai) (b2n hmenbi) (b2n hemenbi)
      mcc mnc lac ci sac rac tac eci menbi emenbi) 86 (uli_octets c0 c1 c2 c3 c4 c5 c6 c7) i /\
    acc_uli i = Ok (uli_value c0 c1 c2 c3 c4 c5 c6 c7) /\
    acc_mcc_mnc_all i = mcc_mnc_result (first_plmn c0 c1 c2 c3 c4 c5 c6 c7).
Proof.
  intros M1 M2 X1 X2 X3 X4 X5 X6 X7 c0 c1 c2 c3 c4 c5 c6 c7.
  assert (OK : uli_ok c0 c1 c2 c3 c4 c5 c6 c7).
  { unfold uli_ok, c0, c1, c2, c3, c4, c5, c6, c7. repeat (split; [apply given_ok; intros HH; split; [exact M1|split; [exact M2|cbn [l2_lac l2_x l1_x]; auto]]|]);
      [|apply given_ok; intros HH; split; [exact M1|split; [exact M2|cbn [l1_x]; auto]]]. eapply N.lt_trans; [apply N.mod_lt; discriminate|reflexivity]. }
  split; [exact OK|].
  exists (IE2 86 (u16 (N.of_nat (len (uli_octets c0 c1 c2 c3 c4 c5 c6 c7)))) 0 (uli_octets c0 c1 c2 c3 c4 c5 c6 c7) []).
  assert (A : acc_uli (IE2 86 (u16 (N.of_nat (len (uli_octets c0 c1 c2 c3 c4 c5 c6 c7)))) 0 (uli_octets c0 c1 c2 c3 c4 c5 c6 c7) []) =
     Ok (uli_value c0 c1 c2 c3 c4 c5 c6 c7)).
  { unfold acc_uli, typed. cbn [i2_type i2_payload]. change (86 =? 86) with true. cbv iota.
    rewrite <- (app_nil_r (uli_octets c0 c1 c2 c3 c4 c5 c6 c7)). now apply parse_all. }
  split; [|split]; [|exact A|now apply mcc_mnc_uli].
  split; [|split; [reflexivity|split; [reflexivity|split; [reflexivity|]]]].
  2: { intros Hg. pose proof (uli_short c0 c1 c2 c3 c4 c5 c6 c7 OK) as S. apply wf2_plain; auto; try reflexivity; try (cbn; lia).
       - now apply uli_bytes. - unfold u16. lia. - unfold u16. rewrite N.mod_small by lia. lia. }
  unfold new_uli_args. cbv zeta.
  rewrite (args_flags hcgi hsai hrai htai hecgi hlai hmenbi hemenbi (Loc2 mcc mnc lac ci) (Loc2 mcc mnc lac sac) (Loc2 mcc mnc lac rac)
    (Loc1 mcc mnc tac) (Loc1 mcc mnc (eci mod 2 ^ 20)) (Loc1 mcc mnc lac) (Loc1 mcc mnc menbi) (Loc1 mcc mnc emenbi)).
  fold c0 c1 c2 c3 c4 c5 c6 c7. rewrite (plmn_layout _ _ M1 M2).
  destruct (flags_bits c0 c1 c2 c3 c4 c5 c6 c7) as (B0 & B1 & B2 & B3 & B4 & B5 & B6 & B7).
  assert (D0 : hasbit 0 (uli_flags c0 c1 c2 c3 c4 c5 c6 c7) = hcgi) by (rewrite B0; apply given_present).
  assert (D1 : hasbit 1 (uli_flags c0 c1 c2 c3 c4 c5 c6 c7) = hsai) by (rewrite B1; apply given_present).
  assert (D2 : hasbit 2 (uli_flags c0 c1 c2 c3 c4 c5 c6 c7) = hrai) by (rewrite B2; apply given_present).
  assert (D3 : hasbit 3 (uli_flags c0 c1 c2 c3 c4 c5 c6 c7) = htai) by (rewrite B3; apply given_present).
  assert (D4 : hasbit 4 (uli_flags c0 c1 c2 c3 c4 c5 c6 c7) = hecgi) by (rewrite B4; apply given_present).
  assert (D5 : hasbit 5 (uli_flags c0 c1 c2 c3 c4 c5 c6 c7) = hlai) by (rewrite B5; apply given_present).
  assert (D6 : hasbit 6 (uli_flags c0 c1 c2 c3 c4 c5 c6 c7) = hmenbi) by (rewrite B6; apply given_present).
  assert (D7 : hasbit 7 (uli_flags c0 c1 c2 c3 c4 c5 c6 c7) = hemenbi) by (rewrite B7; apply given_present).
  pose proof (enc_all c0 c1 c2 c3 c4 c5 c6 c7 OK (zeros (uli_mlen (uli_flags c0 c1 c2 c3 c4 c5 c6 c7)))) as E.
  rewrite <- (uli_len c0 c1 c2 c3 c4 c5 c6 c7 OK) in *. rewrite len_zeros in E. specialize (E (le_n _)).
  rewrite skipn_all2 in E by (rewrite len_zeros; lia). rewrite app_nil_r in E.
  replace (N.land eci 1048575) with (eci mod 2 ^ 20) by (change 1048575 with (N.ones 20); now rewrite N.land_ones).
  set (fl := uli_flags c0 c1 c2 c3 c4 c5 c6 c7) in *. clearbody fl.
  set (o := uli_octets c0 c1 c2 c3 c4 c5 c6 c7) in *. clearbody o.
  destruct (set_idx (zeros (len o)) 0 fl) as [b| |]; try discriminate E. cbn [bind] in *.
  rewrite (enc_given _ _ _ _ _ _ _ D0). fold c0. destruct (enc_step fl 0 7 put_loc2 c0 (b, 1%nat)) as [s0| |]; try discriminate E. cbn [bind] in *.
  rewrite (enc_given _ _ _ _ _ _ _ D1). fold c1. destruct (enc_step fl 1 7 put_loc2 c1 s0) as [s1| |]; try discriminate E. cbn [bind] in *.
  rewrite (enc_given _ _ _ _ _ _ _ D2). fold c2. destruct (enc_step fl 2 7 put_loc2 c2 s1) as [s2| |]; try discriminate E. cbn [bind] in *.
  rewrite (enc_given _ _ _ _ _ _ _ D3). fold c3. destruct (enc_step fl 3 5 put_loc16 c3 s2) as [s3| |]; try discriminate E. cbn [bind] in *.
  rewrite (enc_given _ _ _ _ _ _ _ D4). fold c4. destruct (enc_step fl 4 7 put_loc32 c4 s3) as [s4| |]; try discriminate E. cbn [bind] in *.
  rewrite (enc_given _ _ _ _ _ _ _ D5). fold c5. destruct (enc_step fl 5 5 put_loc16 c5 s4) as [s5| |]; try discriminate E. cbn [bind] in *.
  rewrite (enc_given _ _ _ _ _ _ _ D6). fold c6. destruct (enc_step fl 6 6 put_loc24 c6 s5) as [s6| |]; try discriminate E. cbn [bind] in *.
  rewrite (enc_given _ _ _ _ _ _ _ D7). fold c7. destruct (enc_step fl 7 6 put_loc24 c7 s6) as [s7| |]; try discriminate E. cbn [bind] in *.
  assert (E' : fst s7 = o) by (now injection E). rewrite E'. reflexivity.
Qed.
Lemma nonneg_b2n z : nonneg z = b2n (negb (z <? 0)%Z).
Proof. unfold nonneg. destruct (Z.leb_spec 0 z), (Z.ltb_spec z 0); try lia; reflexivity. Qed.
Lemma zgiven_16 {A} z (v : N -> A) : (z < 2 ^ 16)%Z -> given (negb (z <? 0)%Z) (v (zu16 z)) = zgiven z v.
Proof.
  intros H. unfold zgiven. destruct (Z.ltb_spec z 0); [reflexivity|]. cbn [negb given]. unfold zu16. do 2 f_equal.
  change 65536%Z with (2 ^ 16)%Z. now rewrite Z.mod_small.
Qed.
Lemma zgiven_32 {A} z (v : N -> A) : (z < 2 ^ 32)%Z -> given (negb (z <? 0)%Z) (v (zu32 z)) = zgiven z v.
Proof.
  intros H. unfold zgiven. destruct (Z.ltb_spec z 0); [reflexivity|]. cbn [negb given]. unfold zu32. do 2 f_equal.
  change 4294967296%Z with (2 ^ 32)%Z. now rewrite Z.mod_small.
Qed.

Lemma lazy_all g mcc mnc lac ci sac rac tac eci menbi emenbi :
  is_mcc mcc -> is_mnc mnc -> (lac < 2 ^ 16)%Z -> (ci < 2 ^ 16)%Z -> (sac < 2 ^ 16)%Z -> (rac < 2 ^ 16)%Z -> (tac < 2 ^ 16)%Z ->
  (eci < 2 ^ 20)%Z -> (menbi < 2 ^ 24)%Z -> (emenbi < 2 ^ 24)%Z ->
  (lac < 0 -> ci < 0 /\ sac < 0 /\ rac < 0)%Z ->
  let c0 := zgiven ci (Loc2 mcc mnc (Z.to_N lac)) in let c1 := zgiven sac (Loc2 mcc mnc (Z.to_N lac)) in let c2 := zgiven rac (Loc2 mcc mnc (Z.to_N lac)) in
  let c3 := zgiven tac (Loc1 mcc mnc) in let c4 := zgiven eci (Loc1 mcc mnc) in let c5 := zgiven lac (Loc1 mcc mnc) in
  let c6 := zgiven menbi (Loc1 mcc mnc) in let c7 := zgiven emenbi (Loc1 mcc mnc) in
  exists i, made g (new_uli_lazy mcc mnc lac ci sac rac tac eci menbi emenbi) 86 (uli_octets c0 c1 c2 c3 c4 c5 c6 c7) i /\
    acc_uli i = Ok (uli_value c0 c1 c2 c3 c4 c5 c6 c7).
Proof.
  intros M1 M2 X0 X1 X2 X3 X4 X5 X6 X7 XL c0 c1 c2 c3 c4 c5 c6 c7.
  unfold new_uli_lazy. rewrite !nonneg_b2n.
  assert (U16 : forall z, zu16 z < 2 ^ 16) by (intros z; unfold zu16; change (2 ^ 16) with 65536; pose proof (Z.mod_pos_bound z 65536 eq_refl); lia).
  assert (G24 : forall z, (z < 2 ^ 24)%Z -> negb (z <? 0)%Z = true -> zu32 z < 2 ^ 24).
  { intros z Z1 Z2. destruct (Z.ltb_spec z 0); [discriminate|]. unfold zu32. rewrite Z.mod_small by lia. change (2 ^ 24) with 16777216. lia. }
  destruct (args_all g (negb (ci <? 0)%Z) (negb (sac <? 0)%Z) (negb (rac <? 0)%Z) (negb (tac <? 0)%Z) (negb (eci <? 0)%Z) (negb (lac <? 0)%Z)
    (negb (menbi <? 0)%Z) (negb (emenbi <? 0)%Z) mcc mnc (zu16 lac) (zu16 ci) (zu16 sac) (zu16 rac) (zu16 tac) (zu32 eci) (zu32 menbi) (zu32 emenbi)
    M1 M2 (U16 _) (U16 _) (U16 _) (U16 _) (U16 _) (G24 _ X6) (G24 _ X7)) as (_ & i & MM & AA & _). cbv zeta in *.
  assert (L2 : forall z, (lac < 0 -> z < 0)%Z -> (z < 2 ^ 16)%Z ->
     given (negb (z <? 0)%Z) (Loc2 mcc mnc (zu16 lac) (zu16 z)) = zgiven z (Loc2 mcc mnc (Z.to_N lac))).
  { intros z Z1 Z2. rewrite (zgiven_16 z (Loc2 mcc mnc (zu16 lac)) Z2). unfold zgiven. destruct (Z.ltb_spec z 0); [reflexivity|].
    unfold zu16. change 65536%Z with (2 ^ 16)%Z. rewrite Z.mod_small by lia. reflexivity. }
  assert (E4 : given (negb (eci <? 0)%Z) (Loc1 mcc mnc (zu32 eci mod 2 ^ 20)) = c4).
  { unfold c4, zgiven. destruct (Z.ltb_spec eci 0); [reflexivity|]. cbn [negb given]. unfold zu32. rewrite (Z.mod_small eci) by lia.
    rewrite N.mod_small; [reflexivity|]. change (2 ^ 20) with 1048576. lia. }
  rewrite E4 in *. rewrite !L2 in * by (assumption || lia).
  rewrite (zgiven_16 tac (Loc1 mcc mnc) X4), (zgiven_16 lac (Loc1 mcc mnc) X0) in *.
  rewrite (zgiven_32 menbi (Loc1 mcc mnc)), (zgiven_32 emenbi (Loc1 mcc mnc)) in * by lia.
  exists i. auto.
Qed.

(** ** The other accessor *)
Lemma share2_same mcc mnc o : opt_ok (fun v => l2_mcc v = mcc /\ l2_mnc v = mnc) o -> share2 (mcc, mnc) o = o.
Proof. destruct o as [[a b c d]|]; [|reflexivity]. cbn. now intros [-> ->]. Qed.
Lemma share1_same mcc mnc o : opt_ok (fun v => l1_mcc v = mcc /\ l1_mnc v = mnc) o -> share1 (mcc, mnc) o = o.
Proof. destruct o as [[a b c]|]; [|reflexivity]. cbn. now intros [-> ->]. Qed.
Lemma info_same i cgi sai rai tai ecgi lai menbi emenbi mcc mnc : uli_ok cgi sai rai tai ecgi lai menbi emenbi ->
  i2_payload i = uli_octets cgi sai rai tai ecgi lai menbi emenbi ->
  same_plmn mcc mnc cgi sai rai tai ecgi lai menbi emenbi ->
  acc_uli_info i = Ok (Uli 0 cgi sai rai tai ecgi lai menbi emenbi).
Proof.
  intros OK P (S0 & S1 & S2 & S3 & S4 & S5 & S6 & S7). unfold acc_uli_info. rewrite P.
  pose proof (parse_all cgi sai rai tai ecgi lai menbi emenbi OK []) as E. rewrite app_nil_r in E. rewrite E. cbn [bind].
  cbn [uli_value u_cgi u_sai u_rai u_tai u_ecgi u_lai u_menbi u_emenbi].
  destruct (match cgi, sai, rai with None, None, None => match tai, ecgi, lai, menbi, emenbi with None, None, None, None, None => false | _,_,_,_,_ => true end | _, _, _ => true end) eqn:X.
  - assert (L : last_plmn (uli_value cgi sai rai tai ecgi lai menbi emenbi) = (mcc, mnc)).
    { unfold last_plmn. cbn [uli_value u_cgi u_sai u_rai u_tai u_ecgi u_lai u_menbi u_emenbi].
      destruct emenbi; [destruct S7 as [-> ->]; reflexivity|]. destruct menbi; [destruct S6 as [-> ->]; reflexivity|].
      destruct lai; [destruct S5 as [-> ->]; reflexivity|]. destruct ecgi; [destruct S4 as [-> ->]; reflexivity|].
      destruct tai; [destruct S3 as [-> ->]; reflexivity|]. destruct rai; [destruct S2 as [-> ->]; reflexivity|].
      destruct sai; [destruct S1 as [-> ->]; reflexivity|]. destruct cgi; [destruct S0 as [-> ->]; reflexivity|]. discriminate X. }
    rewrite L. now rewrite !share2_same, !share1_same by assumption.
  - destruct cgi, sai, rai, tai, ecgi, lai, menbi, emenbi; try discriminate X. reflexivity.
Qed.
Lemma info_tai_ecgi i tai ecgi : loc1_ok 16 tai -> loc1_ok 32 ecgi ->
  i2_payload i = uli_octets None None None (Some tai) (Some ecgi) None None None ->
  acc_uli_info i = Ok (Uli 0 None None None (Some (Loc1 (l1_mcc ecgi) (l1_mnc ecgi) (l1_x tai))) (Some ecgi) None None None).
Proof.
  intros H1 H2 P. unfold acc_uli_info. rewrite P.
  assert (OK : uli_ok None None None (Some tai) (Some ecgi) None None None) by (unfold uli_ok, opt_ok; tauto).
  pose proof (parse_all None None None (Some tai) (Some ecgi) None None None OK []) as E. rewrite app_nil_r in E. rewrite E. cbn [bind].
  destruct ecgi. reflexivity.
Qed.
Lemma info_safe i : bytes_ok (i2_payload i) -> safe (acc_uli_info i).
Proof. intros H E. unfold acc_uli_info in E. pose proof (uli_parse_safe _ H) as S. destruct (uli_parse (i2_payload i)); try discriminate E. now apply S. Qed.
Lemma acc_uli_safe i : bytes_ok (i2_payload i) -> safe (acc_uli i).
Proof. intros H. unfold acc_uli, typed. destruct (i2_type i =? 86); [now apply uli_parse_safe|intros E; discriminate E]. Qed.
Lemma mcc_mnc_safe i : bytes_ok (i2_payload i) -> safe (acc_mcc_mnc_all i).
Proof.
  intros H. unfold acc_mcc_mnc_all. destruct (Nat.ltb_spec (len (i2_payload i)) 3) as [L|L]; [intros E; discriminate E|].
  destruct (i2_type i =? 86) eqn:T.
  - unfold acc_uli, typed. rewrite T. destruct (i2_payload i) as [|fl r]; [cbn in L; lia|]. inversion H; subst.
    pose proof (parse_any fl r) as P. destruct (len (fl :: r) <? uli_size fl)%nat; [rewrite P by assumption; intros E; discriminate E|].
    destruct P as (f & -> & F & P0 & P1 & P2 & P3 & P4 & P5 & P6 & P7); [assumption|]. cbn [bind].
    assert (B : forall k, (k < 8)%nat -> uli_has (N.of_nat k) f = N.testbit fl (N.of_nat k)).
    { intros k K. unfold uli_has. rewrite F.
      assert (B : forallb (fun f => forallb (fun k => Bool.eqb (negb (N.land f (2 ^ N.of_nat k) =? 0)) (N.testbit f (N.of_nat k))) (seq 0 8)) (below 256) = true)
        by (vm_compute; reflexivity).
      rewrite forallb_forall in B. pose proof (B fl) as B1. cbv beta in B1. rewrite forallb_forall in B1.
      apply Bool.eqb_prop. apply B1; [apply below_complete; assumption|apply in_seq; lia]. }
    assert (Q0 : uli_has 0 f = N.testbit fl 0) by (apply (B 0%nat); lia). assert (Q1 : uli_has 1 f = N.testbit fl 1) by (apply (B 1%nat); lia).
    assert (Q2 : uli_has 2 f = N.testbit fl 2) by (apply (B 2%nat); lia). assert (Q3 : uli_has 3 f = N.testbit fl 3) by (apply (B 3%nat); lia).
    assert (Q4 : uli_has 4 f = N.testbit fl 4) by (apply (B 4%nat); lia). assert (Q5 : uli_has 5 f = N.testbit fl 5) by (apply (B 5%nat); lia).
    assert (Q6 : uli_has 6 f = N.testbit fl 6) by (apply (B 6%nat); lia). assert (Q7 : uli_has 7 f = N.testbit fl 7) by (apply (B 7%nat); lia).
    rewrite Q0, Q1, Q2, Q3, Q4, Q5, Q6, Q7, <- P0, <- P1, <- P2, <- P3, <- P4, <- P5, <- P6, <- P7.
    destruct (u_cgi f); [intros E; discriminate E|]. destruct (u_sai f); [intros E; discriminate E|].
    destruct (u_rai f); [intros E; discriminate E|]. destruct (u_tai f); [intros E; discriminate E|].
    destruct (u_ecgi f); [intros E; discriminate E|]. destruct (u_lai f); [intros E; discriminate E|].
    destruct (u_menbi f); [intros E; discriminate E|]. destruct (u_emenbi f); intros E; discriminate E.
  - unfold acc_mcc_mnc. rewrite (proj2 (Nat.ltb_ge _ _)) by exact L.
    destruct ((i2_type i =? 83) || (i2_type i =? 120))%bool; [apply decode_plmn_safe; exact L|].
    destruct (_ || _)%bool; [|intros E; discriminate E]. unfold slice_to. rewrite slice_ok by lia. cbn [bind]. apply decode_plmn_safe.
    rewrite firstn_length, skipn_length. lia.
Qed.
