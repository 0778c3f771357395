From Verif Require Import Base BaseLemmas Utils.

(** ** Hex and BCD *)
Definition is_digit (c : N) : Prop := 48 <= c <= 57.
Definition is_lhex (c : N) : Prop := 48 <= c <= 57 \/ 97 <= c <= 102.
Definition is_digitb (c : N) : bool := (48 <=? c) && (c <=? 57).
Definition is_lhexb (c : N) : bool := is_digitb c || ((97 <=? c) && (c <=? 102)).

Lemma is_lhexb_ok c : is_lhexb c = true <-> is_lhex c.
Proof. unfold is_lhexb, is_digitb, is_lhex. lia. Qed.
Lemma is_digitb_ok c : is_digitb c = true <-> is_digit c.
Proof. unfold is_digitb, is_digit. lia. Qed.
Lemma digit_lhex c : is_digit c -> is_lhex c.
Proof. unfold is_digit, is_lhex; lia. Qed.
Lemma lhex_lt c : is_lhex c -> c < 256.
Proof. unfold is_lhex; lia. Qed.

Lemma hexval_lhex c : is_lhex c -> exists v, hexval c = Some v /\ v < 16 /\ hexdigit v = c.
Proof.
  unfold is_lhex, hexval, hexdigit; intros H.
  destruct ((48 <=? c) && (c <=? 57)) eqn:E1.
  - exists (c - 48). repeat split; [lia|]. destruct (c - 48 <? 10) eqn:E; lia.
  - destruct ((97 <=? c) && (c <=? 102)) eqn:E2; [|lia].
    exists (c - 87). repeat split; [lia|]. destruct (c - 87 <? 10) eqn:E; lia.
Qed.
Lemma hexdigit_lhex v : v < 16 -> is_lhex (hexdigit v).
Proof. unfold hexdigit, is_lhex. intros. destruct (v <? 10) eqn:E; lia. Qed.
Lemma hexval_hexdigit v : v < 16 -> hexval (hexdigit v) = Some v.
Proof.
  intros H. destruct (hexval_lhex _ (hexdigit_lhex v H)) as (w & Hw & Hlt & He).
  rewrite Hw. f_equal. unfold hexdigit in He.
  destruct (w <? 10) eqn:E1; destruct (v <? 10) eqn:E2; lia.
Qed.

Lemma nib_sweep : forall x, x < 256 ->
  ((N.shiftr x 4 <? 16) && (N.land x 15 <? 16) && (N.lor (N.shiftl (N.shiftr x 4) 4) (N.land x 15) =? x)
   && (swap_byte (swap_byte x) =? x) && (swap_byte x <? 256)
   && (N.shiftr (swap_byte x) 4 =? N.land x 15) && (N.land (swap_byte x) 15 =? N.shiftr x 4)
   && (N.shiftr x 4 =? x / 16) && (N.land x 15 =? x mod 16)) = true.
Proof. apply byte_sweep. vm_compute. reflexivity. Qed.
Lemma nib_facts x : x < 256 ->
  N.shiftr x 4 < 16 /\ N.land x 15 < 16 /\ N.lor (N.shiftl (N.shiftr x 4) 4) (N.land x 15) = x
  /\ swap_byte (swap_byte x) = x /\ swap_byte x < 256
  /\ N.shiftr (swap_byte x) 4 = N.land x 15 /\ N.land (swap_byte x) 15 = N.shiftr x 4
  /\ N.shiftr x 4 = x / 16 /\ N.land x 15 = x mod 16.
Proof.
  intros H. pose proof (nib_sweep x H) as S.
  repeat rewrite andb_true_iff in S. rewrite ?N.eqb_eq, ?N.ltb_lt in S. tauto.
Qed.
Lemma nibs_sweep : forall x, x < 16 -> forall y, y < 16 ->
  ((N.lor (N.shiftl x 4) y =? x * 16 + y)) = true.
Proof.
  intros x Hx. apply (below_sweep 16). revert x Hx.
  apply (below_sweep 16 (fun x => forallb (fun y => N.lor (N.shiftl x 4) y =? x * 16 + y) (below 16))).
  vm_compute. reflexivity.
Qed.
Lemma nibs_lor x y : x < 16 -> y < 16 -> N.lor (N.shiftl x 4) y = x * 16 + y.
Proof. intros Hx Hy. apply N.eqb_eq, nibs_sweep; assumption. Qed.

Lemma hex_decode_encode b : bytes_ok b -> hex_decode (hex_encode b) = Ok b.
Proof.
  induction b as [|x r IH]; intros H; [reflexivity|]. inv H.
  destruct (nib_facts x H2) as (H4 & H5 & H6 & _). cbn [hex_encode hex_decode].
  rewrite !hexval_hexdigit by assumption. rewrite (IH H3). cbn. rewrite H6. reflexivity.
Qed.

(** Strings as pairs of characters *)
Lemma pair_ind (P : list N -> Prop) :
  P [] -> (forall a, P [a]) -> (forall a b r, P r -> P (a :: b :: r)) -> forall s : list N, P s.
Proof.
  intros H0 H1 H2. fix IH 1. intros [|a [|b r]]; [exact H0|apply H1|apply H2, IH].
Qed.

Lemma hex_decode_lhex s : Forall is_lhex s -> Nat.even (len s) = true ->
  exists raw, hex_decode s = Ok raw /\ bytes_ok raw /\ hex_encode raw = s
              /\ len s = (2 * len raw)%nat.
Proof.
  induction s as [|a|a b r IH] using pair_ind; intros H Hev.
  - exists []. repeat split; constructor.
  - discriminate.
  - inv H. inv H3. specialize (IH H4 Hev). destruct IH as (raw & Hr & Hok & He & Hl).
    destruct (hexval_lhex a H2) as (x & Hx & Hx16 & Hxd).
    destruct (hexval_lhex b H1) as (y & Hy & Hy16 & Hyd).
    assert (Hb : x * 16 + y < 256) by lia.
    exists (x * 16 + y :: raw).
    cbn [hex_decode]. rewrite Hx, Hy, Hr. cbn [bind]. rewrite (nibs_lor x y) by assumption.
    split; [reflexivity|]. split; [constructor; [exact Hb|exact Hok]|].
    destruct (nib_facts _ Hb) as (_&_&_&_&_&_&_&E1&E2).
    cbn [hex_encode]. rewrite E1, E2.
    replace ((x * 16 + y) / 16) with x by lia. replace ((x * 16 + y) mod 16) with y by lia.
    rewrite He, Hxd, Hyd. split; [reflexivity|]. cbn [List.length]. lia.
Qed.

Lemma swap_swap b : bytes_ok b -> swap (swap b) = b.
Proof.
  induction 1; [reflexivity|]. cbn [swap map]. fold (swap (swap l)).
  pose proof (nib_facts x H) as (_&_&_&E&_). unfold swap in *. cbn [map]. rewrite E, IHForall. reflexivity.
Qed.
Lemma swap_ok b : bytes_ok b -> bytes_ok (swap b).
Proof.
  induction 1 as [|x l H Hl IH]; [constructor|].
  apply bytes_ok_cons; [|exact IH]. destruct (nib_facts x H) as (_&_&_&_&E&_). exact E.
Qed.
Lemma swap_len b : len (swap b) = len b.
Proof. apply map_length. Qed.
Lemma hex_encode_len b : len (hex_encode b) = (2 * len b)%nat.
Proof. induction b; cbn; lia. Qed.

Lemma swapped_to_str_alt raw c : swapped_to_str raw c =
  if (len raw =? 0)%nat then Ok [] else
  let s := hex_encode (swap raw) in if c then slice_to s (len s - 1) else Ok s.
Proof. destruct raw; reflexivity. Qed.
Lemma swapped_to_str_even raw : bytes_ok raw -> swapped_to_str (swap raw) false = Ok (hex_encode raw).
Proof.
  intros H. rewrite swapped_to_str_alt, swap_len, swap_swap by assumption.
  destruct raw; reflexivity.
Qed.

Lemma bcd_even s : Forall is_lhex s -> Nat.even (len s) = true ->
  exists b, str_to_swapped s [ch_f] = Ok b /\ swapped_to_str b false = Ok s
            /\ bytes_ok b /\ len s = (2 * len b)%nat.
Proof.
  intros H He. destruct (hex_decode_lhex s H He) as (raw & Hr & Hok & Henc & Hl).
  exists (swap raw). unfold str_to_swapped. rewrite He, Hr. cbn.
  rewrite swapped_to_str_even, Henc by assumption.
  rewrite swap_len. repeat split; auto using swap_ok.
Qed.

Lemma bcd_odd s : Forall is_lhex s -> Nat.even (len s) = false ->
  exists b, str_to_swapped s [ch_f] = Ok b /\ swapped_to_str b true = Ok s
            /\ swapped_to_str b false = Ok (s ++ [ch_f])
            /\ bytes_ok b /\ S (len s) = (2 * len b)%nat.
Proof.
  intros H He.
  assert (Hf : Forall is_lhex (s ++ [ch_f])).
  { apply Forall_app; split; [assumption|]. constructor; [|constructor]. unfold is_lhex, ch_f. lia. }
  assert (Hev : Nat.even (len (s ++ [ch_f])) = true).
  { rewrite app_length. cbn [List.length]. rewrite Nat.add_1_r, Nat.even_succ, <- Nat.negb_even, He. reflexivity. }
  destruct (hex_decode_lhex _ Hf Hev) as (raw & Hr & Hok & Henc & Hl).
  exists (swap raw). unfold str_to_swapped. rewrite He, Hr. cbn [bind].
  rewrite app_length in Hl. cbn [List.length] in Hl. rewrite swap_len.
  rewrite swapped_to_str_even, Henc by assumption.
  repeat split; auto using swap_ok; [|lia].
  rewrite swapped_to_str_alt, swap_len, swap_swap, Henc by assumption.
  rewrite (proj2 (Nat.eqb_neq _ _)) by lia. cbv zeta.
  unfold slice_to. rewrite slice_ok by lia. cbn [skipn].
  rewrite app_length. cbn [List.length]. rewrite Nat.sub_0_r, Nat.add_sub.
  rewrite firstn_app_exact; reflexivity.
Qed.

(** Characters that are not hexadecimal are rejected. *)
Lemma hex_decode_bad s c : In c s -> hexval c = None -> hex_decode s = Err EHex.
Proof.
  revert c. induction s as [|a|a b r IH] using pair_ind; intros c Hin Hc; [contradiction|reflexivity|].
  cbn [hex_decode]. destruct (hexval a) eqn:Ea; [|reflexivity]. destruct (hexval b) eqn:Eb; [|reflexivity].
  destruct Hin as [<-|[<-|Hin]]; try congruence. rewrite (IH c Hin Hc). reflexivity.
Qed.
Lemma str_to_swapped_bad s f c : In c s -> hexval c = None -> str_to_swapped s f = Err EHex.
Proof.
  intros Hin Hc. unfold str_to_swapped. destruct (Nat.even (len s)).
  - rewrite (hex_decode_bad s c); auto.
  - rewrite (hex_decode_bad (s ++ f) c); auto. apply in_or_app; auto.
Qed.

Lemma hex_decode_safe s : safe (hex_decode s).
Proof.
  induction s as [|a|a b r IH] using pair_ind; cbn [hex_decode]; safe_tac.
Qed.
Lemma str_to_swapped_safe s f : safe (str_to_swapped s f).
Proof. unfold str_to_swapped. safe_tac; apply hex_decode_safe. Qed.
Lemma swapped_to_str_safe b c : safe (swapped_to_str b c).
Proof. unfold swapped_to_str. destruct b; safe_tac. unfold slice_to. safe_tac. Qed.

(** hex decoding of any input gives bytes *)
Lemma hexval_lt c v : hexval c = Some v -> v < 16.
Proof.
  unfold hexval. destruct ((48 <=? c) && (c <=? 57)) eqn:E1; [intros H; injection H as <-; lia|].
  destruct ((97 <=? c) && (c <=? 102)) eqn:E2; [intros H; injection H as <-; lia|].
  destruct ((65 <=? c) && (c <=? 70)) eqn:E3; [intros H; injection H as <-; lia|discriminate].
Qed.
Lemma hex_decode_ok s raw : hex_decode s = Ok raw -> bytes_ok raw /\ len s = (2 * len raw)%nat.
Proof.
  revert raw; induction s as [|a|a b r IH] using pair_ind; intros raw H; cbn [hex_decode] in H.
  - injection H as <-. split; [constructor|reflexivity].
  - discriminate.
  - destruct (hexval a) eqn:Ea; [|discriminate]. destruct (hexval b) eqn:Eb; [|discriminate].
    apply bind_ok_inv in H. destruct H as (t & Ht & H). injection H as <-.
    destruct (IH t Ht) as [H1 H2]. apply hexval_lt in Ea, Eb. rewrite nibs_lor by assumption.
    split; [constructor; [unfold is_byte; lia|exact H1]|]. cbn [List.length]; lia.
Qed.
Lemma str_to_swapped_ok s b : str_to_swapped s [ch_f] = Ok b ->
  bytes_ok b /\ (len b = (len s + 1) / 2)%nat.
Proof.
  unfold str_to_swapped. intros H. apply bind_ok_inv in H. destruct H as (raw & Hr & H).
  injection H as <-. rewrite swap_len.
  destruct (Nat.even (len s)) eqn:E; apply hex_decode_ok in Hr; destruct Hr as [H1 H2].
  - split; [apply swap_ok, H1|]. rewrite H2. replace (2 * len raw + 1)%nat with (1 + len raw * 2)%nat by lia.
    rewrite Nat.div_add by lia. reflexivity.
  - split; [apply swap_ok, H1|]. rewrite app_length in H2. cbn [List.length] in H2.
    rewrite H2. replace (2 * len raw)%nat with (len raw * 2)%nat by lia. rewrite Nat.div_mul by lia. reflexivity.
Qed.

(** ** PLMN *)
Definition pair_table (f : N -> N -> bool) : bool :=
  forallb (fun x => forallb (f x) (below 10)) (below 10).
Lemma digit_val c : is_digit c -> exists d, d < 10 /\ c = d + 48.
Proof. unfold is_digit; intros; exists (c - 48); lia. Qed.

Lemma idx_nat_0 {A} (x : A) l : idx (x :: l) 0 = Ok x. Proof. reflexivity. Qed.

Lemma len3 {A} (l : list A) : List.length l = 3%nat -> exists a b c, l = [a; b; c].
Proof. destruct l as [|a [|b [|c [|]]]]; simpl; intros; try lia. eauto. Qed.
Lemma len2 {A} (l : list A) : List.length l = 2%nat -> exists a b, l = [a; b].
Proof. destruct l as [|a [|b [|]]]; simpl; intros; try lia. eauto. Qed.

Lemma hexval_digit d : d < 10 -> hexval (d + 48) = Some d.
Proof. intros H. unfold hexval. rewrite (proj2 (andb_true_iff _ _)) by lia. f_equal. lia. Qed.

(** what a swapped pair of digits is *)
Lemma swap_pair x y : x < 16 -> y < 16 -> swap_byte (N.lor (N.shiftl x 4) y) = y * 16 + x.
Proof.
  intros Hx Hy. rewrite nibs_lor by assumption.
  assert (H : x * 16 + y < 256) by lia.
  destruct (nib_facts _ H) as (H1&H2&_&_&H5&H6&H7&H8&H9).
  assert (HB : swap_byte (x*16+y) < 256) by assumption.
  destruct (nib_facts _ HB) as (_&_&_&_&_&_&_&H10&H11).
  rewrite H6, H9 in H10. rewrite H7, H8 in H11.
  pose proof (N.div_mod (swap_byte (x*16+y)) 16 ltac:(discriminate)) as Hd.
  rewrite <- H10, <- H11 in Hd. rewrite Hd. lia.
Qed.

Lemma str_to_swapped_3 a b c : a < 10 -> b < 10 -> c < 10 ->
  str_to_swapped [a + 48; b + 48; c + 48] [ch_f] = Ok [b * 16 + a; 240 + c].
Proof.
  intros. unfold str_to_swapped. cbn [List.length Nat.even app].
  cbn [hex_decode]. rewrite !hexval_digit by assumption. change (hexval ch_f) with (Some 15).
  cbn [bind swap map]. rewrite !swap_pair by lia. reflexivity.
Qed.
Lemma str_to_swapped_2 a b : a < 10 -> b < 10 ->
  str_to_swapped [a + 48; b + 48] [ch_f] = Ok [b * 16 + a].
Proof.
  intros. unfold str_to_swapped. cbn [List.length Nat.even app].
  cbn [hex_decode]. rewrite !hexval_digit by assumption.
  cbn [bind swap map]. rewrite !swap_pair by lia. reflexivity.
Qed.

Lemma hexdigit_small d : d < 10 -> hexdigit d = d + 48.
Proof. intros H. unfold hexdigit. rewrite (proj2 (N.ltb_lt _ _) H). reflexivity. Qed.

Lemma nibs_of x y : x < 16 -> y < 16 -> N.shiftr (x * 16 + y) 4 = x /\ N.land (x * 16 + y) 15 = y.
Proof.
  intros. assert (H1 : x * 16 + y < 256) by lia.
  destruct (nib_facts _ H1) as (_&_&_&_&_&_&_&E1&E2). rewrite E1, E2. lia.
Qed.

Lemma mnc_mid_sweep : pair_table (fun c n =>
  (N.lor (N.land (240 + c) 15) (N.land (u8 (N.shiftl (240 + n) 4)) 240) =? n * 16 + c)) = true.
Proof. vm_compute. reflexivity. Qed.
Lemma pair_table_ok f : pair_table f = true -> forall x y, x < 10 -> y < 10 -> f x y = true.
Proof.
  unfold pair_table. intros H x y Hx Hy. rewrite forallb_forall in H.
  specialize (H x (below_complete 10 x Hx)). rewrite forallb_forall in H.
  apply H, (below_complete 10 y Hy).
Qed.

Definition plmn3 (a b c x y z : N) : bytes := [b * 16 + a; z * 16 + c; y * 16 + x].
Definition plmn2 (a b c x y : N) : bytes := [b * 16 + a; 240 + c; y * 16 + x].

Lemma encode_plmn_3 a b c x y z :
  a < 10 -> b < 10 -> c < 10 -> x < 10 -> y < 10 -> z < 10 ->
  encode_plmn [a + 48; b + 48; c + 48] [x + 48; y + 48; z + 48] = Ok (plmn3 a b c x y z).
Proof.
  intros. unfold encode_plmn. rewrite !str_to_swapped_3 by assumption.
  cbn [bind List.length Nat.eqb idx nth_error].
  pose proof (pair_table_ok _ mnc_mid_sweep c z ltac:(assumption) ltac:(assumption)) as E.
  apply N.eqb_eq in E. rewrite E. reflexivity.
Qed.
Lemma encode_plmn_2 a b c x y :
  a < 10 -> b < 10 -> c < 10 -> x < 10 -> y < 10 ->
  encode_plmn [a + 48; b + 48; c + 48] [x + 48; y + 48] = Ok (plmn2 a b c x y).
Proof.
  intros. unfold encode_plmn. rewrite str_to_swapped_3, str_to_swapped_2 by assumption. reflexivity.
Qed.

Lemma decode_plmn_3 a b c x y z q :
  a < 10 -> b < 10 -> c < 10 -> x < 10 -> y < 10 -> z < 10 ->
  decode_plmn (plmn3 a b c x y z ++ q)
  = Ok ([a + 48; b + 48; c + 48], [x + 48; y + 48; z + 48]).
Proof.
  intros. unfold decode_plmn, plmn3. cbn [app].
  rewrite !slice_ok by (cbn [List.length]; lia). cbn [Nat.sub skipn firstn bind].
  unfold decode_mcc, decode_mnc. cbn [hex_encode].
  destruct (nibs_of b a ltac:(lia) ltac:(lia)) as [-> ->].
  destruct (nibs_of z c ltac:(lia) ltac:(lia)) as [-> ->].
  destruct (nibs_of y x ltac:(lia) ltac:(lia)) as [-> ->].
  rewrite !hexdigit_small by assumption. cbn [idx nth_error bind].
  replace (z + 48 =? ch_f) with false by (unfold ch_f; symmetry; apply N.eqb_neq; lia).
  reflexivity.
Qed.
Lemma decode_plmn_2 a b c x y q :
  a < 10 -> b < 10 -> c < 10 -> x < 10 -> y < 10 ->
  decode_plmn (plmn2 a b c x y ++ q) = Ok ([a + 48; b + 48; c + 48], [x + 48; y + 48]).
Proof.
  intros. unfold decode_plmn, plmn2. cbn [app].
  rewrite !slice_ok by (cbn [List.length]; lia). cbn [Nat.sub skipn firstn bind].
  unfold decode_mcc, decode_mnc. cbn [hex_encode].
  destruct (nibs_of b a ltac:(lia) ltac:(lia)) as [-> ->].
  change 240 with (15 * 16). destruct (nibs_of 15 c ltac:(lia) ltac:(lia)) as [-> ->].
  destruct (nibs_of y x ltac:(lia) ltac:(lia)) as [-> ->].
  rewrite (hexdigit_small a), (hexdigit_small b), (hexdigit_small c), (hexdigit_small x), (hexdigit_small y) by assumption.
  reflexivity.
Qed.

(** General form, for digit strings. *)
Definition mcc_ok (m : bytes) : Prop := len m = 3%nat /\ Forall is_digit m.
Definition mnc_ok (m : bytes) : Prop := (len m = 2%nat \/ len m = 3%nat) /\ Forall is_digit m.
Definition mcc_okb (m : bytes) : bool := (len m =? 3)%nat && forallb is_digitb m.
Definition mnc_okb (m : bytes) : bool := ((len m =? 2)%nat || (len m =? 3)%nat) && forallb is_digitb m.

Ltac digits :=
  repeat match goal with
  | H : Forall is_digit (_ :: _) |- _ => inv H
  | H : Forall is_digit [] |- _ => clear H
  | H : is_digit _ |- _ => apply digit_val in H; destruct H as (? & ? & ->)
  end.

Lemma plmn_roundtrip mcc mnc q : mcc_ok mcc -> mnc_ok mnc ->
  exists b, encode_plmn mcc mnc = Ok b /\ len b = 3%nat /\ bytes_ok b
            /\ decode_plmn (b ++ q) = Ok (mcc, mnc).
Proof.
  intros [L1 D1] [L2 D2]. apply len3 in L1. destruct L1 as (a & b & c & ->).
  destruct L2 as [L2|L2].
  - apply len2 in L2. destruct L2 as (x & y & ->). digits. eexists.
    split; [apply encode_plmn_2; assumption|]. split; [reflexivity|].
    split; [repeat constructor; unfold is_byte; lia|]. apply decode_plmn_2; assumption.
  - apply len3 in L2. destruct L2 as (x & y & z & ->). digits. eexists.
    split; [apply encode_plmn_3; assumption|]. split; [reflexivity|].
    split; [repeat constructor; unfold is_byte; lia|]. apply decode_plmn_3; assumption.
Qed.

Lemma decode_plmn_safe b : (3 <= len b)%nat -> safe (decode_plmn b).
Proof.
  intros H. unfold decode_plmn, decode_mcc, decode_mnc. safe_tac;
    apply safe_idx; slice_facts; rewrite hex_encode_len; lia.
Qed.

(** ** 24/40-bit integers *)
Lemma lor_add_disjoint k x y : y < 2 ^ k -> N.lor (N.shiftl x k) y = x * 2 ^ k + y.
Proof.
  intros H. rewrite N.shiftl_mul_pow2. apply N.bits_inj. intros n.
  rewrite N.lor_spec.
  destruct (N.lt_ge_cases n k) as [Hn|Hn].
  - rewrite N.mul_pow2_bits_low by assumption. simpl.
    rewrite <- (N.mod_pow2_bits_low (x * 2 ^ k + y) k n Hn).
    rewrite N.add_comm, N.mod_add by (apply N.pow_nonzero; discriminate).
    rewrite N.mod_small by assumption. reflexivity.
  - rewrite N.mul_pow2_bits_high by assumption.
    assert (Hy : N.testbit y n = false).
    { destruct (N.eq_dec y 0) as [->|Hy]; [apply N.bits_0|].
      apply N.bits_above_log2. apply N.lt_le_trans with k; [|assumption].
      apply N.log2_lt_pow2; [lia|assumption]. }
    rewrite Hy, orb_false_r.
    replace n with ((n - k) + k) at 2 by lia.
    rewrite <- N.div_pow2_bits. f_equal. symmetry.
    rewrite N.div_add_l by (apply N.pow_nonzero; discriminate).
    rewrite N.div_small by assumption. apply N.add_0_r.
Qed.
Lemma lor_assoc_shift a b k j : N.lor (N.shiftl a (k + j)) (N.shiftl b j) = N.shiftl (N.lor (N.shiftl a k) b) j.
Proof. rewrite N.shiftl_lor, N.shiftl_shiftl. reflexivity. Qed.

Lemma uint24_val x y z : y < 256 -> z < 256 -> uint24to32 [x; y; z] = x * 65536 + y * 256 + z.
Proof.
  intros Hy Hz. unfold uint24to32. change 16 with (8 + 8). rewrite lor_assoc_shift.
  rewrite (lor_add_disjoint 8 x y) by assumption. rewrite lor_add_disjoint by assumption.
  change (2 ^ 8) with 256. lia.
Qed.
Lemma uint32to24_enc n : uint32to24 n = enc24 n.
Proof.
  unfold uint32to24, enc24, u8. rewrite !N.shiftr_div_pow2. reflexivity.
Qed.
Lemma uint24_roundtrip n : uint24to32 (uint32to24 n) = n mod 16777216.
Proof.
  rewrite uint32to24_enc. unfold enc24. rewrite uint24_val by apply mod256_byte. lia.
Qed.
Lemma uint24_inverse b : bytes_ok b -> len b = 3%nat -> uint32to24 (uint24to32 b) = b.
Proof.
  intros Hb Hl. apply len3 in Hl. destruct Hl as (x & y & z & ->).
  inv Hb. inv H2. inv H4. rewrite uint32to24_enc, uint24_val by assumption.
  apply enc24_be; assumption.
Qed.
Lemma uint24_lt b : bytes_ok b -> uint24to32 b < 16777216.
Proof.
  intros Hb. destruct (Nat.eq_dec (len b) 3) as [Hl|Hl].
  - apply len3 in Hl. destruct Hl as (x & y & z & ->).
    inv Hb. inv H2. inv H4. rewrite uint24_val by assumption. unfold is_byte in *. lia.
  - destruct b as [|? [|? [|? [|? ?]]]]; cbn in *; lia.
Qed.

Lemma uint40_val a b c d e : b < 256 -> c < 256 -> d < 256 -> e < 256 ->
  uint40to64 [a; b; c; d; e] = a * 4294967296 + b * 16777216 + c * 65536 + d * 256 + e.
Proof.
  intros. unfold uint40to64.
  change 32 with (8 + 24). rewrite lor_assoc_shift.
  change 24 with (8 + 16). rewrite lor_assoc_shift.
  change 16 with (8 + 8). rewrite lor_assoc_shift.
  rewrite !(lor_add_disjoint 8) by assumption. change (2 ^ 8) with 256. lia.
Qed.
Lemma uint64to40_enc n : uint64to40 n = enc40 n.
Proof. unfold uint64to40, enc40, u8. rewrite !N.shiftr_div_pow2. reflexivity. Qed.
Lemma uint40_roundtrip n : uint40to64 (uint64to40 n) = n mod 1099511627776.
Proof.
  rewrite uint64to40_enc. unfold enc40. rewrite uint40_val by apply mod256_byte. lia.
Qed.
Lemma uint40_inverse b : bytes_ok b -> len b = 5%nat -> uint64to40 (uint40to64 b) = b.
Proof.
  intros Hb Hl. destruct b as [|v [|w [|x [|y [|z [|]]]]]]; simpl in Hl; try lia.
  repeat match goal with H : bytes_ok (_ :: _) |- _ => inv H | H : Forall _ (_ :: _) |- _ => inv H end.
  rewrite uint64to40_enc, uint40_val by assumption. unfold enc40, is_byte in *. repeat f_equal; lia.
Qed.

Lemma parse_eci_spec eci : eci < 4294967296 -> parse_eci eci = Ok (eci / 256, eci mod 256).
Proof.
  intros H. unfold parse_eci, put32, zeros. cbn -[N.modulo N.div]. do 2 f_equal. lia.
Qed.

(** ** FQDN *)
Definition enc_label (l : bytes) : bytes := u8 (N.of_nat (len l)) :: l.

Lemma split_dot_cons s : exists l ls, split_dot s = l :: ls.
Proof.
  induction s as [|c r (l & ls & E)]; [eexists _, _; reflexivity|].
  cbn. rewrite E. destruct (c =? ch_dot); eauto.
Qed.
Lemma join_split s : join_dot (split_dot s) = s.
Proof.
  induction s as [|c r IH]; [reflexivity|]. cbn [split_dot].
  destruct (split_dot_cons r) as (l & ls & E). rewrite E in *.
  destruct (c =? ch_dot) eqn:Ec.
  - apply N.eqb_eq in Ec. rewrite Ec. change (ch_dot :: join_dot (l :: ls) = ch_dot :: r). rewrite IH. reflexivity.
  - destruct ls; cbn [join_dot app] in *; rewrite <- IH; reflexivity.
Qed.
Definition encs (ls : list bytes) : bytes := flat_map enc_label ls.
Lemma enc_labels_len s : len (encs (split_dot s)) = S (len s).
Proof.
  induction s as [|c r IH]; [reflexivity|]. cbn [split_dot].
  destruct (split_dot_cons r) as (l & ls & E). rewrite E in *.
  destruct (c =? ch_dot).
  - cbn [encs flat_map enc_label List.length app] in *. rewrite IH. reflexivity.
  - unfold encs in *. cbn [flat_map enc_label List.length app] in *. rewrite <- IH. reflexivity.
Qed.

Lemma copy_from_writes done src b :
  (len done + len src <= len b)%nat ->
  copy_from (done ++ skipn (len done) b) (len done) src
  = Ok ((done ++ src) ++ skipn (len (done ++ src)) b).
Proof. intros H. apply (on_slice_from_writes _ src); [apply go_copy_writes|assumption]. Qed.

Lemma encode_fqdn_loop_spec labels : forall done b,
  (len done + len (encs labels) = len b)%nat ->
  encode_fqdn_loop (done ++ skipn (len done) b) (len done) labels = Ok (done ++ encs labels).
Proof.
  induction labels as [|l ls IH]; intros done b Hl; cbn [encode_fqdn_loop encs flat_map] in *.
  - cbn [List.length] in Hl. rewrite skipn_all2 by lia. reflexivity.
  - change (flat_map enc_label ls) with (encs ls) in *.
    rewrite app_length in Hl. cbn [enc_label List.length] in Hl.
    rewrite set_idx_writes by lia. cbn [bind].
    replace (len done + 1)%nat with (len (done ++ [u8 (N.of_nat (len l))]))
      by (rewrite app_length; reflexivity).
    rewrite copy_from_writes by (rewrite app_length; cbn [List.length]; lia). cbn [bind].
    set (d2 := (done ++ [u8 (N.of_nat (len l))]) ++ l).
    replace (len done + (len l + 1))%nat with (len d2)
      by (unfold d2; rewrite !app_length; cbn [List.length]; lia).
    rewrite IH.
    + unfold d2, enc_label. rewrite <- !app_assoc. reflexivity.
    + unfold d2; rewrite !app_length; cbn [List.length]; lia.
Qed.
Lemma encode_fqdn_spec s : encode_fqdn s = Ok (encs (split_dot s)).
Proof.
  unfold encode_fqdn.
  pose proof (encode_fqdn_loop_spec (split_dot s) [] (zeros (len s + 1))) as H.
  cbn [app List.length skipn] in H. apply H.
  rewrite enc_labels_len, len_zeros. lia.
Qed.

Lemma encs_cons l ls : encs (l :: ls) = enc_label l ++ encs ls.
Proof. reflexivity. Qed.
Lemma decode_fqdn_loop_spec ls : forall fuel p q,
  Forall (fun l => len l < 256)%nat ls -> (len (encs ls) + len q < fuel)%nat ->
  decode_fqdn_loop fuel (p ++ encs ls ++ q) (len p)
  = do rest <- decode_fqdn_loop (fuel - List.length ls) (p ++ encs ls ++ q) (len p + len (encs ls));
    Ok (ls ++ rest).
Proof.
  induction ls as [|l ls IH]; intros fuel p q Hs Hf.
  - cbn [encs flat_map List.length app]. rewrite Nat.sub_0_r, Nat.add_0_r.
    destruct (decode_fqdn_loop fuel (p ++ q) (len p)); reflexivity.
  - inv Hs. rewrite encs_cons in *.
    rewrite app_length in Hf. unfold enc_label in Hf. cbn [List.length] in Hf.
    assert (Hu : u8 (N.of_nat (len l)) = N.of_nat (len l)) by (unfold u8; lia).
    destruct fuel as [|fuel]; [lia|].
    set (B := p ++ (enc_label l ++ encs ls) ++ q).
    assert (HB : len B = (len p + S (len l + len (encs ls)) + len q)%nat)
      by (unfold B, enc_label; rewrite !app_length; cbn [List.length]; lia).
    cbn [decode_fqdn_loop]. rewrite (proj2 (Nat.ltb_lt (len p) (len B))) by lia.
    replace (idx B (len p)) with (@Ok N (N.of_nat (len l))).
    2:{ unfold B. rewrite idx_app_r, Nat.sub_diag by lia. cbn. rewrite Hu. reflexivity. }
    cbn [bind]. cbv zeta. rewrite Nat2N.id.
    rewrite (proj2 (Nat.ltb_ge (len B) _)) by lia.
    replace (slice B (len p + 1) (len p + len l + 1)) with (@Ok bytes l).
    2:{ symmetry. unfold B, enc_label. change ((u8 (N.of_nat (len l)) :: l) ++ encs ls) with ([u8 (N.of_nat (len l))] ++ l ++ encs ls).
        rewrite <- !app_assoc, (app_assoc p). apply slice_mid; rewrite app_length; cbn [List.length]; lia. }
    cbn [bind].
    specialize (IH fuel (p ++ enc_label l) q H2).
    replace ((p ++ enc_label l) ++ encs ls ++ q) with B in IH
      by (unfold B, enc_label; rewrite <- !app_assoc; reflexivity).
    replace (len p + (len l + 1))%nat with (len (p ++ enc_label l))
      by (rewrite app_length; cbn [enc_label List.length]; lia).
    rewrite IH by lia. cbn [List.length Nat.sub].
    replace (len p + len (enc_label l ++ encs ls))%nat with (len (p ++ enc_label l) + len (encs ls))%nat
      by (rewrite !app_length; cbn [enc_label List.length]; lia).
    rewrite bind_assoc. destruct (decode_fqdn_loop (fuel - List.length ls) B _); reflexivity.
Qed.

Lemma encs_len_ge ls : (List.length ls <= len (encs ls))%nat.
Proof.
  induction ls as [|l ls IH]; [cbn; lia|]. rewrite encs_cons.
  rewrite app_length. unfold enc_label. cbn [List.length]. lia.
Qed.

Lemma fqdn_roundtrip s : Forall (fun l => len l < 256)%nat (split_dot s) ->
  exists b, encode_fqdn s = Ok b /\ decode_fqdn b = Ok s /\ len b = S (len s).
Proof.
  intros H. exists (encs (split_dot s)). split; [apply encode_fqdn_spec|].
  split; [|apply enc_labels_len].
  unfold decode_fqdn.
  pose proof (decode_fqdn_loop_spec (split_dot s) (S (len (encs (split_dot s)))) [] [] H) as D.
  rewrite !app_nil_r in D. cbn [app List.length] in D.
  rewrite D by lia.
  pose proof (encs_len_ge (split_dot s)).
  destruct (S (len (encs (split_dot s))) - @List.length (list N) (split_dot s))%nat eqn:E; [lia|].
  cbn [decode_fqdn_loop Nat.add]. rewrite Nat.ltb_irrefl. cbn [bind].
  rewrite app_nil_r, join_split. reflexivity.
Qed.

Lemma decode_fqdn_loop_safe fuel b off :
  (off <= len b)%nat -> (len b < fuel + off)%nat -> safe (decode_fqdn_loop fuel b off).
Proof.
  revert off; induction fuel as [|fuel IH]; intros off Ho H; cbn [decode_fqdn_loop].
  - lia.
  - destruct (off <? len b)%nat eqn:E; [|apply safe_ok].
    apply safe_bind; [safe_tac|]. intros x Hx. cbv zeta.
    destruct (len b <? off + N.to_nat x + 1)%nat eqn:E2; [apply safe_ok|].
    apply safe_bind; [safe_tac|]. intros s Hs. apply safe_bind; [|intros; apply safe_ok].
    apply IH; lia.
Qed.
Lemma decode_fqdn_safe b : safe (decode_fqdn b).
Proof. unfold decode_fqdn. apply safe_bind; [apply decode_fqdn_loop_safe; lia|intros; apply safe_ok]. Qed.
