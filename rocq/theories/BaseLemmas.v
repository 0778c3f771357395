(** Lemmas about the base operations and the tactics used everywhere. *)
From Verif Require Import Base.
From Coq Require Export Lia ZifyBool ZifyNat ZifyN.
Ltac Zify.zify_post_hook ::= Z.div_mod_to_equations.

Arguments N.mul : simpl never.
Arguments N.add : simpl never.
Arguments N.sub : simpl never.
Arguments N.div : simpl never.
Arguments N.modulo : simpl never.
Arguments N.land : simpl never.
Arguments N.lor : simpl never.
Arguments N.shiftl : simpl never.
Arguments N.shiftr : simpl never.
Arguments N.eqb : simpl never.
Arguments N.ltb : simpl never.
Arguments N.leb : simpl never.
Arguments N.to_nat : simpl never.
Arguments N.of_nat : simpl never.
Arguments N.testbit : simpl never.
Arguments N.pow : simpl never.

(** ** Outcomes *)
Definition safe {A} (r : res A) : Prop := r <> Panic.

Lemma safe_ok {A} (a : A) : safe (Ok a).
Proof. discriminate. Qed.
Lemma safe_err {A} e : safe (@Err A e).
Proof. discriminate. Qed.
Lemma safe_bind {A B} (r : res A) (f : A -> res B) :
  safe r -> (forall x, r = Ok x -> safe (f x)) -> safe (bind r f).
Proof. destruct r; simpl; intros H Hf; [apply Hf; reflexivity|discriminate|contradiction]. Qed.

Lemma bind_ok_inv {A B} (r : res A) (f : A -> res B) y :
  bind r f = Ok y -> exists x, r = Ok x /\ f x = Ok y.
Proof. destruct r; simpl; intros H; try discriminate. eauto. Qed.

Lemma bind_assoc {A B C} (r : res A) (f : A -> res B) (g : B -> res C) :
  bind (bind r f) g = bind r (fun x => bind (f x) g).
Proof. destruct r; reflexivity. Qed.

(** ** Lists *)
Lemma skipn_app_exact {A} (a b : list A) n : n = List.length a -> skipn n (a ++ b) = b.
Proof. intros ->. rewrite skipn_app, skipn_all, Nat.sub_diag. reflexivity. Qed.
Lemma firstn_app_exact {A} (a b : list A) n : n = List.length a -> firstn n (a ++ b) = a.
Proof. intros ->. rewrite firstn_app, firstn_all, Nat.sub_diag. simpl. apply app_nil_r. Qed.
Lemma skipn_skipn' {A} (l : list A) i j : skipn i (skipn j l) = skipn (j + i) l.
Proof.
  revert l; induction j as [|j IH]; intros l; simpl; [reflexivity|].
  destruct l; simpl; [destruct i; reflexivity|apply IH].
Qed.
Lemma firstn_skipn_app {A} (l : list A) i : firstn i l ++ skipn i l = l.
Proof. apply firstn_skipn. Qed.
Lemma len_firstn {A} (l : list A) n : (n <= List.length l)%nat -> List.length (firstn n l) = n.
Proof. apply firstn_length_le. Qed.
Lemma len_skipn {A} (l : list A) n : List.length (skipn n l) = (List.length l - n)%nat.
Proof. apply skipn_length. Qed.
Lemma firstn_plus {A} (l : list A) a b :
  firstn (a + b) l = firstn a l ++ firstn b (skipn a l).
Proof.
  revert l; induction a as [|a IH]; intros l; simpl; [reflexivity|].
  destruct l; simpl; [destruct b; reflexivity|]. rewrite IH. reflexivity.
Qed.
Lemma skipn_nil' {A} n : skipn n (@nil A) = [].
Proof. destruct n; reflexivity. Qed.

(** ** Byte strings *)
Lemma bytes_ok_nil : bytes_ok []. Proof. constructor. Qed.
Lemma bytes_ok_cons x b : is_byte x -> bytes_ok b -> bytes_ok (x :: b).
Proof. constructor; assumption. Qed.
Lemma bytes_ok_app a b : bytes_ok a -> bytes_ok b -> bytes_ok (a ++ b).
Proof. intros; apply Forall_app; split; assumption. Qed.
Lemma bytes_ok_app_inv a b : bytes_ok (a ++ b) -> bytes_ok a /\ bytes_ok b.
Proof. apply Forall_app. Qed.
Lemma bytes_ok_firstn n b : bytes_ok b -> bytes_ok (firstn n b).
Proof. intros H; revert n; induction H; intros [|n]; simpl; constructor; auto; apply IHForall. Qed.
Lemma bytes_ok_skipn n b : bytes_ok b -> bytes_ok (skipn n b).
Proof. intros H; revert n; induction H; intros [|n]; simpl; try constructor; auto; apply IHForall. Qed.
Lemma bytes_ok_zeros n : bytes_ok (zeros n).
Proof. induction n; constructor; [unfold is_byte; lia|assumption]. Qed.
Lemma bytes_ok_In b x : bytes_ok b -> In x b -> x < 256.
Proof. intros H Hin. exact (proj1 (Forall_forall _ _) H _ Hin). Qed.
Lemma bytes_okb_ok b : bytes_okb b = true <-> bytes_ok b.
Proof.
  unfold bytes_okb, bytes_ok, is_byte. rewrite forallb_forall, Forall_forall.
  split; intros H x Hx; specialize (H x Hx); [apply N.ltb_lt|apply N.ltb_lt]; assumption.
Qed.
Lemma len_zeros n : len (zeros n) = n.
Proof. apply repeat_length. Qed.

(** ** idx / slice *)
Lemma idx_ok {A} (b : list A) i d : (i < List.length b)%nat -> idx b i = Ok (nth i b d).
Proof. intros H. unfold idx. rewrite (nth_error_nth' b d H). reflexivity. Qed.
Lemma safe_idx {A} (b : list A) i : (i < List.length b)%nat -> safe (idx b i).
Proof.
  intros H. unfold idx. destruct (nth_error b i) eqn:E; [discriminate|].
  apply nth_error_None in E. lia.
Qed.
Lemma idx_inv {A} (b : list A) i x : idx b i = Ok x -> nth_error b i = Some x.
Proof. unfold idx. destruct (nth_error b i); congruence. Qed.
Lemma idx_lt {A} (b : list A) i x : idx b i = Ok x -> (i < List.length b)%nat.
Proof. intros H. apply idx_inv in H. apply nth_error_Some. congruence. Qed.
Lemma idx_In {A} (b : list A) i x : idx b i = Ok x -> In x b.
Proof. intros H; apply idx_inv in H. eapply nth_error_In; eauto. Qed.
Lemma idx_byte b i x : bytes_ok b -> idx b i = Ok x -> x < 256.
Proof. intros Hb H. apply idx_In in H. eapply bytes_ok_In; eauto. Qed.

Lemma slice_ok {A} (b : list A) lo hi :
  (lo <= hi)%nat -> (hi <= List.length b)%nat -> slice b lo hi = Ok (firstn (hi - lo) (skipn lo b)).
Proof.
  intros H1 H2. unfold slice.
  rewrite (proj2 (Nat.leb_le _ _) H1), (proj2 (Nat.leb_le _ _) H2). reflexivity.
Qed.
Lemma slice_inv {A} (b : list A) lo hi s :
  slice b lo hi = Ok s ->
  (lo <= hi)%nat /\ (hi <= List.length b)%nat /\ s = firstn (hi - lo) (skipn lo b)
  /\ List.length s = (hi - lo)%nat.
Proof.
  unfold slice. destruct ((lo <=? hi)%nat && (hi <=? List.length b)%nat) eqn:E; [|discriminate].
  intros H; injection H as <-. apply andb_prop in E. destruct E as [E1 E2].
  apply Nat.leb_le in E1. apply Nat.leb_le in E2.
  repeat split; auto. rewrite firstn_length, skipn_length. lia.
Qed.
Lemma slice_len {A} (b : list A) lo hi s : slice b lo hi = Ok s -> List.length s = (hi - lo)%nat.
Proof. intros H; apply slice_inv in H; tauto. Qed.
Lemma safe_slice {A} (b : list A) lo hi :
  (lo <= hi)%nat -> (hi <= List.length b)%nat -> safe (slice b lo hi).
Proof. intros; rewrite slice_ok by assumption; discriminate. Qed.
Lemma slice_bytes_ok b lo hi s : bytes_ok b -> slice b lo hi = Ok s -> bytes_ok s.
Proof.
  intros Hb H; apply slice_inv in H. destruct H as (_ & _ & -> & _).
  apply bytes_ok_firstn, bytes_ok_skipn, Hb.
Qed.

Lemma slice_from_ok {A} (b : list A) lo : (lo <= List.length b)%nat -> slice_from b lo = Ok (skipn lo b).
Proof. intros H. unfold slice_from. rewrite (proj2 (Nat.leb_le _ _) H). reflexivity. Qed.
Lemma slice_from_inv {A} (b : list A) lo s :
  slice_from b lo = Ok s ->
  (lo <= List.length b)%nat /\ s = skipn lo b /\ List.length s = (List.length b - lo)%nat.
Proof.
  unfold slice_from. destruct (lo <=? List.length b)%nat eqn:E; [|discriminate].
  intros H; injection H as <-. apply Nat.leb_le in E. repeat split; auto. apply skipn_length.
Qed.
Lemma safe_slice_from {A} (b : list A) lo : (lo <= List.length b)%nat -> safe (slice_from b lo).
Proof. intros; rewrite slice_from_ok by assumption; discriminate. Qed.
Lemma slice_from_bytes_ok b lo s : bytes_ok b -> slice_from b lo = Ok s -> bytes_ok s.
Proof. intros Hb H; apply slice_from_inv in H. destruct H as (_ & -> & _). apply bytes_ok_skipn, Hb. Qed.

(** Reading back what was appended *)
Lemma idx_app_l {A} (a b : list A) i : (i < List.length a)%nat -> idx (a ++ b) i = idx a i.
Proof. intros H; unfold idx. rewrite nth_error_app1 by assumption. reflexivity. Qed.
Lemma idx_app_r {A} (a b : list A) i :
  (List.length a <= i)%nat -> idx (a ++ b) i = idx b (i - List.length a).
Proof. intros H; unfold idx. rewrite nth_error_app2 by assumption. reflexivity. Qed.
Lemma slice_mid {A} (p m q : list A) lo hi :
  lo = List.length p -> hi = (List.length p + List.length m)%nat -> slice (p ++ m ++ q) lo hi = Ok m.
Proof.
  intros -> ->. rewrite slice_ok; [|lia|rewrite !app_length; lia].
  rewrite skipn_app_exact by reflexivity.
  replace (List.length p + List.length m - List.length p)%nat with (List.length m) by lia.
  rewrite firstn_app_exact; reflexivity.
Qed.
Lemma slice_from_app {A} (p q : list A) lo : lo = List.length p -> slice_from (p ++ q) lo = Ok q.
Proof.
  intros ->. rewrite slice_from_ok by (rewrite app_length; lia).
  rewrite skipn_app_exact; reflexivity.
Qed.

(** ** Integers *)
Lemma enc16_len v : len (enc16 v) = 2%nat. Proof. reflexivity. Qed.
Lemma enc24_len v : len (enc24 v) = 3%nat. Proof. reflexivity. Qed.
Lemma enc32_len v : len (enc32 v) = 4%nat. Proof. reflexivity. Qed.
Lemma enc40_len v : len (enc40 v) = 5%nat. Proof. reflexivity. Qed.
Lemma enc64_len v : len (enc64 v) = 8%nat. Proof. reflexivity. Qed.

Lemma mod256_byte v : is_byte (v mod 256).
Proof. unfold is_byte. apply N.mod_lt. discriminate. Qed.
Lemma enc16_ok v : bytes_ok (enc16 v).
Proof. repeat constructor; apply mod256_byte. Qed.
Lemma enc24_ok v : bytes_ok (enc24 v).
Proof. repeat constructor; apply mod256_byte. Qed.
Lemma enc32_ok v : bytes_ok (enc32 v).
Proof. repeat constructor; apply mod256_byte. Qed.
Lemma enc40_ok v : bytes_ok (enc40 v).
Proof. repeat constructor; apply mod256_byte. Qed.
Lemma enc64_ok v : bytes_ok (enc64 v).
Proof. apply bytes_ok_app; apply enc32_ok. Qed.

Lemma be16_enc v q : v < 65536 -> be16 (enc16 v ++ q) = Ok v.
Proof. intros H. simpl. f_equal. lia. Qed.
Lemma be16_enc' v : v < 65536 -> be16 (enc16 v) = Ok v.
Proof. intros H. rewrite <- (app_nil_r (enc16 v)). apply be16_enc, H. Qed.
Lemma be32_enc v q : v < 4294967296 -> be32 (enc32 v ++ q) = Ok v.
Proof. intros H. simpl. f_equal. lia. Qed.
Lemma be32_enc' v : v < 4294967296 -> be32 (enc32 v) = Ok v.
Proof. intros H. rewrite <- (app_nil_r (enc32 v)). apply be32_enc, H. Qed.
Lemma be64_enc v q : v < 18446744073709551616 -> be64 (enc64 v ++ q) = Ok v.
Proof.
  intros H. unfold enc64, enc32.
  set (h := v / 4294967296). set (l := v mod 4294967296).
  assert (Hh : h < 4294967296) by (unfold h; apply N.div_lt_upper_bound; lia).
  assert (Hl : l < 4294967296) by (unfold l; apply N.mod_lt; discriminate).
  assert (Hv : v = h * 4294967296 + l).
  { unfold h, l. rewrite N.mul_comm. apply N.div_mod. discriminate. }
  clearbody h l. simpl. f_equal. rewrite Hv. f_equal; [f_equal|]; lia.
Qed.
Lemma be64_enc' v : v < 18446744073709551616 -> be64 (enc64 v) = Ok v.
Proof. intros H. rewrite <- (app_nil_r (enc64 v)). apply be64_enc, H. Qed.

Lemma enc16_be a b : is_byte a -> is_byte b -> enc16 (a * 256 + b) = [a; b].
Proof. unfold is_byte, enc16. intros. f_equal; [|f_equal]; lia. Qed.
Lemma enc32_be a b c d : is_byte a -> is_byte b -> is_byte c -> is_byte d ->
  enc32 (a * 16777216 + b * 65536 + c * 256 + d) = [a; b; c; d].
Proof. unfold is_byte, enc32. intros. repeat f_equal; lia. Qed.
Lemma enc24_be a b c : is_byte a -> is_byte b -> is_byte c ->
  enc24 (a * 65536 + b * 256 + c) = [a; b; c].
Proof. unfold is_byte, enc24. intros. repeat f_equal; lia. Qed.

Lemma safe_be16 s : (2 <= len s)%nat -> safe (be16 s).
Proof. destruct s as [|a [|b s]]; simpl; intros; try lia; discriminate. Qed.
Lemma safe_be32 s : (4 <= len s)%nat -> safe (be32 s).
Proof. destruct s as [|a [|b [|c [|d s]]]]; simpl; intros; try lia; discriminate. Qed.
Lemma safe_be64 s : (8 <= len s)%nat -> safe (be64 s).
Proof. destruct s as [|a [|b [|c [|d [|e [|f [|g [|h s]]]]]]]]; simpl; intros; try lia; discriminate. Qed.
Lemma be16_lt s v : bytes_ok s -> be16 s = Ok v -> v < 65536.
Proof.
  destruct s as [|a [|b s]]; simpl; try discriminate. intros Hb H; injection H as <-.
  inversion Hb as [|? ? Ha Hb']; inversion Hb' as [|? ? Hb1 ?]; unfold is_byte in *; lia.
Qed.
Lemma be32_lt s v : bytes_ok s -> be32 s = Ok v -> v < 4294967296.
Proof.
  destruct s as [|a [|b [|c [|d s]]]]; simpl; try discriminate. intros Hb H; injection H as <-.
  repeat match goal with H : bytes_ok (_ :: _) |- _ => inversion H; clear H; subst
                       | H : Forall _ (_ :: _) |- _ => inversion H; clear H; subst end.
  unfold is_byte in *; lia.
Qed.

Lemma be16_inv s v : be16 s = Ok v -> exists a b r, s = a :: b :: r /\ v = a * 256 + b.
Proof. destruct s as [|a [|b r]]; simpl; try discriminate. intros H; injection H as <-. eauto 6. Qed.
Lemma be32_inv s v : be32 s = Ok v ->
  exists a b c d r, s = a :: b :: c :: d :: r /\ v = a * 16777216 + b * 65536 + c * 256 + d.
Proof. destruct s as [|a [|b [|c [|d r]]]]; simpl; try discriminate. intros H; injection H as <-. eauto 9. Qed.

(** ** Writers.  [writes f n out]: on any buffer of at least n bytes, f replaces
    the first n bytes by out and leaves the rest alone. *)
Definition writes (f : bytes -> res bytes) (out : bytes) : Prop :=
  forall b, (len out <= len b)%nat -> f b = Ok (out ++ skipn (len out) b).

Lemma writes_zeros f out : writes f out -> f (zeros (len out)) = Ok out.
Proof.
  intros H. rewrite H by (rewrite len_zeros; lia).
  rewrite skipn_all2 by (rewrite len_zeros; lia). rewrite app_nil_r. reflexivity.
Qed.

Lemma on_slice_from_writes f out done b :
  writes f out -> (len done + len out <= len b)%nat ->
  on_slice_from (done ++ skipn (len done) b) (len done) f
  = Ok ((done ++ out) ++ skipn (len (done ++ out)) b).
Proof.
  intros Hf Hl. unfold on_slice_from, on_slice.
  set (B := done ++ skipn (len done) b).
  assert (HB : len B = len b) by (unfold B; rewrite app_length, skipn_length; lia).
  rewrite slice_ok by lia. simpl bind at 1.
  replace (skipn (len done) B) with (skipn (len done) b) by (unfold B; rewrite skipn_app_exact; reflexivity).
  rewrite firstn_all2 by (rewrite skipn_length; lia).
  rewrite Hf by (rewrite skipn_length; lia). simpl.
  rewrite (skipn_all2 B) by lia. rewrite app_nil_r.
  unfold B. rewrite firstn_app_exact by reflexivity.
  rewrite skipn_skipn', app_length, <- app_assoc. reflexivity.
Qed.

Lemma on_slice_writes f out done b hi :
  writes f out -> hi = (len done + len out)%nat -> (hi <= len b)%nat ->
  on_slice (done ++ skipn (len done) b) (len done) hi f
  = Ok ((done ++ out) ++ skipn (len (done ++ out)) b).
Proof.
  intros Hf -> Hl. unfold on_slice.
  set (B := done ++ skipn (len done) b).
  assert (HB : len B = len b) by (unfold B; rewrite app_length, skipn_length; lia).
  rewrite slice_ok by lia. simpl bind at 1.
  replace (skipn (len done) B) with (skipn (len done) b) by (unfold B; rewrite skipn_app_exact; reflexivity).
  rewrite Hf by (rewrite firstn_length, skipn_length; lia). simpl.
  rewrite (skipn_all2 (firstn _ _)) by (rewrite firstn_length; lia). rewrite app_nil_r.
  replace (skipn (len done + len out) B) with (skipn (len done + len out) b).
  2:{ unfold B. rewrite skipn_app. rewrite (skipn_all2 done) by lia. simpl.
      rewrite skipn_skipn'. f_equal. lia. }
  unfold B. rewrite firstn_app_exact by reflexivity.
  rewrite app_length, <- app_assoc. reflexivity.
Qed.

Lemma go_copy_writes src : writes (fun s => Ok (go_copy s src)) src.
Proof.
  intros b Hb. unfold go_copy. rewrite firstn_all2 by assumption. reflexivity.
Qed.
Lemma put16_writes v : writes (put16 v) (enc16 v).
Proof. intros b Hb. rewrite enc16_len in *. unfold put16. rewrite (proj2 (Nat.leb_le _ _) Hb). reflexivity. Qed.
Lemma put32_writes v : writes (put32 v) (enc32 v).
Proof. intros b Hb. rewrite enc32_len in *. unfold put32. rewrite (proj2 (Nat.leb_le _ _) Hb). reflexivity. Qed.
Lemma put64_writes v : writes (put64 v) (enc64 v).
Proof. intros b Hb. rewrite enc64_len in *. unfold put64. rewrite (proj2 (Nat.leb_le _ _) Hb). reflexivity. Qed.

Lemma set_idx_writes v done b :
  (len done + 1 <= len b)%nat ->
  set_idx (done ++ skipn (len done) b) (len done) v
  = Ok ((done ++ [v]) ++ skipn (len (done ++ [v])) b).
Proof.
  intros Hl. unfold set_idx.
  set (B := done ++ skipn (len done) b).
  assert (HB : len B = len b) by (unfold B; rewrite app_length, skipn_length; lia).
  rewrite (proj2 (Nat.ltb_lt _ _)) by lia. f_equal.
  unfold B. rewrite firstn_app_exact by reflexivity.
  rewrite skipn_app. rewrite (skipn_all2 done) by lia.
  rewrite skipn_skipn', app_length, <- app_assoc. cbn [app List.length].
  replace (len done + (S (len done) - len done))%nat with (len done + 1)%nat by lia. reflexivity.
Qed.

(** ** Bits of bytes by exhaustive sweep *)
Definition all_bytes : list N := map N.of_nat (seq 0 256).
Lemma all_bytes_complete x : x < 256 -> In x all_bytes.
Proof.
  intros H. unfold all_bytes. apply in_map_iff. exists (N.to_nat x). split; [apply N2Nat.id|].
  apply in_seq. lia.
Qed.
Lemma byte_sweep (P : N -> bool) : forallb P all_bytes = true -> forall x, x < 256 -> P x = true.
Proof. intros H x Hx. rewrite forallb_forall in H. apply H, all_bytes_complete, Hx. Qed.
Lemma byte_sweep2 (P : N -> N -> bool) :
  forallb (fun x => forallb (P x) all_bytes) all_bytes = true ->
  forall x y, x < 256 -> y < 256 -> P x y = true.
Proof.
  intros H x y Hx Hy. rewrite forallb_forall in H.
  specialize (H x (all_bytes_complete x Hx)). rewrite forallb_forall in H.
  apply H, all_bytes_complete, Hy.
Qed.
Definition below (n : nat) : list N := map N.of_nat (seq 0 n).
Lemma below_complete n x : x < N.of_nat n -> In x (below n).
Proof.
  intros H. unfold below. apply in_map_iff. exists (N.to_nat x). split; [apply N2Nat.id|].
  apply in_seq. lia.
Qed.
Lemma below_sweep n (P : N -> bool) : forallb P (below n) = true -> forall x, x < N.of_nat n -> P x = true.
Proof. intros H x Hx. rewrite forallb_forall in H. apply H, below_complete, Hx. Qed.

Lemma land_byte x m : x < 256 -> N.land x m < 256.
Proof.
  intros H. destruct (N.eq_dec (N.land x m) 0) as [->|Hn]; [lia|].
  apply N.log2_lt_pow2 with (b := 8); [lia|].
  eapply N.le_lt_trans; [apply N.log2_land|].
  apply N.min_lt_iff. left.
  destruct (N.eq_dec x 0) as [->|Hx]; [reflexivity|]. apply N.log2_lt_pow2; [lia|assumption].
Qed.
Lemma lor_bound n x y : x < 2 ^ n -> y < 2 ^ n -> N.lor x y < 2 ^ n.
Proof.
  intros Hx Hy. destruct (N.eq_dec (N.lor x y) 0) as [->|Hn].
  { apply N.neq_0_lt_0. apply N.pow_nonzero. discriminate. }
  destruct (N.eq_dec n 0) as [->|Hn0].
  { change (2 ^ 0) with 1 in *. assert (x = 0) by lia. assert (y = 0) by lia. subst. exfalso; apply Hn; reflexivity. }
  apply N.log2_lt_pow2; [lia|]. rewrite N.log2_lor. apply N.max_lub_lt.
  - destruct (N.eq_dec x 0) as [->|]; [simpl; lia|]. apply N.log2_lt_pow2; [lia|assumption].
  - destruct (N.eq_dec y 0) as [->|]; [simpl; lia|]. apply N.log2_lt_pow2; [lia|assumption].
Qed.
Lemma lor_byte x y : x < 256 -> y < 256 -> N.lor x y < 256.
Proof. apply (lor_bound 8). Qed.

(** ** Tactics *)
Ltac inv H := inversion H; clear H; subst.

(** Facts about the results of slices are added once, as length equations. *)
Ltac slice_facts :=
  repeat match goal with
  | H : slice ?b ?lo ?hi = Ok ?s |- _ =>
      match goal with
      | _ : List.length s = (hi - lo)%nat |- _ => fail 1
      | _ => pose proof (slice_len _ _ _ _ H)
      end
  | H : slice_from ?b ?lo = Ok ?s |- _ =>
      match goal with
      | _ : List.length s = (List.length b - lo)%nat |- _ => fail 1
      | _ => pose proof (proj2 (proj2 (slice_from_inv _ _ _ H)))
      end
  | H : idx ?b ?i = Ok ?x |- _ =>
      match goal with
      | _ : (i < List.length b)%nat |- _ => fail 1
      | _ => pose proof (idx_lt _ _ _ H)
      end
  end.

Ltac safe_step :=
  match goal with
  | |- safe (Ok _) => apply safe_ok
  | |- safe (Err _) => apply safe_err
  | |- safe (bind _ _) =>
      apply safe_bind; [|let x := fresh "x" in let H := fresh "Hx" in intros x H]
  | |- safe (if ?c then _ else _) => let E := fresh "E" in destruct c eqn:E
  | |- safe (match ?c with _ => _ end) => let E := fresh "E" in destruct c eqn:E
  | |- safe (let _ := _ in _) => cbv zeta
  | |- safe (idx _ _) => apply safe_idx; slice_facts; lia
  | |- safe (slice _ _ _) => apply safe_slice; slice_facts; lia
  | |- safe (slice_from _ _) => apply safe_slice_from; slice_facts; lia
  | |- safe (be16 _) => apply safe_be16; slice_facts; lia
  | |- safe (be32 _) => apply safe_be32; slice_facts; lia
  | |- safe (be64 _) => apply safe_be64; slice_facts; lia
  end.
Ltac safe_tac := repeat (safe_step || assumption).
