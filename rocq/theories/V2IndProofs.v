(** Proofs about V2Ind.v. *)
From Coq Require Import String.
From Verif Require Import Base BaseLemmas V2IE V2IESpec V2IEProofs V2Codec V2Ind CodecSpec CodecSpec2 V2CodecProofs V2CodecProofs5.
Open Scope string_scope.
Open Scope N_scope.
Open Scope list_scope.

(** the accessor called [ind_flags[k]] looks where the specification puts flag [k] *)
Definition place (k : nat) : nat * nat * N := (S (k / 8), (k / 8)%nat, N.of_nat (7 - k mod 8)).
Definition place_eqb (a b : nat * nat * N) : bool :=
  let '(x, y, z) := a in let '(x', y', z') := b in (Nat.eqb x x' && Nat.eqb y y' && N.eqb z z')%bool.
Lemma places : forallb (fun k => let n := nth k ind_flags "" in
    (String.eqb n "" ||
     match find (fun e => String.eqb (fst e) n) ind_has with Some e => place_eqb (snd e) (place k) | None => false end)%bool)
  (seq 0 72) = true.
Proof. vm_compute. reflexivity. Qed.
Lemma place_eqb_eq a b : place_eqb a b = true -> a = b.
Proof.
  destruct a as [[x y] z], b as [[x' y'] z']. cbn. intros H.
  apply andb_prop in H. destruct H as [H Hz]. apply andb_prop in H. destruct H as [Hx Hy].
  apply Nat.eqb_eq in Hx, Hy. apply N.eqb_eq in Hz. congruence.
Qed.
Lemma has_ind_spec n k i : nth_error ind_flags k = Some n -> n <> "" -> i2_type i = 77 ->
  has_ind n i = Some (Ok (flag_at k (i2_payload i))).
Proof.
  intros Hk Hn Ht.
  assert (Hl : (k < 72)%nat) by (change 72%nat with (List.length ind_flags); apply nth_error_Some; congruence).
  pose proof (proj1 (forallb_forall _ _) places k) as P. cbv beta zeta in P.
  rewrite (nth_error_nth _ _ "" Hk) in P. specialize (P (proj2 (in_seq _ _ _) (conj (Nat.le_0_l _) Hl))).
  destruct (String.eqb_spec n ""); [contradiction|]. cbn [orb] in P.
  unfold has_ind. destruct (find (fun e => String.eqb (fst e) n) ind_has) as [e|]; [|discriminate].
  apply place_eqb_eq in P. rewrite P. unfold has_of, place, acc_indication, typed. rewrite Ht. change (77 =? 77) with true. cbv iota.
  unfold flag_at. f_equal. destruct (Nat.ltb_spec (len (i2_payload i)) (S (k / 8))) as [L|L].
  - rewrite (proj2 (nth_error_None _ _)) by lia. reflexivity.
  - unfold idx. destruct (nth_error (i2_payload i) (k / 8)) eqn:E; [|apply nth_error_None in E; lia].
    cbn [bind]. rewrite hasbit_testbit. reflexivity.
Qed.
Lemma has_ind_names : map fst ind_has <> [] /\ Forall (fun e => In (fst e) ind_flags /\ fst e <> "") ind_has.
Proof.
  split; [discriminate|]. apply Forall_forall. intros e He.
  assert (B : forallb (fun e => existsb (String.eqb (fst e)) ind_flags && negb (String.eqb (fst e) "")) ind_has = true) by (vm_compute; reflexivity).
  rewrite forallb_forall in B. specialize (B e He). apply andb_prop in B. destruct B as [B1 B2].
  apply existsb_exists in B1. destruct B1 as (x & Hx & E). apply String.eqb_eq in E. split; [congruence|].
  destruct (String.eqb_spec (fst e) ""); [discriminate|assumption].
Qed.

(** ** The constructors *)
Lemma octet_up a b c d e f g h : a < 2 -> b < 2 -> c < 2 -> d < 2 -> e < 2 -> f < 2 -> g < 2 -> h < 2 ->
  N.lor (N.lor (N.lor (N.lor (N.lor (N.lor (N.lor (N.lor 0 (u8 (N.shiftl h 0))) (u8 (N.shiftl g 1))) (u8 (N.shiftl f 2))) (u8 (N.shiftl e 3)))
    (u8 (N.shiftl d 4))) (u8 (N.shiftl c 5))) (u8 (N.shiftl b 6))) (u8 (N.shiftl a 7))
  = 128 * a + 64 * b + 32 * c + 16 * d + 8 * e + 4 * f + 2 * g + h.
Proof. intros. two a; two b; two c; two d; two e; two f; two g; two h; reflexivity. Qed.
Lemma octet_down a b c d e f g h : a < 2 -> b < 2 -> c < 2 -> d < 2 -> e < 2 -> f < 2 -> g < 2 -> h < 2 ->
  N.lor (N.lor (N.lor (N.lor (N.lor (N.lor (N.lor (N.lor 0 (u8 (N.shiftl a 7))) (u8 (N.shiftl b 6))) (u8 (N.shiftl c 5))) (u8 (N.shiftl d 4)))
    (u8 (N.shiftl e 3))) (u8 (N.shiftl f 2))) (u8 (N.shiftl g 1))) (u8 (N.shiftl h 0))
  = 128 * a + 64 * b + 32 * c + 16 * d + 8 * e + 4 * f + 2 * g + h.
Proof. intros. two a; two b; two c; two d; two e; two f; two g; two h; reflexivity. Qed.
Ltac eight_more l H := do 8 (let x := fresh "x" in destruct l as [|x l]; [discriminate H|]).
Lemma puts_pack args : List.length args = 72%nat -> Forall (fun a => a < 2) args ->
  ind_put_all args ind_puts (zeros 9) = Ok (pack args).
Proof.
  intros Hl Ha. do 9 eight_more args Hl. destruct args; [|discriminate Hl].
  rewrite !Forall_cons_iff in Ha. decompose [and] Ha. clear Ha Hl.
  cbv -[N.lor N.shiftl u8 N.add N.mul].
  rewrite !octet_up by assumption. reflexivity.
Qed.
Fixpoint put_bits (i : nat) (args : list N) (b : bytes) : res (option bytes) :=
  match args with
  | [] => Ok (Some b)
  | a :: r =>
      do old <- idx b (i / 8);
      do b <- set_idx b (i / 8) (N.lor old (u8 (N.shiftl a (N.of_nat (8 * (i / 8 + 1) - i - 1)))));
      put_bits (S i) r b
  end.
Lemma ind_bits_digits args : Forall (fun a => a < 2) args -> forall i b,
  ind_bits i (map (fun a => 48 + a) args) b = put_bits i args b.
Proof.
  induction 1 as [|a r Ha Hr IH]; intros i b; [reflexivity|]. cbn [map ind_bits put_bits].
  replace (atoi1 (48 + a)) with (Some a) by (two a; reflexivity).
  replace (if 1 <? a then 1 else a) with a by (two a; reflexivity).
  destruct (idx b (i / 8)); cbn [bind]; try reflexivity.
  destruct (set_idx b (i / 8) _); cbn [bind]; try reflexivity. apply IH.
Qed.
Lemma put_bits_pack args : List.length args = 72%nat -> Forall (fun a => a < 2) args ->
  put_bits 0 args (zeros 9) = Ok (Some (pack args)).
Proof.
  intros Hl Ha. do 9 eight_more args Hl. destruct args; [|discriminate Hl].
  rewrite !Forall_cons_iff in Ha. decompose [and] Ha. clear Ha Hl.
  cbv -[N.lor N.shiftl u8 N.add N.mul].
  rewrite !octet_down by assumption. reflexivity.
Qed.
Lemma pack_ok args : Forall (fun a => a < 2) args -> bytes_ok (pack args).
Proof.
  revert args. fix IH 1. intros args H.
  do 8 (destruct args as [|? args]; [constructor|]). cbn [pack].
  do 8 (let E := fresh in apply Forall_cons_iff in H; destruct H as [E H]).
  constructor; [unfold is_byte; lia|]. apply IH, H.
Qed.
Lemma pack_len args : List.length args = 72%nat -> len (pack args) = 9%nat.
Proof. intros Hl. do 9 eight_more args Hl. destruct args; [|discriminate Hl]. reflexivity. Qed.
Lemma octet_bits a b c d e f g h : a < 2 -> b < 2 -> c < 2 -> d < 2 -> e < 2 -> f < 2 -> g < 2 -> h < 2 ->
  let x := 128 * a + 64 * b + 32 * c + 16 * d + 8 * e + 4 * f + 2 * g + h in
  N.testbit x 7 = (a =? 1) /\ N.testbit x 6 = (b =? 1) /\ N.testbit x 5 = (c =? 1) /\ N.testbit x 4 = (d =? 1) /\
  N.testbit x 3 = (e =? 1) /\ N.testbit x 2 = (f =? 1) /\ N.testbit x 1 = (g =? 1) /\ N.testbit x 0 = (h =? 1).
Proof. intros. unfold x. two a; two b; two c; two d; two e; two f; two g; two h; repeat split; reflexivity. Qed.
Lemma div8 k : ((8 + k) / 8 = S (k / 8) /\ (8 + k) mod 8 = k mod 8)%nat.
Proof.
  replace (8 + k)%nat with (k + 1 * 8)%nat by lia. split; [rewrite Nat.div_add by lia; lia|apply Nat.mod_add; lia].
Qed.
Lemma pack_flag m args : List.length args = (8 * m)%nat -> Forall (fun a => a < 2) args ->
  forall k, (k < 8 * m)%nat -> flag_at k (pack args) = (nth k args 0 =? 1).
Proof.
  revert args. induction m as [|m IH]; intros args Hl Ha k Hk; [lia|].
  do 8 (destruct args as [|? args]; [cbn in Hl; lia|]). cbn [pack].
  do 8 (let E := fresh in apply Forall_cons_iff in Ha; destruct Ha as [E Ha]).
  destruct (Nat.ltb_spec k 8) as [L|L].
  - destruct (octet_bits n n0 n1 n2 n3 n4 n5 n6) as (B7 & B6 & B5 & B4 & B3 & B2 & B1 & B0); try assumption.
    do 8 (destruct k as [|k]; [assumption|]). lia.
  - replace k with (8 + (k - 8))%nat by lia. set (k' := (k - 8)%nat). 
    change (nth (8 + k') _ 0) with (nth k' args 0).
    rewrite <- (IH args) by (cbn in Hl; try assumption; lia).
    unfold flag_at. destruct (div8 k') as [-> ->].
    reflexivity.
Qed.

Section G.
Context (g : N -> bool).
Lemma indication_all args : List.length args = 72%nat -> Forall (fun a => a < 2) args ->
  exists i, new_indication g args = Ok i /\ made g (Ok (Some i)) 77 (pack args) i /\
    acc_indication i = Ok (pack args) /\
    new_indication_bits g (map (fun a => 48 + a) args) = Ok (Some i) /\
    new_indication_octets g (pack args) = i /\
    forall n k, nth_error ind_flags k = Some n -> n <> "" -> has_ind n i = Some (Ok (nth k args 0 =? 1)).
Proof.
  intros Hl Ha. exists (new2 g 77 0 (pack args)).
  pose proof (pack_len args Hl) as L.
  assert (Ei : forall p, len p = 9%nat -> IE2 77 (i2_length (new2 g 77 0 (zeros 9))) (i2_instance (new2 g 77 0 (zeros 9))) p
      (i2_children (new2 g 77 0 (zeros 9))) = new2 g 77 0 p).
  { intros p Lp. unfold new2, set_length2. cbn [i2_type i2_payload i2_length i2_instance i2_children i2_inst].
    rewrite !Lp, len_zeros. destruct (g 77); reflexivity. }
  split; [|split; [|split; [|split; [|split]]]].
  - unfold new_indication. change (i2_payload (new2 g 77 0 (zeros 9))) with (zeros 9). rewrite puts_pack by assumption. cbn [bind].
    f_equal. apply Ei, L.
  - apply new2_made; [lia|apply pack_ok, Ha|rewrite L; lia].
  - reflexivity.
  - unfold new_indication_bits. rewrite map_length, Hl. change (negb (72 =? 72)%nat) with false. cbv iota.
    change (i2_payload (new2 g 77 0 (zeros 9))) with (zeros 9).
    rewrite ind_bits_digits, put_bits_pack by assumption. cbn [bind]. f_equal. f_equal. apply Ei, L.
  - unfold new_indication_octets. rewrite firstn_all2 by lia. reflexivity.
  - intros n k Hk Hn. rewrite (has_ind_spec n k) by (auto; reflexivity).
    cbn [new2 set_length2 i2_payload]. do 2 f_equal. apply (pack_flag 9); try assumption.
    change (8 * 9)%nat with (List.length ind_flags). apply nth_error_Some. congruence.
Qed.
End G.
