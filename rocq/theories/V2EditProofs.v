(** Grouped IE editing and layout facts used by the property files. *)
From Coq Require Import Lia ZifyBool.
From Verif Require Import Base BaseLemmas Utils UtilsProofs V2IE V2IESpec V2IEProofs Spec.

(** one user-level edit *)
Definition apply_edit (g : N -> bool) (i : ie2) (e : edit) : res ie2 :=
  match e with EAdd ies => add2 g i ies | ERemove t n => remove2 g i t n end.
Fixpoint apply_edits (g : N -> bool) (i : ie2) (es : list edit) : res ie2 :=
  match es with [] => Ok i | e :: r => do j <- apply_edit g i e; apply_edits g j r end.

Lemma inst_mod x : i2_instance x = i2_inst x mod 16.
Proof. unfold i2_instance. change 15 with (N.ones 4). rewrite N.land_ones. reflexivity. Qed.
Lemma keep_edit typ ins c : filter (keep typ ins) c = filter (fun x => negb ((i2_type x =? typ) && (i2_inst x mod 16 =? ins))) c.
Proof. apply filter_ext. intros x. unfold keep. rewrite inst_mod. reflexivity. Qed.

Lemma edits_ok g t n es : g t = true -> forall l c, exists l',
  apply_edits g (IE2 t l n (flat_map (wire2 g) c) c) es
  = Ok (IE2 t l' n (flat_map (wire2 g) (fold_left edit_list es c)) (fold_left edit_list es c)) /\
  (es <> [] -> l' = N.of_nat (len (flat_map (wire2 g) (fold_left edit_list es c))) mod 65536).
Proof.
  intros Hg. induction es as [|e r IH]; intros l c; cbn [apply_edits fold_left].
  - exists l. split; [reflexivity|]. intros []; reflexivity.
  - assert (E : exists l1, apply_edit g (IE2 t l n (flat_map (wire2 g) c) c) e =
       Ok (IE2 t l1 n (flat_map (wire2 g) (edit_list c e)) (edit_list c e)) /\
       l1 = N.of_nat (len (flat_map (wire2 g) (edit_list c e))) mod 65536).
    { destruct e as [ies|typ ins]; cbn [apply_edit edit_list].
      - rewrite add2_ok by exact Hg. rewrite <- flat_map_app. eexists. split; reflexivity.
      - rewrite remove2_ok by exact Hg. cbv zeta. rewrite keep_edit. eexists. split; reflexivity. }
    destruct E as (l1 & -> & El). cbn [bind]. destruct (IH l1 (edit_list c e)) as (l' & E' & Hl'). exists l'.
    split; [exact E'|]. intros _. destruct r as [|e' r']; [|apply Hl'; discriminate].
    cbn [apply_edits fold_left] in *. injection E' as <-. exact El.
Qed.

Lemma find_ok g t l n p c typ ins : g t = true ->
  find2 g (IE2 t l n p c) typ ins =
  match filter (fun x => (i2_type x =? typ) && (i2_inst x mod 16 =? ins)) c with
  | x :: _ => Ok x | [] => Err EIENotFound end.
Proof.
  intros Hg. unfold find2. cbn [i2_type i2_children]. rewrite Hg. cbn [negb].
  induction c as [|x r IH]; cbn [find filter]; [reflexivity|]. rewrite inst_mod.
  destruct ((i2_type x =? typ) && (i2_inst x mod 16 =? ins)); [reflexivity|exact IH].
Qed.

(** ** PLMN, TBCD and label layouts *)
Lemma digit_is c : digit c <-> is_digit c. Proof. reflexivity. Qed.
Lemma lowhex_is c : lowhex c <-> is_lhex c. Proof. reflexivity. Qed.

Lemma plmn_layout mcc mnc : is_mcc mcc -> is_mnc mnc -> encode_plmn mcc mnc = Ok (plmn_octets mcc mnc).
Proof.
  intros [L1 D1] [L2 D2]. destruct (len3 _ L1) as (a & b & c & ->). inv D1. inv H2. inv H4. clear H5.
  destruct (digit_val a H1) as (va & Ha & ->). destruct (digit_val b H3) as (vb & Hb & ->). destruct (digit_val c H2) as (vc & Hc & ->).
  destruct L2 as [L2|L2].
  - destruct (len2 _ L2) as (x & y & ->). inv D2. inv H5. clear H7.
    destruct (digit_val x H4) as (vx & Hx & ->). destruct (digit_val y H6) as (vy & Hy & ->).
    rewrite encode_plmn_2 by assumption. unfold plmn2, plmn_octets. f_equal. repeat (f_equal; [lia|]). f_equal; lia.
  - destruct (len3 _ L2) as (x & y & z & ->). inv D2. inv H5. inv H7. clear H8.
    destruct (digit_val x H4) as (vx & Hx & ->). destruct (digit_val y H6) as (vy & Hy & ->). destruct (digit_val z H5) as (vz & Hz & ->).
    rewrite encode_plmn_3 by assumption. unfold plmn3, plmn_octets. f_equal. repeat (f_equal; [lia|]). f_equal; lia.
Qed.

Lemma hexval_value c : lowhex c -> hexval c = Some (hex_value c) /\ hex_value c < 16.
Proof. intros H. unfold hexval, hex_value. destruct H as [H|H].
  - rewrite (proj2 (N.leb_le 48 c)), (proj2 (N.leb_le c 57)), (proj2 (N.ltb_lt c 58)) by lia. cbn. split; [reflexivity|lia].
  - rewrite (proj2 (N.leb_gt c 57)), (proj2 (N.leb_le 97 c)), (proj2 (N.leb_le c 102)), (proj2 (N.ltb_ge c 58)) by lia.
    rewrite andb_false_r. cbn. split; [reflexivity|lia].
Qed.
Lemma tbcd_even_aux s : Forall lowhex s -> Nat.even (len s) = true -> exists raw, hex_decode s = Ok raw /\ swap raw = tbcd s.
Proof.
  induction s as [|a|a b r IH] using pair_ind; intros Hf He.
  - exists []. split; reflexivity.
  - discriminate.
  - inv Hf. inv H2. destruct (IH H4 He) as (raw & E1 & E2).
    destruct (hexval_value a H1) as [Va La]. destruct (hexval_value b H3) as [Vb Lb].
    cbn [hex_decode]. rewrite Va, Vb, E1. cbn [bind]. eexists. split; [reflexivity|].
    cbn [swap map tbcd]. f_equal; [|exact E2]. apply swap_pair; assumption.
Qed.
Lemma tbcd_app_f s : Forall lowhex s -> Nat.even (len s) = false -> tbcd (s ++ [ch_f]) = tbcd s.
Proof.
  induction s as [|a|a b r IH] using pair_ind; intros Hf He.
  - discriminate.
  - reflexivity.
  - inv Hf. inv H2. cbn [tbcd app]. f_equal. apply IH; assumption.
Qed.
Lemma bcd_layout s : Forall lowhex s -> str_to_swapped s [ch_f] = Ok (tbcd s).
Proof.
  intros Hf. unfold str_to_swapped. destruct (Nat.even (len s)) eqn:E.
  - destruct (tbcd_even_aux s Hf E) as (raw & E1 & E2). rewrite E1. cbn [bind]. rewrite E2. reflexivity.
  - destruct (tbcd_even_aux (s ++ [ch_f])) as (raw & E1 & E2).
    + apply Forall_app. split; [exact Hf|]. constructor; [right; unfold ch_f; lia|constructor].
    + rewrite app_length. cbn [List.length]. rewrite Nat.add_1_r, Nat.even_succ, <- Nat.negb_even, E. reflexivity.
    + rewrite E1. cbn [bind]. rewrite E2, tbcd_app_f by assumption. reflexivity.
Qed.

Lemma labels_join ls : labels_to_string ls = join_dot ls. Proof. reflexivity. Qed.
Lemma split_join ls : ls <> [] -> Forall (fun l => ~ In dot l) ls -> split_dot (join_dot ls) = ls.
Proof.
  assert (S1 : forall l r, ~ In dot l -> split_dot (l ++ ch_dot :: r) = l :: split_dot r).
  { induction l as [|c l IH]; intros r Hn; cbn [app split_dot]; [rewrite N.eqb_refl; reflexivity|].
    rewrite (proj2 (N.eqb_neq c ch_dot)) by (intros ->; apply Hn; left; reflexivity).
    rewrite IH by (intros Hx; apply Hn; right; exact Hx). reflexivity. }
  assert (S0 : forall l, ~ In dot l -> split_dot l = [l]).
  { induction l as [|c l IH]; intros Hn; cbn [split_dot]; [reflexivity|].
    rewrite (proj2 (N.eqb_neq c ch_dot)) by (intros ->; apply Hn; left; reflexivity).
    rewrite IH by (intros Hx; apply Hn; right; exact Hx). reflexivity. }
  induction ls as [|l r IH]; [contradiction|]. intros _ Hf. inv Hf. destruct r as [|l' r'].
  - apply S0, H1.
  - change (join_dot (l :: l' :: r')) with (l ++ ch_dot :: join_dot (l' :: r')). rewrite S1 by exact H1.
    rewrite IH; [reflexivity|discriminate|exact H2].
Qed.
Lemma fqdn_layout ls : ls <> [] -> Forall (fun l => ~ In dot l /\ (len l < 256)%nat) ls ->
  encode_fqdn (labels_to_string ls) = Ok (labels_octets ls) /\ decode_fqdn (labels_octets ls) = Ok (labels_to_string ls).
Proof.
  intros Hne Hf.
  assert (Hd : Forall (fun l => ~ In dot l) ls) by (eapply Forall_impl; [|exact Hf]; cbn; tauto).
  assert (Hl : Forall (fun l => len l < 256)%nat ls) by (eapply Forall_impl; [|exact Hf]; cbn; tauto).
  assert (E : encs ls = labels_octets ls).
  { unfold encs, labels_octets. clear Hne Hf Hd. induction Hl as [|l r Hl Hr IH]; cbn [flat_map]; [reflexivity|].
    rewrite IH. unfold enc_label, u8. rewrite N.mod_small by lia. reflexivity. }
  rewrite labels_join. rewrite encode_fqdn_spec, split_join by assumption. rewrite E. split; [reflexivity|].
  destruct (fqdn_roundtrip (join_dot ls)) as (b & E1 & E2 & _); [rewrite split_join by assumption; exact Hl|].
  rewrite encode_fqdn_spec, split_join, E in E1 by assumption. injection E1 as <-. exact E2.
Qed.

(** the encoding is injective *)
Lemma plmn_injective mcc mnc mcc' mnc' : is_mcc mcc -> is_mnc mnc -> is_mcc mcc' -> is_mnc mnc' ->
  encode_plmn mcc mnc = encode_plmn mcc' mnc' -> mcc = mcc' /\ mnc = mnc'.
Proof.
  intros A1 A2 B1 B2 E. destruct (plmn_roundtrip mcc mnc [] A1 A2) as (b & E1 & _ & _ & E2).
  destruct (plmn_roundtrip mcc' mnc' [] B1 B2) as (b' & E1' & _ & _ & E2').
  rewrite E1, E1' in E. injection E as <-. rewrite E2 in E2'. injection E2' as <- <-. auto.
Qed.
