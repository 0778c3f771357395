(** Proofs about the GTPv1 / GTPv0 IE model. *)
From Verif Require Import Base BaseLemmas TvIE TvIESpec V2IEProofs.

Section P.
Context (tv : N -> option nat) (xl : N -> bool).
Context (Htv : forall t n, tv t = Some n -> t < 128) (Hxl : forall t, xl t = true -> 128 <= t).
Notation wire := (wire1 xl).
Notation wf := (wf1 tv xl).
Notation bare := (bare1 tv).
Notation mlen := (mlen1 tv xl).

Lemma tv_none t : 128 <= t -> tv t = None.
Proof. intros H. destruct (tv t) eqn:E; [|reflexivity]. apply Htv in E. lia. Qed.
Lemma xl_false t : t < 128 -> xl t = false.
Proof. intros H. destruct (xl t) eqn:E; [|reflexivity]. apply Hxl in E. lia. Qed.

Lemma wf1_len i : wf i -> len (wire i) = mlen i.
Proof.
  intros H; inv H; unfold wire1, mlen1; cbn [i1_type i1_length i1_payload].
  - rewrite H1, (proj2 (N.ltb_lt _ _) H0). cbn [app List.length]. lia.
  - rewrite tv_none, (proj2 (N.ltb_ge _ _) H0), H2 by assumption. reflexivity.
  - rewrite tv_none, (proj2 (N.ltb_ge _ _) H0), H2 by assumption. reflexivity.
Qed.
Lemma bare1_len i : bare i -> len (wire i) = mlen i.
Proof.
  destruct i as [t l p]. intros (H & Hl & Hp & Ht). cbn [i1_type i1_length i1_payload] in *. subst.
  unfold wire1, mlen1; cbn [i1_type i1_length i1_payload]. rewrite (proj2 (N.ltb_lt _ _) H).
  destruct Ht as [-> | ->]; reflexivity.
Qed.
Lemma wf1_min i : wf i -> (2 <= len (wire i))%nat.
Proof.
  intros H; inv H; unfold wire1; cbn [i1_type i1_length i1_payload].
  - rewrite (proj2 (N.ltb_lt _ _) H0). cbn [app List.length]. lia.
  - rewrite (proj2 (N.ltb_ge _ _) H0), H2. cbn. lia.
  - rewrite (proj2 (N.ltb_ge _ _) H0), H2. cbn. lia.
Qed.
Lemma wf1_bytes i : wf i -> bytes_ok (wire i).
Proof.
  intros H; inv H; unfold wire1; cbn [i1_type i1_length i1_payload].
  - rewrite (proj2 (N.ltb_lt _ _) H0). constructor; [unfold is_byte; lia|assumption].
  - rewrite (proj2 (N.ltb_ge _ _) H0), H2. constructor; [assumption|constructor; [assumption|assumption]].
  - rewrite (proj2 (N.ltb_ge _ _) H0), H2. constructor; [assumption|].
    apply bytes_ok_app; [apply enc16_ok|assumption].
Qed.

(** ** Marshalling *)
Lemma mto1_writes i : wf i -> writes (mto1 tv xl i) (wire i).
Proof.
  intros H b Hb. pose proof (wf1_len i H) as Hm. unfold mto1.
  rewrite (proj2 (Nat.ltb_ge (len b) (mlen i))) by lia.
  pose proof (wf1_min i H) as Hmin.
  assert (E0 : set_idx b 0 (i1_type i) = Ok ([i1_type i] ++ skipn 1 b)) by (apply (set_idx_writes _ [] b); cbn; lia).
  rewrite E0. clear E0. cbn [bind app List.length].
  destruct i as [t l p].
  assert (E : forall hd, wire (IE1 t l p) = hd ++ p ->
     copy_at (hd ++ skipn (len hd) b) (len hd) (mlen (IE1 t l p)) p
     = Ok (wire (IE1 t l p) ++ skipn (len (wire (IE1 t l p))) b)).
  { intros hd Ew. unfold copy_at. rewrite <- Hm, Ew.
    apply on_slice_writes; [apply go_copy_writes|apply app_length|rewrite <- Ew; lia]. }
  inversion H as [? ? n Ha Hb1 Hc Hd He|? ? ? Ha Hc Hx Hd He Hf|? ? ? Ha Hc Hx Hd He Hf]; subst; cbn [i1_type i1_length i1_payload].
  - rewrite xl_false, (proj2 (N.ltb_lt _ _) Ha) by assumption. cbn [bind].
    apply (E [t]). unfold wire1; cbn [i1_type i1_length i1_payload]. rewrite (proj2 (N.ltb_lt _ _) Ha). reflexivity.
  - rewrite Hx. pose proof (set_idx_writes (u8 l) [t] b) as E0. cbn [app List.length] in E0.
    rewrite E0 by lia. cbn [bind].
    assert (Hu : u8 l = l) by (unfold u8; apply N.mod_small; assumption).
    apply (E [t; u8 l]). unfold wire1; cbn [i1_type i1_length i1_payload].
    rewrite (proj2 (N.ltb_ge _ _) Ha), Hx, Hu. reflexivity.
  - rewrite Hx, (proj2 (N.ltb_ge _ _) Ha).
    assert (Ew : wire (IE1 t l p) = ([t] ++ enc16 l) ++ p).
    { unfold wire1; cbn [i1_type i1_length i1_payload]. rewrite (proj2 (N.ltb_ge _ _) Ha), Hx.
      rewrite <- app_assoc. reflexivity. }
    pose proof (on_slice_writes (put16 l) (enc16 l) [t] b 3 (put16_writes l) eq_refl) as Eo.
    cbn [app List.length] in Eo. rewrite Eo.
    2:{ rewrite Ew in Hb. rewrite !app_length in Hb. cbn in Hb. lia. }
    cbn [bind]. apply (E ([t] ++ enc16 l)). exact Ew.
Qed.
Lemma marshal1_ok i : wf i -> marshal1 tv xl i = Ok (wire i).
Proof. intros H. unfold marshal1. rewrite <- wf1_len by assumption. apply writes_zeros, mto1_writes, H. Qed.

(** ** Parsing what was marshalled *)
Lemma parse1_wire i q : wf i -> parse1 tv xl (wire i ++ q) = Ok i.
Proof.
  intros H. pose proof (wf1_min i H) as Hmin. pose proof (wf1_len i H) as Hm.
  unfold parse1. rewrite (proj2 (Nat.ltb_ge (len (wire i ++ q)) 2)) by (rewrite app_length; lia).
  assert (Hi : idx (wire i ++ q) 0 = Ok (i1_type i)) by reflexivity.
  rewrite Hi. cbn [bind]. inv H; cbn [i1_type i1_length i1_payload].
  - rewrite xl_false, (proj2 (N.ltb_lt _ _) H0) by assumption. unfold parse_tv.
    rewrite (proj2 (Nat.ltb_ge (len (wire (IE1 t 0 p) ++ q)) 2)) by (rewrite app_length; lia).
    assert (E : mlen (IE1 t 0 []) = mlen (IE1 t 0 p)).
    { unfold mlen1; cbn [i1_type]. rewrite H1. reflexivity. }
    rewrite E, <- Hm.
    rewrite (proj2 (Nat.ltb_ge (len (wire (IE1 t 0 p) ++ q)) (len (wire (IE1 t 0 p))))) by (rewrite app_length; lia).
    unfold wire1; cbn [i1_type i1_length i1_payload]. rewrite (proj2 (N.ltb_lt _ _) H0).
    rewrite <- !app_assoc. cbn [app]. change (t :: p ++ q) with ([t] ++ p ++ q).
    rewrite (slice_mid [t] p q) by reflexivity. reflexivity.
  - rewrite H2. unfold parse_xl.
    rewrite (proj2 (Nat.ltb_ge (len (wire (IE1 t l p) ++ q)) 2)) by (rewrite app_length; lia).
    assert (E : mlen (IE1 t 0 []) = 2%nat).
    { unfold mlen1; cbn [i1_type i1_payload]. rewrite tv_none, (proj2 (N.ltb_ge _ _) H0), H2 by assumption. reflexivity. }
    rewrite E.
    rewrite (proj2 (Nat.ltb_ge (len (wire (IE1 t l p) ++ q)) 2)) by (rewrite app_length; lia).
    assert (Ew : wire (IE1 t l p) ++ q = [t; l] ++ p ++ q).
    { unfold wire1; cbn [i1_type i1_length i1_payload]. rewrite (proj2 (N.ltb_ge _ _) H0), H2. reflexivity. }
    rewrite Ew. change (idx ([t; l] ++ p ++ q) 1) with (Ok l). cbn [bind].
    rewrite (proj2 (Nat.ltb_ge (len ([t; l] ++ p ++ q)) (2 + N.to_nat l))) by (rewrite !app_length; cbn; lia).
    rewrite (slice_mid [t; l] p q); [reflexivity|reflexivity|cbn; lia].
  - rewrite H2, (proj2 (N.ltb_ge _ _) H0). unfold parse_tlv.
    assert (Ew : wire (IE1 t l p) ++ q = [t] ++ enc16 l ++ p ++ q).
    { unfold wire1; cbn [i1_type i1_length i1_payload]. rewrite (proj2 (N.ltb_ge _ _) H0), H2, <- !app_assoc. reflexivity. }
    rewrite Ew.
    rewrite (proj2 (Nat.ltb_ge (len ([t] ++ enc16 l ++ p ++ q)) 3)) by (rewrite !app_length; cbn; lia).
    rewrite (slice_mid [t] (enc16 l) (p ++ q)) by reflexivity. cbn [bind].
    rewrite be16_enc' by assumption. cbn [bind].
    rewrite (proj2 (Nat.ltb_ge (len ([t] ++ enc16 l ++ p ++ q)) (N.to_nat l + 3))) by (rewrite !app_length; cbn; lia).
    rewrite app_assoc. rewrite (slice_mid ([t] ++ enc16 l) p q); [reflexivity|reflexivity|cbn; lia].
Qed.

(** ** Parsing arbitrary bytes *)
Lemma parse1_inv b i : bytes_ok b -> parse1 tv xl b = Ok i ->
  (wf i \/ bare i) /\ exists q, b = wire i ++ q.
Proof.
  intros Hb H. unfold parse1 in H.
  destruct (len b <? 2)%nat eqn:E2; [discriminate|]. apply Nat.ltb_ge in E2.
  apply bind_ok_inv in H. destruct H as (t & Ht & H).
  assert (Htb : t < 256) by (eapply idx_byte; eauto).
  destruct b as [|t' r]; [cbn in E2; lia|]. cbn in Ht. injection Ht as ->.
  assert (Hr : bytes_ok r) by (inversion Hb; assumption).
  destruct (xl t) eqn:Ex; [|destruct (t <? 128) eqn:E128].
  - assert (H128 := Hxl t Ex). unfold parse_xl in H.
    rewrite (proj2 (Nat.ltb_ge (len (t :: r)) 2) E2) in H.
    destruct (len (t :: r) <? mlen (IE1 t 0 []))%nat; [discriminate|].
    apply bind_ok_inv in H. destruct H as (n & Hn & H).
    destruct (len (t :: r) <? 2 + N.to_nat n)%nat eqn:E; [discriminate|]. apply Nat.ltb_ge in E.
    apply bind_ok_inv in H. destruct H as (p & Hp & H). injection H as <-.
    assert (Hnb : n < 256) by (exact (idx_byte _ _ _ Hb Hn)).
    pose proof (slice_bytes_ok _ _ _ _ Hb Hp) as Hpb.
    apply slice_inv in Hp. destruct Hp as (_ & _ & Hp & Hpl).
    destruct r as [|n' r]; [cbn in E2; lia|]. cbn in Hn. injection Hn as ->.
    split.
    + left. apply wf1_xl; auto. lia.
    + exists (skipn (N.to_nat n) r). unfold wire1; cbn [i1_type i1_length i1_payload].
      rewrite (proj2 (N.ltb_ge _ _) H128), Ex. cbn [app]. do 2 f_equal. subst p.
      replace (2 + N.to_nat n - 2)%nat with (N.to_nat n) by lia. cbn [skipn].
      symmetry; apply firstn_skipn.
  - apply N.ltb_lt in E128. unfold parse_tv in H.
    rewrite (proj2 (Nat.ltb_ge (len (t :: r)) 2) E2) in H.
    destruct (len (t :: r) <? mlen (IE1 t 0 []))%nat eqn:E; [discriminate|]. apply Nat.ltb_ge in E.
    apply bind_ok_inv in H. destruct H as (p & Hp & H). injection H as <-.
    pose proof (slice_bytes_ok _ _ _ _ Hb Hp) as Hpb.
    apply slice_inv in Hp. destruct Hp as (Hle & _ & Hp & Hpl).
    split.
    + unfold mlen1 in *; cbn [i1_type i1_payload] in *.
      destruct (tv t) as [n|] eqn:Etv.
      * destruct n as [|n].
        -- right. destruct p; [|cbn in Hpl; lia]. unfold bare1; cbn. rewrite Etv. auto.
        -- left. eapply wf1_tv; eauto; lia.
      * right. rewrite (proj2 (N.ltb_lt _ _) E128) in *.
        destruct p; [|cbn in Hpl; lia]. unfold bare1; cbn. rewrite Etv. auto.
    + exists (skipn (mlen (IE1 t 0 []) - 1) r). unfold wire1; cbn [i1_type i1_length i1_payload].
      rewrite (proj2 (N.ltb_lt _ _) E128). cbn [app]. f_equal. subst p. cbn [skipn]. symmetry; apply firstn_skipn.
  - apply N.ltb_ge in E128. unfold parse_tlv in H.
    destruct (len (t :: r) <? 3)%nat eqn:E3; [discriminate|]. apply Nat.ltb_ge in E3.
    apply bind_ok_inv in H. destruct H as (s & Hs & H).
    apply bind_ok_inv in H. destruct H as (n & Hn & H).
    destruct (len (t :: r) <? N.to_nat n + 3)%nat eqn:E; [discriminate|]. apply Nat.ltb_ge in E.
    apply bind_ok_inv in H. destruct H as (p & Hp & H). injection H as <-.
    pose proof (slice_bytes_ok _ _ _ _ Hb Hp) as Hpb.
    pose proof (slice_bytes_ok _ _ _ _ Hb Hs) as Hsb.
    assert (Hnb : n < 65536) by (eapply be16_lt; eauto).
    apply slice_inv in Hp. destruct Hp as (_ & _ & Hp & Hpl).
    destruct r as [|x [|y r]]; [cbn in E3; lia|cbn in E3; lia|].
    cbn in Hs. injection Hs as <-. cbn in Hn. injection Hn as <-.
    inversion Hsb as [|? ? Hx Hsb']; inversion Hsb' as [|? ? Hy _]; subst.
    split.
    + left. apply wf1_tlv; auto. lia.
    + exists (skipn (N.to_nat (x * 256 + y)) r). unfold wire1; cbn [i1_type i1_length i1_payload].
      rewrite (proj2 (N.ltb_ge _ _) E128), Ex, enc16_be by assumption. cbn [app]. do 3 f_equal.
      replace (3 + N.to_nat (x * 256 + y) - 3)%nat with (N.to_nat (x * 256 + y)) by lia. cbn [skipn].
      symmetry; apply firstn_skipn.
Qed.
Lemma wfb_len i : wf i \/ bare i -> len (wire i) = mlen i.
Proof. intros [H|H]; [apply wf1_len, H|apply bare1_len, H]. Qed.
Lemma wire1_pos i : (1 <= len (wire i))%nat.
Proof. unfold wire1. cbn. lia. Qed.

Lemma parse1_safe b : bytes_ok b -> safe (parse1 tv xl b).
Proof.
  intros Hb. unfold parse1. destruct (len b <? 2)%nat eqn:E2; [discriminate|]. apply Nat.ltb_ge in E2.
  apply safe_bind; [apply safe_idx; lia|]. intros t Ht.
  destruct (xl t) eqn:Ex; [|destruct (t <? 128) eqn:E128].
  - unfold parse_xl. destruct (len b <? 2)%nat; [discriminate|].
    destruct (len b <? mlen (IE1 t 0 []))%nat; [discriminate|].
    apply safe_bind; [apply safe_idx; lia|]. intros n Hn.
    destruct (len b <? 2 + N.to_nat n)%nat eqn:E; [discriminate|]. apply Nat.ltb_ge in E.
    apply safe_bind; [apply safe_slice; lia|]. discriminate.
  - unfold parse_tv. destruct (len b <? 2)%nat; [discriminate|].
    destruct (len b <? mlen (IE1 t 0 []))%nat eqn:E; [discriminate|]. apply Nat.ltb_ge in E.
    apply safe_bind; [apply safe_slice; [|lia]|discriminate].
    unfold mlen1. cbn [i1_type i1_payload]. destruct (tv t); [lia|]. rewrite E128. lia.
  - unfold parse_tlv. destruct (len b <? 3)%nat eqn:E3; [discriminate|]. apply Nat.ltb_ge in E3.
    apply safe_bind; [apply safe_slice; lia|]. intros s Hs. apply slice_len in Hs.
    apply safe_bind; [apply safe_be16; lia|]. intros n Hn.
    destruct (len b <? N.to_nat n + 3)%nat eqn:E; [discriminate|]. apply Nat.ltb_ge in E.
    apply safe_bind; [apply safe_slice; lia|]. discriminate.
Qed.

(** ** Sequences *)
Lemma multi1_unfold fuel b : b <> [] -> multi1_f tv xl (S fuel) b =
  do i <- parse1 tv xl b; do b' <- slice_from b (mlen i); do r <- multi1_f tv xl fuel b'; Ok (i :: r).
Proof. destruct b; [contradiction|reflexivity]. Qed.
Lemma wire1_nonempty i q : wire i ++ q <> [].
Proof. unfold wire1. discriminate. Qed.

Lemma multi1_wire_f c : Forall wf c -> forall fuel, (len (flat_map wire c) < fuel)%nat ->
  multi1_f tv xl fuel (flat_map wire c) = Ok c.
Proof.
  induction 1 as [|x r Hx Hr IH]; intros fuel Hf; (destruct fuel; [lia|]); [reflexivity|].
  cbn [flat_map] in *. rewrite app_length in Hf. pose proof (wf1_min x Hx).
  rewrite multi1_unfold by apply wire1_nonempty. rewrite parse1_wire by assumption. cbn [bind].
  rewrite slice_from_app by (symmetry; apply wf1_len; assumption). cbn [bind].
  rewrite IH by lia. reflexivity.
Qed.
Theorem multi1_wire c : Forall wf c -> multi1 tv xl (flat_map wire c) = Ok c.
Proof. intros H. apply multi1_wire_f; [assumption|lia]. Qed.

Lemma multi1_inv_f fuel : forall b c, bytes_ok b -> multi1_f tv xl fuel b = Ok c ->
  Forall (fun i => wf i \/ bare i) c /\ b = flat_map wire c.
Proof.
  induction fuel as [|f IH]; intros b c Hb H; [discriminate|].
  destruct b as [|x r]; [injection H as <-; split; constructor|].
  rewrite multi1_unfold in H by discriminate.
  apply bind_ok_inv in H. destruct H as (i & Hi & H).
  apply bind_ok_inv in H. destruct H as (b' & Hb' & H).
  apply bind_ok_inv in H. destruct H as (l & Hl & H). injection H as <-.
  destruct (parse1_inv _ _ Hb Hi) as (Hw & q & Eq).
  rewrite Eq in Hb'. rewrite slice_from_app in Hb' by (symmetry; apply wfb_len, Hw).
  injection Hb' as <-. rewrite Eq in Hb. apply bytes_ok_app_inv in Hb.
  destruct (IH q l (proj2 Hb) Hl) as (Hc & ->).
  split; [constructor; assumption|]. rewrite Eq. reflexivity.
Qed.
Theorem multi1_inv b c : bytes_ok b -> multi1 tv xl b = Ok c ->
  Forall (fun i => wf i \/ bare i) c /\ b = flat_map wire c.
Proof. apply multi1_inv_f. Qed.

Lemma multi1_safe_f fuel : forall b, bytes_ok b -> (len b < fuel)%nat -> safe (multi1_f tv xl fuel b).
Proof.
  induction fuel as [|f IH]; intros b Hb Hf; [lia|].
  destruct b as [|x r]; [discriminate|]. rewrite multi1_unfold by discriminate.
  apply safe_bind; [apply parse1_safe, Hb|]. intros i Hi.
  destruct (parse1_inv _ _ Hb Hi) as (Hw & q & Eq). pose proof (wfb_len i Hw) as Hl.
  pose proof (wire1_pos i) as Hp.
  assert (Hlb : len (x :: r) = (len (wire i) + len q)%nat) by (rewrite Eq; apply app_length).
  apply safe_bind; [apply safe_slice_from; lia|]. intros b' Hb'.
  pose proof (slice_from_bytes_ok _ _ _ Hb Hb') as Hb2. apply slice_from_inv in Hb'.
  apply safe_bind; [apply IH; [assumption|lia]|]. discriminate.
Qed.
Theorem multi1_safe b : bytes_ok b -> safe (multi1 tv xl b).
Proof. intros H. apply multi1_safe_f; [assumption|lia]. Qed.

(** Whatever is marshalled, MarshalLen bytes are written. *)
Lemma mto1_short i b : (len b < mlen i)%nat -> mto1 tv xl i b = Err ETooShortToMarshal.
Proof. intros H. unfold mto1. rewrite (proj2 (Nat.ltb_lt _ _) H). reflexivity. Qed.

(** Constructor *)
Lemma new1_wf t p : t < 256 -> bytes_ok p ->
  (forall n, tv t = Some n -> len p = n /\ (1 <= n)%nat) -> (tv t = None -> 128 <= t) ->
  N.of_nat (len p) < (if xl t then 256 else 65536) -> wf (new1 tv t p).
Proof.
  intros Ht Hp Hn H128 Hl. unfold new1, set_length1; cbn [i1_type i1_payload].
  destruct (tv t) as [n|] eqn:E.
  - destruct (Hn n eq_refl). eapply wf1_tv; eauto.
  - specialize (H128 eq_refl). destruct (xl t) eqn:Ex.
    + replace (u16 (N.of_nat (len p))) with (N.of_nat (len p)) by (unfold u16; lia).
      apply wf1_xl; auto. lia.
    + replace (u16 (N.of_nat (len p))) with (N.of_nat (len p)) by (unfold u16; lia).
      apply wf1_tlv; auto. lia.
Qed.
End P.

Lemma tv_get_lt m k : forallb (fun kv => fst kv <? k) m = true -> forall t n, tv_get m t = Some n -> t < k.
Proof.
  induction m as [|[a v] r IH]; cbn [tv_get forallb fst]; [discriminate|].
  intros H t n. apply andb_prop in H. destruct H as [Ha Hr]. apply N.ltb_lt in Ha.
  destruct (N.eqb_spec t a) as [->|]; [intros; assumption|apply IH, Hr].
Qed.
Lemma tv1_lt t n : tv1 t = Some n -> t < 128.
Proof. apply tv_get_lt. reflexivity. Qed.
Lemma tv0_lt t n : tv0 t = Some n -> t < 128.
Proof. apply tv_get_lt. reflexivity. Qed.
Lemma xl1_ge t : xl1 t = true -> 128 <= t.
Proof. unfold xl1. intros H. apply N.eqb_eq in H. lia. Qed.
Lemma xl0_ge t : xl0 t = true -> 128 <= t.
Proof. discriminate. Qed.
