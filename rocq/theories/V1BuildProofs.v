(** GTPv1 headers built by the constructor and any sequence of setters. *)
From Coq Require Import Lia ZifyBool.
From Verif Require Import Base BaseLemmas V1Header V1HeaderSpec V1HeaderProofs TpduProofs.

(** calls a user can make on a header after NewHeader *)
Inductive h1_op : Type := OpTEID (t : N) | OpSeq (s : N) | OpNPDU (n : N) | OpExts (es : list ext1).
Definition h1_do (h : hdr1) (o : h1_op) : hdr1 :=
  match o with
  | OpTEID t => h1_set_teid h t
  | OpSeq s => h1_set_seq h s
  | OpNPDU n => h1_set_npdu h n
  | OpExts es => fst (h1_add_exts h es)
  end.
(** arguments in range; extension headers as a proper chain *)
Definition h1_op_ok (o : h1_op) : Prop :=
  match o with
  | OpTEID t => t < 4294967296
  | OpSeq s => s < 65536
  | OpNPDU n => n < 256
  | OpExts es => Forall eh_ok es /\ exists e r, es = e :: r /\ eh_chain (eh_type e) es
  end.
Definition is_exts (o : h1_op) : bool := match o with OpExts _ => true | _ => false end.

(** what holds along the way; [k] tells whether extension headers were added *)
Record built (k : bool) (p : bytes) (h : hdr1) : Prop := {
  bu_ok : h1_ok h; bu_len : h1_length h = u16 (N.of_nat (h1_mlen h - 8)); bu_p : h1_payload h = p;
  bu_e : N.testbit (h1_flags h) 2 = k; bu_x : k = false -> h1_exts h = [] }.

Lemma testbit_lor2 a m : N.testbit (N.lor a m) 2 = N.testbit a 2 || N.testbit m 2.
Proof. apply N.lor_spec. Qed.
Lemma lor_byte a m : a < 256 -> m < 256 -> N.lor a m < 256.
Proof.
  intros Ha Hm. apply N.ltb_lt, (byte_sweep2 (fun x y => N.lor x y <? 256)); [vm_compute; reflexivity|exact Ha|exact Hm].
Qed.
Lemma f1_opt_teid a : f1_opt (N.lor a 8) = f1_opt a.
Proof. rewrite !f1_opt_bits, !N.lor_spec. change (N.testbit 8 2) with false. change (N.testbit 8 1) with false. change (N.testbit 8 0) with false. rewrite !orb_false_r. reflexivity. Qed.
Lemma f1_e_teid a : f1_e (N.lor a 8) = f1_e a.
Proof. destruct (f1_bits (N.lor a 8)) as (E & _ & _), (f1_bits a) as (E' & _ & _). rewrite E, E', testbit_lor2. apply orb_false_r. Qed.

Lemma h1_ok_flags h f : h1_ok h -> f < 256 -> N.testbit f 2 = N.testbit (h1_flags h) 2 ->
  forall len teid seq np, teid < 4294967296 -> seq < 65536 -> np < 256 ->
  h1_ok (Hdr1 f (h1_type h) len teid seq np (h1_next h) (h1_exts h) (h1_payload h)).
Proof.
  intros Hok Hf Ht l teid seq np H1 H2 H3. constructor; cbn; auto; try apply Hok. rewrite Ht. exact (h1o_exts h Hok).
Qed.
Lemma built_step k p h o : built k p h -> h1_op_ok o -> (is_exts o = true -> k = false) ->
  built (k || is_exts o) p (h1_do h o).
Proof.
  intros [Hok Hl Hp He Hx] Ho Hk. destruct o as [t|sq|n|es]; cbn [is_exts h1_do h1_op_ok] in *.
  - rewrite orb_false_r. constructor; unfold h1_set_teid.
    + apply h1_ok_flags; auto; try apply Hok; [apply lor_byte; [apply Hok|lia]|]. rewrite testbit_lor2. apply orb_false_r.
    + cbn [h1_length]. rewrite Hl. f_equal. unfold h1_mlen. cbn [h1_flags h1_payload h1_exts]. rewrite f1_opt_teid, f1_e_teid. reflexivity.
    + exact Hp.
    + cbn [h1_flags]. rewrite testbit_lor2, He. apply orb_false_r.
    + exact Hx.
  - rewrite orb_false_r. constructor; unfold h1_set_seq, h1_set_length, h1_set_len; cbn [h1_flags h1_type h1_length h1_teid h1_seq h1_npdu h1_next h1_exts h1_payload].
    + apply h1_ok_flags; auto; try apply Hok; [apply lor_byte; [apply Hok|lia]|]. rewrite testbit_lor2. apply orb_false_r.
    + reflexivity.
    + exact Hp.
    + rewrite testbit_lor2, He. apply orb_false_r.
    + exact Hx.
  - rewrite orb_false_r. constructor; unfold h1_set_npdu, h1_set_length, h1_set_len; cbn [h1_flags h1_type h1_length h1_teid h1_seq h1_npdu h1_next h1_exts h1_payload].
    + apply h1_ok_flags; auto; try apply Hok; [apply lor_byte; [apply Hok|lia]|]. rewrite testbit_lor2. apply orb_false_r.
    + reflexivity.
    + exact Hp.
    + rewrite testbit_lor2, He. apply orb_false_r.
    + exact Hx.
  - specialize (Hk eq_refl). subst k. rewrite Hk. cbn [orb]. specialize (Hx Hk). destruct Ho as (Hes & e & r & -> & Hc).
    unfold h1_add_exts. rewrite add_exts_chain by exact Hc. rewrite Hx. cbn [app fst snd].
    constructor; unfold h1_set_length, h1_set_len; cbn [h1_flags h1_type h1_length h1_teid h1_seq h1_npdu h1_next h1_exts h1_payload].
    + apply Forall_cons_iff in Hes as He0. destruct He0 as [He0 Hr].
      constructor; cbn; try apply Hok; [apply lor_byte; [apply Hok|lia]|apply He0|]. intros _. split; [exact Hes|]. split; [discriminate|].
      exists e, r. cbn [eh_chain] in Hc. repeat split. apply Hc.
    + reflexivity.
    + exact Hp.
    + rewrite testbit_lor2. apply orb_true_r.
    + discriminate.
Qed.
Lemma built_run ops : forall k p h, built k p h -> Forall h1_op_ok ops ->
  ((if k then 1 else 0) + List.length (filter is_exts ops) <= 1)%nat ->
  exists k', built k' p (fold_left h1_do ops h).
Proof.
  induction ops as [|o r IH]; intros k p h Hb Ho Hn; cbn [fold_left]; [eauto|].
  apply Forall_cons_iff in Ho. destruct Ho as [Ho Hr]. cbn [filter] in Hn.
  apply (IH (k || is_exts o)); [apply built_step; auto|exact Hr|].
  - intros E. rewrite E in Hn. destruct k; [cbn [List.length] in Hn; lia|reflexivity].
  - destruct (is_exts o); cbn [List.length] in Hn; destruct k; cbn [orb]; lia.
Qed.

Theorem h1_build_roundtrip f t teid seq p ops q : f < 256 -> N.testbit f 2 = false -> t < 256 -> teid < 4294967296 ->
  seq < 65536 -> bytes_ok p -> Forall h1_op_ok ops -> (List.length (filter is_exts ops) <= 1)%nat ->
  let h := fold_left h1_do ops (new_hdr1 f t teid seq p) in
  N.of_nat (h1_mlen h) < 65536 ->
  exists w, h1_marshal h = Ok w /\ len w = h1_mlen h /\ h1_parse (w ++ q) = Ok (h1_known h) /\
    h1_payload h = p /\ h1_payload (h1_known h) = p /\ h1_length h = N.of_nat (len w) - 8.
Proof.
  intros Hf He Ht Hte Hs Hp Ho Hn h Hm.
  destruct (built_run ops false p (new_hdr1 f t teid seq p)) as (k & B); auto.
  { constructor; try reflexivity; try exact He. constructor; cbn; auto; try lia. intros E; congruence. }
  fold h in B. destruct B as [Hok Hl Hpay _ _]. assert (Hx : exts_fine h) by (intros E; apply (h1o_exts h Hok E)).
  assert (HL : h1_length h = N.of_nat (h1_mlen h) - 8) by (rewrite Hl; unfold u16; rewrite N.mod_small by lia; lia).
  exists (h1_wire h). split; [apply h1_marshal_ok, Hx|]. split; [apply h1_wire_len, Hx|].
  split; [apply h1_parse_wire; auto; rewrite Hpay; exact Hp|]. split; [exact Hpay|]. split; [exact Hpay|].
  rewrite h1_wire_len by exact Hx. exact HL.
Qed.
