From Coq Require Import String Permutation Lia ZifyBool.
From Verif Require Import Base BaseLemmas TvIE TvIESpec TvIEProofs V0Header V0HeaderSpec V0HeaderProofs.
From Verif Require Import MsgModel MsgProofs MsgProofs2 MsgProofs3 MsgProofs4 GenericMsg Msgs0Gen V0Msg MsgSpec MsgSpec1.
From Verif Require V1MsgProofs.
Open Scope string_scope.
Open Scope N_scope.
Open Scope list_scope.

Notation wfB := (wf1 tv0 xl0).
Notation wireB := (wire1 xl0).

Lemma ie_laws0 : ie_laws io0 wfB wireB.
Proof.
  constructor; cbn [io0 io_mto io_mlen io_inst io_multi].
  - exact (mto1_writes _ _ tv0_lt xl0_ge).
  - exact (wf1_len _ _ tv0_lt xl0_ge).
  - exact (wf1_min _ _ tv0_lt xl0_ge).
  - exact (wf1_bytes _ _ tv0_lt xl0_ge).
  - intros i. lia.
  - exact (multi1_wire _ _ tv0_lt xl0_ge).
Qed.

Lemma h0_setlen h : h0_set_length h = h0_set_len h (u16 (N.of_nat (h0_mlen h) - 20)).
Proof. unfold h0_set_length, h0_mlen. f_equal. unfold u16. f_equal. lia. Qed.

Lemma hd_laws0 : hd_laws ho0 h0_ok (fun _ => 20%nat) h0_octets h0_known 20 20.
Proof.
  constructor; cbn [ho0 ho_mlen ho_payload ho_set_payload ho_set_len ho_set_length ho_mto ho_parse].
  - reflexivity.
  - reflexivity.
  - reflexivity.
  - reflexivity.
  - reflexivity.
  - reflexivity.
  - reflexivity.
  - reflexivity.
  - apply h0_setlen.
  - intros h p []. constructor; assumption.
  - intros h p []. constructor; assumption.
  - reflexivity.
  - intros h Hh. apply h0_octets_len.
  - intros h Hh. apply h0_marshal_ok, Hh.
  - intros h Hh Hp Hl Hm. apply h0_parse_octets.
    + destruct Hh; constructor; assumption.
    + cbn [h0_set_length h0_set_len h0_length h0_payload]. unfold u16, h0_mlen in *. lia.
    + exact Hl.
Qed.

Definition all0 : list mdesc := d_Generic0 :: all_msgs0.
Lemma all0_ok : forallb (fun d => desc_ok 20 d && covers d && new_ok d
   && excl_table (md_new d) && keeps_table (md_new d) && excl_table (md_unm d) && keeps_table (md_unm d)) all0 = true.
Proof. vm_compute. reflexivity. Qed.
Lemma all0_parts d : In d all0 -> desc_ok 20 d = true /\ fields_ok d = true /\ covers d = true /\ new_ok d = true /\
  excl_table (md_new d) = true /\ keeps_table (md_new d) = true /\ excl_table (md_unm d) = true /\ keeps_table (md_unm d) = true.
Proof.
  intros Hd. pose proof all0_ok as H. rewrite forallb_forall in H. specialize (H d Hd).
  rewrite !andb_true_iff in H. destruct H as [[[[[[H1 H2] H3] H4] H5] H6] H7].
  repeat split; try assumption. unfold desc_ok in H1. rewrite !andb_true_iff in H1. tauto.
Qed.
Definition name0 (o : option mdesc) : string := match o with Some d => md_name d | None => "TPDU" end.
Definition ctor0_check (d : mdesc) : bool :=
  match md_ctor d with
  | Ctor0 f mt => (f =? 30) && (mt <? 256)
      && String.eqb (name0 (struct0 mt)) (md_name d) && String.eqb (ts0960 mt) (md_name d)
  | _ => false
  end.
Lemma ctor0_check_all : forallb ctor0_check all_msgs0 = true.
Proof. vm_compute. reflexivity. Qed.
Lemma ctor0_check_ok d : In d all_msgs0 -> ctor0_check d = true.
Proof. exact (proj1 (forallb_forall ctor0_check all_msgs0) ctor0_check_all d). Qed.
Lemma names0_nodup : nodups (map md_name all0) = true.
Proof. vm_compute. reflexivity. Qed.
Lemma struct0_in t d : struct0 t = Some d -> In d all0.
Proof.
  unfold struct0, all0. destruct (find _ parse_rows0) as [[k n]|].
  - destruct (String.eqb n "TPDU"); [discriminate|]. unfold lookup0. destruct (find _ all_msgs0) as [d'|] eqn:E; intros H; injection H as <-.
    + apply in_cons. apply find_some in E. apply E.
    + apply in_eq.
  - intros H; injection H as <-. apply in_eq.
Qed.
Lemma no_tpdu0 : mem "TPDU" (map md_name all0) = false.
Proof. vm_compute. reflexivity. Qed.
Lemma struct0_named t d : In d all0 -> name0 (struct0 t) = md_name d -> struct0 t = Some d.
Proof.
  intros Hd E. destruct (struct0 t) as [d'|] eqn:Et; cbn [name0] in E.
  - f_equal. apply (V1MsgProofs.name_unique1 all0); auto; [apply nodups_NoDup, names0_nodup|eapply struct0_in, Et].
  - exfalso. pose proof no_tpdu0 as Hn. assert (mem "TPDU" (map md_name all0) = true); [|congruence].
    apply mem_In. rewrite E. apply in_map, Hd.
Qed.
Lemma struct0_spec : forallb (fun t => String.eqb (name0 (struct0 t)) (ts0960 t)) (below 256) = true.
Proof. vm_compute. reflexivity. Qed.

(** ** Totality of Parse *)
Theorem v0_parse_as_safe d b : bytes_ok b -> N.of_nat (len b) < 65536 -> safe (v0_parse_as d b).
Proof.
  intros Hb Hl. apply parse_total; [apply h0_parse_safe; assumption|].
  intros h Hh. apply multi1_safe; [exact tv0_lt|exact xl0_ge|]. cbn [ho0 ho_payload ho_parse] in *.
  apply (h0_parse_inv b h Hb Hh).
Qed.
Theorem v0_parse_safe b : bytes_ok b -> N.of_nat (len b) < 65536 -> safe (v0_parse b).
Proof.
  intros Hb Hl. unfold v0_parse. destruct (len b <? 2)%nat eqn:E; [apply safe_err|]. apply Nat.ltb_ge in E.
  apply safe_bind; [safe_tac|]. intros t Ht. destruct (struct0 t) as [d|].
  - apply safe_bind; [apply v0_parse_as_safe; assumption|]. intros y Hy. apply safe_ok.
  - apply safe_bind; [apply h0_parse_safe; assumption|]. intros y Hy. apply safe_ok.
Qed.

(** ** Marshalled size and layout *)
Definition sendable0 (d : mdesc) (m : msg0) : Prop := md_reset d = true \/ h0_payload (m_hdr m) = [].

Theorem v0_marshal_layout d m : In d all0 -> typed_fields d (m_fs m) -> Forall wfB (present (m_fs m)) ->
  h0_ok (m_hdr m) -> sendable0 d m ->
  let l := ies_of (order_of d) (m_fs m) in Permutation l (present (m_fs m)) /\
  let n := (20 + len (flat_map wireB l))%nat in
  v0_len d m = Ok n /\
  let h' := h0_set_payload (h0_set_len (m_hdr m) (u16 (N.of_nat n - 20))) (flat_map wireB l) in
  v0_marshal d m = Ok (h0_octets h', Msg h' (m_fs m)) /\ len (h0_octets h') = n /\
  (forall b, (n <= len b)%nat -> v0_mto d m b = Ok (h0_octets h' ++ skipn n b, Msg h' (m_fs m))).
Proof.
  intros Hd Hs Hw Hh Hr. destruct (all0_parts d Hd) as (D1 & D2 & D4 & _).
  assert (Hnd : NoDup (keys (m_fs m))) by (apply (V1MsgProofs.typed_nodup d); assumption).
  assert (Ha : all_wf wfB (m_fs m)) by (apply present_wf; assumption).
  cbv zeta. change (ies_of (order_of d) (m_fs m)) with (in_order (m_fs m) (order_of d)).
  split; [apply in_order_present; [assumption|assumption|apply Hs]|].
  change (flat_map wireB (in_order (m_fs m) (order_of d))) with (body wireB d (m_fs m)).
  set (n := (20 + len (body wireB d (m_fs m)))%nat).
  pose proof (msg_mlen_ok _ ho0 _ _ ie_laws0 _ _ _ _ _ _ hd_laws0 d m D2 (typed_shape _ _ Hs) Ha) as Hm. cbv beta in Hm. fold n in Hm.
  split; [exact Hm|].
  set (h' := h0_set_payload _ _).
  assert (Ef : filled ho0 wireB d m = Msg h' (m_fs m)).
  { unfold filled. f_equal. cbn [ho0 ho_set_length ho_set_payload]. rewrite h0_setlen. reflexivity. }
  destruct (filled_parts ho0 wireB _ _ _ _ _ _ hd_laws0 d m Hh) as [F1 F2]. rewrite Ef in F1, F2. cbn [m_hdr] in F1, F2.
  cbn [ho0 ho_mlen] in F2. fold n in F2.
  assert (Hl : len (h0_octets h') = n) by (rewrite h0_octets_len; exact F2).
  destruct (marshal_ok _ ho0 _ _ ie_laws0 _ _ _ _ _ _ hd_laws0 d m D2 (typed_shape _ _ Hs) Ha Hh Hr) as [M1 M2].
  rewrite Ef in M1. split; [exact M1|]. split; [exact Hl|].
  intros b Hb. unfold v0_mto.
  rewrite (msg_mto_writes _ ho0 _ _ ie_laws0 _ _ _ _ _ _ hd_laws0 d m b D2 (typed_shape _ _ Hs) Ha Hh Hr).
  - rewrite Ef. cbn [m_hdr]. rewrite Hl. reflexivity.
  - intros h Hh0. apply h0_mto_ok, Hh0.
  - rewrite Ef. cbn [m_hdr]. rewrite Hl. exact Hb.
Qed.

(** ** Construct, marshal, parse *)
Lemma ctor0_ok d seq label tid : In d all_msgs0 -> seq < 65536 -> label < 65536 -> tid < 18446744073709551616 ->
  exists mt, md_ctor d = Ctor0 30 mt /\ struct0 mt = Some d /\ ts0960 mt = md_name d /\
  ctor0 (md_ctor d) seq label tid = Hdr0 30 mt 0 seq 255 label tid [] /\ h0_ok (ctor0 (md_ctor d) seq label tid).
Proof.
  intros Hd Hs Hl Ht. pose proof (ctor0_check_ok d Hd) as G.
  unfold ctor0_check in G. destruct (md_ctor d) as [| |f mt] eqn:E; try discriminate.
  rewrite !andb_true_iff in G. destruct G as [[[Gf Gm] Gs] Gn].
  apply N.ltb_lt in Gm. apply N.eqb_eq in Gf. subst f. apply String.eqb_eq in Gs, Gn.
  exists mt. split; [reflexivity|]. split; [apply struct0_named; [apply in_cons, Hd|exact Gs]|]. split; [exact Gn|].
  split; [reflexivity|]. constructor; cbn; auto; lia.
Qed.
Lemma v0_parse_as_type d b m : bytes_ok b -> v0_parse_as d b = Ok m ->
  h0_parse b = Ok (m_hdr m) /\ idx b 1 = Ok (h0_type (m_hdr m)) /\ (20 <= len b)%nat.
Proof.
  intros Hb Hp. unfold v0_parse_as, msg_parse in Hp. apply bind_ok_inv in Hp. destruct Hp as (h & Eh & Hp).
  assert (Hh : m_hdr m = h).
  { destruct (len (ho_payload ho0 h) <? md_min d)%nat; [injection Hp as <-; reflexivity|].
    destruct (io_multi io0 (ho_payload ho0 h)) as [l|e|]; [| |discriminate].
    - rewrite run_table_some in Hp. injection Hp as <-. reflexivity.
    - destruct e; try discriminate. destruct (md_soft d); [injection Hp as <-; reflexivity|discriminate]. }
  rewrite Hh. cbn [ho0 ho_parse] in Eh. split; [exact Eh|].
  destruct (h0_parse_inv b h Hb Eh) as (_ & _ & A & _ & B). auto.
Qed.
Lemma h0_octets_bytes h : h0_ok h -> bytes_ok (h0_payload h) -> bytes_ok (h0_octets h).
Proof.
  intros [] Hp. unfold h0_octets. repeat apply bytes_ok_app; auto using enc16_ok, enc64_ok; repeat constructor; auto; unfold is_byte; lia.
Qed.

Theorem v0_new_roundtrip d seq label tid ies : In d all_msgs0 -> seq < 65536 -> label < 65536 -> tid < 18446744073709551616 ->
  Forall wfB (nonnil ies) ->
  exists m, v0_new d seq label tid ies = Ok m /\ typed_fields d (m_fs m) /\
    (forall n, v0_len d m = Ok n -> N.of_nat n < 65536 ->
     exists b m1, v0_marshal d m = Ok (b, m1) /\ len b = n /\
       v0_parse b = Ok (P0 d m1) /\ m_fs m1 = m_fs m /\
       h0_seq (m_hdr m1) = seq /\ h0_label (m_hdr m1) = label /\ h0_tid (m_hdr m1) = tid /\
       h0_flags (m_hdr m1) = 30 /\ ts0960 (h0_type (m_hdr m1)) = md_name d).
Proof.
  intros Hd Hsq Hlb Hti Hf. assert (Hd1 : In d all0) by (apply in_cons, Hd). destruct (all0_parts d Hd1) as (D1 & D2 & D4 & D5 & _).
  destruct (ctor0_ok d seq label tid Hd Hsq Hlb Hti) as (mt & E & Hst & Hname & Hc & Ho).
  assert (Hp : h0_payload (ctor0 (md_ctor d) seq label tid) = []) by (rewrite Hc; reflexivity).
  destruct (new_roundtrip _ ho0 _ _ ie_laws0 _ _ _ _ _ _ hd_laws0 d (ctor0 (md_ctor d) seq label tid) ies D1 D5 Ho Hp Hf) as (m & M1 & S1 & S2 & S3 & M4 & M5 & M6).
  exists m. split; [exact M1|]. split; [exact S1|]. intros n Hn H16. cbv beta in *.
  assert (En : n = (20 + len (body wireB d (m_fs m)))%nat).
  { unfold v0_len in Hn. rewrite M5 in Hn. injection Hn as Hn. symmetry. exact Hn. }
  rewrite <- En in M6. destruct (M6 H16 ltac:(lia)) as (b & m1 & B1 & B2 & B3 & B4 & B5).
  assert (Hkn : h0_known (m_hdr m1) = m_hdr m1) by (rewrite B4, M4, Hc; reflexivity).
  rewrite Hkn, <- B3 in B5. assert (Em1 : Msg (m_hdr m1) (m_fs m1) = m1) by (destruct m1; reflexivity). rewrite Em1 in B5.
  assert (Hty1 : h0_type (m_hdr m1) = mt) by (rewrite B4, M4, Hc; reflexivity).
  assert (Hbb : bytes_ok b).
  { assert (Hokm : h0_ok (m_hdr m)) by (rewrite M4; cbn [ho0 ho_set_len]; destruct Ho; constructor; assumption).
    assert (Hpm : ho_payload ho0 (m_hdr m) = []) by (rewrite M4; exact Hp).
    destruct (marshal_ok _ ho0 _ _ ie_laws0 _ _ _ _ _ _ hd_laws0 d m D2 S1 S2 Hokm (or_intror Hpm)) as [Hmo1 _]. rewrite Hmo1 in B1. injection B1 as <- _.
    destruct (filled_parts ho0 wireB _ _ _ _ _ _ hd_laws0 d m Hokm) as [F1 _]. apply h0_octets_bytes; [exact F1|].
    cbn [filled m_hdr ho0 ho_set_length ho_set_payload]. apply (body_bytes _ _ _ ie_laws0), S2. }
  exists b, m1. split; [exact B1|]. split; [exact B2|]. split.
  { unfold v0_parse. pose proof (v0_parse_as_type d b m1 Hbb B5) as (_ & Hb & Hlen). rewrite Hty1 in Hb.
    rewrite (proj2 (Nat.ltb_ge (len b) 2)) by lia. rewrite Hb. cbn [bind]. rewrite Hst. unfold v0_parse_as. rewrite B5. reflexivity. }
  split; [exact B3|]. rewrite Hty1. rewrite B4, M4, Hc. repeat split. exact Hname.
Qed.

(** ** What Parse returns *)
Definition pdu0_hdr (p : pdu0) : hdr0 := match p with P0 _ m => m_hdr m | P0_tpdu h => h end.
Definition pdu0_name (p : pdu0) : string := match p with P0 d _ => md_name d | P0_tpdu _ => "TPDU" end.
Lemma v0_parse_parts b p : bytes_ok b -> v0_parse b = Ok p ->
  exists t, idx b 1 = Ok t /\ h0_type (pdu0_hdr p) = t /\ h0_parse b = Ok (pdu0_hdr p) /\ pdu0_name p = name0 (struct0 t) /\
  (forall d m, p = P0 d m -> struct0 t = Some d /\ v0_parse_as d b = Ok m).
Proof.
  intros Hb. unfold v0_parse. destruct (len b <? 2)%nat eqn:E; [discriminate|]. intros H.
  apply bind_ok_inv in H. destruct H as (t & Et & H). exists t. split; [exact Et|].
  destruct (struct0 t) as [d|] eqn:Es.
  - apply bind_ok_inv in H. destruct H as (m & Em & H). injection H as <-. cbn [pdu0_hdr pdu0_name name0].
    destruct (v0_parse_as_type _ _ _ Hb Em) as (Eh & E1 & _). rewrite Et in E1. injection E1 as E1. repeat split; auto.
    + injection H as <- <-. reflexivity.
    + injection H as <- <-. exact Em.
  - apply bind_ok_inv in H. destruct H as (h & Eh & H). injection H as <-. cbn [pdu0_hdr pdu0_name name0].
    destruct (h0_parse_inv _ _ Hb Eh) as (_ & _ & _ & _ & E1). rewrite Et in E1. injection E1 as E1. repeat split; auto; discriminate.
Qed.
Theorem v0_dispatch b p : bytes_ok b -> v0_parse b = Ok p ->
  exists t, idx b 1 = Ok t /\ h0_type (pdu0_hdr p) = t /\ pdu0_name p = ts0960 t.
Proof.
  intros Hb H. destruct (v0_parse_parts b p Hb H) as (t & E1 & E2 & _ & E3 & _). exists t.
  split; [exact E1|]. split; [exact E2|]. rewrite E3. pose proof struct0_spec as S. rewrite forallb_forall in S.
  apply String.eqb_eq, S. apply below_complete. exact (idx_byte _ _ _ Hb E1).
Qed.
Lemma v0_laws_multi p l : io_multi io0 p = Ok l -> bytes_ok p -> p = flat_map wireB l.
Proof. intros H Hp. apply (multi1_inv _ _ tv0_lt xl0_ge) in H; [apply H|exact Hp]. Qed.
Lemma v0_laws_hdr b h : bytes_ok b -> ho_parse ho0 b = Ok h -> bytes_ok (ho_payload ho0 h) /\ h0_ok h.
Proof. intros Hb Hh. apply h0_parse_inv in Hh; [|exact Hb]. tauto. Qed.
Lemma v0_body_le b d m : bytes_ok b -> In d all0 -> v0_parse_as d b = Ok m ->
  (len (body wireB d (m_fs m)) <= len (h0_payload (m_hdr m)))%nat.
Proof.
  intros Hb Hd Ep. destruct (all0_parts d Hd) as (D1 & _).
  exact (parse_size io0 ho0 wireB d b m 20 D1 Ep v0_laws_multi (fun h Hh => proj1 (v0_laws_hdr b h Hb Hh))).
Qed.
Lemma v0_parsed_shape b d m : bytes_ok b -> In d all0 -> v0_parse_as d b = Ok m ->
  typed_fields d (m_fs m) /\ Forall (fun i => wfB i \/ bare1 tv0 i) (present (m_fs m)) .
Proof.
  intros Hb Hd Ep. destruct (all0_parts d Hd) as (D1 & D2 & D4 & _).
  destruct (parse_parts _ ho0 _ _ ie_laws0 20 (fun i => wfB i \/ bare1 tv0 i) d b m D1 Ep) as (Eh & S1 & S2 & S3).
  { intros h l Hh Hl. apply (multi1_inv _ _ tv0_lt xl0_ge) in Hl; [apply Hl|]. apply (v0_laws_hdr b h Hb Hh). }
  split; [exact S1|].
  apply Forall_forall. intros i Hi. rewrite present_keys in Hi by (apply (V1MsgProofs.typed_nodup d); assumption).
  unfold in_order in Hi. apply in_flat_map in Hi. destruct Hi as (f & _ & Hi). apply somes_In in Hi. exact (S2 f i Hi).
Qed.

Theorem v0_remarshal b d m : bytes_ok b -> N.of_nat (len b) < 65536 -> v0_parse b = Ok (P0 d m) ->
  md_reset d = true -> Forall wfB (present (m_fs m)) ->
  exists b' m1 m2, v0_marshal d m = Ok (b', m1) /\ v0_parse b' = Ok (P0 d m2) /\ m_fs m2 = m_fs m /\
    (len b' <= len b)%nat /\
    h0_flags (m_hdr m2) = h0_flags (m_hdr m) /\ h0_type (m_hdr m2) = h0_type (m_hdr m) /\
    h0_seq (m_hdr m2) = h0_seq (m_hdr m) /\ h0_label (m_hdr m2) = h0_label (m_hdr m) /\ h0_tid (m_hdr m2) = h0_tid (m_hdr m).
Proof.
  intros Hb Hlb Hp Hr Hw. destruct (v0_parse_parts b _ Hb Hp) as (t & E1 & E2 & Eh & E3 & E4).
  destruct (E4 d m eq_refl) as [Ed Ep]. cbn [pdu0_hdr] in *.
  assert (Hd : In d all0) by (eapply struct0_in, Ed).
  destruct (all0_parts d Hd) as (D1 & D2 & D4 & _).
  destruct (v0_parsed_shape b d m Hb Hd Ep) as [S1 _].
  assert (Ha : all_wf wfB (m_fs m)) by (apply present_wf; [apply (V1MsgProofs.typed_nodup d); assumption|exact Hw]).
  pose proof (v0_body_le b d m Hb Hd Ep) as Hsz.
  destruct (h0_parse_inv b _ Hb Eh) as (Hok & Hpb & H20 & Hpay & _).
  assert (Hpl : (20 + len (h0_payload (m_hdr m)) <= len b)%nat) by (rewrite Hpay, len_skipn; lia).
  destruct (remarshal _ ho0 _ _ ie_laws0 _ _ _ _ _ _ hd_laws0 d b m D1 Hr Ep (fun h Hh => proj2 (v0_laws_hdr b h Hb Hh)) Ha)
    as (b' & m1 & B1 & B2 & B3 & B4 & B5); [lia|lia|].
  assert (Hbb : bytes_ok b').
  { destruct (marshal_ok _ ho0 _ _ ie_laws0 _ _ _ _ _ _ hd_laws0 d m D2 S1 Ha Hok (or_introl Hr)) as [Hmo1 _].
    rewrite Hmo1 in B1. injection B1 as <- _.
    destruct (filled_parts ho0 wireB _ _ _ _ _ _ hd_laws0 d m Hok) as [F1 _]. apply h0_octets_bytes; [exact F1|].
    cbn [filled m_hdr ho0 ho_set_length ho_set_payload]. apply (body_bytes _ _ _ ie_laws0), Ha. }
  set (m2 := Msg (h0_known (m_hdr m1)) (m_fs m)) in *.
  assert (Et : h0_type (m_hdr m2) = t) by (cbn [m2 m_hdr]; rewrite B4, <- E2; reflexivity).
  exists b', m1, m2. split; [exact B1|]. split.
  { unfold v0_parse. destruct (v0_parse_as_type _ _ _ Hbb B5) as (_ & Hb1 & Hb2).
    rewrite (proj2 (Nat.ltb_ge (len b') 2)) by lia. rewrite Hb1. cbn [bind]. rewrite Et, Ed.
    unfold v0_parse_as. rewrite B5. reflexivity. }
  split; [reflexivity|]. split; [lia|]. cbn [m2 m_hdr]. rewrite B4. repeat split.
Qed.

Theorem v0_remarshal_fails b d m b' x : bytes_ok b -> v0_parse b = Ok (P0 d m) -> md_reset d = false ->
  Forall wfB (present (m_fs m)) -> present (m_fs m) <> [] -> v0_mto d m b' <> Ok x.
Proof.
  intros Hb Hp Hr Hw Hne. destruct (v0_parse_parts b _ Hb Hp) as (t & E1 & E2 & Eh & E3 & E4).
  destruct (E4 d m eq_refl) as [Ed Ep]. assert (Hd : In d all0) by (eapply struct0_in, Ed).
  destruct (all0_parts d Hd) as (D1 & D2 & D4 & _).
  destruct (v0_parsed_shape b d m Hb Hd Ep) as [S1 _].
  assert (Ha : all_wf wfB (m_fs m)) by (apply present_wf; [apply (V1MsgProofs.typed_nodup d); assumption|exact Hw]).
  apply (stale_fails io0 ho0 _ _ ie_laws0 _ _ _ _ _ _ hd_laws0); auto.
  - intros i y E. unfold io0 in E. cbn [io_mto] in E. rewrite mto1_short in E; [discriminate|].
    cbn [List.length]. unfold mlen1. destruct (tv0 _); [lia|]. destruct (_ <? 128); [lia|]. destruct (xl0 _); lia.
  - intros Hz. pose proof (in_order_present d (m_fs m) D2 D4 (proj1 S1)) as Hperm. rewrite Hz in Hperm.
    apply Permutation_nil in Hperm. contradiction.
  - exact (v0_body_le b d m Hb Hd Ep).
Qed.

(** ** No IE is lost *)
Theorem v0_new_keeps d seq label tid pre i post m : In d all0 ->
  v0_new d seq label tid (pre ++ Some i :: post) = Ok m ->
  (exists f, In f (map fst (md_fields d)) /\ In (Some i) (fget (m_fs m) f)) \/
  (exists f j, In (f, FSingle) (md_fields d) /\ In (Some j) post /\ i1_type j = i1_type i /\ fget (m_fs m) f = [Some j]).
Proof.
  intros Hd Hm. destruct (all0_parts d Hd) as (D1 & _ & _ & D2 & D3 & D4 & _).
  exact (new_none_lost io0 ho0 d _ pre i post m 20 D1 D2 D3 D4 Hm).
Qed.
Theorem v0_parse_keeps b d m pre i post : bytes_ok b -> v0_parse b = Ok (P0 d m) ->
  h0_payload (m_hdr m) = flat_map wireB (pre ++ i :: post) -> Forall wfB (pre ++ i :: post) ->
  (exists f, In f (map fst (md_fields d)) /\ In (Some i) (fget (m_fs m) f)) \/
  (exists f j, In (f, FSingle) (md_fields d) /\ In j post /\ i1_type j = i1_type i /\ fget (m_fs m) f = [Some j]).
Proof.
  intros Hb Hp Hpay Hw.
  destruct (v0_parse_parts b _ Hb Hp) as (t & E1 & E2 & Eh & E3 & E4). destruct (E4 d m eq_refl) as [Ed Ep].
  assert (Hd : In d all0) by (eapply struct0_in, Ed). destruct (all0_parts d Hd) as (D1 & _ & _ & _ & _ & _ & D5 & D6).
  apply (parse_none_lost io0 ho0 d b m 20 pre i post D1 D5 D6 Ep).
  - cbn [ho0 ho_payload]. rewrite Hpay, flat_map_app, app_length. cbn [flat_map]. rewrite app_length.
    assert (Hi : wfB i) by (rewrite Forall_forall in Hw; apply Hw, in_or_app; right; left; reflexivity).
    pose proof (wf1_min _ _ tv0_lt xl0_ge i Hi). unfold desc_ok in D1. rewrite !andb_true_iff in D1. destruct D1 as [[_ D1] _]. apply Nat.leb_le in D1. lia.
  - cbn [ho0 ho_payload io0 io_multi]. rewrite Hpay. apply multi1_wire; [exact tv0_lt|exact xl0_ge|exact Hw].
Qed.
