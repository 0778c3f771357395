From Coq Require Import String Permutation Lia ZifyBool.
From Verif Require Import Base BaseLemmas TvIE TvIESpec TvIEProofs V1Header V1HeaderSpec V1HeaderProofs.
From Verif Require Import MsgModel MsgProofs MsgProofs2 MsgProofs3 MsgProofs4 GenericMsg Msgs1Gen V1Msg MsgSpec MsgSpec1.
Open Scope string_scope.
Open Scope N_scope.
Open Scope list_scope.

Notation wfA := (wf1 tv1 xl1).
Notation wireA := (wire1 xl1).

Lemma ie_laws1 : ie_laws io1 wfA wireA.
Proof.
  constructor; cbn [io1 io_mto io_mlen io_inst io_multi].
  - exact (mto1_writes _ _ tv1_lt xl1_ge).
  - exact (wf1_len _ _ tv1_lt xl1_ge).
  - exact (wf1_min _ _ tv1_lt xl1_ge).
  - exact (wf1_bytes _ _ tv1_lt xl1_ge).
  - intros i. lia.
  - exact (multi1_wire _ _ tv1_lt xl1_ge).
Qed.

Lemma h1_setlen h : h1_set_length h = h1_set_len h (u16 (N.of_nat (h1_mlen h) - 8)).
Proof. unfold h1_set_length. f_equal. unfold u16. f_equal. lia. Qed.
Lemma h1_ok_fine h : h1_ok h -> exts_fine h.
Proof. intros Hh E. apply (h1o_exts h Hh E). Qed.

Lemma hd_laws1 : hd_laws ho1 h1_ok h1_base h1_wire h1_known 8 8.
Proof.
  constructor; cbn [ho1 ho_mlen ho_payload ho_set_payload ho_set_len ho_set_length ho_mto ho_parse].
  - apply h1_mlen_base.
  - reflexivity.
  - reflexivity.
  - reflexivity.
  - reflexivity.
  - reflexivity.
  - reflexivity.
  - reflexivity.
  - apply h1_setlen.
  - intros h p []. constructor; assumption.
  - intros h p []. constructor; assumption.
  - reflexivity.
  - intros h Hh. apply h1_wire_len, h1_ok_fine, Hh.
  - intros h Hh. apply h1_marshal_ok, h1_ok_fine, Hh.
  - intros h Hh Hp Hl Hm.
    rewrite <- (app_nil_r (h1_wire _)). rewrite h1_setlen.
    assert (E : forall n, h1_mlen (h1_set_len h n) = h1_mlen h) by reflexivity.
    apply h1_parse_wire.
    + destruct Hh; constructor; assumption.
    + exact Hp.
    + rewrite E. cbn [h1_length h1_set_len]. unfold u16. lia.
    + rewrite E. exact Hl.
Qed.

Lemma typed_nodup {I} d (m : @fmap I) : fields_ok d = true -> typed_fields d m -> NoDup (keys m).
Proof. intros Hd Hs. destruct (fields_ok_parts d Hd) as (P1 & _). unfold keys. rewrite (proj1 Hs). exact P1. Qed.

(** ** The descriptors *)
Definition all1 : list mdesc := d_Generic1 :: all_msgs1.
Lemma all1_ok : forallb (fun d => desc_ok 8 d && covers d && new_ok d) all1 = true.
Proof. vm_compute. reflexivity. Qed.
Lemma all1_parts d : In d all1 -> desc_ok 8 d = true /\ fields_ok d = true /\ covers d = true /\ new_ok d = true.
Proof.
  intros Hd. pose proof all1_ok as H. rewrite forallb_forall in H. specialize (H d Hd).
  rewrite !andb_true_iff in H. destruct H as [[H1 H2] H3].
  repeat split; try assumption. unfold desc_ok in H1. rewrite !andb_true_iff in H1. tauto.
Qed.

Definition name1 (o : option mdesc) : string := match o with Some d => md_name d | None => "TPDU" end.
Definition ctor1_check (d : mdesc) : bool :=
  match md_ctor d with
  | Ctor1 f mt _ _ => (f <? 256) && (mt <? 256) && negb (N.testbit f 2)
      && String.eqb (name1 (struct1 mt)) (md_name d) && String.eqb (ts29060 mt) (md_name d)
  | _ => false
  end.
Lemma ctor1_check_all : forallb ctor1_check all_msgs1 = true.
Proof. vm_compute. reflexivity. Qed.
Lemma ctor1_check_ok d : In d all_msgs1 -> ctor1_check d = true.
Proof. exact (proj1 (forallb_forall ctor1_check all_msgs1) ctor1_check_all d). Qed.
Lemma names1_nodup : nodups (map md_name all1) = true.
Proof. vm_compute. reflexivity. Qed.
Lemma name_unique1 (l : list mdesc) d d' : NoDup (map md_name l) -> In d l -> In d' l -> md_name d = md_name d' -> d = d'.
Proof.
  induction l as [|x r IH]; cbn [map]; intros Hn; [intros []|]. inv Hn.
  intros [->|Hd] [->|Hd'] E.
  - reflexivity.
  - exfalso. apply H1. rewrite E. apply in_map, Hd'.
  - exfalso. apply H1. rewrite <- E. apply in_map, Hd.
  - apply IH; assumption.
Qed.
Lemma struct1_in t d : struct1 t = Some d -> In d all1.
Proof.
  unfold struct1, all1. destruct (find _ parse_rows1) as [[k n]|].
  - destruct (String.eqb n "TPDU"); [discriminate|]. unfold lookup1. destruct (find _ all_msgs1) as [d'|] eqn:E; intros H; injection H as <-.
    + apply in_cons. apply find_some in E. apply E.
    + apply in_eq.
  - intros H; injection H as <-. apply in_eq.
Qed.
Lemma no_tpdu1 : mem "TPDU" (map md_name all1) = false.
Proof. vm_compute. reflexivity. Qed.
Lemma struct1_named t d : In d all1 -> name1 (struct1 t) = md_name d -> struct1 t = Some d.
Proof.
  intros Hd E. destruct (struct1 t) as [d'|] eqn:Et; cbn [name1] in E.
  - f_equal. apply (name_unique1 all1); auto; [apply nodups_NoDup, names1_nodup|eapply struct1_in, Et].
  - exfalso. pose proof no_tpdu1 as Hn. assert (mem "TPDU" (map md_name all1) = true); [|congruence].
    apply mem_In. rewrite E. apply in_map, Hd.
Qed.
Lemma struct1_spec : forallb (fun t => String.eqb (name1 (struct1 t)) (ts29060 t)) (below 256) = true.
Proof. vm_compute. reflexivity. Qed.

(** ** Totality of Parse *)
Theorem v1_parse_as_safe d b : bytes_ok b -> N.of_nat (len b) < 65536 -> safe (v1_parse_as d b).
Proof.
  intros Hb Hl. apply parse_total; [apply h1_parse_safe; assumption|].
  intros h Hh. apply multi1_safe; [exact tv1_lt|exact xl1_ge|]. cbn [ho1 ho_payload ho_parse] in *.
  apply (h1_parse_inv b h Hb Hh).
Qed.
Theorem v1_parse_safe b : bytes_ok b -> N.of_nat (len b) < 65536 -> safe (v1_parse b).
Proof.
  intros Hb Hl. unfold v1_parse. destruct (len b <? 2)%nat eqn:E; [apply safe_err|]. apply Nat.ltb_ge in E.
  apply safe_bind; [safe_tac|]. intros t Ht. destruct (struct1 t) as [d|].
  - apply safe_bind; [apply v1_parse_as_safe; assumption|]. intros y Hy. apply safe_ok.
  - apply safe_bind; [apply h1_parse_safe; assumption|]. intros y Hy. apply safe_ok.
Qed.

(** ** Marshalled size and layout *)
Definition sendable (d : mdesc) (m : msg1) : Prop := md_reset d = true \/ h1_payload (m_hdr m) = [].

Theorem v1_marshal_layout d m : In d all1 -> typed_fields d (m_fs m) -> Forall wfA (present (m_fs m)) ->
  h1_ok (m_hdr m) -> sendable d m ->
  let l := ies_of (order_of d) (m_fs m) in Permutation l (present (m_fs m)) /\
  let n := (h1_base (m_hdr m) + len (flat_map wireA l))%nat in
  v1_len d m = Ok n /\
  let h' := h1_set_payload (h1_set_len (m_hdr m) (u16 (N.of_nat n - 8))) (flat_map wireA l) in
  v1_marshal d m = Ok (h1_octets (zeros n) h', Msg h' (m_fs m)) /\ len (h1_octets (zeros n) h') = n /\
  (forall b, (n <= len b)%nat -> v1_mto d m b = Ok (h1_octets b h' ++ skipn n b, Msg h' (m_fs m)) /\ len (h1_octets b h') = n).
Proof.
  intros Hd Hs Hw Hh Hr. destruct (all1_parts d Hd) as (D1 & D2 & D4 & _).
  destruct (fields_ok_parts d D2) as (P1 & _).
  assert (Hk : keys (m_fs m) = map fst (md_fields d)) by apply Hs.
  assert (Hnd : NoDup (keys (m_fs m))) by (rewrite Hk; exact P1).
  assert (Ha : all_wf wfA (m_fs m)) by (apply present_wf; assumption).
  cbv zeta. change (ies_of (order_of d) (m_fs m)) with (in_order (m_fs m) (order_of d)).
  split; [apply in_order_present; assumption|].
  change (flat_map wireA (in_order (m_fs m) (order_of d))) with (body wireA d (m_fs m)).
  set (n := (h1_base (m_hdr m) + len (body wireA d (m_fs m)))%nat).
  pose proof (msg_mlen_ok _ ho1 _ _ ie_laws1 _ _ _ _ _ _ hd_laws1 d m D2 (typed_shape _ _ Hs) Ha) as Hm. fold n in Hm.
  split; [exact Hm|].
  set (h' := h1_set_payload _ _).
  assert (Ef : filled ho1 wireA d m = Msg h' (m_fs m)).
  { unfold filled. f_equal. cbn [ho1 ho_set_length ho_set_payload]. rewrite h1_setlen. unfold h'.
    rewrite h1_mlen_base. reflexivity. }
  destruct (filled_parts ho1 wireA _ _ _ _ _ _ hd_laws1 d m Hh) as [F1 F2]. rewrite Ef in F1, F2. cbn [m_hdr] in F1, F2.
  cbn [ho1 ho_mlen] in F2. fold n in F2.
  assert (Hto : forall b, (n <= len b)%nat -> v1_mto d m b = Ok (h1_octets b h' ++ skipn n b, Msg h' (m_fs m)) /\ len (h1_octets b h') = n).
  { intros b Hb. unfold v1_mto.
    rewrite (mto_gen _ ho1 _ _ ie_laws1 _ _ _ _ _ _ hd_laws1 d m b D2 (typed_shape _ _ Hs) Ha Hr Hb). rewrite Ef. cbn [m_hdr ho1 ho_mto].
    destruct (h1_mto_ok h' b (h1_ok_fine _ F1)) as [E1 E2]; [rewrite F2; exact Hb|]. rewrite E1, F2 in *. cbn [bind]. split; [reflexivity|exact E2]. }
  destruct (Hto (zeros n)) as [E1 E2]; [rewrite len_zeros; lia|].
  split; [|split; [exact E2|exact Hto]].
  unfold v1_marshal, msg_marshal. change (msg_mlen io1 ho1 d m) with (v1_len d m). unfold v1_len. rewrite Hm. cbn [bind].
  unfold v1_mto in E1. rewrite E1. rewrite skipn_all2 by (rewrite len_zeros; lia). rewrite app_nil_r. reflexivity.
Qed.

(** ** Construct, marshal, parse *)
Lemma ctor1_ok d teid seq : In d all_msgs1 -> teid < 4294967296 -> seq < 65536 ->
  exists f mt t s, md_ctor d = Ctor1 f mt t s /\ f < 256 /\
  h1_ok (ctor1 (md_ctor d) teid seq) /\ h1_payload (ctor1 (md_ctor d) teid seq) = [] /\
  h1_flags (ctor1 (md_ctor d) teid seq) = f /\
  h1_type (ctor1 (md_ctor d) teid seq) = mt /\ h1_seq (ctor1 (md_ctor d) teid seq) = (if s then seq else 0) /\
  h1_teid (ctor1 (md_ctor d) teid seq) = (if t then teid else 0) /\
  struct1 mt = Some d /\ ts29060 mt = md_name d.
Proof.
  intros Hd Ht Hs.
  pose proof (ctor1_check_ok d Hd) as G.
  unfold ctor1_check in G. destruct (md_ctor d) as [|f mt t s|] eqn:E; try discriminate.
  rewrite !andb_true_iff in G. destruct G as [[[[Gf Gm] Ge] Gs] Gn].
  apply N.ltb_lt in Gf, Gm. apply String.eqb_eq in Gs, Gn. apply negb_true_iff in Ge.
  assert (Hst : struct1 mt = Some d) by (apply struct1_named; [apply in_cons, Hd|exact Gs]).
  exists f, mt, t, s. split; [reflexivity|]. split; [exact Gf|]. cbn [ctor1].
  split; [|repeat split; auto].
  constructor; cbn [new_hdr1 h1_set_length h1_set_len h1_flags h1_type h1_teid h1_seq h1_npdu h1_next h1_exts]; auto; try lia.
  - destruct t; lia.
  - destruct s; lia.
  - rewrite Ge. discriminate.
Qed.

Lemma v1_parse_as_type d b m : bytes_ok b -> v1_parse_as d b = Ok m ->
  h1_parse b = Ok (m_hdr m) /\ idx b 1 = Ok (h1_type (m_hdr m)) /\ (8 <= len b)%nat.
Proof.
  intros Hb Hp. unfold v1_parse_as, msg_parse in Hp. apply bind_ok_inv in Hp. destruct Hp as (h & Eh & Hp).
  assert (Hh : m_hdr m = h).
  { destruct (len (ho_payload ho1 h) <? md_min d)%nat; [injection Hp as <-; reflexivity|].
    destruct (io_multi io1 (ho_payload ho1 h)) as [l|e|]; [| |discriminate].
    - rewrite run_table_some in Hp. injection Hp as <-. reflexivity.
    - destruct e; try discriminate. destruct (md_soft d); [injection Hp as <-; reflexivity|discriminate]. }
  rewrite Hh. cbn [ho1 ho_parse] in Eh. split; [exact Eh|].
  destruct (h1_parse_inv b h Hb Eh) as (_ & _ & _ & _ & _ & _ & q & Eq).
  unfold h1_parse in Eh. destruct (len b <? 8)%nat eqn:El; [discriminate|]. apply Nat.ltb_ge in El. split; [|exact El].
  rewrite Eq. reflexivity.
Qed.
Lemma h1_parse_type b h : bytes_ok b -> h1_parse b = Ok h -> idx b 1 = Ok (h1_type h) /\ (8 <= len b)%nat.
Proof.
  intros Hb Eh. destruct (h1_parse_inv b h Hb Eh) as (_ & _ & _ & _ & _ & _ & q & Eq).
  unfold h1_parse in Eh. destruct (len b <? 8)%nat eqn:El; [discriminate|]. apply Nat.ltb_ge in El. split; [|exact El].
  rewrite Eq. reflexivity.
Qed.
Lemma h1_wire_bytes h : h1_ok h -> bytes_ok (h1_payload h) -> bytes_ok (h1_wire h).
Proof.
  intros Hh Hp. unfold h1_wire. destruct Hh.
  repeat apply bytes_ok_app; auto using enc16_ok, enc32_ok.
  - repeat constructor; assumption.
  - unfold h1_wire_opt. destruct (f1_opt _); [|constructor].
    repeat apply bytes_ok_app; [destruct (f1_s _)|destruct (f1_pn _)|destruct (f1_e _)]; auto using enc16_ok; repeat constructor; auto; unfold is_byte; lia.
  - unfold h1_wire_exts. destruct (f1_bits (h1_flags h)) as (Be & _). destruct (f1_e (h1_flags h)); [|constructor].
    destruct (h1o_exts (eq_sym Be)) as (Hall & _). clear - Hall. induction Hall as [|e r He Hr IH]; [constructor|].
    cbn [flat_map]. apply bytes_ok_app; [|exact IH]. destruct He. unfold eh_wire.
    repeat apply bytes_ok_app; auto using bytes_ok_zeros; repeat constructor; assumption.
Qed.

Theorem v1_new_roundtrip d teid seq ies : In d all_msgs1 -> teid < 4294967296 -> seq < 65536 ->
  Forall wfA (nonnil ies) ->
  exists m, v1_new d teid seq ies = Ok m /\ typed_fields d (m_fs m) /\
    (forall n, v1_len d m = Ok n -> N.of_nat n < 65536 ->
     exists b m1 m2, v1_marshal d m = Ok (b, m1) /\ len b = n /\
       v1_parse b = Ok (P1 d m2) /\ m_fs m2 = m_fs m /\
       exists f mt t s, md_ctor d = Ctor1 f mt t s /\ h1_flags (m_hdr m2) = f /\
       h1_teid (m_hdr m2) = (if t then teid else 0) /\
       h1_seq (m_hdr m2) = (if N.testbit f 1 && s then seq else 0) /\
       ts29060 (h1_type (m_hdr m2)) = md_name d).
Proof.
  intros Hd Ht Hs Hf. assert (Hd1 : In d all1) by (apply in_cons, Hd). destruct (all1_parts d Hd1) as (D1 & D2 & D4 & D5).
  destruct (ctor1_ok d teid seq Hd Ht Hs) as (f & mt & t & s & E & Hff & Ho & Hp & Hfl & Hty & Hsq & Hte & Hst & Hname).
  destruct (new_roundtrip _ ho1 _ _ ie_laws1 _ _ _ _ _ _ hd_laws1 d (ctor1 (md_ctor d) teid seq) ies D1 D5 Ho Hp Hf) as (m & M1 & S1 & S2 & S3 & M4 & M5 & M6).
  exists m. split; [exact M1|]. split; [exact S1|]. intros n Hn H16.
  assert (En : n = (h1_base (ctor1 (md_ctor d) teid seq) + len (body wireA d (m_fs m)))%nat).
  { unfold v1_len in Hn. rewrite M5 in Hn. injection Hn as Hn. symmetry. exact Hn. }
  assert (H8 : (8 <= n)%nat) by (rewrite En; unfold h1_base; lia).
  rewrite <- En in M6. destruct (M6 H16 H8) as (b & m1 & B1 & B2 & B3 & B4 & B5).
  set (m2 := Msg (h1_known (m_hdr m1)) (m_fs m)) in *.
  assert (Hty1 : h1_type (m_hdr m2) = mt) by (cbn [m2 m_hdr]; rewrite B4, M4, <- Hty; reflexivity).
  assert (Hok1 : h1_ok (m_hdr m1)).
  { rewrite B4, M4. cbn [ho1 ho_set_payload ho_set_len]. destruct Ho; constructor; assumption. }
  assert (Hbb : bytes_ok b).
  { pose proof (marshal_ok _ ho1 _ _ ie_laws1 _ _ _ _ _ _ hd_laws1 d m D2 S1 S2) as Hmo.
    assert (Hokm : h1_ok (m_hdr m)) by (rewrite M4; cbn [ho1 ho_set_len]; destruct Ho; constructor; assumption).
    assert (Hpm : ho_payload ho1 (m_hdr m) = []) by (rewrite M4; exact Hp).
    destruct (Hmo Hokm (or_intror Hpm)) as [Hmo1 _]. rewrite Hmo1 in B1. injection B1 as <- _.
    destruct (filled_parts ho1 wireA _ _ _ _ _ _ hd_laws1 d m Hokm) as [F1 _]. apply h1_wire_bytes; [exact F1|].
    cbn [filled m_hdr ho1 ho_set_length ho_set_payload]. apply (body_bytes _ _ _ ie_laws1), S2. }
  exists b, m1, m2. split; [exact B1|]. split; [exact B2|]. split.
  { unfold v1_parse. pose proof (v1_parse_as_type d b m2 Hbb B5) as (_ & Hb & Hlb). rewrite Hty1 in Hb.
    rewrite (proj2 (Nat.ltb_ge (len b) 2)) by lia. rewrite Hb. cbn [bind]. rewrite Hst. unfold v1_parse_as. rewrite B5. reflexivity. }
  split; [reflexivity|]. exists f, mt, t, s. split; [exact E|].
  assert (Hflags : h1_flags (m_hdr m1) = f) by (rewrite B4, M4, <- Hfl; reflexivity).
  split; [cbn; exact Hflags|]. split.
  - cbn. rewrite B4, M4, <- Hte. reflexivity.
  - split; [|rewrite Hty1; apply Hname].
    cbn [m2 m_hdr h1_known h1_seq]. rewrite Hflags. replace (h1_seq (m_hdr m1)) with (if s then seq else 0) by (rewrite B4, M4, <- Hsq; reflexivity).
    destruct (N.testbit f 1); reflexivity.
Qed.

(** ** What Parse returns *)
Definition pdu1_hdr (p : pdu1) : hdr1 := match p with P1 _ m => m_hdr m | P1_tpdu h => h end.
Definition pdu1_name (p : pdu1) : string := match p with P1 d _ => md_name d | P1_tpdu _ => "TPDU" end.
Lemma v1_parse_parts b p : bytes_ok b -> v1_parse b = Ok p ->
  exists t, idx b 1 = Ok t /\ h1_type (pdu1_hdr p) = t /\ h1_parse b = Ok (pdu1_hdr p) /\ pdu1_name p = name1 (struct1 t) /\
  (forall d m, p = P1 d m -> struct1 t = Some d /\ v1_parse_as d b = Ok m).
Proof.
  intros Hb. unfold v1_parse. destruct (len b <? 2)%nat eqn:E; [discriminate|]. intros H.
  apply bind_ok_inv in H. destruct H as (t & Et & H). exists t. split; [exact Et|].
  destruct (struct1 t) as [d|] eqn:Es.
  - apply bind_ok_inv in H. destruct H as (m & Em & H). injection H as <-. cbn [pdu1_hdr pdu1_name name1].
    destruct (v1_parse_as_type _ _ _ Hb Em) as (Eh & E1 & _). rewrite Et in E1. injection E1 as E1. repeat split; auto.
    + injection H as <- <-. reflexivity.
    + injection H as <- <-. exact Em.
  - apply bind_ok_inv in H. destruct H as (h & Eh & H). injection H as <-. cbn [pdu1_hdr pdu1_name name1].
    destruct (h1_parse_type _ _ Hb Eh) as (E1 & _). rewrite Et in E1. injection E1 as E1. repeat split; auto; discriminate.
Qed.
Theorem v1_dispatch b p : bytes_ok b -> v1_parse b = Ok p ->
  exists t, idx b 1 = Ok t /\ h1_type (pdu1_hdr p) = t /\ pdu1_name p = ts29060 t.
Proof.
  intros Hb H. destruct (v1_parse_parts b p Hb H) as (t & E1 & E2 & _ & E3 & _). exists t.
  split; [exact E1|]. split; [exact E2|]. rewrite E3. pose proof struct1_spec as S. rewrite forallb_forall in S.
  apply String.eqb_eq, S. apply below_complete. exact (idx_byte _ _ _ Hb E1).
Qed.

Lemma v1_laws_multi p l : io_multi io1 p = Ok l -> bytes_ok p -> p = flat_map wireA l.
Proof. intros H Hp. apply (multi1_inv _ _ tv1_lt xl1_ge) in H; [apply H|exact Hp]. Qed.
Lemma v1_laws_hdr b h : bytes_ok b -> ho_parse ho1 b = Ok h -> bytes_ok (ho_payload ho1 h) /\ h1_ok h.
Proof. intros Hb Hh. apply h1_parse_inv in Hh; [|exact Hb]. tauto. Qed.

Lemma v1_body_le b d m : bytes_ok b -> In d all1 -> v1_parse_as d b = Ok m ->
  (len (body wireA d (m_fs m)) <= len (h1_payload (m_hdr m)))%nat.
Proof.
  intros Hb Hd Ep. destruct (all1_parts d Hd) as (D1 & _).
  exact (parse_size io1 ho1 wireA d b m 8 D1 Ep v1_laws_multi (fun h Hh => proj1 (v1_laws_hdr b h Hb Hh))).
Qed.
Lemma v1_parsed_shape b d m : bytes_ok b -> In d all1 -> v1_parse_as d b = Ok m ->
  typed_fields d (m_fs m) /\ Forall (fun i => wfA i \/ bare1 tv1 i) (present (m_fs m)) .
Proof.
  intros Hb Hd Ep. destruct (all1_parts d Hd) as (D1 & D2 & D4 & _).
  destruct (parse_parts _ ho1 _ _ ie_laws1 8 (fun i => wfA i \/ bare1 tv1 i) d b m D1 Ep) as (Eh & S1 & S2 & S3).
  { intros h l Hh Hl. apply (multi1_inv _ _ tv1_lt xl1_ge) in Hl; [apply Hl|]. apply (v1_laws_hdr b h Hb Hh). }
  split; [exact S1|]. destruct (fields_ok_parts d D2) as (P1 & _).
  apply Forall_forall. intros i Hi. rewrite present_keys in Hi by (apply (typed_nodup d); assumption).
  unfold in_order in Hi. apply in_flat_map in Hi. destruct Hi as (f & _ & Hi). apply somes_In in Hi. exact (S2 f i Hi).
Qed.

Theorem v1_remarshal b d m : bytes_ok b -> N.of_nat (len b) < 65536 -> v1_parse b = Ok (P1 d m) ->
  md_reset d = true -> Forall wfA (present (m_fs m)) ->
  exists b' m1, v1_marshal d m = Ok (b', m1) /\ v1_parse b' = Ok (P1 d m1) /\ m_fs m1 = m_fs m /\
    (len b' <= len b)%nat /\
    h1_set_len (h1_set_payload (m_hdr m1) []) 0 = h1_set_len (h1_set_payload (m_hdr m) []) 0.
Proof.
  intros Hb Hlb Hp Hr Hw. destruct (v1_parse_parts b _ Hb Hp) as (t & E1 & E2 & Eh & E3 & E4).
  destruct (E4 d m eq_refl) as [Ed Ep]. cbn [pdu1_hdr] in *.
  assert (Hd : In d all1) by (eapply struct1_in, Ed).
  destruct (all1_parts d Hd) as (D1 & D2 & D4 & _).
  destruct (fields_ok_parts d D2) as (P1 & _).
  destruct (v1_parsed_shape b d m Hb Hd Ep) as [S1 _].
  assert (Ha : all_wf wfA (m_fs m)) by (apply present_wf; [apply (typed_nodup d); assumption|exact Hw]).
  pose proof (v1_body_le b d m Hb Hd Ep) as Hsz.
  destruct (h1_parse_inv b _ Hb Eh) as (Hok & Hpb & HL & Hml & Hkn & Hpads & q & Eq).
  assert (Hpl : (h1_mlen (m_hdr m) <= len b)%nat).
  { rewrite h1_mlen_base. destruct (h1_mto_ok (m_hdr m) b (h1_ok_fine _ Hok)) as [_ Hlen].
    - destruct (le_lt_dec (h1_mlen (m_hdr m)) (len b)) as [|Hlt]; [assumption|exfalso].
      unfold h1_parse in Eh. destruct (len b <? 8)%nat; [discriminate|].
      repeat (apply bind_ok_inv in Eh; destruct Eh as (? & ? & Eh)).
      destruct (len b <? N.to_nat _ + 8)%nat eqn:EL; [discriminate|]. apply Nat.ltb_ge in EL.
      apply bind_ok_inv in Eh. destruct Eh as ([[[? ?] ?] ?] & _ & Eh).
      apply bind_ok_inv in Eh. destruct Eh as ([? ?] & _ & Eh).
      destruct (_ <? _)%nat; [discriminate|]. apply bind_ok_inv in Eh. destruct Eh as (? & _ & Eh). injection Eh as Eh.
      rewrite <- Eh in HL, Hml. cbn [h1_length] in HL. rewrite Eh in HL, Hml. rewrite HL in EL. lia.
    - rewrite <- h1_mlen_base, <- Hlen. rewrite Eq at 2. rewrite app_length. lia. }
  rewrite h1_mlen_base in Hpl.
  destruct (remarshal _ ho1 _ _ ie_laws1 _ _ _ _ _ _ hd_laws1 d b m D1 Hr Ep (fun h Hh => proj2 (v1_laws_hdr b h Hb Hh)) Ha)
    as (b' & m1 & B1 & B2 & B3 & B4 & B5).
  - lia.
  - unfold h1_base. lia.
  - assert (Hkn1 : h1_known (m_hdr m1) = m_hdr m1).
    { rewrite B4. cbn [ho1 ho_set_length ho_set_payload]. rewrite h1_setlen.
      clear - Hkn. unfold h1_known, h1_set_len, h1_set_payload in *. cbn [h1_flags h1_type h1_length h1_teid h1_seq h1_npdu h1_next h1_exts h1_payload].
      destruct (m_hdr m) as [fl ty ln te sq np nx es pl]. cbn [h1_flags h1_type h1_length h1_teid h1_seq h1_npdu h1_next h1_exts h1_payload] in *.
      injection Hkn as K1 K2 K3 K4. rewrite K1, K2, K3, K4. reflexivity. }
    change (ho_set_payload ho1) with h1_set_payload in B4. rewrite Hkn1 in B5. rewrite <- B3 in B5.
    assert (Em1 : Msg (m_hdr m1) (m_fs m1) = m1) by (destruct m1; reflexivity). rewrite Em1 in B5.
    assert (Hbb : bytes_ok b').
    { destruct (marshal_ok _ ho1 _ _ ie_laws1 _ _ _ _ _ _ hd_laws1 d m D2 S1 Ha Hok (or_introl Hr)) as [Hmo1 _].
      rewrite Hmo1 in B1. injection B1 as <- _.
      destruct (filled_parts ho1 wireA _ _ _ _ _ _ hd_laws1 d m Hok) as [F1 _]. apply h1_wire_bytes; [exact F1|].
      cbn [filled m_hdr ho1 ho_set_length ho_set_payload]. apply (body_bytes _ _ _ ie_laws1), Ha. }
    exists b', m1. split; [exact B1|]. split.
    { unfold v1_parse. destruct (v1_parse_as_type _ _ _ Hbb B5) as (_ & Hb1 & Hb2).
      rewrite (proj2 (Nat.ltb_ge (len b') 2)) by lia. rewrite Hb1. cbn [bind].
      assert (Et : h1_type (m_hdr m1) = t) by (rewrite B4, <- E2; reflexivity). rewrite Et, Ed.
      unfold v1_parse_as. rewrite B5. reflexivity. }
    split; [exact B3|]. split; [lia|].
    rewrite B4. reflexivity.
Qed.

(** the structures whose MarshalTo keeps a stale payload cannot be marshalled again *)
Theorem v1_remarshal_fails b d m b' x : bytes_ok b -> v1_parse b = Ok (P1 d m) -> md_reset d = false ->
  Forall wfA (present (m_fs m)) -> present (m_fs m) <> [] -> v1_mto d m b' <> Ok x.
Proof.
  intros Hb Hp Hr Hw Hne. destruct (v1_parse_parts b _ Hb Hp) as (t & E1 & E2 & Eh & E3 & E4).
  destruct (E4 d m eq_refl) as [Ed Ep]. assert (Hd : In d all1) by (eapply struct1_in, Ed).
  destruct (all1_parts d Hd) as (D1 & D2 & D4 & _). destruct (fields_ok_parts d D2) as (P1 & _).
  destruct (v1_parsed_shape b d m Hb Hd Ep) as [S1 _].
  assert (Ha : all_wf wfA (m_fs m)) by (apply present_wf; [apply (typed_nodup d); assumption|exact Hw]).
  apply (stale_fails io1 ho1 _ _ ie_laws1 _ _ _ _ _ _ hd_laws1); auto.
  - intros i y E. unfold io1 in E. cbn [io_mto] in E. rewrite mto1_short in E; [discriminate|].
    cbn [List.length]. unfold mlen1. destruct (tv1 _); [lia|]. destruct (_ <? 128); [lia|]. destruct (xl1 _); lia.
  - intros Hz. pose proof (in_order_present d (m_fs m) D2 D4 (proj1 S1)) as Hperm. rewrite Hz in Hperm.
    apply Permutation_nil in Hperm. contradiction.
  - exact (v1_body_le b d m Hb Hd Ep).
Qed.
Theorem v1_second_marshal_fails d m b b1 m1 b2 x : In d all1 -> md_reset d = false -> typed_fields d (m_fs m) ->
  Forall wfA (present (m_fs m)) -> present (m_fs m) <> [] -> h1_ok (m_hdr m) -> h1_payload (m_hdr m) = [] ->
  v1_mto d m b = Ok (b1, m1) -> v1_mto d m1 b2 <> Ok x.
Proof.
  intros Hd Hr Hs Hw Hne Hh Hp E. destruct (v1_marshal_layout d m Hd Hs Hw Hh (or_intror Hp)) as (A1 & A2 & _ & _ & A3).
  assert (Hlb : (h1_base (m_hdr m) + len (flat_map wireA (ies_of (order_of d) (m_fs m))) <= len b)%nat).
  { destruct (le_lt_dec (h1_base (m_hdr m) + len (flat_map wireA (ies_of (order_of d) (m_fs m)))) (len b)) as [|Hlt]; [assumption|exfalso].
    unfold v1_mto, msg_mto in E. change (msg_mlen io1 ho1 d m) with (v1_len d m) in E. rewrite A2 in E. cbn [bind] in E.
    assert (Hck : md_check d = true).
    { clear - Hd Hr. assert (forallb (fun d => md_reset d || md_check d) all1 = true) as H by (vm_compute; reflexivity).
      rewrite forallb_forall in H. specialize (H d Hd). rewrite Hr in H. exact H. }
    rewrite Hck, (proj2 (Nat.ltb_lt _ _) Hlt) in E. discriminate. }
  destruct (A3 b Hlb) as [E' _]. rewrite E' in E. injection E as <- <-.
  destruct (all1_parts d Hd) as (D1 & D2 & D4 & _). destruct (fields_ok_parts d D2) as (P1 & _).
  assert (Ha : all_wf wfA (m_fs m)) by (apply present_wf; [apply (typed_nodup d); assumption|exact Hw]).
  apply (stale_fails io1 ho1 _ _ ie_laws1 _ _ _ _ _ _ hd_laws1); auto.
  - intros i y Ey. unfold io1 in Ey. cbn [io_mto] in Ey. rewrite mto1_short in Ey; [discriminate|].
    cbn [List.length]. unfold mlen1. destruct (tv1 _); [lia|]. destruct (_ <? 128); [lia|]. destruct (xl1 _); lia.
  - cbn [m_fs]. intros Hz. change (ies_of (order_of d) (m_fs m)) with (in_order (m_fs m) (order_of d)) in A1. rewrite Hz in A1. apply Permutation_nil in A1. contradiction.
Qed.

(** ** No IE is lost *)
Definition drops_new1 : list string := ["CreatePDPContextResponse"; "UpdatePDPContextResponse"].
Definition drops_unm1 : list string := ["UpdatePDPContextResponse"].
Definition keeping1 : list mdesc := filter (fun d => negb (mem (md_name d) drops_new1)) all1.
Definition keeping1p : list mdesc := filter (fun d => negb (mem (md_name d) drops_unm1)) all1.
Lemma keeping1_ok : forallb (fun d => desc_ok 8 d && new_ok d && excl_table (md_new d) && keeps_table (md_new d)) keeping1 = true.
Proof. vm_compute. reflexivity. Qed.
Lemma keeping1p_ok : forallb (fun d => desc_ok 8 d && excl_table (md_unm d) && keeps_table (md_unm d)) keeping1p = true.
Proof. vm_compute. reflexivity. Qed.
Theorem v1_new_keeps d teid seq pre i post m : In d keeping1 ->
  v1_new d teid seq (pre ++ Some i :: post) = Ok m ->
  (exists f, In f (map fst (md_fields d)) /\ In (Some i) (fget (m_fs m) f)) \/
  (exists f j, In (f, FSingle) (md_fields d) /\ In (Some j) post /\ i1_type j = i1_type i /\ fget (m_fs m) f = [Some j]).
Proof.
  intros Hd Hm. pose proof keeping1_ok as H. rewrite forallb_forall in H. specialize (H d Hd).
  rewrite !andb_true_iff in H. destruct H as [[[D1 D2] D3] D4].
  exact (new_none_lost io1 ho1 d _ pre i post m 8 D1 D2 D3 D4 Hm).
Qed.
Theorem v1_parse_keeps b d m pre i post : In d keeping1p -> bytes_ok b -> v1_parse b = Ok (P1 d m) ->
  h1_payload (m_hdr m) = flat_map wireA (pre ++ i :: post) -> Forall wfA (pre ++ i :: post) ->
  (exists f, In f (map fst (md_fields d)) /\ In (Some i) (fget (m_fs m) f)) \/
  (exists f j, In (f, FSingle) (md_fields d) /\ In j post /\ i1_type j = i1_type i /\ fget (m_fs m) f = [Some j]).
Proof.
  intros Hd Hb Hp Hpay Hw. pose proof keeping1p_ok as H. rewrite forallb_forall in H. specialize (H d Hd).
  rewrite !andb_true_iff in H. destruct H as [[D1 D5] D6].
  destruct (v1_parse_parts b _ Hb Hp) as (t & E1 & E2 & Eh & E3 & E4). destruct (E4 d m eq_refl) as [_ Ep].
  apply (parse_none_lost io1 ho1 d b m 8 pre i post D1 D5 D6 Ep).
  - cbn [ho1 ho_payload]. rewrite Hpay, flat_map_app, app_length. cbn [flat_map]. rewrite app_length.
    assert (Hi : wfA i) by (rewrite Forall_forall in Hw; apply Hw, in_or_app; right; left; reflexivity).
    pose proof (wf1_min _ _ tv1_lt xl1_ge i Hi). unfold desc_ok in D1. rewrite !andb_true_iff in D1. destruct D1 as [[_ D1] _]. apply Nat.leb_le in D1. lia.
  - cbn [ho1 ho_payload io1 io_multi]. rewrite Hpay. apply multi1_wire; [exact tv1_lt|exact xl1_ge|exact Hw].
Qed.

(** ** NewGeneric *)
Theorem v1_generic_roundtrip mt teid seq ies : mt < 256 -> teid < 4294967296 -> seq < 65536 ->
  Forall wfA ies -> N.of_nat (12 + len (flat_map wireA ies)) < 65536 ->
  exists m b m1, v1_new_generic mt teid seq (map Some ies) = Ok m /\
    v1_marshal d_Generic1 m = Ok (b, m1) /\ v1_parse_as d_Generic1 b = Ok m1 /\
    fget (m_fs m1) "IEs" = map Some ies /\ h1_type (m_hdr m1) = mt /\ h1_teid (m_hdr m1) = teid /\ h1_seq (m_hdr m1) = seq.
Proof.
  intros Hmt Ht Hs Hw Hn.
  assert (Hd : In d_Generic1 all1) by apply in_eq. destruct (all1_parts _ Hd) as (D1 & D2 & D4 & _).
  set (h := new_hdr1 50 mt teid seq []). set (fs := [("IEs", map Some ies)] : @fmap ie1).
  assert (Hok : h1_ok h).
  { constructor; cbn; auto; try lia. discriminate. }
  assert (S1 : typed_fields d_Generic1 fs).
  { split; [reflexivity|]. split.
    - intros f [Hf|[]]. discriminate.
    - intros f. unfold fs, fget. destruct (String.eqb _ _); [|intros []]. intros Hi. apply in_map_iff in Hi. destruct Hi as (? & ? & _). discriminate. }
  assert (Ha : all_wf wfA fs).
  { intros f i. unfold fs. cbn [fget]. destruct (String.eqb _ _); [|intros []]. intros Hi. apply in_map_iff in Hi. destruct Hi as (j & Hj & Hin).
    injection Hj as <-. rewrite Forall_forall in Hw. apply Hw, Hin. }
  assert (Hbody : body wireA d_Generic1 fs = flat_map wireA ies).
  { unfold body. cbn [order_of d_Generic1 d_Generic md_steps map step_field in_order flat_map fs fget String.eqb Ascii.eqb Bool.eqb].
    change (fget fs "IEs") with (map Some ies). rewrite app_nil_r. f_equal. apply somes_map. }
  pose proof (msg_mlen_ok _ ho1 _ _ ie_laws1 _ _ _ _ _ _ hd_laws1 d_Generic1 (Msg h fs) D2 S1 Ha) as Hlen.
  cbn [m_hdr m_fs] in Hlen. rewrite Hbody in Hlen. change (h1_base h) with 12%nat in Hlen.
  set (n := (12 + len (flat_map wireA ies))%nat) in *.
  set (m := Msg (h1_set_len h (u16 (N.of_nat (n - 8)))) fs : msg1).
  assert (Em : v1_new_generic mt teid seq (map Some ies) = Ok m).
  { unfold v1_new_generic, msg_set_length. fold h. change (Msg h [("IEs", map Some ies)]) with (Msg h fs : msg1). rewrite Hlen. cbn [bind m_hdr m_fs].
    unfold m. cbn [ho1 ho_set_len d_Generic1 d_Generic md_sub]. do 3 f_equal. unfold u16. f_equal. lia. }
  assert (Hokm : h1_ok (m_hdr m)) by (destruct Hok; constructor; assumption).
  destruct (marshal_ok _ ho1 _ _ ie_laws1 _ _ _ _ _ _ hd_laws1 d_Generic1 m D2 S1 Ha Hokm (or_introl eq_refl)) as [M1 _].
  exists m. eexists _, (Msg (m_hdr (filled ho1 wireA d_Generic1 m)) fs). split; [exact Em|]. split; [exact M1|]. split.
  - unfold v1_parse_as. rewrite (parse_filled _ ho1 _ _ ie_laws1 _ _ _ _ _ _ hd_laws1 d_Generic1 m D1 S1 Ha).
    + reflexivity.
    + intros f i Hi. cbn [m m_fs fget fs] in Hi. destruct (String.eqb_spec "IEs" f) as [<-|]; [|destruct Hi].
      exists FList. split; [left; reflexivity|]. split; [left; reflexivity|]. reflexivity.
    + exact Hokm.
    + cbn [m m_fs]. rewrite Hbody. exact Hn.
    + cbn [m m_fs]. rewrite Hbody. change (h1_base _) with 12%nat. lia.
  - repeat split.
Qed.
