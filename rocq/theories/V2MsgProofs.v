From Coq Require Import String Permutation Lia ZifyBool.
From Verif Require Import Base BaseLemmas V2IE V2IESpec V2IEProofs V2Header V2HeaderProofs.
From Verif Require Import MsgModel MsgProofs MsgProofs2 MsgProofs3 GenericMsg Msgs2Gen V2Msg MsgSpec.
Open Scope string_scope.
Open Scope N_scope.
Open Scope list_scope.

(** header fields in range; nothing about payload and Length *)
Record h2_ok (h : hdr2) : Prop := {
  h2o_flags : h2_flags h < 256;
  h2o_type : h2_type h < 256;
  h2o_teid : h2_teid h < 4294967296;
  h2o_noteid : h2_has_teid h = false -> h2_teid h = 0;
  h2o_seq : h2_seq h < 16777216;
  h2o_spare : h2_spare h < 256 }.

Definition h2_base (h : hdr2) : nat := if h2_has_teid h then 12%nat else 8%nat.

Lemma ie_laws2 g : ie_laws (io2 g) (wf2 g) (wire2 g).
Proof.
  constructor; cbn [io2 io_mto io_mlen io_inst io_multi].
  - intros i _. apply mto_writes.
  - intros i _. apply len_wire.
  - intros i _. rewrite len_wire. pose proof (mlen_ge4 g i). lia.
  - intros i Hi. apply wf_bytes_ok, Hi.
  - intros i. apply land15.
  - intros l Hl. apply multi2_wire, Hl.
Qed.

Lemma h2_setlen h : h2_set_length h = h2_set_len h (u16 (N.of_nat (h2_mlen h) - 4)).
Proof.
  unfold h2_set_length, h2_mlen. f_equal. destruct (h2_has_teid h); unfold u16; lia.
Qed.

Lemma hd_laws2 : hd_laws ho2 h2_ok h2_base h2_wire (fun h => h) 12 4.
Proof.
  constructor; cbn [ho2 ho_mlen ho_payload ho_set_payload ho_set_len ho_set_length ho_mto ho_parse].
  - intros h. unfold h2_mlen, h2_base. destruct (h2_has_teid h); lia.
  - reflexivity.
  - reflexivity.
  - reflexivity.
  - reflexivity.
  - reflexivity.
  - reflexivity.
  - reflexivity.
  - apply h2_setlen.
  - intros h p []. constructor; assumption.
  - intros h p []. constructor; assumption.
  - reflexivity.
  - intros h _. apply h2_wire_len.
  - intros h _. apply h2_marshal_ok.
  - intros h Hh Hp Hl Hm.
    assert (E : h2_mlen (h2_set_length h) = h2_mlen h) by reflexivity.
    rewrite <- (app_nil_r (h2_wire _)). apply h2_parse_wire.
    + destruct Hh. constructor; try assumption. rewrite E. apply h2_set_length_exact, Hl.
    + rewrite E. exact Hm.
Qed.

(** ** The descriptors *)
(** messages whose code breaks the size claim (see Properties2Msg.v) *)
Definition bad_size2 : list string := ["ContextResponse"; "CreateSessionRequest"].
(** messages whose constructor and parser disagree *)
Definition bad_new2 : list string := ["CreateBearerResponse"].
Definition named (l : list string) (d : mdesc) : bool := mem (md_name d) l.
(** all messages, Generic included, but those *)
Definition sized2 : list mdesc := d_Generic2 :: filter (fun d => negb (named bad_size2 d)) all_msgs2.
Definition built2 : list mdesc := filter (fun d => negb (named (bad_size2 ++ bad_new2) d)) all_msgs2.

Lemma sized2_ok : forallb (fun d => desc_ok 4 d && md_reset d && covers d) sized2 = true.
Proof. vm_compute. reflexivity. Qed.
Lemma built2_ok : forallb (fun d => desc_ok 4 d && md_reset d && covers d && new_ok d) built2 = true.
Proof. vm_compute. reflexivity. Qed.

Lemma sized2_parts d : In d sized2 -> desc_ok 4 d = true /\ fields_ok d = true /\ md_reset d = true /\ covers d = true.
Proof.
  intros Hd. pose proof sized2_ok as H. rewrite forallb_forall in H. specialize (H d Hd).
  rewrite !andb_true_iff in H. destruct H as [[H1 H2] H3].
  repeat split; try assumption. unfold desc_ok in H1. rewrite !andb_true_iff in H1. tauto.
Qed.
Lemma built2_parts d : In d built2 -> desc_ok 4 d = true /\ fields_ok d = true /\ md_reset d = true /\ covers d = true /\ new_ok d = true.
Proof.
  intros Hd. pose proof built2_ok as H. rewrite forallb_forall in H. specialize (H d Hd).
  rewrite !andb_true_iff in H. destruct H as [[[H1 H2] H3] H4].
  repeat split; try assumption. unfold desc_ok in H1. rewrite !andb_true_iff in H1. tauto.
Qed.

(** constructor, dispatch and TS 29.274 agree on the type octet *)
Definition ctor2_check (d : mdesc) : bool :=
  match md_ctor d with
  | Ctor v p t mt has =>
      (v =? 2) && (p =? 0) && (mt <? 256) && (t =? if has then 1 else 0)
      && String.eqb (md_name (struct2 mt)) (md_name d) && String.eqb (ts29274 mt) (md_name d)
  | _ => false
  end.
Lemma ctor2_check_all : forallb ctor2_check all_msgs2 = true.
Proof. vm_compute. reflexivity. Qed.
Lemma ctor2_check_ok d : In d all_msgs2 -> ctor2_check d = true.
Proof. exact (proj1 (forallb_forall ctor2_check all_msgs2) ctor2_check_all d). Qed.
Lemma built2_all d : In d built2 -> In d all_msgs2.
Proof. unfold built2. rewrite filter_In. intros [H _]. exact H. Qed.
Lemma names2_nodup : nodups (map md_name all_msgs2) = true.
Proof. vm_compute. reflexivity. Qed.
Lemma name_unique (l : list mdesc) d d' : NoDup (map md_name l) -> In d l -> In d' l -> md_name d = md_name d' -> d = d'.
Proof.
  induction l as [|x r IH]; cbn [map]; intros Hn; [intros []|]. inv Hn.
  intros [->|Hd] [->|Hd'] E.
  - reflexivity.
  - exfalso. apply H1. rewrite E. apply in_map, Hd'.
  - exfalso. apply H1. rewrite <- E. apply in_map, Hd.
  - apply IH; assumption.
Qed.
Lemma no_generic2 : mem "Generic" (map md_name all_msgs2) = false.
Proof. vm_compute. reflexivity. Qed.
Lemma struct2_cases t : struct2 t = d_Generic2 \/ In (struct2 t) all_msgs2.
Proof.
  unfold struct2. destruct (find _ parse_rows2) as [[k n]|]; [|left; reflexivity].
  unfold lookup2. destruct (find _ all_msgs2) as [d|] eqn:E; [|left; reflexivity].
  right. apply find_some in E. apply E.
Qed.
Lemma struct2_named t d : In d all_msgs2 -> md_name (struct2 t) = md_name d -> struct2 t = d.
Proof.
  intros Hd E. destruct (struct2_cases t) as [G|G].
  - exfalso. pose proof no_generic2 as Hn. rewrite G in E. cbn in E.
    assert (mem "Generic" (map md_name all_msgs2) = true); [|congruence].
    apply mem_In. rewrite E. apply in_map, Hd.
  - apply (name_unique all_msgs2); auto. apply nodups_NoDup, names2_nodup.
Qed.
Lemma struct2_spec : forallb (fun t => String.eqb (md_name (struct2 t)) (ts29274 t)) (below 256) = true.
Proof. vm_compute. reflexivity. Qed.

Section G.
Context (g : N -> bool).

(** ** Totality of Parse *)
Theorem v2_parse_as_safe d b : bytes_ok b -> safe (v2_parse_as g d b).
Proof.
  intros Hb. apply parse_total; [apply h2_parse_safe, Hb|].
  intros h Hh. apply multi2_safe. cbn [ho2 ho_payload ho_parse] in *. eapply h2_parse_inv in Hh; [|exact Hb]. tauto.
Qed.
Theorem v2_parse_safe b : bytes_ok b -> safe (v2_parse g b).
Proof.
  intros Hb. unfold v2_parse. destruct (len b <? 2)%nat eqn:E; [apply safe_err|]. apply Nat.ltb_ge in E.
  apply safe_bind; [safe_tac|]. intros t Ht. apply safe_bind; [apply v2_parse_as_safe, Hb|].
  intros m Hm. apply safe_ok.
Qed.

(** ** Marshalled size and layout *)
Lemma h2_wire_octets h p :
  h2_has_teid h = N.testbit (h2_flags h) 3 ->
  N.of_nat (h2_mlen (h2_set_payload h p)) < 65540 ->
  h2_wire (h2_set_length (h2_set_payload h p)) =
  v2_octets (h2_flags h) (h2_type h) (h2_teid h) (h2_seq h) (h2_spare h) p.
Proof.
  intros Ht Hn. rewrite h2_setlen. unfold h2_wire, h2_wire_head, v2_octets. cbv zeta.
  change (h2_has_teid (h2_set_len ?x ?n)) with (h2_has_teid x). change (h2_has_teid (h2_set_payload ?x ?n)) with (h2_has_teid x).
  cbn [h2_flags h2_type h2_length h2_teid h2_seq h2_spare h2_payload h2_set_payload h2_set_len].
  rewrite <- Ht. set (n := u16 _). set (tt := if h2_has_teid h then _ else _).
  assert (E : n = N.of_nat (len (tt ++ enc24 (h2_seq h) ++ [h2_spare h] ++ p))).
  { unfold n, tt. unfold h2_mlen in *. change (h2_has_teid (h2_set_payload h p)) with (h2_has_teid h) in *.
    cbn [h2_payload h2_set_payload] in *.
    rewrite !app_length. destruct (h2_has_teid h); cbn [List.length enc32 enc24]; unfold u16; lia. }
  rewrite <- E. rewrite <- !app_assoc. reflexivity.
Qed.
Lemma has_teid_bit f : f < 256 -> h2_has_teid_f f = N.testbit f 3.
Proof.
  intros Hf. unfold h2_has_teid_f. change 1 with (N.ones 1) at 1. rewrite N.land_ones.
  rewrite N.testbit_eqb, N.shiftr_div_pow2. cbn [N.pow Pos.pow Pos.iter Pos.mul]. reflexivity.
Qed.

Theorem v2_layout_of d m : fields_ok d = true -> md_reset d = true -> covers d = true -> typed_fields d (m_fs m) -> Forall (wf2 g) (present (m_fs m)) ->
  h2_ok (m_hdr m) ->
  let l := ies_of (order_of d) (m_fs m) in Permutation l (present (m_fs m)) /\
  let h := m_hdr m in
  let n := (h2_base h + len (flat_map (wire2 g) l))%nat in
  v2_len g d m = Ok n /\
  exists w m1, v2_marshal g d m = Ok (w, m1) /\ len w = n /\ m_fs m1 = m_fs m /\
    (forall b, (n <= len b)%nat -> v2_mto g d m b = Ok (w ++ skipn n b, m1)) /\
    (N.of_nat n < 65540 ->
     w = v2_octets (h2_flags h) (h2_type h) (h2_teid h) (h2_seq h) (h2_spare h) (flat_map (wire2 g) l)).
Proof.
  intros D2 D3 D4 Hs Hw Hh.
  destruct (fields_ok_parts d D2) as (P1 & _).
  assert (Hk : keys (m_fs m) = map fst (md_fields d)) by apply Hs.
  assert (Hnd : NoDup (keys (m_fs m))) by (rewrite Hk; exact P1).
  assert (Ha : all_wf (wf2 g) (m_fs m)) by (apply present_wf; assumption).
  cbv zeta. change (ies_of (order_of d) (m_fs m)) with (in_order (m_fs m) (order_of d)).
  split; [apply in_order_present; assumption|].
  change (flat_map (wire2 g) (in_order (m_fs m) (order_of d))) with (body (wire2 g) d (m_fs m)).
  pose proof (msg_mlen_ok _ ho2 _ _ (ie_laws2 g) _ _ _ _ _ _ hd_laws2 d m D2 (typed_shape _ _ Hs) Ha) as Hm.
  split; [exact Hm|].
  destruct (marshal_ok _ ho2 _ _ (ie_laws2 g) _ _ _ _ _ _ hd_laws2 d m D2 (typed_shape _ _ Hs) Ha Hh (or_introl D3)) as [M1 M2].
  unfold v2_marshal. rewrite M1. rewrite Hm in M2. injection M2 as M2.
  eexists _, _. split; [reflexivity|]. split; [symmetry; exact M2|]. split; [reflexivity|]. split.
  - intros b Hb. unfold v2_mto. rewrite M2 in *.
    rewrite (msg_mto_writes _ ho2 _ _ (ie_laws2 g) _ _ _ _ _ _ hd_laws2 d m b D2 (typed_shape _ _ Hs) Ha Hh (or_introl D3)); [|intros; apply h2_mto_writes|exact Hb].
    reflexivity.
  - intros Hn. cbn [filled m_hdr ho2 ho_set_length ho_set_payload]. apply h2_wire_octets.
    + apply has_teid_bit, Hh.
    + revert Hn. unfold h2_base, h2_mlen. change (h2_has_teid (h2_set_payload ?x ?n)) with (h2_has_teid x).
      cbn [h2_payload h2_set_payload]. destruct (h2_has_teid (m_hdr m)); lia.
Qed.
Theorem v2_marshal_layout d m : In d sized2 -> typed_fields d (m_fs m) -> Forall (wf2 g) (present (m_fs m)) ->
  h2_ok (m_hdr m) ->
  let l := ies_of (order_of d) (m_fs m) in Permutation l (present (m_fs m)) /\
  let h := m_hdr m in
  let n := (h2_base h + len (flat_map (wire2 g) l))%nat in
  v2_len g d m = Ok n /\
  exists w m1, v2_marshal g d m = Ok (w, m1) /\ len w = n /\ m_fs m1 = m_fs m /\
    (forall b, (n <= len b)%nat -> v2_mto g d m b = Ok (w ++ skipn n b, m1)) /\
    (N.of_nat n < 65540 ->
     w = v2_octets (h2_flags h) (h2_type h) (h2_teid h) (h2_seq h) (h2_spare h) (flat_map (wire2 g) l)).
Proof. intros Hd. destruct (sized2_parts d Hd) as (D1 & D2 & D3 & D4). apply v2_layout_of; assumption. Qed.

(** ** Construct, marshal, parse *)
Lemma ctor2_all d teid seq : In d all_msgs2 -> teid < 4294967296 -> seq < 16777216 ->
  exists p t mt has, md_ctor d = Ctor 2 p t mt has /\
  h2_ok (ctor2 (md_ctor d) teid seq) /\ h2_payload (ctor2 (md_ctor d) teid seq) = [] /\
  h2_type (ctor2 (md_ctor d) teid seq) = mt /\ h2_seq (ctor2 (md_ctor d) teid seq) = seq /\
  h2_teid (ctor2 (md_ctor d) teid seq) = (if has then teid else 0) /\
  h2_has_teid (ctor2 (md_ctor d) teid seq) = has /\ struct2 mt = d /\ ts29274 mt = md_name d.
Proof.
  intros Hd' Ht Hs.
  pose proof (ctor2_check_ok d Hd') as G.
  unfold ctor2_check in G. destruct (md_ctor d) as [v p t mt has| |] eqn:E; try discriminate.
  rewrite !andb_true_iff in G. destruct G as [[[[[Gv Gp] Gm] Gt] Gs] Gn].
  apply N.eqb_eq in Gv, Gp. subst v p. apply N.ltb_lt in Gm. apply String.eqb_eq in Gs, Gn.
  assert (Hst : struct2 mt = d) by (apply struct2_named; assumption).
  assert (Hname : ts29274 mt = md_name d) by exact Gn.
  assert (Hc : has = true /\ t = 1 \/ has = false /\ t = 0).
  { destruct has; [left|right]; (split; [reflexivity|apply N.eqb_eq, Gt]). }
  exists 0, t, mt, has. split; [reflexivity|]. cbn [ctor2].
  assert (Hfl : h2_has_teid_f (new_hdr2_flags 2 0 t) = has /\ new_hdr2_flags 2 0 t < 256).
  { destruct Hc as [[-> ->]|[-> ->]]; vm_compute; auto. }
  destruct Hfl as [Hf1 Hf2].
  split; [|repeat split; auto].
  constructor; cbn [new_hdr2 h2_set_length h2_set_len h2_flags h2_type h2_teid h2_seq h2_spare h2_payload h2_has_teid]; auto; try lia.
  - destruct has; lia.
  - unfold h2_has_teid. cbn. rewrite Hf1. intros ->. reflexivity.
Qed.
Lemma ctor2_ok d teid seq : In d built2 -> teid < 4294967296 -> seq < 16777216 ->
  exists p t mt has, md_ctor d = Ctor 2 p t mt has /\
  h2_ok (ctor2 (md_ctor d) teid seq) /\ h2_payload (ctor2 (md_ctor d) teid seq) = [] /\
  h2_type (ctor2 (md_ctor d) teid seq) = mt /\ h2_seq (ctor2 (md_ctor d) teid seq) = seq /\
  h2_teid (ctor2 (md_ctor d) teid seq) = (if has then teid else 0) /\
  h2_has_teid (ctor2 (md_ctor d) teid seq) = has /\ struct2 mt = d /\ ts29274 mt = md_name d.
Proof. intros Hd. apply ctor2_all, built2_all, Hd. Qed.

Lemma v2_parse_as_type d b m : msg_parse (io2 g) ho2 d b = Ok m -> idx b 1 = Ok (h2_type (m_hdr m)) /\ (12 <= len b)%nat.
Proof.
  intros Hp. unfold msg_parse in Hp. apply bind_ok_inv in Hp. destruct Hp as (h & Eh & Hp).
  assert (Hh : m_hdr m = h).
  { destruct (len (ho_payload ho2 h) <? md_min d)%nat; [injection Hp as <-; reflexivity|].
    destruct (io_multi (io2 g) (ho_payload ho2 h)) as [l|e|]; [| |discriminate].
    - rewrite run_table_some in Hp. injection Hp as <-. reflexivity.
    - destruct e; try discriminate. destruct (md_soft d); [injection Hp as <-; reflexivity|discriminate]. }
  rewrite Hh. cbn [ho2 ho_parse] in Eh. unfold h2_parse in Eh. cbv zeta in Eh.
  destruct (len b <? 12)%nat eqn:El; [discriminate|]. apply Nat.ltb_ge in El. split; [|exact El].
  apply bind_ok_inv in Eh. destruct Eh as (fl & E0 & Eh). apply bind_ok_inv in Eh. destruct Eh as (ty & E1 & Eh).
  rewrite E1. f_equal. apply bind_ok_inv in Eh. destruct Eh as (s & _ & Eh). apply bind_ok_inv in Eh. destruct Eh as (ln & _ & Eh).
  destruct (ln <? 4); [discriminate|]. destruct (h2_has_teid_f fl).
  - destruct (ln <? 8); [discriminate|].
    apply bind_ok_inv in Eh. destruct Eh as (s1 & _ & Eh). apply bind_ok_inv in Eh. destruct Eh as (te & _ & Eh).
    apply bind_ok_inv in Eh. destruct Eh as (s2 & _ & Eh). apply bind_ok_inv in Eh. destruct Eh as (sp & _ & Eh).
    destruct (len b <? _)%nat; [|destruct (12 <=? _); [|discriminate]];
    apply bind_ok_inv in Eh; destruct Eh as (p & _ & Eh); injection Eh as <-; reflexivity.
  - apply bind_ok_inv in Eh. destruct Eh as (s2 & _ & Eh). apply bind_ok_inv in Eh. destruct Eh as (sp & _ & Eh).
    destruct (len b <? _)%nat; [|destruct (8 <=? _); [|discriminate]];
    apply bind_ok_inv in Eh; destruct Eh as (p & _ & Eh); injection Eh as <-; reflexivity.
Qed.

Theorem v2_new_roundtrip d teid seq ies : In d built2 -> teid < 4294967296 -> seq < 16777216 ->
  Forall (wf2 g) (nonnil ies) ->
  exists m, v2_new g d teid seq ies = Ok m /\ typed_fields d (m_fs m) /\
    (forall n, v2_len g d m = Ok n -> (12 <= n)%nat -> N.of_nat n < 65536 ->
     exists b m1, v2_marshal g d m = Ok (b, m1) /\ len b = n /\
       v2_parse g b = Ok (d, m1) /\ m_fs m1 = m_fs m /\
       h2_seq (m_hdr m1) = seq /\ h2_get_teid (m_hdr m1) = (match md_ctor d with Ctor _ _ _ _ true => teid | _ => 0 end) /\
       ts29274 (h2_type (m_hdr m1)) = md_name d).
Proof.
  intros Hd Ht Hs Hf. destruct (built2_parts d Hd) as (D1 & D2 & D3 & D4 & D5).
  destruct (ctor2_ok d teid seq Hd Ht Hs) as (p & t & mt & has & E & Ho & Hp & Hty & Hsq & Hte & Hht & Hst & Hname).
  destruct (new_roundtrip _ ho2 _ _ (ie_laws2 g) _ _ _ _ _ _ hd_laws2 d (ctor2 (md_ctor d) teid seq) ies D1 D5 Ho Hp Hf) as (m & M1 & S1 & S2 & S3 & M4 & M5 & M6).
  exists m. split; [exact M1|]. split; [exact S1|]. intros n Hn H12 H16.
  assert (En : n = (h2_base (ctor2 (md_ctor d) teid seq) + len (body (wire2 g) d (m_fs m)))%nat).
  { unfold v2_len in Hn. rewrite M5 in Hn. injection Hn as Hn. symmetry. exact Hn. }
  rewrite <- En in M6. destruct (M6 H16 H12) as (b & m1 & B1 & B2 & B3 & B4 & B5).
  assert (Em1 : forall h, m_hdr m1 = h -> Msg h (m_fs m) = m1) by (intros h <-; rewrite <- B3; destruct m1; reflexivity).
  rewrite (Em1 _ eq_refl) in B5. rewrite M4 in B4.
  assert (Hty1 : h2_type (m_hdr m1) = mt) by (rewrite B4, <- Hty; reflexivity).
  exists b, m1. split; [exact B1|]. split; [exact B2|]. split.
  { unfold v2_parse. pose proof (v2_parse_as_type d b m1 B5) as [Hb Hlb]. rewrite Hty1 in Hb.
    rewrite (proj2 (Nat.ltb_ge (len b) 2)) by lia. rewrite Hb. cbn [bind]. rewrite Hst. unfold v2_parse_as. rewrite B5. reflexivity. }
  split; [exact B3|]. split; [rewrite B4; exact Hsq|]. split.
  - rewrite E. unfold h2_get_teid. rewrite E in *.
    replace (h2_has_teid (m_hdr m1)) with (h2_has_teid (ctor2 (Ctor 2 p t mt has) teid seq)) by (rewrite B4; reflexivity).
    replace (h2_teid (m_hdr m1)) with (if has then teid else 0) by (rewrite B4; symmetry; exact Hte).
    rewrite Hht. destruct has; reflexivity.
  - rewrite Hty1. apply Hname.
Qed.

(** ** What Parse returns *)
Lemma v2_parse_parts b d m : v2_parse g b = Ok (d, m) ->
  exists t, idx b 1 = Ok t /\ d = struct2 t /\ h2_type (m_hdr m) = t /\ v2_parse_as g d b = Ok m.
Proof.
  unfold v2_parse. destruct (len b <? 2)%nat eqn:E; [discriminate|]. intros H.
  apply bind_ok_inv in H. destruct H as (t & Et & H). apply bind_ok_inv in H. destruct H as (m' & Em & H).
  injection H as <- <-. exists t. split; [exact Et|]. split; [reflexivity|]. split; [|exact Em].
  destruct (v2_parse_as_type _ _ _ Em) as [E1 _]. rewrite Et in E1. injection E1 as E1. symmetry. exact E1.
Qed.
Theorem v2_dispatch b d m : bytes_ok b -> v2_parse g b = Ok (d, m) ->
  exists t, idx b 1 = Ok t /\ h2_type (m_hdr m) = t /\ md_name d = ts29274 t.
Proof.
  intros Hb H. destruct (v2_parse_parts b d m H) as (t & E1 & -> & E2 & _). exists t.
  split; [exact E1|]. split; [exact E2|]. pose proof struct2_spec as S. rewrite forallb_forall in S.
  apply String.eqb_eq, S. apply below_complete. eapply idx_byte; eassumption.
Qed.
Lemma struct2_sized t : named bad_size2 (struct2 t) = false -> In (struct2 t) sized2.
Proof.
  intros Hn. unfold sized2. destruct (struct2_cases t) as [->|Hin]; [apply in_eq|apply in_cons].
  rewrite filter_In. split; [exact Hin|]. rewrite Hn. reflexivity.
Qed.
Lemma v2_laws_multi p l : io_multi (io2 g) p = Ok l -> bytes_ok p -> Forall (wf2 g) l.
Proof. intros H Hp. eapply multi2_inv; eassumption. Qed.
Lemma v2_laws_multi' p l : io_multi (io2 g) p = Ok l -> bytes_ok p -> p = flat_map (wire2 g) l.
Proof. intros H Hp. eapply multi2_inv; eassumption. Qed.
Lemma v2_laws_hdr b h : bytes_ok b -> ho_parse ho2 b = Ok h -> bytes_ok (ho_payload ho2 h) /\ h2_ok h.
Proof.
  intros Hb Hh. apply h2_parse_inv in Hh; [|exact Hb]. destruct Hh as (A1 & A2 & A3 & A4 & A5 & A6 & A7 & A8 & _).
  split; [exact A8|]. constructor; assumption.
Qed.

Theorem v2_remarshal b d m : bytes_ok b -> N.of_nat (len b) < 65536 -> v2_parse g b = Ok (d, m) ->
  named bad_size2 d = false -> (h2_has_teid (m_hdr m) = true \/ present (m_fs m) <> []) ->
  exists b' m1, v2_marshal g d m = Ok (b', m1) /\ v2_parse g b' = Ok (d, m1) /\ m_fs m1 = m_fs m /\
    (len b' <= len b)%nat /\
    h2_flags (m_hdr m1) = h2_flags (m_hdr m) /\ h2_type (m_hdr m1) = h2_type (m_hdr m) /\
    h2_teid (m_hdr m1) = h2_teid (m_hdr m) /\ h2_seq (m_hdr m1) = h2_seq (m_hdr m) /\
    h2_spare (m_hdr m1) = h2_spare (m_hdr m).
Proof.
  intros Hb Hlb Hp Hn Hne. destruct (v2_parse_parts b d m Hp) as (t & E1 & Ed & E2 & Ep).
  assert (Hd : In d sized2) by (rewrite Ed in *; apply struct2_sized, Hn).
  destruct (sized2_parts d Hd) as (D1 & D2 & D3 & D4).
  destruct (fields_ok_parts d D2) as (P1 & _).
  destruct (parse_parts _ ho2 _ _ (ie_laws2 g) 4 (wf2 g) d b m D1 Ep (fun h l Hh Hl => v2_laws_multi _ _ Hl (proj1 (v2_laws_hdr b h Hb Hh)))) as (Eh & S1 & S2 & S3).
  pose proof (parse_size (io2 g) ho2 (wire2 g) d b m 4 D1 Ep v2_laws_multi' (fun h Hh => proj1 (v2_laws_hdr b h Hb Hh))) as Hsz.
  assert (Hpl : (h2_base (m_hdr m) + len (ho_payload ho2 (m_hdr m)) <= len b)%nat).
  { cbn [ho2 ho_parse ho_payload] in *. apply h2_parse_inv in Eh; [|exact Hb]. destruct Eh as (_&_&_&_&_&_&_&_&_&_&q&Eq).
    rewrite Eq, app_length, h2_wire_len. unfold h2_mlen, h2_base. destruct (h2_has_teid (m_hdr m)); lia. }
  assert (Hmin : (12 <= h2_base (m_hdr m) + len (body (wire2 g) d (m_fs m)))%nat).
  { unfold h2_base. destruct (h2_has_teid (m_hdr m)); [lia|]. destruct Hne as [Hne|Hne]; [discriminate|].
    pose proof (in_order_present d (m_fs m) D2 D4 (proj1 S1)) as Hperm.
    unfold body. destruct (in_order (m_fs m) (order_of d)) as [|i r].
    - apply Permutation_nil in Hperm. contradiction.
    - cbn [flat_map]. rewrite app_length, len_wire. pose proof (mlen_ge4 g i). lia. }
  destruct (remarshal _ ho2 _ _ (ie_laws2 g) _ _ _ _ _ _ hd_laws2 d b m D1 D3 Ep (fun h Hh => proj2 (v2_laws_hdr b h Hb Hh)) S2)
    as (b' & m1 & B1 & B2 & B3 & B4 & B5).
  - cbn [ho2 ho_payload] in *. lia.
  - exact Hmin.
  - assert (Em1 : forall h, m_hdr m1 = h -> Msg h (m_fs m) = m1) by (intros h <-; rewrite <- B3; destruct m1; reflexivity).
    rewrite (Em1 _ eq_refl) in B5. exists b', m1.
    split; [exact B1|]. split.
    { unfold v2_parse. destruct (v2_parse_as_type _ _ _ B5) as [Hb1 Hb2].
      rewrite (proj2 (Nat.ltb_ge (len b') 2)) by lia. rewrite Hb1. cbn [bind].
      assert (Et : h2_type (m_hdr m1) = t) by (rewrite B4, <- E2; reflexivity). rewrite Et, <- Ed.
      unfold v2_parse_as. rewrite B5. reflexivity. }
    split; [exact B3|]. split; [cbn [ho2 ho_payload] in *; lia|].
    rewrite B4. repeat split; reflexivity.
Qed.

(** ** No IE is lost *)
Definition drops_new2 : list string :=
  ["CreateBearerResponse"; "CreateSessionRequest"; "DeleteBearerCommand"; "DeleteBearerFailureIndication";
   "ModifyAccessBearersRequest"; "ModifyAccessBearersResponse"; "ModifyBearerCommand";
   "ModifyBearerFailureIndication"; "ResumeAcknowledge"; "ResumeNotification"; "UpdateBearerResponse";
   "ContextResponse"].
Definition keeping2 : list mdesc := d_Generic2 :: filter (fun d => negb (named drops_new2 d)) all_msgs2.
Lemma keeping2_ok : forallb (fun d => desc_ok 4 d && new_ok d && excl_table (md_new d) && keeps_table (md_new d)
   && excl_table (md_unm d) && keeps_table (md_unm d)) keeping2 = true.
Proof. vm_compute. reflexivity. Qed.
Lemma keeping2_parts d : In d keeping2 -> desc_ok 4 d = true /\ new_ok d = true /\ excl_table (md_new d) = true /\ keeps_table (md_new d) = true
  /\ excl_table (md_unm d) = true /\ keeps_table (md_unm d) = true.
Proof.
  intros Hd. pose proof keeping2_ok as H. rewrite forallb_forall in H. specialize (H d Hd).
  rewrite !andb_true_iff in H. tauto.
Qed.
Theorem v2_new_keeps d teid seq pre i post m : In d keeping2 ->
  v2_new g d teid seq (pre ++ Some i :: post) = Ok m ->
  (exists f, In f (map fst (md_fields d)) /\ In (Some i) (fget (m_fs m) f)) \/
  (exists f j, In (f, FSingle) (md_fields d) /\ In (Some j) post /\ i2_type j = i2_type i /\ fget (m_fs m) f = [Some j]).
Proof.
  intros Hd Hm. destruct (keeping2_parts d Hd) as (D1 & D2 & D3 & D4 & _ & _).
  exact (new_none_lost (io2 g) ho2 d _ pre i post m 4 D1 D2 D3 D4 Hm).
Qed.
Lemma md_min2 d : In d keeping2 -> (md_min d <= 2)%nat.
Proof.
  intros Hd. destruct (keeping2_parts d Hd) as (D1 & _). unfold desc_ok in D1. rewrite !andb_true_iff in D1.
  apply Nat.leb_le. tauto.
Qed.
Theorem v2_parse_keeps b d m pre i post : In d keeping2 -> bytes_ok b -> v2_parse g b = Ok (d, m) ->
  h2_payload (m_hdr m) = flat_map (wire2 g) (pre ++ i :: post) -> Forall (wf2 g) (pre ++ i :: post) ->
  (exists f, In f (map fst (md_fields d)) /\ In (Some i) (fget (m_fs m) f)) \/
  (exists f j, In (f, FSingle) (md_fields d) /\ In j post /\ i2_type j = i2_type i /\ fget (m_fs m) f = [Some j]).
Proof.
  intros Hd Hb Hp Hpay Hw. destruct (keeping2_parts d Hd) as (D1 & _ & _ & _ & D5 & D6).
  destruct (v2_parse_parts b d m Hp) as (t & E1 & Ed & E2 & Ep).
  apply (parse_none_lost (io2 g) ho2 d b m 4 pre i post D1 D5 D6 Ep).
  - cbn [ho2 ho_payload]. rewrite Hpay, flat_map_app, app_length. cbn [flat_map]. rewrite app_length, (len_wire g i).
    pose proof (mlen_ge4 g i). pose proof (md_min2 d Hd). lia.
  - cbn [ho2 ho_payload io2 io_multi]. rewrite Hpay. apply multi2_wire, Hw.
Qed.

(** ** NewGeneric *)
Theorem v2_generic_roundtrip mt teid seq ies : mt < 256 -> teid < 4294967296 -> seq < 16777216 ->
  Forall (wf2 g) ies -> N.of_nat (12 + len (flat_map (wire2 g) ies)) < 65536 ->
  exists m b m1, v2_new_generic g mt teid seq (map Some ies) = Ok m /\
    v2_marshal g d_Generic2 m = Ok (b, m1) /\
    b = v2_octets 72 mt teid seq 0 (flat_map (wire2 g) ies) /\
    v2_parse_as g d_Generic2 b = Ok m1 /\ fget (m_fs m1) "IEs" = map Some ies.
Proof.
  intros Hmt Hte Hsq Hw Hn. unfold v2_new_generic, v2_generic_set_length. cbn [m_hdr m_fs fget String.eqb Ascii.eqb Bool.eqb].
  rewrite (len_list_ok (io2 g) _ _ (ie_laws2 g)) by exact Hw. cbn [bind]. 
  set (h0 := new_hdr2 (new_hdr2_flags 2 0 1) mt teid seq []).
  set (h := h2_set_len h0 _). set (m := Msg h [("IEs", map Some ies)]).
  assert (Hs : typed_fields d_Generic2 (m_fs m)).
  { split; [reflexivity|]. split.
    - intros f [E|[]]. discriminate.
    - intros f. cbn [m m_fs fget]. destruct (String.eqb "IEs" f); [|intros []]. intros H. apply in_map_iff in H. destruct H as [x [H _]]. discriminate. }
  assert (Hpr : present (m_fs m) = ies) by (cbn; rewrite app_nil_r; apply somes_map).
  assert (Hok : h2_ok h) by (constructor; cbn [h h0 h2_set_len new_hdr2 h2_set_length h2_flags h2_type h2_teid h2_seq h2_spare]; try assumption; try (vm_compute; reflexivity); discriminate).
  exists m.
  assert (Hd : In d_Generic2 sized2) by (unfold sized2; apply in_eq).
  destruct (sized2_parts d_Generic2 Hd) as (D1 & D2 & D3 & D4).
  assert (Ha : all_wf (wf2 g) (m_fs m)).
  { apply present_wf; [cbn; constructor; [intros []|constructor]|]. rewrite Hpr. exact Hw. }
  destruct (marshal_ok _ ho2 _ _ (ie_laws2 g) _ _ _ _ _ _ hd_laws2 d_Generic2 m D2 (typed_shape _ _ Hs) Ha Hok (or_introl D3)) as [M1 _].
  assert (Hbody : body (wire2 g) d_Generic2 (m_fs m) = flat_map (wire2 g) ies).
  { cbn. unfold body, in_order. cbn. rewrite app_nil_r. f_equal. apply somes_map. }
  eexists _, _. split; [reflexivity|]. split; [exact M1|]. split; [|split].
  - cbn [filled m_hdr ho2 ho_set_length ho_set_payload]. rewrite Hbody. rewrite h2_wire_octets.
    + reflexivity.
    + reflexivity.
    + unfold h2_mlen. cbn [h2_payload h2_set_payload]. change (h2_has_teid (h2_set_payload (m_hdr m) (flat_map (wire2 g) ies))) with true. cbv iota. lia.
  - unfold v2_parse_as. rewrite (parse_filled _ ho2 _ _ (ie_laws2 g) _ _ _ _ _ _ hd_laws2 d_Generic2 m D1 (typed_shape _ _ Hs) Ha).
    + reflexivity.
    + intros f i Hi. cbn [m m_fs fget] in Hi. destruct (String.eqb_spec "IEs" f) as [<-|]; [|destruct Hi].
      exists FList. split; [left; reflexivity|]. split; [left; reflexivity|]. reflexivity.
    + exact Hok.
    + rewrite Hbody. change (h2_base (m_hdr m)) with 12%nat. exact Hn.
    + rewrite Hbody. change (h2_base (m_hdr m)) with 12%nat. lia.
  - reflexivity.
Qed.
End G.
