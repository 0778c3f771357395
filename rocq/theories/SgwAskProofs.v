(** Lemmas about ExSgw3.v. *)
From Coq Require Import String Lia.
From Verif Require Import Base BaseLemmas Maps MapsProofs Utils UtilsProofs V2IE V2IESpec V2IEProofs V2Header V2HeaderProofs MsgModel MsgSpec MsgProofs MsgProofs2 MsgProofs3 GenericMsg Msgs2Gen V2Msg V2MsgProofs MsgRepair
  V2Codec V2Codec2 V2Ctx CodecSpec V2CodecProofs V2AccProofs PropertiesCtx FieldSpec FieldProofs FieldProofs2 Properties52 PropertiesBase PropertiesBase2 Properties2Fix CPlane SessReq SessReqProofs PropertiesReq ExPgw PropertiesEx PropertiesEx2 PropertiesFwd ExSgw PropertiesSgw PropertiesFill ExSgw2 PropertiesSgw2 PropertiesSgw3 ExMme PropertiesJoin ExSgw3 SgwAskSpec.
Open Scope string_scope.
Open Scope N_scope.
Open Scope list_scope.

(** ** The IEs and their fields *)
Notation csreq := d_CreateSessionRequest.
(** the fields of the MME's request that the P-GW is to get, with the type and the instance of their IEs *)
Definition kept_tab : list (string * N * option N) :=
  [("IMSI", 1, None); ("MSISDN", 76, None); ("MEI", 75, None); ("ServingNetwork", 83, None); ("RATType", 82, None); ("IndicationFlags", 77, None);
   ("PGWS5S8FTEIDC", 87, Some 1); ("APN", 71, None); ("SelectionMode", 128, None); ("PDNType", 99, None); ("PAA", 79, None);
   ("APNRestriction", 127, None); ("AMBR", 72, None); ("ULI", 86, Some 0); ("MMEFQCSID", 132, Some 0)].
Definition passed_on : list string := map (fun p => fst (fst p)) kept_tab.
Lemma csreq_all : In csreq all_msgs2.
Proof. exact csr_in. Qed.
Lemma csreq_exact f : ~ In ("CreateSessionRequest", f) misplaced_parse2.
Proof.
  assert (E : filter (fun p => String.eqb (fst p) "CreateSessionRequest") misplaced_parse2 = []) by (vm_compute; reflexivity).
  intros H. assert (X : In ("CreateSessionRequest", f) (filter (fun p => String.eqb (fst p) "CreateSessionRequest") misplaced_parse2)) by (apply filter_In; split; [exact H|reflexivity]).
  rewrite E in X. destruct X.
Qed.
Definition kept_ok (p : string * N * option N) : bool :=
  let '(f, ty, k) := p in negb (String.eqb f "AdditionalIEs") && existsb (fun q => String.eqb (fst q) f && match snd q with FSingle => true | _ => false end) (md_fields csreq) &&
  match types_for v2_field_types f with [x] => N.eqb x ty | _ => false end &&
  match instance_for "CreateSessionRequest" f, k with Some a, Some b => N.eqb a b | None, None => true | _, _ => false end.
Lemma kept_all : forallb kept_ok kept_tab = true.
Proof. vm_compute. reflexivity. Qed.
Lemma kept_single f ty k : In (f, ty, k) kept_tab -> In (f, FSingle) (md_fields csreq).
Proof.
  intros H. pose proof kept_all as A. rewrite forallb_forall in A. specialize (A _ H). unfold kept_ok in A. rewrite !andb_true_iff in A. destruct A as [[[_ A] _] _].
  apply existsb_exists in A as ([f' q] & I & E). cbn [fst snd] in E. apply andb_prop in E as [E1 E2]. apply String.eqb_eq in E1. subst f'. destruct q; [exact I|discriminate].
Qed.
Lemma kept_type b m f ty k i : bytes_ok b -> v2_parse g2 b = Ok (csreq, m) -> In (f, ty, k) kept_tab -> In (Some i) (fget (m_fs m) f) ->
  wf2 g2 i /\ i2_type i = ty /\ forall x, k = Some x -> i2_instance i = x.
Proof.
  intros Hb Hp H Hi. destruct (C77_v2_received g2 b _ m f FSingle i Hb Hp csreq_all (kept_single _ _ _ H) (csreq_exact f) Hi) as [W B]. split; [exact W|].
  pose proof kept_all as A. rewrite forallb_forall in A. specialize (A _ H). unfold kept_ok in A. rewrite !andb_true_iff in A. destruct A as [[[A1 _] A3] A4].
  unfold belongs2 in B. apply negb_true_iff in A1. rewrite A1 in B. change (md_name csreq) with "CreateSessionRequest" in B. unfold named2 in B.
  destruct (types_for v2_field_types f) as [|x [|? ?]]; try discriminate. apply N.eqb_eq in A3. subst x.
  destruct (instance_for "CreateSessionRequest" f) as [a|]; destruct k as [y|]; try discriminate; cbn [existsb] in B; rewrite orb_false_r in B.
  - apply N.eqb_eq in A4. subst y. apply andb_prop in B as [B1 B2]. apply N.eqb_eq in B1, B2. split; [exact B1|]. intros x E. injection E as <-. exact B2.
  - apply N.eqb_eq in B. split; [exact B|]. intros x E. discriminate.
Qed.
(** NewCreateSessionRequest puts the IE i into the field f *)
Definition lands (i : ie2) (f : string) : Prop := forall fs : @fmap ie2, fget fs f = [] ->
  run_act (io2 g2) (assoc_act (t_cases (md_new csreq)) (t_default (md_new csreq)) (i2_type i)) i fs = fset fs f [Some i].
Lemma lands_set i f : assoc_act (t_cases (md_new csreq)) (t_default (md_new csreq)) (i2_type i) = ASet f -> lands i f.
Proof. intros E fs _. rewrite E. reflexivity. Qed.
Lemma lands_inst i f cs dd x : assoc_act (t_cases (md_new csreq)) (t_default (md_new csreq)) (i2_type i) = AInst cs dd -> i2_instance i = x ->
  assoc_act cs dd x = ASet f \/ assoc_act cs dd x = AApp f -> lands i f.
Proof.
  intros E I H fs Z. rewrite E. clear E. transitivity (run_act (io2 g2) (assoc_act cs dd x) i fs).
  - clear H. cbn [run_act]. induction cs as [|[y a] r IH]; [reflexivity|]. cbn [assoc_act]. change (io_inst (io2 g2) i) with (i2_instance i). rewrite I. destruct (y =? x); [reflexivity|]. rewrite <- IH.
    change (io_inst (io2 g2) i) with (i2_instance i). now rewrite I.
  - destruct H as [-> | ->]; cbn [run_act]; [reflexivity|]. rewrite Z. reflexivity.
Qed.
Lemma lands_kept f ty k i : In (f, ty, k) kept_tab -> i2_type i = ty -> (forall x, k = Some x -> i2_instance i = x) -> lands i f.
Proof.
  intros H T I. cbn [kept_tab In] in H. decompose [or] H; clear H; try contradiction;
    match goal with E : _ = (f, ty, k) |- _ => injection E as <- <- <- end;
    first [apply lands_set; rewrite T; vm_compute; reflexivity
          |eapply lands_inst; [rewrite T; vm_compute; reflexivity|exact (I _ eq_refl)|left; vm_compute; reflexivity]].
Qed.
Lemma nn_app (o : option ie2) l : nonnil (o :: l) = nonnil [o] ++ nonnil l.
Proof. destruct o; reflexivity. Qed.
Lemma present_fset (fs : @fmap ie2) f l i : In i (MsgSpec.present (fset fs f l)) -> In i (MsgSpec.present fs) \/ In (Some i) l.
Proof.
  unfold MsgSpec.present. induction fs as [|[k v] r IH]; [intros []|]. cbn [fset]. destruct (String.eqb k f); cbn [flat_map snd]; rewrite !in_app_iff.
  - intros [H|H]; [|tauto]. right. clear - H. induction l as [|[j|] l IH]; cbn [nonnil flat_map] in H; [destruct H| |right; auto]. destruct H as [->|H]; [left; reflexivity|right; auto].
  - intros [H|H]; [tauto|]. destruct (IH H); tauto.
Qed.
Lemma nn_flat (l : list (option ie2)) : nonnil l = flat_map (fun o => nonnil [o]) l.
Proof. induction l as [|o r IH]; [reflexivity|]. rewrite nn_app, IH. reflexivity. Qed.
(** a list of IEs or nil, each for a field of its own *)
Lemma run_pairs (ps : list (string * option ie2)) : NoDup (map fst ps) -> forall fs : @fmap ie2,
  (forall f i, In (f, Some i) ps -> lands i f) -> (forall f, In f (map fst ps) -> In f (keys fs) /\ fget fs f = []) ->
  exists fs', run_table (io2 g2) (md_new csreq) (map snd ps) fs = Ok fs' /\ keys fs' = keys fs /\
    (forall f o, In (f, o) ps -> fget fs' f = match o with Some i => [Some i] | None => [] end) /\
    (forall f, ~ In f (map fst ps) -> fget fs' f = fget fs f) /\
    len (flat_map (wire2 g2) (MsgSpec.present fs')) = (len (flat_map (wire2 g2) (MsgSpec.present fs)) + len (flat_map (wire2 g2) (nonnil (map snd ps))))%nat /\
    forall i, In i (MsgSpec.present fs') -> In i (MsgSpec.present fs) \/ In (Some i) (map snd ps).
Proof.
  induction ps as [|[f o] r IH]; intros Nd fs HL HF.
  - exists fs. split; [reflexivity|]. split; [reflexivity|]. split; [intros f o []|]. split; [reflexivity|]. split; [cbn; lia|auto].
  - cbn [map fst] in Nd. inversion Nd as [|? ? N1 N2]; subst. destruct (HF f (or_introl eq_refl)) as [K E]. destruct o as [i|].
    + destruct (IH N2 (fset fs f [Some i])) as (fs' & R & Ks & G1 & G2 & G3 & G4).
      { intros h j X. apply HL. right. exact X. }
      { intros h X. destruct (HF h (or_intror X)) as [K' E']. split; [rewrite keys_fset; exact K'|]. rewrite fget_fset by exact K.
        destruct (String.eqb_spec f h) as [->|]; [contradiction|exact E']. }
      exists fs'. split. { cbn [map snd run_table]. change (io_type (io2 g2) i) with (i2_type i). rewrite (HL f i (or_introl eq_refl) fs E). exact R. }
      split; [rewrite Ks; apply keys_fset|]. split; [|split; [|split]].
      * intros h o [X|X]; [injection X as <- <-; rewrite (G2 f N1), fget_fset by exact K; now rewrite String.eqb_refl|exact (G1 h o X)].
      * intros h X. cbn [map fst In] in X. rewrite G2 by tauto. rewrite fget_fset by exact K. destruct (String.eqb_spec f h); [tauto|reflexivity].
      * pose proof (fset_sum fs f [Some i] K) as S. rewrite E in S. rewrite G3. cbn [map snd]. rewrite (nn_app (Some i)), flat_map_app, app_length. change (len (flat_map (wire2 g2) (nonnil []))) with 0%nat in S. lia.
      * intros j X. cbn [map snd In]. apply G4 in X as [X|X]; [|tauto]. apply present_fset in X as [X|[X|[]]]; [tauto|]. right. left. exact X.
    + destruct (IH N2 fs) as (fs' & R & Ks & G1 & G2 & G3 & G4). { intros h j X. apply HL. right. exact X. } { intros h X. apply HF. right. exact X. }
      exists fs'. split; [exact R|]. split; [exact Ks|]. split; [|split; [|split]].
      * intros h o [X|X]; [injection X as <- <-; now rewrite (G2 f N1)|exact (G1 h o X)].
      * intros h X. apply G2. cbn [map fst In] in X. tauto.
      * rewrite G3. reflexivity.
      * intros j X. cbn [map snd In]. apply G4 in X. tauto.
Qed.

(** ** A Create Session Request as received *)
Lemma csreq_received b m : bytes_ok b -> v2_parse g2 b = Ok (csreq, m) ->
  typed_fields csreq (m_fs m) /\ (8 + len (flat_map (wire2 g2) (MsgSpec.present (m_fs m))) <= len b)%nat.
Proof.
  intros Hb Hp. destruct (v2_parse_parts g2 b _ m Hp) as (t & E1 & Ed & E2 & Ep).
  destruct (ok_parts _ csr_ok) as (D1 & D2 & D3 & D4 & D5). destruct (csr_facts g2 csreq eq_refl) as (F1 & F2 & F3 & F4). rewrite (F4 b Hb) in Ep.
  destruct (parse_parts _ ho2 _ _ (ie_laws2 g2) 4 (wf2 g2) csr b m D1 Ep (fun h l Hh Hl => v2_laws_multi g2 _ _ Hl (proj1 (v2_laws_hdr b h Hb Hh)))) as (Eh & S1 & S2 & S3).
  pose proof (parse_size (io2 g2) ho2 (wire2 g2) csr b m 4 D1 Ep (v2_laws_multi' g2) (fun h Hh => proj1 (v2_laws_hdr b h Hb Hh))) as Hsz.
  pose proof (in_order_present csr (m_fs m) D2 D4 (proj1 S1)) as Hperm.
  assert (Eb : len (body (wire2 g2) csr (m_fs m)) = len (flat_map (wire2 g2) (MsgSpec.present (m_fs m)))).
  { unfold body. clear -Hperm. induction Hperm; cbn [flat_map]; rewrite ?app_length; lia. }
  split; [apply shape_typed; rewrite F1; exact S1|].
  cbn [ho2 ho_parse ho_payload] in *. apply h2_parse_inv in Eh; [|exact Hb]. destruct Eh as (_&_&_&_&_&_&_&_&_&_&q&Eq).
  rewrite Eq, app_length, h2_wire_len. unfold h2_mlen. destruct (h2_has_teid (m_hdr m)); lia.
Qed.
(** the fields of a list of names take no more octets than the message *)
Lemma some_fields l : NoDup l -> forall fs : @fmap ie2, incl l (keys fs) ->
  (len (flat_map (wire2 g2) (flat_map (fun f => nonnil (fget fs f)) l)) <= len (flat_map (wire2 g2) (MsgSpec.present fs)))%nat.
Proof.
  induction 1 as [|f r Nf _ IH]; intros fs Hi; [apply Nat.le_0_l|]. assert (K : In f (keys fs)) by (apply Hi; left; reflexivity).
  pose proof (fset_sum fs f [] K) as S. cbn [nonnil flat_map] in S. specialize (IH (fset fs f [])).
  assert (IH' : (len (flat_map (wire2 g2) (flat_map (fun f0 => nonnil (fget fs f0)) r)) <= len (flat_map (wire2 g2) (MsgSpec.present (fset fs f []))))%nat).
  { replace (flat_map (fun f0 => nonnil (fget fs f0)) r) with (flat_map (fun f0 => nonnil (fget (fset fs f []) f0)) r).
    - apply IH. intros h X. rewrite keys_fset. apply Hi. right. exact X.
    - clear - Nf K. induction r as [|h r IH]; [reflexivity|]. cbn [flat_map]. rewrite fget_fset by exact K. destruct (String.eqb_spec f h) as [->|]; [exfalso; apply Nf; left; reflexivity|].
      f_equal. apply IH. intros X. apply Nf. right. exact X. }
  cbn [flat_map]. rewrite flat_map_app, app_length. change (len (@nil N)) with 0%nat in S. lia.
Qed.

(** ** ParseCreateSession *)
Lemma script_goes ift ies : (forall i, In (Some i) ies -> snd (create_ie ift i) = Goes) ->
  snd (create_script ift ies) = Goes /\ fst (create_script ift ies) = flat_map (fun o => match o with Some i => fst (create_ie ift i) | None => [] end) ies.
Proof.
  induction ies as [|[i|] r IH]; intros H; [split; reflexivity| |].
  - destruct IH as [I1 I2]; [intros j J; apply H; right; exact J|]. cbn [create_script fold_right]. fold (create_script ift r). unfold next. rewrite (H i (or_introl eq_refl)). cbn [fst snd flat_map].
    split; [exact I1|]. rewrite I2. reflexivity.
  - apply IH. intros j J. apply H. right. exact J.
Qed.
Definition no_imsi (x : stmt) : Prop := match x with DoS (SImsi _) | DoS (SPeer _) => False | _ => True end.
Lemma keeps_imsi l : Forall no_imsi l -> forall s, s_imsi (session_of l s) = s_imsi s /\ s_peer (session_of l s) = s_peer s.
Proof.
  induction 1 as [|x r Hx _ IH]; intros s; [split; reflexivity|]. unfold session_of in IH |- *. cbn [fold_left]. destruct (IH (match x with DoS y => set_s s y | _ => s end)) as [-> ->].
  destruct x as [y|y|t|]; try (split; reflexivity). destruct y; try (split; reflexivity); destruct Hx.
Qed.
Lemma fst_assign {A} (P : stmt -> Prop) (r : res A) z f : (forall v, P (f v)) -> Forall P (fst (assign r z f)).
Proof. intros H. unfold assign. destruct r; cbn [fst]; repeat constructor; apply H. Qed.
Lemma fst_require {A} (P : stmt -> Prop) (r : res A) k : (forall v, Forall P (fst (k v))) -> Forall P (fst (require r k)).
Proof. intros H. unfold require. destruct r; cbn [fst]; try constructor. apply H. Qed.
Lemma fst_next (P : stmt -> Prop) a b : Forall P (fst a) -> Forall P (fst b) -> Forall P (fst (next a b)).
Proof. intros H1 H2. unfold next. destruct (snd a); cbn [fst]; [apply Forall_app; split; assumption|exact H1|exact H1]. Qed.
Lemma ie_no_imsi ift i : i2_type i <> 1 -> Forall no_imsi (fst (create_ie ift i)).
Proof.
  intros T. unfold create_ie. cbv zeta. rewrite (proj2 (N.eqb_neq _ _) T).
  repeat match goal with |- context [if ?c then _ else _] => destruct c end;
    try (apply fst_assign; intros v; exact I); try (apply fst_next; apply fst_assign; intros v; exact I); try constructor.
  - apply fst_require. intros it. apply fst_require. intros n. cbn [fst]. constructor; [exact I|]. destruct (it =? ift); repeat constructor.
  - induction (i2_children i) as [|c r IH]; cbn [fold_right]; [constructor|]. apply fst_next; [|exact IH]. unfold create_child.
    repeat match goal with |- context [if ?c then _ else _] => destruct c end; try (apply fst_assign; intros v; exact I); try constructor;
      repeat (apply fst_require; intros ?); repeat constructor.
Qed.

(** ** The request to the P-GW *)
Definition pairs (m : msg2) (s5c ctx csid : ie2) : list (string * option ie2) :=
  [("IMSI", field m "IMSI"); ("MSISDN", field m "MSISDN"); ("MEI", field m "MEI"); ("ServingNetwork", field m "ServingNetwork"); ("RATType", field m "RATType"); ("IndicationFlags", field m "IndicationFlags");
   ("SenderFTEIDC", Some s5c); ("PGWS5S8FTEIDC", field m "PGWS5S8FTEIDC"); ("APN", field m "APN"); ("SelectionMode", field m "SelectionMode"); ("PDNType", field m "PDNType"); ("PAA", field m "PAA");
   ("APNRestriction", field m "APNRestriction"); ("AMBR", field m "AMBR"); ("ULI", field m "ULI"); ("BearerContextsToBeCreated", Some ctx); ("MMEFQCSID", field m "MMEFQCSID"); ("SGWFQCSID", Some csid)].
Lemma pairs_ies m s5c ctx csid : map snd (pairs m s5c ctx csid) = sgw_ies m s5c (Some ctx) csid.
Proof. reflexivity. Qed.
Lemma pairs_in m s5c ctx csid f o : In (f, o) (pairs m s5c ctx csid) ->
  (exists ty k, In (f, ty, k) kept_tab /\ o = field m f) \/ (f = "SenderFTEIDC" /\ o = Some s5c) \/ (f = "BearerContextsToBeCreated" /\ o = Some ctx) \/ (f = "SGWFQCSID" /\ o = Some csid).
Proof.
  unfold pairs. cbn [In]. intros H. decompose [or] H; clear H; try contradiction; match goal with E : _ = (f, o) |- _ => injection E as <- <- end;
    first [right; left; split; reflexivity|right; right; left; split; reflexivity|right; right; right; split; reflexivity
          |left; do 2 eexists; split; [cbn [kept_tab In]; repeat first [left; reflexivity|right]|reflexivity]].
Qed.
Lemma pairs_names m s5c ctx csid : NoDup (map fst (pairs m s5c ctx csid)) /\ forall f, In f (map fst (pairs m s5c ctx csid)) -> In f (keys (fempty (I:=ie2) csreq)).
Proof.
  split.
  - cbn [pairs map fst]. repeat (constructor; [cbn [In]; intros H; decompose [or] H; try discriminate; contradiction|]). constructor.
  - cbn [pairs map fst]. intros f H. apply mem_In. cbn [In] in H. decompose [or] H; clear H; try contradiction; subst f; vm_compute; reflexivity.
Qed.
Lemma field_get b m f ty k : bytes_ok b -> v2_parse g2 b = Ok (csreq, m) -> In (f, ty, k) kept_tab ->
  fget (m_fs m) f = match field m f with Some i => [Some i] | None => [] end.
Proof.
  intros Hb Hp H. destruct (csreq_received b m Hb Hp) as [(_ & T & _) _]. destruct (T f (kept_single _ _ _ H)) as [E|[i E]]; unfold field; rewrite E; reflexivity.
Qed.
Lemma own_fields s5c ctx csid : i2_type s5c = 87 -> i2_instance s5c = 0 -> i2_type ctx = 93 -> i2_instance ctx = 0 -> i2_type csid = 132 -> i2_instance csid = 1 ->
  (lands s5c "SenderFTEIDC" /\ lands ctx "BearerContextsToBeCreated" /\ lands csid "SGWFQCSID") /\
  let bel f i := belongs2 "CreateSessionRequest" (map fst (md_fields csreq)) f (i2_type i) (i2_instance i) = true in
  bel "SenderFTEIDC" s5c /\ bel "BearerContextsToBeCreated" ctx /\ bel "SGWFQCSID" csid.
Proof.
  intros T1 I1 T2 I2 T3 I3. split.
  - split; [|split]; [eapply lands_inst; [rewrite T1; vm_compute; reflexivity|exact I1|left; reflexivity]
      |eapply lands_inst; [rewrite T2; vm_compute; reflexivity|exact I2|right; reflexivity]|eapply lands_inst; [rewrite T3; vm_compute; reflexivity|exact I3|left; reflexivity]].
  - cbv beta zeta. rewrite T1, I1, T2, I2, T3, I3. vm_compute. repeat split.
Qed.
(** a Create Session Request is written as octets *)
Lemma csreq_octets (m : msg2) w x : one_tail (m_fs m) -> typed_fields csreq (m_fs m) -> Forall (wf2 g2) (MsgSpec.present (m_fs m)) -> h2_ok (m_hdr m) ->
  v2_marshal g2 csreq m = Ok (w, x) -> N.of_nat (h2_base (m_hdr m) + len (flat_map (wire2 g2) (MsgSpec.present (m_fs m)))) < 65536 -> bytes_ok w.
Proof.
  intros H1 Ht Hw Hh Hm Hn. destruct (ok_parts _ csr_ok) as (D1 & D2 & D3 & D4 & D5). destruct (csr_facts g2 csreq eq_refl) as (F1 & _ & F3 & _). rewrite (F3 m H1) in Hm.
  destruct (v2_layout_of g2 csr m D2 D5 D4) as (_ & Lw & w' & m3 & M1 & M2 & _ & _ & M3); [destruct Ht as (Ta & Tb & Tc); repeat split; rewrite <- ?F1; assumption|exact Hw|exact Hh|].
  rewrite Hm in M1. injection M1 as <- <-.
  pose proof (in_order_present csr (m_fs m) D2 D4 ltac:(rewrite <- F1; exact (proj1 Ht))) as Hperm.
  assert (Hin : Forall (wf2 g2) (in_order (m_fs m) (order_of csr))) by (eapply Permutation.Permutation_Forall; [apply Permutation.Permutation_sym; exact Hperm|exact Hw]).
  assert (Eb : len (flat_map (wire2 g2) (in_order (m_fs m) (order_of csr))) = len (flat_map (wire2 g2) (MsgSpec.present (m_fs m)))).
  { clear -Hperm. induction Hperm; cbn [flat_map]; rewrite ?app_length; lia. }
  rewrite M3.
  - destruct Hh. apply v2_octets_ok; try assumption. apply wires_ok. exact Hin.
  - change (ies_of (order_of csr) (m_fs m)) with (in_order (m_fs m) (order_of csr)). rewrite Eb. lia.
Qed.
(** the octets that CreateSession writes *)
Lemma request_sent b m s5c ctx csid n : bytes_ok b -> v2_parse g2 b = Ok (csreq, m) -> N.of_nat (len b) + 100 < 65536 -> n < 16777216 ->
  wf2 g2 s5c -> i2_type s5c = 87 -> i2_instance s5c = 0 -> wf2 g2 ctx -> i2_type ctx = 93 -> i2_instance ctx = 0 -> wf2 g2 csid -> i2_type csid = 132 -> i2_instance csid = 1 ->
  (len (wire2 g2 s5c) + len (wire2 g2 ctx) + len (wire2 g2 csid) <= 80)%nat ->
  exists r w x, v2_new g2 csreq 0 0 (sgw_ies m s5c (Some ctx) csid) = Ok r /\ v2_marshal g2 csreq (Msg (h2_set_seq (m_hdr r) n) (m_fs r)) = Ok (w, x) /\
    bytes_ok w /\ v2_parse g2 w = Ok (csreq, x) /\ h2_get_teid (m_hdr x) = 0 /\ h2_seq (m_hdr x) = n /\
    (forall f o, In (f, o) (pairs m s5c ctx csid) -> fget (m_fs x) f = match o with Some i => [Some i] | None => [] end) /\
    forall f, ~ In f (map fst (pairs m s5c ctx csid)) -> fget (m_fs x) f = [].
Proof.
  intros Hb Hp Hl Hn W1 T1 I1 W2 T2 I2 W3 T3 I3 Hs. destruct (own_fields s5c ctx csid T1 I1 T2 I2 T3 I3) as [(L1 & L2 & L3) (B1 & B2 & B3)].
  destruct (pairs_names m s5c ctx csid) as [Nd Ky].
  set (ps := pairs m s5c ctx csid) in *.
  assert (Own : forall f i, In (f, Some i) ps -> wf2 g2 i /\ lands i f /\ belongs2 "CreateSessionRequest" (map fst (md_fields csreq)) f (i2_type i) (i2_instance i) = true).
  { intros f i H. apply pairs_in in H as [(ty & k & H & E)|[[-> E]|[[-> E]|[-> E]]]]; try (injection E as ->; split; [assumption|split; assumption]).
    pose proof (field_get b m f ty k Hb Hp H) as F. rewrite <- E in F. assert (Hi : In (Some i) (fget (m_fs m) f)) by (rewrite F; left; reflexivity).
    destruct (kept_type b m f ty k i Hb Hp H Hi) as (W & T & I). split; [exact W|]. split; [exact (lands_kept f ty k i H T I)|].
    exact (proj2 (C77_v2_received g2 b _ m f FSingle i Hb Hp csreq_all (kept_single _ _ _ H) (csreq_exact f) Hi)). }
  destruct (run_pairs ps Nd (fempty csreq)) as (fs & R & Ks & G1 & G2 & G3 & G4).
  { intros f i H. apply (Own f i H). } { intros f H. split; [exact (Ky f H)|apply fget_empty]. }
  assert (Wi : Forall (wf2 g2) (nonnil (sgw_ies m s5c (Some ctx) csid))).
  { rewrite <- (pairs_ies m s5c ctx csid). apply Forall_forall. intros i H. assert (H' : In (Some i) (map snd ps)).
    { clear - H. fold ps in H. induction (map snd ps) as [|[j|] l IH]; cbn [nonnil flat_map] in H; [destruct H| |right; auto]. destruct H as [->|H]; [left; reflexivity|right; auto]. }
    apply in_map_iff in H' as ([f o] & E & H'). cbn [snd] in E. subst o. apply (Own f i H'). }
  destruct (C15_v2_create_session_request g2 0 0 (sgw_ies m s5c (Some ctx) csid) ltac:(reflexivity) ltac:(reflexivity) Wi) as (r & Nr & Ty & _).
  destruct (new_shape _ _ _ _ _ _ Nr) as (fs' & l & R' & Er). rewrite <- (pairs_ies m s5c ctx csid) in R'. fold ps in R'. rewrite R in R'. injection R' as <-.
  assert (Ef : m_fs r = fs) by (rewrite Er; reflexivity). rewrite Ef in Ty.
  assert (P0 : MsgSpec.present (fempty (I:=ie2) csreq) = []) by (vm_compute; reflexivity). rewrite P0 in G3, G4.
  assert (Sz : (len (flat_map (wire2 g2) (nonnil (map snd ps))) + 8 <= len b + 80)%nat).
  { destruct (csreq_received b m Hb Hp) as [(Kk & _) Sb].
    pose proof (some_fields passed_on ltac:(cbn [passed_on kept_tab map fst]; repeat (constructor; [cbn [In]; intros H; decompose [or] H; try discriminate; contradiction|]); constructor) (m_fs m)) as S.
    assert (In_ : incl passed_on (keys (m_fs m))). { intros f H. unfold keys. rewrite Kk. apply in_map_iff in H as ([[f' ty] k] & E & H). cbn [fst] in E. subst f'. apply in_map_iff. exists (f, FSingle). split; [reflexivity|exact (kept_single _ _ _ H)]. }
    specialize (S In_).
    assert (Q : forall f ty k, In (f, ty, k) kept_tab -> nonnil (fget (m_fs m) f) = nonnil [field m f]).
    { intros f ty k H. rewrite (field_get b m f ty k Hb Hp H). destruct (field m f); reflexivity. }
    assert (E : len (flat_map (wire2 g2) (nonnil (map snd ps))) = (len (flat_map (wire2 g2) (flat_map (fun f => nonnil (fget (m_fs m) f)) passed_on)) + (len (wire2 g2 s5c) + len (wire2 g2 ctx) + len (wire2 g2 csid)))%nat).
    { replace (flat_map (fun f => nonnil (fget (m_fs m) f)) passed_on) with (flat_map (fun f => nonnil [field m f]) passed_on).
      - rewrite (nn_flat (map snd ps)). unfold ps, pairs. cbn [passed_on kept_tab map fst snd flat_map]. generalize (field m). intros fd. rewrite !flat_map_app, !app_length.
        change (nonnil [Some s5c]) with [s5c]. change (nonnil [Some ctx]) with [ctx]. change (nonnil [Some csid]) with [csid].
        cbn [flat_map]. rewrite !app_nil_r. change (len (@nil N)) with 0%nat. lia.
      - unfold passed_on. assert (X : forall l, incl l kept_tab -> flat_map (fun f => nonnil [field m f]) (map (fun p => fst (fst p)) l) = flat_map (fun f => nonnil (fget (m_fs m) f)) (map (fun p => fst (fst p)) l)).
        { induction l0 as [|[[f ty] k] q IH]; intros H; [reflexivity|]. cbn [map fst flat_map]. rewrite (Q f ty k) by (apply H; left; reflexivity). f_equal. apply IH. intros z Z. apply H. right. exact Z. }
        apply X. intros z Z. exact Z. }
    lia. }
  assert (Hh : h2_ok (m_hdr r)). { rewrite Er. cbn [m_hdr]. constructor; try (vm_compute; reflexivity). }
  assert (Hh' : h2_ok (h2_set_seq (m_hdr r) n)). { destruct Hh. constructor; try assumption. }
  assert (Nk : forall f, ~ In f (map fst ps) -> fget fs f = []) by (intros f H; rewrite (G2 f H); apply fget_empty).
  assert (Pe : fget fs "PrivateExtension" = []) by (apply Nk; unfold ps; cbn [pairs map fst In]; intros H; decompose [or] H; try discriminate; contradiction).
  assert (Wp : Forall (wf2 g2) (MsgSpec.present fs)).
  { apply Forall_forall. intros i H. apply G4 in H as [[]|H]. apply in_map_iff in H as ([f o] & E & H). cbn [snd] in E. subst o. apply (Own f i H). }
  assert (Rf : rightly_filled csreq fs).
  { intros f i H. split; [exact (csreq_exact f)|]. destruct (in_dec String.string_dec f (map fst ps)) as [K|K]; [|rewrite (Nk f K) in H; destruct H].
    apply in_map_iff in K as ([f' o] & E & K). cbn [fst] in E. subst f'. rewrite (G1 f o K) in H. destruct o as [j|]; [|destruct H]. destruct H as [H|[]]. injection H as ->. apply (Own f i K). }
  assert (Bs : h2_base (h2_set_seq (m_hdr r) n) = 12%nat) by (rewrite Er; reflexivity).
  cbn [flat_map List.length] in G3. change (len (@nil N)) with 0%nat in G3.
  assert (Nn : N.of_nat (h2_base (h2_set_seq (m_hdr r) n) + len (flat_map (wire2 g2) (MsgSpec.present fs))) < 65536) by (rewrite Bs; lia).
  destruct (C77_v2_fill g2 csreq (Msg (h2_set_seq (m_hdr r) n) fs) csreq_all ltac:(discriminate)) as (w & x & M1 & M2 & M3 & M4 & M5 & M6 & M7 & M8 & M9).
  { intros _. left. exact Pe. } { rewrite Er. vm_compute. reflexivity. } { exact Hh'. } { exact Ty. } { exact Wp. } { exact Rf. } { exact Nn. } { cbn [m_hdr]. rewrite Bs. lia. }
  exists r, w, x. split; [exact Nr|]. rewrite Ef. split; [exact M1|]. cbn [m_fs m_hdr] in *. split.
  { apply (csreq_octets (Msg (h2_set_seq (m_hdr r) n) fs) w x); [left; exact Pe|exact Ty|exact Wp|exact Hh'|exact M1|exact Nn]. }
  split; [exact M3|]. split. { unfold h2_get_teid, h2_has_teid. rewrite M5, M7, Er. reflexivity. }
  split; [exact M8|]. rewrite M4. split; [exact G1|exact Nk].
Qed.

Definition own_qos : ie2 := IE2 80 22 0 (73 :: 255 :: repeat 0 20) [].
Lemma bqos_made : new_bqos g2 1 2 1 255 0 0 0 0 = Ok (Some own_qos).
Proof. vm_compute. reflexivity. Qed.
Lemma qos_facts : wf2 g2 own_qos /\ len (wire2 g2 own_qos) = 26%nat /\ create_child own_qos = ([DoB (BQos (Qos false false 2 255 0 0 0 0))], Goes).
Proof.
  split; [|split; vm_compute; reflexivity]. apply wf2_plain; try reflexivity; try lia. cbn [repeat]. repeat constructor; reflexivity.
Qed.
(** the Bearer Context of the S-GW's own *)
Lemma own_context u : wf2 g2 u -> i2_type u = 87 -> i2_children u = [] -> len (i2_payload u) = 9%nat ->
  exists ctx, new_bearer_context g2 [Some (new_ebi g2 5); Some u; Some own_qos] = Ok (Some ctx) /\ wf2 g2 ctx /\ i2_type ctx = 93 /\ i2_instance ctx = 0 /\
    i2_children ctx = [new_ebi g2 5; u; own_qos] /\ len (wire2 g2 ctx) = 48%nat.
Proof.
  intros W T C P. destruct (ebi_facts 5) as (B1 & B2 & B3 & _). destruct qos_facts as (Q1 & Q2 & _). set (e := new_ebi g2 5) in *. set (cies := [Some e; Some u; Some own_qos]).
  assert (Lf : len (wire2 g2 u) = 13%nat). { rewrite len_wire. destruct u as [ty l ins p c]. cbn [i2_type i2_children i2_payload] in *. subst. cbn. rewrite P. reflexivity. }
  assert (Lx : len (flat_map (wire2 g2) (nonnil cies)) = 44%nat). { cbn [cies nonnil flat_map app]. rewrite !app_length, Lf, Q2. reflexivity. }
  assert (Fx : fits g2 cies).
  { split; [cbn [cies nonnil flat_map app]; repeat (apply Forall_cons; [assumption|]); apply Forall_nil|]. split; [rewrite Lx; lia|discriminate]. }
  destruct (new_bears g2 cies eq_refl Fx) as (ctx & X1 & X2 & X3 & _ & X4 & _ & _).
  assert (X7 : i2_inst ctx = 0). { unfold new_bearer_context in X1. rewrite new_grouped_ok in X1. injection X1 as <-. reflexivity. }
  exists ctx. split; [exact X1|]. split; [exact X2|]. split; [exact X3|]. split; [unfold i2_instance; rewrite X7; reflexivity|]. split; [rewrite X4; reflexivity|].
  destruct ctx as [ty l ins p c]. cbn [i2_type i2_children] in *. subst ty c. cbn [wire2]. change (g2 93) with true. cbv iota.
  rewrite ?app_length. fold (wire2 g2). rewrite Lx. reflexivity.
Qed.
Lemma if_type_of i v : i2_type i = 87 -> acc_teid i = Ok v -> exists it, acc_if_type i = Ok it.
Proof.
  intros T V. unfold acc_teid in V. cbv zeta in V. destruct (i2_payload i) as [|x p] eqn:P; [discriminate|]. exists (N.land x 63). unfold acc_if_type, typed. rewrite T, P. reflexivity.
Qed.
(** reading succeeds on every IE that the S-GW gives to CreateSession *)
Lemma ies_go b m a imsi mme s5c ctx csid tc tu i5c i5u u : bytes_ok b -> v2_parse g2 b = Ok (csreq, m) -> complete m a imsi mme ->
  acc_fteid s5c = Ok (FTeid 128 6 tc (Some i5c) None) -> i2_type ctx = 93 -> i2_instance ctx = 0 -> i2_children ctx = [new_ebi g2 5; u; own_qos] ->
  acc_fteid u = Ok (FTeid 128 4 tu (Some i5u) None) -> i2_type csid = 132 ->
  forall i, In (Some i) (sgw_ies m s5c (Some ctx) csid) -> snd (create_ie 6 i) = Goes.
Proof.
  intros Hb Hp (_ & Cp & _ & Ci & Cm & Ce & Ca & Cs & Cr) A5 Tc Ic Cc Au Td i H. rewrite <- pairs_ies in H. apply in_map_iff in H as ([f o] & E & H). cbn [snd] in E. subst o.
  destruct (fteid_reads _ _ _ _ A5) as (S1 & S2 & S3 & _). destruct (fteid_reads _ _ _ _ Au) as (U1 & U2 & U3 & _).
  apply pairs_in in H as [(ty & k & H & E)|[[_ E]|[[_ E]|[_ E]]]].
  - assert (Hi : In (Some i) (fget (m_fs m) f)) by (rewrite (field_get b m f ty k Hb Hp H), <- E; left; reflexivity).
    destruct (kept_type b m f ty k i Hb Hp H Hi) as (W & T & _).
    assert (Rd : forall {A} (rd : ie2 -> res A), readable m f rd -> exists v, rd i = Ok v).
    { intros A rd (v & j & r & F & V). exists v. unfold field in E. rewrite F in E. injection E as <-. exact V. }
    pose proof T as Ti. unfold create_ie. cbv zeta. rewrite T. clear T W Hi E.
    cbn [kept_tab In] in H. decompose [or] H; clear H; try contradiction; match goal with X : _ = (f, ty, k) |- _ => injection X as <- <- <- end; eqs; try reflexivity.
    + destruct (Rd _ acc_imsi (ex_intro _ imsi Ci)) as [v ->]. reflexivity.
    + destruct (Rd _ _ Cm) as [v ->]. reflexivity.
    + destruct (Rd _ _ Ce) as [v ->]. reflexivity.
    + destruct (Rd _ _ Cs) as [v ->]. reflexivity.
    + destruct (Rd _ _ Cr) as [v ->]. reflexivity.
    + destruct (Rd _ _ Cp) as [v V]. destruct (if_type_of i v Ti V) as [it ->]. rewrite V. reflexivity.
    + destruct (Rd _ _ Ca) as [v ->]. reflexivity.
  - injection E as ->. unfold create_ie. cbv zeta. rewrite S1. eqs. rewrite S2, S3. reflexivity.
  - injection E as ->. unfold create_ie. cbv zeta. rewrite Tc, Ic. eqs. rewrite Cc. cbn [fold_right]. destruct qos_facts as (_ & _ & ->).
    unfold create_child at 2. rewrite U1. eqs. rewrite U2, U3. reflexivity.
  - injection E as ->. unfold create_ie. cbv zeta. rewrite Td. reflexivity.
Qed.

Definition no_teid (x : stmt) : Prop := match x with DoTeid _ => False | _ => True end.
Lemma no_teids l : Forall no_teid l -> teids_of l = [].
Proof. induction 1 as [|x r Hx _ IH]; [reflexivity|]. cbn [teids_of flat_map]. fold (teids_of r). rewrite IH. destruct x; [reflexivity|reflexivity|destruct Hx|reflexivity]. Qed.
Lemma ie_no_teid ift i : i2_type i <> 87 -> Forall no_teid (fst (create_ie ift i)).
Proof.
  intros T. unfold create_ie. cbv zeta. rewrite (proj2 (N.eqb_neq (i2_type i) 87) T).
  repeat match goal with |- context [if ?c then _ else _] => destruct c end;
    try (apply fst_assign; intros v; exact I); try (apply fst_next; apply fst_assign; intros v; exact I); try constructor.
  induction (i2_children i) as [|c r IH]; cbn [fold_right]; [constructor|]. apply fst_next; [|exact IH]. unfold create_child.
  repeat match goal with |- context [if ?c then _ else _] => destruct c end; try (apply fst_assign; intros v; exact I); try constructor;
    repeat (apply fst_require; intros ?); repeat constructor.
Qed.
Lemma teids_flat {A} (F : A -> list stmt) l : teids_of (flat_map F l) = flat_map (fun x => teids_of (F x)) l.
Proof. unfold teids_of. induction l as [|x r IH]; [reflexivity|]. cbn [flat_map]. now rewrite flat_map_app, IH. Qed.
