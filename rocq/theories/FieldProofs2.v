(** Field contents of the concrete messages of the three versions. *)
From Coq Require Import String Lia ZifyBool.
From Verif Require Import Base BaseLemmas V2IE V2IESpec V2IEProofs V2Header MsgModel MsgProofs MsgProofs2 MsgSpec
  Msgs2Gen Msgs1Gen Msgs0Gen GenericMsg V2Msg V2MsgProofs TvIE TvIESpec TvIEProofs V1Header V0Header V1Msg V0Msg
  MsgSpec1 V1MsgProofs V0MsgProofs FieldSpec FieldProofs.
Open Scope string_scope.
Open Scope N_scope.
Open Scope list_scope.

Definition pair_in (x : string * string) (l : list (string * string)) : bool :=
  existsb (fun y => String.eqb (fst x) (fst y) && String.eqb (snd x) (snd y)) l.
Lemma pair_in_In x l : pair_in x l = true -> In x l.
Proof.
  unfold pair_in. intros H. apply existsb_exists in H. destruct H as ([a b] & Hin & H). apply andb_true_iff in H.
  destruct H as [H1 H2]. apply String.eqb_eq in H1, H2. destruct x as [x1 x2]. cbn [fst snd] in *. subst. exact Hin.
Qed.

(** ** GTPv2 *)
Definition row2 (msg f : string) : list N * option N := (types_for v2_field_types f, instance_for msg f).
Definition additional (f : string) : bool := String.eqb f "AdditionalIEs".
Definition rows2 (d : mdesc) (f : string) : list (list N * option N) :=
  if additional f then map (row2 (md_name d)) (map fst (md_fields d)) else [row2 (md_name d) f].
Definition fields2_ok (exc : list (string * string)) (sel : mdesc -> table) (d : mdesc) : bool :=
  let fs := map fst (md_fields d) in
  forallb (fun p => pair_in (md_name d, fst p) exc ||
    field_ok (belongs2 (md_name d) fs (fst p)) (additional (fst p)) (rows2 d (fst p)) (sel d) (fst p) (snd p)) (md_fields d).
Lemma named2_row msg f ty n : named2 msg f ty n =
  existsb (N.eqb ty) (fst (row2 msg f)) && match snd (row2 msg f) with Some k => n =? k | None => true end.
Proof. unfold named2, row2. cbn [fst snd]. destruct (instance_for msg f); [reflexivity|symmetry; apply andb_true_r]. Qed.
Lemma depends2 d f : depends (belongs2 (md_name d) (map fst (md_fields d)) f) (additional f) (rows2 d f).
Proof.
  unfold depends, belongs2, rows2, additional. destruct (String.eqb f "AdditionalIEs").
  - generalize (map fst (md_fields d)). intros fs. split; intros ty n Hx.
    + apply negb_true_iff. induction fs as [|g r IH]; [reflexivity|]. cbn [map existsb] in *. rewrite named2_row.
      apply orb_false_iff in Hx. destruct Hx as [Hx1 Hx2]. rewrite Hx1. cbn [andb orb]. apply IH, Hx2.
    + f_equal. induction fs as [|g r IH]; [reflexivity|]. cbn [map existsb] in *.
      apply orb_false_iff in Hx. destruct Hx as [Hx1 Hx2]. rewrite (IH Hx2). f_equal.
      rewrite !named2_row. destruct (existsb (N.eqb ty) (fst (row2 (md_name d) g))); [|reflexivity].
      cbn [andb] in *. destruct (snd (row2 (md_name d) g)); [discriminate|reflexivity].
  - split; intros ty n Hx; cbn [existsb] in Hx; rewrite orb_false_r in Hx; rewrite !named2_row.
    + rewrite Hx. reflexivity.
    + destruct (existsb (N.eqb ty) (fst (row2 (md_name d) f))); [|reflexivity].
      cbn [andb] in *. destruct (snd (row2 (md_name d) f)); [discriminate|reflexivity].
Qed.
Lemma new2_fields_ok : forallb (fields2_ok misplaced_new2 md_new) all_msgs2 = true.
Proof. vm_compute. reflexivity. Qed.
Lemma unm2_fields_ok : forallb (fields2_ok misplaced_parse2 md_unm) all_msgs2 = true.
Proof. vm_compute. reflexivity. Qed.
Lemma nilskip2 : forallb (fun d => t_nilskip (md_new d) && (md_min d <=? 2)%nat) all_msgs2 = true.
Proof. vm_compute. reflexivity. Qed.

Lemma holds_runs g exc sel d f k ies : forallb (fields2_ok exc sel) all_msgs2 = true -> In d all_msgs2 -> In (f, k) (md_fields d) ->
  ~ In (md_name d, f) exc ->
  fget (runs (io2 g) (sel d) ies (fempty d)) f = map Some (holds2 d k f ies).
Proof.
  intros Hok Hd Hf Hexc. rewrite forallb_forall in Hok. specialize (Hok d Hd). unfold fields2_ok in Hok. cbv zeta in Hok.
  rewrite forallb_forall in Hok. specialize (Hok _ Hf). cbn [fst snd] in Hok. apply orb_true_iff in Hok.
  destruct Hok as [Hok|Hok]; [apply pair_in_In in Hok; contradiction|].
  rewrite (field_runs (io2 g) _ _ _ _ _ _ (depends2 d f) Hok).
  - rewrite fget_empty. unfold holds2. cbn [io2 io_type io_inst]. destruct k; [destruct (latest _); reflexivity|reflexivity].
  - apply Forall_forall. intros i _. unfold sane. cbn [io2 io_inst]. unfold i2_instance.
    change 15 with (N.ones 4). rewrite N.land_ones. apply N.mod_lt. discriminate.
  - rewrite keys_empty. apply (in_map fst) in Hf. exact Hf.
Qed.

Theorem v2_new_fields g d teid seq ies m f k : In d all_msgs2 -> In (f, k) (md_fields d) ->
  ~ In (md_name d, f) misplaced_new2 ->
  v2_new g d teid seq ies = Ok m -> fget (m_fs m) f = map Some (holds2 d k f (nonnil ies)).
Proof.
  intros Hd Hf He Hm. pose proof nilskip2 as Hn. rewrite forallb_forall in Hn. specialize (Hn d Hd).
  apply andb_true_iff in Hn. unfold v2_new in Hm. rewrite (new_runs (io2 g) ho2 d _ ies m (proj1 Hn) Hm).
  exact (holds_runs g misplaced_new2 md_new d f k _ new2_fields_ok Hd Hf He).
Qed.
Theorem v2_parse_fields g b d m ies f k : v2_parse g b = Ok (d, m) -> In d all_msgs2 ->
  h2_payload (m_hdr m) = flat_map (wire2 g) ies -> Forall (wf2 g) ies -> In (f, k) (md_fields d) ->
  ~ In (md_name d, f) misplaced_parse2 -> fget (m_fs m) f = map Some (holds2 d k f ies).
Proof.
  intros Hp Hd Hpay Hw Hf He. pose proof nilskip2 as Hn. rewrite forallb_forall in Hn. specialize (Hn d Hd).
  apply andb_true_iff in Hn. destruct Hn as [_ Hmin]. apply Nat.leb_le in Hmin.
  destruct (v2_parse_parts g b d m Hp) as (t & E1 & Ed & E2 & Ep).
  rewrite (parse_runs (io2 g) ho2 d b m ies Ep).
  - apply (holds_runs g misplaced_parse2 md_unm d f k _ unm2_fields_ok Hd Hf He).
  - cbn [ho2 ho_payload io2 io_multi]. rewrite Hpay. apply multi2_wire, Hw.
  - intros Hne. cbn [ho2 ho_payload]. rewrite Hpay. destruct ies as [|i r]; [congruence|]. cbn [flat_map].
    rewrite app_length, (len_wire g i). pose proof (mlen_ge4 g i). lia.
Qed.
(** ** GTPv1 and GTPv0: fields sharing an IE type are filled in the order of the structure *)
Definition fields1_ok (tab : list (list N * list string)) (sel : mdesc -> table) (d : mdesc) : bool :=
  forallb (fun p =>
    if String.eqb (fst p) "AdditionalIEs"
    then fkind_eqb (snd p) FList && rest_ok (fun t => match siblings tab d t with [] => true | _ => false end) (sel d) (fst p)
    else match snd p with
         | FSingle => match types_for tab (fst p) with [] => false | _ => true end &&
             forallb (fun t => slots_ok (sel d) t (siblings tab d t)) (types_for tab (fst p))
         | FList => field_ok (fun t _ => has_type tab (fst p) t) false [(types_for tab (fst p), None)] (sel d) (fst p) FList
         end) (md_fields d).
Lemma new1_fields_ok : forallb (fields1_ok v1_field_types md_new) all_msgs1 = true.
Proof. vm_compute. reflexivity. Qed.
Lemma unm1_fields_ok : forallb (fields1_ok v1_field_types md_unm) all_msgs1 = true.
Proof. vm_compute. reflexivity. Qed.
Lemma new0_fields_ok : forallb (fields1_ok v0_field_types md_new) all_msgs0 = true.
Proof. vm_compute. reflexivity. Qed.
Lemma unm0_fields_ok : forallb (fields1_ok v0_field_types md_unm) all_msgs0 = true.
Proof. vm_compute. reflexivity. Qed.

Lemma nilskip1 : forallb (fun d => t_nilskip (md_new d) && (md_min d <=? 2)%nat) (all_msgs1 ++ all_msgs0) = true.
Proof. vm_compute. reflexivity. Qed.

Section TV.
Context {H : Type} (tab : list (list N * list string)) (io : ieops ie1).
Context (Hty : forall i, io_type io i = i1_type i) (Hin : forall i, io_inst io i = 0).


Lemma sane1 ies : Forall (sane io) ies.
Proof. apply Forall_forall. intros i _. unfold sane. rewrite Hin. reflexivity. Qed.
Lemma ofty_eq t (l : list ie1) : filter (fun i => io_type io i =? t) l = ofty t l.
Proof. apply filter_ext. intros i. rewrite Hty. reflexivity. Qed.
Lemma types_for_has f t : In t (types_for tab f) -> has_type tab f t = true.
Proof. intros Hx. unfold has_type. apply existsb_exists. exists t. split; [exact Hx|apply N.eqb_refl]. Qed.
Lemma pos_nth f l : In f l -> (pos f l < List.length l)%nat /\ nth (pos f l) l "" = f.
Proof.
  induction l as [|x r IH]; [intros []|]. intros Hx. cbn [pos]. destruct (String.eqb_spec x f) as [->|Hne].
  - cbn. split; [lia|reflexivity].
  - destruct Hx as [Hx|Hx]; [congruence|]. destruct (IH Hx) as [H1 H2]. cbn [List.length nth]. split; [lia|exact H2].
Qed.

Lemma slot_content sel d f t ies : fields1_ok tab sel d = true -> In (f, FSingle) (md_fields d) -> In t (types_for tab f) ->
  (List.length (ofty t ies) <= List.length (siblings tab d t))%nat ->
  fget (runs io (sel d) ies (fempty d)) f = map Some (pick (ofty t ies) (pos f (siblings tab d t))).
Proof.
  intros Hok Hf Ht Hn. unfold fields1_ok in Hok. rewrite forallb_forall in Hok. specialize (Hok _ Hf). cbn [fst snd fkind_eqb andb] in Hok.
  destruct (String.eqb f "AdditionalIEs"); [discriminate|]. apply andb_true_iff in Hok. destruct Hok as [_ Hok].
  rewrite forallb_forall in Hok. specialize (Hok t Ht).
  assert (Hg : In f (siblings tab d t)).
  { unfold siblings. apply filter_In. split; [apply (in_map fst) in Hf; exact Hf|apply types_for_has, Ht]. }
  destruct (pos_nth f _ Hg) as [P1 P2].
  pose proof (slots_runs io (sel d) t _ Hok ies (fempty d)) as R. rewrite ofty_eq in R.
  rewrite <- P2 at 1. apply R; [| |exact Hn|exact P1].
  - apply Forall_forall. intros x Hx. rewrite keys_empty. unfold siblings in Hx. apply filter_In in Hx. apply Hx.
  - apply Forall_forall. intros x _. apply fget_empty.
Qed.
Lemma list_content sel d f ies : fields1_ok tab sel d = true -> In (f, FList) (md_fields d) -> f <> "AdditionalIEs" ->
  fget (runs io (sel d) ies (fempty d)) f = map Some (filter (fun i => has_type tab f (i1_type i)) ies).
Proof.
  intros Hok Hf Hne. unfold fields1_ok in Hok. rewrite forallb_forall in Hok. specialize (Hok _ Hf). cbn [fst snd] in Hok.
  apply String.eqb_neq in Hne. rewrite Hne in Hok.
  assert (Hdep : depends (fun t (_ : N) => has_type tab f t) false [(types_for tab f, None)]).
  { split; intros ty n Hx; [|reflexivity]. cbn [existsb fst] in Hx. rewrite orb_false_r in Hx. exact Hx. }
  rewrite (field_runs io _ _ _ _ _ _ Hdep Hok ies (fempty d) (sane1 ies)), fget_empty by (rewrite keys_empty; apply (in_map fst) in Hf; exact Hf).
  cbn [app]. f_equal. apply filter_ext. intros i. rewrite Hty. reflexivity.
Qed.
Lemma rest_content sel d k ies : fields1_ok tab sel d = true -> In ("AdditionalIEs", k) (md_fields d) ->
  filter (unplaced tab d) (nonnil (fget (runs io (sel d) ies (fempty d)) "AdditionalIEs")) = filter (unplaced tab d) ies.
Proof.
  intros Hok Hf. unfold fields1_ok in Hok. rewrite forallb_forall in Hok. specialize (Hok _ Hf). cbn [fst snd] in Hok.
  rewrite String.eqb_refl in Hok. apply andb_true_iff in Hok. destruct Hok as [_ Hok].
  pose proof (rest_runs io _ _ _ Hok ies (fempty d)) as R.
  rewrite fget_empty in R. cbn [nonnil flat_map filter app] in R.
  assert (E : forall l, filter (fun i => match siblings tab d (io_type io i) with [] => true | _ => false end) l = filter (unplaced tab d) l).
  { intros l. apply filter_ext. intros i. unfold unplaced. rewrite Hty. reflexivity. }
  rewrite !E in R. apply R. rewrite keys_empty. apply (in_map fst) in Hf. exact Hf.
Qed.
Lemma contents1_runs sel d ies : fields1_ok tab sel d = true ->
  contents1 tab d (runs io (sel d) ies (fempty d)) ies.
Proof.
  intros Hok. split; [|split].
  - intros. apply slot_content; assumption.
  - intros. apply list_content; assumption.
  - intros. eapply rest_content; eassumption.
Qed.
End TV.

Theorem v1_new_fields d teid seq ies m : In d all_msgs1 ->
  v1_new d teid seq ies = Ok m -> contents1 v1_field_types d (m_fs m) (nonnil ies).
Proof.
  intros Hd Hm. pose proof (proj1 (forallb_forall _ _) nilskip1 d (in_or_app _ _ _ (or_introl Hd))) as Hn. apply andb_true_iff in Hn.
  unfold v1_new in Hm. rewrite (new_runs io1 ho1 d _ ies m (proj1 Hn) Hm).
  apply (contents1_runs v1_field_types io1 (fun _ => eq_refl) (fun _ => eq_refl) md_new).
  exact (proj1 (forallb_forall _ _) new1_fields_ok d Hd).
Qed.
Theorem v1_parse_fields b d m ies : bytes_ok b -> v1_parse b = Ok (P1 d m) -> In d all_msgs1 ->
  h1_payload (m_hdr m) = flat_map (wire1 xl1) ies -> Forall (wf1 tv1 xl1) ies -> contents1 v1_field_types d (m_fs m) ies.
Proof.
  intros Hb Hp Hd Hpay Hw. pose proof (proj1 (forallb_forall _ _) nilskip1 d (in_or_app _ _ _ (or_introl Hd))) as Hn. apply andb_true_iff in Hn.
  destruct (v1_parse_parts b _ Hb Hp) as (t & E1 & E2 & Eh & E3 & E4). destruct (E4 d m eq_refl) as [_ Ep].
  rewrite (parse_runs io1 ho1 d b m ies Ep).
  - apply (contents1_runs v1_field_types io1 (fun _ => eq_refl) (fun _ => eq_refl) md_unm). exact (proj1 (forallb_forall _ _) unm1_fields_ok d Hd).
  - cbn [ho1 ho_payload io1 io_multi]. rewrite Hpay. apply multi1_wire; [exact tv1_lt|exact xl1_ge|exact Hw].
  - intros Hne. cbn [ho1 ho_payload]. rewrite Hpay. destruct ies as [|i r]; [congruence|]. cbn [flat_map].
    rewrite app_length. apply Forall_cons_iff in Hw. pose proof (wf1_min _ _ tv1_lt xl1_ge i (proj1 Hw)).
    destruct Hn as [_ Hn]. apply Nat.leb_le in Hn. lia.
Qed.
Theorem v0_new_fields d seq label tid ies m : In d all_msgs0 ->
  v0_new d seq label tid ies = Ok m -> contents1 v0_field_types d (m_fs m) (nonnil ies).
Proof.
  intros Hd Hm. pose proof (proj1 (forallb_forall _ _) nilskip1 d (in_or_app _ _ _ (or_intror Hd))) as Hn. apply andb_true_iff in Hn.
  unfold v0_new in Hm. rewrite (new_runs io0 ho0 d _ ies m (proj1 Hn) Hm).
  apply (contents1_runs v0_field_types io0 (fun _ => eq_refl) (fun _ => eq_refl) md_new).
  exact (proj1 (forallb_forall _ _) new0_fields_ok d Hd).
Qed.
Theorem v0_parse_fields b d m ies : bytes_ok b -> v0_parse b = Ok (P0 d m) -> In d all_msgs0 ->
  h0_payload (m_hdr m) = flat_map (wire1 xl0) ies -> Forall (wf1 tv0 xl0) ies -> contents1 v0_field_types d (m_fs m) ies.
Proof.
  intros Hb Hp Hd Hpay Hw. pose proof (proj1 (forallb_forall _ _) nilskip1 d (in_or_app _ _ _ (or_intror Hd))) as Hn. apply andb_true_iff in Hn.
  destruct (v0_parse_parts b _ Hb Hp) as (t & E1 & E2 & Eh & E3 & E4). destruct (E4 d m eq_refl) as [_ Ep].
  rewrite (parse_runs io0 ho0 d b m ies Ep).
  - apply (contents1_runs v0_field_types io0 (fun _ => eq_refl) (fun _ => eq_refl) md_unm). exact (proj1 (forallb_forall _ _) unm0_fields_ok d Hd).
  - cbn [ho0 ho_payload io0 io_multi]. rewrite Hpay. apply multi1_wire; [exact tv0_lt|exact xl0_ge|exact Hw].
  - intros Hne. cbn [ho0 ho_payload]. rewrite Hpay. destruct ies as [|i r]; [congruence|]. cbn [flat_map].
    rewrite app_length. apply Forall_cons_iff in Hw. pose proof (wf1_min _ _ tv0_lt xl0_ge i (proj1 Hw)).
    destruct Hn as [_ Hn]. apply Nat.leb_le in Hn. lia.
Qed.
