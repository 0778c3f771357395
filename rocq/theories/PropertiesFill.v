(** Messages whose fields are assigned one by one: C77. *)
From Coq Require Import String Lia Permutation.
From Verif Require Import Base BaseLemmas Utils V2IE V2IESpec V2IEProofs V2Header V2HeaderProofs MsgModel MsgSpec MsgProofs MsgProofs2 MsgProofs3 GenericMsg Msgs2Gen V2Msg V2MsgProofs MsgRepair
  FieldSpec FieldProofs FieldProofs2 Properties52 PropertiesBase.
Open Scope string_scope.
Open Scope N_scope.
Open Scope list_scope.

(** every IE stands in a field it is for (TS 29.274: type and instance, FieldSpec.v) *)
Definition rightly_filled (d : mdesc) (fs : @fmap ie2) : Prop := forall f i, In (Some i) (fget fs f) ->
  ~ In (md_name d, f) misplaced_parse2 /\ belongs2 (md_name d) (map fst (md_fields d)) f (i2_type i) (i2_instance i) = true.

Lemma inst_small i : i2_instance i < 16.
Proof. unfold i2_instance. change 15 with (N.ones 4). rewrite N.land_ones. apply N.mod_lt. discriminate. Qed.
Lemma in_fget_key (fs : @fmap ie2) f o : In o (fget fs f) -> In f (map fst fs).
Proof.
  induction fs as [|[k v] r IH]; cbn [fget map fst]; [intros []|]. destruct (String.eqb_spec k f) as [->|]; [left; reflexivity|intros H; right; auto].
Qed.
(** the parser's table sends such an IE to its field *)
Lemma belongs_route g d f k i nilp : In d all_msgs2 -> In (f, k) (md_fields d) -> ~ In (md_name d, f) misplaced_parse2 ->
  belongs2 (md_name d) (map fst (md_fields d)) f (i2_type i) (i2_instance i) = true ->
  route (dact (io2 g) (md_unm d) i) (i2_instance i) nilp = Some (k, f).
Proof.
  intros Hd Hf Hm B. pose proof unm2_fields_ok as Hok. rewrite forallb_forall in Hok. specialize (Hok d Hd). unfold fields2_ok in Hok. cbv zeta in Hok.
  rewrite forallb_forall in Hok. specialize (Hok _ Hf). cbn [fst snd] in Hok. apply orb_true_iff in Hok.
  destruct Hok as [Hok|Hok]; [apply pair_in_In in Hok; contradiction|].
  pose proof (field_fits _ _ _ _ _ _ (i2_type i) (i2_instance i) (depends2 d f) Hok (inst_small i)) as X. rewrite B in X. unfold act_fits in X.
  rewrite <- resolve_route. unfold dact. cbn [io2 io_type]. destruct (resolve _ _) as [h|h| | |]; destruct k; try discriminate; apply String.eqb_eq in X; subst h; reflexivity.
Qed.
Lemma fill_stable g d d' (m : msg2) : In d all_msgs2 -> md_fields d = md_fields d' -> md_unm d = md_unm d' -> covers d' = true ->
  typed_fields d (m_fs m) -> rightly_filled d (m_fs m) ->
  stable (io2 g) (md_fields d') (order_of d') (md_unm d') (m_fs m).
Proof.
  intros Hd Ef Eu Hc (Ht & _) Hr f i Hi. destruct (Hr f i Hi) as [H1 H2].
  pose proof (in_fget_key _ _ _ Hi) as Hk. rewrite Ht in Hk. apply in_map_iff in Hk as ([f' k] & E & Hk). cbn [fst] in E. subst f'.
  exists k. rewrite <- Ef, <- Eu. split; [exact Hk|]. split.
  - unfold covers in Hc. rewrite forallb_forall in Hc. apply mem_In. rewrite Ef in Hk. exact (Hc _ Hk).
  - cbn [io2 io_inst]. now apply belongs_route.
Qed.

(** writing and reading a message through a description d' that marshals and parses as d does *)
Lemma fill_through g d d' (m : msg2) : struct2 (h2_type (m_hdr m)) = d -> md_fields d = md_fields d' ->
  desc_ok 4 d' = true -> covers d' = true -> md_reset d' = true -> v2_marshal g d m = v2_marshal g d' m ->
  (forall b, bytes_ok b -> v2_parse_as g d b = v2_parse_as g d' b) ->
  typed_fields d (m_fs m) -> Forall (wf2 g) (present (m_fs m)) -> h2_ok (m_hdr m) -> stable (io2 g) (md_fields d') (order_of d') (md_unm d') (m_fs m) ->
  let n := (h2_base (m_hdr m) + len (flat_map (wire2 g) (present (m_fs m))))%nat in N.of_nat n < 65536 -> (12 <= n)%nat ->
  exists w m1, v2_marshal g d m = Ok (w, m1) /\ len w = n /\ v2_parse g w = Ok (d, m1) /\ m_fs m1 = m_fs m /\
    h2_flags (m_hdr m1) = h2_flags (m_hdr m) /\ h2_type (m_hdr m1) = h2_type (m_hdr m) /\ h2_teid (m_hdr m1) = h2_teid (m_hdr m) /\
    h2_seq (m_hdr m1) = h2_seq (m_hdr m) /\ h2_spare (m_hdr m1) = h2_spare (m_hdr m).
Proof.
  intros Hst Hf D1 D4 D3 Em Epp Ht Hw Hh Hsb n Hn H12.
  assert (D2 : fields_ok d' = true) by (unfold desc_ok in D1; rewrite !andb_true_iff in D1; tauto).
  assert (Ht' : typed_fields d' (m_fs m)) by (unfold typed_fields in *; rewrite <- Hf; exact Ht).
  destruct (fields_ok_parts d' D2) as (P1 & _).
  assert (Hnd : NoDup (keys (m_fs m))) by (unfold keys; rewrite (proj1 Ht'); exact P1).
  assert (Ha : all_wf (wf2 g) (m_fs m)) by (apply present_wf; assumption).
  pose proof (in_order_present d' (m_fs m) D2 D4 (proj1 Ht')) as Hperm.
  assert (Eb : len (body (wire2 g) d' (m_fs m)) = len (flat_map (wire2 g) (present (m_fs m)))).
  { unfold body. clear -Hperm. induction Hperm; cbn [flat_map]; rewrite ?app_length; lia. }
  destruct (marshal_ok _ ho2 _ _ (ie_laws2 g) _ _ _ _ _ _ hd_laws2 d' m D2 (typed_shape _ _ Ht') Ha Hh (or_introl D3)) as [M1 M2].
  pose proof (parse_filled _ ho2 _ _ (ie_laws2 g) _ _ _ _ _ _ hd_laws2 d' m D1 (typed_shape _ _ Ht') Ha Hsb Hh) as P. cbv zeta in P. rewrite Eb in P. fold n in P. specialize (P Hn H12).
  pose proof (msg_mlen_ok _ ho2 _ _ (ie_laws2 g) _ _ _ _ _ _ hd_laws2 d' m D2 (typed_shape _ _ Ht') Ha) as Hm. rewrite Eb in Hm. fold n in Hm. rewrite Hm in M2. injection M2 as M2.
  set (w := h2_wire (m_hdr (filled ho2 (wire2 g) d' m))) in *. set (m1 := filled ho2 (wire2 g) d' m) in *.
  exists w, m1. split; [rewrite Em; unfold v2_marshal; exact M1|]. split; [symmetry; exact M2|].
  assert (Bw : bytes_ok w).
  { destruct (v2_layout_of g d' m D2 D3 D4 Ht' Hw Hh) as (_ & Lw & w' & m3 & W1 & W2 & _ & _ & W3). unfold v2_marshal in W1. rewrite M1 in W1. injection W1 as <- <-. rewrite W3.
    - destruct Hh. apply octets_ok; try assumption. change (ies_of (order_of d') (m_fs m)) with (in_order (m_fs m) (order_of d')).
      assert (Hin : Forall (wf2 g) (in_order (m_fs m) (order_of d'))) by (apply in_order_wf; exact Ha). clear - Hin.
      induction Hin as [|i r Hi _ IH]; [constructor|]. cbn [flat_map]. apply Forall_app. split; [apply (wf_bytes_ok g), Hi|exact IH].
    - change (flat_map (wire2 g) (ies_of (order_of d') (m_fs m))) with (body (wire2 g) d' (m_fs m)). rewrite Eb. fold n. lia. }
  split.
  { change (msg_parse (io2 g) ho2 d' w = Ok m1) in P. unfold v2_parse. destruct (v2_parse_as_type g d' w m1 P) as [Hb1 Hb2].
    rewrite (proj2 (Nat.ltb_ge (len w) 2)) by lia. rewrite Hb1. cbn [bind]. change (h2_type (m_hdr m1)) with (h2_type (m_hdr m)). rewrite Hst, (Epp w Bw). unfold v2_parse_as. rewrite P. reflexivity. }
  repeat split.
Qed.

(** what MsgRepair.v says of Create Session Request, for a description known to be its own *)
Lemma csr_facts g d : d = d_CreateSessionRequest -> md_fields d = md_fields csr /\ md_unm d = md_unm csr /\
  (forall m : msg2, one_tail (m_fs m) -> v2_marshal g d m = v2_marshal g csr m) /\
  (forall b, bytes_ok b -> v2_parse_as g d b = v2_parse_as g csr b).
Proof.
  intros ->. split; [reflexivity|]. split; [reflexivity|]. split.
  - intros m H. apply same_marshals; [reflexivity|reflexivity|exact (csr_marshal g _ H)].
  - intros b Hb. apply same_parse_as; [reflexivity|reflexivity|reflexivity|exact Hb|apply csr_parse].
Qed.

Lemma struct2_by_name d t : In d all_msgs2 -> t < 256 -> ts29274 t = md_name d -> struct2 t = d.
Proof.
  intros Hd Ht E. apply struct2_named; [exact Hd|]. rewrite <- E. pose proof struct2_spec as S. rewrite forallb_forall in S.
  apply String.eqb_eq, S. apply below_complete. exact Ht.
Qed.
Lemma csr_only d : In d all_msgs2 -> md_name d = "CreateSessionRequest" -> d = d_CreateSessionRequest.
Proof. intros Hd E. apply (name_unique all_msgs2); [apply nodups_NoDup, names2_nodup|exact Hd|exact csr_in|exact E]. Qed.
Lemma sized_by_name d : In d all_msgs2 -> md_name d <> "ContextResponse" -> md_name d <> "CreateSessionRequest" -> In d sized2.
Proof.
  intros Hd Nc N1. unfold sized2. apply in_cons. apply (proj2 (filter_In (fun d => negb (named bad_size2 d)) d all_msgs2)). split; [exact Hd|].  unfold named, bad_size2, mem. cbn [existsb].
  rewrite (String.eqb_sym "ContextResponse"), (String.eqb_sym "CreateSessionRequest"). apply String.eqb_neq in Nc. apply String.eqb_neq in N1. rewrite Nc, N1. reflexivity.
Qed.

(** A message whose fields hold IEs that are for them is read as it was written *)
Theorem C77_v2_fill : forall g d (m : msg2), In d all_msgs2 -> md_name d <> "ContextResponse" ->
  (md_name d = "CreateSessionRequest" -> fget (m_fs m) "PrivateExtension" = [] \/ fget (m_fs m) "AdditionalIEs" = []) ->
  ts29274 (h2_type (m_hdr m)) = md_name d -> h2_ok (m_hdr m) ->
  typed_fields d (m_fs m) -> Forall (wf2 g) (present (m_fs m)) -> rightly_filled d (m_fs m) ->
  let n := (h2_base (m_hdr m) + len (flat_map (wire2 g) (present (m_fs m))))%nat in N.of_nat n < 65536 -> (12 <= n)%nat ->
  exists w m1, v2_marshal g d m = Ok (w, m1) /\ len w = n /\ v2_parse g w = Ok (d, m1) /\ m_fs m1 = m_fs m /\
    h2_flags (m_hdr m1) = h2_flags (m_hdr m) /\ h2_type (m_hdr m1) = h2_type (m_hdr m) /\ h2_teid (m_hdr m1) = h2_teid (m_hdr m) /\
    h2_seq (m_hdr m1) = h2_seq (m_hdr m) /\ h2_spare (m_hdr m1) = h2_spare (m_hdr m).
Proof.
  intros g d m Hd Nc Hone Hn0 Hh Ht Hw Hr n Hn H12.
  pose proof (struct2_by_name d _ Hd (h2o_type _ Hh) Hn0) as Hst.
  destruct (String.eqb_spec (md_name d) "CreateSessionRequest") as [N1|N1].
  - assert (Ed : d = d_CreateSessionRequest) by exact (csr_only d Hd N1). 
    destruct (ok_parts _ csr_ok) as (D1 & D2 & D3 & D4 & D5). destruct (csr_facts g d Ed) as (F1 & F2 & F3 & F4). clear Ed.
    generalize dependent csr. intros d' D1 D2 D3 D4 D5 F1 F2 F3 F4.
    exact (fill_through g d d' m Hst F1 D1 D4 D5 (F3 m (Hone N1)) F4 Ht Hw Hh (fill_stable g d d' m Hd F1 F2 D4 Ht Hr) Hn H12).
  - pose proof (sized_by_name d Hd Nc N1) as Hs.
    destruct (sized2_parts d Hs) as (D1 & D2 & D3 & D4).
    exact (fill_through g d d m Hst eq_refl D1 D4 D3 eq_refl (fun b _ => eq_refl) Ht Hw Hh (fill_stable g d d m Hd eq_refl eq_refl D4 Ht Hr) Hn H12).
Qed.
Print Assumptions C77_v2_fill.

(** What is read holds IEs that are for their fields, and nothing else does *)
Theorem C77_v2_received : forall g b d m f k i, bytes_ok b -> v2_parse g b = Ok (d, m) -> In d all_msgs2 -> In (f, k) (md_fields d) ->
  ~ In (md_name d, f) misplaced_parse2 -> In (Some i) (fget (m_fs m) f) ->
  wf2 g i /\ belongs2 (md_name d) (map fst (md_fields d)) f (i2_type i) (i2_instance i) = true.
Proof.
  intros g b d m f k i Hb Hp Hd Hf Hm Hi. destruct (v2_parse_parts g b _ m Hp) as (t & _ & _ & _ & Ep). unfold v2_parse_as, msg_parse in Ep.
  apply bind_ok_inv in Ep as (h & Eh & H). destruct (v2_laws_hdr b h Hb Eh) as [B O].
  assert (E0 : m = Msg h (fempty d) -> False). { intros ->. cbn [m_fs] in Hi. rewrite fget_empty in Hi. destruct Hi. }
  destruct (_ <? _)%nat; [injection H as <-; elim (E0 eq_refl)|].
  destruct (io_multi (io2 g) (ho_payload ho2 h)) as [l|e|] eqn:M; [| |discriminate].
  2:{ destruct e; try discriminate. destruct (md_soft d); [|discriminate]. injection H as <-. elim (E0 eq_refl). }
  assert (Hh : m_hdr m = h) by (apply bind_ok_inv in H as (fs & _ & H); injection H as <-; reflexivity).
  pose proof (v2_laws_multi g _ _ M B) as W. pose proof (v2_laws_multi' g _ _ M B) as P.
  assert (P' : h2_payload (m_hdr m) = flat_map (wire2 g) l) by (rewrite Hh; exact P).
  rewrite (C52_v2_parse_fields_partial g b d m l f k Hp Hd P' W Hf Hm) in Hi. apply in_map_iff in Hi as (j & E & Hi). injection E as ->.
  assert (Q : In i (filter (fun i => belongs2 (md_name d) (map fst (md_fields d)) f (i2_type i) (i2_instance i)) l)).
  { unfold holds2 in Hi. destruct k; [|exact Hi]. unfold latest in Hi. destruct (rev _) as [|y r] eqn:R in Hi; [destruct Hi|]. destruct Hi as [->|[]].
    apply in_rev. rewrite R. left. reflexivity. }
  apply filter_In in Q as [Q1 Q2]. split; [exact (proj1 (Forall_forall _ _) W i Q1)|exact Q2].
Qed.
Print Assumptions C77_v2_received.

(** so a message with an IE in a field it is not for is never what a peer reads *)
Theorem C77_v2_elsewhere : forall g d (fs : @fmap ie2) f k i, In d all_msgs2 -> In (f, k) (md_fields d) -> ~ In (md_name d, f) misplaced_parse2 ->
  In (Some i) (fget fs f) -> belongs2 (md_name d) (map fst (md_fields d)) f (i2_type i) (i2_instance i) = false ->
  forall b m, bytes_ok b -> v2_parse g b = Ok (d, m) -> m_fs m <> fs.
Proof.
  intros g d fs f k i Hd Hf Hm Hi Hb b m Bb Hp E. subst fs. destruct (C77_v2_received g b d m f k i Bb Hp Hd Hf Hm Hi) as [_ X]. congruence.
Qed.
Print Assumptions C77_v2_elsewhere.

(** ** Examples: a Create Session Request filled by hand *)
Definition put (fs : @fmap ie2) (f : string) (l : list (option ie2)) : @fmap ie2 := map (fun p => if String.eqb (fst p) f then (f, l) else p) fs.
Definition x_header : hdr2 := Hdr2 72 32 0 513 7 0 [].
Definition x_msg : msg2 := Msg x_header (put (put (put (fempty d_CreateSessionRequest) "SenderFTEIDC" [Some (x_fteid 0)]) "PGWS5S8FTEIDC" [Some (x_fteid 1)])
  "BearerContextsToBeCreated" [Some (x_bearer 0); Some (x_bearer 0)]).

Lemma fget_entry (fs : @fmap ie2) f o : In o (fget fs f) -> exists l, In (f, l) fs /\ In o l.
Proof.
  induction fs as [|[k v] r IH]; cbn [fget]; [intros []|]. destruct (String.eqb_spec k f) as [->|]; intros H.
  - exists v. split; [left; reflexivity|exact H].
  - destruct (IH H) as (l & A & B). exists l. split; [right; exact A|exact B].
Qed.
Definition right_b (d : mdesc) (fs : @fmap ie2) : bool := forallb (fun p => forallb (fun o => match o with
  | Some i => negb (existsb (fun q => (String.eqb (fst q) (md_name d) && String.eqb (snd q) (fst p))%bool) misplaced_parse2) && belongs2 (md_name d) (map fst (md_fields d)) (fst p) (i2_type i) (i2_instance i)
  | None => false end) (snd p)) fs.
Lemma right_b_ok d fs : right_b d fs = true -> rightly_filled d fs.
Proof.
  intros H f i Hi. destruct (fget_entry _ _ _ Hi) as (l & A & B). unfold right_b in H. rewrite forallb_forall in H. specialize (H _ A). cbn [fst snd] in H.
  rewrite forallb_forall in H. specialize (H _ B). cbn beta iota in H. apply andb_true_iff in H as [H1 H2]. split; [|exact H2].
  intros X. apply negb_true_iff in H1. rewrite <- not_true_iff_false in H1. apply H1, existsb_exists. exists (md_name d, f). split; [exact X|]. cbn [fst snd]. rewrite !String.eqb_refl. reflexivity.
Qed.
Lemma right_b_some d fs f : right_b d fs = true -> ~ In None (fget fs f).
Proof.
  intros H Hi. destruct (fget_entry _ _ _ Hi) as (l & A & B). unfold right_b in H. rewrite forallb_forall in H. specialize (H _ A). cbn [fst snd] in H.
  rewrite forallb_forall in H. specialize (H _ B). discriminate.
Qed.
Lemma typed_b d (fs : @fmap ie2) : right_b d fs = true -> map fst fs = map fst (md_fields d) ->
  forallb (fun p => match snd p with FSingle => (List.length (fget fs (fst p)) <=? 1)%nat | _ => true end) (md_fields d) = true -> typed_fields d fs.
Proof.
  intros H1 H2 H3. split; [exact H2|]. split; [|intros f; exact (right_b_some d fs f H1)].
  intros f Hf. rewrite forallb_forall in H3. specialize (H3 _ Hf). cbn [fst snd] in H3. apply Nat.leb_le in H3. pose proof (right_b_some d fs f H1) as Hn.
  destruct (fget fs f) as [|[i|] [|y r]]; cbn [List.length] in H3; try lia; [left; reflexivity|right; exists i; reflexivity|elim Hn; left; reflexivity].
Qed.
Example C77_v2_fill_example : let m := x_msg in ts29274 (h2_type (m_hdr m)) = md_name d_CreateSessionRequest /\ h2_ok (m_hdr m) /\
  typed_fields d_CreateSessionRequest (m_fs m) /\ Forall (wf2 dg) (present (m_fs m)) /\ rightly_filled d_CreateSessionRequest (m_fs m) /\
  (12 <= h2_base (m_hdr m) + len (flat_map (wire2 dg) (present (m_fs m))))%nat /\ N.of_nat (h2_base (m_hdr m) + len (flat_map (wire2 dg) (present (m_fs m)))) < 65536 /\
  exists w m1, v2_marshal dg d_CreateSessionRequest m = Ok (w, m1) /\
  w = [72; 32; 0; 36; 0; 0; 2; 1; 0; 0; 7; 0; 87; 0; 1; 0; 1; 87; 0; 1; 1; 1; 93; 0; 5; 0; 73; 0; 1; 0; 5; 93; 0; 5; 0; 73; 0; 1; 0; 5] /\
  match v2_parse dg w with Ok (_, m2) => m_fs m2 = m_fs m | _ => False end.
Proof.
  cbv zeta. assert (R : right_b d_CreateSessionRequest (m_fs x_msg) = true) by (vm_compute; reflexivity).
  split; [vm_compute; reflexivity|]. split; [constructor; try reflexivity; intros X; discriminate X|]. split; [apply (typed_b _ _ R); vm_compute; reflexivity|].
  split. { assert (E : present (m_fs x_msg) = [x_fteid 0; x_fteid 1; x_bearer 0; x_bearer 0]) by (vm_compute; reflexivity). rewrite E.
    assert (W : wf2 dg (x_bearer 0)). { apply wf2_grouped; try reflexivity. repeat constructor; try reflexivity. }
    repeat (apply Forall_cons; [first [exact W|apply wf2_plain; try reflexivity; repeat constructor]|]); apply Forall_nil. }
  split; [exact (right_b_ok _ _ R)|]. split; [vm_compute; lia|]. split; [vm_compute; reflexivity|].
  eexists. eexists. split; [vm_compute; reflexivity|]. split; vm_compute; reflexivity.
Qed.

(** The library does not check: the F-TEID of the sender put in the P-GW's field is
    written without an error and read into another field *)
Theorem C77_v2_elsewhere_refuted : exists (m : msg2) w m1 m2, fget (m_fs m) "PGWS5S8FTEIDC" = [Some (x_fteid 0)] /\ fget (m_fs m) "SenderFTEIDC" = [] /\
  v2_marshal dg d_CreateSessionRequest m = Ok (w, m1) /\ v2_parse dg w = Ok (d_CreateSessionRequest, m2) /\
  fget (m_fs m2) "PGWS5S8FTEIDC" = [] /\ fget (m_fs m2) "SenderFTEIDC" = [Some (x_fteid 0)].
Proof.
  exists (Msg x_header (put (fempty d_CreateSessionRequest) "PGWS5S8FTEIDC" [Some (x_fteid 0)])).
  eexists. eexists. eexists. split; [vm_compute; reflexivity|]. split; [vm_compute; reflexivity|].
  split; [vm_compute; reflexivity|]. split; [vm_compute; reflexivity|]. split; vm_compute; reflexivity.
Qed.
Print Assumptions C77_v2_elsewhere_refuted.
(** that field and IE meet the hypotheses of C77_v2_elsewhere *)
Example C77_v2_elsewhere_example : In ("PGWS5S8FTEIDC", FSingle) (md_fields d_CreateSessionRequest) /\
  belongs2 "CreateSessionRequest" (map fst (md_fields d_CreateSessionRequest)) "PGWS5S8FTEIDC" (i2_type (x_fteid 0)) (i2_instance (x_fteid 0)) = false /\
  ~ In ("CreateSessionRequest", "PGWS5S8FTEIDC") misplaced_parse2.
Proof.
  split; [unfold d_CreateSessionRequest; cbn [md_fields]; repeat first [left; reflexivity|right]|]. split; [vm_compute; reflexivity|].
  unfold misplaced_parse2. cbn [In]. intros H. repeat destruct H as [H|H]; try discriminate H; exact H.
Qed.
