(** CreateSession, when nobody interrupts it. *)
From Coq Require Import String Lia.
From Verif Require Import Base BaseLemmas Maps MapsProofs Utils V2IE V2Header MsgModel Msgs2Gen V2Msg V2Codec V2Codec2 UtilsProofs V2AccProofs
  CPlane CSpec CSpec2 CPlaneProofs CPlaneProofs2 CPlaneProofs3 CPlaneProofs4.
Open Scope N_scope.
Open Scope list_scope.

Fixpoint sets (l : list stmt) : list sset :=
  match l with [] => [] | DoS x :: r => x :: sets r | _ :: r => sets r end.
Fixpoint bsets (l : list stmt) : list bset :=
  match l with [] => [] | DoB x :: r => x :: bsets r | _ :: r => bsets r end.
Lemma sets_app a b : sets (a ++ b) = sets a ++ sets b.
Proof. induction a as [|[] a IH]; cbn; congruence. Qed.
Lemma bsets_app a b : bsets (a ++ b) = bsets a ++ bsets b.
Proof. induction a as [|[] a IH]; cbn; congruence. Qed.

Definition stmts (w : world) (id c s b : N) (l : list stmt) : world := fold_left (fun w x => run_stmt w id c s b x) l w.
Lemma stmts_cons w id c s b x l : stmts w id c s b (x :: l) = stmts (run_stmt w id c s b x) id c s b l.
Proof. reflexivity. Qed.
Lemma stmts_app w id c s b l1 l2 : stmts w id c s b (l1 ++ l2) = stmts (stmts w id c s b l1) id c s b l2.
Proof. apply fold_left_app. Qed.

Lemma stmt_ends w id c s b x : run_stmt (ends w id) id c s b x = ends (run_stmt w id c s b x) id.
Proof. destruct x; reflexivity. Qed.
Lemma stmt_crashed w id c s b x : w_crashed (run_stmt w id c s b x) = w_crashed w.
Proof. destruct x; reflexivity. Qed.
Lemma run_script w id c s b l f ls : w_crashed w = false ->
  run (goes w id (TScript c s b l f)) (repeat (LRun id true) (List.length l) ++ ls) =
  run (goes (stmts w id c s b l) id (TScript c s b [] f)) ls.
Proof.
  revert w. induction l as [|x l IH]; intros w C; [reflexivity|].
  cbn [List.length repeat app]. rewrite run_goes by exact C. cbn [run_thread]. rewrite stmt_ends, goes_ends.
  rewrite IH by now rewrite stmt_crashed. reflexivity.
Qed.

(** what the statements change *)
Lemma stmts_crashed w id c s b l : w_crashed (stmts w id c s b l) = w_crashed w.
Proof. revert w. induction l as [|x l IH]; intros w; [reflexivity|]. rewrite stmts_cons, IH. apply stmt_crashed. Qed.
Lemma stmts_sess w id c s b l : w_sess (stmts w id c s b l) s = fold_left set_s (sets l) (w_sess w s).
Proof.
  revert w. induction l as [|x l IH]; intros w; [reflexivity|]. rewrite stmts_cons.
  rewrite IH. destruct x; cbn [sets run_stmt]; try reflexivity. cbn [fold_left do_set emit put_sess w_sess]. now rewrite upd_same.
Qed.
Lemma stmts_br w id c s b l : w_brs (stmts w id c s b l) b = fold_left set_b (bsets l) (w_brs w b).
Proof.
  revert w. induction l as [|x l IH]; intros w; [reflexivity|]. rewrite stmts_cons.
  rewrite IH. destruct x; cbn [bsets run_stmt]; try reflexivity. cbn [fold_left do_bset emit put_br w_brs]. now rewrite upd_same.
Qed.
Lemma stmts_others w id c s b l :
  (forall s', s' <> s -> w_sess (stmts w id c s b l) s' = w_sess w s') /\
  (forall b', b' <> b -> w_brs (stmts w id c s b l) b' = w_brs w b') /\
  (forall c', c' <> c -> w_conns (stmts w id c s b l) c' = w_conns w c').
Proof.
  revert w. induction l as [|x l IH]; intros w; [now repeat split|]. rewrite stmts_cons.
  destruct (IH (run_stmt w id c s b x)) as (A & B & D). repeat split.
  - intros s' H. rewrite A by exact H. destruct x; cbn -[set_s]; try reflexivity. unfold upd. now rewrite (proj2 (N.eqb_neq _ _) H).
  - intros s' H. rewrite B by exact H. destruct x; cbn -[set_b]; try reflexivity. unfold upd. now rewrite (proj2 (N.eqb_neq _ _) H).
  - intros s' H. rewrite D by exact H. destruct x; cbn -[set_iteis set_imsis]; try reflexivity; unfold upd; now rewrite (proj2 (N.eqb_neq _ _) H).
Qed.
Lemma stmts_conn w id c s b l :
  c_open (w_conns (stmts w id c s b l) c) = c_open (w_conns w c) /\
  c_seq (w_conns (stmts w id c s b l) c) = c_seq (w_conns w c) /\
  c_ift (w_conns (stmts w id c s b l) c) = c_ift (w_conns w c).
Proof.
  revert w. induction l as [|x l IH]; intros w; [now repeat split|]. rewrite stmts_cons.
  destruct (IH (run_stmt w id c s b x)) as (A & B & D). rewrite A, B, D. destruct x; cbn; try (now repeat split);
  unfold upd; rewrite N.eqb_refl; now repeat split.
Qed.
Lemma stmts_teid w id c s b l t :
  aget (c_itei (w_conns (stmts w id c s b l) c)) t =
  if existsb (fun x => match x with DoTeid t' => t' =? t | _ => false end) l then Some (Some s) else aget (c_itei (w_conns w c)) t.
Proof.
  revert w. induction l as [|x l IH]; intros w; [reflexivity|]. rewrite stmts_cons.
  rewrite IH. cbn [existsb]. destruct (existsb _ l) eqn:E; [now rewrite Bool.orb_true_r|]. rewrite Bool.orb_false_r.
  destruct x; cbn -[aget aput]; try reflexivity; rewrite upd_same; cbn -[aget aput]; [|reflexivity].
  now rewrite aget_aput, (N.eqb_sym t t0).
Qed.
(** the IMSI table: keys are the IMSI of the session when the statement ran *)
Fixpoint imsis_at (im : bytes) (l : list stmt) : list bytes :=
  match l with
  | [] => []
  | DoImsi :: r => im :: imsis_at im r
  | DoS (SImsi v) :: r => imsis_at v r
  | _ :: r => imsis_at im r
  end.
Lemma stmts_imsi w id c s b l im :
  sget (c_imsi (w_conns (stmts w id c s b l) c)) im =
  if existsb (bytes_eqb im) (imsis_at (s_imsi (w_sess w s)) l) then Some s else sget (c_imsi (w_conns w c)) im.
Proof.
  revert w. induction l as [|x l IH]; intros w; [reflexivity|]. rewrite stmts_cons.
  rewrite IH. destruct x as [x|x|t|].
  - assert (E : imsis_at (s_imsi (w_sess w s)) (DoS x :: l) = imsis_at (s_imsi (set_s (w_sess w s) x)) l) by now destruct x.
    rewrite E. cbn [run_stmt do_set emit put_sess w_sess w_conns]. now rewrite upd_same.
  - reflexivity.
  - cbn [imsis_at run_stmt]. cbn -[sget]. rewrite upd_same. reflexivity.
  - cbn [imsis_at run_stmt existsb]. cbn -[sget sput existsb]. rewrite upd_same. cbn -[sget sput existsb].
    destruct (existsb _ (imsis_at _ l)) eqn:E; [now rewrite Bool.orb_true_r|]. rewrite Bool.orb_false_r. rewrite sget_sput. reflexivity.
Qed.

(** ** The statements, IE by IE *)
Lemma reads_ok {A} (r : res A) : reads r = true -> exists v, r = Ok v.
Proof. destruct r; cbn; try discriminate. eauto. Qed.
Definition child_stmts (i : ie2) : list stmt := fst (create_child i).
Inductive child_case (i : ie2) : list stmt -> Prop :=
| CEbi v : i2_type i = 73 -> acc_ebi g2 i = Ok v -> child_case i [DoB (BEbi v)]
| CQos pl q ul dl gu : i2_type i = 80 -> acc_priority_level g2 i = Ok pl -> acc_qci g2 i = Ok q -> acc_umbr i = Ok ul ->
    acc_dmbr i = Ok dl -> acc_ugbr i = Ok gu ->
    child_case i [DoB (BQos (Qos (has_pci g2 i) (has_pvi g2 i) pl q ul dl gu gu))]
| CTeid it n : i2_type i = 87 -> acc_if_type i = Ok it -> acc_teid i = Ok n -> child_case i [DoS (STeid it n)]
| COther : i2_type i <> 73 -> i2_type i <> 80 -> i2_type i <> 87 -> child_case i [].
Ltac rd H := let v := fresh "v" in let E := fresh "E" in destruct (reads_ok _ H) as (v & E); rewrite E.
Lemma child_is i : readable_child i = true -> snd (create_child i) = Goes /\ child_case i (fst (create_child i)).
Proof.
  unfold readable_child, create_child. intros H.
  destruct (i2_type i =? 73) eqn:T1. { rd H. split; [reflexivity|]. apply CEbi; [now apply N.eqb_eq|exact E]. }
  destruct (i2_type i =? 80) eqn:T2.
  { apply andb_prop in H as [H H5]. apply andb_prop in H as [H H4]. apply andb_prop in H as [H H3]. apply andb_prop in H as [H1 H2].
    rd H1. rd H2. rd H3. rd H4. rd H5. cbn [require]. split; [reflexivity|]. cbn [fst].
    now apply CQos; [now apply N.eqb_eq|..]. }
  destruct (i2_type i =? 87) eqn:T3.
  { apply andb_prop in H as [H1 H2]. rd H1. rd H2. cbn [require]. split; [reflexivity|]. now apply CTeid; [now apply N.eqb_eq|..]. }
  split; [reflexivity|]. apply COther; now apply N.eqb_neq.
Qed.
Lemma next_ok a b : snd a = Goes -> next a b = (fst a ++ fst b, snd b).
Proof. unfold next. now intros ->. Qed.
Lemma children_is l : forallb readable_child l = true ->
  snd (fold_right (fun ch r => next (create_child ch) r) skip l) = Goes /\
  fst (fold_right (fun ch r => next (create_child ch) r) skip l) = flat_map child_stmts l.
Proof.
  induction l as [|i l IH]; intros H; [now split|]. cbn [forallb] in H. apply andb_prop in H as [H1 H2].
  destruct (IH H2) as [A B]. destruct (child_is i H1) as [D _]. cbn [fold_right flat_map]. rewrite (next_ok _ _ D). cbn [fst snd].
  rewrite B. now split.
Qed.
Inductive ie_case (ift : N) (i : ie2) : list stmt -> Prop :=
| IImsi v : i2_type i = 1 -> acc_imsi i = Ok v -> ie_case ift i [DoS (SImsi v)]
| IMsisdn v : i2_type i = 76 -> acc_msisdn i = Ok v -> ie_case ift i [DoS (SMsisdn v)]
| IMei v : i2_type i = 75 -> acc_mei i = Ok v -> ie_case ift i [DoS (SImei v)]
| INet p : i2_type i = 83 -> acc_mcc_mnc i = Ok p -> ie_case ift i [DoS (SMcc (fst p)); DoS (SMnc (snd p))]
| IApn v : i2_type i = 71 -> acc_fqdn g2 71 i = Ok v -> ie_case ift i [DoB (BApn v)]
| IRat v : i2_type i = 82 -> acc_u8 g2 82 i = Ok v -> ie_case ift i [DoS (SRat v)]
| ITeid it n : i2_type i = 87 -> acc_if_type i = Ok it -> acc_teid i = Ok n ->
    ie_case ift i (DoS (STeid it n) :: (if it =? ift then register_script ift n else []))
| ICtx : to_create i = true -> forallb readable_child (i2_children i) = true -> ie_case ift i (flat_map child_stmts (i2_children i))
| IOther : (forall t, In t [1; 76; 75; 83; 71; 82; 87] -> i2_type i <> t) -> to_create i = false -> ie_case ift i [].
Lemma ie_is ift i : readable i = true -> snd (create_ie ift i) = Goes /\ ie_case ift i (fst (create_ie ift i)).
Proof.
  unfold readable, create_ie. intros H.
  destruct (i2_type i =? 1) eqn:T1. { rd H. split; [reflexivity|]. apply IImsi; [now apply N.eqb_eq|exact E]. }
  destruct (i2_type i =? 76) eqn:T2. { rd H. split; [reflexivity|]. apply IMsisdn; [now apply N.eqb_eq|exact E]. }
  destruct (i2_type i =? 75) eqn:T3. { rd H. split; [reflexivity|]. apply IMei; [now apply N.eqb_eq|exact E]. }
  destruct (i2_type i =? 83) eqn:T4. { rd H. split; [reflexivity|]. apply INet; [now apply N.eqb_eq|exact E]. }
  destruct (i2_type i =? 71) eqn:T5. { rd H. split; [reflexivity|]. apply IApn; [now apply N.eqb_eq|exact E]. }
  destruct (i2_type i =? 82) eqn:T6. { rd H. split; [reflexivity|]. apply IRat; [now apply N.eqb_eq|exact E]. }
  destruct (i2_type i =? 87) eqn:T7.
  { apply andb_prop in H as [H1 H2]. rd H1. rd H2. split; [reflexivity|]. apply ITeid; [now apply N.eqb_eq|assumption..]. }
  assert (N : forall t, In t [1; 76; 75; 83; 71; 82; 87] -> i2_type i <> t).
  { apply N.eqb_neq in T1, T2, T3, T4, T5, T6, T7. intros t Q E. cbn in Q. intuition congruence. }
  unfold to_create in H. destruct (i2_type i =? 93) eqn:T8; cbn [andb] in H.
  - destruct (i2_instance i =? 0) eqn:T9.
    + destruct (children_is _ H) as [A B]. rewrite A, B. split; [reflexivity|]. apply ICtx; [|exact H]. unfold to_create. now rewrite T8.
    + split; [reflexivity|]. apply IOther; [exact N|]. unfold to_create. now rewrite T8.
  - split; [reflexivity|]. apply IOther; [exact N|]. unfold to_create. now rewrite T8.
Qed.
Definition ie_stmts (ift : N) (i : ie2) : list stmt := fst (create_ie ift i).
Lemma script_is ift ies : forallb readable (given ies) = true ->
  snd (create_script ift ies) = Goes /\ fst (create_script ift ies) = flat_map (ie_stmts ift) (given ies).
Proof.
  unfold create_script. induction ies as [|[i|] ies IH]; intros H; [now split| |exact (IH H)].
  cbn [given forallb] in H. apply andb_prop in H as [H1 H2]. destruct (IH H2) as [A B]. destruct (ie_is ift i H1) as [D _].
  cbn [fold_right given flat_map]. rewrite (next_ok _ _ D). cbn [fst snd]. rewrite B. now split.
Qed.

(** ** The fields after all statements *)
Lemma last_ie_cons p i l : last_ie p (i :: l) = match last_ie p l with Some j => Some j | None => if p i then Some i else None end.
Proof.
  unfold last_ie. cbn [rev]. generalize (rev l) as r. induction r as [|j r IH]; cbn; [reflexivity|]. destruct (p j); [reflexivity|exact IH].
Qed.
Lemma last_ie_app p a b : last_ie p (a ++ b) = match last_ie p b with Some j => Some j | None => last_ie p a end.
Proof.
  induction a as [|i a IH]; [cbn [app]; now destruct (last_ie p b)|]. cbn [app]. rewrite !last_ie_cons, IH. now destruct (last_ie p b).
Qed.
Lemma last_ie_some p l i : last_ie p l = Some i -> In i l /\ p i = true.
Proof. intros H. apply find_some in H. now rewrite <- in_rev in H. Qed.
(** a field that is set by the IEs for which p holds, to what f says *)
Lemma field_last {S X A} (set : S -> X -> S) (fld : S -> A) (st : ie2 -> list X) (p : ie2 -> bool) (f : ie2 -> res A) l :
  (forall i s, In i l -> fld (fold_left set (st i) s) = if p i then says f (fld s) (Some i) else fld s) ->
  (forall i, In i l -> p i = true -> exists v, f i = Ok v) ->
  forall s, fld (fold_left set (flat_map st l) s) = says f (fld s) (last_ie p l).
Proof.
  induction l as [|i l IH]; intros H1 H2 s; [reflexivity|]. cbn [flat_map]. rewrite fold_left_app.
  rewrite IH by (intros; (apply H1 || apply H2); cbn; auto). rewrite H1 by now left. rewrite last_ie_cons.
  destruct (last_ie p l) as [j|] eqn:E; cbn [says].
  - apply last_ie_some in E as [E1 E2]. destruct (H2 j) as (v & ->); [now right|exact E2|reflexivity].
  - destruct (p i); reflexivity.
Qed.

(** only TEIDs in the contexts *)
Lemma child_sets i : readable_child i = true -> forall x, In x (sets (child_stmts i)) -> exists it n, x = STeid it n.
Proof.
  intros H x. unfold child_stmts. destruct (child_is i H) as [_ C]. destruct C; cbn; intros Q; intuition; subst; eauto.
Qed.
Lemma children_sets l : forallb readable_child l = true -> forall x, In x (sets (flat_map child_stmts l)) -> exists it n, x = STeid it n.
Proof.
  induction l as [|i l IH]; intros H x; [contradiction|]. cbn [forallb] in H. apply andb_prop in H as [H1 H2].
  cbn [flat_map]. rewrite sets_app. intros Q. apply in_app_or in Q as [Q|Q]; [eapply child_sets; eauto|now apply IH].
Qed.
Lemma teids_keep {A} (fld : session -> A) l : (forall s it n, fld (set_s s (STeid it n)) = fld s) ->
  (forall x, In x l -> exists it n, x = STeid it n) -> forall s, fld (fold_left set_s l s) = fld s.
Proof.
  intros F. induction l as [|x l IH]; intros H s; [reflexivity|]. cbn [fold_left].
  rewrite IH by (intros; apply H; now right). destruct (H x (or_introl eq_refl)) as (it & n & ->). apply F.
Qed.
Lemma flat_sets {A} (f : A -> list stmt) l : sets (flat_map f l) = flat_map (fun i => sets (f i)) l.
Proof. induction l as [|i l IH]; [reflexivity|]. cbn [flat_map]. now rewrite sets_app, IH. Qed.
Lemma flat_bsets {A} (f : A -> list stmt) l : bsets (flat_map f l) = flat_map (fun i => bsets (f i)) l.
Proof. induction l as [|i l IH]; [reflexivity|]. cbn [flat_map]. now rewrite bsets_app, IH. Qed.
Lemma type_of_ctx i : to_create i = true -> i2_type i = 93.
Proof. unfold to_create. intros H. apply andb_prop in H as [H _]. now apply N.eqb_eq. Qed.

(** the subscriber's fields *)
Section F.
Context (ift : N) (l : list ie2) (R : forallb readable l = true).
Lemma readable_in i : In i l -> readable i = true.
Proof. intros H. rewrite forallb_forall in R. now apply R. Qed.
Lemma sess_field {A} (fld : session -> A) (t : N) (f : ie2 -> res A) :
  (forall s it n, fld (set_s s (STeid it n)) = fld s) ->
  In t [1; 76; 75; 83; 82] ->
  (forall i ss s, ie_case ift i ss -> to_create i = false -> fld (fold_left set_s (sets ss) s) = if of_type t i then says f (fld s) (Some i) else fld s) ->
  (forall i, In i l -> i2_type i = t -> exists v, f i = Ok v) ->
  forall s, fld (fold_left set_s (sets (flat_map (ie_stmts ift) l)) s) = says f (fld s) (last_ie (of_type t) l).
Proof.
  intros F T H1 H2 s. rewrite flat_sets. apply field_last.
  - intros i s' I. unfold ie_stmts. destruct (ie_is ift i (readable_in i I)) as [_ C].
    destruct (to_create i) eqn:K; [|now apply H1].
    assert (E : of_type t i = false).
    { unfold of_type. rewrite (type_of_ctx i K). apply N.eqb_neq. intros <-. cbn in T. intuition discriminate. }
    rewrite E. pose proof (type_of_ctx i K) as Y. destruct C; try congruence. now apply teids_keep; [|apply children_sets].
  - intros i I E. apply H2; [exact I|]. now apply N.eqb_eq.
Qed.
Ltac fld_case := intros i ss ? C K; destruct C as [v T E|v T E|v T E|v T E|v T E|v T E|it n T E1 E2|T E|T E]; unfold of_type, says;
  [..|match goal with |- context [if it =? ift then _ else _] => destruct (it =? ift) end; rewrite T; reflexivity|
   congruence|rewrite (proj2 (N.eqb_neq _ _)) by (apply T; cbn; tauto); reflexivity];
  rewrite T; cbn [N.eqb Pos.eqb]; rewrite ?E; reflexivity.
Ltac fld_ok := intros i I T; pose proof (readable_in i I) as Q; unfold readable in Q; rewrite T in Q; cbn [N.eqb Pos.eqb] in Q;
  apply reads_ok in Q; exact Q.
Notation after s := (fold_left set_s (sets (flat_map (ie_stmts ift) l)) s).
Lemma f_imsi s : s_imsi (after s) = says acc_imsi (s_imsi s) (last_ie (of_type 1) l).
Proof. apply (sess_field s_imsi); [reflexivity|cbn; tauto|fld_case|fld_ok]. Qed.
Lemma f_msisdn s : s_msisdn (after s) = says acc_msisdn (s_msisdn s) (last_ie (of_type 76) l).
Proof. apply (sess_field s_msisdn); [reflexivity|cbn; tauto|fld_case|fld_ok]. Qed.
Lemma f_imei s : s_imei (after s) = says acc_mei (s_imei s) (last_ie (of_type 75) l).
Proof. apply (sess_field s_imei); [reflexivity|cbn; tauto|fld_case|fld_ok]. Qed.
Lemma f_rat s : s_rat (after s) = says (acc_u8 g2 82) (s_rat s) (last_ie (of_type 82) l).
Proof. apply (sess_field s_rat); [reflexivity|cbn; tauto|fld_case|fld_ok]. Qed.
Lemma f_net s : (s_mcc (after s), s_mnc (after s)) = says acc_mcc_mnc (s_mcc s, s_mnc s) (last_ie (of_type 83) l).
Proof.
  apply (sess_field (fun s => (s_mcc s, s_mnc s))); [reflexivity|cbn; tauto| |fld_ok].
  intros i ss s' C K; destruct C as [v T E|v T E|v T E|v T E|v T E|v T E|it n T E1 E2|T E|T E]; unfold of_type, says;
  [..|match goal with |- context [if it =? ift then _ else _] => destruct (it =? ift) end; rewrite T; reflexivity|
   congruence|rewrite (proj2 (N.eqb_neq _ _)) by (apply T; cbn; tauto); reflexivity];
  rewrite T; cbn [N.eqb Pos.eqb]; rewrite ?E; try reflexivity. now destruct v.
Qed.
(** what CreateSession never touches *)
Lemma f_rest s : s_peer (after s) = s_peer s /\ s_active (after s) = s_active s /\ s_bearers (after s) = s_bearers s /\ s_queue (after s) = s_queue s.
Proof.
  assert (G : forall x, In x (sets (flat_map (ie_stmts ift) l)) ->
    match x with SImsi _ | SMsisdn _ | SImei _ | SMcc _ | SMnc _ | SRat _ | STeid _ _ => True | _ => False end).
  { rewrite flat_sets. intros x Q. apply in_flat_map in Q as (i & I & Q). unfold ie_stmts in Q.
    destruct (ie_is ift i (readable_in i I)) as [_ C]. destruct C; cbn [sets] in Q; try (cbn in Q; intuition; subst; exact Logic.I).
    - destruct (it =? ift); cbn in Q; intuition; subst; exact Logic.I.
    - apply children_sets in Q as (it & n & ->); [exact Logic.I|assumption]. }
  revert s G. generalize (sets (flat_map (ie_stmts ift) l)). intros xs. induction xs as [|x xs IH]; intros s G; [now repeat split|].
  cbn [fold_left]. destruct (IH (set_s s x)) as (A & B & D & E); [intros; apply G; now right|].
  rewrite A, B, D, E. specialize (G x (or_introl eq_refl)). destruct x; try contradiction; now repeat split.
Qed.
(** the TEIDs *)
Lemma get_put (s : session) it n x : aget (s_teids (set_s s (STeid it n))) x = if it =? x then Some n else aget (s_teids s) x.
Proof. cbn [set_s s_teids]. now rewrite aget_aput, N.eqb_sym. Qed.
Definition teid_says (i : ie2) : res (option N) := do t <- acc_teid i; Ok (Some t).
Lemma f_teid_children x cs : forallb readable_child cs = true -> forall s,
  aget (s_teids (fold_left set_s (sets (flat_map child_stmts cs)) s)) x = says teid_says (aget (s_teids s) x) (last_ie (for_interface x) cs).
Proof.
  intros H s. rewrite flat_sets. rewrite forallb_forall in H.
  apply (field_last set_s (fun s => aget (s_teids s) x)).
  - intros i s' I. unfold child_stmts. destruct (child_is i (H i I)) as [_ C].
    destruct C as [v T E|pl q ul dl gu T E1 E2 E3 E4 E5|it n T E1 E2|T1 T2 T3]; unfold for_interface, says, teid_says.
    + rewrite T. reflexivity.
    + rewrite T. reflexivity.
    + rewrite T. cbn [N.eqb Pos.eqb andb]. rewrite E1, E2. cbn [sets fold_left bind]. apply get_put.
    + rewrite (proj2 (N.eqb_neq _ _) T3). reflexivity.
  - intros i I. unfold for_interface, teid_says. intros Q. apply andb_prop in Q as [Q _]. apply N.eqb_eq in Q.
    destruct (child_is i (H i I)) as [_ C]. destruct C as [v T E|pl q ul dl gu T E1 E2 E3 E4 E5|it n T E1 E2|T1 T2 T3]; try congruence. rewrite E2. eexists. reflexivity.
Qed.
Lemma f_teid x s : aget (s_teids (after s)) x = says teid_says (aget (s_teids s) x) (last_ie (for_interface x) (all_ies l)).
Proof.
  clear -R. revert s. induction l as [|i r IH]; intros s; [reflexivity|]. cbn [forallb] in R. apply andb_prop in R as [R1 R2].
  cbn [flat_map]. rewrite sets_app, fold_left_app. rewrite IH by exact R2. unfold all_ies. cbn [flat_map]. rewrite last_ie_app.
  fold (all_ies r). destruct (last_ie (for_interface x) (all_ies r)) as [j|] eqn:E.
  - apply last_ie_some in E as [E1 E2]. unfold for_interface in E2. apply andb_prop in E2 as [E2 _]. apply N.eqb_eq in E2.
    assert (exists n, acc_teid j = Ok n) as (n & Ej).
    { unfold all_ies in E1. apply in_flat_map in E1 as (k & K1 & K2). rewrite forallb_forall in R2. specialize (R2 k K1).
      destruct (to_create k) eqn:TC.
      - destruct (ie_is ift k R2) as [_ C]. pose proof (type_of_ctx k TC). destruct C; try congruence.
        + rewrite forallb_forall in H1. specialize (H1 j K2). destruct (child_is j H1) as [_ C]. destruct C; try congruence. eauto.
      - cbn in K2. destruct K2 as [<-|[]]. destruct (ie_is ift k R2) as [_ C]. destruct C; try congruence; eauto.
        exfalso. apply (H 87); [cbn; tauto|exact E2]. }
    cbn [says]. unfold teid_says. now rewrite Ej.
  - cbn [says]. unfold ie_stmts. destruct (ie_is ift i R1) as [_ C]. destruct (to_create i) eqn:TC.
    + pose proof (type_of_ctx i TC). destruct C; try congruence. now apply f_teid_children.
    + assert (Z : forall y, last_ie y [i] = if y i then Some i else None) by (intros; reflexivity). rewrite Z.
      destruct C as [v T E'|v T E'|v T E'|v T E'|v T E'|v T E'|it n T E1 E2|T E'|T E']; try congruence; unfold for_interface;
        try (rewrite T; reflexivity).
      * rewrite T, E1. change (87 =? 87) with true. cbn [andb sets fold_left]. unfold says, teid_says.
        destruct (it =? ift) eqn:L; cbn [sets fold_left register_script].
        -- apply N.eqb_eq in L. subst it. rewrite !get_put. destruct (ift =? x); rewrite ?E2; reflexivity.
        -- rewrite get_put. destruct (it =? x); rewrite ?E2; reflexivity.
      * rewrite (proj2 (N.eqb_neq _ _)) by (apply T; cbn; tauto). reflexivity.
Qed.
(** the default bearer *)
Notation bafter b := (fold_left set_b (bsets (flat_map (ie_stmts ift) l)) b).
Lemma f_apn b : b_apn (bafter b) = says (acc_fqdn g2 71) (b_apn b) (last_ie (of_type 71) l).
Proof.
  rewrite flat_bsets. apply (field_last set_b b_apn).
  - intros i b' I. unfold ie_stmts. destruct (ie_is ift i (readable_in i I)) as [_ C].
    destruct C as [v T E|v T E|v T E|v T E|v T E|v T E|it n T E1 E2|T E|T E]; unfold of_type, says.
    1-6: rewrite T; cbn [N.eqb Pos.eqb]; rewrite ?E; reflexivity.
    + rewrite T. destruct (it =? ift); reflexivity.
    + rewrite (type_of_ctx i T). cbn [N.eqb Pos.eqb]. rewrite flat_bsets. revert b'. clear T. revert E.
      generalize (i2_children i). intros cs. induction cs as [|j cs IH]; intros E b'; [reflexivity|].
      cbn [forallb] in E. apply andb_prop in E as [E1 E2]. cbn [flat_map]. rewrite fold_left_app, IH by exact E2.
      unfold child_stmts. destruct (child_is j E1) as [_ C]. destruct C; reflexivity.
    + rewrite (proj2 (N.eqb_neq _ _)) by (apply T; cbn; tauto). reflexivity.
  - intros i I T. apply N.eqb_eq in T. pose proof (readable_in i I) as Q. unfold readable in Q. rewrite T in Q. cbn [N.eqb Pos.eqb] in Q.
    now apply reads_ok in Q.
Qed.
(** the bearer's other fields: only the contexts count *)
Lemma bctx_field {A} (fld : bearer -> A) (p : ie2 -> bool) (f : ie2 -> res A) :
  (forall b v, fld (set_b b (BApn v)) = fld b) ->
  (forall i ss b, child_case i ss -> fld (fold_left set_b (bsets ss) b) = if p i then says f (fld b) (Some i) else fld b) ->
  (forall i, readable_child i = true -> p i = true -> exists v, f i = Ok v) ->
  forall b, fld (bafter b) = says f (fld b) (last_ie p (bearer_ies l)).
Proof.
  intros F H1 H2. clear -R F H1 H2. induction l as [|i r IH]; intros b; [reflexivity|].
  cbn [forallb] in R. apply andb_prop in R as [R1 R2]. cbn [flat_map]. rewrite bsets_app, fold_left_app, IH by exact R2.
  unfold bearer_ies. cbn [filter]. destruct (to_create i) eqn:TC.
  - cbn [flat_map]. rewrite last_ie_app. fold (bearer_ies r).
    assert (Q : forallb readable_child (i2_children i) = true).
    { destruct (ie_is ift i R1) as [_ C]. pose proof (type_of_ctx i TC). destruct C; try congruence. }
    rewrite forallb_forall in Q.
    assert (S : fld (fold_left set_b (bsets (ie_stmts ift i)) b) = says f (fld b) (last_ie p (i2_children i))).
    { unfold ie_stmts. destruct (ie_is ift i R1) as [_ C]. pose proof (type_of_ctx i TC). destruct C; try congruence.
      rewrite flat_bsets. apply field_last.
      - intros j b' J. unfold child_stmts. destruct (child_is j (Q j J)) as [_ C]. now apply H1.
      - intros j J. apply H2. now apply Q. }
    rewrite S. destruct (last_ie p (bearer_ies r)) as [j|] eqn:E; [|reflexivity].
    cbn [says]. apply last_ie_some in E as [E1 E2]. unfold bearer_ies in E1. apply in_flat_map in E1 as (k & K1 & K2).
    apply filter_In in K1 as [K1 K3]. destruct (H2 j) as (v & ->); [|exact E2|reflexivity].
    rewrite forallb_forall in R2. specialize (R2 k K1). destruct (ie_is ift k R2) as [_ C]. pose proof (type_of_ctx k K3).
    destruct C as [v T E|v T E|v T E|v T E|v T E|v T E|it n T E3 E4|T E|T E]; try congruence. rewrite forallb_forall in E. now apply E.
  - fold (bearer_ies r). f_equal. unfold ie_stmts. destruct (ie_is ift i R1) as [_ C].
    destruct C as [v T E|v T E|v T E|v T E|v T E|v T E|it n T E1 E2|T E|T E]; try congruence; cbn [bsets fold_left]; try reflexivity.
    + apply F.
    + destruct (it =? ift); reflexivity.
Qed.
Lemma f_ebi b : b_ebi (bafter b) = says (acc_ebi g2) (b_ebi b) (last_ie (of_type 73) (bearer_ies l)).
Proof.
  apply (bctx_field b_ebi); [reflexivity| |].
  - intros i ss b' C. destruct C as [v T E|pl q ul dl gu T E1 E2 E3 E4 E5|it n T E1 E2|T1 T2 T3]; unfold of_type, says.
    + rewrite T, E. reflexivity.
    + rewrite T. reflexivity.
    + rewrite T. reflexivity.
    + rewrite (proj2 (N.eqb_neq _ _) T1). reflexivity.
  - intros i Q T. apply N.eqb_eq in T. unfold readable_child in Q. rewrite T in Q. cbn [N.eqb Pos.eqb] in Q. now apply reads_ok.
Qed.
Definition qos_says (i : ie2) : res qos :=
  do pl <- acc_priority_level g2 i; do q <- acc_qci g2 i; do ul <- acc_umbr i; do dl <- acc_dmbr i; do gu <- acc_ugbr i;
  Ok (Qos (has_pci g2 i) (has_pvi g2 i) pl q ul dl gu gu).
Lemma f_qos b : b_qos (bafter b) = says qos_says (b_qos b) (last_ie (of_type 80) (bearer_ies l)).
Proof.
  apply (bctx_field b_qos); [reflexivity| |].
  - intros i ss b' C. destruct C as [v T E|pl q ul dl gu T E1 E2 E3 E4 E5|it n T E1 E2|T1 T2 T3]; unfold of_type, says.
    + rewrite T. reflexivity.
    + rewrite T. unfold qos_says. rewrite E1, E2, E3, E4, E5. reflexivity.
    + rewrite T. reflexivity.
    + rewrite (proj2 (N.eqb_neq _ _) T2). reflexivity.
  - intros i Q T. apply N.eqb_eq in T. destruct (child_is i Q) as [_ C]. destruct C; try congruence.
    unfold qos_says. rewrite H0, H1, H2, H3, H4. eexists. reflexivity.
Qed.
(** what it is registered under *)
Lemma child_no_reg i : readable_child i = true ->
  existsb (fun x => match x with DoTeid _ | DoImsi => true | _ => false end) (child_stmts i) = false.
Proof. intros H. unfold child_stmts. destruct (child_is i H) as [_ C]. now destruct C. Qed.
Lemma children_no_reg t cs : forallb readable_child cs = true ->
  existsb (fun x => match x with DoTeid t' => t' =? t | _ => false end) (flat_map child_stmts cs) = false.
Proof.
  induction cs as [|i cs IH]; intros H; [reflexivity|]. cbn [forallb] in H. apply andb_prop in H as [H1 H2].
  cbn [flat_map]. rewrite existsb_app, (IH H2), Bool.orb_false_r. unfold child_stmts. destruct (child_is i H1) as [_ C]. now destruct C.
Qed.
Lemma f_reg t : existsb (fun x => match x with DoTeid t' => t' =? t | _ => false end) (flat_map (ie_stmts ift) l) = existsb (carries ift t) l.
Proof.
  clear -R. induction l as [|i r IH]; [reflexivity|]. cbn [forallb] in R. apply andb_prop in R as [R1 R2].
  cbn [flat_map existsb]. rewrite existsb_app, (IH R2). f_equal. unfold ie_stmts, carries, for_interface.
  destruct (ie_is ift i R1) as [_ C].
  destruct C as [v T E|v T E|v T E|v T E|v T E|v T E|it n T E1 E2|T E|T E]; try (rewrite T; reflexivity).
  - rewrite T, E1, E2. cbn [N.eqb Pos.eqb andb]. destruct (it =? ift); cbn; now rewrite ?Bool.orb_false_r.
  - rewrite (type_of_ctx i T). now apply children_no_reg.
  - rewrite (proj2 (N.eqb_neq _ _)) by (apply T; cbn; tauto). reflexivity.
Qed.
Lemma imsis_app im a b : imsis_at im (a ++ b) = imsis_at im a ++ imsis_at (s_imsi (fold_left set_s (sets a) (new_session 0 im 0))) b.
Proof.
  assert (G : forall s, imsis_at (s_imsi s) (a ++ b) = imsis_at (s_imsi s) a ++ imsis_at (s_imsi (fold_left set_s (sets a) s)) b).
  { induction a as [|x a IH]; intros s; [reflexivity|]. destruct x as [x|x|t|]; cbn [app imsis_at sets fold_left].
    - destruct x; match goal with |- context [set_s s ?y] => exact (IH (set_s s y)) end.
    - apply IH.
    - apply IH.
    - now rewrite IH. }
  exact (G (new_session 0 im 0)).
Qed.
Lemma children_no_imsi cs im : forallb readable_child cs = true -> imsis_at im (flat_map child_stmts cs) = [].
Proof.
  induction cs as [|i cs IH]; intros H; [reflexivity|]. cbn [forallb] in H. apply andb_prop in H as [H1 H2].
  cbn [flat_map]. rewrite imsis_app. unfold child_stmts at 1 2. destruct (child_is i H1) as [_ C]. destruct C; cbn; apply (IH H2).
Qed.
End F.
(** the IMSI of the moment *)
Lemma f_imsis ift l a i b im : forallb readable l = true -> l = a ++ i :: b -> for_interface ift i = true ->
  In (says acc_imsi im (last_ie (of_type 1) a)) (imsis_at im (flat_map (ie_stmts ift) l)).
Proof.
  intros R -> F. rewrite flat_map_app. cbn [flat_map]. rewrite forallb_app in R. apply andb_prop in R as [R1 R2].
  cbn [forallb] in R2. apply andb_prop in R2 as [R2 R3]. rewrite !imsis_app. rewrite (f_imsi ift a R1). cbn [s_imsi new_session].
  apply in_or_app. right. apply in_or_app. left. unfold ie_stmts. unfold for_interface in F. apply andb_prop in F as [F1 F2].
  apply N.eqb_eq in F1. destruct (ie_is ift i R2) as [_ C].
  destruct C as [v T E|v T E|v T E|v T E|v T E|v T E|it n T E1 E2|T E|T E]; try congruence.
  - rewrite E1 in F2. rewrite F2. cbn. now left.
  - rewrite (type_of_ctx i T) in F1. discriminate.
  - exfalso. apply (T 87); [cbn; tauto|exact F1].
Qed.
Lemma f_imsis_only ift l im x : forallb readable l = true -> In x (imsis_at im (flat_map (ie_stmts ift) l)) ->
  exists a i b, l = a ++ i :: b /\ for_interface ift i = true /\ x = says acc_imsi im (last_ie (of_type 1) a).
Proof.
  revert im. induction l as [|i r IH]; intros im R H; [contradiction|]. cbn [forallb] in R. apply andb_prop in R as [R1 R2].
  cbn [flat_map] in H. rewrite imsis_app in H. apply in_app_or in H as [H|H].
  - exists [], i, r. split; [reflexivity|]. unfold ie_stmts in H. destruct (ie_is ift i R1) as [_ C].
    destruct C as [v T E|v T E|v T E|v T E|v T E|v T E|it n T E1 E2|T E|T E]; try contradiction.
    + unfold for_interface. rewrite T, E1. destruct (it =? ift); [|contradiction]. cbn in H. destruct H as [<-|[]]. now split.
    + rewrite children_no_imsi in H by exact E. contradiction.
  - assert (R0 : forallb readable [i] = true) by (cbn; now rewrite R1).
    pose proof (f_imsi ift [i] R0 (new_session 0 im 0)) as Q. cbn [flat_map] in Q. rewrite app_nil_r in Q.
    rewrite Q in H. cbn [s_imsi new_session] in H. apply IH in H as (a & j & b & -> & F & ->); [|exact R2].
    exists (i :: a), j, b. split; [reflexivity|]. split; [exact F|].
    change (i :: a) with ([i] ++ a). rewrite last_ie_app. destruct (last_ie (of_type 1) a) as [k|] eqn:E; [|reflexivity].
    apply last_ie_some in E as [E1 E2]. cbn [says]. assert (exists v, acc_imsi k = Ok v) as (v & ->); [|reflexivity].
    rewrite forallb_app in R2. apply andb_prop in R2 as [R2 _]. rewrite forallb_forall in R2. specialize (R2 k E1).
    unfold readable in R2. unfold of_type in E2. rewrite E2 in R2. now apply reads_ok.
Qed.

(** ** The call as a whole *)
Lemma stmts_log w id c s b l : exists l', w_log (stmts w id c s b l) = l' ++ w_log w /\ existsb sends l' = false /\
  (forall c', last_seq c' (l' ++ w_log w) = last_seq c' (w_log w)).
Proof.
  revert w. induction l as [|x l IH]; intros w; [now exists []|]. rewrite stmts_cons.
  destruct (IH (run_stmt w id c s b x)) as (l' & A & B & C).
  destruct x as [x|x|t|]; cbn [run_stmt do_set do_bset emit put_sess put_br set_conn w_log] in A, C |- *; rewrite A.
  all: eexists (l' ++ [_]); rewrite <- app_assoc; split; [reflexivity|]; rewrite existsb_app, B; split; [reflexivity|];
    intros c'; cbn [app]; rewrite C; reflexivity.
Qed.
Lemma stmts_next w id c s b l : w_next (stmts w id c s b l) = w_next w /\ w_ns (stmts w id c s b l) = w_ns w /\ w_nb (stmts w id c s b l) = w_nb w.
Proof. revert w. induction l as [|x l IH]; intros w; [now repeat split|]. rewrite stmts_cons. destruct (IH (run_stmt w id c s b x)) as (-> & -> & ->). destruct x; now repeat split. Qed.

Lemma seq_bound ift counter l c : good ift counter l -> last_seq c l < 4294967296.
Proof.
  induction l as [|e l IH]; intros G; [reflexivity|]. pose proof (good_head _ _ _ _ G) as H. apply good_tail in G. specialize (IH G).
  destruct e; cbn [last_seq]; try exact IH; destruct (c0 =? c); try exact IH; destruct H as [-> _].
  - pose proof (inc_small ift counter (c_seq (conn_of ift counter c0 l))). lia.
  - unfold dec_seq. now apply N.mod_lt.
Qed.
Lemma inc_next n : n < 4294967296 -> inc_seq n = next_number n.
Proof.
  intros H. unfold inc_seq, next_number. cbv zeta. destruct (n <? 8388607) eqn:E.
  - apply N.ltb_lt in E. rewrite N.mod_small by lia. rewrite (proj2 (N.ltb_ge 8388607 (n + 1))) by lia. reflexivity.
  - apply N.ltb_ge in E. destruct (N.eq_dec n 4294967295) as [->|D]; [reflexivity|].
    rewrite N.mod_small by lia. now rewrite (proj2 (N.ltb_lt 8388607 (n + 1))) by lia.
Qed.

Definition begun (w : world) (c : N) (a : addr) (ies : list (option ie2)) : world :=
  emit (bump (add_session w a [])) (EvCall (w_next w) (KCreate c (w_ns w) a ies)).
Lemma run_create w c a ies ls : w_crashed w = false ->
  run w (LCreate c a ies :: ls) =
  run (goes (begun w c a ies) (w_next w)
        (TScript c (w_ns w) (w_nb w) (fst (create_script (c_ift (w_conns w c)) ies))
          (match snd (create_script (c_ift (w_conns w c)) ies) with
           | Goes => FSend d_CreateSessionRequest (v2_new g2 d_CreateSessionRequest 0 0 ies) a
           | Fails => FFail | Panics => FPanic end))) ls.
Proof. intros C. cbn [run]. unfold step. rewrite C. reflexivity. Qed.

Section W.
Context (ift counter : N -> N).
Notation reach := (reachable ift counter).
(** the state after CreateSession has sent its message *)
Definition filled (w : world) c a ies : world :=
  stmts (begun w c a ies) (w_next w) c (w_ns w) (w_nb w) (flat_map (ie_stmts (ift c)) (given ies)).
Definition sent_world (w : world) c a ies n b : world :=
  let w1 := filled w c a ies in
  emit (ends (emit (set_conn (ends (ends w1 (w_next w)) (w_next w)) c (set_seq (w_conns w1 c) n)) (EvSeq (w_next w) c n)) (w_next w)) (EvSent (w_next w) c a n b).
Lemma create_runs w c a ies m n b m' : reach w -> w_crashed w = false -> opened c (w_log w) = true -> forallb readable (given ies) = true ->
  v2_new g2 d_CreateSessionRequest 0 0 ies = Ok m -> n = next_number (last_seq c (w_log w)) ->
  v2_marshal g2 d_CreateSessionRequest (Msg (h2_set_seq (m_hdr m) n) (m_fs m)) = Ok (b, m') ->
  exists k w', run w (LCreate c a ies :: repeat (LRun (w_next w) true) k) = Some w' /\
    w_conns w' = upd (w_conns (filled w c a ies)) c (set_seq (w_conns (filled w c a ies) c) n) /\
    w_sess w' = w_sess (filled w c a ies) /\ w_brs w' = w_brs (filled w c a ies) /\ w_crashed w' = false /\
    w_log w' = EvSent (w_next w) c a n b :: EvSeq (w_next w) c n :: w_log (filled w c a ies).
Proof.
  intros R C O RD NW EN M. pose proof (reach_ift _ _ w c R) as EI. pose proof (reach_open _ _ w c R) as EO. rewrite O in EO.
  pose proof (reach_seq _ _ w c R) as ES. pose proof (seq_bound ift counter (w_log w) c (iv_log _ _ _ (reach_inv _ _ _ R))) as SB.
  exists (List.length (flat_map (ie_stmts (ift c)) (given ies)) + 3)%nat. rewrite run_create by exact C. rewrite EI.
  destruct (script_is (ift c) ies RD) as [A B]. rewrite A, B. rewrite repeat_app, run_script by exact C. fold (filled w c a ies).
  cbn [repeat]. assert (C1 : w_crashed (filled w c a ies) = false) by (unfold filled; rewrite stmts_crashed; exact C).
  rewrite run_goes by exact C1. cbn [run_thread]. rewrite NW. rewrite goes_ends.
  rewrite run_goes by exact C1. cbn [run_thread]. cbv zeta.
  destruct (stmts_conn (begun w c a ies) (w_next w) c (w_ns w) (w_nb w) (flat_map (ie_stmts (ift c)) (given ies))) as (O1 & S1 & _).
  fold (filled w c a ies) in O1, S1.
  cbn [w_conns ends]. rewrite S1. cbn [begun emit bump add_session w_conns]. rewrite ES, inc_next, <- EN by exact SB. rewrite M.
  rewrite run_goes by exact C1. cbn [run_thread]. cbn [w_conns ends emit set_conn]. rewrite upd_same. cbn [c_open set_seq].
  rewrite O1. cbn [begun emit bump add_session w_conns]. rewrite EO. cbn [run].
  eexists. split; [reflexivity|]. cbn [w_conns w_sess w_brs w_crashed w_log ends emit set_conn]. now repeat split.
Qed.
(** an IE that cannot be read *)
Lemma assign_not {A} (r : res A) z f : reads r = false -> snd (assign r z f) <> Goes.
Proof. destruct r; cbn; congruence. Qed.
Lemma require_not {A} (r : res A) k : reads r = false -> snd (require r k) <> Goes.
Proof. destruct r; cbn; congruence. Qed.
Lemma require_then {A} (r : res A) k : (forall v, snd (k v) <> Goes) -> snd (require r k) <> Goes.
Proof. destruct r; cbn; [intros H; apply H|congruence|congruence]. Qed.
Lemma next_not a b : snd a <> Goes -> snd (next a b) <> Goes.
Proof. unfold next. destruct (snd a); cbn; congruence. Qed.
Lemma next_not2 a b : snd b <> Goes -> snd (next a b) <> Goes.
Proof. unfold next. destruct (snd a); cbn; congruence. Qed.
Lemma and_false a b : a && b = false -> a = false \/ b = false.
Proof. destruct a; auto. Qed.
Lemma child_not i : readable_child i = false -> snd (create_child i) <> Goes.
Proof.
  unfold readable_child, create_child. destruct (i2_type i =? 73); [apply assign_not|].
  destruct (i2_type i =? 80).
  { intros H. apply and_false in H as [H|H]; [apply and_false in H as [H|H]; [apply and_false in H as [H|H]; [apply and_false in H as [H|H]|]|]|].
    - now apply require_not.
    - apply require_then; intros ?. now apply require_not.
    - do 2 (apply require_then; intros ?). now apply require_not.
    - do 3 (apply require_then; intros ?). now apply require_not.
    - do 4 (apply require_then; intros ?). now apply require_not. }
  destruct (i2_type i =? 87); [|discriminate]. intros H. apply and_false in H as [H|H]; [now apply require_not|].
  apply require_then; intros ?. now apply require_not.
Qed.
Lemma ie_not it i : readable i = false -> snd (create_ie it i) <> Goes.
Proof.
  unfold readable, create_ie. cbv zeta. destruct (i2_type i =? 1); [apply assign_not|]. destruct (i2_type i =? 76); [apply assign_not|].
  destruct (i2_type i =? 75); [apply assign_not|].
  destruct (i2_type i =? 83). { intros H. apply next_not, assign_not. now destruct (acc_mcc_mnc i). }
  destruct (i2_type i =? 71); [apply assign_not|]. destruct (i2_type i =? 82); [apply assign_not|].
  destruct (i2_type i =? 87).
  { intros H. apply and_false in H as [H|H]; [now apply require_not|]. apply require_then; intros ?. now apply require_not. }
  unfold to_create. destruct (i2_type i =? 93); [|discriminate]. destruct (i2_instance i =? 0); [|discriminate]. cbn [andb].
  generalize (i2_children i). intros cs. induction cs as [|j cs IH]; [discriminate|]. cbn [forallb fold_right]. intros H.
  apply and_false in H as [H|H]; [now apply next_not, child_not|now apply next_not2, IH].
Qed.
Lemma script_not it ies : forallb readable (given ies) = false -> snd (create_script it ies) <> Goes.
Proof.
  unfold create_script. induction ies as [|[i|] ies IH]; cbn [given forallb fold_right]; [discriminate| |exact IH].
  intros H. apply and_false in H as [H|H]; [now apply next_not, ie_not|now apply next_not2, IH].
Qed.
(** no IE made of octets makes it panic *)
Lemma assign_no_panic {A} (r : res A) z f : r <> Panic -> snd (assign r z f) <> Panics.
Proof. destruct r; cbn; congruence. Qed.
Lemma require_no_panic {A} (r : res A) k : r <> Panic -> (forall v, snd (k v) <> Panics) -> snd (require r k) <> Panics.
Proof. destruct r; cbn; [intros _ H; apply H|congruence|congruence]. Qed.
Lemma next_no_panic a b : snd a <> Panics -> snd b <> Panics -> snd (next a b) <> Panics.
Proof. unfold next. destruct (snd a); cbn; congruence. Qed.
Ltac crush := safe_tac; try (apply safe_idx; lia).
Lemma rate_no_panic i : acc_umbr i <> Panic /\ acc_dmbr i <> Panic /\ acc_ugbr i <> Panic /\ acc_if_type i <> Panic /\ acc_teid i <> Panic.
Proof.
  change (safe (acc_umbr i) /\ safe (acc_dmbr i) /\ safe (acc_ugbr i) /\ safe (acc_if_type i) /\ safe (acc_teid i)).
  repeat apply conj.
  - unfold acc_umbr, rate. crush. - unfold acc_dmbr, rate. crush. - unfold acc_ugbr, rate. crush.
  - unfold acc_if_type. apply typed_safe. safe_tac. - unfold acc_teid. safe_tac.
Qed.
Lemma child_no_panic i : bytes_ok (i2_payload i) -> snd (create_child i) <> Panics.
Proof.
  intros H. destruct (rate_no_panic i) as (R1 & R2 & R3 & R4 & R5). unfold create_child.
  destruct (i2_type i =? 73). { apply assign_no_panic. apply via_safe; auto using u8_safe. }
  destruct (i2_type i =? 80).
  { apply require_no_panic; [|intros pl; apply require_no_panic; [|intros q; do 4 (apply require_no_panic; [assumption|intros ?]); discriminate]].
    - unfold acc_priority_level. destruct (i2_type i =? 155); [apply safe_bind; [apply typed_safe, u8_safe|intros a _; apply safe_ok]|].
      destruct (i2_type i =? 80); [|intros E; discriminate E]. apply safe_bind; [|intros a _; apply safe_ok].
      apply via_safe; [exact H|]. intros c _. exact (bqos_parse_safe g2 _).
    - unfold acc_qci. match goal with |- ?r <> Panic => change (safe r) end. crush; apply u8_safe. }
  destruct (i2_type i =? 87); [|discriminate]. do 2 (apply require_no_panic; [assumption|intros ?]). discriminate.
Qed.
Lemma ie_no_panic it i : made_of_octets i -> snd (create_ie it i) <> Panics.
Proof.
  intros [H HC]. destruct (rate_no_panic i) as (_ & _ & _ & R4 & R5). unfold create_ie. cbv zeta.
  destruct (i2_type i =? 1); [apply assign_no_panic, imsi_safe|].
  destruct (i2_type i =? 76); [apply assign_no_panic, typed_safe, digits_safe|].
  destruct (i2_type i =? 75); [apply assign_no_panic, typed_safe, digits_safe|].
  destruct (i2_type i =? 83).
  { assert (P : safe (acc_mcc_mnc i)) by (unfold acc_mcc_mnc, slice_to; safe_tac; apply decode_plmn_safe; slice_facts; lia).
    apply next_no_panic; apply assign_no_panic; (apply safe_bind; [exact P|intros a _; apply safe_ok]). }
  destruct (i2_type i =? 71); [apply assign_no_panic, typed_safe, fqdn_safe|].
  destruct (i2_type i =? 82); [apply assign_no_panic, typed_safe, u8_safe|].
  destruct (i2_type i =? 87); [do 2 (apply require_no_panic; [assumption|intros ?]); discriminate|].
  destruct (i2_type i =? 93); [|discriminate]. destruct (i2_instance i =? 0); [|discriminate].
  induction HC as [|j cs Hj HC IH]; [discriminate|]. cbn [fold_right]. apply next_no_panic; [now apply child_no_panic|exact IH].
Qed.
Lemma script_no_panic it ies : Forall made_of_octets (given ies) -> snd (create_script it ies) <> Panics.
Proof.
  unfold create_script. induction ies as [|[i|] ies IH]; cbn [given fold_right]; [discriminate| |exact IH].
  intros H. apply Forall_cons_iff in H as [H1 H2]. apply next_no_panic; [now apply ie_no_panic|now apply IH].
Qed.
Lemma create_stops w c a ies : w_crashed w = false -> Forall made_of_octets (given ies) ->
  forallb readable (given ies) = false \/ (exists e, v2_new g2 d_CreateSessionRequest 0 0 ies = Err e) ->
  exists k w' l, run w (LCreate c a ies :: repeat (LRun (w_next w) true) k) = Some w' /\
    w_log w' = EvFail (w_next w) :: l ++ w_log w /\ existsb sends l = false /\
    (forall c', last_seq c' (w_log w') = last_seq c' (w_log w)).
Proof.
  intros C OK H. set (sc := create_script (c_ift (w_conns w c)) ies).
  exists (List.length (fst sc) + 1)%nat. rewrite run_create by exact C. fold sc. rewrite repeat_app, run_script by exact C.
  set (w1 := stmts _ _ _ _ _ _).
  assert (C1 : w_crashed w1 = false) by (unfold w1; rewrite stmts_crashed; exact C).
  destruct (stmts_log (begun w c a ies) (w_next w) c (w_ns w) (w_nb w) (fst sc)) as (l & A & B & D). fold w1 in A.
  assert (Q : begun w c a ies = begun w c a ies) by reflexivity.
  assert (L : w_log w1 = (l ++ [EvCall (w_next w) (KCreate c (w_ns w) a ies); EvSession (w_ns w) a [] (w_nb w)]) ++ w_log w).
  { rewrite A, <- app_assoc. reflexivity. }
  assert (G : exists w', run (goes w1 (w_next w) (TScript c (w_ns w) (w_nb w) [] (match snd sc with
     | Goes => FSend d_CreateSessionRequest (v2_new g2 d_CreateSessionRequest 0 0 ies) a | Fails => FFail | Panics => FPanic end)))
     (repeat (LRun (w_next w) true) 1) = Some w' /\ w_log w' = EvFail (w_next w) :: w_log w1).
  { cbn [repeat]. rewrite run_goes by exact C1. cbn [run_thread]. pose proof (script_no_panic (c_ift (w_conns w c)) ies OK) as NP. fold sc in NP. destruct H as [H|(e & H)].
    - pose proof (script_not (c_ift (w_conns w c)) ies H) as N. fold sc in N. destruct (snd sc); [congruence| |congruence]; cbn [run]; eexists; (split; [reflexivity|]); reflexivity.
    - rewrite H. destruct (snd sc); [| |congruence]; cbn [run]; eexists; (split; [reflexivity|]); reflexivity. }
  destruct G as (w' & E & F). exists w', (l ++ [EvCall (w_next w) (KCreate c (w_ns w) a ies); EvSession (w_ns w) a [] (w_nb w)]).
  split; [exact E|]. rewrite L in F. split; [exact F|]. split; [now rewrite existsb_app, B|].
  intros c'. rewrite A in L. specialize (D c'). rewrite F; cbn [last_seq]; rewrite <- L; exact D.
Qed.
Lemma known_session w c t s : reach w -> aget (c_itei (w_conns w c)) t = Some (Some s) -> s < w_ns w.
Proof.
  intros R H. pose proof (reach_itei _ _ w c t R) as K. rewrite H in K. cbn in K. symmetry in K.
  pose proof (iv_log _ _ _ (reach_inv _ _ _ R)) as G. rewrite (iv_ns _ _ _ (reach_inv _ _ _ R)).
  destruct (registered_call _ _ _ _ _ _ G K) as (id & [I|(a & ies & I & _)]); exact (called _ _ _ _ _ G I).
Qed.
Lemma qos_read l i : forallb readable l = true -> In i (bearer_ies l) -> of_type 80 i = true -> exists q, qos_says i = Ok q.
Proof.
  intros R I T. unfold bearer_ies in I. apply in_flat_map in I as (k & K & I). apply filter_In in K as [K1 K2].
  rewrite forallb_forall in R. specialize (R k K1). destruct (ie_is 0 k R) as [_ C]. pose proof (type_of_ctx k K2).
  destruct C as [v Q E|v Q E|v Q E|v Q E|v Q E|v Q E|it n Q E1 E2|Q E|Q E]; try congruence.
  rewrite forallb_forall in E. specialize (E i I). apply N.eqb_eq in T.
  destruct (child_is i E) as [_ C]. destruct C as [v Q' E'|pl q ul dl gu Q' E1 E2 E3 E4 E5|it n Q' E1 E2|T1 T2 T3]; try congruence.
  unfold qos_says. rewrite E1, E2, E3, E4, E5. eexists. reflexivity.
Qed.
End W.
Ltac qos_part := let i := fresh in let q := fresh in let Q := fresh in intros i q Q; unfold qos_says in Q;
  repeat match type of Q with bind ?r _ = Ok _ => let E := fresh in destruct r eqn:E; cbn [bind] in Q; try discriminate Q end;
  injection Q as <-; cbn [q_pl q_qci q_mbrul q_mbrdl q_gbrul]; first [reflexivity|congruence].
