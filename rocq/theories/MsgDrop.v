(** Which IEs the GTPv2 constructors and parsers drop: the table of DropSpec.v is exact. *)
From Coq Require Import String Permutation Lia.
From Verif Require Import Base BaseLemmas V2IE V2IESpec V2IEProofs V2Header V2HeaderProofs
  MsgModel MsgProofs MsgProofs2 MsgProofs3 GenericMsg MsgSpec Msgs2Gen V2Msg V2MsgProofs MsgRepair DropSpec.
Open Scope string_scope.
Open Scope N_scope.
Open Scope list_scope.

(** ** Checks over the cases of a table *)
Definition keys_of (t : table) : list N := map fst (t_cases t).
Lemma act_default t k : ~ In k (keys_of t) -> act_of t k = t_default t.
Proof.
  unfold act_of, keys_of. induction (t_cases t) as [|[x a] r IH]; [reflexivity|]. cbn [map fst assoc_act]. intros H.
  destruct (N.eqb_spec x k) as [->|]; [exfalso; apply H; left; reflexivity|]. apply IH. intros G. apply H. right. exact G.
Qed.
Definition memN (x : N) (l : list N) : bool := existsb (N.eqb x) l.
Lemma memN_In x l : memN x l = true <-> In x l.
Proof.
  unfold memN. rewrite existsb_exists. split.
  - intros (y & Hy & E). apply N.eqb_eq in E. subst. exact Hy.
  - intros H. exists x. split; [exact H|apply N.eqb_refl].
Qed.
Definition alike_all (u : string) (t t' : table) : bool :=
  (forallb (fun k => forallb (alike u t t' k) (below 16)) (keys_of t ++ keys_of t') &&
   forallb (fun n => let a := act_fix u (resolve (t_default t) n) in act_eqb a (resolve (t_default t') n) && avoids u a) (below 16))%bool.
Lemma alike_all_ok u t t' k n : alike_all u t t' = true -> n < 16 -> alike u t t' k n = true.
Proof.
  unfold alike_all. rewrite andb_true_iff, !forallb_forall. intros [H1 H2] Hn. pose proof (below_complete 16 n Hn) as Hb.
  destruct (in_dec N.eq_dec k (keys_of t ++ keys_of t')) as [G|G].
  - specialize (H1 k G). rewrite forallb_forall in H1. apply H1, Hb.
  - rewrite in_app_iff in G. unfold alike. rewrite (act_default t), (act_default t') by tauto. apply (H2 n Hb).
Qed.
Definition drops_act (t : table) (k n : N) : bool := negb (keeps_act (resolve (act_of t k) n)).
(** the specification and the table agree, and a dropping branch does nothing *)
Definition nop_or_keeps (a : act) : bool := (keeps_act a || act_eqb a ANop)%bool.
Definition drops_all (rows : list (N * list N)) (dflt : bool) (t : table) : bool :=
  (forallb (fun k => forallb (fun n => Bool.eqb (dropped_row rows dflt k n) (drops_act t k n) && nop_or_keeps (resolve (act_of t k) n)) (below 16)) (keys_of t ++ map fst rows) &&
   forallb (fun n => Bool.eqb dflt (negb (keeps_act (resolve (t_default t) n))) && nop_or_keeps (resolve (t_default t) n)) (below 16))%bool.
Lemma row_default rows dflt k n : ~ In k (map fst rows) -> dropped_row rows dflt k n = dflt.
Proof.
  induction rows as [|[x l] r IH]; [reflexivity|]. cbn [map fst dropped_row]. intros H.
  destruct (N.eqb_spec x k) as [->|]; [exfalso; apply H; left; reflexivity|]. apply IH. intros G. apply H. right. exact G.
Qed.
Lemma drops_all_ok rows dflt t k n : drops_all rows dflt t = true -> n < 16 ->
  dropped_row rows dflt k n = drops_act t k n /\ nop_or_keeps (resolve (act_of t k) n) = true.
Proof.
  unfold drops_all. rewrite andb_true_iff, !forallb_forall. intros [H1 H2] Hn. pose proof (below_complete 16 n Hn) as Hb.
  destruct (in_dec N.eq_dec k (keys_of t ++ map fst rows)) as [G|G].
  - specialize (H1 k G). rewrite forallb_forall in H1. specialize (H1 n Hb). rewrite andb_true_iff in H1. destruct H1 as [H1 H3].
    split; [apply Bool.eqb_prop, H1|exact H3].
  - rewrite in_app_iff in G. specialize (H2 n Hb). rewrite andb_true_iff in H2. destruct H2 as [H2 H3]. unfold drops_act.
    rewrite (act_default t), row_default by tauto. split; [apply Bool.eqb_prop, H2|exact H3].
Qed.

Section Lost.
Context {I H : Type} (io : ieops I) (ho : hdops H).
Notation fmap := (@MsgModel.fmap I).
Context (fs : list (string * fkind)) (order : list string) (Hnd : NoDup (map fst fs)).
Theorem none_lost1 t pre i post (m : fmap) : table_ok fs order t = true -> excl_table t = true ->
  drops_act t (io_type io i) (io_inst io i) = false -> shape fs m ->
  let m' := runs io t (pre ++ i :: post) m in
  (exists f, In f (map fst fs) /\ In (Some i) (fget m' f)) \/
  (exists f j, In (f, FSingle) fs /\ In j post /\ io_type io j = io_type io i /\ fget m' f = [Some j]).
Proof.
  intros Ht He Hk Hs m'. subst m'. rewrite runs_app. cbn [runs].
  set (m1 := runs io t pre m).
  assert (Hs1 : shape fs m1) by (eapply runs_shape; eassumption).
  assert (Hh : held io fs t i [] (run_act io (dact io t i) i m1)).
  { rewrite run_act_route. unfold drops_act in Hk. apply negb_false_iff in Hk.
    destruct (route_keeps _ (io_inst io i) (isnil m1) Hk) as [[k f] Er]. rewrite resolve_route in Er.
    change (act_of t (io_type io i)) with (dact io t i) in Er.
    pose proof (route_target _ _ _ _ Er) as Htg.
    pose proof (proj1 (act_ok_parts _ _ _ (table_ok_act _ _ _ (io_type io i) Ht)) _ Htg) as [Hfk _]. cbn [fst snd] in Hfk.
    exists f, k. split; [exact Htg|]. split; [exact Hfk|]. left. rewrite Er.
    assert (Hf : In f (keys m1)) by (rewrite (proj1 Hs1); apply (in_map fst) in Hfk; exact Hfk).
    destruct k; cbn [store]; rewrite fget_fset_eq by exact Hf; [left; reflexivity|apply in_or_app; right; left; reflexivity]. }
  assert (Hs2 : shape fs (run_act io (dact io t i) i m1)) by (eapply run_shape; eassumption).
  destruct (held_runs io fs order Hnd t i post Ht He _ [] Hs2 Hh) as (f & k & Htg & Hfk & [Hc|(-> & j & Hj & Hty & Hg)]).
  - left. exists f. split; [apply (in_map fst) in Hfk; exact Hfk|exact Hc].
  - right. exists f, j. auto.
Qed.
Lemma dropped_nop t i (m : fmap) : nop_or_keeps (resolve (act_of t (io_type io i)) (io_inst io i)) = true ->
  drops_act t (io_type io i) (io_inst io i) = true -> run_act io (act_of t (io_type io i)) i m = m.
Proof.
  unfold nop_or_keeps, drops_act. rewrite negb_true_iff. intros H1 H2. rewrite H2 in H1. cbn [orb] in H1. apply act_eqb_eq in H1.
  rewrite <- run_resolve, H1. reflexivity.
Qed.
Lemma dropped_run t pre i post (m : fmap) : nop_or_keeps (resolve (act_of t (io_type io i)) (io_inst io i)) = true ->
  drops_act t (io_type io i) (io_inst io i) = true ->
  run_table io t (pre ++ Some i :: post) m = run_table io t (pre ++ post) m.
Proof.
  intros H1 H2. revert m. induction pre as [|[x|] r IH]; intros m; cbn [app run_table].
  - fold (act_of t (io_type io i)). rewrite dropped_nop by assumption. reflexivity.
  - apply IH.
  - destruct (t_nilskip t); [apply IH|reflexivity].
Qed.
End Lost.

(** ** The messages *)
(** the structure whose tables do the same and are in order *)
Definition nil_field (d : mdesc) : string := if String.eqb (md_name d) "ContextResponse" then "UEMMContext" else "".
Definition tidy (d : mdesc) : mdesc :=
  if String.eqb (md_name d) "CreateSessionRequest" then csr else
  if String.eqb (md_name d) "ContextResponse" then
    repaired d (fix_table "UEMMContext" (md_new d)) (fix_table "UEMMContext" (md_unm d)) (md_steps ctx) (md_lens ctx) else d.
Definition tidy_ok (d : mdesc) : bool :=
  let d' := tidy d in
  (fields_ok d' && table_ok (md_fields d') (order_of d') (md_new d') && table_ok (md_fields d') (order_of d') (md_unm d')
   && excl_table (md_new d') && excl_table (md_unm d') && t_nilskip (md_new d') && (md_min d <=? 2)%nat
   && Bool.eqb (t_nilskip (md_new d)) (t_nilskip (md_new d')) && Bool.eqb (t_nilskip (md_unm d)) (t_nilskip (md_unm d'))
   && alike_all (nil_field d) (md_new d) (md_new d') && alike_all (nil_field d) (md_unm d) (md_unm d')
   && drops_all (rows_new (md_name d)) (drops_default (md_name d)) (md_new d)
   && drops_all (rows_parse (md_name d)) (drops_default (md_name d)) (md_unm d)
   && drops_all (rows_new (md_name d)) (drops_default (md_name d)) (md_new d')
   && drops_all (rows_parse (md_name d)) (drops_default (md_name d)) (md_unm d'))%bool.
Lemma tidy_all : forallb tidy_ok (d_Generic2 :: all_msgs2) = true.
Proof. vm_compute. reflexivity. Qed.
Lemma tidy_same d : In d (d_Generic2 :: all_msgs2) -> md_fields (tidy d) = md_fields d /\ md_min (tidy d) = md_min d.
Proof.
  intros Hd. unfold tidy. destruct (String.eqb_spec (md_name d) "CreateSessionRequest") as [E|_].
  - destruct Hd as [<-|Hd]; [discriminate|].
    assert (D : d = d_CreateSessionRequest) by (apply (name_unique all_msgs2); [apply nodups_NoDup, names2_nodup|exact Hd|exact csr_in|exact E]).
    rewrite D. split; reflexivity.
  - destruct (String.eqb (md_name d) "ContextResponse"); split; reflexivity.
Qed.
Section Msgs.
Context (g : N -> bool).
Lemma tidy_run_new d ies : In d (d_Generic2 :: all_msgs2) ->
  run_table (io2 g) (md_new d) ies (fempty d) = run_table (io2 g) (md_new (tidy d)) ies (fempty d).
Proof.
  intros Hd. pose proof (proj1 (forallb_forall _ _) tidy_all d Hd) as T. unfold tidy_ok in T. cbv zeta in T. rewrite !andb_true_iff in T.
  refine (proj1 (table_alike (io2 g) (nil_field d) (md_new d) (md_new (tidy d)) ies _ _ (fempty d) (fget_fempty _ _))).
  - apply Bool.eqb_prop. tauto.
  - apply Forall_forall. intros i _. apply alike_all_ok; [tauto|]. apply (il_inst _ _ _ (ie_laws2 g) i).
Qed.
Lemma tidy_run_unm d ies : In d (d_Generic2 :: all_msgs2) ->
  run_table (io2 g) (md_unm d) ies (fempty d) = run_table (io2 g) (md_unm (tidy d)) ies (fempty d).
Proof.
  intros Hd. pose proof (proj1 (forallb_forall _ _) tidy_all d Hd) as T. unfold tidy_ok in T. cbv zeta in T. rewrite !andb_true_iff in T.
  refine (proj1 (table_alike (io2 g) (nil_field d) (md_unm d) (md_unm (tidy d)) ies _ _ (fempty d) (fget_fempty _ _))).
  - apply Bool.eqb_prop. tauto.
  - apply Forall_forall. intros i _. apply alike_all_ok; [tauto|]. apply (il_inst _ _ _ (ie_laws2 g) i).
Qed.
Lemma inst16 (i : ie2) : i2_instance i < 16.
Proof. apply (il_inst _ _ _ (ie_laws2 g) i). Qed.

Theorem new_keeps_all d teid seq pre i post m : In d (d_Generic2 :: all_msgs2) ->
  new_drops (md_name d) (i2_type i) (i2_instance i) = false ->
  v2_new g d teid seq (pre ++ Some i :: post) = Ok m ->
  (exists f, In f (map fst (md_fields d)) /\ In (Some i) (fget (m_fs m) f)) \/
  (exists f j, In (f, FSingle) (md_fields d) /\ In (Some j) post /\ i2_type j = i2_type i /\ fget (m_fs m) f = [Some j]).
Proof.
  intros Hd Hk Hm. pose proof (proj1 (forallb_forall _ _) tidy_all d Hd) as T. unfold tidy_ok in T. cbv zeta in T. rewrite !andb_true_iff in T.
  decompose [and] T. clear T. destruct (tidy_same d Hd) as [F _].
  unfold v2_new, msg_new in Hm. rewrite (tidy_run_new d _ Hd) in Hm.
  rewrite run_table_skip in Hm by assumption. cbn [bind] in Hm.
  unfold msg_set_length in Hm. apply bind_ok_inv in Hm. destruct Hm as (n & _ & Hm). injection Hm as <-. cbn [m_fs].
  rewrite somes_app. change (somes (Some i :: post)) with (i :: somes post).
  destruct (fields_ok_parts (tidy d) ltac:(assumption)) as (P1 & _). rewrite F in *.
  destruct (none_lost1 (io2 g) (md_fields d) (order_of (tidy d)) P1 (md_new (tidy d)) (somes pre) i (somes post) (fempty d)) as [R|(f & j & R1 & R2 & R3)]; try assumption.
  - rewrite <- Hk. symmetry. refine (proj1 (drops_all_ok _ _ _ (i2_type i) (i2_instance i) _ (inst16 i))). assumption.
  - apply shape_empty.
  - left. exact R.
  - right. exists f, j. split; [exact R1|]. split; [apply somes_In, R2|exact R3].
Qed.
Theorem new_drops_all d teid seq pre i post : In d (d_Generic2 :: all_msgs2) ->
  new_drops (md_name d) (i2_type i) (i2_instance i) = true ->
  v2_new g d teid seq (pre ++ Some i :: post) = v2_new g d teid seq (pre ++ post).
Proof.
  intros Hd Hk. pose proof (proj1 (forallb_forall _ _) tidy_all d Hd) as T. unfold tidy_ok in T. cbv zeta in T. rewrite !andb_true_iff in T.
  decompose [and] T. clear T.
  destruct (drops_all_ok (rows_new (md_name d)) (drops_default (md_name d)) (md_new d) (i2_type i) (i2_instance i) ltac:(assumption) (inst16 i)) as [E1 E2].
  unfold v2_new, msg_new. rewrite (dropped_run (io2 g) (md_new d) pre i post); [reflexivity|exact E2|]. rewrite <- Hk. symmetry. exact E1.
Qed.
(** what Parse does with the IEs of the payload *)
Lemma parsed_fields b d m ies : v2_parse g b = Ok (d, m) -> h2_payload (m_hdr m) = flat_map (wire2 g) ies -> Forall (wf2 g) ies ->
  In d (d_Generic2 :: all_msgs2) /\ run_table (io2 g) (md_unm d) (map Some ies) (fempty d) = Ok (m_fs m).
Proof.
  intros Hp Hpay Hw. destruct (v2_parse_parts g b d m Hp) as (t & E1 & Ed & E2 & Ep).
  assert (Hd : In d (d_Generic2 :: all_msgs2)).
  { rewrite Ed. destruct (struct2_cases t) as [->|G]; [left; reflexivity|right; exact G]. }
  split; [exact Hd|]. pose proof (proj1 (forallb_forall _ _) tidy_all d Hd) as T. unfold tidy_ok in T. cbv zeta in T. rewrite !andb_true_iff in T.
  decompose [and] T. clear T. clear Ed. unfold v2_parse_as, msg_parse in Ep. apply bind_ok_inv in Ep. destruct Ep as (h & Eh & Hp').
  assert (Hh : m_hdr m = h).
  { destruct (len (ho_payload ho2 h) <? md_min d)%nat; [injection Hp' as <-; reflexivity|].
    destruct (io_multi (io2 g) (ho_payload ho2 h)) as [l|e|]; [| |discriminate].
    - rewrite run_table_some in Hp'. injection Hp' as <-. reflexivity.
    - destruct e; try discriminate. destruct (md_soft d); [injection Hp' as <-; reflexivity|discriminate]. }
  rewrite <- Hh in Hp'. change (ho_payload ho2 (m_hdr m)) with (h2_payload (m_hdr m)) in Hp'. rewrite Hpay in Hp'.
  assert (Hmin : (md_min d <= 2)%nat) by (apply Nat.leb_le; assumption).
  destruct (len (flat_map (wire2 g) ies) <? md_min d)%nat eqn:El.
  - injection Hp' as <-. cbn [m_fs]. apply Nat.ltb_lt in El. destruct ies as [|i r]; [reflexivity|].
    cbn [flat_map] in El. rewrite app_length, (len_wire g i) in El. pose proof (mlen_ge4 g i). lia.
  - cbn [io2 io_multi] in Hp'. rewrite (multi2_wire g ies Hw) in Hp'. apply bind_ok_inv in Hp'. destruct Hp' as (fs & Er & Em).
    injection Em as <-. exact Er.
Qed.
Theorem parse_keeps_all b d m pre i post : v2_parse g b = Ok (d, m) ->
  h2_payload (m_hdr m) = flat_map (wire2 g) (pre ++ i :: post) -> Forall (wf2 g) (pre ++ i :: post) ->
  parse_drops (md_name d) (i2_type i) (i2_instance i) = false ->
  (exists f, In f (map fst (md_fields d)) /\ In (Some i) (fget (m_fs m) f)) \/
  (exists f j, In (f, FSingle) (md_fields d) /\ In j post /\ i2_type j = i2_type i /\ fget (m_fs m) f = [Some j]).
Proof.
  intros Hp Hpay Hw Hk. destruct (parsed_fields b d m _ Hp Hpay Hw) as [Hd Er].
  pose proof (proj1 (forallb_forall _ _) tidy_all d Hd) as T. unfold tidy_ok in T. cbv zeta in T. rewrite !andb_true_iff in T.
  decompose [and] T. clear T. destruct (tidy_same d Hd) as [F _]. rewrite (tidy_run_unm d _ Hd), run_table_some in Er. injection Er as Er. rewrite <- Er.
  destruct (fields_ok_parts (tidy d) ltac:(assumption)) as (P1 & _). rewrite F in *.
  apply (none_lost1 (io2 g) (md_fields d) (order_of (tidy d)) P1 (md_unm (tidy d)) pre i post (fempty d)); try assumption.
  - rewrite <- Hk. symmetry. refine (proj1 (drops_all_ok _ _ _ (i2_type i) (i2_instance i) _ (inst16 i))). assumption.
  - apply shape_empty.
Qed.
Theorem parse_drops_all b d m b' m' pre i post : v2_parse g b = Ok (d, m) ->
  h2_payload (m_hdr m) = flat_map (wire2 g) (pre ++ i :: post) -> Forall (wf2 g) (pre ++ i :: post) ->
  parse_drops (md_name d) (i2_type i) (i2_instance i) = true ->
  v2_parse g b' = Ok (d, m') -> h2_payload (m_hdr m') = flat_map (wire2 g) (pre ++ post) -> m_fs m = m_fs m'.
Proof.
  intros Hp Hpay Hw Hk Hp' Hpay'. destruct (parsed_fields b d m _ Hp Hpay Hw) as [Hd Er].
  assert (Hw' : Forall (wf2 g) (pre ++ post)).
  { apply Forall_app in Hw. destruct Hw as [W1 W2]. apply Forall_inv_tail in W2. apply Forall_app. split; assumption. }
  destruct (parsed_fields b' d m' _ Hp' Hpay' Hw') as [_ Er'].
  pose proof (proj1 (forallb_forall _ _) tidy_all d Hd) as T. unfold tidy_ok in T. cbv zeta in T. rewrite !andb_true_iff in T.
  decompose [and] T. clear T.
  destruct (drops_all_ok (rows_parse (md_name d)) (drops_default (md_name d)) (md_unm d) (i2_type i) (i2_instance i) ltac:(assumption) (inst16 i)) as [E1 E2].
  rewrite map_app in Er, Er'. cbn [map] in Er. rewrite (dropped_run (io2 g) (md_unm d) (map Some pre) i (map Some post)) in Er.
  - rewrite Er in Er'. injection Er' as Er'. exact Er'.
  - exact E2.
  - rewrite <- Hk. symmetry. exact E1.
Qed.
End Msgs.
