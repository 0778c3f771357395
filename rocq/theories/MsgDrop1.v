(** Which IEs the GTPv1 constructors and parsers drop: Drop1Spec.v is exact. *)
From Coq Require Import String Permutation Lia.
From Verif Require Import Base BaseLemmas TvIE TvIESpec TvIEProofs V1Header V1HeaderSpec V1HeaderProofs
  MsgModel MsgProofs MsgProofs2 MsgProofs3 GenericMsg MsgSpec Msgs1Gen V1Msg V1MsgProofs MsgRepair MsgDrop Drop1Spec.
Open Scope string_scope.
Open Scope N_scope.
Open Scope list_scope.

(** ** A table with a case that fills two fields and then drops *)
Definition two_act (a b : string) : act := AIfNil a (ASet a) (AIfNil b (ASet b) ANop).
Definition apart (a b : string) (x : act) : bool := forallb (fun p => negb (String.eqb a (snd p)) && negb (String.eqb b (snd p)))%bool (targets x).
Definition two_ok (k : N) (a b : string) (t : table) : bool :=
  (act_eqb (act_of t k) (two_act a b) && negb (String.eqb a b) &&
   forallb (fun p => (fst p =? k) || apart a b (snd p)) (t_cases t) && apart a b (t_default t) &&
   forallb (fun p => (fst p =? k) || keeps_act (resolve (snd p) 0)) (t_cases t) && keeps_act (resolve (t_default t) 0))%bool.
Section Two.
Context {I : Type} (io : ieops I) (fs : list (string * fkind)) (order : list string) (Hnd : NoDup (map fst fs)).
Notation fmap := (@MsgModel.fmap I).
Context (k : N) (a b : string) (t : table).
Context (Ht : table_ok fs order t = true) (Two : two_ok k a b t = true) (Fa : In a (map fst fs)) (Fb : In b (map fst fs)).
Definition of_k (l : list I) : list I := filter (fun i => io_type io i =? k) l.
Lemma two_case i : io_type io i = k -> dact io t i = two_act a b.
Proof.
  intros E. unfold two_ok in Two. rewrite !andb_true_iff in Two. destruct Two as [[[[[H _] _] _] _] _]. apply act_eqb_eq in H.
  unfold dact. rewrite E. exact H.
Qed.
Lemma ab_neq : a <> b.
Proof. unfold two_ok in Two. rewrite !andb_true_iff in Two. destruct Two as [[[[[_ H] _] _] _] _]. apply negb_true_iff, String.eqb_neq in H. exact H. Qed.
Lemma other_case i : io_type io i <> k -> apart a b (dact io t i) = true /\ keeps_act (resolve (dact io t i) 0) = true.
Proof.
  intros E. unfold two_ok in Two. rewrite !andb_true_iff in Two. destruct Two as [[[[[_ _] H1] H2] H3] H4].
  rewrite forallb_forall in H1, H3. unfold dact.
  destruct (assoc_act_In (t_cases t) (t_default t) (io_type io i)) as [->|(x & Hin & ->)]; [split; assumption|].
  specialize (H1 _ Hin). specialize (H3 _ Hin). cbn [fst snd] in *. rewrite (proj2 (N.eqb_neq _ _) E) in H1, H3. split; assumption.
Qed.
Lemma apart_route x n p q f : apart a b x = true -> route x n p = Some (q, f) -> f <> a /\ f <> b.
Proof.
  intros H R. apply route_target in R. unfold apart in H. rewrite forallb_forall in H. specialize (H _ R). cbn [snd] in H.
  rewrite andb_true_iff, !negb_true_iff, !String.eqb_neq in H. destruct H. split; congruence.
Qed.
(** the two fields hold the first two *)
Lemma two_runs l m done : shape fs m -> fget m a = map Some (firstn 1 (of_k done)) -> fget m b = map Some (firstn 1 (skipn 1 (of_k done))) ->
  fget (runs io t l m) a = map Some (firstn 1 (of_k (done ++ l))) /\ fget (runs io t l m) b = map Some (firstn 1 (skipn 1 (of_k (done ++ l)))).
Proof.
  revert m done. induction l as [|i r IH]; intros m done Hs Ga Gb; cbn [runs]; [rewrite app_nil_r; split; assumption|].
  replace (done ++ i :: r) with ((done ++ [i]) ++ r) by (rewrite <- app_assoc; reflexivity).
  assert (Hka : In a (keys m)) by (rewrite (proj1 Hs); exact Fa). assert (Hkb : In b (keys m)) by (rewrite (proj1 Hs); exact Fb).
  assert (St : fget (run_act io (dact io t i) i m) a = map Some (firstn 1 (of_k (done ++ [i]))) /\
               fget (run_act io (dact io t i) i m) b = map Some (firstn 1 (skipn 1 (of_k (done ++ [i]))))).
  { unfold of_k. rewrite filter_app. fold (of_k done). cbn [filter].
    destruct (N.eqb_spec (io_type io i) k) as [E|E].
    - rewrite (two_case i E). unfold two_act. cbn [run_act]. rewrite Ga, Gb.
      destruct (of_k done) as [|x [|y s]]; cbn [firstn skipn map app].
      + rewrite fget_fset_eq by exact Hka. rewrite fget_fset_neq by (apply ab_neq || apply not_eq_sym, ab_neq). rewrite Gb. split; reflexivity.
      + rewrite fget_fset_eq by exact Hkb. rewrite fget_fset_neq by (apply ab_neq || apply not_eq_sym, ab_neq). rewrite Ga. split; reflexivity.
      + rewrite Ga, Gb. split; reflexivity.
    - rewrite app_nil_r. rewrite run_act_route. destruct (route (dact io t i) (io_inst io i) (isnil m)) as [[q f]|] eqn:R; [|cbn [store]; split; assumption].
      destruct (apart_route _ _ _ _ _ (proj1 (other_case i E)) R) as [Na Nb].
      destruct q; cbn [store]; rewrite !fget_fset_neq by congruence; split; assumption. }
  apply IH; [eapply run_shape; eassumption|apply St|apply St].
Qed.
Context (m0 : fmap) (Sh : shape fs m0) (Ea : fget m0 a = []) (Eb : fget m0 b = []).
Lemma two_held l : fget (runs io t l m0) a = map Some (firstn 1 (of_k l)) /\ fget (runs io t l m0) b = map Some (firstn 1 (skipn 1 (of_k l))).
Proof. apply (two_runs l m0 []); [exact Sh|exact Ea|exact Eb]. Qed.
Lemma two_kept pre i post : io_type io i = k -> (length (of_k pre) < 2)%nat ->
  exists f, In f (map fst fs) /\ In (Some i) (fget (runs io t (pre ++ i :: post) m0) f).
Proof.
  intros E L. destruct (two_held (pre ++ i :: post)) as [A B]. unfold of_k in A, B, L. rewrite filter_app in A, B. cbn [filter] in A, B.
  rewrite E, N.eqb_refl in A, B. destruct (filter _ pre) as [|x [|y s]].
  - exists a. split; [exact Fa|]. rewrite A. left. reflexivity.
  - exists b. split; [exact Fb|]. rewrite B. left. reflexivity.
  - cbn [length] in L. lia.
Qed.
Lemma two_dropped pre i post : io_type io i = k -> (2 <= length (of_k pre))%nat ->
  runs io t (pre ++ i :: post) m0 = runs io t (pre ++ post) m0.
Proof.
  intros E L. rewrite !runs_app. cbn [runs]. f_equal. destruct (two_held pre) as [A B]. rewrite (two_case i E). unfold two_act. cbn [run_act].
  rewrite A, B. destruct (of_k pre) as [|x [|y s]]; cbn [length] in L; try lia. reflexivity.
Qed.
End Two.

(** ** The messages *)
Definition cgw : string := "ChargingGatewayAddress".
Definition acgw : string := "AltChargingGatewayAddress".
Definition two_new : list string := ["CreatePDPContextResponse"; "UpdatePDPContextResponse"].
Definition two_unm : list string := ["UpdatePDPContextResponse"].
Definition exact1 (t : table) (d : mdesc) (two : bool) : bool :=
  (excl_table t && (if two then two_ok 251 cgw acgw t && mem cgw (map fst (md_fields d)) && mem acgw (map fst (md_fields d)) else keeps_table t))%bool.
Lemma exact_all : forallb (fun d => exact1 (md_new d) d (mem (md_name d) two_new) && exact1 (md_unm d) d (mem (md_name d) two_unm))%bool all1 = true.
Proof. vm_compute. reflexivity. Qed.
Lemma given_somes l : given l = somes l. Proof. reflexivity. Qed.
Notation kept d m i later := ((exists f, In f (map fst (md_fields d)) /\ In (Some i) (fget m f)) \/
  (exists f j, In (f, FSingle) (md_fields d) /\ In j later /\ i1_type j = i1_type i /\ fget m f = [Some j])).
Lemma exact_kept d t two pre i post : In d all1 -> table_ok (md_fields d) (order_of d) t = true -> exact1 t d two = true ->
  (two && third_gateway pre i)%bool = false -> kept d (runs io1 t (pre ++ i :: post) (fempty d)) i post.
Proof.
  intros Hd Ht He Hk. destruct (all1_parts d Hd) as (_ & D2 & _ & _). destruct (fields_ok_parts d D2) as (P1 & _).
  unfold exact1 in He. rewrite andb_true_iff in He. destruct He as [He Hc]. destruct two; cbn [andb] in Hk.
  - rewrite !andb_true_iff, !mem_In in Hc. destruct Hc as [[C1 C2] C3].
    unfold third_gateway in Hk. destruct (N.eqb_spec (i1_type i) 251) as [E|E]; cbn [andb] in Hk.
    + left. apply Nat.leb_gt in Hk. apply (two_kept io1 (md_fields d) (order_of d) P1 251 cgw acgw t); try assumption; try apply fget_empty. apply shape_empty.
    + apply (none_lost1 io1 (md_fields d) (order_of d) P1); try assumption; [|apply shape_empty].
      unfold drops_act. apply negb_false_iff. apply (other_case io1 251 cgw acgw t C1 i E).
  - apply (none_lost io1 (md_fields d) (order_of d) P1); try assumption. apply shape_empty.
Qed.
Lemma exact_dropped d t two pre i post : In d all1 -> table_ok (md_fields d) (order_of d) t = true -> exact1 t d two = true ->
  (two && third_gateway pre i)%bool = true -> runs io1 t (pre ++ i :: post) (fempty d) = runs io1 t (pre ++ post) (fempty d).
Proof.
  intros Hd Ht He Hk. destruct (all1_parts d Hd) as (_ & D2 & _ & _). destruct (fields_ok_parts d D2) as (P1 & _).
  unfold exact1 in He. rewrite andb_true_iff in He. destruct He as [He Hc].
  destruct two; [|discriminate Hk]. cbn [andb] in Hk. rewrite !andb_true_iff, !mem_In in Hc. destruct Hc as [[C1 C2] C3].
  unfold third_gateway in Hk. rewrite andb_true_iff, N.eqb_eq, Nat.leb_le in Hk. destruct Hk as [E L].
  apply (two_dropped io1 (md_fields d) (order_of d) P1 251 cgw acgw t); try assumption; try apply fget_empty. apply shape_empty.
Qed.
Lemma exact_parts d : In d all1 ->
  (exact1 (md_new d) d (mem (md_name d) two_new) = true /\ exact1 (md_unm d) d (mem (md_name d) two_unm) = true) /\
  (table_ok (md_fields d) (order_of d) (md_new d) = true /\ table_ok (md_fields d) (order_of d) (md_unm d) = true) /\ t_nilskip (md_new d) = true.
Proof.
  intros Hd. pose proof (proj1 (forallb_forall _ _) exact_all d Hd) as H. cbv beta in H. rewrite andb_true_iff in H. split; [exact H|].
  destruct (all1_parts d Hd) as (D1 & _ & _ & D4). unfold desc_ok in D1. unfold new_ok in D4. rewrite !andb_true_iff in D1. rewrite !andb_true_iff in D4.
  destruct D1 as [[[_ U] _] _]. destruct D4 as [[T _] Ns]. auto.
Qed.
Lemma names_new s pre i : new_drops1 s pre i = (mem s two_new && third_gateway pre i)%bool.
Proof. unfold new_drops1, two_new, mem. cbn [existsb]. rewrite orb_false_r. rewrite ?(String.eqb_sym s). reflexivity. Qed.
Lemma names_unm s pre i : parse_drops1 s pre i = (mem s two_unm && third_gateway pre i)%bool.
Proof. unfold parse_drops1, two_unm, mem. cbn [existsb]. rewrite orb_false_r. rewrite ?(String.eqb_sym s). reflexivity. Qed.
Theorem new1_keeps_all d teid seq pre i post m : In d all1 -> new_drops1 (md_name d) (given pre) i = false ->
  v1_new d teid seq (pre ++ Some i :: post) = Ok m -> kept d (m_fs m) i (given post).
Proof.
  intros Hd Hk Hm. destruct (exact_parts d Hd) as [[E1 _] [[T1 _] Ns]]. rewrite names_new in Hk.
  unfold v1_new, msg_new in Hm. rewrite run_table_skip in Hm by assumption. cbn [bind] in Hm.
  unfold msg_set_length in Hm. apply bind_ok_inv in Hm. destruct Hm as (n & _ & Hm). injection Hm as <-. cbn [m_fs].
  rewrite somes_app. change (somes (Some i :: post)) with (i :: given post). change (somes pre) with (given pre).
  apply (exact_kept d (md_new d) _ (given pre) i (given post) Hd T1 E1 Hk).
Qed.
Theorem new1_drops_all d teid seq pre i post : In d all1 -> new_drops1 (md_name d) (given pre) i = true ->
  v1_new d teid seq (pre ++ Some i :: post) = v1_new d teid seq (pre ++ post).
Proof.
  intros Hd Hk. destruct (exact_parts d Hd) as [[E1 _] [[T1 _] Ns]]. rewrite names_new in Hk.
  unfold v1_new, msg_new. rewrite !run_table_skip by assumption. cbn [bind].
  rewrite !somes_app. change (somes (Some i :: post)) with (i :: somes post).
  rewrite (exact_dropped d (md_new d) _ (somes pre) i (somes post) Hd T1 E1 Hk). reflexivity.
Qed.
Lemma parsed1_fields b d m ies : bytes_ok b -> v1_parse b = Ok (P1 d m) -> h1_payload (m_hdr m) = flat_map wireA ies -> Forall wfA ies ->
  In d all1 /\ m_fs m = runs io1 (md_unm d) ies (fempty d).
Proof.
  intros Hb Hp Hpay Hw. destruct (v1_parse_parts b _ Hb Hp) as (t & E1 & E2 & Eh & E3 & E4). destruct (E4 d m eq_refl) as [Ed Ep].
  assert (Hd : In d all1) by (eapply struct1_in, Ed). split; [exact Hd|].
  destruct (all1_parts d Hd) as (D1 & _). unfold desc_ok in D1. rewrite !andb_true_iff in D1. destruct D1 as [[_ D1] _]. apply Nat.leb_le in D1.
  unfold v1_parse_as, msg_parse in Ep. apply bind_ok_inv in Ep. destruct Ep as (h & Eh' & Hp').
  assert (Hh : m_hdr m = h).
  { destruct (len (ho_payload ho1 h) <? md_min d)%nat; [injection Hp' as <-; reflexivity|].
    destruct (io_multi io1 (ho_payload ho1 h)) as [l|e|]; [| |discriminate].
    - rewrite run_table_some in Hp'. injection Hp' as <-. reflexivity.
    - destruct e; try discriminate. destruct (md_soft d); [injection Hp' as <-; reflexivity|discriminate]. }
  rewrite <- Hh in Hp'. change (ho_payload ho1 (m_hdr m)) with (h1_payload (m_hdr m)) in Hp'. rewrite Hpay in Hp'.
  destruct (len (flat_map wireA ies) <? md_min d)%nat eqn:El.
  - injection Hp' as <-. cbn [m_fs]. apply Nat.ltb_lt in El. destruct ies as [|i r]; [reflexivity|].
    exfalso. apply Forall_inv in Hw. pose proof (wf1_min _ _ tv1_lt xl1_ge i Hw). cbn [flat_map] in El. rewrite app_length in El. lia.
  - cbn [io1 io_multi] in Hp'. rewrite (multi1_wire tv1 xl1 tv1_lt xl1_ge ies Hw) in Hp'. fold io1 in Hp'. rewrite run_table_some in Hp'. injection Hp' as <-. reflexivity.
Qed.
Theorem parse1_keeps_all b d m pre i post : bytes_ok b -> v1_parse b = Ok (P1 d m) ->
  h1_payload (m_hdr m) = flat_map wireA (pre ++ i :: post) -> Forall wfA (pre ++ i :: post) ->
  parse_drops1 (md_name d) pre i = false -> kept d (m_fs m) i post.
Proof.
  intros Hb Hp Hpay Hw Hk. destruct (parsed1_fields b d m _ Hb Hp Hpay Hw) as [Hd ->]. destruct (exact_parts d Hd) as [[_ E1] [[_ T1] _]].
  rewrite names_unm in Hk. apply (exact_kept d (md_unm d) _ pre i post Hd T1 E1 Hk).
Qed.
Theorem parse1_drops_all b d m b' m' pre i post : bytes_ok b -> bytes_ok b' -> v1_parse b = Ok (P1 d m) ->
  h1_payload (m_hdr m) = flat_map wireA (pre ++ i :: post) -> Forall wfA (pre ++ i :: post) ->
  parse_drops1 (md_name d) pre i = true ->
  v1_parse b' = Ok (P1 d m') -> h1_payload (m_hdr m') = flat_map wireA (pre ++ post) -> m_fs m = m_fs m'.
Proof.
  intros Hb Hb' Hp Hpay Hw Hk Hp' Hpay'. destruct (parsed1_fields b d m _ Hb Hp Hpay Hw) as [Hd ->].
  assert (Hw' : Forall wfA (pre ++ post)).
  { apply Forall_app in Hw. destruct Hw as [W1 W2]. apply Forall_app. split; [exact W1|exact (Forall_inv_tail W2)]. }
  destruct (parsed1_fields b' d m' _ Hb' Hp' Hpay' Hw') as [_ ->]. destruct (exact_parts d Hd) as [[_ E1] [[_ T1] _]].
  rewrite names_unm in Hk. apply (exact_dropped d (md_unm d) _ pre i post Hd T1 E1 Hk).
Qed.
