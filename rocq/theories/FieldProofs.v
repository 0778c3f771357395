(** What the named fields of a message hold after New and after Parse. *)
From Coq Require Import String Lia ZifyBool.
From Verif Require Import Base BaseLemmas MsgModel MsgProofs MsgProofs2 MsgSpec FieldSpec.
Open Scope string_scope.
Open Scope N_scope.
Open Scope list_scope.

Lemma latest_cons {A} (x : A) l : latest (x :: l) = match latest l with [] => [x] | y => y end.
Proof. unfold latest. cbn [rev]. destruct (rev l) as [|y r]; reflexivity. Qed.

(** field [f] gets exactly the IEs for which [B type instance] holds.  [rows] (types,
    instance) is what [B] depends on: a type of no row behaves like [Bd], and the instance
    matters only for types of a row with an instance. *)
Definition depends (B : N -> N -> bool) (Bd : bool) (rows : list (list N * option N)) : Prop :=
  (forall ty n, existsb (fun r => existsb (N.eqb ty) (fst r)) rows = false -> B ty n = Bd) /\
  (forall ty n, existsb (fun r => existsb (N.eqb ty) (fst r) && match snd r with Some _ => true | None => false end) rows = false ->
     B ty n = B ty 0).
Definition act_fits (b : bool) (r : act) (f : string) (k : fkind) : bool :=
  if b then match r, k with ASet f', FSingle | AApp f', FList => String.eqb f f' | _, _ => false end
  else negb (mem f (map snd (targets r))).
Definition flat_act (a : act) : bool := match a with ASet _ | AApp _ | ANop => true | _ => false end.
Definition field_ok (B : N -> N -> bool) (Bd : bool) (rows : list (list N * option N)) (t : table) (f : string) (k : fkind) : bool :=
  flat_act (t_default t) && act_fits Bd (t_default t) f k &&
  forallb (fun ty => let a := assoc_act (t_cases t) (t_default t) ty in
    forallb (fun n => act_fits (B ty n) (resolve a n) f k)
      (if flat_act a && negb (existsb (fun r => existsb (N.eqb ty) (fst r) && match snd r with Some _ => true | None => false end) rows)
       then [0] else below 16)) (map fst (t_cases t) ++ flat_map fst rows).
Lemma existsb_flat ty (rows : list (list N * option N)) :
  existsb (fun r => existsb (N.eqb ty) (fst r)) rows = true -> In ty (flat_map fst rows).
Proof.
  intros H. apply existsb_exists in H. destruct H as (r & Hr & H). apply existsb_exists in H. destruct H as (x & Hx & E).
  apply N.eqb_eq in E. subst x. apply in_flat_map. exists r. auto.
Qed.
Lemma flat_resolve a n : flat_act a = true -> resolve a n = a.
Proof. destruct a; try discriminate; reflexivity. Qed.
Lemma field_fits B Bd rows t f k ty n : depends B Bd rows -> field_ok B Bd rows t f k = true -> n < 16 ->
  act_fits (B ty n) (resolve (assoc_act (t_cases t) (t_default t) ty) n) f k = true.
Proof.
  intros [D1 D2] Hok Hn. unfold field_ok in Hok. rewrite !andb_true_iff in Hok. destruct Hok as [[Hf Hd] Hok].
  rewrite forallb_forall in Hok.
  assert (Hcase : In ty (map fst (t_cases t) ++ flat_map fst rows) \/
    (assoc_act (t_cases t) (t_default t) ty = t_default t /\ B ty n = Bd)).
  { destruct (existsb (fun r => existsb (N.eqb ty) (fst r)) rows) eqn:E1.
    - left. apply in_or_app. right. apply existsb_flat, E1.
    - destruct (in_dec N.eq_dec ty (map fst (t_cases t))) as [Hin|Hni]; [left; apply in_or_app; left; exact Hin|].
      right. split; [apply assoc_act_notin, Hni|apply D1, E1]. }
  destruct Hcase as [Hin|[Ea Eb]].
  - specialize (Hok ty Hin). cbv zeta in Hok. set (a := assoc_act _ _ _) in *.
    destruct (flat_act a && negb _) eqn:Ef.
    + apply andb_true_iff in Ef. destruct Ef as [Ef1 Ef2]. apply negb_true_iff in Ef2.
      cbn [forallb] in Hok. rewrite andb_true_r in Hok. rewrite flat_resolve in * by assumption. rewrite D2 by assumption. exact Hok.
    + rewrite forallb_forall in Hok. apply Hok, (below_complete 16), Hn.
  - rewrite Ea, Eb, flat_resolve by assumption. exact Hd.
Qed.

(** the fields of [G] are filled one after the other by the IEs of one type *)
Fixpoint chain_act (G : list string) (a : act) : bool :=
  match G with
  | [] => false
  | f :: G' =>
      match a with
      | ASet f' => match G' with [] => String.eqb f f' | _ => false end
      | AIfNil f' (ASet f'') a' =>
          String.eqb f f' && String.eqb f f'' && match G' with [] => true | _ => chain_act G' a' end
      | _ => false
      end
  end.
Definition slots_ok (t : table) (ty : N) (G : list string) : bool :=
  nodups G && chain_act G (assoc_act (t_cases t) (t_default t) ty) &&
  forallb (fun f => negb (mem f (map snd (targets (t_default t))))) G &&
  forallb (fun c => (ty =? fst c) || forallb (fun f => negb (mem f (map snd (targets (snd c))))) G) (t_cases t).
Lemma slots_other t ty G ty' f : slots_ok t ty G = true -> ty <> ty' -> In f G ->
  ~ In f (map snd (targets (assoc_act (t_cases t) (t_default t) ty'))).
Proof.
  unfold slots_ok. rewrite !andb_true_iff. intros [[_ Hd] Hc] Hne Hf. rewrite <- mem_In.
  rewrite forallb_forall in Hd, Hc.
  destruct (assoc_act_In (t_cases t) (t_default t) ty') as [->|[a [Hin ->]]].
  - specialize (Hd f Hf). apply negb_true_iff in Hd. congruence.
  - specialize (Hc _ Hin). cbn [fst snd] in Hc. apply orb_true_iff in Hc. destruct Hc as [Hc|Hc]; [apply N.eqb_eq in Hc; congruence|].
    rewrite forallb_forall in Hc. specialize (Hc f Hf). apply negb_true_iff in Hc. congruence.
Qed.

Section Msg.
Context {I H : Type} (io : ieops I) (ho : hdops H).
Notation fmap := (@MsgModel.fmap I).
Definition sane (i : I) : Prop := io_inst io i < 16.

Lemma run_other a i (m : fmap) f : ~ In f (map snd (targets a)) -> fget (run_act io a i m) f = fget m f.
Proof.
  intros Hn. rewrite run_act_route. destruct (route a (io_inst io i) (isnil m)) as [[k g]|] eqn:E; [|reflexivity].
  apply route_target in E. assert (g <> f) by (intros ->; apply Hn; apply (in_map snd) in E; exact E).
  destruct k; cbn [store]; apply fget_fset_neq; assumption.
Qed.
Lemma run_resolve a i (m : fmap) : run_act io a i m = run_act io (resolve a (io_inst io i)) i m.
Proof. rewrite !run_act_route, resolve_route. reflexivity. Qed.

Lemma field_runs B Bd rows t f k : depends B Bd rows -> field_ok B Bd rows t f k = true ->
  forall ies (m : fmap), Forall sane ies -> In f (keys m) ->
  fget (runs io t ies m) f =
  let l := filter (fun i => B (io_type io i) (io_inst io i)) ies in
  match k with
  | FList => fget m f ++ map Some l
  | FSingle => match latest l with [] => fget m f | l' => map Some l' end
  end.
Proof.
  intros Hdep Hok. induction ies as [|i r IH]; intros m Hs Hf.
  - cbn. destruct k; [reflexivity|]. rewrite app_nil_r. reflexivity.
  - cbn [runs]. apply Forall_cons_iff in Hs. destruct Hs as [Hi Hs].
    rewrite IH; [|assumption|rewrite run_act_route; unfold store; destruct (route _ _ _) as [[[] ?]|]; rewrite ?keys_fset; exact Hf].
    pose proof (field_fits B Bd rows t f k (io_type io i) _ Hdep Hok Hi) as Hx.
    rewrite run_resolve. unfold dact. set (a := resolve _ _) in *. cbn [filter]. unfold act_fits in Hx.
    destruct (B (io_type io i) (io_inst io i)).
    + destruct a as [g|g| | |]; destruct k; try discriminate; apply String.eqb_eq in Hx; subst g; cbn [run_act]; rewrite fget_fset_eq by exact Hf.
      * cbv zeta. rewrite latest_cons. destruct (latest (filter _ r)); reflexivity.
      * cbn [map]. rewrite <- app_assoc. reflexivity.
    + apply negb_true_iff in Hx. assert (Hn : ~ In f (map snd (targets a))) by (rewrite <- mem_In; congruence).
      rewrite (run_other a i m f Hn). reflexivity.
Qed.

Notation oft ty := (filter (fun i => io_type io i =? ty)).
Lemma chain_store G a i (m : fmap) j : NoDup G -> chain_act G a = true -> (j < List.length G)%nat ->
  (forall x, (x < j)%nat -> fget m (nth x G "") <> []) -> fget m (nth j G "") = [] -> Forall (fun f => In f (keys m)) G ->
  forall f, fget (run_act io a i m) f = if String.eqb (nth j G "") f then [Some i] else fget m f.
Proof.
  revert a j; induction G as [|g G' IH]; intros a j Hnd Hc Hj Hb He Hk f; [discriminate|].
  apply Forall_cons_iff in Hk. destruct Hk as [Hg Hk].
  assert (Hset : fget (fset m g [Some i]) f = if String.eqb g f then [Some i] else fget m f).
  { destruct (String.eqb_spec g f) as [->|Hne]; [apply fget_fset_eq, Hg|apply fget_fset_neq, Hne]. }
  destruct a as [f'| | |f' y a'|]; cbn [chain_act] in Hc; try discriminate.
  - destruct G'; [|discriminate]. apply String.eqb_eq in Hc. subst f'. cbn [List.length] in Hj. replace j with O in * by lia. exact Hset.
  - destruct y as [f''| | | |]; try discriminate. rewrite !andb_true_iff in Hc. destruct Hc as [[E1 E2] Hc].
    apply String.eqb_eq in E1, E2. subst f' f''. cbn [run_act]. destruct j as [|j]; cbn [nth] in *.
    + rewrite He. exact Hset.
    + specialize (Hb O ltac:(lia)) as H0. cbn [nth] in H0. destruct (fget m g); [congruence|].
      destruct G' as [|g2 G'']; [cbn [List.length] in Hj; lia|]. inv Hnd.
      apply IH; try assumption; [cbn [List.length] in *; lia|].
      intros x Hx. apply (Hb (S x)). lia.
Qed.

Lemma slots_runs t ty G : slots_ok t ty G = true -> forall ies m, Forall (fun f => In f (keys m)) G ->
  Forall (fun f => fget m f = []) G -> (List.length (oft ty ies) <= List.length G)%nat ->
  forall j, (j < List.length G)%nat -> fget (runs io t ies m) (nth j G "") = map Some (pick (oft ty ies) j).
Proof.
  intros Hso. assert (Hso' := Hso). unfold slots_ok in Hso'. rewrite !andb_true_iff in Hso'. destruct Hso' as [[[Hnd Hc] _] _]. apply nodups_NoDup in Hnd.
  intros ies. induction ies as [|i r IH] using rev_ind; intros m Hk He Hn j Hj.
  - cbn. rewrite Forall_forall in He. rewrite (He (nth j G "")) by (apply nth_In, Hj). destruct j; reflexivity.
  - rewrite runs_app. cbn [runs]. rewrite filter_app in *. cbn [filter] in *. unfold dact.
    destruct (io_type io i =? ty) eqn:E.
    + apply N.eqb_eq in E. rewrite E. rewrite app_length in Hn. cbn [List.length] in Hn.
      assert (Hk' : Forall (fun f => In f (keys (runs io t r m))) G) by (rewrite keys_runs; exact Hk).
      set (n := List.length (oft ty r)) in *.
      assert (Hst : forall x, (x < List.length G)%nat -> fget (runs io t r m) (nth x G "") = map Some (pick (oft ty r) x)).
      { intros x Hx. apply IH; try assumption. fold n. lia. }
      rewrite (chain_store G _ i _ n Hnd Hc); [|lia| | |exact Hk'].
      * destruct (String.eqb_spec (nth n G "") (nth j G "")) as [Enj|Enj].
        -- apply (proj1 (NoDup_nth G "") Hnd) in Enj; [|lia|exact Hj]. subst j. unfold pick.
           rewrite nth_error_app2 by (fold n; lia). fold n. rewrite Nat.sub_diag. reflexivity.
        -- rewrite Hst by exact Hj. assert (j <> n) by congruence. unfold pick.
           destruct (Nat.lt_ge_cases j n); [rewrite nth_error_app1 by exact H1; reflexivity|].
           rewrite nth_error_app2 by (fold n; lia). fold n.
           rewrite (proj2 (nth_error_None (oft ty r) j)) by (fold n; lia).
           destruct (j - n)%nat as [|[|z]] eqn:Ez; [lia|reflexivity|reflexivity].
      * intros x Hx. rewrite Hst by lia. unfold pick. destruct (nth_error (oft ty r) x) eqn:Ex; [discriminate|].
        apply nth_error_None in Ex. fold n in Ex. lia.
      * rewrite Hst by lia. unfold pick. rewrite (proj2 (nth_error_None (oft ty r) n)) by (fold n; lia). reflexivity.
    + rewrite app_nil_r in *. rewrite run_other; [apply IH; assumption|].
      apply N.eqb_neq in E. apply (slots_other t ty G _ _ Hso); [congruence|apply nth_In, Hj].
Qed.

(** every IE of a type without a field of its own ([B]) is kept, in order, in [f] *)
Definition rest_ok (B : N -> bool) (t : table) (f : string) : bool :=
  match t_default t with AApp f' => String.eqb f f' | _ => false end &&
  forallb (fun c => negb (B (fst c)) &&
    forallb (fun r => negb (String.eqb f (snd r)) || fkind_eqb (fst r) FList) (targets (snd c))) (t_cases t).
Lemma rest_fits B t f ty : rest_ok B t f = true ->
  let a := assoc_act (t_cases t) (t_default t) ty in
  if B ty then a = AApp f else forallb (fun r => negb (String.eqb f (snd r)) || fkind_eqb (fst r) FList) (targets a) = true.
Proof.
  unfold rest_ok. rewrite andb_true_iff, forallb_forall. intros [Hd Hc]. cbv zeta.
  destruct (t_default t) as [|f'| | |] eqn:Ed; try discriminate. apply String.eqb_eq in Hd. subst f'.
  destruct (assoc_act_In (t_cases t) (AApp f) ty) as [->|[a [Hin ->]]].
  - destruct (B ty); [reflexivity|]. cbn. rewrite orb_true_r. reflexivity.
  - specialize (Hc _ Hin). cbn [fst snd] in Hc. apply andb_true_iff in Hc. destruct Hc as [H1 H2]. apply negb_true_iff in H1. rewrite H1. exact H2.
Qed.
Lemma rest_runs B t f : rest_ok B t f = true -> forall ies (m : fmap), In f (keys m) ->
  filter (fun i => B (io_type io i)) (nonnil (fget (runs io t ies m) f)) =
  filter (fun i => B (io_type io i)) (nonnil (fget m f)) ++ filter (fun i => B (io_type io i)) ies.
Proof.
  intros Hok. induction ies as [|i r IH]; intros m Hf; cbn [runs filter].
  - rewrite app_nil_r. reflexivity.
  - rewrite IH by (rewrite run_act_route; unfold store; destruct (route _ _ _) as [[[] ?]|]; rewrite ?keys_fset; exact Hf).
    pose proof (rest_fits B t f (io_type io i) Hok) as Hx. cbv zeta in Hx.
    unfold dact. set (a := assoc_act _ _ _) in *. destruct (B (io_type io i)) eqn:EB.
    + rewrite Hx. cbn [run_act].
      rewrite fget_fset_eq by exact Hf. unfold nonnil. rewrite flat_map_app, filter_app. cbn [flat_map app filter]. rewrite EB, <- app_assoc. reflexivity.
    + rewrite run_act_route. destruct (route a (io_inst io i) (isnil m)) as [[k g]|] eqn:Er; [|reflexivity].
      apply route_target in Er. rewrite forallb_forall in Hx. specialize (Hx _ Er). cbn [fst snd] in Hx.
      destruct (String.eqb_spec f g) as [Heq|Hne]; cbn [negb orb] in Hx.
      * subst g. destruct k; [discriminate|]. cbn [store]. rewrite fget_fset_eq by exact Hf. f_equal.
        unfold nonnil. rewrite flat_map_app, filter_app. cbn [flat_map app filter]. rewrite EB, app_nil_r. reflexivity.
      * destruct k; cbn [store]; rewrite fget_fset_neq by congruence; reflexivity.
Qed.

(** from the outside *)
Lemma new_runs d h ies m : t_nilskip (md_new d) = true -> msg_new io ho d h ies = Ok m ->
  m_fs m = runs io (md_new d) (nonnil ies) (fempty d).
Proof.
  intros Hn Hm. unfold msg_new in Hm. rewrite run_table_skip in Hm by assumption. cbn [bind] in Hm.
  unfold msg_set_length in Hm. apply bind_ok_inv in Hm. destruct Hm as (n & _ & Hm). injection Hm as <-. reflexivity.
Qed.
Lemma parse_runs d b m ies : msg_parse io ho d b = Ok m -> io_multi io (ho_payload ho (m_hdr m)) = Ok ies ->
  (ies <> [] -> (md_min d <= len (ho_payload ho (m_hdr m)))%nat) ->
  m_fs m = runs io (md_unm d) ies (fempty d).
Proof.
  intros Hp Hmul Hmin. unfold msg_parse in Hp. apply bind_ok_inv in Hp. destruct Hp as (h & Eh & Hp).
  assert (Hh : m_hdr m = h).
  { destruct (len (ho_payload ho h) <? md_min d)%nat; [injection Hp as <-; reflexivity|].
    destruct (io_multi io (ho_payload ho h)) as [l|e|]; [| |discriminate].
    - rewrite run_table_some in Hp. injection Hp as <-. reflexivity.
    - destruct e; try discriminate. destruct (md_soft d); [injection Hp as <-; reflexivity|discriminate]. }
  rewrite Hh in *. rewrite Hmul, run_table_some in Hp. cbn [bind] in Hp.
  destruct (Nat.ltb_spec (len (ho_payload ho h)) (md_min d)).
  - injection Hp as <-. cbn [m_fs]. destruct ies as [|x l]; [reflexivity|]. specialize (Hmin ltac:(discriminate)). lia.
  - injection Hp as <-. reflexivity.
Qed.
End Msg.
