(** Construct / marshal / parse theorems for every descriptor passing [desc_ok]. *)
From Coq Require Import String Permutation Lia ZifyBool.
From Verif Require Import Base BaseLemmas MsgModel MsgProofs.
Open Scope string_scope.
Open Scope N_scope.
Open Scope list_scope.

Definition somes {A} (l : list (option A)) : list A :=
  flat_map (fun o => match o with Some x => [x] | None => [] end) l.
Lemma somes_app {A} (a b : list (option A)) : somes (a ++ b) = somes a ++ somes b.
Proof. apply flat_map_app. Qed.
Lemma somes_map {A} (l : list A) : somes (map Some l) = l.
Proof. induction l; cbn; [reflexivity|]. f_equal. assumption. Qed.
Lemma somes_In {A} (l : list (option A)) x : In x (somes l) <-> In (Some x) l.
Proof.
  unfold somes. rewrite in_flat_map. split.
  - intros [[y|] [H1 H2]]; [|destruct H2]. destruct H2 as [->|[]]. exact H1.
  - intros H. exists (Some x). split; [exact H|left; reflexivity].
Qed.

(** ** What the ie package and the header must satisfy *)
Record ie_laws {I} (io : ieops I) (wf : I -> Prop) (wire : I -> bytes) : Prop := {
  il_writes : forall i, wf i -> writes (io_mto io i) (wire i);
  il_len : forall i, wf i -> len (wire i) = io_mlen io i;
  il_min : forall i, wf i -> (2 <= len (wire i))%nat;
  il_bytes : forall i, wf i -> bytes_ok (wire i);
  il_inst : forall i, io_inst io i < 16;
  il_multi : forall l, Forall wf l -> io_multi io (flat_map wire l) = Ok l }.

(** [hok] speaks about everything but payload and length; [hbase] is the header size;
    [hnorm] is what survives a marshal/parse cycle. *)
Record hd_laws {H} (ho : hdops H) (hok : H -> Prop) (hbase : H -> nat) (hwire : H -> bytes)
    (hnorm : H -> H) (hmin : nat) (sub : N) : Prop := {
  hl_mlen : forall h, ho_mlen ho h = (hbase h + len (ho_payload ho h))%nat;
  hl_base_p : forall h p, hbase (ho_set_payload ho h p) = hbase h;
  hl_base_l : forall h n, hbase (ho_set_len ho h n) = hbase h;
  hl_pay_p : forall h p, ho_payload ho (ho_set_payload ho h p) = p;
  hl_pay_l : forall h n, ho_payload ho (ho_set_len ho h n) = ho_payload ho h;
  hl_pp : forall h p q, ho_set_payload ho (ho_set_payload ho h p) q = ho_set_payload ho h q;
  hl_ll : forall h m n, ho_set_len ho (ho_set_len ho h m) n = ho_set_len ho h n;
  hl_pl : forall h p n, ho_set_len ho (ho_set_payload ho h p) n = ho_set_payload ho (ho_set_len ho h n) p;
  hl_setlen : forall h, ho_set_length ho h = ho_set_len ho h (u16 (N.of_nat (ho_mlen ho h) - sub));
  hl_ok_p : forall h p, hok h -> hok (ho_set_payload ho h p);
  hl_ok_l : forall h n, hok h -> hok (ho_set_len ho h n);
  hl_norm_p : forall h p, hnorm (ho_set_payload ho h p) = ho_set_payload ho (hnorm h) p;
  hl_wire_len : forall h, hok h -> len (hwire h) = ho_mlen ho h;
  hl_zero : forall h, hok h -> ho_mto ho h (zeros (ho_mlen ho h)) = Ok (hwire h);
  hl_rt : forall h, hok h -> bytes_ok (ho_payload ho h) -> N.of_nat (ho_mlen ho h) < 65536 ->
          (hmin <= ho_mlen ho h)%nat ->
          ho_parse ho (hwire (ho_set_length ho h)) = Ok (hnorm (ho_set_length ho h)) }.

Definition desc_ok (sub : N) (d : mdesc) : bool :=
  fields_ok d && table_ok (md_fields d) (order_of d) (md_unm d)
  && (md_min d <=? 2)%nat && (md_sub d =? sub).
(** ... and constructor and parser agree *)
Definition new_ok (d : mdesc) : bool :=
  table_ok (md_fields d) (order_of d) (md_new d) && sub_table (md_new d) (md_unm d) && t_nilskip (md_new d).

Section Msg.
Context {I H : Type} (io : ieops I) (ho : hdops H).
Notation fmap := (@MsgModel.fmap I).

(** ** Field maps *)
Definition keys (m : fmap) : list string := map fst m.
Lemma keys_fset (m : fmap) f v : keys (fset m f v) = keys m.
Proof.
  induction m as [|[k w] r IH]; cbn [fset keys map]; [reflexivity|].
  destruct (String.eqb k f); cbn [map fst]; [reflexivity|]. f_equal. exact IH.
Qed.
Lemma fget_fset_eq (m : fmap) f v : In f (keys m) -> fget (fset m f v) f = v.
Proof.
  induction m as [|[k w] r IH]; cbn [fset keys map fst In]; [tauto|].
  intros Hin. destruct (String.eqb k f) eqn:E; cbn [fget]; rewrite E; [reflexivity|].
  apply IH. destruct Hin as [->|Hin]; [rewrite String.eqb_refl in E; discriminate|exact Hin].
Qed.
Lemma fget_fset_neq (m : fmap) f g v : f <> g -> fget (fset m f v) g = fget m g.
Proof.
  intros Hne. induction m as [|[k w] r IH]; cbn [fset fget]; [reflexivity|].
  destruct (String.eqb_spec k f) as [->|E]; cbn [fget].
  - rewrite (proj2 (String.eqb_neq f g)) by assumption. reflexivity.
  - destruct (String.eqb k g); [reflexivity|exact IH].
Qed.
Lemma fmap_ext (m m' : fmap) : keys m = keys m' -> NoDup (keys m) ->
  (forall f, fget m f = fget m' f) -> m = m'.
Proof.
  revert m'; induction m as [|[k v] r IH]; intros [|[k' v'] r'] Hk Hnd Hg; try discriminate; [reflexivity|].
  cbn [keys map fst] in Hk, Hnd. injection Hk as -> Hk. inv Hnd. f_equal.
  - f_equal. specialize (Hg k'). cbn [fget] in Hg. rewrite String.eqb_refl in Hg. exact Hg.
  - apply IH; [exact Hk|assumption|]. intros f. specialize (Hg f). cbn [fget] in Hg.
    destruct (String.eqb_spec k' f) as [->|]; [|exact Hg].
    assert (forall (x : fmap), ~ In f (keys x) -> fget x f = @nil (option I)) as Hno.
    { clear. induction x as [|[a b] x IH]; cbn [keys map fst fget In]; [reflexivity|].
      intros Hx. destruct (String.eqb_spec a f); [tauto|apply IH; tauto]. }
    rewrite !Hno; [reflexivity| |assumption]. unfold keys in *. rewrite <- Hk. assumption.
Qed.
Lemma fget_empty d f : fget (fempty d : fmap) f = [].
Proof.
  unfold fempty. induction (md_fields d) as [|[k v] r IH]; cbn [map fget fst]; [reflexivity|].
  destruct (String.eqb k f); [reflexivity|exact IH].
Qed.
Lemma keys_empty d : keys (fempty d) = map fst (md_fields d).
Proof. unfold keys, fempty. rewrite map_map. reflexivity. Qed.

Definition isnil (m : fmap) (f : string) : bool := match fget m f with [] => true | _ => false end.
Definition store (m : fmap) (i : I) (r : option (fkind * string)) : fmap :=
  match r with
  | None => m
  | Some (FSingle, f) => fset m f [Some i]
  | Some (FList, f) => fset m f (fget m f ++ [Some i])
  end.
Lemma run_act_route a i m : run_act io a i m = store m i (route a (io_inst io i) (isnil m)).
Proof.
  induction a as [f|f|cs d Hcs Hd|f y n Hy Hn|] using act_ind'; cbn [run_act route]; try reflexivity.
  - induction Hcs as [|[x a] r Hx Hr IHr]; [exact Hd|]. cbn [snd] in Hx.
    destruct (x =? io_inst io i); [exact Hx|exact IHr].
  - unfold isnil at 1. destruct (fget m f); assumption.
Qed.

Definition dact (t : table) (i : I) : act := assoc_act (t_cases t) (t_default t) (io_type io i).
Fixpoint runs (t : table) (ies : list I) (m : fmap) : fmap :=
  match ies with [] => m | i :: r => runs t r (run_act io (dact t i) i m) end.
Lemma runs_app t a b m : runs t (a ++ b) m = runs t b (runs t a m).
Proof. revert m; induction a as [|i r IH]; intros m; cbn [app runs]; [reflexivity|apply IH]. Qed.
Lemma run_table_skip t ies m : t_nilskip t = true -> run_table io t ies m = Ok (runs t (somes ies) m).
Proof.
  intros Hs. revert m; induction ies as [|[i|] r IH]; intros m; cbn [run_table somes flat_map app runs].
  - reflexivity.
  - apply IH.
  - rewrite Hs. apply IH.
Qed.
Lemma run_table_some t ies m : run_table io t (map Some ies) m = Ok (runs t ies m).
Proof. revert m; induction ies as [|i r IH]; intros m; cbn [map run_table runs]; [reflexivity|apply IH]. Qed.
Lemma keys_runs t ies m : keys (runs t ies m) = keys m.
Proof.
  revert m; induction ies as [|i r IH]; intros m; cbn [runs]; [reflexivity|].
  rewrite IH, run_act_route. unfold store. destruct (route _ _ _) as [[[] f]|]; rewrite ?keys_fset; reflexivity.
Qed.

(** ** Shape of reachable states *)
Definition shape (fs : list (string * fkind)) (m : fmap) : Prop :=
  keys m = map fst fs /\
  (forall f, In (f, FSingle) fs -> fget m f = [] \/ exists i, fget m f = [Some i]) /\
  (forall f, ~ In None (fget m f)).
Lemma shape_empty d : shape (md_fields d) (fempty d).
Proof.
  split; [apply keys_empty|]. split; intros f; [intros _; left; apply fget_empty|rewrite fget_empty; intros []].
Qed.

Section Desc.
Context (fs : list (string * fkind)) (order : list string) (Hnd : NoDup (map fst fs)).

Lemma kind_unique f k k' : In (f, k) fs -> In (f, k') fs -> k = k'.
Proof.
  clear order. revert Hnd. induction fs as [|[a b] l IH]; cbn [map fst]; intros Hn; [intros []|].
  inv Hn. intros [E|Hi] [E'|Hi'].
  - congruence.
  - injection E as -> ->. exfalso. apply H2. apply (in_map fst) in Hi'. exact Hi'.
  - injection E' as -> ->. exfalso. apply H2. apply (in_map fst) in Hi. exact Hi.
  - apply IH; assumption.
Qed.

Lemma act_ok_parts a : act_ok fs order a = true ->
  (forall r, In r (targets a) -> In (snd r, fst r) fs /\ In (snd r) order)
  /\ all_acts (chain1 fs) a = true /\ all_acts (ord1 order) a = true.
Proof.
  unfold act_ok. rewrite !andb_true_iff, forallb_forall. intros [[H1 H2] H3]. split; [|tauto].
  intros r Hr. specialize (H1 r Hr). apply andb_true_iff in H1. destruct H1 as [Ha Hb].
  split; [apply has_field_In, Ha|apply mem_In, Hb].
Qed.

(** every stored IE would be routed again to the field that holds it *)
Definition stable (t : table) (m : fmap) : Prop :=
  forall f i, In (Some i) (fget m f) -> exists k, In (f, k) fs /\ In f order /\
    route (dact t i) (io_inst io i) (fun x => isnil m x || String.eqb x f) = Some (k, f).

Lemma run_shape t i m : table_ok fs order t = true -> shape fs m -> shape fs (run_act io (dact t i) i m).
Proof.
  intros Ht (Hk & Hs & Hn). rewrite run_act_route.
  destruct (route (dact t i) (io_inst io i) (isnil m)) as [[k f]|] eqn:Er; [|split; [|split]; assumption].
  assert (Hin : In (f, k) fs).
  { apply route_target in Er. apply (proj1 (act_ok_parts _ (table_ok_act _ _ _ (io_type io i) Ht))) in Er. apply Er. }
  assert (Hkf : In f (keys m)) by (rewrite Hk; apply (in_map fst) in Hin; exact Hin).
  destruct k; cbn [store]; (split; [rewrite keys_fset; exact Hk|]); split.
  - intros g Hg. destruct (String.string_dec f g) as [<-|Hne];
      [rewrite fget_fset_eq by assumption; right; eexists; reflexivity|rewrite fget_fset_neq by assumption; apply Hs, Hg].
  - intros g. destruct (String.string_dec f g) as [<-|Hne];
      [rewrite fget_fset_eq by assumption; intros [E|[]]; discriminate|rewrite fget_fset_neq by assumption; apply Hn].
  - intros g Hg. destruct (String.string_dec f g) as [<-|Hne];
      [pose proof (kind_unique _ _ _ Hin Hg); discriminate|rewrite fget_fset_neq by assumption; apply Hs, Hg].
  - intros g. destruct (String.string_dec f g) as [<-|Hne];
      [rewrite fget_fset_eq by assumption; rewrite in_app_iff; intros [E|[E|[]]]; [apply (Hn f E)|discriminate]
      |rewrite fget_fset_neq by assumption; apply Hn].
Qed.
Lemma runs_shape t ies m : table_ok fs order t = true -> shape fs m -> shape fs (runs t ies m).
Proof.
  intros Ht. revert m; induction ies as [|i r IH]; intros m Hm; cbn [runs]; [exact Hm|].
  apply IH, run_shape; assumption.
Qed.

(** [t] is the table used to build, [u] the one used to parse *)
Lemma run_stable t u i m :
  (forall n p r, n < 16 -> route (dact t i) n p = Some r -> route (dact u i) n p = Some r) -> io_inst io i < 16 ->
  table_ok fs order t = true -> table_ok fs order u = true ->
  shape fs m -> stable u m -> stable u (run_act io (dact t i) i m).
Proof.
  intros Hsub Hi16 Ht Hu (Hk & Hs & Hn) Hst. rewrite run_act_route.
  destruct (route (dact t i) (io_inst io i) (isnil m)) as [[k f]|] eqn:Er; [|exact Hst].
  pose proof (act_ok_parts _ (table_ok_act _ _ _ (io_type io i) Ht)) as (Ptt & Ptc & Pto).
  pose proof (act_ok_parts _ (table_ok_act _ _ _ (io_type io i) Hu)) as (Put & Puc & Puo).
  assert (Hin : In (f, k) fs /\ In f order) by (apply route_target in Er; apply (Ptt _ Er)).
  assert (Hkf : In f (keys m)) by (rewrite Hk; destruct Hin as [Hin _]; apply (in_map fst) in Hin; exact Hin).
  set (m' := store m i (Some (k, f))).
  assert (Hne : forall x, x <> f -> fget m' x = fget m x).
  { intros x Hx. unfold m'. destruct k; cbn [store]; apply fget_fset_neq; congruence. }
  assert (Hf' : isnil m' f = false).
  { unfold isnil, m'. destruct k; cbn [store]; rewrite fget_fset_eq by assumption; [reflexivity|].
    destruct (fget m f); reflexivity. }
  assert (Hnil : forall x, x <> f -> isnil m' x = isnil m x) by (intros x Hx; unfold isnil; rewrite Hne by assumption; reflexivity).
  assert (Hnew : route (dact u i) (io_inst io i) (fun x => isnil m' x || String.eqb x f) = Some (k, f)).
  { apply Hsub in Er; [|exact Hi16].
    refine (route_own fs _ _ (isnil m) _ k f Puc (fun r Hr => proj1 (Put r Hr)) Hnd _ _ Er).
    - intros x Hx. rewrite Hnil by assumption. rewrite (proj2 (String.eqb_neq x f)) by assumption. apply orb_false_r.
    - rewrite String.eqb_refl. apply orb_true_r. }
  intros g j Hj. destruct (String.string_dec g f) as [->|Hgf].
  - assert (Hj' : j = i \/ (k = FList /\ In (Some j) (fget m f))).
    { unfold m' in Hj. destruct k; cbn [store] in Hj; rewrite fget_fset_eq in Hj by assumption.
      - destruct Hj as [E|[]]. left. congruence.
      - apply in_app_or in Hj. destruct Hj as [Hj|[E|[]]]; [right; split; [reflexivity|exact Hj]|left; congruence]. }
    destruct Hj' as [->|[-> Hj']]; [exists k; tauto|].
    destruct (Hst f j Hj') as (k' & H1 & H2 & H3). exists k'. split; [exact H1|]. split; [exact H2|].
    assert (E : forall n p q a, (forall x, p x = q x) -> route a n p = route a n q).
    { clear. intros n p q a E. induction a as [g|g|cs d Hcs Hd|g y m Hy Hm|] using act_ind'; cbn [route]; try reflexivity.
      - induction Hcs as [|[x a] r Hx Hr IHr]; [exact Hd|]. destruct (x =? n); [exact Hx|exact IHr].
      - rewrite E, Hy, Hm. reflexivity. }
    rewrite <- H3. apply E. intros x. destruct (String.string_dec x f) as [->|Hx].
    + rewrite String.eqb_refl, !orb_true_r. reflexivity.
    + fold m'. rewrite Hnil by assumption. reflexivity.
  - fold m' in Hj. rewrite Hne in Hj by assumption.
    destruct (Hst g j Hj) as (k' & H1 & H2 & H3). exists k'. split; [exact H1|]. split; [exact H2|].
    pose proof (act_ok_parts _ (table_ok_act _ _ _ (io_type io j) Hu)) as (_ & Pjc & _).
    refine (route_mono fs _ _ _ _ _ _ Pjc _ _ H3).
    + intros x. fold m'. rewrite !orb_true_iff. intros [Hx|Hx]; [left|right; exact Hx].
      destruct (String.string_dec x f) as [->|Hxf]; [congruence|]. rewrite <- Hnil by assumption. exact Hx.
    + intros _. rewrite String.eqb_refl. apply orb_true_r.
Qed.

Lemma stable_empty t d : stable t (fempty d).
Proof. intros f i. rewrite fget_empty. intros []. Qed.

(** ** Replaying the stored IEs in marshalling order rebuilds the state *)
Definition in_order (m : fmap) (o : list string) : list I := flat_map (fun f => somes (fget m f)) o.

Lemma no_none_somes (l : list (option I)) : ~ In None l -> l = map Some (somes l).
Proof.
  induction l as [|[x|] r IH]; intros Hn; cbn [somes flat_map app map]; [reflexivity| |exfalso; apply Hn; left; reflexivity].
  f_equal. apply IH. intros Hx. apply Hn. right. exact Hx.
Qed.

Lemma replay_field u m f A B k : table_ok fs order u = true -> stable u m -> shape fs m ->
  order = A ++ f :: B -> NoDup order -> In (f, k) fs ->
  forall rest done s, fget m f = map Some (done ++ rest) -> (k = FSingle -> rest <> [] -> done = []) ->
  keys s = map fst fs ->
  (forall x, In x A -> fget s x = fget m x) -> fget s f = map Some done ->
  let s' := runs u rest s in
  keys s' = map fst fs /\ fget s' f = fget m f /\ (forall x, x <> f -> fget s' x = fget s x).
Proof.
  intros Hu Hst Hsh Hord Hndo Hfk. destruct Hsh as (Hkm & Hsi & _).
  induction rest as [|i r IH]; intros done s Hm Hsing Hks HA Hsf; cbn [runs].
  - rewrite app_nil_r in Hm. split; [exact Hks|]. split; [congruence|reflexivity].
  - assert (Hin : In (Some i) (fget m f)) by (rewrite Hm, map_app; apply in_or_app; right; left; reflexivity).
    destruct (Hst f i Hin) as (k' & H1 & H2 & H3). pose proof (kind_unique _ _ _ Hfk H1) as <-.
    pose proof (act_ok_parts _ (table_ok_act _ _ _ (io_type io i) Hu)) as (_ & Pc & Po).
    assert (Er : route (dact u i) (io_inst io i) (isnil s) = Some (k, f)).
    { refine (route_replay fs order _ _ _ (isnil s) k f A B Pc Po Hord Hndo _ _ _ H3).
      - intros ->. unfold isnil. rewrite Hsf, Hsing; [reflexivity|reflexivity|discriminate].
      - rewrite String.eqb_refl. apply orb_true_r.
      - intros x Hx Hp. apply orb_false_iff in Hp. unfold isnil in *. rewrite (HA _ Hx). apply Hp. }
    rewrite run_act_route, Er.
    assert (Hks' : In f (keys s)) by (rewrite Hks; apply (in_map fst) in Hfk; exact Hfk).
    set (s1 := store s i (Some (k, f))).
    assert (Hnef : ~ In f A).
    { rewrite Hord in Hndo. apply NoDup_remove_2 in Hndo. intros Hx. apply Hndo. apply in_or_app. left. exact Hx. }
    assert (Hs1 : fget s1 f = map Some (done ++ [i])).
    { unfold s1. destruct k; cbn [store]; rewrite fget_fset_eq by assumption.
      - rewrite Hsing; [reflexivity|reflexivity|discriminate].
      - rewrite Hsf, map_app. reflexivity. }
    assert (Hs1n : forall x, x <> f -> fget s1 x = fget s x).
    { intros x Hx. unfold s1. destruct k; cbn [store]; apply fget_fset_neq; congruence. }
    destruct (IH (done ++ [i]) s1) as (R1 & R2 & R3).
    + rewrite Hm, <- app_assoc. reflexivity.
    + intros -> Hr. exfalso. destruct (Hsi f Hfk) as [E|[j E]]; rewrite E in Hm.
      * destruct done; discriminate.
      * destruct done as [|? [|? ?]]; [destruct r; [contradiction|discriminate]|discriminate|discriminate].
    + unfold s1. destruct k; cbn [store]; rewrite keys_fset; exact Hks.
    + intros x Hx. rewrite Hs1n by (intros ->; contradiction). apply HA, Hx.
    + exact Hs1.
    + split; [exact R1|]. split; [exact R2|]. intros x Hx. rewrite R3 by assumption. apply Hs1n, Hx.
Qed.

Lemma replay_all u m : table_ok fs order u = true -> stable u m -> shape fs m -> NoDup order ->
  (forall f, In f order -> exists k, In (f, k) fs) ->
  forall B A s, order = A ++ B -> keys s = map fst fs ->
  (forall x, In x A -> fget s x = fget m x) -> (forall x, ~ In x A -> fget s x = []) ->
  let s' := runs u (in_order m B) s in
  keys s' = map fst fs /\ (forall x, In x order -> fget s' x = fget m x) /\ (forall x, ~ In x order -> fget s' x = []).
Proof.
  intros Hu Hst Hsh Hndo Hof. induction B as [|f B IH]; intros A s Hord Hks HA HnA; cbn [in_order flat_map runs].
  - rewrite app_nil_r in Hord. rewrite Hord. auto.
  - rewrite runs_app. destruct (Hof f) as [k Hk]; [rewrite Hord; apply in_or_app; right; left; reflexivity|].
    assert (HfA : ~ In f A).
    { rewrite Hord in Hndo. apply NoDup_remove_2 in Hndo. intros Hx. apply Hndo. apply in_or_app. left. exact Hx. }
    pose proof (replay_field u m f A B k Hu Hst Hsh Hord Hndo Hk (somes (fget m f)) [] s) as R.
    destruct R as (R1 & R2 & R3).
    + cbn [app]. apply no_none_somes. apply Hsh.
    + reflexivity.
    + exact Hks.
    + exact HA.
    + cbn [map]. apply HnA, HfA.
    + apply (IH (A ++ [f])).
      * rewrite <- app_assoc. exact Hord.
      * exact R1.
      * intros x Hx. apply in_app_or in Hx. destruct Hx as [Hx|[<-|[]]]; [|exact R2].
        rewrite R3 by (intros ->; contradiction). apply HA, Hx.
      * intros x Hx. rewrite in_app_iff in Hx. rewrite R3; [apply HnA; tauto|].
        intros ->. apply Hx. right. left. reflexivity.
Qed.

Lemma replay d u m : md_fields d = fs -> table_ok fs order u = true -> stable u m -> shape fs m -> NoDup order ->
  (forall f, In f order -> exists k, In (f, k) fs) ->
  runs u (in_order m order) (fempty d) = m.
Proof.
  intros Hd Hu Hst Hsh Hndo Hof.
  destruct (replay_all u m Hu Hst Hsh Hndo Hof order [] (fempty d)) as (R1 & R2 & R3).
  - reflexivity.
  - rewrite keys_empty, Hd. reflexivity.
  - intros x [].
  - intros x _. apply fget_empty.
  - apply fmap_ext.
    + rewrite R1. symmetry. apply Hsh.
    + rewrite R1. exact Hnd.
    + intros f. destruct (in_dec String.string_dec f order) as [Hin|Hni]; [apply R2, Hin|].
      rewrite R3 by assumption. destruct (fget m f) as [|[i|] r] eqn:E; [reflexivity| |].
      * destruct (Hst f i) as (k & _ & Ho & _); [rewrite E; left; reflexivity|contradiction].
      * exfalso. apply (proj2 (proj2 Hsh) f). rewrite E. left. reflexivity.
Qed.
End Desc.

(** ** Marshalling *)
Context (wf : I -> Prop) (wire : I -> bytes) (IL : ie_laws io wf wire).

Definition all_wf (m : fmap) : Prop := forall f i, In (Some i) (fget m f) -> wf i.

Lemma mto_one_ok i adv done b : wf i -> (len done + len (wire i) <= len b)%nat ->
  mto_one io i adv (len done) (done ++ skipn (len done) b)
  = Ok ((done ++ wire i) ++ skipn (len (done ++ wire i)) b,
        if adv then len (done ++ wire i) else len done).
Proof.
  intros Hw Hl. unfold mto_one.
  rewrite (on_slice_from_writes _ (wire i)); [|apply (il_writes _ _ _ IL); exact Hw|exact Hl].
  cbn [bind]. rewrite app_length, (il_len _ _ _ IL) by exact Hw. reflexivity.
Qed.
Lemma mto_list_ok skip l : forall done b, Forall wf l -> (len done + len (flat_map wire l) <= len b)%nat ->
  mto_list io skip true (map Some l) (len done) (done ++ skipn (len done) b)
  = Ok ((done ++ flat_map wire l) ++ skipn (len (done ++ flat_map wire l)) b, len (done ++ flat_map wire l)).
Proof.
  induction l as [|i r IH]; intros done b Hw Hl; cbn [map mto_list flat_map].
  - rewrite app_nil_r. reflexivity.
  - cbn [flat_map] in Hl. rewrite app_length in Hl. inv Hw.
    rewrite mto_one_ok; [|assumption|lia]. cbn [bind]. rewrite IH; [|assumption|rewrite app_length; lia].
    rewrite <- !app_assoc. reflexivity.
Qed.

Definition vals (m : fmap) (f : string) : list I := somes (fget m f).
Lemma vals_map fs m f : shape fs m -> fget m f = map Some (vals m f).
Proof. intros Hs. apply no_none_somes, Hs. Qed.
Lemma vals_wf m f : all_wf m -> Forall wf (vals m f).
Proof. intros Hw. apply Forall_forall. intros i Hi. apply somes_In in Hi. apply (Hw f i Hi). Qed.

Lemma mto_step_ok fs m s done b : shape fs m -> all_wf m ->
  has_field fs (step_kind s, step_field s) = true ->
  (step_kind s = FSingle \/ step_adv s = true) ->
  let w := flat_map wire (vals m (step_field s)) in
  (len done + len w <= len b)%nat ->
  exists off, mto_step io s m (len done) (done ++ skipn (len done) b)
    = Ok ((done ++ w) ++ skipn (len (done ++ w)) b, off)
  /\ (step_adv s = true -> off = len (done ++ w)).
Proof.
  intros Hs Hw Hf Hadv w Hl. apply has_field_In in Hf. cbn [fst snd] in Hf.
  pose proof (vals_wf m (step_field s) Hw) as Hvw.
  destruct s as [f adv|f skip adv]; cbn [step_kind step_field mto_step step_adv] in *.
  - destruct (proj1 (proj2 Hs) f Hf) as [E|[i E]]; unfold w, vals in *; rewrite E in *; cbn [somes flat_map app] in *.
    + rewrite !app_nil_r. eexists. split; [reflexivity|reflexivity].
    + inv Hvw. rewrite app_nil_r in *. rewrite mto_one_ok by assumption. eexists. split; [reflexivity|].
      intros ->. reflexivity.
  - destruct Hadv as [Hadv| ->]; [discriminate|].
    rewrite (vals_map fs m f Hs). rewrite mto_list_ok; [|assumption|exact Hl]. eexists. split; [reflexivity|reflexivity].
Qed.

Lemma mto_steps_ok fs m ss : shape fs m -> all_wf m -> adv_ok ss = true ->
  Forall (fun s => has_field fs (step_kind s, step_field s) = true) ss ->
  forall done b,
  let w := flat_map wire (in_order m (map step_field ss)) in
  (len done + len w <= len b)%nat ->
  exists off, mto_steps io ss m (len done) (done ++ skipn (len done) b)
    = Ok ((done ++ w) ++ skipn (len (done ++ w)) b, off).
Proof.
  intros Hs Hw. induction ss as [|s r IH]; intros Ha Hf done b w Hl.
  - cbn. rewrite !app_nil_r. eexists. reflexivity.
  - inv Hf. cbn [map in_order flat_map] in w. fold (vals m (step_field s)) in w.
    subst w. rewrite flat_map_app in Hl |- *. set (w1 := flat_map wire (vals m (step_field s))) in *.
    fold (in_order m (map step_field r)) in *. set (w2 := flat_map wire (in_order m (map step_field r))) in *.
    rewrite app_length in Hl.
    assert (Hk : step_kind s = FSingle \/ step_adv s = true).
    { destruct s as [f adv|f skip adv]; [left; reflexivity|right]. cbn [adv_ok] in Ha. apply andb_true_iff in Ha. apply Ha. }
    destruct (mto_step_ok fs m s done b Hs Hw H2 Hk) as (off & E & Ho); [fold w1; lia|]. fold w1 in E, Ho.
    cbn [mto_steps]. rewrite E. cbn [bind].
    destruct r as [|s' r'].
    + cbn [mto_steps]. unfold w2. cbn. rewrite !app_nil_r. eexists. reflexivity.
    + assert (Ha' : step_adv s = true /\ adv_ok (s' :: r') = true).
      { destruct s as [f adv|f skip adv]; cbn [adv_ok] in Ha; apply andb_true_iff in Ha; exact Ha. }
      destruct Ha' as [Ha1 Ha2]. rewrite (Ho Ha1). rewrite app_assoc.
      apply (IH Ha2 H3 (done ++ w1) b). fold w2. rewrite app_length. lia.
Qed.

(** ** MarshalLen *)
Definition size_of (m : fmap) (f : string) : nat := len (flat_map wire (vals m f)).
Lemma len_list_ok skip l : Forall wf l -> len_list io skip (map Some l) = Ok (len (flat_map wire l)).
Proof.
  induction 1 as [|i r Hi Hr IH]; cbn [map len_list flat_map]; [reflexivity|].
  rewrite IH. cbn [bind]. rewrite app_length, (il_len _ _ _ IL) by assumption. reflexivity.
Qed.
Lemma len_steps_ok fs m ss : shape fs m -> all_wf m ->
  Forall (fun s => has_field fs (lstep_kind s, lstep_field s) = true) ss ->
  len_steps io ss m = Ok (list_sum (map (size_of m) (map lstep_field ss))).
Proof.
  intros Hs Hw. induction 1 as [|s r Hf Hr IH]; cbn [len_steps map list_sum]; [reflexivity|].
  apply has_field_In in Hf. cbn [fst snd] in Hf. pose proof (vals_wf m (lstep_field s) Hw) as Hvw.
  assert (E : len_step io s m = Ok (size_of m (lstep_field s))).
  { unfold size_of. destruct s as [f|f skip]; cbn [lstep_kind lstep_field len_step] in *.
    - destruct (proj1 (proj2 Hs) f Hf) as [E|[i E]]; unfold vals in *; rewrite E in *; cbn [somes flat_map app] in *; [reflexivity|].
      inv Hvw. rewrite app_nil_r, (il_len _ _ _ IL) by assumption. reflexivity.
    - rewrite (vals_map fs m f Hs). apply len_list_ok. exact Hvw. }
  rewrite E. cbn [bind]. rewrite IH. reflexivity.
Qed.
Lemma list_sum_perm (l l' : list nat) : Permutation l l' -> list_sum l = list_sum l'.
Proof. induction 1; cbn [list_sum fold_right] in *; unfold list_sum in *; cbn [fold_right] in *; lia. Qed.
Lemma size_in_order m o : len (flat_map wire (in_order m o)) = list_sum (map (size_of m) o).
Proof.
  induction o as [|f r IH]; [reflexivity|]. cbn [in_order flat_map map]. rewrite flat_map_app, app_length.
  fold (in_order m r). rewrite IH. reflexivity.
Qed.

Section Top.
Context (hok : H -> Prop) (hbase : H -> nat) (hwire : H -> bytes) (hnorm : H -> H) (hmin : nat) (sub : N).
Context (HL : hd_laws ho hok hbase hwire hnorm hmin sub).

Definition body (d : mdesc) (m : fmap) : bytes := flat_map wire (in_order m (order_of d)).

Lemma fields_ok_parts d : fields_ok d = true ->
  NoDup (map fst (md_fields d)) /\ NoDup (order_of d) /\ adv_ok (md_steps d) = true /\
  Forall (fun s => has_field (md_fields d) (step_kind s, step_field s) = true) (md_steps d) /\
  Forall (fun s => has_field (md_fields d) (lstep_kind s, lstep_field s) = true) (md_lens d) /\
  Permutation (map lstep_field (md_lens d)) (order_of d) /\
  (forall f, In f (order_of d) -> exists k, In (f, k) (md_fields d)).
Proof.
  unfold fields_ok. rewrite !andb_true_iff, !forallb_forall.
  intros [[[[[[[A1 A2] A3] A4] A5] A6] A7] A8].
  split; [apply nodups_NoDup, A1|]. split; [apply nodups_NoDup, A2|]. split; [exact A3|].
  split; [apply Forall_forall; exact A4|]. split; [apply Forall_forall; exact A6|]. split.
  - apply NoDup_Permutation; [apply nodups_NoDup, A5|apply nodups_NoDup, A2|]. intros f. split; intros Hf.
    + apply in_map_iff in Hf. destruct Hf as [s [<- Hs]]. apply mem_In, A7, Hs.
    + apply mem_In, A8, Hf.
  - intros f Hf. unfold order_of in Hf. apply in_map_iff in Hf. destruct Hf as [s [<- Hs]].
    exists (step_kind s). apply A4 in Hs. apply has_field_In in Hs. exact Hs.
Qed.

Lemma msg_mlen_ok d m : fields_ok d = true -> shape (md_fields d) (m_fs m) -> all_wf (m_fs m) ->
  msg_mlen io ho d m = Ok (hbase (m_hdr m) + len (body d (m_fs m)))%nat.
Proof.
  intros Hd Hs Hw. destruct (fields_ok_parts d Hd) as (_ & _ & _ & _ & P5 & P6 & _).
  unfold msg_mlen. rewrite (len_steps_ok (md_fields d)) by assumption. cbn [bind].
  rewrite (hl_mlen _ _ _ _ _ _ _ HL). unfold body. rewrite size_in_order.
  rewrite (list_sum_perm _ _ (Permutation_map (size_of (m_fs m)) P6)). f_equal. lia.
Qed.

(** the message whose header carries the marshalled body *)
Definition filled (d : mdesc) (m : msg) : msg :=
  Msg (ho_set_length ho (ho_set_payload ho (m_hdr m) (body d (m_fs m)))) (m_fs m).

Lemma mto_gen d m b : fields_ok d = true -> shape (md_fields d) (m_fs m) -> all_wf (m_fs m) ->
  (md_reset d = true \/ ho_payload ho (m_hdr m) = []) ->
  (hbase (m_hdr m) + len (body d (m_fs m)) <= len b)%nat ->
  msg_mto io ho d m b = do b' <- ho_mto ho (m_hdr (filled d m)) b; Ok (b', filled d m).
Proof.
  intros Hd Hs Hw Hr Hlb. destruct (fields_ok_parts d Hd) as (_ & _ & P3 & P4 & _ & _ & _).
  set (w := body d (m_fs m)) in *. set (B := hbase (m_hdr m)) in *.
  unfold msg_mto. rewrite (msg_mlen_ok d m) by assumption. cbn [bind]. fold w B.
  rewrite (proj2 (Nat.ltb_ge (len b) (B + len w)) Hlb), andb_false_r.
  set (h1 := if md_reset d then ho_set_payload ho (m_hdr m) [] else m_hdr m).
  assert (Hb1 : hbase h1 = B) by (unfold h1; destruct (md_reset d); [apply (hl_base_p _ _ _ _ _ _ _ HL)|reflexivity]).
  assert (Hp1 : ho_payload ho h1 = []).
  { unfold h1. destruct (md_reset d); [apply (hl_pay_p _ _ _ _ _ _ _ HL)|]. destruct Hr as [Hr|Hr]; [discriminate|exact Hr]. }
  assert (Hs1 : forall p, ho_set_payload ho h1 p = ho_set_payload ho (m_hdr m) p).
  { intros p. unfold h1. destruct (md_reset d); [apply (hl_pp _ _ _ _ _ _ _ HL)|reflexivity]. }
  rewrite (msg_mlen_ok d) by assumption. cbn [bind m_hdr m_fs]. fold w. rewrite Hb1.
  rewrite (hl_mlen _ _ _ _ _ _ _ HL h1), Hb1, Hp1. cbn [List.length].
  unfold go_make. rewrite (proj2 (Z.ltb_ge _ _)) by lia. cbn [bind].
  replace (Z.to_nat (Z.of_nat (B + len w) - Z.of_nat (B + 0))) with (len w) by lia.
  destruct (mto_steps_ok (md_fields d) (m_fs m) (md_steps d) Hs Hw P3 P4 [] (zeros (len w))) as [off E].
  { fold (order_of d). change (flat_map wire (in_order (m_fs m) (order_of d))) with w. rewrite len_zeros. cbn. lia. }
  cbn [List.length skipn app] in E. fold (order_of d) in E.
  change (flat_map wire (in_order (m_fs m) (order_of d))) with w in E.
  rewrite E. cbn [bind fst]. rewrite skipn_all2 by (rewrite len_zeros; lia). rewrite app_nil_r, Hs1.
  reflexivity.
Qed.

Lemma filled_parts d m : hok (m_hdr m) ->
  hok (m_hdr (filled d m)) /\ ho_mlen ho (m_hdr (filled d m)) = (hbase (m_hdr m) + len (body d (m_fs m)))%nat.
Proof.
  intros Hh. cbn [filled m_hdr]. rewrite (hl_setlen _ _ _ _ _ _ _ HL). split.
  - apply (hl_ok_l _ _ _ _ _ _ _ HL), (hl_ok_p _ _ _ _ _ _ _ HL), Hh.
  - rewrite (hl_mlen _ _ _ _ _ _ _ HL).
    rewrite (hl_base_l _ _ _ _ _ _ _ HL), (hl_base_p _ _ _ _ _ _ _ HL), (hl_pay_l _ _ _ _ _ _ _ HL), (hl_pay_p _ _ _ _ _ _ _ HL).
    reflexivity.
Qed.

Theorem marshal_ok d m : fields_ok d = true -> shape (md_fields d) (m_fs m) -> all_wf (m_fs m) ->
  hok (m_hdr m) -> (md_reset d = true \/ ho_payload ho (m_hdr m) = []) ->
  msg_marshal io ho d m = Ok (hwire (m_hdr (filled d m)), filled d m)
  /\ msg_mlen io ho d m = Ok (len (hwire (m_hdr (filled d m)))).
Proof.
  intros Hd Hs Hw Hh Hr. destruct (filled_parts d m Hh) as [Hok2 Hm2].
  unfold msg_marshal. rewrite (msg_mlen_ok d m) by assumption. cbn [bind].
  rewrite mto_gen; [|assumption..|rewrite len_zeros; lia].
  rewrite <- Hm2, (hl_zero _ _ _ _ _ _ _ HL) by exact Hok2. cbn [bind].
  split; [reflexivity|]. rewrite (hl_wire_len _ _ _ _ _ _ _ HL) by exact Hok2. reflexivity.
Qed.

(** MarshalTo into any large enough buffer, for a header that overwrites all its bytes *)
Theorem msg_mto_writes d m b : fields_ok d = true -> shape (md_fields d) (m_fs m) -> all_wf (m_fs m) ->
  hok (m_hdr m) -> (md_reset d = true \/ ho_payload ho (m_hdr m) = []) ->
  (forall h, hok h -> writes (ho_mto ho h) (hwire h)) ->
  (len (hwire (m_hdr (filled d m))) <= len b)%nat ->
  let w := hwire (m_hdr (filled d m)) in
  msg_mto io ho d m b = Ok (w ++ skipn (len w) b, filled d m).
Proof.
  intros Hd Hs Hw Hh Hr Hwr Hl w. destruct (filled_parts d m Hh) as [Hok2 Hm2].
  pose proof (hl_wire_len _ _ _ _ _ _ _ HL _ Hok2) as Hwl.
  rewrite mto_gen; [|assumption..|lia].
  rewrite (Hwr _ Hok2 b Hl). reflexivity.
Qed.

Lemma in_order_wf m o : all_wf m -> Forall wf (in_order m o).
Proof.
  intros Hw. apply Forall_forall. intros i Hi. unfold in_order in Hi. apply in_flat_map in Hi.
  destruct Hi as [f [_ Hf]]. apply somes_In in Hf. apply (Hw f i Hf).
Qed.
Lemma body_bytes d m : all_wf m -> bytes_ok (body d m).
Proof.
  intros Hw. unfold body. pose proof (in_order_wf m (order_of d) Hw) as Hf.
  induction Hf as [|i r Hi Hr IH]; cbn [flat_map]; [constructor|].
  apply bytes_ok_app; [apply (il_bytes _ _ _ IL); exact Hi|exact IH].
Qed.

(** parsing the bytes of a filled message *)
Theorem parse_filled d m : desc_ok sub d = true -> shape (md_fields d) (m_fs m) -> all_wf (m_fs m) ->
  stable (md_fields d) (order_of d) (md_unm d) (m_fs m) -> hok (m_hdr m) ->
  let n := (hbase (m_hdr m) + len (body d (m_fs m)))%nat in
  N.of_nat n < 65536 -> (hmin <= n)%nat ->
  msg_parse io ho d (hwire (m_hdr (filled d m))) = Ok (Msg (hnorm (m_hdr (filled d m))) (m_fs m)).
Proof.
  intros Hd Hs Hw Hst Hh n Hn Hmin. unfold desc_ok in Hd. rewrite !andb_true_iff in Hd.
  destruct Hd as [[[Hd Hu] Hm2] _]. apply Nat.leb_le in Hm2.
  destruct (fields_ok_parts d Hd) as (P1 & P2 & _ & _ & _ & _ & P7).
  unfold msg_parse. cbn [filled m_hdr]. set (w := body d (m_fs m)) in *.
  assert (Hml : ho_mlen ho (ho_set_payload ho (m_hdr m) w) = n).
  { rewrite (hl_mlen _ _ _ _ _ _ _ HL), (hl_base_p _ _ _ _ _ _ _ HL), (hl_pay_p _ _ _ _ _ _ _ HL). reflexivity. }
  rewrite (hl_rt _ _ _ _ _ _ _ HL).
  - cbn [bind]. rewrite (hl_setlen _ _ _ _ _ _ _ HL), (hl_pl _ _ _ _ _ _ _ HL), (hl_norm_p _ _ _ _ _ _ _ HL), (hl_pay_p _ _ _ _ _ _ _ HL).
    pose proof (replay (md_fields d) (order_of d) P1 d (md_unm d) (m_fs m) eq_refl Hu Hst Hs P2 P7) as R.
    pose proof (in_order_wf (m_fs m) (order_of d) Hw) as Hiw.
    destruct (len w <? md_min d)%nat eqn:E.
    + apply Nat.ltb_lt in E. f_equal. f_equal. rewrite <- R.
      unfold w, body in E. destruct (in_order (m_fs m) (order_of d)) as [|i r]; [reflexivity|].
      exfalso. cbn [flat_map] in E. rewrite app_length in E. inv Hiw.
      pose proof (il_min _ _ _ IL _ H2). lia.
    + unfold w, body. rewrite (il_multi _ _ _ IL) by exact Hiw. rewrite run_table_some. cbn [bind].
      rewrite R. reflexivity.
  - apply (hl_ok_p _ _ _ _ _ _ _ HL), Hh.
  - rewrite (hl_pay_p _ _ _ _ _ _ _ HL). apply body_bytes, Hw.
  - rewrite Hml. exact Hn.
  - rewrite Hml. exact Hmin.
Qed.

Lemma runs_wf (P : I -> Prop) fs order t ies m : NoDup (map fst fs) -> table_ok fs order t = true -> Forall P ies ->
  shape fs m -> (forall f i, In (Some i) (fget m f) -> P i) -> (forall f i, In (Some i) (fget (runs t ies m) f) -> P i).
Proof.
  intros Hnd Ht Hf. revert m. induction Hf as [|i r Hi Hr IH]; intros m Hs Hw; cbn [runs]; [exact Hw|].
  apply IH; [eapply run_shape; eassumption|].
  intros f j. rewrite run_act_route.
  destruct (route (dact t i) (io_inst io i) (isnil m)) as [[k g]|] eqn:Er; [|apply Hw].
  assert (Hg : In g (keys m)).
  { rewrite (proj1 Hs). apply route_target in Er. apply (proj1 (act_ok_parts _ _ _ (table_ok_act _ _ _ (io_type io i) Ht))) in Er.
    destruct Er as [Er _]. apply (in_map fst) in Er. exact Er. }
  destruct (String.string_dec g f) as [->|Hne].
  - destruct k; cbn [store]; rewrite fget_fset_eq by assumption.
    + intros [E|[]]. injection E as <-. exact Hi.
    + intros Hin. apply in_app_or in Hin. destruct Hin as [Hin|[E|[]]]; [apply (Hw f j Hin)|injection E as <-; exact Hi].
  - destruct k; cbn [store]; rewrite fget_fset_neq by assumption; apply Hw.
Qed.
Lemma runs_stable fs order t u ies m : NoDup (map fst fs) -> table_ok fs order t = true -> table_ok fs order u = true ->
  (forall i n p r, n < 16 -> route (dact t i) n p = Some r -> route (dact u i) n p = Some r) ->
  shape fs m -> stable fs order u m -> stable fs order u (runs t ies m).
Proof.
  intros Hnd Ht Hu Hsub. revert m. induction ies as [|i r IH]; intros m Hs Hst; cbn [runs]; [exact Hst|].
  apply IH; [eapply run_shape; eassumption|]. apply (run_stable fs order Hnd t u); auto.
  apply (il_inst _ _ _ IL).
Qed.

(** ** Construct, marshal, parse *)
Theorem new_roundtrip d h ies : desc_ok sub d = true -> new_ok d = true -> hok h -> ho_payload ho h = [] ->
  Forall wf (somes ies) ->
  exists m, msg_new io ho d h ies = Ok m /\
    shape (md_fields d) (m_fs m) /\ all_wf (m_fs m) /\ m_fs m = runs (md_new d) (somes ies) (fempty d) /\
    let n := (hbase h + len (body d (m_fs m)))%nat in
    m_hdr m = ho_set_len ho h (u16 (N.of_nat n - sub)) /\
    msg_mlen io ho d m = Ok n /\
    (N.of_nat n < 65536 -> (hmin <= n)%nat ->
     exists b m1, msg_marshal io ho d m = Ok (b, m1) /\ len b = n /\
       m_fs m1 = m_fs m /\ m_hdr m1 = ho_set_payload ho (m_hdr m) (body d (m_fs m)) /\
       msg_parse io ho d b = Ok (Msg (hnorm (m_hdr m1)) (m_fs m))).
Proof.
  intros Hd Hnw Hh Hp Hf. pose proof Hd as Hd0. unfold desc_ok in Hd. rewrite !andb_true_iff in Hd.
  destruct Hd as [[[Hd Hu] Hm2] Hsub]. apply N.eqb_eq in Hsub.
  unfold new_ok in Hnw. rewrite !andb_true_iff in Hnw. destruct Hnw as [[Ht Hst] Hns].
  destruct (fields_ok_parts d Hd) as (P1 & P2 & _ & _ & _ & _ & P7).
  set (fs := runs (md_new d) (somes ies) (fempty d)).
  assert (S1 : shape (md_fields d) fs) by (apply (runs_shape _ (order_of d)); [assumption|assumption|apply shape_empty]).
  assert (S2 : all_wf fs).
  { unfold all_wf, fs. apply (runs_wf wf (md_fields d) (order_of d)); try assumption; [apply shape_empty|]. intros f i. rewrite fget_empty. intros []. }
  assert (S3 : stable (md_fields d) (order_of d) (md_unm d) fs).
  { apply (runs_stable _ _ (md_new d)); try assumption; [|apply shape_empty|apply stable_empty].
    intros i n p r Hn Hr. eapply sub_table_route; eassumption. }
  pose proof (msg_mlen_ok d (Msg h fs) Hd S1 S2) as Hml. cbn [m_hdr m_fs] in Hml.
  set (n := (hbase h + len (body d fs))%nat) in *.
  set (h0 := ho_set_len ho h (u16 (N.of_nat n - sub))).
  exists (Msg h0 fs). split.
  { unfold msg_new. rewrite run_table_skip by assumption. cbn [bind]. fold fs. unfold msg_set_length.
    rewrite Hml. cbn [bind m_hdr m_fs]. rewrite Hsub. reflexivity. }
  cbn [m_fs m_hdr]. fold n.
  split; [exact S1|]. split; [exact S2|]. split; [reflexivity|]. split; [reflexivity|].
  assert (Hh0 : hok h0) by (apply (hl_ok_l _ _ _ _ _ _ _ HL), Hh).
  assert (Hb0 : hbase h0 = hbase h) by apply (hl_base_l _ _ _ _ _ _ _ HL).
  assert (Hml0 : msg_mlen io ho d (Msg h0 fs) = Ok n).
  { rewrite (msg_mlen_ok d (Msg h0 fs) Hd S1 S2). cbn [m_hdr m_fs]. rewrite Hb0. reflexivity. }
  split; [exact Hml0|]. intros Hn Hmin.
  destruct (marshal_ok d (Msg h0 fs) Hd S1 S2 Hh0) as [M1 M2].
  { right. cbn [m_hdr]. unfold h0. rewrite (hl_pay_l _ _ _ _ _ _ _ HL). exact Hp. }
  eexists _, _. split; [exact M1|]. split; [rewrite Hml0 in M2; injection M2 as M2; symmetry; exact M2|].
  cbn [filled m_fs m_hdr]. split; [reflexivity|]. split.
  { rewrite (hl_setlen _ _ _ _ _ _ _ HL), (hl_pl _ _ _ _ _ _ _ HL). f_equal. unfold h0.
    rewrite (hl_ll _ _ _ _ _ _ _ HL). f_equal. f_equal. f_equal.
    rewrite (hl_mlen _ _ _ _ _ _ _ HL), (hl_base_p _ _ _ _ _ _ _ HL), (hl_base_l _ _ _ _ _ _ _ HL), (hl_pay_p _ _ _ _ _ _ _ HL).
    reflexivity. }
  apply (parse_filled d (Msg h0 fs)); try assumption; cbn [m_hdr m_fs]; rewrite Hb0; assumption.
Qed.

(** what Parse returns is a consistent message *)
Lemma parse_parts (P : I -> Prop) d b m : desc_ok sub d = true -> msg_parse io ho d b = Ok m ->
  (forall h l, ho_parse ho b = Ok h -> io_multi io (ho_payload ho h) = Ok l -> Forall P l) ->
  ho_parse ho b = Ok (m_hdr m) /\
  shape (md_fields d) (m_fs m) /\ (forall f i, In (Some i) (fget (m_fs m) f) -> P i) /\
  stable (md_fields d) (order_of d) (md_unm d) (m_fs m).
Proof.
  intros Hd Hp Hmw. unfold desc_ok in Hd. rewrite !andb_true_iff in Hd. destruct Hd as [[[Hd Hu] Hm2] _].
  destruct (fields_ok_parts d Hd) as (P1 & P2 & _ & _ & _ & _ & P7).
  unfold msg_parse in Hp. apply bind_ok_inv in Hp. destruct Hp as (h & Eh & Hp).
  assert (Hempty : forall h', h' = h -> Msg h (fempty d) = m ->
     m_hdr m = h /\ shape (md_fields d) (m_fs m) /\ (forall f i, In (Some i) (fget (m_fs m) f) -> P i) /\ stable (md_fields d) (order_of d) (md_unm d) (m_fs m)).
  { intros h' _ <-. cbn [m_hdr m_fs]. split; [reflexivity|]. split; [apply shape_empty|]. split; [|apply stable_empty].
    intros f i. rewrite fget_empty. intros []. }
  assert (Hgoal : m_hdr m = h /\ shape (md_fields d) (m_fs m) /\ (forall f i, In (Some i) (fget (m_fs m) f) -> P i) /\ stable (md_fields d) (order_of d) (md_unm d) (m_fs m)).
  { destruct (len (ho_payload ho h) <? md_min d)%nat; [injection Hp as Hp; apply (Hempty h eq_refl Hp)|].
    destruct (io_multi io (ho_payload ho h)) as [ies|e|] eqn:Em.
    - rewrite run_table_some in Hp. cbn [bind] in Hp. injection Hp as <-. cbn [m_hdr m_fs].
      specialize (Hmw _ _ Eh Em). split; [reflexivity|]. split; [apply (runs_shape _ (order_of d)); [assumption|assumption|apply shape_empty]|].
      split.
      + apply (runs_wf P (md_fields d) (order_of d)); try assumption; [apply shape_empty|]. intros f i. rewrite fget_empty. intros [].
      + apply (runs_stable _ _ (md_unm d)); try assumption; [auto|apply shape_empty|apply stable_empty].
    - destruct e; try discriminate. destruct (md_soft d); [injection Hp as Hp; apply (Hempty h eq_refl Hp)|discriminate].
    - discriminate. }
  destruct Hgoal as [<- Hg]. split; [exact Eh|exact Hg].
Qed.

(** ** Parse, marshal, parse *)
Theorem remarshal d b m : desc_ok sub d = true -> md_reset d = true -> msg_parse io ho d b = Ok m ->
  (forall h, ho_parse ho b = Ok h -> hok h) -> all_wf (m_fs m) ->
  let n := (hbase (m_hdr m) + len (body d (m_fs m)))%nat in
  N.of_nat n < 65536 -> (hmin <= n)%nat ->
  exists b' m1, msg_marshal io ho d m = Ok (b', m1) /\ len b' = n /\ m_fs m1 = m_fs m /\
    m_hdr m1 = ho_set_length ho (ho_set_payload ho (m_hdr m) (body d (m_fs m))) /\
    msg_parse io ho d b' = Ok (Msg (hnorm (m_hdr m1)) (m_fs m)).
Proof.
  intros Hd Hr Hp Hpay S2 n Hn Hmin.
  destruct (parse_parts (fun _ => True) d b m Hd Hp) as (Eh & S1 & _ & S3).
  { intros h l _ _. apply Forall_forall. intros; exact Logic.I. }
  pose proof (Hpay _ Eh) as Hh. pose proof Hd as Hd0. unfold desc_ok in Hd. rewrite !andb_true_iff in Hd.
  destruct Hd as [[[Hd _] _] _].
  destruct (marshal_ok d m Hd S1 S2 Hh (or_introl Hr)) as [M1 M2].
  eexists _, _. split; [exact M1|]. split.
  { rewrite (msg_mlen_ok d m Hd S1 S2) in M2. injection M2 as M2. symmetry. exact M2. }
  split; [reflexivity|]. split; [reflexivity|].
  apply (parse_filled d m); assumption.
Qed.
End Top.
End Msg.
