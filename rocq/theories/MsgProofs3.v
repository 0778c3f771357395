(** Further facts about the message interpreter: parsing is total, parsing does not grow
    a message, and no IE is lost by a table without dropping branches. *)
From Coq Require Import String Permutation Lia ZifyBool.
From Verif Require Import Base BaseLemmas MsgModel MsgProofs MsgProofs2.
Open Scope string_scope.
Open Scope N_scope.
Open Scope list_scope.

(** no branch of the table drops an IE *)
Definition keeps_act (a : act) : bool := all_acts (fun x => match x with ANop => false | _ => true end) a.
Definition keeps_table (t : table) : bool :=
  forallb (fun p => keeps_act (snd p)) (t_cases t) && keeps_act (t_default t).
(** the fields a case may overwrite: those reached by an assignment that is not guarded
    by a nil test of that field *)
Fixpoint overw (a : act) : list string :=
  match a with
  | ASet f => [f]
  | AInst cs d =>
      (fix go (l : list (N * act)) := match l with [] => [] | (_, x) :: r => overw x ++ go r end) cs ++ overw d
  | AIfNil f y n => match y with ASet f' => if String.eqb f f' then [] else [f'] | _ => overw y end ++ overw n
  | _ => []
  end.
(** the default case never assigns a field, and a field assigned by one case is a target
    of no other case *)
Definition excl_table (t : table) : bool :=
  match overw (t_default t) with [] => true | _ => false end &&
  forallb (fun p => forallb (fun q =>
     (fst p =? fst q) || forallb (fun f => negb (mem f (map snd (targets (snd q))))) (overw (snd p)))
     (t_cases t)) (t_cases t) &&
  forallb (fun p => forallb (fun f => negb (mem f (map snd (targets (t_default t))))) (overw (snd p))) (t_cases t).

Section Acts.
Lemma route_keeps a n p : keeps_act a = true -> exists r, route a n p = Some r.
Proof.
  unfold keeps_act. induction a as [f|f|cs d Hcs Hd|f y m Hy Hm|] using act_ind'; intros Hk.
  - eexists; reflexivity.
  - eexists; reflexivity.
  - apply all_acts_case in Hk. destruct Hk as [H1 H2]. cbn [route].
    induction Hcs as [|[x a] l Hx Hr IHr]; [apply Hd, H2|]. apply Forall_inv in H1 as H0. apply Forall_inv_tail in H1.
    cbn [snd] in *. destruct (x =? n); [apply Hx, H0|apply IHr, H1].
  - cbn [all_acts] in Hk. rewrite !andb_true_iff in Hk. cbn [route]. destruct (p f); [apply Hy|apply Hm]; tauto.
  - discriminate.
Qed.
Lemma route_overw fs a n p f : all_acts (chain1 fs) a = true -> route a n p = Some (FSingle, f) -> p f = true \/ In f (overw a).
Proof.
  induction a as [g|g|cs d Hcs Hd|g y m Hy Hm|] using act_ind'; intros Hc Hr.
  - cbn in Hr. injection Hr as ->. right. left. reflexivity.
  - discriminate.
  - apply all_acts_case in Hc. destruct Hc as [H1 H2]. cbn [route] in Hr. cbn [overw].
    rewrite in_app_iff. induction Hcs as [|[x a] l Hx Hr' IHr]; [destruct (Hd H2 Hr); tauto|].
    apply Forall_inv in H1 as H0. apply Forall_inv_tail in H1. cbn [snd] in *. rewrite in_app_iff.
    destruct (x =? n); [destruct (Hx H0 Hr); tauto|destruct (IHr H1 Hr) as [?|[?|?]]; tauto].
  - cbn [all_acts chain1] in Hc. rewrite !andb_true_iff in Hc. destruct Hc as [[Hg Hc1] [Hc2 Hc3]].
    destruct y as [g'| | | |]; try discriminate. apply String.eqb_eq in Hc1. subst g'.
    cbn [route] in Hr. cbn [overw]. rewrite String.eqb_refl. cbn [app].
    destruct (p g) eqn:E; [injection Hr as <-; left; exact E|]. apply Hm; assumption.
  - discriminate.
Qed.
Lemma keeps_table_act t k : keeps_table t = true -> keeps_act (assoc_act (t_cases t) (t_default t) k) = true.
Proof.
  unfold keeps_table. rewrite andb_true_iff, forallb_forall. intros [H1 H2].
  destruct (assoc_act_In (t_cases t) (t_default t) k) as [->|[a [Hin ->]]]; [exact H2|]. apply (H1 _ Hin).
Qed.
End Acts.

Section Msg.
Context {I H : Type} (io : ieops I) (ho : hdops H).
Notation fmap := (@MsgModel.fmap I).

(** ** Parsing is total *)
Theorem parse_total d b : safe (ho_parse ho b) ->
  (forall h, ho_parse ho b = Ok h -> safe (io_multi io (ho_payload ho h))) ->
  safe (msg_parse io ho d b).
Proof.
  intros H1 H2. unfold msg_parse. apply safe_bind; [exact H1|]. intros h Hh. specialize (H2 h Hh).
  destruct (len (ho_payload ho h) <? md_min d)%nat; [apply safe_ok|].
  destruct (io_multi io (ho_payload ho h)) as [l|e|]; [|destruct e; try apply safe_err; destruct (md_soft d); [apply safe_ok|apply safe_err]|exfalso; apply H2; reflexivity].
  rewrite run_table_some. apply safe_ok.
Qed.

(** ** Parsing does not grow the message *)
Section Size.
Context (wf : I -> Prop) (wire : I -> bytes) (IL : ie_laws io wf wire).
Notation size := (size_of wire).
Lemma sum_change (s s' : string -> nat) f k o : NoDup o -> (forall x, x <> f -> s' x = s x) -> (s' f <= s f + k)%nat ->
  (list_sum (map s' o) <= list_sum (map s o) + k)%nat.
Proof.
  intros Hnd He Hf. induction Hnd as [|x r Hx Hr IH]; cbn [map list_sum fold_right]; [lia|].
  unfold list_sum in *. cbn [fold_right].
  destruct (String.string_dec x f) as [->|Hne]; [|rewrite (He x Hne); lia].
  assert (E : map s' r = map s r).
  { apply map_ext_in. intros y Hy. apply He. intros ->. contradiction. }
  rewrite E. lia.
Qed.
Lemma runs_size fs order t ies : NoDup order -> table_ok fs order t = true -> forall m, keys m = map fst fs ->
  (len (flat_map wire (in_order (runs io t ies m) order)) <= len (flat_map wire (in_order m order)) + len (flat_map wire ies))%nat.
Proof.
  intros Hndo Ht. induction ies as [|i r IH]; intros m Hk; cbn [runs flat_map]; [lia|].
  assert (Hk' : keys (run_act io (dact io t i) i m) = map fst fs).
  { rewrite run_act_route. unfold store. destruct (route _ _ _) as [[[] f]|]; rewrite ?keys_fset; exact Hk. }
  specialize (IH _ Hk'). rewrite app_length.
  enough (len (flat_map wire (in_order (run_act io (dact io t i) i m) order)) <= len (flat_map wire (in_order m order)) + len (wire i))%nat by lia.
  rewrite !size_in_order. rewrite run_act_route.
  destruct (route (dact io t i) (io_inst io i) (isnil m)) as [[k f]|] eqn:Er; [|cbn [store]; lia].
  assert (Hf : In f (keys m)).
  { rewrite Hk. apply route_target in Er.
    apply (proj1 (act_ok_parts _ _ _ (table_ok_act _ _ _ (io_type io i) Ht))) in Er.
    destruct Er as [Er _]. apply (in_map fst) in Er. exact Er. }
  apply (sum_change _ _ f); [exact Hndo| |].
  - intros x Hx. unfold size_of, vals. destruct k; cbn [store]; rewrite fget_fset_neq by congruence; reflexivity.
  - unfold size_of, vals. destruct k; cbn [store]; rewrite fget_fset_eq by exact Hf.
    + cbn [somes flat_map app]. rewrite app_nil_r. lia.
    + rewrite somes_app, flat_map_app, app_length. cbn [somes flat_map app]. rewrite app_nil_r. lia.
Qed.

Theorem parse_size d b m sub : desc_ok sub d = true -> msg_parse io ho d b = Ok m ->
  (forall p l, io_multi io p = Ok l -> bytes_ok p -> p = flat_map wire l) ->
  (forall h, ho_parse ho b = Ok h -> bytes_ok (ho_payload ho h)) ->
  (len (body wire d (m_fs m)) <= len (ho_payload ho (m_hdr m)))%nat.
Proof.
  intros Hd Hp Hmw Hpay. unfold desc_ok in Hd. rewrite !andb_true_iff in Hd. destruct Hd as [[[Hd Hu] Hm2] _].
  destruct (fields_ok_parts d Hd) as (P1 & P2 & _ & _ & _ & _ & P7).
  assert (Hz : len (flat_map wire (in_order (fempty d : fmap) (order_of d))) = 0%nat).
  { rewrite size_in_order. generalize (order_of d). intros o. induction o as [|f r IH]; [reflexivity|].
    cbn [map list_sum fold_right]. unfold size_of at 1, vals at 1. rewrite fget_empty. cbn. exact IH. }
  unfold msg_parse in Hp. apply bind_ok_inv in Hp. destruct Hp as (h & Eh & Hp). specialize (Hpay h Eh).
  destruct (len (ho_payload ho h) <? md_min d)%nat.
  { injection Hp as <-. cbn [m_fs m_hdr]. unfold body. rewrite Hz. lia. }
  destruct (io_multi io (ho_payload ho h)) as [ies|e|] eqn:Em.
  - rewrite run_table_some in Hp. cbn [bind] in Hp. injection Hp as <-. cbn [m_hdr m_fs].
    unfold body. pose proof (runs_size (md_fields d) (order_of d) (md_unm d) ies P2 Hu (fempty d) (keys_empty d)) as R.
    rewrite Hz in R. rewrite (Hmw _ _ Em Hpay). exact R.
  - destruct e; try discriminate. destruct (md_soft d); [injection Hp as <-; cbn [m_fs m_hdr]; unfold body; rewrite Hz; lia|discriminate].
  - discriminate.
Qed.
End Size.

(** ** No IE is lost *)
Section Lost.
Context (fs : list (string * fkind)) (order : list string) (Hnd : NoDup (map fst fs)).

Lemma excl_key t k k' f : excl_table t = true ->
  In f (overw (assoc_act (t_cases t) (t_default t) k)) ->
  In f (map snd (targets (assoc_act (t_cases t) (t_default t) k'))) -> k = k'.
Proof.
  intros He Hj Hi. unfold excl_table in He. rewrite !andb_true_iff in He. destruct He as [[He1 He2] He3].
  rewrite forallb_forall in He2, He3.
  destruct (assoc_act_In (t_cases t) (t_default t) k) as [E|[a [Hin E]]]; rewrite E in Hj.
  { destruct (overw (t_default t)); [destruct Hj|discriminate]. }
  specialize (He2 _ Hin). specialize (He3 _ Hin). rewrite forallb_forall in He2, He3.
  destruct (assoc_act_In (t_cases t) (t_default t) k') as [E'|[a' [Hin' E']]]; rewrite E' in Hi.
  { specialize (He3 f Hj). apply negb_true_iff in He3. apply mem_In in Hi. congruence. }
  specialize (He2 _ Hin'). apply orb_true_iff in He2. destruct He2 as [He2|He2]; [apply N.eqb_eq, He2|].
  rewrite forallb_forall in He2. specialize (He2 f Hj). apply negb_true_iff in He2. apply mem_In in Hi.
  cbn [snd] in He2. congruence.
Qed.

Definition held t (i : I) (post : list I) (m : fmap) : Prop :=
  exists f k, In (k, f) (targets (dact io t i)) /\ In (f, k) fs /\
   (In (Some i) (fget m f) \/
    (k = FSingle /\ exists j, In j post /\ io_type io j = io_type io i /\ fget m f = [Some j])).

Lemma held_step t i post j m : table_ok fs order t = true -> excl_table t = true -> shape fs m ->
  held t i post m -> held t i (post ++ [j]) (run_act io (dact io t j) j m).
Proof.
  intros Ht He Hs (f & k & Htg & Hfk & Hc). exists f, k. split; [exact Htg|]. split; [exact Hfk|].
  rewrite run_act_route.
  pose proof (act_ok_parts _ _ _ (table_ok_act _ _ _ (io_type io j) Ht)) as (Pt & Pc & _).
  assert (Hf : In f (keys m)) by (rewrite (proj1 Hs); apply (in_map fst) in Hfk; exact Hfk).
  assert (Hmono : In (Some i) (fget m f) \/
    (k = FSingle /\ exists j0, In j0 post /\ io_type io j0 = io_type io i /\ fget m f = [Some j0]) ->
    In (Some i) (fget m f) \/
    (k = FSingle /\ exists j0, In j0 (post ++ [j]) /\ io_type io j0 = io_type io i /\ fget m f = [Some j0])).
  { intros [Hx|(Hx & y & Hy & Hz)]; [left; exact Hx|right]. split; [exact Hx|]. exists y. split; [|exact Hz].
    apply in_or_app. left. exact Hy. }
  destruct (route (dact io t j) (io_inst io j) (isnil m)) as [[k' f']|] eqn:Er; [|cbn [store]; apply Hmono, Hc].
  destruct (String.string_dec f' f) as [->|Hne].
  2: { destruct k'; cbn [store]; rewrite fget_fset_neq by congruence; apply Hmono, Hc. }
  pose proof (route_target _ _ _ _ Er) as Htj. apply Pt in Htj as Hj2. cbn [fst snd] in Hj2.
  pose proof (kind_unique fs Hnd f k k' Hfk (proj1 Hj2)) as <-.
  destruct k; cbn [store]; rewrite fget_fset_eq by exact Hf.
  - right. split; [reflexivity|]. exists j. split; [apply in_or_app; right; left; reflexivity|]. split; [|reflexivity].
    destruct (route_overw fs _ _ _ _ Pc Er) as [Hnil|Hov].
    + exfalso. unfold isnil in Hnil. destruct Hc as [Hc|(_ & y & _ & _ & Hc)]; [destruct (fget m f); [destruct Hc|discriminate]|].
      rewrite Hc in Hnil. discriminate.
    + apply (excl_key t _ _ f He Hov). apply (in_map snd) in Htg. exact Htg.
  - left. apply in_or_app. left. destruct Hc as [Hc|[Hc _]]; [exact Hc|discriminate].
Qed.

Lemma held_runs t i post : table_ok fs order t = true -> excl_table t = true -> forall m done, shape fs m ->
  held t i done m -> held t i (done ++ post) (runs io t post m).
Proof.
  intros Ht He. induction post as [|j r IH]; intros m done Hs Hh; cbn [runs].
  - rewrite app_nil_r. exact Hh.
  - replace (done ++ j :: r) with ((done ++ [j]) ++ r) by (rewrite <- app_assoc; reflexivity).
    apply IH; [eapply run_shape; eassumption|]. apply held_step; assumption.
Qed.

Theorem none_lost t pre i post m : table_ok fs order t = true -> excl_table t = true ->
  keeps_table t = true -> shape fs m ->
  let m' := runs io t (pre ++ i :: post) m in
  (exists f, In f (map fst fs) /\ In (Some i) (fget m' f)) \/
  (exists f j, In (f, FSingle) fs /\ In j post /\ io_type io j = io_type io i /\ fget m' f = [Some j]).
Proof.
  intros Ht He Hk Hs m'. subst m'. rewrite runs_app. cbn [runs].
  set (m1 := runs io t pre m).
  assert (Hs1 : shape fs m1) by (eapply runs_shape; eassumption).
  assert (Hh : held t i [] (run_act io (dact io t i) i m1)).
  { rewrite run_act_route. destruct (route_keeps (dact io t i) (io_inst io i) (isnil m1) (keeps_table_act t _ Hk)) as [[k f] Er].
    pose proof (route_target _ _ _ _ Er) as Htg.
    pose proof (proj1 (act_ok_parts _ _ _ (table_ok_act _ _ _ (io_type io i) Ht)) _ Htg) as [Hfk _]. cbn [fst snd] in Hfk.
    exists f, k. split; [exact Htg|]. split; [exact Hfk|]. left. rewrite Er.
    assert (Hf : In f (keys m1)) by (rewrite (proj1 Hs1); apply (in_map fst) in Hfk; exact Hfk).
    destruct k; cbn [store]; rewrite fget_fset_eq by exact Hf; [left; reflexivity|apply in_or_app; right; left; reflexivity]. }
  assert (Hs2 : shape fs (run_act io (dact io t i) i m1)) by (eapply run_shape; eassumption).
  destruct (held_runs t i post Ht He _ [] Hs2 Hh) as (f & k & Htg & Hfk & [Hc|(-> & j & Hj & Hty & Hg)]).
  - left. exists f. split; [apply (in_map fst) in Hfk; exact Hfk|exact Hc].
  - right. exists f, j. auto.
Qed.
End Lost.

(** the same from the outside of a constructor and of a parser *)
Theorem new_none_lost d h pre i post m sub : desc_ok sub d = true -> new_ok d = true ->
  excl_table (md_new d) = true -> keeps_table (md_new d) = true ->
  msg_new io ho d h (pre ++ Some i :: post) = Ok m ->
  (exists f, In f (map fst (md_fields d)) /\ In (Some i) (fget (m_fs m) f)) \/
  (exists f j, In (f, FSingle) (md_fields d) /\ In (Some j) post /\ io_type io j = io_type io i /\ fget (m_fs m) f = [Some j]).
Proof.
  intros Hd Hn He Hk Hm. unfold desc_ok in Hd. rewrite !andb_true_iff in Hd. destruct Hd as [[[Hd _] _] _].
  unfold new_ok in Hn. rewrite !andb_true_iff in Hn. destruct Hn as [[Ht _] Hns].
  destruct (fields_ok_parts d Hd) as (P1 & _).
  unfold msg_new in Hm. rewrite run_table_skip in Hm by assumption. cbn [bind] in Hm.
  unfold msg_set_length in Hm. apply bind_ok_inv in Hm. destruct Hm as (n & _ & Hm). injection Hm as <-. cbn [m_fs].
  rewrite somes_app. change (somes (Some i :: post)) with (i :: somes post).
  destruct (none_lost (md_fields d) (order_of d) P1 (md_new d) (somes pre) i (somes post) (fempty d) Ht He Hk (shape_empty d)) as [R|(f & j & R1 & R2 & R3)].
  - left. exact R.
  - right. exists f, j. split; [exact R1|]. split; [apply somes_In, R2|exact R3].
Qed.
Theorem parse_none_lost d b m sub pre i post : desc_ok sub d = true ->
  excl_table (md_unm d) = true -> keeps_table (md_unm d) = true ->
  msg_parse io ho d b = Ok m -> (md_min d <= len (ho_payload ho (m_hdr m)))%nat ->
  io_multi io (ho_payload ho (m_hdr m)) = Ok (pre ++ i :: post) ->
  (exists f, In f (map fst (md_fields d)) /\ In (Some i) (fget (m_fs m) f)) \/
  (exists f j, In (f, FSingle) (md_fields d) /\ In j post /\ io_type io j = io_type io i /\ fget (m_fs m) f = [Some j]).
Proof.
  intros Hd He Hk Hp Hmin Hmul. unfold desc_ok in Hd. rewrite !andb_true_iff in Hd. destruct Hd as [[[Hd Hu] _] _].
  destruct (fields_ok_parts d Hd) as (P1 & _).
  unfold msg_parse in Hp. apply bind_ok_inv in Hp. destruct Hp as (h & Eh & Hp).
  assert (Hh : m_hdr m = h).
  { destruct (len (ho_payload ho h) <? md_min d)%nat; [injection Hp as <-; reflexivity|].
    destruct (io_multi io (ho_payload ho h)) as [l|e|]; [| |discriminate].
    - rewrite run_table_some in Hp. injection Hp as <-. reflexivity.
    - destruct e; try discriminate. destruct (md_soft d); [injection Hp as <-; reflexivity|discriminate]. }
  rewrite Hh in *. rewrite (proj2 (Nat.ltb_ge _ _) Hmin), Hmul, run_table_some in Hp. injection Hp as <-. cbn [m_fs].
  apply (none_lost (md_fields d) (order_of d) P1); auto using shape_empty.
Qed.
End Msg.

(** ** The marshalled IEs are exactly those present in the fields *)
From Verif Require Import MsgSpec.
Definition covers (d : mdesc) : bool := forallb (fun f => mem (fst f) (order_of d)) (md_fields d).
Section Present.
Context {I : Type}.
Notation fmap := (@MsgModel.fmap I).
Lemma present_keys (m : fmap) : NoDup (keys m) -> present m = in_order m (keys m).
Proof.
  assert (G : forall (a : fmap) m', (forall f v, In (f, v) a -> fget m' f = v) -> present a = in_order m' (keys a)).
  { induction a as [|[k v] r IH]; intros m' Hm; [reflexivity|].
    unfold present, in_order, keys in *. cbn [flat_map map fst snd].
    rewrite (Hm k v) by (left; reflexivity). f_equal. apply IH. intros f w Hf. apply Hm. right. exact Hf. }
  intros Hnd. apply G. induction m as [|[k v] r IH]; intros f w Hf; [destruct Hf|].
  cbn [keys map fst] in Hnd. inv Hnd. cbn [fget]. destruct Hf as [E|Hf].
  - injection E as -> ->. rewrite String.eqb_refl. reflexivity.
  - destruct (String.eqb_spec k f) as [->|]; [|apply IH; assumption].
    exfalso. apply H1. apply (in_map fst) in Hf. exact Hf.
Qed.
Lemma flat_map_perm {A B} (f : A -> list B) l l' : Permutation l l' -> Permutation (flat_map f l) (flat_map f l').
Proof.
  induction 1; cbn [flat_map].
  - constructor.
  - apply Permutation_app_head. assumption.
  - rewrite !app_assoc. apply Permutation_app_tail, Permutation_app_comm.
  - eapply Permutation_trans; eassumption.
Qed.
Lemma order_perm d : fields_ok d = true -> covers d = true -> Permutation (order_of d) (map fst (md_fields d)).
Proof.
  intros Hd Hc. destruct (fields_ok_parts d Hd) as (P1 & P2 & _ & _ & _ & _ & P7).
  apply NoDup_Permutation; [exact P2|exact P1|]. intros f. split; intros Hf.
  - destruct (P7 f Hf) as [k Hin]. apply (in_map fst) in Hin. exact Hin.
  - unfold covers in Hc. rewrite forallb_forall in Hc. apply in_map_iff in Hf. destruct Hf as [p [<- Hp]].
    apply mem_In. apply Hc, Hp.
Qed.
Lemma in_order_present d (m : fmap) : fields_ok d = true -> covers d = true -> keys m = map fst (md_fields d) ->
  Permutation (in_order m (order_of d)) (present m).
Proof.
  intros Hd Hc Hk. destruct (fields_ok_parts d Hd) as (P1 & P2 & _ & _ & _ & _ & P7).
  rewrite present_keys by (rewrite Hk; exact P1). apply flat_map_perm.
  apply NoDup_Permutation; [exact P2|rewrite Hk; exact P1|]. intros f. rewrite Hk. split; intros Hf.
  - destruct (P7 f Hf) as [k Hin]. apply (in_map fst) in Hin. exact Hin.
  - unfold covers in Hc. rewrite forallb_forall in Hc. apply in_map_iff in Hf. destruct Hf as [p [<- Hp]].
    apply mem_In. apply Hc, Hp.
Qed.
Lemma typed_shape d (m : fmap) : typed_fields d m -> shape (md_fields d) m.
Proof. intros H. exact H. Qed.
Lemma shape_typed d (m : fmap) : shape (md_fields d) m -> typed_fields d m.
Proof. intros H. exact H. Qed.
Lemma present_wf (wf : I -> Prop) (m : fmap) : NoDup (keys m) -> Forall wf (present m) -> all_wf wf m.
Proof.
  intros Hnd Hf f i Hi. rewrite Forall_forall in Hf. apply Hf. rewrite present_keys by exact Hnd.
  unfold in_order. apply in_flat_map. exists f. split; [|apply somes_In, Hi].
  destruct (in_dec String.string_dec f (keys m)) as [|Hn]; [assumption|].
  exfalso. revert Hi Hn. clear. induction m as [|[k v] r IH]; cbn [fget keys map fst In]; [tauto|].
  destruct (String.eqb_spec k f) as [->|]; [tauto|]. intros H1 H2. apply IH; tauto.
Qed.
Lemma all_wf_present (wf : I -> Prop) (m : fmap) : NoDup (keys m) -> all_wf wf m -> Forall wf (present m).
Proof.
  intros Hnd Hw. apply Forall_forall. intros i Hi. rewrite present_keys in Hi by exact Hnd.
  unfold in_order in Hi. apply in_flat_map in Hi. destruct Hi as [f [_ Hi]]. apply somes_In in Hi. apply (Hw f i Hi).
Qed.
End Present.
