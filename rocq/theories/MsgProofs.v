(** Facts about the message interpreter that hold for every descriptor passing a
    decidable well-formedness test. *)
From Coq Require Import String Permutation.
From Verif Require Import Base BaseLemmas MsgModel.
Open Scope string_scope.
Open Scope N_scope.
Open Scope list_scope.

(** ** Routing: where an IE goes, given which fields are still nil *)
Fixpoint route (a : act) (n : N) (nilp : string -> bool) : option (fkind * string) :=
  match a with
  | ASet f => Some (FSingle, f)
  | AApp f => Some (FList, f)
  | AInst cs d =>
      (fix sel (l : list (N * act)) :=
         match l with
         | [] => route d n nilp
         | (x, a') :: r => if x =? n then route a' n nilp else sel r
         end) cs
  | AIfNil f y m => if nilp f then route y n nilp else route m n nilp
  | ANop => None
  end.

(** ** Tests on descriptors *)
(** every branch of an instance switch / default *)
Fixpoint all_acts (p : act -> bool) (a : act) : bool :=
  p a &&
  match a with
  | AInst cs d =>
      (fix go (l : list (N * act)) := match l with [] => true | (_, x) :: r => all_acts p x && go r end) cs
      && all_acts p d
  | AIfNil _ y n => all_acts p y && all_acts p n
  | _ => true
  end.
Fixpoint targets (a : act) : list (fkind * string) :=
  match a with
  | ASet f => [(FSingle, f)]
  | AApp f => [(FList, f)]
  | AInst cs d =>
      (fix go (l : list (N * act)) := match l with [] => [] | (_, x) :: r => targets x ++ go r end) cs
      ++ targets d
  | AIfNil _ y n => targets y ++ targets n
  | ANop => []
  end.
Definition fkind_eqb (a b : fkind) : bool :=
  match a, b with FSingle, FSingle | FList, FList => true | _, _ => false end.
Definition has_field (fs : list (string * fkind)) (p : fkind * string) : bool :=
  existsb (fun q => String.eqb (fst q) (snd p) && fkind_eqb (snd q) (fst p)) fs.
Fixpoint mem (s : string) (l : list string) : bool :=
  match l with [] => false | x :: r => String.eqb x s || mem s r end.
Fixpoint nodups (l : list string) : bool :=
  match l with [] => true | x :: r => negb (mem x r) && nodups r end.
(** x occurs strictly before f *)
Fixpoint before (l : list string) (x f : string) : bool :=
  match l with
  | [] => false
  | y :: r => if String.eqb y x then mem f r else if String.eqb y f then false else before r x f
  end.
(** "if F == nil" tests a single field and stores the IE there *)
Definition chain1 (fs : list (string * fkind)) (a : act) : bool :=
  match a with
  | AIfNil f y n =>
      has_field fs (FSingle, f) && match y with ASet f' => String.eqb f f' | _ => false end
  | _ => true
  end.
Definition ord1 (order : list string) (a : act) : bool :=
  match a with
  | AIfNil f y n => forallb (fun p => before order f (snd p)) (targets n)
  | _ => true
  end.
Definition act_ok (fs : list (string * fkind)) (order : list string) (a : act) : bool :=
  forallb (fun p => has_field fs p && mem (snd p) order) (targets a)
  && all_acts (chain1 fs) a && all_acts (ord1 order) a.
Definition table_ok (fs : list (string * fkind)) (order : list string) (t : table) : bool :=
  forallb (fun p => act_ok fs order (snd p)) (t_cases t) && act_ok fs order (t_default t).

Definition step_field (s : mstep) : string := match s with MSingle f _ | MList f _ _ => f end.
Definition step_kind (s : mstep) : fkind := match s with MSingle _ _ => FSingle | MList _ _ _ => FList end.
Definition step_adv (s : mstep) : bool := match s with MSingle _ a | MList _ _ a => a end.
Definition lstep_field (s : lstep) : string := match s with LSingle f | LList f _ => f end.
Definition lstep_kind (s : lstep) : fkind := match s with LSingle _ => FSingle | LList _ _ => FList end.

(** all steps advance the offset, except possibly a single one in last position *)
Fixpoint adv_ok (ss : list mstep) : bool :=
  match ss with
  | [] => true
  | [MSingle _ _] => true
  | s :: r => step_adv s && adv_ok r
  end.
Definition order_of (d : mdesc) : list string := map step_field (md_steps d).
Definition fields_ok (d : mdesc) : bool :=
  nodups (map fst (md_fields d))
  && nodups (order_of d) && adv_ok (md_steps d)
  && forallb (fun s => has_field (md_fields d) (step_kind s, step_field s)) (md_steps d)
  && nodups (map lstep_field (md_lens d))
  && forallb (fun s => has_field (md_fields d) (lstep_kind s, lstep_field s)) (md_lens d)
  && forallb (fun s => mem (lstep_field s) (order_of d)) (md_lens d)
  && forallb (fun f => mem f (map lstep_field (md_lens d))) (order_of d).

(** every branch of [a] that stores an IE agrees with [b] *)
Fixpoint sub_act (a b : act) : bool :=
  match a with
  | ANop => true
  | ASet f => match b with ASet f' => String.eqb f f' | _ => false end
  | AApp f => match b with AApp f' => String.eqb f f' | _ => false end
  | AIfNil f y n =>
      match b with
      | AIfNil f' y' n' => String.eqb f f' && sub_act y y' && sub_act n n'
      | _ => sub_act y b && sub_act n b
      end
  | AInst _ _ => false
  end.
(** the switch on the instance resolved *)
Fixpoint resolve (a : act) (n : N) : act :=
  match a with
  | AInst cs d =>
      (fix sel (l : list (N * act)) :=
         match l with
         | [] => resolve d n
         | (x, a') :: r => if x =? n then resolve a' n else sel r
         end) cs
  | AIfNil f y m => AIfNil f (resolve y n) (resolve m n)
  | _ => a
  end.
Definition sub_table (t u : table) : bool :=
  forallb (fun k => forallb (fun n =>
      sub_act (resolve (assoc_act (t_cases t) (t_default t) k) n)
              (resolve (assoc_act (t_cases u) (t_default u) k) n)) (below 16))
    (map fst (t_cases t) ++ map fst (t_cases u))
  && forallb (fun n => sub_act (resolve (t_default t) n) (resolve (t_default u) n)) (below 16).

Section Acts.
Context (fs : list (string * fkind)) (order : list string).

Lemma act_ind' (P : act -> Prop) :
  (forall f, P (ASet f)) -> (forall f, P (AApp f)) ->
  (forall cs d, Forall (fun c => P (snd c)) cs -> P d -> P (AInst cs d)) ->
  (forall f y n, P y -> P n -> P (AIfNil f y n)) -> P ANop -> forall a, P a.
Proof.
  intros H1 H2 H3 H4 H5. fix IH 1. intros [f|f|cs d|f y n|]; [apply H1|apply H2| |apply H4; apply IH|apply H5].
  apply H3; [|apply IH]. induction cs as [|[x a] r IHr]; constructor; [apply IH|exact IHr].
Qed.

Lemma resolve_route a n p : route (resolve a n) n p = route a n p.
Proof.
  induction a as [f|f|cs d Hcs Hd|f y m Hy Hm|] using act_ind'; cbn [resolve route]; try reflexivity.
  - induction Hcs as [|[x a] r Hx Hr IHr]; [exact Hd|]. cbn [snd] in Hx.
    destruct (x =? n); [exact Hx|exact IHr].
  - rewrite Hy, Hm. reflexivity.
Qed.

Lemma mem_In s l : mem s l = true <-> In s l.
Proof.
  induction l as [|x r IH]; cbn [mem In]; [split; [discriminate|tauto]|].
  rewrite orb_true_iff, IH, String.eqb_eq. tauto.
Qed.
Lemma nodups_NoDup l : nodups l = true -> NoDup l.
Proof.
  induction l as [|x r IH]; cbn [nodups]; [constructor|].
  rewrite andb_true_iff, negb_true_iff. intros [H1 H2]. constructor; [|apply IH, H2].
  intros H. apply mem_In in H. congruence.
Qed.
Lemma fkind_eqb_eq a b : fkind_eqb a b = true -> a = b.
Proof. destruct a, b; cbn; congruence. Qed.
Lemma has_field_In p : has_field fs p = true -> In (snd p, fst p) fs.
Proof.
  unfold has_field. rewrite existsb_exists. intros [[k v] [Hin H]]. cbn [fst snd] in H.
  apply andb_true_iff in H. destruct H as [H1 H2]. apply String.eqb_eq in H1. apply fkind_eqb_eq in H2.
  subst. exact Hin.
Qed.
Lemma before_split A f B x : NoDup (A ++ f :: B) -> before (A ++ f :: B) x f = true -> In x A.
Proof.
  induction A as [|y r IH]; cbn [app before]; intros Hnd.
  - destruct (String.eqb f x) eqn:E.
    + intros H. apply mem_In in H. apply String.eqb_eq in E. subst. inv Hnd. tauto.
    + rewrite String.eqb_refl. discriminate.
  - destruct (String.eqb y x) eqn:E; [intros _; left; apply String.eqb_eq, E|].
    destruct (String.eqb y f) eqn:E2; [discriminate|]. intros H. right. apply IH; [inv Hnd; assumption|exact H].
Qed.

(** sub-acts of a case list *)
Lemma all_acts_case p cs d : all_acts p (AInst cs d) = true ->
  Forall (fun c => all_acts p (snd c) = true) cs /\ all_acts p d = true.
Proof.
  cbn [all_acts]. rewrite !andb_true_iff. intros [_ [H1 H2]]. split; [|exact H2].
  induction cs as [|[x a] r IH]; constructor.
  - apply andb_true_iff in H1. apply H1.
  - apply IH. apply andb_true_iff in H1. apply H1.
Qed.

Lemma route_target a n p r : route a n p = Some r -> In r (targets a).
Proof.
  induction a as [f|f|cs d Hcs Hd|f y m Hy Hm|] using act_ind'; cbn [route targets]; intros H.
  - injection H as <-; left; reflexivity.
  - injection H as <-; left; reflexivity.
  - apply in_or_app. induction Hcs as [|[x a] l Hx Hr IHr]; [right; apply Hd, H|]. cbn [snd] in Hx.
    destruct (x =? n).
    + left. apply in_or_app. left. apply Hx, H.
    + destruct (IHr H) as [H'|H']; [left; apply in_or_app; right; exact H'|right; exact H'].
  - apply in_or_app. destruct (p f); [left; apply Hy, H|right; apply Hm, H].
  - discriminate.
Qed.

(** filling another field does not change the route *)
Lemma route_mono a n p p' k f :
  all_acts (chain1 fs) a = true ->
  (forall x, p' x = true -> p x = true) -> (p f = true -> p' f = true) ->
  route a n p = Some (k, f) -> route a n p' = Some (k, f).
Proof.
  intros Hc Hle Hf. induction a as [g|g|cs d Hcs Hd|g y m Hy Hm|] using act_ind'; cbn [route]; intros H.
  - exact H.
  - exact H.
  - apply all_acts_case in Hc. destruct Hc as [Hc1 Hc2].
    induction Hcs as [|[x a] l Hx Hr IHr]; [apply Hd; assumption|]. cbn [snd] in Hx.
    apply Forall_inv in Hc1 as Hc0. apply Forall_inv_tail in Hc1. cbn [snd] in Hc0.
    destruct (x =? n); [apply Hx; assumption|apply IHr; assumption].
  - cbn [all_acts chain1] in Hc. rewrite !andb_true_iff in Hc. destruct Hc as [[Hg Hc1] [Hc2 Hc3]].
    destruct y as [g'| | | |]; try discriminate. apply String.eqb_eq in Hc1. subst g'.
    destruct (p g) eqn:Eg.
    + cbn [route] in H. injection H as <- <-. rewrite Hf by assumption. reflexivity.
    + destruct (p' g) eqn:Eg'; [rewrite (Hle _ Eg') in Eg; discriminate|]. apply Hm; assumption.
  - discriminate.
Qed.

Lemma route_own a n p p' k f :
  all_acts (chain1 fs) a = true ->
  (forall r, In r (targets a) -> In (snd r, fst r) fs) -> NoDup (map fst fs) ->
  (forall x, x <> f -> p' x = p x) -> p' f = true ->
  route a n p = Some (k, f) -> route a n p' = Some (k, f).
Proof.
  intros Hc Ht Hnd He Hf. induction a as [g|g|cs d Hcs Hd|g y m Hy Hm|] using act_ind'; cbn [route]; intros H.
  - exact H.
  - exact H.
  - apply all_acts_case in Hc. destruct Hc as [Hc1 Hc2]. cbn [targets] in Ht.
    induction Hcs as [|[x a] l Hx Hr IHr]; [apply Hd; auto|]. cbn [snd] in Hx.
    apply Forall_inv in Hc1 as Hc0. apply Forall_inv_tail in Hc1. cbn [snd] in Hc0.
    destruct (x =? n); [apply Hx; auto|apply IHr; auto].
    + intros r Hin. apply Ht. apply in_or_app; left; apply in_or_app; left; exact Hin.
    + intros r Hin. apply Ht. apply in_app_or in Hin. apply in_or_app.
      destruct Hin as [Hin|Hin]; [left; apply in_or_app; right; exact Hin|right; exact Hin].
  - pose proof Hc as Hc'. cbn [all_acts chain1] in Hc. rewrite !andb_true_iff in Hc. destruct Hc as [[Hg Hc1] [Hc2 Hc3]].
    destruct y as [g'| | | |]; try discriminate. apply String.eqb_eq in Hc1. subst g'.
    cbn [targets app] in Ht.
    destruct (String.string_dec g f) as [->|Hne].
    + rewrite Hf. cbn [route].
      assert (k = FSingle) as ->; [|reflexivity].
      assert (In (f, k) fs) as H1.
      { destruct (p f); [cbn [route] in H; injection H as <-; apply (Ht (FSingle, f)); left; reflexivity|].
        apply (Ht (k, f)). right. eapply route_target; exact H. }
      assert (In (f, FSingle) fs) as H2 by (apply (Ht (FSingle, f)); left; reflexivity).
      clear - Hnd H1 H2. induction fs as [|[a b] l IH]; [destruct H1|].
      cbn [map fst] in Hnd. inv Hnd.
      destruct H1 as [H1|H1]; destruct H2 as [H2|H2].
      * congruence.
      * injection H1 as -> ->. exfalso. apply H3. apply (in_map fst) in H2. exact H2.
      * injection H2 as -> ->. exfalso. apply H3. apply (in_map fst) in H1. exact H1.
      * apply IH; assumption.
    + rewrite (He _ Hne). destruct (p g); [exact H|]. apply Hm; auto.
      intros r Hin. apply Ht. right. exact Hin.
  - discriminate.
Qed.

(** replay: the fields tested non-nil come earlier in the order *)
Lemma route_replay a n p s k f A B :
  all_acts (chain1 fs) a = true -> all_acts (ord1 order) a = true ->
  order = A ++ f :: B -> NoDup order ->
  (k = FSingle -> s f = true) ->
  (p f = true) -> (forall x, In x A -> p x = false -> s x = false) ->
  route a n p = Some (k, f) -> route a n s = Some (k, f).
Proof.
  intros Hc Ho Hord Hnd Hs Hp HA. induction a as [g|g|cs d Hcs Hd|g y m Hy Hm|] using act_ind'; cbn [route]; intros H.
  - exact H.
  - exact H.
  - apply all_acts_case in Hc. destruct Hc as [Hc1 Hc2]. apply all_acts_case in Ho. destruct Ho as [Ho1 Ho2].
    induction Hcs as [|[x a] l Hx Hr IHr]; [apply Hd; auto|]. cbn [snd] in Hx.
    apply Forall_inv in Hc1 as Hc0. apply Forall_inv_tail in Hc1. cbn [snd] in Hc0.
    apply Forall_inv in Ho1 as Ho0. apply Forall_inv_tail in Ho1. cbn [snd] in Ho0.
    destruct (x =? n); [apply Hx; auto|apply IHr; auto].
  - cbn [all_acts chain1] in Hc. rewrite !andb_true_iff in Hc. destruct Hc as [[Hg Hc1] [Hc2 Hc3]].
    cbn [all_acts ord1] in Ho. rewrite !andb_true_iff in Ho. destruct Ho as [Ho1 [_ Ho3]].
    destruct y as [g'| | | |]; try discriminate. apply String.eqb_eq in Hc1. subst g'.
    destruct (p g) eqn:Eg.
    + cbn [route] in H. injection H as <- <-. rewrite Hs by reflexivity. reflexivity.
    + rewrite forallb_forall in Ho1.
      assert (Hb : before order g f = true) by (apply (Ho1 (k, f)); eapply route_target; exact H).
      rewrite Hord in Hb, Hnd. pose proof (before_split _ _ _ _ Hnd Hb) as HinA.
      rewrite (HA _ HinA Eg). apply Hm; auto.
  - discriminate.
Qed.

Lemma sub_act_route a b n p r : sub_act a b = true -> route a n p = Some r -> route b n p = Some r.
Proof.
  revert b. induction a as [g|g|cs d Hcs Hd|g y m Hy Hm|] using act_ind'; intros b Hs H; cbn [sub_act] in Hs.
  - destruct b; try discriminate. apply String.eqb_eq in Hs. subst. exact H.
  - destruct b; try discriminate. apply String.eqb_eq in Hs. subst. exact H.
  - discriminate.
  - cbn [route] in H. destruct b as [f|f|cs d|f y' n'|].
    5: { apply andb_true_iff in Hs. destruct (p g); [apply Hy|apply Hm]; tauto. }
    1-3: apply andb_true_iff in Hs; destruct (p g); [apply Hy|apply Hm]; tauto.
    rewrite !andb_true_iff in Hs. destruct Hs as [[He Hs1] Hs2]. apply String.eqb_eq in He. subst f.
    cbn [route]. destruct (p g); [apply Hy|apply Hm]; assumption.
  - discriminate.
Qed.

Lemma assoc_act_In l d k : assoc_act l d k = d \/ exists a, In (k, a) l /\ assoc_act l d k = a.
Proof.
  induction l as [|[x a] r IH]; cbn [assoc_act]; [left; reflexivity|].
  destruct (N.eqb_spec x k) as [->|Hne]; [right; exists a; split; [left; reflexivity|reflexivity]|].
  destruct IH as [IH|[a' [H1 H2]]]; [left; exact IH|right; exists a'; split; [right; exact H1|exact H2]].
Qed.
Lemma assoc_act_notin l d k : ~ In k (map fst l) -> assoc_act l d k = d.
Proof.
  intros H. destruct (assoc_act_In l d k) as [E|[a [H1 _]]]; [exact E|].
  exfalso. apply H. apply (in_map fst) in H1. exact H1.
Qed.
Lemma table_ok_act t k : table_ok fs order t = true -> act_ok fs order (assoc_act (t_cases t) (t_default t) k) = true.
Proof.
  unfold table_ok. rewrite andb_true_iff, forallb_forall. intros [H1 H2].
  destruct (assoc_act_In (t_cases t) (t_default t) k) as [->|[a [Hin ->]]]; [exact H2|].
  apply (H1 _ Hin).
Qed.
End Acts.

Lemma sub_table_route t u k n p r : sub_table t u = true -> n < 16 ->
  route (assoc_act (t_cases t) (t_default t) k) n p = Some r ->
  route (assoc_act (t_cases u) (t_default u) k) n p = Some r.
Proof.
  unfold sub_table. rewrite andb_true_iff. intros [H1 H2] Hn H.
  rewrite <- resolve_route in H. rewrite <- resolve_route.
  eapply sub_act_route; [|exact H].
  assert (Hb : In n (below 16)) by (apply below_complete; exact Hn).
  destruct (in_dec N.eq_dec k (map fst (t_cases t) ++ map fst (t_cases u))) as [Hin|Hni].
  - rewrite forallb_forall in H1. specialize (H1 _ Hin). rewrite forallb_forall in H1. apply H1, Hb.
  - rewrite forallb_forall in H2. rewrite !assoc_act_notin; [apply H2, Hb| |];
      intros Hx; apply Hni, in_or_app; [right|left]; exact Hx.
Qed.
