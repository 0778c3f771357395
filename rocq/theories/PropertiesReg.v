(** C63: choosing which IE types are grouped. *)
From Coq Require Import Lia.
From Verif Require Import Base BaseLemmas Utils V2IE V2IESpec V2IEProofs Registry.
Open Scope N_scope.
Open Scope list_scope.

Definition never_set (ops : list op) : Prop := forall f, ~ In (OSet f) ops.
Definition added (ops : list op) (t : N) : Prop := exists ts, In (OAdd ts) ops /\ In t ts.

Lemma after_app a b : after (a ++ b) = fold_left apply b (after a).
Proof. apply fold_left_app. Qed.
Lemma fun_kept ops : never_set ops -> forall r, r_fun (fold_left apply ops r) = r_fun r.
Proof.
  induction ops as [|o ops IH]; intros H r; [reflexivity|]. cbn [fold_left]. rewrite IH.
  - destruct o as [f|ts]; [exfalso; apply (H f); left; reflexivity|reflexivity].
  - intros f Hin. apply (H f). right. exact Hin.
Qed.
Lemma keys_after ops : forall r t, In t (r_keys (fold_left apply ops r)) <-> In t (r_keys r) \/ added ops t.
Proof.
  induction ops as [|o ops IH]; intros r t; cbn [fold_left].
  - split; [auto|]. intros [H|[ts [[] _]]]. exact H.
  - rewrite IH. destruct o as [[f|]|ts]; cbn [apply r_keys].
    1-2: split; (intros [H|[ts [H1 H2]]]; [left; exact H|right; exists ts; split; [|exact H2]]); [right; exact H1|];
         destruct H1 as [[=]|H1]; exact H1.
    rewrite in_app_iff. split.
    + intros [[H|H]|[ts' [H1 H2]]]; [left; exact H|right; exists ts; split; [left; reflexivity|exact H]|].
      right. exists ts'. split; [right; exact H1|exact H2].
    + intros [H|[ts' [[[= ->]|H1] H2]]]; [auto|auto|]. right. exists ts'. auto.
Qed.
Lemma existsb_in t l : existsb (N.eqb t) l = true <-> In t l.
Proof.
  rewrite existsb_exists. split.
  - intros [x [Hin E]]. apply N.eqb_eq in E. subst x. exact Hin.
  - intros H. exists t. split; [exact H|apply N.eqb_refl].
Qed.

(** Without SetIsGroupedFun, the grouped types are the eight built in and those added. *)
Theorem C63_v2_grouped_types : forall ops, never_set ops ->
  (forall t, exists b, is_grouped (after ops) t = Ok b) /\
  forall t, is_grouped (after ops) t = Ok true <-> default_grouped t = true \/ added ops t.
Proof.
  intros ops H. unfold is_grouped, after. rewrite (fun_kept ops H reg0). cbn [r_fun reg0].
  split; [eauto|]. intros t.
  assert (E : forall b : bool, Ok b = Ok true <-> b = true) by (intros b; split; congruence).
  rewrite E, existsb_in, keys_after. cbn [r_keys reg0]. unfold default_grouped. rewrite existsb_in. reflexivity.
Qed.
Print Assumptions C63_v2_grouped_types.
Example C63_v2_grouped_types_example :
  is_grouped (after [OAdd [200; 201]; OAdd []]) 201 = Ok true /\ is_grouped (after [OAdd [200; 201]]) 202 = Ok false.
Proof. split; reflexivity. Qed.

(** After SetIsGroupedFun f, f alone decides, whatever is added before or after. *)
Theorem C63_v2_user_function : forall a f b t, never_set b ->
  is_grouped (after (a ++ OSet (Some f) :: b)) t = Ok (f t).
Proof.
  intros a f b t H. rewrite after_app. cbn [fold_left]. unfold is_grouped. rewrite (fun_kept b H). reflexivity.
Qed.
Print Assumptions C63_v2_user_function.
(** So AddGroupedIEType is ignored once a function was set ("you can add new IE types"). *)
Theorem C63_v2_add_after_set_refuted : forall a f ts t, f t = false -> In t ts ->
  is_grouped (after (a ++ [OSet (Some f); OAdd ts])) t = Ok false.
Proof.
  intros a f ts t Hf _. rewrite (C63_v2_user_function a f [OAdd ts] t); [now rewrite Hf|].
  intros f' [[=]|[]].
Qed.
Print Assumptions C63_v2_add_after_set_refuted.
(** and SetIsGroupedFun(nil) makes every later use panic. *)
Theorem C63_v2_nil_function_refuted : forall a b t, never_set b -> is_grouped (after (a ++ OSet None :: b)) t = Panic.
Proof.
  intros a b t H. rewrite after_app. cbn [fold_left]. unfold is_grouped. rewrite (fun_kept b H). reflexivity.
Qed.
Print Assumptions C63_v2_nil_function_refuted.
Example C63_v2_user_function_example :
  is_grouped (after [OAdd [7]; OSet (Some (N.eqb 9)); OAdd [8]]) 9 = Ok true /\
  is_grouped (after [OAdd [7]; OSet (Some (N.eqb 9)); OAdd [8]]) 8 = Ok false.
Proof. split; reflexivity. Qed.

(** ** Changing the classification while IEs exist *)

(** the types of an IE and of everything inside it *)
Fixpoint types2 (i : ie2) : list N := match i with IE2 t _ _ _ c => t :: flat_map types2 c end.

Lemma wire_agree g g' i : (forall t, In t (types2 i) -> g t = g' t) -> wire2 g i = wire2 g' i.
Proof.
  induction i as [t l n p c IH] using ie2_ind'. intros H. cbn [wire2]. rewrite (H t) by (left; reflexivity).
  destruct (g' t); [|reflexivity]. do 3 f_equal. rewrite Forall_forall in IH.
  assert (E : forall x, In x c -> wire2 g x = wire2 g' x).
  { intros x Hx. apply IH; [exact Hx|]. intros u Hu. apply H. right. apply in_flat_map. eauto. }
  clear IH H. induction c as [|x c IHc]; [reflexivity|]. cbn [flat_map].
  rewrite (E x) by (left; reflexivity). f_equal. apply IHc. intros y Hy. apply E. right. exact Hy.
Qed.
Lemma wf_agree g g' i : (forall t, In t (types2 i) -> g t = g' t) -> wf2 g i -> wf2 g' i.
Proof.
  induction i as [t l n p c IH] using ie2_ind'. intros H W.
  assert (Ht : g t = g' t) by (apply H; left; reflexivity).
  assert (Hc : forall x, In x c -> forall u, In u (types2 x) -> g u = g' u).
  { intros x Hx u Hu. apply H. right. apply in_flat_map. eauto. }
  inversion W as [? ? ? ? G T M B L E|? ? ? ? ? G T M L E P F]; subst.
  - apply wf2_plain; congruence || assumption.
  - apply wf2_grouped; try assumption; [congruence| |].
    + clear -Hc. induction c as [|x c IHc]; [reflexivity|]. cbn [flat_map].
      rewrite (wire_agree g g' x) by (apply Hc; left; reflexivity). f_equal. apply IHc. intros y Hy. apply Hc. right. exact Hy.
    + rewrite Forall_forall in *. intros x Hx. apply IH; [exact Hx|apply Hc, Hx|apply F, Hx].
Qed.

(** An IE is read and written the same way under two classifications that agree on the types
    in it: registering other types does not disturb it. *)
Theorem C63_v2_other_types_undisturbed : forall g g' i, (forall t, In t (types2 i) -> g t = g' t) ->
  marshal2 g i = marshal2 g' i /\
  (wf2 g i -> forall rest, parse2 g (wire2 g i ++ rest) = Ok i /\ parse2 g' (wire2 g i ++ rest) = Ok i).
Proof.
  intros g g' i H. split.
  - rewrite !marshal2_ok. now rewrite (wire_agree g g').
  - intros W rest. split; [apply parse2_wire, W|]. rewrite (wire_agree g g' i H). apply parse2_wire.
    eapply wf_agree; eassumption.
Qed.
Print Assumptions C63_v2_other_types_undisturbed.
Example C63_v2_other_types_undisturbed_example :
  let i := IE2 93 5 0 [73; 0; 1; 0; 5] [IE2 73 1 0 [5] []] in
  wf2 (classify reg0) i /\ types2 i = [93; 73] /\ (forall t, In t (types2 i) -> classify reg0 t = classify (after [OAdd [200]]) t)
  /\ classify (after [OAdd [200]]) 200 = true.
Proof.
  cbv zeta. split; [|split; [reflexivity|split; [|reflexivity]]].
  - apply wf2_grouped; try reflexivity. constructor; [|constructor].
    apply wf2_plain; try reflexivity. constructor; [reflexivity|constructor].
  - cbn [types2 flat_map app]. intros t [<-|[<-|[]]]; reflexivity.
Qed.

(** Types that stop being grouped do not change what is written: the stored value of a
    consistent grouped IE is its members. *)
Theorem C63_v2_ungrouping_harmless : forall g g' i, (forall t, g' t = true -> g t = true) -> wf2 g i ->
  marshal2 g' i = marshal2 g i.
Proof.
  intros g g' i H W. rewrite !marshal2_ok. f_equal. revert W.
  induction i as [t l n p c IH] using ie2_ind'. intros W. cbn [wire2].
  inversion W as [? ? ? ? G T M B L E|? ? ? ? ? G T M L E P F]; subst.
  - rewrite G. destruct (g' t) eqn:E'; [apply H in E'; congruence|reflexivity].
  - rewrite G. destruct (g' t); [|reflexivity]. do 3 f_equal. clear -IH F.
    induction c as [|x c IHc]; [reflexivity|]. apply Forall_cons_iff in IH as [H1 H2], F as [F1 F2]. cbn [flat_map].
    rewrite (H1 F1), (IHc H2 F2). reflexivity.
Qed.
Print Assumptions C63_v2_ungrouping_harmless.
Example C63_v2_ungrouping_harmless_example :
  marshal2 (fun _ => false) (IE2 93 5 0 [73; 0; 1; 0; 5] [IE2 73 1 0 [5] []]) = Ok [93; 0; 5; 0; 73; 0; 1; 0; 5].
Proof. reflexivity. Qed.

(** But a type that becomes grouped after an IE of it was made or parsed: the IE loses its
    value when marshalled, keeps its length field, and what is sent cannot be parsed. *)
Theorem C63_v2_grouping_later_refuted : forall g g' t ins p,
  g t = false -> g' t = true -> p <> [] -> (len p < N.to_nat 65536)%nat -> t < 256 ->
  exists b, marshal2 g' (new2 g t ins p) = Ok b /\ len b = 4%nat /\
            i2_length (new2 g t ins p) = N.of_nat (len p) /\ parse2 g' b = Err EInvalidLength.
Proof.
  intros g g' t ins p Hg Hg' Hp Hl Ht. rewrite marshal2_ok. eexists. split; [reflexivity|].
  assert (El : u16 (N.of_nat (len p)) = N.of_nat (len p)).
  { unfold u16. apply N.mod_small. lia. }
  cbn [new2 set_length2 wire2 i2_length]. rewrite Hg', El. cbn [flat_map].
  split; [reflexivity|split; [reflexivity|]].
  assert (Hpos : (0 < len p)%nat) by (destruct p; [congruence|cbn; lia]).
  assert (E16 : be16 (enc16 (N.of_nat (len p))) = Ok (N.of_nat (len p))) by (apply be16_enc'; lia).
  unfold parse2. remember (N.of_nat (len p)) as v eqn:Ev.
  unfold enc16 in *. generalize dependent (v / 256 mod 256). generalize (v mod 256). intros y x Exy.
  generalize (N.land ins 15). intros z.
  cbn -[N.mul N.add Z.ltb Z.sub Z.of_nat Z.of_N] in Exy |- *. injection Exy as Exy. rewrite Exy.
  rewrite (proj2 (Z.ltb_lt _ _)) by lia. reflexivity.
Qed.
Print Assumptions C63_v2_grouping_later_refuted.
Example C63_v2_grouping_later_refuted_example :
  marshal2 (classify (after [OAdd [200]])) (new2 (classify reg0) 200 0 [1; 2; 3]) = Ok [200; 0; 3; 0].
Proof. reflexivity. Qed.
