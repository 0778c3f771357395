(** Proofs about marked writing. *)
From Coq Require Import Lia.
From Verif Require Import Base Maps MapsProofs UDscp DscpSpec.
Open Scope N_scope.
Open Scope list_scope.

Fixpoint call_of (id : N) (l : list event) : option call :=
  match l with
  | [] => None
  | EvCall i k :: r => if i =? id then Some k else call_of id r
  | _ :: r => call_of id r
  end.
Definition wired (k : call) (r : bool) : list (N * addr * bytes) :=
  if r then [(k_mark k, k_to k, k_pkt k)] else [].
(** holds pkt.mu; holds u.mu *)
Definition inside (th : thread) : bool :=
  match th with TGet _ _ | TSet _ _ _ | TSend _ _ _ | TBack _ _ _ | TFree _ _ => true | _ => false end.
Definition owns (th : thread) : bool :=
  match th with
  | TConn _ => false | TConnFree _ => true
  | TLock o _ | TGet o _ | TSet o _ _ | TSend o _ _ | TBack o _ _ | TFree o _ => o
  end.
(** the history of a call that stands at th *)
Definition told (id : N) (th : thread) (l : list event) : Prop :=
  exists k, call_of id l = Some k /\ rets_of id l = [] /\
  match th with
  | TConn k' | TLock _ k' | TGet _ k' | TSet _ k' _ | TSend _ k' _ => k' = k /\ wire_of id l = []
  | TBack _ _ r | TFree _ r | TConnFree r => wire_of id l = wired k r
  end.
Definition opt_ok (m : N) (w : world) : Prop :=
  match w_mu w with
  | None => all_back (w_log w) -> w_opt w = m
  | Some id =>
      match aget (w_threads w) id with
      | Some (TGet _ _) | Some (TFree _ _) => all_back (w_log w) -> w_opt w = m
      | Some (TSet _ _ old) => all_back (w_log w) -> w_opt w = m /\ old = m
      | Some (TSend _ k old) => w_opt w = k_mark k /\ (all_back (w_log w) -> old = m)
      | Some (TBack _ old _) => all_back (w_log w) -> old = m
      | _ => False
      end
  end.
Record inv (m : N) (w : world) : Prop := Inv {
  i_told : forall id th, aget (w_threads w) id = Some th -> id < w_next w /\ told id th (w_log w);
  i_done : forall id, aget (w_threads w) id = None -> id < w_next w ->
    exists k r, call_of id (w_log w) = Some k /\ rets_of id (w_log w) = [r] /\ wire_of id (w_log w) = wired k r;
  i_new : forall id, w_next w <= id ->
    call_of id (w_log w) = None /\ rets_of id (w_log w) = [] /\ wire_of id (w_log w) = [];
  i_mu : forall id, w_mu w = Some id <-> exists th, aget (w_threads w) id = Some th /\ inside th = true;
  i_umu : forall id, w_umu w = Some id <-> exists th, aget (w_threads w) id = Some th /\ owns th = true;
  i_opt : opt_ok m w }.

Lemma eqb_false (a b : N) : a <> b -> (a =? b) = false.
Proof. apply N.eqb_neq. Qed.
Lemma start_inv m : inv m (start m).
Proof.
  constructor; cbn; try discriminate; try lia; auto.
  - intros id. split; [discriminate|]. intros [th [H _]]. discriminate.
  - intros id. split; [discriminate|]. intros [th [H _]]. discriminate.
Qed.

Lemma all_back_cons e l : all_back (e :: l) -> all_back l.
Proof. intros H id Hin. apply (H id). right. exact Hin. Qed.

Lemma spawn_inv m w k th : inv m w ->
  (th = TConn k \/ th = TLock false k) -> inv m (spawn (emit w (EvCall (w_next w) k)) th).
Proof.
  intros I Hth. pose proof (i_new _ _ I (w_next w) (N.le_refl _)) as [Hc [Hr Hw]].
  assert (Hnone : aget (w_threads w) (w_next w) = None).
  { destruct (aget (w_threads w) (w_next w)) eqn:E; [|reflexivity].
    apply (i_told _ _ I) in E. lia. }
  assert (Hfree : inside th = false /\ owns th = false) by (destruct Hth as [->| ->]; split; reflexivity).
  constructor; cbn [spawn emit w_threads w_next w_log w_mu w_umu w_opt].
  - intros id th'. rewrite aget_aput. destruct (N.eqb_spec id (w_next w)) as [->|Hne].
    + intros [= <-]. split; [lia|]. exists k. cbn. rewrite N.eqb_refl. repeat split; [exact Hr|].
      destruct Hth as [->| ->]; auto.
    + intros H. apply (i_told _ _ I) in H as [Hlt [k' H]]. split; [lia|]. exists k'. cbn.
      rewrite eqb_false by lia. exact H.
  - intros id. rewrite aget_aput. destruct (N.eqb_spec id (w_next w)) as [->|Hne]; [discriminate|].
    intros H Hlt. cbn. rewrite eqb_false by lia. apply (i_done _ _ I); [exact H|lia].
  - intros id Hle. cbn. rewrite eqb_false by lia. apply (i_new _ _ I). lia.
  - intros id. rewrite (i_mu _ _ I). split; intros [th' [H H']]; exists th'.
    + split; [|exact H']. rewrite aget_aput. destruct (N.eqb_spec id (w_next w)) as [->|]; congruence.
    + split; [|exact H']. rewrite aget_aput in H. destruct (N.eqb_spec id (w_next w)); [|exact H].
      injection H as <-. destruct Hfree. congruence.
  - intros id. rewrite (i_umu _ _ I). split; intros [th' [H H']]; exists th'.
    + split; [|exact H']. rewrite aget_aput. destruct (N.eqb_spec id (w_next w)) as [->|]; congruence.
    + split; [|exact H']. rewrite aget_aput in H. destruct (N.eqb_spec id (w_next w)); [|exact H].
      injection H as <-. destruct Hfree. congruence.
  - pose proof (i_opt _ _ I) as HO. unfold opt_ok in *. cbn [spawn emit w_threads w_next w_log w_mu w_umu w_opt].
    destruct (w_mu w) as [id|] eqn:E.
    + assert (H := proj1 (i_mu _ _ I id) E). destruct H as [t [Ht Hin]].
      rewrite aget_aput. destruct (N.eqb_spec id (w_next w)) as [->|]; [congruence|].
      rewrite Ht in *. destruct t; try contradiction HO.
      * intros HB; apply HO; eapply all_back_cons; exact HB.
      * intros HB; apply HO; eapply all_back_cons; exact HB.
      * destruct HO as [H1 H2]. split; [exact H1|]. intros HB; apply H2; eapply all_back_cons; exact HB.
      * intros HB; apply HO; eapply all_back_cons; exact HB.
      * intros HB; apply HO; eapply all_back_cons; exact HB.
    + intros HB; apply HO; eapply all_back_cons; exact HB.
Qed.

(** one step of call [id], from th to th' (or to its end), changes what is said of [id] only *)
Lemma move_inv m w w' id th o :
  inv m w -> aget (w_threads w) id = Some th ->
  (forall x, aget (w_threads w') x = if x =? id then o else aget (w_threads w) x) ->
  w_next w' = w_next w ->
  (forall x, x <> id -> call_of x (w_log w') = call_of x (w_log w) /\
             rets_of x (w_log w') = rets_of x (w_log w) /\ wire_of x (w_log w') = wire_of x (w_log w)) ->
  match o with
  | Some th' => told id th' (w_log w')
  | None => exists k r, call_of id (w_log w') = Some k /\ rets_of id (w_log w') = [r] /\ wire_of id (w_log w') = wired k r
  end ->
  (w_mu w' = if match o with Some th' => inside th' | None => false end then Some id
             else if inside th then None else w_mu w) ->
  (match o with Some th' => inside th' | None => false end = true -> inside th = false -> w_mu w = None) ->
  (w_umu w' = if match o with Some th' => owns th' | None => false end then Some id
             else if owns th then None else w_umu w) ->
  (match o with Some th' => owns th' | None => false end = true -> owns th = false -> w_umu w = None) ->
  opt_ok m w' -> inv m w'.
Proof.
  intros I Hid Hth Hnext Hother Hown Hmu Hmu' Humu Humu' Hopt.
  pose proof (i_told _ _ I _ _ Hid) as [Hlt _].
  constructor; [..|exact Hopt].
  - intros x t. rewrite Hth, Hnext. destruct (N.eqb_spec x id) as [->|Hne].
    + intros ->. split; [lia|exact Hown].
    + intros H. destruct (i_told _ _ I _ _ H) as [Hx [k [H1 [H2 H3]]]]. split; [exact Hx|]. exists k.
      destruct (Hother x Hne) as [-> [-> ->]]. auto.
  - intros x. rewrite Hth, Hnext. destruct (N.eqb_spec x id) as [->|Hne].
    + intros ->. intros _. exact Hown.
    + intros H Hx. destruct (Hother x Hne) as [-> [-> ->]]. apply (i_done _ _ I); assumption.
  - intros x. rewrite Hnext. intros Hx. destruct (Hother x ltac:(lia)) as [-> [-> ->]]. apply (i_new _ _ I). exact Hx.
  - intros x. rewrite Hmu. clear Hmu Humu. split.
    + intros H. destruct (match o with Some th' => inside th' | None => false end) eqn:E.
      * injection H as <-. rewrite Hth, N.eqb_refl. destruct o as [t|]; [|discriminate]. eauto.
      * destruct (inside th) eqn:E'; [discriminate|]. apply (i_mu _ _ I) in H as [t [Ht Hi]].
        exists t. split; [|exact Hi]. rewrite Hth. destruct (N.eqb_spec x id) as [->|]; [congruence|exact Ht].
    + intros [t [Ht Hi]]. rewrite Hth in Ht. destruct (N.eqb_spec x id) as [->|Hne].
      * subst o. rewrite Hi. reflexivity.
      * assert (Hx : w_mu w = Some x) by (apply (i_mu _ _ I); eauto).
        destruct (inside th) eqn:E'.
        { assert (w_mu w = Some id) by (apply (i_mu _ _ I); eauto). congruence. }
        destruct (match o with Some th' => inside th' | None => false end); [|exact Hx].
        rewrite Hmu' in Hx by reflexivity. discriminate.
  - intros x. rewrite Humu. clear Hmu Humu. split.
    + intros H. destruct (match o with Some th' => owns th' | None => false end) eqn:E.
      * injection H as <-. rewrite Hth, N.eqb_refl. destruct o as [t|]; [|discriminate]. eauto.
      * destruct (owns th) eqn:E'; [discriminate|]. apply (i_umu _ _ I) in H as [t [Ht Hi]].
        exists t. split; [|exact Hi]. rewrite Hth. destruct (N.eqb_spec x id) as [->|]; [congruence|exact Ht].
    + intros [t [Ht Hi]]. rewrite Hth in Ht. destruct (N.eqb_spec x id) as [->|Hne].
      * subst o. rewrite Hi. reflexivity.
      * assert (Hx : w_umu w = Some x) by (apply (i_umu _ _ I); eauto).
        destruct (owns th) eqn:E'.
        { assert (w_umu w = Some id) by (apply (i_umu _ _ I); eauto). congruence. }
        destruct (match o with Some th' => owns th' | None => false end); [|exact Hx].
        rewrite Humu' in Hx by reflexivity. discriminate.
Qed.

Ltac fields := cbn [goes ends emit set_opt set_mu set_umu w_threads w_next w_log w_mu w_umu w_opt].
Ltac others := intros x Hx; fields; cbn [call_of rets_of wire_of]; rewrite ?(eqb_false _ _ (not_eq_sym Hx)); auto.

Ltac quick :=
  fields; cbn [inside owns call_of rets_of wire_of told];
  first
  [ reflexivity
  | intros; (apply aget_aput || apply aget_adel)
  | congruence
  | solve [others]
  | match goal with |- context [if ?o then _ else _] => is_var o; destruct o; solve [auto] end
  | match goal with H : call_of ?i _ = Some ?k |- _ => exists k; cbn; rewrite ?N.eqb_refl; solve [intuition congruence] end
  | match goal with H : call_of ?i _ = Some ?k, H' : _ = wired _ ?r |- _ => exists k, r; cbn; rewrite ?N.eqb_refl; solve [intuition congruence] end
  | solve [auto] | idtac ].

Lemma run_thread_inv m w id th ok w' : inv m w -> aget (w_threads w) id = Some th ->
  run_thread w id th ok = Some w' -> inv m w'.
Proof.
  intros I Hid H. pose proof (i_told _ _ I _ _ Hid) as [Hlt [k [Hc [Hr Hth]]]].
  pose proof (i_opt _ _ I) as HO. unfold opt_ok in HO.
  assert (Hput : forall t x, aget (aput (w_threads w) id t) x = if x =? id then Some t else aget (w_threads w) x)
    by (intros; apply aget_aput).
  assert (Hdel : forall x, aget (adel (w_threads w) id) x = if x =? id then None else aget (w_threads w) x)
    by (intros; apply aget_adel).
  assert (Hmu : inside th = true -> w_mu w = Some id) by (intros; apply (i_mu _ _ I); eauto).
  assert (Humu : owns th = true -> w_umu w = Some id) by (intros; apply (i_umu _ _ I); eauto).
  assert (Hnmu : inside th = false -> w_mu w <> Some id).
  { intros E E'. apply (i_mu _ _ I) in E' as [t [Ht Hi]]. congruence. }
  destruct th; cbn [run_thread inside owns] in *.
  - destruct (w_umu w) eqn:Eu; [discriminate|]. injection H as <-.
    eapply (move_inv m w _ id _ (Some (TLock true k0)) I Hid); [quick..|].
    unfold opt_ok. fields. destruct (w_mu w) as [y|]; [|exact HO]. rewrite aget_aput.
    destruct (N.eqb_spec y id) as [->|]; [exfalso; now apply Hnmu|exact HO].
  - destruct (w_mu w) eqn:Eu; [discriminate|]. injection H as <-.
    eapply (move_inv m w _ id _ (Some (TGet own k0)) I Hid); [quick..|].
    unfold opt_ok. fields. rewrite aget_aput, N.eqb_refl. exact HO.
  - specialize (Hmu eq_refl). rewrite Hmu, Hid in HO. injection H as <-. destruct Hth as [-> Hw].
    eapply (move_inv m w _ id _ (Some (if ok then TSet own k (w_opt w) else TFree own false)) I Hid);
      [destruct ok; quick..|].
    unfold opt_ok. fields. rewrite Hmu, aget_aput, N.eqb_refl. destruct ok; auto.
  - specialize (Hmu eq_refl). rewrite Hmu, Hid in HO. destruct Hth as [-> Hw].
    destruct ok; injection H as <-.
    + eapply (move_inv m w _ id _ (Some (TSend own k old)) I Hid); [quick..|].
      unfold opt_ok. fields. rewrite Hmu, aget_aput, N.eqb_refl. split; [reflexivity|]. intros HB. apply HO. exact HB.
    + eapply (move_inv m w _ id _ (Some (TFree own false)) I Hid); [quick..|].
      unfold opt_ok. fields. rewrite Hmu, aget_aput, N.eqb_refl. intros HB. apply HO. exact HB.
  - specialize (Hmu eq_refl). rewrite Hmu, Hid in HO. destruct Hth as [-> Hw]. destruct HO as [Ho HO].
    injection H as <-.
    eapply (move_inv m w _ id _ (Some (TBack own old ok)) I Hid); [destruct ok; quick..|].
    unfold opt_ok. destruct ok; fields; rewrite Hmu, aget_aput, N.eqb_refl; auto.
    intros HB. apply HO. eapply all_back_cons; exact HB.
  - specialize (Hmu eq_refl). rewrite Hmu, Hid in HO. injection H as <-.
    eapply (move_inv m w _ id _ (Some (TFree own r)) I Hid); [destruct ok; quick..|].
    unfold opt_ok. destruct ok; fields; rewrite Hmu, aget_aput, N.eqb_refl; intros HB.
    + apply HO. eapply all_back_cons; exact HB.
    + exfalso. apply (HB id). left. reflexivity.
  - specialize (Hmu eq_refl). rewrite Hmu, Hid in HO.
    destruct own; injection H as <-.
    + eapply (move_inv m w _ id _ (Some (TConnFree r)) I Hid); [quick..|].
      unfold opt_ok. fields. exact HO.
    + eapply (move_inv m w _ id _ None I Hid); [quick..|].
      unfold opt_ok. fields. intros HB. apply HO. eapply all_back_cons; exact HB.
  - injection H as <-. specialize (Humu eq_refl).
    eapply (move_inv m w _ id _ None I Hid); [quick..|].
    unfold opt_ok. fields. destruct (w_mu w) as [y|] eqn:E.
    + rewrite aget_adel. destruct (N.eqb_spec y id) as [->|]; [exfalso; now apply Hnmu|].
      destruct (aget (w_threads w) y) as [[]|]; try contradiction HO.
      * intros HB; apply HO; eapply all_back_cons; exact HB.
      * intros HB; apply HO; eapply all_back_cons; exact HB.
      * destruct HO as [H1 H2]. split; [exact H1|]. intros HB; apply H2; eapply all_back_cons; exact HB.
      * intros HB; apply HO; eapply all_back_cons; exact HB.
      * intros HB; apply HO; eapply all_back_cons; exact HB.
    + intros HB. apply HO. eapply all_back_cons; exact HB.
Qed.

Lemma step_inv m w l w' : inv m w -> step w l = Some w' -> inv m w'.
Proof.
  intros I. destruct l as [a b|mk a b|id ok]; cbn [step].
  - intros [= <-]. apply spawn_inv; auto.
  - intros [= <-]. apply spawn_inv; auto.
  - destruct (aget (w_threads w) id) as [th|] eqn:E; [|discriminate]. apply run_thread_inv; assumption.
Qed.
Lemma run_inv m ls : forall w w', inv m w -> run w ls = Some w' -> inv m w'.
Proof.
  induction ls as [|l ls IH]; intros w w' I; cbn [run].
  - intros [= <-]. exact I.
  - destruct (step w l) as [w1|] eqn:E; [|discriminate]. intros H. eapply IH; [|exact H]. eapply step_inv; eassumption.
Qed.
Lemma run_app ls1 : forall w ls2, run w (ls1 ++ ls2) = match run w ls1 with Some w' => run w' ls2 | None => None end.
Proof.
  induction ls1 as [|l ls1 IH]; intros w ls2; cbn; [reflexivity|]. destruct (step w l); [apply IH|reflexivity].
Qed.

Lemma call_of_in id k l : call_of id l = Some k -> In (EvCall id k) l.
Proof.
  induction l as [|e l IH]; cbn; [discriminate|]. destruct e; auto.
  destruct (N.eqb_spec id0 id) as [->|]; [|auto]. intros [= <-]. auto.
Qed.
Lemma in_call_of id k l : In (EvCall id k) l -> call_of id l <> None.
Proof.
  induction l as [|e l IH]; cbn; [tauto|]. intros [->|H].
  - rewrite N.eqb_refl. discriminate.
  - destruct e; auto. destruct (id0 =? id); [discriminate|auto].
Qed.
Lemma in_wire_of id m a b l : In (EvWire id m a b) l -> In (m, a, b) (wire_of id l).
Proof.
  induction l as [|e l IH]; cbn; [tauto|]. intros [->|H].
  - rewrite N.eqb_refl. left. reflexivity.
  - destruct e; auto. destruct (id0 =? id); [right; auto|auto].
Qed.

(** calls are made once: an id names one call *)
Definition one_call (l : list event) : Prop := forall id k, In (EvCall id k) l -> call_of id l = Some k.
Lemma run_one_call m ls : forall w w', inv m w -> one_call (w_log w) -> run w ls = Some w' -> one_call (w_log w').
Proof.
  assert (Hno : forall e l, (forall i k, e <> EvCall i k) -> one_call l -> one_call (e :: l)).
  { intros e l He Hl id k [->|Hin]; [exfalso; now apply (He id k)|]. cbn. destruct e; auto.
    exfalso. now apply (He id0 k0). }
  induction ls as [|l ls IH]; intros w w' I Ho; cbn [run].
  - intros [= <-]. exact Ho.
  - destruct (step w l) as [w1|] eqn:E; [|discriminate]. intros H. eapply IH; [| |exact H].
    + eapply step_inv; eassumption.
    + assert (Hnew : forall k, one_call (EvCall (w_next w) k :: w_log w)).
      { intros k id k' [[= -> ->]|Hin]; cbn; [now rewrite N.eqb_refl|].
        destruct (N.eqb_spec (w_next w) id) as [<-|]; [|auto].
        exfalso. apply (in_call_of _ _ _ Hin). apply (i_new _ _ I). lia. }
      destruct l as [a b|mk a b|id ok]; cbn [step] in E.
      * injection E as <-. apply Hnew.
      * injection E as <-. apply Hnew.
      * destruct (aget (w_threads w) id) as [th|]; [|discriminate].
        destruct th; cbn [run_thread] in E.
        -- destruct (w_umu w); [discriminate|]. injection E as <-. exact Ho.
        -- destruct (w_mu w); [discriminate|]. injection E as <-. exact Ho.
        -- injection E as <-. exact Ho.
        -- destruct ok; injection E as <-; exact Ho.
        -- destruct ok; injection E as <-; fields; [apply Hno; [discriminate|]|]; exact Ho.
        -- destruct ok; injection E as <-; fields; (apply Hno; [discriminate|]); exact Ho.
        -- destruct own; injection E as <-; fields; [|apply Hno; [discriminate|]]; exact Ho.
        -- injection E as <-; fields; (apply Hno; [discriminate|]); exact Ho.
Qed.
Lemma reach m ls w : run (start m) ls = Some w -> inv m w /\ one_call (w_log w).
Proof.
  intros H. split.
  - eapply run_inv; [apply start_inv|exact H].
  - eapply run_one_call; [apply start_inv| |exact H]. intros id k [].
Qed.

(** a call that has not returned: what it still needs, and that someone can go on *)
Lemma can_go m w : inv m w -> w_threads w <> [] ->
  exists id, forall ok, exists w', step w (LRun id ok) = Some w'.
Proof.
  intros I Hne. cbn [step].
  destruct (w_mu w) as [h|] eqn:Em.
  - exists h. apply (i_mu _ _ I) in Em as [th [Ht Hi]]. rewrite Ht. intros ok.
    destruct th; try discriminate Hi; cbn [run_thread]; eauto.
  - destruct (w_umu w) as [h|] eqn:Eu.
    + exists h. apply (i_umu _ _ I) in Eu as [th [Ht Hi]]. rewrite Ht. intros ok.
      destruct th; try discriminate Hi; cbn [run_thread]; rewrite ?Em; eauto.
    + destruct (aget_some _ Hne) as [id [th Ht]]. exists id. rewrite Ht. intros ok.
      destruct th; cbn [run_thread]; rewrite ?Em, ?Eu; eauto.
Qed.

(** the steps a call still has to take, at most *)
Definition togo (th : thread) : nat :=
  match th with
  | TConn _ => 8 | TLock _ _ => 7 | TGet _ _ => 6 | TSet _ _ _ => 5 | TSend _ _ _ => 4
  | TBack _ _ _ => 3 | TFree _ _ => 2 | TConnFree _ => 1
  end.
Definition work (m : amap thread) : nat := list_sum (map (fun p => togo (snd p)) m).
Lemma work_cons x t m : work ((x, t) :: m) = (togo t + work m)%nat.
Proof. reflexivity. Qed.
Lemma adel_cons (x : N) (t : thread) m id : adel ((x, t) :: m) id = if x =? id then adel m id else (x, t) :: adel m id.
Proof. unfold adel. cbn. destruct (x =? id); reflexivity. Qed.
Lemma work_del m id : (work (adel m id) <= work m)%nat.
Proof.
  induction m as [|[x t] m IH]; [cbn; lia|]. rewrite adel_cons, work_cons. destruct (x =? id); [|rewrite work_cons]; lia.
Qed.
Lemma work_del_lt m id th : aget m id = Some th -> (togo th + work (adel m id) <= work m)%nat.
Proof.
  induction m as [|[x t] m IH]; [discriminate|]. rewrite adel_cons, work_cons. cbn [aget].
  destruct (N.eqb_spec x id) as [->|].
  - intros [= ->]. pose proof (work_del m id). lia.
  - intros H. specialize (IH H). rewrite work_cons. lia.
Qed.
Lemma work_put m id th t' : aget m id = Some th -> (togo t' < togo th)%nat -> (work (aput m id t') < work m)%nat.
Proof.
  intros H Hlt. pose proof (work_del_lt _ _ _ H). unfold aput. rewrite work_cons. lia.
Qed.
Definition steps (ls : list label) : nat :=
  List.length (filter (fun l => match l with LRun _ _ => true | _ => false end) ls).
Definition calls (ls : list label) : nat :=
  List.length (filter (fun l => match l with LRun _ _ => false | _ => true end) ls).
Lemma step_work w id ok w' : step w (LRun id ok) = Some w' -> (work (w_threads w') < work (w_threads w))%nat.
Proof.
  cbn [step]. destruct (aget (w_threads w) id) as [th|] eqn:E; [|discriminate].
  destruct th; cbn [run_thread].
  - destruct (w_umu w); [discriminate|]. intros [= <-]. eapply work_put; [exact E|cbn; lia].
  - destruct (w_mu w); [discriminate|]. intros [= <-]. eapply work_put; [exact E|cbn; lia].
  - destruct ok; intros [= <-]; (eapply work_put; [exact E|cbn; lia]).
  - destruct ok; intros [= <-]; (eapply work_put; [exact E|cbn; lia]).
  - destruct ok; intros [= <-]; (eapply work_put; [exact E|cbn; lia]).
  - destruct ok; intros [= <-]; (eapply work_put; [exact E|cbn; lia]).
  - destruct own; intros [= <-]; [eapply work_put; [exact E|cbn; lia]|].
    fields. pose proof (work_del_lt _ _ _ E). cbn [togo] in *. lia.
  - intros [= <-]. fields. pose proof (work_del_lt _ _ _ E). cbn [togo] in *. lia.
Qed.
Lemma run_work ls : forall w w', run w ls = Some w' ->
  (steps ls + work (w_threads w') <= work (w_threads w) + 8 * calls ls)%nat.
Proof.
  induction ls as [|l ls IH]; intros w w'; cbn [run].
  - intros [= <-]. cbn. lia.
  - destruct (step w l) as [w1|] eqn:E; [|discriminate]. intros H. apply IH in H.
    destruct l as [a b|mk a b|id ok].
    + injection E as <-. unfold steps, calls in *. cbn [filter List.length] in *.
      pose proof (work_del (w_threads w) (w_next w)). revert H. fields.
      unfold spawn, aput. cbn [w_threads emit w_next]. rewrite work_cons. cbn [togo]. lia.
    + injection E as <-. unfold steps, calls in *. cbn [filter List.length] in *.
      pose proof (work_del (w_threads w) (w_next w)). revert H. fields.
      unfold spawn, aput. cbn [w_threads emit w_next]. rewrite work_cons. cbn [togo]. lia.
    + apply step_work in E. unfold steps, calls in *. cbn [filter List.length] in *. lia.
Qed.
Lemma finish m n : forall w, inv m w -> (work (w_threads w) <= n)%nat ->
  exists ls w', run w ls = Some w' /\ w_threads w' = [] /\ calls ls = 0%nat.
Proof.
  induction n as [|n IH]; intros w I Hn.
  - exists [], w. split; [reflexivity|split; [|reflexivity]].
    destruct (w_threads w) as [|[x t] r]; [reflexivity|]. exfalso. cbn in Hn. destruct t; cbn in Hn; lia.
  - destruct (w_threads w) as [|p r] eqn:E.
    + exists [], w. auto.
    + destruct (can_go m w I ltac:(congruence)) as [id H]. destruct (H true) as [w1 Hs].
      pose proof (step_work _ _ _ _ Hs).
      destruct (IH w1) as [ls [w' [Hr [H1 H2]]]]; [eapply step_inv; eassumption| |].
      * rewrite E in *. lia.
      * exists (LRun id true :: ls), w'. split; [|split; [exact H1|exact H2]]. cbn [run]. rewrite Hs. exact Hr.
Qed.
