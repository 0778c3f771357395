(** C66: the tunnels of Kernel GTP-U. *)
From Coq Require Import Lia.
From Verif Require Import Base MapsProofs UKernel UKernelSpec.
Open Scope N_scope.
Open Scope list_scope.

Lemma by_ms_some tab ms q : by_ms tab ms = Some q -> In q tab /\ p_ms q = ms.
Proof. intros H. apply find_some in H. destruct H as [H E]. apply bytes_eqb_eq in E. auto. Qed.
Lemma by_ms_none tab ms : by_ms tab ms = None -> forall q, In q tab -> p_ms q <> ms.
Proof. intros H q Hq. apply bytes_eqb_neq. exact (find_none _ _ H _ Hq). Qed.
Lemma by_itei_some tab t q : by_itei tab t = Some q -> In q tab /\ p_itei q = t.
Proof. intros H. apply find_some in H. destruct H as [H E]. apply N.eqb_eq in E. auto. Qed.
Lemma by_itei_none tab t : by_itei tab t = None -> forall q, In q tab -> p_itei q <> t.
Proof. intros H q Hq. apply N.eqb_neq. exact (find_none _ _ H _ Hq). Qed.
Lemma in_kept (t : N) tab q : In q (filter (fun x => negb (p_itei x =? t)) tab) <-> In q tab /\ p_itei q <> t.
Proof. rewrite filter_In, negb_true_iff, N.eqb_neq. reflexivity. Qed.
Lemma nodup_map_filter {A B} (f : A -> B) g l : NoDup (map f l) -> NoDup (map f (filter g l)).
Proof.
  induction l as [|a l IH]; [auto|]. cbn. intros H. inversion_clear H as [|? ? H1 H2]. destruct (g a); [|auto].
  cbn. constructor; [|auto]. intros Hi. apply H1. apply in_map_iff in Hi. destruct Hi as (x & E & Hx). apply filter_In in Hx.
  apply in_map_iff. exists x. tauto.
Qed.
Lemma nodup_map_app {A B} (f : A -> B) l a : NoDup (map f l) -> (forall x, In x l -> f x <> f a) -> NoDup (map f (l ++ [a])).
Proof.
  intros H1 H2. rewrite map_app. cbn. apply NoDup_rev in H1. rewrite <- (rev_involutive (map f l)). 
  rewrite <- (rev_involutive [f a]). rewrite <- rev_app_distr. apply NoDup_rev. cbn. constructor; [|exact H1].
  rewrite <- in_rev. intros Hi. apply in_map_iff in Hi. destruct Hi as (x & E & Hx). exact (H2 x Hx E).
Qed.
Lemma nodup_map_inj {A B} (f : A -> B) l x y : NoDup (map f l) -> In x l -> In y l -> f x = f y -> x = y.
Proof.
  induction l as [|a l IH]; [intros _ []|]. cbn. intros H. inversion_clear H as [|? ? H1 H2]. intros [->|Hx] [->|Hy] E; auto.
  - elim H1. rewrite E. apply in_map, Hy.
  - elim H1. rewrite <- E. apply in_map, Hx.
Qed.
Lemma tunnels_snoc h e : tunnels (h ++ [e]) = match e with
    | EvAdded p => tunnels h ++ [p]
    | EvDeleted r => filter (fun q => negb (p_itei q =? p_itei r)) (tunnels h)
    | _ => tunnels h end.
Proof. unfold tunnels. rewrite fold_left_app. reflexivity. Qed.
Lemma taken_snoc h e t : taken (h ++ [e]) t = match e with
    | EvTaken x => if x =? t then true else taken h t
    | EvFreed x => if x =? t then false else taken h t
    | _ => taken h t end.
Proof. unfold taken. rewrite fold_left_app. reflexivity. Qed.

(** ** The invariant *)
Definition stands (h : list kevent) (k : kcall) (t : kthread) : Prop :=
  match t with
  | T114 p | T118 p => k = KOverride p
  | T116 p q => k = KOverride p /\ In (EvAdded q) h /\ p_ms q = p_ms p
  | T120 p q => k = KOverride p /\ In (EvAdded q) h /\ p_itei q = p_itei p
  | T100 p => asks k p
  | T132 t => k = KDelITEI t
  | T151 ms => k = KDelMS ms
  | T137 q t => In (EvAdded q) h /\ p_itei q = t /\ (k = KDelITEI t \/ k = KDelMS (p_ms q))
  | T141 t => exists q r, In (EvAdded q) h /\ In (EvDeleted r) h /\ p_itei q = t /\ p_itei r = t /\ (k = KDelITEI t \/ k = KDelMS (p_ms q))
  end.
Definition outcome (h : list kevent) (k : kcall) : Prop :=
  match k with
  | KAdd p | KOverride p => In (EvAdded p) h
  | KDelITEI t => In (EvFreed t) h /\ exists r, In (EvDeleted r) h /\ p_itei r = t
  | KDelMS ms => exists q r, In (EvAdded q) h /\ p_ms q = ms /\ In (EvDeleted r) h /\ p_itei r = p_itei q /\ In (EvFreed (p_itei q)) h
  end.
Record kinv (w : kworld) : Prop := KInv {
  i_ms : NoDup (map p_ms (k_tab w)); i_itei : NoDup (map p_itei (k_tab w));
  i_tab : k_tab w = tunnels (k_hist w);
  i_taken : forall t, k_taken w t = taken (k_hist w) t;
  i_in : forall q, In q (k_tab w) -> In (EvAdded q) (k_hist w);
  i_fresh : forall id k, called (k_hist w) id k -> id < k_next w;
  i_one : forall id k k', called (k_hist w) id k -> called (k_hist w) id k' -> k = k';
  i_thread : forall id t, k_threads w id = Some t -> exists k, called (k_hist w) id k /\ stands (k_hist w) k t;
  i_added : forall p, In (EvAdded p) (k_hist w) -> exists id k, called (k_hist w) id k /\ asks k p;
  i_deleted : forall r, In (EvDeleted r) (k_hist w) -> exists id k q,
    called (k_hist w) id k /\ In (EvAdded q) (k_hist w) /\ p_itei q = p_itei r /\ names k q;
  i_freed : forall t, In (EvFreed t) (k_hist w) -> exists id k r, called (k_hist w) id k /\
    In (EvDeleted r) (k_hist w) /\ p_itei r = t /\ (k = KDelITEI t \/ exists ms, k = KDelMS ms);
  i_ret : forall id b, In (EvReturned id b) (k_hist w) -> id < k_next w;
  i_returned : forall id k, In (EvReturned id true) (k_hist w) -> called (k_hist w) id k -> outcome (k_hist w) k }.
Lemma stands_more h e k t : stands h k t -> stands (h ++ [e]) k t.
Proof.
  assert (A : forall x, In x h -> In x (h ++ [e])) by (intros; apply in_app_iff; auto).
  destruct t; cbn; intros H; intuition auto. destruct H as (q & r & ? & ? & ? & ? & H). exists q, r. auto.
Qed.
Lemma outcome_more h e k : outcome h k -> outcome (h ++ [e]) k.
Proof.
  assert (A : forall x, In x h -> In x (h ++ [e])) by (intros; apply in_app_iff; auto).
  destruct k; cbn; intros H; auto.
  - destruct H as (H & r & ? & ?). split; [auto|]. exists r. auto.
  - destruct H as (q & r & ? & ? & ? & ? & ?). exists q, r. auto 10.
Qed.
Ltac more := first [apply stands_more | apply outcome_more].
Lemma called_more h e id k : called h id k -> called (h ++ [e]) id k.
Proof. intros H. apply in_app_iff. auto. Qed.
Lemma in_more {A} (h : list A) e x : In x h -> In x (h ++ [e]).
Proof. intros H. apply in_app_iff. auto. Qed.
Lemma in_snoc {A} (h : list A) e x : In x (h ++ [e]) -> In x h \/ x = e.
Proof. intros H. apply in_app_iff in H. destruct H as [H|[H|[]]]; auto. Qed.
(** an event that is not a call, with what it needs *)
Lemma inv_log w tab tk e : kinv w -> (forall id k, e <> EvCalled id k) ->
  NoDup (map p_ms tab) -> NoDup (map p_itei tab) -> tab = tunnels (k_hist w ++ [e]) ->
  (forall t, tk t = taken (k_hist w ++ [e]) t) ->
  (forall q, In q tab -> In (EvAdded q) (k_hist w ++ [e])) ->
  (forall p, e = EvAdded p -> exists id k, called (k_hist w) id k /\ asks k p) ->
  (forall r, e = EvDeleted r -> exists id k q, called (k_hist w) id k /\ In (EvAdded q) (k_hist w) /\ p_itei q = p_itei r /\ names k q) ->
  (forall t, e = EvFreed t -> exists id k r, called (k_hist w) id k /\ In (EvDeleted r) (k_hist w) /\ p_itei r = t /\ (k = KDelITEI t \/ exists ms, k = KDelMS ms)) ->
  (forall id b, e = EvReturned id b -> id < k_next w) ->
  (forall id k, e = EvReturned id true -> called (k_hist w) id k -> outcome (k_hist w) k) ->
  kinv (KWorld (k_on w) tab tk (k_threads w) (k_next w) (k_hist w ++ [e])).
Proof.
  intros I Hc H1 H2 H3 H4 H5 Ha Hd Hf Hl Hr.
  assert (C : forall id k, called (k_hist w ++ [e]) id k -> called (k_hist w) id k).
  { intros id k H. apply in_snoc in H. destruct H as [H|H]; [exact H|]. elim (Hc id k). auto. }
  split; cbn [k_tab k_hist k_taken k_next k_threads]; auto.
  - intros id k H. apply C in H. exact (i_fresh _ I _ _ H).
  - intros id k k' H H'. exact (i_one _ I _ _ _ (C _ _ H) (C _ _ H')).
  - intros id t H. destruct (i_thread _ I _ _ H) as (k & K & S). exists k. split; [apply called_more, K|apply stands_more, S].
  - intros p H. apply in_snoc in H. destruct H as [H|H].
    + destruct (i_added _ I _ H) as (id & k & K & A). exists id, k. split; [apply called_more, K|exact A].
    + destruct (Ha p (eq_sym H)) as (id & k & K & A). exists id, k. split; [apply called_more, K|exact A].
  - intros r H. apply in_snoc in H.
    assert (X : exists id k q, called (k_hist w) id k /\ In (EvAdded q) (k_hist w) /\ p_itei q = p_itei r /\ names k q)
      by (destruct H as [H|H]; [exact (i_deleted _ I _ H)|exact (Hd r (eq_sym H))]).
    destruct X as (id & k & q & K & Q & E & N). exists id, k, q. split; [apply called_more, K|]. split; [apply in_more, Q|auto].
  - intros t H. apply in_snoc in H.
    assert (X : exists id k r, called (k_hist w) id k /\ In (EvDeleted r) (k_hist w) /\ p_itei r = t /\ (k = KDelITEI t \/ exists ms, k = KDelMS ms))
      by (destruct H as [H|H]; [exact (i_freed _ I _ H)|exact (Hf t (eq_sym H))]).
    destruct X as (id & k & r & K & R & E & N). exists id, k, r. split; [apply called_more, K|]. split; [apply in_more, R|auto].
  - intros id b H. apply in_snoc in H. destruct H as [H|H]; [exact (i_ret _ I _ _ H)|exact (Hl _ _ (eq_sym H))].
  - intros id k H K. apply C in K. apply outcome_more. apply in_snoc in H. destruct H as [H|H]; [exact (i_returned _ I _ _ H K)|exact (Hr _ _ (eq_sym H) K)].
Qed.
Lemma inv_goto w id t k : kinv w -> called (k_hist w) id k -> stands (k_hist w) k t -> kinv (goto w id t).
Proof.
  intros I K S. destruct I. split; cbn; auto. intros id' t'. unfold upd. destruct (id' =? id) eqn:E; [|apply i_thread0].
  apply N.eqb_eq in E. subst. intros [= <-]. exists k. auto.
Qed.
Lemma inv_return w id good : kinv w -> id < k_next w -> (good = true -> forall k, called (k_hist w) id k -> outcome (k_hist w) k) -> kinv (return_ w id good).
Proof.
  intros I Hid H. unfold return_, log. cbn [k_on k_tab k_taken k_threads k_next k_hist].
  assert (J : kinv (KWorld (k_on w) (k_tab w) (k_taken w) (upd (k_threads w) id None) (k_next w) (k_hist w))).
  { destruct I. split; cbn; auto. intros id' t'. unfold upd. destruct (id' =? id); [discriminate|apply i_thread0]. }
  apply (inv_log _ _ _ _ J); cbn [k_on k_tab k_taken k_threads k_next k_hist]; try discriminate;
    try (exact (i_ms _ I)); try (exact (i_itei _ I)).
  - rewrite tunnels_snoc. exact (i_tab _ I).
  - intros t. rewrite taken_snoc. exact (i_taken _ I t).
  - intros q Hq. apply in_more, (i_in _ I), Hq.
  - intros id' b [= <- _]. exact Hid.
  - intros id' k [= -> ->] K. exact (H eq_refl _ K).
Qed.
Lemma inv_add w p tab : kinv w -> k_add (k_tab w) p = Some tab -> (exists id k, called (k_hist w) id k /\ asks k p) ->
  kinv (log (with_tab w tab) (EvAdded p)).
Proof.
  intros I A C. unfold k_add in A. destruct (by_ms (k_tab w) (p_ms p)) eqn:E1; [discriminate|].
  destruct (by_itei (k_tab w) (p_itei p)) eqn:E2; [discriminate|]. injection A as <-.
  unfold log, with_tab. cbn [k_on k_tab k_taken k_threads k_next k_hist]. apply (inv_log _ _ _ _ I); try discriminate.
  - apply nodup_map_app; [exact (i_ms _ I)|]. exact (by_ms_none _ _ E1).
  - apply nodup_map_app; [exact (i_itei _ I)|]. exact (by_itei_none _ _ E2).
  - rewrite tunnels_snoc, <- (i_tab _ I). reflexivity.
  - intros t. rewrite taken_snoc. exact (i_taken _ I t).
  - intros q Hq. apply in_snoc in Hq. destruct Hq as [Hq| ->]; [apply in_more, (i_in _ I), Hq|]. apply in_app_iff. right. left. reflexivity.
  - intros p' [= ->]. exact C.
Qed.
Lemma inv_delete w ok q id k : kinv w -> In (EvAdded q) (k_hist w) -> called (k_hist w) id k -> names k q ->
  kinv (fst (deleting w ok q)) /\
  (forall e, In e (k_hist w) -> In e (k_hist (fst (deleting w ok q)))) /\
  (snd (deleting w ok q) = true -> exists r, In (EvDeleted r) (k_hist (fst (deleting w ok q))) /\ p_itei r = p_itei q).
Proof.
  intros I Q K Hn. unfold deleting. destruct ok; [|split; [exact I|]; split; [auto|discriminate]]. unfold k_del.
  destruct (by_itei (k_tab w) (p_itei q)) as [r|] eqn:E; [|split; [exact I|]; split; [auto|discriminate]].
  apply by_itei_some in E. destruct E as [Hr E]. cbn [fst snd].
  split; [|split; [intros e He; apply in_more, He|intros _; exists r; split; [apply in_app_iff; right; left; reflexivity|exact E]]].
  unfold log, with_tab. cbn [k_on k_tab k_taken k_threads k_next k_hist]. apply (inv_log _ _ _ _ I); try discriminate.
  - apply nodup_map_filter, (i_ms _ I).
  - apply nodup_map_filter, (i_itei _ I).
  - rewrite tunnels_snoc, <- (i_tab _ I), E. reflexivity.
  - intros t. rewrite taken_snoc. exact (i_taken _ I t).
  - intros x Hx. apply filter_In in Hx. apply in_more, (i_in _ I). tauto.
  - intros r' [= <-]. exists id, k, q. auto.
Qed.
Lemma inv_step w l w' : kinv w -> kstep w l = Some w' -> kinv w'.
Proof.
  intros I S. destruct l as [|t|k|id ok]; cbn [kstep] in S.
  - injection S as <-. destruct I. split; auto.
  - destruct (k_taken w t); [discriminate|]. injection S as <-. unfold log, with_taken. cbn [k_on k_tab k_taken k_threads k_next k_hist].
    apply (inv_log _ _ _ _ I); try discriminate; try (exact (i_ms _ I)); try (exact (i_itei _ I)).
    + rewrite tunnels_snoc. exact (i_tab _ I).
    + intros x. rewrite taken_snoc. unfold upd. rewrite (N.eqb_sym x t). destruct (t =? x); [reflexivity|apply (i_taken _ I)].
    + intros q Hq. apply in_more, (i_in _ I), Hq.
  - set (w1 := log (KWorld (k_on w) (k_tab w) (k_taken w) (k_threads w) (k_next w + 1) (k_hist w)) (EvCalled (k_next w) k)) in S.
    assert (J : kinv w1).
    { split; cbn [w1 log k_on k_tab k_taken k_threads k_next k_hist].
      - exact (i_ms _ I). - exact (i_itei _ I). - rewrite tunnels_snoc. exact (i_tab _ I).
      - intros t. rewrite taken_snoc. exact (i_taken _ I t).
      - intros q Hq. apply in_more, (i_in _ I), Hq.
      - intros id k' H. apply in_snoc in H. destruct H as [H|[= -> ->]]; [|lia]. apply (i_fresh _ I) in H. lia.
      - intros id k1 k2 H1 H2. apply in_snoc in H1. apply in_snoc in H2.
        destruct H1 as [H1|[= -> ->]], H2 as [H2|E2].
        + exact (i_one _ I _ _ _ H1 H2).
        + injection E2 as -> ->. apply (i_fresh _ I) in H1. lia.
        + apply (i_fresh _ I) in H2. lia.
        + injection E2 as ->. reflexivity.
      - intros id t H. destruct (i_thread _ I _ _ H) as (k' & K & St). exists k'. split; [apply called_more, K|apply stands_more, St].
      - intros p H. apply in_snoc in H. destruct H as [H|H]; [|discriminate].
        destruct (i_added _ I _ H) as (id & k' & K & A). exists id, k'. split; [apply called_more, K|exact A].
      - intros r H. apply in_snoc in H. destruct H as [H|H]; [|discriminate].
        destruct (i_deleted _ I _ H) as (id & k' & q & K & Q & E & Hn). exists id, k', q. split; [apply called_more, K|]. split; [apply in_more, Q|auto].
      - intros t H. apply in_snoc in H. destruct H as [H|H]; [|discriminate].
        destruct (i_freed _ I _ H) as (id & k' & r & K & R & E & Hn). exists id, k', r. split; [apply called_more, K|]. split; [apply in_more, R|auto].
      - intros id b H. apply in_snoc in H. destruct H as [H|H]; [|discriminate]. apply (i_ret _ I) in H. lia.
      - intros id k' H K. apply in_snoc in H. destruct H as [H|H]; [|discriminate]. apply in_snoc in K. destruct K as [K|[= -> ->]].
        + apply outcome_more. exact (i_returned _ I _ _ H K).
        + apply (i_ret _ I) in H. lia. }
    assert (K : called (k_hist w1) (k_next w) k) by (apply in_app_iff; right; left; reflexivity).
    injection S as <-. destruct (k_on w).
    + apply (inv_goto _ _ _ _ J K). destruct k; cbn; auto. left. reflexivity.
    + apply inv_return; [exact J|cbn; lia|discriminate].
  - destruct (k_threads w id) as [t|] eqn:Et; [|discriminate]. injection S as <-.
    destruct (i_thread _ I _ _ Et) as (k & K & St). pose proof (i_fresh _ I _ _ K) as Hid.
    assert (U : forall k', called (k_hist w) id k' -> k' = k) by (intros k' K'; exact (i_one _ I _ _ _ K' K)).
    destruct t as [p|p q|p|p q|p|t|ms|q t|t]; cbn [run_kthread stands] in *.
    + destruct ok; [|exact (inv_goto _ _ (T118 p) _ I K St)]. destruct (by_ms (k_tab w) (p_ms p)) as [q|] eqn:E; [|exact (inv_goto _ _ (T118 p) _ I K St)].
      apply by_ms_some in E. destruct E as [Hq E]. apply (inv_goto _ _ _ _ I K). cbn. split; [exact St|]. split; [apply (i_in _ I), Hq|exact E].
    + destruct St as (-> & Q & E). destruct (inv_delete w ok q id _ I Q K (or_introl E)) as (J & M & _).
      apply (inv_goto _ _ _ _ J (M _ K)). reflexivity.
    + destruct ok; [|apply (inv_goto _ _ _ _ I K); right; exact St].
      destruct (by_itei (k_tab w) (p_itei p)) as [q|] eqn:E; [|apply (inv_goto _ _ _ _ I K); right; exact St].
      apply by_itei_some in E. destruct E as [Hq E]. apply (inv_goto _ _ _ _ I K). cbn. split; [exact St|]. split; [apply (i_in _ I), Hq|exact E].
    + destruct St as (-> & Q & E). destruct (inv_delete w ok q id _ I Q K (or_intror E)) as (J & M & _).
      apply (inv_goto _ _ _ _ J (M _ K)). right. reflexivity.
    + destruct ok; [|apply inv_return; [exact I|exact Hid|discriminate]].
      destruct (k_add (k_tab w) p) as [tab|] eqn:E; [|apply inv_return; [exact I|exact Hid|discriminate]].
      apply inv_return; [apply (inv_add _ _ _ I E); exists id, k; auto|exact Hid|].
      intros _ k' K'. apply in_snoc in K'. destruct K' as [K'|K']; [|discriminate]. rewrite (U _ K').
      assert (A : In (EvAdded p) (k_hist w ++ [EvAdded p])) by (apply in_app_iff; right; left; reflexivity).
      destruct St as [-> | ->]; exact A.
    + destruct ok; [|apply inv_return; [exact I|exact Hid|discriminate]].
      destruct (by_itei (k_tab w) t) as [q|] eqn:E; [|apply inv_return; [exact I|exact Hid|discriminate]].
      apply by_itei_some in E. destruct E as [Hq E]. apply (inv_goto _ _ _ _ I K). cbn. split; [apply (i_in _ I), Hq|]. auto.
    + destruct ok; [|apply inv_return; [exact I|exact Hid|discriminate]].
      destruct (by_ms (k_tab w) ms) as [q|] eqn:E; [|apply inv_return; [exact I|exact Hid|discriminate]].
      apply by_ms_some in E. destruct E as [Hq E]. apply (inv_goto _ _ _ _ I K). cbn. rewrite E. split; [apply (i_in _ I), Hq|]. auto.
    + destruct St as (Q & E & Hk).
      assert (Hn : names k q) by (destruct Hk as [-> | ->]; [exact E|reflexivity]).
      destruct (inv_delete w ok q id _ I Q K Hn) as (J & M & D).
      assert (L : k_next (fst (deleting w ok q)) = k_next w).
      { unfold deleting. destruct (if ok then k_del (k_tab w) q else None) as [[? ?]|]; reflexivity. }
      destruct (deleting w ok q) as [w2 good]. cbn [fst snd] in *. destruct good; [|apply inv_return; [exact J|rewrite L; exact Hid|discriminate]].
      apply (inv_goto _ _ _ _ J (M _ K)). cbn. destruct (D eq_refl) as (r & R & Er). exists q, r. rewrite Er. auto 10.
    + destruct St as (q & r & Q & R & Eq & Er & Hk). apply inv_return; [|exact Hid|].
      * unfold log, with_taken. cbn [k_on k_tab k_taken k_threads k_next k_hist].
        apply (inv_log _ _ _ _ I); try discriminate; try (exact (i_ms _ I)); try (exact (i_itei _ I)).
        -- rewrite tunnels_snoc. exact (i_tab _ I).
        -- intros x. rewrite taken_snoc. unfold upd. rewrite (N.eqb_sym x t). destruct (t =? x); [reflexivity|apply (i_taken _ I)].
        -- intros x Hx. apply in_more, (i_in _ I), Hx.
        -- intros t' [= <-]. exists id, k, r. split; [exact K|]. split; [exact R|]. split; [exact Er|]. destruct Hk as [-> | ->]; eauto.
      * intros _ k' K'. apply in_snoc in K'. destruct K' as [K'|K']; [|discriminate]. rewrite (U _ K').
        assert (A : In (EvFreed t) (k_hist w ++ [EvFreed t])) by (apply in_app_iff; right; left; reflexivity).
        destruct Hk as [-> | ->]; cbn.
        -- split; [exact A|]. exists r. split; [apply in_more, R|exact Er].
        -- exists q, r. rewrite Eq. split; [apply in_more, Q|]. split; [reflexivity|]. split; [apply in_more, R|auto].
Qed.
Lemma inv_start : kinv k_start.
Proof. split; cbn; try constructor; try tauto; try discriminate. Qed.
Lemma inv_run w ls w' : kinv w -> krun w ls = Some w' -> kinv w'.
Proof.
  revert w. induction ls as [|l ls IH]; intros w I H; cbn in H; [injection H as <-; exact I|].
  destruct (kstep w l) as [w1|] eqn:S; [|discriminate]. exact (IH _ (inv_step _ _ _ I S) H).
Qed.
Lemma reachable_inv w : reachable w -> kinv w.
Proof. intros [ls H]. exact (inv_run _ _ _ inv_start H). Qed.

(** ** Every schedule, every failure *)
(** The device's tunnels are those added and not deleted since; no two share the subscriber's
    address or the incoming TEID; each was asked for, with these addresses and TEIDs, by a
    call of AddTunnel or AddTunnelOverride. *)
Theorem C66_tunnels : forall w, reachable w ->
  k_tab w = tunnels (k_hist w) /\
  (forall p q, In p (k_tab w) -> In q (k_tab w) -> p_ms p = p_ms q \/ p_itei p = p_itei q -> p = q) /\
  (forall p, In p (k_tab w) -> exists id k, called (k_hist w) id k /\ asks k p).
Proof.
  intros w H. apply reachable_inv in H. split; [exact (i_tab _ H)|]. split.
  - intros p q Hp Hq [E|E]; [exact (nodup_map_inj _ _ _ _ (i_ms _ H) Hp Hq E)|exact (nodup_map_inj _ _ _ _ (i_itei _ H) Hp Hq E)].
  - intros p Hp. exact (i_added _ H _ (i_in _ H _ Hp)).
Qed.
Print Assumptions C66_tunnels.
(** A nil error means it was done: the tunnel was added; the tunnel with the TEID was deleted
    and the TEID given back. *)
Theorem C66_returned : forall w id k, reachable w -> In (EvReturned id true) (k_hist w) -> called (k_hist w) id k ->
  match k with
  | KAdd p | KOverride p => In (EvAdded p) (k_hist w)
  | KDelITEI t => In (EvFreed t) (k_hist w) /\ exists r, In (EvDeleted r) (k_hist w) /\ p_itei r = t
  | KDelMS ms => exists q r, In (EvAdded q) (k_hist w) /\ p_ms q = ms /\
      In (EvDeleted r) (k_hist w) /\ p_itei r = p_itei q /\ In (EvFreed (p_itei q)) (k_hist w)
  end.
Proof. intros w id k H R K. exact (i_returned _ (reachable_inv _ H) _ _ R K). Qed.
Print Assumptions C66_returned.
(** A tunnel is deleted only if a call named it, or named an earlier tunnel with its incoming
    TEID.  A TEID becomes free only after a delete call deleted a tunnel with it. *)
Theorem C66_deleted : forall w r, reachable w -> In (EvDeleted r) (k_hist w) ->
  exists id k q, called (k_hist w) id k /\ In (EvAdded q) (k_hist w) /\ p_itei q = p_itei r /\ names k q.
Proof. intros w r H. exact (i_deleted _ (reachable_inv _ H) r). Qed.
Print Assumptions C66_deleted.
Theorem C66_freed : forall w, reachable w ->
  (forall t, k_taken w t = taken (k_hist w) t) /\
  (forall t, In (EvFreed t) (k_hist w) -> exists id k r, called (k_hist w) id k /\
     In (EvDeleted r) (k_hist w) /\ p_itei r = t /\ (k = KDelITEI t \/ exists ms, k = KDelMS ms)).
Proof. intros w H. apply reachable_inv in H. split; [exact (i_taken _ H)|exact (i_freed _ H)]. Qed.
Print Assumptions C66_freed.
(** Without Kernel GTP-U the calls do nothing and return an error. *)
Theorem C66_disabled : forall w k w', k_on w = false -> kstep w (LCall k) = Some w' ->
  k_tab w' = k_tab w /\ k_taken w' = k_taken w /\ k_hist w' = k_hist w ++ [EvCalled (k_next w) k; EvReturned (k_next w) false] /\
  k_threads w' (k_next w) = None.
Proof.
  intros w k w' H S. cbn in S. rewrite H in S. injection S as <-. cbn. rewrite <- app_assoc. unfold upd. rewrite N.eqb_refl. auto.
Qed.
Print Assumptions C66_disabled.
Definition x_ms1 : bytes := [10; 0; 0; 1].
Definition x_ms2 : bytes := [10; 0; 0; 2].
Definition x_p1 : pdp := Pdp [192; 168; 0; 1] x_ms1 101 1.
Definition x_p2 : pdp := Pdp [192; 168; 0; 2] x_ms2 102 2.
Definition x_p3 : pdp := Pdp [192; 168; 0; 3] x_ms1 103 2.
(** two tunnels, then one that replaces both *)
Example C66_tunnels_example : exists w,
  krun k_start ([LOn; LCall (KAdd x_p1); LRun 0 true; LCall (KAdd x_p2); LRun 1 true; LCall (KOverride x_p3)] ++ alone 2 5) = Some w /\
  k_tab w = [x_p3] /\ In (EvReturned 2 true) (k_hist w) /\ In (EvDeleted x_p1) (k_hist w) /\ In (EvDeleted x_p2) (k_hist w).
Proof. eexists. split; [vm_compute; reflexivity|]. vm_compute. tauto. Qed.

(** ** Calls that nobody interrupts, when no system call fails *)
Lemma krun_app w ls ls' : krun w (ls ++ ls') = match krun w ls with Some w => krun w ls' | None => None end.
Proof. revert w. induction ls as [|l ls IH]; intros w; cbn; [reflexivity|]. destruct (kstep w l); auto. Qed.
Lemma upd_same {A} (m : N -> A) k v : upd m k v k = v.
Proof. unfold upd. rewrite N.eqb_refl. reflexivity. Qed.
Lemma begin_call w k : k_on w = true -> exists w1, kstep w (LCall k) = Some w1 /\
  k_threads w1 (k_next w) = Some (entry k) /\ k_tab w1 = k_tab w /\ k_taken w1 = k_taken w /\
  k_hist w1 = k_hist w ++ [EvCalled (k_next w) k].
Proof. intros H. cbn. rewrite H. eexists. split; [reflexivity|]. cbn. rewrite upd_same. auto. Qed.
(** adding, at line 100 *)
Lemma add_alone w id p : k_threads w id = Some (T100 p) ->
  (forall q, In q (k_tab w) -> p_ms q <> p_ms p /\ p_itei q <> p_itei p) ->
  exists w', kstep w (LRun id true) = Some w' /\ k_threads w' id = None /\ k_tab w' = k_tab w ++ [p] /\
    k_taken w' = k_taken w /\ k_hist w' = (k_hist w ++ [EvAdded p]) ++ [EvReturned id true].
Proof.
  intros Ht Hf. cbn. rewrite Ht. cbn. unfold k_add.
  destruct (by_ms (k_tab w) (p_ms p)) as [q|] eqn:E1; [apply by_ms_some in E1; destruct (Hf q (proj1 E1)) as [F _]; tauto|].
  destruct (by_itei (k_tab w) (p_itei p)) as [q|] eqn:E2; [apply by_itei_some in E2; destruct (Hf q (proj1 E2)) as [_ F]; tauto|].
  eexists. split; [reflexivity|]. cbn. rewrite upd_same. auto.
Qed.
Lemma refuse_alone w id p q : k_threads w id = Some (T100 p) ->
  In q (k_tab w) -> p_ms q = p_ms p \/ p_itei q = p_itei p ->
  exists w', kstep w (LRun id true) = Some w' /\ k_threads w' id = None /\ k_tab w' = k_tab w /\
    k_taken w' = k_taken w /\ k_hist w' = k_hist w ++ [EvReturned id false].
Proof.
  intros Ht Hq Hk. cbn. rewrite Ht. cbn. unfold k_add.
  destruct (by_ms (k_tab w) (p_ms p)) as [x|] eqn:E1.
  { eexists. split; [reflexivity|]. cbn. rewrite upd_same. auto. }
  destruct (by_itei (k_tab w) (p_itei p)) as [x|] eqn:E2.
  { eexists. split; [reflexivity|]. cbn. rewrite upd_same. auto. }
  exfalso. destruct Hk as [E|E]; [exact (by_ms_none _ _ E1 _ Hq E)|exact (by_itei_none _ _ E2 _ Hq E)].
Qed.
(** deleting, given a tunnel of the table *)
Lemma deleting_in w q : In q (k_tab w) -> exists r, In r (k_tab w) /\ p_itei r = p_itei q /\
  deleting w true q = (log (with_tab w (filter (fun x => negb (p_itei x =? p_itei q)) (k_tab w))) (EvDeleted r), true).
Proof.
  intros Hq. unfold deleting, k_del. destruct (by_itei (k_tab w) (p_itei q)) as [r|] eqn:E.
  - apply by_itei_some in E. exists r. tauto.
  - elim (by_itei_none _ _ E _ Hq eq_refl).
Qed.
(** [AddTunnel]: adds the tunnel, or refuses it if a tunnel has its address or TEID. *)
Theorem C66_add : forall w p, reachable w -> k_on w = true -> exists w',
  krun w (LCall (KAdd p) :: alone (k_next w) 1) = Some w' /\ k_threads w' (k_next w) = None /\ k_taken w' = k_taken w /\
  ((forall q, In q (k_tab w) -> p_ms q <> p_ms p /\ p_itei q <> p_itei p) ->
     k_tab w' = k_tab w ++ [p] /\ In (EvReturned (k_next w) true) (k_hist w')) /\
  ((exists q, In q (k_tab w) /\ (p_ms q = p_ms p \/ p_itei q = p_itei p)) ->
     k_tab w' = k_tab w /\ In (EvReturned (k_next w) false) (k_hist w')).
Proof.
  intros w p _ On. destruct (begin_call w (KAdd p) On) as (w1 & S1 & T1 & B1 & K1 & H1). cbn [krun]. rewrite S1.
  change (alone (k_next w) 1) with [LRun (k_next w) true]. cbn [krun].
  destruct (by_ms (k_tab w) (p_ms p)) as [q|] eqn:E1.
  { apply by_ms_some in E1. destruct (refuse_alone w1 _ p q T1) as (w2 & -> & T2 & B2 & K2 & H2); [rewrite B1; tauto|tauto|].
    exists w2. split; [reflexivity|]. split; [exact T2|]. split; [congruence|]. split.
    - intros F. destruct (F q (proj1 E1)). tauto.
    - intros _. split; [congruence|]. rewrite H2. apply in_app_iff. right. left. reflexivity. }
  destruct (by_itei (k_tab w) (p_itei p)) as [q|] eqn:E2.
  { apply by_itei_some in E2. destruct (refuse_alone w1 _ p q T1) as (w2 & -> & T2 & B2 & K2 & H2); [rewrite B1; tauto|tauto|].
    exists w2. split; [reflexivity|]. split; [exact T2|]. split; [congruence|]. split.
    - intros F. destruct (F q (proj1 E2)). tauto.
    - intros _. split; [congruence|]. rewrite H2. apply in_app_iff. right. left. reflexivity. }
  pose proof (by_ms_none _ _ E1) as F1. pose proof (by_itei_none _ _ E2) as F2.
  destruct (add_alone w1 _ p T1) as (w2 & -> & T2 & B2 & K2 & H2); [rewrite B1; auto|].
  exists w2. split; [reflexivity|]. split; [exact T2|]. split; [congruence|]. split.
  - intros _. split; [congruence|]. rewrite H2. apply in_app_iff. right. left. reflexivity.
  - intros (q & Hq & [E|E]); [elim (F1 q Hq E)|elim (F2 q Hq E)].
Qed.
Print Assumptions C66_add.
(** [AddTunnelOverride]: succeeds, and replaces exactly the tunnels that have the address or the
    incoming TEID. *)
Theorem C66_override : forall w p, reachable w -> k_on w = true -> exists n w',
  krun w (LCall (KOverride p) :: alone (k_next w) n) = Some w' /\ k_threads w' (k_next w) = None /\ k_taken w' = k_taken w /\
  In (EvReturned (k_next w) true) (k_hist w') /\
  forall q, In q (k_tab w') <-> q = p \/ (In q (k_tab w) /\ p_ms q <> p_ms p /\ p_itei q <> p_itei p).
Proof.
  intros w p R On. pose proof (reachable_inv _ R) as I. set (id := k_next w).
  destruct (begin_call w (KOverride p) On) as (w1 & S1 & T1 & B1 & K1 & _). fold id in T1.
  (* lines 114-117 *)
  assert (A : exists n w2, krun w1 (alone id n) = Some w2 /\ k_threads w2 id = Some (T118 p) /\ k_taken w2 = k_taken w /\
     (forall q, In q (k_tab w2) <-> In q (k_tab w) /\ p_ms q <> p_ms p)).
  { destruct (by_ms (k_tab w) (p_ms p)) as [q|] eqn:E.
    - destruct (by_ms_some _ _ _ E) as [Hq Eq].
      exists 2%nat. cbn [alone repeat krun]. unfold kstep. rewrite T1. cbn [entry run_kthread]. rewrite B1, E.
      change (k_threads (goto w1 id (T116 p q)) id) with (upd (k_threads w1) id (Some (T116 p q)) id). rewrite upd_same. cbn [run_kthread].
      destruct (deleting_in (goto w1 id (T116 p q)) q) as (r & Hr & Er & D); [cbn; rewrite B1; exact Hq|].
      rewrite D. eexists. split; [reflexivity|]. cbn. rewrite upd_same. split; [reflexivity|]. split; [exact K1|].
      intros x. rewrite in_kept, B1. split; intros [H1 H2]; split; auto.
      + intros F. apply H2. f_equal. exact (nodup_map_inj _ _ _ _ (i_ms _ I) H1 Hq (eq_trans F (eq_sym Eq))).
      + intros F. apply H2. rewrite <- Eq. f_equal. exact (nodup_map_inj _ _ _ _ (i_itei _ I) H1 Hq F).
    - exists 1%nat. cbn [alone repeat krun]. unfold kstep. rewrite T1. cbn [entry run_kthread]. rewrite B1, E.
      eexists. split; [reflexivity|]. cbn. rewrite upd_same, B1. split; [reflexivity|]. split; [exact K1|].
      intros q. split; [|tauto]. intros Hq. split; [exact Hq|exact (by_ms_none _ _ E _ Hq)]. }
  destruct A as (n2 & w2 & R2 & T2 & K2 & B2).
  (* lines 118-121 *)
  assert (A : exists n w3, krun w2 (alone id n) = Some w3 /\ k_threads w3 id = Some (T100 p) /\ k_taken w3 = k_taken w /\
     (forall q, In q (k_tab w3) <-> In q (k_tab w2) /\ p_itei q <> p_itei p)).
  { destruct (by_itei (k_tab w2) (p_itei p)) as [q|] eqn:E.
    - destruct (by_itei_some _ _ _ E) as [Hq Eq].
      exists 2%nat. cbn [alone repeat krun]. unfold kstep. rewrite T2. cbn [run_kthread]. rewrite E.
      change (k_threads (goto w2 id (T120 p q)) id) with (upd (k_threads w2) id (Some (T120 p q)) id). rewrite upd_same. cbn [run_kthread].
      destruct (deleting_in (goto w2 id (T120 p q)) q) as (r & Hr & Er & D); [exact Hq|].
      rewrite D. eexists. split; [reflexivity|]. cbn. rewrite upd_same. split; [reflexivity|]. split; [exact K2|].
      intros x. rewrite in_kept, Eq. reflexivity.
    - exists 1%nat. cbn [alone repeat krun]. unfold kstep. rewrite T2. cbn [run_kthread]. rewrite E.
      eexists. split; [reflexivity|]. cbn. rewrite upd_same. split; [reflexivity|]. split; [exact K2|].
      intros q. split; [|tauto]. intros Hq. split; [exact Hq|exact (by_itei_none _ _ E _ Hq)]. }
  destruct A as (n3 & w3 & R3 & T3 & K3 & B3).
  destruct (add_alone w3 id p T3) as (w4 & S4 & T4 & B4 & K4 & H4).
  { intros q Hq. apply B3 in Hq. destruct Hq as [Hq E]. apply B2 in Hq. tauto. }
  exists (n2 + (n3 + 1))%nat, w4. cbn [krun]. rewrite S1. unfold alone. rewrite !repeat_app, krun_app. fold (alone id n2). rewrite R2, krun_app.
  fold (alone id n3). rewrite R3. cbn [repeat krun]. rewrite S4. split; [reflexivity|]. split; [exact T4|]. split; [congruence|].
  split; [rewrite H4; apply in_app_iff; right; left; reflexivity|].
  intros q. rewrite B4, in_app_iff, B3, B2. cbn. intuition congruence.
Qed.
Print Assumptions C66_override.
(** The delete calls remove the tunnel they name and no other, and free its TEID; without such a
    tunnel they return an error and change nothing. *)
Definition removes (w : kworld) (k : kcall) (q : pdp) : Prop := exists n w',
  krun w (LCall k :: alone (k_next w) n) = Some w' /\ k_threads w' (k_next w) = None /\
  In (EvReturned (k_next w) true) (k_hist w') /\
  (forall x, In x (k_tab w') <-> In x (k_tab w) /\ x <> q) /\
  (forall t, k_taken w' t = if t =? p_itei q then false else k_taken w t).
Lemma removes_from w id q w1 : kinv w -> k_tab w1 = k_tab w -> k_taken w1 = k_taken w -> In q (k_tab w) ->
  k_threads w1 id = Some (T137 q (p_itei q)) ->
  exists w', krun w1 (alone id 2) = Some w' /\ k_threads w' id = None /\ In (EvReturned id true) (k_hist w') /\
  (forall x, In x (k_tab w') <-> In x (k_tab w) /\ x <> q) /\
  (forall t, k_taken w' t = if t =? p_itei q then false else k_taken w t).
Proof.
  intros I B1 K1 Hq T. cbn [alone repeat krun]. unfold kstep. rewrite T. cbn [run_kthread].
  destruct (deleting_in w1 q) as (r & Hr & Er & D); [rewrite B1; exact Hq|]. rewrite D.
  set (w2 := log _ _).
  change (k_threads (goto w2 id (T141 (p_itei q))) id) with (upd (k_threads w2) id (Some (T141 (p_itei q))) id). rewrite upd_same. cbn [run_kthread].
  eexists. split; [reflexivity|]. cbn. rewrite upd_same. split; [reflexivity|].
  split; [apply in_app_iff; right; left; reflexivity|]. split.
  - intros x. rewrite in_kept, B1. split; intros [H1 H2]; split; auto; [congruence|].
    intros F. apply H2. exact (nodup_map_inj _ _ _ _ (i_itei _ I) H1 Hq F).
  - intros t. unfold upd. rewrite K1. reflexivity.
Qed.
Theorem C66_delete : forall w q, reachable w -> k_on w = true -> In q (k_tab w) ->
  removes w (KDelITEI (p_itei q)) q /\ removes w (KDelMS (p_ms q)) q.
Proof.
  intros w q R On Hq. pose proof (reachable_inv _ R) as I. split.
  - destruct (begin_call w (KDelITEI (p_itei q)) On) as (w1 & S1 & T1 & B1 & K1 & _).
    set (id := k_next w) in *. destruct (by_itei (k_tab w) (p_itei q)) as [x|] eqn:E; [|elim (by_itei_none _ _ E _ Hq eq_refl)].
    destruct (by_itei_some _ _ _ E) as [Hx Ex]. assert (x = q) by exact (nodup_map_inj _ _ _ _ (i_itei _ I) Hx Hq Ex). subst x.
    destruct (removes_from w id q (goto w1 id (T137 q (p_itei q))) I B1 K1 Hq) as (w' & R' & H'); [cbn; apply upd_same|].
    exists 3%nat, w'. fold id. change (alone id 3) with (LRun id true :: alone id 2). cbn [krun]. rewrite S1. unfold kstep. rewrite T1.
    cbn [entry run_kthread]. rewrite B1, E, R'. split; [reflexivity|]. exact H'.
  - destruct (begin_call w (KDelMS (p_ms q)) On) as (w1 & S1 & T1 & B1 & K1 & _).
    set (id := k_next w) in *. destruct (by_ms (k_tab w) (p_ms q)) as [x|] eqn:E; [|elim (by_ms_none _ _ E _ Hq eq_refl)].
    destruct (by_ms_some _ _ _ E) as [Hx Ex]. assert (x = q) by exact (nodup_map_inj _ _ _ _ (i_ms _ I) Hx Hq Ex). subst x.
    destruct (removes_from w id q (goto w1 id (T137 q (p_itei q))) I B1 K1 Hq) as (w' & R' & H'); [cbn; apply upd_same|].
    exists 3%nat, w'. fold id. change (alone id 3) with (LRun id true :: alone id 2). cbn [krun]. rewrite S1. unfold kstep. rewrite T1.
    cbn [entry run_kthread]. rewrite B1, E, R'. split; [reflexivity|]. exact H'.
Qed.
Print Assumptions C66_delete.
Theorem C66_delete_missing : forall w k, reachable w -> k_on w = true ->
  (match k with KDelITEI _ | KDelMS _ => True | _ => False end) -> (forall q, In q (k_tab w) -> ~ names k q) ->
  exists w', krun w (LCall k :: alone (k_next w) 1) = Some w' /\ k_threads w' (k_next w) = None /\
    In (EvReturned (k_next w) false) (k_hist w') /\ k_tab w' = k_tab w /\ k_taken w' = k_taken w.
Proof.
  intros w k _ On Hk Hn. destruct (begin_call w k On) as (w1 & S1 & T1 & B1 & K1 & _). cbn [alone repeat krun]. rewrite S1. unfold kstep.
  rewrite T1. destruct k as [p|p|t|ms]; try destruct Hk; cbn [entry run_kthread]; rewrite B1.
  - destruct (by_itei (k_tab w) t) as [q|] eqn:E; [apply by_itei_some in E; elim (Hn q); tauto|].
    eexists. split; [reflexivity|]. cbn. rewrite upd_same. split; [reflexivity|]. split; [apply in_app_iff; right; left; reflexivity|auto].
  - destruct (by_ms (k_tab w) ms) as [q|] eqn:E; [apply by_ms_some in E; elim (Hn q); tauto|].
    eexists. split; [reflexivity|]. cbn. rewrite upd_same. split; [reflexivity|]. split; [apply in_app_iff; right; left; reflexivity|auto].
Qed.
Print Assumptions C66_delete_missing.
Definition two_tunnels : list klabel := [LOn; LTake 1; LTake 2; LCall (KAdd x_p1); LRun 0 true; LCall (KAdd x_p2); LRun 1 true].
(** a reachable world as the theorems above assume it *)
Example C66_delete_example : exists w, krun k_start two_tunnels = Some w /\ k_on w = true /\ In x_p1 (k_tab w) /\
  (forall q, In q (k_tab w) -> ~ names (KDelITEI 7) q) /\
  exists w', krun w (LCall (KDelMS x_ms2) :: alone (k_next w) 3) = Some w' /\ k_tab w' = [x_p1] /\ k_taken w' 1 = true /\ k_taken w' 2 = false.
Proof.
  eexists. split; [vm_compute; reflexivity|]. cbn. split; [reflexivity|]. split; [auto|]. split.
  - intros q [<-|[<-|[]]]; cbn; discriminate.
  - eexists. split; [reflexivity|]. cbn. auto.
Qed.

(** ** What does not hold *)
(** A replaced tunnel's TEID is never given back: once a taken TEID has no tunnel and no call
    in progress is about it, it stays taken whatever is called, until a call asks for a tunnel
    with it again. *)
Definition freeing (t : N) (th : kthread) : Prop :=
  match th with
  | T137 _ x | T141 x => x = t
  | T114 p | T116 p _ | T118 p | T120 p _ | T100 p => p_itei p = t
  | T132 _ | T151 _ => False
  end.
Definition lost (w : kworld) (t : N) : Prop :=
  k_taken w t = true /\ (forall q, In q (k_tab w) -> p_itei q <> t) /\ (forall id th, k_threads w id = Some th -> ~ freeing t th).
Lemma lost_goto w id th t : lost w t -> ~ freeing t th -> lost (goto w id th) t.
Proof.
  intros (A & B & C) F. split; [exact A|]. split; [exact B|]. intros i x. cbn. unfold upd. destruct (i =? id); [intros [= <-]; exact F|apply C].
Qed.
Lemma lost_return w id b t : lost w t -> lost (return_ w id b) t.
Proof. intros (A & B & C). split; [exact A|]. split; [exact B|]. intros i x. cbn. unfold upd. destruct (i =? id); [discriminate|apply C]. Qed.
Lemma lost_deleting w ok q t : lost w t -> lost (fst (deleting w ok q)) t.
Proof.
  intros (A & B & C). unfold deleting. destruct (if ok then k_del (k_tab w) q else None) as [[r tab]|] eqn:E; [|split; auto].
  destruct ok; [|discriminate]. unfold k_del in E. destruct (by_itei _ _); [|discriminate]. injection E as <- <-.
  split; [exact A|]. split; [|exact C]. cbn. intros x Hx. apply in_kept in Hx. apply B. tauto.
Qed.
Lemma lost_step w l w' t : lost w t -> kstep w l = Some w' -> (forall k p, l = LCall k -> asks k p -> p_itei p <> t) -> lost w' t.
Proof.
  intros L S Hn. destruct l as [|x|k|id ok]; cbn [kstep] in S.
  - injection S as <-. exact L.
  - destruct (k_taken w x); [discriminate|]. injection S as <-. destruct L as (A & B & C). split; [|split; [exact B|exact C]].
    cbn. unfold upd. destruct (t =? x); [reflexivity|exact A].
  - injection S as <-. match goal with |- context [if ?b then _ else _] => destruct b end.
    + apply lost_goto; [exact L|]. destruct k as [p|p|x|ms]; cbn; auto; apply (Hn _ p eq_refl); [left|right]; reflexivity.
    + apply lost_return. exact L.
  - destruct (k_threads w id) as [th|] eqn:Et; [|discriminate]. injection S as <-. pose proof L as (A & B & C). pose proof (C _ _ Et) as F.
    destruct th as [p|p q|p|p q|p|x|ms|q x|x]; cbn [run_kthread] in *.
    + destruct (if ok then by_ms (k_tab w) (p_ms p) else None); apply lost_goto; cbn; auto.
    + apply lost_goto; [apply lost_deleting, L|cbn; auto].
    + destruct (if ok then by_itei (k_tab w) (p_itei p) else None); apply lost_goto; cbn; auto.
    + apply lost_goto; [apply lost_deleting, L|cbn; auto].
    + destruct (if ok then k_add (k_tab w) p else None) as [tab|] eqn:E; [|apply lost_return, L]. apply lost_return.
      destruct ok; [|discriminate]. unfold k_add in E. destruct (by_ms _ _); [discriminate|]. destruct (by_itei _ _) eqn:E2; [discriminate|]. injection E as <-.
      split; [exact A|]. split; [|exact C]. cbn. intros q Hq. apply in_snoc in Hq. destruct Hq as [Hq| ->]; [exact (B q Hq)|].
      exact F.
    + destruct ok; [|apply lost_return, L]. destruct (by_itei (k_tab w) x) as [q|] eqn:E; [|apply lost_return, L].
      apply by_itei_some in E. apply lost_goto; [exact L|]. cbn. intros ->. exact (B q (proj1 E) (proj2 E)).
    + destruct ok; [|apply lost_return, L]. destruct (by_ms (k_tab w) ms) as [q|] eqn:E; [|apply lost_return, L].
      apply by_ms_some in E. apply lost_goto; [exact L|]. cbn. exact (B q (proj1 E)).
    + pose proof (lost_deleting w ok q t L) as L'. destruct (deleting w ok q) as [w2 good]. cbn [fst] in L'. destruct good; [|apply lost_return, L'].
      apply lost_goto; [exact L'|exact F].
    + apply lost_return. split; [|split; [exact B|exact C]]. cbn. unfold upd. destruct (t =? x) eqn:E; [|exact A].
      apply N.eqb_eq in E. elim F. cbn. auto.
Qed.
Theorem C66_lost : forall w ls w' t, lost w t -> krun w ls = Some w' ->
  (forall k p, In (LCall k) ls -> asks k p -> p_itei p <> t) -> k_taken w' t = true.
Proof.
  intros w ls w' t L. assert (X : forall ls w, lost w t -> krun w ls = Some w' ->
    (forall k p, In (LCall k) ls -> asks k p -> p_itei p <> t) -> lost w' t).
  { clear ls w L. induction ls as [|l ls IH]; intros w L R H; cbn in R; [injection R as <-; exact L|].
    destruct (kstep w l) as [w1|] eqn:S; [|discriminate]. apply (IH w1); [|exact R|intros k p Hk; apply H; right; exact Hk].
    apply (lost_step _ _ _ _ L S). intros k p -> Ha. apply (H k p); [left; reflexivity|exact Ha]. }
  intros R H. exact (proj1 (X ls w L R H)).
Qed.
Print Assumptions C66_lost.
(** Replacing a subscriber's tunnel by one with another incoming TEID loses the old TEID. *)
Theorem C66_override_gives_back_refuted : exists w, reachable w /\
  In (EvTaken 1) (k_hist w) /\ In (EvReturned 1 true) (k_hist w) /\ called (k_hist w) 1 (KOverride (Pdp [192; 168; 0; 1] x_ms1 101 5)) /\
  k_tab w = [Pdp [192; 168; 0; 1] x_ms1 101 5] /\ lost w 1.
Proof.
  eexists. split; [exists ([LOn; LTake 1; LCall (KAdd x_p1); LRun 0 true; LTake 5; LCall (KOverride (Pdp [192; 168; 0; 1] x_ms1 101 5))] ++ alone 1 4); vm_compute; reflexivity|].
  cbn. split; [tauto|]. split; [tauto|]. split; [unfold called; cbn; tauto|]. split; [reflexivity|].
  split; [reflexivity|]. split; [intros q [<-|[]]; discriminate|]. intros id th. destruct id as [|[p|p|]]; vm_compute; discriminate.
Qed.
Print Assumptions C66_override_gives_back_refuted.
(** The replacement is not atomic: if the kernel refuses the new tunnel, the old ones are gone. *)
Theorem C66_override_atomic_refuted : exists w w', reachable w /\ k_tab w = [x_p1; x_p2] /\
  krun w [LCall (KOverride x_p3); LRun 2 true; LRun 2 true; LRun 2 true; LRun 2 true; LRun 2 false] = Some w' /\
  In (EvReturned 2 false) (k_hist w') /\ k_tab w' = [].
Proof.
  do 2 eexists. split; [exists two_tunnels; vm_compute; reflexivity|]. split; [reflexivity|]. split; [vm_compute; reflexivity|].
  vm_compute. tauto.
Qed.
Print Assumptions C66_override_atomic_refuted.
(** Two calls at once: replacing the tunnel of one subscriber can delete that of another, which no
    call named. *)
Theorem C66_others_kept_refuted : exists w, reachable w /\
  In (EvDeleted (Pdp [192; 168; 0; 9] x_ms2 109 1)) (k_hist w) /\
  (forall id k, called (k_hist w) id k -> ~ names k (Pdp [192; 168; 0; 9] x_ms2 109 1)).
Proof.
  eexists. split.
  { exists [LOn; LCall (KAdd x_p1); LRun 0 true;
      LCall (KOverride (Pdp [192; 168; 0; 1] x_ms1 101 5)); LRun 1 true;
      LCall (KDelMS x_ms1); LRun 2 true; LRun 2 true; LRun 2 true;
      LCall (KAdd (Pdp [192; 168; 0; 9] x_ms2 109 1)); LRun 3 true; LRun 1 true]. vm_compute. reflexivity. }
  cbn. split; [tauto|]. intros id k K. unfold called in K. cbn in K.
  repeat (destruct K as [K|K]; [try discriminate K; injection K as <- <-; cbn; intuition discriminate|]). destruct K.
Qed.
Print Assumptions C66_others_kept_refuted.
(** A tunnel's TEID is not marked as taken: NewFTEID may give it to somebody else. *)
Theorem C66_tunnel_teid_taken_refuted : forall p, exists w,
  krun k_start [LOn; LCall (KAdd p); LRun 0 true; LTake (p_itei p)] = Some w /\ In p (k_tab w) /\ In (EvReturned 0 true) (k_hist w).
Proof. intros p. eexists. split; [reflexivity|]. cbn. tauto. Qed.
Print Assumptions C66_tunnel_teid_taken_refuted.
