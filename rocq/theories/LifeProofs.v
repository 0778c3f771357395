(** * Invariants of the life of a connection *)
From Verif Require Import Base Life LifeSpec.
From Coq Require Import Lia.
Local Open Scope nat_scope.

(** ** Lists *)
Lemma upd_length {A} i (y : A) l : List.length (upd i y l) = List.length l.
Proof.
  unfold upd. destruct (Nat.ltb_spec i (List.length l)) as [H|H]; [|reflexivity].
  rewrite app_length, firstn_length. cbn [List.length]. rewrite skipn_length. lia.
Qed.
Lemma upd_nth {A} i j (y : A) l :
  nth_error (upd i y l) j = if (j =? i) && (i <? List.length l) then Some y else nth_error l j.
Proof.
  unfold upd. destruct (Nat.ltb_spec i (List.length l)) as [H|H].
  2: { rewrite andb_false_r. reflexivity. }
  rewrite andb_true_r.
  assert (F : List.length (firstn i l) = i) by (rewrite firstn_length; lia).
  destruct (Nat.eqb_spec j i) as [->|E].
  - rewrite nth_error_app2 by lia. rewrite F, Nat.sub_diag. reflexivity.
  - destruct (Nat.lt_ge_cases j i) as [L|G].
    + rewrite nth_error_app1 by lia. rewrite <- (firstn_skipn i l) at 2. rewrite nth_error_app1 by lia. reflexivity.
    + rewrite nth_error_app2 by lia. rewrite F.
      replace (j - i) with (S (j - S i)) by lia. cbn [nth_error].
      rewrite <- (firstn_skipn (S i) l) at 2.
      assert (F' : List.length (firstn (S i) l) = S i) by (rewrite firstn_length; lia).
      rewrite nth_error_app2 by lia. rewrite F'. reflexivity.
Qed.
Lemma upd_in {A} i (y z : A) l : In z (upd i y l) -> z = y \/ In z l.
Proof.
  intros H. apply In_nth_error in H. destruct H as [j H]. rewrite upd_nth in H.
  destruct ((j =? i) && (i <? List.length l)).
  - left. congruence.
  - right. eapply nth_error_In; eauto.
Qed.
Lemma upd_in_new {A} i (y t : A) l : nth_error l i = Some t -> In y (upd i y l).
Proof.
  intros H. apply nth_error_In with i. rewrite upd_nth, Nat.eqb_refl.
  assert (L : i < List.length l) by (apply nth_error_Some; congruence).
  apply Nat.ltb_lt in L. rewrite L. reflexivity.
Qed.
Lemma upd_in_old {A} i (y t z : A) l : nth_error l i = Some t -> In z l -> z = t \/ In z (upd i y l).
Proof.
  intros H I. apply In_nth_error in I. destruct I as [j I].
  destruct (Nat.eqb_spec j i) as [->|E]; [left; congruence|].
  right. apply nth_error_In with j. rewrite upd_nth.
  apply Nat.eqb_neq in E. rewrite E. exact I.
Qed.
Lemma upd_map {A B} (f : A -> B) i y l : map f (upd i y l) = upd i (f y) (map f l).
Proof.
  unfold upd. rewrite map_length. destruct (i <? List.length l); [|reflexivity].
  rewrite map_app, firstn_map. cbn [map]. rewrite skipn_map. reflexivity.
Qed.
Lemma upd_same {A} i (y : A) l : nth_error l i = Some y -> upd i y l = l.
Proof.
  intros H. unfold upd. assert (L : i < List.length l) by (apply nth_error_Some; congruence).
  apply Nat.ltb_lt in L. rewrite L.
  rewrite <- (firstn_skipn i l) at 3. f_equal.
  clear L. revert l H. induction i as [|i IH]; intros [|a l] H; try discriminate; cbn in H |- *.
  - congruence.
  - apply IH, H.
Qed.

(** ** Sockets, seen as open or closed *)
Definition flags (x : core) : list bool := map sk_open (socks x).
Record same (x x' : core) : Prop := Same {
  sm_flags : flags x' = flags x; sm_cur : cur x' = cur x; sm_closed : closed x' = closed x; sm_can : cancelled x' = cancelled x }.
Lemma same_refl x : same x x. Proof. constructor; reflexivity. Qed.
Lemma flags_len x : List.length (flags x) = List.length (socks x). Proof. apply map_length. Qed.

Lemma read_got j x d x' : read_sock j x = RGot d x' -> same x x' /\ nth_error (flags x) j = Some true.
Proof.
  unfold read_sock. destruct (nth_error (socks x) j) as [[[|] [|e q]]|] eqn:E; try discriminate.
  intros [= -> <-]. assert (F : nth_error (flags x) j = Some true) by (unfold flags; rewrite nth_error_map, E; reflexivity).
  split; [|exact F]. constructor; try reflexivity.
  unfold flags. cbn [set_socks socks]. rewrite upd_map. apply upd_same. exact F.
Qed.
Lemma read_shut j x : read_sock j x = RShut -> nth_error (flags x) j <> Some true.
Proof.
  unfold read_sock, flags. rewrite nth_error_map.
  destruct (nth_error (socks x) j) as [[[|] [|e q]]|] eqn:E; cbn; congruence.
Qed.
Lemma read_wait j x : read_sock j x = RWait -> nth_error (flags x) j = Some true.
Proof.
  unfold read_sock, flags. rewrite nth_error_map.
  destruct (nth_error (socks x) j) as [[[|] [|e q]]|] eqn:E; cbn; congruence.
Qed.
Lemma shut_flags j x : flags (shut j x) = upd j false (flags x).
Proof.
  unfold shut, flags. destruct (nth_error (socks x) j) as [a|] eqn:E.
  - cbn [set_socks socks]. rewrite upd_map. reflexivity.
  - unfold upd. rewrite map_length. apply nth_error_None in E.
    destruct (Nat.ltb_spec j (List.length (socks x))); [lia|reflexivity].
Qed.
Lemma shut_rest j x : cur (shut j x) = cur x /\ closed (shut j x) = closed x /\ cancelled (shut j x) = cancelled x.
Proof. unfold shut. destruct (nth_error (socks x) j); repeat split. Qed.

(** ** What a turn can do *)
Inductive eff (k : kind) (x : core) : thread -> core -> thread -> list thread -> Prop :=
| e_look_no c : cur x = None -> k = UP -> eff k x (TListenU c) x (TListen (Some c)) []
| e_look c j : cur x = Some j -> k = UP -> eff k x (TListenU c) x (TServe c SStart) []
| e_open n x' : flags x' = flags x ++ [true] -> cur x' = Some (List.length (flags x)) -> closed x' = closed x -> cancelled x' = cancelled x ->
    eff k x (TListen n) x' (match n with Some c => TServe c SStart | None => Ended ListenOk end) []
| e_open_no n x' : (exists l, flags x' = flags x ++ l /\ forall b, In b l -> b = true) -> cur x' = None -> closed x' = closed x -> cancelled x' = cancelled x ->
    eff k x (TListen n) x' (Ended ListenErr) []
| e_start c p : p <> SStart -> (forall j, p <> SRead j) -> eff k x (TServe c SStart) x (TServe c p) [TCloser c KWait]
| e_stop c : over c x = true -> eff k x (TServe c SCheck) x (Ended (ServeNil c)) []
| e_go c : eff k x (TServe c SCheck) x (TServe c SLoad) []
| e_load c j : cur x = Some j -> eff k x (TServe c SLoad) x (TServe c (SRead j)) []
| e_read c j d x' p : same x x' -> p <> SStart -> (forall i, p <> SRead i) -> eff k x (TServe c (SRead j)) x' (TServe c p) [THandle d]
| e_read_shut c j : nth_error (flags x) j <> Some true -> eff k x (TServe c (SRead j)) x (Ended (ServeNil c)) []
| e_wait c : over c x = true -> eff k x (TCloser c KWait) x (TCloser c KClose) []
| e_close c j x' : cur x = Some j -> flags x' = upd j false (flags x) -> cur x' = cur x -> closed x' = closed x -> cancelled x' = cancelled x ->
    eff k x (TCloser c KClose) x' (Ended (CloserDone c)) []
| e_close_no c : cur x = None -> k = UP -> eff k x (TCloser c KClose) x (Ended (CloserDone c)) []
| e_plain t x' o new : same x x' -> (match t with THandle _ | TOffer _ | TReadGTP | TReadOn _ | TWrite _ => True | _ => False end) ->
    (match o with Handled _ | Discarded _ | Offered _ | ReadGTP _ false | ReadFrom _ | Wrote _ _ => True | _ => False end) ->
    (forall n, In n new -> exists d, n = TOffer d) -> eff k x t x' (Ended o) new
| e_rf j : cur x = Some j -> eff k x TReadFrom x (TReadOn j) []
| e_shutdown x' : flags x' = flags x -> cur x' = cur x -> cancelled x' = cancelled x -> closed x' = true -> eff k x TClose x' (Ended CloseOk) [].

Lemma write_eff k x d t o o' x' t' new :
  (match t with THandle _ | TOffer _ | TReadGTP | TReadOn _ | TWrite _ => True | _ => False end) ->
  (match o with Handled _ | Discarded _ | Offered _ | ReadGTP _ false | ReadFrom _ | Wrote _ _ => True | _ => False end) ->
  (match o' with Handled _ | Discarded _ | Offered _ | ReadGTP _ false | ReadFrom _ | Wrote _ _ => True | _ => False end) ->
  write x d (Ended o) (Ended o') = Next x' t' new -> eff k x t x' t' new.
Proof.
  unfold write. intros A B C.
  destruct (cur x); [|discriminate].
  destruct (nth_error (socks x) n) as [[[|] q]|]; intros [= <- <- <-]; apply e_plain; auto;
    try (intros ? []); try apply same_refl; constructor; reflexivity.
Qed.

(** Calls of the kind only: a UPlaneConn has no other ListenAndServe. *)
Definition fits (k : kind) (t : thread) : Prop := match t with TListenU _ => k = UP | _ => True end.

Lemma turn_eff k x t h x' t' new : fits k t -> turn k x t h = Some (Next x' t' new) -> eff k x t x' t' new.
Proof.
  intros F H. destruct t; cbn [turn] in H.
  - destruct h; try discriminate. cbn in F. destruct (cur x) eqn:E; injection H as <- <- <-; econstructor; eauto.
  - unfold listen in H. destruct h.
    + injection H as <- <- <-. apply e_open; try reflexivity.
      * unfold flags. cbn. rewrite map_app. reflexivity.
      * cbn. rewrite flags_len. reflexivity.
    + injection H as <- <- <-. apply e_open_no; try reflexivity. exists []. rewrite app_nil_r. split; [reflexivity|intros ? []].
    + destruct k; [discriminate|]. injection H as <- <- <-. apply e_open_no; try reflexivity.
      exists [true]. split; [unfold flags; cbn; rewrite map_app; reflexivity|]. intros b [<-|[]]. reflexivity.
  - destruct h; try discriminate. destruct p; cbn [serve] in H.
    + injection H as <- <- <-. apply e_start; destruct k; intros; discriminate.
    + destruct (over c x) eqn:E; injection H as <- <- <-; constructor; assumption.
    + destruct (cur x) eqn:E; [|discriminate]. injection H as <- <- <-. constructor. exact E.
    + destruct (read_sock j x) eqn:E; try discriminate; injection H as <- <- <-.
      * apply read_got in E. apply e_read; [apply E| |]; destruct k; intros; discriminate.
      * constructor. apply read_shut. exact E.
  - destruct h; try discriminate. destruct p; cbn [closer] in H.
    + destruct (over c x) eqn:E; [|discriminate]. injection H as <- <- <-. constructor. exact E.
    + destruct (cur x) eqn:E.
      * injection H as <- <- <-. pose proof (shut_rest n x) as (A & B & C). eapply e_close; eauto using shut_flags.
      * destruct k; [discriminate|]. injection H as <- <- <-. constructor; auto.
  - destruct h.
    + injection H as <- <- <-. apply e_plain; try exact I; [apply same_refl|intros ? []].
    + destruct k; [discriminate|]. injection H as <- <- <-. apply e_plain; try exact I; [apply same_refl|].
      intros n [<-|[]]. eauto.
    + injection H as H. eapply write_eff; try eassumption; exact I.
  - destruct h; try discriminate. injection H as <- <- <-. apply e_plain; try exact I; [apply same_refl|intros ? []].
  - destruct h; try discriminate. destruct (closed x); [|discriminate].
    injection H as <- <- <-. apply e_plain; try exact I; [apply same_refl|intros ? []].
  - destruct h; try discriminate. destruct (cur x) eqn:E; [|discriminate]. injection H as <- <- <-. constructor. exact E.
  - destruct h; try discriminate. destruct (read_sock j x) eqn:E; try discriminate; injection H as <- <- <-.
    + apply read_got in E. apply e_plain; try exact I; [apply E|intros ? []].
    + apply e_plain; try exact I; [apply same_refl|intros ? []].
  - destruct h; try discriminate. injection H as H. eapply write_eff; try eassumption; exact I.
  - destruct h; try discriminate. destruct (closed x); [discriminate|]. injection H as <- <- <-. constructor; reflexivity.
  - destruct h; discriminate.
Qed.

(** ** The invariant *)
Definition has_closer (c : nat) (l : list thread) : Prop :=
  In (TCloser c KWait) l \/ In (TCloser c KClose) l \/ In (Ended (CloserDone c)) l.
Definition begun (c : nat) (l : list thread) : Prop :=
  In (Ended (ServeNil c)) l \/ In (Ended (ServeErr c)) l \/ exists p, p <> SStart /\ In (TServe c p) l.
Definition no_err (l : list thread) : Prop := ~ In (Ended ListenErr) l.

Record inv (k : kind) (x : core) (l : list thread) : Prop := Inv {
  i_fits : forall t, In t l -> fits k t;
  i_cur : forall j, cur x = Some j -> j < List.length (flags x);
  i_srd : forall c j, In (TServe c (SRead j)) l -> j < List.length (flags x);
  i_ron : forall j, In (TReadOn j) l -> j < List.length (flags x);
  i_closer : forall c, begun c l -> has_closer c l;
  i_none : no_err l -> cur x = None -> flags x = [];
  i_srv : forall c p, k = UP -> no_err l -> In (TServe c p) l -> flags x <> [];
  i_cls : forall c p, k = UP -> no_err l -> In (TCloser c p) l -> flags x <> [];
  i_done : forall c, In (Ended (CloserDone c)) l -> no_err l -> flags x <> [] /\ (List.length (flags x) = 1 -> flags x = [false]);
  i_over : forall c, In (TCloser c KClose) l \/ In (Ended (CloserDone c)) l -> over c x = true;
  i_shut : In false (flags x) -> exists c, In (Ended (CloserDone c)) l;
  i_rev : forall c, has_closer c l -> begun c l;
  i_nil : forall c, In (Ended (ServeNil c)) l -> over c x = true \/ exists c', In (Ended (CloserDone c')) l }.

Record chg (l l' : list thread) (t t' : thread) (new : list thread) : Prop := Chg {
  g_from : In t l; g_to : In t' l'; g_new : forall n, In n new -> In n l';
  g_back : forall z, In z l' -> z = t' \/ In z new \/ In z l;
  g_keep : forall z, In z l -> z = t \/ In z l' }.

Lemma chg_upd i l t t' new : nth_error l i = Some t -> chg l (upd i t' l ++ new) t t' new.
Proof.
  intros H. constructor.
  - eapply nth_error_In; eauto.
  - apply in_or_app. left. eapply upd_in_new; eauto.
  - intros n I. apply in_or_app. right. exact I.
  - intros z I. apply in_app_or in I. destruct I as [I|I]; [|auto]. apply upd_in in I. tauto.
  - intros z I. destruct (upd_in_old _ t' _ _ _ H I) as [->|J]; [auto|]. right. apply in_or_app. left. exact J.
Qed.

Lemma over_mono c x x' : closed x' = closed x \/ closed x' = true -> cancelled x' = cancelled x -> over c x = true -> over c x' = true.
Proof.
  unfold over. intros H -> E. destruct H as [->| ->]; [exact E|]. apply orb_true_r.
Qed.

(** what a change of one thread keeps *)
Section Change.
Context (l l' : list thread) (t t' : thread) (new : list thread) (G : chg l l' t t' new).
Lemma keep_ended o : (forall o', t <> Ended o') -> In (Ended o) l -> In (Ended o) l'.
Proof. intros N I. destruct (g_keep _ _ _ _ _ G _ I) as [E|J]; [|exact J]. exfalso. eapply N. symmetry. exact E. Qed.
Lemma keep_noerr : (forall o', t <> Ended o') -> no_err l' -> no_err l.
Proof. intros N A B. apply A. apply keep_ended; assumption. Qed.
Lemma back z : In z l' -> z <> t' -> (forall n, In n new -> z <> n) -> In z l.
Proof. intros I A B. destruct (g_back _ _ _ _ _ G _ I) as [E|[E|E]]; [contradiction| |exact E]. exfalso. eapply B; eauto. Qed.
Lemma keep_closer c : (forall o', t <> Ended o') -> (forall p, t <> TCloser c p) -> has_closer c l -> has_closer c l'.
Proof.
  intros N M [I|[I|I]].
  - destruct (g_keep _ _ _ _ _ G _ I) as [E|J]; [exfalso; eapply M; symmetry; exact E|]. left. exact J.
  - destruct (g_keep _ _ _ _ _ G _ I) as [E|J]; [exfalso; eapply M; symmetry; exact E|]. right. left. exact J.
  - right. right. apply keep_ended; assumption.
Qed.
End Change.

Lemma len1_app {A} (l : list A) a : l <> [] -> List.length (l ++ [a]) <> 1.
Proof. destruct l; [congruence|]. intros _. rewrite app_length. cbn. lia. Qed.

Lemma eff_live k x t x' t' new : eff k x t x' t' new -> forall o, t <> Ended o.
Proof. intros H o. destruct H; try discriminate. destruct t; try contradiction; discriminate. Qed.
Lemma eff_len k x t x' t' new : eff k x t x' t' new -> List.length (flags x) <= List.length (flags x').
Proof.
  intros H. destruct H; auto; try (rewrite (sm_flags _ _ H)); auto.
  - rewrite H, app_length. cbn. lia.
  - destruct H as (l & -> & _). rewrite app_length. lia.
  - rewrite H0, upd_length. auto.
  - rewrite H. auto.
Qed.
Lemma eff_over k x t x' t' new c : eff k x t x' t' new -> over c x = true -> over c x' = true.
Proof.
  intros H. apply over_mono; destruct H; auto; try (rewrite (sm_closed _ _ H)); try (rewrite (sm_can _ _ H)); auto.
Qed.
(** which threads a turn can leave behind *)
Lemma eff_new k x t x' t' new z : eff k x t x' t' new -> In z new -> (exists c, z = TCloser c KWait /\ t = TServe c SStart) \/ (exists d, z = THandle d) \/ (exists d, z = TOffer d).
Proof.
  intros H I. destruct H; try (destruct I; fail).
  - destruct I as [<-|[]]. left. eauto.
  - destruct I as [<-|[]]. right. left. eauto.
  - right. right. apply H2, I.
Qed.

Ltac newt E N := let X := fresh in destruct (eff_new _ _ _ _ _ _ _ E N) as [(? & X & ?)|[(? & X)|(? & X)]]; try discriminate X.

Lemma classic_closer t c : (exists p, t = TCloser c p) \/ (forall p, t <> TCloser c p).
Proof.
  destruct t; try (right; intros; discriminate). destruct (Nat.eq_dec c c0) as [->|N].
  - left. eauto.
  - right. intros p0 H. injection H as H _. congruence.
Qed.

Section Keep.
Context (k : kind) (x x' : core) (l l' : list thread) (t t' : thread) (new : list thread).
Context (G : chg l l' t t' new) (E : eff k x t x' t' new) (V : inv k x l).

Lemma k_ended o : In (Ended o) l -> In (Ended o) l'.
Proof. apply (keep_ended _ _ _ _ _ G). eapply eff_live; eauto. Qed.
Lemma k_noerr : no_err l' -> no_err l.
Proof. intros A B. apply A, k_ended, B. Qed.

Lemma k_fits z : In z l' -> fits k z.
Proof.
  intros I. destruct (g_back _ _ _ _ _ G _ I) as [->|[N|O]].
  - destruct E; cbn; auto. destruct n; cbn; auto.
  - destruct (eff_new _ _ _ _ _ _ _ E N) as [(? & -> & _)|[(? & ->)|(? & ->)]]; exact Logic.I.
  - apply (i_fits _ _ _ V), O.
Qed.

Lemma k_cur j : cur x' = Some j -> j < List.length (flags x').
Proof.
  pose proof (i_cur _ _ _ V) as C. pose proof (eff_len _ _ _ _ _ _ E) as Ln. intros H.
  destruct E; try (specialize (C _ H); lia).
  - rewrite H1 in H. injection H as <-. rewrite H0, app_length. cbn. lia.
  - congruence.
  - rewrite (sm_cur _ _ H0) in H. specialize (C _ H). lia.
  - rewrite H2 in H. specialize (C _ H). lia.
  - rewrite (sm_cur _ _ H0) in H. specialize (C _ H). lia.
  - rewrite H1 in H. specialize (C _ H). lia.
Qed.

Lemma k_srd c j : In (TServe c (SRead j)) l' -> j < List.length (flags x').
Proof.
  intros I. pose proof (eff_len _ _ _ _ _ _ E) as Ln. destruct (g_back _ _ _ _ _ G _ I) as [X|[N|O]].
  - destruct E; try discriminate X.
    + destruct n; discriminate X.
    + injection X as <- <-. exfalso. eapply H0. reflexivity.
    + injection X as <- <-. apply (i_cur _ _ _ V). assumption.
    + injection X as <- <-. exfalso. eapply H1. reflexivity.
  - newt E N.
  - apply (i_srd _ _ _ V) in O. lia.
Qed.
Lemma k_ron j : In (TReadOn j) l' -> j < List.length (flags x').
Proof.
  intros I. pose proof (eff_len _ _ _ _ _ _ E) as Ln. destruct (g_back _ _ _ _ _ G _ I) as [X|[N|O]].
  - destruct E; try discriminate X.
    + destruct n; discriminate X.
    + injection X as <-. apply (i_cur _ _ _ V). assumption.
  - newt E N.
  - apply (i_ron _ _ _ V) in O. lia.
Qed.

Lemma k_has c : has_closer c l -> has_closer c l'.
Proof.
  intros H. destruct (classic_closer t c) as [[p ->]|N].
  - inversion E; subst.
    + right. left. apply (g_to _ _ _ _ _ G).
    + right. right. apply (g_to _ _ _ _ _ G).
    + right. right. apply (g_to _ _ _ _ _ G).
    + contradiction.
  - eapply keep_closer; eauto. eapply eff_live; eauto.
Qed.
Lemma k_closer c : begun c l' -> has_closer c l'.
Proof.
  intros B. assert (D : has_closer c l' \/ begun c l).
  { destruct B as [B|[B|(p & P & B)]].
    - destruct (g_back _ _ _ _ _ G _ B) as [X|[N|O]].
      + destruct E; try discriminate X.
        * destruct n; discriminate X.
        * injection X as ->. right. right. right. exists SCheck. split; [discriminate|]. apply (g_from _ _ _ _ _ G).
        * injection X as ->. right. right. right. exists (SRead j). split; [discriminate|]. apply (g_from _ _ _ _ _ G).
        * injection X as <-. contradiction.
      + newt E N.
      + right. left. exact O.
    - destruct (g_back _ _ _ _ _ G _ B) as [X|[N|O]].
      + destruct E; try discriminate X.
        * destruct n; discriminate X.
        * injection X as <-. contradiction.
      + newt E N.
      + right. right. left. exact O.
    - destruct (g_back _ _ _ _ _ G _ B) as [X|[N|O]].
      + destruct E; try discriminate X.
        * injection X as <- ->. congruence.
        * destruct n; [|discriminate]. injection X as <- ->. congruence.
        * injection X as <- ->. left. left. apply (g_new _ _ _ _ _ G). left. reflexivity.
        * injection X as <- ->. right. right. right. exists SCheck. split; [discriminate|]. apply (g_from _ _ _ _ _ G).
        * injection X as <- ->. right. right. right. exists SLoad. split; [discriminate|]. apply (g_from _ _ _ _ _ G).
        * injection X as <- ->. right. right. right. exists (SRead j). split; [discriminate|]. apply (g_from _ _ _ _ _ G).
      + newt E N.
      + right. right. right. exists p. auto. }
  destruct D as [D|D]; [exact D|]. apply k_has, (i_closer _ _ _ V), D.
Qed.

Lemma k_none : no_err l' -> cur x' = None -> flags x' = [].
Proof.
  intros N C. pose proof (i_none _ _ _ V (k_noerr N)) as H.
  destruct E; auto; try congruence.
  - exfalso. apply N. apply (g_to _ _ _ _ _ G).
  - rewrite (sm_flags _ _ H0). apply H. rewrite <- (sm_cur _ _ H0). exact C.
  - rewrite (sm_flags _ _ H0). apply H. rewrite <- (sm_cur _ _ H0). exact C.
  - rewrite H0. apply H. congruence.
Qed.

Lemma ne_keep : flags x <> [] -> flags x' <> [].
Proof.
  intros H F. pose proof (eff_len _ _ _ _ _ _ E) as Ln. rewrite F in Ln.
  destruct (flags x); [auto|]. cbn in Ln. lia.
Qed.
Lemma cur_ne j : cur x = Some j -> flags x <> [].
Proof. intros H F. apply (i_cur _ _ _ V) in H. rewrite F in H. cbn in H. lia. Qed.

Lemma k_srv c p : k = UP -> no_err l' -> In (TServe c p) l' -> flags x' <> [].
Proof.
  pose proof ne_keep as NK. pose proof k_ended as KE.
  intros K N I. pose proof (k_noerr N) as N'.
  destruct (g_back _ _ _ _ _ G _ I) as [X|[M|O]].
  - destruct E; try discriminate X.
    + eapply cur_ne; eauto.
    + rewrite H. destruct (flags x); discriminate.
    + eapply (i_srv _ _ _ V); eauto. apply (g_from _ _ _ _ _ G).
    + eapply (i_srv _ _ _ V); eauto. apply (g_from _ _ _ _ _ G).
    + eapply (i_srv _ _ _ V); eauto. apply (g_from _ _ _ _ _ G).
    + rewrite (sm_flags _ _ H). eapply (i_srv _ _ _ V); eauto. apply (g_from _ _ _ _ _ G).
  - newt E M.
  - apply NK. eapply (i_srv _ _ _ V); eauto.
Qed.
Lemma k_cls c p : k = UP -> no_err l' -> In (TCloser c p) l' -> flags x' <> [].
Proof.
  intros K N I. pose proof (k_noerr N) as N'. apply ne_keep.
  destruct (g_back _ _ _ _ _ G _ I) as [X|[M|O]].
  - destruct E; try discriminate X.
    + destruct n; discriminate X.
    + eapply (i_cls _ _ _ V); eauto. apply (g_from _ _ _ _ _ G).
  - destruct (eff_new _ _ _ _ _ _ _ E M) as [(c0 & _ & ->)|[(? & X)|(? & X)]]; try discriminate X.
    eapply (i_srv _ _ _ V); eauto. apply (g_from _ _ _ _ _ G).
  - eapply (i_cls _ _ _ V); eauto.
Qed.

Lemma k_done c : In (Ended (CloserDone c)) l' -> no_err l' -> flags x' <> [] /\ (List.length (flags x') = 1 -> flags x' = [false]).
Proof.
  pose proof ne_keep as NK. pose proof k_ended as KE.
  intros I N. pose proof (k_noerr N) as N'.
  destruct (g_back _ _ _ _ _ G _ I) as [X|[M|O]].
  - destruct E; try discriminate X.
    + destruct n; discriminate X.
    + pose proof (cur_ne _ H) as Ne. split; [apply NK, Ne|].
      rewrite H0. rewrite upd_length. intros L. destruct (flags x) as [|b [|]] eqn:F; try discriminate L.
      apply (i_cur _ _ _ V) in H. rewrite F in H. cbn in H. assert (j = 0) by lia. subst j. reflexivity.
    + exfalso. eapply (i_cls _ _ _ V); eauto. apply (g_from _ _ _ _ _ G). apply (i_none _ _ _ V); auto.
    + injection X as <-. contradiction.
  - newt E M.
  - destruct (i_done _ _ _ V _ O N') as (A & B). split; [apply NK, A|].
    destruct E; auto.
    + rewrite H. intros L. exfalso. eapply len1_app; eauto.
    + exfalso. apply N. apply (g_to _ _ _ _ _ G).
    + rewrite (sm_flags _ _ H). exact B.
    + rewrite H0, upd_length. intros L. rewrite (B L). destruct j; [reflexivity|]. unfold upd. destruct (Nat.ltb_spec (S j) (List.length [false])) as [Q|Q]; [cbn in Q; lia|reflexivity].
    + rewrite (sm_flags _ _ H). exact B.
    + rewrite H. exact B.
Qed.

Lemma k_over c : In (TCloser c KClose) l' \/ In (Ended (CloserDone c)) l' -> over c x' = true.
Proof.
  intros I. apply (eff_over _ _ _ _ _ _ _ E). destruct I as [I|I]; destruct (g_back _ _ _ _ _ G _ I) as [X|[M|O]].
  - destruct E; try discriminate X.
    + destruct n; discriminate X.
    + injection X as <-. assumption.
  - newt E M.
  - apply (i_over _ _ _ V). auto.
  - destruct E; try discriminate X.
    + destruct n; discriminate X.
    + injection X as <-. apply (i_over _ _ _ V). left. apply (g_from _ _ _ _ _ G).
    + injection X as <-. apply (i_over _ _ _ V). left. apply (g_from _ _ _ _ _ G).
    + injection X as <-. contradiction.
  - newt E M.
  - apply (i_over _ _ _ V). auto.
Qed.

Lemma k_shut : In false (flags x') -> exists c, In (Ended (CloserDone c)) l'.
Proof.
  pose proof ne_keep as NK. pose proof k_ended as KE.
  intros F. assert (D : (exists c, In (Ended (CloserDone c)) l') \/ In false (flags x)).
  { destruct E; auto.
    - rewrite H in F. apply in_app_or in F. destruct F as [F|[F|[]]]; [auto|discriminate].
    - destruct H as (m & Q & R). rewrite Q in F. apply in_app_or in F. destruct F as [F|F]; [auto|]. apply R in F. discriminate.
    - rewrite (sm_flags _ _ H) in F. auto.
    - left. exists c. apply (g_to _ _ _ _ _ G).
    - rewrite (sm_flags _ _ H) in F. auto.
    - rewrite H in F. auto. }
  destruct D as [D|D]; [exact D|]. destruct (i_shut _ _ _ V D) as (c & I). exists c. apply KE, I.
Qed.

Lemma k_begun c : begun c l -> begun c l'.
Proof.
  pose proof k_ended as KE.
  intros [H|[H|(p & P & H)]]; [left; auto|right; left; auto|].
  destruct (g_keep _ _ _ _ _ G _ H) as [Q|Q].
  - subst t. inversion E; subst; try congruence; try contradiction.
    + left. apply (g_to _ _ _ _ _ G).
    + right. right. exists SLoad. split; [discriminate|]. apply (g_to _ _ _ _ _ G).
    + right. right. exists (SRead j). split; [discriminate|]. apply (g_to _ _ _ _ _ G).
    + right. right. eexists. split; [eassumption|]. apply (g_to _ _ _ _ _ G).
    + left. apply (g_to _ _ _ _ _ G).
  - right. right. exists p. auto.
Qed.
Lemma k_rev c : has_closer c l' -> begun c l'.
Proof.
  intros H. assert (D : begun c l' \/ has_closer c l).
  { destruct H as [H|[H|H]]; destruct (g_back _ _ _ _ _ G _ H) as [X|[M|O]].
    - destruct E; try discriminate X. destruct n; discriminate X.
    - destruct (eff_new _ _ _ _ _ _ _ E M) as [(c0 & X & Y)|[(? & X)|(? & X)]]; try discriminate X.
      injection X as <-. subst t. inversion E; subst; [|contradiction].
      left. right. right. exists p. split; [assumption|]. apply (g_to _ _ _ _ _ G).
    - right. left. exact O.
    - destruct E; try discriminate X; [destruct n; discriminate X|]. injection X as <-. right. left. apply (g_from _ _ _ _ _ G).
    - newt E M.
    - right. right. left. exact O.
    - destruct E; try discriminate X.
      + destruct n; discriminate X.
      + injection X as <-. right. right. left. apply (g_from _ _ _ _ _ G).
      + injection X as <-. right. right. left. apply (g_from _ _ _ _ _ G).
      + injection X as <-. contradiction.
    - newt E M.
    - right. right. right. exact O. }
  destruct D as [D|D]; [exact D|]. apply k_begun, (i_rev _ _ _ V), D.
Qed.

Lemma k_nil c : In (Ended (ServeNil c)) l' -> over c x' = true \/ exists c', In (Ended (CloserDone c')) l'.
Proof.
  pose proof ne_keep as NK. pose proof k_ended as KE.
  intros I. destruct (g_back _ _ _ _ _ G _ I) as [X|[M|O]].
  - destruct E; try discriminate X.
    + destruct n; discriminate X.
    + injection X as <-. auto.
    + right. assert (J : j < List.length (flags x)) by (eapply (i_srd _ _ _ V); apply (g_from _ _ _ _ _ G)).
      destruct (nth_error (flags x) j) as [[|]|] eqn:Q; [congruence| |apply nth_error_None in Q; lia].
      apply nth_error_In in Q. apply (i_shut _ _ _ V) in Q. destruct Q as (c' & Q). exists c'. apply KE, Q.
    + injection X as <-. contradiction.
  - newt E M.
  - destruct (i_nil _ _ _ V _ O) as [A|(c' & A)].
    + left. eapply eff_over; eauto.
    + right. exists c'. apply KE, A.
Qed.

Lemma keep_inv : inv k x' l'.
Proof.
  constructor; eauto using k_fits, k_cur, k_srd, k_ron, k_closer, k_none, k_srv, k_cls, k_done, k_over, k_shut, k_rev, k_nil.
Qed.
End Keep.

(** ** Every reachable state *)
Definition invs (k : kind) (s : st) : Prop := inv k (co s) (threads s).

Lemma lib_inv k s a s' : invs k s -> lib k s a = Some s' -> invs k s'.
Proof.
  unfold invs, lib. intros V H. destruct (panicked s); [discriminate|]. destruct a as [i h|i j].
  - destruct (nth_error (threads s) i) as [t|] eqn:N; [|discriminate].
    destruct (turn k (co s) t h) as [[|x' t' new]|] eqn:T; [|  |discriminate]; injection H as <-.
    + exact V.
    + cbn [co threads]. eapply keep_inv; [eapply chg_upd; exact N| |exact V].
      eapply turn_eff; [|exact T]. apply (i_fits _ _ _ V). eapply nth_error_In; eauto.
  - destruct (nth_error (threads s) i) as [t|] eqn:N; [|discriminate]. destruct t; try discriminate.
    destruct (nth_error (threads s) j) as [t|] eqn:M; [|discriminate]. destruct t; try discriminate.
    injection H as <-. cbn [co threads].
    assert (V1 : inv k (co s) (upd i (Ended (Offered d)) (threads s))).
    { pose proof (chg_upd i _ _ (Ended (Offered d)) [] N) as G. rewrite app_nil_r in G.
      eapply keep_inv; [exact G| |exact V]. apply e_plain; try exact I; [apply same_refl|intros ? []]. }
    assert (M' : nth_error (upd i (Ended (Offered d)) (threads s)) j = Some TReadGTP).
    { rewrite upd_nth. destruct (Nat.eqb_spec j i) as [->|Q]; [congruence|]. exact M. }
    pose proof (chg_upd j _ _ (Ended (ReadGTP (Some d) false)) [] M') as G. rewrite app_nil_r in G.
    eapply keep_inv; [exact G| |exact V1]. apply e_plain; try exact I; [apply same_refl|intros ? []].
Qed.

Lemma inv_same k x x' l : same x x' -> inv k x l -> inv k x' l.
Proof.
  intros S V. destruct S as [A B C D]. destruct V.
  assert (O : forall c, over c x' = over c x) by (intros c; unfold over; rewrite C, D; reflexivity).
  constructor; auto; rewrite ?A, ?B; auto.
  - intros c H. rewrite O. auto.
  - intros c H. rewrite O. auto.
Qed.
Lemma inv_cancel k x l c : inv k x l -> inv k (Core (socks x) (cur x) (closed x) (c :: cancelled x) (wire x)) l.
Proof.
  intros V. destruct V.
  assert (O : forall c', over c' x = true -> over c' (Core (socks x) (cur x) (closed x) (c :: cancelled x) (wire x)) = true).
  { intros c' H. unfold over in *. cbn. destruct (c' =? c); [reflexivity|exact H]. }
  constructor; auto.
  intros c' H. destruct (i_nil0 c' H) as [Q|Q]; auto.
Qed.
Lemma inv_call k x l t : a_call k t = true -> inv k x l -> inv k x (l ++ [t]).
Proof.
  intros A V.
  assert (B : forall z, In z (l ++ [t]) -> In z l \/ z = t).
  { intros z I. apply in_app_or in I. destruct I as [I|[<-|[]]]; auto. }
  assert (K : forall z, In z l -> In z (l ++ [t])) by (intros; apply in_or_app; auto).
  assert (NE : no_err (l ++ [t]) -> no_err l) by (intros N I; apply N, K, I).
  assert (BO : forall o, In (Ended o) (l ++ [t]) -> In (Ended o) l).
  { intros o I. destruct (B _ I) as [J|J]; [exact J|]. subst t. destruct k; discriminate A. }
  constructor.
  - intros z I. destruct (B z I) as [J| ->]; [apply (i_fits _ _ _ V), J|].
    destruct t; cbn; auto. destruct k; [discriminate A|reflexivity].
  - apply (i_cur _ _ _ V).
  - intros c j I. destruct (B _ I) as [J|J]; [eapply (i_srd _ _ _ V); eauto|]. subst t. destruct k; discriminate A.
  - intros j I. destruct (B _ I) as [J|J]; [eapply (i_ron _ _ _ V); eauto|]. subst t. destruct k; discriminate A.
  - intros c I. assert (H : has_closer c l).
    { apply (i_closer _ _ _ V). destruct I as [I|[I|(p & P & I)]].
      - left. auto.
      - right. left. auto.
      - right. right. exists p. split; [exact P|]. destruct (B _ I) as [J|J]; [exact J|]. subst t.
        destruct k, p; try discriminate A; congruence. }
    destruct H as [H|[H|H]]; [left|right; left|right; right]; apply K, H.
  - intros N. apply (i_none _ _ _ V), NE, N.
  - intros c p U N I. destruct (B _ I) as [J|J]; [eapply (i_srv _ _ _ V); eauto|]. subst t k. discriminate A.
  - intros c p U N I. destruct (B _ I) as [J|J]; [eapply (i_cls _ _ _ V); eauto|]. subst t k. discriminate A.
  - intros c I N. eapply (i_done _ _ _ V); eauto.
  - intros c [I|I].
    + destruct (B _ I) as [J|J]; [apply (i_over _ _ _ V); auto|]. subst t. destruct k; discriminate A.
    + apply (i_over _ _ _ V). auto.
  - intros F. destruct (i_shut _ _ _ V F) as (c & I). exists c. apply K, I.
  - intros c H. assert (D : begun c l).
    { apply (i_rev _ _ _ V). destruct H as [H|[H|H]]; destruct (B _ H) as [J|J];
        try (subst t; destruct k; discriminate A); [left|right; left|right; right]; exact J. }
    destruct D as [D|[D|(p & P & D)]]; [left|right; left|right; right; exists p; split; [exact P|]]; apply K, D.
  - intros c I. destruct (i_nil _ _ _ V c (BO _ I)) as [Q|(c' & Q)]; [auto|]. right. exists c'. apply K, Q.
Qed.
Lemma inv_fail k x l i c j : nth_error l i = Some (TServe c (SRead j)) -> inv k x l -> inv k x (upd i (Ended (ServeErr c)) l).
Proof.
  intros N V. pose proof (chg_upd i _ _ (Ended (ServeErr c)) [] N) as G. rewrite app_nil_r in G.
  set (l' := upd i (Ended (ServeErr c)) l) in *. clearbody l'.
  assert (B : forall z, In z l' -> z = Ended (ServeErr c) \/ In z l).
  { intros z I. destruct (g_back _ _ _ _ _ G _ I) as [Q|[[]|Q]]; auto. }
  assert (KE : forall o, In (Ended o) l -> In (Ended o) l').
  { intros o. apply (keep_ended _ _ _ _ _ G). discriminate. }
  assert (NE : no_err l' -> no_err l) by (intros M I; apply M, KE, I).
  constructor.
  - intros z I. destruct (B _ I) as [-> |J]; [exact Logic.I|]. apply (i_fits _ _ _ V), J.
  - apply (i_cur _ _ _ V).
  - intros c' j' I. destruct (B _ I) as [J|J]; [discriminate J|]. eapply (i_srd _ _ _ V); eauto.
  - intros j' I. destruct (B _ I) as [J|J]; [discriminate J|]. eapply (i_ron _ _ _ V); eauto.
  - intros c' H. eapply keep_closer; [exact G|discriminate|discriminate|]. apply (i_closer _ _ _ V).
    destruct H as [H|[H|(p & P & H)]].
    + destruct (B _ H) as [J|J]; [discriminate J|]. left. exact J.
    + destruct (B _ H) as [J|J]; [|right; left; exact J]. injection J as ->. right. right. exists (SRead j).
      split; [discriminate|]. apply (g_from _ _ _ _ _ G).
    + destruct (B _ H) as [J|J]; [discriminate J|]. right. right. exists p. auto.
  - intros M. apply (i_none _ _ _ V), NE, M.
  - intros c' p U M I. destruct (B _ I) as [J|J]; [discriminate J|]. eapply (i_srv _ _ _ V); eauto.
  - intros c' p U M I. destruct (B _ I) as [J|J]; [discriminate J|]. eapply (i_cls _ _ _ V); eauto.
  - intros c' I M. destruct (B _ I) as [J|J]; [discriminate J|]. eapply (i_done _ _ _ V); eauto.
  - intros c' [I|I]; destruct (B _ I) as [J|J]; try discriminate J; apply (i_over _ _ _ V); auto.
  - intros F. destruct (i_shut _ _ _ V F) as (c' & I). exists c'. apply KE, I.
  - intros c' H. assert (D : begun c' l).
    { apply (i_rev _ _ _ V). destruct H as [H|[H|H]]; destruct (B _ H) as [J|J];
        try discriminate J; [left|right; left|right; right]; exact J. }
    destruct D as [D|[D|(p & P & D)]]; [left; auto|right; left; auto|].
    destruct (g_keep _ _ _ _ _ G _ D) as [Q|Q].
    + injection Q as -> _. right. left. apply (g_to _ _ _ _ _ G).
    + right. right. exists p. auto.
  - intros c' I. destruct (B _ I) as [J|J]; [discriminate J|].
    destruct (i_nil _ _ _ V c' J) as [Q|(c2 & Q)]; [auto|]. right. exists c2. apply KE, Q.
Qed.

Lemma arrive_same x j q d : nth_error (socks x) j = Some (Sk true q) -> same x (set_socks (upd j (Sk true (q ++ [d])) (socks x)) x).
Proof.
  intros H. constructor; try reflexivity. unfold flags. cbn [set_socks socks]. rewrite upd_map. apply upd_same.
  rewrite nth_error_map, H. reflexivity.
Qed.

Lemma env_inv k s e s' : invs k s -> env k s e = Some s' -> invs k s'.
Proof.
  unfold invs, env. intros V H. destruct (panicked s); [discriminate|]. destruct e.
  - destruct (a_call k t) eqn:A; [|discriminate]. injection H as <-. cbn [co threads]. apply inv_call; assumption.
  - injection H as <-. cbn [co threads]. apply inv_cancel. exact V.
  - destruct (nth_error (socks (co s)) j) as [[[|] q]|] eqn:E; try discriminate. injection H as <-. cbn [co threads].
    eapply inv_same; [apply arrive_same; exact E|exact V].
  - destruct (nth_error (threads s) i) as [t|] eqn:N; [|discriminate]. destruct t; try discriminate.
    destruct p; try discriminate. destruct (nth_error (socks (co s)) j) as [[[|] q]|]; try discriminate.
    destruct (cur (co s)); injection H as <-; cbn [co threads].
    + eapply inv_fail; eauto.
    + exact V.
Qed.

Lemma inv_new k : invs k new_conn.
Proof.
  constructor; cbn; try tauto; try discriminate; try (intros; contradiction).
  - intros c [[]|[[]|(p & _ & [])]].
  - intros c [[]|[[]|[]]].
Qed.
Lemma step_inv k s s' : invs k s -> step k s s' -> invs k s'.
Proof. intros V [[a H]|[e H]]; [eapply lib_inv|eapply env_inv]; eauto. Qed.
Lemma reach_inv k s : reachable k s -> invs k s.
Proof.
  intros H. unfold reachable in H. remember new_conn as s0 eqn:E. induction H.
  - subst. apply inv_new.
  - eapply step_inv; eauto.
Qed.

(** ** What is left to do *)
Lemma quiet_turn k s t h : quiet k s -> In t (threads s) -> turn k (co s) t h = None.
Proof.
  intros [P Q] I. destruct (turn k (co s) t h) as [r|] eqn:T; [|reflexivity]. exfalso.
  apply In_nth_error in I. destruct I as [i I].
  destruct r as [|x' t' new].
  - eapply Q. exists (Run i h). unfold lib. rewrite P, I, T. reflexivity.
  - eapply Q. exists (Run i h). unfold lib. rewrite P, I, T. reflexivity.
Qed.

Lemma quiet_read k s j : In (TReadOn j) (threads s) \/ (exists c, In (TServe c (SRead j)) (threads s)) ->
  quiet k s -> nth_error (flags (co s)) j = Some true.
Proof.
  intros H Q. assert (R : read_sock j (co s) = RWait).
  { destruct H as [H|[c H]]; pose proof (quiet_turn _ _ _ First Q H) as T; cbn in T;
      destruct (read_sock j (co s)); congruence. }
  apply read_wait, R.
Qed.

(** A thread that has not ended although nothing is left to do waits for a datagram at an open
    socket, for the end of its context, or for a T-PDU. *)
Lemma quiet_threads k s t : invs k s -> quiet k s -> In t (threads s) ->
  (exists o, t = Ended o) \/
  (exists j, (t = TReadOn j \/ exists c, t = TServe c (SRead j)) /\ nth_error (flags (co s)) j = Some true) \/
  (exists c, t = TCloser c KWait /\ over c (co s) = false) \/
  (t = TReadGTP /\ closed (co s) = false).
Proof.
  intros V Q I. pose proof (quiet_turn _ _ _ First Q I) as T. destruct t; cbn in T; try discriminate; eauto.
  - destruct p; cbn in T; try discriminate.
    right. left. exists j. split; [right; eauto|]. eapply quiet_read; eauto.
  - destruct p; cbn in T; [|discriminate]. destruct (over c (co s)) eqn:O; [discriminate|]. eauto 6.
  - destruct (closed (co s)); [discriminate|]. auto.
  - right. left. exists j. split; [left; reflexivity|]. eapply quiet_read; eauto.
Qed.

Lemma over_closed c x : closed x = true -> over c x = true.
Proof. unfold over. intros ->. apply orb_true_r. Qed.
Lemma over_can c x : In c (cancelled x) -> over c x = true.
Proof. unfold over. intros I. apply orb_true_iff. left. apply existsb_exists. exists c. split; [exact I|apply Nat.eqb_refl]. Qed.

Lemma served_begun k s c : invs k s -> quiet k s -> served s c -> begun c (threads s).
Proof.
  intros V Q [H|[H|(p & H)]]; [left; auto|right; left; auto|].
  right. right. exists p. split; [|exact H]. intros ->.
  pose proof (quiet_turn _ _ _ First Q H) as T. discriminate T.
Qed.

(** Once the context of one Serve is over, its socket is closed. *)
Lemma over_shut k s c : invs k s -> quiet k s -> opened_once s -> served s c -> over c (co s) = true -> flags (co s) = [false].
Proof.
  intros V Q [L N] S O. apply served_begun with (k := k) in S; auto.
  apply (i_closer _ _ _ V) in S. assert (D : In (Ended (CloserDone c)) (threads s)).
  { destruct S as [S|[S|S]]; [| |exact S]; pose proof (quiet_turn _ _ _ First Q S) as T; cbn in T.
    - rewrite O in T. discriminate.
    - discriminate. }
  destruct (i_done _ _ _ V _ D N) as [_ B]. apply B. rewrite flags_len. exact L.
Qed.
Lemma shut_all s : flags (co s) = [false] -> all_shut s.
Proof.
  unfold all_shut, flags. intros F x I. destruct (socks (co s)) as [|y [|]]; try discriminate F.
  destruct I as [<-|[]]. injection F as F. exact F.
Qed.
