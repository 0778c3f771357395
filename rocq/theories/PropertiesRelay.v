(** C61: the deprecated Relay. *)
From Coq Require Import Lia.
From Verif Require Import Base Maps MapsProofs URelay.
Open Scope N_scope.
Open Scope list_scope.
Opaque copied.


(** ** What the history says (newest event first) *)
(** the target registered for a TEID *)
Fixpoint target_for (t : N) (l : list event) : option target :=
  match l with
  | [] => None
  | EvAdd x q :: r => if x =? t then Some q else target_for t r
  | _ :: r => target_for t r
  end.
(** the T-PDUs received on a side, oldest first: TEID and payload *)
Fixpoint got (s : side) (l : list event) : list (N * bytes) :=
  match l with
  | [] => []
  | EvGot x t p :: r => if side_eqb x s then got s r ++ [(t, p)] else got s r
  | _ :: r => got s r
  end.
(** the packets sent on a side, oldest first: target and payload *)
Fixpoint fwd (s : side) (l : list event) : list (target * bytes) :=
  match l with
  | [] => []
  | EvFwd x q p :: r => if side_eqb x s then fwd s r ++ [(q, p)] else fwd s r
  | _ :: r => fwd s r
  end.
(** out is in with some elements left out and the others mapped to a target that was
    registered for their TEID: nothing invented, nothing twice, order kept *)
Inductive relayed (l : list event) : list (N * bytes) -> list (target * bytes) -> Prop :=
| r_nil : relayed l [] []
| r_drop t p i o : relayed l i o -> relayed l (i ++ [(t, p)]) o
| r_pass t p q i o : relayed l i o -> In (EvAdd t q) l -> relayed l (i ++ [(t, p)]) (o ++ [(q, p)]).

Lemma relayed_more l e i o : relayed l i o -> relayed (e :: l) i o.
Proof. induction 1; [constructor|constructor; assumption|constructor; [assumption|right; assumption]]. Qed.
Lemma target_in t q l : target_for t l = Some q -> In (EvAdd t q) l.
Proof.
  induction l as [|e l IH]; cbn; [discriminate|]. destruct e; auto.
  destruct (N.eqb_spec t0 t) as [->|]; [|auto]. intros [= ->]. auto.
Qed.
Lemma side_refl s : side_eqb s s = true.
Proof. destruct s; reflexivity. Qed.
Lemma side_sym x s : side_eqb x s = side_eqb s x.
Proof. destruct x, s; reflexivity. Qed.
Lemma side_true x s : side_eqb x s = true -> x = s.
Proof. destruct x, s; cbn; congruence. Qed.
Lemma side_false x s : side_eqb x s = false -> x = other s.
Proof. destruct x, s; cbn; congruence. Qed.

Definition no_conn_closed (l : list event) : Prop := forall s, ~ In (EvConnClosed s) l.
Definition goes_on (l : list event) (s : side) (lp : loop) : Prop :=
  match lp with
  | LGot t p => exists i, got s l = i ++ [(t, p)] /\ relayed l i (fwd (other s) l)
  | LSend q p => exists i t, got s l = i ++ [(t, p)] /\ relayed l i (fwd (other s) l) /\ In (EvAdd t q) l
  | LTop | LRead | LEnd => relayed l (got s l) (fwd (other s) l)
  end.
Record inv (w : world) : Prop := Inv {
  i_pairs : forall t, aget (w_pairs w) t = target_for t (w_log w);
  i_conn : forall s, w_conn_closed w s = true -> In (EvConnClosed s) (w_log w);
  i_loop : no_conn_closed (w_log w) -> forall s, goes_on (w_log w) s (get_loop w s) }.

Lemma goes_on_more l e s lp : (match e with EvGot _ _ _ | EvFwd _ _ _ => False | _ => True end) ->
  goes_on l s lp -> goes_on (e :: l) s lp.
Proof.
  intros He. destruct e; try contradiction He; destruct lp; cbn [goes_on got fwd]; intros H;
  try (apply relayed_more; exact H).
  all: try (destruct H as [i [H1 H2]]; exists i; split; [exact H1|apply relayed_more; exact H2]).
  all: destruct H as [i [t' [H1 [H2 H3]]]]; exists i, t'; split; [exact H1|]; split; [apply relayed_more; exact H2|right; exact H3].
Qed.
Lemma start_inv : inv start.
Proof. constructor; cbn; [reflexivity|discriminate|]. intros _ []; cbn; constructor. Qed.
Lemma get_goes w s lp x : get_loop (goes w s lp) x = if side_eqb x s then lp else get_loop w x.
Proof. destruct s, x; reflexivity. Qed.
Lemma other_neq s : side_eqb s (other s) = false /\ side_eqb (other s) s = false.
Proof. destruct s; auto. Qed.
Lemma step_inv w a w' : inv w -> step w a = Some w' -> inv w'.
Proof.
  intros [Hp Hc Hl] H.
  assert (Hmore : forall e, (match e with EvGot _ _ _ | EvFwd _ _ _ => False | _ => True end) ->
    no_conn_closed (e :: w_log w) -> forall s, goes_on (e :: w_log w) s (get_loop w s)).
  { intros e He Hn s. apply goes_on_more; [exact He|]. apply Hl. intros x Hx. apply (Hn x). right. exact Hx. }
  destruct a as [t q|s|s t p|s|o1 o2|s|s]; cbn [step] in H.
  - injection H as <-. constructor; cbn [emit w_pairs w_log w_conn_closed].
    + intros x. rewrite aget_aput. cbn [target_for]. rewrite (N.eqb_sym t x). destruct (x =? t); [reflexivity|apply Hp].
    + intros s Hs. right. apply Hc, Hs.
    + intros Hn s. exact (Hmore (EvAdd t q) I Hn s).
  - destruct (get_loop w s) as [| |t p|q p|] eqn:E; try discriminate H.
    + injection H as <-. constructor; [exact Hp|exact Hc|].
      intros Hn x. cbn [goes w_log]. rewrite get_goes. specialize (Hl Hn x).
      destruct (side_eqb x s) eqn:Ex; [|exact Hl].
      assert (x = s) by (apply side_true, Ex). subst x. rewrite E in Hl. destruct (w_closed w); exact Hl.
    + injection H as <-. constructor; [exact Hp|exact Hc|].
      intros Hn x. cbn [goes w_log]. rewrite get_goes. specialize (Hl Hn x).
      destruct (side_eqb x s) eqn:Ex; [|exact Hl].
      assert (x = s) by (apply side_true, Ex). subst x. rewrite E in Hl. cbn [goes_on] in Hl.
      destruct Hl as [i [H1 H2]]. rewrite Hp. destruct (target_for t (w_log w)) as [q|] eqn:Et; cbn [goes_on].
      * exists i, t. split; [exact H1|]. split; [exact H2|apply target_in, Et].
      * rewrite H1. apply r_drop. exact H2.
    + injection H as <-. constructor; cbn [goes emit w_pairs w_conn_closed w_log].
      * exact Hp.
      * intros x Hx. right. apply Hc, Hx.
      * intros Hn x. rewrite get_goes. cbn [emit].
        assert (Hn' : no_conn_closed (w_log w)) by (intros y Hy; apply (Hn y); right; exact Hy).
        specialize (Hl Hn' x). destruct (other_neq s) as [O1 O2].
        destruct (side_eqb x s) eqn:Ex.
        -- assert (x = s) by (apply side_true, Ex). subst x. rewrite E in Hl. cbn [goes_on] in Hl |- *.
           destruct Hl as [i [t [H1 [H2 H3]]]]. cbn [got fwd]. rewrite side_refl, H1.
           apply r_pass; [apply relayed_more; exact H2|right; exact H3].
        -- assert (x = other s) by (apply side_false, Ex). subst x.
           replace (get_loop (emit w (EvFwd (other s) q p)) (other s)) with (get_loop w (other s)) by (destruct s; reflexivity).
           assert (Ef : forall l, fwd (other (other s)) (EvFwd (other s) q p :: l) = fwd (other (other s)) l)
             by (intros l; destruct s; reflexivity).
           destruct (get_loop w (other s)); cbn [goes_on] in *; cbn [got]; rewrite ?Ef.
           1,2,5: apply relayed_more; exact Hl.
           ++ destruct Hl as [i [H1 H2]]. exists i. split; [exact H1|apply relayed_more; exact H2].
           ++ destruct Hl as [i [t' [H1 [H2 H3]]]]. exists i, t'. split; [exact H1|]. split; [apply relayed_more; exact H2|right; exact H3].
  - destruct (get_loop w s) eqn:E; try discriminate H. injection H as <-.
    constructor; cbn [goes emit w_pairs w_conn_closed w_log].
    + exact Hp.
    + intros x Hx. right. apply Hc, Hx.
    + intros Hn x. rewrite get_goes. cbn [emit].
      assert (Hn' : no_conn_closed (w_log w)) by (intros y Hy; apply (Hn y); right; exact Hy).
      specialize (Hl Hn' x). destruct (side_eqb x s) eqn:Ex.
      * assert (x = s) by (apply side_true, Ex). subst x. rewrite E in Hl. cbn [goes_on] in Hl |- *.
        exists (got s (w_log w)). cbn [got fwd]. rewrite side_refl. split; [reflexivity|apply relayed_more; exact Hl].
      * replace (get_loop (emit w (EvGot s t (copied p))) x) with (get_loop w x) by (destruct x; reflexivity).
        assert (Eg : forall l, got x (EvGot s t (copied p) :: l) = got x l)
          by (intros l; cbn [got]; rewrite side_sym, Ex; reflexivity).
        destruct (get_loop w x); cbn [goes_on] in *; rewrite ?Eg; cbn [fwd].
        1,2,5: apply relayed_more; exact Hl.
        ++ destruct Hl as [i [H1 H2]]. exists i. split; [exact H1|apply relayed_more; exact H2].
        ++ destruct Hl as [i [t' [H1 [H2 H3]]]]. exists i, t'. split; [exact H1|]. split; [apply relayed_more; exact H2|right; exact H3].
  - destruct (get_loop w s) eqn:E; try discriminate H. destruct (w_conn_closed w s) eqn:Ec; [|discriminate H]. injection H as <-.
    constructor; [exact Hp|exact Hc|]. intros Hn. exfalso. apply (Hn s). apply Hc, Ec.
  - destruct o1; cbn [negb] in H.
    2:{ injection H as <-. constructor; assumption. }
    destruct o2; cbn [negb] in H.
    2:{ injection H as <-. constructor; [exact Hp|exact Hc|]. intros Hn x. exact (Hl Hn x). }
    cbn [set_deadline w_closed] in H. destruct (w_closed w); [discriminate|]. injection H as <-.
    constructor; cbn [emit set_deadline w_pairs w_conn_closed w_log].
    + exact Hp.
    + intros x Hx. right. apply Hc, Hx.
    + intros Hn x. exact (Hmore EvClosed I Hn x).
  - injection H as <-. constructor; cbn [emit w_pairs w_conn_closed w_log].
    + exact Hp.
    + intros x. unfold sput. destruct (side_eqb x s) eqn:Ex; [|intros Hx; right; apply Hc, Hx].
      intros _. left. f_equal. symmetry. apply side_true, Ex.
    + intros Hn. exfalso. apply (Hn s). left. reflexivity.
  - destruct (w_deadline w s && w_served w s)%bool; [|discriminate]. injection H as <-.
    constructor; cbn [emit w_pairs w_conn_closed w_log].
    + exact Hp.
    + intros x Hx. right. apply Hc, Hx.
    + intros Hn x. exact (Hmore (EvUnserved s) I Hn x).
Qed.
Lemma run_inv ls : forall w w', inv w -> run w ls = Some w' -> inv w'.
Proof.
  induction ls as [|l ls IH]; intros w w' I; cbn [run]; [intros [= <-]; exact I|].
  destruct (step w l) as [w1|] eqn:E; [|discriminate]. intros H. eapply IH; [|exact H]. eapply step_inv; eassumption.
Qed.

(** Until one of the connections is closed: what is sent on one connection is what was
    received on the other, in order, each at most once, payload unchanged (cut to 1600
    octets), to a TEID and address registered for the TEID it came with. *)
Theorem C61_v1_relay : forall ls w s, run start ls = Some w -> no_conn_closed (w_log w) ->
  relayed (w_log w) (got s (w_log w)) (fwd (other s) (w_log w)).
Proof.
  intros ls w s H Hn. pose proof (i_loop _ (run_inv _ _ _ start_inv H) Hn s) as Hg.
  destruct (get_loop w s); cbn [goes_on] in Hg; try exact Hg.
  - destruct Hg as [i [-> H2]]. apply r_drop. exact H2.
  - destruct Hg as [i [t [-> [H2 _]]]]. apply r_drop. exact H2.
Qed.
Print Assumptions C61_v1_relay.
Definition demo : list label :=
  [AAdd 1 (11, 100); AStep Left; AStep Right; ATpdu Left 1 [7; 8]; AStep Left; ATpdu Right 5 [9]; AStep Left; AStep Right;
   AStep Left; ATpdu Left 2 [3]; AStep Left].
Example C61_v1_relay_example :
  option_map (fun w => (got Left (w_log w), fwd Right (w_log w))) (run start demo) =
  Some ([(1, [7; 8]); (2, [3])], [((11, 100), [7; 8])]).
Proof. vm_compute. reflexivity. Qed.

(** A T-PDU whose TEID is registered is sent on by the goroutine that received it, in two
    steps, unless it is delayed; it needs nothing else.  Up to 1600 octets of payload go
    through unchanged. *)
Theorem C61_v1_relay_forwards : forall ls w s t p q,
  run start ls = Some w -> get_loop w s = LRead -> target_for t (w_log w) = Some q ->
  exists w', run w [ATpdu s t p; AStep s; AStep s] = Some w' /\
             w_log w' = EvFwd (other s) q (firstn 1600 p) :: EvGot s t (firstn 1600 p) :: w_log w /\ get_loop w' s = LTop /\
             ((len p <= 1600)%nat -> firstn 1600 p = p).
Proof.
  intros ls w s t p q H Hr Ht. rewrite <- (i_pairs _ (run_inv _ _ _ start_inv H)) in Ht.
  cbn [run step]. rewrite Hr. destruct s; cbn [get_loop goes emit w_left w_right w_pairs]; rewrite Ht;
    cbn [get_loop goes w_left w_right]; eexists; (split; [reflexivity|split; [reflexivity|split; [reflexivity|intros Hl; apply firstn_all2, Hl]]]).
Qed.
Print Assumptions C61_v1_relay_forwards.
Example C61_v1_relay_forwards_example :
  option_map (fun w => (get_loop w Right, target_for 1 (w_log w))) (run start (demo ++ [AStep Right])) =
  Some (LRead, Some (11, 100)).
Proof. vm_compute. reflexivity. Qed.

(** The pairs do not say which connection they are for: a TEID registered for one direction
    is relayed in the other too. *)
Theorem C61_v1_direction_refuted : forall t q p s, exists ls w,
  run start ls = Some w /\ w_log w = [EvFwd (other s) q (firstn 1600 p); EvGot s t (firstn 1600 p); EvAdd t q].
Proof.
  intros t q p s. exists [AAdd t q; AStep s; ATpdu s t p; AStep s; AStep s]. cbn [run step].
  destruct s; cbn [get_loop start emit goes w_left w_right w_pairs aput aget adel filter w_closed]; rewrite N.eqb_refl;
    eexists; split; reflexivity.
Qed.
Print Assumptions C61_v1_direction_refuted.

(** Close does not stop a goroutine that waits for a T-PDU: the next one is still relayed,
    after Close has returned. *)
Theorem C61_v1_close_refuted : forall t q p s, exists ls w,
  run start ls = Some w /\
  w_log w = [EvFwd (other s) q (firstn 1600 p); EvGot s t (firstn 1600 p); EvClosed; EvAdd t q] /\ w_closed w = true.
Proof.
  intros t q p s. exists [AAdd t q; AStep s; AClose true true; ATpdu s t p; AStep s; AStep s]. cbn [run step negb].
  destruct s; cbn [get_loop start emit goes set_deadline w_left w_right w_pairs aput aget adel filter w_closed]; rewrite N.eqb_refl;
    eexists; split; try split; reflexivity.
Qed.
Print Assumptions C61_v1_close_refuted.
(** and then no more: after Close each goroutine relays at most one T-PDU. *)
Definition room (lp : loop) : nat := match lp with LRead | LGot _ _ | LSend _ _ => 1 | LTop | LEnd => 0 end.
Lemma closed_room ls s : forall w w', w_closed w = true -> run w ls = Some w' ->
  (List.length (fwd (other s) (w_log w')) <= List.length (fwd (other s) (w_log w)) + room (get_loop w s))%nat.
Proof.
  induction ls as [|a ls IH]; intros w w' Hc; cbn [run]; [intros [= <-]; lia|].
  destruct (step w a) as [w1|] eqn:E; [|discriminate]. intros H.
  assert (K : w_closed w1 = true /\
    (List.length (fwd (other s) (w_log w1)) + room (get_loop w1 s) <=
     List.length (fwd (other s) (w_log w)) + room (get_loop w s))%nat).
  { destruct a as [t q|x|x t p|x|o1 o2|x|x]; cbn [step] in E.
    - injection E as <-. split; [exact Hc|]. cbn. destruct s; cbn; lia.
    - destruct (get_loop w x) as [| |t p|q p|] eqn:Ex; try discriminate E.
      + injection E as <-. split; [exact Hc|]. rewrite get_goes, Hc. cbn [goes w_log].
        destruct (side_eqb s x) eqn:Es; [|lia]. assert (s = x) by (apply side_true, Es). subst x. rewrite Ex. cbn. lia.
      + injection E as <-. split; [exact Hc|]. rewrite get_goes. cbn [goes w_log].
        destruct (side_eqb s x) eqn:Es; [|lia]. assert (s = x) by (apply side_true, Es). subst x. rewrite Ex.
        destruct (aget (w_pairs w) t); cbn [room]; lia.
      + injection E as <-. split; [exact Hc|]. rewrite get_goes. cbn [goes emit w_log fwd].
        destruct (side_eqb s x) eqn:Es.
        * assert (s = x) by (apply side_true, Es). subst x. rewrite Ex, side_refl, app_length. cbn. lia.
        * replace (side_eqb (other x) (other s)) with false by (destruct s, x; cbn in *; congruence).
          replace (get_loop (emit w (EvFwd (other x) q p)) s) with (get_loop w s) by (destruct s; reflexivity). lia.
    - destruct (get_loop w x) eqn:Ex; try discriminate E. injection E as <-. split; [exact Hc|].
      rewrite get_goes. cbn [goes emit w_log fwd].
      replace (get_loop (emit w (EvGot x t (copied p))) s) with (get_loop w s) by (destruct s; reflexivity).
      destruct (side_eqb s x) eqn:Es; [|lia]. assert (s = x) by (apply side_true, Es). subst x. rewrite Ex. cbn. lia.
    - destruct (get_loop w x) eqn:Ex; try discriminate E. destruct (w_conn_closed w x); [|discriminate]. injection E as <-.
      split; [exact Hc|]. rewrite get_goes. cbn [goes w_log].
      destruct (side_eqb s x) eqn:Es; [|lia]. assert (s = x) by (apply side_true, Es). subst x. rewrite Ex. cbn. lia.
    - destruct o1; cbn [negb] in E; [|injection E as <-; split; [exact Hc|lia]].
      destruct o2; cbn [negb] in E; [|injection E as <-; split; [exact Hc|destruct s; cbn; lia]].
      cbn [set_deadline w_closed] in E. rewrite Hc in E. discriminate.
    - injection E as <-. split; [exact Hc|]. destruct s; cbn; lia.
    - destruct (w_deadline w x && w_served w x)%bool; [|discriminate]. injection E as <-. split; [exact Hc|]. destruct s; cbn; lia. }
  destruct K as [K1 K2]. specialize (IH _ _ K1 H). lia.
Qed.
Theorem C61_v1_close_partial : forall ls w ls' w' s,
  run start ls = Some w -> In EvClosed (w_log w) -> run w ls' = Some w' ->
  (List.length (fwd s (w_log w')) <= List.length (fwd s (w_log w)) + 1)%nat.
Proof.
  intros ls w ls' w' s H Hin H'.
  assert (Hc : w_closed w = true).
  { assert (G : forall ls w0 w1, run w0 ls = Some w1 -> (In EvClosed (w_log w0) -> w_closed w0 = true) ->
                (In EvClosed (w_log w1) -> w_closed w1 = true)).
    { clear. induction ls as [|a ls IH]; intros w0 w1; cbn [run]; [intros [= <-]; auto|].
      destruct (step w0 a) as [w2|] eqn:E; [|discriminate]. intros H Hi. eapply IH; [exact H|]. clear H IH ls.
      destruct a as [t q|x|x t p|x|o1 o2|x|x]; cbn [step] in E.
      - injection E as <-. cbn. intros [[=]|H]. auto.
      - destruct (get_loop w0 x); try discriminate E; injection E as <-; cbn; auto. intros [[=]|H]. auto.
      - destruct (get_loop w0 x); try discriminate E; injection E as <-; cbn; auto. intros [[=]|H]. auto.
      - destruct (get_loop w0 x); try discriminate E. destruct (w_conn_closed w0 x); [|discriminate]. injection E as <-. cbn. auto.
      - destruct o1; cbn [negb] in E; [|injection E as <-; auto].
        destruct o2; cbn [negb] in E; [|injection E as <-; auto].
        cbn [set_deadline w_closed] in E. destruct (w_closed w0); [discriminate|]. injection E as <-. reflexivity.
      - injection E as <-. cbn. intros [[=]|H]. auto.
      - destruct (w_deadline w0 x && w_served w0 x)%bool; [|discriminate]. injection E as <-. cbn. intros [[=]|H]. auto. }
    eapply G; [exact H|intros []|exact Hin]. }
  pose proof (closed_room ls' (other s) w w' Hc H') as K.
  replace (other (other s)) with s in K by (destruct s; reflexivity).
  assert (room (get_loop w (other s)) <= 1)%nat by (destruct (get_loop w (other s)); cbn; lia). lia.
Qed.
Print Assumptions C61_v1_close_partial.
Example C61_v1_close_partial_example :
  option_map (fun w => (hd EvClosed (w_log w), List.length (fwd Right (w_log w)))) (run start (demo ++ [AClose true true])) =
  Some (EvClosed, 1%nat).
Proof. vm_compute. reflexivity. Qed.

(** "It does not close the UPlaneConn": but the read deadlines Close sets end the serving of
    both connections; they receive nothing more. *)
Theorem C61_v1_close_unserves_refuted : exists ls w, run start ls = Some w /\
  w_served w Left = false /\ w_served w Right = false /\
  w_log w = [EvUnserved Right; EvUnserved Left; EvClosed].
Proof. exists [AClose true true; ALate Left; ALate Right]. eexists. repeat split; reflexivity. Qed.
Print Assumptions C61_v1_close_unserves_refuted.

(** When a connection is closed, ReadFromGTP returns at once with TEID 0: if TEID 0 has been
    registered the goroutine sends empty packets for ever. *)
Theorem C61_v1_closed_conn_flood_refuted : forall q s n, exists ls w, run start ls = Some w /\
  got s (w_log w) = [] /\ fwd (other s) (w_log w) = repeat (q, []) n.
Proof.
  intros q s n.
  assert (G : forall n, exists ls w, run start ls = Some w /\ got s (w_log w) = [] /\
    fwd (other s) (w_log w) = repeat (q, []) n /\ get_loop w s = LTop /\ w_closed w = false /\
    w_conn_closed w s = true /\ aget (w_pairs w) 0 = Some q).
  { clear n. induction n as [|n [ls [w [H [Hg [Hf [Hl [Hc [Hcc Hp]]]]]]]]].
    - exists [AAdd 0 q; AConnClose s]. eexists. split; [reflexivity|]. destruct s; repeat split.
    - exists (ls ++ [AStep s; AEmpty s; AStep s; AStep s]).
      assert (R : forall l1 l2 w0, run w0 (l1 ++ l2) = match run w0 l1 with Some x => run x l2 | None => None end).
      { clear. induction l1 as [|a l1 IH]; intros l2 w0; cbn; [reflexivity|]. destruct (step w0 a); [apply IH|reflexivity]. }
      rewrite R, H. cbn [run step]. rewrite Hl, Hc.
      destruct s; cbn [get_loop goes w_left w_right w_conn_closed w_pairs emit]; rewrite Hcc;
        cbn [get_loop goes w_left w_right w_conn_closed w_pairs emit]; rewrite Hp;
        cbn [get_loop goes w_left w_right w_conn_closed w_pairs emit]; eexists; (split; [reflexivity|]);
        cbn [w_log got fwd side_eqb other get_loop w_left w_right w_closed w_conn_closed w_pairs goes emit];
        cbn [other] in Hf; rewrite Hg, Hf, <- repeat_cons; repeat split; assumption. }
  destruct (G n) as [ls [w [H [Hg [Hf _]]]]]. exists ls, w. auto.
Qed.
Print Assumptions C61_v1_closed_conn_flood_refuted.
