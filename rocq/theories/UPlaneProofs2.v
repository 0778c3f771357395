(** Consequences of the user-plane invariant. *)
From Coq Require Import String Lia.
From Verif Require Import Maps MapsProofs Base BaseLemmas TvIE V1Header V2IE V2Codec MsgModel Msgs1Gen V1Msg
  V1HeaderSpec V1HeaderProofs MsgSpec MsgProofs V1MsgProofs TpduProofs UPlane USpec UPlaneProofs.
Open Scope N_scope.
Open Scope list_scope.

Lemma ok_inj1 {A} (a b : A) : Ok a = Ok b -> a = b. Proof. congruence. Qed.
Definition locals_ok (local : N -> option bytes) : Prop := forall c, parsed_ip (local c).

Lemma history_event local l2 e l1 : locals_ok local -> history local (l2 ++ e :: l1) -> event_ok local e l1.
Proof.
  intros HL (ls & w & R & E). pose proof (reachable_inv local ls w HL R) as I.
  exact (iv_log _ _ I _ _ _ E).
Qed.
Lemma hist_app id l2 l1 : hist id (l2 ++ l1) = hist id l2 ++ hist id l1.
Proof. apply filter_app. Qed.
Lemma hist_in id e l : In e (hist id l) -> In e l.
Proof. intros H. apply filter_In in H. apply H. Qed.

(** an event of [id] never follows a final one *)
Lemma event_live local e l id : event_ok local e l -> about id e = true -> final (hist id l) = false.
Proof.
  intros H A. destruct e; cbn [about] in A; try discriminate; cbn [event_ok] in H;
    try (apply N.eqb_eq in A; subst id);
    repeat match goal with
    | H : exists _, _ |- _ => destruct H as [? H]
    | H : _ /\ _ |- _ => destruct H
    end;
    try match goal with E : hist _ _ = _ |- _ => rewrite E; reflexivity end;
    try (eapply misses_final; eassumption); try (eapply arrived_final; eassumption).
  - destruct H as [(? & ? & ? & -> & _)|[(? & ? & ? & ? & -> & _)|(? & ? & ? & ? & -> & _)]]; reflexivity.
  - apply Bool.orb_prop in A. destruct A as [A|A]; apply N.eqb_eq in A; subst id;
      match goal with E : hist _ _ = _ |- _ => rewrite E; reflexivity end.
  - exact H.
  - destruct H as [(? & ? & ? & -> & _)|[(? & ? & ? & ? & ? & -> & _)|[(? & ? & ? & ? & ? & ? & -> & _)|
      [(? & ? & ? & ->)|[(? & ? & ? & ? & -> & _)|(-> & _)]]]]]; reflexivity.
Qed.
Lemma final_last local l2 l1 id : locals_ok local -> history local (l2 ++ l1) -> final (hist id l1) = true -> hist id l2 = [].
Proof.
  intros HL H F. assert (G : forall a b, l2 = a ++ b -> hist id b = []).
  { intros a b. revert a. induction b as [|e b IH]; intros a E; [reflexivity|].
    assert (Hb : hist id b = []). { apply (IH (a ++ [e])). now rewrite <- app_assoc. }
    unfold hist in *. cbn. rewrite Hb. destruct (about id e) eqn:A; [|reflexivity]. exfalso.
    rewrite E, <- app_assoc in H. cbn in H.
    pose proof (event_live local e (b ++ l1) id (history_event _ _ _ _ HL H) A) as X.
    rewrite hist_app in X. unfold hist in X. rewrite Hb in X. cbn in X. unfold hist in F. congruence. }
  now apply (G []).
Qed.
Lemma locate id e l h : hist id l = e :: h -> exists l2 l1, l = l2 ++ e :: l1 /\ hist id l1 = h /\ hist id l2 = [].
Proof.
  induction l as [|x l IH]; [discriminate|]. unfold hist in *. cbn. destruct (about id x) eqn:A.
  - intros [= -> <-]. exists [], l. auto.
  - intros H. destruct (IH H) as (l2 & l1 & -> & E & F). exists (x :: l2), l1. cbn. rewrite A. auto.
Qed.

(** ** Allocation *)
Lemma taken_fresh local l2 id c t l1 : locals_ok local -> history local (l2 ++ EvTaken id c t :: l1) ->
  t <> 0 /\ t < 4294967296 /\ ~ In t (held c l1).
Proof. intros HL H. pose proof (history_event _ _ _ _ HL H) as E. cbn [event_ok] in E. tauto. Qed.
Lemma returned_taken local l2 id c t r l1 : locals_ok local -> history local (l2 ++ EvTeid id c t r :: l1) ->
  In (EvTaken id c t) l1 /\ t <> 0 /\ t < 4294967296 /\ exists ift v4 v6, r = new_fteid default_grouped ift t v4 v6.
Proof.
  intros HL H. pose proof (history_event _ _ _ _ HL H) as E. cbn [event_ok] in E.
  destruct E as ((h0 & Eh & M) & Er). destruct (locate _ _ _ _ Eh) as (a & b & E1 & E2 & _).
  rewrite E1, app_comm_cons, app_assoc in H. destruct (taken_fresh _ _ _ _ _ _ HL H) as (Z & B & _).
  repeat split; auto. rewrite E1. apply in_or_app. right. now left.
Qed.

(** pending calls: taken, not returned *)
Definition pending (c id t : N) (l : list event) : Prop := exists h0, hist id l = EvTaken id c t :: h0.
Definition log_ok (local : N -> option bytes) (l : list event) : Prop :=
  forall l2 e l1, l = l2 ++ e :: l1 -> event_ok local e l1.
Lemma log_ok_tail local e l : log_ok local (e :: l) -> event_ok local e l /\ log_ok local l.
Proof.
  intros H. split; [apply (H [] e l eq_refl)|]. intros l2 x l1 ->. apply (H (e :: l2) x l1). reflexivity.
Qed.
Lemma releases_tail c e l : releases_owned c (e :: l) ->
  releases_owned c l /\ forall t, e = EvFreed c t -> In t (owned c l).
Proof.
  intros H. split; [intros l2 t l1 ->; apply (H (e :: l2) t l1); reflexivity|].
  intros t ->. apply (H [] t l). reflexivity.
Qed.
Lemma in_drop x t l : In x (filter (fun y => negb (y =? t)) l) <-> In x l /\ x <> t.
Proof.
  rewrite filter_In. split; intros [H1 H2]; split; auto.
  - intros ->. now rewrite N.eqb_refl in H2.
  - apply N.eqb_neq in H2. now rewrite H2.
Qed.
Lemma owned_inv local c l : log_ok local l -> releases_owned c l ->
  (forall t, In t (owned c l) -> In t (held c l)) /\
  (forall id t, pending c id t l -> In t (held c l) /\ ~ In t (owned c l)) /\
  (forall id id' t, id <> id' -> pending c id t l -> pending c id' t l -> False).
Proof.
  induction l as [|e l IH]; intros HL HR.
  - repeat split; cbn; auto; try (destruct H as [? H]; discriminate H). intros id id' t _ [? H]. discriminate H.
  - destruct (log_ok_tail _ _ _ HL) as [EO HL']. destruct (releases_tail _ _ _ HR) as [HR' HF].
    destruct (IH HL' HR') as (P2 & P3 & P4).
    assert (Pmono : forall id t, pending c id t (e :: l) ->
              (about id e = false /\ pending c id t l) \/ e = EvTaken id c t).
    { intros id t [h0 H]. unfold hist in H. cbn in H. destruct (about id e) eqn:A.
      - injection H as -> _. right. reflexivity.
      - left. split; [reflexivity|]. now exists h0. }
    destruct e as [i0 c0 t0|i0 c0 t0|i0 c0 t0 r|i0 c0|c0 t0|c0 t0 p0|c0 t0|c0|c0 y0 h0|c0 b0|c0|c0|i0 c0 f0 d0|
      i0 c0 t0 r0|i0 c0 a0 b0|i0 c0 y0 h0|i0 c0 b0|i0 k0 p0|i0 c0 t0 p0 a0|i0 c0 a0 b0|i0 c0 n0|i0 rd c0 a0 t0 p0|rd c0|i0|i0];
      try (cbn [held owned]; split; [exact P2|]; split;
        [intros id t Pd; destruct (Pmono id t Pd) as [[_ Pd']|Pd']; [exact (P3 id t Pd')|discriminate]
        |intros id id' t Hn Pa Pb; destruct (Pmono id t Pa) as [[_ Pa']|Pa']; [|discriminate];
         destruct (Pmono id' t Pb) as [[_ Pb']|Pb']; [|discriminate]; exact (P4 id id' t Hn Pa' Pb')]).
    + (* EvTaken *)
      cbn [held owned]. cbn [event_ok] in EO. destruct EO as (_ & _ & _ & _ & Fr).
      destruct (c0 =? c) eqn:Ec.
      * apply N.eqb_eq in Ec. subst c0. split; [intros t Ho; right; auto|]. split.
        { intros id t Pd. destruct (Pmono id t Pd) as [[_ Pd']|Pd'].
          - destruct (P3 id t Pd') as [X Y]. split; [now right|exact Y].
          - injection Pd' as -> ->. split; [now left|]. intros Ho. now apply Fr, P2. }
        { intros id id' t Hn Pa Pb. destruct (Pmono id t Pa) as [[_ Pa']|Pa']; destruct (Pmono id' t Pb) as [[_ Pb']|Pb'].
          - exact (P4 id id' t Hn Pa' Pb').
          - injection Pb' as -> ->. apply Fr. exact (proj1 (P3 _ _ Pa')).
          - injection Pa' as -> ->. apply Fr. exact (proj1 (P3 _ _ Pb')).
          - congruence. }
      * apply N.eqb_neq in Ec. split; [exact P2|]. split.
        { intros id t Pd. destruct (Pmono id t Pd) as [[_ Pd']|Pd']; [exact (P3 id t Pd')|congruence]. }
        { intros id id' t Hn Pa Pb. destruct (Pmono id t Pa) as [[_ Pa']|Pa']; [|congruence].
          destruct (Pmono id' t Pb) as [[_ Pb']|Pb']; [|congruence]. exact (P4 id id' t Hn Pa' Pb'). }
    + (* EvTeid *)
      cbn [held owned]. cbn [event_ok] in EO. destruct EO as ((hh & Eh & _) & _).
      destruct (c0 =? c) eqn:Ec.
      * apply N.eqb_eq in Ec. subst c0. assert (Pi : pending c i0 t0 l) by (now exists hh).
        split; [intros t [<-|Ho]; [exact (proj1 (P3 _ _ Pi))|auto]|]. split.
        { intros id t Pd. destruct (Pmono id t Pd) as [[A Pd']|Pd']; [|discriminate].
          destruct (P3 id t Pd') as [X Y]. split; [exact X|]. intros [<-|Ho]; [|now apply Y].
          cbn [about] in A. apply N.eqb_neq in A. exact (P4 _ _ _ A Pi Pd'). }
        { intros id id' t Hn Pa Pb. destruct (Pmono id t Pa) as [[_ Pa']|Pa']; [|discriminate].
          destruct (Pmono id' t Pb) as [[_ Pb']|Pb']; [|discriminate]. exact (P4 id id' t Hn Pa' Pb'). }
      * split; [exact P2|]. split.
        { intros id t Pd. destruct (Pmono id t Pd) as [[_ Pd']|Pd']; [exact (P3 id t Pd')|discriminate]. }
        { intros id id' t Hn Pa Pb. destruct (Pmono id t Pa) as [[_ Pa']|Pa']; [|discriminate].
          destruct (Pmono id' t Pb) as [[_ Pb']|Pb']; [|discriminate]. exact (P4 id id' t Hn Pa' Pb'). }
    + (* EvFreed *)
      cbn [held owned]. destruct (c0 =? c) eqn:Ec.
      * apply N.eqb_eq in Ec. subst c0. specialize (HF t0 eq_refl).
        split; [intros t Ho; apply in_drop in Ho; apply in_drop; split; [apply P2|]; apply Ho|]. split.
        { intros id t Pd. destruct (Pmono id t Pd) as [[_ Pd']|Pd']; [|discriminate].
          destruct (P3 id t Pd') as [X Y]. split.
          - apply in_drop. split; [exact X|]. intros ->. now apply Y.
          - intros Ho. apply in_drop in Ho. now apply Y. }
        { intros id id' t Hn Pa Pb. destruct (Pmono id t Pa) as [[_ Pa']|Pa']; [|discriminate].
          destruct (Pmono id' t Pb) as [[_ Pb']|Pb']; [|discriminate]. exact (P4 id id' t Hn Pa' Pb'). }
      * split; [exact P2|]. split.
        { intros id t Pd. destruct (Pmono id t Pd) as [[_ Pd']|Pd']; [exact (P3 id t Pd')|discriminate]. }
        { intros id id' t Hn Pa Pb. destruct (Pmono id t Pa) as [[_ Pa']|Pa']; [|discriminate].
          destruct (Pmono id' t Pb) as [[_ Pb']|Pb']; [|discriminate]. exact (P4 id id' t Hn Pa' Pb'). }
Qed.
Lemma history_log local l : locals_ok local -> history local l -> log_ok local l.
Proof. intros HL H l2 e l1 ->. exact (history_event _ _ _ _ HL H). Qed.
Lemma returned_unique local l2 id c t r l1 : locals_ok local -> history local (l2 ++ EvTeid id c t r :: l1) ->
  releases_owned c l1 -> ~ In t (owned c l1).
Proof.
  intros HL H R. pose proof (history_log _ _ HL H) as LO.
  assert (LO1 : log_ok local l1). { intros a e b ->. apply (LO (l2 ++ EvTeid id c t r :: a)). now rewrite <- app_assoc. }
  destruct (owned_inv local c l1 LO1 R) as (_ & P3 & _).
  pose proof (history_event _ _ _ _ HL H) as E. cbn [event_ok] in E. destruct E as ((h0 & Eh & _) & _).
  apply (P3 id t). now exists h0.
Qed.
Lemma gave_up local l2 id c l1 : locals_ok local -> history local (l2 ++ EvNoTeid id c :: l1) ->
  Forall (fun e => exists t, e = EvMiss id c t) (hist id l1) /\ List.length (hist id l1) = N.to_nat 65535.
Proof. intros HL H. exact (history_event _ _ _ _ HL H). Qed.
Lemma missed local l2 id c t l1 : locals_ok local -> history local (l2 ++ EvMiss id c t :: l1) ->
  (t = 0 \/ In t (held c l1)) /\ (List.length (hist id l1) < N.to_nat 65535)%nat.
Proof. intros HL H. pose proof (history_event _ _ _ _ HL H) as E. cbn [event_ok] in E. tauto. Qed.

(** ** Relaying *)
Lemma relay_read_gpdu raw t : bytes_ok raw -> relay_read raw t -> gpdu_for t raw.
Proof.
  intros Hb (E1 & L & E4). do 11 (destruct raw as [|? raw]; [cbn in L; lia|]).
  split; [exact L|]. cbn in E1 |- *. split; [congruence|]. clear E1.
  unfold bytes_ok in Hb.
  repeat match goal with H : Forall _ (_ :: _) |- _ => apply Forall_cons_iff in H; destruct H end.
  assert (E5 : t = n3 * 16777216 + n4 * 65536 + n5 * 256 + n6).
  { change (be32 [n3; n4; n5; n6] = Ok t) in E4. cbn [be32] in E4. now apply ok_inj1 in E4. }
  subst t. symmetry. apply enc32_be; assumption.
Qed.
Lemma gpdu_relay_read raw t : t < 4294967296 -> gpdu_for t raw -> relay_read raw t.
Proof.
  intros Ht (L & E1 & E4). do 11 (destruct raw as [|? raw]; [cbn in L; lia|]). cbn in E1, E4. subst.
  split; [reflexivity|]. split; [exact L|].
  change (do s <- slice (n :: 255 :: n1 :: n2 :: n3 :: n4 :: n5 :: n6 :: n7 :: n8 :: n9 :: raw) 4 8; be32 s) with (be32 [n3; n4; n5; n6]).
  rewrite E4. now apply be32_enc'.
Qed.
Lemma readdress_is raw t b : (11 <= len raw)%nat -> readdress raw t = Ok b -> b = readdressed t raw.
Proof.
  intros L. do 11 (destruct raw as [|? raw]; [cbn in L; lia|]). intros E.
  apply ok_inj1 in E. subst b. reflexivity.
Qed.
Lemma relay_read_lt raw t : bytes_ok raw -> relay_read raw t -> t < 4294967296.
Proof.
  intros Hb (_ & _ & E). apply bind_ok_inv in E. destruct E as (s & E1 & E2).
  apply (be32_lt s); [|exact E2]. apply slice_inv in E1. destruct E1 as (_ & _ & -> & _).
  apply bytes_ok_firstn, bytes_ok_skipn, Hb.
Qed.
Lemma relayed_exact local l2 id c' a b l1 : locals_ok local -> history local (l2 ++ EvRelayed id c' a b :: l1) ->
  exists c from d t p l1a l1b,
    l1 = l1a ++ EvLookup id c t (Some p) :: l1b /\ relay_for c t l1b = Some p /\
    hist id l1b = [EvRecv id c from d] /\ t < 4294967296 /\ gpdu_for t (firstn 1500 d) /\
    c' = p_conn p /\ a = p_addr p /\ b = readdressed (p_teid p) (firstn 1500 d) /\
    hist id l1a = [] /\ hist id l2 = [].
Proof.
  intros HL H. pose proof (history_event _ _ _ _ HL H) as E. cbn [event_ok] in E.
  destruct E as (c & from & d & t & p & Eh & Hd & RR & -> & -> & Eb).
  destruct (locate _ _ _ _ Eh) as (l1a & l1b & E1 & E2 & E3).
  assert (H' := H). rewrite E1, app_comm_cons, app_assoc in H'.
  pose proof (history_event _ _ _ _ HL H') as E. cbn [event_ok] in E. destruct E as [_ Er].
  exists c, from, d, t, p, l1a, l1b. split; [exact E1|]. split; [now symmetry|]. split; [exact E2|].
  destruct (received_ok d Hd) as [Hr _]. split; [now apply (relay_read_lt (received d))|]. split; [now apply relay_read_gpdu|]. split; [reflexivity|]. split; [reflexivity|].
  split; [apply readdress_is; [apply RR|exact Eb]|]. split; [exact E3|].
  replace (l2 ++ EvRelayed id (p_conn p) (p_addr p) b :: l1) with (l2 ++ [EvRelayed id (p_conn p) (p_addr p) b] ++ l1) in H by reflexivity.
  apply (final_last local l2 (EvRelayed id (p_conn p) (p_addr p) b :: l1) id HL H).
  unfold hist. cbn. now rewrite N.eqb_refl.
Qed.
Lemma relay_off local l2 c t l1 id from d : locals_ok local -> history local (l2 ++ EvRelayOff c t :: l1) ->
  (forall p, ~ In (EvRelayOn c t p) l2) -> In (EvRecv id c from d) l2 -> t < 4294967296 ->
  firstn 4 (skipn 4 d) = enc32 t -> forall c' a b, ~ In (EvRelayed id c' a b) (l2 ++ EvRelayOff c t :: l1).
Proof.
  intros HL H Hon Hin Ht Hd c' a b Hr.
  (* the datagram has no events before it *)
  apply in_split in Hin. destruct Hin as (u & v & ->).
  assert (Hv : hist id (v ++ EvRelayOff c t :: l1) = []).
  { rewrite <- app_assoc in H. cbn in H. pose proof (history_event _ _ _ _ HL H) as E. cbn [event_ok] in E. apply E. }
  assert (Hu : In (EvRelayed id c' a b) u).
  { rewrite <- app_assoc in Hr. apply in_app_or in Hr. destruct Hr as [Hr|Hr]; [exact Hr|]. exfalso.
    cbn in Hr. destruct Hr as [Hr|Hr]; [discriminate|].
    assert (X : In (EvRelayed id c' a b) (hist id (v ++ EvRelayOff c t :: l1))).
    { apply filter_In. split; [exact Hr|]. cbn. apply N.eqb_refl. }
    rewrite Hv in X. exact X. }
  apply in_split in Hu. destruct Hu as (x & y & ->).
  rewrite <- !app_assoc in H. cbn in H.
  destruct (relayed_exact _ _ _ _ _ _ _ HL H) as (c1 & from1 & d1 & t1 & p & l1a & l1b & E1 & Er & Eh & Lt1 & G & _ & _ & _ & Ea & _).
  (* the look-up lies after the arrival *)
  assert (Ey : exists y1 y2, y = y1 ++ EvLookup id c1 t1 (Some p) :: y2 /\ l1b = y2 ++ EvRecv id c from d :: v ++ EvRelayOff c t :: l1).
  { clear -E1 Ea Eh Hv. revert l1a E1 Ea. induction y as [|e y IH]; intros l1a E1 Ea.
    - exfalso. destruct l1a as [|z l1a]; cbn in E1; [discriminate|]. injection E1 as <- E1.
      unfold hist in Ea. cbn in Ea. rewrite N.eqb_refl in Ea. discriminate.
    - destruct l1a as [|z l1a]; cbn in E1; injection E1 as -> E1.
      + exists [], y. auto.
      + destruct (IH l1a E1) as (y1 & y2 & -> & E2).
        { unfold hist in *. cbn in Ea. destruct (about id z); [discriminate|exact Ea]. }
        exists (z :: y1), y2. auto. }
  destruct Ey as (y1 & y2 & -> & ->).
  assert (Ec : EvRecv id c1 from1 d1 = EvRecv id c from d).
  { unfold hist in Eh. rewrite filter_app in Eh. cbn in Eh. rewrite N.eqb_refl in Eh.
    destruct (filter (about id) y2) as [|z zz].
    - cbn in Eh. congruence.
    - cbn in Eh. injection Eh as _ Eh. destruct zz; discriminate. }
  injection Ec as -> -> ->.
  assert (Et : t1 = t).
  { destruct G as (L & _ & G). unfold gpdu_for in *.
    assert (X : firstn 4 (skipn 4 (firstn 1500 d)) = firstn 4 (skipn 4 d)).
    { rewrite skipn_firstn_comm, firstn_firstn. reflexivity. }
    rewrite X, Hd in G. pose proof (be32_enc' t Ht) as X1. rewrite G, (be32_enc' t1 Lt1) in X1. now apply ok_inj1 in X1. }
  subst t1. clear -Er Hon.
  assert (X : relay_for c t (y2 ++ EvRecv id c from d :: v ++ EvRelayOff c t :: l1) = None); [|congruence].
  clear Er. assert (Hon' : forall q, ~ In (EvRelayOn c t q) (y2 ++ EvRecv id c from d :: v)).
  { intros q Hq. apply (Hon q). apply in_app_or in Hq. apply in_or_app. destruct Hq as [Hq|Hq]; [left|right; exact Hq].
    apply in_or_app. right. right. apply in_or_app. right. right. exact Hq. }
  clear Hon. change (EvRecv id c from d :: v ++ EvRelayOff c t :: l1) with ((EvRecv id c from d :: v) ++ EvRelayOff c t :: l1).
  rewrite app_assoc. remember (y2 ++ EvRecv id c from d :: v) as z. clear Heqz y2 v.
  induction z as [|e z IH].
  - cbn. now rewrite !N.eqb_refl.
  - assert (IH' : relay_for c t (z ++ EvRelayOff c t :: l1) = None).
    { apply IH. intros q Hq. apply (Hon' q). now right. }
    destruct e as [| | | | |c0 t0 p0|c0 t0|c0| | | | | | | | | | | | | | | | |]; cbn; auto.
    + destruct ((c0 =? c) && (t0 =? t))%bool eqn:X; [|exact IH']. exfalso. apply andb_prop in X. destruct X as [X1 X2].
      apply N.eqb_eq in X1, X2. subst. apply (Hon' p0). now left.
    + now destruct ((c0 =? c) && (t0 =? t))%bool.
    + now destruct (c0 =? c).
Qed.
