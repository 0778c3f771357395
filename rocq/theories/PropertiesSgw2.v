(** The example S-GW (ExSgw2.v): C78. *)
From Coq Require Import String Lia.
From Verif Require Import Base BaseLemmas Maps MapsProofs Utils UtilsProofs V2IE V2IESpec V2IEProofs V2Header V2HeaderProofs MsgModel MsgSpec MsgProofs MsgProofs2 MsgProofs3 Msgs2Gen V2Msg V2MsgProofs
  V2Codec V2Codec2 V2Ctx CodecSpec V2CodecProofs V2AccProofs FieldSpec Properties52 PropertiesBase PropertiesBase2 CPlane SessReq SessReqProofs PropertiesReq ExPgw PropertiesEx PropertiesEx2 PropertiesFwd ExSgw PropertiesFill ExSgw2.
Open Scope string_scope.
Open Scope N_scope.
Open Scope list_scope.

(** ** What the words mean *)
(** an IE of the Bearer Context that the S-GW can use: an accepting cause, a readable EBI and
    Charging ID, an F-TEID with an IPv4 address *)
Definition usable (c : ie2) : Prop :=
  (i2_type c = 2 -> acc_cause g2 c = Ok 16) /\ (i2_type c = 73 -> exists e, acc_ebi g2 c = Ok e) /\
  (i2_type c = 87 -> exists ip a it t, acc_ip c = Ok ip /\ to4 ip = Some a /\ acc_if_type c = Ok it /\ acc_teid c = Ok t) /\
  (i2_type c = 94 -> exists v, acc_charging_id g2 c = Ok v).
(** a response that grants a session *)
Definition granted (m : msg2) (ip : option bytes) (it t : N) (cs : list ie2) : Prop :=
  reads m "Cause" (acc_cause g2) 16 /\ reads m "PAA" acc_ip ip /\ reads m "PGWS5S8FTEIDC" acc_if_type it /\ reads m "PGWS5S8FTEIDC" acc_teid t /\
  reads m "BearerContextsCreated" (fun c => Ok (i2_children c)) cs /\ Forall usable cs.
(** the Charging ID, and the address and TEID of the F-TEID, that come last *)
Fixpoint last_charge (cs : list ie2) (v : N) : N :=
  match cs with [] => v | c :: r => last_charge r (if i2_type c =? 94 then match acc_charging_id g2 c with Ok x => x | _ => v end else v) end.
Fixpoint last_far (cs : list ie2) (x : option bytes * N) : option bytes * N :=
  match cs with
  | [] => x
  | c :: r => last_far r (if i2_type c =? 87 then match acc_ip c, acc_teid c with Ok ip, Ok t => (to4 ip, t) | _, _ => x end else x)
  end.

(** ** The Bearer Context *)
Lemma fteid_u_ok c s b x : fteid_u c s b = Ok x -> exists ip a it t, acc_ip c = Ok ip /\ to4 ip = Some a /\ acc_if_type c = Ok it /\ acc_teid c = Ok t /\
  x = (add_teid s it t, UBearer (ub_ip b) (ub_ebi b) (Some a) t (ub_charge b)).
Proof.
  unfold fteid_u. intros H. apply bind_ok_inv in H as (ip & H1 & H). apply bind_ok_inv in H as (a & H2 & H). apply bind_ok_inv in H as (t & H3 & H).
  apply bind_ok_inv in H as (it & H4 & H). injection H as <-. exists ip, a, it, t. unfold udp_addr in H2. destruct (to4 ip) as [y|]; [|discriminate]. injection H2 as ->. now repeat split.
Qed.
Lemma add_teid_get s it t k : aget (s_teids (add_teid s it t)) k = if N.eqb it k then Some t else aget (s_teids s) k.
Proof. unfold add_teid. cbn [set_s s_teids]. rewrite aget_aput. rewrite (N.eqb_sym it k). reflexivity. Qed.
Lemma children_given cs : forall s b s' b', sgw_children cs s b = Ok (Given s' b') ->
  Forall usable cs /\ b' = UBearer (ub_ip b) (last_ebi cs (ub_ebi b)) (fst (last_far cs (ub_remote b, ub_out b))) (snd (last_far cs (ub_remote b, ub_out b))) (last_charge cs (ub_charge b)) /\
  s_imsi s' = s_imsi s /\ (forall it t, aget (s_teids s) it = Some t -> aget (s_teids s') it = Some (last_teid it cs t)).
Proof.
  induction cs as [|c r IH]; intros s b s' b' H; cbn [sgw_children last_ebi last_far last_charge last_teid] in *.
  - injection H as <- <-. split; [constructor|]. destruct b. now repeat split.
  - destruct (N.eqb_spec (i2_type c) 2) as [E|E].
    { apply bind_ok_inv in H as (v & V & H). destruct (N.eqb_spec v 16) as [->|]; [|discriminate]. rewrite E. cbn [N.eqb Pos.eqb].
      destruct (IH _ _ _ _ H) as (A & B & C & D). split; [constructor; [|exact A]|now repeat split]. unfold usable. rewrite E. repeat split; try discriminate. intros _; exact V. }
    destruct (N.eqb_spec (i2_type c) 73) as [E1|E1].
    { apply bind_ok_inv in H as (v & V & H). rewrite V, E1. cbn [N.eqb Pos.eqb].
      destruct (IH _ _ _ _ H) as (A & B & C & D). split; [constructor; [|exact A]|now repeat split]. unfold usable. rewrite E1. repeat split; try discriminate. intros _; now exists v. }
    destruct (N.eqb_spec (i2_type c) 87) as [E2|E2].
    { apply bind_ok_inv in H as (x & X & H). apply fteid_u_ok in X as (ip & a & it & t & V1 & V2 & V3 & V4 & ->). cbn [fst snd] in H. rewrite V1, V3, V4, V2, E2. cbn [N.eqb Pos.eqb].
      destruct (IH _ _ _ _ H) as (A & B & C & D). split; [constructor; [|exact A]|].
      { unfold usable. rewrite E2. repeat split; try discriminate. intros _. now exists ip, a, it, t. }
      split; [exact B|]. split; [exact C|]. intros k u K. apply D. rewrite add_teid_get. destruct (it =? k); [reflexivity|exact K]. }
    destruct (N.eqb_spec (i2_type c) 94) as [E3|E3].
    { apply bind_ok_inv in H as (v & V & H). rewrite V.
      destruct (IH _ _ _ _ H) as (A & B & C & D). split; [constructor; [|exact A]|now repeat split]. unfold usable. rewrite E3. repeat split; try discriminate. intros _; now exists v. }
    destruct (IH _ _ _ _ H) as (A & B & C & D). split; [constructor; [|exact A]|now repeat split]. unfold usable. repeat split; intros X; congruence.
Qed.
Lemma children_total cs : forall s b, Forall usable cs -> exists s' b', sgw_children cs s b = Ok (Given s' b').
Proof.
  induction cs as [|c r IH]; intros s b H; cbn [sgw_children]; [now exists s, b|]. inversion H as [|? ? (U1 & U2 & U3 & U4) H']; subst.
  destruct (N.eqb_spec (i2_type c) 2) as [E|E]; [rewrite (U1 E); cbn [bind]; rewrite N.eqb_refl; now apply IH|].
  destruct (N.eqb_spec (i2_type c) 73) as [E1|E1]; [destruct (U2 E1) as (e & ->); cbn [bind]; now apply IH|].
  destruct (N.eqb_spec (i2_type c) 87) as [E2|E2].
  { destruct (U3 E2) as (ip & a & it & t & V1 & V2 & V3 & V4). unfold fteid_u. rewrite V1. cbn [bind]. unfold udp_addr. rewrite V2. cbn [bind]. rewrite V4. cbn [bind]. rewrite V3. cbn [bind]. now apply IH. }
  destruct (N.eqb_spec (i2_type c) 94) as [E3|E3]; [destruct (U4 E3) as (e & ->); cbn [bind]; now apply IH|]. now apply IH.
Qed.
Lemma need_given {A} m f (rd : ie2 -> res A) k s b : need_or m f rd k = Ok (Given s b) -> exists v, reads m f rd v /\ k v = Ok (Given s b).
Proof.
  unfold need_or, reads. destruct (fget (m_fs m) f) as [|[i|] r]; try discriminate. intros H. apply bind_ok_inv in H as (v & V & H). exists v. split; [exists i, r; now split|exact H].
Qed.
Lemma need_reads {A} m f (rd : ie2 -> res A) k v : reads m f rd v -> need_or m f rd k = k v.
Proof. unfold need_or, reads. intros (i & r & -> & E). rewrite E. reflexivity. Qed.
Lemma reads_both {A B} m f (r1 : ie2 -> res A) (r2 : ie2 -> res B) a b : reads m f (fun i => do x <- r1 i; do y <- r2 i; Ok (x, y)) (a, b) <-> reads m f r1 a /\ reads m f r2 b.
Proof.
  split.
  - intros (i & r & E & H). apply bind_ok_inv in H as (x & X & H). apply bind_ok_inv in H as (y & Y & H). injection H as <- <-. split; exists i, r; now split.
  - intros ((i & r & E & X) & (j & r' & E' & Y)). rewrite E in E'. injection E' as <- <-. exists i, r. split; [exact E|]. rewrite X. cbn [bind]. rewrite Y. reflexivity.
Qed.

(** ** The P-GW's Create Session Response *)
(** It is passed on exactly when it grants a session; the session then has the P-GW's TEID, and
    the bearer the subscriber's address, the EBI, the Charging ID and where to send its packets *)
Theorem C78_sgw_created : forall m s b s11 room,
  (forall s' b', sgw_created m (Some s) b s11 room = Ok (Given s' b') -> s_imsi s <> [] /\ s11 = true /\ room = true /\ exists ip it t cs, granted m ip it t cs) /\
  forall ip it t cs, granted m ip it t cs -> s_imsi s <> [] ->
   exists s' b', sgw_created m (Some s) b true true = Ok (Given s' b') /\ s_active s' = true /\ s_imsi s' = s_imsi s /\
     aget (s_teids s') it = Some (last_teid it cs t) /\
     (forall k u, k <> it -> aget (s_teids s) k = Some u -> aget (s_teids s') k = Some (last_teid k cs u)) /\
     ub_ip b' = ip /\ ub_ebi b' = last_ebi cs (ub_ebi b) /\ ub_charge b' = last_charge cs (ub_charge b) /\
     (ub_remote b', ub_out b') = last_far cs (ub_remote b, ub_out b).
Proof.
  intros m s b s11 room. split.
  - intros s' b' H. unfold sgw_created in H. apply need_given in H as (c & C & H). destruct (N.eqb_spec c 16) as [->|]; [|discriminate]. cbn [negb] in H.
    apply need_given in H as (ip & P & H). apply need_given in H as ([it t] & T & H). apply need_given in H as (cs & L & H). apply bind_ok_inv in H as (e & X & H).
    destruct e as [e|s1 b1]; [discriminate|]. apply children_given in X as (X1 & X2 & X3 & X4). apply reads_both in T as [T1 T2].
    change (s_imsi (add_teid s (fst (it, t)) (snd (it, t)))) with (s_imsi s) in X3. rewrite X3 in H.
    destruct (s_imsi s) as [|x l]; [discriminate|]. split; [discriminate|]. destruct s11; [|discriminate]. destruct room; [|discriminate].
    split; [reflexivity|]. split; [reflexivity|]. exists ip, it, t, cs. now repeat split.
  - intros ip it t cs (C & P & T1 & T2 & L & U) Hi. unfold sgw_created. rewrite (need_reads _ _ _ _ _ C). cbn [N.eqb Pos.eqb negb]. rewrite (need_reads _ _ _ _ _ P).
    rewrite (need_reads _ _ _ _ _ (proj2 (reads_both m _ acc_if_type acc_teid it t) (conj T1 T2))). rewrite (need_reads _ _ _ _ _ L). cbn [fst snd].
    destruct (children_total cs (add_teid s it t) (UBearer ip (ub_ebi b) (ub_remote b) (ub_out b) (ub_charge b)) U) as (s1 & b1 & E). rewrite E. cbn [bind].
    apply children_given in E as (_ & X2 & X3 & X4). change (s_imsi (add_teid s it t)) with (s_imsi s) in X3. rewrite X3.
    destruct (s_imsi s) as [|x l] eqn:Ei; [contradiction|]. exists (set_s s1 (SActive true)), b1. split; [reflexivity|]. split; [reflexivity|]. split; [cbn [set_s s_imsi]; congruence|].
    cbn [set_s s_teids]. split; [apply X4; rewrite add_teid_get, N.eqb_refl; reflexivity|].
    split. { intros k u K G. apply X4. rewrite add_teid_get. apply N.neq_sym, N.eqb_neq in K. rewrite K. exact G. }
    rewrite X2. cbn [ub_ip ub_ebi ub_charge ub_remote ub_out]. repeat split. symmetry. apply surjective_pairing.
Qed.
Print Assumptions C78_sgw_created.

(** The session with the P-GW is removed exactly in these cases; in the others where the message
    is not passed on (an IE of the message that cannot be read) it stays *)
Definition absent (m : msg2) (f : string) : Prop := fget (m_fs m) f = [].
(** the first Cause among the usable IEs that is not 16 *)
Definition refused_in (cs : list ie2) : Prop := exists l c r v, cs = l ++ c :: r /\ Forall usable l /\ i2_type c = 2 /\ acc_cause g2 c = Ok v /\ v <> 16.
Definition gives_up (m : msg2) (s : session) (e : err) : Prop :=
  (absent m "Cause" /\ e = EMissing) \/ (exists v, reads m "Cause" (acc_cause g2) v /\ v <> 16 /\ e = ECause) \/
  reads m "Cause" (acc_cause g2) 16 /\
  ((absent m "PAA" /\ e = EMissing) \/ (exists ip, reads m "PAA" acc_ip ip) /\
   ((absent m "PGWS5S8FTEIDC" /\ e = EMissing) \/ (exists it t, reads m "PGWS5S8FTEIDC" acc_if_type it /\ reads m "PGWS5S8FTEIDC" acc_teid t) /\
    ((absent m "BearerContextsCreated" /\ e = EMissing) \/ exists cs, reads m "BearerContextsCreated" (fun c => Ok (i2_children c)) cs /\
     ((refused_in cs /\ e = ECause) \/ (Forall usable cs /\ s_imsi s = [] /\ e = EParam))))).
Lemma children_removed cs : forall s b e, sgw_children cs s b = Ok (Removed e) <-> refused_in cs /\ e = ECause.
Proof.
  assert (St : forall c r, usable c -> i2_type c <> 2 \/ acc_cause g2 c = Ok 16 -> (refused_in r <-> refused_in (c :: r))).
  { intros c r U Hc. split.
    - intros (l & x & q & v & -> & A & B). exists (c :: l), x, q, v. split; [reflexivity|]. split; [constructor; assumption|exact B].
    - intros (l & x & q & v & E & A & B1 & B2 & B3). destruct l as [|y l]; injection E as -> ->.
      + destruct Hc as [Hc|Hc]; [contradiction|congruence].
      + exists l, x, q, v. split; [reflexivity|]. split; [now inversion A|now repeat split]. }
  induction cs as [|c r IH]; intros s b e; cbn [sgw_children].
  - split; [discriminate|]. intros ((l & x & q & v & E & _) & _). destruct l; discriminate.
  - assert (No : ~ usable c -> i2_type c <> 2 -> ~ refused_in (c :: r)).
    { intros U T (l & x & q & v & E & A & B1 & _). destruct l as [|y l]; injection E as -> ->; [contradiction|]. inversion A. contradiction. }
    destruct (N.eqb_spec (i2_type c) 2) as [E|E].
    { assert (Oth : i2_type c <> 73 /\ i2_type c <> 87 /\ i2_type c <> 94) by (rewrite E; repeat split; discriminate). destruct Oth as (O1 & O2 & O3).
      destruct (acc_cause g2 c) as [v|x|] eqn:V; cbn [bind].
      - destruct (N.eqb_spec v 16) as [->|N16].
        + rewrite IH, (St c r); [reflexivity| |now right]. unfold usable. repeat split; intros X; try contradiction. exact V.
        + split; [intros H; injection H as <-; split; [|reflexivity]; exists [], c, r, v; repeat split; auto|intros [_ ->]; reflexivity].
      - split; [discriminate|]. intros ((l & y & q & v & El & A & B1 & B2 & _) & _). destruct l as [|z l]; injection El as -> ->; [congruence|]. inversion A as [|? ? (U & _)]. specialize (U E). congruence.
      - split; [discriminate|]. intros ((l & y & q & v & El & A & B1 & B2 & _) & _). destruct l as [|z l]; injection El as -> ->; [congruence|]. inversion A as [|? ? (U & _)]. specialize (U E). congruence. }
    destruct (N.eqb_spec (i2_type c) 73) as [E1|E1].
    { destruct (acc_ebi g2 c) as [v|x|] eqn:V; cbn [bind].
      - rewrite IH, (St c r); [reflexivity| |now left]. unfold usable. rewrite E1. repeat split; try discriminate. intros _; now exists v.
      - split; [discriminate|]. intros [H _]. elim (No (fun U => match proj1 (proj2 U) E1 with ex_intro _ z Z => ltac:(congruence) end) E H).
      - split; [discriminate|]. intros [H _]. elim (No (fun U => match proj1 (proj2 U) E1 with ex_intro _ z Z => ltac:(congruence) end) E H). }
    destruct (N.eqb_spec (i2_type c) 87) as [E2|E2].
    { assert (F : (exists x, fteid_u c s b = Ok x) <-> usable c).
      { split.
        - intros (x & X). apply fteid_u_ok in X as (ip & a & it & t & V1 & V2 & V3 & V4 & _). unfold usable. rewrite E2. repeat split; try discriminate. intros _. now exists ip, a, it, t.
        - intros (_ & _ & U & _). destruct (U E2) as (ip & a & it & t & V1 & V2 & V3 & V4). unfold fteid_u. rewrite V1. cbn [bind]. unfold udp_addr. rewrite V2. cbn [bind]. rewrite V4. cbn [bind]. rewrite V3. now eexists. }
      destruct (fteid_u c s b) as [v|x|] eqn:V; cbn [bind].
      - rewrite IH, (St c r); [reflexivity|apply F; now exists v|now left].
      - split; [discriminate|]. intros [H _]. elim (No (fun U => match proj2 F U with ex_intro _ z Z => ltac:(discriminate Z) end) E H).
      - split; [discriminate|]. intros [H _]. elim (No (fun U => match proj2 F U with ex_intro _ z Z => ltac:(discriminate Z) end) E H). }
    destruct (N.eqb_spec (i2_type c) 94) as [E3|E3].
    { destruct (acc_charging_id g2 c) as [v|x|] eqn:V; cbn [bind].
      - rewrite IH, (St c r); [reflexivity| |now left]. unfold usable. rewrite E3. repeat split; try discriminate. intros _; now exists v.
      - split; [discriminate|]. intros [H _]. elim (No (fun U => match proj2 (proj2 (proj2 U)) E3 with ex_intro _ z Z => ltac:(congruence) end) E H).
      - split; [discriminate|]. intros [H _]. elim (No (fun U => match proj2 (proj2 (proj2 U)) E3 with ex_intro _ z Z => ltac:(congruence) end) E H). }
    rewrite IH, (St c r); [reflexivity| |now left]. unfold usable. repeat split; intros X; congruence.
Qed.
Lemma need_removed {A} m f (rd : ie2 -> res A) k e : need_or m f rd k = Ok (Removed e) <-> (absent m f /\ e = EMissing) \/ exists v, reads m f rd v /\ k v = Ok (Removed e).
Proof.
  unfold need_or, reads, absent. destruct (fget (m_fs m) f) as [|[i|] r].
  - split; [intros H; injection H as <-; now left|]. intros [[_ ->]|(v & (i & r & E & _) & _)]; [reflexivity|discriminate].
  - split.
    + intros H. apply bind_ok_inv in H as (v & V & H). right. exists v. split; [exists i, r; now split|exact H].
    + intros [[E _]|(v & (j & q & E & V) & K)]; [discriminate|]. injection E as <- <-. rewrite V. exact K.
  - split; [discriminate|]. intros [[E _]|(v & (j & q & E & V) & K)]; discriminate.
Qed.
Theorem C78_sgw_removed : forall m s b s11 room e, sgw_created m (Some s) b s11 room = Ok (Removed e) <-> gives_up m s e.
Proof.
  intros m s b s11 room e. unfold sgw_created, gives_up. rewrite need_removed. apply or_iff_compat_l.
  assert (Cau : forall K, (exists v, reads m "Cause" (acc_cause g2) v /\ (if negb (v =? 16) then Ok (Removed ECause) else K) = Ok (Removed e)) <->
    (exists v, reads m "Cause" (acc_cause g2) v /\ v <> 16 /\ e = ECause) \/ reads m "Cause" (acc_cause g2) 16 /\ K = Ok (Removed e)).
  { intros K. split.
    - intros (v & V & H). destruct (N.eqb_spec v 16) as [->|Nv]; cbn [negb] in H; [right; now split|]. injection H as <-. left. now exists v.
    - intros [(v & V & Nv & ->)|[V H]]; [exists v|exists 16]; (split; [exact V|]); [apply N.eqb_neq in Nv; rewrite Nv; reflexivity|exact H]. }
  rewrite Cau. clear Cau. apply or_iff_compat_l, and_iff_compat_l. rewrite need_removed. apply or_iff_compat_l.
  assert (X1 : forall (ip : option bytes) (b' : ubearer), need_or m "PGWS5S8FTEIDC" (fun i => do it <- acc_if_type i; do t <- acc_teid i; Ok (it, t)) (fun x => let s0 := add_teid s (fst x) (snd x) in
      need_or m "BearerContextsCreated" (fun c => Ok (i2_children c)) (fun cs => do e <- sgw_children cs s0 b'; match e with Removed e => Ok (Removed e) | Given s b => match s_imsi s with [] => Ok (Removed EParam)
       | _ => if s11 then if room then Ok (Given (set_s s (SActive true)) b) else Err ETimeout else Err ENoSession end end)) = Ok (Removed e) <->
    ((absent m "PGWS5S8FTEIDC" /\ e = EMissing) \/ (exists it t, reads m "PGWS5S8FTEIDC" acc_if_type it /\ reads m "PGWS5S8FTEIDC" acc_teid t) /\
    ((absent m "BearerContextsCreated" /\ e = EMissing) \/ exists cs, reads m "BearerContextsCreated" (fun c => Ok (i2_children c)) cs /\
     ((refused_in cs /\ e = ECause) \/ (Forall usable cs /\ s_imsi s = [] /\ e = EParam)))) /\ ip = ip).
  { intros ip b'. rewrite need_removed.
    assert (X2 : forall it t, need_or m "BearerContextsCreated" (fun c => Ok (i2_children c)) (fun cs => do e <- sgw_children cs (add_teid s it t) b'; match e with Removed e => Ok (Removed e) | Given s b => match s_imsi s with [] => Ok (Removed EParam)
       | _ => if s11 then if room then Ok (Given (set_s s (SActive true)) b) else Err ETimeout else Err ENoSession end end) = Ok (Removed e) <->
      (absent m "BearerContextsCreated" /\ e = EMissing) \/ exists cs, reads m "BearerContextsCreated" (fun c => Ok (i2_children c)) cs /\
     ((refused_in cs /\ e = ECause) \/ (Forall usable cs /\ s_imsi s = [] /\ e = EParam))).
    { intros it t. rewrite need_removed. apply or_iff_compat_l.
      split; intros (cs & L & H); exists cs; (split; [exact L|]).
      - apply bind_ok_inv in H as (y & Y & H). destruct y as [y|s1 b1].
        + injection H as ->. left. now apply children_removed in Y.
        + apply children_given in Y as (U & _ & I & _). change (s_imsi (add_teid s it t)) with (s_imsi s) in I. rewrite I in H. right. split; [exact U|].
          destruct (s_imsi s); [|destruct s11; [destruct room|]; discriminate]. injection H as <-. now split.
      - destruct H as [H|(U & I & ->)].
        + apply (children_removed cs (add_teid s it t) b') in H. rewrite H. reflexivity.
        + destruct (children_total cs (add_teid s it t) b' U) as (s1 & b1 & Y). rewrite Y. cbn [bind]. apply children_given in Y as (_ & _ & I1 & _). change (s_imsi (add_teid s it t)) with (s_imsi s) in I1. rewrite I1, I. reflexivity. }
    split.
    - intros [H|([it t] & T & H)]; (split; [|reflexivity]); [now left|right]. apply reads_both in T. split; [now exists it, t|]. apply (X2 it t), H.
    - intros [[H|((it & t & T) & H)] _]; [now left|right]. exists (it, t). split; [now apply reads_both|]. apply (X2 it t), H. }
  split.
  - intros (ip & P & H). cbv zeta in H. split; [now exists ip|]. apply (X1 ip) in H as [H _]. exact H.
  - intros [(ip & P) H]. exists ip. split; [exact P|]. cbv zeta. apply (X1 ip). split; [exact H|reflexivity].
Qed.
Print Assumptions C78_sgw_removed.
(** so the refusal of a P-GW is never passed on: the MME's request then ends with a cause of the
    S-GW's own when the five seconds of its handler are over (s11.go:171-190) *)
Theorem C78_sgw_refusal_refuted : forall m s b s11 room v, reads m "Cause" (acc_cause g2) v -> v <> 16 -> sgw_created m (Some s) b s11 room = Ok (Removed ECause).
Proof. intros m s b s11 room v V Nv. apply C78_sgw_removed. right. left. exists v. now repeat split. Qed.
Print Assumptions C78_sgw_refusal_refuted.
(** an F-TEID with an IPv6 address only is not used (its text and ":2152" do not resolve); the
    message is not passed on, and the session is not removed *)
Theorem C78_sgw_ipv6_refuted : forall c s b ip, i2_type c = 87 -> acc_ip c = Ok (Some ip) -> to4 (Some ip) = None -> sgw_children [c] s b = Err EAddress.
Proof. intros c s b ip E I T. cbn [sgw_children]. rewrite E. cbn [N.eqb Pos.eqb]. unfold fteid_u. rewrite I. cbn [bind]. unfold udp_addr. rewrite T. reflexivity. Qed.
Print Assumptions C78_sgw_ipv6_refuted.

(** ** The response passed on to the MME *)
(** what Parse returns: a consistent message, no longer than the octets *)
Lemma received_facts b d m : bytes_ok b -> v2_parse g2 b = Ok (d, m) -> In d sized2 ->
  typed_fields d (m_fs m) /\ (forall f i, In (Some i) (fget (m_fs m) f) -> wf2 g2 i) /\ h2_ok (m_hdr m) /\
  (8 + len (flat_map (wire2 g2) (MsgSpec.present (m_fs m))) <= len b)%nat.
Proof.
  intros Hb Hp Hd. destruct (v2_parse_parts g2 b d m Hp) as (t & E1 & Ed & E2 & Ep). destruct (sized2_parts d Hd) as (D1 & D2 & D3 & D4).
  destruct (parse_parts _ ho2 _ _ (ie_laws2 g2) 4 (wf2 g2) d b m D1 Ep (fun h l Hh Hl => v2_laws_multi g2 _ _ Hl (proj1 (v2_laws_hdr b h Hb Hh)))) as (Eh & S1 & S2 & S3).
  pose proof (parse_size (io2 g2) ho2 (wire2 g2) d b m 4 D1 Ep (v2_laws_multi' g2) (fun h Hh => proj1 (v2_laws_hdr b h Hb Hh))) as Hsz.
  pose proof (in_order_present d (m_fs m) D2 D4 (proj1 S1)) as Hperm.
  assert (Eb : len (body (wire2 g2) d (m_fs m)) = len (flat_map (wire2 g2) (MsgSpec.present (m_fs m)))).
  { unfold body. clear -Hperm. induction Hperm; cbn [flat_map]; rewrite ?app_length; lia. }
  split; [apply shape_typed, S1|]. split; [exact S2|]. split; [exact (proj2 (v2_laws_hdr b _ Hb Eh))|].
  cbn [ho2 ho_parse ho_payload] in *. apply h2_parse_inv in Eh; [|exact Hb]. destruct Eh as (_&_&_&_&_&_&_&_&_&_&q&Eq).
  rewrite Eq, app_length, h2_wire_len. unfold h2_mlen. destruct (h2_has_teid (m_hdr m)); lia.
Qed.
Lemma nn_cons (c : ie2) l : nonnil (Some c :: l) = c :: nonnil l.
Proof. reflexivity. Qed.
Lemma fset_sum (fs : @fmap ie2) f l : In f (keys fs) ->
  (len (flat_map (wire2 g2) (MsgSpec.present (fset fs f l))) + len (flat_map (wire2 g2) (nonnil (fget fs f))) =
   len (flat_map (wire2 g2) (MsgSpec.present fs)) + len (flat_map (wire2 g2) (nonnil l)))%nat.
Proof.
  unfold MsgSpec.present. induction fs as [|[k v] r IH]; cbn [keys map fst In]; [intros []|]. cbn [fset fget]. destruct (String.eqb_spec k f) as [->|Nk].
  - intros _. cbn [flat_map snd]. rewrite !flat_map_app, !app_length. lia.
  - intros [E|H]; [contradiction|]. specialize (IH H). cbn [flat_map snd]. rewrite !flat_map_app, !app_length in *. lia.
Qed.
Lemma fget_fset fs f l h : In f (keys fs) -> fget (fset (I:=ie2) fs f l) h = if String.eqb f h then l else fget fs h.
Proof. intros H. destruct (String.eqb_spec f h) as [<-|N]; [apply fget_fset_eq, H|apply fget_fset_neq, N]. Qed.
Lemma csrsp_all : In d_CreateSessionResponse all_msgs2.
Proof. unfold all_msgs2. repeat first [left; reflexivity|right]. Qed.
Lemma csrsp_sized : In d_CreateSessionResponse sized2.
Proof. apply sized_by_name; [exact csrsp_all|discriminate|discriminate]. Qed.
Lemma csrsp_exact f : ~ In ("CreateSessionResponse", f) misplaced_parse2.
Proof.
  assert (E : filter (fun p => String.eqb (fst p) "CreateSessionResponse") misplaced_parse2 = []) by (vm_compute; reflexivity).
  intros H. assert (X : In ("CreateSessionResponse", f) (filter (fun p => String.eqb (fst p) "CreateSessionResponse") misplaced_parse2)) by (apply filter_In; split; [exact H|reflexivity]).
  rewrite E in X. destruct X.
Qed.
(** the Bearer Context as the MME gets it *)
Lemma context_changed c s1u : wf2 g2 c -> i2_type c = 93 -> wf2 g2 s1u -> N.of_nat (len (wire2 g2 c) + len (wire2 g2 s1u)) < 65536 ->
  exists c1 c2, add2 g2 c [Some s1u] = Ok c1 /\ remove2 g2 c1 94 0 = Ok c2 /\ wf2 g2 c2 /\ i2_type c2 = 93 /\ i2_instance c2 = i2_instance c /\
    i2_children c2 = filter (keep 94 0) (i2_children c ++ [s1u]) /\ (len (wire2 g2 c2) <= len (wire2 g2 c) + len (wire2 g2 s1u))%nat.
Proof.
  intros Wc Tc Ws Hl. destruct Wc as [t l n p G|t l n p ch G A1 A2 A3 A4 A5 A6]; cbn [i2_type] in Tc; subst t; [discriminate G|].
  eexists. eexists. split; [apply add2_ok, G|]. split; [apply remove2_ok, G|]. change (V2IEProofs.somes [Some s1u]) with [s1u]. set (c' := filter (keep 94 0) (ch ++ [s1u])).
  assert (L : (len (flat_map (wire2 g2) c') <= len (flat_map (wire2 g2) ch) + len (wire2 g2 s1u))%nat).
  { unfold c'. transitivity (len (flat_map (wire2 g2) (ch ++ [s1u]))).
    - generalize (ch ++ [s1u]). intros q. induction q as [|x q IH]; [reflexivity|]. cbn [filter flat_map]. destruct (keep 94 0 x); cbn [flat_map]; rewrite ?app_length; lia.
    - rewrite flat_map_app, app_length. cbn [flat_map]. rewrite app_nil_r. reflexivity. }
  assert (Lc : len (wire2 g2 (IE2 93 l n p ch)) = (4 + len (flat_map (wire2 g2) ch))%nat) by (cbn [wire2]; rewrite G; reflexivity). rewrite Lc in *.
  split; [|split; [reflexivity|split; [reflexivity|split; [reflexivity|]]]].
  - apply wf2_grouped; try assumption.
    + unfold u16. apply N.mod_lt. discriminate.
    + unfold u16. rewrite N.mod_small by lia. lia.
    + reflexivity.
    + unfold c'. apply Forall_forall. intros x Hx. apply filter_In in Hx as [Hx _]. apply in_app_or in Hx as [Hx|[<-|[]]]; [exact (proj1 (Forall_forall _ _) A6 x Hx)|exact Ws].
  - cbn [wire2]. rewrite G. change (4 + len (flat_map (wire2 g2) c') <= 4 + len (flat_map (wire2 g2) ch) + len (wire2 g2 s1u))%nat. lia.
Qed.

(** The MME gets the P-GW's response with three changes: the S-GW's F-TEID for S11, its FQ-CSID,
    and in the first Bearer Context its F-TEID for S1-U behind the P-GW's IEs, without Charging IDs *)
Theorem C78_sgw_relay : forall b m c l sender csid s1u t n, bytes_ok b -> v2_parse g2 b = Ok (d_CreateSessionResponse, m) ->
  fget (m_fs m) "BearerContextsCreated" = Some c :: l ->
  wf2 g2 sender -> i2_type sender = 87 -> i2_instance sender = 0 -> wf2 g2 csid -> i2_type csid = 132 -> i2_instance csid = 1 -> wf2 g2 s1u ->
  N.of_nat (len b + 4 + len (wire2 g2 sender) + len (wire2 g2 csid) + len (wire2 g2 s1u)) < 65536 -> t < 4294967296 -> n < 16777216 ->
  exists raw x, sgw_relay m sender csid s1u t n = Ok raw /\ v2_parse g2 raw = Ok (d_CreateSessionResponse, x) /\
    h2_get_teid (m_hdr x) = t /\ h2_seq (m_hdr x) = n /\
    fget (m_fs x) "SenderFTEIDC" = [Some sender] /\ fget (m_fs x) "SGWFQCSID" = [Some csid] /\
    (exists c', fget (m_fs x) "BearerContextsCreated" = Some c' :: l /\ i2_instance c' = i2_instance c /\
       i2_children c' = filter (fun i => negb ((i2_type i =? 94) && (i2_instance i =? 0))) (i2_children c ++ [s1u])) /\
    forall f, f <> "SenderFTEIDC" -> f <> "SGWFQCSID" -> f <> "BearerContextsCreated" -> fget (m_fs x) f = fget (m_fs m) f.
Proof.
  intros b m c l sender csid s1u t n Hb Hp F Ws Ts Is Wq Tq Iq Wu Hl Ht Hn.
  destruct (received_facts b _ m Hb Hp csrsp_sized) as ((K & Sg & Nn) & Wf & Hh & Sum).
  assert (Kb : In ("BearerContextsCreated", FList) (md_fields d_CreateSessionResponse)) by (unfold d_CreateSessionResponse; cbn [md_fields]; repeat first [left; reflexivity|right]).
  assert (Bc : i2_type c = 93 /\ belongs2 (md_name d_CreateSessionResponse) (map fst (md_fields d_CreateSessionResponse)) "BearerContextsCreated" 93 (i2_instance c) = true).
  { destruct (C77_v2_received g2 b _ m _ _ c Hb Hp csrsp_all Kb (csrsp_exact _) ltac:(rewrite F; left; reflexivity)) as [_ X].
    assert (T93 : i2_type c = 93); [|rewrite T93 in X; now split].
    clear - X. change (named2 "CreateSessionResponse" "BearerContextsCreated" (i2_type c) (i2_instance c) = true) in X. unfold named2 in X.
    assert (Y : types_for v2_field_types "BearerContextsCreated" = [93]) by (vm_compute; reflexivity). assert (Z : instance_for "CreateSessionResponse" "BearerContextsCreated" = Some 0) by (vm_compute; reflexivity).
    rewrite Y, Z in X. cbn [existsb] in X. rewrite andb_true_iff, orb_false_r in X. destruct X as [X _]. apply N.eqb_eq in X. exact X. }
  destruct Bc as [T93 Bc].
  assert (Wc : wf2 g2 c) by (apply (Wf "BearerContextsCreated"); rewrite F; left; reflexivity).
  assert (Ks : forall f, In f ["SenderFTEIDC"; "SGWFQCSID"; "BearerContextsCreated"] -> In f (keys (m_fs m))).
  { unfold keys. rewrite K. intros f Hf. apply mem_In. repeat destruct Hf as [<-|Hf]; [vm_compute; reflexivity|vm_compute; reflexivity|vm_compute; reflexivity|destruct Hf]. }
  assert (K1 : In "SenderFTEIDC" (keys (m_fs m))) by (apply Ks; cbn [In]; tauto). assert (K2 : In "SGWFQCSID" (keys (m_fs m))) by (apply Ks; cbn [In]; tauto).
  assert (K3 : In "BearerContextsCreated" (keys (m_fs m))) by (apply Ks; cbn [In]; tauto). clear Ks.
  pose proof (fset_sum (m_fs m) "SenderFTEIDC" [Some sender] K1) as Q1.
  set (f1 := fset (m_fs m) "SenderFTEIDC" [Some sender]) in *. assert (K1' : keys f1 = keys (m_fs m)) by apply keys_fset.
  pose proof (fset_sum f1 "SGWFQCSID" [Some csid] ltac:(rewrite K1'; exact K2)) as Q2.
  set (f2 := fset f1 "SGWFQCSID" [Some csid]) in *. assert (K2' : keys f2 = keys (m_fs m)) by (unfold f2; rewrite keys_fset; exact K1').
  assert (F2 : forall h, fget f2 h = if String.eqb "SGWFQCSID" h then [Some csid] else if String.eqb "SenderFTEIDC" h then [Some sender] else fget (m_fs m) h).
  { intros h. unfold f2, f1. rewrite fget_fset by (fold f1; rewrite K1'; exact K2). rewrite fget_fset by exact K1. reflexivity. }
  assert (Lc : (len (wire2 g2 c) <= len (flat_map (wire2 g2) (MsgSpec.present (m_fs m))))%nat).
  { pose proof (fset_sum (m_fs m) "BearerContextsCreated" [] K3) as Q. rewrite F, nn_cons in Q. cbn [flat_map] in Q. rewrite app_length in Q. change (nonnil []) with (@nil ie2) in Q. cbn [flat_map] in Q. cbn [List.length] in Q. lia. }
  destruct (context_changed c s1u Wc T93 Wu ltac:(lia)) as (c1 & c2 & E1 & E2 & W2 & T2 & I2 & Ch & L2).
  set (fs := fset f2 "BearerContextsCreated" (Some c2 :: l)).
  pose proof (fset_sum f2 "BearerContextsCreated" (Some c2 :: l) ltac:(rewrite K2'; exact K3)) as Q3. fold fs in Q3.
  assert (Fs : forall h, fget fs h = if String.eqb "BearerContextsCreated" h then Some c2 :: l else fget f2 h) by (intros h; unfold fs; apply fget_fset; rewrite K2'; exact K3).
  assert (Kf : keys fs = keys (m_fs m)) by (unfold fs; rewrite keys_fset; exact K2').
  assert (Hold : forall h i, In (Some i) (fget fs h) -> (h = "BearerContextsCreated" /\ i = c2) \/ (h = "SGWFQCSID" /\ i = csid) \/ (h = "SenderFTEIDC" /\ i = sender) \/ In (Some i) (fget (m_fs m) h)).
  { intros h i Hi. rewrite Fs in Hi. destruct (String.eqb_spec "BearerContextsCreated" h) as [<-|]; [destruct Hi as [Hi|Hi]; [injection Hi as <-; left; now split|do 3 right; rewrite F; right; exact Hi]|].
    rewrite F2 in Hi. destruct (String.eqb_spec "SGWFQCSID" h) as [<-|]; [destruct Hi as [Hi|[]]; injection Hi as <-; right; left; now split|].
    destruct (String.eqb_spec "SenderFTEIDC" h) as [<-|]; [destruct Hi as [Hi|[]]; injection Hi as <-; do 2 right; left; now split|]. do 3 right. exact Hi. }
  assert (Ty : typed_fields d_CreateSessionResponse fs).
  { split; [change (keys fs = map fst (md_fields d_CreateSessionResponse)); rewrite Kf; exact K|]. split.
    - intros h Hh1. rewrite Fs. destruct (String.eqb_spec "BearerContextsCreated" h) as [<-|_].
      + exfalso. assert (X : existsb (fun p => (String.eqb (fst p) "BearerContextsCreated" && match snd p with FSingle => true | _ => false end)%bool) (md_fields d_CreateSessionResponse) = false) by (vm_compute; reflexivity).
        apply not_true_iff_false in X. apply X, existsb_exists. eexists. split; [exact Hh1|reflexivity].
      + rewrite F2. destruct (_ =? _)%string; [right; now eexists|]. destruct (_ =? _)%string; [right; now eexists|]. apply Sg, Hh1.
    - intros h Hi. rewrite Fs in Hi. destruct (String.eqb_spec "BearerContextsCreated" h) as [E0|E0]; [subst h|]; [destruct Hi as [Hi|Hi]; [discriminate Hi|apply (Nn "BearerContextsCreated"); rewrite F; right; exact Hi]|].
      rewrite F2 in Hi. destruct (_ =? _)%string; [destruct Hi as [Hi|[]]; discriminate|]. destruct (_ =? _)%string; [destruct Hi as [Hi|[]]; discriminate|]. exact (Nn h Hi). }
  assert (Aw : forall h i, In (Some i) (fget fs h) -> wf2 g2 i).
  { intros h i Hi. destruct (Hold h i Hi) as [[_ ->]|[[_ ->]|[[_ ->]|H]]]; [exact W2|exact Wq|exact Ws|exact (Wf h i H)]. }
  assert (Nd : NoDup (keys fs)). { rewrite Kf. unfold keys. rewrite K. destruct (sized2_parts _ csrsp_sized) as (_ & D2 & _). exact (proj1 (fields_ok_parts _ D2)). }
  assert (Rf : rightly_filled d_CreateSessionResponse fs).
  { intros h i Hi. split; [apply csrsp_exact|]. destruct (Hold h i Hi) as [[-> ->]|[[-> ->]|[[-> ->]|H]]].
    - rewrite T2, I2. exact Bc.
    - rewrite Tq, Iq. vm_compute. reflexivity.
    - rewrite Ts, Is. vm_compute. reflexivity.
    - pose proof (in_fget_key _ _ _ H) as Hk. rewrite K in Hk. apply in_map_iff in Hk as ([h' k] & Eh & Hk). cbn [fst] in Eh. subst h'.
      exact (proj2 (C77_v2_received g2 b _ m h k i Hb Hp csrsp_all Hk (csrsp_exact _) H)). }
  destruct (C58_v2_set_teid (m_hdr m) t (h2o_flags _ Hh)) as (_ & T1 & _).
  set (h0 := h2_set_seq (h2_set_teid (m_hdr m) t) n).
  assert (T0 : h2_has_teid h0 = true) by exact T1.
  assert (Hh0 : h2_ok h0).
  { constructor; try assumption; try exact (h2o_type _ Hh); try exact (h2o_spare _ Hh); [|rewrite T0; discriminate].
    assert (B : forallb (fun f => N.lor f 8 <? 256) all_bytes = true) by (vm_compute; reflexivity). pose proof (byte_sweep _ B _ (h2o_flags _ Hh)) as Q. apply N.ltb_lt in Q. exact Q. }
  assert (Na : ts29274 (h2_type h0) = md_name d_CreateSessionResponse).
  { destruct (v2_parse_parts g2 b _ m Hp) as (ty & _ & Ed & E0 & _). change (h2_type h0) with (h2_type (m_hdr m)). rewrite E0. pose proof struct2_spec as S. rewrite forallb_forall in S.
    assert (Hty : ty < 256) by (rewrite <- E0; exact (h2o_type _ Hh)). rewrite Ed. symmetry. apply String.eqb_eq, S. apply below_complete. exact Hty. }
  assert (Ba : h2_base h0 = 12%nat) by (unfold h2_base; rewrite T0; reflexivity).
  assert (Sz : (12 + len (flat_map (wire2 g2) (MsgSpec.present fs)) <= len b + 4 + len (wire2 g2 sender) + len (wire2 g2 csid) + len (wire2 g2 s1u))%nat).
  { assert (F2b : fget f2 "BearerContextsCreated" = Some c :: l) by (rewrite F2; exact F). rewrite F2b, !nn_cons in Q3. rewrite nn_cons in Q1, Q2. change (nonnil []) with (@nil ie2) in Q1, Q2. cbn [flat_map] in Q1, Q2, Q3. rewrite app_length in Q1, Q2. rewrite !app_length in Q3. cbn [List.length] in Q1, Q2, Q3. lia. }
  destruct (C77_v2_fill g2 d_CreateSessionResponse (Msg h0 fs) csrsp_all ltac:(discriminate) ltac:(discriminate) Na Hh0 Ty (all_wf_present _ _ Nd Aw) Rf) as (w & m1 & M1 & M2 & M3 & M4 & M5 & M6 & M7 & M8 & M9).
  { cbn [m_hdr m_fs]. rewrite Ba. lia. } { cbn [m_hdr m_fs]. rewrite Ba. lia. }
  cbn [m_hdr m_fs] in *. exists w, m1. split.
  { unfold sgw_relay. rewrite F, E1. cbn [bind]. rewrite E2. cbn [bind]. cbv zeta. fold f1. fold f2. fold fs. unfold passed, respond_bytes. cbn [m_hdr m_fs]. cbv zeta. fold h0.
    unfold v2_marshal, msg_marshal in M1. apply bind_ok_inv in M1 as (k & X1 & X2). unfold v2_len, v2_mto. rewrite X1. cbn [bind]. rewrite X2. reflexivity. }
  split; [exact M3|]. split; [unfold h2_get_teid, h2_has_teid in *; rewrite M5, T0; exact M7|]. split; [exact M8|]. rewrite M4, !Fs, !F2. split; [reflexivity|]. split; [reflexivity|].
  split; [exists c2; split; [reflexivity|split; [exact I2|exact Ch]]|].
  intros f N1 N2 N3. rewrite Fs, F2. apply not_eq_sym, String.eqb_neq in N1, N2, N3. rewrite N1, N2, N3. reflexivity.
Qed.
Print Assumptions C78_sgw_relay.
