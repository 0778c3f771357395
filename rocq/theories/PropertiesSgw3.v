(** The example S-GW's Modify Bearer handler (ExSgw2.v): C78. *)
From Coq Require Import String Lia.
From Verif Require Import Base BaseLemmas Maps MapsProofs Utils UtilsProofs V2IE V2IESpec V2IEProofs V2Header V2HeaderProofs MsgModel MsgSpec MsgProofs MsgProofs2 MsgProofs3 Msgs2Gen V2Msg V2MsgProofs
  V2Codec V2Codec2 V2Ctx CodecSpec V2CodecProofs V2AccProofs PropertiesCtx FieldSpec Properties52 PropertiesBase PropertiesBase2 CPlane SessReq SessReqProofs PropertiesReq ExPgw PropertiesEx PropertiesEx2 PropertiesFwd ExSgw PropertiesSgw PropertiesFill ExSgw2 PropertiesSgw2.
Open Scope string_scope.
Open Scope N_scope.
Open Scope list_scope.

(** ** What the words mean *)
(** the children of the first Bearer Context to be modified, none when there is no such context *)
Definition to_modify (m : msg2) (cs : list ie2) : Prop :=
  (absent m "BearerContextsToBeModified" /\ cs = []) \/ reads m "BearerContextsToBeModified" (fun c => Ok (i2_children c)) cs.
(** every F-TEID has an IPv4 address *)
Definition reachable (cs : list ie2) : Prop :=
  Forall (fun c => i2_type c = 87 -> exists ip a it t, acc_ip c = Ok ip /\ to4 ip = Some a /\ acc_if_type c = Ok it /\ acc_teid c = Ok t) cs.

Lemma modify_total cs : forall s b, reachable cs -> exists s' b', modify_children cs s b = Ok (s', b').
Proof.
  induction cs as [|c r IH]; intros s b H; [now exists s, b|]. inversion H as [|? ? Hc Hr]; subst. cbn [modify_children].
  destruct (N.eqb_spec (i2_type c) 87) as [E|E]; [|now apply IH]. destruct (Hc E) as (ip & a & it & t & A1 & A2 & A3 & A4).
  unfold fteid_u. rewrite A1. cbn [bind]. unfold udp_addr. rewrite A2. cbn [bind]. rewrite A4. cbn [bind]. rewrite A3. cbn [bind fst snd]. now apply IH.
Qed.
Lemma modify_ok cs : forall s b s' b', modify_children cs s b = Ok (s', b') ->
  reachable cs /\ b' = UBearer (ub_ip b) (ub_ebi b) (fst (last_far cs (ub_remote b, ub_out b))) (snd (last_far cs (ub_remote b, ub_out b))) (ub_charge b) /\
  (forall it t, aget (s_teids s) it = Some t -> aget (s_teids s') it = Some (last_teid it cs t)).
Proof.
  induction cs as [|c r IH]; intros s b s' b' H; cbn [modify_children last_far last_teid] in *.
  - injection H as <- <-. split; [constructor|]. split; [destruct b; reflexivity|intros it t E; exact E].
  - destruct (N.eqb_spec (i2_type c) 87) as [E|E].
    + apply bind_ok_inv in H as (x & X & H). apply fteid_u_ok in X as (ip & a & it & t & V1 & V2 & V3 & V4 & ->). cbn [fst snd] in H. rewrite V1, V3, V4, V2.
      destruct (IH _ _ _ _ H) as (A & B & D). split; [constructor; [|exact A]; intros _; now exists ip, a, it, t|].
      split; [exact B|]. intros k u K. apply D. rewrite add_teid_get. destruct (it =? k); [reflexivity|exact K].
    + destruct (IH _ _ _ _ H) as (A & B & D). split; [constructor; [intros X; contradiction|exact A]|]. now split.
Qed.
Lemma fteid_plain ift t ip : ift < 64 -> t < 4294967296 -> octets 4 ip ->
  exists i, new_fteid g2 ift t (Some ip) None = Ok (Some i) /\ wf2 g2 i /\ i2_type i = 87 /\ i2_children i = [] /\ len (i2_payload i) = 9%nat /\ acc_fteid i = Ok (FTeid 128 ift t (Some ip) None) /\ i2_instance i = 0.
Proof.
  intros Hi Ht O. destruct (fteid_made ift t ip 0 Hi Ht O ltac:(lia)) as (i & A & B & C & D & E & F & G & _).
  unfold with_instance, allocated in A. destruct (new_fteid g2 ift t (Some ip) None) as [[j|]| |] eqn:N; try discriminate A. cbn [bind] in A. injection A as <-.
  destruct O as [Lo Bo].
  destruct (fteid_all g2 ift t (Some ip) None Hi Ht ltac:(intros b X; injection X as <-; exact Bo) ltac:(intros b X; discriminate)) as (i & (M1 & M2 & M3 & M4 & M5) & _).
  rewrite M1 in N. injection N as ->. exists j. specialize (M5 eq_refl). destruct (inst_facts j 0 ltac:(lia) M5) as (_ & _ & I3 & I4 & _ & I6 & I7).
  rewrite I4 in G. rewrite I6 in F. rewrite I7 in E. now repeat split.
Qed.
Lemma last_teid_32 it cs : Forall (wf2 g2) cs -> forall t, t < 4294967296 -> last_teid it cs t < 4294967296.
Proof.
  intros W. induction W as [|c r W _ IH]; intros t Ht; [exact Ht|]. cbn [last_teid]. apply IH.
  destruct (i2_type c =? 87); [|exact Ht]. destruct (acc_if_type c) as [x| |]; try exact Ht. destruct (x =? it); [|exact Ht].
  destruct (acc_teid c) as [v| |] eqn:V; try exact Ht. exact (teid_32 c v (wf2_payload_ok g2 c W) V).
Qed.

Lemma mbrsp_built : In d_ModifyBearerResponse built2.
Proof. unfold built2. rewrite filter_In. split; [|vm_compute; reflexivity]. unfold all_msgs2. repeat first [left; reflexivity|right]. Qed.
Lemma mbreq_all : In d_ModifyBearerRequest all_msgs2.
Proof. unfold all_msgs2. repeat first [left; reflexivity|right]. Qed.
Definition mbrsp_of (a b : ie2) : @fmap ie2 := fset (fset (fempty d_ModifyBearerResponse) "Cause" [Some a]) "BearerContextsModified" [Some b].
Lemma mbrsp_run l1 n1 p1 c1 l2 p2 c2 :
  run_table (io2 g2) (md_new d_ModifyBearerResponse) [Some (IE2 2 l1 n1 p1 c1); Some (IE2 93 l2 0 p2 c2)] (fempty d_ModifyBearerResponse) = Ok (mbrsp_of (IE2 2 l1 n1 p1 c1) (IE2 93 l2 0 p2 c2)).
Proof. vm_compute. reflexivity. Qed.
Lemma mbrsp_fields a b : fget (mbrsp_of a b) "Cause" = [Some a] /\ fget (mbrsp_of a b) "BearerContextsModified" = [Some b].
Proof. vm_compute. split; reflexivity. Qed.
Lemma mbrsp_answer i1 i2 t n : i2_type i1 = 2 -> i2_type i2 = 93 -> i2_inst i2 = 0 -> wf2 g2 i1 -> wf2 g2 i2 ->
  N.of_nat (12 + (len (wire2 g2 i1) + len (wire2 g2 i2))) < 65536 -> t < 4294967296 -> n < 16777216 ->
  exists raw x, sent_as d_ModifyBearerResponse t n [Some i1; Some i2] = Ok raw /\ v2_parse g2 raw = Ok (d_ModifyBearerResponse, x) /\
    h2_get_teid (m_hdr x) = t /\ h2_seq (m_hdr x) = n /\ m_fs x = mbrsp_of i1 i2.
Proof.
  intros T1 T2 N2 W1 W2 L Ht Hn.
  destruct (C64_v2_respond d_ModifyBearerResponse 0 1 35 t 0 [Some i1; Some i2] (Msg (Hdr2 0 0 0 0 n 0 []) []) mbrsp_built eq_refl Ht) as (r & raw & x & R1 & R2 & _ & _ & R3 & _ & R4 & R5 & R6).
  { constructor; [exact W1|]. constructor; [exact W2|constructor]. } { cbn [nonnil flat_map app]. rewrite !app_length. cbn [List.length]. rewrite Nat.add_0_r. exact L. } { exact Hn. }
  exists raw, x. split; [exact R2|]. split; [exact R3|]. split; [exact R4|]. split; [exact R5|].
  destruct (new_shape _ _ _ _ _ _ R1) as (fs & l & F & ->). cbn [m_fs] in R6. rewrite R6.
  destruct i1 as [t1 l1 n1 p1 c1], i2 as [t2 l2 n2 p2 c2]. cbn [i2_type i2_inst] in T1, T2, N2. subst t1 t2 n2. rewrite mbrsp_run in F. injection F as <-. reflexivity.
Qed.

(** the answer *)
Lemma modify_answer (m : msg2) mme s1u br ip : mme < 4294967296 -> s1u < 4294967296 -> octets 4 ip -> h2_seq (m_hdr m) < 16777216 ->
  exists f ctx raw a, new_fteid g2 1 s1u (Some ip) None = Ok (Some f) /\
    new_bearer_context g2 [Some (new_cause g2 16 0 0 0 None); Some (new_ebi g2 (ub_ebi br)); Some f] = Ok (Some ctx) /\
    sent_as d_ModifyBearerResponse mme (h2_seq (m_hdr m)) [Some (new_cause g2 16 0 0 0 None); Some ctx] = Ok raw /\
    v2_parse g2 raw = Ok (d_ModifyBearerResponse, a) /\ h2_get_teid (m_hdr a) = mme /\ h2_seq (m_hdr a) = h2_seq (m_hdr m) /\
    reads a "Cause" (acc_cause g2) 16 /\ fget (m_fs a) "BearerContextsModified" = [Some ctx] /\
    acc_cause g2 ctx = Ok 16 /\ acc_ebi g2 ctx = Ok (ub_ebi br mod 16) /\ i2_children ctx = [new_cause g2 16 0 0 0 None; new_ebi g2 (ub_ebi br); f] /\ i2_instance f = 0 /\ acc_fteid f = Ok (FTeid 128 1 s1u (Some ip) None).
Proof.
  intros L10 L1 Ho Hs.
  destruct (fteid_plain 1 s1u ip ltac:(lia) L1 Ho) as (f & F1 & F2 & F3 & F4 & F5 & F6 & F7).
  destruct (cause_facts 16 None ltac:(lia) ltac:(intros t X; discriminate)) as (C1 & C2 & C3 & _).
  destruct (ebi_facts (ub_ebi br)) as (B1 & B2 & B3 & _).
  set (cause := new_cause g2 16 0 0 0 None) in *. set (e := new_ebi g2 (ub_ebi br)) in *.
  set (cies := [Some cause; Some e; Some f]).
  assert (Lf : len (wire2 g2 f) = 13%nat). { rewrite len_wire. destruct f as [ty l ins p c]. cbn [i2_type i2_children i2_payload] in *. subst. cbn. rewrite F5. reflexivity. }
  assert (Lx : len (flat_map (wire2 g2) (nonnil cies)) = 24%nat). { cbn [cies nonnil flat_map app]. rewrite !app_length, Lf. reflexivity. }
  assert (Fx : fits g2 cies).
  { split; [cbn [cies nonnil flat_map app]; repeat (apply Forall_cons; [assumption|]); apply Forall_nil|]. split; [rewrite Lx; lia|discriminate]. }
  destruct (new_bears g2 cies eq_refl Fx) as (ctx & X1 & X).
  pose proof (C55_contexts_read g2 cies ctx eq_refl Fx X) as (R1 & _ & _ & R4 & _).
  destruct X as (X2 & X3 & _ & X4 & _ & _).
  assert (X7 : i2_inst ctx = 0). { unfold new_bearer_context in X1. rewrite new_grouped_ok in X1. injection X1 as <-. reflexivity. }
  assert (Lctx : len (wire2 g2 ctx) = 28%nat).
  { destruct ctx as [ty l ins p c]. cbn [i2_type i2_children] in *. subst ty c. cbn [wire2]. change (g2 93) with true. cbv iota.
    rewrite ?app_length. fold (wire2 g2). rewrite Lx. reflexivity. }
  destruct (mbrsp_answer cause ctx mme (h2_seq (m_hdr m)) C2 X3 X7 C1 X2) as (raw & a & A1 & A2 & A3 & A4 & A5).
  { rewrite Lctx. reflexivity. } { exact L10. } { exact Hs. }
  destruct (mbrsp_fields cause ctx) as [Q1 Q2].
  exists f, ctx, raw, a. split; [exact F1|]. split; [exact X1|]. split; [exact A1|]. split; [exact A2|]. split; [exact A3|]. split; [exact A4|].
  split. { exists cause, []. rewrite A5. split; [exact Q1|exact C3]. }
  split. { rewrite A5. exact Q2. }
  split. { rewrite R4. exact C3. }
  split. { rewrite R1. cbn [cies first_of]. rewrite C2, B2. exact B3. }
  split. { rewrite X4. reflexivity. }
  split; [exact F7|exact F6].
Qed.

(** A Modify Bearer Request is answered "accepted" whenever the two sessions, the three TEIDs and
    an address for each F-TEID of it are there.  From then on what arrives on S1-U is sent where
    the P-GW asked, and what arrives on S5-U is sent where the last F-TEID of the request says. *)
Theorem C78_sgw_modify : forall b m cs s s5 br br5 ip mme s1u s5u, bytes_ok b -> v2_parse g2 b = Ok (d_ModifyBearerRequest, m) ->
  to_modify m cs -> reachable cs -> octets 4 ip -> mme < 4294967296 -> s1u < 4294967296 ->
  aget (s_teids s) 10 = Some mme -> aget (s_teids s) 1 = Some s1u -> aget (s_teids s5) 4 = Some s5u ->
  let far := last_far cs (ub_remote br, ub_out br) in
  exists x a ctx f, sgw_modify m (Some s) (Some s5) br br5 ip = Ok x /\
    mo_up x = (last_teid 1 cs s1u, ub_out br5, ub_remote br5) /\ mo_down x = (s5u, snd far, fst far) /\
    v2_parse g2 (mo_answer x) = Ok (d_ModifyBearerResponse, a) /\ h2_get_teid (m_hdr a) = last_teid 10 cs mme /\ h2_seq (m_hdr a) = h2_seq (m_hdr m) /\
    reads a "Cause" (acc_cause g2) 16 /\ fget (m_fs a) "BearerContextsModified" = [Some ctx] /\
    acc_cause g2 ctx = Ok 16 /\ acc_ebi g2 ctx = Ok (ub_ebi br mod 16) /\ i2_children ctx = [new_cause g2 16 0 0 0 None; new_ebi g2 (ub_ebi br); f] /\ i2_instance f = 0 /\ acc_fteid f = Ok (FTeid 128 1 (last_teid 1 cs s1u) (Some ip) None) /\
    ub_remote (mo_bearer x) = fst far /\ ub_out (mo_bearer x) = snd far /\ ub_ebi (mo_bearer x) = ub_ebi br /\
    (forall it t, aget (s_teids s) it = Some t -> aget (s_teids (mo_session x)) it = Some (last_teid it cs t)).
Proof.
  intros b m cs s s5 br br5 ip mme s1u s5u Hb Hp Hm Hr Ho H10 H1 G10 G1 G4 far.
  assert (Nm : In d_ModifyBearerRequest sized2) by (apply sized_by_name; [exact mbreq_all|discriminate|discriminate]).
  destruct (received_facts b _ m Hb Hp Nm) as (_ & Wf & Hh & _). assert (Hs : h2_seq (m_hdr m) < 16777216) by apply Hh. clear Nm Hh.
  assert (Wcs : Forall (wf2 g2) cs).
  { destruct Hm as [[_ ->]|(c & l & F & E)]; [constructor|]. injection E as <-. apply wf2_children. apply (Wf "BearerContextsToBeModified"). rewrite F. left. reflexivity. }
  destruct (modify_total cs s br Hr) as (s' & br' & M). destruct (modify_ok _ _ _ _ _ M) as (_ & B & T).
  assert (E : match fget (m_fs m) "BearerContextsToBeModified" with [] => Ok (s, br) | None :: _ => Panic | Some c :: _ => modify_children (i2_children c) s br end = Ok (s', br')).
  { destruct Hm as [[A ->]|(c & l & F & E)]; [unfold absent in A; rewrite A; exact M|]. injection E as <-. rewrite F. exact M. }
  pose proof (last_teid_32 10 cs Wcs mme H10) as L10. pose proof (last_teid_32 1 cs Wcs s1u H1) as L1.
  destruct (modify_answer m (last_teid 10 cs mme) (last_teid 1 cs s1u) br' ip L10 L1 Ho Hs) as (f & ctx & raw & a & F1 & X1 & A1 & A2 & A3 & A4 & A5 & A6 & A7 & A8 & A9 & A10 & A11).
  assert (Be : ub_ebi br' = ub_ebi br) by (rewrite B; reflexivity).
  exists (Modified (last_teid 1 cs s1u, ub_out br5, ub_remote br5) (s5u, snd far, fst far) raw s' br'), a, ctx, f.
  split.
  { unfold sgw_modify. rewrite E. cbn [bind]. rewrite (T 10 mme G10), (T 1 s1u G1), G4, F1. cbn [bind]. rewrite X1. cbn [bind]. rewrite A1. cbn [bind]. f_equal. subst br'. reflexivity. }
  cbn [mo_up mo_down mo_answer mo_session mo_bearer]. split; [reflexivity|]. split; [reflexivity|]. split; [exact A2|]. split; [exact A3|]. split; [exact A4|].
  split; [exact A5|]. split; [exact A6|]. split; [exact A7|]. rewrite Be in A8, A9. split; [exact A8|]. split; [exact A9|]. split; [exact A10|]. split; [exact A11|].
  subst br'. cbn [ub_remote ub_out ub_ebi]. split; [reflexivity|]. split; [reflexivity|]. split; [reflexivity|]. exact T.
Qed.
Print Assumptions C78_sgw_modify.
(** no other request is answered *)
Theorem C78_sgw_modify_only : forall m s11 s5 br br5 ip x, sgw_modify m s11 s5 br br5 ip = Ok x ->
  exists s t cs, s11 = Some s /\ s5 = Some t /\ to_modify m cs /\ reachable cs /\ exists s5u, aget (s_teids t) 4 = Some s5u /\ fst (fst (mo_down x)) = s5u.
Proof.
  intros m s11 s5 br br5 ip x H. unfold sgw_modify in H. destruct s11 as [s|]; [|discriminate]. destruct s5 as [t|]; [|discriminate].
  apply bind_ok_inv in H as ([s' br'] & M & H). exists s, t.
  assert (K : exists cs, to_modify m cs /\ reachable cs).
  { destruct (fget (m_fs m) "BearerContextsToBeModified") as [|[c|] l] eqn:F; [|exact (ex_intro _ (i2_children c) (conj (or_intror (ex_intro _ c (ex_intro _ l (conj F eq_refl)))) (proj1 (modify_ok _ _ _ _ _ M))))|discriminate].
    exists []. split; [left; now split|constructor]. }
  destruct K as (cs & K1 & K2). exists cs. split; [reflexivity|]. split; [reflexivity|]. split; [exact K1|]. split; [exact K2|].
  destruct (aget (s_teids s') 10); [|discriminate]. destruct (aget (s_teids s') 1); [|discriminate]. destruct (aget (s_teids t) 4) as [v|]; [|discriminate].
  do 3 apply bind_ok_inv in H as (? & _ & H). injection H as <-. exists v. now split.
Qed.
Print Assumptions C78_sgw_modify_only.
(** A request without an F-TEID, for a bearer that has no address yet, is answered "accepted" all
    the same, and packets for the subscriber are relayed to no address at all. *)
Theorem C78_sgw_modify_nowhere_refuted : forall b m cs s s5 br br5 ip mme s1u s5u, bytes_ok b -> v2_parse g2 b = Ok (d_ModifyBearerRequest, m) ->
  to_modify m cs -> Forall (fun c => i2_type c <> 87) cs -> ub_remote br = None -> octets 4 ip -> mme < 4294967296 -> s1u < 4294967296 ->
  aget (s_teids s) 10 = Some mme -> aget (s_teids s) 1 = Some s1u -> aget (s_teids s5) 4 = Some s5u ->
  exists x a, sgw_modify m (Some s) (Some s5) br br5 ip = Ok x /\ snd (mo_down x) = None /\
    v2_parse g2 (mo_answer x) = Ok (d_ModifyBearerResponse, a) /\ reads a "Cause" (acc_cause g2) 16.
Proof.
  intros b m cs s s5 br br5 ip mme s1u s5u Hb Hp Hm Hn Hr Ho H10 H1 G10 G1 G4.
  assert (R : reachable cs). { unfold reachable. apply (Forall_impl _ (P:=fun c => i2_type c <> 87)); [|exact Hn]. intros c N E. contradiction. }
  assert (L : forall y, last_far cs y = y). { clear - Hn. induction Hn as [|c r N _ IH]; intros y; [reflexivity|]. cbn [last_far]. rewrite (proj2 (N.eqb_neq _ _) N). apply IH. }
  destruct (C78_sgw_modify b m cs s s5 br br5 ip mme s1u s5u Hb Hp Hm R Ho H10 H1 G10 G1 G4) as (x & a & ctx & f & A1 & _ & A3 & A4 & _ & _ & A7 & _).
  exists x, a. split; [exact A1|]. split; [rewrite A3, L; exact Hr|]. now split.
Qed.
Print Assumptions C78_sgw_modify_nowhere_refuted.

(** Whatever Create Session Response or Modify Bearer Request arrives, the handler returns. *)
Lemma fteid_u_np c s b : fteid_u c s b <> Panic.
Proof.
  unfold fteid_u. apply bind_np; [apply (ip_safe g2)|intros ip _]. apply bind_np; [unfold udp_addr; destruct (to4 ip); discriminate|intros a _].
  apply bind_np; [change (safe (acc_teid c)); unfold acc_teid; safe_tac|intros t _]. apply bind_np; [change (safe (acc_if_type c)); unfold acc_if_type, typed; safe_tac|discriminate].
Qed.
Lemma sgw_children_np cs : Forall (wf2 g2) cs -> forall s b, sgw_children cs s b <> Panic.
Proof.
  induction 1 as [|c r W _ IH]; intros s b; cbn [sgw_children]; [discriminate|]. pose proof (wf2_payload_ok g2 c W) as P.
  destruct (i2_type c =? 2); [apply bind_np; [apply via_safe; [exact P|intros x _; apply u8_safe]|intros v _; destruct (v =? 16); [apply IH|discriminate]]|].
  destruct (i2_type c =? 73); [apply bind_np; [now apply acc_ebi_np|intros; apply IH]|].
  destruct (i2_type c =? 87); [apply bind_np; [apply fteid_u_np|intros; apply IH]|].
  destruct (i2_type c =? 94); [apply bind_np; [apply via_safe; [exact P|intros x _; apply u32_safe]|intros; apply IH]|]. apply IH.
Qed.
Lemma modify_children_np cs : forall s b, modify_children cs s b <> Panic.
Proof.
  induction cs as [|c r IH]; intros s b; cbn [modify_children]; [discriminate|]. destruct (i2_type c =? 87); [apply bind_np; [apply fteid_u_np|intros; apply IH]|apply IH].
Qed.
Lemma need_or_np {A} m f (rd : ie2 -> res A) k : ~ In None (fget (m_fs m) f) -> (forall i, In (Some i) (fget (m_fs m) f) -> rd i <> Panic /\ forall v, rd i = Ok v -> k v <> Panic) -> need_or m f rd k <> Panic.
Proof.
  intros H1 H2. unfold need_or. destruct (fget (m_fs m) f) as [|[i|] r]; [discriminate| |elim H1; left; reflexivity].
  destruct (H2 i (or_introl eq_refl)) as [X Y]. apply bind_np; assumption.
Qed.
Theorem C78_sgw_returns : forall b m, bytes_ok b ->
  (v2_parse g2 b = Ok (d_CreateSessionResponse, m) -> forall s5 br s11 room, sgw_created m s5 br s11 room <> Panic) /\
  (v2_parse g2 b = Ok (d_ModifyBearerRequest, m) -> forall s11 s5 br br5 ip, octets 4 ip ->
     (forall s it t, s11 = Some s -> aget (s_teids s) it = Some t -> t < 4294967296) -> sgw_modify m s11 s5 br br5 ip <> Panic).
Proof.
  intros b m Hb. split.
  - intros Hp s5 br s11 room. destruct (received_facts b _ m Hb Hp csrsp_sized) as ((_ & _ & Hn) & Hw & _ & _).
    unfold sgw_created. destruct s5 as [s|]; [|discriminate].
    apply need_or_np; [apply Hn|]. intros i Hi. pose proof (wf2_payload_ok g2 i (Hw _ i Hi)) as P. split; [apply via_safe; [exact P|intros x _; apply u8_safe]|]. intros c _. clear i Hi P.
    destruct (negb (c =? 16)); [discriminate|].
    apply need_or_np; [apply Hn|]. intros i _. split; [apply (ip_safe g2)|]. intros ip _. clear i. cbv zeta.
    apply need_or_np; [apply Hn|]. intros i _. split.
    { apply bind_np; [change (safe (acc_if_type i)); unfold acc_if_type, typed; safe_tac|intros it _]. apply bind_np; [change (safe (acc_teid i)); unfold acc_teid; safe_tac|discriminate]. }
    intros x _. clear i. apply need_or_np; [apply Hn|]. intros i Hi. split; [discriminate|]. intros cs E. injection E as <-.
    apply bind_np; [apply sgw_children_np, wf2_children, (Hw _ i Hi)|]. intros [e|s' b'] _; [discriminate|]. destruct (s_imsi s'); [discriminate|]. destruct s11; [destruct room|]; discriminate.
  - intros Hp s11 s5 br br5 ip Ho Ht. destruct s11 as [s|]; [|discriminate]. destruct s5 as [s5|]; [|discriminate].
    assert (Nm : In d_ModifyBearerRequest sized2) by (apply sized_by_name; [exact mbreq_all|discriminate|discriminate]).
    destruct (received_facts b _ m Hb Hp Nm) as ((_ & _ & Hn) & Hw & Hh & _). assert (Hs : h2_seq (m_hdr m) < 16777216) by apply Hh. clear Nm Hh.
    unfold sgw_modify.
    apply bind_np.
    { specialize (Hn "BearerContextsToBeModified"). destruct (fget (m_fs m) "BearerContextsToBeModified") as [|[c|] l]; [discriminate|apply modify_children_np|elim Hn; left; reflexivity]. }
    intros [s' br'] M.
    assert (K : forall it t, aget (s_teids s') it = Some t -> t < 4294967296).
    { specialize (Ht s). assert (Ht' : forall it t, aget (s_teids s) it = Some t -> t < 4294967296) by (intros it t; apply Ht; reflexivity). clear Ht.
      destruct (fget (m_fs m) "BearerContextsToBeModified") as [|[c|] l] eqn:F; [injection M as <- <-; exact Ht'| |discriminate].
      assert (W : Forall (wf2 g2) (i2_children c)) by (apply wf2_children, (Hw "BearerContextsToBeModified"); rewrite F; left; reflexivity).
      clear - W M Ht'. revert s br s' br' M Ht'. induction W as [|c' r W _ IH]; intros s br s' br' M Ht'; cbn [modify_children] in M; [injection M as <- <-; exact Ht'|].
      destruct (i2_type c' =? 87); [|exact (IH _ _ _ _ M Ht')]. apply bind_ok_inv in M as (x & X & M). apply fteid_u_ok in X as (ip & a & it & t & V1 & V2 & V3 & V4 & ->).
      cbn [fst snd] in M. apply (IH _ _ _ _ M). intros k u. rewrite add_teid_get. destruct (it =? k); [|apply Ht']. intros E. injection E as <-. exact (teid_32 c' t (wf2_payload_ok g2 c' W) V4). }
    destruct (aget (s_teids s') 10) as [mme|] eqn:G10; [|discriminate]. destruct (aget (s_teids s') 1) as [s1u|] eqn:G1; [|discriminate]. destruct (aget (s_teids s5) 4); [|discriminate].
    destruct (modify_answer m mme s1u br' ip (K _ _ G10) (K _ _ G1) Ho Hs) as (f & ctx & raw & a & F1 & X1 & A1 & _). rewrite F1. cbn [bind]. rewrite X1. cbn [bind]. rewrite A1. discriminate.
Qed.
Print Assumptions C78_sgw_returns.

(** ** Examples *)
(** a P-GW's response under the S-GW's TEID 258: Cause, control plane F-TEID (TEID 1025), PAA and a
    Bearer Context with Cause [c], EBI 5, user plane F-TEID (TEID 1026 at 127.0.0.9) and Charging ID 3 *)
Definition z_fteid (it t : N) (ip : bytes) (n : N) : option ie2 := match with_instance (new_fteid g2 it t (Some ip) None) n with Ok i => Some i | _ => None end.
Definition z_ctx (c : N) (far : option ie2) : option ie2 :=
  x_unwrap (new_bearer_context g2 [Some (new_cause g2 c 0 0 0 None); Some (new_ebi g2 5); far; Some (new_charging_id g2 3)]).
Definition z_created (c0 c : N) (far : option ie2) : bytes :=
  y_octets d_CreateSessionResponse 258 9 [Some (new_cause g2 c0 0 0 0 None); z_fteid 7 1025 [127; 0; 0; 8] 1; Some (IE2 79 5 0 [1; 10; 10; 10; 1] []); z_ctx c far].
Definition z_far : option ie2 := z_fteid 5 1026 [127; 0; 0; 9] 2.
Definition z_s5 : session := Sess 1 false [48] [] [] [] [] 0 [(4, 514); (6, 258)] [] [].
Definition z_none : ubearer := UBearer None 0 None 0 0.
Definition z_children (m : msg2) (f : string) : list ie2 := match fget (m_fs m) f with Some c :: _ => i2_children c | _ => [] end.
Example C78_sgw_created_example :
  let b := z_created 16 16 z_far in let m := y_msg b in
  bytes_okb b = true /\ v2_parse g2 b = Ok (d_CreateSessionResponse, m) /\ granted m (Some [10; 10; 10; 1]) 7 1025 (z_children m "BearerContextsCreated") /\
  match sgw_created m (Some z_s5) z_none true true with
  | Ok (Given s br) => br = UBearer (Some [10; 10; 10; 1]) 5 (Some [127; 0; 0; 9]) 1026 3 /\ aget (s_teids s) 7 = Some 1025 /\ aget (s_teids s) 4 = Some 514 /\ s_active s = true
  | _ => False end.
Proof.
  intros b m. split; [vm_compute; reflexivity|]. split; [vm_compute; reflexivity|]. split; [|vm_compute; repeat split].
  unfold granted. repeat (split; [eexists; eexists; split; vm_compute; reflexivity|]).
  let v := eval vm_compute in (z_children m "BearerContextsCreated") in assert (E : z_children m "BearerContextsCreated" = v) by (vm_compute; reflexivity). rewrite E.
  repeat (apply Forall_cons; [unfold usable; cbn [i2_type]; split; [intros H; first [discriminate H|vm_compute; reflexivity]|split; [intros H; first [discriminate H|eexists; vm_compute; reflexivity]|
    split; [intros H; first [discriminate H|eexists; eexists; eexists; eexists; repeat split; vm_compute; reflexivity]|intros H; first [discriminate H|eexists; vm_compute; reflexivity]]]]|]). apply Forall_nil.
Qed.
(** refused by the message, refused by the Bearer Context, or with an IPv6 address only *)
Example C78_sgw_removed_example :
  let go b := sgw_created (y_msg b) (Some z_s5) z_none true true in
  go (z_created 73 16 z_far) = Ok (Removed ECause) /\ go (z_created 16 73 z_far) = Ok (Removed ECause) /\
  go (y_octets d_CreateSessionResponse 258 9 [Some (new_cause g2 16 0 0 0 None)]) = Ok (Removed EMissing) /\
  go (z_created 16 16 (x_unwrap (new_fteid g2 5 1026 None (Some [32; 1; 13; 184; 0; 0; 0; 0; 0; 0; 0; 0; 0; 0; 0; 1])))) = Err EAddress.
Proof. vm_compute. repeat split. Qed.
(** what the MME (TEID 513, sequence number 78) gets of it *)
Example C78_sgw_relay_example :
  let b := z_created 16 16 z_far in let m := y_msg b in
  match z_fteid 11 257 [127; 0; 0; 2] 0, new_fqcsid g2 (NodeIP [127; 0; 0; 2]) [1], z_fteid 1 513 [127; 0; 0; 3] 0 with
  | Some sender, Ok (Some q), Some s1u =>
      let csid := set_instance2 q 1 in
      (i2_type sender = 87 /\ i2_instance sender = 0 /\ i2_type csid = 132 /\ i2_instance csid = 1) /\
      N.ltb (N.of_nat (len b + 4 + len (wire2 g2 sender) + len (wire2 g2 csid) + len (wire2 g2 s1u))) 65536 = true /\
      match sgw_relay m sender csid s1u 513 78 with
      | Ok raw => h2_get_teid (m_hdr (y_msg raw)) = 513 /\ h2_seq (m_hdr (y_msg raw)) = 78 /\
          map i2_type (z_children m "BearerContextsCreated") = [2; 73; 87; 94] /\ map i2_type (z_children (y_msg raw) "BearerContextsCreated") = [2; 73; 87; 87] /\
          fget (m_fs (y_msg raw)) "PAA" = fget (m_fs m) "PAA"
      | _ => False end
  | _, _, _ => False
  end.
Proof. vm_compute. repeat split. Qed.
(** the MME moves the bearer to the eNB (TEID 769 at 127.0.0.4): *)
Definition z_s11 : session := Sess 2 true [48] [] [] [] [] 0 [(10, 513); (1, 515)] [] [].
Definition z_req (it : N) : bytes := y_octets d_ModifyBearerRequest 257 80 [x_unwrap (new_bearer_context g2 [Some (new_ebi g2 5); z_fteid it 769 [127; 0; 0; 4] 0])].
Definition z_br5 : ubearer := UBearer None 5 (Some [127; 0; 0; 9]) 1026 3.
Example C78_sgw_modify_example :
  let b := z_req 0 in let m := y_msg b in let cs := z_children m "BearerContextsToBeModified" in
  bytes_okb b = true /\ v2_parse g2 b = Ok (d_ModifyBearerRequest, m) /\ to_modify m cs /\ reachable cs /\
  last_far cs (None, 0) = (Some [127; 0; 0; 4], 769) /\ last_teid 1 cs 515 = 515 /\
  match sgw_modify m (Some z_s11) (Some z_s5) (UBearer None 5 None 0 0) z_br5 [127; 0; 0; 3] with
  | Ok x => mo_up x = (515, 1026, Some [127; 0; 0; 9]) /\ mo_down x = (514, 769, Some [127; 0; 0; 4])
  | _ => False end.
Proof.
  intros b m cs. split; [vm_compute; reflexivity|]. split; [vm_compute; reflexivity|]. split; [right; eexists; eexists; split; vm_compute; reflexivity|].
  split; [|vm_compute; repeat split]. let v := eval vm_compute in cs in assert (E : cs = v) by (vm_compute; reflexivity). rewrite E.
  repeat (apply Forall_cons; [cbn [i2_type]; intros H; first [discriminate H|eexists; eexists; eexists; eexists; repeat split; vm_compute; reflexivity]|]). apply Forall_nil.
Qed.
(** an F-TEID that claims the S-GW's own interface (type 1) replaces the S-GW's own TEID, 515: the
    relay and the answer then use 769; and without an F-TEID the relay has no address *)
Example C78_sgw_modify_own_refuted :
  match sgw_modify (y_msg (z_req 1)) (Some z_s11) (Some z_s5) (UBearer None 5 None 0 0) z_br5 [127; 0; 0; 3] with
  | Ok x => mo_up x = (769, 1026, Some [127; 0; 0; 9]) | _ => False end /\
  match sgw_modify (y_msg (y_octets d_ModifyBearerRequest 257 80 [])) (Some z_s11) (Some z_s5) (UBearer None 5 None 0 0) z_br5 [127; 0; 0; 3] with
  | Ok x => mo_down x = (514, 0, None) | _ => False end.
Proof. vm_compute. repeat split. Qed.
