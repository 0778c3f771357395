(** The example nodes together (ExPgw.v, ExSgw.v, ExSgw2.v, ExMme.v): C79. *)
From Coq Require Import String Lia.
From Verif Require Import Base BaseLemmas Maps MapsProofs Utils UtilsProofs V2IE V2IESpec V2IEProofs V2Header V2HeaderProofs MsgModel MsgSpec MsgProofs MsgProofs2 MsgProofs3 Msgs2Gen V2Msg V2MsgProofs
  V2Codec V2Codec2 V2Ctx CodecSpec V2CodecProofs V2AccProofs PropertiesCtx FieldSpec Properties52 PropertiesBase PropertiesBase2 CPlane SessReq SessReqProofs PropertiesReq ExPgw PropertiesEx PropertiesEx2 PropertiesFwd ExSgw PropertiesSgw PropertiesFill ExSgw2 PropertiesSgw2 PropertiesSgw3 ExMme.
Open Scope string_scope.
Open Scope N_scope.
Open Scope list_scope.

Lemma fteid_reads u ift t ip : acc_fteid u = Ok (FTeid 128 ift t (Some ip) None) ->
  i2_type u = 87 /\ acc_if_type u = Ok ift /\ acc_teid u = Ok t /\ acc_ip u = Ok (Some ip).
Proof.
  unfold acc_fteid, acc_if_type, typed. destruct (N.eqb_spec (i2_type u) 87) as [E|E]; [|discriminate]. intros H.
  split; [exact E|]. assert (P := H). unfold fteid_parse in H. cbv zeta in H. destruct (len (i2_payload u) <? 5)%nat eqn:L; [discriminate|].
  apply bind_ok_inv in H as (x & X & H). apply bind_ok_inv in H as (s & S & H). apply bind_ok_inv in H as (v & V & H). apply bind_ok_inv in H as ([v4 off] & _ & H).
  apply bind_ok_inv in H as (v6 & _ & H). injection H as Fl If Te V4 V6. subst v.
  assert (L1 : (len (i2_payload u) <? 1)%nat = false) by (apply Nat.ltb_ge; apply Nat.ltb_ge in L; lia).
  assert (L4 : (len (i2_payload u) <? 4)%nat = false) by (apply Nat.ltb_ge; apply Nat.ltb_ge in L; lia).
  split; [rewrite L1, X; cbn [bind]; rewrite If; reflexivity|].
  split; [unfold acc_teid; cbv zeta; rewrite L, E; cbn [N.eqb Pos.eqb]; rewrite S; exact V|].
  unfold acc_ip. cbv zeta. rewrite L4, E. cbn [N.eqb Pos.eqb]. rewrite P. cbn [bind].
  assert (Hb : has_ipv4 u = true).
  { unfold has_ipv4, has_ip_bit. rewrite E. cbn [N.eqb Pos.eqb]. destruct (i2_payload u) as [|y p] eqn:Y; [discriminate|]. cbn in X. injection X as ->. change (hasbit 7 x = true). unfold hasbit. change (2 ^ 7) with 128.
    replace (N.land x 128) with 128; [reflexivity|]. change 128 with (N.land 192 128) at 2. rewrite N.land_assoc, Fl. reflexivity. }
  rewrite Hb. reflexivity.
Qed.

(** one child at a time *)
Lemma ch_cause c r s b : i2_type c = 2 -> acc_cause g2 c = Ok 16 -> sgw_children (c :: r) s b = sgw_children r s b.
Proof. intros T A. cbn [sgw_children]. rewrite T, A. reflexivity. Qed.
Lemma ch_ebi c r s b e : i2_type c = 73 -> acc_ebi g2 c = Ok e -> sgw_children (c :: r) s b = sgw_children r s (UBearer (ub_ip b) e (ub_remote b) (ub_out b) (ub_charge b)).
Proof. intros T A. cbn [sgw_children]. rewrite T, A. reflexivity. Qed.
Lemma ch_far c r s b ip it t : i2_type c = 87 -> acc_ip c = Ok (Some ip) -> to4 (Some ip) = Some ip -> acc_if_type c = Ok it -> acc_teid c = Ok t ->
  sgw_children (c :: r) s b = sgw_children r (add_teid s it t) (UBearer (ub_ip b) (ub_ebi b) (Some ip) t (ub_charge b)).
Proof. intros T A B C D. cbn [sgw_children]. rewrite T. unfold fteid_u, udp_addr. rewrite A. cbn [bind]. rewrite B, D, C. reflexivity. Qed.
Lemma ch_charge c r s b v : i2_type c = 94 -> acc_charging_id g2 c = Ok v -> sgw_children (c :: r) s b = sgw_children r s (UBearer (ub_ip b) (ub_ebi b) (ub_remote b) (ub_out b) v).
Proof. intros T A. cbn [sgw_children]. rewrite T, A. reflexivity. Qed.

(** ** The answer of the P-GW, read by the S-GW *)
(** a session is set up along the three nodes.  The S-GW has asked with [m]; the P-GW has TEIDs tc, tu; the
    S-GW offers the MME (TEID t, request number n) the TEID ts at si, and t1 at ui for the eNB. *)
Ltac eqs := repeat match goal with |- context [?a =? ?b] => let v := eval vm_compute in (a =? b) in match v with true => idtac | false => idtac end; change (a =? b) with v end; cbn [negb andb]; cbv iota.
Theorem C79_attach : forall b m peer tc tu cip uip k cs teid (s : session) br (sm : session) ip0 ebi0 ts t1 si ui t n,
  bytes_ok b -> v2_parse g2 b = Ok (d_CreateSessionRequest, m) -> acceptable m k cs teid ->
  tc < 4294967296 -> tu < 4294967296 -> octets 4 cip -> octets 4 uip ->
  s_imsi s <> [] -> (exists o, aget (s_teids sm) 10 = Some o) -> s_imsi sm <> [] ->
  ts < 4294967296 -> t1 < 4294967296 -> octets 4 si -> octets 4 ui -> t < 4294967296 -> n < 16777216 ->
  exists r a s' br' sender csid s1u raw x sm',
    pgw_create m peer (Some tc) (Some tu) cip uip = Ok r /\ v2_parse g2 (pd_sent r) = Ok (d_CreateSessionResponse, a) /\
    sgw_created a (Some s) br true true = Ok (Given s' br') /\
    new_fteid g2 11 ts (Some si) None = Ok (Some sender) /\ with_instance (new_fqcsid g2 (NodeIP ui) [1]) 1 = Ok csid /\ new_fteid g2 1 t1 (Some ui) None = Ok (Some s1u) /\
    sgw_relay a sender csid s1u t n = Ok raw /\ v2_parse g2 raw = Ok (d_CreateSessionResponse, x) /\ h2_get_teid (m_hdr x) = t /\ h2_seq (m_hdr x) = n /\
    mme_created x (Some sm) ip0 ebi0 = Ok (Some [10; 10; 10; k], last_ebi cs 0 mod 16, sm') /\
    br' = UBearer (Some [10; 10; 10; k]) (last_ebi cs 0 mod 16) (Some uip) tu 0 /\
    aget (s_teids (pd_session r)) 7 = Some tc /\ aget (s_teids s') 7 = Some tc /\
    aget (s_teids (pd_session r)) 5 = Some tu /\ aget (s_teids s') 5 = Some tu /\
    aget (s_teids sm') 11 = Some ts /\ aget (s_teids sm') 1 = Some t1 /\
    s_active (pd_session r) = true /\ s_active s' = true /\ s_active sm' = true.
Proof.
  intros b m peer tc tu cip uip k cs teid s br sm ip0 ebi0 ts t1 si ui t n Hb Hp Ha Hc Hu Oc Ou Hi (o & Ho) Him Hts Ht1 Osi Oui Ht Hn.
  destruct (C75_pgw_answers b m peer tc tu cip uip k cs teid Hb Hp Ha Hc Hu Oc Ou) as (r & R1 & (Rb & Rl & a & A1 & A2 & A3 & A4 & A5 & A6 & A7 & A8 & A9 & A10 & A11 & _) & R2 & R3 & R4 & R5 & R6 & R7).
  destruct A11 as (c & u & C1 & C2 & C3 & C4). destruct (fteid_reads _ _ _ _ C4) as (U1 & U2 & U3 & U4).
  destruct (cause_facts 16 None ltac:(lia) ltac:(intros z X; discriminate)) as (K1 & K2 & K3 & _).
  destruct (ebi_facts (last_ebi cs 0)) as (E1 & E2 & E3 & _).
  set (cause := new_cause g2 16 0 0 0 None) in *. set (e := new_ebi g2 (last_ebi cs 0)) in *. set (ch := new_charging_id g2 0) in *.
  assert (H2 : i2_type ch = 94) by reflexivity. assert (H3 : acc_charging_id g2 ch = Ok 0) by reflexivity.
  destruct A5 as (p5 & q5 & P1 & P2). destruct (fteid_reads _ _ _ _ P2) as (_ & P3 & P4 & _).
  (* the S-GW *)
  assert (G : exists s' br', sgw_created a (Some s) br true true = Ok (Given s' br') /\ br' = UBearer (Some [10; 10; 10; k]) (last_ebi cs 0 mod 16) (Some uip) tu 0 /\
    aget (s_teids s') 7 = Some tc /\ aget (s_teids s') 5 = Some tu /\ s_active s' = true).
  { unfold sgw_created. rewrite (need_reads a "Cause" (acc_cause g2) _ 16 A4). eqs. rewrite (need_reads a "PAA" acc_ip _ _ A6). cbv zeta.
    rewrite (need_reads a "PGWS5S8FTEIDC" _ _ (7, tc)) by (exists p5, q5; split; [exact P1|rewrite P3; cbn [bind]; rewrite P4; reflexivity]). cbn [fst snd].
    rewrite (need_reads a "BearerContextsCreated" _ _ [cause; e; u; ch]) by (exists c, []; split; [exact C1|rewrite C2; reflexivity]).
    assert (T4 : to4 (Some uip) = Some uip) by (unfold to4; rewrite (proj1 Ou); reflexivity).
    rewrite (ch_cause _ _ _ _ K2 K3), (ch_ebi _ _ _ _ _ E2 E3), (ch_far _ _ _ _ _ _ _ U1 U4 T4 U2 U3), (ch_charge _ _ _ _ _ H2 H3). cbn [sgw_children bind ub_ip ub_ebi ub_remote ub_out ub_charge].
    change (s_imsi (add_teid (add_teid s 7 tc) 5 tu)) with (s_imsi s). destruct (s_imsi s) as [|z zs]; [contradiction|].
    eexists. eexists. split; [reflexivity|]. split; [reflexivity|]. change (s_teids (set_s (add_teid (add_teid s 7 tc) 5 tu) (SActive true))) with (s_teids (add_teid (add_teid s 7 tc) 5 tu)).
    rewrite !add_teid_get. eqs. now repeat split. }
  destruct G as (s' & br' & G1 & G2 & G3 & G4 & G5).
  (* passed on *)
  destruct (fteid_plain 11 ts si ltac:(lia) Hts Osi) as (sender & S1 & S2 & S3 & S4 & S5 & S6 & S7).
  destruct (fteid_plain 1 t1 ui ltac:(lia) Ht1 Oui) as (s1u & V1 & V2 & V3 & V4 & V5 & V6 & V7).
  destruct (fqcsid_made ui Oui) as (q & F1 & F2 & F3 & F4 & F5 & F6). destruct (inst_facts q 1 ltac:(lia) F4) as (I1 & I2 & I3 & _ & _ & I6 & I7).
  set (csid := set_instance2 q 1) in *.
  assert (Ls : len (wire2 g2 sender) = 13%nat). { rewrite len_wire. destruct sender as [ty l ins p cc]. cbn [i2_type i2_children i2_payload] in *. subst. cbn. rewrite S5. reflexivity. }
  assert (Lu : len (wire2 g2 s1u) = 13%nat). { rewrite len_wire. destruct s1u as [ty l ins p cc]. cbn [i2_type i2_children i2_payload] in *. subst. cbn. rewrite V5. reflexivity. }
  assert (Lq : len (wire2 g2 csid) = 11%nat). { rewrite len_wire. rewrite <- F5. unfold csid. destruct q. reflexivity. }
  destruct (C78_sgw_relay (pd_sent r) a c [] sender csid s1u t n Rb A1 C1 S2 S3 S7 I1 ltac:(rewrite I3; exact F2) ltac:(unfold i2_instance; rewrite I2; reflexivity) V2) as (raw & x & X1 & X2 & X3 & X4 & X5 & X6 & (c' & X7 & X8 & X9) & X10).
  { rewrite Ls, Lq, Lu. clear - Rl. lia. } { exact Ht. } { exact Hn. }
  assert (X9' : i2_children c' = [cause; e; u; s1u]).
  { rewrite X9, C2. cbn [app filter]. rewrite K2, E2, U1, H2, V3. reflexivity. }
  destruct (fteid_reads _ _ _ _ S6) as (_ & _ & S8 & _). destruct (fteid_reads _ _ _ _ V6) as (_ & V8 & V9 & _).
  (* the MME *)
  assert (M : exists sm', mme_created x (Some sm) ip0 ebi0 = Ok (Some [10; 10; 10; k], last_ebi cs 0 mod 16, sm') /\ aget (s_teids sm') 11 = Some ts /\ aget (s_teids sm') 1 = Some t1 /\ s_active sm' = true).
  { unfold mme_created, needs. rewrite (X10 "Cause") by discriminate. destruct A4 as (i4 & q4 & W1 & W2). rewrite W1, W2. cbn [bind]; eqs.
    rewrite (X10 "PAA") by discriminate. destruct A6 as (i6 & q6 & Y1 & Y2). rewrite Y1, Y2. cbn [bind]. rewrite X5, S8. cbn [bind].
    rewrite (add_teid_get sm 11 ts 10). change (11 =? 10) with false. cbv iota. rewrite Ho, X7, X9'.
    cbn [read_context]. rewrite K2, E2, U1, V3. eqs. rewrite E3. cbn [bind]. rewrite C3, V7. eqs. rewrite V8. cbn [bind]. rewrite V9. cbn [bind].
    change (s_imsi (add_teid (add_teid sm 11 ts) 1 t1)) with (s_imsi sm). destruct (s_imsi sm) as [|z zs]; [contradiction|].
    eexists. split; [reflexivity|]. change (s_teids (set_s (add_teid (add_teid sm 11 ts) 1 t1) (SActive true))) with (s_teids (add_teid (add_teid sm 11 ts) 1 t1)).
    rewrite !add_teid_get. eqs. now repeat split. }
  destruct M as (sm' & M1 & M2 & M3 & M4).
  exists r, a, s', br', sender, csid, s1u, raw, x, sm'. split; [exact R1|]. split; [exact A1|]. split; [exact G1|]. split; [exact S1|].
  split; [unfold with_instance; rewrite F1; reflexivity|]. split; [exact V1|]. split; [exact X1|]. split; [exact X2|]. split; [exact X3|]. split; [exact X4|]. split; [exact M1|]. split; [exact G2|].
  split; [exact R5|]. split; [exact G3|]. split; [exact R6|]. split; [exact G4|]. split; [exact M2|]. split; [exact M3|]. split; [exact R4|]. split; [exact G5|exact M4].
Qed.
Print Assumptions C79_attach.

(** ** The MME and the Modify Bearer Response *)
(** every F-TEID of instance 0 has an IPv4 address *)
Definition reachable0 (cs : list ie2) : Prop :=
  Forall (fun c => i2_type c = 87 -> i2_instance c = 0 -> exists ip a it t, acc_ip c = Ok ip /\ to4 ip = Some a /\ acc_if_type c = Ok it /\ acc_teid c = Ok t) cs.
(** the address and TEID of the last of them *)
Fixpoint last_far0 (cs : list ie2) (x : option bytes * N) : option bytes * N :=
  match cs with
  | [] => x
  | c :: r => last_far0 r (if (i2_type c =? 87) && (i2_instance c =? 0) then match acc_ip c, acc_teid c with Ok ip, Ok t => (to4 ip, t) | _, _ => x end else x)
  end.
Lemma mme_far_total cs : reachable0 cs -> forall s far, exists s' far', mme_far cs s far = Ok (s', far').
Proof.
  induction 1 as [|c r Hc _ IH]; intros s far; cbn [mme_far]; [now exists s, far|]. destruct (N.eqb_spec (i2_type c) 87) as [E|E]; [|apply IH].
  destruct (N.eqb_spec (i2_instance c) 0) as [F|F]; cbn [negb]; [|apply IH]. destruct (Hc E F) as (ip & a & it & t & A1 & A2 & A3 & A4).
  rewrite A3. cbn [bind]. rewrite A4. cbn [bind]. rewrite A1. cbn [bind]. unfold udp_addr. rewrite A2. cbn [bind]. apply IH.
Qed.
Lemma mme_far_ok cs : forall s far s' far', mme_far cs s far = Ok (s', far') -> reachable0 cs /\ far' = last_far0 cs far /\ s_imsi s' = s_imsi s /\
  forall k t, aget (s_teids s) k = Some t -> aget (s_teids s') k = Some (last_teid0 k cs t).
Proof.
  induction cs as [|c r IH]; intros s far s' far' H; cbn [mme_far last_far0 last_teid0] in *.
  - injection H as <- <-. split; [constructor|]. split; [reflexivity|]. split; [reflexivity|]. intros k t E. exact E.
  - destruct (N.eqb_spec (i2_type c) 87) as [E|E]; cbn [andb].
    + destruct (N.eqb_spec (i2_instance c) 0) as [F|F]; cbn [negb] in H.
      * apply bind_ok_inv in H as (it & H1 & H). apply bind_ok_inv in H as (t & H2 & H). apply bind_ok_inv in H as (ip & H3 & H). apply bind_ok_inv in H as (a & H4 & H).
        unfold udp_addr in H4. destruct (to4 ip) as [y|] eqn:T; [|discriminate]. injection H4 as ->. rewrite H1, H2, H3, T.
        destruct (IH _ _ _ _ H) as (A & B & C & D). split; [constructor; [|exact A]; intros _ _; now exists ip, a, it, t|]. split; [exact B|]. split; [exact C|].
        intros k v K. apply D. rewrite add_teid_get. destruct (it =? k); [reflexivity|exact K].
      * destruct (IH _ _ _ _ H) as (A & B & C & D). split; [constructor; [intros _ X; contradiction|exact A]|]. now repeat split.
    + destruct (IH _ _ _ _ H) as (A & B & C & D). split; [constructor; [intros X; contradiction|exact A]|]. now repeat split.
Qed.
(** The eNB is started exactly when the response accepts and has a Bearer Context whose F-TEIDs of
    instance 0 can be used; it sends to the last of them *)
Theorem C79_mme_modified : forall m s,
  (forall r, mme_modified m (Some s) = Ok r -> reads m "Cause" (acc_cause g2) 16 /\ exists cs, reads m "BearerContextsModified" (fun c => Ok (i2_children c)) cs /\ reachable0 cs) /\
  forall cs, reads m "Cause" (acc_cause g2) 16 -> reads m "BearerContextsModified" (fun c => Ok (i2_children c)) cs -> reachable0 cs ->
    exists s', mme_modified m (Some s) = Ok (s', last_far0 cs (None, 0)) /\ s_imsi s' = s_imsi s /\
      forall k t, aget (s_teids s) k = Some t -> aget (s_teids s') k = Some (last_teid0 k cs t).
Proof.
  intros m s. split.
  - intros [s' far] H. unfold mme_modified in H. apply bind_ok_inv in H as (c & C & H). apply needs_ok in C. destruct (N.eqb_spec c 16) as [->|]; [|discriminate]. cbn [negb] in H.
    split; [exact C|]. apply needs_ok in H as (i & l & F & H). destruct (mme_far_ok _ _ _ _ _ H) as (A & _). exists (i2_children i). split; [now exists i, l|exact A].
  - intros cs (i & l & F & C) (x & y & G & E) R. injection E as <-. destruct (mme_far_total _ R s (None, 0)) as (s' & far & M). destruct (mme_far_ok _ _ _ _ _ M) as (_ & -> & I & T).
    exists s'. split; [|now split]. unfold mme_modified, needs. rewrite F, C. cbn [bind N.eqb Pos.eqb negb]. rewrite G. exact M.
Qed.
Print Assumptions C79_mme_modified.
(** a Bearer Context without an F-TEID is enough: the eNB is started, and sends to no address *)
Theorem C79_mme_nowhere_refuted : forall m s cs, reads m "Cause" (acc_cause g2) 16 -> reads m "BearerContextsModified" (fun c => Ok (i2_children c)) cs -> Forall (fun c => i2_type c <> 87) cs ->
  exists s', mme_modified m (Some s) = Ok (s', (None, 0)).
Proof.
  intros m s cs C G N. destruct (C79_mme_modified m s) as [_ H]. destruct (H cs C G) as (s' & M & _).
  { apply (Forall_impl _ (P:=fun c => i2_type c <> 87)); [|exact N]. intros c X E. contradiction. }
  exists s'. rewrite M. do 2 f_equal. clear - N. generalize (None : option bytes, 0). induction N as [|c r X _ IH]; intros y; [reflexivity|]. cbn [last_far0]. rewrite (proj2 (N.eqb_neq _ _) X). apply IH.
Qed.
Print Assumptions C79_mme_nowhere_refuted.
(** What the example S-GW answers to a Modify Bearer Request lets the eNB send to the TEID and the
    address that the S-GW relays from, to where the P-GW asked. *)
Theorem C79_modify : forall b m cs s s5 br br5 ip mme s1u s5u (sm : session), bytes_ok b -> v2_parse g2 b = Ok (d_ModifyBearerRequest, m) ->
  to_modify m cs -> reachable cs -> octets 4 ip -> mme < 4294967296 -> s1u < 4294967296 ->
  aget (s_teids s) 10 = Some mme -> aget (s_teids s) 1 = Some s1u -> aget (s_teids s5) 4 = Some s5u ->
  exists x a sm' t, sgw_modify m (Some s) (Some s5) br br5 ip = Ok x /\ v2_parse g2 (mo_answer x) = Ok (d_ModifyBearerResponse, a) /\
    mme_modified a (Some sm) = Ok (sm', (Some ip, t)) /\ mo_up x = (t, ub_out br5, ub_remote br5) /\ aget (s_teids sm') 1 = Some t.
Proof.
  intros b m cs s s5 br br5 ip mme s1u s5u sm Hb Hp Hm Hr Ho H10 H1 G10 G1 G4.
  destruct (C78_sgw_modify b m cs s s5 br br5 ip mme s1u s5u Hb Hp Hm Hr Ho H10 H1 G10 G1 G4) as (x & a & ctx & f & A1 & A2 & _ & A3 & _ & _ & A4 & A5 & _ & _ & A6 & A7 & A8 & _).
  destruct (fteid_reads _ _ _ _ A8) as (U1 & U2 & U3 & U4).
  destruct (cause_facts 16 None ltac:(lia) ltac:(intros z X; discriminate)) as (_ & K2 & _). destruct (ebi_facts (ub_ebi br)) as (_ & E2 & _).
  set (cause := new_cause g2 16 0 0 0 None) in *. set (e := new_ebi g2 (ub_ebi br)) in *.
  exists x, a, (add_teid sm 1 (last_teid 1 cs s1u)), (last_teid 1 cs s1u). split; [exact A1|]. split; [exact A3|]. split; [|split; [exact A2|rewrite add_teid_get; reflexivity]].
  destruct A4 as (i & l & F & C). unfold mme_modified, needs. rewrite F, C. cbn [bind]. eqs. rewrite A5, A6. cbn [mme_far]. rewrite K2, E2, U1. eqs. rewrite A7. eqs.
  rewrite U2. cbn [bind]. rewrite U3. cbn [bind]. rewrite U4. cbn [bind]. unfold udp_addr, to4. rewrite (proj1 Ho). reflexivity.
Qed.
Print Assumptions C79_modify.
(** neither a response nor its absence of IEs ends the program *)
Theorem C79_mme_modified_returns : forall b m s, bytes_ok b -> v2_parse g2 b = Ok (d_ModifyBearerResponse, m) -> mme_modified m s <> Panic.
Proof.
  intros b m s Hb Hp. destruct s as [s|]; [|discriminate].
  assert (Al : In d_ModifyBearerResponse all_msgs2) by (unfold all_msgs2; repeat first [left; reflexivity|right]).
  assert (Nm : In d_ModifyBearerResponse sized2) by (apply sized_by_name; [exact Al|discriminate|discriminate]).
  destruct (received_facts b _ m Hb Hp Nm) as ((_ & _ & Hn) & Hw & _ & _). unfold mme_modified.
  apply bind_np. { apply needs_safe; [apply Hn|]. intros i Hi. apply via_safe; [apply (wf2_payload_ok g2 i (Hw _ i Hi))|intros x _; apply u8_safe]. }
  intros c _. destruct (negb (c =? 16)); [discriminate|]. apply needs_safe; [apply Hn|]. intros i _. generalize (i2_children i). generalize (None : option bytes, 0). clear. intros far cs. revert far s.
  induction cs as [|c r IH]; intros far s; cbn [mme_far]; [discriminate|]. destruct (i2_type c =? 87); [|apply IH]. destruct (negb (i2_instance c =? 0)); [apply IH|].
  apply bind_np; [change (safe (acc_if_type c)); unfold acc_if_type, typed; safe_tac|intros it _]. apply bind_np; [change (safe (acc_teid c)); unfold acc_teid; safe_tac|intros t _].
  apply bind_np; [apply (ip_safe g2)|intros ip _]. apply bind_np; [unfold udp_addr; destruct (to4 ip); discriminate|intros a _]. apply IH.
Qed.
Print Assumptions C79_mme_modified_returns.

(** ** Examples *)
(** subscriber 1 attaches (the request of PropertiesEx2.v) and its bearer is moved to the eNB *)
Example C79_attach_example :
  match pgw_create (PropertiesEx2.x_msg 4) 2 (Some 1025) (Some 1026) [127; 0; 0; 8] [127; 0; 0; 9] with
  | Ok r =>
      match sgw_created (y_msg (pd_sent r)) (Some z_s5) z_none true true, new_fteid g2 11 257 (Some [127; 0; 0; 2]) None, with_instance (new_fqcsid g2 (NodeIP [127; 0; 0; 3]) [1]) 1, new_fteid g2 1 515 (Some [127; 0; 0; 3]) None with
      | Ok (Given s' br), Ok (Some sender), Ok csid, Ok (Some s1u) =>
          match sgw_relay (y_msg (pd_sent r)) sender csid s1u 513 78 with
          | Ok raw =>
              match mme_created (y_msg raw) (Some x_mme_session) None 0, sgw_modify (y_msg (z_req 0)) (Some z_s11) (Some s') (UBearer None 5 None 0 0) br [127; 0; 0; 3] with
              | Ok (ip, 5, sm), Ok x =>
                  ip = Some [10; 10; 10; 1] /\ mo_up x = (515, 1026, Some [127; 0; 0; 9]) /\
                  match mme_modified (y_msg (mo_answer x)) (Some sm) with Ok (_, far) => far = (Some [127; 0; 0; 3], 515) | _ => False end
              | _, _ => False end
          | _ => False end
      | _, _, _, _ => False end
  | _ => False end.
Proof. vm_compute. repeat split. Qed.
