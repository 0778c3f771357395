(** CreateSession (CPlane.v) against CSpec2.v. *)
From Coq Require Import String Lia.
From Verif Require Import Base BaseLemmas Maps MapsProofs Utils V2IE V2Header MsgModel Msgs2Gen V2Msg V2Codec V2Codec2
  CPlane CSpec CSpec2 CPlaneProofs CPlaneProofs2 CPlaneProofs3 CPlaneProofs4 CPlaneProofs5 PropertiesC.
Open Scope N_scope.
Open Scope list_scope.

(** CreateSession with readable IEs, on an open connection and not interrupted, makes a new
    session s with a new default bearer b, sends the Create Session Request under the next
    sequence number, fills s and b from the IEs (the last IE of a type counts), and makes s
    known under the TEIDs of the local F-TEIDs and under the IMSI; nothing else changes *)
Theorem C57_v2_create_session : forall ift counter w c a ies m n raw m',
  reachable ift counter w -> w_crashed w = false -> opened c (w_log w) = true ->
  forallb readable (given ies) = true ->
  v2_new g2 d_CreateSessionRequest 0 0 ies = Ok m ->
  n = next_number (last_seq c (w_log w)) ->
  v2_marshal g2 d_CreateSessionRequest (Msg (h2_set_seq (m_hdr m) n) (m_fs m)) = Ok (raw, m') ->
  exists k w' s b, run w (LCreate c a ies :: repeat (LRun (w_next w) true) k) = Some w' /\ w_crashed w' = false /\
    ~ exists_session s (w_log w) /\ exists_session s (w_log w') /\
    (* one message is sent, to the address given *)
    (exists l, w_log w' = EvSent (w_next w) c a n raw :: l ++ w_log w /\ existsb sends l = false) /\
    last_seq c (w_log w') = n /\
    (* the session *)
    s_peer (w_sess w' s) = a /\ s_active (w_sess w' s) = false /\ s_queue (w_sess w' s) = [] /\
    s_imsi (w_sess w' s) = says acc_imsi [] (last_ie (of_type 1) (given ies)) /\
    s_msisdn (w_sess w' s) = says acc_msisdn [] (last_ie (of_type 76) (given ies)) /\
    s_imei (w_sess w' s) = says acc_mei [] (last_ie (of_type 75) (given ies)) /\
    (s_mcc (w_sess w' s), s_mnc (w_sess w' s)) = says acc_mcc_mnc ([], []) (last_ie (of_type 83) (given ies)) /\
    s_rat (w_sess w' s) = says (acc_u8 g2 82) 0 (last_ie (of_type 82) (given ies)) /\
    (forall it, get_teid w' s it =
       match last_ie (for_interface it) (all_ies (given ies)) with
       | Some i => match acc_teid i with Ok t => Some t | _ => None end
       | None => None
       end) /\
    (* its default bearer *)
    (forall name, by_name w' s name = if bytes_eqb name default_name then Some b else None) /\
    b_apn (w_brs w' b) = says (acc_fqdn g2 71) [] (last_ie (of_type 71) (given ies)) /\
    b_ebi (w_brs w' b) = says (acc_ebi g2) 0 (last_ie (of_type 73) (bearer_ies (given ies))) /\
    q_pl (b_qos (w_brs w' b)) = says (acc_priority_level g2) 0 (last_ie (of_type 80) (bearer_ies (given ies))) /\
    q_qci (b_qos (w_brs w' b)) = says (acc_qci g2) 0 (last_ie (of_type 80) (bearer_ies (given ies))) /\
    q_mbrul (b_qos (w_brs w' b)) = says acc_umbr 0 (last_ie (of_type 80) (bearer_ies (given ies))) /\
    q_mbrdl (b_qos (w_brs w' b)) = says acc_dmbr 0 (last_ie (of_type 80) (bearer_ies (given ies))) /\
    q_gbrul (b_qos (w_brs w' b)) = says acc_ugbr 0 (last_ie (of_type 80) (bearer_ies (given ies))) /\
    (* how it is found *)
    (forall t, (exists i, In i (given ies) /\ for_interface (ift c) i = true /\ acc_teid i = Ok t) -> get_by_teid w' c t a = Ok s) /\
    (forall t peer, ~ (exists i, In i (given ies) /\ for_interface (ift c) i = true /\ acc_teid i = Ok t) ->
       get_by_teid w' c t peer = get_by_teid w c t peer) /\
    (forall im, (exists l1 i l2, given ies = l1 ++ i :: l2 /\ for_interface (ift c) i = true /\
         im = says acc_imsi [] (last_ie (of_type 1) l1)) -> get_by_imsi w' c im = Some s) /\
    (forall im, ~ (exists l1 i l2, given ies = l1 ++ i :: l2 /\ for_interface (ift c) i = true /\
         im = says acc_imsi [] (last_ie (of_type 1) l1)) -> get_by_imsi w' c im = get_by_imsi w c im) /\
    (* the rest *)
    (forall s', s' <> s -> w_sess w' s' = w_sess w s') /\ (forall b', b' <> b -> w_brs w' b' = w_brs w b') /\
    (forall c', c' <> c -> w_conns w' c' = w_conns w c').
Proof.
  intros ift counter w c a ies m n raw m' R C O RD NW EN M.
  destruct (create_runs ift counter w c a ies m n raw m' R C O RD NW EN M) as (k & w' & E & WC & WS & WB & WX & WL).
  pose proof (reach_run _ _ _ _ _ R E) as R'.
  set (l := flat_map (ie_stmts (ift c)) (given ies)) in *.
  set (w0 := begun w c a ies) in *.
  assert (S0 : w_sess (filled ift w c a ies) (w_ns w) = fold_left set_s (sets l) (new_session a [] (w_nb w))).
  { unfold filled. rewrite stmts_sess. fold l w0. unfold w0, begun. cbn [w_sess emit bump add_session]. now rewrite upd_same. }
  assert (B0 : w_brs (filled ift w c a ies) (w_nb w) = fold_left set_b (bsets l) empty_bearer).
  { unfold filled. rewrite stmts_br. fold l w0. unfold w0, begun. cbn [w_brs emit bump add_session]. now rewrite upd_same. }
  destruct (stmts_others w0 (w_next w) c (w_ns w) (w_nb w) l) as (OS & OB & OC).
  destruct (stmts_log w0 (w_next w) c (w_ns w) (w_nb w) l) as (l' & LA & LB & LC).
  destruct (f_rest (ift c) (given ies) RD (new_session a [] (w_nb w))) as (F1 & F2 & F3 & F4). fold l in F1, F2, F3, F4.
  exists k, w', (w_ns w), (w_nb w). rewrite WS, WB. split; [exact E|]. split; [exact WX|].
  assert (X : ~ exists_session (w_ns w) (w_log w)). { rewrite (session_lt _ _ _ _ R). lia. }
  split; [exact X|]. split.
  { exists a, [], (w_nb w). rewrite WL. unfold filled. fold l w0. rewrite LA. right. right. apply in_or_app. right. right. now left. }
  split.
  { exists (EvSeq (w_next w) c n :: l' ++ [EvCall (w_next w) (KCreate c (w_ns w) a ies); EvSession (w_ns w) a [] (w_nb w)]).
    split; [|cbn [existsb sends]; now rewrite existsb_app, LB]. rewrite WL. unfold filled. fold l w0. rewrite LA.
    cbn [app]. rewrite <- app_assoc. reflexivity. }
  split. { rewrite WL. cbn [last_seq]. now rewrite N.eqb_refl. }
  rewrite S0, B0. split; [exact F1|]. split; [exact F2|]. split; [exact F4|].
  split; [exact (f_imsi (ift c) (given ies) RD _)|]. split; [exact (f_msisdn (ift c) (given ies) RD _)|].
  split; [exact (f_imei (ift c) (given ies) RD _)|]. split; [exact (f_net (ift c) (given ies) RD _)|].
  split; [exact (f_rat (ift c) (given ies) RD _)|].
  split.
  { intros it. unfold get_teid. rewrite WS, S0. unfold l. rewrite f_teid by exact RD. cbn [s_teids new_session aget].
    destruct (last_ie _ _) as [i|]; [|reflexivity]. cbn [says]. unfold teid_says. destruct (acc_teid i); reflexivity. }
  split.
  { intros name. unfold by_name. rewrite WS, S0, F3. cbn [s_bearers new_session]. cbn [sget].
    destruct (bytes_eqb name default_name) eqn:Q.
    - apply bytes_eqb_eq in Q. subst name. reflexivity.
    - rewrite bytes_eqb_sym in Q. now rewrite Q. }
  split; [exact (f_apn (ift c) (given ies) RD _)|]. split; [exact (f_ebi (ift c) (given ies) RD _)|].
  pose proof (f_qos (ift c) (given ies) RD empty_bearer) as FQ. fold l in FQ. rewrite FQ.
  assert (QS : match last_ie (of_type 80) (bearer_ies (given ies)) with Some i => exists q, qos_says i = Ok q | None => True end).
  { destruct (last_ie _ _) as [i|] eqn:Q; [|exact Logic.I]. apply last_ie_some in Q as [Q1 Q2]. now apply (qos_read (given ies)). }
  assert (QV : forall A (f : ie2 -> res A) (g : qos -> A), (forall i q, qos_says i = Ok q -> f i = Ok (g q)) ->
     g (says qos_says (b_qos empty_bearer) (last_ie (of_type 80) (bearer_ies (given ies)))) =
     says f (g (b_qos empty_bearer)) (last_ie (of_type 80) (bearer_ies (given ies)))).
  { intros A f g H. destruct (last_ie _ _) as [i|]; [|reflexivity]. destruct QS as (q & Q). cbn [says]. now rewrite Q, (H i q Q). }
  split; [apply (QV _ (acc_priority_level g2) q_pl); qos_part|]. split; [apply (QV _ (acc_qci g2) q_qci); qos_part|].
  split; [apply (QV _ acc_umbr q_mbrul); qos_part|]. split; [apply (QV _ acc_dmbr q_mbrdl); qos_part|].
  split; [apply (QV _ acc_ugbr q_gbrul); qos_part|].
  assert (IT : forall t, aget (c_itei (w_conns w' c)) t = if existsb (carries (ift c) t) (given ies) then Some (Some (w_ns w)) else aget (c_itei (w_conns w c)) t).
  { intros t. rewrite WC, upd_same. cbn [c_itei set_seq]. unfold filled. rewrite stmts_teid. fold l w0. unfold l. now rewrite f_reg by exact RD. }
  assert (CR : forall t, existsb (carries (ift c) t) (given ies) = true <-> exists i, In i (given ies) /\ for_interface (ift c) i = true /\ acc_teid i = Ok t).
  { intros t. rewrite existsb_exists. split; intros (i & I & Q); exists i; (split; [exact I|]).
    - unfold carries in Q. apply andb_prop in Q as [Q1 Q2]. split; [exact Q1|]. destruct (acc_teid i); try discriminate. apply N.eqb_eq in Q2. congruence.
    - destruct Q as [Q1 Q2]. unfold carries. now rewrite Q1, Q2, N.eqb_refl. }
  split.
  { intros t H. unfold get_by_teid. rewrite IT. apply CR in H. rewrite H, WS, S0, F1. cbn [s_peer new_session]. now rewrite N.eqb_refl. }
  split.
  { intros t peer H. unfold get_by_teid. rewrite IT. destruct (existsb (carries (ift c) t) (given ies)) eqn:Q; [exfalso; now apply H, CR|].
    destruct (aget (c_itei (w_conns w c)) t) as [[s'|]|] eqn:K; try reflexivity. rewrite WS.
    assert (L : s' < w_ns w). { eapply known_session; eauto. }
    replace (w_sess (filled ift w c a ies) s') with (w_sess w0 s') by (symmetry; apply OS; lia). unfold w0, begun. cbn [w_sess emit bump add_session].
    unfold upd. now rewrite (proj2 (N.eqb_neq s' (w_ns w))) by lia. }
  assert (IM : forall im, get_by_imsi w' c im = if existsb (bytes_eqb im) (imsis_at [] l) then Some (w_ns w) else get_by_imsi w c im).
  { intros im. unfold get_by_imsi. rewrite WC, upd_same. cbn [c_imsi set_seq]. unfold filled. rewrite stmts_imsi. fold l w0.
    unfold w0, begun. cbn [w_sess emit bump add_session w_conns]. now rewrite upd_same. }
  split.
  { intros im (l1 & i & l2 & G1 & G2 & ->). rewrite IM.
    pose proof (f_imsis (ift c) (given ies) l1 i l2 [] RD G1 G2) as Q. fold l in Q.
    rewrite (proj2 (existsb_exists _ _)); [reflexivity|]. eexists. split; [exact Q|apply bytes_eqb_refl]. }
  split.
  { intros im H. rewrite IM. destruct (existsb (bytes_eqb im) (imsis_at [] l)) eqn:Q; [|reflexivity]. exfalso. apply H.
    apply existsb_exists in Q as (x & Q & B). apply bytes_eqb_eq in B. subst x. now apply (f_imsis_only (ift c) (given ies) []). }
  split.
  { intros s' D. unfold filled. fold l w0. rewrite OS by exact D. unfold w0, begun. cbn [w_sess emit bump add_session].
    unfold upd. now rewrite (proj2 (N.eqb_neq _ _) D). }
  split.
  { intros b' D. unfold filled. fold l w0. rewrite OB by exact D. unfold w0, begun. cbn [w_brs emit bump add_session].
    unfold upd. now rewrite (proj2 (N.eqb_neq _ _) D). }
  intros c' D. rewrite WC. unfold upd. rewrite (proj2 (N.eqb_neq _ _) D). unfold filled. fold l w0. now rewrite OC by exact D.
Qed.
Print Assumptions C57_v2_create_session.

(** the IEs of the examples *)
Definition ie_of (r : res (option ie2)) : option ie2 := match r with Ok (Some i) => Some i | _ => None end.
Definition x_imsi : option ie2 := ie_of (new_imsi g2 [48; 48; 49; 48; 49; 49; 50; 51; 52; 53; 54; 55; 56; 57; 48]).
Definition x_msisdn : option ie2 := ie_of (new_msisdn g2 [56; 49; 55; 48]).
Definition x_net : option ie2 := ie_of (new_serving_network g2 [48; 48; 49] [48; 49]).
Definition x_rat : option ie2 := Some (new_uint8 g2 82 6).
Definition x_local : option ie2 := ie_of (new_fteid g2 10 4660 (Some [127; 0; 0; 1]) None).
Definition x_s5u : option ie2 := ie_of (new_fteid g2 4 22136 (Some [127; 0; 0; 2]) None).
Definition x_qos : option ie2 := ie_of (new_bqos g2 1 2 1 9 100 200 300 400).
Definition x_ctx : option ie2 := ie_of (new_grouped g2 93 [Some (new_ebi g2 5); x_s5u; x_qos]).
Definition x_ies : list (option ie2) := [x_imsi; None; x_msisdn; x_net; x_rat; x_local; x_ctx].
Example C57_example : exists w, reachable ift10 seven w /\ (* the hypotheses are met *)
  (w_crashed w = false /\ opened 0 (w_log w) = true /\ forallb readable (given x_ies) = true /\
   match v2_new g2 d_CreateSessionRequest 0 0 x_ies with
   | Ok m => match v2_marshal g2 d_CreateSessionRequest (Msg (h2_set_seq (m_hdr m) 1) (m_fs m)) with
             | Ok (raw, _) => (List.length raw =? 103)%nat = true | _ => False end
   | _ => False end).
Proof. show [LOpen 0]. repeat split. Qed.
Example C57_example2 : exists w, reachable ift10 seven w /\ (* and the session is filled *)
  (s_imsi (w_sess w 0) = [48; 48; 49; 48; 49; 49; 50; 51; 52; 53; 54; 55; 56; 57; 48] /\ s_msisdn (w_sess w 0) = [56; 49; 55; 48] /\
   s_rat (w_sess w 0) = 6 /\ s_mcc (w_sess w 0) = [48; 48; 49] /\ s_mnc (w_sess w 0) = [48; 49] /\
   get_teid w 0 10 = Some 4660 /\ get_teid w 0 4 = Some 22136 /\ get_by_teid w 0 4660 5 = Ok 0 /\
   get_by_imsi w 0 [48; 48; 49; 48; 49; 49; 50; 51; 52; 53; 54; 55; 56; 57; 48] = Some 0 /\
   by_name w 0 default_name = Some 0 /\ b_ebi (w_brs w 0) = 5 /\ q_qci (b_qos (w_brs w 0)) = 9 /\ q_mbrdl (b_qos (w_brs w 0)) = 200 /\
   last_seq 0 (w_log w) = 1).
Proof. show (LOpen 0 :: LCreate 0 5 x_ies :: repeat (LRun 0 true) 15). repeat split. Qed.

(** If an IE cannot be read, or no message can be built, the call ends with an error;
    it does not panic, nothing is sent and no sequence number is used *)
Theorem C57_v2_create_session_fails : forall ift counter w c a ies, reachable ift counter w -> w_crashed w = false ->
  Forall made_of_octets (given ies) ->
  forallb readable (given ies) = false \/ (exists e, v2_new g2 d_CreateSessionRequest 0 0 ies = Err e) ->
  exists k w' l, run w (LCreate c a ies :: repeat (LRun (w_next w) true) k) = Some w' /\
    w_log w' = EvFail (w_next w) :: l ++ w_log w /\ existsb sends l = false /\
    (forall c', last_seq c' (w_log w') = last_seq c' (w_log w)).
Proof. intros ift counter w c a ies _ C OK H. now apply create_stops. Qed.
Print Assumptions C57_v2_create_session_fails.
(** a Serving Network IE of one octet cannot be read *)
Definition x_bad : option ie2 := Some (new2 g2 83 0 [0]).
Example C57_fails_example : exists w, reachable ift10 seven w /\ (w_crashed w = false /\ forallb (fun i => forallb (fun x => x <? 256) (i2_payload i)) (given [x_imsi; x_bad]) = true /\
  forallb readable (given [x_imsi; x_bad]) = false /\ hd_error (w_log w) = Some (EvFail 0)).
Proof. show (LOpen 0 :: LCreate 0 5 [x_imsi; x_bad] :: repeat (LRun 0 true) 3). repeat split. Qed.

(** Not so: that a failing CreateSession leaves nothing behind.  If the local F-TEID comes
    first, the half-filled session stays registered. *)
Theorem C57_v2_failure_cleans_up_refuted : exists w, reachable ift10 seven w /\
  (hd_error (w_log w) = Some (EvFail 0) /\ w_threads w = [] /\ get_by_teid w 0 4660 5 = Ok 0 /\
   get_by_imsi w 0 [48; 48; 49; 48; 49; 49; 50; 51; 52; 53; 54; 55; 56; 57; 48] = Some 0).
Proof. show (LOpen 0 :: LCreate 0 5 [x_imsi; x_local; x_bad] :: repeat (LRun 0 true) 7). repeat split. Qed.
Print Assumptions C57_v2_failure_cleans_up_refuted.
(** Not so: that the session is found by its IMSI.  If the IMSI comes after the local
    F-TEID, the session is registered under the empty IMSI. *)
Theorem C57_v2_found_by_imsi_refuted : exists w, reachable ift10 seven w /\
  ((exists b l, w_log w = EvSent 0 0 5 1 b :: l) /\ w_threads w = [] /\
   s_imsi (w_sess w 0) = [48; 48; 49; 48; 49; 49; 50; 51; 52; 53; 54; 55; 56; 57; 48] /\
   get_by_imsi w 0 [48; 48; 49; 48; 49; 49; 50; 51; 52; 53; 54; 55; 56; 57; 48] = None /\
   get_by_imsi w 0 [] = Some 0).
Proof. show (LOpen 0 :: LCreate 0 5 [x_local; x_imsi] :: repeat (LRun 0 true) 8). repeat split. do 2 eexists. reflexivity. Qed.
Print Assumptions C57_v2_found_by_imsi_refuted.
(** Not so: that the bearer's QoS is that of the Bearer QoS IE.  The guaranteed downlink
    rate is the uplink one, and the two preemption flags are lost, whatever the IE says. *)
Theorem C57_v2_bearer_qos_refuted : exists w, reachable ift10 seven w /\
  (x_qos = ie_of (new_bqos g2 1 2 1 9 100 200 300 400) /\ (exists b l, w_log w = EvSent 0 0 5 1 b :: l) /\
   b_qos (w_brs w 0) = Qos false false 2 9 100 200 300 300).
Proof. show (LOpen 0 :: LCreate 0 5 x_ies :: repeat (LRun 0 true) 15). repeat split. do 2 eexists. reflexivity. Qed.
Print Assumptions C57_v2_bearer_qos_refuted.

Lemma NoDup_app_ok {A} (a b : list A) : NoDup a -> NoDup b -> (forall x, In x a -> ~ In x b) -> NoDup (a ++ b).
Proof.
  intros Ha Hb H. induction Ha as [|x r N _ IH]; [exact Hb|]. cbn [app]. constructor.
  - rewrite in_app_iff. intros [I|I]; [contradiction|]. exact (H x (or_introl eq_refl) I).
  - apply IH. intros y I. apply H. now right.
Qed.
(** BearerCount of a connection: one for each name of a bearer of each active session, under
    each IMSI *)
Theorem C46_v2_bearer_count : forall ift counter w c order, reachable ift counter w -> visits order (c_imsi (w_conns w c)) = true ->
  exists l : list (bytes * bytes), NoDup l /\ bearer_count_all w order = List.length l /\
    forall im name, In (im, name) l <->
      exists s, imsi_known c im (w_log w) = Some s /\ active_of s (w_log w) = true /\ CSpec.named s name (w_log w) <> None.
Proof.
  intros ift counter w c o R V. destruct (imsis ift counter w c o R V) as [D T].
  assert (TB : forall im s, In (im, s) o -> NoDup (map fst (s_bearers (w_sess w s))) /\
    forall n, In n (map fst (s_bearers (w_sess w s))) <-> CSpec.named s n (w_log w) <> None).
  { intros im s H. apply T in H. pose proof (iv_log _ _ _ (reach_inv _ _ _ R)) as G.
    assert (X : exists_session s (w_log w)).
    { apply (session_lt _ _ _ _ R). rewrite (iv_ns _ _ _ (reach_inv _ _ _ R)).
      destruct (imsi_call _ _ _ _ _ _ G H) as (id & l2 & l1 & L & _ & [(t & I)|(a & ies & I)]); apply (in_cons (EvImsiOn id c im s)) in I;
        match type of I with In ?e _ => assert (J : In e (w_log w)) by (rewrite L; apply in_or_app; right; exact I) end;
        exact (called _ _ _ _ _ G J). }
    destruct (table _ _ _ _ _ R X (visits_refl _)) as [D' T']. split; [exact D'|]. intros n. split.
    - intros I. apply in_map_iff in I as ([n' b] & E & I). cbn in E. subst. apply T' in I. congruence.
    - intros I. destruct (CSpec.named s n (w_log w)) as [b|] eqn:E; [|congruence]. apply T' in E. apply in_map_iff. now exists (n, b). }
  assert (T1 : forall n s, In (n, s) o -> imsi_known c n (w_log w) = Some s) by (intros; now apply T).
  set (f := fun p : bytes * N => if s_active (w_sess w (snd p)) then map (pair (fst p)) (map fst (s_bearers (w_sess w (snd p)))) else []).
  assert (FI : forall l im n, In (im, n) (flat_map f l) <-> exists s, In (im, s) l /\ s_active (w_sess w s) = true /\ In n (map fst (s_bearers (w_sess w s)))).
  { intros l im n. rewrite in_flat_map. split.
    - intros ([i s] & I & F). unfold f in F. cbn [fst snd] in F. destruct (s_active (w_sess w s)) eqn:A; [|destruct F].
      apply in_map_iff in F as (x & E & F). injection E as <- <-. exists s. auto.
    - intros (s & I & A & F). exists (im, s). split; [exact I|]. unfold f. cbn [fst snd]. rewrite A. apply in_map_iff. eauto. }
  exists (flat_map f o). split; [|split].
  - clear T T1 V. revert D TB. induction o as [|[im s] r IH]; intros D TB; [constructor|]. cbn [flat_map]. apply NoDup_cons_iff in D as [D1 D2].
    apply NoDup_app_ok; [|apply IH; [exact D2|intros; eapply TB; right; eassumption]|].
    + unfold f. cbn [fst snd]. destruct (s_active _); [|constructor]. apply FinFun.Injective_map_NoDup; [intros ? ? E; now injection E|].
      exact (proj1 (TB im s (or_introl eq_refl))).
    + intros [i n] I1 I2. apply FI in I2 as (s2 & I2 & _). unfold f in I1. cbn [fst snd] in I1. destruct (s_active _); [|destruct I1].
      apply in_map_iff in I1 as (x & E & _). injection E as <- _. apply D1. apply in_map_iff. now exists (im, s2).
  - clear. induction o as [|[im s] r IH]; [reflexivity|]. unfold bearer_count_all in *. cbn [fold_right flat_map]. rewrite IH, app_length.
    assert (E : List.length (f (im, s)) = if s_active (w_sess w s) then List.length (s_bearers (w_sess w s)) else 0%nat).
    { unfold f. cbn [fst snd]. destruct (s_active _); [now rewrite !map_length|reflexivity]. }
    rewrite E. cbn [snd]. destruct (s_active _); reflexivity.
  - intros im name. rewrite FI. split.
    + intros (s & I & A & N). exists s. split; [now apply T1|]. split; [|now apply (TB im s I)].
      rewrite (iv_ses _ _ _ (reach_inv _ _ _ R)), sess_active in A. exact A.
    + intros (s & I & A & N). apply T in I. exists s. split; [exact I|]. split; [|now apply (TB im s I)].
      rewrite (iv_ses _ _ _ (reach_inv _ _ _ R)), sess_active. exact A.
Qed.
Print Assumptions C46_v2_bearer_count.
Example C46_bearer_count_example : exists w, reachable ift10 seven w /\
  (visits [(imsi1, 0)] (c_imsi (w_conns w 0)) = true /\ bearer_count_all w [(imsi1, 0)] = 2%nat).
Proof. show (with_bearers ++ [LSet 0 (SActive true)]). repeat split. Qed.
