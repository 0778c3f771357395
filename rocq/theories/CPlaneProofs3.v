(** What histories of the control plane look like. *)
From Coq Require Import String Lia Permutation.
From Verif Require Import Base BaseLemmas Maps MapsProofs Utils UtilsProofs V2IE V2Header V2HeaderProofs MsgModel Msgs2Gen V2Msg V2MsgProofs V2Codec V2Codec2
  CPlane CSpec CPlaneProofs CPlaneProofs2.
Open Scope N_scope.
Open Scope list_scope.

Lemma hist_split id l e h0 : hist id l = e :: h0 ->
  exists l3 l4, l = l3 ++ e :: l4 /\ hist id l3 = [] /\ hist id l4 = h0.
Proof.
  induction l as [|x l IH]; [discriminate|]. unfold hist. cbn. destruct (about id x) eqn:E.
  - intros [= -> <-]. exists [], l. auto.
  - intros H. destruct (IH H) as (l3 & l4 & -> & A & B). exists (x :: l3), l4. repeat split; auto.
    unfold hist. cbn. now rewrite E.
Qed.
Lemma hist_app id a b : hist id (a ++ b) = hist id a ++ hist id b.
Proof. apply filter_app. Qed.
Lemma hist_mine id e l : about id e = true -> hist id (e :: l) = e :: hist id l.
Proof. apply hist_cons. Qed.

Section S.
Context (ift counter : N -> N).
Notation good := (good ift counter).
Notation conn_of := (conn_of ift counter).

(** ** State against log *)
Lemma reach_inv w : reachable ift counter w -> inv ift counter w.
Proof. intros (ls & R). exact (reached _ _ _ _ R). Qed.
Lemma reach_good w : reachable ift counter w -> good (w_log w).
Proof. intros R. exact (iv_log _ _ _ (reach_inv _ R)). Qed.

Lemma by_teid w c t peer : reachable ift counter w ->
  get_by_teid w c t peer =
  match teid_known c t (w_log w) with
  | Registered s => if peer =? peer_of s (w_log w) then Ok s else Err EInvalidTEID
  | Reserved => Panic
  | Unknown => Err EInvalidTEID
  end.
Proof.
  intros R. apply reach_inv in R as I. unfold get_by_teid. rewrite <- (conn_teid ift counter), <- (iv_con _ _ _ I).
  destruct (aget _ t) as [[s|]|]; cbn; try reflexivity. now rewrite (iv_ses _ _ _ I), sess_peer.
Qed.
Lemma by_imsi w c im : reachable ift counter w -> get_by_imsi w c im = imsi_known c im (w_log w).
Proof. intros R. apply reach_inv in R as I. unfold get_by_imsi. now rewrite (iv_con _ _ _ I), conn_imsi. Qed.
Lemma imsi_teid w c t peer : reachable ift counter w ->
  imsi_by_teid w c t peer =
  match teid_known c t (w_log w) with
  | Registered s => if peer =? peer_of s (w_log w) then Ok (imsi_of s (w_log w)) else Err EInvalidTEID
  | Reserved => Panic
  | Unknown => Err EInvalidTEID
  end.
Proof.
  intros R. apply reach_inv in R as I. unfold imsi_by_teid. rewrite by_teid by exact R.
  destruct (teid_known _ _ _); cbn; try reflexivity. destruct (_ =? _); cbn; [|reflexivity].
  now rewrite (iv_ses _ _ _ I), sess_imsi.
Qed.
Lemma get_teid_is w s i : reachable ift counter w -> get_teid w s i = teid_of s i (w_log w).
Proof. intros R. apply reach_inv in R as I. unfold get_teid. now rewrite (iv_ses _ _ _ I), sess_teid. Qed.

(** sessions there are *)
Lemma ns_exists l s : good l -> (exists_session s l <-> s < ns_of l).
Proof.
  induction l as [|e l IH]; intros G.
  - cbn. split; [intros (a & im & b & [])|lia].
  - pose proof (good_head _ _ _ _ G) as H. apply good_tail in G. specialize (IH G).
    assert (exists_session s (e :: l) <-> (exists a im b, e = EvSession s a im b) \/ exists_session s l) as Q.
    { unfold exists_session. cbn. split.
      - intros (a & im & b & [E|E]); [left|right]; eauto.
      - intros [(a & im & b & E)|(a & im & b & E)]; exists a, im, b; auto. }
    rewrite Q, IH.
    assert ((exists a im b, e = EvSession s a im b) \/ ~ (exists a im b, e = EvSession s a im b)) as [K|K].
    { destruct e; try (right; intros (? & ? & ? & ?); discriminate).

      destruct (N.eq_dec s0 s) as [->|D]; [left; exists peer, imsi, b; reflexivity|]. right. intros (a & im & b' & E). congruence. }
    + destruct K as (a & im & b & ->). cbn in *. destruct H as [-> _]. split; [lia|intros _; left; eauto].
    + split; [intros [C|C]; [contradiction|]|intros C; right].
      * destruct e; cbn in *; lia.
      * destruct e; cbn in *; try lia. destruct H as [-> _]. destruct (N.eq_dec s (ns_of l)); [|lia].
        subst. exfalso. apply K. eauto.
Qed.
Lemma session_lt w s : reachable ift counter w -> (exists_session s (w_log w) <-> s < w_ns w).
Proof. intros R. rewrite (iv_ns _ _ _ (reach_inv _ R)). apply ns_exists, reach_good, R. Qed.

(** ** Bearers *)
Lemma remove1_perm x l r : remove1 x l = Some r -> Permutation l (x :: r).
Proof.
  revert r. induction l as [|y l IH]; cbn; [discriminate|]. intros r.
  destruct (bytes_eqb _ _ && _)%bool eqn:E.
  - intros [= <-]. apply andb_prop in E as [E1 E2]. apply bytes_eqb_eq in E1. apply N.eqb_eq in E2.
    destruct x, y. cbn in *. now subst.
  - destruct (remove1 x l) as [r'|]; [|discriminate]. intros [= <-]. rewrite (IH _ eq_refl). apply perm_swap.
Qed.
Lemma visits_perm o m : visits o m = true -> Permutation o m.
Proof.
  revert m. induction o as [|x o IH]; cbn.
  - destruct m; [reflexivity|discriminate].
  - intros m. destruct (remove1 x m) as [m'|] eqn:E; [|discriminate]. intros H. apply remove1_perm in E.
    rewrite E. constructor. auto.
Qed.
Lemma visits_refl m : visits m m = true.
Proof. induction m as [|[n b] m IH]; [reflexivity|]. cbn. now rewrite bytes_eqb_refl, N.eqb_refl. Qed.
Lemma perm_visits o m : Permutation o m -> visits o m = true.
Proof.
  revert m. induction o as [|x o IH]; intros m P.
  - now rewrite (Permutation_nil P).
  - cbn. assert (exists r, remove1 x m = Some r) as (r & E).
    { assert (In x m) as I by (apply (Permutation_in _ P); now left). clear - I. induction m as [|y m IH]; [destruct I|].
      cbn. destruct (bytes_eqb _ _ && _)%bool eqn:E; [eauto|]. destruct I as [->|I].
      - rewrite bytes_eqb_refl, N.eqb_refl in E. discriminate.
      - destruct (IH I) as (r & ->). eauto. }
    rewrite E. apply IH. apply remove1_perm in E. rewrite E in P. now apply Permutation_cons_inv in P.
Qed.

Lemma table w s o : reachable ift counter w -> exists_session s (w_log w) -> visits o (s_bearers (w_sess w s)) = true ->
  NoDup (map fst o) /\ forall n b, In (n, b) o <-> named s n (w_log w) = Some b.
Proof.
  intros R X V. apply reach_inv in R as I. apply visits_perm in V. rewrite (iv_ses _ _ _ I) in V.
  pose proof (sess_keys s (w_log w)) as K. split.
  - apply (Permutation_NoDup (l := map fst (s_bearers (sess_of s (w_log w))))); [|exact K].
    apply Permutation_map. now symmetry.
  - intros n b. rewrite <- sess_bearer by exact X. rewrite sget_In by exact K. split; apply Permutation_in; [exact V|now symmetry].
Qed.
Lemma by_name_is w s n : reachable ift counter w -> exists_session s (w_log w) -> by_name w s n = named s n (w_log w).
Proof. intros R X. apply reach_inv in R as I. unfold by_name. now rewrite (iv_ses _ _ _ I), sess_bearer. Qed.
Lemma ebi_by_name_is w s n : reachable ift counter w -> exists_session s (w_log w) ->
  ebi_by_name w s n = match named s n (w_log w) with Some b => ebi_of b (w_log w) | None => 0 end.
Proof.
  intros R X. apply reach_inv in R as I. unfold ebi_by_name. rewrite (iv_ses _ _ _ I), sess_bearer by exact X.
  destruct (named _ _ _); [|reflexivity]. now rewrite (iv_brs _ _ _ I), bear_ebi.
Qed.
Lemma by_ebi_is w s o ebi : reachable ift counter w -> exists_session s (w_log w) -> visits o (s_bearers (w_sess w s)) = true ->
  match by_ebi w o ebi with
  | Some b => (exists n, named s n (w_log w) = Some b) /\ ebi_of b (w_log w) = ebi
  | None => forall n b, named s n (w_log w) = Some b -> ebi_of b (w_log w) <> ebi
  end.
Proof.
  intros R X V. destruct (table _ _ _ R X V) as [_ T]. apply reach_inv in R as I. unfold by_ebi.
  destruct (find _ _) as [[n b]|] eqn:F.
  - apply find_some in F as [F1 F2]. cbn in F2. apply N.eqb_eq in F2. rewrite (iv_brs _ _ _ I), bear_ebi in F2.
    split; [exists n; now apply T|congruence].
  - intros n b E C. apply T in E. apply (find_none _ _ F) in E. cbn in E. apply N.eqb_neq in E.
    rewrite (iv_brs _ _ _ I), bear_ebi in E. congruence.
Qed.
Lemma ebi_by_teid_is w s o t : reachable ift counter w -> exists_session s (w_log w) -> visits o (s_bearers (w_sess w s)) = true ->
  let has b := in_of b (w_log w) = t \/ out_of b (w_log w) = t in
  (exists n b, named s n (w_log w) = Some b /\ has b /\ ebi_by_teid w o t = ebi_of b (w_log w)) \/
  ((forall n b, named s n (w_log w) = Some b -> ~ has b) /\ ebi_by_teid w o t = 0).
Proof.
  intros R X V has. destruct (table _ _ _ R X V) as [_ T]. apply reach_inv in R as I. unfold ebi_by_teid.
  destruct (find _ _) as [[n b]|] eqn:F.
  - apply find_some in F as [F1 F2]. cbn in F2. left. exists n, b. split; [now apply T|].
    rewrite (iv_brs _ _ _ I), bear_in, bear_out in F2. split; [|now rewrite (iv_brs _ _ _ I), bear_ebi].
    unfold has. apply Bool.orb_prop in F2 as [E|E]; apply N.eqb_eq in E; auto.
  - right. split; [|reflexivity]. intros n b E H. apply T in E. apply (find_none _ _ F) in E. cbn in E.
    apply Bool.orb_false_elim in E as [E1 E2]. apply N.eqb_neq in E1, E2. rewrite (iv_brs _ _ _ I) in E1, E2.
    rewrite bear_in in E1. rewrite bear_out in E2. destruct H; congruence.
Qed.
Lemma name_by_ebi_is w s o ebi : reachable ift counter w -> exists_session s (w_log w) -> visits o (s_bearers (w_sess w s)) = true ->
  match name_by_ebi (w_brs w) o ebi with
  | Some n => n <> [] /\ exists b, named s n (w_log w) = Some b /\ ebi_of b (w_log w) = ebi
  | None => (forall n b, named s n (w_log w) = Some b -> ebi_of b (w_log w) <> ebi) \/
            exists b, named s [] (w_log w) = Some b /\ ebi_of b (w_log w) = ebi
  end.
Proof.
  intros R X V. destruct (table _ _ _ R X V) as [_ T]. apply reach_inv in R as I. unfold name_by_ebi.
  destruct (find _ _) as [[n b]|] eqn:F.
  - apply find_some in F as [F1 F2]. cbn in F2. apply N.eqb_eq in F2. rewrite (iv_brs _ _ _ I), bear_ebi in F2. apply T in F1.
    destruct n; [right; eauto|]. split; [discriminate|eauto].
  - left. intros n b E C. apply T in E. apply (find_none _ _ F) in E. cbn in E. apply N.eqb_neq in E.
    rewrite (iv_brs _ _ _ I), bear_ebi in E. congruence.
Qed.
Lemma bearers_is w s o : reachable ift counter w -> exists_session s (w_log w) -> visits o (s_bearers (w_sess w s)) = true ->
  exists names, NoDup names /\ (forall n, In n names <-> named s n (w_log w) <> None) /\
    map Some (bearers o) = map (fun n => named s n (w_log w)) names.
Proof.
  intros R X V. destruct (table _ _ _ R X V) as [D T]. exists (map fst o). split; [exact D|]. split.
  - intros n. split.
    + intros H. apply in_map_iff in H as ([n' b] & E & H). cbn in E. subst. apply T in H. congruence.
    + intros H. destruct (named s n (w_log w)) as [b|] eqn:E; [|congruence]. apply T in E. apply in_map_iff. now exists (n, b).
  - unfold bearers. rewrite !map_map. apply map_ext_in. intros [n b] H. cbn. apply T in H. now rewrite H.
Qed.

(** the registered sessions of a connection *)
Lemma imsis w c o : reachable ift counter w -> visits o (c_imsi (w_conns w c)) = true ->
  NoDup (map fst o) /\ forall n s, In (n, s) o <-> imsi_known c n (w_log w) = Some s.
Proof.
  intros R V. apply reach_inv in R as I. apply visits_perm in V. rewrite (iv_con _ _ _ I) in V.
  pose proof (conn_skeys ift counter c (w_log w)) as K. split.
  - apply (Permutation_NoDup (l := map fst (c_imsi (conn_of c (w_log w))))); [|exact K].
    apply Permutation_map. now symmetry.
  - intros n b. rewrite <- (conn_imsi ift counter). rewrite sget_In by exact K. split; apply Permutation_in; [exact V|now symmetry].
Qed.
Lemma sessions_is w c o : reachable ift counter w -> visits o (c_imsi (w_conns w c)) = true ->
  exists keys, NoDup keys /\ (forall im, In im keys <-> imsi_known c im (w_log w) <> None) /\
    map Some (sessions o) = map (fun im => imsi_known c im (w_log w)) keys /\
    session_count w o = List.length (filter (fun im => match imsi_known c im (w_log w) with Some s => active_of s (w_log w) | None => false end) keys).
Proof.
  intros R V. destruct (imsis _ _ _ R V) as [D T]. exists (map fst o). split; [exact D|]. split; [|split].
  - intros n. split.
    + intros H. apply in_map_iff in H as ([n' b] & E & H). cbn in E. subst. apply T in H. congruence.
    + intros H. destruct (imsi_known c n (w_log w)) as [b|] eqn:E; [|congruence]. apply T in E. apply in_map_iff. now exists (n, b).
  - unfold sessions. rewrite !map_map. apply map_ext_in. intros [n b] H. cbn. apply T in H. now rewrite H.
  - unfold session_count. apply reach_inv in R as I. clear V D.
    assert (forall n s, In (n, s) o -> imsi_known c n (w_log w) = Some s) as T' by (intros; now apply T). clear T.
    induction o as [|[n s] o IH]; [reflexivity|]. cbn. rewrite (T' n s) by now left. rewrite (iv_ses _ _ _ I), sess_active.
    destruct (active_of s (w_log w)); cbn; rewrite IH; auto; intros; apply T'; now right.
Qed.

(** ** Handlers *)
Lemma checked_no_dispatch id c from d m h : checked id c from d m h -> forall i x t r, ~ In (EvDispatch i x t r) h.
Proof.
  intros (h0 & (raw & -> & _) & [->|[[-> _]|(_ & s & ->)]]); intros i x t r; cbn; intuition discriminate.
Qed.
Lemma hist_in_split id l e h0 : hist id l = e :: h0 -> exists l3 l4, l = l3 ++ e :: l4 /\ hist id l3 = [] /\ hist id l4 = h0.
Proof. apply hist_split. Qed.
Lemma hist_one id e l : In e l -> about id e = true -> In e (hist id l).
Proof. intros H A. apply filter_In. auto. Qed.

Lemma dispatch_is l2 id c typ r l1 : good (l2 ++ EvDispatch id c typ r :: l1) -> r = handler_for c typ l1.
Proof. intros G. apply good_at in G as [_ ->]. apply conn_handler. Qed.
Lemma user_handler l2 id k d m l1 : good (l2 ++ EvUser id k d m :: l1) ->
  exists c l3 l4, l1 = l3 ++ EvDispatch id c (h2_type (m_hdr m)) (Some (HUser k)) :: l4 /\
    handler_for c (h2_type (m_hdr m)) l4 = Some (HUser k).
Proof.
  intros G. pose proof (good_at _ _ _ _ _ G) as (c & from & h0 & H & K). apply hist_split in H as (l3 & l4 & -> & _ & _).
  apply good_app, good_tail, dispatch_is in G. eauto 6.
Qed.
(** nothing is invoked for a message type without a handler *)
Lemma no_handler l2 id c typ l1 : good (l2 ++ EvDispatch id c typ None :: l1) ->
  (forall k d m, ~ In (EvUser id k d m) l2) /\ (forall c' a b, ~ In (EvReply id c' a b) l2).
Proof.
  intros G.
  assert (forall a b c' t x from d m h0, l2 = a ++ b -> hist id (b ++ EvDispatch id c typ None :: l1) = EvDispatch id c' t (Some x) :: h0 ->
    checked id c' from d m h0 -> False) as K.
  { intros a b c' t x from d m h0 _ H K. rewrite hist_app, hist_mine in H by (cbn; apply N.eqb_refl).
    destruct (hist id b) as [|e h1]; cbn in H; [discriminate|]. injection H as _ <-.
    apply (checked_no_dispatch _ _ _ _ _ _ K id c typ None). apply in_or_app. right. now left. }
  split.
  - intros k d m I. apply in_split in I as (a & b & ->). rewrite <- app_assoc in G. cbn in G.
    pose proof (good_at _ _ _ _ _ G) as (c' & from & h0 & H & C). exact (K (a ++ [EvUser id k d m]) b _ _ _ _ _ _ _ ltac:(now rewrite <- app_assoc) H C).
  - intros c' ad bs I. apply in_split in I as (a & b & ->). rewrite <- app_assoc in G. cbn in G.
    pose proof (good_at _ _ _ _ _ G) as (d & m & h0 & H & C & _). exact (K (a ++ [EvReply id c' ad bs]) b _ _ _ _ _ _ _ ltac:(now rewrite <- app_assoc) H C).
Qed.

(** ** Validation *)
Lemma dispatched l2 id c typ r l1 : good (l2 ++ EvDispatch id c typ r :: l1) ->
  exists from raw d m l3 b l4, l1 = l3 ++ EvFlag id c b :: l4 /\ b = validating c l4 /\
    In (EvCall id (KDatagram c from raw)) l4 /\ v2_parse g2 (received raw) = Ok (d, m) /\ typ = h2_type (m_hdr m) /\
    (b = true -> h2_get_teid (m_hdr m) <> 0 ->
     exists s l5 l6 l7, l3 = l5 ++ EvPassed id c :: l6 ++ EvLook id c (h2_get_teid (m_hdr m)) (Some (Some s)) :: l7 /\
       teid_known c (h2_get_teid (m_hdr m)) (l7 ++ EvFlag id c b :: l4) = Registered s /\
       from = peer_of s (l6 ++ EvLook id c (h2_get_teid (m_hdr m)) (Some (Some s)) :: l7 ++ EvFlag id c b :: l4)).
Proof.
  intros G. pose proof (good_at _ _ _ _ _ G) as ((from & d & m & (h0 & (raw & -> & B & P) & K) & ->) & _).
  apply good_app, good_tail in G. exists from, raw, d, m.
  assert (forall b l l3, good (l3 ++ l) -> hist id l = [EvFlag id c b; EvCall id (KDatagram c from raw)] ->
    exists l3' l4, l = l3' ++ EvFlag id c b :: l4 /\ b = validating c l4 /\ In (EvCall id (KDatagram c from raw)) l4) as F.
  { intros b l lx Gx H. apply hist_split in H as (l3 & l4 & -> & _ & H). apply good_app in Gx.
    pose proof (good_at _ _ _ _ _ Gx) as (_ & E). rewrite conn_valid in E. exists l3, l4. repeat split; auto.
    now apply call_in. }
  destruct K as [K|[[K Z]|(Z & s & K)]].
  - destruct (F false l1 [] G K) as (l3 & l4 & -> & E & I). exists l3, false, l4. repeat split; auto; discriminate.
  - destruct (F true l1 [] G K) as (l3 & l4 & -> & E & I). exists l3, true, l4. repeat split; auto; contradiction.
  - apply hist_split in K as (l5 & r1 & -> & _ & K). apply hist_split in K as (l6 & r2 & -> & E6 & K).
    destruct (F true r2 (l5 ++ EvPassed id c :: l6 ++ [EvLook id c (h2_get_teid (m_hdr m)) (Some (Some s))])) as (l7 & l4 & -> & E & I).
    { rewrite <- app_assoc. cbn. rewrite <- app_assoc. exact G. }
    { exact K. }
    exists (l5 ++ EvPassed id c :: l6 ++ EvLook id c (h2_get_teid (m_hdr m)) (Some (Some s)) :: l7), true, l4.
    split; [now rewrite <- !app_assoc; cbn; rewrite <- app_assoc|].
    repeat split; auto. intros _ _. exists s, l5, l6, l7. split; [reflexivity|]. split.
    + apply good_app, good_tail in G. pose proof (good_at _ _ _ _ _ G) as (_ & L). symmetry in L. now apply conn_teid_reg in L.
    + pose proof (good_at _ _ _ _ _ G) as (from' & d' & m' & h1 & t' & s' & H & (raw' & -> & _) & _ & _ & Q).
      rewrite hist_app, E6, hist_mine in H by (cbn; apply N.eqb_refl). cbn [app] in H. rewrite K in H.
      assert (s' = s) by congruence. assert (from' = from) by congruence. subst. now rewrite sess_peer.
Qed.

(** ** Sequence numbers *)
Lemma inc_small n : inc_seq n <= 8388607.
Proof. unfold inc_seq. cbv zeta. destruct (8388607 <? _) eqn:E; [lia|]. now apply N.ltb_ge. Qed.
Lemma inc_mod n : n <= 8388607 -> inc_seq n = (n + 1) mod 8388608.
Proof.
  intros H. unfold inc_seq. cbv zeta. rewrite (N.mod_small (n + 1)) by lia. destruct (8388607 <? n + 1) eqn:E.
  - apply N.ltb_lt in E. replace n with 8388607 by lia. reflexivity.
  - apply N.ltb_ge in E. now rewrite N.mod_small by lia.
Qed.
Lemma seq_small l2 id c n l1 : good (l2 ++ EvSeq id c n :: l1) -> n <= 8388607.
Proof. intros G. apply good_at in G as [-> _]. apply inc_small. Qed.
Lemma last_window l1 id c n l0 : good (l1 ++ EvSeq id c n :: l0) -> (forall i k, ~ In (EvDec i c k) l1) ->
  last_seq c (l1 ++ EvSeq id c n :: l0) = (n + N.of_nat (drawn c l1)) mod 8388608.
Proof.
  intros G D. induction l1 as [|e l1 IH].
  - cbn. rewrite N.eqb_refl, N.add_0_r. apply seq_small with (l2 := []) in G. now rewrite N.mod_small by lia.
  - cbn [app] in G. pose proof (good_head _ _ _ _ G) as H. apply good_tail in G.
    assert (forall i k, ~ In (EvDec i c k) l1) as D' by (intros i k C; apply (D i k); now right). specialize (IH G D').
    destruct e; cbn [app last_seq drawn]; try exact IH.
    + destruct (c0 =? c) eqn:E; [|exact IH]. apply N.eqb_eq in E. subst. destruct H as [-> _]. rewrite conn_seq, IH.
      rewrite inc_mod; [|apply N.lt_succ_r; apply N.mod_lt; discriminate].
      rewrite Nat2N.inj_succ, N.add_mod_idemp_l by discriminate. f_equal. lia.
    + destruct (c0 =? c) eqn:E; [|exact IH]. apply N.eqb_eq in E. subst. exfalso. apply (D id0 n0). now left.
Qed.
Lemma seq_distinct l2 id2 c n2 l1 id1 n1 l0 : good (l2 ++ EvSeq id2 c n2 :: l1 ++ EvSeq id1 c n1 :: l0) ->
  (forall i k, ~ In (EvDec i c k) l1) -> n2 = n1 -> (N.to_nat 8388607 <= drawn c l1)%nat.
Proof.
  intros G D E. pose proof (good_at _ _ _ _ _ G) as [H _]. apply good_app, good_tail in G.
  pose proof (seq_small _ _ _ _ _ G) as S1. rewrite conn_seq, last_window in H by assumption.
  rewrite inc_mod in H by (apply N.lt_succ_r; apply N.mod_lt; discriminate).
  rewrite N.add_mod_idemp_l in H by discriminate. rewrite E in H. clear E. rename H into E.
  set (k := N.of_nat (drawn c l1)) in *.
  assert (k >= 8388607) as K; [|unfold k in K; lia].
  destruct (N.lt_ge_cases k 8388607) as [L|L]; [|lia]. exfalso.
  destruct (N.lt_ge_cases (n1 + k + 1) 8388608) as [Q|Q].
  - rewrite N.mod_small in E by exact Q. lia.
  - assert (n1 + k + 1 = 8388608 + (n1 + k + 1 - 8388608)) as R by lia. rewrite R in E.
    rewrite <- N.add_mod_idemp_l in E by discriminate. change (8388608 mod 8388608) with 0 in E.
    rewrite N.mod_small in E by lia. lia.
Qed.
(** a call that sends draws its number itself *)
Lemma sent_drawn l2 id c a n b l1 : good (l2 ++ EvSent id c a n b :: l1) ->
  exists l3 l4, l1 = l3 ++ EvSeq id c n :: l4 /\ hist id l3 = [] /\ n <= 8388607.
Proof.
  intros G. pose proof (good_at _ _ _ _ _ G) as (d & m & h0 & m' & H & _). apply hist_split in H as (l3 & l4 & -> & E & _).
  exists l3, l4. repeat split; auto. apply good_app, good_tail, seq_small in G. exact G.
Qed.

(** ** Allocation of TEIDs *)
Lemma reserved_new l2 id c t l1 : good (l2 ++ EvReserved id c t :: l1) -> t <> 0 /\ t < 4294967296 /\ teid_known c t l1 = Unknown.
Proof.
  intros G. apply good_at in G as (_ & Z & L & U). repeat split; auto. now apply (conn_teid_unk ift counter).
Qed.
Definition frees (c t : N) (e : event) : Prop := (exists i, e = EvTeidOff i c t) \/ exists i im, e = EvOffByImsi i c im.
Lemma stays c t e l : teid_known c t l <> Unknown -> ~ frees c t e -> teid_known c t (e :: l) <> Unknown.
Proof.
  intros H F. destruct e; cbn; try exact H.
  - destruct ((c0 =? c) && (t0 =? t))%bool; [discriminate|exact H].
  - destruct (c0 =? c) eqn:E1; [|exact H]. destruct (t0 =? t) eqn:E2; [|exact H]. exfalso. apply F.
    apply N.eqb_eq in E1, E2. subst. left. eauto.
  - destruct (c0 =? c) eqn:E1; [|exact H]. exfalso. apply F. apply N.eqb_eq in E1. subst. right. eauto.
  - destruct ((c0 =? c) && (t0 =? t))%bool; [discriminate|exact H].
Qed.
Lemma stays_all c t l1 l0 : teid_known c t l0 <> Unknown -> (forall e, In e l1 -> ~ frees c t e) -> teid_known c t (l1 ++ l0) <> Unknown.
Proof.
  intros H F. induction l1 as [|e l1 IH]; [exact H|]. cbn [app]. apply stays; [|apply F; now left].
  apply IH. intros x X. apply F. now right.
Qed.
Lemma frees_dec c t l : (exists e, In e l /\ frees c t e) \/ (forall e, In e l -> ~ frees c t e).
Proof.
  induction l as [|e l IH]; [right; intros e []|]. destruct IH as [(x & I & F)|IH]; [left; exists x; split; [now right|exact F]|].
  assert (frees c t e \/ ~ frees c t e) as [F|F].
  { unfold frees. destruct e; try (right; intros [(? & ?)|(? & ? & ?)]; discriminate).
    - destruct (N.eq_dec c0 c) as [->|D]; [|right; intros [(? & ?)|(? & ? & ?)]; congruence].
      destruct (N.eq_dec t0 t) as [->|D]; [left; left; eauto|right; intros [(? & ?)|(? & ? & ?)]; congruence].
    - destruct (N.eq_dec c0 c) as [->|D]; [left; right; eauto|right; intros [(? & ?)|(? & ? & ?)]; congruence]. }
  - left. exists e. split; [now left|exact F].
  - right. intros x [<-|X]; auto.
Qed.
(** a TEID handed out twice was released in between *)
Lemma reserved_once l2 id2 c t l1 id1 l0 : good (l2 ++ EvReserved id2 c t :: l1 ++ EvReserved id1 c t :: l0) ->
  exists e, In e l1 /\ frees c t e.
Proof.
  intros G. destruct (reserved_new _ _ _ _ _ G) as (_ & _ & U). destruct (frees_dec c t l1) as [F|F]; [exact F|]. exfalso.
  apply (stays_all c t l1 (EvReserved id1 c t :: l0)); auto. cbn. now rewrite !N.eqb_refl.
Qed.
Lemma fteid_is l2 id c t r l1 : good (l2 ++ EvFTEID id c t r :: l1) ->
  exists v4 v6 l3 l4, l1 = l3 ++ EvReserved id c t :: l4 /\ In (EvCall id (KNewFTEID c v4 v6)) l4 /\ r = new_fteid g2 (ift c) t v4 v6.
Proof.
  intros G. pose proof (good_at _ _ _ _ _ G) as (h0 & v4 & v6 & H & _ & E). apply hist_split in H as (l3 & l4 & -> & _ & H).
  exists v4, v6, l3, l4. repeat split; auto. apply (hist_in id). rewrite H. apply in_or_app. right. now left.
Qed.
(** giving up *)
Lemma gave_up l2 id c l1 : good (l2 ++ EvNoFTEID id c :: l1) ->
  List.length (filter (fun e => match e with EvMiss i _ _ => i =? id | _ => false end) l1) = N.to_nat attempts.
Proof.
  intros G. apply good_at in G as (h0 & v4 & v6 & H & M & L).
  assert (filter (fun e => match e with EvMiss i _ _ => i =? id | _ => false end) l1 =
          filter (fun e => match e with EvMiss i _ _ => i =? id | _ => false end) (hist id l1)) as E.
  { clear. induction l1 as [|e l IH]; [reflexivity|]. unfold hist in *. cbn. destruct (about id e) eqn:A; cbn; rewrite IH.
    - reflexivity.
    - destruct e; try reflexivity. cbn in A. now rewrite A. }
  rewrite E, H, filter_app, app_length. change attempts with 65535. rewrite <- L. cbn [filter List.length]. rewrite Nat.add_0_r. f_equal. clear - M.
  induction h0 as [|e h IH]; [reflexivity|]. inversion M as [|? ? (t & ->) M']; subst. cbn. rewrite N.eqb_refl. f_equal. auto.
Qed.
Lemma miss_is l2 id c t l1 : good (l2 ++ EvMiss id c t :: l1) -> t = 0 \/ teid_known c t l1 <> Unknown.
Proof.
  intros G. apply good_at in G as (_ & [Z|U]); [now left|right]. intros C. now apply U, (conn_teid_unk ift counter).
Qed.

(** ** Who is in the tables *)
Lemma next_goes a b : snd (next a b) = Goes -> snd a = Goes /\ snd b = Goes.
Proof. unfold next. destruct (snd a); cbn; [auto|discriminate|discriminate]. Qed.
Definition local_fteid (n t : N) (ies : list (option ie2)) : Prop :=
  exists i, In (Some i) ies /\ i2_type i = 87 /\ acc_if_type i = Ok n /\ acc_teid i = Ok t.
Lemma next_in x a b : In x (fst (next a b)) -> In x (fst a) \/ In x (fst b).
Proof. unfold next. destruct (snd a); cbn; auto. apply in_app_or. Qed.
Lemma assign_in {A} (r : res A) z f x : In x (fst (assign r z f)) -> exists v, x = f v.
Proof. destruct r; cbn; try (intros [<-|[]]; eauto); intros []. Qed.
Lemma child_in x i : In x (fst (create_child i)) -> (exists y, x = DoS y) \/ exists y, x = DoB y.
Proof.
  unfold create_child. destruct (i2_type i =? 73); [intros H; apply assign_in in H as (v & ->); eauto|].
  unfold require.
  destruct (i2_type i =? 80); [|destruct (i2_type i =? 87)].
  - repeat (match goal with |- context [match ?r with Ok _ => _ | Err _ => _ | Panic => _ end] => destruct r end; [|intros []|intros []]).
    intros [<-|[]]. eauto.
  - repeat (match goal with |- context [match ?r with Ok _ => _ | Err _ => _ | Panic => _ end] => destruct r end; [|intros []|intros []]).
    intros [<-|[]]. eauto.
  - intros [].
Qed.
Lemma ie_in n i t : In (DoTeid t) (fst (create_ie n i)) -> i2_type i = 87 /\ acc_if_type i = Ok n /\ acc_teid i = Ok t.
Proof.
  unfold create_ie.
  repeat match goal with |- context [if i2_type i =? ?t then _ else _] => destruct (i2_type i =? t) eqn:? end;
    try (intros H; apply assign_in in H as (v & H); discriminate); try (intros []; fail).
  - intros H. apply next_in in H as [H|H]; apply assign_in in H as (v & H); discriminate.
  - unfold require. destruct (acc_if_type i) as [it| |]; [|intros []|intros []]. destruct (acc_teid i) as [u| |]; [|intros []|intros []].
    cbn [fst]. destruct (it =? n) eqn:E.
    + apply N.eqb_eq in E. subst. cbn. intros H. assert (u = t) as -> by (repeat destruct H as [H|H]; try discriminate; try contradiction; congruence).
      repeat split; auto. now apply N.eqb_eq.
    + cbn. intros [H|[]]. discriminate.
  - destruct (i2_instance i =? 0); [|intros []]. induction (i2_children i) as [|ch l IH]; cbn [fold_right]; [intros []|].
    intros H. apply next_in in H as [H|H]; [|auto]. apply child_in in H as [(y & H)|(y & H)]; discriminate.
Qed.
Lemma create_in n ies t : In (DoTeid t) (fst (create_script n ies)) -> local_fteid n t ies.
Proof.
  unfold create_script. induction ies as [|[i|] l IH]; cbn [fold_right].
  - intros [].
  - intros H. apply next_in in H as [H|H].
    + exists i. split; [now left|]. now apply ie_in.
    + destruct (IH H) as (j & Hj & R). exists j. split; [now right|exact R].
  - intros H. destruct (IH H) as (j & Hj & R). exists j. split; [now right|exact R].
Qed.
Lemma teid_on l2 id c t s l1 : good (l2 ++ EvTeidOn id c t s :: l1) ->
  In (EvCall id (KRegister c t s)) l1 \/ exists a ies, In (EvCall id (KCreate c s a ies)) l1 /\ local_fteid (ift c) t ies.
Proof.
  intros G. apply good_at in G as (pre & r & f & h0 & _ & [(t' & H & E & _)|(a & ies & H & E & _)]).
  - left. assert (t' = t) as ->.
    { unfold register_script in E. destruct pre as [|x [|y [|z [|u pre]]]]; cbn in E; try discriminate; now injection E. }
    apply (hist_in id). rewrite H. apply in_or_app. right. now left.
  - right. exists a, ies. split.
    + apply (hist_in id). rewrite H. apply in_or_app. right. now left.
    + apply create_in. rewrite <- E. apply in_or_app. right. now left.
Qed.
Lemma registered_by l c t s : good l -> teid_known c t l = Registered s ->
  exists id l2 l1, l = l2 ++ EvTeidOn id c t s :: l1 /\ (forall e, In e l2 -> ~ frees c t e \/ exists i im, e = EvOffByImsi i c im).
Proof.
  intros G. induction l as [|e l IH]; [discriminate|]. intros H.
  assert (teid_known c t l = Registered s /\ (~ frees c t e \/ exists i im, e = EvOffByImsi i c im) \/ exists id, e = EvTeidOn id c t s) as [[K F]|(id & ->)].
  { destruct e; cbn in H; try (left; split; [exact H|left; intros [(? & ?)|(? & ? & ?)]; discriminate]).
    - destruct ((c0 =? c) && (t0 =? t))%bool eqn:E.
      + apply andb_prop in E as [E1 E2]. apply N.eqb_eq in E1, E2. subst. right. injection H as ->. eauto.
      + left. split; [exact H|left; intros [(? & ?)|(? & ? & ?)]; discriminate].
    - destruct ((c0 =? c) && (t0 =? t))%bool eqn:E; [discriminate|]. left. split; [exact H|left]. intros [(? & Q)|(? & ? & ?)]; [|discriminate].
      injection Q as _ -> ->. now rewrite !N.eqb_refl in E.
    - destruct (c0 =? c) eqn:E.
      + apply N.eqb_eq in E. subst. left. split; [|right; eauto]. destruct (teid_known c t l); try discriminate.
        destruct (bytes_eqb _ _); [discriminate|exact H].
      + left. split; [exact H|left; intros [(? & ?)|(? & ? & Q)]; [discriminate|]]. injection Q as _ -> _. now rewrite N.eqb_refl in E.
    - destruct ((c0 =? c) && (t0 =? t))%bool; [discriminate|]. left. split; [exact H|left; intros [(? & ?)|(? & ? & ?)]; discriminate]. }
  - destruct (IH (good_tail _ _ _ _ G) K) as (id & l2 & l1 & -> & A). exists id, (e :: l2), l1. split; [reflexivity|].
    intros x [<-|X]; auto.
  - exists id, [], l. split; [reflexivity|]. intros e [].
Qed.
Lemma registered_call l c t s : good l -> teid_known c t l = Registered s ->
  exists id, In (EvCall id (KRegister c t s)) l \/ exists a ies, In (EvCall id (KCreate c s a ies)) l /\ local_fteid (ift c) t ies.
Proof.
  intros G H. destruct (registered_by _ _ _ _ G H) as (id & l2 & l1 & -> & _). exists id.
  destruct (teid_on _ _ _ _ _ _ G) as [I|(a & ies & I & L)]; [left|right; exists a, ies; split; [|exact L]]; apply in_or_app; right; right; exact I.
Qed.
Lemma imsi_call l c im s : good l -> imsi_known c im l = Some s ->
  exists id l2 l1, l = l2 ++ EvImsiOn id c im s :: l1 /\ imsi_of s l1 = im /\
    ((exists t, In (EvCall id (KRegister c t s)) l1) \/ exists a ies, In (EvCall id (KCreate c s a ies)) l1).
Proof.
  intros G. induction l as [|e l IH]; [discriminate|]. intros H.
  assert (imsi_known c im l = Some s \/ exists id, e = EvImsiOn id c im s) as [K|(id & ->)].
  { destruct e; cbn in H; auto.
    - destruct ((c0 =? c) && bytes_eqb imsi im)%bool eqn:E; [|auto]. apply andb_prop in E as [E1 E2].
      apply N.eqb_eq in E1. apply bytes_eqb_eq in E2. injection H as ->. subst. right. eauto.
    - destruct ((c0 =? c) && bytes_eqb imsi im)%bool; [discriminate|auto]. }
  - destruct (IH (good_tail _ _ _ _ G) K) as (id & l2 & l1 & -> & A). exists id, (e :: l2), l1. auto.
  - exists id, [], l. split; [reflexivity|]. apply good_head in G as ((pre & r & f & h0 & _ & Q) & E).
    rewrite sess_imsi in E. split; [now symmetry|]. destruct Q as [(t' & Q & _)|(a & ies & Q & _)].
    + left. exists t'. apply (hist_in id). rewrite Q. apply in_or_app. right. now left.
    + right. exists a, ies. apply (hist_in id). rewrite Q. apply in_or_app. right. now left.
Qed.

(** ** Replies *)
Lemma reply_is l2 id c a b l1 : good (l2 ++ EvReply id c a b :: l1) ->
  exists raw d m, In (EvCall id (KDatagram c a raw)) l1 /\ v2_parse g2 (received raw) = Ok (d, m) /\ md_name d = "EchoRequest"%string /\
    b = echo_octets (counter c) (h2_seq (m_hdr m)).
Proof.
  intros G. apply good_at in G as (d & m & h0 & H & (h1 & (raw & -> & _ & P) & K) & S & E).
  exists raw, d, m. split; [|split; [exact P|split; [now apply String.eqb_eq|]]].
  - apply (hist_in id). rewrite H. right. destruct K as [->|[[-> _]|(_ & s & ->)]]; cbn; auto.
  - rewrite echo_response_is in E. now injection E.
Qed.

(** ** Crashes *)
Lemma opened_app c l2 l1 : opened c l1 = true -> opened c (l2 ++ l1) = true.
Proof. intros H. induction l2 as [|e l IH]; [exact H|]. destruct e; cbn; auto. rewrite IH. apply Bool.orb_true_r. Qed.
Lemma datagram_open l id c from raw : good l -> In (EvCall id (KDatagram c from raw)) l -> opened c l = true.
Proof.
  intros G I. apply in_split in I as (l2 & l1 & ->). apply good_at in G as (_ & O & _).
  apply opened_app. exact O.
Qed.
Lemma create_panics n ies : snd (create_script n ies) = Panics -> exists i, In (Some i) ies /\ snd (create_ie n i) = Panics.
Proof.
  unfold create_script. induction ies as [|[i|] l IH]; cbn [fold_right]; [discriminate| |].
  - unfold next. destruct (snd (create_ie n i)) eqn:E; cbn.
    + intros H. destruct (IH H) as (j & J & P). exists j. split; [now right|exact P].
    + discriminate.
    + intros _. exists i. split; [now left|exact E].
  - intros H. destruct (IH H) as (j & J & P). exists j. split; [now right|exact P].
Qed.
Lemma remove_in id c s h : remove_call id c s h ->
  In (EvCall id (KRemove c s)) h \/ exists im, In (EvCall id (KRemoveImsi c im)) h.
Proof. intros [->|(im & ->)]; cbn; eauto. Qed.
Lemma crash_is id l : good (EvPanic id :: l) ->
  (exists c, closed_ev c l = true) \/
  (exists c s a ies, In (EvCall id (KCreate c s a ies)) l /\
     ((exists i, In (Some i) ies /\ snd (create_ie (ift c) i) = Panics) \/ v2_new g2 d_CreateSessionRequest 0 0 ies = Panic)) \/
  (exists c s t, (In (EvCall id (KRemove c s)) l \/ exists im, In (EvCall id (KRemoveImsi c im)) l) /\ teid_known c t l = Reserved) \/
  (exists c d m a n, ((In (EvCall id (KSend c d m a)) l \/ exists s ies, In (EvCall id (KCreate c s a ies)) l) /\
     (v2_marshal g2 d (Msg (h2_set_seq (m_hdr m) n) (m_fs m)) = Panic \/ opened c l = false))) \/
  (exists c from raw, In (EvCall id (KDatagram c from raw)) l /\
     ((exists d m l2 l1, v2_parse g2 (received raw) = Ok (d, m) /\
         l = l2 ++ EvLook id c (h2_get_teid (m_hdr m)) (Some None) :: l1 /\ teid_known c (h2_get_teid (m_hdr m)) l1 = Reserved) \/
      (exists typ l2 l1, l = l2 ++ EvDispatch id c typ (Some HNil) :: l1 /\ handler_for c typ l1 = Some HNil))).
Proof.
  intros G. pose proof (good_head _ _ _ _ G) as H. apply good_tail in G. cbn [event_ok] in H.
  destruct H as [(c & _ & H)|[(c & s & full & h & Eh & h0 & _ & H)|[(c & s & a & ies & h0 & Eh & H)|[(c & s & im & h0 & Eh & Q & H)|
    [(c & d & m & a & n & h0 & Eh & Q & H)|[(c & from & raw & Eh & B & H)|[(c & t & h0 & from & d & m & Eh & Q)|[(c & typ & h0 & Eh)|(c & typ & h0 & Eh & O)]]]]]]]].
  - left. exists c. now rewrite conn_closed in H.
  - right. left. destruct H as [(t & _ & _ & H)|(a & ies & Q & _ & H)]; [discriminate|].
    exists c, s, a, ies. split; [apply (hist_in id); rewrite Eh, Q; apply in_or_app; right; now left|]. left.
    apply create_panics. destruct (snd (create_script (ift c) ies)); congruence.
  - right. left. exists c, s, a, ies. split; [apply (hist_in id); rewrite Eh; apply in_or_app; right; now left|]. now right.
  - do 2 right. left. rewrite (nil_reserved ift counter) in H. destruct H as (t & H). exists c, s, t. split; [|exact H].
    apply remove_in in Q as [Q|(im' & Q)]; [left|right; exists im']; apply (hist_in id); rewrite Eh; right; right; exact Q.
  - do 3 right. left. exists c, d, m, a, n. split; [|destruct H as [H|H]; [now left|right; now rewrite open_of in H]].
    destruct Q as [->|(s & ies & h1 & -> & _)].
    + left. apply (hist_in id). rewrite Eh. right. now left.
    + right. exists s, ies. apply (hist_in id). rewrite Eh. right. apply in_or_app. right. now left.
  - exfalso. apply (v2_parse_safe g2 (received raw)); [|exact H]. now apply bytes_ok_firstn.
  - do 4 right. destruct Q as (raw & -> & B & P). exists c, from, raw. split; [apply (hist_in id); rewrite Eh; cbn; auto|].
    left. apply hist_split in Eh as (l2 & l1 & -> & _ & Eh). apply good_at in G as ((from' & d' & m' & h1 & Eh' & (raw' & -> & _ & P') & T & _) & L).
    rewrite Eh in Eh'. injection Eh' as <- <-. assert (d' = d /\ m' = m) as [-> ->] by (split; congruence). subst t.
    exists d, m, l2, l1. split; [exact P|]. split; [reflexivity|]. symmetry in L. now apply conn_teid_res in L.
  - do 4 right. apply hist_split in Eh as (l2 & l1 & -> & _ & Eh).
    pose proof (good_at _ _ _ _ _ G) as ((from & d & m & (h1 & (raw & -> & _ & P) & K) & T) & L). exists c, from, raw. split.
    + apply in_or_app. right. right. apply (hist_in id). destruct K as [->|[[-> _]|(_ & s & ->)]]; cbn; auto.
    + right. exists typ, l2, l1. split; [reflexivity|]. now rewrite conn_handler in L.
  - exfalso. pose proof G as G0. apply hist_split in Eh as (l2 & l1 & -> & _ & Eh).
    pose proof (good_at _ _ _ _ _ G) as ((from & d & m & (h1 & (raw & -> & _ & P) & K) & T) & L).
    assert (In (EvCall id (KDatagram c from raw)) (l2 ++ EvDispatch id c typ (Some HEchoReq) :: l1)) as I.
    { apply in_or_app. right. right. apply (hist_in id). destruct K as [->|[[-> _]|(_ & s & ->)]]; cbn; auto. }
    rewrite open_of in O. pose proof (datagram_open _ _ _ _ _ G0 I). congruence.
Qed.

(** ** Sent bytes *)
Lemma on_slice_len b lo hi f b' : on_slice b lo hi f = Ok b' -> (forall s s', f s = Ok s' -> len s' = len s) ->
  len b' = len b /\ (hi <= len b)%nat.
Proof.
  intros H F. unfold on_slice in H. destruct (slice b lo hi) as [s| |] eqn:S; cbn in H; try discriminate.
  destruct (f s) as [s'| |] eqn:E; cbn in H; try discriminate. injection H as <-. apply F in E.
  unfold slice in S. destruct ((lo <=? hi)%nat && (hi <=? len b)%nat)%bool eqn:C; [|discriminate]. injection S as <-.
  apply andb_prop in C as [C1 C2]. apply Nat.leb_le in C1, C2. split; [|exact C2].
  rewrite firstn_length, skipn_length in E. rewrite !app_length, firstn_length, skipn_length, E. lia.
Qed.
Lemma ok_inj {A} (x y : A) : Ok x = Ok y -> x = y.
Proof. congruence. Qed.
Lemma set_idx_len b i v b' : set_idx b i v = Ok b' -> len b' = len b.
Proof.
  unfold set_idx. destruct (i <? len b)%nat eqn:E; [|discriminate]. intros H; apply ok_inj in H; subst. apply Nat.ltb_lt in E.
  rewrite app_length, firstn_length. cbn [List.length]. rewrite skipn_length. lia.
Qed.
Lemma put16_len v s s' : put16 v s = Ok s' -> len s' = len s.
Proof.
  unfold put16. destruct (2 <=? len s)%nat eqn:E; [|discriminate]. intros H; apply ok_inj in H; subst. apply Nat.leb_le in E.
  rewrite app_length, enc16_len, skipn_length. lia.
Qed.
Lemma put32_len v s s' : put32 v s = Ok s' -> len s' = len s.
Proof.
  unfold put32. destruct (4 <=? len s)%nat eqn:E; [|discriminate]. intros H; apply ok_inj in H; subst. apply Nat.leb_le in E.
  rewrite app_length, enc32_len, skipn_length. lia.
Qed.
Lemma go_copy_len d s : len (go_copy d s) = len d.
Proof. unfold go_copy. rewrite app_length, firstn_length, skipn_length. lia. Qed.
Lemma copy_at_len b lo hi s b' : copy_at b lo hi s = Ok b' -> len b' = len b /\ (hi <= len b)%nat.
Proof. intros H. apply on_slice_len in H; [exact H|]. intros x y [= <-]. apply go_copy_len. Qed.
Lemma h2_mto_fits h b b' : h2_mto h b = Ok b' -> (h2_mlen h <= len b)%nat.
Proof.
  unfold h2_mto. intros H.
  apply bind_ok_inv in H as (b1 & E1 & H). apply set_idx_len in E1.
  apply bind_ok_inv in H as (b2 & E2 & H). apply set_idx_len in E2.
  apply bind_ok_inv in H as (b3 & E3 & H). apply on_slice_len in E3 as [E3 _]; [|apply put16_len].
  apply bind_ok_inv in H as ([b4 off] & E4 & H).
  assert (len b4 = len b3) as E4'.
  { destruct (h2_has_teid h); [|injection E4 as <- _; reflexivity].
    apply bind_ok_inv in E4 as (b5 & E5 & E4). injection E4 as <- _. apply on_slice_len in E5 as [E5 _]; [exact E5|apply put32_len]. }
  apply bind_ok_inv in H as (b5 & E5 & H). apply copy_at_len in E5 as [E5 _].
  apply bind_ok_inv in H as (b6 & E6 & H). apply set_idx_len in E6. apply copy_at_len in H as [_ H]. lia.
Qed.
Lemma has_teid_bit f : h2_has_teid_f f = N.testbit f 3.
Proof.
  unfold h2_has_teid_f. change (N.testbit f 3) with (N.testbit f (0 + 3)). rewrite <- (N.shiftr_spec' f 3 0).
  pose proof (N.land_ones (N.shiftr f 3) 1) as E. change (N.ones 1) with 1 in E. change (2 ^ 1) with 2 in E.
  rewrite E, <- N.bit0_mod. now destruct (N.testbit _ 0).
Qed.
Lemma mto_seq (d : mdesc) (m : msg2) b b' m' : v2_mto g2 d m b = Ok (b', m') ->
  seq_octets b' = octets24 (h2_seq (m_hdr m)).
Proof.
  unfold v2_mto, msg_mto. intros H. apply bind_ok_inv in H as (n0 & _ & H). destruct (_ && _)%bool; [discriminate|].
  apply bind_ok_inv in H as (n & _ & H). apply bind_ok_inv in H as (p & _ & H). apply bind_ok_inv in H as (x & _ & H).
  apply bind_ok_inv in H as (b1 & E & H). injection H as <- _. cbn [ho_mto ho2] in E.
  set (h := ho_set_length ho2 _) in E.
  assert (h2_seq h = h2_seq (m_hdr m)) as <- by (unfold h; cbn; now destruct (md_reset d)).
  clearbody h. pose proof (h2_mto_fits _ _ _ E) as L. rewrite <- h2_wire_len in L. rewrite (h2_mto_writes h b L) in E. injection E as <-.
  unfold seq_octets, octets24, h2_wire, h2_wire_head. cbn [app nth].
  rewrite <- (has_teid_bit (h2_flags h)). unfold h2_has_teid. destruct (h2_has_teid_f (h2_flags h)); reflexivity.
Qed.
End S.

(** a call happens once *)
Lemma one_call ift counter l id k1 k2 : good ift counter l -> In (EvCall id k1) l -> In (EvCall id k2) l -> k1 = k2.
Proof.
  induction l as [|e l IH]; [contradiction|]. intros G. pose proof (good_head _ _ _ _ G) as H. apply good_tail in G.
  assert (forall k, In (EvCall id k) l -> hist id l <> []) as Q.
  { intros k I E. assert (In (EvCall id k) (hist id l)) as X by (apply filter_In; split; [exact I|cbn; apply N.eqb_refl]).
    rewrite E in X. destruct X. }
  intros [->|I1] [X|I2].
  - congruence.
  - cbn [event_ok] in H. destruct H as [H _]. now destruct (Q _ I2).
  - subst e. cbn [event_ok] in H. destruct H as [H _]. now destruct (Q _ I1).
  - auto.
Qed.
Lemma reserved_in c t l : teid_known c t l = Reserved -> exists i, In (EvReserved i c t) l.
Proof.
  induction l as [|e l IH]; [discriminate|]. intros H.
  assert (teid_known c t l = Reserved \/ exists i, e = EvReserved i c t) as [K|(i & ->)].
  { destruct e; cbn [teid_known] in H; try (left; exact H).
    - destruct (_ && _)%bool; [discriminate|now left].
    - destruct (_ && _)%bool; [discriminate|now left].
    - destruct (_ =? _); [|now left]. destruct (teid_known c t l); [destruct (bytes_eqb _ _); discriminate|now left|discriminate].
    - destruct (_ && _)%bool eqn:E; [|now left]. apply andb_prop in E as [E1 E2]. apply N.eqb_eq in E1, E2. subst. right. eauto. }
  - destruct (IH K) as (i & I). exists i. now right.
  - exists i. now left.
Qed.
Lemma handler_in c typ h l : handler_for c typ l = Some h -> handler_default typ = Some h \/ In (EvHandler c typ h) l.
Proof.
  induction l as [|e l IH]; [now left|]. intros H.
  destruct e; cbn [handler_for] in H; try (destruct (IH H); [now left|right; now right]).
  destruct (_ && _)%bool eqn:E; [|destruct (IH H); [now left|right; now right]].
  apply andb_prop in E as [E1 E2]. apply N.eqb_eq in E1, E2. subst. injection H as ->. right. now left.
Qed.
