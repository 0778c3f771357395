(** Lemmas about SessReq.v. *)
From Coq Require Import String Lia Permutation.
From Verif Require Import Base BaseLemmas Maps MapsProofs Utils V2IE V2IESpec V2IEProofs V2Header MsgModel MsgSpec MsgProofs MsgProofs2 MsgProofs3
  Msgs2Gen V2Msg V2MsgProofs V2Codec V2Codec2 CPlane CSpec CSpec2 CPlaneProofs CPlaneProofs2 CPlaneProofs3 CPlaneProofs4 CPlaneProofs5 SessReq.
Open Scope N_scope.
Open Scope list_scope.

(** the sequence number does not matter to New *)
Lemma new_seq g d teid ies m n v p t mt has : md_ctor d = Ctor v p t mt has -> v2_new g d teid 0 ies = Ok m ->
  v2_new g d teid n ies = Ok (Msg (h2_set_seq (m_hdr m) n) (m_fs m)).
Proof.
  intros C. unfold v2_new, msg_new. intros H. apply bind_ok_inv in H as (fs & E & H). rewrite E. cbn [bind]. revert H. rewrite C.
  unfold msg_set_length. intros H. apply bind_ok_inv in H as (k & M & H). injection H as <-. cbn [m_fs m_hdr].
  unfold msg_mlen in *. cbn [m_fs m_hdr] in *. apply bind_ok_inv in M as (j & L & M). rewrite L. cbn [bind]. injection M as M.
  rewrite <- M. reflexivity.
Qed.
Lemma v2_octets_ok f t te sq sp b : f < 256 -> t < 256 -> sp < 256 -> bytes_ok b -> bytes_ok (v2_octets f t te sq sp b).
Proof.
  intros Hf Ht Hs Hb. unfold v2_octets. cbv zeta. apply bytes_ok_app; [repeat constructor; assumption|]. apply bytes_ok_app; [apply enc16_ok|].
  apply bytes_ok_app; [destruct (N.testbit f 3); [apply enc32_ok|constructor]|]. apply bytes_ok_app; [apply enc24_ok|].
  apply bytes_ok_app; [repeat constructor; assumption|exact Hb].
Qed.
Lemma wires_ok g l : Forall (wf2 g) l -> bytes_ok (flat_map (wire2 g) l).
Proof. induction 1 as [|i r Hi _ IH]; [constructor|]. cbn [flat_map]. apply bytes_ok_app; [exact (il_bytes _ _ _ (ie_laws2 g) i Hi)|exact IH]. Qed.
Lemma mem_app s a b : mem s (a ++ b) = mem s a || mem s b.
Proof. induction a as [|x r IH]; [reflexivity|]. cbn [mem app]. now rewrite IH, orb_assoc. Qed.
Lemma filter_weaken (l : list mdesc) a b d : In d (filter (fun d => negb (V2MsgProofs.named (a ++ b) d)) l) ->
  In d (filter (fun d => negb (V2MsgProofs.named a d)) l).
Proof.
  rewrite !filter_In. intros [H1 H2]. split; [exact H1|]. unfold V2MsgProofs.named in *. apply negb_true_iff in H2. apply negb_true_iff.
  rewrite mem_app in H2. now apply orb_false_iff in H2.
Qed.
Lemma built_sized d : In d built2 -> In d sized2.
Proof. unfold built2, sized2. intros H. apply in_cons. revert H. apply filter_weaken. Qed.
(** a built message, sent under any sequence number *)
Lemma built_octets g d teid ies p t mt : In d built2 -> md_ctor d = Ctor 2 p t mt true -> teid < 4294967296 ->
  Forall (wf2 g) (nonnil ies) -> N.of_nat (12 + len (flat_map (wire2 g) (nonnil ies))) < 65536 ->
  exists m, v2_new g d teid 0 ies = Ok m /\ typed_fields d (m_fs m) /\
    forall n, n < 16777216 -> exists b m1, v2_marshal g d (Msg (h2_set_seq (m_hdr m) n) (m_fs m)) = Ok (b, m1) /\
      bytes_ok b /\ (len b <= 12 + len (flat_map (wire2 g) (nonnil ies)))%nat /\
      v2_parse g b = Ok (d, m1) /\ m_fs m1 = m_fs m /\ h2_seq (m_hdr m1) = n /\ h2_get_teid (m_hdr m1) = teid /\ h2_type (m_hdr m1) = mt.
Proof.
  intros Hd Ec Ht Hf Hl. destruct (v2_new_roundtrip g d teid 0 ies Hd Ht ltac:(lia) Hf) as (m & M & T & _).
  exists m. split; [exact M|]. split; [exact T|]. intros n Hn. pose proof (new_seq _ _ _ _ _ n _ _ _ _ _ Ec M) as Mn.
  destruct (built2_parts d Hd) as (D1 & D2 & D3 & D4 & D5).
  destruct (ctor2_ok g d teid n Hd Ht Hn) as (p' & t' & mt' & has & E & Ho & Hp & Hty & Hsq & Hte & Hht & Hst & Hname).
  assert (Eh : has = true /\ mt' = mt) by (rewrite Ec in E; injection E as _ _ <- <-; split; reflexivity). destruct Eh as [-> ->].
  destruct (new_roundtrip _ ho2 _ _ (ie_laws2 g) _ _ _ _ _ _ hd_laws2 d (ctor2 (md_ctor d) teid n) ies D1 D5 Ho Hp Hf) as (m' & M1 & S1 & S2 & S3 & M4 & M5 & M6).
  change (v2_new g d teid n ies = Ok m') in M1. rewrite Mn in M1. injection M1 as M1.
  set (size := (h2_base (ctor2 (md_ctor d) teid n) + len (body (wire2 g) d (m_fs m')))%nat) in *.
  assert (Bs : (len (body (wire2 g) d (m_fs m')) <= len (flat_map (wire2 g) (nonnil ies)))%nat).
  { unfold new_ok in D5. rewrite !andb_true_iff in D5. destruct D5 as [[Dt _] _].
    destruct (fields_ok_parts d D2) as (P1 & P2 & _).
    unfold body. rewrite S3. pose proof (runs_size (io2 g) (wire2 g) (md_fields d) (order_of d) (md_new d) (somes ies) P2 Dt (fempty d) (keys_empty d)) as R.
    assert (Z : len (flat_map (wire2 g) (in_order (fempty d : fmap) (order_of d))) = 0%nat).
    { generalize (order_of d). intros o. induction o as [|f r IH]; [reflexivity|].
      unfold in_order in *. cbn [flat_map]. rewrite flat_map_app, app_length, IH. unfold vals. rewrite fget_empty. reflexivity. }
    rewrite Z in R. exact R. }
  assert (Hb : h2_base (ctor2 (md_ctor d) teid n) = 12%nat) by (unfold h2_base; now rewrite Hht).
  destruct (v2_new_roundtrip g d teid n ies Hd Ht Hn Hf) as (m2 & M2 & _ & RT).
  rewrite Mn in M2. injection M2 as <-. rewrite M1 in *. destruct (RT size) as (b & m1 & B1 & B2 & B3 & B4 & B5 & B6 & B7); [exact M5|lia|lia|].
  assert (Fm : m_fs m' = m_fs m) by (rewrite <- M1; reflexivity).
  destruct (v2_parse_parts g b d m1 B3) as (ty & _ & Ed & Ety & _).
  exists b, m1. split; [exact B1|]. split.
  - assert (HS : In d sized2).
    { exact (built_sized d Hd). }
    assert (Hin : Forall (wf2 g) (in_order (m_fs m') (order_of d))) by (apply in_order_wf; exact S2).
    pose proof (in_order_present d (m_fs m') D2 D4 (proj1 S1)) as Hperm.
    assert (Hh : h2_ok (m_hdr m')). { rewrite M4. destruct Ho. constructor; assumption. }
    destruct (v2_marshal_layout g d m' HS) as (_ & Lw & w & m3 & W1 & W2 & _ & _ & W3); [exact S1|eapply Permutation_Forall; eassumption|exact Hh|].
    rewrite B1 in W1. injection W1 as <- <-. rewrite W3.
    + destruct Hh. apply v2_octets_ok; try assumption. apply wires_ok. exact Hin.
    + unfold v2_len in Lw. rewrite M5 in Lw. injection Lw as Lw. rewrite <- Lw. lia.
  - split; [lia|]. split; [exact B3|]. split; [congruence|]. split; [exact B5|]. rewrite Ec in B6. split; [exact B6|].
    destruct (M6 ltac:(lia) ltac:(lia)) as (b0 & m0 & C1 & _ & _ & C4 & _). unfold v2_marshal in B1. rewrite B1 in C1. injection C1 as <- <-.
    rewrite C4, M4. exact Hty.
Qed.

Section R.
Context (ift counter : N -> N).
Notation reach := (reachable ift counter).

(** the three requests *)
Definition type_of (p : procedure) : N := match p with DeleteSession => 36 | ModifyBearer => 34 | DeleteBearer => 99 end.
Lemma request_built p : In (request_of p) built2 /\ exists a b, md_ctor (request_of p) = Ctor 2 a b (type_of p) true.
Proof.
  split.
  - unfold built2. rewrite filter_In. split; [|destruct p; vm_compute; reflexivity]. unfold all_msgs2.
    destruct p; cbn [request_of]; repeat first [left; reflexivity|right].
  - destruct p; do 2 eexists; reflexivity.
Qed.
Lemma seq24 w c : reach w -> next_number (last_seq c (w_log w)) < 16777216 /\ inc_seq (c_seq (w_conns w c)) = next_number (last_seq c (w_log w)).
Proof.
  intros R. pose proof (reach_seq _ _ w c R) as ES. pose proof (seq_bound ift counter (w_log w) c (iv_log _ _ _ (reach_inv _ _ _ R))) as SB.
  rewrite ES. split; [|now apply inc_next]. unfold next_number. destruct (_ <? _) eqn:Q; [apply N.ltb_lt in Q|]; lia.
Qed.
Ltac pj := cbn [w_log w_threads w_conns w_sess w_brs w_ns w_nb w_next w_crashed ends goes emit set_conn put_sess put_br bump
  do_set do_bset done fails crash].
Ltac back := repeat match goal with |- context [goes (ends ?w ?i) ?i ?t] => rewrite (goes_ends w i t) end.
(** a send that nobody interrupts *)
Lemma send_alone w c d m a n raw m' : reach w -> w_crashed w = false -> opened c (w_log w) = true ->
  n = next_number (last_seq c (w_log w)) -> v2_marshal g2 d (Msg (h2_set_seq (m_hdr m) n) (m_fs m)) = Ok (raw, m') ->
  exists w', alone w (KSend c d m a) 2 = Some w' /\ w_crashed w' = false /\
    w_log w' = EvSent (w_next w) c a n raw :: EvSeq (w_next w) c n :: EvCall (w_next w) (KSend c d m a) :: w_log w /\
    w_next w' = w_next w + 1 /\ w_sess w' = w_sess w /\ w_brs w' = w_brs w /\ w_conns w' = upd (w_conns w) c (set_seq (w_conns w c) n).
Proof.
  intros R C O EN M. destruct (seq24 w c R) as [_ ES]. pose proof (reach_open _ _ w c R) as EO. rewrite O in EO.
  unfold alone. cbn [repeat]. rewrite (run_call w _ (TSend c d m a)); [|exact C|reflexivity].
  rewrite run_goes by exact C. cbn [run_thread]. cbv zeta. cbn [w_conns ends emit bump]. rewrite ES, <- EN, M.
  rewrite run_goes by exact C. cbn [run_thread]. cbn [w_conns ends emit set_conn bump]. rewrite upd_same. cbn [c_open set_seq]. rewrite EO.
  cbn [run]. eexists. split; [reflexivity|]. pj. now repeat split.
Qed.

(** events that change no table *)
Definition quiet (e : event) : bool :=
  match e with
  | EvCall _ _ | EvSeq _ _ _ | EvSent _ _ _ _ _ | EvFlag _ _ _ | EvLook _ _ _ _ | EvPassed _ _ | EvDispatch _ _ _ _ | EvUser _ _ _ _ => true
  | _ => false
  end.
Lemma quiet_handler c t l0 l : forallb quiet l0 = true -> handler_for c t (l0 ++ l) = handler_for c t l.
Proof. induction l0 as [|e r IH]; [reflexivity|]. cbn [forallb]. rewrite andb_true_iff. intros [Q H]. cbn [app]. destruct e; try discriminate; cbn [handler_for]; auto. Qed.
Lemma quiet_opened c l0 l : forallb quiet l0 = true -> opened c (l0 ++ l) = opened c l.
Proof. induction l0 as [|e r IH]; [reflexivity|]. cbn [forallb]. rewrite andb_true_iff. intros [Q H]. cbn [app]. destruct e; try discriminate; cbn [opened]; auto. Qed.
Lemma quiet_valid c l0 l : forallb quiet l0 = true -> validating c (l0 ++ l) = validating c l.
Proof. induction l0 as [|e r IH]; [reflexivity|]. cbn [forallb]. rewrite andb_true_iff. intros [Q H]. cbn [app]. destruct e; try discriminate; cbn [validating]; auto. Qed.
Lemma quiet_teid c t l0 l : forallb quiet l0 = true -> teid_known c t (l0 ++ l) = teid_known c t l.
Proof. induction l0 as [|e r IH]; [reflexivity|]. cbn [forallb]. rewrite andb_true_iff. intros [Q H]. cbn [app]. destruct e; try discriminate; cbn [teid_known]; auto. Qed.
Lemma quiet_peer s l0 l : forallb quiet l0 = true -> peer_of s (l0 ++ l) = peer_of s l.
Proof. induction l0 as [|e r IH]; [reflexivity|]. cbn [forallb]. rewrite andb_true_iff. intros [Q H]. cbn [app]. destruct e; try discriminate; cbn [peer_of]; auto. Qed.
Lemma quiet_accepts c from t l0 l : forallb quiet l0 = true -> accepts c from t l -> accepts c from t (l0 ++ l).
Proof.
  intros Q. unfold accepts. rewrite (quiet_valid c l0 l Q), (quiet_teid c t l0 l Q). intros [A|[A|(s & A & B)]]; auto.
  right. right. exists s. now rewrite (quiet_peer s l0 l Q).
Qed.
Lemma opened_open w c from raw : reach w -> opened c (w_log w) = true -> bytes_ok raw ->
  entry w (KDatagram c from raw) = Some (TRecv c from (received raw)).
Proof.
  intros R O B. cbn. rewrite (reach_open _ _ _ _ R), O. cbn [andb]. replace (forallb octet raw) with true; [reflexivity|].
  symmetry. apply forallb_forall. intros x Hx. unfold octet. apply N.ltb_lt. unfold bytes_ok in B. rewrite Forall_forall in B. exact (B x Hx).
Qed.
(** a datagram that is accepted and goes to a handler of the user *)
Lemma receive_user w c from raw d m k : reach w -> w_crashed w = false -> opened c (w_log w) = true -> bytes_ok raw ->
  v2_parse g2 (received raw) = Ok (d, m) -> accepts c from (h2_get_teid (m_hdr m)) (w_log w) ->
  handler_for c (h2_type (m_hdr m)) (w_log w) = Some (HUser k) ->
  exists n w' l0, alone w (KDatagram c from raw) n = Some w' /\ w_crashed w' = false /\
    w_log w' = EvUser (w_next w) k d m :: l0 ++ w_log w /\ forallb quiet l0 = true.
Proof.
  intros R C O B P A H. pose proof (opened_open w c from raw R O B) as E. pose proof (reach_handler _ _ w c (h2_type (m_hdr m)) R) as Rh.
  rewrite H in Rh.
  destruct (c_valid (w_conns w c) && negb (h2_get_teid (m_hdr m) =? 0)) eqn:V.
  - exists 5%nat. unfold alone. cbn [repeat]. rewrite (run_call w _ _ _ C E).
    rewrite run_goes by exact C. cbn [run_thread]. rewrite P. back.
    rewrite run_goes by exact C. cbn [run_thread]. cbv zeta. pj. rewrite V. back.
    rewrite run_goes by exact C. cbn [run_thread]. cbv zeta. pj.
    apply andb_prop in V as [V Z]. destruct A as [A|[A|(s & A1 & A2)]].
    + rewrite <- (reach_valid _ _ _ _ R) in A. congruence.
    + apply negb_true_iff, N.eqb_neq in Z. contradiction.
    + rewrite <- (reach_itei _ _ _ _ _ R) in A1. destruct (aget (c_itei (w_conns w c)) (h2_get_teid (m_hdr m))) as [[x|]|] eqn:K; cbn in A1; try discriminate. injection A1 as ->.
      rewrite (reach_peer _ _ _ _ R), A2, N.eqb_refl. back.
      rewrite run_goes by exact C. cbn [run_thread]. cbv zeta. pj. rewrite Rh. back.
      rewrite run_goes by exact C. cbn [run_thread run_handler]. cbn [run].
      eexists. exists [EvDispatch (w_next w) c (h2_type (m_hdr m)) (Some (HUser k)); EvPassed (w_next w) c; EvLook (w_next w) c (h2_get_teid (m_hdr m)) (Some (Some s));
        EvFlag (w_next w) c (c_valid (w_conns w c)); EvCall (w_next w) (KDatagram c from raw)].
      split; [reflexivity|]. pj. now repeat split.
  - exists 4%nat. unfold alone. cbn [repeat]. rewrite (run_call w _ _ _ C E).
    rewrite run_goes by exact C. cbn [run_thread]. rewrite P. back.
    rewrite run_goes by exact C. cbn [run_thread]. cbv zeta. pj. rewrite V. back.
    rewrite run_goes by exact C. cbn [run_thread]. cbv zeta. pj. rewrite Rh. back.
    rewrite run_goes by exact C. cbn [run_thread run_handler]. cbn [run].
    eexists. exists [EvDispatch (w_next w) c (h2_type (m_hdr m)) (Some (HUser k)); EvFlag (w_next w) c (c_valid (w_conns w c)); EvCall (w_next w) (KDatagram c from raw)].
    split; [reflexivity|]. pj. now repeat split.
Qed.
End R.
