(** Calls whose steps nobody interrupts. *)
From Coq Require Import String Lia.
From Verif Require Import Base BaseLemmas Maps MapsProofs Utils V2IE V2Header MsgModel Msgs2Gen V2Msg V2Codec V2Codec2
  CPlane CSpec CPlaneProofs CPlaneProofs2 CPlaneProofs3.
Open Scope N_scope.
Open Scope list_scope.

Lemma run_app w a b : run w (a ++ b) = match run w a with Some w' => run w' b | None => None end.
Proof.
  revert w. induction a as [|l a IH]; intros w; [reflexivity|]. cbn [run app]. destruct (step w l); [apply IH|reflexivity].
Qed.
Lemma adel_adel {A} (m : amap A) k : adel (adel m k) k = adel m k.
Proof.
  unfold adel. induction m as [|[x v] m IH]; [reflexivity|]. cbn. destruct (x =? k) eqn:E; cbn; [exact IH|].
  rewrite E. cbn. now rewrite IH.
Qed.
Lemma del_put {A} (m : amap A) k v : adel (aput m k v) k = adel m k.
Proof. unfold aput. unfold adel at 1. cbn. rewrite N.eqb_refl. cbn. apply adel_adel. Qed.
Lemma put_del {A} (m : amap A) k v : aput (adel m k) k v = aput m k v.
Proof. unfold aput. now rewrite adel_adel. Qed.

(** one step of a goroutine that was just put back *)
Lemma run_goes w id th ok ls : w_crashed w = false ->
  run (goes w id th) (LRun id ok :: ls) = match run_thread (ends w id) id th ok with Some w' => run w' ls | None => None end.
Proof.
  intros C. cbn [run]. unfold step. cbn [w_crashed goes]. rewrite C. cbn [w_threads goes]. rewrite aget_aput, N.eqb_refl.
  replace (ends (goes w id th) id) with (ends w id); [reflexivity|].
  unfold ends, goes. cbn -[aput adel]. now rewrite del_put.
Qed.
Lemma goes_ends w id th : goes (ends w id) id th = goes w id th.
Proof. unfold ends, goes. cbn -[aput adel]. now rewrite put_del. Qed.
Lemma run_call w k th ls : w_crashed w = false -> entry w k = Some th ->
  run w (LCall k :: ls) = run (goes (emit (bump w) (EvCall (w_next w) k)) (w_next w) th) ls.
Proof. intros C E. cbn [run]. unfold step. rewrite C, E. reflexivity. Qed.

Section A.
Context (ift counter : N -> N).
Notation reach := (reachable ift counter).

Lemma reach_run w ls w' : reach w -> run w ls = Some w' -> reach w'.
Proof. intros (l0 & R) E. exists (l0 ++ ls). now rewrite run_app, R. Qed.
Lemma reach_alone w k n w' : reach w -> alone w k n = Some w' -> reach w'.
Proof. apply reach_run. Qed.
Lemma reach_ift w c : reach w -> c_ift (w_conns w c) = ift c.
Proof. intros R. rewrite (iv_con _ _ _ (reach_inv _ _ _ R)). apply ift_of. Qed.
Lemma reach_imsi w s : reach w -> s_imsi (w_sess w s) = imsi_of s (w_log w).
Proof. intros R. rewrite (iv_ses _ _ _ (reach_inv _ _ _ R)). apply sess_imsi. Qed.
Lemma reach_peer w s : reach w -> s_peer (w_sess w s) = peer_of s (w_log w).
Proof. intros R. rewrite (iv_ses _ _ _ (reach_inv _ _ _ R)). apply sess_peer. Qed.
Lemma reach_teid w s i : reach w -> aget (s_teids (w_sess w s)) i = teid_of s i (w_log w).
Proof. intros R. rewrite (iv_ses _ _ _ (reach_inv _ _ _ R)). apply sess_teid. Qed.
Lemma reach_itei w c t : reach w -> as_known (aget (c_itei (w_conns w c)) t) = teid_known c t (w_log w).
Proof. intros R. rewrite (iv_con _ _ _ (reach_inv _ _ _ R)). apply conn_teid. Qed.
Lemma reach_im w c im : reach w -> sget (c_imsi (w_conns w c)) im = imsi_known c im (w_log w).
Proof. intros R. rewrite (iv_con _ _ _ (reach_inv _ _ _ R)). apply conn_imsi. Qed.
Lemma reach_nil w c : reach w -> (has_nil (c_itei (w_conns w c)) = true <-> exists t, teid_known c t (w_log w) = Reserved).
Proof. intros R. rewrite (iv_con _ _ _ (reach_inv _ _ _ R)). apply nil_reserved. Qed.
Lemma reach_open w c : reach w -> c_open (w_conns w c) = opened c (w_log w).
Proof. intros R. rewrite (iv_con _ _ _ (reach_inv _ _ _ R)). apply open_of. Qed.
Lemma reach_valid w c : reach w -> c_valid (w_conns w c) = validating c (w_log w).
Proof. intros R. rewrite (iv_con _ _ _ (reach_inv _ _ _ R)). apply conn_valid. Qed.
Lemma reach_handler w c t : reach w -> aget (c_handlers (w_conns w c)) t = handler_for c t (w_log w).
Proof. intros R. rewrite (iv_con _ _ _ (reach_inv _ _ _ R)). apply conn_handler. Qed.
Lemma reach_seq w c : reach w -> c_seq (w_conns w c) = last_seq c (w_log w).
Proof. intros R. rewrite (iv_con _ _ _ (reach_inv _ _ _ R)). apply conn_seq. Qed.
Lemma upd_same {A} (f : N -> A) k v : upd f k v k = v.
Proof. unfold upd. now rewrite N.eqb_refl. Qed.

Ltac pj := cbn [w_log w_threads w_conns w_sess w_brs w_ns w_nb w_next w_crashed ends goes emit set_conn put_sess put_br bump
  do_set do_bset done fails crash].
Ltac back := repeat match goal with |- context [goes (ends ?w ?i) ?i ?t] => rewrite (goes_ends w i t) end.
Ltac alone_step C := rewrite run_goes by exact C; cbn [run_thread run_stmt]; back.

(** RegisterSession *)
Lemma register_alone w c t s : reach w -> w_crashed w = false -> exists_session s (w_log w) ->
  exists w', alone w (KRegister c t s) 4 = Some w' /\ w_crashed w' = false /\
    w_log w' = EvDone (w_next w) :: EvSet s (STeid (ift c) t) :: EvImsiOn (w_next w) c (imsi_of s (w_log w)) s ::
               EvTeidOn (w_next w) c t s :: EvCall (w_next w) (KRegister c t s) :: w_log w.
Proof.
  intros R C X. apply (session_lt ift counter w s R) in X. unfold alone. cbn [repeat].
  rewrite (run_call w _ (TScript c s 0 (register_script (c_ift (w_conns w c)) t) FReturn)); [|exact C|cbn; apply N.ltb_lt in X; now rewrite X].
  unfold register_script.
  do 4 (alone_step C). eexists. split; [reflexivity|]. split; [exact C|]. pj.
  now rewrite (reach_imsi _ _ R), (reach_ift _ _ R).
Qed.
(** RemoveSession of a session with a local TEID *)
Lemma remove_alone w c s t : reach w -> w_crashed w = false -> exists_session s (w_log w) -> teid_of s (ift c) (w_log w) = Some t ->
  exists w', alone w (KRemove c s) 3 = Some w' /\ w_crashed w' = false /\
    w_log w' = EvDone (w_next w) :: EvTeidOff (w_next w) c t :: EvGotTeid (w_next w) s (Some t) ::
               EvImsiOff (w_next w) c (imsi_of s (w_log w)) :: EvCall (w_next w) (KRemove c s) :: w_log w.
Proof.
  intros R C X T. apply (session_lt ift counter w s R) in X. unfold alone. cbn [repeat].
  rewrite (run_call w _ (TRemove1 c s)); [|exact C|cbn; apply N.ltb_lt in X; now rewrite X].
  rewrite <- (reach_teid _ _ _ R), <- (reach_ift _ c R) in T.
  alone_step C. alone_step C. pj. rewrite upd_same. cbn [c_ift set_imsis]. rewrite T. alone_step C.
  eexists. split; [reflexivity|]. split; [exact C|]. pj. now rewrite (reach_imsi _ _ R).
Qed.
(** RemoveSession of a session without one *)
Lemma remove_alone_none w c s : reach w -> w_crashed w = false -> exists_session s (w_log w) -> teid_of s (ift c) (w_log w) = None ->
  exists w', alone w (KRemove c s) 3 = Some w' /\
    let l := EvGotTeid (w_next w) s None :: EvImsiOff (w_next w) c (imsi_of s (w_log w)) :: EvCall (w_next w) (KRemove c s) :: w_log w in
    ((exists t, teid_known c t (w_log w) = Reserved) /\ w_crashed w' = true /\ w_log w' = EvPanic (w_next w) :: l \/
     (~ exists t, teid_known c t (w_log w) = Reserved) /\ w_crashed w' = false /\
      w_log w' = EvDone (w_next w) :: EvOffByImsi (w_next w) c (imsi_of s (w_log w)) :: l).
Proof.
  intros R C X T. apply (session_lt ift counter w s R) in X. unfold alone. cbn [repeat].
  rewrite (run_call w _ (TRemove1 c s)); [|exact C|cbn; apply N.ltb_lt in X; now rewrite X].
  rewrite <- (reach_teid _ _ _ R), <- (reach_ift _ c R) in T.
  alone_step C. alone_step C. pj. rewrite upd_same. cbn [c_ift set_imsis]. rewrite T. alone_step C. pj. rewrite upd_same.
  cbn [c_itei set_imsis]. destruct (has_nil (c_itei (w_conns w c))) eqn:H.
  - eexists. split; [reflexivity|]. left. split; [now apply (reach_nil _ _ R)|]. split; [reflexivity|].
    pj. now rewrite (reach_imsi _ _ R).
  - eexists. split; [reflexivity|]. right. split; [|split; [exact C|]].
    + intros Q. apply (reach_nil _ _ R) in Q. congruence.
    + pj. now rewrite (reach_imsi _ _ R).
Qed.
(** RemoveSessionByIMSI *)
Lemma remove_imsi_alone w c im : reach w -> w_crashed w = false ->
  (imsi_known c im (w_log w) = None -> exists w', alone w (KRemoveImsi c im) 1 = Some w' /\ w_crashed w' = false /\
     w_log w' = EvDone (w_next w) :: EvGotImsi (w_next w) c im None :: EvCall (w_next w) (KRemoveImsi c im) :: w_log w) /\
  (forall s t, imsi_known c im (w_log w) = Some s -> teid_of s (ift c) (w_log w) = Some t ->
   exists w', alone w (KRemoveImsi c im) 4 = Some w' /\ w_crashed w' = false /\
    w_log w' = EvDone (w_next w) :: EvTeidOff (w_next w) c t :: EvGotTeid (w_next w) s (Some t) ::
               EvImsiOff (w_next w) c (imsi_of s (w_log w)) :: EvGotImsi (w_next w) c im (Some s) :: EvCall (w_next w) (KRemoveImsi c im) :: w_log w).
Proof.
  intros R C. rewrite <- (reach_im _ _ _ R). split.
  - intros E. unfold alone. cbn [repeat]. rewrite (run_call w _ (TRemoveI c im)); [|exact C|reflexivity].
    alone_step C. pj. rewrite E. eexists. split; [reflexivity|]. split; [exact C|]. reflexivity.
  - intros s t E T. unfold alone. cbn [repeat]. rewrite (run_call w _ (TRemoveI c im)); [|exact C|reflexivity].
    rewrite <- (reach_teid _ _ _ R), <- (reach_ift _ c R) in T.
    alone_step C. pj. rewrite E. alone_step C. alone_step C. pj. rewrite upd_same. cbn [c_ift set_imsis]. rewrite T. alone_step C.
    eexists. split; [reflexivity|]. split; [exact C|]. pj. now rewrite (reach_imsi _ _ R).
Qed.

(** ** Reception *)
Lemma receive_start w c from raw d m : reach w -> w_crashed w = false -> opened c (w_log w) = true -> bytes_ok raw ->
  v2_parse g2 (received raw) = Ok (d, m) ->
  forall n, alone w (KDatagram c from raw) (S n) =
    run (goes (emit (bump w) (EvCall (w_next w) (KDatagram c from raw))) (w_next w) (TCheck c from d m)) (repeat (LRun (w_next w) true) n).
Proof.
  intros R C O B P n. unfold alone. cbn [repeat]. rewrite (run_call w _ (TRecv c from (received raw))); [|exact C|].
  - rewrite run_goes by exact C. cbn [run_thread]. rewrite P. now rewrite goes_ends.
  - cbn. rewrite (reach_open _ _ R), O. cbn [andb]. replace (forallb octet raw) with true; [reflexivity|].
    symmetry. apply forallb_forall. intros x Hx. unfold octet. apply N.ltb_lt. unfold bytes_ok in B. rewrite Forall_forall in B. exact (B x Hx).
Qed.

Lemma dispatch_alone w id c from d m : reach (goes w id (TDisp c from d m)) -> w_crashed w = false -> opened c (w_log w) = true ->
  exists n w', run (goes w id (TDisp c from d m)) (repeat (LRun id true) n) = Some w' /\
    w_log w' = handled (counter c) id c from d m (handler_for c (h2_type (m_hdr m)) (w_log w)) ::
               EvDispatch id c (h2_type (m_hdr m)) (handler_for c (h2_type (m_hdr m)) (w_log w)) :: w_log w /\
    (w_crashed w' = true <-> handler_for c (h2_type (m_hdr m)) (w_log w) = Some HNil).
Proof.
  intros R C O. pose proof (reach_handler _ c (h2_type (m_hdr m)) R) as Rh. pose proof (reach_open _ c R) as Ro.
  pose proof (iv_con _ _ _ (reach_inv _ _ _ R) c) as Rc. revert Rh Ro Rc. pj. intros Rh Ro Rc. rewrite <- Rh.
  set (r := aget _ _). destruct r as [h|] eqn:E; subst r.
  2:{ exists 1%nat. eexists. cbn [repeat]. alone_step C. pj. rewrite E. split; [reflexivity|]. split; [reflexivity|]. pj. split; congruence. }
  destruct h.
  - (* HEchoReq *) destruct (String.eqb (md_name d) "EchoRequest") eqn:Q.
    + exists 3%nat. eexists. cbn [repeat]. alone_step C. pj. rewrite E. alone_step C. unfold run_handler, is_struct. rewrite Q. pj.
      rewrite echo_response_is. back. alone_step C. pj. rewrite Ro, O.
      split; [reflexivity|]. pj. cbn [handled]. rewrite Q. split; [|split; congruence].
      rewrite Rc, counter_of. reflexivity.
    + exists 2%nat. eexists. cbn [repeat]. alone_step C. pj. rewrite E. alone_step C. unfold run_handler, is_struct. rewrite Q.
      split; [reflexivity|]. pj. cbn [handled]. rewrite Q. split; [reflexivity|split; congruence].
  - destruct (String.eqb (md_name d) "EchoResponse") eqn:Q;
      exists 2%nat; eexists; cbn [repeat]; alone_step C; pj; rewrite E; alone_step C; unfold run_handler, is_struct; rewrite Q;
      (split; [reflexivity|]); pj; cbn [handled]; rewrite Q; (split; [reflexivity|split; congruence]).
  - exists 2%nat. eexists. cbn [repeat]. alone_step C. pj. rewrite E. alone_step C. unfold run_handler.
    split; [reflexivity|]. pj. split; [reflexivity|split; congruence].
  - exists 2%nat. eexists. cbn [repeat]. alone_step C. pj. rewrite E. alone_step C. unfold run_handler.
    split; [reflexivity|]. pj. split; [reflexivity|split; congruence].
  - exists 2%nat. eexists. cbn [repeat]. alone_step C. pj. rewrite E. alone_step C. unfold run_handler.
    split; [reflexivity|]. pj. split; [reflexivity|split; congruence].
Qed.
(** the state of the tables after events that do not touch them *)
Lemma receive_accepted w c from raw d m : reach w -> w_crashed w = false -> opened c (w_log w) = true -> bytes_ok raw ->
  v2_parse g2 (received raw) = Ok (d, m) -> accepts c from (h2_get_teid (m_hdr m)) (w_log w) ->
  exists n w' l, alone w (KDatagram c from raw) n = Some w' /\
    w_log w' = handled (counter c) (w_next w) c from d m (handler_for c (h2_type (m_hdr m)) (w_log w)) :: l /\
    (w_crashed w' = true <-> handler_for c (h2_type (m_hdr m)) (w_log w) = Some HNil).
Proof.
  intros R C O B P A. set (id := w_next w).
  assert (forall n, alone w (KDatagram c from raw) (S n) =
    run (goes (emit (bump w) (EvCall id (KDatagram c from raw))) id (TCheck c from d m)) (repeat (LRun id true) n)) as S
    by (apply receive_start; auto).
  assert (exists k w1, alone w (KDatagram c from raw) k = Some (goes w1 id (TDisp c from d m)) /\ w_crashed w1 = false /\
    w_conns w1 = w_conns w /\ handler_for c (h2_type (m_hdr m)) (w_log w1) = handler_for c (h2_type (m_hdr m)) (w_log w) /\
    opened c (w_log w1) = true) as (k & w1 & E1 & C1 & Cn & H1 & O1).
  { destruct (c_valid (w_conns w c)) eqn:V; [destruct (h2_get_teid (m_hdr m) =? 0) eqn:Z|].
    - exists 2%nat. eexists. rewrite S. cbn [repeat]. alone_step C. pj. rewrite V, Z. cbn [andb negb]. back.
      split; [reflexivity|]. pj. auto.
    - destruct A as [A|[A|(s & A1 & A2)]].
      + rewrite <- (reach_valid _ _ R) in A. congruence.
      + apply N.eqb_neq in Z. contradiction.
      + exists 3%nat. eexists. rewrite S. cbn [repeat]. alone_step C. pj. rewrite V, Z. cbn [andb negb]. back. alone_step C. pj.
        rewrite <- (reach_itei _ _ _ R) in A1. destruct (aget _ _) as [[x|]|]; cbn in A1; try discriminate. injection A1 as ->.
        rewrite (reach_peer _ _ R), A2, N.eqb_refl. split; [reflexivity|]. pj. auto.
    - exists 2%nat. eexists. rewrite S. cbn [repeat]. alone_step C. pj. rewrite V. cbn [andb negb]. back.
      split; [reflexivity|]. pj. auto. }
  assert (reach (goes w1 id (TDisp c from d m))) as R1 by (apply (reach_alone w _ _ _ R E1)).
  destruct (dispatch_alone w1 id c from d m R1 C1 O1) as (n & w' & E2 & L & Cr).
  exists (k + n)%nat, w', (EvDispatch id c (h2_type (m_hdr m)) (handler_for c (h2_type (m_hdr m)) (w_log w1)) :: w_log w1). split.
  - unfold alone in *. rewrite repeat_app. change (LCall (KDatagram c from raw) :: repeat (LRun (w_next w) true) k ++ repeat (LRun (w_next w) true) n)
      with ((LCall (KDatagram c from raw) :: repeat (LRun (w_next w) true) k) ++ repeat (LRun (w_next w) true) n).
    rewrite run_app, E1. exact E2.
  - rewrite H1 in L, Cr. rewrite H1. auto.
Qed.
Lemma receive_rejected w c from raw d m : reach w -> w_crashed w = false -> opened c (w_log w) = true -> bytes_ok raw ->
  v2_parse g2 (received raw) = Ok (d, m) -> let t := h2_get_teid (m_hdr m) in
  validating c (w_log w) = true -> t <> 0 ->
  exists w', alone w (KDatagram c from raw) 3 = Some w' /\
    match teid_known c t (w_log w) with
    | Registered s => peer_of s (w_log w) <> from -> w_crashed w' = false /\
        w_log w' = EvFail (w_next w) :: EvRejected (w_next w) c :: EvLook (w_next w) c t (Some (Some s)) :: EvFlag (w_next w) c true ::
                   EvCall (w_next w) (KDatagram c from raw) :: w_log w
    | Unknown => w_crashed w' = false /\
        w_log w' = EvFail (w_next w) :: EvRejected (w_next w) c :: EvLook (w_next w) c t None :: EvFlag (w_next w) c true ::
                   EvCall (w_next w) (KDatagram c from raw) :: w_log w
    | Reserved => w_crashed w' = true
    end.
Proof.
  intros R C O B P t V Z. rewrite (receive_start w c from raw d m R C O B P). cbn [repeat]. alone_step C. pj.
  rewrite (reach_valid _ _ R), V. fold t. apply N.eqb_neq in Z. rewrite Z. cbn [andb negb]. back. alone_step C. pj. fold t.
  rewrite <- (reach_itei _ _ _ R). destruct (aget (c_itei (w_conns w c)) t) as [[s|]|]; cbn [as_known].
  - rewrite (reach_peer _ _ R). destruct (from =? peer_of s (w_log w)) eqn:E.
    + apply N.eqb_eq in E. eexists. split; [reflexivity|]. intros Q. congruence.
    + eexists. split; [reflexivity|]. intros Q. split; [exact C|reflexivity].
  - eexists. split; [reflexivity|]. reflexivity.
  - eexists. split; [reflexivity|]. split; [exact C|reflexivity].
Qed.
End A.
