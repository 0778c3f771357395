(** The invariant of the control plane: the state is what replaying the history gives, and
    every event is justified by the history before it. *)
From Coq Require Import String Lia.
From Verif Require Import Base BaseLemmas Maps MapsProofs Utils V2IE V2Header MsgModel Msgs2Gen V2Msg V2Codec V2Codec2 CPlane CSpec.
Open Scope N_scope.
Open Scope list_scope.

(** ** Replaying a history *)
Fixpoint sess_of (s : N) (l : list event) : session :=
  match l with
  | [] => new_session 0 [] 0
  | e :: r =>
      match e with
      | EvSession s' a im b => if s' =? s then new_session a im b else sess_of s r
      | EvSet s' x => if s' =? s then set_s (sess_of s r) x else sess_of s r
      | EvQueued _ s' m => if s' =? s then set_queue (sess_of s r) (s_queue (sess_of s r) ++ [m]) else sess_of s r
      | EvTook _ s' _ _ _ => if s' =? s then set_queue (sess_of s r) (tl (s_queue (sess_of s r))) else sess_of s r
      | _ => sess_of s r
      end
  end.
Fixpoint bear_of (b : N) (l : list event) : bearer :=
  match l with
  | [] => empty_bearer
  | e :: r =>
      match e with
      | EvSession _ _ _ b' => if b' =? b then empty_bearer else bear_of b r
      | EvBearer b' ebi => if b' =? b then set_b empty_bearer (BEbi ebi) else bear_of b r
      | EvBSet b' x => if b' =? b then set_b (bear_of b r) x else bear_of b r
      | _ => bear_of b r
      end
  end.
Fixpoint ns_of (l : list event) : N :=
  match l with [] => 0 | EvSession _ _ _ _ :: r => ns_of r + 1 | _ :: r => ns_of r end.
Fixpoint nb_of (l : list event) : N :=
  match l with [] => 0 | (EvSession _ _ _ _ | EvBearer _ _) :: r => nb_of r + 1 | _ :: r => nb_of r end.

Lemma enc24 n : uint32to24 n = skipn 1 (enc32 n).
Proof. unfold uint32to24, enc32, u8. cbn [skipn]. now rewrite !N.shiftr_div_pow2. Qed.
Lemma echo_response_is counter seq : echo_response counter seq = Ok (echo_octets counter seq).
Proof. unfold echo_octets. rewrite <- enc24. reflexivity. Qed.

Section Inv.
Context (ift counter : N -> N).

Fixpoint conn_of (c : N) (l : list event) : conn :=
  match l with
  | [] => new_conn (ift c) (counter c)
  | e :: r =>
      let u := conn_of c r in
      match e with
      | EvOpen c' => if c' =? c then set_open u else u
      | EvClose c' => if c' =? c then set_closed u else u
      | EvValid c' b => if c' =? c then set_valid u b else u
      | EvHandler c' t h => if c' =? c then set_handlers u (aput (c_handlers u) t h) else u
      | EvSeq _ c' n | EvDec _ c' n => if c' =? c then set_seq u n else u
      | EvTeidOn _ c' t s => if c' =? c then set_iteis u (aput (c_itei u) t (Some s)) else u
      | EvReserved _ c' t => if c' =? c then set_iteis u (aput (c_itei u) t None) else u
      | EvTeidOff _ c' t => if c' =? c then set_iteis u (adel (c_itei u) t) else u
      | EvOffByImsi _ c' im => if c' =? c then set_iteis u (without_imsi (fun s => sess_of s r) im (c_itei u)) else u
      | EvImsiOn _ c' im s => if c' =? c then set_imsis u (sput (c_imsi u) im s) else u
      | EvImsiOff _ c' im => if c' =? c then set_imsis u (sdel (c_imsi u) im) else u
      | _ => u
      end
  end.

(** ** The state of a goroutine against its history *)
Definition misses (id c : N) (l : list event) : Prop := Forall (fun e => exists t, e = EvMiss id c t) l.
(** the table events of RegisterSession within a call *)
Definition reg_events (id c s : N) (l : list event) : Prop :=
  Forall (fun e => (exists t, e = EvTeidOn id c t s) \/ (exists im, e = EvImsiOn id c im s)) l.
(** a call that runs a script: RegisterSession or CreateSession *)
Definition script_call (id c s : N) (full : list stmt) (f : fin) (h : list event) : Prop :=
  exists h0, reg_events id c s h0 /\
  ((exists t, h = h0 ++ [EvCall id (KRegister c t s)] /\ full = register_script (ift c) t /\ f = FReturn) \/
   (exists a ies, h = h0 ++ [EvCall id (KCreate c s a ies)] /\ full = fst (create_script (ift c) ies) /\
      f = match snd (create_script (ift c) ies) with
          | Goes => FSend d_CreateSessionRequest (v2_new g2 d_CreateSessionRequest 0 0 ies) a
          | Fails => FFail | Panics => FPanic end)).
Definition remove_call (id c s : N) (h : list event) : Prop :=
  h = [EvCall id (KRemove c s)] \/
  exists im, h = [EvGotImsi id c im (Some s); EvCall id (KRemoveImsi c im)].
Definition send_call (id c : N) (d : mdesc) (m : msg2) (a : addr) (h : list event) : Prop :=
  h = [EvCall id (KSend c d m a)] \/
  exists s ies h0, h = h0 ++ [EvCall id (KCreate c s a ies)] /\ reg_events id c s h0 /\
    snd (create_script (ift c) ies) = Goes /\ d = d_CreateSessionRequest /\
    v2_new g2 d_CreateSessionRequest 0 0 ies = Ok m.
Definition got (id c : N) (from : addr) (d : mdesc) (m : msg2) (h : list event) : Prop :=
  exists raw, h = [EvCall id (KDatagram c from raw)] /\ bytes_ok raw /\ v2_parse g2 (received raw) = Ok (d, m).
(** the message is past validation *)
Definition checked (id c : N) (from : addr) (d : mdesc) (m : msg2) (h : list event) : Prop :=
  exists h0, got id c from d m h0 /\
  (h = EvFlag id c false :: h0 \/
   (h = EvFlag id c true :: h0 /\ h2_get_teid (m_hdr m) = 0) \/
   (h2_get_teid (m_hdr m) <> 0 /\ exists s, h = EvPassed id c :: EvLook id c (h2_get_teid (m_hdr m)) (Some (Some s)) :: EvFlag id c true :: h0)).

Definition thread_ok (id : N) (th : thread) (h : list event) : Prop :=
  match th with
  | TScript c s b l f => exists pre, script_call id c s (pre ++ l) f h
  | TRemove1 c s => remove_call id c s h
  | TRemove2 c s => exists im h0, h = EvImsiOff id c im :: h0 /\ remove_call id c s h0
  | TRemove3 c t => exists s im h0, h = EvGotTeid id s (Some t) :: EvImsiOff id c im :: h0 /\ remove_call id c s h0
  | TRemoveR c s => exists im h0, h = EvGotTeid id s None :: EvImsiOff id c im :: h0 /\ remove_call id c s h0
  | TRemoveI c im => h = [EvCall id (KRemoveImsi c im)]
  | TAlloc c tries v4 v6 => exists h0, h = h0 ++ [EvCall id (KNewFTEID c v4 v6)] /\ misses id c h0 /\
      List.length h0 = N.to_nat tries /\ tries <= 65535
  | TAllocRet c t v4 v6 => exists h0, h = EvReserved id c t :: h0 ++ [EvCall id (KNewFTEID c v4 v6)] /\ misses id c h0
  | TSend c d m a => send_call id c d m a h
  | TSendW c n b a => exists d m h0 m', h = EvSeq id c n :: h0 /\ send_call id c d m a h0 /\
      v2_marshal g2 d (Msg (h2_set_seq (m_hdr m) n) (m_fs m)) = Ok (b, m')
  | TDec c n => exists d m a h0, h = EvSeq id c n :: h0 /\ send_call id c d m a h0
  | TRecv c from raw => exists d, h = [EvCall id (KDatagram c from d)] /\ bytes_ok d /\ raw = received d
  | TCheck c from d m => got id c from d m h
  | TLook c from d m => exists h0, h = EvFlag id c true :: h0 /\ got id c from d m h0 /\ h2_get_teid (m_hdr m) <> 0
  | TDisp c from d m => checked id c from d m h
  | THandle c from d m hd => exists h0, h = EvDispatch id c (h2_type (m_hdr m)) (Some hd) :: h0 /\ checked id c from d m h0
  | TWrite c b a => exists d m h0, h = EvDispatch id c (h2_type (m_hdr m)) (Some HEchoReq) :: h0 /\ checked id c a d m h0 /\
      is_struct "EchoRequest" d = true /\ echo_response (counter c) (h2_seq (m_hdr m)) = Ok b
  | TPass s m => h = [EvCall id (KPass s m)]
  | TWait s n => h = [EvCall id (KWait s n)]
  end.

(** what every event tells about the past *)
Definition event_ok (e : event) (l : list event) : Prop :=
  match e with
  | EvCall id k => hist id l = [] /\
      match k with
      | KDatagram c _ d => opened c l = true /\ bytes_ok d
      | KRegister _ _ s | KRemove _ s | KCreate _ s _ _ | KPass s _ | KWait s _ => s < ns_of l
      | _ => True
      end
  | EvSession s _ _ b => s = ns_of l /\ b = nb_of l
  | EvBearer b _ => b = nb_of l
  | EvSet s (SActive true) => s_imsi (sess_of s l) <> []
  | EvTeidOn id c t s => exists pre r f, script_call id c s (pre ++ DoTeid t :: r) f (hist id l)
  | EvImsiOn id c im s => (exists pre r f, script_call id c s (pre ++ DoImsi :: r) f (hist id l)) /\ im = s_imsi (sess_of s l)
  | EvImsiOff id c im => exists s, remove_call id c s (hist id l) /\ im = s_imsi (sess_of s l)
  | EvGotTeid id s r => exists c im h0, hist id l = EvImsiOff id c im :: h0 /\ remove_call id c s h0 /\
      r = aget (s_teids (sess_of s l)) (ift c)
  | EvTeidOff id c t => exists s im h0, hist id l = EvGotTeid id s (Some t) :: EvImsiOff id c im :: h0 /\ remove_call id c s h0
  | EvOffByImsi id c im => exists s im' h0, hist id l = EvGotTeid id s None :: EvImsiOff id c im' :: h0 /\ remove_call id c s h0 /\
      im = s_imsi (sess_of s l) /\ has_nil (c_itei (conn_of c l)) = false
  | EvGotImsi id c im r => hist id l = [EvCall id (KRemoveImsi c im)] /\ r = sget (c_imsi (conn_of c l)) im
  | EvReserved id c t => (exists h0 v4 v6, hist id l = h0 ++ [EvCall id (KNewFTEID c v4 v6)] /\ misses id c h0) /\
      t <> 0 /\ t < 4294967296 /\ aget (c_itei (conn_of c l)) t = None
  | EvMiss id c t => (exists h0 v4 v6, hist id l = h0 ++ [EvCall id (KNewFTEID c v4 v6)] /\ misses id c h0 /\
      (List.length h0 < N.to_nat 65535)%nat) /\ (t = 0 \/ aget (c_itei (conn_of c l)) t <> None)
  | EvFTEID id c t r => exists h0 v4 v6, hist id l = EvReserved id c t :: h0 ++ [EvCall id (KNewFTEID c v4 v6)] /\
      misses id c h0 /\ r = new_fteid g2 (ift c) t v4 v6
  | EvNoFTEID id c => exists h0 v4 v6, hist id l = h0 ++ [EvCall id (KNewFTEID c v4 v6)] /\ misses id c h0 /\
      List.length h0 = N.to_nat 65535
  | EvSeq id c n => n = inc_seq (c_seq (conn_of c l)) /\
      (hist id l = [] \/ exists d m a, send_call id c d m a (hist id l))
  | EvDec id c n => n = dec_seq (c_seq (conn_of c l)) /\
      (hist id l = [] \/ exists k d m a h0, hist id l = EvSeq id c k :: h0 /\ send_call id c d m a h0)
  | EvSent id c a n b => exists d m h0 m', hist id l = EvSeq id c n :: h0 /\ send_call id c d m a h0 /\
      v2_marshal g2 d (Msg (h2_set_seq (m_hdr m) n) (m_fs m)) = Ok (b, m')
  | EvReply id c a b => exists d m h0, hist id l = EvDispatch id c (h2_type (m_hdr m)) (Some HEchoReq) :: h0 /\
      checked id c a d m h0 /\ is_struct "EchoRequest" d = true /\ echo_response (counter c) (h2_seq (m_hdr m)) = Ok b
  | EvFlag id c b => (exists from d m, got id c from d m (hist id l)) /\ b = c_valid (conn_of c l)
  | EvLook id c t r => (exists from d m h0, hist id l = EvFlag id c true :: h0 /\ got id c from d m h0 /\
      t = h2_get_teid (m_hdr m) /\ t <> 0) /\ r = aget (c_itei (conn_of c l)) t
  | EvPassed id c => exists from d m h0 t s, hist id l = EvLook id c t (Some (Some s)) :: EvFlag id c true :: h0 /\
      got id c from d m h0 /\ t = h2_get_teid (m_hdr m) /\ t <> 0 /\ from = s_peer (sess_of s l)
  | EvRejected id c => exists from d m h0 t r, hist id l = EvLook id c t r :: EvFlag id c true :: h0 /\
      got id c from d m h0 /\ t = h2_get_teid (m_hdr m) /\ t <> 0 /\
      (r = None \/ exists s, r = Some (Some s) /\ from <> s_peer (sess_of s l))
  | EvDispatch id c typ r => (exists from d m, checked id c from d m (hist id l) /\ typ = h2_type (m_hdr m)) /\
      r = aget (c_handlers (conn_of c l)) typ
  | EvUser id k d m => exists c from h0, hist id l = EvDispatch id c (h2_type (m_hdr m)) (Some (HUser k)) :: h0 /\
      checked id c from d m h0
  | EvQueued id s m => hist id l = [EvCall id (KPass s m)] /\ (List.length (s_queue (sess_of s l)) < 1000)%nat
  | EvTook id s n m r => hist id l = [EvCall id (KWait s n)] /\ (exists q, s_queue (sess_of s l) = m :: q) /\
      r = if qm_seq m =? n then Some m else None
  | EvTimeout id => exists s, (exists m, hist id l = [EvCall id (KPass s m)]) \/ (exists n, hist id l = [EvCall id (KWait s n)])
  | EvPanic id =>
      (exists c, hist id l = [] /\ c_closed (conn_of c l) = true) \/
      (exists c s full h, hist id l = h /\ script_call id c s full FPanic h) \/
      (exists c s a ies h0, hist id l = h0 ++ [EvCall id (KCreate c s a ies)] /\ v2_new g2 d_CreateSessionRequest 0 0 ies = Panic) \/
      (exists c s im h0, hist id l = EvGotTeid id s None :: EvImsiOff id c im :: h0 /\ remove_call id c s h0 /\
         has_nil (c_itei (conn_of c l)) = true) \/
      (exists c d m a n h0, hist id l = EvSeq id c n :: h0 /\ send_call id c d m a h0 /\
         (v2_marshal g2 d (Msg (h2_set_seq (m_hdr m) n) (m_fs m)) = Panic \/ c_open (conn_of c l) = false)) \/
      (exists c from raw, hist id l = [EvCall id (KDatagram c from raw)] /\ bytes_ok raw /\ v2_parse g2 (received raw) = Panic) \/
      (exists c t h0 from d m, hist id l = EvLook id c t (Some None) :: EvFlag id c true :: h0 /\ got id c from d m h0) \/
      (exists c typ h0, hist id l = EvDispatch id c typ (Some HNil) :: h0) \/
      (exists c typ h0, hist id l = EvDispatch id c typ (Some HEchoReq) :: h0 /\ c_open (conn_of c l) = false)
  | _ => True
  end.

Record inv (w : world) : Prop := Inv {
  iv_log : forall l2 e l1, w_log w = l2 ++ e :: l1 -> event_ok e l1;
  iv_thr : forall id th, aget (w_threads w) id = Some th -> thread_ok id th (hist id (w_log w));
  iv_con : forall c, w_conns w c = conn_of c (w_log w);
  iv_ses : forall s, w_sess w s = sess_of s (w_log w);
  iv_brs : forall b, w_brs w b = bear_of b (w_log w);
  iv_ns : w_ns w = ns_of (w_log w);
  iv_nb : w_nb w = nb_of (w_log w);
  iv_new : forall id, w_next w <= id -> aget (w_threads w) id = None /\ hist id (w_log w) = [] }.

Lemma inv_start : inv (start ift counter).
Proof. split; cbn; auto; try discriminate. intros l2 e l1 H. now destruct l2. Qed.

Lemma hist_cons id e l : about id e = true -> hist id (e :: l) = e :: hist id l.
Proof. intros H. unfold hist. cbn. now rewrite H. Qed.
Lemma hist_skip id e l : about id e = false -> hist id (e :: l) = hist id l.
Proof. intros H. unfold hist. cbn. now rewrite H. Qed.

(** a goroutine that exists *)
Lemma running w id th : inv w -> aget (w_threads w) id = Some th -> id < w_next w.
Proof.
  intros I E. destruct (N.lt_ge_cases id (w_next w)) as [L|L]; [exact L|].
  destruct (iv_new _ I id L). congruence.
Qed.
Definition free (w : world) (id : N) : Prop := id < w_next w /\ aget (w_threads w) id = None.

Lemma inv_ends w id : inv w -> inv (ends w id).
Proof.
  intros [A B C D E F G H]. split; cbn [w_log w_threads w_conns w_sess w_brs w_ns w_nb w_next ends]; auto.
  - intros i th. rewrite aget_adel. destruct (i =? id); [discriminate|]. auto.
  - intros i L. rewrite aget_adel. destruct (H i L). split; [|auto]. now destruct (i =? id).
Qed.
Lemma ends_free w id th : inv w -> aget (w_threads w) id = Some th -> free (ends w id) id.
Proof. intros I E. split; [exact (running _ _ _ I E)|]. cbn. rewrite aget_adel. now rewrite N.eqb_refl. Qed.
Lemma inv_goes w id th : inv w -> free w id -> thread_ok id th (hist id (w_log w)) -> inv (goes w id th).
Proof.
  intros [A B C D E F G H] [L Fr] T. split; cbn [w_log w_threads w_conns w_sess w_brs w_ns w_nb w_next goes]; auto.
  - intros i th'. rewrite aget_aput. destruct (i =? id) eqn:Q; [|auto].
    apply N.eqb_eq in Q. subst. intros [= <-]. exact T.
  - intros i Li. destruct (H i Li) as [H1 H2]. split; [|exact H2]. rewrite aget_aput.
    destruct (i =? id) eqn:Q; [|exact H1]. apply N.eqb_eq in Q. lia.
Qed.
Lemma inv_bump w : inv w -> inv (bump w) /\ free (bump w) (w_next w).
Proof.
  intros I. pose proof I as [A B C D E F G H]. split; [|split; cbn; [lia|apply H; lia]].
  split; cbn [w_log w_threads w_conns w_sess w_brs w_ns w_nb w_next bump]; auto.
  intros i L. apply H. lia.
Qed.

(** an event of a goroutine that is off the list, or of none *)
Lemma inv_event w e cs ss ns bs nb cr : inv w -> event_ok e (w_log w) ->
  (forall id, about id e = true -> free w id) ->
  (forall c, cs c = conn_of c (e :: w_log w)) -> (forall s, ss s = sess_of s (e :: w_log w)) ->
  (forall b, bs b = bear_of b (e :: w_log w)) -> ns = ns_of (e :: w_log w) -> nb = nb_of (e :: w_log w) ->
  inv (World cs ss ns bs nb (w_threads w) (w_next w) cr (e :: w_log w)).
Proof.
  intros [A B C D E F G H] HE HF Hc Hs Hb Hn Hm.
  split; cbn [w_log w_threads w_conns w_sess w_brs w_ns w_nb w_next]; auto.
  - intros [|x l2] e' l1 Q; cbn in Q; injection Q as Q1 Q2; subst; auto. now apply (A l2).
  - intros id th Q. rewrite hist_skip; [now apply B|].
    destruct (about id e) eqn:Ab; [|reflexivity]. destruct (HF id Ab). congruence.
  - intros id L. destruct (H id L) as [H1 H2]. split; [exact H1|]. rewrite hist_skip; [exact H2|].
    destruct (about id e) eqn:Ab; [|reflexivity]. destruct (HF id Ab). lia.
Qed.
Lemma inv_emit w e : inv w -> event_ok e (w_log w) -> (forall id, about id e = true -> free w id) ->
  (forall c, conn_of c (e :: w_log w) = conn_of c (w_log w)) -> (forall s, sess_of s (e :: w_log w) = sess_of s (w_log w)) ->
  (forall b, bear_of b (e :: w_log w) = bear_of b (w_log w)) -> ns_of (e :: w_log w) = ns_of (w_log w) -> nb_of (e :: w_log w) = nb_of (w_log w) ->
  inv (emit w e).
Proof.
  intros I HE HF Hc Hs Hb Hn Hm. pose proof I as [A B C D E F G H]. unfold emit. apply inv_event; auto; try congruence.
Qed.
Lemma inv_crash w id : inv w -> free w id -> event_ok (EvPanic id) (w_log w) -> inv (crash w id).
Proof.
  intros I Fr HE. pose proof I as [A B C D E F G H]. unfold crash. apply inv_event; auto.
  intros i Q. cbn in Q. apply N.eqb_eq in Q. now subst.
Qed.
(** a change of one connection *)
Lemma inv_conn w c u e : inv w -> event_ok e (w_log w) -> (forall id, about id e = true -> free w id) ->
  (forall c', conn_of c' (e :: w_log w) = if c' =? c then u else conn_of c' (w_log w)) ->
  (forall s, sess_of s (e :: w_log w) = sess_of s (w_log w)) ->
  (forall b, bear_of b (e :: w_log w) = bear_of b (w_log w)) -> ns_of (e :: w_log w) = ns_of (w_log w) -> nb_of (e :: w_log w) = nb_of (w_log w) ->
  inv (emit (set_conn w c u) e).
Proof.
  intros I HE HF Hc Hs Hb Hn Hm. pose proof I as [A B C D E F G H].
  unfold emit, set_conn. cbn [w_log w_threads w_conns w_sess w_brs w_ns w_nb w_next w_crashed]. apply inv_event; auto; try congruence.
  intros c'. rewrite Hc. unfold upd. destruct (c' =? c); auto.
Qed.
Lemma inv_sess w s x e : inv w -> event_ok e (w_log w) -> (forall id, about id e = true -> free w id) ->
  (forall c, conn_of c (e :: w_log w) = conn_of c (w_log w)) ->
  (forall s', sess_of s' (e :: w_log w) = if s' =? s then x else sess_of s' (w_log w)) ->
  (forall b, bear_of b (e :: w_log w) = bear_of b (w_log w)) -> ns_of (e :: w_log w) = ns_of (w_log w) -> nb_of (e :: w_log w) = nb_of (w_log w) ->
  inv (emit (put_sess w s x) e).
Proof.
  intros I HE HF Hc Hs Hb Hn Hm. pose proof I as [A B C D E F G H].
  unfold emit, put_sess. cbn [w_log w_threads w_conns w_sess w_brs w_ns w_nb w_next w_crashed]. apply inv_event; auto; try congruence.
  intros s'. rewrite Hs. unfold upd. destruct (s' =? s); auto.
Qed.
Lemma inv_br w b x e : inv w -> event_ok e (w_log w) -> (forall id, about id e = true -> free w id) ->
  (forall c, conn_of c (e :: w_log w) = conn_of c (w_log w)) -> (forall s, sess_of s (e :: w_log w) = sess_of s (w_log w)) ->
  (forall b', bear_of b' (e :: w_log w) = if b' =? b then x else bear_of b' (w_log w)) ->
  ns_of (e :: w_log w) = ns_of (w_log w) -> nb_of (e :: w_log w) = nb_of (w_log w) ->
  inv (emit (put_br w b x) e).
Proof.
  intros I HE HF Hc Hs Hb Hn Hm. pose proof I as [A B C D E F G H].
  unfold emit, put_br. cbn [w_log w_threads w_conns w_sess w_brs w_ns w_nb w_next w_crashed]. apply inv_event; auto; try congruence.
  intros b'. rewrite Hb. unfold upd. destruct (b' =? b); auto.
Qed.

(** ** The invariant holds *)
Ltac mine := let i := fresh "i" in let A := fresh "A" in
  intros i A; cbn in A; first [discriminate A | apply N.eqb_eq in A; now subst].
Ltac lg := cbn [w_log w_threads w_conns w_sess w_brs w_ns w_nb w_next w_crashed ends goes emit set_conn put_sess put_br bump spawn].
Ltac quiet := try (intros; reflexivity).

Lemma free_ends w id : free w id -> free (ends w id) id.
Proof. intros [L E]. split; [exact L|]. cbn. rewrite aget_adel. now rewrite N.eqb_refl. Qed.
Lemma free_emit w e id : free w id -> free (emit w e) id. Proof. auto. Qed.
Lemma free_conn w c u id : free w id -> free (set_conn w c u) id. Proof. auto. Qed.
Lemma free_sess w s x id : free w id -> free (put_sess w s x) id. Proof. auto. Qed.
Lemma free_br w b x id : free w id -> free (put_br w b x) id. Proof. auto. Qed.

Lemma inv_done w id : inv w -> free w id -> inv (done w id).
Proof. intros I F. unfold done. apply inv_emit; [exact I|exact Logic.I|mine|..]; reflexivity. Qed.
Lemma inv_fails w id : inv w -> free w id -> inv (fails w id).
Proof. intros I F. unfold fails. apply inv_emit; [exact I|exact Logic.I|mine|..]; reflexivity. Qed.

Lemma inv_set w s x : inv w -> (match x with SActive true => s_imsi (sess_of s (w_log w)) <> [] | _ => True end) -> inv (do_set w s x).
Proof.
  intros I H. unfold do_set. apply inv_sess; [exact I| |mine| | | | |]; quiet.
  - cbn. destruct x; auto.
  - intros s'. cbn. rewrite (N.eqb_sym s s'). destruct (s' =? s) eqn:E; [|reflexivity].
    apply N.eqb_eq in E. subst. now rewrite (iv_ses _ I).
Qed.
Lemma inv_bset w b x : inv w -> inv (do_bset w b x).
Proof.
  intros I. unfold do_bset. apply inv_br; [exact I|exact Logic.I|mine| | | | |]; quiet.
  intros b'. cbn. rewrite (N.eqb_sym b b'). destruct (b' =? b) eqn:E; [|reflexivity].
  apply N.eqb_eq in E. subst. now rewrite (iv_brs _ I).
Qed.

(** a change of one connection by one of its setters *)
Ltac by_conn I c := intros c'; cbn [conn_of]; rewrite (N.eqb_sym c c');
  destruct (c' =? c) eqn:?; [|reflexivity];
  match goal with H : (c' =? c) = true |- _ => apply N.eqb_eq in H; subst c' end; rewrite (iv_con _ I); try reflexivity.

Lemma without_ext f g im m : (forall s, f s = g s) -> without_imsi f im m = without_imsi g im m.
Proof.
  intros H. unfold without_imsi. induction m as [|[k [s|]] m IH]; cbn; [reflexivity| |].
  - rewrite H. now rewrite IH.
  - now rewrite IH.
Qed.
Lemma hist_mine id e l : about id e = true -> hist id (e :: l) = e :: hist id l.
Proof. apply hist_cons. Qed.
Ltac hm := lg; rewrite ?hist_cons by (cbn; apply N.eqb_refl).

Lemma ift_of c l : c_ift (conn_of c l) = ift c.
Proof.
  induction l as [|e l IH]; [reflexivity|]. destruct e; cbn; try exact IH;
    match goal with |- context [?x =? c] => destruct (x =? c) end; exact IH.
Qed.
Lemma counter_of c l : c_restart (conn_of c l) = counter c.
Proof.
  induction l as [|e l IH]; [reflexivity|]. destruct e; cbn; try exact IH;
    match goal with |- context [?x =? c] => destruct (x =? c) end; exact IH.
Qed.

(** a statement of a script *)
Lemma inv_stmt w id c s b x pre r f : inv w -> free w id -> script_call id c s (pre ++ x :: r) f (hist id (w_log w)) ->
  (match x with DoS (SActive _) => False | _ => True end) ->
  inv (run_stmt w id c s b x) /\ free (run_stmt w id c s b x) id /\
  script_call id c s (pre ++ x :: r) f (hist id (w_log (run_stmt w id c s b x))).
Proof.
  intros I F T Hx. destruct x as [x|x|t|]; cbn [run_stmt].
  - split; [|split; [exact F|exact T]]. apply inv_set; [exact I|]. destruct x; auto. contradiction.
  - split; [|split; [exact F|exact T]]. now apply inv_bset.
  - split; [|split; [exact F|]].
    + apply inv_conn; [exact I| |mine| | | | |]; quiet; [|by_conn I c]. cbn. eauto.
    + hm. destruct T as (h0 & R & T). exists (EvTeidOn id c t s :: h0). split; [constructor; eauto|].
      destruct T as [(t' & -> & T)|(a & ies & -> & T)]; [left; exists t'|right; exists a, ies]; auto.
  - split; [|split; [exact F|]].
    + apply inv_conn; [exact I| |mine| | | | |]; quiet; [|by_conn I c]. cbn. split; [eauto|].
      now rewrite (iv_ses _ I).
    + hm. destruct T as (h0 & R & T). exists (EvImsiOn id c (s_imsi (w_sess w s)) s :: h0). split; [constructor; eauto|].
      destruct T as [(t' & -> & T)|(a & ies & -> & T)]; [left; exists t'|right; exists a, ies]; auto.
Qed.

(** no statement of a script activates a session *)
Definition quiet_stmt (x : stmt) : Prop := match x with DoS (SActive _) => False | _ => True end.
Lemma assign_quiet {A} (r : res A) z f : (forall v, quiet_stmt (f v)) -> Forall quiet_stmt (fst (assign r z f)).
Proof. intros H. destruct r; cbn; auto. Qed.
Lemma next_quiet a b : Forall quiet_stmt (fst a) -> Forall quiet_stmt (fst b) -> Forall quiet_stmt (fst (next a b)).
Proof. intros Ha Hb. unfold next. destruct (snd a); cbn; auto. now apply Forall_app. Qed.
Lemma require_quiet {A} (r : res A) k : (forall v, Forall quiet_stmt (fst (k v))) -> Forall quiet_stmt (fst (require r k)).
Proof. intros H. destruct r; cbn; auto. Qed.
Lemma child_quiet i : Forall quiet_stmt (fst (create_child i)).
Proof.
  unfold create_child. destruct (i2_type i =? 73); [apply assign_quiet; cbn; auto|].
  destruct (i2_type i =? 80); [repeat (apply require_quiet; intros ?); cbn [fst]; repeat constructor|].
  destruct (i2_type i =? 87); [repeat (apply require_quiet; intros ?); cbn [fst]; repeat constructor|]. constructor.
Qed.
Lemma ie_quiet n i : Forall quiet_stmt (fst (create_ie n i)).
Proof.
  unfold create_ie.
  repeat match goal with |- context [if i2_type i =? ?t then _ else _] => destruct (i2_type i =? t) end;
    try (apply assign_quiet; cbn; auto); cbn; auto.
  - apply next_quiet; apply assign_quiet; cbn; auto.
  - repeat (apply require_quiet; intros ?). cbn [fst]. constructor; [exact Logic.I|]. destruct (_ =? n); cbn; auto.
    repeat constructor.
  - destruct (i2_instance i =? 0); [|cbn; auto]. induction (i2_children i) as [|ch l IH]; cbn; auto.
    apply next_quiet; [apply child_quiet|exact IH].
Qed.
Lemma create_quiet n ies : Forall quiet_stmt (fst (create_script n ies)).
Proof.
  unfold create_script. induction ies as [|[i|] l IH]; cbn [fold_right]; [cbn; auto| |exact IH].
  apply next_quiet; [apply ie_quiet|exact IH].
Qed.
Lemma script_quiet id c s full f h : script_call id c s full f h -> Forall quiet_stmt full.
Proof.
  intros (h0 & _ & [(t & _ & -> & _)|(a & ies & _ & -> & _)]); [repeat constructor|apply create_quiet].
Qed.

Lemma inv_handler w id c from d m h h0 : inv w -> free w id ->
  hist id (w_log w) = EvDispatch id c (h2_type (m_hdr m)) (Some h) :: h0 -> checked id c from d m h0 ->
  inv (run_handler w id c from d m h).
Proof.
  intros I F H K. destruct h; cbn [run_handler].
  - destruct (is_struct "EchoRequest" d) eqn:E; [|now apply inv_fails].
    rewrite (iv_con _ I), counter_of. destruct (echo_response _ _) as [b|e|] eqn:R; try (rewrite echo_response_is in R; discriminate).
    apply inv_goes; auto. cbn. exists d, m, h0. rewrite H. auto.
  - destruct (is_struct "EchoResponse" d); [now apply inv_done|now apply inv_fails].
  - now apply inv_fails.
  - apply inv_emit; [exact I| |mine|..]; quiet. cbn. exists c, from, h0. auto.
  - apply inv_crash; auto. cbn. do 7 right. left. exists c, (h2_type (m_hdr m)), h0. exact H.
Qed.

Lemma inv_thread w id th ok w' : inv w -> free w id -> thread_ok id th (hist id (w_log w)) ->
  run_thread w id th ok = Some w' -> inv w'.
Proof.
  intros I F T E. destruct th; cbn [run_thread] in E; cbn [thread_ok] in T.
  - (* TScript *) destruct T as (pre & T). destruct l as [|x r].
    + apply (f_equal (fun o => match o with Some x => x | None => w end)) in E. subst w'. destruct f as [|d [m|e|] a| |].
      * now apply inv_done.
      * apply inv_goes; auto. cbn. right. destruct T as (h0 & R & [(t & _ & _ & T)|(a' & ies & Eh & _ & T)]); [discriminate|].
        destruct (snd (create_script (ift c) ies)) eqn:Q; try discriminate. injection T as -> T <-.
        exists s, ies, h0. auto.
      * now apply inv_fails.
      * apply inv_crash; auto. cbn. do 2 right. left. destruct T as (h0 & R & [(t & _ & _ & T)|(a' & ies & Eh & _ & T)]); [discriminate|].
        destruct (snd (create_script (ift c) ies)) eqn:Q; try discriminate. injection T as -> T <-.
        exists c, s, a, ies, h0. auto.
      * now apply inv_fails.
      * apply inv_crash; auto. cbn. right. left. exists c, s, (pre ++ []), (hist id (w_log w)). auto.
    + injection E as <-. pose proof (script_quiet _ _ _ _ _ _ T) as Q. apply Forall_app in Q as [_ Q]. apply Forall_cons_iff in Q as [Q _].
      destruct (inv_stmt w id c s b x pre r f I F T Q) as (I' & F' & T'). apply inv_goes; auto. cbn.
      exists (pre ++ [x]). now rewrite <- app_assoc.
  - (* TRemove1 *) injection E as <-. apply inv_goes; [|exact F|].
    + apply inv_conn; [exact I| |mine| | | | |]; quiet; [|by_conn I c]. cbn. exists s. rewrite <- (iv_ses _ I). auto.
    + hm. cbn. eauto.
  - (* TRemove2 *) injection E as <-. destruct T as (im & h0 & Eh & T). apply inv_goes; [|exact F|].
    + apply inv_emit; [exact I| |mine|..]; quiet. cbn. exists c, im, h0. rewrite <- (iv_ses _ I), (iv_con _ I), ift_of. auto.
    + hm. rewrite Eh. destruct (aget _ _) as [t|]; cbn; eauto 8.
  - (* TRemove3 *) injection E as <-. apply inv_done; [|exact F].
    apply inv_conn; [exact I|exact T|mine| | | | |]; quiet. by_conn I c.
  - (* TRemoveR *) destruct T as (im & h0 & Eh & T). destruct (has_nil _) eqn:Hn; injection E as <-.
    + apply inv_crash; auto. cbn. do 3 right. left. exists c, s, im, h0. rewrite <- (iv_con _ I). auto.
    + apply inv_done; [|exact F]. apply inv_conn; [exact I| |mine| | | | |]; quiet.
      * cbn. exists s, im, h0. rewrite <- (iv_con _ I), <- (iv_ses _ I). auto.
      * by_conn I c. f_equal. apply without_ext. intros s'. now rewrite (iv_ses _ I).
  - (* TRemoveI *) injection E as <-. set (r := sget _ _).
    assert (inv (emit w (EvGotImsi id c imsi r))) as I1.
    { apply inv_emit; [exact I| |mine|..]; quiet. cbn. split; [exact T|]. unfold r. now rewrite (iv_con _ I). }
    destruct r as [s|]; [|now apply inv_done]. apply inv_goes; auto. hm. rewrite T. cbn. right. eauto.
  - (* TAlloc *) destruct (tries <? 65535) eqn:L; [discriminate|]. injection E as <-. apply N.ltb_ge in L.
    destruct T as (h0 & Eh & M & Ln & Le). apply inv_emit; [exact I| |mine|..]; quiet. cbn. exists h0, v4, v6.
    repeat split; auto. rewrite Ln. f_equal. lia.
  - (* TAllocRet *) injection E as <-. destruct T as (h0 & Eh & M). apply inv_emit; [exact I| |mine|..]; quiet. cbn. exists h0, v4, v6.
    now rewrite (iv_con _ I), ift_of.
  - (* TSend *) injection E as <-. set (n := inc_seq _).
    assert (inv (emit (set_conn w c (set_seq (w_conns w c) n)) (EvSeq id c n))) as I1.
    { apply inv_conn; [exact I| |mine| | | | |]; quiet; [|by_conn I c]. cbn. split; [|eauto].
      unfold n. now rewrite (iv_con _ I). }
    destruct (v2_marshal _ _ _) as [[bs m']|e|] eqn:Em.
    + apply inv_goes; auto. hm. cbn. eauto 10.
    + apply inv_goes; auto. hm. cbn. eauto 10.
    + apply inv_crash; auto. hm. cbn [event_ok]. do 4 right. left. hm. exists c, d, m, a, n, (hist id (w_log w)). auto.
  - (* TSendW *) destruct T as (d & m & h0 & m' & Eh & T & Em). destruct (c_open _) eqn:O; injection E as <-.
    + destruct ok.
      * apply inv_emit; [exact I| |mine|..]; quiet. cbn. eauto 10.
      * apply inv_goes; auto. cbn. eauto 10.
    + apply inv_crash; auto. cbn. do 4 right. left. exists c, d, m, a, n, h0. rewrite <- (iv_con _ I). auto.
  - (* TDec *) injection E as <-. destruct T as (d & m & a & h0 & Eh & T). apply inv_fails; [|exact F].
    apply inv_conn; [exact I| |mine| | | | |]; quiet; [|by_conn I c]. cbn. split; [now rewrite (iv_con _ I)|]. right. eauto 10.
  - (* TRecv *) injection E as <-. destruct T as (d & Eh & Hb & ->). destruct (v2_parse _ _) as [[md m]|e|] eqn:P.
    + apply inv_goes; auto. cbn. exists d. auto.
    + now apply inv_fails.
    + apply inv_crash; auto. cbn. do 5 right. left. eauto 10.
  - (* TCheck *) injection E as <-. apply inv_goes; [|exact F|].
    + apply inv_emit; [exact I| |mine|..]; quiet. cbn. split; [eauto|]. now rewrite (iv_con _ I).
    + hm. destruct (c_valid _) eqn:V; cbn [andb].
      * destruct (h2_get_teid (m_hdr m) =? 0) eqn:Q; cbn [negb].
        -- apply N.eqb_eq in Q. cbn. exists (hist id (w_log w)). auto.
        -- apply N.eqb_neq in Q. cbn. eauto.
      * cbn. exists (hist id (w_log w)). auto.
  - (* TLook *) injection E as <-. destruct T as (h0 & Eh & G & Nz). set (t := h2_get_teid (m_hdr m)) in *. set (r := aget _ _).
    assert (inv (emit w (EvLook id c t r))) as I1.
    { apply inv_emit; [exact I| |mine|..]; quiet. cbn. split; [eauto 10|]. unfold r. now rewrite (iv_con _ I). }
    destruct r as [[s|]|].
    + destruct (from =? s_peer (w_sess w s)) eqn:P.
      * apply N.eqb_eq in P. apply inv_goes; [|exact F|].
        -- apply inv_emit; [exact I1| |mine|..]; quiet. hm. cbn [event_ok]. hm. exists from, d, m, h0, t, s. rewrite Eh.
           cbn [sess_of]. rewrite <- (iv_ses _ I). auto.
        -- hm. cbn [thread_ok checked]. exists h0. rewrite Eh. split; auto. right. right. split; auto. exists s. reflexivity.
      * apply N.eqb_neq in P. apply inv_fails; [|exact F]. apply inv_emit; [exact I1| |mine|..]; quiet. hm. cbn [event_ok]. hm.
        exists from, d, m, h0, t, (Some (Some s)). rewrite Eh. repeat split; auto. right. exists s. cbn [sess_of]. rewrite <- (iv_ses _ I). auto.
    + apply inv_crash; auto. hm. cbn [event_ok]. hm. do 6 right. left. exists c, t, h0, from, d, m. rewrite Eh. auto.
    + apply inv_fails; [|exact F]. apply inv_emit; [exact I1| |mine|..]; quiet. hm. cbn [event_ok]. hm.
      exists from, d, m, h0, t, None. rewrite Eh. auto 10.
  - (* TDisp *) injection E as <-. set (r := aget _ _).
    assert (inv (emit w (EvDispatch id c (h2_type (m_hdr m)) r))) as I1.
    { apply inv_emit; [exact I| |mine|..]; quiet. cbn. split; [eauto|]. unfold r. now rewrite (iv_con _ I). }
    destruct r as [h|]; [|now apply inv_fails]. apply inv_goes; auto. hm. cbn. eauto.
  - (* THandle *) injection E as <-. destruct T as (h0 & Eh & T). now apply (inv_handler _ _ _ _ _ _ _ h0).
  - (* TWrite *) destruct T as (d & m & h0 & Eh & T & S & R). destruct (c_open _) eqn:O; injection E as <-.
    + destruct ok; [|now apply inv_fails]. apply inv_emit; [exact I| |mine|..]; quiet. cbn. eauto 10.
    + apply inv_crash; auto. cbn. do 8 right. exists c, (h2_type (m_hdr m)), h0. rewrite <- (iv_con _ I). auto.
  - (* TPass *) destruct (_ <? 1000)%nat eqn:L; [|discriminate]. injection E as <-. apply Nat.ltb_lt in L.
    apply inv_sess; [exact I| |mine| | | | |]; quiet.
    + cbn. rewrite <- (iv_ses _ I). auto.
    + intros s'. cbn [sess_of]. rewrite (N.eqb_sym s s'). destruct (s' =? s) eqn:Q; [|reflexivity].
      apply N.eqb_eq in Q. subst s'. now rewrite (iv_ses _ I).
  - (* TWait *) destruct (s_queue (w_sess w s)) as [|m q] eqn:Q; [discriminate|]. injection E as <-.
    apply inv_sess; [exact I| |mine| | | | |]; quiet.
    + cbn. rewrite <- (iv_ses _ I). eauto.
    + intros s'. cbn [sess_of]. rewrite (N.eqb_sym s s'). destruct (s' =? s) eqn:Q'; [|reflexivity].
      apply N.eqb_eq in Q'. subst s'. now rewrite <- (iv_ses _ I), Q.
Qed.
Lemma octets d : forallb octet d = true -> bytes_ok d.
Proof.
  intros H. unfold bytes_ok. apply Forall_forall. intros x Hx. rewrite forallb_forall in H.
  specialize (H x Hx). unfold octet in H. now apply N.ltb_lt in H.
Qed.
Lemma open_of c l : c_open (conn_of c l) = opened c l.
Proof.
  induction l as [|e l IH]; [reflexivity|].
  destruct e; cbn; try exact IH;
    match goal with |- context [?x =? c] => destruct (x =? c) end; cbn; auto.
Qed.

Lemma inv_add_session w a im : inv w -> inv (add_session w a im).
Proof.
  intros I. pose proof I as [A B C D E F G H]. unfold add_session. apply inv_event; [exact I| |mine| | | | |].
  - cbn. auto.
  - intros c. apply C.
  - intros s. cbn. unfold upd. rewrite (N.eqb_sym _ s). destruct (s =? w_ns w); [reflexivity|apply D].
  - intros b. cbn. unfold upd. rewrite (N.eqb_sym _ b). destruct (b =? w_nb w); [reflexivity|apply E].
  - cbn. now rewrite F.
  - cbn. now rewrite G.
Qed.
Lemma inv_add_bearer w ebi : inv w -> inv (add_bearer w ebi).
Proof.
  intros I. pose proof I as [A B C D E F G H]. unfold add_bearer. apply inv_event; [exact I| |mine| | | | |].
  - cbn. auto.
  - intros c. apply C.
  - intros s. apply D.
  - intros b. cbn. unfold upd. rewrite (N.eqb_sym _ b). destruct (b =? w_nb w); [reflexivity|apply E].
  - cbn. exact F.
  - cbn. now rewrite G.
Qed.
Lemma inv_spawn w k th : inv w ->
  (match k with
   | KDatagram c _ d => opened c (w_log w) = true /\ bytes_ok d
   | KRegister _ _ s | KRemove _ s | KCreate _ s _ _ | KPass s _ | KWait s _ => s < ns_of (w_log w)
   | _ => True
   end) ->
  thread_ok (w_next w) th [EvCall (w_next w) k] -> inv (emit (spawn w th) (EvCall (w_next w) k)).
Proof.
  intros I K T. change (emit (spawn w th) (EvCall (w_next w) k)) with (goes (emit (bump w) (EvCall (w_next w) k)) (w_next w) th).
  destruct (inv_bump w I) as [I' F']. destruct (iv_new _ I (w_next w)) as [_ Eh]; [lia|].
  apply inv_goes; [|exact F'|].
  - apply inv_emit; [exact I'| |mine|..]; quiet. cbn [event_ok]. split; [exact Eh|exact K].
  - hm. rewrite Eh. exact T.
Qed.

Lemma inv_step w l w' : inv w -> step w l = Some w' -> inv w'.
Proof.
  intros I E. unfold step in E. destruct (w_crashed w); [discriminate|]. destruct l.
  - injection E as <-. apply inv_conn; [exact I|exact Logic.I|mine| | | | |]; quiet. by_conn I c.
  - destruct (c_closed _) eqn:Q; injection E as <-.
    + destruct (inv_bump w I) as [I' F']. apply inv_crash; auto. cbn. left. exists c. rewrite <- (iv_con _ I).
      split; [|exact Q]. apply (iv_new _ I). lia.
    + apply inv_conn; [exact I|exact Logic.I|mine| | | | |]; quiet. by_conn I c.
  - injection E as <-. apply inv_conn; [exact I|exact Logic.I|mine| | | | |]; quiet. by_conn I c.
  - injection E as <-. apply inv_conn; [exact I|exact Logic.I|mine| | | | |]; quiet. by_conn I c.
  - injection E as <-. now apply inv_add_session.
  - injection E as <-. now apply inv_add_bearer.
  - destruct (allowed w s x) eqn:Q; [|discriminate]. injection E as <-. apply inv_set; auto.
    destruct x; auto. destruct b; auto. unfold allowed in Q. apply andb_prop in Q as [_ Q]. rewrite <- (iv_ses _ I).
    destruct (s_imsi (w_sess w s)); congruence.
  - destruct (b <? w_nb w); [|discriminate]. injection E as <-. now apply inv_bset.
  - destruct (_ && _); [|discriminate]. destruct (name_by_ebi _ _ _); injection E as <-; auto. apply inv_set; auto.
  - injection E as <-. change (bump (emit (set_conn w c (set_seq (w_conns w c) (inc_seq (c_seq (w_conns w c))))) (EvSeq (w_next w) c (inc_seq (c_seq (w_conns w c))))))
      with (emit (set_conn (bump w) c (set_seq (w_conns w c) (inc_seq (c_seq (w_conns w c))))) (EvSeq (w_next w) c (inc_seq (c_seq (w_conns w c))))).
    destruct (inv_bump w I) as [I' F']. apply inv_conn; [exact I'| |mine| | | | |]; quiet; [|by_conn I c].
    cbn. split; [now rewrite (iv_con _ I)|]. left. apply (iv_new _ I). lia.
  - injection E as <-. change (bump (emit (set_conn w c (set_seq (w_conns w c) (dec_seq (c_seq (w_conns w c))))) (EvDec (w_next w) c (dec_seq (c_seq (w_conns w c))))))
      with (emit (set_conn (bump w) c (set_seq (w_conns w c) (dec_seq (c_seq (w_conns w c))))) (EvDec (w_next w) c (dec_seq (c_seq (w_conns w c))))).
    destruct (inv_bump w I) as [I' F']. apply inv_conn; [exact I'| |mine| | | | |]; quiet; [|by_conn I c].
    cbn. split; [now rewrite (iv_con _ I)|]. left. apply (iv_new _ I). lia.
  - injection E as <-.
    change (w_next w) with (w_next (add_session w a [])). rewrite (iv_con _ I), ift_of.
    apply inv_spawn; [now apply inv_add_session|cbn; rewrite (iv_ns _ I); lia|]. cbn [thread_ok]. exists []. exists []. split; [constructor|].
    right. exists a, ies. repeat split.
  - destruct (entry w k) as [th|] eqn:Q; [|discriminate]. injection E as <-. apply inv_spawn; [exact I| |].
    + rewrite <- (iv_ns _ I).
      destruct k; auto; cbn in Q; try (destruct (_ <? w_ns w) eqn:L; [now apply N.ltb_lt|discriminate]); try discriminate.
      destruct (c_open _) eqn:O; [|discriminate]. destruct (forallb octet d) eqn:Z; [|discriminate].
      rewrite (iv_con _ I), open_of in O. split; [exact O|now apply octets].
    + destruct k; cbn [entry] in Q;
        try (destruct (_ <? _); [|discriminate]); try discriminate; try (injection Q as <-); cbn [thread_ok].
      * exists [], []. split; [constructor|]. left. exists t. rewrite (iv_con _ I), ift_of. repeat split.
      * now left.
      * reflexivity.
      * exists []. repeat split; auto. constructor. lia.
      * now left.
      * destruct (c_open _ && forallb octet d)%bool eqn:O; [|discriminate]. injection Q as <-. apply andb_prop in O as [_ O]. cbn.
        exists d. repeat split. now apply octets.
      * reflexivity.
      * reflexivity.
  - destruct (aget (w_threads w) id) as [th|] eqn:Q; [|discriminate]. destruct th; try discriminate.
    pose proof (ends_free _ _ _ I Q) as F. pose proof (iv_thr _ I _ _ Q) as T. apply (inv_ends w id) in I as I'.
    destruct ((tries <? 65535) && (rnd <? 4294967296))%bool eqn:L; [|discriminate]. apply andb_prop in L as [L1 L2].
    apply N.ltb_lt in L1, L2. destruct T as (h0 & Eh & M & Ln & Le).
    destruct ((rnd =? 0) || _)%bool eqn:R; injection E as <-.
    + apply inv_goes; [|exact F|].
      * apply inv_emit; [exact I'| |mine|..]; quiet. cbn. split; [exists h0, v4, v6; repeat split; auto; lia|].
        apply orb_prop in R as [R|R]; [left; now apply N.eqb_eq|right]. rewrite <- (iv_con _ I).
        destruct (aget (c_itei (w_conns w c)) rnd); congruence.
      * hm. rewrite Eh. cbn. exists (EvMiss id c rnd :: h0). repeat split; auto.
        -- constructor; eauto.
        -- cbn. rewrite Ln. lia.
        -- lia.
    + apply orb_false_elim in R as [R1 R2]. apply N.eqb_neq in R1. apply inv_goes; [|exact F|].
      * apply inv_conn; [exact I'| |mine| | | | |]; quiet; [|by_conn I c]. cbn. split; [exists h0, v4, v6; auto|].
        repeat split; auto. rewrite <- (iv_con _ I).
        destruct (aget (c_itei (w_conns w c)) rnd); congruence.
      * hm. rewrite Eh. cbn. eauto.
  - destruct (aget (w_threads w) id) as [th|] eqn:Q; [|discriminate].
    apply (inv_thread (ends w id) id th ok); auto; [now apply inv_ends|now apply (ends_free _ _ _ I Q)|exact (iv_thr _ I _ _ Q)].
  - destruct (aget (w_threads w) id) as [th|] eqn:Q; [|discriminate].
    pose proof (ends_free _ _ _ I Q) as F. pose proof (iv_thr _ I _ _ Q) as T.
    destruct th; try discriminate; injection E as <-; (apply inv_emit; [now apply inv_ends| |mine|..]; quiet); cbn; exists s; eauto.
Qed.
Lemma inv_run w ls w' : inv w -> run w ls = Some w' -> inv w'.
Proof.
  revert w. induction ls as [|l ls IH]; intros w I; cbn; [intros [= <-]; exact I|].
  destruct (step w l) as [w1|] eqn:E; [|discriminate]. apply IH. exact (inv_step _ _ _ I E).
Qed.
Lemma reached ls w : run (start ift counter) ls = Some w -> inv w.
Proof. apply inv_run, inv_start. Qed.
End Inv.
