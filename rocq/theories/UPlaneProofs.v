(** The invariant of the user plane, and what it says about every event of every history. *)
From Coq Require Import String Lia.
From Verif Require Import Base BaseLemmas Maps MapsProofs TvIE V1Header V2IE V2Codec MsgModel Msgs1Gen V1Msg
  V1HeaderSpec V1HeaderProofs MsgSpec MsgProofs V1MsgProofs TpduProofs UPlane USpec.
Open Scope N_scope.
Open Scope list_scope.

(** the state of a goroutine against its history *)
Definition misses (id c : N) (l : list event) : Prop := Forall (fun e => exists t, e = EvMiss id c t) l.
Definition from_write (id c : N) (b : bytes) (a : addr) (h : list event) : Prop :=
  exists t p hd, h = [EvWrite id c t p a] /\ tpdu1_marshal (encapsulate1 t p) = Ok (b, hd).
Definition from_echo (id c : N) (b : bytes) (a : addr) (h : list event) : Prop :=
  exists h0 d p typ, h = EvDispatch id c typ (Some HEchoReq) :: h0 /\ arrived id c a d h0 /\
    bytes_ok d /\ v1_parse (received d) = Ok p /\ typ = h1_type (pdu_hdr p) /\
    is_struct "EchoRequest" p = true /\ echo_response (h1_seq (pdu_hdr p)) = Ok b.
Definition from_tpdu (local : N -> option bytes) (id c : N) (b : bytes) (a : addr) (h : list event) : Prop :=
  exists h0 d x typ, h = EvFlag id c true :: EvDispatch id c typ (Some HTpdu) :: h0 /\ arrived id c a d h0 /\
    bytes_ok d /\ v1_parse (received d) = Ok (P1_tpdu x) /\ typ = h1_type x /\
    error_indication (local c) (h1_teid x) (h1_seq x) = Ok b.
Definition relay_read (raw : bytes) (t : N) : Prop :=
  idx raw 1 = Ok 255 /\ (11 <= len raw)%nat /\ (do s <- slice raw 4 8; be32 s) = Ok t.

Definition thread_ok (local : N -> option bytes) (id : N) (th : thread) (h : list event) : Prop :=
  match th with
  | TAlloc c tries _ _ _ => misses id c h /\ List.length h = N.to_nat tries /\ tries <= 65535
  | TAllocRet c t _ _ _ => exists h0, h = EvTaken id c t :: h0 /\ misses id c h0 /\ (List.length h0 < N.to_nat 65535)%nat
  | TRelayTo _ _ _ | TCloseRelay _ _ | TFree _ _ | TKernel _ => h = []
  | TRecv c from raw => exists d, h = [EvRecv id c from d] /\ raw = received d /\ bytes_ok d
  | TLookup c from raw => exists d, h = [EvRecv id c from d] /\ raw = received d /\ bytes_ok d /\
      idx raw 1 = Ok 255 /\ (11 <= len raw)%nat
  | TRelay p raw => exists c from d t, h = [EvLookup id c t (Some p); EvRecv id c from d] /\ raw = received d /\
      bytes_ok d /\ relay_read raw t
  | TParse c from raw => exists d, arrived id c from d h /\ raw = received d /\ bytes_ok d
  | THandle c from p hd => exists h0 d, h = EvDispatch id c (h1_type (pdu_hdr p)) (Some hd) :: h0 /\
      arrived id c from d h0 /\ bytes_ok d /\ v1_parse (received d) = Ok p
  | TWrite c b a => from_write id c b a h \/ from_echo id c b a h \/ from_tpdu local id c b a h
  | TOffer c from t p => exists h0 d x typ, h = EvFlag id c false :: EvDispatch id c typ (Some HTpdu) :: h0 /\
      arrived id c from d h0 /\ bytes_ok d /\ v1_parse (received d) = Ok (P1_tpdu x) /\
      t = h1_teid x /\ p = h1_payload x
  | TRead c n => h = [EvRead id c n]
  end.

(** what every event tells about the past *)
Definition event_ok (local : N -> option bytes) (e : event) (l : list event) : Prop :=
  match e with
  | EvTaken id c t => misses id c (hist id l) /\ (List.length (hist id l) < N.to_nat 65535)%nat /\
      t <> 0 /\ t < 4294967296 /\ ~ In t (held c l)
  | EvMiss id c t => misses id c (hist id l) /\ (List.length (hist id l) < N.to_nat 65535)%nat /\
      (t = 0 \/ In t (held c l))
  | EvTeid id c t r => (exists h0, hist id l = EvTaken id c t :: h0 /\ misses id c h0) /\
      exists ift v4 v6, r = new_fteid default_grouped ift t v4 v6
  | EvNoTeid id c => misses id c (hist id l) /\ List.length (hist id l) = N.to_nat 65535
  | EvRecv id c from d => hist id l = [] /\ bytes_ok d /\ opened c l = true
  | EvLookup id c t r => (exists from d, hist id l = [EvRecv id c from d] /\ bytes_ok d /\ relay_read (received d) t) /\
      r = relay_for c t l
  | EvRelayed id c' a b => exists c from d t p, hist id l = [EvLookup id c t (Some p); EvRecv id c from d] /\
      bytes_ok d /\ relay_read (received d) t /\ c' = p_conn p /\ a = p_addr p /\
      readdress (received d) (p_teid p) = Ok b
  | EvDispatch id c typ r => (exists from d p, arrived id c from d (hist id l) /\ bytes_ok d /\
      v1_parse (received d) = Ok p /\ typ = h1_type (pdu_hdr p)) /\ r = handler_for c typ l
  | EvFlag id c b => (exists h0 typ from d x, hist id l = EvDispatch id c typ (Some HTpdu) :: h0 /\
      arrived id c from d h0 /\ bytes_ok d /\ v1_parse (received d) = Ok (P1_tpdu x)) /\ b = err_ind c l
  | EvUser id k p => exists c h0 typ from d, hist id l = EvDispatch id c typ (Some (HUser k)) :: h0 /\
      arrived id c from d h0 /\ bytes_ok d /\ v1_parse (received d) = Ok p /\ typ = h1_type (pdu_hdr p)
  | EvWrite id c t p a => hist id l = []
  | EvSent id c a b => from_write id c b a (hist id l) \/ from_echo id c b a (hist id l) \/
      from_tpdu local id c b a (hist id l)
  | EvRead id c n => hist id l = []
  | EvDelivered id rd c a t p => (exists h0 d x typ n, hist id l = EvFlag id c false :: EvDispatch id c typ (Some HTpdu) :: h0 /\
      arrived id c a d h0 /\ bytes_ok d /\ v1_parse (received d) = Ok (P1_tpdu x) /\
      t = h1_teid x /\ p = firstn n (h1_payload x) /\ hist rd l = [EvRead rd c n])
  | EvReadClosed rd c => (exists n, hist rd l = [EvRead rd c n]) /\ closed_ev c l = true
  | EvDropped id => final (hist id l) = false
  | EvPanic id =>
      (exists c from d, hist id l = [EvRecv id c from d] /\ (len d < 2)%nat /\ exists t p, relay_for c t l = Some p) \/
      (exists c from d t p, hist id l = [EvLookup id c t (Some p); EvRecv id c from d] /\ opened (p_conn p) l = false) \/
      (exists c typ h0 from d m, hist id l = EvDispatch id c typ (Some HErrInd) :: h0 /\ arrived id c from d h0 /\
         bytes_ok d /\ v1_parse (received d) = Ok (P1 d_ErrorIndication m) /\ ind_panics m = true) \/
      (exists c typ h0, hist id l = EvDispatch id c typ (Some HNil) :: h0) \/
      (exists c t p a, hist id l = [EvWrite id c t p a] /\ opened c l = false) \/
      (hist id l = [] /\ exists c, closed_ev c l = true)
  | _ => True
  end.

Definition conn_ok (local : N -> option bytes) (c : N) (u : uconn) (l : list event) : Prop :=
  u_local u = local c /\ u_teids u = held c l /\ (forall t, aget (u_relay u) t = relay_for c t l) /\
  (forall t, aget (u_handlers u) t = handler_for c t l) /\ u_errind u = err_ind c l /\
  u_open u = opened c l /\ u_closed u = closed_ev c l.

Record inv (local : N -> option bytes) (w : world) : Prop := Inv {
  iv_log : forall l2 e l1, w_log w = l2 ++ e :: l1 -> event_ok local e l1;
  iv_thr : forall id th, aget (w_threads w) id = Some th -> thread_ok local id th (hist id (w_log w));
  iv_con : forall c, conn_ok local c (w_conns w c) (w_log w);
  iv_new : forall id, w_next w <= id -> aget (w_threads w) id = None /\ hist id (w_log w) = [] }.

Lemma inv_start local : inv local (start local).
Proof.
  split; cbn.
  - intros l2 e l1 H. now destruct l2.
  - discriminate.
  - intros c. repeat split; cbn. intros t. unfold handler_default.
    rewrite (N.eqb_sym 255), (N.eqb_sym 1), (N.eqb_sym 2), (N.eqb_sym 26). reflexivity.
  - auto.
Qed.

(** a step that only moves goroutines *)
Lemma inv_quiet local w ths next : inv local w -> w_next w <= next ->
  (forall id th, aget ths id = Some th ->
     aget (w_threads w) id = Some th \/ (id < next /\ thread_ok local id th (hist id (w_log w)))) ->
  inv local (World (w_conns w) ths next (w_crashed w) (w_log w)).
Proof.
  intros [HL HT HC HN] Hn H. split; cbn [w_log w_threads w_conns w_next]; auto.
  - intros id th E. destruct (H id th E) as [E1|[_ E1]]; auto.
  - intros id L. destruct (HN id ltac:(lia)) as [E1 E2]. split; [|exact E2].
    destruct (aget ths id) as [th|] eqn:E; [|reflexivity].
    destruct (H id th E) as [E3|[E3 _]]; [congruence|lia].
Qed.

(** a step that adds one event and moves goroutines *)
Lemma inv_event local w e cs ths next cr : inv local w -> w_next w <= next ->
  event_ok local e (w_log w) ->
  (forall c, conn_ok local c (cs c) (e :: w_log w)) ->
  (forall id th, aget ths id = Some th ->
     (aget (w_threads w) id = Some th /\ about id e = false) \/
     (id < next /\ thread_ok local id th (hist id (e :: w_log w)))) ->
  (forall id, about id e = true -> id < next) ->
  inv local (World cs ths next cr (e :: w_log w)).
Proof.
  intros [HL HT HC HN] Hn HE Hc H Ha. split; cbn [w_log w_threads w_conns w_next].
  - intros [|x l2] e' l1 E; cbn in E.
    + injection E as <- <-. exact HE.
    + injection E as _ E. now apply (HL l2).
  - intros id th E. destruct (H id th E) as [[E1 E2]|[_ E1]]; auto.
    unfold hist. cbn. rewrite E2. apply HT, E1.
  - exact Hc.
  - intros id L. destruct (HN id ltac:(lia)) as [E1 E2]. split.
    + destruct (aget ths id) as [th|] eqn:E; [|reflexivity].
      destruct (H id th E) as [[E3 _]|[E3 _]]; [congruence|lia].
    + unfold hist. cbn. destruct (about id e) eqn:A; [|exact E2].
      specialize (Ha id A). lia.
Qed.

Lemma conn_quiet local w e : inv local w -> (forall c, conn_ok local c (w_conns w c) (e :: w_log w) = conn_ok local c (w_conns w c) (w_log w)) ->
  forall c, conn_ok local c (w_conns w c) (e :: w_log w).
Proof. intros I H c. rewrite H. apply (iv_con _ _ I). Qed.
Lemma conn_upd local w e c u : inv local w ->
  conn_ok local c u (e :: w_log w) ->
  (forall c' v, c' <> c -> conn_ok local c' v (w_log w) -> conn_ok local c' v (e :: w_log w)) ->
  forall c', conn_ok local c' (upd (w_conns w) c u c') (e :: w_log w).
Proof.
  intros I H1 H2 c'. unfold upd. destruct (c' =? c) eqn:E.
  - apply N.eqb_eq in E. now subst.
  - apply N.eqb_neq in E. apply H2; [exact E|apply (iv_con _ _ I)].
Qed.

(** the events of goroutine [id] after one more *)
Lemma hist_cons id e l : about id e = true -> hist id (e :: l) = e :: hist id l.
Proof. intros H. unfold hist. cbn. now rewrite H. Qed.
Lemma hist_skip id e l : about id e = false -> hist id (e :: l) = hist id l.
Proof. intros H. unfold hist. cbn. now rewrite H. Qed.

Lemma inv_ends local w id : inv local w -> inv local (ends w id).
Proof.
  intros I. apply (inv_quiet local w (adel (w_threads w) id) (w_next w) I); [lia|].
  intros i th. rewrite aget_adel. destruct (i =? id); [discriminate|]. auto.
Qed.
Lemma inv_goes local w id th : inv local w -> id < w_next w -> thread_ok local id th (hist id (w_log w)) ->
  inv local (goes w id th).
Proof.
  intros I L H. apply (inv_quiet local w (aput (w_threads w) id th) (w_next w) I); [lia|].
  intros i th'. rewrite aget_aput. destruct (i =? id) eqn:E; [|auto].
  apply N.eqb_eq in E. subst. intros [= <-]. auto.
Qed.
Lemma inv_spawn local w th : inv local w -> thread_ok local (w_next w) th [] -> inv local (spawn w th).
Proof.
  intros I H. apply (inv_quiet local w (aput (w_threads w) (w_next w) th) (w_next w + 1) I); [lia|].
  intros i th'. rewrite aget_aput. destruct (i =? w_next w) eqn:E; [|auto].
  apply N.eqb_eq in E. subst. intros [= <-]. right. split; [lia|].
  destruct (iv_new _ _ I (w_next w) ltac:(lia)) as [_ ->]. exact H.
Qed.
Lemma inv_bump local w : inv local w -> inv local (World (w_conns w) (w_threads w) (w_next w + 1) (w_crashed w) (w_log w)).
Proof. intros I. apply inv_quiet; [exact I|lia|auto]. Qed.
Lemma running local w id th : inv local w -> aget (w_threads w) id = Some th -> id < w_next w.
Proof.
  intros I E. destruct (N.lt_ge_cases id (w_next w)) as [L|L]; [exact L|].
  destruct (iv_new _ _ I id L). congruence.
Qed.

(** the goroutine [id] logs an event and goes on, or ends *)
Lemma inv_emit_goes local w e cs id th : inv local w -> id < w_next w ->
  event_ok local e (w_log w) -> (forall c, conn_ok local c (cs c) (e :: w_log w)) ->
  (forall i, about i e = true -> i = id) -> thread_ok local id th (hist id (e :: w_log w)) ->
  inv local (World cs (aput (w_threads w) id th) (w_next w) (w_crashed w) (e :: w_log w)).
Proof.
  intros I L HE HC HA HT. apply inv_event; auto; [lia| |intros i A; now rewrite (HA i A)].
  intros i th'. rewrite aget_aput. destruct (i =? id) eqn:E.
  - apply N.eqb_eq in E. subst. intros [= <-]. auto.
  - intros E'. left. split; [exact E'|]. apply N.eqb_neq in E. destruct (about i e) eqn:A; [|reflexivity].
    now elim E; apply HA.
Qed.
Lemma inv_emit_ends local w e cs id cr : inv local w -> id < w_next w ->
  event_ok local e (w_log w) -> (forall c, conn_ok local c (cs c) (e :: w_log w)) ->
  (forall i, about i e = true -> i = id) ->
  inv local (World cs (adel (w_threads w) id) (w_next w) cr (e :: w_log w)).
Proof.
  intros I L HE HC HA. apply inv_event; auto; [lia| |intros i A; now rewrite (HA i A)].
  intros i th'. rewrite aget_adel. destruct (i =? id) eqn:E; [discriminate|].
  intros E'. left. split; [exact E'|]. apply N.eqb_neq in E. destruct (about i e) eqn:A; [|reflexivity].
  now elim E; apply HA.
Qed.
Ltac mine := let i := fresh "i" in let A := fresh "A" in
  intros i A; cbn in A; first [discriminate A | now apply N.eqb_eq in A].
Ltac same_conns I := exact (iv_con _ _ I).
Lemma about_refl e id : about id e = true -> True. Proof. auto. Qed.

Lemma crash_inv local w id : inv local w -> id < w_next w -> event_ok local (EvPanic id) (w_log w) ->
  inv local (crash w id).
Proof. intros I L H. unfold crash. apply inv_emit_ends; auto; [same_conns I|mine]. Qed.
Lemma misses_final id c h : misses id c h -> final h = false.
Proof. intros H. destruct H as [|e h [t ->] _]; reflexivity. Qed.
Lemma arrived_final id c from d h : arrived id c from d h -> final h = false.
Proof. now intros [->|[t ->]]. Qed.
Lemma thread_live local id th h : thread_ok local id th h -> final h = false.
Proof.
  destruct th; cbn [thread_ok]; intros T;
    repeat match goal with
    | H : exists _, _ |- _ => destruct H as [? H]
    | H : _ /\ _ |- _ => destruct H
    end; subst; try reflexivity.
  - eapply misses_final; eauto.
  - eapply arrived_final; eauto.
  - destruct T as [(? & ? & ? & -> & _)|[(? & ? & ? & ? & -> & _)|(? & ? & ? & ? & -> & _)]]; reflexivity.
Qed.
Lemma dropped_inv local w id th : inv local w -> aget (w_threads w) id = Some th -> inv local (ends (emit w (EvDropped id)) id).
Proof.
  intros I E. pose proof (running _ _ _ _ I E). unfold ends, emit. cbn [w_conns w_threads w_next w_crashed w_log].
  apply inv_emit_ends; auto; [|same_conns I|mine].
  cbn [event_ok]. eapply thread_live, (iv_thr _ _ I _ _ E).
Qed.

Lemma received_ok d : bytes_ok d -> bytes_ok (received d) /\ N.of_nat (len (received d)) < 65536.
Proof.
  intros H. unfold received. split; [now apply bytes_ok_firstn|].
  pose proof (firstn_le_length 1500 d). lia.
Qed.

(** ** What the default handlers send *)
Lemma echo_response_is seq : echo_response seq = Ok (echo_octets seq).
Proof. reflexivity. Qed.
Definition error_indication_of (a : bytes) (t seq : N) : res bytes :=
  do m <- v1_new d_ErrorIndication 0 seq [Some (new1 tv1 16 (enc32 t)); Some (new1 tv1 133 a)];
  do r <- v1_marshal d_ErrorIndication m; Ok (fst r).
Lemma error_indication_4 a t seq : len a = 4%nat -> error_indication_of a t seq = Ok (errind_octets (Some a) t seq).
Proof. intros H. do 4 (destruct a as [|? a]; [discriminate|]). destruct a; [|discriminate]. reflexivity. Qed.
Lemma error_indication_16 a t seq : len a = 16%nat -> error_indication_of a t seq = Ok (errind_octets (Some a) t seq).
Proof. intros H. do 16 (destruct a as [|? a]; [discriminate|]). destruct a; [|discriminate]. reflexivity. Qed.
Lemma to4_len ip a : to4 ip = Some a -> len a = 4%nat.
Proof.
  unfold to4. destruct ip as [b|]; [|discriminate]. destruct (len b =? 4)%nat eqn:E.
  - intros [= <-]. now apply Nat.eqb_eq.
  - destruct (len b =? 16)%nat eqn:F; cbn [andb]; [|discriminate]. destruct (bytes_eqb _ _); [|discriminate].
    intros H. assert (a = skipn 12 b) by congruence. subst a. apply Nat.eqb_eq in F. now rewrite skipn_length, F.
Qed.
Lemma error_indication_is ip t seq : parsed_ip ip -> error_indication ip t seq = Ok (errind_octets (gsn_ip ip) t seq).
Proof.
  intros H. destruct ip as [a|]; [|reflexivity]. unfold gsn_ip. destruct H as [L _].
  change (error_indication (Some a) t seq) with
    (error_indication_of (match to4 (Some a) with Some v4 => v4 | None => a end) t seq).
  destruct (to4 (Some a)) as [v4|] eqn:E.
  - now apply error_indication_4, (to4_len _ _ E).
  - now apply error_indication_16.
Qed.

(** ** The invariant holds *)
Lemma pdu_hdr_same p : pdu_hdr p = pdu1_hdr p. Proof. now destruct p. Qed.
Lemma parsed_named t d0 b d m : bytes_ok b -> v1_parse b = Ok (P1 d m) -> In d0 all1 -> t = md_name d0 ->
  String.eqb (md_name d) t = true -> d = d0.
Proof.
  intros Hb E Hi -> H. apply String.eqb_eq in H.
  destruct (v1_parse_parts b _ Hb E) as (t & _ & _ & _ & _ & P).
  destruct (P d m eq_refl) as [S _]. apply struct1_in in S.
  apply (name_unique1 all1); auto. apply nodups_NoDup, names1_nodup.
Qed.
Lemma errind_in : In d_ErrorIndication all1. Proof. cbn. auto 20. Qed.
Lemma echoreq_in : In d_EchoRequest all1. Proof. cbn. auto 20. Qed.

Lemma relay_slice raw : (11 <= len raw)%nat -> bytes_ok raw -> exists t, (do s <- slice raw 4 8; be32 s) = Ok t.
Proof.
  intros L Hb. do 11 (destruct raw as [|? raw]; [cbn in L; lia|]). eexists. reflexivity.
Qed.
Lemma readdress_some raw t : (11 <= len raw)%nat -> exists b, readdress raw t = Ok b.
Proof.
  intros L. do 11 (destruct raw as [|? raw]; [cbn in L; lia|]). eexists. reflexivity.
Qed.

Lemma inv_handler local w id c from p h : (forall c, parsed_ip (local c)) -> inv local w ->
  aget (w_threads w) id = Some (THandle c from p h) -> inv local (run_handler w id c from p h).
Proof.
  intros HL I E. pose proof (running _ _ _ _ I E) as Lt.
  pose proof (iv_thr _ _ I _ _ E) as T. cbn [thread_ok] in T. destruct T as (h0 & d & Eh & Ar & Hd & Ep).
  pose proof (iv_con _ _ I c) as (Cl & _ & _ & _ & Ce & _).
  destruct h; cbn [run_handler].
  - destruct p as [dd m|x]; [now apply (dropped_inv _ _ _ _ I E)|]. cbn [w_conns emit].
    rewrite Cl, error_indication_is by apply HL.
    destruct (u_errind (w_conns w c)) eqn:Ef; unfold goes, emit; cbn [w_conns w_threads w_next w_crashed w_log].
    + apply inv_emit_goes; auto; [|same_conns I|mine|].
      * split; [|now rewrite <- Ce]. exists h0, (h1_type x), from, d, x. auto.
      * rewrite hist_cons by (cbn; apply N.eqb_refl). cbn [thread_ok]. right; right. exists h0, d, x, (h1_type x).
        rewrite Eh. repeat split; auto. now rewrite error_indication_is.
    + apply inv_emit_goes; auto; [|same_conns I|mine|].
      * split; [|now rewrite <- Ce]. exists h0, (h1_type x), from, d, x. auto.
      * rewrite hist_cons by (cbn; apply N.eqb_refl). cbn [thread_ok]. exists h0, d, x, (h1_type x).
        rewrite Eh. repeat split; auto.
  - destruct (is_struct "EchoRequest" p) eqn:Es; [|now apply (dropped_inv _ _ _ _ I E)].
    rewrite echo_response_is. apply inv_goes; auto. cbn [thread_ok]. right; left.
    exists h0, d, p, (h1_type (pdu_hdr p)). rewrite Eh. repeat split; auto.
  - now apply (dropped_inv _ _ _ _ I E).
  - destruct p as [dd m|x]; [|now apply (dropped_inv _ _ _ _ I E)].
    destruct (String.eqb (md_name dd) "ErrorIndication" && ind_panics m)%bool eqn:Ei; [|now apply (dropped_inv _ _ _ _ I E)].
    apply andb_prop in Ei. destruct Ei as [En Ei]. apply crash_inv; auto. cbn [event_ok]. right; right; left.
    destruct (received_ok d Hd) as [Hr _].
    pose proof (parsed_named "ErrorIndication" d_ErrorIndication _ _ _ Hr Ep errind_in eq_refl En). subst dd.
    exists c, (h1_type (m_hdr m)), h0, from, d, m. auto.
  - unfold ends, emit; cbn [w_conns w_threads w_next w_crashed w_log]. apply inv_emit_ends; auto; [|same_conns I|mine].
    cbn [event_ok]. exists c, h0, (h1_type (pdu_hdr p)), from, d. auto.
  - apply crash_inv; auto. cbn [event_ok]. right; right; right; left. eauto.
Qed.

Lemma opened_app c l2 l1 : opened c l1 = true -> opened c (l2 ++ l1) = true.
Proof. intros H. induction l2 as [|e l2 IH]; [exact H|]. destruct e; cbn; auto. now rewrite IH, Bool.orb_true_r. Qed.
Lemma arrived_opened local w id c a d h0 : inv local w -> arrived id c a d h0 ->
  (forall e, In e h0 -> In e (hist id (w_log w))) -> opened c (w_log w) = true.
Proof.
  intros I Ar H. assert (R : In (EvRecv id c a d) (hist id (w_log w))).
  { apply H. destruct Ar as [->|[t ->]]; cbn; auto. }
  apply filter_In in R. destruct R as [R _]. apply in_split in R. destruct R as (l2 & l1 & E).
  pose proof (iv_log _ _ I _ _ _ E) as (_ & _ & O). rewrite E. apply opened_app. exact O.
Qed.

Lemma inv_thread local w id th ok w' : (forall c, parsed_ip (local c)) -> inv local w ->
  aget (w_threads w) id = Some th -> run_thread w id th ok = Some w' -> inv local w'.
Proof.
  intros HL I E R. pose proof (running _ _ _ _ I E) as Lt.
  pose proof (iv_thr _ _ I _ _ E) as T.
  destruct th as [c tries ift v4 v6|c t ift v4 v6|c tin p|c tin|c tin|c|c from raw|c from raw|p raw|c from raw|c from p h|c b a|c from t p|c n];
    cbn [run_thread] in R; cbn [thread_ok] in T.
  - destruct (tries <? 65535) eqn:El; [discriminate|]. apply N.ltb_ge in El.
    injection R as <-. unfold ends, emit; cbn [w_conns w_threads w_next w_crashed w_log].
    apply inv_emit_ends; auto; [|same_conns I|mine]. destruct T as (M & L & B). split; [exact M|].
    rewrite L. f_equal. lia.
  - injection R as <-. unfold ends, emit; cbn [w_conns w_threads w_next w_crashed w_log].
    apply inv_emit_ends; auto; [|same_conns I|mine]. destruct T as (h0 & Eh & M & L). split; eauto.
  - injection R as <-. unfold ends, emit, set_conn; cbn [w_conns w_threads w_next w_crashed w_log].
    apply inv_emit_ends; [exact I|exact Lt|exact Logic.I| |mine].
    apply conn_upd; auto.
    + destruct (iv_con _ _ I c) as (C1 & C2 & C3 & C4 & C5 & C6 & C7). repeat split; auto.
      intros t. cbn [u_relay set_relay relay_for]. rewrite aget_aput, N.eqb_refl, (N.eqb_sym tin t).
      cbn [andb]. destruct (t =? tin); auto.
    + intros c' v Hc (C1 & C2 & C3 & C4 & C5 & C6 & C7). repeat split; auto.
      intros t. cbn [relay_for]. apply N.eqb_neq in Hc. rewrite (N.eqb_sym c c'), Hc. cbn [andb]. auto.
  - injection R as <-. unfold goes, emit, set_conn; cbn [w_conns w_threads w_next w_crashed w_log].
    apply inv_emit_goes; [exact I|exact Lt|exact Logic.I| |mine|].
    + apply conn_upd; auto.
      * destruct (iv_con _ _ I c) as (C1 & C2 & C3 & C4 & C5 & C6 & C7). repeat split; auto.
        intros t. cbn [u_relay set_relay relay_for]. rewrite aget_adel, N.eqb_refl, (N.eqb_sym tin t).
        cbn [andb]. destruct (t =? tin); auto.
      * intros c' v Hc (C1 & C2 & C3 & C4 & C5 & C6 & C7). repeat split; auto.
        intros t. cbn [relay_for]. apply N.eqb_neq in Hc. rewrite (N.eqb_sym c c'), Hc. cbn [andb]. auto.
    + rewrite hist_skip by reflexivity. exact T.
  - injection R as <-. unfold ends, emit, set_conn; cbn [w_conns w_threads w_next w_crashed w_log].
    apply inv_emit_ends; [exact I|exact Lt|exact Logic.I| |mine].
    apply conn_upd; auto.
    + destruct (iv_con _ _ I c) as (C1 & C2 & C3 & C4 & C5 & C6 & C7). repeat split; auto.
      cbn [u_teids set_teids held]. rewrite N.eqb_refl, C2. reflexivity.
    + intros c' v Hc (C1 & C2 & C3 & C4 & C5 & C6 & C7). repeat split; auto.
      cbn [held]. apply N.eqb_neq in Hc. rewrite (N.eqb_sym c c'), Hc. exact C2.
  - injection R as <-. unfold ends, emit, set_conn; cbn [w_conns w_threads w_next w_crashed w_log].
    apply inv_emit_ends; [exact I|exact Lt|exact Logic.I| |mine].
    apply conn_upd; auto.
    + destruct (iv_con _ _ I c) as (C1 & C2 & C3 & C4 & C5 & C6 & C7). repeat split; auto.
      intros t. cbn [u_relay set_relay relay_for]. now rewrite N.eqb_refl.
    + intros c' v Hc (C1 & C2 & C3 & C4 & C5 & C6 & C7). repeat split; auto.
      intros t. cbn [relay_for]. apply N.eqb_neq in Hc. rewrite (N.eqb_sym c c'), Hc. auto.
  - destruct T as (d & Eh & Er & Hd).
    assert (P : inv local (goes w id (TParse c from raw))).
    { apply inv_goes; auto. cbn [thread_ok]. exists d. split; [left; exact Eh|]. auto. }
    destruct (u_relay (w_conns w c)) as [|x r] eqn:Eu; [injection R as <-; exact P|].
    destruct (idx raw 1) as [t| |] eqn:E1.
    + destruct (t =? 255) eqn:Et; [|injection R as <-; exact P]. apply N.eqb_eq in Et. subst t.
      destruct (len raw <? 11)%nat eqn:El; [injection R as <-; now apply (dropped_inv _ _ _ _ I E)|]. apply Nat.ltb_ge in El.
      injection R as <-. apply inv_goes; auto. cbn [thread_ok]. exists d. auto.
    + exfalso. unfold idx in E1. destruct (nth_error raw 1); discriminate.
    + injection R as <-. apply crash_inv; auto. cbn [event_ok]. left. exists c, from, d. split; [exact Eh|]. split.
      * unfold idx in E1. destruct (nth_error raw 1) eqn:En; [discriminate|]. apply nth_error_None in En.
        subst raw. unfold received in En. rewrite firstn_length in En. lia.
      * destruct (aget_some (u_relay (w_conns w c))) as (k & v & Ek); [now rewrite Eu|].
        exists k, v. destruct (iv_con _ _ I c) as (_ & _ & C3 & _). now rewrite <- C3.
  - destruct T as (d & Eh & Er & Hd & E1 & El). destruct (received_ok d Hd) as [Hr _]. rewrite <- Er in Hr.
    destruct (relay_slice raw El Hr) as [t Et]. rewrite Et in R.
    destruct (iv_con _ _ I c) as (_ & _ & C3 & _). rewrite C3 in R.
    assert (RR : relay_read (received d) t) by (subst raw; repeat split; auto).
    assert (EO : event_ok local (EvLookup id c t (relay_for c t (w_log w))) (w_log w)).
    { cbn [event_ok]. split; [|reflexivity]. exists from, d. auto. }
    destruct (relay_for c t (w_log w)) as [p|] eqn:Ep; injection R as <-;
      unfold goes, emit, set_conn; cbn [w_conns w_threads w_next w_crashed w_log].
    + apply inv_emit_goes; auto; [same_conns I|mine|]. rewrite hist_cons by (cbn; apply N.eqb_refl).
      cbn [thread_ok]. exists c, from, d, t. rewrite Eh. subst raw. auto.
    + apply inv_emit_goes; auto; [same_conns I|mine|]. rewrite hist_cons by (cbn; apply N.eqb_refl).
      cbn [thread_ok]. exists d. split; [|auto]. right. exists t. now rewrite Eh.
  - destruct T as (c & from & d & t & Eh & Er & Hd & RR). destruct (readdress_some raw (p_teid p)) as [b Eb]; [apply RR|].
    rewrite Eb in R. destruct (u_open (w_conns w (p_conn p))) eqn:Eo.
    + destruct ok; injection R as <-; [|now apply (dropped_inv _ _ _ _ I E)].
      unfold ends, emit, set_conn; cbn [w_conns w_threads w_next w_crashed w_log].
      apply inv_emit_ends; auto; [|same_conns I|mine]. cbn [event_ok]. exists c, from, d, t, p. subst raw. auto 10.
    + injection R as <-. apply crash_inv; auto. cbn [event_ok]. right; left. exists c, from, d, t, p. split; [exact Eh|].
      destruct (iv_con _ _ I (p_conn p)) as (_ & _ & _ & _ & _ & C6 & _). now rewrite <- C6.
  - destruct T as (d & Ar & Er & Hd). destruct (received_ok d Hd) as [Hr Hl]. rewrite <- Er in Hr, Hl.
    pose proof (v1_parse_safe raw Hr Hl) as Sf. destruct (v1_parse raw) as [p| |] eqn:Ep; [| |now elim Sf].
    + destruct (iv_con _ _ I c) as (_ & _ & _ & C4 & _). rewrite C4 in R. set (ty := h1_type (pdu_hdr p)) in *.
      assert (EO : event_ok local (EvDispatch id c ty (handler_for c ty (w_log w))) (w_log w)).
      { cbn [event_ok]. split; [|reflexivity]. exists from, d, p. subst raw. auto. }
      destruct (handler_for c ty (w_log w)) as [h|] eqn:Eh; injection R as <-;
        unfold goes, ends, emit, set_conn; cbn [w_conns w_threads w_next w_crashed w_log].
      * apply inv_emit_goes; auto; [same_conns I|mine|]. rewrite hist_cons by (cbn; apply N.eqb_refl).
        cbn [thread_ok]. exists (hist id (w_log w)), d. subst raw. auto.
      * apply inv_emit_ends; auto; [same_conns I|mine].
    + injection R as <-. now apply (dropped_inv _ _ _ _ I E).
  - injection R as <-. now apply inv_handler.
  - destruct (u_open (w_conns w c)) eqn:Eo.
    + destruct ok; injection R as <-; [|now apply (dropped_inv _ _ _ _ I E)].
      unfold ends, emit, set_conn; cbn [w_conns w_threads w_next w_crashed w_log].
      apply inv_emit_ends; [exact I|exact Lt|exact T|same_conns I|mine].
    + injection R as <-. apply crash_inv; auto. cbn [event_ok].
      destruct (iv_con _ _ I c) as (_ & _ & _ & _ & _ & C6 & _). rewrite Eo in C6. symmetry in C6.
      destruct T as [(t & p & hd & Eh & _)|[(h0 & d & p & typ & Eh & Ar & _)|(h0 & d & x & typ & Eh & Ar & _)]].
      * do 4 right. left. eauto 10.
      * exfalso. rewrite (arrived_opened _ _ id c a d h0 I Ar) in C6; [discriminate|].
        intros e He. rewrite Eh. now right.
      * exfalso. rewrite (arrived_opened _ _ id c a d h0 I Ar) in C6; [discriminate|].
        intros e He. rewrite Eh. right. now right.
  - discriminate.
  - discriminate.
Qed.

Lemma write_ok t p : exists b hd, tpdu1_marshal (encapsulate1 t p) = Ok (b, hd).
Proof.
  eexists _, _. apply tpdu1_marshal_ok. unfold exts_fine. cbn. constructor.
Qed.
Lemma octets_ok d : forallb octet d = true -> bytes_ok d.
Proof.
  intros H. rewrite forallb_forall in H. apply Forall_forall. intros x Hx. apply N.ltb_lt. exact (H x Hx).
Qed.

(** an API call that only changes a connection *)
Lemma inv_emit local w e cs : inv local w -> event_ok local e (w_log w) ->
  (forall c, conn_ok local c (cs c) (e :: w_log w)) -> (forall i, about i e = false) ->
  inv local (World cs (w_threads w) (w_next w) (w_crashed w) (e :: w_log w)).
Proof.
  intros I HE HC HA. apply inv_event; [exact I|lia|exact HE|exact HC| |].
  - intros i th E. left. auto.
  - intros i A. now rewrite HA in A.
Qed.
(** an API call that starts a goroutine and logs it *)
Lemma inv_emit_spawn local w e cs th : inv local w -> event_ok local e (w_log w) ->
  (forall c, conn_ok local c (cs c) (e :: w_log w)) ->
  (forall i, about i e = true -> i = w_next w) ->
  thread_ok local (w_next w) th (hist (w_next w) (e :: w_log w)) ->
  inv local (World cs (aput (w_threads w) (w_next w) th) (w_next w + 1) (w_crashed w) (e :: w_log w)).
Proof.
  intros I HE HC HA HT. apply inv_event; [exact I|lia|exact HE|exact HC| |intros i A; rewrite (HA i A); lia].
  intros i th'. rewrite aget_aput. destruct (i =? w_next w) eqn:E.
  - apply N.eqb_eq in E. subst. intros [= <-]. right. split; [lia|exact HT].
  - intros E'. left. split; [exact E'|]. apply N.eqb_neq in E. destruct (about i e) eqn:A; [|reflexivity].
    now elim E; apply HA.
Qed.

Lemma inv_step local w l w' : (forall c, parsed_ip (local c)) -> inv local w -> step w l = Some w' -> inv local w'.
Proof.
  intros HL I S. unfold step in S. destruct (w_crashed w) eqn:Ec; [discriminate|].
  pose proof (iv_new _ _ I (w_next w) ltac:(lia)) as [Nt Nh].
  destruct l as [c|c ift v4 v6|id rnd|c tin tout a src|c tin|c|c itei|c b|c typ h|c from d|c t p a|c n|id ok|rd id|id|rd|c].
  - injection S as <-. unfold emit, set_conn. cbn [w_conns w_threads w_next w_crashed w_log].
    apply inv_emit; [exact I|exact Logic.I| |reflexivity]. apply conn_upd; auto.
    + destruct (iv_con _ _ I c) as (C1 & C2 & C3 & C4 & C5 & C6 & C7). repeat split; auto.
      cbn. now rewrite N.eqb_refl.
    + intros c' v Hc (C1 & C2 & C3 & C4 & C5 & C6 & C7). repeat split; auto.
      cbn. apply N.eqb_neq in Hc. rewrite (N.eqb_sym c c'), Hc. exact C6.
  - injection S as <-. apply inv_spawn; auto. cbn. repeat split; [constructor|lia].
  - destruct (aget (w_threads w) id) as [th|] eqn:E; [|discriminate]. destruct th; try discriminate.
    pose proof (running _ _ _ _ I E) as Lt. pose proof (iv_thr _ _ I _ _ E) as T. cbn [thread_ok] in T.
    destruct T as (M & Lh & B).
    destruct (tries <? 65535) eqn:E1; [|discriminate]. destruct (rnd <? 4294967296) eqn:E2; [|discriminate].
    apply N.ltb_lt in E1, E2. cbn [andb] in S.
    destruct (iv_con _ _ I c) as (C1 & C2 & C3 & C4 & C5 & C6 & C7).
    assert (Ex : existsb (N.eqb rnd) (u_teids (w_conns w c)) = true <-> In rnd (held c (w_log w))).
    { rewrite C2, existsb_exists. split; [intros (x & Hx & Ex); apply N.eqb_eq in Ex; now subst|].
      intros Hi. exists rnd. split; [exact Hi|apply N.eqb_refl]. }
    destruct ((rnd =? 0) || existsb (N.eqb rnd) (u_teids (w_conns w c)))%bool eqn:Em; injection S as <-;
      unfold goes, emit, set_conn; cbn [w_conns w_threads w_next w_crashed w_log].
    + apply inv_emit_goes; [exact I|exact Lt| |same_conns I|mine|].
      * cbn [event_ok]. split; [exact M|]. split; [lia|]. apply Bool.orb_prop in Em. destruct Em as [Em|Em].
        { left. now apply N.eqb_eq. } { right. now apply Ex. }
      * rewrite hist_cons by (cbn; apply N.eqb_refl). cbn [thread_ok]. split; [constructor; eauto|].
        cbn [List.length]. split; lia.
    + apply Bool.orb_false_elim in Em. destruct Em as [Em1 Em2]. apply N.eqb_neq in Em1.
      apply inv_emit_goes; [exact I|exact Lt| | |mine|].
      * cbn [event_ok]. repeat split; auto; [lia|]. intros Hi. apply Ex in Hi. congruence.
      * apply conn_upd; auto.
        { repeat split; auto. cbn [u_teids set_teids held]. now rewrite N.eqb_refl, C2. }
        { intros c' v Hc (D1 & D2 & D3 & D4 & D5 & D6 & D7). repeat split; auto.
          cbn [held]. apply N.eqb_neq in Hc. rewrite (N.eqb_sym c c'), Hc. exact D2. }
      * rewrite hist_cons by (cbn; apply N.eqb_refl). cbn [thread_ok]. eexists. split; [reflexivity|]. split; [exact M|lia].
  - destruct (u_kernel (w_conns w c)); injection S as <-; [exact I|]. now apply inv_spawn.
  - destruct (u_kernel (w_conns w c)); injection S as <-; [exact I|]. now apply inv_spawn.
  - injection S as <-. unfold emit, spawn, set_conn. cbn [w_conns w_threads w_next w_crashed w_log].
    apply inv_emit_spawn; [exact I|exact Logic.I| |mine|].
    + apply conn_upd; auto.
      * destruct (iv_con _ _ I c) as (C1 & C2 & C3 & C4 & C5 & C6 & C7). repeat split; auto.
        cbn. now rewrite N.eqb_refl.
      * intros c' v Hc (C1 & C2 & C3 & C4 & C5 & C6 & C7). repeat split; auto.
        cbn. apply N.eqb_neq in Hc. rewrite (N.eqb_sym c c'), Hc. exact C6.
    + rewrite hist_skip by reflexivity. exact Nh.
  - destruct (u_kernel (w_conns w c)); injection S as <-; [|exact I].
    unfold emit, set_conn. cbn [w_conns w_threads w_next w_crashed w_log].
    apply inv_emit; [exact I|exact Logic.I| |reflexivity]. apply conn_upd; auto.
    + destruct (iv_con _ _ I c) as (C1 & C2 & C3 & C4 & C5 & C6 & C7). repeat split; auto.
      cbn [u_teids set_teids held]. now rewrite N.eqb_refl, C2.
    + intros c' v Hc (C1 & C2 & C3 & C4 & C5 & C6 & C7). repeat split; auto.
      cbn [held]. apply N.eqb_neq in Hc. rewrite (N.eqb_sym c c'), Hc. exact C2.
  - injection S as <-. unfold emit, set_conn. cbn [w_conns w_threads w_next w_crashed w_log].
    apply inv_emit; [exact I|exact Logic.I| |reflexivity]. apply conn_upd; auto.
    + destruct (iv_con _ _ I c) as (C1 & C2 & C3 & C4 & C5 & C6 & C7). repeat split; auto.
      cbn. now rewrite N.eqb_refl.
    + intros c' v Hc (C1 & C2 & C3 & C4 & C5 & C6 & C7). repeat split; auto.
      cbn. apply N.eqb_neq in Hc. rewrite (N.eqb_sym c c'), Hc. exact C5.
  - injection S as <-. unfold emit, set_conn. cbn [w_conns w_threads w_next w_crashed w_log].
    apply inv_emit; [exact I|exact Logic.I| |reflexivity]. apply conn_upd; auto.
    + destruct (iv_con _ _ I c) as (C1 & C2 & C3 & C4 & C5 & C6 & C7). repeat split; auto.
      intros t. cbn [u_handlers set_handlers handler_for]. rewrite aget_aput, N.eqb_refl, (N.eqb_sym typ t).
      cbn [andb]. destruct (t =? typ); auto.
    + intros c' v Hc (C1 & C2 & C3 & C4 & C5 & C6 & C7). repeat split; auto.
      intros t. cbn [handler_for]. apply N.eqb_neq in Hc. rewrite (N.eqb_sym c c'), Hc. cbn [andb]. auto.
  - destruct (u_open (w_conns w c)) eqn:Eo; [|discriminate]. destruct (forallb octet d) eqn:Ed; [|discriminate].
    cbn [andb] in S. injection S as <-. unfold emit, spawn, set_conn. cbn [w_conns w_threads w_next w_crashed w_log].
    apply octets_ok in Ed. destruct (iv_con _ _ I c) as (C1 & C2 & C3 & C4 & C5 & C6 & C7).
    apply inv_emit_spawn; [exact I| |same_conns I|mine|].
    + cbn [event_ok]. rewrite C6 in Eo. auto.
    + rewrite hist_cons by (cbn; apply N.eqb_refl). cbn [thread_ok]. exists d. rewrite Nh. auto.
  - destruct (write_ok t p) as (b & hd & Ew). rewrite Ew in S. injection S as <-.
    unfold emit, spawn, set_conn. cbn [w_conns w_threads w_next w_crashed w_log].
    apply inv_emit_spawn; [exact I| |same_conns I|mine|].
    + cbn [event_ok]. exact Nh.
    + rewrite hist_cons by (cbn; apply N.eqb_refl). cbn [thread_ok]. left. exists t, p, hd. rewrite Nh. auto.
  - injection S as <-. unfold emit, spawn, set_conn. cbn [w_conns w_threads w_next w_crashed w_log].
    apply inv_emit_spawn; [exact I| |same_conns I|mine|].
    + cbn [event_ok]. exact Nh.
    + rewrite hist_cons by (cbn; apply N.eqb_refl). cbn [thread_ok]. now rewrite Nh.
  - destruct (aget (w_threads w) id) as [th|] eqn:E; [|discriminate]. eapply inv_thread; eauto.
  - destruct (aget (w_threads w) rd) as [th|] eqn:E; [|discriminate]. destruct th; try discriminate.
    destruct (aget (w_threads w) id) as [th|] eqn:E'; [|discriminate]. destruct th; try discriminate.
    destruct (c =? c0) eqn:Eq; [|discriminate]. apply N.eqb_eq in Eq. subst c0. injection S as <-.
    pose proof (iv_thr _ _ I _ _ E) as T. pose proof (iv_thr _ _ I _ _ E') as T'. cbn [thread_ok] in T, T'.
    pose proof (running _ _ _ _ I E) as Lt. pose proof (running _ _ _ _ I E') as Lt'.
    unfold ends, emit, set_conn. cbn [w_conns w_threads w_next w_crashed w_log].
    apply inv_event; [exact I|lia| |same_conns I| |].
    + cbn [event_ok]. destruct T' as (h0 & d & x & typ & Eh & Ar & Hd & Ep & -> & ->).
      exists h0, d, x, typ, n. auto 10.
    + intros i th. rewrite !aget_adel. destruct (i =? rd) eqn:X1; [discriminate|]. destruct (i =? id) eqn:X2; [discriminate|].
      intros Ei. left. split; [exact Ei|]. cbn. rewrite (N.eqb_sym id), (N.eqb_sym rd), X1, X2. reflexivity.
    + intros i A. cbn in A. apply Bool.orb_prop in A. destruct A as [A|A]; apply N.eqb_eq in A; now subst.
  - destruct (aget (w_threads w) id) as [th|] eqn:E; [|discriminate]. destruct th; try discriminate.
    injection S as <-. exact (dropped_inv _ _ _ _ I E).
  - destruct (aget (w_threads w) rd) as [th|] eqn:E; [|discriminate]. destruct th; try discriminate.
    destruct (u_closed (w_conns w c)) eqn:Ecl; [|discriminate]. injection S as <-.
    pose proof (iv_thr _ _ I _ _ E) as T. cbn [thread_ok] in T.
    unfold ends, emit, set_conn. cbn [w_conns w_threads w_next w_crashed w_log].
    apply inv_emit_ends; [exact I|eapply running; eauto| |same_conns I|mine].
    cbn [event_ok]. split; [eauto|]. destruct (iv_con _ _ I c) as (C1 & C2 & C3 & C4 & C5 & C6 & C7). now rewrite <- C7.
  - destruct (iv_con _ _ I c) as (C1 & C2 & C3 & C4 & C5 & C6 & C7).
    destruct (u_closed (w_conns w c)) eqn:Ecl; injection S as <-.
    + pose proof (inv_bump _ _ I) as B. rewrite Ec in B. apply crash_inv; [exact B|cbn; lia|]. cbn [w_log event_ok]. do 5 right. split; [exact Nh|]. eauto.
    + unfold emit, set_conn. cbn [w_conns w_threads w_next w_crashed w_log].
      apply inv_emit; [exact I|exact Logic.I| |reflexivity]. apply conn_upd; auto.
      * repeat split; auto. cbn. now rewrite N.eqb_refl.
      * intros c' v Hc (D1 & D2 & D3 & D4 & D5 & D6 & D7). repeat split; auto.
        cbn. apply N.eqb_neq in Hc. rewrite (N.eqb_sym c c'), Hc. exact D7.
Qed.

Lemma inv_run local ls : (forall c, parsed_ip (local c)) -> forall w w', inv local w -> run w ls = Some w' -> inv local w'.
Proof.
  intros HL. induction ls as [|l ls IH]; intros w w' I R; cbn in R.
  - now injection R as <-.
  - destruct (step w l) as [w1|] eqn:E; [|discriminate]. eapply IH; [|exact R]. eapply inv_step; eauto.
Qed.
Lemma reachable_inv local ls w : (forall c, parsed_ip (local c)) -> run (start local) ls = Some w -> inv local w.
Proof. intros HL. apply inv_run; [exact HL|apply inv_start]. Qed.
