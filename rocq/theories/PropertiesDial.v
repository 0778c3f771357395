(** C62: what a successful Dial means. *)
From Coq Require Import String Lia.
From Verif Require Import Base BaseLemmas Maps Utils V2IE V2Header MsgModel Msgs2Gen V2Msg MsgSpec MsgSpec1 V2MsgProofs
  TvIE V1Header Msgs1Gen V1Msg V1MsgProofs TpduProofs Dial.
From Verif Require CPlane UPlane CSpec CPlaneProofs USpec.
Open Scope string_scope.
Open Scope N_scope.
Open Scope list_scope.

(** ** GTPv2-C *)
(** the Echo Request of Dial: sequence number 1, a Recovery IE with the restart counter *)
Definition request2 (counter : N) : bytes := [64; 1; 0; 9; 0; 0; 1; 0; 3; 0; 1; 0; counter].
Lemma echo_request2_is counter : echo_request2 counter = Ok (request2 counter).
Proof. reflexivity. Qed.
(** the datagram that arrived is a message of type t without TEID, or with TEID 0 *)
Definition hears2 (d : bytes) (t : N) (m : msg2) : Prop :=
  exists desc, v2_parse default_grouped (firstn 1500 d) = Ok (desc, m) /\
  h2_type (m_hdr m) = t /\ h2_get_teid (m_hdr m) = 0.
Definition all_ok (e : env2) : Prop :=
  e_listen e = true /\ e_write e = true /\ e_deadline e = true /\ e_clear e = true.

Lemma is_echo d desc m : bytes_ok d -> v2_parse default_grouped (firstn 1500 d) = Ok (desc, m) ->
  (h2_type (m_hdr m) = 1 -> CPlane.is_struct "EchoRequest" desc = true) /\
  (h2_type (m_hdr m) = 2 -> CPlane.is_struct "EchoResponse" desc = true).
Proof.
  intros Hd H. apply v2_dispatch in H; [|now apply bytes_ok_firstn]. destruct H as [t [_ [Ht Hn]]].
  unfold CPlane.is_struct. rewrite Hn, Ht. split; intros ->; reflexivity.
Qed.
Lemma handle2_cases ift counter from desc m reply :
  (h2_type (m_hdr m) = 1 -> CPlane.is_struct "EchoRequest" desc = true) ->
  (h2_type (m_hdr m) = 2 -> CPlane.is_struct "EchoResponse" desc = true) ->
  handle2 (CPlane.new_conn ift counter) from desc m reply =
  if negb (h2_get_teid (m_hdr m) =? 0) then (AErr, [])
  else if h2_type (m_hdr m) =? 1 then if reply then (AConn, [(from, CSpec.echo_octets counter (h2_seq (m_hdr m)))]) else (AErr, [])
  else if h2_type (m_hdr m) =? 2 then (AConn, []) else (AErr, []).
Proof.
  intros H1 H2. unfold handle2. cbn [CPlane.c_valid CPlane.c_itei CPlane.c_handlers CPlane.c_restart CPlane.new_conn aget].
  rewrite Bool.andb_true_r. cbn [andb]. destruct (negb _); [reflexivity|].
  unfold CPlane.default_handlers. cbn [aget]. rewrite !(N.eqb_sym _ (h2_type (m_hdr m))).
  destruct (N.eqb_spec (h2_type (m_hdr m)) 1) as [E|_].
  - rewrite (H1 E), CPlaneProofs.echo_response_is. reflexivity.
  - destruct (N.eqb_spec (h2_type (m_hdr m)) 2) as [E|_]; [rewrite (H2 E); reflexivity|].
    destruct (h2_type (m_hdr m) =? 3); reflexivity.
Qed.

(** Dial returns a connection exactly when every system call succeeds and the first datagram
    to arrive in time is an Echo Response, or an Echo Request it can answer. *)
Theorem C62_v2_dial : forall ift counter raddr e,
  (forall from d, e_read e = Some (from, d) -> bytes_ok d) ->
  dl_answer (dial2 ift counter raddr e) = AConn <->
  all_ok e /\ exists from d m, e_read e = Some (from, d) /\
    (hears2 d 2 m \/ (hears2 d 1 m /\ e_reply e = true)).
Proof.
  intros ift counter raddr e Hb. unfold dial2. rewrite echo_request2_is. unfold all_ok.
  destruct (e_listen e); cbn [negb dl_answer]; [|split; [discriminate|intros [[? _] _]; discriminate]].
  destruct (e_write e); cbn [negb dl_answer]; [|split; [discriminate|intros [[_ [? _]] _]; discriminate]].
  destruct (e_deadline e); cbn [negb dl_answer]; [|split; [discriminate|intros [[_ [_ [? _]]] _]; discriminate]].
  destruct (e_read e) as [[from d]|] eqn:Er; cbn [dl_answer];
    [|split; [discriminate|intros [_ [f [d [m [[=] _]]]]]]].
  destruct (e_clear e); cbn [negb dl_answer]; [|split; [discriminate|intros [[_ [_ [_ ?]]] _]; discriminate]].
  specialize (Hb from d eq_refl).
  destruct (v2_parse default_grouped (firstn 1500 d)) as [[desc m]|er|] eqn:Ep; cbn [dl_answer].
  - destruct (is_echo d desc m Hb Ep) as [H1 H2]. rewrite (handle2_cases _ _ _ _ _ _ H1 H2).
    split.
    + intros H. split; [auto|]. exists from, d, m. split; [reflexivity|].
      destruct (N.eqb_spec (h2_get_teid (m_hdr m)) 0) as [Et|]; cbn [negb fst] in H; [|discriminate].
      destruct (N.eqb_spec (h2_type (m_hdr m)) 1) as [E1|].
      * right. split; [exists desc; auto|]. destruct (e_reply e); [reflexivity|discriminate].
      * destruct (N.eqb_spec (h2_type (m_hdr m)) 2) as [E2|]; [left; exists desc; auto|discriminate].
    + intros [_ [f [d' [m' [[= <- <-] H]]]]].
      assert (Hm : h2_get_teid (m_hdr m) = 0 /\ (h2_type (m_hdr m) = 2 \/ h2_type (m_hdr m) = 1 /\ e_reply e = true)).
      { destruct H as [[ds [Hp [Ht Hz]]]|[[ds [Hp [Ht Hz]]] Hr]]; rewrite Ep in Hp; injection Hp as -> ->; auto. }
      destruct Hm as [-> [-> |[-> ->]]]; reflexivity.
  - split; [discriminate|]. intros [_ [f [d' [m' [[= <- <-] [[ds [Hp _]]|[[ds [Hp _]] _]]]]]]]; rewrite Ep in Hp; discriminate.
  - split; [discriminate|]. intros [_ [f [d' [m' [[= <- <-] [[ds [Hp _]]|[[ds [Hp _]] _]]]]]]]; rewrite Ep in Hp; discriminate.
Qed.
Print Assumptions C62_v2_dial.
Definition answer2 : bytes := [64; 2; 0; 9; 0; 0; 1; 0; 3; 0; 1; 0; 9].
Example C62_v2_dial_example :
  dial2 11 7 100 (Env2 true true true (Some (100, answer2)) true true) = Dialed AConn [(100, request2 7)] true.
Proof. vm_compute. reflexivity. Qed.

(** It never panics, never blocks, and whatever happens it writes at most its one Echo
    Request and the answer to an Echo Request. *)
Theorem C62_v2_dial_returns : forall ift counter raddr e,
  (forall from d, e_read e = Some (from, d) -> bytes_ok d) ->
  (dl_answer (dial2 ift counter raddr e) = AConn \/ dl_answer (dial2 ift counter raddr e) = AErr) /\
  (e_listen e = false \/ e_write e = false -> dl_sent (dial2 ift counter raddr e) = []) /\
  (e_listen e = true -> e_write e = true ->
   exists more, dl_sent (dial2 ift counter raddr e) = (raddr, request2 counter) :: more /\
   (more = [] \/ exists from d m, e_read e = Some (from, d) /\ hears2 d 1 m /\
                 more = [(from, CSpec.echo_octets counter (h2_seq (m_hdr m)))])).
Proof.
  intros ift counter raddr e Hb. unfold dial2. rewrite echo_request2_is.
  destruct (e_listen e); cbn [negb dl_answer dl_sent]; [|split; [auto|split; [reflexivity|discriminate]]].
  destruct (e_write e); cbn [negb dl_answer dl_sent]; [|split; [auto|split; [reflexivity|discriminate]]].
  assert (F : forall P : Prop, true = false \/ true = false -> P) by (intros P [[=]|[=]]).
  destruct (e_deadline e); cbn [negb dl_answer dl_sent]; [|split; [auto|split; [exact (F _)|eauto]]].
  destruct (e_read e) as [[from d]|] eqn:Er; cbn [dl_answer dl_sent]; [|split; [auto|split; [exact (F _)|eauto]]].
  destruct (e_clear e); cbn [negb dl_answer dl_sent]; [|split; [auto|split; [exact (F _)|eauto]]].
  specialize (Hb from d eq_refl).
  destruct (v2_parse default_grouped (firstn 1500 d)) as [[desc m]|er|] eqn:Ep; cbn [dl_answer dl_sent]; [|split; [auto|split; [exact (F _)|eauto]]|].
  - destruct (is_echo d desc m Hb Ep) as [H1 H2]. rewrite (handle2_cases _ _ _ _ _ _ H1 H2).
    destruct (N.eqb_spec (h2_get_teid (m_hdr m)) 0) as [Et|]; cbn [negb fst snd app]; [|split; [auto|split; [exact (F _)|eauto]]].
    destruct (N.eqb_spec (h2_type (m_hdr m)) 1) as [E1|].
    + destruct (e_reply e); cbn [fst snd app]; [|split; [auto|split; [exact (F _)|eauto]]]. split; [auto|]. split; [exact (F _)|]. intros _ _. eexists. split; [reflexivity|].
      right. exists from, d, m. split; [reflexivity|]. split; [exists desc; auto|reflexivity].
    + destruct (h2_type (m_hdr m) =? 2); (split; [auto|split; [exact (F _)|eauto]]).
  - exfalso. exact (v2_parse_safe default_grouped _ (bytes_ok_firstn 1500 d Hb) Ep).
Qed.
Print Assumptions C62_v2_dial_returns.
Example C62_v2_dial_silent_example : dl_sent (dial2 11 7 100 (Env2 true false true None true true)) = [].
Proof. vm_compute. reflexivity. Qed.
Example C62_v2_dial_returns_example :
  dial2 11 7 100 (Env2 true true true (Some (55, [64; 1; 0; 9; 0; 0; 5; 0; 3; 0; 1; 0; 3])) true true) =
  Dialed AConn [(100, request2 7); (55, CSpec.echo_octets 7 5)] true.
Proof. vm_compute. reflexivity. Qed.

(** "checks if the endpoint is alive": it does not.  The answer may come from anyone, with
    any sequence number, and an Echo Request of somebody else counts as an answer. *)
Theorem C62_v2_dial_alive_refuted : forall ift counter raddr other, other <> raddr ->
  exists d m, (hears2 d 1 m /\ h2_seq (m_hdr m) <> 1) /\
  dl_answer (dial2 ift counter raddr (Env2 true true true (Some (other, d)) true true)) = AConn.
Proof.
  intros ift counter raddr other _.
  pose (d := [64; 1; 0; 9; 0; 0; 5; 0; 3; 0; 1; 0; 3] : bytes).
  destruct (v2_parse default_grouped (firstn 1500 d)) as [[desc m]|er|] eqn:Ep; [|discriminate Ep..].
  assert (Hh : hears2 d 1 m /\ h2_seq (m_hdr m) = 5).
  { vm_compute in Ep. injection Ep as <- <-. split; [eexists|]; repeat split; reflexivity. }
  exists d, m. split; [split; [apply Hh|destruct Hh as [_ ->]; discriminate]|].
  apply C62_v2_dial.
  - cbn [e_read]. intros f d' [= <- <-]. repeat constructor.
  - split; [repeat split|]. exists other, d, m. split; [reflexivity|]. right. split; [apply Hh|reflexivity].
Qed.
Print Assumptions C62_v2_dial_alive_refuted.
(** And Dial reads once: any other datagram that arrives first makes it fail, however
    promptly the peer answers. *)
Theorem C62_v2_dial_first_datagram_refuted : forall ift counter raddr e from d,
  e_read e = Some (from, d) -> bytes_ok d ->
  (forall m, ~ hears2 d 1 m) -> (forall m, ~ hears2 d 2 m) -> dl_answer (dial2 ift counter raddr e) = AErr.
Proof.
  intros ift counter raddr e from d Er Hb H1 H2.
  assert (Hb' : forall f d', e_read e = Some (f, d') -> bytes_ok d') by (intros f d'; rewrite Er; intros [= <- <-]; exact Hb).
  destruct (C62_v2_dial_returns ift counter raddr e Hb') as [[H|H] _]; [|exact H].
  apply C62_v2_dial in H; [|exact Hb']. destruct H as [_ [f [d' [m [E H]]]]]. rewrite Er in E. injection E as <- <-.
  destruct H as [H|[H _]]; [elim (H2 _ H)|elim (H1 _ H)].
Qed.
Print Assumptions C62_v2_dial_first_datagram_refuted.
(** A Dial that fails after opening its socket leaves it open: the local port stays taken. *)
Theorem C62_v2_dial_leak_refuted : forall ift counter raddr e,
  e_listen e = true -> dl_open (dial2 ift counter raddr e) = true.
Proof.
  intros ift counter raddr e Hl. unfold dial2. rewrite Hl, echo_request2_is. cbn [negb].
  destruct (e_write e), (e_deadline e); try reflexivity. cbn [negb]. destruct (e_read e) as [[f d]|]; [|reflexivity].
  destruct (e_clear e); [|reflexivity]. cbn [negb]. destruct (v2_parse _ _) as [[? ?]| |]; reflexivity.
Qed.
Print Assumptions C62_v2_dial_leak_refuted.
Example C62_v2_dial_leak_example :
  dial2 11 7 100 (Env2 true true true (Some (100, [64; 32; 0; 9; 0; 0; 5; 0; 3; 0; 1; 0; 3])) true true) = Dialed AErr [(100, request2 7)] true.
Proof. vm_compute. reflexivity. Qed.

(** ** GTPv1-U *)
Definition request1 : bytes := [50; 1; 0; 4; 0; 0; 0; 0; 0; 0; 0; 0].
Lemma echo_request1_is : echo_request1 = Ok request1.
Proof. reflexivity. Qed.
(** the datagram parses; as an Echo Response, or as something else *)
Definition answers1 (d : bytes) : Prop :=
  exists desc m, v1_parse (firstn 1600 d) = Ok (P1 desc m) /\ md_name desc = "EchoResponse".
Definition other1 (d : bytes) : Prop :=
  exists p, v1_parse (firstn 1600 d) = Ok p /\ UPlane.is_struct "EchoResponse" p = false.
(** a turn of the loop in which nothing fails and such a datagram arrives *)
Definition turn_with (P : bytes -> Prop) (t : turn) : Prop :=
  t_done t = false /\ t_write t = true /\ t_clear t = true /\ exists from d, t_read t = Heard from d /\ P d.
Definition octets1 (e : env1) : Prop :=
  forall t from d, In t (f_turns e) -> t_read t = Heard from d -> bytes_ok d.

Lemma answers_struct p : UPlane.is_struct "EchoResponse" p = true ->
  exists desc m, p = P1 desc m /\ md_name desc = "EchoResponse".
Proof.
  destruct p as [desc m|h]; cbn; [|discriminate]. intros H. apply String.eqb_eq in H. eauto.
Qed.
Lemma turns1_conn raddr ts : forall limited s, dl_answer (turns1 raddr limited ts s) = AConn <->
  exists pre t post, ts = pre ++ t :: post /\ Forall (turn_with other1) pre /\ turn_with answers1 t.
Proof.
  induction ts as [|t ts IH]; intros limited s.
  - cbn [turns1 dl_answer]. split; [discriminate|]. intros [pre [t [post [H _]]]]. destruct pre; discriminate.
  - assert (Hno : forall P Q : bytes -> Prop, ~ turn_with P t -> ~ turn_with Q t ->
      ~ (exists pre t0 post, t :: ts = pre ++ t0 :: post /\ Forall (turn_with P) pre /\ turn_with Q t0)).
    { intros P Q H1 H2 [pre [t0 [post [E [F T]]]]]. destruct pre as [|u pre]; cbn [app] in E; injection E as -> E.
      - elim (H2 T).
      - apply Forall_cons_iff in F as [F _]. elim (H1 F). }
    cbn [turns1]. rewrite echo_request1_is.
    destruct (t_done t) eqn:E1; cbn [dl_answer].
    { split; [discriminate|]. intros H. exfalso. revert H. apply Hno; intros [? _]; congruence. }
    destruct (t_write t) eqn:E2; cbn [negb dl_answer].
    2:{ split; [discriminate|]. intros H. exfalso. revert H. apply Hno; intros [_ [? _]]; congruence. }
    destruct (t_read t) as [| |from d] eqn:E3; cbn [dl_answer].
    { split; [destruct limited; discriminate|]. intros H. exfalso. revert H.
      apply Hno; intros [_ [_ [_ [f [d [? _]]]]]]; congruence. }
    { split; [discriminate|]. intros H. exfalso. revert H.
      apply Hno; intros [_ [_ [_ [f [d [? _]]]]]]; congruence. }
    destruct (t_clear t) eqn:E4; cbn [negb dl_answer].
    2:{ split; [discriminate|]. intros H. exfalso. revert H. apply Hno; intros [_ [_ [? _]]]; congruence. }
    assert (Hd : forall P, turn_with P t <-> P d).
    { intros P. split.
      - intros [_ [_ [_ [f [d' [H Hp]]]]]]. rewrite E3 in H. injection H as <- <-. exact Hp.
      - intros H. split; [exact E1|]. split; [exact E2|]. split; [exact E4|]. eauto. }
    destruct (v1_parse (firstn 1600 d)) as [p|er|] eqn:Ep.
    + destruct (UPlane.is_struct "EchoResponse" p) eqn:Es; cbn [dl_answer].
      * split; [|reflexivity]. intros _. exists [], t, ts. split; [reflexivity|]. split; [constructor|].
        apply Hd. destruct (answers_struct p Es) as [desc [m [-> Hm]]]. exists desc, m. auto.
      * rewrite IH. split.
        -- intros [pre [t0 [post [-> [F T]]]]]. exists (t :: pre), t0, post. split; [reflexivity|]. split; [|exact T].
           constructor; [|exact F]. apply Hd. exists p. auto.
        -- intros [pre [t0 [post [E [F T]]]]]. destruct pre as [|u pre]; cbn [app] in E; injection E as -> ->.
           ++ exfalso. apply Hd in T. destruct T as [desc [m [H Hm]]]. rewrite Ep in H. injection H as ->.
              cbn in Es. rewrite Hm in Es. discriminate.
           ++ apply Forall_cons_iff in F as [_ F]. exists pre, t0, post. auto.
    + split; [discriminate|]. intros H. exfalso. revert H.
      apply Hno; rewrite Hd; [intros [p [H _]]|intros [ds [m [H _]]]]; congruence.
    + split; [discriminate|]. intros H. exfalso. revert H.
      apply Hno; rewrite Hd; [intros [p [H _]]|intros [ds [m [H _]]]]; congruence.
Qed.

(** DialUPlane returns a connection exactly when an Echo Response arrives, after any number
    of other well-formed messages; it sends an Echo Request before each read. *)
Theorem C62_v1_dial : forall raddr e,
  dl_answer (dial1 raddr e) = AConn <->
  f_listen e = true /\ f_deadline e = true /\
  exists pre t post, f_turns e = pre ++ t :: post /\ Forall (turn_with other1) pre /\ turn_with answers1 t.
Proof.
  intros raddr e. unfold dial1.
  destruct (f_listen e); cbn [negb dl_answer]; [|split; [discriminate|intros [? _]; discriminate]].
  destruct (f_deadline e); cbn [negb dl_answer]; [|split; [discriminate|intros [_ [? _]]; discriminate]].
  rewrite turns1_conn. split; [auto|]. intros [_ [_ H]]. exact H.
Qed.
Print Assumptions C62_v1_dial.
Definition heard_ok (d : bytes) : turn := Turn false true (Heard 200 d) true.
Definition answer1 : bytes := [50; 2; 0; 6; 0; 0; 0; 0; 0; 0; 0; 0; 14; 0].
Definition other_msg1 : bytes := [48; 255; 0; 1; 0; 0; 0; 9; 1].
Example C62_v1_dial_example :
  dial1 100 (Env1 true true [heard_ok other_msg1; heard_ok answer1]) = Dialed AConn [(100, request1); (100, request1)] true.
Proof. vm_compute. reflexivity. Qed.

Lemma turns1_sent raddr ts : forall limited s, exists n,
  dl_sent (turns1 raddr limited ts s) = s ++ repeat (raddr, request1) n /\ (n <= List.length ts)%nat.
Proof.
  induction ts as [|t ts IH]; intros limited s; cbn [turns1 List.length].
  { exists 0%nat. split; [symmetry; apply app_nil_r|lia]. }
  rewrite echo_request1_is.
  destruct (t_done t); [exists 0%nat; split; [symmetry; apply app_nil_r|lia]|].
  destruct (t_write t); cbn [negb]; [|exists 0%nat; split; [symmetry; apply app_nil_r|lia]].
  destruct (t_read t); [exists 1%nat; split; [reflexivity|lia]|exists 1%nat; split; [reflexivity|lia]|].
  destruct (t_clear t); cbn [negb]; [|exists 1%nat; split; [reflexivity|lia]].
  destruct (v1_parse (firstn 1600 d)) as [p| |]; [|exists 1%nat; split; [reflexivity|lia]|exists 1%nat; split; [reflexivity|lia]].
  destruct (UPlane.is_struct "EchoResponse" p); [exists 1%nat; split; [reflexivity|lia]|].
  destruct (IH false (s ++ [(raddr, request1)])) as [n [-> Hn]]. exists (S n). split; [|lia].
  rewrite <- app_assoc. reflexivity.
Qed.
Lemma turns1_safe raddr ts : (forall t from d, In t ts -> t_read t = Heard from d -> bytes_ok d) ->
  forall limited s, dl_answer (turns1 raddr limited ts s) <> APanic.
Proof.
  induction ts as [|t ts IH]; intros Hb limited s; cbn [turns1]; [discriminate|].
  rewrite echo_request1_is.
  destruct (t_done t); [discriminate|]. destruct (t_write t); [|discriminate]. cbn [negb].
  destruct (t_read t) as [| |from d] eqn:Er; [destruct limited; discriminate|discriminate|].
  destruct (t_clear t); [|discriminate]. cbn [negb].
  pose proof (Hb t from d (or_introl eq_refl) Er) as Hd.
  pose proof (v1_parse_safe (firstn 1600 d) (bytes_ok_firstn 1600 d Hd)) as Hs.
  pose proof (firstn_le_length 1600 d).
  destruct (v1_parse (firstn 1600 d)) as [p|er|]; [|discriminate|elim Hs; [lia|reflexivity]].
  destruct (UPlane.is_struct "EchoResponse" p); [discriminate|]. apply IH.
  intros t' f d' Hin. apply Hb. right. exact Hin.
Qed.
(** It never panics, and sends only Echo Requests, only to the peer, one per turn at most. *)
Theorem C62_v1_dial_sends : forall raddr e, octets1 e ->
  dl_answer (dial1 raddr e) <> APanic /\
  exists n, dl_sent (dial1 raddr e) = repeat (raddr, request1) n /\ (n <= List.length (f_turns e))%nat.
Proof.
  intros raddr e Hb. unfold dial1.
  destruct (f_listen e); cbn [negb dl_answer dl_sent]; [|split; [discriminate|exists 0%nat; split; [reflexivity|lia]]].
  destruct (f_deadline e); cbn [negb dl_answer dl_sent]; [|split; [discriminate|exists 0%nat; split; [reflexivity|lia]]].
  split; [apply turns1_safe; exact Hb|]. exact (turns1_sent raddr (f_turns e) true []).
Qed.
Print Assumptions C62_v1_dial_sends.
(** Listening or setting the limit fails: nothing is sent.  The socket is left open exactly if it
    was opened, whatever the outcome: a failed call does not close it. *)
Theorem C62_v1_dial_fails_first : forall raddr e,
  (f_listen e = false \/ f_deadline e = false -> dl_answer (dial1 raddr e) = AErr /\ dl_sent (dial1 raddr e) = []) /\
  dl_open (dial1 raddr e) = f_listen e.
Proof.
  intros raddr e. unfold dial1. destruct (f_listen e); cbn [negb]; [|split; [auto|reflexivity]].
  destruct (f_deadline e); cbn [negb]; [|split; [auto|reflexivity]].
  split; [intros [H|H]; discriminate|].
  assert (A : forall ts limited s, dl_open (turns1 raddr limited ts s) = true); [|apply A].
  induction ts as [|t ts IH]; intros limited s; cbn [turns1]; [reflexivity|].
  rewrite echo_request1_is. destruct (t_done t); [reflexivity|]. destruct (t_write t); [|reflexivity]. cbn [negb].
  destruct (t_read t); [reflexivity|reflexivity|]. destruct (t_clear t); [|reflexivity]. cbn [negb].
  destruct (v1_parse _); [|reflexivity|reflexivity]. destruct (UPlane.is_struct _ _); [reflexivity|apply IH].
Qed.
Print Assumptions C62_v1_dial_fails_first.
Example C62_v1_dial_fails_first_example :
  dial1 100 (Env1 false true [heard_ok answer1]) = Dialed AErr [] false /\
  dial1 100 (Env1 true false [heard_ok answer1]) = Dialed AErr [] true.
Proof. split; reflexivity. Qed.
Example C62_v1_dial_sends_example :
  dial1 100 (Env1 true true [heard_ok other_msg1; heard_ok [1; 2; 3]]) = Dialed AErr [(100, request1); (100, request1)] true.
Proof. vm_compute. reflexivity. Qed.

(** "if no response coming within 5 seconds, returns error": so it is when nothing comes. *)
Theorem C62_v1_dial_silence_partial : forall raddr e t ts,
  f_listen e = true -> f_deadline e = true -> f_turns e = t :: ts ->
  t_done t = false -> t_read t = Nothing -> dl_answer (dial1 raddr e) = AErr.
Proof.
  intros raddr e t ts H1 H2 H3 H4 H5. unfold dial1. rewrite H1, H2, H3. cbn [negb turns1]. rewrite H4, echo_request1_is, H5.
  destruct (t_write t); reflexivity.
Qed.
Print Assumptions C62_v1_dial_silence_partial.
Example C62_v1_dial_silence_example :
  dial1 100 (Env1 true true [Turn false true Nothing true]) = Dialed AErr [(100, request1)] true.
Proof. vm_compute. reflexivity. Qed.
(** But the first datagram of anyone removes the limit: if it is well-formed and not an Echo
    Response, and nothing comes after, the call never returns. *)
Theorem C62_v1_dial_silence_refuted : forall raddr e pre u t post,
  f_listen e = true -> f_deadline e = true -> f_turns e = u :: pre ++ t :: post ->
  Forall (turn_with other1) (u :: pre) -> t_done t = false -> t_write t = true -> t_read t = Nothing ->
  dl_answer (dial1 raddr e) = ABlocked.
Proof.
  intros raddr e pre u t post H1 H2 H3 F Hd Hw Hr. unfold dial1. rewrite H1, H2, H3. cbn [negb].
  assert (Hstep : forall v vs limited s, turn_with other1 v ->
    turns1 raddr limited (v :: vs) s = turns1 raddr false vs (s ++ [(raddr, request1)])).
  { intros v vs limited s [A [B [C [f [d [D [p [E G]]]]]]]]. cbn [turns1].
    rewrite A, echo_request1_is, B, D, C, E, G. reflexivity. }
  apply Forall_cons_iff in F as [Fu F]. rewrite Hstep by exact Fu.
  generalize ([] ++ [(raddr, request1)]). clear H3 Fu u.
  induction pre as [|v pre IH]; intros s; cbn [app].
  - cbn [turns1]. rewrite Hd, echo_request1_is, Hw, Hr. reflexivity.
  - apply Forall_cons_iff in F as [Fv F]. rewrite Hstep by exact Fv. apply IH. exact F.
Qed.
Print Assumptions C62_v1_dial_silence_refuted.
Example C62_v1_dial_silence_refuted_example :
  dial1 100 (Env1 true true [heard_ok other_msg1; Turn false true Nothing true]) = Dialed ABlocked [(100, request1); (100, request1)] true.
Proof. vm_compute. reflexivity. Qed.
(** With a context that is done, the caller gets a nil connection and a nil error. *)
Theorem C62_v1_dial_cancelled_refuted : forall raddr e t ts,
  f_listen e = true -> f_deadline e = true -> f_turns e = t :: ts -> t_done t = true ->
  dial1 raddr e = Dialed ANil [] true.
Proof.
  intros raddr e t ts H1 H2 H3 H4. unfold dial1. rewrite H1, H2, H3. cbn [negb turns1]. rewrite H4. reflexivity.
Qed.
Print Assumptions C62_v1_dial_cancelled_refuted.
(** The answer may come from any address. *)
Theorem C62_v1_dial_alive_refuted : forall raddr other, other <> raddr ->
  dl_answer (dial1 raddr (Env1 true true [Turn false true (Heard other answer1) true])) = AConn.
Proof. intros raddr other _. vm_compute. reflexivity. Qed.
Print Assumptions C62_v1_dial_alive_refuted.
