(** The user plane in the words of the specification: who is written to, what is delivered,
    what crashes. *)
From Coq Require Import String Lia Permutation.
From Verif Require Import Maps MapsProofs Base BaseLemmas TvIE TvIESpec TvIEProofs V1Header V2IE V2Codec MsgModel Msgs1Gen V1Msg
  V1HeaderSpec V1HeaderProofs MsgSpec MsgProofs MsgProofs2 V1MsgProofs TpduProofs FieldSpec FieldProofs UPlane USpec UPlaneProofs UPlaneProofs2 UPlaneProofs3.
Open Scope N_scope.
Open Scope list_scope.

(** ** Which Error Indications crash the default handler *)
Lemma has_ie_cons t i l : has_ie t (i :: l) <-> i1_type i = t \/ has_ie t l.
Proof.
  split.
  - intros (x & [<-|H] & E); [now left|right; now exists x].
  - intros [H|(x & H & E)]; [exists i; split; [now left|exact H]|exists x; split; [now right|exact E]].
Qed.
Lemma has_ie_dec t l : {has_ie t l} + {~ has_ie t l}.
Proof.
  destruct (existsb (fun i => i1_type i =? t) l) eqn:E; [left|right].
  - apply existsb_exists in E. destruct E as (i & H & E). apply N.eqb_eq in E. now exists i.
  - intros (i & H & E'). assert (X : existsb (fun i => i1_type i =? t) l = true); [|congruence].
    apply existsb_exists. exists i. split; [exact H|]. now apply N.eqb_eq.
Qed.
Definition some_head (l : list (option ie1)) : bool := match l with Some _ :: _ => true | _ => false end.
Definition errind_run (ies : list ie1) : @fmap ie1 := runs io1 (md_unm d_ErrorIndication) ies (fempty d_ErrorIndication).
Lemma errind_fields ies :
  (some_head (fget (errind_run ies) "TEIDDataI") = true <-> has_ie 16 ies) /\
  (some_head (fget (errind_run ies) "GTPUPeerAddress") = true <-> has_ie 133 ies).
Proof.
  assert (G : forall ies a b c d,
    exists a' b' c' d', runs io1 (md_unm d_ErrorIndication) ies
      [("TEIDDataI"%string, a); ("GTPUPeerAddress"%string, b); ("PrivateExtension"%string, c); ("AdditionalIEs"%string, d)] =
      [("TEIDDataI"%string, a'); ("GTPUPeerAddress"%string, b'); ("PrivateExtension"%string, c'); ("AdditionalIEs"%string, d')] /\
    (some_head a' = true <-> some_head a = true \/ has_ie 16 ies) /\
    (some_head b' = true <-> some_head b = true \/ has_ie 133 ies)).
  { clear ies. induction ies as [|i ies IH]; intros a b c d.
    - exists a, b, c, d. split; [reflexivity|]. split; (split; [auto|intros [H|(x & [] & _)]; exact H]).
    - cbn [runs]. unfold dact. change (io_type io1 i) with (i1_type i).
      destruct (N.eq_dec (i1_type i) 16) as [E|E]; [|destruct (N.eq_dec (i1_type i) 133) as [F|F]; [|destruct (N.eq_dec (i1_type i) 255) as [K|K]]].
      + rewrite E. destruct (IH [Some i] b c d) as (a' & b' & c' & d' & E1 & E2 & E3).
        exists a', b', c', d'. split; [exact E1|]. rewrite !has_ie_cons, E2, E3. split; [split; auto; intros _; now left|].
        split; [intros [H|H]; auto|intros [H|[H|H]]; auto; congruence].
      + rewrite F. destruct (IH a [Some i] c d) as (a' & b' & c' & d' & E1 & E2 & E3).
        exists a', b', c', d'. split; [exact E1|]. rewrite !has_ie_cons, E2, E3. split; [|split; auto; intros _; now left].
        split; [intros [H|H]; auto|intros [H|[H|H]]; auto; congruence].
      + rewrite K. destruct (IH a b [Some i] d) as (a' & b' & c' & d' & E1 & E2 & E3).
        exists a', b', c', d'. split; [exact E1|]. rewrite !has_ie_cons, E2, E3.
        split; (split; [intros [H|H]; auto|intros [H|[H|H]]; auto; congruence]).
      + destruct (IH a b c (d ++ [Some i])) as (a' & b' & c' & d' & E1 & E2 & E3).
        exists a', b', c', d'. split; [|rewrite !has_ie_cons, E2, E3;
          split; (split; [intros [H|H]; auto|intros [H|[H|H]]; auto; contradiction])].
        rewrite <- E1. f_equal. cbn [md_unm d_ErrorIndication unm_ErrorIndication t_cases t_default assoc_act].
        apply N.eqb_neq in E, F, K. rewrite (N.eqb_sym 16), (N.eqb_sym 133), (N.eqb_sym 255), E, F, K. reflexivity. }
  destruct (G ies [] [] [] []) as (a' & b' & c' & d' & E1 & E2 & E3). unfold errind_run.
  change (fempty d_ErrorIndication) with [("TEIDDataI"%string, @nil (option ie1)); ("GTPUPeerAddress"%string, []); ("PrivateExtension"%string, []); ("AdditionalIEs"%string, [])].
  rewrite E1. cbn [fget String.eqb Ascii.eqb Bool.eqb]. rewrite E2, E3. cbn [some_head].
  split; (split; [intros [H|H]; [discriminate|exact H]|auto]).
Qed.
Lemma ind_panics_heads m : ind_panics m = negb (some_head (fget (m_fs m) "TEIDDataI") && some_head (fget (m_fs m) "GTPUPeerAddress")).
Proof.
  unfold ind_panics. destruct (fget (m_fs m) "TEIDDataI") as [|[?|] ?]; [reflexivity| |reflexivity].
  destruct (fget (m_fs m) "GTPUPeerAddress") as [|[?|] ?]; reflexivity.
Qed.
Lemma errind_crashes b m : bytes_ok b -> v1_parse b = Ok (P1 d_ErrorIndication m) ->
  (ind_panics m = true <-> ~ two_ies (h1_payload (m_hdr m))).
Proof.
  intros Hb Hp. destruct (v1_parse_parts b _ Hb Hp) as (t & _ & _ & Eh & _ & E4). destruct (E4 _ _ eq_refl) as [_ Ep].
  cbn [pdu1_hdr] in Eh.
  assert (Hpb : bytes_ok (h1_payload (m_hdr m))) by (exact (proj1 (v1_laws_hdr b (m_hdr m) Hb Eh))).
  rewrite ind_panics_heads. unfold v1_parse_as, msg_parse in Ep. cbn [ho_parse ho1] in Ep. rewrite Eh in Ep. cbn [bind] in Ep.
  change (ho_payload ho1 (m_hdr m)) with (h1_payload (m_hdr m)) in Ep.
  change (io_multi io1) with (multi1 tv1 xl1) in Ep. cbn [md_min d_ErrorIndication md_soft] in Ep.
  destruct (Nat.ltb_spec (len (h1_payload (m_hdr m))) 2) as [L|L].
  - assert (Ef : m_fs m = fempty d_ErrorIndication) by (injection Ep as <-; reflexivity). rewrite Ef. cbn [andb negb]. 
    split; [|reflexivity]. intros _ (ies & E & _ & (i & Hi & Ti)).
    destruct (multi1_inv _ _ tv1_lt xl1_ge _ _ Hpb E) as [W Ew]. rewrite Forall_forall in W.
    destruct (W i Hi) as [Wi|Wi]; [|destruct Wi as (B & _); rewrite Ti in B; discriminate].
    apply in_split in Hi. destruct Hi as (x & y & ->). rewrite flat_map_app in Ew. cbn [flat_map] in Ew.
    apply (f_equal (@List.length N)) in Ew. rewrite !app_length in Ew.
    assert (X : (3 <= len (wire1 xl1 i))%nat). { unfold wire1. rewrite Ti. change (133 <? 128) with false. change (xl1 133) with false. cbv iota. rewrite !app_length, enc16_len. cbn [List.length]. lia. }
    lia.
  - destruct (multi1 tv1 xl1 (h1_payload (m_hdr m))) as [ies|e|] eqn:Em; [| |discriminate].
    + rewrite run_table_some in Ep.
      assert (Ef : m_fs m = errind_run ies) by (cbn [bind] in Ep; injection Ep as <-; reflexivity).
      rewrite Ef. destruct (errind_fields ies) as [F1 F2].
      rewrite Bool.negb_true_iff. split.
      * intros X (ies' & E & H1 & H2). rewrite Em in E. injection E as <-.
        apply F1 in H1. apply F2 in H2. rewrite H1, H2 in X. discriminate.
      * intros X. destruct (some_head (fget (errind_run ies) "TEIDDataI")) eqn:A; [|reflexivity].
        destruct (some_head (fget (errind_run ies) "GTPUPeerAddress")) eqn:B; [|reflexivity].
        exfalso. apply X. exists ies. split; [exact Em|]. split; [now apply F1|now apply F2].
    + destruct e; discriminate.
Qed.

(** ** Crashes *)
Lemma panic_causes local l2 id l1 : locals_ok local -> history local (l2 ++ EvPanic id :: l1) ->
  (exists c from d, hist id l1 = [EvRecv id c from d] /\ (len d < 2)%nat /\ exists t p, relay_for c t l1 = Some p) \/
  (exists c from d t p, hist id l1 = [EvLookup id c t (Some p); EvRecv id c from d] /\ opened (p_conn p) l1 = false) \/
  (exists c from d h0 m, hist id l1 = EvDispatch id c 26 (Some HErrInd) :: h0 /\ arrived id c from d h0 /\
     v1_parse (firstn 1500 d) = Ok (P1 d_ErrorIndication m) /\ ~ two_ies (h1_payload (m_hdr m))) \/
  (exists c typ h0, hist id l1 = EvDispatch id c typ (Some HNil) :: h0) \/
  (exists c t p a, hist id l1 = [EvWrite id c t p a] /\ opened c l1 = false) \/
  (hist id l1 = [] /\ exists c, closed_ev c l1 = true).
Proof.
  intros HL H. pose proof (history_event _ _ _ _ HL H) as E. cbn [event_ok] in E.
  destruct E as [E|[E|[E|[E|[E|E]]]]]; [now left|right; now left| |do 3 right; now left|do 4 right; now left|do 5 right; exact E].
  right. right. left. destruct E as (c & typ & h0 & from & d & m & Eh & Ea & Hd & Ep & Ei).
  assert (Hr : bytes_ok (received d)) by apply (received_ok d Hd).
  assert (typ = 26).
  { destruct (locate _ _ _ _ Eh) as (a & b & E1 & E2 & _). rewrite E1, app_comm_cons, app_assoc in H.
    pose proof (history_event _ _ _ _ HL H) as X. cbn [event_ok] in X. destruct X as [(f' & d' & p' & A' & Hd' & P' & T') _].
    rewrite E2 in A'.
    assert (Ed : d' = d).
    { destruct Ea as [Ea|(t0 & Ea)]; destruct A' as [A'|(t1 & A')]; congruence. }
    subst d'. rewrite Ep in P'. injection P' as <-. cbn [pdu_hdr] in T'.
    destruct (v1_parse_parts _ _ Hr Ep) as (t & F1 & F2 & _ & F4 & _). cbn [pdu1_hdr pdu1_name] in F2, F4.
    assert (B : t < 256) by exact (idx_byte _ _ _ Hr F1).
    assert (X : forallb (fun x => (negb (String.eqb (name1 (struct1 x)) "ErrorIndication") || (x =? 26))%bool) (below 256) = true)
      by (vm_compute; reflexivity).
    rewrite forallb_forall in X. specialize (X t (below_complete 256 t B)). rewrite <- F4 in X. cbn in X. apply N.eqb_eq in X. congruence. }
  subst typ. exists c, from, d, h0, m. split; [exact Eh|]. split; [exact Ea|]. split; [exact Ep|].
  now apply (errind_crashes (received d) m Hr Ep).
Qed.

Section Reachable.
Context (local : N -> option bytes) (ls : list label) (w : world).
Context (HL : locals_ok local) (HR : run (start local) ls = Some w) (HC : w_crashed w = false).
Let I : inv local w := reachable_inv local ls w HL HR.

Lemma short_panics c from d : opened c (w_log w) = true -> (exists t p, relay_for c t (w_log w) = Some p) ->
  bytes_ok d -> (len d < 2)%nat ->
  exists w', run w [LDatagram c from d; LRun (w_next w) true] = Some w' /\ w_crashed w' = true /\
    w_log w' = EvPanic (w_next w) :: EvRecv (w_next w) c from d :: w_log w.
Proof.
  intros O1 (t & p & Rl) Hb Ld.
  destruct (iv_con _ _ I c) as (_ & _ & C3 & _ & _ & C6 & _).
  eexists. split; [|split].
  - eapply run_cons; [apply step_datagram; auto; now rewrite C6|].
    rewrite (received_short d) by lia.
    eapply run_cons; [|reflexivity].
    rewrite (step_run _ (w_next w) (TRecv c from d)); [|exact HC|apply aget_put]. cbn [run_thread emit spawn w_conns w_threads w_next].
    destruct (u_relay (w_conns w c)) eqn:Eu.
    + exfalso. pose proof (C3 t) as X. cbn in X. congruence.
    + destruct d as [|x [|y d]]; cbn in Ld; try lia; reflexivity.
  - reflexivity.
  - reflexivity.
Qed.
Lemma errind_panics c from d m : opened c (w_log w) = true -> bytes_ok d -> (len d <= 1500)%nat -> unrelayed c d (w_log w) ->
  handler_for c 26 (w_log w) = Some HErrInd -> v1_parse d = Ok (P1 d_ErrorIndication m) -> ~ two_ies (h1_payload (m_hdr m)) ->
  exists n w', run w (LDatagram c from d :: repeat (LRun (w_next w) true) n) = Some w' /\ w_crashed w' = true.
Proof.
  intros O1 Hb Ld U Eh Ep Hn. pose proof (errind_type d m Hb Ep) as Ty.
  destruct (to_handler local ls w HL HR HC c from d (P1 d_ErrorIndication m) HErrInd O1 Hb Ld U Ep) as (n & h0 & w2 & R2 & A2 & L2 & S2 & X2 & T2 & F2).
  { cbn [pdu_hdr]. now rewrite Ty. }
  exists (n + 1)%nat. eexists. split.
  - rewrite repeat_app, app_comm_cons. cbn [repeat].
    rewrite (run_app _ _ _ _ R2). eapply run_cons; [|reflexivity].
    rewrite (step_run _ _ _ _ X2 T2). cbn [run_thread run_handler].
    rewrite (proj2 (errind_crashes d m Hb Ep) Hn). reflexivity.
  - reflexivity.
Qed.
(** the handler of the user is called with the message *)
Lemma user_progress c from d p k : opened c (w_log w) = true -> bytes_ok d -> (len d <= 1500)%nat -> unrelayed c d (w_log w) ->
  v1_parse d = Ok p -> handler_for c (h1_type (pdu_hdr p)) (w_log w) = Some (HUser k) ->
  exists n h0 w', run w (LDatagram c from d :: repeat (LRun (w_next w) true) n) = Some w' /\
    arrived (w_next w) c from d h0 /\
    w_log w' = EvUser (w_next w) k p :: EvDispatch (w_next w) c (h1_type (pdu_hdr p)) (Some (HUser k)) :: h0 ++ w_log w.
Proof.
  intros O1 Hb Ld U Ep Eh.
  destruct (to_handler local ls w HL HR HC c from d p (HUser k) O1 Hb Ld U Ep Eh) as (n & h0 & w2 & R2 & A2 & L2 & S2 & X2 & T2 & F2).
  exists (n + 1)%nat, h0. eexists. split; [|split; [exact A2|]].
  - rewrite repeat_app, app_comm_cons. cbn [repeat].
    rewrite (run_app _ _ _ _ R2). eapply run_cons; [|reflexivity].
    rewrite (step_run _ _ _ _ X2 T2). cbn [run_thread run_handler]. reflexivity.
  - cbn [ends emit w_log]. now rewrite L2.
Qed.
(** what WriteToGTP writes *)
Lemma write_progress c t p a : opened c (w_log w) = true -> t < 4294967296 -> bytes_ok p -> N.of_nat (8 + len p) < 65536 ->
  exists w', run w [LWriteGTP c t p a; LRun (w_next w) true] = Some w' /\
    w_log w' = EvSent (w_next w) c a (tpdu_octets 48 t [] p) :: EvWrite (w_next w) c t p a :: w_log w.
Proof.
  intros O1 Ht Hp Hl. destruct (iv_con _ _ I c) as (_ & _ & _ & _ & _ & C6 & _).
  assert (E : exists hd, tpdu1_marshal (encapsulate1 t p) = Ok (tpdu_octets 48 t [] p, hd)).
  { unfold tpdu1_marshal, encapsulate1. set (h := new_tpdu1 t p).
    assert (Hm : h1_mlen h = (8 + len p)%nat) by (change (h1_mlen h) with (len p + 8 + 0 + 0)%nat; lia).
    destruct (tpdu1_plain t p (zeros (h1_mlen h)) Ht Hp Hl) as (h' & E & _).
    { rewrite len_zeros, Hm. lia. }
    exists h'. fold h in E. rewrite E. rewrite Hm, skipn_all2 by (rewrite len_zeros; lia). now rewrite app_nil_r. }
  destruct E as [hd E]. eexists. split.
  - eapply run_cons.
    { unfold step. rewrite HC, E. reflexivity. }
    eapply run_cons; [|reflexivity].
    rewrite (step_run _ (w_next w) (TWrite c (tpdu_octets 48 t [] p) a)); [|exact HC|apply aget_put].
    cbn [run_thread emit spawn w_conns]. rewrite C6, O1. reflexivity.
  - reflexivity.
Qed.
End Reachable.

(** ** Writes *)
Lemma plain_octets t p b hd : t < 4294967296 -> bytes_ok p -> N.of_nat (8 + len p) < 65536 ->
  tpdu1_marshal (encapsulate1 t p) = Ok (b, hd) -> b = tpdu_octets 48 t [] p.
Proof.
  intros Ht Hp Hl. unfold tpdu1_marshal, encapsulate1. set (h := new_tpdu1 t p).
  assert (Hm : h1_mlen h = (8 + len p)%nat) by (change (h1_mlen h) with (len p + 8 + 0 + 0)%nat; lia).
  destruct (tpdu1_plain t p (zeros (h1_mlen h)) Ht Hp Hl) as (h' & E & _).
  { rewrite len_zeros, Hm. lia. }
  fold h in E. rewrite E. rewrite Hm, skipn_all2 by (rewrite len_zeros; lia). rewrite app_nil_r. congruence.
Qed.
Lemma sent_once local l2 id c a b l1 : locals_ok local -> history local (l2 ++ EvSent id c a b :: l1) -> hist id l2 = [].
Proof.
  intros HL H. apply (final_last local l2 (EvSent id c a b :: l1) id HL H).
  unfold hist. cbn. now rewrite N.eqb_refl.
Qed.
(** every packet written is a T-PDU the user asked for, an answer to an Echo Request, or an
    Error Indication for a T-PDU *)
Lemma sent_cases local l2 id c a b l1 : locals_ok local -> history local (l2 ++ EvSent id c a b :: l1) ->
  hist id l2 = [] /\
  ((exists t p, hist id l1 = [EvWrite id c t p a] /\
      (t < 4294967296 -> bytes_ok p -> N.of_nat (8 + len p) < 65536 -> b = tpdu_octets 48 t [] p)) \/
   (exists d m h0, hist id l1 = EvDispatch id c 1 (Some HEchoReq) :: h0 /\ arrived id c a d h0 /\
      v1_parse (firstn 1500 d) = Ok (P1 d_EchoRequest m) /\ b = echo_octets (h1_seq (m_hdr m))) \/
   (exists d x h0 l1a l1b, l1 = l1a ++ EvFlag id c true :: l1b /\ err_ind c l1b = true /\ hist id l1a = [] /\
      hist id l1b = EvDispatch id c 255 (Some HTpdu) :: h0 /\ arrived id c a d h0 /\
      v1_parse (firstn 1500 d) = Ok (P1_tpdu x) /\ b = errind_octets (gsn_ip (local c)) (h1_teid x) (h1_seq x))).
Proof.
  intros HL H. split; [exact (sent_once _ _ _ _ _ _ _ HL H)|].
  pose proof (history_event _ _ _ _ HL H) as E. cbn [event_ok] in E. destruct E as [E|[E|E]].
  - left. destruct E as (t & p & hd & Eh & Em). exists t, p. split; [exact Eh|].
    intros Ht Hp Hl. exact (plain_octets t p b hd Ht Hp Hl Em).
  - right. left. destruct E as (h0 & d & p & typ & Eh & Ea & Hd & Ep & Et & Es & Eo).
    assert (Hr : bytes_ok (received d)) by apply (received_ok d Hd).
    destruct p as [d0 m|x]; [|discriminate]. cbn [is_struct] in Es. cbn [pdu_hdr] in *.
    assert (d0 = d_EchoRequest).
    { exact (parsed_named "EchoRequest" d_EchoRequest (received d) d0 m Hr Ep echoreq_in eq_refl Es). }
    subst d0. rewrite echo_response_is in Eo.
    assert (Ty : h1_type (m_hdr m) = 1).
    { destruct (v1_parse_parts _ _ Hr Ep) as (t & F1 & F2 & _ & F4 & _). cbn [pdu1_hdr pdu1_name] in F2, F4.
      assert (B : t < 256) by exact (idx_byte _ _ _ Hr F1).
      assert (X : forallb (fun x => (negb (String.eqb (name1 (struct1 x)) "EchoRequest") || (x =? 1))%bool) (below 256) = true)
        by (vm_compute; reflexivity).
      rewrite forallb_forall in X. specialize (X t (below_complete 256 t B)). rewrite <- F4 in X. cbn in X. apply N.eqb_eq in X. congruence. }
    exists d, m, h0. rewrite Et, Ty in Eh. split; [exact Eh|]. split; [exact Ea|]. split; [exact Ep|]. apply ok_inj1 in Eo. now symmetry.
  - right. right. destruct E as (h0 & d & x & typ & Eh & Ea & Hd & Ep & Et & Eo).
    assert (Hr : bytes_ok (received d)) by apply (received_ok d Hd).
    rewrite error_indication_is in Eo by apply HL. apply ok_inj1 in Eo.
    assert (Ty : h1_type x = 255).
    { destruct (v1_parse_parts _ _ Hr Ep) as (t & F1 & F2 & _ & F4 & _). cbn [pdu1_hdr pdu1_name] in F2, F4.
      assert (B : t < 256) by exact (idx_byte _ _ _ Hr F1).
      assert (X : forallb (fun x => (negb (String.eqb (name1 (struct1 x)) "TPDU") || (x =? 255))%bool) (below 256) = true)
        by (vm_compute; reflexivity).
      rewrite forallb_forall in X. specialize (X t (below_complete 256 t B)). rewrite <- F4 in X. cbn in X. apply N.eqb_eq in X. congruence. }
    destruct (locate _ _ _ _ Eh) as (l1a & l1b & E1 & E2 & E3).
    rewrite E1, app_comm_cons, app_assoc in H. pose proof (history_event _ _ _ _ HL H) as X. cbn [event_ok] in X. destruct X as [_ X].
    exists d, x, h0, l1a, l1b. rewrite Et, Ty in E2. repeat split; auto.
Qed.

(** ** Delivery *)
Lemma delivered_facts local l2 id rd c a t p l1 : locals_ok local -> history local (l2 ++ EvDelivered id rd c a t p :: l1) ->
  hist id l2 = [] /\ hist rd l2 = [] /\
  exists d payload n h0 l1a l1b, l1 = l1a ++ EvFlag id c false :: l1b /\ err_ind c l1b = false /\ hist id l1a = [] /\
    hist id l1b = EvDispatch id c 255 (Some HTpdu) :: h0 /\ arrived id c a d h0 /\
    hist rd l1 = [EvRead rd c n] /\ bytes_ok d /\
    decapsulate1 (firstn 1500 d) = Ok (t, payload) /\ p = firstn n payload.
Proof.
  intros HL H.
  split. { apply (final_last local l2 (EvDelivered id rd c a t p :: l1) id HL H). unfold hist. cbn. now rewrite N.eqb_refl. }
  split. { apply (final_last local l2 (EvDelivered id rd c a t p :: l1) rd HL H). unfold hist. cbn. now rewrite N.eqb_refl, Bool.orb_true_r. }
  pose proof (history_event _ _ _ _ HL H) as E. cbn [event_ok] in E.
  destruct E as (h0 & d & x & typ & n & Eh & Ea & Hd & Ep & Et & Epl & Er).
  assert (Hr : bytes_ok (received d)) by apply (received_ok d Hd).
  destruct (v1_parse_parts _ _ Hr Ep) as (t' & F1 & F2 & F3 & F4 & _). cbn [pdu1_hdr pdu1_name] in F2, F3, F4.
  assert (Ty : h1_type x = 255).
  { assert (B : t' < 256) by exact (idx_byte _ _ _ Hr F1).
    assert (X : forallb (fun x => (negb (String.eqb (name1 (struct1 x)) "TPDU") || (x =? 255))%bool) (below 256) = true)
      by (vm_compute; reflexivity).
    rewrite forallb_forall in X. specialize (X t' (below_complete 256 t' B)). rewrite <- F4 in X. cbn in X. apply N.eqb_eq in X. congruence. }
  destruct (locate _ _ _ _ Eh) as (l1a & l1b & E1 & E2 & E3).
  assert (H' := H). rewrite E1, app_comm_cons, app_assoc in H'. pose proof (history_event _ _ _ _ HL H') as X. cbn [event_ok] in X.
  destruct X as [_ X].
  assert (Etyp : typ = 255).
  { destruct (locate _ _ _ _ E2) as (u & v & G1 & G2 & _). rewrite G1, app_comm_cons, app_assoc in H'.
    pose proof (history_event _ _ _ _ HL H') as Y. cbn [event_ok] in Y. destruct Y as [(f' & d' & p' & A' & Hd' & P' & T') _].
    rewrite G2 in A'.
    assert (Ed : d' = d).
    { destruct Ea as [Ea|(t0 & Ea)]; destruct A' as [A'|(t1 & A')]; congruence. }
    subst d'. rewrite Ep in P'. injection P' as <-. cbn [pdu_hdr] in T'. congruence. }
  subst typ. exists d, (h1_payload x), n, h0, l1a, l1b. split; [exact E1|]. split; [now symmetry|]. split; [exact E3|]. split; [exact E2|].
  split; [exact Ea|]. split; [exact Er|]. split; [exact Hd|]. split; [|exact Epl].
  unfold decapsulate1. change (firstn 1500 d) with (received d). rewrite F3. cbn [bind]. rewrite Ty. cbn. now rewrite Et.
Qed.
Lemma plain_decap t p q : t < 4294967296 -> bytes_ok p -> N.of_nat (8 + len p) < 65536 ->
  decapsulate1 (tpdu_octets 48 t [] p ++ q) = Ok (t, p).
Proof.
  intros Ht Hp Hl.
  destruct (tpdu1_plain t p (zeros (8 + len p)) Ht Hp Hl) as (h & _ & E).
  { rewrite len_zeros. lia. }
  destruct (E q) as (E1 & E2 & E3). unfold v1_parse in E1.
  assert (L : len (tpdu_octets 48 t [] p ++ q) = (8 + len p + len q)%nat).
  { unfold tpdu_octets. rewrite !app_length. cbn. lia. }
  rewrite (proj2 (Nat.ltb_ge (len (tpdu_octets 48 t [] p ++ q)) 2)) in E1 by lia.
  change (idx (tpdu_octets 48 t [] p ++ q) 1) with (Ok 255) in E1. cbn [bind] in E1. change (struct1 255) with (@None mdesc) in E1.
  unfold tpdu1_parse in E1. unfold decapsulate1.
  destruct (h1_parse (tpdu_octets 48 t [] p ++ q)) as [h'|e|] eqn:Eh; try discriminate. cbn [bind] in *.
  assert (h' = h) by congruence. subst h'.
  assert (Ty : h1_type h = 255).
  { assert (Hb : bytes_ok (tpdu_octets 48 t [] p ++ []) ).
    { rewrite app_nil_r. unfold tpdu_octets. apply bytes_ok_app; [repeat constructor; cbv; auto|].
      apply bytes_ok_app; [apply enc16_ok|]. apply bytes_ok_app; [apply enc32_ok|]. exact Hp. }
    destruct (E []) as (E1' & _). destruct (v1_parse_parts _ _ Hb E1') as (t' & F1 & F2 & _). cbn [pdu1_hdr] in F2.
    change (idx (tpdu_octets 48 t [] p ++ []) 1) with (Ok 255) in F1. congruence. }
  rewrite Ty. change (255 =? 255) with true. cbv iota. now rewrite E2, E3.
Qed.
(** end to end: what one connection wrote with WriteToGTP and another received *)
Lemma written_delivered local l2 id rd c a t' p' l1 t p from : locals_ok local ->
  history local (l2 ++ EvDelivered id rd c a t' p' :: l1) -> In (EvRecv id c from (tpdu_octets 48 t [] p)) l1 ->
  t < 4294967296 -> bytes_ok p -> (len p <= 1492)%nat ->
  t' = t /\ a = from /\ exists n, hist rd l1 = [EvRead rd c n] /\ p' = firstn n p.
Proof.
  intros HL H Hin Ht Hp Hl.
  destruct (delivered_facts _ _ _ _ _ _ _ _ _ HL H) as (_ & _ & d & pl & n & h0 & l1a & l1b & E1 & _ & Ea' & Eh & Ea & Er & Hd & Ed & Ep).
  assert (Hi : In (EvRecv id c from (tpdu_octets 48 t [] p)) (hist id l1)).
  { apply filter_In. split; [exact Hin|]. cbn. apply N.eqb_refl. }
  rewrite E1, hist_app, Ea', hist_cons in Hi by (cbn; apply N.eqb_refl). rewrite Eh in Hi. cbn [app] in Hi.
  destruct Hi as [Hi|[Hi|Hi]]; try discriminate.
  assert (Hx : EvRecv id c a d = EvRecv id c from (tpdu_octets 48 t [] p)).
  { destruct Ea as [->|(t0 & ->)]; cbn in Hi; intuition (try discriminate; congruence). }
  injection Hx as -> ->. rewrite firstn_all2 in Ed by (unfold tpdu_octets; rewrite !app_length; cbn; lia).
  rewrite <- (app_nil_r (tpdu_octets 48 t [] p)), plain_decap in Ed; [|exact Ht|exact Hp|lia].
  apply ok_inj1 in Ed. injection Ed as <- <-. split; [reflexivity|]. split; [reflexivity|]. exists n. auto.
Qed.
(** a T-PDU over 1492 bytes does not fit the buffer and is never delivered, relayed aside *)
Lemma long_decap t p : t < 4294967296 -> (1492 < len p)%nat -> N.of_nat (8 + len p) < 65536 ->
  h1_parse (firstn 1500 (tpdu_octets 48 t [] p)) = Err ETooShortToParse.
Proof.
  intros Ht Hl Hm.
  assert (L : len (firstn 1500 (tpdu_octets 48 t [] p)) = 1500%nat).
  { rewrite firstn_length. unfold tpdu_octets. rewrite !app_length. cbn [List.length]. rewrite enc16_len, enc32_len. lia. }
  assert (X : exists r, firstn 1500 (tpdu_octets 48 t [] p) = [48; 255] ++ enc16 (N.of_nat (len p)) ++ enc32 t ++ r).
  { exists (firstn 1492 p). unfold tpdu_octets. change (len [] + len p)%nat with (len p). reflexivity. }
  destruct X as [r X]. unfold h1_parse. rewrite L. change (1500 <? 8)%nat with false. cbv iota.
  rewrite X.
  change (idx ([48; 255] ++ enc16 (N.of_nat (len p)) ++ enc32 t ++ r) 0) with (Ok 48).
  change (idx ([48; 255] ++ enc16 (N.of_nat (len p)) ++ enc32 t ++ r) 1) with (Ok 255).
  change (slice ([48; 255] ++ enc16 (N.of_nat (len p)) ++ enc32 t ++ r) 2 4) with (Ok (enc16 (N.of_nat (len p)))).
  change (slice ([48; 255] ++ enc16 (N.of_nat (len p)) ++ enc32 t ++ r) 4 8) with (Ok (enc32 t)).
  cbn [bind]. rewrite be16_enc' by lia. cbn [bind]. rewrite be32_enc' by exact Ht. cbn [bind].
  rewrite (proj2 (Nat.ltb_lt 1500 (N.to_nat (N.of_nat (len p)) + 8))) by lia. reflexivity.
Qed.
Lemma long_lost local l2 id rd c a t' p' l1 t p from : locals_ok local -> t < 4294967296 -> (1492 < len p)%nat ->
  N.of_nat (8 + len p) < 65536 -> In (EvRecv id c from (tpdu_octets 48 t [] p)) l1 ->
  ~ history local (l2 ++ EvDelivered id rd c a t' p' :: l1).
Proof.
  intros HL Ht Hl Hm Hin H.
  destruct (delivered_facts _ _ _ _ _ _ _ _ _ HL H) as (_ & _ & d & pl & n & h0 & l1a & l1b & E1 & _ & Ea' & Eh & Ea & Er & Hd & Ed & Ep).
  assert (Hi : In (EvRecv id c from (tpdu_octets 48 t [] p)) (hist id l1)).
  { apply filter_In. split; [exact Hin|]. cbn. apply N.eqb_refl. }
  rewrite E1, hist_app, Ea', hist_cons in Hi by (cbn; apply N.eqb_refl). rewrite Eh in Hi. cbn [app] in Hi.
  destruct Hi as [Hi|[Hi|Hi]]; try discriminate.
  assert (Hx : EvRecv id c a d = EvRecv id c from (tpdu_octets 48 t [] p)).
  { destruct Ea as [->|(t0 & ->)]; cbn in Hi; intuition (try discriminate; congruence). }
  injection Hx as -> ->. unfold decapsulate1 in Ed. rewrite long_decap in Ed by assumption. discriminate.
Qed.

(** ** Handlers *)
Lemma dispatched local l2 id c typ r l1 : locals_ok local -> history local (l2 ++ EvDispatch id c typ r :: l1) ->
  r = handler_for c typ l1 /\ (r = None -> hist id l2 = []) /\
  exists from d p, arrived id c from d (hist id l1) /\ v1_parse (firstn 1500 d) = Ok p /\ idx (firstn 1500 d) 1 = Ok typ.
Proof.
  intros HL H. pose proof (history_event _ _ _ _ HL H) as E. cbn [event_ok] in E.
  destruct E as [(from & d & p & Ea & Hd & Ep & Et) Er]. split; [exact Er|]. split.
  - intros ->. apply (final_last local l2 (EvDispatch id c typ None :: l1) id HL H). unfold hist. cbn. now rewrite N.eqb_refl.
  - exists from, d, p. split; [exact Ea|]. split; [exact Ep|].
    assert (Hr : bytes_ok (received d)) by apply (received_ok d Hd).
    destruct (v1_parse_parts _ _ Hr Ep) as (t & F1 & F2 & _). rewrite <- pdu_hdr_same, <- Et in F2. subst t. exact F1.
Qed.
Lemma user_called local l2 id k p l1 : locals_ok local -> history local (l2 ++ EvUser id k p :: l1) ->
  hist id l2 = [] /\ exists c typ from d l1a l1b, l1 = l1a ++ EvDispatch id c typ (Some (HUser k)) :: l1b /\
    handler_for c typ l1b = Some (HUser k) /\ hist id l1a = [] /\ arrived id c from d (hist id l1b) /\
    v1_parse (firstn 1500 d) = Ok p /\ idx (firstn 1500 d) 1 = Ok typ.
Proof.
  intros HL H. split. { apply (final_last local l2 (EvUser id k p :: l1) id HL H). unfold hist. cbn. now rewrite N.eqb_refl. }
  pose proof (history_event _ _ _ _ HL H) as E. cbn [event_ok] in E.
  destruct E as (c & h0 & typ & from & d & Eh & Ea & Hd & Ep & Et).
  destruct (locate _ _ _ _ Eh) as (l1a & l1b & E1 & E2 & E3).
  assert (H' := H). rewrite E1, app_comm_cons, app_assoc in H'. destruct (dispatched _ _ _ _ _ _ _ HL H') as (R & _ & _).
  exists c, typ, from, d, l1a, l1b. rewrite E2. repeat split; auto.
  assert (Hr : bytes_ok (received d)) by apply (received_ok d Hd).
  destruct (v1_parse_parts _ _ Hr Ep) as (t & F1 & F2 & _). rewrite <- pdu_hdr_same, <- Et in F2. subst t. exact F1.
Qed.
(** the last registration for the type counts, whatever happened to other types and connections *)
Lemma handler_last c typ h l2 l1 : (forall h', ~ In (EvHandler c typ h') l2) ->
  handler_for c typ (l2 ++ EvHandler c typ h :: l1) = Some h.
Proof.
  induction l2 as [|e l2 IH]; intros Hn; cbn.
  - now rewrite !N.eqb_refl.
  - assert (X : handler_for c typ (l2 ++ EvHandler c typ h :: l1) = Some h) by (apply IH; intros h' Hh; apply (Hn h'); now right).
    destruct e as [| | | | | | | |c0 t0 h0| | | | | | | | | | | | | | | |]; auto.
    destruct ((c0 =? c) && (t0 =? typ))%bool eqn:E; [|exact X]. apply andb_prop in E. destruct E as [E1 E2].
    apply N.eqb_eq in E1, E2. subst. exfalso. apply (Hn h0). now left.
Qed.
Lemma handler_none c typ l : (forall h', ~ In (EvHandler c typ h') l) -> handler_for c typ l = handler_default typ.
Proof.
  induction l as [|e l IH]; intros Hn; cbn; [reflexivity|].
  assert (X : handler_for c typ l = handler_default typ) by (apply IH; intros h' Hh; apply (Hn h'); now right).
  destruct e as [| | | | | | | |c0 t0 h0| | | | | | | | | | | | | | | |]; auto.
  destruct ((c0 =? c) && (t0 =? typ))%bool eqn:E; [|exact X]. apply andb_prop in E. destruct E as [E1 E2].
  apply N.eqb_eq in E1, E2. subst. exfalso. apply (Hn h0). now left.
Qed.
(** AddHandlers walks a Go map: the keys are distinct, the order is arbitrary *)
Definition add_all (c : N) (rows : list (N * handler)) : list label := map (fun r => LAddHandler c (fst r) (snd r)) rows.
Lemma add_all_run c rows : forall w, w_crashed w = false -> NoDup (map fst rows) ->
  exists w', run w (add_all c rows) = Some w' /\ w_crashed w' = false /\
    (forall k, aget (u_handlers (w_conns w' c)) k =
       match find (fun r => fst r =? k) rows with Some (_, h) => Some h | None => aget (u_handlers (w_conns w c)) k end) /\
    (forall x, x <> c -> w_conns w' x = w_conns w x).
Proof.
  induction rows as [|[k h] rows IH]; intros w HC Hn; cbn [map fst] in Hn.
  - exists w. repeat split; auto.
  - apply NoDup_cons_iff in Hn. destruct Hn as [Hk Hn].
    set (w1 := emit (set_conn w c (set_handlers (w_conns w c) (aput (u_handlers (w_conns w c)) k h))) (EvHandler c k h)).
    destruct (IH w1 HC Hn) as (w' & R & C & G & O). exists w'. split; [|split; [exact C|split]].
    + cbn [add_all map run fst snd]. unfold step at 1. rewrite HC. exact R.
    + intros x. rewrite G. cbn [find fst].
      assert (Gw : aget (u_handlers (w_conns w1 c)) x = if x =? k then Some h else aget (u_handlers (w_conns w c)) x).
      { unfold w1, emit, set_conn, upd. cbn [w_conns]. rewrite N.eqb_refl. cbn [set_handlers u_handlers]. apply aget_aput. }
      rewrite Gw, (N.eqb_sym k x). destruct (x =? k) eqn:E; [|reflexivity]. apply N.eqb_eq in E. subst x.
      destruct (find (fun r => fst r =? k) rows) as [[k' h']|] eqn:F; [|reflexivity].
      exfalso. apply find_some in F. destruct F as [F1 F2]. cbn in F2. apply N.eqb_eq in F2. subst k'.
      apply Hk. apply in_map_iff. exists (k, h'). auto.
    + intros x Hx. rewrite O by exact Hx. unfold w1, emit, set_conn, upd. cbn [w_conns]. apply N.eqb_neq in Hx. now rewrite Hx.
Qed.
Lemma find_key_perm (a b : list (N * handler)) k : Permutation a b -> NoDup (map fst a) ->
  find (fun r => fst r =? k) a = find (fun r => fst r =? k) b.
Proof.
  intros P. induction P as [|[k1 h1] a b P IH|[k1 h1] [k2 h2] a|a b d P1 IH1 P2 IH2]; intros Hn; cbn [find fst].
  - reflexivity.
  - destruct (k1 =? k); [reflexivity|]. apply IH. cbn in Hn. now apply NoDup_cons_iff in Hn.
  - destruct (k2 =? k) eqn:E2; destruct (k1 =? k) eqn:E1; try reflexivity.
    apply N.eqb_eq in E1, E2. subst. cbn in Hn. apply NoDup_cons_iff in Hn. exfalso. apply (proj1 Hn). now left.
  - rewrite IH1 by exact Hn. apply IH2. now apply (Permutation_NoDup (Permutation_map fst P1)).
Qed.

(** ** Allocation makes progress *)
Lemma tries_run c ift v4 v6 id ms : forall w tries, w_crashed w = false ->
  aget (w_threads w) id = Some (TAlloc c tries ift v4 v6) ->
  Forall (fun t => t < 4294967296 /\ (t = 0 \/ In t (u_teids (w_conns w c)))) ms ->
  tries + N.of_nat (List.length ms) <= 65535 ->
  exists w', run w (map (LTry id) ms) = Some w' /\ w_crashed w' = false /\ w_conns w' = w_conns w /\
    aget (w_threads w') id = Some (TAlloc c (tries + N.of_nat (List.length ms)) ift v4 v6) /\
    w_log w' = map (EvMiss id c) (rev ms) ++ w_log w.
Proof.
  induction ms as [|t ms IH]; intros w tries HC E F L.
  - exists w. cbn [List.length N.of_nat]. rewrite N.add_0_r. repeat split; auto.
  - apply Forall_cons_iff in F. destruct F as [[Ft Fm] F]. cbn [List.length] in L.
    set (w1 := goes (emit w (EvMiss id c t)) id (TAlloc c (tries + 1) ift v4 v6)).
    destruct (IH w1 (tries + 1)) as (w' & R & C & S & T & G).
    { exact HC. } { apply aget_put. } { exact F. } { lia. }
    exists w'. split; [|split; [exact C|split; [exact S|split]]].
    + cbn [map run]. unfold step at 1. rewrite HC, E.
      rewrite (proj2 (N.ltb_lt tries 65535)) by lia. rewrite (proj2 (N.ltb_lt t 4294967296) Ft). cbn [andb].
      assert (X : ((t =? 0) || existsb (N.eqb t) (u_teids (w_conns w c)))%bool = true).
      { destruct Fm as [->|Fm]; [reflexivity|]. apply Bool.orb_true_iff. right. apply existsb_exists. exists t. split; [exact Fm|]. apply N.eqb_refl. }
      rewrite X. exact R.
    + rewrite T. do 2 f_equal. cbn [List.length]. lia.
    + rewrite G. cbn [rev]. rewrite map_app, <- app_assoc. reflexivity.
Qed.
Section Alloc.
Context (local : N -> option bytes) (ls : list label) (w : world).
Context (HL : locals_ok local) (HR : run (start local) ls = Some w) (HC : w_crashed w = false).
Let I : inv local w := reachable_inv local ls w HL HR.
Lemma alloc_progress c ift v4 v6 ms t : (List.length ms < N.to_nat 65535)%nat ->
  Forall (fun t => t < 4294967296 /\ (t = 0 \/ In t (held c (w_log w)))) ms ->
  t <> 0 -> t < 4294967296 -> ~ In t (held c (w_log w)) ->
  exists w', run w (LNewFTEID c ift v4 v6 :: map (LTry (w_next w)) ms ++ [LTry (w_next w) t; LRun (w_next w) true]) = Some w' /\
    w_log w' = EvTeid (w_next w) c t (new_fteid default_grouped ift t v4 v6) :: EvTaken (w_next w) c t ::
               map (EvMiss (w_next w) c) (rev ms) ++ w_log w.
Proof.
  intros Lm F Z B Fr. destruct (iv_con _ _ I c) as (_ & C2 & _).
  set (w1 := spawn w (TAlloc c 0 ift v4 v6)).
  destruct (tries_run c ift v4 v6 (w_next w) ms w1 0) as (w2 & R2 & X2 & S2 & T2 & L2).
  { exact HC. } { apply aget_put. } { change (w_conns w1) with (w_conns w). now rewrite C2. } { lia. }
  rewrite N.add_0_l in T2. eexists. split.
  - eapply run_cons; [unfold step; rewrite HC; reflexivity|]. fold w1. rewrite (run_app _ _ _ _ R2).
    eapply run_cons.
    { unfold step. rewrite X2, T2. rewrite (proj2 (N.ltb_lt (N.of_nat (List.length ms)) 65535)) by lia.
      rewrite (proj2 (N.ltb_lt t 4294967296) B). cbn [andb].
      assert (X : ((t =? 0) || existsb (N.eqb t) (u_teids (w_conns w2 c)))%bool = false).
      { apply Bool.orb_false_iff. split; [now apply N.eqb_neq|]. rewrite S2. change (w_conns w1) with (w_conns w). rewrite C2.
        destruct (existsb (N.eqb t) (held c (w_log w))) eqn:Ex; [|reflexivity]. exfalso. apply Fr.
        apply existsb_exists in Ex. destruct Ex as (y & Hy & Ey). apply N.eqb_eq in Ey. now subst y. }
      rewrite X. reflexivity. }
    eapply run_cons; [|reflexivity].
    erewrite step_run; [|exact X2|apply aget_put]. reflexivity.
  - cbn [ends emit goes set_conn w_log]. now rewrite L2.
Qed.
Lemma alloc_exhausted c ift v4 v6 ms : List.length ms = N.to_nat 65535 ->
  Forall (fun t => t < 4294967296 /\ (t = 0 \/ In t (held c (w_log w)))) ms ->
  exists w', run w (LNewFTEID c ift v4 v6 :: map (LTry (w_next w)) ms ++ [LRun (w_next w) true]) = Some w' /\
    w_log w' = EvNoTeid (w_next w) c :: map (EvMiss (w_next w) c) (rev ms) ++ w_log w.
Proof.
  intros Lm F. destruct (iv_con _ _ I c) as (_ & C2 & _).
  set (w1 := spawn w (TAlloc c 0 ift v4 v6)).
  destruct (tries_run c ift v4 v6 (w_next w) ms w1 0) as (w2 & R2 & X2 & S2 & T2 & L2).
  { exact HC. } { apply aget_put. } { change (w_conns w1) with (w_conns w). now rewrite C2. } { lia. }
  rewrite N.add_0_l, Lm, N2Nat.id in T2. eexists. split.
  - eapply run_cons; [unfold step; rewrite HC; reflexivity|]. fold w1. rewrite (run_app _ _ _ _ R2).
    eapply run_cons; [|reflexivity]. erewrite step_run; [|exact X2|exact T2]. reflexivity.
  - cbn [ends emit w_log]. now rewrite L2.
Qed.
End Alloc.
