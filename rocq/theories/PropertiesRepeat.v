(** C53: marshalling is repeatable. *)
From Coq Require Import String ZArith Permutation Lia.
From Verif Require Import Base BaseLemmas V2IE TvIE TvIESpec TvIEProofs V2Header V1Header V1HeaderSpec V0Header V0HeaderSpec MsgModel MsgSpec MsgSpec1 MsgProofs MsgProofs2 MsgProofs3 MsgProofs4
  GenericMsg Msgs2Gen Msgs1Gen Msgs0Gen V2Msg V1Msg V0Msg V1MsgProofs V0MsgProofs.
Open Scope string_scope.
Open Scope N_scope.
Open Scope list_scope.

(** ** Lemmas *)
Section R.
Context {I H : Type} (io : ieops I) (ho : hdops H).
(** the header operations touch the payload and the length only *)
Context (base : forall h p, (ho_mlen ho (ho_set_length ho (ho_set_payload ho h p)) - len (ho_payload ho (ho_set_length ho (ho_set_payload ho h p))) = ho_mlen ho h - len (ho_payload ho h))%nat).
Context (base0 : forall h, (ho_mlen ho (ho_set_payload ho h []) - len (ho_payload ho (ho_set_payload ho h [])) = ho_mlen ho h - len (ho_payload ho h))%nat).
Context (mlen0 : forall h p, ho_mlen ho (ho_set_payload ho (ho_set_length ho (ho_set_payload ho h p)) []) = ho_mlen ho (ho_set_payload ho h [])).
Context (over : forall h p q, ho_set_length ho (ho_set_payload ho (ho_set_payload ho (ho_set_length ho (ho_set_payload ho h p)) []) q) = ho_set_length ho (ho_set_payload ho h q)).
Context (over0 : forall h p q, ho_set_length ho (ho_set_payload ho (ho_set_payload ho h p) q) = ho_set_length ho (ho_set_payload ho h q)).
Lemma msg_mto_same d m b b1 m1 : md_reset d = true -> msg_mto io ho d m b = Ok (b1, m1) ->
  msg_mlen io ho d m1 = msg_mlen io ho d m /\ forall b', msg_mto io ho d m1 b' = msg_mto io ho d m b'.
Proof.
  intros Hr E. unfold msg_mto in E. rewrite Hr in E.
  destruct (msg_mlen io ho d m) as [n0| |] eqn:E0; try discriminate. cbn [bind] in E.
  destruct (md_check d && (len b <? n0)%nat); [discriminate|].
  destruct (msg_mlen io ho d (Msg (ho_set_payload ho (m_hdr m) []) (m_fs m))) as [n| |] eqn:En; try discriminate. cbn [bind] in E.
  destruct (go_make _) as [p| |]; try discriminate. cbn [bind] in E.
  destruct (mto_steps io (md_steps d) (m_fs m) 0 p) as [x| |]; try discriminate. cbn [bind] in E.
  destruct (ho_mto ho _ b) as [y| |]; try discriminate. cbn [bind] in E. inversion E; subst. clear E. rewrite over0 in *.
  set (h2 := ho_set_length ho (ho_set_payload ho (m_hdr m) (fst x))) in *.
  assert (L : msg_mlen io ho d (Msg h2 (m_fs m)) = Ok n0).
  { rewrite <- E0. unfold msg_mlen. cbn [m_fs m_hdr]. unfold h2. rewrite base. reflexivity. }
  split; [exact L|]. intros b'. unfold msg_mto. rewrite L, E0. cbn [bind]. rewrite Hr. cbn [m_hdr m_fs].
  assert (L2 : msg_mlen io ho d (Msg (ho_set_payload ho h2 []) (m_fs m)) = msg_mlen io ho d (Msg (ho_set_payload ho (m_hdr m) []) (m_fs m))).
  { unfold msg_mlen. cbn [m_fs m_hdr]. rewrite !base0. unfold h2. rewrite base. reflexivity. }
  rewrite L2. unfold h2 at 1. rewrite mlen0. rewrite En. cbn [bind].
  destruct (md_check d && (len b' <? n0)%nat); [reflexivity|]. destruct (go_make _) as [p'| |]; try reflexivity. cbn [bind].
  destruct (mto_steps io (md_steps d) (m_fs m) 0 p') as [x'| |]; try reflexivity. cbn [bind]. unfold h2. rewrite over, over0. reflexivity.
Qed.
Lemma mto_state d m b b1 m1 b' b1' m1' : msg_mto io ho d m b = Ok (b1, m1) -> msg_mto io ho d m b' = Ok (b1', m1') -> m1 = m1'.
Proof.
  unfold msg_mto. intros E E'. destruct (msg_mlen io ho d m); try discriminate. cbn [bind] in *.
  destruct (md_check d && (len b <? _)%nat); [discriminate|]. destruct (md_check d && (len b' <? _)%nat); [discriminate|].
  destruct (msg_mlen io ho d _); try discriminate. cbn [bind] in *. destruct (go_make _); try discriminate. cbn [bind] in *.
  destruct (mto_steps _ _ _ _ _); try discriminate. cbn [bind] in *. destruct (ho_mto ho _ b); try discriminate. destruct (ho_mto ho _ b'); try discriminate.
  cbn [bind] in *. congruence.
Qed.
Lemma marshal_same d m w m1 : md_reset d = true -> msg_marshal io ho d m = Ok (w, m1) -> msg_marshal io ho d m1 = Ok (w, m1).
Proof.
  intros Hr E. pose proof E as E'. unfold msg_marshal in E. destruct (msg_mlen io ho d m) as [n| |] eqn:En; try discriminate. cbn [bind] in E.
  destruct (msg_mto_same d m _ w m1 Hr E) as [L S]. unfold msg_marshal. rewrite L, En. cbn [bind]. rewrite S. exact E.
Qed.
End R.
Ltac laws2 := intros; unfold ho2; cbn [ho_mlen ho_payload ho_set_payload ho_set_length]; unfold h2_set_length, h2_set_len, h2_set_payload, h2_mlen, h2_has_teid;
  cbn [h2_flags h2_type h2_length h2_teid h2_seq h2_spare h2_payload List.length]; try reflexivity; lia.
Ltac laws1 := intros; unfold ho1; cbn [ho_mlen ho_payload ho_set_payload ho_set_length]; unfold h1_set_length, h1_set_len, h1_set_payload, h1_mlen;
  cbn [h1_flags h1_type h1_length h1_teid h1_seq h1_npdu h1_next h1_exts h1_payload List.length]; try reflexivity; lia.
Ltac laws0 := intros; unfold ho0; cbn [ho_mlen ho_payload ho_set_payload ho_set_length]; unfold h0_set_length, h0_set_len, h0_set_payload, h0_mlen;
  cbn [h0_flags h0_type h0_length h0_seq h0_sndcp h0_label h0_tid h0_payload List.length]; try reflexivity; lia.
Lemma v2_same g d m b b1 m1 : md_reset d = true -> v2_mto g d m b = Ok (b1, m1) ->
  v2_len g d m1 = v2_len g d m /\ forall b', v2_mto g d m1 b' = v2_mto g d m b'.
Proof. apply (msg_mto_same (io2 g) ho2); laws2. Qed.
Lemma v2_again g d m w m1 : md_reset d = true -> v2_marshal g d m = Ok (w, m1) -> v2_marshal g d m1 = Ok (w, m1).
Proof. apply (marshal_same (io2 g) ho2); laws2. Qed.
Lemma v1_same d m b b1 m1 : md_reset d = true -> v1_mto d m b = Ok (b1, m1) ->
  v1_len d m1 = v1_len d m /\ forall b', v1_mto d m1 b' = v1_mto d m b'.
Proof. apply (msg_mto_same io1 ho1); laws1. Qed.
Lemma v1_again d m w m1 : md_reset d = true -> v1_marshal d m = Ok (w, m1) -> v1_marshal d m1 = Ok (w, m1).
Proof. apply (marshal_same io1 ho1); laws1. Qed.
Lemma v0_same d m b b1 m1 : md_reset d = true -> v0_mto d m b = Ok (b1, m1) ->
  v0_len d m1 = v0_len d m /\ forall b', v0_mto d m1 b' = v0_mto d m b'.
Proof. apply (msg_mto_same io0 ho0); laws0. Qed.
Lemma v0_again d m w m1 : md_reset d = true -> v0_marshal d m = Ok (w, m1) -> v0_marshal d m1 = Ok (w, m1).
Proof. apply (marshal_same io0 ho0); laws0. Qed.
Lemma resets2 d : In d (d_Generic2 :: all_msgs2) -> md_reset d = true.
Proof. intros Hd. assert (F : forallb md_reset (d_Generic2 :: all_msgs2) = true) by (vm_compute; reflexivity). rewrite forallb_forall in F. auto. Qed.
Definition not_repeatable1 : list string :=
  ["CreatePDPContextRequest"; "CreatePDPContextResponse"; "DeletePDPContextRequest"; "DeletePDPContextResponse";
   "ErrorIndication"; "SupportedExtensionHeaderNotification"; "UpdatePDPContextRequest"; "UpdatePDPContextResponse"; "VersionNotSupported"].
Definition is_in (x : string) (l : list string) : bool := existsb (String.eqb x) l.
Lemma is_in_spec x l : is_in x l = true <-> In x l.
Proof. unfold is_in. rewrite existsb_exists. split; [intros (y & Hy & E); apply String.eqb_eq in E; subst; exact Hy|intros Hx; exists x; split; [exact Hx|apply String.eqb_refl]]. Qed.
Lemma resets1 d : In d (d_Generic1 :: all_msgs1) -> md_reset d = negb (is_in (md_name d) not_repeatable1).
Proof.
  intros Hd. assert (F : forallb (fun d => Bool.eqb (md_reset d) (negb (is_in (md_name d) not_repeatable1))) (d_Generic1 :: all_msgs1) = true) by (vm_compute; reflexivity).
  rewrite forallb_forall in F. apply Bool.eqb_prop. exact (F d Hd).
Qed.
Lemma resets0 d : In d (d_Generic0 :: all_msgs0) -> md_reset d = negb (is_in (md_name d) ["DeletePDPContextResponse"]).
Proof.
  intros Hd. assert (F : forallb (fun d => Bool.eqb (md_reset d) (negb (is_in (md_name d) ["DeletePDPContextResponse"]))) (d_Generic0 :: all_msgs0) = true) by (vm_compute; reflexivity).
  rewrite forallb_forall in F. apply Bool.eqb_prop. exact (F d Hd).
Qed.
Lemma name_resets1 d : In d (d_Generic1 :: all_msgs1) -> ~ In (md_name d) not_repeatable1 -> md_reset d = true.
Proof. intros Hd Hn. rewrite resets1 by exact Hd. destruct (is_in _ _) eqn:E; [|reflexivity]. apply is_in_spec in E. contradiction. Qed.
Lemma name_resets0 d : In d (d_Generic0 :: all_msgs0) -> md_name d <> "DeletePDPContextResponse" -> md_reset d = true.
Proof. intros Hd Hn. rewrite resets0 by exact Hd. destruct (is_in _ _) eqn:E; [|reflexivity]. apply is_in_spec in E. cbn in E. intuition congruence. Qed.
Lemma v0_second_marshal_fails d m b b1 m1 b2 x : In d all0 -> md_reset d = false -> typed_fields d (m_fs m) ->
  Forall (wf1 tv0 xl0) (present (m_fs m)) -> present (m_fs m) <> [] -> h0_ok (m_hdr m) -> h0_payload (m_hdr m) = [] ->
  v0_mto d m b = Ok (b1, m1) -> v0_mto d m1 b2 <> Ok x.
Proof.
  intros Hd Hr Hs Hw Hne Hh Hp E. destruct (v0_marshal_layout d m Hd Hs Hw Hh (or_intror Hp)) as (A1 & A2 & _ & _ & A3).
  pose proof (A3 (zeros (20 + len (flat_map (wire1 xl0) (ies_of (order_of d) (m_fs m)))))) as E'. rewrite len_zeros in E'. specialize (E' (le_n _)).
  rewrite (mto_state io0 ho0 _ _ _ _ _ _ _ _ E E'). clear E E'.
  destruct (all0_parts d Hd) as (D1 & D2 & D4 & _).
  assert (Ha : all_wf (wf1 tv0 xl0) (m_fs m)) by (apply present_wf; [apply (V1MsgProofs.typed_nodup d); assumption|exact Hw]).
  apply (stale_fails io0 ho0 _ _ ie_laws0 _ _ _ _ _ _ hd_laws0); auto.
  - intros i y Ey. unfold io0 in Ey. cbn [io_mto] in Ey. rewrite mto1_short in Ey; [discriminate|].
    cbn [List.length]. unfold mlen1. destruct (tv0 _); [lia|]. destruct (_ <? 128); [lia|]. destruct (xl0 _); lia.
  - cbn [m_fs]. intros Hz. change (ies_of (order_of d) (m_fs m)) with (in_order (m_fs m) (order_of d)) in A1. rewrite Hz in A1. apply Permutation_nil in A1. contradiction.
Qed.

(** ** Theorems *)
(** Whatever the message holds: if Marshal succeeds, a second Marshal gives the same octets. *)
Theorem C53_v2_marshal_repeatable : forall g d m w m1, In d (d_Generic2 :: all_msgs2) ->
  v2_marshal g d m = Ok (w, m1) -> v2_marshal g d m1 = Ok (w, m1).
Proof. intros g d m w m1 Hd. apply v2_again. apply resets2. exact Hd. Qed.
(** After MarshalTo into some buffer the message has the fields it had, and MarshalLen, and MarshalTo
    into any buffer, do what they would have done before. *)
Theorem C53_v2_marshal_to_repeatable : forall g d m b b1 m1, In d (d_Generic2 :: all_msgs2) ->
  v2_mto g d m b = Ok (b1, m1) -> v2_len g d m1 = v2_len g d m /\ forall b', v2_mto g d m1 b' = v2_mto g d m b'.
Proof. intros g d m b b1 m1 Hd. apply v2_same. apply resets2. exact Hd. Qed.
(** GTPv1 and GTPv0, except the messages that C53_v1_refuted and C53_v0_refuted are about *)
Theorem C53_v1_marshal_repeatable_partial : forall d m w m1, In d (d_Generic1 :: all_msgs1) -> ~ In (md_name d) not_repeatable1 ->
  v1_marshal d m = Ok (w, m1) -> v1_marshal d m1 = Ok (w, m1).
Proof. intros d m w m1 Hd Hn. apply v1_again. apply name_resets1; assumption. Qed.
Theorem C53_v1_marshal_to_repeatable_partial : forall d m b b1 m1, In d (d_Generic1 :: all_msgs1) -> ~ In (md_name d) not_repeatable1 ->
  v1_mto d m b = Ok (b1, m1) -> v1_len d m1 = v1_len d m /\ forall b', v1_mto d m1 b' = v1_mto d m b'.
Proof. intros d m b b1 m1 Hd Hn. apply v1_same. apply name_resets1; assumption. Qed.
Theorem C53_v0_marshal_repeatable_partial : forall d m w m1, In d (d_Generic0 :: all_msgs0) -> md_name d <> "DeletePDPContextResponse" ->
  v0_marshal d m = Ok (w, m1) -> v0_marshal d m1 = Ok (w, m1).
Proof. intros d m w m1 Hd Hn. apply v0_again. apply name_resets0; assumption. Qed.
Theorem C53_v0_marshal_to_repeatable_partial : forall d m b b1 m1, In d (d_Generic0 :: all_msgs0) -> md_name d <> "DeletePDPContextResponse" ->
  v0_mto d m b = Ok (b1, m1) -> v0_len d m1 = v0_len d m /\ forall b', v0_mto d m1 b' = v0_mto d m b'.
Proof. intros d m b b1 m1 Hd Hn. apply v0_same. apply name_resets0; assumption. Qed.
(** T-PDUs *)
Theorem C53_v1_tpdu_repeatable : forall h w h1, tpdu1_marshal h = Ok (w, h1) -> tpdu1_marshal h1 = Ok (w, h1).
Proof.
  intros h w h1 E. unfold tpdu1_marshal, tpdu1_mto in *. destruct (len (zeros (h1_mlen h)) <? h1_mlen h)%nat eqn:El; [discriminate|].
  destruct (h1_mto (h1_set_length h) (zeros (h1_mlen h))) as [b'| |] eqn:Em; try discriminate. cbn [bind] in E. inversion E; subst. clear E.
  change (h1_mlen (h1_set_length h)) with (h1_mlen h). rewrite El. change (h1_set_length (h1_set_length h)) with (h1_set_length h). rewrite Em. reflexivity.
Qed.
Theorem C53_v0_tpdu_repeatable : forall h w h1, tpdu0_marshal h = Ok (w, h1) -> tpdu0_marshal h1 = Ok (w, h1).
Proof.
  intros h w h1 E. unfold tpdu0_marshal, tpdu0_mto in *. destruct (len (zeros (h0_mlen h)) <? h0_mlen h)%nat eqn:El; [discriminate|].
  destruct (h0_mto (h0_set_length h) (zeros (h0_mlen h))) as [b'| |] eqn:Em; try discriminate. cbn [bind] in E. inversion E; subst. clear E.
  change (h0_mlen (h0_set_length h)) with (h0_mlen h). rewrite El. change (h0_set_length (h0_set_length h)) with (h0_set_length h). rewrite Em. reflexivity.
Qed.
(** The exceptions: with at least one IE present, they can be marshalled at most once. *)
Theorem C53_v1_refuted : forall d m b b1 m1 b2 x, In d (d_Generic1 :: all_msgs1) -> In (md_name d) not_repeatable1 ->
  typed_fields d (m_fs m) -> Forall (wf1 tv1 xl1) (present (m_fs m)) -> present (m_fs m) <> [] -> h1_ok (m_hdr m) -> h1_payload (m_hdr m) = [] ->
  v1_mto d m b = Ok (b1, m1) -> v1_mto d m1 b2 <> Ok x.
Proof.
  intros d m b b1 m1 b2 x Hd Hn. apply v1_second_marshal_fails; [exact Hd|]. rewrite resets1 by exact Hd. apply is_in_spec in Hn. rewrite Hn. reflexivity.
Qed.
Theorem C53_v0_refuted : forall d m b b1 m1 b2 x, In d (d_Generic0 :: all_msgs0) -> md_name d = "DeletePDPContextResponse" ->
  typed_fields d (m_fs m) -> Forall (wf1 tv0 xl0) (present (m_fs m)) -> present (m_fs m) <> [] -> h0_ok (m_hdr m) -> h0_payload (m_hdr m) = [] ->
  v0_mto d m b = Ok (b1, m1) -> v0_mto d m1 b2 <> Ok x.
Proof.
  intros d m b b1 m1 b2 x Hd Hn. apply v0_second_marshal_fails; [exact Hd|]. rewrite resets0 by exact Hd. rewrite Hn. reflexivity.
Qed.

(** A Delete Session Request with an EPS Bearer ID: both calls give the same 17 octets. *)
Example C53_v2_example :
  (do m <- v2_new default_grouped Msgs2Gen.d_DeleteSessionRequest 7 9 [Some (IE2 73 1 0 [5] [])];
   do x <- v2_marshal default_grouped Msgs2Gen.d_DeleteSessionRequest m;
   do y <- v2_marshal default_grouped Msgs2Gen.d_DeleteSessionRequest (snd x); Ok (fst x, fst y))
  = Ok ([72;36;0;13;0;0;0;7;0;0;9;0;73;0;1;0;5], [72;36;0;13;0;0;0;7;0;0;9;0;73;0;1;0;5]).
Proof. vm_compute. reflexivity. Qed.
Example C53_v1_example :
  (do m <- v1_new Msgs1Gen.d_EchoResponse 0 9 [Some (IE1 14 0 [5])];
   do x <- v1_marshal Msgs1Gen.d_EchoResponse m;
   do y <- v1_marshal Msgs1Gen.d_EchoResponse (snd x); Ok (fst x, fst y))
  = Ok ([50;2;0;6;0;0;0;0;0;9;0;0;14;5], [50;2;0;6;0;0;0;0;0;9;0;0;14;5]).
Proof. vm_compute. reflexivity. Qed.
(** The first Marshal of a Delete PDP Context Response succeeds and the second one fails. *)
Example C53_v1_refuted_example :
  (do m <- v1_new Msgs1Gen.d_DeletePDPContextResponse 1 9 [Some (IE1 1 0 [128])];
   do x <- v1_marshal Msgs1Gen.d_DeletePDPContextResponse m; Ok (fst x)) = Ok [50;21;0;6;0;0;0;1;0;9;0;0;1;128] /\
  (do m <- v1_new Msgs1Gen.d_DeletePDPContextResponse 1 9 [Some (IE1 1 0 [128])];
   do x <- v1_marshal Msgs1Gen.d_DeletePDPContextResponse m; do y <- v1_marshal Msgs1Gen.d_DeletePDPContextResponse (snd x); Ok (fst y)) = Err ETooShortToMarshal.
Proof. split; vm_compute; reflexivity. Qed.
Example C53_v0_refuted_example :
  (do m <- v0_new Msgs0Gen.d_DeletePDPContextResponse 1 9 77 [Some (IE1 1 0 [128])];
   do x <- v0_marshal Msgs0Gen.d_DeletePDPContextResponse m; Ok (fst x)) = Ok [30;21;0;2;0;1;0;9;255;255;255;255;0;0;0;0;0;0;0;77;1;128] /\
  (do m <- v0_new Msgs0Gen.d_DeletePDPContextResponse 1 9 77 [Some (IE1 1 0 [128])];
   do x <- v0_marshal Msgs0Gen.d_DeletePDPContextResponse m; do y <- v0_marshal Msgs0Gen.d_DeletePDPContextResponse (snd x); Ok (fst y)) = Err ETooShortToMarshal.
Proof. split; vm_compute; reflexivity. Qed.
Example C53_v0_example :
  (do m <- v0_new Msgs0Gen.d_EchoResponse 1 9 77 [Some (IE1 14 0 [5])];
   do x <- v0_marshal Msgs0Gen.d_EchoResponse m;
   do y <- v0_marshal Msgs0Gen.d_EchoResponse (snd x); Ok (fst x, fst y))
  = Ok ([30;2;0;2;0;1;0;9;255;255;255;255;0;0;0;0;0;0;0;77;14;5], [30;2;0;2;0;1;0;9;255;255;255;255;0;0;0;0;0;0;0;77;14;5]).
Proof. vm_compute. reflexivity. Qed.
Example C53_tpdu_example : (do x <- tpdu1_marshal (new_tpdu1 17 [1;2]); do y <- tpdu1_marshal (snd x); Ok (fst y)) = Ok [48;255;0;2;0;0;0;17;1;2].
Proof. vm_compute. reflexivity. Qed.

Print Assumptions C53_v2_marshal_repeatable.
Print Assumptions C53_v2_marshal_to_repeatable.
Print Assumptions C53_v1_marshal_repeatable_partial.
Print Assumptions C53_v1_marshal_to_repeatable_partial.
Print Assumptions C53_v0_marshal_repeatable_partial.
Print Assumptions C53_v0_marshal_to_repeatable_partial.
Print Assumptions C53_v1_tpdu_repeatable.
Print Assumptions C53_v0_tpdu_repeatable.
Print Assumptions C53_v1_refuted.
Print Assumptions C53_v0_refuted.
