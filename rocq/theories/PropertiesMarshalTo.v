(** C21 for the messages of GTPv1 and GTPv0: what MarshalTo does to a buffer that is not empty. *)
From Coq Require Import String Permutation Lia.
From Verif Require Import Base BaseLemmas TvIE TvIESpec TvIEProofs V1Header V1HeaderSpec V1HeaderProofs
  V0Header V0HeaderSpec V0HeaderProofs MsgModel MsgProofs MsgProofs2 MsgProofs3 GenericMsg MsgSpec MsgSpec1
  Msgs1Gen Msgs0Gen V1Msg V1MsgProofs V0Msg V0MsgProofs.
Open Scope string_scope.
Open Scope N_scope.
Open Scope list_scope.

(** GTPv0: the octets of Marshal, then the rest of the buffer as it was *)
Theorem C21_v0_msg_marshal_to : forall d m b n, In d (d_Generic0 :: all_msgs0) -> typed_fields d (m_fs m) ->
  Forall (wf1 tv0 xl0) (present (m_fs m)) -> h0_ok (m_hdr m) -> (md_reset d = true \/ h0_payload (m_hdr m) = []) ->
  v0_len d m = Ok n -> (n <= len b)%nat ->
  exists w m1, v0_marshal d m = Ok (w, m1) /\ len w = n /\ v0_mto d m b = Ok (w ++ skipn n b, m1).
Proof.
  intros d m b n Hd Hs Hw Hh Hr Hn Hb. destruct (v0_marshal_layout d m Hd Hs Hw Hh Hr) as (_ & B & C & D & E).
  rewrite B in Hn. injection Hn as <-. eexists _, _. split; [exact C|]. split; [exact D|]. apply E, Hb.
Qed.

(** The octets of the optional part of a GTPv1 header (octets 9 to 12, TS 29.060 clause 6) that
    are there because another flag is set: sequence number without S, N-PDU number without PN,
    next extension header type without E. *)
Definition idle1 (flags : N) (k : nat) : bool :=
  negb (N.land flags 7 =? 0) &&
  (((Nat.eqb k 8 || Nat.eqb k 9) && negb (N.testbit flags 1)) || (Nat.eqb k 10 && negb (N.testbit flags 0)) ||
   (Nat.eqb k 11 && negb (N.testbit flags 2))).

Lemma octets_idle b c h k : (N.testbit (h1_flags h) 2 = true -> Forall (fun e => eh_pad e = 0%nat) (h1_exts h)) ->
  (N.land (h1_flags h) 7 <> 0 -> (12 <= len b)%nat /\ (12 <= len c)%nat) ->
  nth_error (h1_octets b h) k = if idle1 (h1_flags h) k then nth_error b k else nth_error (h1_octets c h) k.
Proof.
  intros He Hbc. unfold h1_octets, idle1. cbv zeta.
  assert (HE : (if N.testbit (h1_flags h) 2 then exts_octets (skipn 12 b) (h1_exts h) else []) =
               (if N.testbit (h1_flags h) 2 then exts_octets (skipn 12 c) (h1_exts h) else [])).
  { destruct (N.testbit (h1_flags h) 2); [|reflexivity]. rewrite !exts_octets_exact by (apply He; reflexivity). reflexivity. }
  rewrite HE. generalize (if N.testbit (h1_flags h) 2 then exts_octets (skipn 12 c) (h1_exts h) else []). intros X. clear HE He.
  destruct (N.eqb_spec (N.land (h1_flags h) 7) 0) as [Z|Z].
  - pose proof (N.land_spec (h1_flags h) 7) as S. pose proof (S 2) as S2. pose proof (S 1) as S1. pose proof (S 0) as S0.
    change (N.testbit 7 2) with true in S2. change (N.testbit 7 1) with true in S1. change (N.testbit 7 0) with true in S0.
    rewrite andb_true_r in S0, S1, S2. rewrite <- S0, <- S1, <- S2, Z. reflexivity.
  - destruct (Hbc Z) as [Hb Hc]. clear Hbc.
    assert (O : N.testbit (h1_flags h) 2 || N.testbit (h1_flags h) 1 || N.testbit (h1_flags h) 0 = true).
    { destruct (N.testbit (h1_flags h) 2) eqn:B2; [reflexivity|]. destruct (N.testbit (h1_flags h) 1) eqn:B1; [reflexivity|].
      destruct (N.testbit (h1_flags h) 0) eqn:B0; [reflexivity|]. exfalso. apply Z. apply N.bits_inj. intros i. rewrite N.land_spec, N.bits_0.
      destruct (N.ltb_spec i 3) as [L|L].
      - assert (Hi : i = 0 \/ i = 1 \/ i = 2) by lia. destruct Hi as [->|[->| ->]]; rewrite ?B0, ?B1, ?B2; reflexivity.
      - change 7 with (N.ones 3). rewrite N.ones_spec_high by exact L. apply andb_false_r. }
    rewrite O. cbn [negb andb].
    destruct b as [|b0 [|b1 [|b2 [|b3 [|b4 [|b5 [|b6 [|b7 [|b8 [|b9 [|b10 [|b11 rb]]]]]]]]]]]]; cbn [List.length] in Hb; try lia.
    destruct c as [|c0 [|c1 [|c2 [|c3 [|c4 [|c5 [|c6 [|c7 [|c8 [|c9 [|c10 [|c11 rc]]]]]]]]]]]]; cbn [List.length] in Hc; try lia.
    cbn [skipn firstn]. unfold enc16, enc32. cbn [app].
    destruct (N.testbit (h1_flags h) 2), (N.testbit (h1_flags h) 1), (N.testbit (h1_flags h) 0); cbn [app];
      destruct k as [|[|[|[|[|[|[|[|[|[|[|[|k]]]]]]]]]]]]; reflexivity.
Qed.

(** GTPv1: every octet written is the one Marshal would write, but the idle ones of the header,
    which keep what was in the buffer; nothing behind the message is touched. *)
Theorem C21_v1_msg_marshal_to : forall d m b n, In d (d_Generic1 :: all_msgs1) -> typed_fields d (m_fs m) ->
  Forall (wf1 tv1 xl1) (present (m_fs m)) -> h1_ok (m_hdr m) -> (md_reset d = true \/ h1_payload (m_hdr m) = []) ->
  (N.testbit (h1_flags (m_hdr m)) 2 = true -> Forall (fun e => Nat.modulo (len (eh_content e)) 4 = 2%nat) (h1_exts (m_hdr m))) ->
  v1_len d m = Ok n -> (n <= len b)%nat ->
  exists w m1 b', v1_marshal d m = Ok (w, m1) /\ len w = n /\ v1_mto d m b = Ok (b', m1) /\ len b' = len b /\
    forall k, nth_error b' k =
      if (n <=? k)%nat || idle1 (h1_flags (m_hdr m)) k then nth_error b k else nth_error w k.
Proof.
  intros d m b n Hd Hs Hw Hh Hr Hx Hn Hb. destruct (v1_marshal_layout d m Hd Hs Hw Hh Hr) as (_ & B & C & D & E).
  cbv zeta in B, C, D, E. rewrite B in Hn. apply (f_equal (fun r => match r with Ok x => x | _ => 0%nat end)) in Hn. cbv beta iota in Hn.
  rewrite Hn in C, D, E.
  specialize (E b Hb). destruct E as [E1 E2].
  set (h' := h1_set_payload _ _) in *.
  assert (HF : h1_flags h' = h1_flags (m_hdr m)) by reflexivity.
  assert (HX : h1_exts h' = h1_exts (m_hdr m)) by reflexivity.
  eexists _, _, _. split; [exact C|]. split; [exact D|]. split; [exact E1|].
  split; [rewrite app_length, E2, skipn_length; lia|].
  intros k. destruct (n <=? k)%nat eqn:EK; cbn [orb].
  - apply Nat.leb_le in EK. rewrite nth_error_app2 by (rewrite E2; exact EK). rewrite E2.
    rewrite <- (firstn_skipn n b) at 2. rewrite nth_error_app2 by (rewrite firstn_length; lia).
    rewrite firstn_length. f_equal. lia.
  - apply Nat.leb_gt in EK. rewrite nth_error_app1 by (rewrite E2; exact EK). rewrite <- HF.
    apply octets_idle.
    + rewrite HF, HX. intros T. specialize (Hx T). destruct (h1o_exts _ Hh T) as (Ho & _).
      rewrite Forall_forall in *. intros e He. specialize (Hx e He). destruct (Ho e He) as [_ _ _ _ Hfit]. unfold eh_pad.
      pose proof (Nat.div_mod (len (eh_content e)) 4). lia.
    + rewrite HF. intros Z. enough (12 <= n)%nat by (unfold zeros; rewrite repeat_length; lia).
      assert (O : N.testbit (h1_flags (m_hdr m)) 2 || N.testbit (h1_flags (m_hdr m)) 1 || N.testbit (h1_flags (m_hdr m)) 0 = true).
      { destruct (f1_bits (h1_flags (m_hdr m))) as (Be & Bs & Bp).
        destruct (N.testbit (h1_flags (m_hdr m)) 2) eqn:B2; [reflexivity|]. destruct (N.testbit (h1_flags (m_hdr m)) 1) eqn:B1; [reflexivity|].
        destruct (N.testbit (h1_flags (m_hdr m)) 0) eqn:B0; [reflexivity|]. exfalso. apply Z. apply N.bits_inj. intros i. rewrite N.land_spec, N.bits_0.
        destruct (N.ltb_spec i 3) as [L|L].
        - assert (Hi : i = 0 \/ i = 1 \/ i = 2) by lia. destruct Hi as [->|[->| ->]]; rewrite ?B0, ?B1, ?B2; reflexivity.
        - change 7 with (N.ones 3). rewrite N.ones_spec_high by exact L. apply andb_false_r. }
      rewrite <- Hn. unfold h1_base. rewrite f1_opt_bits, O. lia.
Qed.
Example C21_v1_msg_nonvacuous : exists m w m1,
  v1_new Msgs1Gen.d_EchoRequest 0 7 [] = Ok m /\ v1_marshal Msgs1Gen.d_EchoRequest m = Ok (w, m1) /\ len w = 12%nat /\
  v1_mto Msgs1Gen.d_EchoRequest m (repeat 99 14) = Ok ([50; 1; 0; 4; 0; 0; 0; 0; 0; 7; 99; 99; 99; 99], m1) /\
  map (idle1 (h1_flags (m_hdr m))) (seq 0 14) =
    [false; false; false; false; false; false; false; false; false; false; true; true; false; false].
Proof. do 3 eexists. split; [vm_compute; reflexivity|]. split; [vm_compute; reflexivity|]. repeat split; vm_compute; reflexivity. Qed.
Example C21_v0_msg_nonvacuous : exists m w m1,
  v0_new Msgs0Gen.d_EchoRequest 1 2 3 [] = Ok m /\ v0_marshal Msgs0Gen.d_EchoRequest m = Ok (w, m1) /\ len w = 20%nat /\
  v0_mto Msgs0Gen.d_EchoRequest m (repeat 99 22) = Ok (w ++ [99; 99], m1).
Proof. do 3 eexists. split; [vm_compute; reflexivity|]. split; [vm_compute; reflexivity|]. split; vm_compute; reflexivity. Qed.

Print Assumptions C21_v0_msg_marshal_to.
Print Assumptions C21_v1_msg_marshal_to.
