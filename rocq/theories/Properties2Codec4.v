(** Property C30: User Location Information.  Specifications: UliSpec.v (layout), CodecSpec.v
    (made), Spec.v (PLMN). *)
From Coq Require Import ZArith.
From Verif Require Import Base BaseLemmas Utils V2IE V2IESpec Spec V2Codec V2Codec2 CodecSpec V2Uli UliSpec V2UliProofs PropertiesBase Properties2Codec3.
Open Scope N_scope.
Open Scope list_scope.

(** any subset of the eight components *)
Theorem C30_roundtrip : forall g cgi sai rai tai ecgi lai menbi emenbi, uli_ok cgi sai rai tai ecgi lai menbi emenbi ->
  exists i, made g (new_uli g cgi sai rai tai ecgi lai menbi emenbi) 86 (uli_octets cgi sai rai tai ecgi lai menbi emenbi) i /\
    acc_uli i = Ok (uli_value cgi sai rai tai ecgi lai menbi emenbi) /\
    acc_mcc_mnc_all i = mcc_mnc_result (first_plmn cgi sai rai tai ecgi lai menbi emenbi).
Proof. exact uli_all. Qed.
(** the HasCGI .. HasEMENBI methods of what is decoded *)
Theorem C30_has : forall cgi sai rai tai ecgi lai menbi emenbi,
  let f := uli_value cgi sai rai tai ecgi lai menbi emenbi in
  uli_has 0 f = present cgi /\ uli_has 1 f = present sai /\ uli_has 2 f = present rai /\ uli_has 3 f = present tai /\
  uli_has 4 f = present ecgi /\ uli_has 5 f = present lai /\ uli_has 6 f = present menbi /\ uli_has 7 f = present emenbi.
Proof. intros. apply uli_has_bits. reflexivity. Qed.
(** NewECGI keeps the 28 bits of the cell identity, whatever the caller gives *)
Theorem C30_new_ecgi : forall mcc mnc eci, new_ecgi mcc mnc eci = Loc1 mcc mnc (eci mod 2 ^ 28).
Proof. intros. unfold new_ecgi. f_equal. change 268435455 with (N.ones 28). apply N.land_ones. Qed.
Print Assumptions C30_new_ecgi.
Example C30_new_ecgi_case : new_ecgi [51; 49; 48] [50; 54; 48] 0xFABCDEF1 = Loc1 [51; 49; 48] [50; 54; 48] 0xABCDEF1.
Proof. reflexivity. Qed.
(** bytes after the components are ignored *)
Theorem C30_trailing : forall cgi sai rai tai ecgi lai menbi emenbi q, uli_ok cgi sai rai tai ecgi lai menbi emenbi ->
  uli_parse (uli_octets cgi sai rai tai ecgi lai menbi emenbi ++ q) = Ok (uli_value cgi sai rai tai ecgi lai menbi emenbi).
Proof. intros. now apply parse_all. Qed.
(** a payload cut anywhere is rejected *)
Theorem C30_truncated : forall cgi sai rai tai ecgi lai menbi emenbi t d, uli_ok cgi sai rai tai ecgi lai menbi emenbi ->
  d <> [] -> t ++ d = uli_octets cgi sai rai tai ecgi lai menbi emenbi -> uli_parse t = Err EUnexpectedEOF.
Proof. intros cgi sai rai tai ecgi lai menbi emenbi t d OK D E. apply (parse_cut cgi sai rai tai ecgi lai menbi emenbi OK). now exists d. Qed.
(** any payload at all: accepted exactly when it has the size its first octet asks for, and then
    the components present are the ones that octet announces *)
Theorem C30_any_payload : forall fl r, fl < 256 ->
  if (len (fl :: r) <? uli_size fl)%nat then uli_parse (fl :: r) = Err EUnexpectedEOF
  else exists f, uli_parse (fl :: r) = Ok f /\ u_flags f = fl /\
    present (u_cgi f) = N.testbit fl 0 /\ present (u_sai f) = N.testbit fl 1 /\ present (u_rai f) = N.testbit fl 2 /\
    present (u_tai f) = N.testbit fl 3 /\ present (u_ecgi f) = N.testbit fl 4 /\ present (u_lai f) = N.testbit fl 5 /\
    present (u_menbi f) = N.testbit fl 6 /\ present (u_emenbi f) = N.testbit fl 7.
Proof. exact parse_any. Qed.
Theorem C30_no_panic : forall i, bytes_ok (i2_payload i) ->
  uli_parse (i2_payload i) <> Panic /\ acc_uli i <> Panic /\ acc_uli_info i <> Panic /\ acc_mcc_mnc_all i <> Panic.
Proof. intros i H. split; [now apply uli_parse_safe|]. split; [now apply acc_uli_safe|]. split; [now apply info_safe|now apply mcc_mnc_safe]. Qed.

(** the constructor with positional arguments: right when the cell identity is below 2^20 *)
Theorem C30_args_partial : forall g (hcgi hsai hrai htai hecgi hlai hmenbi hemenbi : bool) mcc mnc lac ci sac rac tac eci menbi emenbi,
  is_mcc mcc -> is_mnc mnc -> lac < 2 ^ 16 -> ci < 2 ^ 16 -> sac < 2 ^ 16 -> rac < 2 ^ 16 -> tac < 2 ^ 16 ->
  eci < 2 ^ 20 -> menbi < 2 ^ 24 -> emenbi < 2 ^ 24 ->
  let c0 := given hcgi (Loc2 mcc mnc lac ci) in let c1 := given hsai (Loc2 mcc mnc lac sac) in let c2 := given hrai (Loc2 mcc mnc lac rac) in
  let c3 := given htai (Loc1 mcc mnc tac) in let c4 := given hecgi (Loc1 mcc mnc eci) in let c5 := given hlai (Loc1 mcc mnc lac) in
  let c6 := given hmenbi (Loc1 mcc mnc menbi) in let c7 := given hemenbi (Loc1 mcc mnc emenbi) in
  exists i, made g (new_uli_args (b2n hcgi) (b2n hsai) (b2n hrai) (b2n htai) (b2n hecgi) (b2n hlai) (b2n hmenbi) (b2n hemenbi)
      mcc mnc lac ci sac rac tac eci menbi emenbi) 86 (uli_octets c0 c1 c2 c3 c4 c5 c6 c7) i /\
    acc_uli i = Ok (uli_value c0 c1 c2 c3 c4 c5 c6 c7).
Proof.
  intros g h0 h1 h2 h3 h4 h5 h6 h7 mcc mnc lac ci sac rac tac eci menbi emenbi M1 M2 A B C D E F G H.
  destruct (args_all g h0 h1 h2 h3 h4 h5 h6 h7 mcc mnc lac ci sac rac tac eci menbi emenbi M1 M2 A B C D E (fun _ => G) (fun _ => H)) as (_ & i & X & Y & _).
  rewrite N.mod_small in X, Y by exact F. exists i. auto.
Qed.
(** a 28-bit E-UTRAN cell identity (TS 29.274 8.21.5) of 2^20 or more loses its upper bits *)
Theorem C30_args_eci_refuted : forall g mcc mnc eci, is_mcc mcc -> is_mnc mnc -> 2 ^ 20 <= eci -> eci < 2 ^ 28 ->
  exists i f, new_uli_args 0 0 0 0 1 0 0 0 mcc mnc 0 0 0 0 0 eci 0 0 = Ok (Some i) /\ acc_uli i = Ok f /\
    u_ecgi f = Some (Loc1 mcc mnc (eci mod 2 ^ 20)) /\ u_ecgi f <> Some (Loc1 mcc mnc eci) /\ (g 86 = false -> wf2 g i).
Proof.
  intros g mcc mnc eci M1 M2 H1 H2.
  destruct (args_all g false false false false true false false false mcc mnc 0 0 0 0 0 eci 0 0 M1 M2) as (_ & i & (X & _ & _ & _ & W) & Y & _); try reflexivity.
  exists i. eexists. split; [exact X|]. split; [exact Y|]. split; [reflexivity|]. split; [|exact W].
  cbn. intros Q. injection Q as Q. change 1048576 with (2 ^ 20) in Q. pose proof (N.mod_lt eci (2 ^ 20)) as L.
  assert (eci mod 2 ^ 20 < eci). { eapply N.lt_le_trans; [apply L; discriminate|exact H1]. } rewrite Q in H. now apply N.lt_irrefl in H.
Qed.
(** the "lazy" constructor: a negative argument leaves its component out *)
Theorem C30_lazy_partial : forall g mcc mnc lac ci sac rac tac eci menbi emenbi,
  is_mcc mcc -> is_mnc mnc -> (lac < 2 ^ 16)%Z -> (ci < 2 ^ 16)%Z -> (sac < 2 ^ 16)%Z -> (rac < 2 ^ 16)%Z -> (tac < 2 ^ 16)%Z ->
  (eci < 2 ^ 20)%Z -> (menbi < 2 ^ 24)%Z -> (emenbi < 2 ^ 24)%Z ->
  (lac < 0 -> ci < 0 /\ sac < 0 /\ rac < 0)%Z ->
  let c0 := zgiven ci (Loc2 mcc mnc (Z.to_N lac)) in let c1 := zgiven sac (Loc2 mcc mnc (Z.to_N lac)) in let c2 := zgiven rac (Loc2 mcc mnc (Z.to_N lac)) in
  let c3 := zgiven tac (Loc1 mcc mnc) in let c4 := zgiven eci (Loc1 mcc mnc) in let c5 := zgiven lac (Loc1 mcc mnc) in
  let c6 := zgiven menbi (Loc1 mcc mnc) in let c7 := zgiven emenbi (Loc1 mcc mnc) in
  exists i, made g (new_uli_lazy mcc mnc lac ci sac rac tac eci menbi emenbi) 86 (uli_octets c0 c1 c2 c3 c4 c5 c6 c7) i /\
    acc_uli i = Ok (uli_value c0 c1 c2 c3 c4 c5 c6 c7).
Proof. exact lazy_all. Qed.
(** UserLocationInfo: right only when all components are of one network, and its Flags are
    always 0 *)
Theorem C30_user_location_info_partial : forall i cgi sai rai tai ecgi lai menbi emenbi mcc mnc, uli_ok cgi sai rai tai ecgi lai menbi emenbi ->
  i2_payload i = uli_octets cgi sai rai tai ecgi lai menbi emenbi -> same_plmn mcc mnc cgi sai rai tai ecgi lai menbi emenbi ->
  acc_uli_info i = Ok (Uli 0 cgi sai rai tai ecgi lai menbi emenbi).
Proof. exact info_same. Qed.
Theorem C30_user_location_info_refuted : forall i tai ecgi, loc1_ok 16 tai -> loc1_ok 32 ecgi ->
  i2_payload i = uli_octets None None None (Some tai) (Some ecgi) None None None ->
  acc_uli_info i = Ok (Uli 0 None None None (Some (Loc1 (l1_mcc ecgi) (l1_mnc ecgi) (l1_x tai))) (Some ecgi) None None None).
Proof. exact info_tai_ecgi. Qed.

Definition x_tai : loc1 := Loc1 x_mcc x_mnc 7.
Definition x_ecgi : loc1 := Loc1 [57; 57; 57] [57; 57] 1000000.
Definition x_cgi : loc2 := Loc2 x_mcc x_mnc 1 2.
Lemma x_ok : uli_ok (Some x_cgi) None None (Some x_tai) (Some x_ecgi) None None None.
Proof.
  unfold uli_ok, opt_ok, loc2_ok, loc1_ok. repeat split; try apply x_mcc_ok; try apply x_mnc_ok; try reflexivity; try (repeat constructor; cbv; discriminate).
Qed.
Example C30_case :
  uli_octets (Some x_cgi) None None (Some x_tai) (Some x_ecgi) None None None =
    [25; 2; 248; 57; 0; 1; 0; 2; 2; 248; 57; 0; 7; 153; 249; 153; 0; 15; 66; 64] /\
  (exists i f, new_uli dg (Some x_cgi) None None (Some x_tai) (Some x_ecgi) None None None = Ok (Some i) /\ acc_uli i = Ok f /\
    u_ecgi f = Some x_ecgi /\ u_sai f = None) /\
  uli_size 25 = 20%nat /\ uli_parse [25; 2; 248; 57; 0; 1; 0; 2; 2; 248; 57; 0; 7; 153; 249; 153; 0; 15; 66] = Err EUnexpectedEOF /\
  (2 ^ 20 <= 16777215 < 2 ^ 28).
Proof.
  split; [reflexivity|]. split; [|split; [reflexivity|split; [reflexivity|split; [discriminate|reflexivity]]]].
  destruct (C30_roundtrip dg _ _ _ _ _ _ _ _ x_ok) as (i & (A & _) & B & _). exists i. eexists. split; [exact A|]. split; [exact B|]. split; reflexivity.
Qed.
Print Assumptions C30_roundtrip.
Print Assumptions C30_has.
Print Assumptions C30_trailing.
Print Assumptions C30_truncated.
Print Assumptions C30_any_payload.
Print Assumptions C30_no_panic.
Print Assumptions C30_args_partial.
Print Assumptions C30_args_eci_refuted.
Print Assumptions C30_lazy_partial.
Print Assumptions C30_user_location_info_partial.
Print Assumptions C30_user_location_info_refuted.
