(** Property C20 for every GTPv1 message: which information elements are kept and which are
    dropped.  Specification: Drop1Spec.v (new_drops1, parse_drops1). *)
From Coq Require Import String Permutation.
From Verif Require Import Base BaseLemmas TvIE TvIESpec V1Header V1HeaderSpec
  MsgModel MsgProofs MsgProofs2 GenericMsg MsgSpec MsgSpec1 Msgs1Gen V1Msg Drop1Spec MsgDrop1 PropertiesBase Properties2Msg.
Open Scope string_scope.
Open Scope N_scope.
Open Scope list_scope.

(** an IE is found in a field, or a later IE of its type took its place, unless it is a third
    charging gateway address *)
Theorem C20_v1_new_keeps_all : forall d teid seq pre i post m, In d (d_Generic1 :: all_msgs1) ->
  new_drops1 (md_name d) (given pre) i = false ->
  v1_new d teid seq (pre ++ Some i :: post) = Ok m ->
  (exists f, In f (map fst (md_fields d)) /\ In (Some i) (fget (m_fs m) f)) \/
  (exists f j, In (f, FSingle) (md_fields d) /\ In j (given post) /\ i1_type j = i1_type i /\ fget (m_fs m) f = [Some j]).
Proof. exact new1_keeps_all. Qed.
(** and that one makes no difference to the message *)
Theorem C20_v1_new_drops_all : forall d teid seq pre i post, In d (d_Generic1 :: all_msgs1) ->
  new_drops1 (md_name d) (given pre) i = true ->
  v1_new d teid seq (pre ++ Some i :: post) = v1_new d teid seq (pre ++ post).
Proof. exact new1_drops_all. Qed.
(** the same of a received message *)
Theorem C20_v1_parse_keeps_all : forall b d m pre i post, bytes_ok b -> v1_parse b = Ok (P1 d m) ->
  h1_payload (m_hdr m) = flat_map (wire1 xl1) (pre ++ i :: post) -> Forall (wf1 tv1 xl1) (pre ++ i :: post) ->
  parse_drops1 (md_name d) pre i = false ->
  (exists f, In f (map fst (md_fields d)) /\ In (Some i) (fget (m_fs m) f)) \/
  (exists f j, In (f, FSingle) (md_fields d) /\ In j post /\ i1_type j = i1_type i /\ fget (m_fs m) f = [Some j]).
Proof. exact parse1_keeps_all. Qed.
Theorem C20_v1_parse_drops_all : forall b d m b' m' pre i post, bytes_ok b -> bytes_ok b' -> v1_parse b = Ok (P1 d m) ->
  h1_payload (m_hdr m) = flat_map (wire1 xl1) (pre ++ i :: post) -> Forall (wf1 tv1 xl1) (pre ++ i :: post) ->
  parse_drops1 (md_name d) pre i = true ->
  v1_parse b' = Ok (P1 d m') -> h1_payload (m_hdr m') = flat_map (wire1 xl1) (pre ++ post) -> m_fs m = m_fs m'.
Proof. exact parse1_drops_all. Qed.

(** a Create PDP Context Response built with three gateways and a cause keeps the first two
    and the cause; received, the third takes the place of the second *)
Definition x_gw (n : N) : ie1 := IE1 251 4 [n; n; n; n].
Example C20_v1_new_example : exists m,
  v1_new Msgs1Gen.d_CreatePDPContextResponse 1 7 [Some (x_gw 1); None; Some (x_gw 2); Some (x_gw 3); Some (IE1 1 0 [128])] = Ok m /\
  new_drops1 "CreatePDPContextResponse" (given [Some (x_gw 1); None; Some (x_gw 2)]) (x_gw 3) = true /\
  new_drops1 "CreatePDPContextResponse" (given [Some (x_gw 1); None]) (x_gw 2) = false /\
  new_drops1 "CreatePDPContextResponse" (given [Some (x_gw 1); None; Some (x_gw 2); Some (x_gw 3)]) (IE1 1 0 [128]) = false /\
  fget (m_fs m) "ChargingGatewayAddress" = [Some (x_gw 1)] /\ fget (m_fs m) "AltChargingGatewayAddress" = [Some (x_gw 2)] /\
  fget (m_fs m) "Cause" = [Some (IE1 1 0 [128])].
Proof.
  ok_val (v1_new Msgs1Gen.d_CreatePDPContextResponse 1 7 [Some (x_gw 1); None; Some (x_gw 2); Some (x_gw 3); Some (IE1 1 0 [128])]) ltac:(fun m => exists m). done.
Qed.
Definition x_three (mt : N) : bytes :=
  [48; mt; 0; 21; 0; 0; 0; 1] ++ flat_map (wire1 xl1) [x_gw 1; x_gw 2; x_gw 3].
Example C20_v1_parse_example : exists m m',
  v1_parse (x_three 17) = Ok (P1 Msgs1Gen.d_CreatePDPContextResponse m) /\ v1_parse (x_three 19) = Ok (P1 Msgs1Gen.d_UpdatePDPContextResponse m') /\
  fget (m_fs m) "AltChargingGatewayAddress" = [Some (x_gw 3)] /\ fget (m_fs m') "AltChargingGatewayAddress" = [Some (x_gw 2)] /\
  parse_drops1 "UpdatePDPContextResponse" [x_gw 1; x_gw 2] (x_gw 3) = true /\ parse_drops1 "CreatePDPContextResponse" [x_gw 1; x_gw 2] (x_gw 3) = false.
Proof.
  destruct (v1_parse (x_three 17)) as [[d m|]| |] eqn:E1; vm_compute in E1; try discriminate E1.
  destruct (v1_parse (x_three 19)) as [[d' m'|]| |] eqn:E2; vm_compute in E2; try discriminate E2.
  injection E1 as <- <-. injection E2 as <- <-. do 2 eexists. done.
Qed.

Print Assumptions C20_v1_new_keeps_all.
Print Assumptions C20_v1_new_drops_all.
Print Assumptions C20_v1_parse_keeps_all.
Print Assumptions C20_v1_parse_drops_all.
