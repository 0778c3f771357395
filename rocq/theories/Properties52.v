(** Property C52: every named field of a message holds exactly the IEs it is for.
    Specification: FieldSpec.v. *)
From Coq Require Import String.
From Verif Require Import Base BaseLemmas V2IE V2IESpec V2Header MsgModel MsgSpec GenericMsg Msgs2Gen Msgs1Gen Msgs0Gen V2Msg
  TvIE TvIESpec V1Header V0Header V1Msg V0Msg FieldSpec FieldProofs2 PropertiesBase Properties2Msg.
Open Scope string_scope.
Open Scope N_scope.
Open Scope list_scope.

(** ** GTPv2 *)
Theorem C52_v2_new_fields_partial : forall g d teid seq ies m f k, In d all_msgs2 -> In (f, k) (md_fields d) ->
  ~ In (md_name d, f) misplaced_new2 ->
  v2_new g d teid seq ies = Ok m -> fget (m_fs m) f = map Some (holds2 d k f (nonnil ies)).
Proof. exact v2_new_fields. Qed.
Theorem C52_v2_parse_fields_partial : forall g b d m ies f k, v2_parse g b = Ok (d, m) -> In d all_msgs2 ->
  h2_payload (m_hdr m) = flat_map (wire2 g) ies -> Forall (wf2 g) ies -> In (f, k) (md_fields d) ->
  ~ In (md_name d, f) misplaced_parse2 -> fget (m_fs m) f = map Some (holds2 d k f ies).
Proof. exact v2_parse_fields. Qed.
(** two F-TEIDs told apart by their instance, two bearer contexts kept in order *)
Definition x_fteid (n : N) : ie2 := IE2 87 1 n [1] [].
Definition x_bearer (n : N) : ie2 := IE2 93 5 n [73; 0; 1; 0; 5] [x_ebi].
Example C52_v2_example : exists m,
  v2_new dg d_CreateSessionRequest 1 7 [Some (x_fteid 1); Some (x_bearer 0); Some (x_fteid 0); Some (x_bearer 1); Some (x_bearer 0); Some (x_fteid 2)] = Ok m /\
  ~ In ("CreateSessionRequest", "SenderFTEIDC") misplaced_new2 /\
  fget (m_fs m) "SenderFTEIDC" = [Some (x_fteid 0)] /\ fget (m_fs m) "PGWS5S8FTEIDC" = [Some (x_fteid 1)] /\
  fget (m_fs m) "BearerContextsToBeCreated" = [Some (x_bearer 0); Some (x_bearer 0)] /\
  fget (m_fs m) "BearerContextsToBeRemoved" = [Some (x_bearer 1)] /\ fget (m_fs m) "AdditionalIEs" = [Some (x_fteid 2)].
Proof.
  ok_val (v2_new dg d_CreateSessionRequest 1 7 [Some (x_fteid 1); Some (x_bearer 0); Some (x_fteid 0); Some (x_bearer 1); Some (x_bearer 0); Some (x_fteid 2)]) ltac:(fun m => exists m).
  split; [vm_compute; reflexivity|]. split; [|done]. vm_compute. intuition discriminate.
Qed.
(** How much is left out: 24 of 577 fields. *)
Example C52_v2_covered :
  (List.length misplaced_new2, List.length misplaced_parse2, List.length (flat_map md_fields all_msgs2)) = (24, 26, 577)%nat.
Proof. vm_compute. reflexivity. Qed.
(** Each of those really holds something else, for the message made of one IE of the
    given type and instance. *)
Definition wrong_by_new (x : mdesc * string * N * N) : bool :=
  let '(d, f, t, n) := x in
  match v2_new dg d 1 7 [Some (dropped_ie t n)], find (fun p => String.eqb (fst p) f) (md_fields d) with
  | Ok m, Some (_, k) => negb (List.length (fget (m_fs m) f) =? List.length (holds2 d k f [dropped_ie t n]))%nat
  | _, _ => false
  end.
Definition wrong_by_parse (x : mdesc * string * N * N) : bool :=
  let '(d, f, t, n) := x in
  match md_ctor d with
  | Ctor _ _ _ mt _ =>
      match v2_parse dg (v2_octets 72 mt 1 7 0 (wire2 dg (dropped_ie t n))), find (fun p => String.eqb (fst p) f) (md_fields d) with
      | Ok (d', m), Some (_, k) => String.eqb (md_name d) (md_name d') &&
          negb (List.length (fget (m_fs m) f) =? List.length (holds2 d k f [dropped_ie t n]))%nat
      | _, _ => false
      end
  | _ => false
  end.
(** an IE whose type or instance is not that of the field it is found in *)
Definition misplaced_rows : list (mdesc * string * N * N) :=
  [(d_ContextResponse, "UEMMContext", 103, 0);
   (d_DeleteSessionResponse, "PGWNodeLoadControlInformation", 181, 1);
   (d_DeleteSessionResponse, "PGWAPNLoadControlInformation", 181, 2);
   (d_DeleteSessionResponse, "SGWNodeLoadControlInformation", 181, 3);
   (d_DeleteSessionResponse, "PGWOverloadControlInformation", 180, 1);
   (d_DeleteSessionResponse, "SGWOverloadControlInformation", 180, 2);
   (d_ModifyAccessBearersRequest, "SenderFTEIDC", 135, 0);
   (d_ModifyBearerRequest, "MMESGSNIdentifier", 126, 2);
   (d_ModifyBearerResponse, "SGWNodeLoadControlInformation", 180, 0);
   (d_ModifyBearerResponse, "PGWOverloadControlInformation", 180, 1);
   (d_ModifyBearerResponse, "SGWOverloadControlInformation", 180, 2);
   (d_ContextResponse, "AdditionalIEs", 103, 0);
   (d_CreateBearerResponse, "AdditionalIEs", 74, 2);
   (d_DeleteBearerCommand, "AdditionalIEs", 180, 2);
   (d_DeleteBearerFailureIndication, "AdditionalIEs", 180, 2);
   (d_DeleteSessionResponse, "AdditionalIEs", 181, 0);
   (d_ModifyAccessBearersRequest, "AdditionalIEs", 93, 2);
   (d_ModifyAccessBearersResponse, "AdditionalIEs", 93, 2);
   (d_ModifyBearerCommand, "AdditionalIEs", 180, 3);
   (d_ModifyBearerFailureIndication, "AdditionalIEs", 180, 2);
   (d_ModifyBearerRequest, "AdditionalIEs", 126, 2);
   (d_ModifyBearerResponse, "AdditionalIEs", 181, 2);
   (d_UpdateBearerResponse, "AdditionalIEs", 74, 2)].
Theorem C52_v2_misplaced_refuted :
  map (fun x => (md_name (fst (fst (fst x))), snd (fst (fst x)))) misplaced_rows
    = misplaced2 ++ map (fun s => (s, "AdditionalIEs")) unexact_additional2 /\
  forallb (fun x => wrong_by_new x && wrong_by_parse x) misplaced_rows = true /\
  wrong_by_new (d_CreateSessionRequest, "AdditionalIEs", 169, 2) = true /\
  forallb wrong_by_parse [(d_ContextResponse, "MonitoringEventExtensionInformation", 206, 0);
    (d_ContextResponse, "SubscribedAdditionalRRMPolicyIndex", 207, 0); (d_ContextResponse, "AdditionalRRMPolicyIndexInUse", 207, 1)] = true.
Proof. vm_compute. repeat split; reflexivity. Qed.

(** ** GTPv1, GTPv0 *)
Theorem C52_v1_new_fields : forall d teid seq ies m, In d all_msgs1 ->
  v1_new d teid seq ies = Ok m -> contents1 v1_field_types d (m_fs m) (nonnil ies).
Proof. exact v1_new_fields. Qed.
Theorem C52_v1_parse_fields : forall b d m ies, bytes_ok b -> v1_parse b = Ok (P1 d m) -> In d all_msgs1 ->
  h1_payload (m_hdr m) = flat_map (wire1 xl1) ies -> Forall (wf1 tv1 xl1) ies -> contents1 v1_field_types d (m_fs m) ies.
Proof. exact v1_parse_fields. Qed.
Theorem C52_v0_new_fields : forall d seq label tid ies m, In d all_msgs0 ->
  v0_new d seq label tid ies = Ok m -> contents1 v0_field_types d (m_fs m) (nonnil ies).
Proof. exact v0_new_fields. Qed.
Theorem C52_v0_parse_fields : forall b d m ies, bytes_ok b -> v0_parse b = Ok (P0 d m) -> In d all_msgs0 ->
  h0_payload (m_hdr m) = flat_map (wire1 xl0) ies -> Forall (wf1 tv0 xl0) ies -> contents1 v0_field_types d (m_fs m) ies.
Proof. exact v0_parse_fields. Qed.
Definition x_gsn (a : N) : ie1 := IE1 133 4 [10; 0; 0; a].
Example C52_v1_example : exists m,
  v1_new Msgs1Gen.d_CreatePDPContextRequest 1 7 [Some (x_gsn 1); Some (IE1 14 0 [3]); Some (x_gsn 2); Some (IE1 20 0 [5]); Some (IE1 250 1 [9])] = Ok m /\
  fget (m_fs m) "SGSNAddressForSignalling" = [Some (x_gsn 1)] /\ fget (m_fs m) "SGSNAddressForUserTraffic" = [Some (x_gsn 2)] /\
  fget (m_fs m) "NSAPI" = [Some (IE1 20 0 [5])] /\ fget (m_fs m) "LinkedNSAPI" = [] /\
  fget (m_fs m) "AdditionalIEs" = [Some (IE1 250 1 [9])].
Proof.
  ok_val (v1_new Msgs1Gen.d_CreatePDPContextRequest 1 7 [Some (x_gsn 1); Some (IE1 14 0 [3]); Some (x_gsn 2); Some (IE1 20 0 [5]); Some (IE1 250 1 [9])]) ltac:(fun m => exists m).
  done.
Qed.
Example C52_v0_example : exists m,
  v0_new Msgs0Gen.d_CreatePDPContextResponse 7 1 2 [Some (x_gsn 1); Some (IE1 1 0 [128]); Some (x_gsn 2)] = Ok m /\
  fget (m_fs m) "GGSNAddressForSignalling" = [Some (x_gsn 1)] /\ fget (m_fs m) "GGSNAddressForUserTraffic" = [Some (x_gsn 2)].
Proof.
  ok_val (v0_new Msgs0Gen.d_CreatePDPContextResponse 7 1 2 [Some (x_gsn 1); Some (IE1 1 0 [128]); Some (x_gsn 2)]) ltac:(fun m => exists m).
  done.
Qed.

Print Assumptions C52_v2_new_fields_partial.
Print Assumptions C52_v2_parse_fields_partial.
Print Assumptions C52_v2_misplaced_refuted.
Print Assumptions C52_v1_new_fields.
Print Assumptions C52_v1_parse_fields.
Print Assumptions C52_v0_new_fields.
Print Assumptions C52_v0_parse_fields.
