(** Vocabulary for statements about messages, independent of the marshalling code. *)
From Coq Require Import String.
From Verif Require Import Base V2IE V2IESpec V2Header MsgModel.
Open Scope string_scope.
Open Scope N_scope.
Open Scope list_scope.

(** the non-nil elements *)
Definition nonnil {A} (l : list (option A)) : list A :=
  flat_map (fun o => match o with Some x => [x] | None => [] end) l.
(** all IEs held by the fields of a message *)
Definition present {I} (m : @fmap I) : list I := flat_map (fun kv => nonnil (snd kv)) m.

(** the IEs of the fields listed in [order] *)
Definition ies_of {I} (order : list string) (m : @fmap I) : list I := flat_map (fun f => nonnil (fget m f)) order.

(** The fields of a Go struct: the names are those of the struct, a single-valued field
    holds at most one IE, a list field holds no nil. *)
Definition typed_fields {I} (d : mdesc) (m : @fmap I) : Prop :=
  map fst m = map fst (md_fields d) /\
  (forall f, In (f, FSingle) (md_fields d) -> fget m f = [] \/ exists i, fget m f = [Some i]) /\
  (forall f, ~ In None (fget m f)).

(** octets of a GTPv2 message, TS 29.274 clause 5.1: flags, type, length of what follows
    the first four octets, TEID if the T flag (bit 4) is set, 24-bit sequence number, spare *)
Definition v2_octets (flags typ teid seq spare : N) (body : bytes) : bytes :=
  let rest := (if N.testbit flags 3 then enc32 teid else []) ++ enc24 seq ++ [spare] ++ body in
  [flags; typ] ++ enc16 (N.of_nat (len rest)) ++ rest.

(** TS 29.274 table 6.1-1, the messages this library knows *)
Definition ts29274 (t : N) : string :=
  match t with
  | 1 => "EchoRequest" | 2 => "EchoResponse" | 3 => "VersionNotSupportedIndication"
  | 32 => "CreateSessionRequest" | 33 => "CreateSessionResponse"
  | 34 => "ModifyBearerRequest" | 35 => "ModifyBearerResponse"
  | 36 => "DeleteSessionRequest" | 37 => "DeleteSessionResponse"
  | 38 => "ChangeNotificationRequest" | 39 => "ChangeNotificationResponse"
  | 64 => "ModifyBearerCommand" | 65 => "ModifyBearerFailureIndication"
  | 66 => "DeleteBearerCommand" | 67 => "DeleteBearerFailureIndication"
  | 70 => "DownlinkDataNotificationFailureIndication" | 73 => "StopPagingIndication"
  | 95 => "CreateBearerRequest" | 96 => "CreateBearerResponse"
  | 97 => "UpdateBearerRequest" | 98 => "UpdateBearerResponse"
  | 99 => "DeleteBearerRequest" | 100 => "DeleteBearerResponse"
  | 101 => "DeletePDNConnectionSetRequest" | 102 => "DeletePDNConnectionSetResponse"
  | 130 => "ContextRequest" | 131 => "ContextResponse" | 132 => "ContextAcknowledge"
  | 149 => "DetachNotification" | 150 => "DetachAcknowledge"
  | 162 => "SuspendNotification" | 163 => "SuspendAcknowledge"
  | 164 => "ResumeNotification" | 165 => "ResumeAcknowledge"
  | 170 => "ReleaseAccessBearersRequest" | 171 => "ReleaseAccessBearersResponse"
  | 176 => "DownlinkDataNotification" | 177 => "DownlinkDataNotificationAcknowledge"
  | 179 => "PGWRestartNotification" | 180 => "PGWRestartNotificationAcknowledge"
  | 200 => "UpdatePDNConnectionSetRequest" | 201 => "UpdatePDNConnectionSetResponse"
  | 211 => "ModifyAccessBearersRequest" | 212 => "ModifyAccessBearersResponse"
  | _ => "Generic"
  end.
