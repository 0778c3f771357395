(** What the error values of gtpv2, gtpv1 and the ie packages print.  No proofs here. *)
From Coq Require Import String.
From Verif Require Import Base Print.
Local Open Scope string_scope.
Local Open Scope N_scope.

(** gtpv2/errors.go:23-154, gtpv1/errors.go:25-41, gtpv2/ie/errors.go:24-27 (also gtpv1/ie and
    gtpv0/ie errors.go:21-24): the error types with fields.  An UnexpectedTypeError holds a
    message; only the name of its Go type is printed, so the model keeps that name. *)
Inductive err_value : Type :=
| CauseNotOK (cause : N) (msg_type msg : string)
| RequiredIEMissing (t : N)
| RequiredParameterMissing (name msg : string)
| UnexpectedType (go_type : string)
| UnexpectedIE (t : N)
| InvalidVersion (v : N)
| InvalidSequence (seq : N)
| InvalidTEID (teid : N)
| UnknownIMSI (imsi : string)
| UnknownAPN (apn : string)
| InvalidSession (imsi : string)
| BearerNotFound (imsi : string)
| HandlerNotFound (msg_type : string)
| ErrorIndicated (teid : N) (peer : string)
| InvalidType (t : N).

(** the Error methods: gtpv2/errors.go:31-33, 41-43, 51-53, 61-63, 71-73, 82-84, 92-94, 103-105,
    113-115, 123-125, 133-135, 143-145, 156-158; gtpv1/errors.go:31-33, 44-46;
    gtpv2/ie/errors.go:30-32, gtpv1/ie/errors.go:27-29, gtpv0/ie/errors.go:27-29.  %T of the
    octet in an UnexpectedIEError prints the name of its Go type. *)
Definition err_text (e : err_value) : string :=
  match e with
  | CauseNotOK c t m => "got non-OK Cause: " ++ pr_d c ++ " in " ++ t ++ "; " ++ m
  | RequiredIEMissing t => "required IE missing: " ++ pr_d t
  | RequiredParameterMissing n m => "required parameter: " ++ n ++ " is missing. " ++ m
  | UnexpectedType t => "got unexpected type of message: *message." ++ t
  | UnexpectedIE t => "got unexpected type of message: " ++ "uint8"
  | InvalidVersion v => "version: " ++ pr_d v ++ " is not acceptable for the receiver"
  | InvalidSequence s => "got invalid Sequence Number: " ++ pr_d s
  | InvalidTEID t => "got invalid TEID: " ++ pr_0x 8 t
  | UnknownIMSI s => "got unknown IMSI: " ++ s
  | UnknownAPN s => "got unknown APN: " ++ s
  | InvalidSession s => "invalid session, IMSI: " ++ s
  | BearerNotFound s => "no Bearer found: " ++ s
  | HandlerNotFound s => "no handlers found for incoming message: " ++ s ++ ", ignoring"
  | ErrorIndicated t p => "error received from " ++ p ++ ", TEIDDataI: " ++ pr_sx t
  | InvalidType t => "got invalid type: " ++ pr_d t
  end.
