(** Message type tables for GTPv1 and GTPv0, independent of the code's switch. *)
From Coq Require Import String.
From Verif Require Import Base.
Open Scope string_scope.
Open Scope N_scope.

(** TS 29.060 table 1 and TS 29.281 table 6.1-1, the messages this library knows *)
Definition ts29060 (t : N) : string :=
  match t with
  | 1 => "EchoRequest" | 2 => "EchoResponse" | 3 => "VersionNotSupported"
  | 16 => "CreatePDPContextRequest" | 17 => "CreatePDPContextResponse"
  | 18 => "UpdatePDPContextRequest" | 19 => "UpdatePDPContextResponse"
  | 20 => "DeletePDPContextRequest" | 21 => "DeletePDPContextResponse"
  | 26 => "ErrorIndication" | 31 => "SupportedExtensionHeaderNotification"
  | 254 => "EndMarker" | 255 => "TPDU"
  | _ => "Generic"
  end.
(** TS 09.60 table 1, the messages this library knows *)
Definition ts0960 (t : N) : string :=
  match t with
  | 1 => "EchoRequest" | 2 => "EchoResponse"
  | 16 => "CreatePDPContextRequest" | 17 => "CreatePDPContextResponse"
  | 18 => "UpdatePDPContextRequest" | 19 => "UpdatePDPContextResponse"
  | 20 => "DeletePDPContextRequest" | 21 => "DeletePDPContextResponse"
  | 255 => "TPDU"
  | _ => "Generic"
  end.
