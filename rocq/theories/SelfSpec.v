(** What a datagram says, octet by octet, and the names of the messages.  Independent of the
    model. *)
From Coq Require Import String DecimalString.
From Verif Require Import Base.
Open Scope string_scope.
Open Scope N_scope.
Open Scope list_scope.

(** octet k of the datagram, counted from 0 *)
Definition octet (b : bytes) (k : nat) : N := nth k b 0.
(** n octets from offset k as a number, most significant first *)
Definition number (b : bytes) (k n : nat) : N := fold_left (fun a x => a * 256 + x) (firstn n (skipn k b)) 0.
Definition decimal (n : N) : string := NilZero.string_of_uint (N.to_uint n).
Definition unknown (t : N) : string := String.append "Unknown (" (String.append (decimal t) ")").

(** TS 29.274 table 6.1-1, the messages this library has structures for *)
Definition name29274 (t : N) : string :=
  match t with
  | 1 => "Echo Request" | 2 => "Echo Response" | 3 => "Version Not Supported Indication"
  | 32 => "Create Session Request" | 33 => "Create Session Response"
  | 34 => "Modify Bearer Request" | 35 => "Modify Bearer Response"
  | 36 => "Delete Session Request" | 37 => "Delete Session Response"
  | 38 => "Change Notification Request" | 39 => "Change Notification Response"
  | 64 => "Modify Bearer Command" | 65 => "Modify Bearer Failure Indication"
  | 66 => "Delete Bearer Command" | 67 => "Delete Bearer Failure Indication"
  | 70 => "Downlink Data Notification Failure Indication" | 73 => "Stop Paging Indication"
  | 95 => "Create Bearer Request" | 96 => "Create Bearer Response"
  | 97 => "Update Bearer Request" | 98 => "Update Bearer Response"
  | 99 => "Delete Bearer Request" | 100 => "Delete Bearer Response"
  | 101 => "Delete PDN Connection Set Request" | 102 => "Delete PDN Connection Set Response"
  | 130 => "Context Request" | 131 => "Context Response" | 132 => "Context Acknowledge"
  | 149 => "Detach Notification" | 150 => "Detach Acknowledge"
  | 162 => "Suspend Notification" | 163 => "Suspend Acknowledge"
  | 164 => "Resume Notification" | 165 => "Resume Acknowledge"
  | 170 => "Release Access Bearers Request" | 171 => "Release Access Bearers Response"
  | 176 => "Downlink Data Notification" | 177 => "Downlink Data Notification Acknowledge"
  | 179 => "PGW Restart Notification" | 180 => "PGW Restart Notification Acknowledge"
  | 200 => "Update PDN Connection Set Request" | 201 => "Update PDN Connection Set Response"
  | 211 => "Modify Access Bearers Request" | 212 => "Modify Access Bearers Response"
  | _ => unknown t
  end.
(** TS 29.060 table 1, TS 29.281 table 6.1-1 *)
Definition name29060 (t : N) : string :=
  match t with
  | 1 => "Echo Request" | 2 => "Echo Response" | 3 => "Version Not Supported"
  | 16 => "Create PDP Context Request" | 17 => "Create PDP Context Response"
  | 18 => "Update PDP Context Request" | 19 => "Update PDP Context Response"
  | 20 => "Delete PDP Context Request" | 21 => "Delete PDP Context Response"
  | 26 => "Error Indication" | 31 => "Supported Extension Headers Notification"
  | 254 => "End Marker" | 255 => "G-PDU"
  | _ => unknown t
  end.
(** TS 09.60 table 1 *)
Definition name0960 (t : N) : string :=
  match t with
  | 1 => "Echo Request" | 2 => "Echo Response"
  | 16 => "Create PDP Context Request" | 17 => "Create PDP Context Response"
  | 18 => "Update PDP Context Request" | 19 => "Update PDP Context Response"
  | 20 => "Delete PDP Context Request" | 21 => "Delete PDP Context Response"
  | 255 => "T-PDU"
  | _ => unknown t
  end.
(** two digits per octet, the lower half first; 48 is '0', 97 is 'a' *)
Definition half (x : N) : N := if x <? 10 then 48 + x else 87 + x.
Definition halves (b : bytes) : bytes := flat_map (fun x => [half (x mod 16); half (x / 16)]) b.
