(** Extension header helpers of gtpv1/message that V1Header.v does not need. *)
From Coq Require Import String.
From Verif Require Import Base V1Header.
Local Open Scope string_scope.
Local Open Scope list_scope.
Local Open Scope N_scope.

(** gtpv1/message/extension-header.go:151-155 IsComprehensionRequired *)
Definition eh_comprehension (e : ext1) : bool := N.shiftr (eh_type e) 7 =? 1.
(** gtpv1/message/header.go:238-242 WithExtensionHeaders: the error of AddExtensionHeaders is
    discarded *)
Definition h1_with_exts (h : hdr1) (es : list ext1) : hdr1 := fst (h1_add_exts h es).
(** gtpv1/message/extension-header.go:10-25 the extension header types the package names *)
Definition ext_types : list (string * N) :=
  [("NoMoreExtensionHeaders", 0); ("MBMSSupportIndication", 1); ("MSInfoChangeReportingSupportIndication", 2);
   ("LongPDCPPDUNumber", 3); ("ServiceClassIndicator", 32); ("UDPPort", 64); ("RANContainer", 129);
   ("LongPDCPPDUNumberRequired", 130); ("XwRANContainer", 131); ("NRRANContainer", 132); ("PDUSessionContainer", 133);
   ("PDCPPDUNumber", 192); ("SuspendRequest", 193); ("SuspendResponse", 194)].
