(** What a message says about itself: MessageTypeName, MessageType, Version, Sequence and
    TEID / TID of every message.  Printed by tools/gen_names.py from gtpv{0,1,2}/message/*.go;
    it checks that every TEID method has the body modelled below.  No proofs here. *)
From Coq Require Import String Ascii.
From Verif Require Import Base V2Header V1Header V0Header.
Open Scope string_scope.
Open Scope N_scope.
Open Scope list_scope.

(** fmt.Sprintf("%d") of a uint8 *)
Definition digit_char (n : N) : string := String (ascii_of_N (48 + n)) EmptyString.
Definition dec8 (n : N) : string :=
  if n <? 10 then digit_char n
  else if n <? 100 then digit_char (n / 10) ++ digit_char (n mod 10)
  else digit_char (n / 100) ++ digit_char (n / 10 mod 10) ++ digit_char (n mod 10).
Fixpoint lookup (s : string) (l : list (string * string)) : option string :=
  match l with [] => None | (k, v) :: r => if String.eqb k s then Some v else lookup s r end.
(** MessageTypeName of a message of the structure named [s]; only Generic looks at the type *)
Definition name_of (tbl : list (string * string)) (s : string) (t : N) : string :=
  match lookup s tbl with Some n => n | None => "Unknown (" ++ dec8 t ++ ")" end.

(** gtpv2/message: MessageTypeName by structure; any other is Generic (generic.go:131-133) *)
Definition names2 : list (string * string) := [
  ("ChangeNotificationRequest", "Change Notification Request") (* change-notification-req.go:295-297 *);
  ("ChangeNotificationResponse", "Change Notification Response") (* change-notification-res.go:222-224 *);
  ("ContextAcknowledge", "Context Acknowledge") (* context-ack.go:275-277 *);
  ("ContextRequest", "Context Request") (* context-req.go:428-430 *);
  ("ContextResponse", "Context Response") (* context-res.go:599-601 *);
  ("CreateBearerRequest", "Create Bearer Request") (* create-bearer-req.go:408-410 *);
  ("CreateBearerResponse", "Create Bearer Response") (* create-bearer-res.go:497-499 *);
  ("CreateSessionRequest", "Create Session Request") (* create-session-req.go:1127-1129 *);
  ("CreateSessionResponse", "Create Session Response") (* create-session-res.go:662-664 *);
  ("DeleteBearerCommand", "Delete Bearer Command") (* delete-bearer-command.go:258-260 *);
  ("DeleteBearerFailureIndication", "Delete Bearer Failure Indication") (* delete-bearer-failure-indication.go:230-232 *);
  ("DeleteBearerRequest", "Delete Bearer Request") (* delete-bearer-req.go:422-424 *);
  ("DeleteBearerResponse", "Delete Bearer Response") (* delete-bearer-res.go:554-556 *);
  ("DeletePDNConnectionSetRequest", "Delete PDN Connection Set Request") (* delete-pdn-connection-set-req.go:223-225 *);
  ("DeletePDNConnectionSetResponse", "Delete PDN Connection Set Response") (* delete-pdn-connection-set-res.go:172-174 *);
  ("DeleteSessionRequest", "Delete Session Request") (* delete-session-req.go:492-494 *);
  ("DeleteSessionResponse", "Delete Session Response") (* delete-session-res.go:318-320 *);
  ("DetachAcknowledge", "Detach Acknowledge") (* detach-acknowledge.go:172-174 *);
  ("DetachNotification", "Detach Notification") (* detach-notification.go:171-173 *);
  ("DownlinkDataNotificationAcknowledge", "Downlink Data Notification Acknowledge") (* downlink-data-notification-ack.go:241-243 *);
  ("DownlinkDataNotificationFailureIndication", "Downlink Data Notification Failure Indication") (* downlink-data-notification-failure-indication.go:185-187 *);
  ("DownlinkDataNotification", "Downlink Data Notification") (* downlink-data-notification.go:283-285 *);
  ("EchoRequest", "Echo Request") (* echo-req.go:168-170 *);
  ("EchoResponse", "Echo Response") (* echo-res.go:173-175 *);
  ("ModifyAccessBearersRequest", "Modify Access Bearers Request") (* modify-access-bearers-req.go:244-246 *);
  ("ModifyAccessBearersResponse", "Modify Access Bearers Response") (* modify-access-bearers-res.go:244-246 *);
  ("ModifyBearerCommand", "Modify Bearer Command") (* modify-bearer-command.go:230-232 *);
  ("ModifyBearerFailureIndication", "Modify Bearer Failure Indication") (* modify-bearer-failure-indication.go:216-218 *);
  ("ModifyBearerRequest", "Modify Bearer Request") (* modify-bearer-req.go:690-692 *);
  ("ModifyBearerResponse", "Modify Bearer Response") (* modify-bearer-res.go:544-546 *);
  ("PGWRestartNotificationAcknowledge", "PGW Restart Notification Acknowledge") (* pgw-restart-notification-acknowledge.go:157-159 *);
  ("PGWRestartNotification", "PGW Restart Notification") (* pgw-restart-notification.go:195-197 *);
  ("ReleaseAccessBearersRequest", "Release Access Bearers Request") (* release-access-bearers-req.go:196-198 *);
  ("ReleaseAccessBearersResponse", "Release Access Bearers Response") (* release-access-bearers-res.go:211-213 *);
  ("ResumeAcknowledge", "Resume Acknowledge") (* resume-acknowledge.go:134-136 *);
  ("ResumeNotification", "Resume Notification") (* resume-notification.go:176-178 *);
  ("StopPagingIndication", "Stop Paging Indication") (* stop-paging-indication.go:154-156 *);
  ("SuspendAcknowledge", "Suspend Acknowledge") (* suspend-acknowledge.go:157-159 *);
  ("SuspendNotification", "Suspend Notification") (* suspend-notification.go:269-271 *);
  ("UpdateBearerRequest", "Update Bearer Request") (* update-bearer-req.go:408-410 *);
  ("UpdateBearerResponse", "Update Bearer Response") (* update-bearer-res.go:518-520 *);
  ("UpdatePDNConnectionSetRequest", "Update PDN Connection Set Request") (* update-pdn-connection-set-req.go:181-183 *);
  ("UpdatePDNConnectionSetResponse", "Update PDN Connection Set Response") (* update-pdn-connection-set-res.go:186-188 *);
  ("VersionNotSupportedIndication", "Version Not Supported Indication") (* version-not-supported.go:126-128 *)].

(** gtpv1/message: MessageTypeName by structure; any other is Generic (generic.go:110-112) *)
Definition names1 : list (string * string) := [
  ("CreatePDPContextRequest", "Create PDP Context Request") (* create-pdp-context-req.go:697-699 *);
  ("CreatePDPContextResponse", "Create PDP Context Response") (* create-pdp-context-res.go:522-524 *);
  ("DeletePDPContextRequest", "Delete PDP Context Request") (* delete-pdp-context-req.go:253-255 *);
  ("DeletePDPContextResponse", "Delete PDP Context Response") (* delete-pdp-context-res.go:211-213 *);
  ("EchoRequest", "Echo Request") (* echo-req.go:139-141 *);
  ("EchoResponse", "Echo Response") (* echo-res.go:156-158 *);
  ("EndMarker", "End Marker") (* end-marker.go:139-141 *);
  ("ErrorIndication", "Errror Indication") (* error-indication.go:167-169 *);
  ("SupportedExtensionHeaderNotification", "Supported Extension Header Notification") (* supported-extension-header-notification.go:141-143 *);
  ("TPDU", "T-PDU") (* t-pdu.go:87-89 *);
  ("UpdatePDPContextRequest", "Update PDP Context Request") (* update-pdp-context-req.go:573-575 *);
  ("UpdatePDPContextResponse", "Update PDP Context Response") (* update-pdp-context-res.go:437-439 *);
  ("VersionNotSupported", "Version Not Supported") (* version-not-supported.go:119-121 *)].

(** gtpv0/message: MessageTypeName by structure; any other is Generic (generic.go:114-116) *)
Definition names0 : list (string * string) := [
  ("CreatePDPContextRequest", "Create PDP Context Request") (* create-pdp-context-req.go:317-319 *);
  ("CreatePDPContextResponse", "Create PDP Context Response") (* create-pdp-context-res.go:315-317 *);
  ("DeletePDPContextRequest", "Delete PDP Context Request") (* delete-pdp-context-req.go:146-148 *);
  ("DeletePDPContextResponse", "Delete PDP Context Response") (* delete-pdp-context-res.go:157-159 *);
  ("EchoRequest", "Echo Request") (* echo-req.go:147-149 *);
  ("EchoResponse", "Echo Response") (* echo-res.go:159-161 *);
  ("TPDU", "T-PDU") (* t-pdu.go:76-78 *);
  ("UpdatePDPContextRequest", "Update PDP Context Request") (* update-pdp-context-req.go:260-262 *);
  ("UpdatePDPContextResponse", "Update PDP Context Response") (* update-pdp-context-res.go:288-290 *)].

(** gtpv2/message/header.go:229-231, gtpv1/message/header.go:266-268, gtpv0/message/header.go:140-142 Version *)
Definition version2 (h : hdr2) : N := 2.
Definition version1 (h : hdr1) : N := 1.
Definition version0 (h : hdr0) : N := 0.
(** gtpv2/message/header.go:234-236, gtpv1/message/header.go:271-273, gtpv0/message/header.go:145-147 MessageType *)
Definition message_type2 (h : hdr2) : N := h2_type h.
Definition message_type1 (h : hdr1) : N := h1_type h.
Definition message_type0 (h : hdr0) : N := h0_type h.
(** gtpv2/message/header.go:199-201, gtpv1/message/header.go:187-189 Sequence *)
Definition sequence2 (h : hdr2) : N := h2_seq h.
Definition sequence1 (h : hdr1) : N := h1_seq h.
(** TEID of every GTPv2 message: Header.teid(), header.go:185-190 *)
Definition teid2 (h : hdr2) : N := h2_get_teid h.
(** TEID of every GTPv1 message: Header.TEID *)
Definition teid1 (h : hdr1) : N := h1_teid h.
(** TID of every GTPv0 message: Header.tid(), header.go:132-137 *)
Definition tid0 (h : hdr0) : res bytes := h0_tid_str h.
(** gtpv1/message/header.go:192-194 HasSequence, 210-212 HasNPDUNumber, 228-230 HasExtensionHeader *)
Definition has_sequence1 (h : hdr1) : bool := f1_s (h1_flags h).
Definition has_npdu1 (h : hdr1) : bool := f1_pn (h1_flags h).
Definition has_ext1 (h : hdr1) : bool := f1_e (h1_flags h).
