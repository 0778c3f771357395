(** GENERATED by tools/extract.py from gtpv2/message/*.go: do not edit. *)
From Coq Require Import String.
From Verif Require Import Base MsgModel.
Open Scope string_scope.
Open Scope N_scope.
Open Scope list_scope.

(** ** ChangeNotificationRequest: struct gtpv2/message/change-notification-req.go:10-25 *)
(** NewChangeNotificationRequest, gtpv2/message/change-notification-req.go:28-72 (dispatch of the given IEs) *)
Definition new_ChangeNotificationRequest : table := Tbl true [
  (1, ASet "IMSI") (* ie.IMSI *);
  (75, ASet "MEI") (* ie.MobileEquipmentIdentity *);
  (77, ASet "IndicationFlags") (* ie.Indication *);
  (82, ASet "RATType") (* ie.RATType *);
  (86, ASet "ULI") (* ie.UserLocationInformation *);
  (145, ASet "UCI") (* ie.UserCSGInformation *);
  (74, ASet "PGWS5S8IPAddressForControlPlane") (* ie.IPAddress *);
  (73, ASet "LinkedEBI") (* ie.EPSBearerID *);
  (178, AApp "PresenceReportingAreaInformation") (* ie.PresenceReportingAreaInformation *);
  (199, ASet "MOExceptionDataCounter") (* ie.Counter *);
  (201, AApp "SecondaryRATUsageDataReport") (* ie.SecondaryRATUsageDataReport *);
  (255, ASet "PrivateExtension") (* ie.PrivateExtension *)
  ] (AApp "AdditionalIEs").

(** ChangeNotificationRequest.UnmarshalBinary, gtpv2/message/change-notification-req.go:187-237 *)
Definition unm_ChangeNotificationRequest : table := Tbl true [
  (1, ASet "IMSI") (* ie.IMSI *);
  (75, ASet "MEI") (* ie.MobileEquipmentIdentity *);
  (77, ASet "IndicationFlags") (* ie.Indication *);
  (82, ASet "RATType") (* ie.RATType *);
  (86, ASet "ULI") (* ie.UserLocationInformation *);
  (145, ASet "UCI") (* ie.UserCSGInformation *);
  (74, ASet "PGWS5S8IPAddressForControlPlane") (* ie.IPAddress *);
  (73, ASet "LinkedEBI") (* ie.EPSBearerID *);
  (178, AApp "PresenceReportingAreaInformation") (* ie.PresenceReportingAreaInformation *);
  (199, ASet "MOExceptionDataCounter") (* ie.Counter *);
  (201, AApp "SecondaryRATUsageDataReport") (* ie.SecondaryRATUsageDataReport *);
  (255, ASet "PrivateExtension") (* ie.PrivateExtension *)
  ] (AApp "AdditionalIEs").

(** fields gtpv2/message/change-notification-req.go:10-25; MarshalTo gtpv2/message/change-notification-req.go:84-175; MarshalLen gtpv2/message/change-notification-req.go:240-287; SetLength gtpv2/message/change-notification-req.go:290-292;
    MessageTypeName "Change Notification Request"; TEID(): return c.Header.teid() *)
Definition d_ChangeNotificationRequest : mdesc := {|
  md_name := "ChangeNotificationRequest";
  md_ctor := Ctor 2 0 1 38 true;
  md_fields := [("IMSI", FSingle); ("MEI", FSingle); ("IndicationFlags", FSingle); ("RATType", FSingle); ("ULI", FSingle); ("UCI", FSingle); ("PGWS5S8IPAddressForControlPlane", FSingle); ("LinkedEBI", FSingle); ("PresenceReportingAreaInformation", FList); ("MOExceptionDataCounter", FSingle); ("SecondaryRATUsageDataReport", FList); ("PrivateExtension", FSingle); ("AdditionalIEs", FList)];
  md_new := new_ChangeNotificationRequest;
  md_unm := unm_ChangeNotificationRequest;
  md_min := 2;
  md_soft := false;
  md_check := false;
  md_reset := true;
  md_steps := [MSingle "IMSI" true;
    MSingle "MEI" true;
    MSingle "IndicationFlags" true;
    MSingle "RATType" true;
    MSingle "ULI" true;
    MSingle "UCI" true;
    MSingle "PGWS5S8IPAddressForControlPlane" true;
    MSingle "LinkedEBI" true;
    MList "PresenceReportingAreaInformation" false true;
    MSingle "MOExceptionDataCounter" true;
    MList "SecondaryRATUsageDataReport" false true;
    MSingle "PrivateExtension" true;
    MList "AdditionalIEs" true true];
  md_lens := [LSingle "IMSI";
    LSingle "MEI";
    LSingle "IndicationFlags";
    LSingle "RATType";
    LSingle "ULI";
    LSingle "UCI";
    LSingle "PGWS5S8IPAddressForControlPlane";
    LSingle "LinkedEBI";
    LList "PresenceReportingAreaInformation" false;
    LSingle "MOExceptionDataCounter";
    LList "SecondaryRATUsageDataReport" false;
    LSingle "PrivateExtension";
    LList "AdditionalIEs" true];
  md_sub := 4 |}.


(** ** ChangeNotificationResponse: struct gtpv2/message/change-notification-res.go:10-20 *)
(** NewChangeNotificationResponse, gtpv2/message/change-notification-res.go:23-57 (dispatch of the given IEs) *)
Definition new_ChangeNotificationResponse : table := Tbl true [
  (1, ASet "IMSI") (* ie.IMSI *);
  (75, ASet "MEI") (* ie.MobileEquipmentIdentity *);
  (2, ASet "Cause") (* ie.Cause *);
  (131, ASet "ChangeReportingAction") (* ie.ChangeReportingAction *);
  (146, ASet "CSGInformationReportingAction") (* ie.CSGInformationReportingAction *);
  (177, AApp "PresenceReportingAreaAction") (* ie.PresenceReportingAreaAction *);
  (255, ASet "PrivateExtension") (* ie.PrivateExtension *)
  ] (AApp "AdditionalIEs").

(** ChangeNotificationResponse.UnmarshalBinary, gtpv2/message/change-notification-res.go:143-179 *)
Definition unm_ChangeNotificationResponse : table := Tbl false [
  (1, ASet "IMSI") (* ie.IMSI *);
  (75, ASet "MEI") (* ie.MobileEquipmentIdentity *);
  (2, ASet "Cause") (* ie.Cause *);
  (131, ASet "ChangeReportingAction") (* ie.ChangeReportingAction *);
  (146, ASet "CSGInformationReportingAction") (* ie.CSGInformationReportingAction *);
  (177, AApp "PresenceReportingAreaAction") (* ie.PresenceReportingAreaAction *);
  (255, ASet "PrivateExtension") (* ie.PrivateExtension *)
  ] (AApp "AdditionalIEs").

(** fields gtpv2/message/change-notification-res.go:10-20; MarshalTo gtpv2/message/change-notification-res.go:69-131; MarshalLen gtpv2/message/change-notification-res.go:182-214; SetLength gtpv2/message/change-notification-res.go:217-219;
    MessageTypeName "Change Notification Response"; TEID(): return c.Header.teid() *)
Definition d_ChangeNotificationResponse : mdesc := {|
  md_name := "ChangeNotificationResponse";
  md_ctor := Ctor 2 0 1 39 true;
  md_fields := [("IMSI", FSingle); ("MEI", FSingle); ("Cause", FSingle); ("ChangeReportingAction", FSingle); ("CSGInformationReportingAction", FSingle); ("PresenceReportingAreaAction", FList); ("PrivateExtension", FSingle); ("AdditionalIEs", FList)];
  md_new := new_ChangeNotificationResponse;
  md_unm := unm_ChangeNotificationResponse;
  md_min := 2;
  md_soft := false;
  md_check := false;
  md_reset := true;
  md_steps := [MSingle "IMSI" true;
    MSingle "MEI" true;
    MSingle "Cause" true;
    MSingle "ChangeReportingAction" true;
    MSingle "CSGInformationReportingAction" true;
    MList "PresenceReportingAreaAction" false true;
    MSingle "PrivateExtension" true;
    MList "AdditionalIEs" true true];
  md_lens := [LSingle "IMSI";
    LSingle "MEI";
    LSingle "Cause";
    LSingle "ChangeReportingAction";
    LSingle "CSGInformationReportingAction";
    LList "PresenceReportingAreaAction" false;
    LSingle "PrivateExtension";
    LList "AdditionalIEs" true];
  md_sub := 4 |}.


(** ** ContextAcknowledge: struct gtpv2/message/context-ack.go:12-24 *)
(** NewContextAcknowledge, gtpv2/message/context-ack.go:27-75 (dispatch of the given IEs) *)
Definition new_ContextAcknowledge : table := Tbl true [
  (2, ASet "Cause") (* ie.Cause *);
  (77, ASet "IndicationFlags") (* ie.Indication *);
  (87, ASet "ForwardingFTEID") (* ie.FullyQualifiedTEID *);
  (93, AApp "BearerContexts") (* ie.BearerContext *);
  (175, AInst [(0, ASet "SGSNNumber"); (1, ASet "MMENumberForMTSMS")] (AApp "AdditionalIEs")) (* ie.NodeNumber *);
  (176, AInst [(0, ASet "SGSNIdentifierForMTSMS"); (1, ASet "MMEIdentifierForMTSMS")] (AApp "AdditionalIEs")) (* ie.NodeIdentifier *);
  (255, ASet "PrivateExtension") (* ie.PrivateExtension *)
  ] (AApp "AdditionalIEs").

(** ContextAcknowledge.UnmarshalBinary, gtpv2/message/context-ack.go:173-226 *)
Definition unm_ContextAcknowledge : table := Tbl true [
  (2, ASet "Cause") (* ie.Cause *);
  (77, ASet "IndicationFlags") (* ie.Indication *);
  (87, ASet "ForwardingFTEID") (* ie.FullyQualifiedTEID *);
  (93, AApp "BearerContexts") (* ie.BearerContext *);
  (175, AInst [(0, ASet "SGSNNumber"); (1, ASet "MMENumberForMTSMS")] (AApp "AdditionalIEs")) (* ie.NodeNumber *);
  (176, AInst [(0, ASet "SGSNIdentifierForMTSMS"); (1, ASet "MMEIdentifierForMTSMS")] (AApp "AdditionalIEs")) (* ie.NodeIdentifier *);
  (255, ASet "PrivateExtension") (* ie.PrivateExtension *)
  ] (AApp "AdditionalIEs").

(** fields gtpv2/message/context-ack.go:12-24; MarshalTo gtpv2/message/context-ack.go:87-161; MarshalLen gtpv2/message/context-ack.go:229-267; SetLength gtpv2/message/context-ack.go:270-272;
    MessageTypeName "Context Acknowledge"; TEID(): return c.Header.teid() *)
Definition d_ContextAcknowledge : mdesc := {|
  md_name := "ContextAcknowledge";
  md_ctor := Ctor 2 0 1 132 true;
  md_fields := [("Cause", FSingle); ("IndicationFlags", FSingle); ("ForwardingFTEID", FSingle); ("BearerContexts", FList); ("SGSNNumber", FSingle); ("MMENumberForMTSMS", FSingle); ("SGSNIdentifierForMTSMS", FSingle); ("MMEIdentifierForMTSMS", FSingle); ("PrivateExtension", FSingle); ("AdditionalIEs", FList)];
  md_new := new_ContextAcknowledge;
  md_unm := unm_ContextAcknowledge;
  md_min := 2;
  md_soft := false;
  md_check := false;
  md_reset := true;
  md_steps := [MSingle "Cause" true;
    MSingle "IndicationFlags" true;
    MSingle "ForwardingFTEID" true;
    MList "BearerContexts" false true;
    MSingle "SGSNNumber" true;
    MSingle "MMENumberForMTSMS" true;
    MSingle "SGSNIdentifierForMTSMS" true;
    MSingle "MMEIdentifierForMTSMS" true;
    MSingle "PrivateExtension" true;
    MList "AdditionalIEs" true true];
  md_lens := [LSingle "Cause";
    LSingle "IndicationFlags";
    LSingle "ForwardingFTEID";
    LList "BearerContexts" false;
    LSingle "SGSNNumber";
    LSingle "MMENumberForMTSMS";
    LSingle "SGSNIdentifierForMTSMS";
    LSingle "MMEIdentifierForMTSMS";
    LSingle "PrivateExtension";
    LList "AdditionalIEs" true];
  md_sub := 4 |}.


(** ** ContextRequest: struct gtpv2/message/context-req.go:12-35 *)
(** NewContextRequest, gtpv2/message/context-req.go:38-108 (dispatch of the given IEs) *)
Definition new_ContextRequest : table := Tbl true [
  (1, ASet "IMSI") (* ie.IMSI *);
  (117, ASet "GUTI") (* ie.GUTI *);
  (86, ASet "RAI") (* ie.UserLocationInformation *);
  (111, ASet "PTMSI") (* ie.PacketTMSI *);
  (112, ASet "PTMSISignature") (* ie.PTMSISignature *);
  (116, ASet "CompleteTAURequestMessage") (* ie.CompleteRequestMessage *);
  (87, ASet "AddressAndTEIDForCPlane") (* ie.FullyQualifiedTEID *);
  (126, ASet "UDPSourcePortNumber") (* ie.PortNumber *);
  (82, ASet "RATType") (* ie.RATType *);
  (77, ASet "Indication") (* ie.Indication *);
  (113, ASet "HopCounter") (* ie.HopCounter *);
  (83, ASet "TargetPLMNID") (* ie.ServingNetwork *);
  (151, ASet "MMESGSNLDN") (* ie.LocalDistinguishedName *);
  (136, AInst [(0, ASet "SGSNNodeName"); (1, ASet "MMENodeName")] (AApp "AdditionalIEs")) (* ie.FullyQualifiedDomainName *);
  (175, ASet "SGSNNumber") (* ie.NodeNumber *);
  (176, AInst [(0, ASet "SGSNIdentifier"); (1, ASet "MMEIdentifier")] (AApp "AdditionalIEs")) (* ie.NodeIdentifier *);
  (194, ASet "CIoTOptimizationsSupportIndication") (* ie.CIoTOptimizationsSupportIndication *);
  (255, ASet "PrivateExtension") (* ie.PrivateExtension *)
  ] (AApp "AdditionalIEs").

(** ContextRequest.UnmarshalBinary, gtpv2/message/context-req.go:272-347 *)
Definition unm_ContextRequest : table := Tbl true [
  (1, ASet "IMSI") (* ie.IMSI *);
  (117, ASet "GUTI") (* ie.GUTI *);
  (86, ASet "RAI") (* ie.UserLocationInformation *);
  (111, ASet "PTMSI") (* ie.PacketTMSI *);
  (112, ASet "PTMSISignature") (* ie.PTMSISignature *);
  (116, ASet "CompleteTAURequestMessage") (* ie.CompleteRequestMessage *);
  (87, ASet "AddressAndTEIDForCPlane") (* ie.FullyQualifiedTEID *);
  (126, ASet "UDPSourcePortNumber") (* ie.PortNumber *);
  (82, ASet "RATType") (* ie.RATType *);
  (77, ASet "Indication") (* ie.Indication *);
  (113, ASet "HopCounter") (* ie.HopCounter *);
  (83, ASet "TargetPLMNID") (* ie.ServingNetwork *);
  (151, ASet "MMESGSNLDN") (* ie.LocalDistinguishedName *);
  (136, AInst [(0, ASet "SGSNNodeName"); (1, ASet "MMENodeName")] (AApp "AdditionalIEs")) (* ie.FullyQualifiedDomainName *);
  (175, ASet "SGSNNumber") (* ie.NodeNumber *);
  (176, AInst [(0, ASet "SGSNIdentifier"); (1, ASet "MMEIdentifier")] (AApp "AdditionalIEs")) (* ie.NodeIdentifier *);
  (194, ASet "CIoTOptimizationsSupportIndication") (* ie.CIoTOptimizationsSupportIndication *);
  (255, ASet "PrivateExtension") (* ie.PrivateExtension *)
  ] (AApp "AdditionalIEs").

(** fields gtpv2/message/context-req.go:12-35; MarshalTo gtpv2/message/context-req.go:120-260; MarshalLen gtpv2/message/context-req.go:350-420; SetLength gtpv2/message/context-req.go:423-425;
    MessageTypeName "Context Request"; TEID(): return c.Header.teid() *)
Definition d_ContextRequest : mdesc := {|
  md_name := "ContextRequest";
  md_ctor := Ctor 2 0 1 130 true;
  md_fields := [("IMSI", FSingle); ("GUTI", FSingle); ("RAI", FSingle); ("PTMSI", FSingle); ("PTMSISignature", FSingle); ("CompleteTAURequestMessage", FSingle); ("AddressAndTEIDForCPlane", FSingle); ("UDPSourcePortNumber", FSingle); ("RATType", FSingle); ("Indication", FSingle); ("HopCounter", FSingle); ("TargetPLMNID", FSingle); ("MMESGSNLDN", FSingle); ("SGSNNodeName", FSingle); ("MMENodeName", FSingle); ("SGSNNumber", FSingle); ("SGSNIdentifier", FSingle); ("MMEIdentifier", FSingle); ("CIoTOptimizationsSupportIndication", FSingle); ("PrivateExtension", FSingle); ("AdditionalIEs", FList)];
  md_new := new_ContextRequest;
  md_unm := unm_ContextRequest;
  md_min := 2;
  md_soft := false;
  md_check := false;
  md_reset := true;
  md_steps := [MSingle "IMSI" true;
    MSingle "GUTI" true;
    MSingle "RAI" true;
    MSingle "PTMSI" true;
    MSingle "PTMSISignature" true;
    MSingle "CompleteTAURequestMessage" true;
    MSingle "AddressAndTEIDForCPlane" true;
    MSingle "UDPSourcePortNumber" true;
    MSingle "RATType" true;
    MSingle "Indication" true;
    MSingle "HopCounter" true;
    MSingle "TargetPLMNID" true;
    MSingle "MMESGSNLDN" true;
    MSingle "SGSNNodeName" true;
    MSingle "MMENodeName" true;
    MSingle "SGSNNumber" true;
    MSingle "SGSNIdentifier" true;
    MSingle "MMEIdentifier" true;
    MSingle "CIoTOptimizationsSupportIndication" true;
    MSingle "PrivateExtension" true;
    MList "AdditionalIEs" true true];
  md_lens := [LSingle "IMSI";
    LSingle "GUTI";
    LSingle "RAI";
    LSingle "PTMSI";
    LSingle "PTMSISignature";
    LSingle "CompleteTAURequestMessage";
    LSingle "AddressAndTEIDForCPlane";
    LSingle "UDPSourcePortNumber";
    LSingle "RATType";
    LSingle "Indication";
    LSingle "HopCounter";
    LSingle "TargetPLMNID";
    LSingle "MMESGSNLDN";
    LSingle "SGSNNodeName";
    LSingle "MMENodeName";
    LSingle "SGSNNumber";
    LSingle "SGSNIdentifier";
    LSingle "MMEIdentifier";
    LSingle "CIoTOptimizationsSupportIndication";
    LSingle "PrivateExtension";
    LList "AdditionalIEs" true];
  md_sub := 4 |}.


(** ** ContextResponse: struct gtpv2/message/context-res.go:12-46 *)
(** NewContextResponse, gtpv2/message/context-res.go:49-168 (dispatch of the given IEs) *)
Definition new_ContextResponse : table := Tbl true [
  (2, ASet "Cause") (* ie.Cause *);
  (1, ASet "IMSI") (* ie.IMSI *);
  (107, AIfNil "UEMMContext" (AApp "AdditionalIEs") (ASet "UEMMContext")) (* ie.MMContextEPSSecurityContextQuadrupletsAndQuintuplets *);
  (103, AIfNil "UEMMContext" (AApp "AdditionalIEs") (ASet "UEMMContext")) (* ie.MMContextGSMKeyAndTriplets *);
  (105, AIfNil "UEMMContext" (AApp "AdditionalIEs") (ASet "UEMMContext")) (* ie.MMContextGSMKeyUsedCipherAndQuintuplets *);
  (106, AIfNil "UEMMContext" (AApp "AdditionalIEs") (ASet "UEMMContext")) (* ie.MMContextUMTSKeyAndQuintuplets *);
  (108, AIfNil "UEMMContext" (AApp "AdditionalIEs") (ASet "UEMMContext")) (* ie.MMContextUMTSKeyQuadrupletsAndQuintuplets *);
  (104, AIfNil "UEMMContext" (AApp "AdditionalIEs") (ASet "UEMMContext")) (* ie.MMContextUMTSKeyUsedCipherAndQuintuplets *);
  (109, AApp "UEPDNConnections") (* ie.PDNConnection *);
  (87, AInst [(0, ASet "SenderFTEID"); (1, ASet "SGWS11S4FTEID")] (AApp "AdditionalIEs")) (* ie.FullyQualifiedTEID *);
  (136, AInst [(0, ASet "SGWNodeName"); (1, ASet "SGSNNodeName"); (2, ASet "MMENodeName")] (AApp "AdditionalIEs")) (* ie.FullyQualifiedDomainName *);
  (77, ASet "IndicationFlags") (* ie.Indication *);
  (96, ASet "TraceInformation") (* ie.TraceInformation *);
  (74, AInst [(0, ASet "S101IPAddress"); (1, ASet "S102IPAddress")] (AApp "AdditionalIEs")) (* ie.IPAddress *);
  (144, AInst [(0, ASet "SubscribedRFSPIndex"); (1, ASet "RFSPIndexInUse")] (AApp "AdditionalIEs")) (* ie.RFSPIndex *);
  (114, ASet "UETimeZone") (* ie.UETimeZone *);
  (151, ASet "MMESGSNLDN") (* ie.LocalDistinguishedName *);
  (162, ASet "MDTConfiguration") (* ie.MDTConfiguration *);
  (145, ASet "UCI") (* ie.UserCSGInformation *);
  (189, ASet "MonitoringEventInformation") (* ie.MonitoringEventInformation *);
  (206, ASet "MonitoringEventExtensionInformation") (* ie.MonitoringEventExtensionInformation *);
  (187, AInst [(0, ASet "UEUsageType"); (1, ASet "RemainingRunningServiceGapTimer")] (AApp "AdditionalIEs")) (* ie.IntegerNumber *);
  (195, AApp "SCEFPDNConnection") (* ie.SCEFPDNConnection *);
  (82, ASet "RATType") (* ie.RATType *);
  (198, ASet "ServingPLMNRateControl") (* ie.ServingPLMNRateControl *);
  (199, ASet "MOExceptionDataCounter") (* ie.Counter *);
  (205, ASet "ExtendedTraceInformation") (* ie.ExtendedTraceInformation *);
  (207, AInst [(0, ASet "SubscribedAdditionalRRMPolicyIndex"); (1, ASet "AdditionalRRMPolicyIndexInUse")] (AApp "AdditionalIEs")) (* ie.AdditionalRRMPolicyIndex *);
  (255, ASet "PrivateExtension") (* ie.PrivateExtension *)
  ] (AApp "AdditionalIEs").

(** ContextResponse.UnmarshalBinary, gtpv2/message/context-res.go:380-493 *)
Definition unm_ContextResponse : table := Tbl true [
  (2, ASet "Cause") (* ie.Cause *);
  (1, ASet "IMSI") (* ie.IMSI *);
  (107, AIfNil "UEMMContext" (AApp "AdditionalIEs") (ASet "UEMMContext")) (* ie.MMContextEPSSecurityContextQuadrupletsAndQuintuplets *);
  (103, AIfNil "UEMMContext" (AApp "AdditionalIEs") (ASet "UEMMContext")) (* ie.MMContextGSMKeyAndTriplets *);
  (105, AIfNil "UEMMContext" (AApp "AdditionalIEs") (ASet "UEMMContext")) (* ie.MMContextGSMKeyUsedCipherAndQuintuplets *);
  (106, AIfNil "UEMMContext" (AApp "AdditionalIEs") (ASet "UEMMContext")) (* ie.MMContextUMTSKeyAndQuintuplets *);
  (108, AIfNil "UEMMContext" (AApp "AdditionalIEs") (ASet "UEMMContext")) (* ie.MMContextUMTSKeyQuadrupletsAndQuintuplets *);
  (104, AIfNil "UEMMContext" (AApp "AdditionalIEs") (ASet "UEMMContext")) (* ie.MMContextUMTSKeyUsedCipherAndQuintuplets *);
  (109, AApp "UEPDNConnections") (* ie.PDNConnection *);
  (87, AInst [(0, ASet "SenderFTEID"); (1, ASet "SGWS11S4FTEID")] (AApp "AdditionalIEs")) (* ie.FullyQualifiedTEID *);
  (136, AInst [(0, ASet "SGWNodeName"); (1, ASet "SGSNNodeName"); (2, ASet "MMENodeName")] (AApp "AdditionalIEs")) (* ie.FullyQualifiedDomainName *);
  (77, ASet "IndicationFlags") (* ie.Indication *);
  (96, ASet "TraceInformation") (* ie.TraceInformation *);
  (74, AInst [(0, ASet "S101IPAddress"); (1, ASet "S102IPAddress")] (AApp "AdditionalIEs")) (* ie.IPAddress *);
  (144, AInst [(0, ASet "SubscribedRFSPIndex"); (1, ASet "RFSPIndexInUse")] (AApp "AdditionalIEs")) (* ie.RFSPIndex *);
  (114, ASet "UETimeZone") (* ie.UETimeZone *);
  (151, ASet "MMESGSNLDN") (* ie.LocalDistinguishedName *);
  (162, ASet "MDTConfiguration") (* ie.MDTConfiguration *);
  (145, ASet "UCI") (* ie.UserCSGInformation *);
  (189, ASet "MonitoringEventInformation") (* ie.MonitoringEventInformation *);
  (187, AInst [(0, ASet "UEUsageType"); (1, ASet "RemainingRunningServiceGapTimer")] (AApp "AdditionalIEs")) (* ie.IntegerNumber *);
  (195, AApp "SCEFPDNConnection") (* ie.SCEFPDNConnection *);
  (82, ASet "RATType") (* ie.RATType *);
  (198, ASet "ServingPLMNRateControl") (* ie.ServingPLMNRateControl *);
  (199, ASet "MOExceptionDataCounter") (* ie.Counter *);
  (205, ASet "ExtendedTraceInformation") (* ie.ExtendedTraceInformation *);
  (255, ASet "PrivateExtension") (* ie.PrivateExtension *)
  ] (AApp "AdditionalIEs").

(** fields gtpv2/message/context-res.go:12-46; MarshalTo gtpv2/message/context-res.go:180-368; MarshalLen gtpv2/message/context-res.go:496-591; SetLength gtpv2/message/context-res.go:594-596;
    MessageTypeName "Context Response"; TEID(): return c.Header.teid() *)
Definition d_ContextResponse : mdesc := {|
  md_name := "ContextResponse";
  md_ctor := Ctor 2 0 1 131 true;
  md_fields := [("Cause", FSingle); ("IMSI", FSingle); ("UEMMContext", FSingle); ("UEPDNConnections", FList); ("SenderFTEID", FSingle); ("SGWS11S4FTEID", FSingle); ("SGWNodeName", FSingle); ("IndicationFlags", FSingle); ("TraceInformation", FSingle); ("S101IPAddress", FSingle); ("S102IPAddress", FSingle); ("SubscribedRFSPIndex", FSingle); ("RFSPIndexInUse", FSingle); ("UETimeZone", FSingle); ("MMESGSNLDN", FSingle); ("MDTConfiguration", FSingle); ("SGSNNodeName", FSingle); ("MMENodeName", FSingle); ("UCI", FSingle); ("MonitoringEventInformation", FSingle); ("MonitoringEventExtensionInformation", FSingle); ("UEUsageType", FSingle); ("SCEFPDNConnection", FList); ("RATType", FSingle); ("ServingPLMNRateControl", FSingle); ("MOExceptionDataCounter", FSingle); ("RemainingRunningServiceGapTimer", FSingle); ("ExtendedTraceInformation", FSingle); ("SubscribedAdditionalRRMPolicyIndex", FSingle); ("AdditionalRRMPolicyIndexInUse", FSingle); ("PrivateExtension", FSingle); ("AdditionalIEs", FList)];
  md_new := new_ContextResponse;
  md_unm := unm_ContextResponse;
  md_min := 2;
  md_soft := false;
  md_check := false;
  md_reset := true;
  md_steps := [MSingle "Cause" true;
    MSingle "IMSI" true;
    MSingle "UEMMContext" true;
    MList "UEPDNConnections" false true;
    MSingle "SenderFTEID" true;
    MSingle "SGWS11S4FTEID" true;
    MSingle "SGWNodeName" true;
    MSingle "IndicationFlags" true;
    MSingle "TraceInformation" true;
    MSingle "S101IPAddress" true;
    MSingle "S102IPAddress" true;
    MSingle "SubscribedRFSPIndex" true;
    MSingle "RFSPIndexInUse" true;
    MSingle "UETimeZone" true;
    MSingle "MMESGSNLDN" true;
    MSingle "MDTConfiguration" true;
    MSingle "SGSNNodeName" true;
    MSingle "MMENodeName" true;
    MSingle "UCI" true;
    MSingle "MonitoringEventInformation" true;
    MSingle "UEUsageType" true;
    MList "SCEFPDNConnection" false true;
    MSingle "RATType" true;
    MSingle "ServingPLMNRateControl" true;
    MSingle "MOExceptionDataCounter" true;
    MSingle "RemainingRunningServiceGapTimer" true;
    MSingle "ExtendedTraceInformation" true;
    MSingle "PrivateExtension" true;
    MList "AdditionalIEs" true true];
  md_lens := [LSingle "Cause";
    LSingle "IMSI";
    LSingle "UEMMContext";
    LList "UEPDNConnections" false;
    LSingle "SenderFTEID";
    LSingle "SGWS11S4FTEID";
    LSingle "SGWNodeName";
    LSingle "IndicationFlags";
    LSingle "TraceInformation";
    LSingle "S101IPAddress";
    LSingle "S102IPAddress";
    LSingle "SubscribedRFSPIndex";
    LSingle "RFSPIndexInUse";
    LSingle "UETimeZone";
    LSingle "MMESGSNLDN";
    LSingle "MDTConfiguration";
    LSingle "SGSNNodeName";
    LSingle "MMENodeName";
    LSingle "UCI";
    LSingle "MonitoringEventInformation";
    LSingle "UEUsageType";
    LList "SCEFPDNConnection" false;
    LSingle "RATType";
    LSingle "ServingPLMNRateControl";
    LSingle "MOExceptionDataCounter";
    LSingle "RemainingRunningServiceGapTimer";
    LSingle "ExtendedTraceInformation";
    LSingle "PrivateExtension";
    LList "AdditionalIEs" true];
  md_sub := 4 |}.


(** ** CreateBearerRequest: struct gtpv2/message/create-bearer-req.go:12-33 *)
(** NewCreateBearerRequest, gtpv2/message/create-bearer-req.go:36-107 (dispatch of the given IEs) *)
Definition new_CreateBearerRequest : table := Tbl true [
  (100, ASet "PTI") (* ie.ProcedureTransactionID *);
  (73, ASet "LinkedEBI") (* ie.EPSBearerID *);
  (78, ASet "PCO") (* ie.ProtocolConfigurationOptions *);
  (93, AApp "BearerContexts") (* ie.BearerContext *);
  (132, AInst [(0, ASet "PGWFQCSID"); (1, ASet "SGWFQCSID")] (AApp "AdditionalIEs")) (* ie.FullyQualifiedCSID *);
  (131, ASet "ChangeReportingAction") (* ie.ChangeReportingAction *);
  (146, ASet "CSGInformationReportingAction") (* ie.CSGInformationReportingAction *);
  (165, ASet "HeNBInformationReporting") (* ie.HeNBInformationReporting *);
  (177, AApp "PresenceReportingAreaAction") (* ie.PresenceReportingAreaAction *);
  (77, ASet "IndicationFlags") (* ie.Indication *);
  (181, AInst [(0, ASet "PGWNodeLoadControlInformation"); (1, ASet "PGWAPNLoadControlInformation"); (2, ASet "SGWNodeLoadControlInformation")] (AApp "AdditionalIEs")) (* ie.LoadControlInformation *);
  (180, AInst [(0, ASet "PGWOverloadControlInformation"); (1, ASet "SGWOverloadControlInformation")] (AApp "AdditionalIEs")) (* ie.OverloadControlInformation *);
  (118, ASet "NBIFOMContainer") (* ie.FContainer *);
  (255, ASet "PrivateExtension") (* ie.PrivateExtension *)
  ] (AApp "AdditionalIEs").

(** CreateBearerRequest.UnmarshalBinary, gtpv2/message/create-bearer-req.go:259-332 *)
Definition unm_CreateBearerRequest : table := Tbl false [
  (100, ASet "PTI") (* ie.ProcedureTransactionID *);
  (73, ASet "LinkedEBI") (* ie.EPSBearerID *);
  (78, ASet "PCO") (* ie.ProtocolConfigurationOptions *);
  (93, AApp "BearerContexts") (* ie.BearerContext *);
  (132, AInst [(0, ASet "PGWFQCSID"); (1, ASet "SGWFQCSID")] (AApp "AdditionalIEs")) (* ie.FullyQualifiedCSID *);
  (131, ASet "ChangeReportingAction") (* ie.ChangeReportingAction *);
  (146, ASet "CSGInformationReportingAction") (* ie.CSGInformationReportingAction *);
  (165, ASet "HeNBInformationReporting") (* ie.HeNBInformationReporting *);
  (177, AApp "PresenceReportingAreaAction") (* ie.PresenceReportingAreaAction *);
  (77, ASet "IndicationFlags") (* ie.Indication *);
  (181, AInst [(0, ASet "PGWNodeLoadControlInformation"); (1, ASet "PGWAPNLoadControlInformation"); (2, ASet "SGWNodeLoadControlInformation")] (AApp "AdditionalIEs")) (* ie.LoadControlInformation *);
  (180, AInst [(0, ASet "PGWOverloadControlInformation"); (1, ASet "SGWOverloadControlInformation")] (AApp "AdditionalIEs")) (* ie.OverloadControlInformation *);
  (118, ASet "NBIFOMContainer") (* ie.FContainer *);
  (255, ASet "PrivateExtension") (* ie.PrivateExtension *)
  ] (AApp "AdditionalIEs").

(** fields gtpv2/message/create-bearer-req.go:12-33; MarshalTo gtpv2/message/create-bearer-req.go:119-247; MarshalLen gtpv2/message/create-bearer-req.go:335-400; SetLength gtpv2/message/create-bearer-req.go:403-405;
    MessageTypeName "Create Bearer Request"; TEID(): return c.Header.teid() *)
Definition d_CreateBearerRequest : mdesc := {|
  md_name := "CreateBearerRequest";
  md_ctor := Ctor 2 0 1 95 true;
  md_fields := [("PTI", FSingle); ("LinkedEBI", FSingle); ("PCO", FSingle); ("BearerContexts", FList); ("PGWFQCSID", FSingle); ("SGWFQCSID", FSingle); ("ChangeReportingAction", FSingle); ("CSGInformationReportingAction", FSingle); ("HeNBInformationReporting", FSingle); ("PresenceReportingAreaAction", FList); ("IndicationFlags", FSingle); ("PGWNodeLoadControlInformation", FSingle); ("PGWAPNLoadControlInformation", FSingle); ("SGWNodeLoadControlInformation", FSingle); ("PGWOverloadControlInformation", FSingle); ("SGWOverloadControlInformation", FSingle); ("NBIFOMContainer", FSingle); ("PrivateExtension", FSingle); ("AdditionalIEs", FList)];
  md_new := new_CreateBearerRequest;
  md_unm := unm_CreateBearerRequest;
  md_min := 2;
  md_soft := false;
  md_check := false;
  md_reset := true;
  md_steps := [MSingle "PTI" true;
    MSingle "LinkedEBI" true;
    MSingle "PCO" true;
    MList "BearerContexts" false true;
    MSingle "PGWFQCSID" true;
    MSingle "SGWFQCSID" true;
    MSingle "ChangeReportingAction" true;
    MSingle "CSGInformationReportingAction" true;
    MSingle "HeNBInformationReporting" true;
    MList "PresenceReportingAreaAction" false true;
    MSingle "IndicationFlags" true;
    MSingle "PGWNodeLoadControlInformation" true;
    MSingle "PGWAPNLoadControlInformation" true;
    MSingle "SGWNodeLoadControlInformation" true;
    MSingle "PGWOverloadControlInformation" true;
    MSingle "SGWOverloadControlInformation" true;
    MSingle "NBIFOMContainer" true;
    MSingle "PrivateExtension" true;
    MList "AdditionalIEs" true true];
  md_lens := [LSingle "PTI";
    LSingle "LinkedEBI";
    LSingle "PCO";
    LList "BearerContexts" false;
    LSingle "PGWFQCSID";
    LSingle "SGWFQCSID";
    LSingle "ChangeReportingAction";
    LSingle "CSGInformationReportingAction";
    LSingle "HeNBInformationReporting";
    LList "PresenceReportingAreaAction" false;
    LSingle "IndicationFlags";
    LSingle "PGWNodeLoadControlInformation";
    LSingle "PGWAPNLoadControlInformation";
    LSingle "SGWNodeLoadControlInformation";
    LSingle "PGWOverloadControlInformation";
    LSingle "SGWOverloadControlInformation";
    LSingle "NBIFOMContainer";
    LSingle "PrivateExtension";
    LList "AdditionalIEs" true];
  md_sub := 4 |}.


(** ** CreateBearerResponse: struct gtpv2/message/create-bearer-res.go:12-38 *)
(** NewCreateBearerResponse, gtpv2/message/create-bearer-res.go:41-135 (dispatch of the given IEs) *)
Definition new_CreateBearerResponse : table := Tbl true [
  (2, ASet "Cause") (* ie.Cause *);
  (93, AApp "BearerContexts") (* ie.BearerContext *);
  (3, ASet "Recovery") (* ie.Recovery *);
  (132, AInst [(0, ASet "MMEFQCSID"); (1, ASet "SGWFQCSID"); (2, ASet "EPDGFQCSID"); (3, ASet "TWANFQCSID")] (AApp "AdditionalIEs")) (* ie.FullyQualifiedCSID *);
  (78, ASet "PCO") (* ie.ProtocolConfigurationOptions *);
  (114, ASet "UETimeZone") (* ie.UETimeZone *);
  (86, ASet "ULI") (* ie.UserLocationInformation *);
  (169, AInst [(0, ASet "TWANIdentifier"); (1, ASet "WLANLocationInformation")] (AApp "AdditionalIEs")) (* ie.TWANIdentifier *);
  (179, AInst [(1, ASet "WLANLocationTimestamp")] (AApp "AdditionalIEs")) (* ie.TWANIdentifierTimestamp *);
  (180, AInst [(0, ASet "MMEOverloadControlInformation"); (1, ASet "SGWOverloadControlInformation"); (2, ASet "TWANePDGOverloadControlInformation")] (AApp "AdditionalIEs")) (* ie.OverloadControlInformation *);
  (177, AApp "PresenceReportingAction") (* ie.PresenceReportingAreaAction *);
  (74, AInst [(0, ASet "MMESGSNIdentifier"); (1, ASet "UELocalIPAddress")] (ANop)) (* ie.IPAddress *);
  (126, AInst [(0, ASet "UEUDPPort"); (1, ASet "UETCPPort")] (AApp "AdditionalIEs")) (* ie.PortNumber *);
  (118, ASet "NBIFOMContainer") (* ie.FContainer *);
  (255, ASet "PrivateExtension") (* ie.PrivateExtension *)
  ] (AApp "AdditionalIEs").

(** CreateBearerResponse.UnmarshalBinary, gtpv2/message/create-bearer-res.go:317-406 *)
Definition unm_CreateBearerResponse : table := Tbl true [
  (2, ASet "Cause") (* ie.Cause *);
  (93, AApp "BearerContexts") (* ie.BearerContext *);
  (3, ASet "Recovery") (* ie.Recovery *);
  (132, AInst [(0, ASet "MMEFQCSID"); (1, ASet "SGWFQCSID"); (2, ASet "EPDGFQCSID"); (3, ASet "TWANFQCSID")] (ANop)) (* ie.FullyQualifiedCSID *);
  (78, ASet "PCO") (* ie.ProtocolConfigurationOptions *);
  (114, ASet "UETimeZone") (* ie.UETimeZone *);
  (86, ASet "ULI") (* ie.UserLocationInformation *);
  (169, AInst [(0, ASet "TWANIdentifier"); (1, ASet "WLANLocationInformation")] (ANop)) (* ie.TWANIdentifier *);
  (179, AInst [(1, ASet "WLANLocationTimestamp")] (ANop)) (* ie.TWANIdentifierTimestamp *);
  (180, AInst [(0, ASet "MMEOverloadControlInformation"); (1, ASet "SGWOverloadControlInformation"); (2, ASet "TWANePDGOverloadControlInformation")] (ANop)) (* ie.OverloadControlInformation *);
  (177, AApp "PresenceReportingAction") (* ie.PresenceReportingAreaAction *);
  (74, AInst [(0, ASet "MMESGSNIdentifier"); (1, ASet "UELocalIPAddress")] (ANop)) (* ie.IPAddress *);
  (126, AInst [(0, ASet "UEUDPPort"); (1, ASet "UETCPPort")] (ANop)) (* ie.PortNumber *);
  (118, ASet "NBIFOMContainer") (* ie.FContainer *);
  (255, ASet "PrivateExtension") (* ie.PrivateExtension *)
  ] (AApp "AdditionalIEs").

(** fields gtpv2/message/create-bearer-res.go:12-38; MarshalTo gtpv2/message/create-bearer-res.go:147-305; MarshalLen gtpv2/message/create-bearer-res.go:409-489; SetLength gtpv2/message/create-bearer-res.go:492-494;
    MessageTypeName "Create Bearer Response"; TEID(): return c.Header.teid() *)
Definition d_CreateBearerResponse : mdesc := {|
  md_name := "CreateBearerResponse";
  md_ctor := Ctor 2 0 1 96 true;
  md_fields := [("Cause", FSingle); ("BearerContexts", FList); ("Recovery", FSingle); ("MMEFQCSID", FSingle); ("SGWFQCSID", FSingle); ("EPDGFQCSID", FSingle); ("TWANFQCSID", FSingle); ("PCO", FSingle); ("UETimeZone", FSingle); ("ULI", FSingle); ("TWANIdentifier", FSingle); ("MMEOverloadControlInformation", FSingle); ("SGWOverloadControlInformation", FSingle); ("PresenceReportingAction", FList); ("MMESGSNIdentifier", FSingle); ("TWANePDGOverloadControlInformation", FSingle); ("WLANLocationInformation", FSingle); ("WLANLocationTimestamp", FSingle); ("UELocalIPAddress", FSingle); ("UEUDPPort", FSingle); ("NBIFOMContainer", FSingle); ("UETCPPort", FSingle); ("PrivateExtension", FSingle); ("AdditionalIEs", FList)];
  md_new := new_CreateBearerResponse;
  md_unm := unm_CreateBearerResponse;
  md_min := 2;
  md_soft := false;
  md_check := false;
  md_reset := true;
  md_steps := [MSingle "Cause" true;
    MList "BearerContexts" false true;
    MSingle "Recovery" true;
    MSingle "MMEFQCSID" true;
    MSingle "SGWFQCSID" true;
    MSingle "EPDGFQCSID" true;
    MSingle "TWANFQCSID" true;
    MSingle "PCO" true;
    MSingle "UETimeZone" true;
    MSingle "ULI" true;
    MSingle "TWANIdentifier" true;
    MSingle "MMEOverloadControlInformation" true;
    MSingle "SGWOverloadControlInformation" true;
    MList "PresenceReportingAction" false true;
    MSingle "MMESGSNIdentifier" true;
    MSingle "TWANePDGOverloadControlInformation" true;
    MSingle "WLANLocationInformation" true;
    MSingle "WLANLocationTimestamp" true;
    MSingle "UELocalIPAddress" true;
    MSingle "UEUDPPort" true;
    MSingle "NBIFOMContainer" true;
    MSingle "UETCPPort" true;
    MSingle "PrivateExtension" true;
    MList "AdditionalIEs" true true];
  md_lens := [LSingle "Cause";
    LList "BearerContexts" false;
    LSingle "Recovery";
    LSingle "MMEFQCSID";
    LSingle "SGWFQCSID";
    LSingle "EPDGFQCSID";
    LSingle "TWANFQCSID";
    LSingle "PCO";
    LSingle "UETimeZone";
    LSingle "ULI";
    LSingle "TWANIdentifier";
    LSingle "MMEOverloadControlInformation";
    LSingle "SGWOverloadControlInformation";
    LList "PresenceReportingAction" false;
    LSingle "MMESGSNIdentifier";
    LSingle "TWANePDGOverloadControlInformation";
    LSingle "WLANLocationInformation";
    LSingle "WLANLocationTimestamp";
    LSingle "UELocalIPAddress";
    LSingle "UEUDPPort";
    LSingle "NBIFOMContainer";
    LSingle "UETCPPort";
    LSingle "PrivateExtension";
    LList "AdditionalIEs" true];
  md_sub := 4 |}.


(** ** CreateSessionRequest: struct gtpv2/message/create-session-req.go:12-80 *)
(** NewCreateSessionRequest, gtpv2/message/create-session-req.go:83-276 (dispatch of the given IEs) *)
Definition new_CreateSessionRequest : table := Tbl true [
  (1, ASet "IMSI") (* ie.IMSI *);
  (76, ASet "MSISDN") (* ie.MSISDN *);
  (75, ASet "MEI") (* ie.MobileEquipmentIdentity *);
  (86, AInst [(0, ASet "ULI"); (1, ASet "ULIForSGW")] (AApp "AdditionalIEs")) (* ie.UserLocationInformation *);
  (83, ASet "ServingNetwork") (* ie.ServingNetwork *);
  (82, ASet "RATType") (* ie.RATType *);
  (77, ASet "IndicationFlags") (* ie.Indication *);
  (87, AInst [(0, ASet "SenderFTEIDC"); (1, ASet "PGWS5S8FTEIDC")] (AApp "AdditionalIEs")) (* ie.FullyQualifiedTEID *);
  (71, ASet "APN") (* ie.AccessPointName *);
  (128, ASet "SelectionMode") (* ie.SelectionMode *);
  (99, ASet "PDNType") (* ie.PDNType *);
  (79, ASet "PAA") (* ie.PDNAddressAllocation *);
  (127, ASet "APNRestriction") (* ie.APNRestriction *);
  (72, ASet "AMBR") (* ie.AggregateMaximumBitRate *);
  (73, ASet "LinkedEBI") (* ie.EPSBearerID *);
  (174, ASet "TWMI") (* ie.TrustedWLANModeIndication *);
  (78, ASet "PCO") (* ie.ProtocolConfigurationOptions *);
  (93, AInst [(0, AApp "BearerContextsToBeCreated"); (1, AApp "BearerContextsToBeRemoved")] (AApp "AdditionalIEs")) (* ie.BearerContext *);
  (132, AInst [(0, ASet "MMEFQCSID"); (1, ASet "SGWFQCSID"); (2, ASet "EPDGFQCSID"); (3, ASet "TWANFQCSID")] (AApp "AdditionalIEs")) (* ie.FullyQualifiedCSID *);
  (96, ASet "TraceInformation") (* ie.TraceInformation *);
  (3, ASet "Recovery") (* ie.Recovery *);
  (114, ASet "UETimeZone") (* ie.UETimeZone *);
  (145, ASet "UCI") (* ie.UserCSGInformation *);
  (95, ASet "ChargingCharacteristics") (* ie.ChargingCharacteristics *);
  (151, AInst [(0, ASet "MMESGSNLDN"); (1, ASet "SGWLDN"); (2, ASet "EPDGLDN"); (3, ASet "TWANLDN")] (AApp "AdditionalIEs")) (* ie.LocalDistinguishedName *);
  (157, ASet "SignallingPriorityIndication") (* ie.SignallingPriorityIndication *);
  (74, AInst [(0, ASet "UELocalIPAddress"); (1, ASet "HeNBLocalIPAddress"); (2, ASet "MMESGSNIdentifier"); (3, ASet "EPDGIPAddress")] (AApp "AdditionalIEs")) (* ie.IPAddress *);
  (126, AInst [(0, ASet "UEUDPPort"); (1, ASet "HeNBUDPPort"); (2, ASet "UETCPPort")] (AApp "AdditionalIEs")) (* ie.PortNumber *);
  (163, ASet "APCO") (* ie.AdditionalProtocolConfigurationOptions *);
  (169, AInst [(0, ASet "TWANIdentifier"); (1, ASet "WLANLocationInformation")] (ANop)) (* ie.TWANIdentifier *);
  (173, ASet "CNOperatorSelectionEntity") (* ie.CNOperatorSelectionEntity *);
  (178, AApp "PresenceReportingAreaInformation") (* ie.PresenceReportingAreaInformation *);
  (180, AInst [(0, ASet "MMESGSNOverloadControlInformation"); (1, ASet "SGWOverloadControlInformation"); (2, ASet "TWANePDGOverloadControlInformation")] (AApp "AdditionalIEs")) (* ie.OverloadControlInformation *);
  (188, ASet "OriginationTimeStamp") (* ie.MillisecondTimeStamp *);
  (187, ASet "MaximumWaitTime") (* ie.IntegerNumber *);
  (179, ASet "WLANLocationTimeStamp") (* ie.TWANIdentifierTimestamp *);
  (118, ASet "NBIFOMContainer") (* ie.FContainer *);
  (191, AApp "RemoteUEContextConnected") (* ie.RemoteUEContext *);
  (176, ASet "TGPPAAAServerIdentifier") (* ie.NodeIdentifier *);
  (197, ASet "EPCO") (* ie.ExtendedProtocolConfigurationOptions *);
  (198, ASet "ServingPLMNRateControl") (* ie.ServingPLMNRateControl *);
  (199, ASet "MOExceptionDataCounter") (* ie.Counter *);
  (200, ASet "MappedUEUsageType") (* ie.MappedUEUsageType *);
  (136, ASet "SGWUNodeName") (* ie.FullyQualifiedDomainName *);
  (201, AApp "SecondaryRATUsageDataReport") (* ie.SecondaryRATUsageDataReport *);
  (202, ASet "UPFunctionSelectionIndicationFlags") (* ie.UPFunctionSelectionIndicationFlags *);
  (204, ASet "APNRateControlStatus") (* ie.APNRateControlStatus *);
  (255, ASet "PrivateExtension") (* ie.PrivateExtension *)
  ] (AApp "AdditionalIEs").

(** CreateSessionRequest.UnmarshalBinary, gtpv2/message/create-session-req.go:709-910 *)
Definition unm_CreateSessionRequest : table := Tbl true [
  (1, ASet "IMSI") (* ie.IMSI *);
  (76, ASet "MSISDN") (* ie.MSISDN *);
  (75, ASet "MEI") (* ie.MobileEquipmentIdentity *);
  (86, AInst [(0, ASet "ULI"); (1, ASet "ULIForSGW")] (AApp "AdditionalIEs")) (* ie.UserLocationInformation *);
  (83, ASet "ServingNetwork") (* ie.ServingNetwork *);
  (82, ASet "RATType") (* ie.RATType *);
  (77, ASet "IndicationFlags") (* ie.Indication *);
  (87, AInst [(0, ASet "SenderFTEIDC"); (1, ASet "PGWS5S8FTEIDC")] (AApp "AdditionalIEs")) (* ie.FullyQualifiedTEID *);
  (71, ASet "APN") (* ie.AccessPointName *);
  (128, ASet "SelectionMode") (* ie.SelectionMode *);
  (99, ASet "PDNType") (* ie.PDNType *);
  (79, ASet "PAA") (* ie.PDNAddressAllocation *);
  (127, ASet "APNRestriction") (* ie.APNRestriction *);
  (72, ASet "AMBR") (* ie.AggregateMaximumBitRate *);
  (73, ASet "LinkedEBI") (* ie.EPSBearerID *);
  (174, ASet "TWMI") (* ie.TrustedWLANModeIndication *);
  (78, ASet "PCO") (* ie.ProtocolConfigurationOptions *);
  (93, AInst [(0, AApp "BearerContextsToBeCreated"); (1, AApp "BearerContextsToBeRemoved")] (AApp "AdditionalIEs")) (* ie.BearerContext *);
  (132, AInst [(0, ASet "MMEFQCSID"); (1, ASet "SGWFQCSID"); (2, ASet "EPDGFQCSID"); (3, ASet "TWANFQCSID")] (AApp "AdditionalIEs")) (* ie.FullyQualifiedCSID *);
  (96, ASet "TraceInformation") (* ie.TraceInformation *);
  (3, ASet "Recovery") (* ie.Recovery *);
  (114, ASet "UETimeZone") (* ie.UETimeZone *);
  (145, ASet "UCI") (* ie.UserCSGInformation *);
  (95, ASet "ChargingCharacteristics") (* ie.ChargingCharacteristics *);
  (151, AInst [(0, ASet "MMESGSNLDN"); (1, ASet "SGWLDN"); (2, ASet "EPDGLDN"); (3, ASet "TWANLDN")] (AApp "AdditionalIEs")) (* ie.LocalDistinguishedName *);
  (157, ASet "SignallingPriorityIndication") (* ie.SignallingPriorityIndication *);
  (74, AInst [(0, ASet "UELocalIPAddress"); (1, ASet "HeNBLocalIPAddress"); (2, ASet "MMESGSNIdentifier"); (3, ASet "EPDGIPAddress")] (AApp "AdditionalIEs")) (* ie.IPAddress *);
  (126, AInst [(0, ASet "UEUDPPort"); (1, ASet "HeNBUDPPort"); (2, ASet "UETCPPort")] (AApp "AdditionalIEs")) (* ie.PortNumber *);
  (163, ASet "APCO") (* ie.AdditionalProtocolConfigurationOptions *);
  (169, AInst [(0, ASet "TWANIdentifier"); (1, ASet "WLANLocationInformation")] (AApp "AdditionalIEs")) (* ie.TWANIdentifier *);
  (173, ASet "CNOperatorSelectionEntity") (* ie.CNOperatorSelectionEntity *);
  (178, AApp "PresenceReportingAreaInformation") (* ie.PresenceReportingAreaInformation *);
  (180, AInst [(0, ASet "MMESGSNOverloadControlInformation"); (1, ASet "SGWOverloadControlInformation"); (2, ASet "TWANePDGOverloadControlInformation")] (AApp "AdditionalIEs")) (* ie.OverloadControlInformation *);
  (188, ASet "OriginationTimeStamp") (* ie.MillisecondTimeStamp *);
  (187, ASet "MaximumWaitTime") (* ie.IntegerNumber *);
  (179, ASet "WLANLocationTimeStamp") (* ie.TWANIdentifierTimestamp *);
  (118, ASet "NBIFOMContainer") (* ie.FContainer *);
  (191, AApp "RemoteUEContextConnected") (* ie.RemoteUEContext *);
  (176, ASet "TGPPAAAServerIdentifier") (* ie.NodeIdentifier *);
  (197, ASet "EPCO") (* ie.ExtendedProtocolConfigurationOptions *);
  (198, ASet "ServingPLMNRateControl") (* ie.ServingPLMNRateControl *);
  (199, ASet "MOExceptionDataCounter") (* ie.Counter *);
  (200, ASet "MappedUEUsageType") (* ie.MappedUEUsageType *);
  (136, ASet "SGWUNodeName") (* ie.FullyQualifiedDomainName *);
  (201, AApp "SecondaryRATUsageDataReport") (* ie.SecondaryRATUsageDataReport *);
  (202, ASet "UPFunctionSelectionIndicationFlags") (* ie.UPFunctionSelectionIndicationFlags *);
  (204, ASet "APNRateControlStatus") (* ie.APNRateControlStatus *);
  (255, ASet "PrivateExtension") (* ie.PrivateExtension *)
  ] (AApp "AdditionalIEs").

(** fields gtpv2/message/create-session-req.go:12-80; MarshalTo gtpv2/message/create-session-req.go:288-697; MarshalLen gtpv2/message/create-session-req.go:913-1119; SetLength gtpv2/message/create-session-req.go:1122-1124;
    MessageTypeName "Create Session Request"; TEID(): return c.Header.teid() *)
Definition d_CreateSessionRequest : mdesc := {|
  md_name := "CreateSessionRequest";
  md_ctor := Ctor 2 0 1 32 true;
  md_fields := [("IMSI", FSingle); ("MSISDN", FSingle); ("MEI", FSingle); ("ULI", FSingle); ("ServingNetwork", FSingle); ("RATType", FSingle); ("IndicationFlags", FSingle); ("SenderFTEIDC", FSingle); ("PGWS5S8FTEIDC", FSingle); ("APN", FSingle); ("SelectionMode", FSingle); ("PDNType", FSingle); ("PAA", FSingle); ("APNRestriction", FSingle); ("AMBR", FSingle); ("LinkedEBI", FSingle); ("TWMI", FSingle); ("PCO", FSingle); ("BearerContextsToBeCreated", FList); ("BearerContextsToBeRemoved", FList); ("TraceInformation", FSingle); ("Recovery", FSingle); ("MMEFQCSID", FSingle); ("SGWFQCSID", FSingle); ("EPDGFQCSID", FSingle); ("TWANFQCSID", FSingle); ("UETimeZone", FSingle); ("UCI", FSingle); ("ChargingCharacteristics", FSingle); ("MMESGSNLDN", FSingle); ("SGWLDN", FSingle); ("EPDGLDN", FSingle); ("TWANLDN", FSingle); ("SignallingPriorityIndication", FSingle); ("UELocalIPAddress", FSingle); ("UEUDPPort", FSingle); ("APCO", FSingle); ("HeNBLocalIPAddress", FSingle); ("HeNBUDPPort", FSingle); ("MMESGSNIdentifier", FSingle); ("TWANIdentifier", FSingle); ("EPDGIPAddress", FSingle); ("CNOperatorSelectionEntity", FSingle); ("PresenceReportingAreaInformation", FList); ("MMESGSNOverloadControlInformation", FSingle); ("SGWOverloadControlInformation", FSingle); ("TWANePDGOverloadControlInformation", FSingle); ("OriginationTimeStamp", FSingle); ("MaximumWaitTime", FSingle); ("WLANLocationInformation", FSingle); ("WLANLocationTimeStamp", FSingle); ("NBIFOMContainer", FSingle); ("RemoteUEContextConnected", FList); ("TGPPAAAServerIdentifier", FSingle); ("EPCO", FSingle); ("ServingPLMNRateControl", FSingle); ("MOExceptionDataCounter", FSingle); ("UETCPPort", FSingle); ("MappedUEUsageType", FSingle); ("ULIForSGW", FSingle); ("SGWUNodeName", FSingle); ("SecondaryRATUsageDataReport", FList); ("UPFunctionSelectionIndicationFlags", FSingle); ("APNRateControlStatus", FSingle); ("PrivateExtension", FSingle); ("AdditionalIEs", FList)];
  md_new := new_CreateSessionRequest;
  md_unm := unm_CreateSessionRequest;
  md_min := 2;
  md_soft := false;
  md_check := false;
  md_reset := true;
  md_steps := [MSingle "IMSI" true;
    MSingle "MSISDN" true;
    MSingle "MEI" true;
    MSingle "ULI" true;
    MSingle "ServingNetwork" true;
    MSingle "RATType" true;
    MSingle "IndicationFlags" true;
    MSingle "SenderFTEIDC" true;
    MSingle "PGWS5S8FTEIDC" true;
    MSingle "APN" true;
    MSingle "SelectionMode" true;
    MSingle "PDNType" true;
    MSingle "PAA" true;
    MSingle "APNRestriction" true;
    MSingle "AMBR" true;
    MSingle "LinkedEBI" true;
    MSingle "TWMI" true;
    MSingle "PCO" true;
    MList "BearerContextsToBeCreated" false true;
    MList "BearerContextsToBeRemoved" false true;
    MSingle "TraceInformation" true;
    MSingle "Recovery" true;
    MSingle "MMEFQCSID" true;
    MSingle "SGWFQCSID" true;
    MSingle "EPDGFQCSID" true;
    MSingle "TWANFQCSID" true;
    MSingle "UETimeZone" true;
    MSingle "UCI" true;
    MSingle "ChargingCharacteristics" true;
    MSingle "MMESGSNLDN" true;
    MSingle "SGWLDN" true;
    MSingle "EPDGLDN" true;
    MSingle "TWANLDN" true;
    MSingle "SignallingPriorityIndication" true;
    MSingle "UELocalIPAddress" true;
    MSingle "UEUDPPort" true;
    MSingle "APCO" true;
    MSingle "HeNBLocalIPAddress" true;
    MSingle "HeNBUDPPort" true;
    MSingle "MMESGSNIdentifier" true;
    MSingle "TWANIdentifier" true;
    MSingle "EPDGIPAddress" true;
    MSingle "CNOperatorSelectionEntity" true;
    MList "PresenceReportingAreaInformation" false true;
    MSingle "MMESGSNOverloadControlInformation" true;
    MSingle "SGWOverloadControlInformation" true;
    MSingle "TWANePDGOverloadControlInformation" true;
    MSingle "OriginationTimeStamp" true;
    MSingle "MaximumWaitTime" true;
    MSingle "WLANLocationInformation" true;
    MSingle "WLANLocationTimeStamp" true;
    MSingle "NBIFOMContainer" true;
    MList "RemoteUEContextConnected" false true;
    MSingle "TGPPAAAServerIdentifier" true;
    MSingle "EPCO" true;
    MSingle "ServingPLMNRateControl" true;
    MSingle "MOExceptionDataCounter" true;
    MSingle "UETCPPort" true;
    MSingle "MappedUEUsageType" true;
    MSingle "ULIForSGW" true;
    MSingle "SGWUNodeName" true;
    MList "SecondaryRATUsageDataReport" false true;
    MSingle "UPFunctionSelectionIndicationFlags" true;
    MSingle "APNRateControlStatus" true;
    MSingle "PrivateExtension" false;
    MList "AdditionalIEs" true true];
  md_lens := [LSingle "IMSI";
    LSingle "MSISDN";
    LSingle "MEI";
    LSingle "ULI";
    LSingle "ServingNetwork";
    LSingle "RATType";
    LSingle "IndicationFlags";
    LSingle "SenderFTEIDC";
    LSingle "PGWS5S8FTEIDC";
    LSingle "APN";
    LSingle "SelectionMode";
    LSingle "PDNType";
    LSingle "PAA";
    LSingle "APNRestriction";
    LSingle "AMBR";
    LSingle "LinkedEBI";
    LSingle "TWMI";
    LSingle "PCO";
    LList "BearerContextsToBeCreated" false;
    LList "BearerContextsToBeRemoved" false;
    LSingle "TraceInformation";
    LSingle "Recovery";
    LSingle "MMEFQCSID";
    LSingle "SGWFQCSID";
    LSingle "EPDGFQCSID";
    LSingle "TWANFQCSID";
    LSingle "UETimeZone";
    LSingle "UCI";
    LSingle "ChargingCharacteristics";
    LSingle "MMESGSNLDN";
    LSingle "SGWLDN";
    LSingle "EPDGLDN";
    LSingle "TWANLDN";
    LSingle "SignallingPriorityIndication";
    LSingle "UELocalIPAddress";
    LSingle "UEUDPPort";
    LSingle "APCO";
    LSingle "HeNBLocalIPAddress";
    LSingle "HeNBUDPPort";
    LSingle "MMESGSNIdentifier";
    LSingle "TWANIdentifier";
    LSingle "EPDGIPAddress";
    LSingle "CNOperatorSelectionEntity";
    LList "PresenceReportingAreaInformation" false;
    LSingle "MMESGSNOverloadControlInformation";
    LSingle "SGWOverloadControlInformation";
    LSingle "TWANePDGOverloadControlInformation";
    LSingle "OriginationTimeStamp";
    LSingle "MaximumWaitTime";
    LSingle "WLANLocationInformation";
    LSingle "WLANLocationTimeStamp";
    LSingle "NBIFOMContainer";
    LList "RemoteUEContextConnected" false;
    LSingle "TGPPAAAServerIdentifier";
    LSingle "EPCO";
    LSingle "ServingPLMNRateControl";
    LSingle "MOExceptionDataCounter";
    LSingle "UETCPPort";
    LSingle "MappedUEUsageType";
    LSingle "ULIForSGW";
    LSingle "SGWUNodeName";
    LList "SecondaryRATUsageDataReport" false;
    LSingle "UPFunctionSelectionIndicationFlags";
    LSingle "APNRateControlStatus";
    LSingle "PrivateExtension";
    LList "AdditionalIEs" true];
  md_sub := 4 |}.


(** ** CreateSessionResponse: struct gtpv2/message/create-session-res.go:12-49 *)
(** NewCreateSessionResponse, gtpv2/message/create-session-res.go:52-169 (dispatch of the given IEs) *)
Definition new_CreateSessionResponse : table := Tbl true [
  (2, ASet "Cause") (* ie.Cause *);
  (131, ASet "ChangeReportingAction") (* ie.ChangeReportingAction *);
  (146, ASet "CSGInformationReportingAction") (* ie.CSGInformationReportingAction *);
  (165, ASet "HeNBInformationReporting") (* ie.HeNBInformationReporting *);
  (87, AInst [(0, ASet "SenderFTEIDC"); (1, ASet "PGWS5S8FTEIDC")] (AApp "AdditionalIEs")) (* ie.FullyQualifiedTEID *);
  (79, ASet "PAA") (* ie.PDNAddressAllocation *);
  (127, ASet "APNRestriction") (* ie.APNRestriction *);
  (72, ASet "AMBR") (* ie.AggregateMaximumBitRate *);
  (73, ASet "EBI") (* ie.EPSBearerID *);
  (78, ASet "PCO") (* ie.ProtocolConfigurationOptions *);
  (93, AInst [(0, AApp "BearerContextsCreated"); (1, ASet "BearerContextMarkedForRemoval")] (AApp "AdditionalIEs")) (* ie.BearerContext *);
  (3, ASet "Recovery") (* ie.Recovery *);
  (136, ASet "ChargingGatewayName") (* ie.FullyQualifiedDomainName *);
  (74, ASet "ChargingGatewayAddress") (* ie.IPAddress *);
  (132, AInst [(0, ASet "PGWFQCSID"); (1, ASet "SGWFQCSID")] (AApp "AdditionalIEs")) (* ie.FullyQualifiedCSID *);
  (151, AInst [(0, ASet "PGWLDN"); (1, ASet "SGWLDN")] (AApp "AdditionalIEs")) (* ie.LocalDistinguishedName *);
  (156, ASet "PGWBackOffTime") (* ie.EPCTimer *);
  (163, ASet "APCO") (* ie.AdditionalProtocolConfigurationOptions *);
  (166, ASet "TrustedTWANIPv4Parameters") (* ie.IPv4ConfigurationParameters *);
  (77, ASet "IndicationFlags") (* ie.Indication *);
  (177, AApp "PresenceReportingAreaAction") (* ie.PresenceReportingAreaAction *);
  (181, AInst [(0, ASet "PGWNodeLoadControlInformation"); (1, ASet "PGWAPNLoadControlInformation"); (2, ASet "SGWNodeLoadControlInformation")] (AApp "AdditionalIEs")) (* ie.LoadControlInformation *);
  (180, AInst [(0, ASet "PGWOverloadControlInformation"); (1, ASet "SGWOverloadControlInformation")] (AApp "AdditionalIEs")) (* ie.OverloadControlInformation *);
  (118, ASet "NBIFOMContainer") (* ie.FContainer *);
  (94, ASet "PDNConnectionChargingID") (* ie.ChargingID *);
  (197, ASet "EPCO") (* ie.ExtendedProtocolConfigurationOptions *);
  (255, ASet "PrivateExtension") (* ie.PrivateExtension *)
  ] (AApp "AdditionalIEs").

(** CreateSessionResponse.UnmarshalBinary, gtpv2/message/create-session-res.go:417-541 *)
Definition unm_CreateSessionResponse : table := Tbl true [
  (2, ASet "Cause") (* ie.Cause *);
  (131, ASet "ChangeReportingAction") (* ie.ChangeReportingAction *);
  (146, ASet "CSGInformationReportingAction") (* ie.CSGInformationReportingAction *);
  (165, ASet "HeNBInformationReporting") (* ie.HeNBInformationReporting *);
  (87, AInst [(0, ASet "SenderFTEIDC"); (1, ASet "PGWS5S8FTEIDC")] (AApp "AdditionalIEs")) (* ie.FullyQualifiedTEID *);
  (79, ASet "PAA") (* ie.PDNAddressAllocation *);
  (127, ASet "APNRestriction") (* ie.APNRestriction *);
  (72, ASet "AMBR") (* ie.AggregateMaximumBitRate *);
  (73, ASet "EBI") (* ie.EPSBearerID *);
  (78, ASet "PCO") (* ie.ProtocolConfigurationOptions *);
  (93, AInst [(0, AApp "BearerContextsCreated"); (1, ASet "BearerContextMarkedForRemoval")] (AApp "AdditionalIEs")) (* ie.BearerContext *);
  (3, ASet "Recovery") (* ie.Recovery *);
  (136, ASet "ChargingGatewayName") (* ie.FullyQualifiedDomainName *);
  (74, ASet "ChargingGatewayAddress") (* ie.IPAddress *);
  (132, AInst [(0, ASet "PGWFQCSID"); (1, ASet "SGWFQCSID")] (AApp "AdditionalIEs")) (* ie.FullyQualifiedCSID *);
  (151, AInst [(0, ASet "PGWLDN"); (1, ASet "SGWLDN")] (AApp "AdditionalIEs")) (* ie.LocalDistinguishedName *);
  (156, ASet "PGWBackOffTime") (* ie.EPCTimer *);
  (163, ASet "APCO") (* ie.AdditionalProtocolConfigurationOptions *);
  (166, ASet "TrustedTWANIPv4Parameters") (* ie.IPv4ConfigurationParameters *);
  (77, ASet "IndicationFlags") (* ie.Indication *);
  (177, AApp "PresenceReportingAreaAction") (* ie.PresenceReportingAreaAction *);
  (181, AInst [(0, ASet "PGWNodeLoadControlInformation"); (1, ASet "PGWAPNLoadControlInformation"); (2, ASet "SGWNodeLoadControlInformation")] (AApp "AdditionalIEs")) (* ie.LoadControlInformation *);
  (180, AInst [(0, ASet "PGWOverloadControlInformation"); (1, ASet "SGWOverloadControlInformation")] (AApp "AdditionalIEs")) (* ie.OverloadControlInformation *);
  (118, ASet "NBIFOMContainer") (* ie.FContainer *);
  (94, ASet "PDNConnectionChargingID") (* ie.ChargingID *);
  (197, ASet "EPCO") (* ie.ExtendedProtocolConfigurationOptions *);
  (255, ASet "PrivateExtension") (* ie.PrivateExtension *)
  ] (AApp "AdditionalIEs").

(** fields gtpv2/message/create-session-res.go:12-49; MarshalTo gtpv2/message/create-session-res.go:181-405; MarshalLen gtpv2/message/create-session-res.go:544-654; SetLength gtpv2/message/create-session-res.go:657-659;
    MessageTypeName "Create Session Response"; TEID(): return c.Header.teid() *)
Definition d_CreateSessionResponse : mdesc := {|
  md_name := "CreateSessionResponse";
  md_ctor := Ctor 2 0 1 33 true;
  md_fields := [("Cause", FSingle); ("ChangeReportingAction", FSingle); ("CSGInformationReportingAction", FSingle); ("HeNBInformationReporting", FSingle); ("SenderFTEIDC", FSingle); ("PGWS5S8FTEIDC", FSingle); ("PAA", FSingle); ("APNRestriction", FSingle); ("AMBR", FSingle); ("EBI", FSingle); ("PCO", FSingle); ("BearerContextsCreated", FList); ("BearerContextMarkedForRemoval", FSingle); ("Recovery", FSingle); ("ChargingGatewayName", FSingle); ("ChargingGatewayAddress", FSingle); ("PGWFQCSID", FSingle); ("SGWFQCSID", FSingle); ("SGWLDN", FSingle); ("PGWLDN", FSingle); ("PGWBackOffTime", FSingle); ("APCO", FSingle); ("TrustedTWANIPv4Parameters", FSingle); ("IndicationFlags", FSingle); ("PresenceReportingAreaAction", FList); ("PGWNodeLoadControlInformation", FSingle); ("PGWAPNLoadControlInformation", FSingle); ("SGWNodeLoadControlInformation", FSingle); ("PGWOverloadControlInformation", FSingle); ("SGWOverloadControlInformation", FSingle); ("NBIFOMContainer", FSingle); ("PDNConnectionChargingID", FSingle); ("EPCO", FSingle); ("PrivateExtension", FSingle); ("AdditionalIEs", FList)];
  md_new := new_CreateSessionResponse;
  md_unm := unm_CreateSessionResponse;
  md_min := 2;
  md_soft := false;
  md_check := false;
  md_reset := true;
  md_steps := [MSingle "Cause" true;
    MSingle "ChangeReportingAction" true;
    MSingle "CSGInformationReportingAction" true;
    MSingle "HeNBInformationReporting" true;
    MSingle "SenderFTEIDC" true;
    MSingle "PGWS5S8FTEIDC" true;
    MSingle "PAA" true;
    MSingle "APNRestriction" true;
    MSingle "AMBR" true;
    MSingle "EBI" true;
    MSingle "PCO" true;
    MList "BearerContextsCreated" false true;
    MSingle "BearerContextMarkedForRemoval" true;
    MSingle "Recovery" true;
    MSingle "ChargingGatewayName" true;
    MSingle "ChargingGatewayAddress" true;
    MSingle "PGWFQCSID" true;
    MSingle "SGWFQCSID" true;
    MSingle "PGWLDN" true;
    MSingle "SGWLDN" true;
    MSingle "PGWBackOffTime" true;
    MSingle "APCO" true;
    MSingle "TrustedTWANIPv4Parameters" true;
    MSingle "IndicationFlags" true;
    MList "PresenceReportingAreaAction" false true;
    MSingle "PGWNodeLoadControlInformation" true;
    MSingle "PGWAPNLoadControlInformation" true;
    MSingle "SGWNodeLoadControlInformation" true;
    MSingle "PGWOverloadControlInformation" true;
    MSingle "SGWOverloadControlInformation" true;
    MSingle "NBIFOMContainer" true;
    MSingle "PDNConnectionChargingID" true;
    MSingle "EPCO" true;
    MSingle "PrivateExtension" true;
    MList "AdditionalIEs" true true];
  md_lens := [LSingle "Cause";
    LSingle "ChangeReportingAction";
    LSingle "CSGInformationReportingAction";
    LSingle "HeNBInformationReporting";
    LSingle "SenderFTEIDC";
    LSingle "PGWS5S8FTEIDC";
    LSingle "PAA";
    LSingle "APNRestriction";
    LSingle "AMBR";
    LSingle "EBI";
    LSingle "PCO";
    LList "BearerContextsCreated" false;
    LSingle "BearerContextMarkedForRemoval";
    LSingle "Recovery";
    LSingle "ChargingGatewayName";
    LSingle "ChargingGatewayAddress";
    LSingle "PGWFQCSID";
    LSingle "SGWFQCSID";
    LSingle "PGWLDN";
    LSingle "SGWLDN";
    LSingle "PGWBackOffTime";
    LSingle "APCO";
    LSingle "TrustedTWANIPv4Parameters";
    LSingle "IndicationFlags";
    LList "PresenceReportingAreaAction" false;
    LSingle "PGWNodeLoadControlInformation";
    LSingle "PGWAPNLoadControlInformation";
    LSingle "SGWNodeLoadControlInformation";
    LSingle "PGWOverloadControlInformation";
    LSingle "SGWOverloadControlInformation";
    LSingle "NBIFOMContainer";
    LSingle "PDNConnectionChargingID";
    LSingle "EPCO";
    LSingle "PrivateExtension";
    LList "AdditionalIEs" false];
  md_sub := 4 |}.


(** ** DeleteBearerCommand: struct gtpv2/message/delete-bearer-command.go:10-22 *)
(** NewDeleteBearerCommand, gtpv2/message/delete-bearer-command.go:25-66 (dispatch of the given IEs) *)
Definition new_DeleteBearerCommand : table := Tbl true [
  (93, AApp "BearerContexts") (* ie.BearerContext *);
  (86, ASet "ULI") (* ie.UserLocationInformation *);
  (170, ASet "ULITimestamp") (* ie.ULITimestamp *);
  (114, ASet "UETimeZone") (* ie.UETimeZone *);
  (180, AInst [(0, ASet "MMESGSNOverloadControlInformation"); (1, ASet "SGWOverloadControlInformation")] (ANop)) (* ie.OverloadControlInformation *);
  (87, ASet "SenderFTEIDC") (* ie.FullyQualifiedTEID *);
  (201, AApp "SecondaryRATDataUsageReport") (* ie.SecondaryRATUsageDataReport *);
  (255, ASet "PrivateExtension") (* ie.PrivateExtension *)
  ] (AApp "AdditionalIEs").

(** DeleteBearerCommand.UnmarshalBinary, gtpv2/message/delete-bearer-command.go:164-210 *)
Definition unm_DeleteBearerCommand : table := Tbl true [
  (93, AApp "BearerContexts") (* ie.BearerContext *);
  (86, ASet "ULI") (* ie.UserLocationInformation *);
  (170, ASet "ULITimestamp") (* ie.ULITimestamp *);
  (114, ASet "UETimeZone") (* ie.UETimeZone *);
  (180, AInst [(0, ASet "MMESGSNOverloadControlInformation"); (1, ASet "SGWOverloadControlInformation")] (ANop)) (* ie.OverloadControlInformation *);
  (87, ASet "SenderFTEIDC") (* ie.FullyQualifiedTEID *);
  (201, AApp "SecondaryRATDataUsageReport") (* ie.SecondaryRATUsageDataReport *);
  (255, ASet "PrivateExtension") (* ie.PrivateExtension *)
  ] (AApp "AdditionalIEs").

(** fields gtpv2/message/delete-bearer-command.go:10-22; MarshalTo gtpv2/message/delete-bearer-command.go:78-152; MarshalLen gtpv2/message/delete-bearer-command.go:213-250; SetLength gtpv2/message/delete-bearer-command.go:253-255;
    MessageTypeName "Delete Bearer Command"; TEID(): return d.Header.teid() *)
Definition d_DeleteBearerCommand : mdesc := {|
  md_name := "DeleteBearerCommand";
  md_ctor := Ctor 2 0 1 66 true;
  md_fields := [("BearerContexts", FList); ("ULI", FSingle); ("ULITimestamp", FSingle); ("UETimeZone", FSingle); ("MMESGSNOverloadControlInformation", FSingle); ("SGWOverloadControlInformation", FSingle); ("SenderFTEIDC", FSingle); ("SecondaryRATDataUsageReport", FList); ("PrivateExtension", FSingle); ("AdditionalIEs", FList)];
  md_new := new_DeleteBearerCommand;
  md_unm := unm_DeleteBearerCommand;
  md_min := 2;
  md_soft := false;
  md_check := false;
  md_reset := true;
  md_steps := [MList "BearerContexts" false true;
    MSingle "ULI" true;
    MSingle "ULITimestamp" true;
    MSingle "UETimeZone" true;
    MSingle "MMESGSNOverloadControlInformation" true;
    MSingle "SGWOverloadControlInformation" true;
    MSingle "SenderFTEIDC" true;
    MList "SecondaryRATDataUsageReport" false true;
    MSingle "PrivateExtension" true;
    MList "AdditionalIEs" true true];
  md_lens := [LList "BearerContexts" false;
    LSingle "ULI";
    LSingle "ULITimestamp";
    LSingle "UETimeZone";
    LSingle "MMESGSNOverloadControlInformation";
    LSingle "SGWOverloadControlInformation";
    LSingle "SenderFTEIDC";
    LList "SecondaryRATDataUsageReport" false;
    LSingle "PrivateExtension";
    LList "AdditionalIEs" true];
  md_sub := 4 |}.


(** ** DeleteBearerFailureIndication: struct gtpv2/message/delete-bearer-failure-indication.go:10-20 *)
(** NewDeleteBearerFailureIndication, gtpv2/message/delete-bearer-failure-indication.go:23-60 (dispatch of the given IEs) *)
Definition new_DeleteBearerFailureIndication : table := Tbl true [
  (2, ASet "Cause") (* ie.Cause *);
  (93, AApp "BearerContexts") (* ie.BearerContext *);
  (3, ASet "Recovery") (* ie.Recovery *);
  (77, ASet "IndicationFlags") (* ie.Indication *);
  (180, AInst [(0, ASet "PGWOverloadControlInformation"); (1, ASet "SGWOverloadControlInformation")] (ANop)) (* ie.OverloadControlInformation *);
  (255, ASet "PrivateExtension") (* ie.PrivateExtension *)
  ] (AApp "AdditionalIEs").

(** DeleteBearerFailureIndication.UnmarshalBinary, gtpv2/message/delete-bearer-failure-indication.go:146-188 *)
Definition unm_DeleteBearerFailureIndication : table := Tbl true [
  (2, ASet "Cause") (* ie.Cause *);
  (93, AApp "BearerContexts") (* ie.BearerContext *);
  (3, ASet "Recovery") (* ie.Recovery *);
  (77, ASet "IndicationFlags") (* ie.Indication *);
  (180, AInst [(0, ASet "PGWOverloadControlInformation"); (1, ASet "SGWOverloadControlInformation")] (ANop)) (* ie.OverloadControlInformation *);
  (255, ASet "PrivateExtension") (* ie.PrivateExtension *)
  ] (AApp "AdditionalIEs").

(** fields gtpv2/message/delete-bearer-failure-indication.go:10-20; MarshalTo gtpv2/message/delete-bearer-failure-indication.go:72-134; MarshalLen gtpv2/message/delete-bearer-failure-indication.go:191-222; SetLength gtpv2/message/delete-bearer-failure-indication.go:225-227;
    MessageTypeName "Delete Bearer Failure Indication"; TEID(): return d.Header.teid() *)
Definition d_DeleteBearerFailureIndication : mdesc := {|
  md_name := "DeleteBearerFailureIndication";
  md_ctor := Ctor 2 0 1 67 true;
  md_fields := [("Cause", FSingle); ("BearerContexts", FList); ("Recovery", FSingle); ("IndicationFlags", FSingle); ("PGWOverloadControlInformation", FSingle); ("SGWOverloadControlInformation", FSingle); ("PrivateExtension", FSingle); ("AdditionalIEs", FList)];
  md_new := new_DeleteBearerFailureIndication;
  md_unm := unm_DeleteBearerFailureIndication;
  md_min := 2;
  md_soft := false;
  md_check := false;
  md_reset := true;
  md_steps := [MSingle "Cause" true;
    MList "BearerContexts" false true;
    MSingle "Recovery" true;
    MSingle "IndicationFlags" true;
    MSingle "PGWOverloadControlInformation" true;
    MSingle "SGWOverloadControlInformation" true;
    MSingle "PrivateExtension" true;
    MList "AdditionalIEs" true true];
  md_lens := [LSingle "Cause";
    LList "BearerContexts" false;
    LSingle "Recovery";
    LSingle "IndicationFlags";
    LSingle "PGWOverloadControlInformation";
    LSingle "SGWOverloadControlInformation";
    LSingle "PrivateExtension";
    LList "AdditionalIEs" true];
  md_sub := 4 |}.


(** ** DeleteBearerRequest: struct gtpv2/message/delete-bearer-req.go:12-33 *)
(** NewDeleteBearerRequest, gtpv2/message/delete-bearer-req.go:36-112 (dispatch of the given IEs) *)
Definition new_DeleteBearerRequest : table := Tbl true [
  (73, AInst [(0, ASet "LinkedEBI"); (1, AApp "EBIs")] (AApp "AdditionalIEs")) (* ie.EPSBearerID *);
  (93, ASet "FailedBearerContext") (* ie.BearerContext *);
  (100, ASet "PTI") (* ie.ProcedureTransactionID *);
  (78, ASet "PCO") (* ie.ProtocolConfigurationOptions *);
  (132, AInst [(0, ASet "PGWFQCSID"); (1, ASet "SGWFQCSID")] (AApp "AdditionalIEs")) (* ie.FullyQualifiedCSID *);
  (2, ASet "Cause") (* ie.Cause *);
  (77, ASet "IndicationFlags") (* ie.Indication *);
  (181, AInst [(0, ASet "PGWNodeLoadControlInformation"); (1, ASet "PGWAPNLoadControlInformation"); (2, ASet "SGWNodeLoadControlInformation")] (AApp "AdditionalIEs")) (* ie.LoadControlInformation *);
  (180, AInst [(0, ASet "PGWOverloadControlInformation"); (1, ASet "SGWOverloadControlInformation")] (AApp "AdditionalIEs")) (* ie.OverloadControlInformation *);
  (118, ASet "NBIFOMContainer") (* ie.FContainer *);
  (204, ASet "APNRateControlStatus") (* ie.APNRateControlStatus *);
  (197, ASet "EPCO") (* ie.ExtendedProtocolConfigurationOptions *);
  (255, ASet "PrivateExtension") (* ie.PrivateExtension *)
  ] (AApp "AdditionalIEs").

(** DeleteBearerRequest.UnmarshalBinary, gtpv2/message/delete-bearer-req.go:265-346 *)
Definition unm_DeleteBearerRequest : table := Tbl true [
  (73, AInst [(0, ASet "LinkedEBI"); (1, AApp "EBIs")] (AApp "AdditionalIEs")) (* ie.EPSBearerID *);
  (93, ASet "FailedBearerContext") (* ie.BearerContext *);
  (100, ASet "PTI") (* ie.ProcedureTransactionID *);
  (78, ASet "PCO") (* ie.ProtocolConfigurationOptions *);
  (132, AInst [(0, ASet "PGWFQCSID"); (1, ASet "SGWFQCSID")] (AApp "AdditionalIEs")) (* ie.FullyQualifiedCSID *);
  (2, ASet "Cause") (* ie.Cause *);
  (77, ASet "IndicationFlags") (* ie.Indication *);
  (181, AInst [(0, ASet "PGWNodeLoadControlInformation"); (1, ASet "PGWAPNLoadControlInformation"); (2, ASet "SGWNodeLoadControlInformation")] (AApp "AdditionalIEs")) (* ie.LoadControlInformation *);
  (180, AInst [(0, ASet "PGWOverloadControlInformation"); (1, ASet "SGWOverloadControlInformation")] (AApp "AdditionalIEs")) (* ie.OverloadControlInformation *);
  (118, ASet "NBIFOMContainer") (* ie.FContainer *);
  (204, ASet "APNRateControlStatus") (* ie.APNRateControlStatus *);
  (197, ASet "EPCO") (* ie.ExtendedProtocolConfigurationOptions *);
  (255, ASet "PrivateExtension") (* ie.PrivateExtension *)
  ] (AApp "AdditionalIEs").

(** fields gtpv2/message/delete-bearer-req.go:12-33; MarshalTo gtpv2/message/delete-bearer-req.go:124-253; MarshalLen gtpv2/message/delete-bearer-req.go:349-414; SetLength gtpv2/message/delete-bearer-req.go:417-419;
    MessageTypeName "Delete Bearer Request"; TEID(): return d.Header.teid() *)
Definition d_DeleteBearerRequest : mdesc := {|
  md_name := "DeleteBearerRequest";
  md_ctor := Ctor 2 0 1 99 true;
  md_fields := [("LinkedEBI", FSingle); ("EBIs", FList); ("FailedBearerContext", FSingle); ("PTI", FSingle); ("PCO", FSingle); ("PGWFQCSID", FSingle); ("SGWFQCSID", FSingle); ("Cause", FSingle); ("IndicationFlags", FSingle); ("PGWNodeLoadControlInformation", FSingle); ("PGWAPNLoadControlInformation", FSingle); ("SGWNodeLoadControlInformation", FSingle); ("PGWOverloadControlInformation", FSingle); ("SGWOverloadControlInformation", FSingle); ("NBIFOMContainer", FSingle); ("APNRateControlStatus", FSingle); ("EPCO", FSingle); ("PrivateExtension", FSingle); ("AdditionalIEs", FList)];
  md_new := new_DeleteBearerRequest;
  md_unm := unm_DeleteBearerRequest;
  md_min := 2;
  md_soft := false;
  md_check := false;
  md_reset := true;
  md_steps := [MSingle "LinkedEBI" true;
    MList "EBIs" false true;
    MSingle "FailedBearerContext" true;
    MSingle "PTI" true;
    MSingle "PCO" true;
    MSingle "PGWFQCSID" true;
    MSingle "SGWFQCSID" true;
    MSingle "Cause" true;
    MSingle "IndicationFlags" true;
    MSingle "PGWNodeLoadControlInformation" true;
    MSingle "PGWAPNLoadControlInformation" true;
    MSingle "SGWNodeLoadControlInformation" true;
    MSingle "PGWOverloadControlInformation" true;
    MSingle "SGWOverloadControlInformation" true;
    MSingle "NBIFOMContainer" true;
    MSingle "APNRateControlStatus" true;
    MSingle "EPCO" true;
    MSingle "PrivateExtension" true;
    MList "AdditionalIEs" true true];
  md_lens := [LSingle "LinkedEBI";
    LList "EBIs" false;
    LSingle "FailedBearerContext";
    LSingle "PTI";
    LSingle "PCO";
    LSingle "PGWFQCSID";
    LSingle "SGWFQCSID";
    LSingle "Cause";
    LSingle "IndicationFlags";
    LSingle "PGWNodeLoadControlInformation";
    LSingle "PGWAPNLoadControlInformation";
    LSingle "SGWNodeLoadControlInformation";
    LSingle "PGWOverloadControlInformation";
    LSingle "SGWOverloadControlInformation";
    LSingle "NBIFOMContainer";
    LSingle "APNRateControlStatus";
    LSingle "EPCO";
    LSingle "PrivateExtension";
    LList "AdditionalIEs" true];
  md_sub := 4 |}.


(** ** DeleteBearerResponse: struct gtpv2/message/delete-bearer-res.go:12-41 *)
(** NewDeleteBearerResponse, gtpv2/message/delete-bearer-res.go:44-146 (dispatch of the given IEs) *)
Definition new_DeleteBearerResponse : table := Tbl true [
  (2, ASet "Cause") (* ie.Cause *);
  (73, ASet "LinkedEBI") (* ie.EPSBearerID *);
  (93, AApp "BearerContexts") (* ie.BearerContext *);
  (3, ASet "Recovery") (* ie.Recovery *);
  (132, AInst [(0, ASet "MMEFQCSID"); (1, ASet "SGWFQCSID"); (2, ASet "EPDGFQCSID"); (3, ASet "TWANFQCSID")] (AApp "AdditionalIEs")) (* ie.FullyQualifiedCSID *);
  (78, ASet "PCO") (* ie.ProtocolConfigurationOptions *);
  (114, ASet "UETimeZone") (* ie.UETimeZone *);
  (86, ASet "ULI") (* ie.UserLocationInformation *);
  (170, ASet "ULITimestamp") (* ie.ULITimestamp *);
  (169, AInst [(0, ASet "TWANIdentifier"); (1, ASet "WLANLocationInformation")] (AApp "AdditionalIEs")) (* ie.TWANIdentifier *);
  (179, AInst [(0, ASet "TWANIdentifierTimestamp"); (1, ASet "WLANLocationTimestamp")] (AApp "AdditionalIEs")) (* ie.TWANIdentifierTimestamp *);
  (180, AInst [(0, ASet "MMEOverloadControlInformation"); (1, ASet "SGWOverloadControlInformation"); (2, ASet "TWANePDGOverloadControlInformation")] (AApp "AdditionalIEs")) (* ie.OverloadControlInformation *);
  (74, AInst [(0, ASet "MMESGSNIdentifier"); (1, ASet "UELocalIPAddress")] (AApp "AdditionalIEs")) (* ie.IPAddress *);
  (126, AInst [(0, ASet "UEUDPPort"); (1, ASet "UETCPPort")] (AApp "AdditionalIEs")) (* ie.PortNumber *);
  (118, ASet "NBIFOMContainer") (* ie.FContainer *);
  (201, AApp "SecondaryRATUsageDataReport") (* ie.SecondaryRATUsageDataReport *);
  (255, ASet "PrivateExtension") (* ie.PrivateExtension *)
  ] (AApp "AdditionalIEs").

(** DeleteBearerResponse.UnmarshalBinary, gtpv2/message/delete-bearer-res.go:346-454 *)
Definition unm_DeleteBearerResponse : table := Tbl true [
  (2, ASet "Cause") (* ie.Cause *);
  (73, ASet "LinkedEBI") (* ie.EPSBearerID *);
  (93, AApp "BearerContexts") (* ie.BearerContext *);
  (3, ASet "Recovery") (* ie.Recovery *);
  (132, AInst [(0, ASet "MMEFQCSID"); (1, ASet "SGWFQCSID"); (2, ASet "EPDGFQCSID"); (3, ASet "TWANFQCSID")] (AApp "AdditionalIEs")) (* ie.FullyQualifiedCSID *);
  (78, ASet "PCO") (* ie.ProtocolConfigurationOptions *);
  (114, ASet "UETimeZone") (* ie.UETimeZone *);
  (86, ASet "ULI") (* ie.UserLocationInformation *);
  (170, ASet "ULITimestamp") (* ie.ULITimestamp *);
  (169, AInst [(0, ASet "TWANIdentifier"); (1, ASet "WLANLocationInformation")] (AApp "AdditionalIEs")) (* ie.TWANIdentifier *);
  (179, AInst [(0, ASet "TWANIdentifierTimestamp"); (1, ASet "WLANLocationTimestamp")] (AApp "AdditionalIEs")) (* ie.TWANIdentifierTimestamp *);
  (180, AInst [(0, ASet "MMEOverloadControlInformation"); (1, ASet "SGWOverloadControlInformation"); (2, ASet "TWANePDGOverloadControlInformation")] (AApp "AdditionalIEs")) (* ie.OverloadControlInformation *);
  (74, AInst [(0, ASet "MMESGSNIdentifier"); (1, ASet "UELocalIPAddress")] (AApp "AdditionalIEs")) (* ie.IPAddress *);
  (126, AInst [(0, ASet "UEUDPPort"); (1, ASet "UETCPPort")] (AApp "AdditionalIEs")) (* ie.PortNumber *);
  (118, ASet "NBIFOMContainer") (* ie.FContainer *);
  (201, AApp "SecondaryRATUsageDataReport") (* ie.SecondaryRATUsageDataReport *);
  (255, ASet "PrivateExtension") (* ie.PrivateExtension *)
  ] (AApp "AdditionalIEs").

(** fields gtpv2/message/delete-bearer-res.go:12-41; MarshalTo gtpv2/message/delete-bearer-res.go:158-334; MarshalLen gtpv2/message/delete-bearer-res.go:457-546; SetLength gtpv2/message/delete-bearer-res.go:549-551;
    MessageTypeName "Delete Bearer Response"; TEID(): return d.Header.teid() *)
Definition d_DeleteBearerResponse : mdesc := {|
  md_name := "DeleteBearerResponse";
  md_ctor := Ctor 2 0 1 100 true;
  md_fields := [("Cause", FSingle); ("LinkedEBI", FSingle); ("BearerContexts", FList); ("Recovery", FSingle); ("MMEFQCSID", FSingle); ("SGWFQCSID", FSingle); ("EPDGFQCSID", FSingle); ("TWANFQCSID", FSingle); ("PCO", FSingle); ("UETimeZone", FSingle); ("ULI", FSingle); ("ULITimestamp", FSingle); ("TWANIdentifier", FSingle); ("TWANIdentifierTimestamp", FSingle); ("MMEOverloadControlInformation", FSingle); ("SGWOverloadControlInformation", FSingle); ("MMESGSNIdentifier", FSingle); ("TWANePDGOverloadControlInformation", FSingle); ("WLANLocationInformation", FSingle); ("WLANLocationTimestamp", FSingle); ("UELocalIPAddress", FSingle); ("UEUDPPort", FSingle); ("NBIFOMContainer", FSingle); ("UETCPPort", FSingle); ("SecondaryRATUsageDataReport", FList); ("PrivateExtension", FSingle); ("AdditionalIEs", FList)];
  md_new := new_DeleteBearerResponse;
  md_unm := unm_DeleteBearerResponse;
  md_min := 2;
  md_soft := false;
  md_check := false;
  md_reset := true;
  md_steps := [MSingle "Cause" true;
    MSingle "LinkedEBI" true;
    MList "BearerContexts" false true;
    MSingle "Recovery" true;
    MSingle "MMEFQCSID" true;
    MSingle "SGWFQCSID" true;
    MSingle "EPDGFQCSID" true;
    MSingle "TWANFQCSID" true;
    MSingle "PCO" true;
    MSingle "UETimeZone" true;
    MSingle "ULI" true;
    MSingle "ULITimestamp" true;
    MSingle "TWANIdentifier" true;
    MSingle "TWANIdentifierTimestamp" true;
    MSingle "MMEOverloadControlInformation" true;
    MSingle "SGWOverloadControlInformation" true;
    MSingle "MMESGSNIdentifier" true;
    MSingle "TWANePDGOverloadControlInformation" true;
    MSingle "WLANLocationInformation" true;
    MSingle "WLANLocationTimestamp" true;
    MSingle "UELocalIPAddress" true;
    MSingle "UEUDPPort" true;
    MSingle "NBIFOMContainer" true;
    MSingle "UETCPPort" true;
    MList "SecondaryRATUsageDataReport" false true;
    MSingle "PrivateExtension" true;
    MList "AdditionalIEs" true true];
  md_lens := [LSingle "Cause";
    LSingle "LinkedEBI";
    LList "BearerContexts" false;
    LSingle "Recovery";
    LSingle "MMEFQCSID";
    LSingle "SGWFQCSID";
    LSingle "EPDGFQCSID";
    LSingle "TWANFQCSID";
    LSingle "PCO";
    LSingle "UETimeZone";
    LSingle "ULI";
    LSingle "ULITimestamp";
    LSingle "TWANIdentifier";
    LSingle "TWANIdentifierTimestamp";
    LSingle "MMEOverloadControlInformation";
    LSingle "SGWOverloadControlInformation";
    LSingle "MMESGSNIdentifier";
    LSingle "TWANePDGOverloadControlInformation";
    LSingle "WLANLocationInformation";
    LSingle "WLANLocationTimestamp";
    LSingle "UELocalIPAddress";
    LSingle "UEUDPPort";
    LSingle "NBIFOMContainer";
    LSingle "UETCPPort";
    LList "SecondaryRATUsageDataReport" false;
    LSingle "PrivateExtension";
    LList "AdditionalIEs" true];
  md_sub := 4 |}.


(** ** DeletePDNConnectionSetRequest: struct gtpv2/message/delete-pdn-connection-set-req.go:12-21 *)
(** NewDeletePDNConnectionSetRequest, gtpv2/message/delete-pdn-connection-set-req.go:24-61 (dispatch of the given IEs) *)
Definition new_DeletePDNConnectionSetRequest : table := Tbl true [
  (132, AInst [(0, ASet "MMEFQCSID"); (1, ASet "SGWFQCSID"); (2, ASet "PGWFQCSID"); (3, ASet "EPDGFQCSID"); (4, ASet "TWANFQCSID")] (AApp "AdditionalIEs")) (* ie.FullyQualifiedCSID *);
  (255, ASet "PrivateExtension") (* ie.PrivateExtension *)
  ] (AApp "AdditionalIEs").

(** DeletePDNConnectionSetRequest.UnmarshalBinary, gtpv2/message/delete-pdn-connection-set-req.go:141-183 *)
Definition unm_DeletePDNConnectionSetRequest : table := Tbl true [
  (132, AInst [(0, ASet "MMEFQCSID"); (1, ASet "SGWFQCSID"); (2, ASet "PGWFQCSID"); (3, ASet "EPDGFQCSID"); (4, ASet "TWANFQCSID")] (AApp "AdditionalIEs")) (* ie.FullyQualifiedCSID *);
  (255, ASet "PrivateExtension") (* ie.PrivateExtension *)
  ] (AApp "AdditionalIEs").

(** fields gtpv2/message/delete-pdn-connection-set-req.go:12-21; MarshalTo gtpv2/message/delete-pdn-connection-set-req.go:73-129; MarshalLen gtpv2/message/delete-pdn-connection-set-req.go:186-215; SetLength gtpv2/message/delete-pdn-connection-set-req.go:218-220;
    MessageTypeName "Delete PDN Connection Set Request"; TEID(): return m.Header.teid() *)
Definition d_DeletePDNConnectionSetRequest : mdesc := {|
  md_name := "DeletePDNConnectionSetRequest";
  md_ctor := Ctor 2 0 1 101 true;
  md_fields := [("MMEFQCSID", FSingle); ("SGWFQCSID", FSingle); ("PGWFQCSID", FSingle); ("EPDGFQCSID", FSingle); ("TWANFQCSID", FSingle); ("PrivateExtension", FSingle); ("AdditionalIEs", FList)];
  md_new := new_DeletePDNConnectionSetRequest;
  md_unm := unm_DeletePDNConnectionSetRequest;
  md_min := 2;
  md_soft := false;
  md_check := false;
  md_reset := true;
  md_steps := [MSingle "MMEFQCSID" true;
    MSingle "SGWFQCSID" true;
    MSingle "PGWFQCSID" true;
    MSingle "EPDGFQCSID" true;
    MSingle "TWANFQCSID" true;
    MSingle "PrivateExtension" true;
    MList "AdditionalIEs" true true];
  md_lens := [LSingle "MMEFQCSID";
    LSingle "SGWFQCSID";
    LSingle "PGWFQCSID";
    LSingle "EPDGFQCSID";
    LSingle "TWANFQCSID";
    LSingle "PrivateExtension";
    LList "AdditionalIEs" true];
  md_sub := 4 |}.


(** ** DeletePDNConnectionSetResponse: struct gtpv2/message/delete-pdn-connection-set-res.go:12-18 *)
(** NewDeletePDNConnectionSetResponse, gtpv2/message/delete-pdn-connection-set-res.go:21-47 (dispatch of the given IEs) *)
Definition new_DeletePDNConnectionSetResponse : table := Tbl true [
  (2, ASet "Cause") (* ie.Cause *);
  (3, ASet "Recovery") (* ie.Recovery *);
  (255, ASet "PrivateExtension") (* ie.PrivateExtension *)
  ] (AApp "AdditionalIEs").

(** DeletePDNConnectionSetResponse.UnmarshalBinary, gtpv2/message/delete-pdn-connection-set-res.go:110-141 *)
Definition unm_DeletePDNConnectionSetResponse : table := Tbl true [
  (2, ASet "Cause") (* ie.Cause *);
  (3, ASet "Recovery") (* ie.Recovery *);
  (255, ASet "PrivateExtension") (* ie.PrivateExtension *)
  ] (AApp "AdditionalIEs").

(** fields gtpv2/message/delete-pdn-connection-set-res.go:12-18; MarshalTo gtpv2/message/delete-pdn-connection-set-res.go:60-98; MarshalLen gtpv2/message/delete-pdn-connection-set-res.go:144-164; SetLength gtpv2/message/delete-pdn-connection-set-res.go:167-169;
    MessageTypeName "Delete PDN Connection Set Response"; TEID(): return m.Header.teid() *)
Definition d_DeletePDNConnectionSetResponse : mdesc := {|
  md_name := "DeletePDNConnectionSetResponse";
  md_ctor := Ctor 2 0 1 102 true;
  md_fields := [("Cause", FSingle); ("Recovery", FSingle); ("PrivateExtension", FSingle); ("AdditionalIEs", FList)];
  md_new := new_DeletePDNConnectionSetResponse;
  md_unm := unm_DeletePDNConnectionSetResponse;
  md_min := 2;
  md_soft := false;
  md_check := false;
  md_reset := true;
  md_steps := [MSingle "Cause" true;
    MSingle "Recovery" true;
    MSingle "PrivateExtension" true;
    MList "AdditionalIEs" true true];
  md_lens := [LSingle "Cause";
    LSingle "Recovery";
    LSingle "PrivateExtension";
    LList "AdditionalIEs" true];
  md_sub := 4 |}.


(** ** DeleteSessionRequest: struct gtpv2/message/delete-session-req.go:12-38 *)
(** NewDeleteSessionRequest, gtpv2/message/delete-session-req.go:41-127 (dispatch of the given IEs) *)
Definition new_DeleteSessionRequest : table := Tbl true [
  (2, ASet "Cause") (* ie.Cause *);
  (73, ASet "LinkedEBI") (* ie.EPSBearerID *);
  (86, ASet "ULI") (* ie.UserLocationInformation *);
  (77, ASet "IndicationFlags") (* ie.Indication *);
  (78, ASet "PCO") (* ie.ProtocolConfigurationOptions *);
  (135, ASet "OriginatingNode") (* ie.NodeType *);
  (87, ASet "SenderFTEIDC") (* ie.FullyQualifiedTEID *);
  (114, ASet "UETimeZone") (* ie.UETimeZone *);
  (170, ASet "ULITimestamp") (* ie.ULITimestamp *);
  (172, ASet "RANNASReleaseCause") (* ie.RANNASCause *);
  (169, AInst [(0, ASet "TWANIdentifier"); (1, ASet "WLANLocationInformation")] (AApp "AdditionalIEs")) (* ie.TWANIdentifier *);
  (179, AInst [(0, ASet "TWANIdentifierTimestamp"); (1, ASet "WLANLocationTimeStamp")] (AApp "AdditionalIEs")) (* ie.TWANIdentifierTimestamp *);
  (180, AInst [(0, ASet "MMESGSNOverloadControlInformation"); (1, ASet "SGWOverloadControlInformaion"); (2, ASet "TWANePDGOverloadControlInformaion")] (AApp "AdditionalIEs")) (* ie.OverloadControlInformation *);
  (74, ASet "UELocalIPAddress") (* ie.IPAddress *);
  (126, AInst [(0, ASet "UEUDPPort"); (1, ASet "UETCPPort")] (AApp "AdditionalIEs")) (* ie.PortNumber *);
  (197, ASet "EPCO") (* ie.ExtendedProtocolConfigurationOptions *);
  (201, ASet "SecondaryRATUsageDataReport") (* ie.SecondaryRATUsageDataReport *);
  (255, ASet "PrivateExtension") (* ie.PrivateExtension *)
  ] (AApp "AdditionalIEs").

(** DeleteSessionRequest.UnmarshalBinary, gtpv2/message/delete-session-req.go:309-401 *)
Definition unm_DeleteSessionRequest : table := Tbl true [
  (2, ASet "Cause") (* ie.Cause *);
  (73, ASet "LinkedEBI") (* ie.EPSBearerID *);
  (86, ASet "ULI") (* ie.UserLocationInformation *);
  (77, ASet "IndicationFlags") (* ie.Indication *);
  (78, ASet "PCO") (* ie.ProtocolConfigurationOptions *);
  (135, ASet "OriginatingNode") (* ie.NodeType *);
  (87, ASet "SenderFTEIDC") (* ie.FullyQualifiedTEID *);
  (114, ASet "UETimeZone") (* ie.UETimeZone *);
  (170, ASet "ULITimestamp") (* ie.ULITimestamp *);
  (172, ASet "RANNASReleaseCause") (* ie.RANNASCause *);
  (169, AInst [(0, ASet "TWANIdentifier"); (1, ASet "WLANLocationInformation")] (AApp "AdditionalIEs")) (* ie.TWANIdentifier *);
  (179, AInst [(0, ASet "TWANIdentifierTimestamp"); (1, ASet "WLANLocationTimeStamp")] (AApp "AdditionalIEs")) (* ie.TWANIdentifierTimestamp *);
  (180, AInst [(0, ASet "MMESGSNOverloadControlInformation"); (1, ASet "SGWOverloadControlInformaion"); (2, ASet "TWANePDGOverloadControlInformaion")] (AApp "AdditionalIEs")) (* ie.OverloadControlInformation *);
  (74, ASet "UELocalIPAddress") (* ie.IPAddress *);
  (126, AInst [(0, ASet "UEUDPPort"); (1, ASet "UETCPPort")] (AApp "AdditionalIEs")) (* ie.PortNumber *);
  (197, ASet "EPCO") (* ie.ExtendedProtocolConfigurationOptions *);
  (201, ASet "SecondaryRATUsageDataReport") (* ie.SecondaryRATUsageDataReport *);
  (255, ASet "PrivateExtension") (* ie.PrivateExtension *)
  ] (AApp "AdditionalIEs").

(** fields gtpv2/message/delete-session-req.go:12-38; MarshalTo gtpv2/message/delete-session-req.go:139-297; MarshalLen gtpv2/message/delete-session-req.go:404-484; SetLength gtpv2/message/delete-session-req.go:487-489;
    MessageTypeName "Delete Session Request"; TEID(): return d.Header.teid() *)
Definition d_DeleteSessionRequest : mdesc := {|
  md_name := "DeleteSessionRequest";
  md_ctor := Ctor 2 0 1 36 true;
  md_fields := [("Cause", FSingle); ("LinkedEBI", FSingle); ("ULI", FSingle); ("IndicationFlags", FSingle); ("PCO", FSingle); ("OriginatingNode", FSingle); ("SenderFTEIDC", FSingle); ("UETimeZone", FSingle); ("ULITimestamp", FSingle); ("RANNASReleaseCause", FSingle); ("TWANIdentifier", FSingle); ("TWANIdentifierTimestamp", FSingle); ("MMESGSNOverloadControlInformation", FSingle); ("SGWOverloadControlInformaion", FSingle); ("TWANePDGOverloadControlInformaion", FSingle); ("WLANLocationInformation", FSingle); ("WLANLocationTimeStamp", FSingle); ("UELocalIPAddress", FSingle); ("UEUDPPort", FSingle); ("EPCO", FSingle); ("UETCPPort", FSingle); ("SecondaryRATUsageDataReport", FSingle); ("PrivateExtension", FSingle); ("AdditionalIEs", FList)];
  md_new := new_DeleteSessionRequest;
  md_unm := unm_DeleteSessionRequest;
  md_min := 2;
  md_soft := false;
  md_check := false;
  md_reset := true;
  md_steps := [MSingle "Cause" true;
    MSingle "LinkedEBI" true;
    MSingle "ULI" true;
    MSingle "IndicationFlags" true;
    MSingle "PCO" true;
    MSingle "OriginatingNode" true;
    MSingle "SenderFTEIDC" true;
    MSingle "UETimeZone" true;
    MSingle "ULITimestamp" true;
    MSingle "RANNASReleaseCause" true;
    MSingle "TWANIdentifier" true;
    MSingle "TWANIdentifierTimestamp" true;
    MSingle "MMESGSNOverloadControlInformation" true;
    MSingle "SGWOverloadControlInformaion" true;
    MSingle "TWANePDGOverloadControlInformaion" true;
    MSingle "WLANLocationInformation" true;
    MSingle "WLANLocationTimeStamp" true;
    MSingle "UELocalIPAddress" true;
    MSingle "UEUDPPort" true;
    MSingle "EPCO" true;
    MSingle "UETCPPort" true;
    MSingle "SecondaryRATUsageDataReport" true;
    MSingle "PrivateExtension" true;
    MList "AdditionalIEs" true true];
  md_lens := [LSingle "Cause";
    LSingle "LinkedEBI";
    LSingle "ULI";
    LSingle "IndicationFlags";
    LSingle "PCO";
    LSingle "OriginatingNode";
    LSingle "SenderFTEIDC";
    LSingle "UETimeZone";
    LSingle "ULITimestamp";
    LSingle "RANNASReleaseCause";
    LSingle "TWANIdentifier";
    LSingle "TWANIdentifierTimestamp";
    LSingle "MMESGSNOverloadControlInformation";
    LSingle "SGWOverloadControlInformaion";
    LSingle "TWANePDGOverloadControlInformaion";
    LSingle "WLANLocationInformation";
    LSingle "WLANLocationTimeStamp";
    LSingle "UELocalIPAddress";
    LSingle "UEUDPPort";
    LSingle "EPCO";
    LSingle "UETCPPort";
    LSingle "SecondaryRATUsageDataReport";
    LSingle "PrivateExtension";
    LList "AdditionalIEs" true];
  md_sub := 4 |}.


(** ** DeleteSessionResponse: struct gtpv2/message/delete-session-res.go:12-27 *)
(** NewDeleteSessionResponse, gtpv2/message/delete-session-res.go:30-84 (dispatch of the given IEs) *)
Definition new_DeleteSessionResponse : table := Tbl true [
  (2, ASet "Cause") (* ie.Cause *);
  (3, ASet "Recovery") (* ie.Recovery *);
  (78, ASet "PCO") (* ie.ProtocolConfigurationOptions *);
  (77, ASet "IndicationFlags") (* ie.Indication *);
  (181, AInst [(1, ASet "PGWNodeLoadControlInformation"); (2, ASet "PGWAPNLoadControlInformation"); (3, ASet "SGWNodeLoadControlInformation")] (AApp "AdditionalIEs")) (* ie.LoadControlInformation *);
  (180, AInst [(1, ASet "PGWOverloadControlInformation"); (2, ASet "SGWOverloadControlInformation")] (AApp "AdditionalIEs")) (* ie.OverloadControlInformation *);
  (197, ASet "EPCO") (* ie.ExtendedProtocolConfigurationOptions *);
  (204, ASet "APNRateControlStatus") (* ie.APNRateControlStatus *);
  (255, ASet "PrivateExtension") (* ie.PrivateExtension *)
  ] (AApp "AdditionalIEs").

(** DeleteSessionResponse.UnmarshalBinary, gtpv2/message/delete-session-res.go:200-260 *)
Definition unm_DeleteSessionResponse : table := Tbl true [
  (2, ASet "Cause") (* ie.Cause *);
  (3, ASet "Recovery") (* ie.Recovery *);
  (78, ASet "PCO") (* ie.ProtocolConfigurationOptions *);
  (77, ASet "IndicationFlags") (* ie.Indication *);
  (181, AInst [(1, ASet "PGWNodeLoadControlInformation"); (2, ASet "PGWAPNLoadControlInformation"); (3, ASet "SGWNodeLoadControlInformation")] (AApp "AdditionalIEs")) (* ie.LoadControlInformation *);
  (180, AInst [(1, ASet "PGWOverloadControlInformation"); (2, ASet "SGWOverloadControlInformation")] (AApp "AdditionalIEs")) (* ie.OverloadControlInformation *);
  (197, ASet "EPCO") (* ie.ExtendedProtocolConfigurationOptions *);
  (204, ASet "APNRateControlStatus") (* ie.APNRateControlStatus *);
  (255, ASet "PrivateExtension") (* ie.PrivateExtension *)
  ] (AApp "AdditionalIEs").

(** fields gtpv2/message/delete-session-res.go:12-27; MarshalTo gtpv2/message/delete-session-res.go:96-188; MarshalLen gtpv2/message/delete-session-res.go:263-310; SetLength gtpv2/message/delete-session-res.go:313-315;
    MessageTypeName "Delete Session Response"; TEID(): return d.Header.teid() *)
Definition d_DeleteSessionResponse : mdesc := {|
  md_name := "DeleteSessionResponse";
  md_ctor := Ctor 2 0 1 37 true;
  md_fields := [("Cause", FSingle); ("Recovery", FSingle); ("PCO", FSingle); ("IndicationFlags", FSingle); ("PGWNodeLoadControlInformation", FSingle); ("PGWAPNLoadControlInformation", FSingle); ("SGWNodeLoadControlInformation", FSingle); ("PGWOverloadControlInformation", FSingle); ("SGWOverloadControlInformation", FSingle); ("EPCO", FSingle); ("APNRateControlStatus", FSingle); ("PrivateExtension", FSingle); ("AdditionalIEs", FList)];
  md_new := new_DeleteSessionResponse;
  md_unm := unm_DeleteSessionResponse;
  md_min := 2;
  md_soft := false;
  md_check := false;
  md_reset := true;
  md_steps := [MSingle "Cause" true;
    MSingle "Recovery" true;
    MSingle "PCO" true;
    MSingle "IndicationFlags" true;
    MSingle "PGWNodeLoadControlInformation" true;
    MSingle "PGWAPNLoadControlInformation" true;
    MSingle "SGWNodeLoadControlInformation" true;
    MSingle "PGWOverloadControlInformation" true;
    MSingle "SGWOverloadControlInformation" true;
    MSingle "EPCO" true;
    MSingle "APNRateControlStatus" true;
    MSingle "PrivateExtension" true;
    MList "AdditionalIEs" true true];
  md_lens := [LSingle "Cause";
    LSingle "Recovery";
    LSingle "PCO";
    LSingle "IndicationFlags";
    LSingle "PGWNodeLoadControlInformation";
    LSingle "PGWAPNLoadControlInformation";
    LSingle "SGWNodeLoadControlInformation";
    LSingle "PGWOverloadControlInformation";
    LSingle "SGWOverloadControlInformation";
    LSingle "EPCO";
    LSingle "APNRateControlStatus";
    LSingle "PrivateExtension";
    LList "AdditionalIEs" true];
  md_sub := 4 |}.


(** ** DetachAcknowledge: struct gtpv2/message/detach-acknowledge.go:12-18 *)
(** NewDetachAcknowledge, gtpv2/message/detach-acknowledge.go:21-47 (dispatch of the given IEs) *)
Definition new_DetachAcknowledge : table := Tbl true [
  (2, ASet "Cause") (* ie.Cause *);
  (3, ASet "Recovery") (* ie.Recovery *);
  (255, ASet "PrivateExtension") (* ie.PrivateExtension *)
  ] (AApp "AdditionalIEs").

(** DetachAcknowledge.UnmarshalBinary, gtpv2/message/detach-acknowledge.go:110-141 *)
Definition unm_DetachAcknowledge : table := Tbl true [
  (2, ASet "Cause") (* ie.Cause *);
  (3, ASet "Recovery") (* ie.Recovery *);
  (255, ASet "PrivateExtension") (* ie.PrivateExtension *)
  ] (AApp "AdditionalIEs").

(** fields gtpv2/message/detach-acknowledge.go:12-18; MarshalTo gtpv2/message/detach-acknowledge.go:60-98; MarshalLen gtpv2/message/detach-acknowledge.go:144-164; SetLength gtpv2/message/detach-acknowledge.go:167-169;
    MessageTypeName "Detach Acknowledge"; TEID(): return m.Header.teid() *)
Definition d_DetachAcknowledge : mdesc := {|
  md_name := "DetachAcknowledge";
  md_ctor := Ctor 2 0 1 150 true;
  md_fields := [("Cause", FSingle); ("Recovery", FSingle); ("PrivateExtension", FSingle); ("AdditionalIEs", FList)];
  md_new := new_DetachAcknowledge;
  md_unm := unm_DetachAcknowledge;
  md_min := 2;
  md_soft := false;
  md_check := false;
  md_reset := true;
  md_steps := [MSingle "Cause" true;
    MSingle "Recovery" true;
    MSingle "PrivateExtension" true;
    MList "AdditionalIEs" true true];
  md_lens := [LSingle "Cause";
    LSingle "Recovery";
    LSingle "PrivateExtension";
    LList "AdditionalIEs" true];
  md_sub := 4 |}.


(** ** DetachNotification: struct gtpv2/message/detach-notification.go:12-18 *)
(** NewDetachNotification, gtpv2/message/detach-notification.go:21-47 (dispatch of the given IEs) *)
Definition new_DetachNotification : table := Tbl true [
  (2, ASet "Cause") (* ie.Cause *);
  (150, ASet "DetachType") (* ie.DetachType *);
  (255, ASet "PrivateExtension") (* ie.PrivateExtension *)
  ] (AApp "AdditionalIEs").

(** DetachNotification.UnmarshalBinary, gtpv2/message/detach-notification.go:109-140 *)
Definition unm_DetachNotification : table := Tbl true [
  (2, ASet "Cause") (* ie.Cause *);
  (150, ASet "DetachType") (* ie.DetachType *);
  (255, ASet "PrivateExtension") (* ie.PrivateExtension *)
  ] (AApp "AdditionalIEs").

(** fields gtpv2/message/detach-notification.go:12-18; MarshalTo gtpv2/message/detach-notification.go:59-97; MarshalLen gtpv2/message/detach-notification.go:143-163; SetLength gtpv2/message/detach-notification.go:166-168;
    MessageTypeName "Detach Notification"; TEID(): return m.Header.teid() *)
Definition d_DetachNotification : mdesc := {|
  md_name := "DetachNotification";
  md_ctor := Ctor 2 0 1 149 true;
  md_fields := [("Cause", FSingle); ("DetachType", FSingle); ("PrivateExtension", FSingle); ("AdditionalIEs", FList)];
  md_new := new_DetachNotification;
  md_unm := unm_DetachNotification;
  md_min := 2;
  md_soft := false;
  md_check := false;
  md_reset := true;
  md_steps := [MSingle "Cause" true;
    MSingle "DetachType" true;
    MSingle "PrivateExtension" true;
    MList "AdditionalIEs" true true];
  md_lens := [LSingle "Cause";
    LSingle "DetachType";
    LSingle "PrivateExtension";
    LList "AdditionalIEs" true];
  md_sub := 4 |}.


(** ** DownlinkDataNotificationAcknowledge: struct gtpv2/message/downlink-data-notification-ack.go:12-23 *)
(** NewDownlinkDataNotificationAcknowledge, gtpv2/message/downlink-data-notification-ack.go:26-62 (dispatch of the given IEs) *)
Definition new_DownlinkDataNotificationAcknowledge : table := Tbl true [
  (2, ASet "Cause") (* ie.Cause *);
  (92, ASet "DataNotificationDelay") (* ie.DelayValue *);
  (3, ASet "Recovery") (* ie.Recovery *);
  (154, ASet "DLLowPriorityTrafficThrottling") (* ie.Throttling *);
  (1, ASet "IMSI") (* ie.IMSI *);
  (156, ASet "DLBufferingDuration") (* ie.EPCTimer *);
  (187, ASet "DLBufferingSuggestedPacketCount") (* ie.IntegerNumber *);
  (255, ASet "PrivateExtension") (* ie.PrivateExtension *)
  ] (AApp "AdditionalIEs").

(** DownlinkDataNotificationAcknowledge.UnmarshalBinary, gtpv2/message/downlink-data-notification-ack.go:154-195 *)
Definition unm_DownlinkDataNotificationAcknowledge : table := Tbl true [
  (2, ASet "Cause") (* ie.Cause *);
  (92, ASet "DataNotificationDelay") (* ie.DelayValue *);
  (3, ASet "Recovery") (* ie.Recovery *);
  (154, ASet "DLLowPriorityTrafficThrottling") (* ie.Throttling *);
  (1, ASet "IMSI") (* ie.IMSI *);
  (156, ASet "DLBufferingDuration") (* ie.EPCTimer *);
  (187, ASet "DLBufferingSuggestedPacketCount") (* ie.IntegerNumber *);
  (255, ASet "PrivateExtension") (* ie.PrivateExtension *)
  ] (AApp "AdditionalIEs").

(** fields gtpv2/message/downlink-data-notification-ack.go:12-23; MarshalTo gtpv2/message/downlink-data-notification-ack.go:74-142; MarshalLen gtpv2/message/downlink-data-notification-ack.go:198-233; SetLength gtpv2/message/downlink-data-notification-ack.go:236-238;
    MessageTypeName "Downlink Data Notification Acknowledge"; TEID(): return d.Header.teid() *)
Definition d_DownlinkDataNotificationAcknowledge : mdesc := {|
  md_name := "DownlinkDataNotificationAcknowledge";
  md_ctor := Ctor 2 0 1 177 true;
  md_fields := [("Cause", FSingle); ("DataNotificationDelay", FSingle); ("Recovery", FSingle); ("DLLowPriorityTrafficThrottling", FSingle); ("IMSI", FSingle); ("DLBufferingDuration", FSingle); ("DLBufferingSuggestedPacketCount", FSingle); ("PrivateExtension", FSingle); ("AdditionalIEs", FList)];
  md_new := new_DownlinkDataNotificationAcknowledge;
  md_unm := unm_DownlinkDataNotificationAcknowledge;
  md_min := 2;
  md_soft := false;
  md_check := false;
  md_reset := true;
  md_steps := [MSingle "Cause" true;
    MSingle "DataNotificationDelay" true;
    MSingle "Recovery" true;
    MSingle "DLLowPriorityTrafficThrottling" true;
    MSingle "IMSI" true;
    MSingle "DLBufferingDuration" true;
    MSingle "DLBufferingSuggestedPacketCount" true;
    MSingle "PrivateExtension" true;
    MList "AdditionalIEs" true true];
  md_lens := [LSingle "Cause";
    LSingle "DataNotificationDelay";
    LSingle "Recovery";
    LSingle "DLLowPriorityTrafficThrottling";
    LSingle "IMSI";
    LSingle "DLBufferingDuration";
    LSingle "DLBufferingSuggestedPacketCount";
    LSingle "PrivateExtension";
    LList "AdditionalIEs" true];
  md_sub := 4 |}.


(** ** DownlinkDataNotificationFailureIndication: struct gtpv2/message/downlink-data-notification-failure-indication.go:12-19 *)
(** NewDownlinkDataNotificationFailureIndication, gtpv2/message/downlink-data-notification-failure-indication.go:22-50 (dispatch of the given IEs) *)
Definition new_DownlinkDataNotificationFailureIndication : table := Tbl true [
  (2, ASet "Cause") (* ie.Cause *);
  (135, ASet "OriginatingNode") (* ie.NodeType *);
  (1, ASet "IMSI") (* ie.IMSI *);
  (255, ASet "PrivateExtension") (* ie.PrivateExtension *)
  ] (AApp "AdditionalIEs").

(** DownlinkDataNotificationFailureIndication.UnmarshalBinary, gtpv2/message/downlink-data-notification-failure-indication.go:118-151 *)
Definition unm_DownlinkDataNotificationFailureIndication : table := Tbl true [
  (2, ASet "Cause") (* ie.Cause *);
  (135, ASet "OriginatingNode") (* ie.NodeType *);
  (1, ASet "IMSI") (* ie.IMSI *);
  (255, ASet "PrivateExtension") (* ie.PrivateExtension *)
  ] (AApp "AdditionalIEs").

(** fields gtpv2/message/downlink-data-notification-failure-indication.go:12-19; MarshalTo gtpv2/message/downlink-data-notification-failure-indication.go:62-106; MarshalLen gtpv2/message/downlink-data-notification-failure-indication.go:154-177; SetLength gtpv2/message/downlink-data-notification-failure-indication.go:180-182;
    MessageTypeName "Downlink Data Notification Failure Indication"; TEID(): return d.Header.teid() *)
Definition d_DownlinkDataNotificationFailureIndication : mdesc := {|
  md_name := "DownlinkDataNotificationFailureIndication";
  md_ctor := Ctor 2 0 1 70 true;
  md_fields := [("Cause", FSingle); ("OriginatingNode", FSingle); ("IMSI", FSingle); ("PrivateExtension", FSingle); ("AdditionalIEs", FList)];
  md_new := new_DownlinkDataNotificationFailureIndication;
  md_unm := unm_DownlinkDataNotificationFailureIndication;
  md_min := 2;
  md_soft := false;
  md_check := false;
  md_reset := true;
  md_steps := [MSingle "Cause" true;
    MSingle "OriginatingNode" true;
    MSingle "IMSI" true;
    MSingle "PrivateExtension" true;
    MList "AdditionalIEs" true true];
  md_lens := [LSingle "Cause";
    LSingle "OriginatingNode";
    LSingle "IMSI";
    LSingle "PrivateExtension";
    LList "AdditionalIEs" true];
  md_sub := 4 |}.


(** ** DownlinkDataNotification: struct gtpv2/message/downlink-data-notification.go:12-26 *)
(** NewDownlinkDataNotification, gtpv2/message/downlink-data-notification.go:29-71 (dispatch of the given IEs) *)
Definition new_DownlinkDataNotification : table := Tbl true [
  (2, ASet "Cause") (* ie.Cause *);
  (73, ASet "EPSBearerID") (* ie.EPSBearerID *);
  (155, ASet "AllocationRetensionPriority") (* ie.AllocationRetensionPriority *);
  (1, ASet "IMSI") (* ie.IMSI *);
  (87, ASet "SenderFTEIDC") (* ie.FullyQualifiedTEID *);
  (77, ASet "IndicationFlags") (* ie.Indication *);
  (181, ASet "SGWNodeLoadControlInformation") (* ie.LoadControlInformation *);
  (180, ASet "SGWOverloadControlInformation") (* ie.OverloadControlInformation *);
  (186, ASet "PagingAndServiceInformation") (* ie.PagingAndServiceInformation *);
  (187, ASet "DLDataPacketsSize") (* ie.IntegerNumber *);
  (255, ASet "PrivateExtension") (* ie.PrivateExtension *)
  ] (AApp "AdditionalIEs").

(** DownlinkDataNotification.UnmarshalBinary, gtpv2/message/downlink-data-notification.go:181-228 *)
Definition unm_DownlinkDataNotification : table := Tbl true [
  (2, ASet "Cause") (* ie.Cause *);
  (73, ASet "EPSBearerID") (* ie.EPSBearerID *);
  (155, ASet "AllocationRetensionPriority") (* ie.AllocationRetensionPriority *);
  (1, ASet "IMSI") (* ie.IMSI *);
  (87, ASet "SenderFTEIDC") (* ie.FullyQualifiedTEID *);
  (77, ASet "IndicationFlags") (* ie.Indication *);
  (181, ASet "SGWNodeLoadControlInformation") (* ie.LoadControlInformation *);
  (180, ASet "SGWOverloadControlInformation") (* ie.OverloadControlInformation *);
  (186, ASet "PagingAndServiceInformation") (* ie.PagingAndServiceInformation *);
  (187, ASet "DLDataPacketsSize") (* ie.IntegerNumber *);
  (255, ASet "PrivateExtension") (* ie.PrivateExtension *)
  ] (AApp "AdditionalIEs").

(** fields gtpv2/message/downlink-data-notification.go:12-26; MarshalTo gtpv2/message/downlink-data-notification.go:83-169; MarshalLen gtpv2/message/downlink-data-notification.go:231-275; SetLength gtpv2/message/downlink-data-notification.go:278-280;
    MessageTypeName "Downlink Data Notification"; TEID(): return d.Header.teid() *)
Definition d_DownlinkDataNotification : mdesc := {|
  md_name := "DownlinkDataNotification";
  md_ctor := Ctor 2 0 1 176 true;
  md_fields := [("Cause", FSingle); ("EPSBearerID", FSingle); ("AllocationRetensionPriority", FSingle); ("IMSI", FSingle); ("SenderFTEIDC", FSingle); ("IndicationFlags", FSingle); ("SGWNodeLoadControlInformation", FSingle); ("SGWOverloadControlInformation", FSingle); ("PagingAndServiceInformation", FSingle); ("DLDataPacketsSize", FSingle); ("PrivateExtension", FSingle); ("AdditionalIEs", FList)];
  md_new := new_DownlinkDataNotification;
  md_unm := unm_DownlinkDataNotification;
  md_min := 2;
  md_soft := false;
  md_check := false;
  md_reset := true;
  md_steps := [MSingle "Cause" true;
    MSingle "EPSBearerID" true;
    MSingle "AllocationRetensionPriority" true;
    MSingle "IMSI" true;
    MSingle "SenderFTEIDC" true;
    MSingle "IndicationFlags" true;
    MSingle "SGWNodeLoadControlInformation" true;
    MSingle "SGWOverloadControlInformation" true;
    MSingle "PagingAndServiceInformation" true;
    MSingle "DLDataPacketsSize" true;
    MSingle "PrivateExtension" true;
    MList "AdditionalIEs" true true];
  md_lens := [LSingle "Cause";
    LSingle "EPSBearerID";
    LSingle "AllocationRetensionPriority";
    LSingle "IMSI";
    LSingle "SenderFTEIDC";
    LSingle "IndicationFlags";
    LSingle "SGWNodeLoadControlInformation";
    LSingle "SGWOverloadControlInformation";
    LSingle "PagingAndServiceInformation";
    LSingle "DLDataPacketsSize";
    LSingle "PrivateExtension";
    LList "AdditionalIEs" true];
  md_sub := 4 |}.


(** ** EchoRequest: struct gtpv2/message/echo-req.go:12-18 *)
(** NewEchoRequest, gtpv2/message/echo-req.go:21-47 (dispatch of the given IEs) *)
Definition new_EchoRequest : table := Tbl true [
  (3, ASet "Recovery") (* ie.Recovery *);
  (152, ASet "SendingNodeFeatures") (* ie.NodeFeatures *);
  (255, ASet "PrivateExtension") (* ie.PrivateExtension *)
  ] (AApp "AdditionalIEs").

(** EchoRequest.UnmarshalBinary, gtpv2/message/echo-req.go:107-139 *)
Definition unm_EchoRequest : table := Tbl true [
  (3, ASet "Recovery") (* ie.Recovery *);
  (152, ASet "SendingNodeFeatures") (* ie.NodeFeatures *);
  (255, ASet "PrivateExtension") (* ie.PrivateExtension *)
  ] (AApp "AdditionalIEs").

(** fields gtpv2/message/echo-req.go:12-18; MarshalTo gtpv2/message/echo-req.go:60-95; MarshalLen gtpv2/message/echo-req.go:142-160; SetLength gtpv2/message/echo-req.go:163-165;
    MessageTypeName "Echo Request"; TEID(): return e.Header.teid() *)
Definition d_EchoRequest : mdesc := {|
  md_name := "EchoRequest";
  md_ctor := Ctor 2 0 0 1 false;
  md_fields := [("Recovery", FSingle); ("SendingNodeFeatures", FSingle); ("PrivateExtension", FSingle); ("AdditionalIEs", FList)];
  md_new := new_EchoRequest;
  md_unm := unm_EchoRequest;
  md_min := 2;
  md_soft := false;
  md_check := false;
  md_reset := true;
  md_steps := [MSingle "Recovery" true;
    MSingle "SendingNodeFeatures" true;
    MSingle "PrivateExtension" true;
    MList "AdditionalIEs" false true];
  md_lens := [LSingle "Recovery";
    LSingle "SendingNodeFeatures";
    LSingle "PrivateExtension";
    LList "AdditionalIEs" false];
  md_sub := 4 |}.


(** ** EchoResponse: struct gtpv2/message/echo-res.go:12-18 *)
(** NewEchoResponse, gtpv2/message/echo-res.go:21-47 (dispatch of the given IEs) *)
Definition new_EchoResponse : table := Tbl true [
  (3, ASet "Recovery") (* ie.Recovery *);
  (152, ASet "SendingNodeFeatures") (* ie.NodeFeatures *);
  (255, ASet "PrivateExtension") (* ie.PrivateExtension *)
  ] (AApp "AdditionalIEs").

(** EchoResponse.UnmarshalBinary, gtpv2/message/echo-res.go:110-142 *)
Definition unm_EchoResponse : table := Tbl true [
  (3, ASet "Recovery") (* ie.Recovery *);
  (152, ASet "SendingNodeFeatures") (* ie.NodeFeatures *);
  (255, ASet "PrivateExtension") (* ie.PrivateExtension *)
  ] (AApp "AdditionalIEs").

(** fields gtpv2/message/echo-res.go:12-18; MarshalTo gtpv2/message/echo-res.go:60-98; MarshalLen gtpv2/message/echo-res.go:145-165; SetLength gtpv2/message/echo-res.go:168-170;
    MessageTypeName "Echo Response"; TEID(): return e.Header.teid() *)
Definition d_EchoResponse : mdesc := {|
  md_name := "EchoResponse";
  md_ctor := Ctor 2 0 0 2 false;
  md_fields := [("Recovery", FSingle); ("SendingNodeFeatures", FSingle); ("PrivateExtension", FSingle); ("AdditionalIEs", FList)];
  md_new := new_EchoResponse;
  md_unm := unm_EchoResponse;
  md_min := 2;
  md_soft := false;
  md_check := false;
  md_reset := true;
  md_steps := [MSingle "Recovery" true;
    MSingle "SendingNodeFeatures" true;
    MSingle "PrivateExtension" true;
    MList "AdditionalIEs" true true];
  md_lens := [LSingle "Recovery";
    LSingle "SendingNodeFeatures";
    LSingle "PrivateExtension";
    LList "AdditionalIEs" true];
  md_sub := 4 |}.


(** ** ModifyAccessBearersRequest: struct gtpv2/message/modify-access-bearers-req.go:10-21 *)
(** NewModifyAccessBearersRequest, gtpv2/message/modify-access-bearers-req.go:24-63 (dispatch of the given IEs) *)
Definition new_ModifyAccessBearersRequest : table := Tbl true [
  (77, ASet "IndicationFlags") (* ie.Indication *);
  (135, ASet "SenderFTEIDC") (* ie.NodeType *);
  (92, ASet "DelayDownlinkPacketNotificationRequest") (* ie.DelayValue *);
  (93, AInst [(0, AApp "BearerContextsToBeModified"); (1, AApp "BearerContextsToBeRemoved")] (ANop)) (* ie.BearerContext *);
  (3, ASet "Recovery") (* ie.Recovery *);
  (201, AApp "SecondaryRATUsageDataReport") (* ie.SecondaryRATUsageDataReport *);
  (255, ASet "PrivateExtension") (* ie.PrivateExtension *)
  ] (AApp "AdditionalIEs").

(** ModifyAccessBearersRequest.UnmarshalBinary, gtpv2/message/modify-access-bearers-req.go:155-199 *)
Definition unm_ModifyAccessBearersRequest : table := Tbl true [
  (77, ASet "IndicationFlags") (* ie.Indication *);
  (135, ASet "SenderFTEIDC") (* ie.NodeType *);
  (92, ASet "DelayDownlinkPacketNotificationRequest") (* ie.DelayValue *);
  (93, AInst [(0, AApp "BearerContextsToBeModified"); (1, AApp "BearerContextsToBeRemoved")] (ANop)) (* ie.BearerContext *);
  (3, ASet "Recovery") (* ie.Recovery *);
  (201, AApp "SecondaryRATUsageDataReport") (* ie.SecondaryRATUsageDataReport *);
  (255, ASet "PrivateExtension") (* ie.PrivateExtension *)
  ] (AApp "AdditionalIEs").

(** fields gtpv2/message/modify-access-bearers-req.go:10-21; MarshalTo gtpv2/message/modify-access-bearers-req.go:75-143; MarshalLen gtpv2/message/modify-access-bearers-req.go:202-236; SetLength gtpv2/message/modify-access-bearers-req.go:239-241;
    MessageTypeName "Modify Access Bearers Request"; TEID(): return m.Header.teid() *)
Definition d_ModifyAccessBearersRequest : mdesc := {|
  md_name := "ModifyAccessBearersRequest";
  md_ctor := Ctor 2 0 1 211 true;
  md_fields := [("IndicationFlags", FSingle); ("SenderFTEIDC", FSingle); ("DelayDownlinkPacketNotificationRequest", FSingle); ("BearerContextsToBeModified", FList); ("BearerContextsToBeRemoved", FList); ("Recovery", FSingle); ("SecondaryRATUsageDataReport", FList); ("PrivateExtension", FSingle); ("AdditionalIEs", FList)];
  md_new := new_ModifyAccessBearersRequest;
  md_unm := unm_ModifyAccessBearersRequest;
  md_min := 2;
  md_soft := false;
  md_check := false;
  md_reset := true;
  md_steps := [MSingle "IndicationFlags" true;
    MSingle "SenderFTEIDC" true;
    MSingle "DelayDownlinkPacketNotificationRequest" true;
    MList "BearerContextsToBeModified" false true;
    MList "BearerContextsToBeRemoved" false true;
    MSingle "Recovery" true;
    MList "SecondaryRATUsageDataReport" false true;
    MSingle "PrivateExtension" true;
    MList "AdditionalIEs" true true];
  md_lens := [LSingle "IndicationFlags";
    LSingle "SenderFTEIDC";
    LSingle "DelayDownlinkPacketNotificationRequest";
    LList "BearerContextsToBeModified" false;
    LList "BearerContextsToBeRemoved" false;
    LSingle "Recovery";
    LList "SecondaryRATUsageDataReport" false;
    LSingle "PrivateExtension";
    LList "AdditionalIEs" true];
  md_sub := 4 |}.


(** ** ModifyAccessBearersResponse: struct gtpv2/message/modify-access-bearers-res.go:10-21 *)
(** NewModifyAccessBearersResponse, gtpv2/message/modify-access-bearers-res.go:24-63 (dispatch of the given IEs) *)
Definition new_ModifyAccessBearersResponse : table := Tbl true [
  (2, ASet "Cause") (* ie.Cause *);
  (93, AInst [(0, AApp "BearerContextsModified"); (1, AApp "BearerContextsMarkedForRemoval")] (ANop)) (* ie.BearerContext *);
  (3, ASet "Recovery") (* ie.Recovery *);
  (77, ASet "IndicationFlags") (* ie.Indication *);
  (181, ASet "SGWNodeLoadControlInformation") (* ie.LoadControlInformation *);
  (180, ASet "SGWOverloadControlInformation") (* ie.OverloadControlInformation *);
  (255, ASet "PrivateExtension") (* ie.PrivateExtension *)
  ] (AApp "AdditionalIEs").

(** ModifyAccessBearersResponse.UnmarshalBinary, gtpv2/message/modify-access-bearers-res.go:155-199 *)
Definition unm_ModifyAccessBearersResponse : table := Tbl true [
  (2, ASet "Cause") (* ie.Cause *);
  (93, AInst [(0, AApp "BearerContextsModified"); (1, AApp "BearerContextsMarkedForRemoval")] (ANop)) (* ie.BearerContext *);
  (3, ASet "Recovery") (* ie.Recovery *);
  (77, ASet "IndicationFlags") (* ie.Indication *);
  (181, ASet "SGWNodeLoadControlInformation") (* ie.LoadControlInformation *);
  (180, ASet "SGWOverloadControlInformation") (* ie.OverloadControlInformation *);
  (255, ASet "PrivateExtension") (* ie.PrivateExtension *)
  ] (AApp "AdditionalIEs").

(** fields gtpv2/message/modify-access-bearers-res.go:10-21; MarshalTo gtpv2/message/modify-access-bearers-res.go:75-143; MarshalLen gtpv2/message/modify-access-bearers-res.go:202-236; SetLength gtpv2/message/modify-access-bearers-res.go:239-241;
    MessageTypeName "Modify Access Bearers Response"; TEID(): return m.Header.teid() *)
Definition d_ModifyAccessBearersResponse : mdesc := {|
  md_name := "ModifyAccessBearersResponse";
  md_ctor := Ctor 2 0 1 212 true;
  md_fields := [("Cause", FSingle); ("BearerContextsModified", FList); ("BearerContextsMarkedForRemoval", FList); ("Recovery", FSingle); ("IndicationFlags", FSingle); ("SGWNodeLoadControlInformation", FSingle); ("SGWOverloadControlInformation", FSingle); ("PrivateExtension", FSingle); ("AdditionalIEs", FList)];
  md_new := new_ModifyAccessBearersResponse;
  md_unm := unm_ModifyAccessBearersResponse;
  md_min := 2;
  md_soft := false;
  md_check := false;
  md_reset := true;
  md_steps := [MSingle "Cause" true;
    MList "BearerContextsModified" false true;
    MList "BearerContextsMarkedForRemoval" false true;
    MSingle "Recovery" true;
    MSingle "IndicationFlags" true;
    MSingle "SGWNodeLoadControlInformation" true;
    MSingle "SGWOverloadControlInformation" true;
    MSingle "PrivateExtension" true;
    MList "AdditionalIEs" true true];
  md_lens := [LSingle "Cause";
    LList "BearerContextsModified" false;
    LList "BearerContextsMarkedForRemoval" false;
    LSingle "Recovery";
    LSingle "IndicationFlags";
    LSingle "SGWNodeLoadControlInformation";
    LSingle "SGWOverloadControlInformation";
    LSingle "PrivateExtension";
    LList "AdditionalIEs" true];
  md_sub := 4 |}.


(** ** ModifyBearerCommand: struct gtpv2/message/modify-bearer-command.go:10-20 *)
(** NewModifyBearerCommand, gtpv2/message/modify-bearer-command.go:23-60 (dispatch of the given IEs) *)
Definition new_ModifyBearerCommand : table := Tbl true [
  (72, ASet "APNAMBR") (* ie.AggregateMaximumBitRate *);
  (93, ASet "BearerContext") (* ie.BearerContext *);
  (180, AInst [(0, ASet "MMESGSNOverloadControlInformation"); (1, ASet "SGWOverloadControlInformation"); (2, ASet "TWANePDGOverloadControlInformation")] (ANop)) (* ie.OverloadControlInformation *);
  (87, ASet "SenderFTEIDC") (* ie.FullyQualifiedTEID *);
  (255, ASet "PrivateExtension") (* ie.PrivateExtension *)
  ] (AApp "AdditionalIEs").

(** ModifyBearerCommand.UnmarshalBinary, gtpv2/message/modify-bearer-command.go:146-188 *)
Definition unm_ModifyBearerCommand : table := Tbl true [
  (72, ASet "APNAMBR") (* ie.AggregateMaximumBitRate *);
  (93, ASet "BearerContext") (* ie.BearerContext *);
  (180, AInst [(0, ASet "MMESGSNOverloadControlInformation"); (1, ASet "SGWOverloadControlInformation"); (2, ASet "TWANePDGOverloadControlInformation")] (ANop)) (* ie.OverloadControlInformation *);
  (87, ASet "SenderFTEIDC") (* ie.FullyQualifiedTEID *);
  (255, ASet "PrivateExtension") (* ie.PrivateExtension *)
  ] (AApp "AdditionalIEs").

(** fields gtpv2/message/modify-bearer-command.go:10-20; MarshalTo gtpv2/message/modify-bearer-command.go:72-134; MarshalLen gtpv2/message/modify-bearer-command.go:191-222; SetLength gtpv2/message/modify-bearer-command.go:225-227;
    MessageTypeName "Modify Bearer Command"; TEID(): return m.Header.teid() *)
Definition d_ModifyBearerCommand : mdesc := {|
  md_name := "ModifyBearerCommand";
  md_ctor := Ctor 2 0 1 64 true;
  md_fields := [("APNAMBR", FSingle); ("BearerContext", FSingle); ("MMESGSNOverloadControlInformation", FSingle); ("SGWOverloadControlInformation", FSingle); ("TWANePDGOverloadControlInformation", FSingle); ("SenderFTEIDC", FSingle); ("PrivateExtension", FSingle); ("AdditionalIEs", FList)];
  md_new := new_ModifyBearerCommand;
  md_unm := unm_ModifyBearerCommand;
  md_min := 2;
  md_soft := false;
  md_check := false;
  md_reset := true;
  md_steps := [MSingle "APNAMBR" true;
    MSingle "BearerContext" true;
    MSingle "MMESGSNOverloadControlInformation" true;
    MSingle "SGWOverloadControlInformation" true;
    MSingle "TWANePDGOverloadControlInformation" true;
    MSingle "SenderFTEIDC" true;
    MSingle "PrivateExtension" true;
    MList "AdditionalIEs" true true];
  md_lens := [LSingle "APNAMBR";
    LSingle "BearerContext";
    LSingle "MMESGSNOverloadControlInformation";
    LSingle "SGWOverloadControlInformation";
    LSingle "TWANePDGOverloadControlInformation";
    LSingle "SenderFTEIDC";
    LSingle "PrivateExtension";
    LList "AdditionalIEs" true];
  md_sub := 4 |}.


(** ** ModifyBearerFailureIndication: struct gtpv2/message/modify-bearer-failure-indication.go:10-19 *)
(** NewModifyBearerFailureIndication, gtpv2/message/modify-bearer-failure-indication.go:22-57 (dispatch of the given IEs) *)
Definition new_ModifyBearerFailureIndication : table := Tbl true [
  (2, ASet "Cause") (* ie.Cause *);
  (3, ASet "Recovery") (* ie.Recovery *);
  (77, ASet "IndicationFlags") (* ie.Indication *);
  (180, AInst [(0, ASet "PGWOverloadControlInformation"); (1, ASet "SGWOverloadControlInformation")] (ANop)) (* ie.OverloadControlInformation *);
  (255, ASet "PrivateExtension") (* ie.PrivateExtension *)
  ] (AApp "AdditionalIEs").

(** ModifyBearerFailureIndication.UnmarshalBinary, gtpv2/message/modify-bearer-failure-indication.go:137-177 *)
Definition unm_ModifyBearerFailureIndication : table := Tbl true [
  (2, ASet "Cause") (* ie.Cause *);
  (3, ASet "Recovery") (* ie.Recovery *);
  (77, ASet "IndicationFlags") (* ie.Indication *);
  (180, AInst [(0, ASet "PGWOverloadControlInformation"); (1, ASet "SGWOverloadControlInformation")] (ANop)) (* ie.OverloadControlInformation *);
  (255, ASet "PrivateExtension") (* ie.PrivateExtension *)
  ] (AApp "AdditionalIEs").

(** fields gtpv2/message/modify-bearer-failure-indication.go:10-19; MarshalTo gtpv2/message/modify-bearer-failure-indication.go:69-125; MarshalLen gtpv2/message/modify-bearer-failure-indication.go:180-208; SetLength gtpv2/message/modify-bearer-failure-indication.go:211-213;
    MessageTypeName "Modify Bearer Failure Indication"; TEID(): return m.Header.teid() *)
Definition d_ModifyBearerFailureIndication : mdesc := {|
  md_name := "ModifyBearerFailureIndication";
  md_ctor := Ctor 2 0 1 65 true;
  md_fields := [("Cause", FSingle); ("Recovery", FSingle); ("IndicationFlags", FSingle); ("PGWOverloadControlInformation", FSingle); ("SGWOverloadControlInformation", FSingle); ("PrivateExtension", FSingle); ("AdditionalIEs", FList)];
  md_new := new_ModifyBearerFailureIndication;
  md_unm := unm_ModifyBearerFailureIndication;
  md_min := 2;
  md_soft := false;
  md_check := false;
  md_reset := true;
  md_steps := [MSingle "Cause" true;
    MSingle "Recovery" true;
    MSingle "IndicationFlags" true;
    MSingle "PGWOverloadControlInformation" true;
    MSingle "SGWOverloadControlInformation" true;
    MSingle "PrivateExtension" true;
    MList "AdditionalIEs" true true];
  md_lens := [LSingle "Cause";
    LSingle "Recovery";
    LSingle "IndicationFlags";
    LSingle "PGWOverloadControlInformation";
    LSingle "SGWOverloadControlInformation";
    LSingle "PrivateExtension";
    LList "AdditionalIEs" true];
  md_sub := 4 |}.


(** ** ModifyBearerRequest: struct gtpv2/message/modify-bearer-req.go:12-50 *)
(** NewModifyBearerRequest, gtpv2/message/modify-bearer-req.go:53-178 (dispatch of the given IEs) *)
Definition new_ModifyBearerRequest : table := Tbl true [
  (75, ASet "MEI") (* ie.MobileEquipmentIdentity *);
  (86, AInst [(0, ASet "ULI"); (1, ASet "ULIForSGW")] (AApp "AdditionalIEs")) (* ie.UserLocationInformation *);
  (83, ASet "ServingNetwork") (* ie.ServingNetwork *);
  (82, ASet "RATType") (* ie.RATType *);
  (77, ASet "IndicationFlags") (* ie.Indication *);
  (87, ASet "SenderFTEIDC") (* ie.FullyQualifiedTEID *);
  (72, ASet "AMBR") (* ie.AggregateMaximumBitRate *);
  (92, ASet "DelayDownlinkPacketNotificationRequest") (* ie.DelayValue *);
  (93, AInst [(0, AApp "BearerContextsToBeModified"); (1, AApp "BearerContextsToBeRemoved")] (AApp "AdditionalIEs")) (* ie.BearerContext *);
  (3, ASet "Recovery") (* ie.Recovery *);
  (114, ASet "UETimeZone") (* ie.UETimeZone *);
  (132, AInst [(0, ASet "MMEFQCSID"); (1, ASet "SGWFQCSID")] (AApp "AdditionalIEs")) (* ie.FullyQualifiedCSID *);
  (145, ASet "UCI") (* ie.UserCSGInformation *);
  (74, AInst [(0, ASet "UELocalIPAddress"); (1, ASet "HeNBLocalIPAddress")] (AApp "AdditionalIEs")) (* ie.IPAddress *);
  (126, AInst [(0, ASet "UEUDPPort"); (1, ASet "HeNBUDPPort"); (2, ASet "MMESGSNIdentifier")] (AApp "AdditionalIEs")) (* ie.PortNumber *);
  (151, AInst [(0, ASet "MMESGSNLDN"); (1, ASet "SGWLDN")] (AApp "AdditionalIEs")) (* ie.LocalDistinguishedName *);
  (173, ASet "CNOperatorSelectionEntity") (* ie.CNOperatorSelectionEntity *);
  (178, AApp "PresenceReportingAreaInformation") (* ie.PresenceReportingAreaInformation *);
  (180, AInst [(0, ASet "MMESGSNOverloadControlInformation"); (1, ASet "SGWOverloadControlInformation"); (2, ASet "EPDGOverloadControlInformation")] (AApp "AdditionalIEs")) (* ie.OverloadControlInformation *);
  (198, ASet "ServingPLMNRateControl") (* ie.ServingPLMNRateControl *);
  (199, ASet "MOExceptionDataCounter") (* ie.Counter *);
  (1, ASet "IMSI") (* ie.IMSI *);
  (169, ASet "WLANLocationInformation") (* ie.TWANIdentifier *);
  (179, ASet "WLANLocationTimeStamp") (* ie.TWANIdentifierTimestamp *);
  (201, AApp "SecondaryRATUsageDataReport") (* ie.SecondaryRATUsageDataReport *);
  (255, ASet "PrivateExtension") (* ie.PrivateExtension *)
  ] (AApp "AdditionalIEs").

(** ModifyBearerRequest.UnmarshalBinary, gtpv2/message/modify-bearer-req.go:432-563 *)
Definition unm_ModifyBearerRequest : table := Tbl true [
  (75, ASet "MEI") (* ie.MobileEquipmentIdentity *);
  (86, AInst [(0, ASet "ULI"); (1, ASet "ULIForSGW")] (AApp "AdditionalIEs")) (* ie.UserLocationInformation *);
  (83, ASet "ServingNetwork") (* ie.ServingNetwork *);
  (82, ASet "RATType") (* ie.RATType *);
  (77, ASet "IndicationFlags") (* ie.Indication *);
  (87, ASet "SenderFTEIDC") (* ie.FullyQualifiedTEID *);
  (72, ASet "AMBR") (* ie.AggregateMaximumBitRate *);
  (92, ASet "DelayDownlinkPacketNotificationRequest") (* ie.DelayValue *);
  (93, AInst [(0, AApp "BearerContextsToBeModified"); (1, AApp "BearerContextsToBeRemoved")] (AApp "AdditionalIEs")) (* ie.BearerContext *);
  (3, ASet "Recovery") (* ie.Recovery *);
  (114, ASet "UETimeZone") (* ie.UETimeZone *);
  (132, AInst [(0, ASet "MMEFQCSID"); (1, ASet "SGWFQCSID")] (AApp "AdditionalIEs")) (* ie.FullyQualifiedCSID *);
  (145, ASet "UCI") (* ie.UserCSGInformation *);
  (74, AInst [(0, ASet "UELocalIPAddress"); (1, ASet "HeNBLocalIPAddress")] (AApp "AdditionalIEs")) (* ie.IPAddress *);
  (126, AInst [(0, ASet "UEUDPPort"); (1, ASet "HeNBUDPPort"); (2, ASet "MMESGSNIdentifier")] (AApp "AdditionalIEs")) (* ie.PortNumber *);
  (151, AInst [(0, ASet "MMESGSNLDN"); (1, ASet "SGWLDN")] (AApp "AdditionalIEs")) (* ie.LocalDistinguishedName *);
  (173, ASet "CNOperatorSelectionEntity") (* ie.CNOperatorSelectionEntity *);
  (178, AApp "PresenceReportingAreaInformation") (* ie.PresenceReportingAreaInformation *);
  (180, AInst [(0, ASet "MMESGSNOverloadControlInformation"); (1, ASet "SGWOverloadControlInformation"); (2, ASet "EPDGOverloadControlInformation")] (AApp "AdditionalIEs")) (* ie.OverloadControlInformation *);
  (198, ASet "ServingPLMNRateControl") (* ie.ServingPLMNRateControl *);
  (199, ASet "MOExceptionDataCounter") (* ie.Counter *);
  (1, ASet "IMSI") (* ie.IMSI *);
  (169, ASet "WLANLocationInformation") (* ie.TWANIdentifier *);
  (179, ASet "WLANLocationTimeStamp") (* ie.TWANIdentifierTimestamp *);
  (201, AApp "SecondaryRATUsageDataReport") (* ie.SecondaryRATUsageDataReport *);
  (255, ASet "PrivateExtension") (* ie.PrivateExtension *)
  ] (AApp "AdditionalIEs").

(** fields gtpv2/message/modify-bearer-req.go:12-50; MarshalTo gtpv2/message/modify-bearer-req.go:190-420; MarshalLen gtpv2/message/modify-bearer-req.go:566-682; SetLength gtpv2/message/modify-bearer-req.go:685-687;
    MessageTypeName "Modify Bearer Request"; TEID(): return m.Header.teid() *)
Definition d_ModifyBearerRequest : mdesc := {|
  md_name := "ModifyBearerRequest";
  md_ctor := Ctor 2 0 1 34 true;
  md_fields := [("MEI", FSingle); ("ULI", FSingle); ("ServingNetwork", FSingle); ("RATType", FSingle); ("IndicationFlags", FSingle); ("SenderFTEIDC", FSingle); ("AMBR", FSingle); ("DelayDownlinkPacketNotificationRequest", FSingle); ("BearerContextsToBeModified", FList); ("BearerContextsToBeRemoved", FList); ("Recovery", FSingle); ("UETimeZone", FSingle); ("MMEFQCSID", FSingle); ("SGWFQCSID", FSingle); ("UCI", FSingle); ("UELocalIPAddress", FSingle); ("UEUDPPort", FSingle); ("MMESGSNLDN", FSingle); ("SGWLDN", FSingle); ("HeNBLocalIPAddress", FSingle); ("HeNBUDPPort", FSingle); ("MMESGSNIdentifier", FSingle); ("CNOperatorSelectionEntity", FSingle); ("PresenceReportingAreaInformation", FList); ("MMESGSNOverloadControlInformation", FSingle); ("SGWOverloadControlInformation", FSingle); ("EPDGOverloadControlInformation", FSingle); ("ServingPLMNRateControl", FSingle); ("MOExceptionDataCounter", FSingle); ("IMSI", FSingle); ("ULIForSGW", FSingle); ("WLANLocationInformation", FSingle); ("WLANLocationTimeStamp", FSingle); ("SecondaryRATUsageDataReport", FList); ("PrivateExtension", FSingle); ("AdditionalIEs", FList)];
  md_new := new_ModifyBearerRequest;
  md_unm := unm_ModifyBearerRequest;
  md_min := 2;
  md_soft := false;
  md_check := false;
  md_reset := true;
  md_steps := [MSingle "MEI" true;
    MSingle "ULI" true;
    MSingle "ServingNetwork" true;
    MSingle "RATType" true;
    MSingle "IndicationFlags" true;
    MSingle "SenderFTEIDC" true;
    MSingle "AMBR" true;
    MSingle "DelayDownlinkPacketNotificationRequest" true;
    MList "BearerContextsToBeModified" false true;
    MList "BearerContextsToBeRemoved" false true;
    MSingle "Recovery" true;
    MSingle "UETimeZone" true;
    MSingle "MMEFQCSID" true;
    MSingle "SGWFQCSID" true;
    MSingle "UCI" true;
    MSingle "UELocalIPAddress" true;
    MSingle "UEUDPPort" true;
    MSingle "MMESGSNLDN" true;
    MSingle "SGWLDN" true;
    MSingle "HeNBLocalIPAddress" true;
    MSingle "HeNBUDPPort" true;
    MSingle "MMESGSNIdentifier" true;
    MSingle "CNOperatorSelectionEntity" true;
    MList "PresenceReportingAreaInformation" false true;
    MSingle "MMESGSNOverloadControlInformation" true;
    MSingle "SGWOverloadControlInformation" true;
    MSingle "EPDGOverloadControlInformation" true;
    MSingle "ServingPLMNRateControl" true;
    MSingle "MOExceptionDataCounter" true;
    MSingle "IMSI" true;
    MSingle "ULIForSGW" true;
    MSingle "WLANLocationInformation" true;
    MSingle "WLANLocationTimeStamp" true;
    MList "SecondaryRATUsageDataReport" false true;
    MSingle "PrivateExtension" true;
    MList "AdditionalIEs" true true];
  md_lens := [LSingle "MEI";
    LSingle "ULI";
    LSingle "ServingNetwork";
    LSingle "RATType";
    LSingle "IndicationFlags";
    LSingle "SenderFTEIDC";
    LSingle "AMBR";
    LSingle "DelayDownlinkPacketNotificationRequest";
    LList "BearerContextsToBeModified" false;
    LList "BearerContextsToBeRemoved" false;
    LSingle "Recovery";
    LSingle "UETimeZone";
    LSingle "MMEFQCSID";
    LSingle "SGWFQCSID";
    LSingle "UCI";
    LSingle "UELocalIPAddress";
    LSingle "UEUDPPort";
    LSingle "MMESGSNLDN";
    LSingle "SGWLDN";
    LSingle "HeNBLocalIPAddress";
    LSingle "HeNBUDPPort";
    LSingle "MMESGSNIdentifier";
    LSingle "CNOperatorSelectionEntity";
    LList "PresenceReportingAreaInformation" false;
    LSingle "MMESGSNOverloadControlInformation";
    LSingle "SGWOverloadControlInformation";
    LSingle "EPDGOverloadControlInformation";
    LSingle "ServingPLMNRateControl";
    LSingle "MOExceptionDataCounter";
    LSingle "IMSI";
    LSingle "ULIForSGW";
    LSingle "WLANLocationInformation";
    LSingle "WLANLocationTimeStamp";
    LList "SecondaryRATUsageDataReport" false;
    LSingle "PrivateExtension";
    LList "AdditionalIEs" true];
  md_sub := 4 |}.


(** ** ModifyBearerResponse: struct gtpv2/message/modify-bearer-res.go:12-41 *)
(** NewModifyBearerResponse, gtpv2/message/modify-bearer-res.go:44-141 (dispatch of the given IEs) *)
Definition new_ModifyBearerResponse : table := Tbl true [
  (2, ASet "Cause") (* ie.Cause *);
  (76, ASet "MSISDN") (* ie.MSISDN *);
  (73, ASet "LinkedEBI") (* ie.EPSBearerID *);
  (127, ASet "APNRestriction") (* ie.APNRestriction *);
  (78, ASet "PCO") (* ie.ProtocolConfigurationOptions *);
  (93, AInst [(0, AApp "BearerContextsModified"); (1, AApp "BearerContextsMarkedForRemoval")] (AApp "AdditionalIEs")) (* ie.BearerContext *);
  (131, ASet "ChangeReportingAction") (* ie.ChangeReportingAction *);
  (146, ASet "CSGInformationReportingAction") (* ie.CSGInformationReportingAction *);
  (165, ASet "HeNBInformationReporting") (* ie.HeNBInformationReporting *);
  (136, ASet "ChargingGatewayName") (* ie.FullyQualifiedDomainName *);
  (74, ASet "ChargingGatewayAddress") (* ie.IPAddress *);
  (132, AInst [(0, ASet "PGWFQCSID"); (1, ASet "SGWFQCSID")] (AApp "AdditionalIEs")) (* ie.FullyQualifiedCSID *);
  (3, ASet "Recovery") (* ie.Recovery *);
  (151, AInst [(0, ASet "SGWLDN"); (1, ASet "PGWLDN")] (AApp "AdditionalIEs")) (* ie.LocalDistinguishedName *);
  (77, ASet "IndicationFlags") (* ie.Indication *);
  (177, AApp "PresenceReportingAreaAction") (* ie.PresenceReportingAreaAction *);
  (181, AInst [(0, ASet "PGWNodeLoadControlInformation"); (1, ASet "PGWAPNLoadControlInformation")] (AApp "AdditionalIEs")) (* ie.LoadControlInformation *);
  (180, AInst [(0, ASet "SGWNodeLoadControlInformation"); (1, ASet "PGWOverloadControlInformation"); (2, ASet "SGWOverloadControlInformation")] (AApp "AdditionalIEs")) (* ie.OverloadControlInformation *);
  (94, ASet "PDNConnectionChargingID") (* ie.ChargingID *);
  (255, ASet "PrivateExtension") (* ie.PrivateExtension *)
  ] (AApp "AdditionalIEs").

(** ModifyBearerResponse.UnmarshalBinary, gtpv2/message/modify-bearer-res.go:341-444 *)
Definition unm_ModifyBearerResponse : table := Tbl true [
  (2, ASet "Cause") (* ie.Cause *);
  (76, ASet "MSISDN") (* ie.MSISDN *);
  (73, ASet "LinkedEBI") (* ie.EPSBearerID *);
  (127, ASet "APNRestriction") (* ie.APNRestriction *);
  (78, ASet "PCO") (* ie.ProtocolConfigurationOptions *);
  (93, AInst [(0, AApp "BearerContextsModified"); (1, AApp "BearerContextsMarkedForRemoval")] (AApp "AdditionalIEs")) (* ie.BearerContext *);
  (131, ASet "ChangeReportingAction") (* ie.ChangeReportingAction *);
  (146, ASet "CSGInformationReportingAction") (* ie.CSGInformationReportingAction *);
  (165, ASet "HeNBInformationReporting") (* ie.HeNBInformationReporting *);
  (136, ASet "ChargingGatewayName") (* ie.FullyQualifiedDomainName *);
  (74, ASet "ChargingGatewayAddress") (* ie.IPAddress *);
  (132, AInst [(0, ASet "PGWFQCSID"); (1, ASet "SGWFQCSID")] (AApp "AdditionalIEs")) (* ie.FullyQualifiedCSID *);
  (3, ASet "Recovery") (* ie.Recovery *);
  (151, AInst [(0, ASet "SGWLDN"); (1, ASet "PGWLDN")] (AApp "AdditionalIEs")) (* ie.LocalDistinguishedName *);
  (77, ASet "IndicationFlags") (* ie.Indication *);
  (177, AApp "PresenceReportingAreaAction") (* ie.PresenceReportingAreaAction *);
  (181, AInst [(0, ASet "PGWNodeLoadControlInformation"); (1, ASet "PGWAPNLoadControlInformation")] (AApp "AdditionalIEs")) (* ie.LoadControlInformation *);
  (180, AInst [(0, ASet "SGWNodeLoadControlInformation"); (1, ASet "PGWOverloadControlInformation"); (2, ASet "SGWOverloadControlInformation")] (AApp "AdditionalIEs")) (* ie.OverloadControlInformation *);
  (94, ASet "PDNConnectionChargingID") (* ie.ChargingID *);
  (255, ASet "PrivateExtension") (* ie.PrivateExtension *)
  ] (AApp "AdditionalIEs").

(** fields gtpv2/message/modify-bearer-res.go:12-41; MarshalTo gtpv2/message/modify-bearer-res.go:153-329; MarshalLen gtpv2/message/modify-bearer-res.go:447-536; SetLength gtpv2/message/modify-bearer-res.go:539-541;
    MessageTypeName "Modify Bearer Response"; TEID(): return m.Header.teid() *)
Definition d_ModifyBearerResponse : mdesc := {|
  md_name := "ModifyBearerResponse";
  md_ctor := Ctor 2 0 1 35 true;
  md_fields := [("Cause", FSingle); ("MSISDN", FSingle); ("LinkedEBI", FSingle); ("APNRestriction", FSingle); ("PCO", FSingle); ("BearerContextsModified", FList); ("BearerContextsMarkedForRemoval", FList); ("ChangeReportingAction", FSingle); ("CSGInformationReportingAction", FSingle); ("HeNBInformationReporting", FSingle); ("ChargingGatewayName", FSingle); ("ChargingGatewayAddress", FSingle); ("PGWFQCSID", FSingle); ("SGWFQCSID", FSingle); ("Recovery", FSingle); ("SGWLDN", FSingle); ("PGWLDN", FSingle); ("IndicationFlags", FSingle); ("PresenceReportingAreaAction", FList); ("PGWNodeLoadControlInformation", FSingle); ("PGWAPNLoadControlInformation", FSingle); ("SGWNodeLoadControlInformation", FSingle); ("PGWOverloadControlInformation", FSingle); ("SGWOverloadControlInformation", FSingle); ("PDNConnectionChargingID", FSingle); ("PrivateExtension", FSingle); ("AdditionalIEs", FList)];
  md_new := new_ModifyBearerResponse;
  md_unm := unm_ModifyBearerResponse;
  md_min := 2;
  md_soft := false;
  md_check := false;
  md_reset := true;
  md_steps := [MSingle "Cause" true;
    MSingle "MSISDN" true;
    MSingle "LinkedEBI" true;
    MSingle "APNRestriction" true;
    MSingle "PCO" true;
    MList "BearerContextsModified" false true;
    MList "BearerContextsMarkedForRemoval" false true;
    MSingle "ChangeReportingAction" true;
    MSingle "CSGInformationReportingAction" true;
    MSingle "HeNBInformationReporting" true;
    MSingle "ChargingGatewayName" true;
    MSingle "ChargingGatewayAddress" true;
    MSingle "PGWFQCSID" true;
    MSingle "SGWFQCSID" true;
    MSingle "Recovery" true;
    MSingle "SGWLDN" true;
    MSingle "PGWLDN" true;
    MSingle "IndicationFlags" true;
    MList "PresenceReportingAreaAction" false true;
    MSingle "PGWNodeLoadControlInformation" true;
    MSingle "PGWAPNLoadControlInformation" true;
    MSingle "SGWNodeLoadControlInformation" true;
    MSingle "PGWOverloadControlInformation" true;
    MSingle "SGWOverloadControlInformation" true;
    MSingle "PDNConnectionChargingID" true;
    MSingle "PrivateExtension" true;
    MList "AdditionalIEs" true true];
  md_lens := [LSingle "Cause";
    LSingle "MSISDN";
    LSingle "LinkedEBI";
    LSingle "APNRestriction";
    LSingle "PCO";
    LList "BearerContextsModified" false;
    LList "BearerContextsMarkedForRemoval" false;
    LSingle "ChangeReportingAction";
    LSingle "CSGInformationReportingAction";
    LSingle "HeNBInformationReporting";
    LSingle "ChargingGatewayName";
    LSingle "ChargingGatewayAddress";
    LSingle "PGWFQCSID";
    LSingle "SGWFQCSID";
    LSingle "Recovery";
    LSingle "SGWLDN";
    LSingle "PGWLDN";
    LSingle "IndicationFlags";
    LList "PresenceReportingAreaAction" false;
    LSingle "PGWNodeLoadControlInformation";
    LSingle "PGWAPNLoadControlInformation";
    LSingle "SGWNodeLoadControlInformation";
    LSingle "PGWOverloadControlInformation";
    LSingle "SGWOverloadControlInformation";
    LSingle "PDNConnectionChargingID";
    LSingle "PrivateExtension";
    LList "AdditionalIEs" true];
  md_sub := 4 |}.


(** ** PGWRestartNotificationAcknowledge: struct gtpv2/message/pgw-restart-notification-acknowledge.go:12-17 *)
(** NewPGWRestartNotificationAcknowledge, gtpv2/message/pgw-restart-notification-acknowledge.go:20-44 (dispatch of the given IEs) *)
Definition new_PGWRestartNotificationAcknowledge : table := Tbl true [
  (2, ASet "Cause") (* ie.Cause *);
  (255, ASet "PrivateExtension") (* ie.PrivateExtension *)
  ] (AApp "AdditionalIEs").

(** PGWRestartNotificationAcknowledge.UnmarshalBinary, gtpv2/message/pgw-restart-notification-acknowledge.go:100-129 *)
Definition unm_PGWRestartNotificationAcknowledge : table := Tbl true [
  (2, ASet "Cause") (* ie.Cause *);
  (255, ASet "PrivateExtension") (* ie.PrivateExtension *)
  ] (AApp "AdditionalIEs").

(** fields gtpv2/message/pgw-restart-notification-acknowledge.go:12-17; MarshalTo gtpv2/message/pgw-restart-notification-acknowledge.go:56-88; MarshalLen gtpv2/message/pgw-restart-notification-acknowledge.go:132-149; SetLength gtpv2/message/pgw-restart-notification-acknowledge.go:152-154;
    MessageTypeName "PGW Restart Notification Acknowledge"; TEID(): return m.Header.teid() *)
Definition d_PGWRestartNotificationAcknowledge : mdesc := {|
  md_name := "PGWRestartNotificationAcknowledge";
  md_ctor := Ctor 2 0 1 180 true;
  md_fields := [("Cause", FSingle); ("PrivateExtension", FSingle); ("AdditionalIEs", FList)];
  md_new := new_PGWRestartNotificationAcknowledge;
  md_unm := unm_PGWRestartNotificationAcknowledge;
  md_min := 2;
  md_soft := false;
  md_check := false;
  md_reset := true;
  md_steps := [MSingle "Cause" true;
    MSingle "PrivateExtension" true;
    MList "AdditionalIEs" true true];
  md_lens := [LSingle "Cause";
    LSingle "PrivateExtension";
    LList "AdditionalIEs" true];
  md_sub := 4 |}.


(** ** PGWRestartNotification: struct gtpv2/message/pgw-restart-notification.go:12-19 *)
(** NewPGWRestartNotification, gtpv2/message/pgw-restart-notification.go:22-55 (dispatch of the given IEs) *)
Definition new_PGWRestartNotification : table := Tbl true [
  (74, AInst [(0, ASet "PGWS5S8IPAddressForControlPlaneOrPMIP"); (1, ASet "SGWS11S4IPAddressForControlPlane")] (AApp "AdditionalIEs")) (* ie.IPAddress *);
  (2, ASet "Cause") (* ie.Cause *);
  (255, ASet "PrivateExtension") (* ie.PrivateExtension *)
  ] (AApp "AdditionalIEs").

(** PGWRestartNotification.UnmarshalBinary, gtpv2/message/pgw-restart-notification.go:123-161 *)
Definition unm_PGWRestartNotification : table := Tbl true [
  (74, AInst [(0, ASet "PGWS5S8IPAddressForControlPlaneOrPMIP"); (1, ASet "SGWS11S4IPAddressForControlPlane")] (AApp "AdditionalIEs")) (* ie.IPAddress *);
  (2, ASet "Cause") (* ie.Cause *);
  (255, ASet "PrivateExtension") (* ie.PrivateExtension *)
  ] (AApp "AdditionalIEs").

(** fields gtpv2/message/pgw-restart-notification.go:12-19; MarshalTo gtpv2/message/pgw-restart-notification.go:67-111; MarshalLen gtpv2/message/pgw-restart-notification.go:164-187; SetLength gtpv2/message/pgw-restart-notification.go:190-192;
    MessageTypeName "PGW Restart Notification"; TEID(): return m.Header.teid() *)
Definition d_PGWRestartNotification : mdesc := {|
  md_name := "PGWRestartNotification";
  md_ctor := Ctor 2 0 1 179 true;
  md_fields := [("PGWS5S8IPAddressForControlPlaneOrPMIP", FSingle); ("SGWS11S4IPAddressForControlPlane", FSingle); ("Cause", FSingle); ("PrivateExtension", FSingle); ("AdditionalIEs", FList)];
  md_new := new_PGWRestartNotification;
  md_unm := unm_PGWRestartNotification;
  md_min := 2;
  md_soft := false;
  md_check := false;
  md_reset := true;
  md_steps := [MSingle "PGWS5S8IPAddressForControlPlaneOrPMIP" true;
    MSingle "SGWS11S4IPAddressForControlPlane" true;
    MSingle "Cause" true;
    MSingle "PrivateExtension" true;
    MList "AdditionalIEs" true true];
  md_lens := [LSingle "PGWS5S8IPAddressForControlPlaneOrPMIP";
    LSingle "SGWS11S4IPAddressForControlPlane";
    LSingle "Cause";
    LSingle "PrivateExtension";
    LList "AdditionalIEs" true];
  md_sub := 4 |}.


(** ** ReleaseAccessBearersRequest: struct gtpv2/message/release-access-bearers-req.go:10-18 *)
(** NewReleaseAccessBearersRequest, gtpv2/message/release-access-bearers-req.go:21-51 (dispatch of the given IEs) *)
Definition new_ReleaseAccessBearersRequest : table := Tbl true [
  (73, AApp "ListOfRABs") (* ie.EPSBearerID *);
  (135, ASet "OriginatingNode") (* ie.NodeType *);
  (77, ASet "IndicationFlags") (* ie.Indication *);
  (201, AApp "SecondaryRATUsageDataReport") (* ie.SecondaryRATUsageDataReport *);
  (255, ASet "PrivateExtension") (* ie.PrivateExtension *)
  ] (AApp "AdditionalIEs").

(** ReleaseAccessBearersRequest.UnmarshalBinary, gtpv2/message/release-access-bearers-req.go:125-160 *)
Definition unm_ReleaseAccessBearersRequest : table := Tbl true [
  (73, AApp "ListOfRABs") (* ie.EPSBearerID *);
  (135, ASet "OriginatingNode") (* ie.NodeType *);
  (77, ASet "IndicationFlags") (* ie.Indication *);
  (201, AApp "SecondaryRATUsageDataReport") (* ie.SecondaryRATUsageDataReport *);
  (255, ASet "PrivateExtension") (* ie.PrivateExtension *)
  ] (AApp "AdditionalIEs").

(** fields gtpv2/message/release-access-bearers-req.go:10-18; MarshalTo gtpv2/message/release-access-bearers-req.go:63-113; MarshalLen gtpv2/message/release-access-bearers-req.go:163-188; SetLength gtpv2/message/release-access-bearers-req.go:191-193;
    MessageTypeName "Release Access Bearers Request"; TEID(): return r.Header.teid() *)
Definition d_ReleaseAccessBearersRequest : mdesc := {|
  md_name := "ReleaseAccessBearersRequest";
  md_ctor := Ctor 2 0 1 170 true;
  md_fields := [("ListOfRABs", FList); ("OriginatingNode", FSingle); ("IndicationFlags", FSingle); ("SecondaryRATUsageDataReport", FList); ("PrivateExtension", FSingle); ("AdditionalIEs", FList)];
  md_new := new_ReleaseAccessBearersRequest;
  md_unm := unm_ReleaseAccessBearersRequest;
  md_min := 2;
  md_soft := false;
  md_check := false;
  md_reset := true;
  md_steps := [MList "ListOfRABs" false true;
    MSingle "OriginatingNode" true;
    MSingle "IndicationFlags" true;
    MList "SecondaryRATUsageDataReport" false true;
    MSingle "PrivateExtension" true;
    MList "AdditionalIEs" true true];
  md_lens := [LList "ListOfRABs" false;
    LSingle "OriginatingNode";
    LSingle "IndicationFlags";
    LList "SecondaryRATUsageDataReport" false;
    LSingle "PrivateExtension";
    LList "AdditionalIEs" true];
  md_sub := 4 |}.


(** ** ReleaseAccessBearersResponse: struct gtpv2/message/release-access-bearers-res.go:10-19 *)
(** NewReleaseAccessBearersResponse, gtpv2/message/release-access-bearers-res.go:22-54 (dispatch of the given IEs) *)
Definition new_ReleaseAccessBearersResponse : table := Tbl true [
  (2, ASet "Cause") (* ie.Cause *);
  (3, ASet "Recovery") (* ie.Recovery *);
  (77, ASet "IndicationFlags") (* ie.Indication *);
  (181, ASet "SGWNodeLoadControlInformation") (* ie.LoadControlInformation *);
  (180, ASet "SGWOverloadControlInformation") (* ie.OverloadControlInformation *);
  (255, ASet "PrivateExtension") (* ie.PrivateExtension *)
  ] (AApp "AdditionalIEs").

(** ReleaseAccessBearersResponse.UnmarshalBinary, gtpv2/message/release-access-bearers-res.go:134-171 *)
Definition unm_ReleaseAccessBearersResponse : table := Tbl true [
  (2, ASet "Cause") (* ie.Cause *);
  (3, ASet "Recovery") (* ie.Recovery *);
  (77, ASet "IndicationFlags") (* ie.Indication *);
  (181, ASet "SGWNodeLoadControlInformation") (* ie.LoadControlInformation *);
  (180, ASet "SGWOverloadControlInformation") (* ie.OverloadControlInformation *);
  (255, ASet "PrivateExtension") (* ie.PrivateExtension *)
  ] (AApp "AdditionalIEs").

(** fields gtpv2/message/release-access-bearers-res.go:10-19; MarshalTo gtpv2/message/release-access-bearers-res.go:66-122; MarshalLen gtpv2/message/release-access-bearers-res.go:174-203; SetLength gtpv2/message/release-access-bearers-res.go:206-208;
    MessageTypeName "Release Access Bearers Response"; TEID(): return r.Header.teid() *)
Definition d_ReleaseAccessBearersResponse : mdesc := {|
  md_name := "ReleaseAccessBearersResponse";
  md_ctor := Ctor 2 0 1 171 true;
  md_fields := [("Cause", FSingle); ("Recovery", FSingle); ("IndicationFlags", FSingle); ("SGWNodeLoadControlInformation", FSingle); ("SGWOverloadControlInformation", FSingle); ("PrivateExtension", FSingle); ("AdditionalIEs", FList)];
  md_new := new_ReleaseAccessBearersResponse;
  md_unm := unm_ReleaseAccessBearersResponse;
  md_min := 2;
  md_soft := false;
  md_check := false;
  md_reset := true;
  md_steps := [MSingle "Cause" true;
    MSingle "Recovery" true;
    MSingle "IndicationFlags" true;
    MSingle "SGWNodeLoadControlInformation" true;
    MSingle "SGWOverloadControlInformation" true;
    MSingle "PrivateExtension" true;
    MList "AdditionalIEs" true true];
  md_lens := [LSingle "Cause";
    LSingle "Recovery";
    LSingle "IndicationFlags";
    LSingle "SGWNodeLoadControlInformation";
    LSingle "SGWOverloadControlInformation";
    LSingle "PrivateExtension";
    LList "AdditionalIEs" true];
  md_sub := 4 |}.


(** ** ResumeAcknowledge: struct gtpv2/message/resume-acknowledge.go:12-16 *)
(** NewResumeAcknowledge, gtpv2/message/resume-acknowledge.go:19-41 (dispatch of the given IEs) *)
Definition new_ResumeAcknowledge : table := Tbl true [
  (2, ASet "Cause") (* ie.Cause *);
  (255, ASet "PrivateExtension") (* ie.PrivateExtension *)
  ] (ANop).

(** ResumeAcknowledge.UnmarshalBinary, gtpv2/message/resume-acknowledge.go:86-113 *)
Definition unm_ResumeAcknowledge : table := Tbl true [
  (2, ASet "Cause") (* ie.Cause *);
  (255, ASet "PrivateExtension") (* ie.PrivateExtension *)
  ] (ANop).

(** fields gtpv2/message/resume-acknowledge.go:12-16; MarshalTo gtpv2/message/resume-acknowledge.go:53-74; MarshalLen gtpv2/message/resume-acknowledge.go:116-126; SetLength gtpv2/message/resume-acknowledge.go:129-131;
    MessageTypeName "Resume Acknowledge"; TEID(): return c.Header.teid() *)
Definition d_ResumeAcknowledge : mdesc := {|
  md_name := "ResumeAcknowledge";
  md_ctor := Ctor 2 0 1 165 true;
  md_fields := [("Cause", FSingle); ("PrivateExtension", FSingle)];
  md_new := new_ResumeAcknowledge;
  md_unm := unm_ResumeAcknowledge;
  md_min := 2;
  md_soft := false;
  md_check := false;
  md_reset := true;
  md_steps := [MSingle "Cause" true;
    MSingle "PrivateExtension" false];
  md_lens := [LSingle "Cause";
    LSingle "PrivateExtension"];
  md_sub := 4 |}.


(** ** ResumeNotification: struct gtpv2/message/resume-notification.go:12-19 *)
(** NewResumeNotification, gtpv2/message/resume-notification.go:22-50 (dispatch of the given IEs) *)
Definition new_ResumeNotification : table := Tbl true [
  (1, ASet "IMSI") (* ie.IMSI *);
  (73, ASet "LinkedEPSBearerID") (* ie.EPSBearerID *);
  (135, ASet "OriginatingNode") (* ie.NodeType *);
  (87, ASet "SenderFTEIDForControlPlane") (* ie.FullyQualifiedTEID *);
  (255, ASet "PrivateExtension") (* ie.PrivateExtension *)
  ] (ANop).

(** ResumeNotification.UnmarshalBinary, gtpv2/message/resume-notification.go:113-147 *)
Definition unm_ResumeNotification : table := Tbl true [
  (1, ASet "IMSI") (* ie.IMSI *);
  (73, ASet "LinkedEPSBearerID") (* ie.EPSBearerID *);
  (135, ASet "OriginatingNode") (* ie.NodeType *);
  (87, ASet "SenderFTEIDForControlPlane") (* ie.FullyQualifiedTEID *);
  (255, ASet "PrivateExtension") (* ie.PrivateExtension *)
  ] (ANop).

(** fields gtpv2/message/resume-notification.go:12-19; MarshalTo gtpv2/message/resume-notification.go:62-101; MarshalLen gtpv2/message/resume-notification.go:150-168; SetLength gtpv2/message/resume-notification.go:171-173;
    MessageTypeName "Resume Notification"; TEID(): return c.Header.teid() *)
Definition d_ResumeNotification : mdesc := {|
  md_name := "ResumeNotification";
  md_ctor := Ctor 2 0 1 164 true;
  md_fields := [("IMSI", FSingle); ("LinkedEPSBearerID", FSingle); ("OriginatingNode", FSingle); ("SenderFTEIDForControlPlane", FSingle); ("PrivateExtension", FSingle)];
  md_new := new_ResumeNotification;
  md_unm := unm_ResumeNotification;
  md_min := 2;
  md_soft := false;
  md_check := false;
  md_reset := true;
  md_steps := [MSingle "IMSI" true;
    MSingle "LinkedEPSBearerID" true;
    MSingle "OriginatingNode" true;
    MSingle "SenderFTEIDForControlPlane" true;
    MSingle "PrivateExtension" false];
  md_lens := [LSingle "IMSI";
    LSingle "LinkedEPSBearerID";
    LSingle "OriginatingNode";
    LSingle "SenderFTEIDForControlPlane";
    LSingle "PrivateExtension"];
  md_sub := 4 |}.


(** ** StopPagingIndication: struct gtpv2/message/stop-paging-indication.go:10-15 *)
(** NewStopPagingIndication, gtpv2/message/stop-paging-indication.go:18-42 (dispatch of the given IEs) *)
Definition new_StopPagingIndication : table := Tbl true [
  (1, ASet "IMSI") (* ie.IMSI *);
  (255, ASet "PrivateExtension") (* ie.PrivateExtension *)
  ] (AApp "AdditionalIEs").

(** StopPagingIndication.UnmarshalBinary, gtpv2/message/stop-paging-indication.go:98-127 *)
Definition unm_StopPagingIndication : table := Tbl true [
  (1, ASet "IMSI") (* ie.IMSI *);
  (255, ASet "PrivateExtension") (* ie.PrivateExtension *)
  ] (AApp "AdditionalIEs").

(** fields gtpv2/message/stop-paging-indication.go:10-15; MarshalTo gtpv2/message/stop-paging-indication.go:54-86; MarshalLen gtpv2/message/stop-paging-indication.go:130-146; SetLength gtpv2/message/stop-paging-indication.go:149-151;
    MessageTypeName "Stop Paging Indication"; TEID(): return s.Header.teid() *)
Definition d_StopPagingIndication : mdesc := {|
  md_name := "StopPagingIndication";
  md_ctor := Ctor 2 0 1 73 true;
  md_fields := [("IMSI", FSingle); ("PrivateExtension", FSingle); ("AdditionalIEs", FList)];
  md_new := new_StopPagingIndication;
  md_unm := unm_StopPagingIndication;
  md_min := 2;
  md_soft := false;
  md_check := false;
  md_reset := true;
  md_steps := [MSingle "IMSI" true;
    MSingle "PrivateExtension" true;
    MList "AdditionalIEs" true true];
  md_lens := [LSingle "IMSI";
    LSingle "PrivateExtension";
    LList "AdditionalIEs" true];
  md_sub := 4 |}.


(** ** SuspendAcknowledge: struct gtpv2/message/suspend-acknowledge.go:12-17 *)
(** NewSuspendAcknowledge, gtpv2/message/suspend-acknowledge.go:20-44 (dispatch of the given IEs) *)
Definition new_SuspendAcknowledge : table := Tbl true [
  (2, ASet "Cause") (* ie.Cause *);
  (255, ASet "PrivateExtension") (* ie.PrivateExtension *)
  ] (AApp "AdditionalIEs").

(** SuspendAcknowledge.UnmarshalBinary, gtpv2/message/suspend-acknowledge.go:100-129 *)
Definition unm_SuspendAcknowledge : table := Tbl true [
  (2, ASet "Cause") (* ie.Cause *);
  (255, ASet "PrivateExtension") (* ie.PrivateExtension *)
  ] (AApp "AdditionalIEs").

(** fields gtpv2/message/suspend-acknowledge.go:12-17; MarshalTo gtpv2/message/suspend-acknowledge.go:56-88; MarshalLen gtpv2/message/suspend-acknowledge.go:132-149; SetLength gtpv2/message/suspend-acknowledge.go:152-154;
    MessageTypeName "Suspend Acknowledge"; TEID(): return c.Header.teid() *)
Definition d_SuspendAcknowledge : mdesc := {|
  md_name := "SuspendAcknowledge";
  md_ctor := Ctor 2 0 1 163 true;
  md_fields := [("Cause", FSingle); ("PrivateExtension", FSingle); ("AdditionalIEs", FList)];
  md_new := new_SuspendAcknowledge;
  md_unm := unm_SuspendAcknowledge;
  md_min := 2;
  md_soft := false;
  md_check := false;
  md_reset := true;
  md_steps := [MSingle "Cause" true;
    MSingle "PrivateExtension" true;
    MList "AdditionalIEs" true true];
  md_lens := [LSingle "Cause";
    LSingle "PrivateExtension";
    LList "AdditionalIEs" true];
  md_sub := 4 |}.


(** ** SuspendNotification: struct gtpv2/message/suspend-notification.go:12-25 *)
(** NewSuspendNotification, gtpv2/message/suspend-notification.go:28-68 (dispatch of the given IEs) *)
Definition new_SuspendNotification : table := Tbl true [
  (1, ASet "IMSI") (* ie.IMSI *);
  (86, ASet "RAI") (* ie.UserLocationInformation *);
  (73, ASet "LinkedEBI") (* ie.EPSBearerID *);
  (111, ASet "PTMSI") (* ie.PacketTMSI *);
  (135, ASet "OriginatingNode") (* ie.NodeType *);
  (74, ASet "AddressForControlPlane") (* ie.IPAddress *);
  (126, ASet "UDPSourcePortNumber") (* ie.PortNumber *);
  (113, ASet "HopCounter") (* ie.HopCounter *);
  (87, ASet "SenderFTEIDC") (* ie.FullyQualifiedTEID *);
  (255, ASet "PrivateExtension") (* ie.PrivateExtension *)
  ] (AApp "AdditionalIEs").

(** SuspendNotification.UnmarshalBinary, gtpv2/message/suspend-notification.go:172-218 *)
Definition unm_SuspendNotification : table := Tbl true [
  (1, ASet "IMSI") (* ie.IMSI *);
  (86, ASet "RAI") (* ie.UserLocationInformation *);
  (111, ASet "PTMSI") (* ie.PacketTMSI *);
  (73, ASet "LinkedEBI") (* ie.EPSBearerID *);
  (135, ASet "OriginatingNode") (* ie.NodeType *);
  (74, ASet "AddressForControlPlane") (* ie.IPAddress *);
  (126, ASet "UDPSourcePortNumber") (* ie.PortNumber *);
  (113, ASet "HopCounter") (* ie.HopCounter *);
  (87, ASet "SenderFTEIDC") (* ie.FullyQualifiedTEID *);
  (255, ASet "PrivateExtension") (* ie.PrivateExtension *)
  ] (AApp "AdditionalIEs").

(** fields gtpv2/message/suspend-notification.go:12-25; MarshalTo gtpv2/message/suspend-notification.go:80-160; MarshalLen gtpv2/message/suspend-notification.go:221-261; SetLength gtpv2/message/suspend-notification.go:264-266;
    MessageTypeName "Suspend Notification"; TEID(): return c.Header.teid() *)
Definition d_SuspendNotification : mdesc := {|
  md_name := "SuspendNotification";
  md_ctor := Ctor 2 0 1 162 true;
  md_fields := [("IMSI", FSingle); ("RAI", FSingle); ("LinkedEBI", FSingle); ("PTMSI", FSingle); ("OriginatingNode", FSingle); ("AddressForControlPlane", FSingle); ("UDPSourcePortNumber", FSingle); ("HopCounter", FSingle); ("SenderFTEIDC", FSingle); ("PrivateExtension", FSingle); ("AdditionalIEs", FList)];
  md_new := new_SuspendNotification;
  md_unm := unm_SuspendNotification;
  md_min := 2;
  md_soft := false;
  md_check := false;
  md_reset := true;
  md_steps := [MSingle "IMSI" true;
    MSingle "RAI" true;
    MSingle "LinkedEBI" true;
    MSingle "PTMSI" true;
    MSingle "OriginatingNode" true;
    MSingle "AddressForControlPlane" true;
    MSingle "UDPSourcePortNumber" true;
    MSingle "HopCounter" true;
    MSingle "SenderFTEIDC" true;
    MSingle "PrivateExtension" true;
    MList "AdditionalIEs" true true];
  md_lens := [LSingle "IMSI";
    LSingle "RAI";
    LSingle "PTMSI";
    LSingle "LinkedEBI";
    LSingle "OriginatingNode";
    LSingle "AddressForControlPlane";
    LSingle "UDPSourcePortNumber";
    LSingle "HopCounter";
    LSingle "SenderFTEIDC";
    LSingle "PrivateExtension";
    LList "AdditionalIEs" true];
  md_sub := 4 |}.


(** ** UpdateBearerRequest: struct gtpv2/message/update-bearer-req.go:12-33 *)
(** NewUpdateBearerRequest, gtpv2/message/update-bearer-req.go:36-107 (dispatch of the given IEs) *)
Definition new_UpdateBearerRequest : table := Tbl true [
  (93, AApp "BearerContexts") (* ie.BearerContext *);
  (100, ASet "PTI") (* ie.ProcedureTransactionID *);
  (78, ASet "PCO") (* ie.ProtocolConfigurationOptions *);
  (72, ASet "APNAMBR") (* ie.AggregateMaximumBitRate *);
  (131, ASet "ChangeReportingAction") (* ie.ChangeReportingAction *);
  (146, ASet "CSGInformationReportingAction") (* ie.CSGInformationReportingAction *);
  (165, ASet "HeNBInformationReporting") (* ie.HeNBInformationReporting *);
  (77, ASet "IndicationFlags") (* ie.Indication *);
  (132, AInst [(0, ASet "PGWFQCSID"); (1, ASet "SGWFQCSID")] (AApp "AdditionalIEs")) (* ie.FullyQualifiedCSID *);
  (177, AApp "PresenceReportingAction") (* ie.PresenceReportingAreaAction *);
  (181, AInst [(0, ASet "PGWNodeLoadControlInformation"); (1, ASet "PGWAPNLoadControlInformation"); (2, ASet "SGWNodeLoadControlInformation")] (AApp "AdditionalIEs")) (* ie.LoadControlInformation *);
  (180, AInst [(0, ASet "PGWOverloadControlInformation"); (1, ASet "SGWOverloadControlInformation")] (AApp "AdditionalIEs")) (* ie.OverloadControlInformation *);
  (118, ASet "NBIFOMContainer") (* ie.FContainer *);
  (255, ASet "PrivateExtension") (* ie.PrivateExtension *)
  ] (AApp "AdditionalIEs").

(** UpdateBearerRequest.UnmarshalBinary, gtpv2/message/update-bearer-req.go:259-332 *)
Definition unm_UpdateBearerRequest : table := Tbl false [
  (93, AApp "BearerContexts") (* ie.BearerContext *);
  (100, ASet "PTI") (* ie.ProcedureTransactionID *);
  (78, ASet "PCO") (* ie.ProtocolConfigurationOptions *);
  (72, ASet "APNAMBR") (* ie.AggregateMaximumBitRate *);
  (131, ASet "ChangeReportingAction") (* ie.ChangeReportingAction *);
  (146, ASet "CSGInformationReportingAction") (* ie.CSGInformationReportingAction *);
  (165, ASet "HeNBInformationReporting") (* ie.HeNBInformationReporting *);
  (77, ASet "IndicationFlags") (* ie.Indication *);
  (132, AInst [(0, ASet "PGWFQCSID"); (1, ASet "SGWFQCSID")] (AApp "AdditionalIEs")) (* ie.FullyQualifiedCSID *);
  (177, AApp "PresenceReportingAction") (* ie.PresenceReportingAreaAction *);
  (181, AInst [(0, ASet "PGWNodeLoadControlInformation"); (1, ASet "PGWAPNLoadControlInformation"); (2, ASet "SGWNodeLoadControlInformation")] (AApp "AdditionalIEs")) (* ie.LoadControlInformation *);
  (180, AInst [(0, ASet "PGWOverloadControlInformation"); (1, ASet "SGWOverloadControlInformation")] (AApp "AdditionalIEs")) (* ie.OverloadControlInformation *);
  (118, ASet "NBIFOMContainer") (* ie.FContainer *);
  (255, ASet "PrivateExtension") (* ie.PrivateExtension *)
  ] (AApp "AdditionalIEs").

(** fields gtpv2/message/update-bearer-req.go:12-33; MarshalTo gtpv2/message/update-bearer-req.go:119-247; MarshalLen gtpv2/message/update-bearer-req.go:335-400; SetLength gtpv2/message/update-bearer-req.go:403-405;
    MessageTypeName "Update Bearer Request"; TEID(): return c.Header.teid() *)
Definition d_UpdateBearerRequest : mdesc := {|
  md_name := "UpdateBearerRequest";
  md_ctor := Ctor 2 0 1 97 true;
  md_fields := [("BearerContexts", FList); ("PTI", FSingle); ("PCO", FSingle); ("APNAMBR", FSingle); ("ChangeReportingAction", FSingle); ("CSGInformationReportingAction", FSingle); ("HeNBInformationReporting", FSingle); ("IndicationFlags", FSingle); ("PGWFQCSID", FSingle); ("SGWFQCSID", FSingle); ("PresenceReportingAction", FList); ("PGWNodeLoadControlInformation", FSingle); ("PGWAPNLoadControlInformation", FSingle); ("SGWNodeLoadControlInformation", FSingle); ("PGWOverloadControlInformation", FSingle); ("SGWOverloadControlInformation", FSingle); ("NBIFOMContainer", FSingle); ("PrivateExtension", FSingle); ("AdditionalIEs", FList)];
  md_new := new_UpdateBearerRequest;
  md_unm := unm_UpdateBearerRequest;
  md_min := 2;
  md_soft := false;
  md_check := false;
  md_reset := true;
  md_steps := [MList "BearerContexts" false true;
    MSingle "PTI" true;
    MSingle "PCO" true;
    MSingle "APNAMBR" true;
    MSingle "ChangeReportingAction" true;
    MSingle "CSGInformationReportingAction" true;
    MSingle "HeNBInformationReporting" true;
    MSingle "IndicationFlags" true;
    MSingle "PGWFQCSID" true;
    MSingle "SGWFQCSID" true;
    MList "PresenceReportingAction" false true;
    MSingle "PGWNodeLoadControlInformation" true;
    MSingle "PGWAPNLoadControlInformation" true;
    MSingle "SGWNodeLoadControlInformation" true;
    MSingle "PGWOverloadControlInformation" true;
    MSingle "SGWOverloadControlInformation" true;
    MSingle "NBIFOMContainer" true;
    MSingle "PrivateExtension" true;
    MList "AdditionalIEs" true true];
  md_lens := [LList "BearerContexts" false;
    LSingle "PTI";
    LSingle "PCO";
    LSingle "APNAMBR";
    LSingle "ChangeReportingAction";
    LSingle "CSGInformationReportingAction";
    LSingle "HeNBInformationReporting";
    LSingle "IndicationFlags";
    LSingle "PGWFQCSID";
    LSingle "SGWFQCSID";
    LList "PresenceReportingAction" false;
    LSingle "PGWNodeLoadControlInformation";
    LSingle "PGWAPNLoadControlInformation";
    LSingle "SGWNodeLoadControlInformation";
    LSingle "PGWOverloadControlInformation";
    LSingle "SGWOverloadControlInformation";
    LSingle "NBIFOMContainer";
    LSingle "PrivateExtension";
    LList "AdditionalIEs" true];
  md_sub := 4 |}.


(** ** UpdateBearerResponse: struct gtpv2/message/update-bearer-res.go:12-39 *)
(** NewUpdateBearerResponse, gtpv2/message/update-bearer-res.go:42-138 (dispatch of the given IEs) *)
Definition new_UpdateBearerResponse : table := Tbl true [
  (2, ASet "Cause") (* ie.Cause *);
  (93, AApp "BearerContexts") (* ie.BearerContext *);
  (78, ASet "PCO") (* ie.ProtocolConfigurationOptions *);
  (3, ASet "Recovery") (* ie.Recovery *);
  (132, AInst [(0, ASet "MMEFQCSID"); (1, ASet "SGWFQCSID"); (2, ASet "EPDGFQCSID"); (3, ASet "TWANFQCSID")] (AApp "AdditionalIEs")) (* ie.FullyQualifiedCSID *);
  (77, ASet "IndicationFlags") (* ie.Indication *);
  (114, ASet "UETimeZone") (* ie.UETimeZone *);
  (86, ASet "ULI") (* ie.UserLocationInformation *);
  (169, AInst [(0, ASet "TWANIdentifier"); (1, ASet "WLANLocationInformation")] (AApp "AdditionalIEs")) (* ie.TWANIdentifier *);
  (180, AInst [(0, ASet "MMESGSNOverloadControlInformation"); (1, ASet "SGWOverloadControlInformation"); (2, ASet "TWANePDGOverloadControlInformation")] (AApp "AdditionalIEs")) (* ie.OverloadControlInformation *);
  (177, AApp "PresenceReportingAreaAction") (* ie.PresenceReportingAreaAction *);
  (74, AInst [(0, ASet "MMESGSNIdentifier"); (1, ASet "UELocalIPAddress")] (ANop)) (* ie.IPAddress *);
  (179, AInst [(1, ASet "WLANLocationTimeStamp")] (AApp "AdditionalIEs")) (* ie.TWANIdentifierTimestamp *);
  (126, AInst [(0, ASet "UEUDPPort"); (1, ASet "UETCPPort")] (AApp "AdditionalIEs")) (* ie.PortNumber *);
  (118, ASet "NBIFOMContainer") (* ie.FContainer *);
  (255, ASet "PrivateExtension") (* ie.PrivateExtension *)
  ] (AApp "AdditionalIEs").

(** UpdateBearerResponse.UnmarshalBinary, gtpv2/message/update-bearer-res.go:326-424 *)
Definition unm_UpdateBearerResponse : table := Tbl false [
  (2, ASet "Cause") (* ie.Cause *);
  (93, AApp "BearerContexts") (* ie.BearerContext *);
  (78, ASet "PCO") (* ie.ProtocolConfigurationOptions *);
  (3, ASet "Recovery") (* ie.Recovery *);
  (132, AInst [(0, ASet "MMEFQCSID"); (1, ASet "SGWFQCSID"); (2, ASet "EPDGFQCSID"); (3, ASet "TWANFQCSID")] (AApp "AdditionalIEs")) (* ie.FullyQualifiedCSID *);
  (77, ASet "IndicationFlags") (* ie.Indication *);
  (114, ASet "UETimeZone") (* ie.UETimeZone *);
  (86, ASet "ULI") (* ie.UserLocationInformation *);
  (169, AInst [(0, ASet "TWANIdentifier"); (1, ASet "WLANLocationInformation")] (AApp "AdditionalIEs")) (* ie.TWANIdentifier *);
  (180, AInst [(0, ASet "MMESGSNOverloadControlInformation"); (1, ASet "SGWOverloadControlInformation"); (2, ASet "TWANePDGOverloadControlInformation")] (AApp "AdditionalIEs")) (* ie.OverloadControlInformation *);
  (177, AApp "PresenceReportingAreaAction") (* ie.PresenceReportingAreaAction *);
  (74, AInst [(0, ASet "MMESGSNIdentifier"); (1, ASet "UELocalIPAddress")] (ANop)) (* ie.IPAddress *);
  (179, AInst [(1, ASet "WLANLocationTimeStamp")] (AApp "AdditionalIEs")) (* ie.TWANIdentifierTimestamp *);
  (126, AInst [(0, ASet "UEUDPPort"); (1, ASet "UETCPPort")] (AApp "AdditionalIEs")) (* ie.PortNumber *);
  (118, ASet "NBIFOMContainer") (* ie.FContainer *);
  (255, ASet "PrivateExtension") (* ie.PrivateExtension *)
  ] (AApp "AdditionalIEs").

(** fields gtpv2/message/update-bearer-res.go:12-39; MarshalTo gtpv2/message/update-bearer-res.go:150-314; MarshalLen gtpv2/message/update-bearer-res.go:427-510; SetLength gtpv2/message/update-bearer-res.go:513-515;
    MessageTypeName "Update Bearer Response"; TEID(): return c.Header.teid() *)
Definition d_UpdateBearerResponse : mdesc := {|
  md_name := "UpdateBearerResponse";
  md_ctor := Ctor 2 0 1 98 true;
  md_fields := [("Cause", FSingle); ("BearerContexts", FList); ("PCO", FSingle); ("Recovery", FSingle); ("MMEFQCSID", FSingle); ("SGWFQCSID", FSingle); ("EPDGFQCSID", FSingle); ("TWANFQCSID", FSingle); ("IndicationFlags", FSingle); ("UETimeZone", FSingle); ("ULI", FSingle); ("TWANIdentifier", FSingle); ("MMESGSNOverloadControlInformation", FSingle); ("SGWOverloadControlInformation", FSingle); ("PresenceReportingAreaAction", FList); ("MMESGSNIdentifier", FSingle); ("TWANePDGOverloadControlInformation", FSingle); ("WLANLocationInformation", FSingle); ("WLANLocationTimeStamp", FSingle); ("UELocalIPAddress", FSingle); ("UEUDPPort", FSingle); ("NBIFOMContainer", FSingle); ("UETCPPort", FSingle); ("PrivateExtension", FSingle); ("AdditionalIEs", FList)];
  md_new := new_UpdateBearerResponse;
  md_unm := unm_UpdateBearerResponse;
  md_min := 2;
  md_soft := false;
  md_check := false;
  md_reset := true;
  md_steps := [MSingle "Cause" true;
    MList "BearerContexts" false true;
    MSingle "PCO" true;
    MSingle "Recovery" true;
    MSingle "MMEFQCSID" true;
    MSingle "SGWFQCSID" true;
    MSingle "EPDGFQCSID" true;
    MSingle "TWANFQCSID" true;
    MSingle "IndicationFlags" true;
    MSingle "UETimeZone" true;
    MSingle "ULI" true;
    MSingle "TWANIdentifier" true;
    MSingle "MMESGSNOverloadControlInformation" true;
    MSingle "SGWOverloadControlInformation" true;
    MList "PresenceReportingAreaAction" false true;
    MSingle "MMESGSNIdentifier" true;
    MSingle "TWANePDGOverloadControlInformation" true;
    MSingle "WLANLocationInformation" true;
    MSingle "WLANLocationTimeStamp" true;
    MSingle "UELocalIPAddress" true;
    MSingle "UEUDPPort" true;
    MSingle "NBIFOMContainer" true;
    MSingle "UETCPPort" true;
    MSingle "PrivateExtension" true;
    MList "AdditionalIEs" true true];
  md_lens := [LSingle "Cause";
    LList "BearerContexts" false;
    LSingle "PCO";
    LSingle "Recovery";
    LSingle "MMEFQCSID";
    LSingle "SGWFQCSID";
    LSingle "EPDGFQCSID";
    LSingle "TWANFQCSID";
    LSingle "IndicationFlags";
    LSingle "UETimeZone";
    LSingle "ULI";
    LSingle "TWANIdentifier";
    LSingle "MMESGSNOverloadControlInformation";
    LSingle "SGWOverloadControlInformation";
    LList "PresenceReportingAreaAction" false;
    LSingle "MMESGSNIdentifier";
    LSingle "TWANePDGOverloadControlInformation";
    LSingle "WLANLocationInformation";
    LSingle "WLANLocationTimeStamp";
    LSingle "UELocalIPAddress";
    LSingle "UEUDPPort";
    LSingle "NBIFOMContainer";
    LSingle "UETCPPort";
    LSingle "PrivateExtension";
    LList "AdditionalIEs" true];
  md_sub := 4 |}.


(** ** UpdatePDNConnectionSetRequest: struct gtpv2/message/update-pdn-connection-set-req.go:12-18 *)
(** NewUpdatePDNConnectionSetRequest, gtpv2/message/update-pdn-connection-set-req.go:21-52 (dispatch of the given IEs) *)
Definition new_UpdatePDNConnectionSetRequest : table := Tbl true [
  (132, AInst [(0, ASet "MMEFQCSID"); (1, ASet "SGWFQCSID")] (AApp "AdditionalIEs")) (* ie.FullyQualifiedCSID *);
  (255, ASet "PrivateExtension") (* ie.PrivateExtension *)
  ] (AApp "AdditionalIEs").

(** UpdatePDNConnectionSetRequest.UnmarshalBinary, gtpv2/message/update-pdn-connection-set-req.go:114-150 *)
Definition unm_UpdatePDNConnectionSetRequest : table := Tbl true [
  (132, AInst [(0, ASet "MMEFQCSID"); (1, ASet "SGWFQCSID")] (AApp "AdditionalIEs")) (* ie.FullyQualifiedCSID *);
  (255, ASet "PrivateExtension") (* ie.PrivateExtension *)
  ] (AApp "AdditionalIEs").

(** fields gtpv2/message/update-pdn-connection-set-req.go:12-18; MarshalTo gtpv2/message/update-pdn-connection-set-req.go:64-102; MarshalLen gtpv2/message/update-pdn-connection-set-req.go:153-173; SetLength gtpv2/message/update-pdn-connection-set-req.go:176-178;
    MessageTypeName "Update PDN Connection Set Request"; TEID(): return m.Header.teid() *)
Definition d_UpdatePDNConnectionSetRequest : mdesc := {|
  md_name := "UpdatePDNConnectionSetRequest";
  md_ctor := Ctor 2 0 1 200 true;
  md_fields := [("MMEFQCSID", FSingle); ("SGWFQCSID", FSingle); ("PrivateExtension", FSingle); ("AdditionalIEs", FList)];
  md_new := new_UpdatePDNConnectionSetRequest;
  md_unm := unm_UpdatePDNConnectionSetRequest;
  md_min := 2;
  md_soft := false;
  md_check := false;
  md_reset := true;
  md_steps := [MSingle "MMEFQCSID" true;
    MSingle "SGWFQCSID" true;
    MSingle "PrivateExtension" true;
    MList "AdditionalIEs" true true];
  md_lens := [LSingle "MMEFQCSID";
    LSingle "SGWFQCSID";
    LSingle "PrivateExtension";
    LList "AdditionalIEs" true];
  md_sub := 4 |}.


(** ** UpdatePDNConnectionSetResponse: struct gtpv2/message/update-pdn-connection-set-res.go:12-19 *)
(** NewUpdatePDNConnectionSetResponse, gtpv2/message/update-pdn-connection-set-res.go:22-50 (dispatch of the given IEs) *)
Definition new_UpdatePDNConnectionSetResponse : table := Tbl true [
  (2, ASet "Cause") (* ie.Cause *);
  (132, ASet "PGWFQCSID") (* ie.FullyQualifiedCSID *);
  (3, ASet "Recovery") (* ie.Recovery *);
  (255, ASet "PrivateExtension") (* ie.PrivateExtension *)
  ] (AApp "AdditionalIEs").

(** UpdatePDNConnectionSetResponse.UnmarshalBinary, gtpv2/message/update-pdn-connection-set-res.go:119-152 *)
Definition unm_UpdatePDNConnectionSetResponse : table := Tbl true [
  (2, ASet "Cause") (* ie.Cause *);
  (132, ASet "PGWFQCSID") (* ie.FullyQualifiedCSID *);
  (3, ASet "Recovery") (* ie.Recovery *);
  (255, ASet "PrivateExtension") (* ie.PrivateExtension *)
  ] (AApp "AdditionalIEs").

(** fields gtpv2/message/update-pdn-connection-set-res.go:12-19; MarshalTo gtpv2/message/update-pdn-connection-set-res.go:63-107; MarshalLen gtpv2/message/update-pdn-connection-set-res.go:155-178; SetLength gtpv2/message/update-pdn-connection-set-res.go:181-183;
    MessageTypeName "Update PDN Connection Set Response"; TEID(): return m.Header.teid() *)
Definition d_UpdatePDNConnectionSetResponse : mdesc := {|
  md_name := "UpdatePDNConnectionSetResponse";
  md_ctor := Ctor 2 0 1 201 true;
  md_fields := [("Cause", FSingle); ("PGWFQCSID", FSingle); ("Recovery", FSingle); ("PrivateExtension", FSingle); ("AdditionalIEs", FList)];
  md_new := new_UpdatePDNConnectionSetResponse;
  md_unm := unm_UpdatePDNConnectionSetResponse;
  md_min := 2;
  md_soft := false;
  md_check := false;
  md_reset := true;
  md_steps := [MSingle "Cause" true;
    MSingle "PGWFQCSID" true;
    MSingle "Recovery" true;
    MSingle "PrivateExtension" true;
    MList "AdditionalIEs" true true];
  md_lens := [LSingle "Cause";
    LSingle "PGWFQCSID";
    LSingle "Recovery";
    LSingle "PrivateExtension";
    LList "AdditionalIEs" true];
  md_sub := 4 |}.


(** ** VersionNotSupportedIndication: struct gtpv2/message/version-not-supported.go:14-17 *)
(** NewVersionNotSupportedIndication, gtpv2/message/version-not-supported.go:20-37 (dispatch of the given IEs) *)
Definition new_VersionNotSupportedIndication : table := Tbl true [

  ] (AApp "AdditionalIEs").

(** VersionNotSupportedIndication.UnmarshalBinary, gtpv2/message/version-not-supported.go:80-106 *)
Definition unm_VersionNotSupportedIndication : table := Tbl true [

  ] (AApp "AdditionalIEs").

(** fields gtpv2/message/version-not-supported.go:14-17; MarshalTo gtpv2/message/version-not-supported.go:49-68; MarshalLen gtpv2/message/version-not-supported.go:109-118; SetLength gtpv2/message/version-not-supported.go:121-123;
    MessageTypeName "Version Not Supported Indication"; TEID(): return v.Header.teid() *)
Definition d_VersionNotSupportedIndication : mdesc := {|
  md_name := "VersionNotSupportedIndication";
  md_ctor := Ctor 2 0 1 3 true;
  md_fields := [("AdditionalIEs", FList)];
  md_new := new_VersionNotSupportedIndication;
  md_unm := unm_VersionNotSupportedIndication;
  md_min := 2;
  md_soft := true;
  md_check := false;
  md_reset := true;
  md_steps := [MList "AdditionalIEs" true true];
  md_lens := [LList "AdditionalIEs" true];
  md_sub := 4 |}.

(** every message type with a regular structure *)
Definition all_msgs2 : list mdesc := [
  d_ChangeNotificationRequest;
  d_ChangeNotificationResponse;
  d_ContextAcknowledge;
  d_ContextRequest;
  d_ContextResponse;
  d_CreateBearerRequest;
  d_CreateBearerResponse;
  d_CreateSessionRequest;
  d_CreateSessionResponse;
  d_DeleteBearerCommand;
  d_DeleteBearerFailureIndication;
  d_DeleteBearerRequest;
  d_DeleteBearerResponse;
  d_DeletePDNConnectionSetRequest;
  d_DeletePDNConnectionSetResponse;
  d_DeleteSessionRequest;
  d_DeleteSessionResponse;
  d_DetachAcknowledge;
  d_DetachNotification;
  d_DownlinkDataNotificationAcknowledge;
  d_DownlinkDataNotificationFailureIndication;
  d_DownlinkDataNotification;
  d_EchoRequest;
  d_EchoResponse;
  d_ModifyAccessBearersRequest;
  d_ModifyAccessBearersResponse;
  d_ModifyBearerCommand;
  d_ModifyBearerFailureIndication;
  d_ModifyBearerRequest;
  d_ModifyBearerResponse;
  d_PGWRestartNotificationAcknowledge;
  d_PGWRestartNotification;
  d_ReleaseAccessBearersRequest;
  d_ReleaseAccessBearersResponse;
  d_ResumeAcknowledge;
  d_ResumeNotification;
  d_StopPagingIndication;
  d_SuspendAcknowledge;
  d_SuspendNotification;
  d_UpdateBearerRequest;
  d_UpdateBearerResponse;
  d_UpdatePDNConnectionSetRequest;
  d_UpdatePDNConnectionSetResponse;
  d_VersionNotSupportedIndication].

(** the switch of Parse, gtpv2/message/message.go:309-413: type octet to structure; default Generic *)
Definition parse_rows2 : list (N * string) := [
  (1, "EchoRequest") (* MsgTypeEchoRequest *);
  (2, "EchoResponse") (* MsgTypeEchoResponse *);
  (3, "VersionNotSupportedIndication") (* MsgTypeVersionNotSupportedIndication *);
  (32, "CreateSessionRequest") (* MsgTypeCreateSessionRequest *);
  (33, "CreateSessionResponse") (* MsgTypeCreateSessionResponse *);
  (36, "DeleteSessionRequest") (* MsgTypeDeleteSessionRequest *);
  (37, "DeleteSessionResponse") (* MsgTypeDeleteSessionResponse *);
  (64, "ModifyBearerCommand") (* MsgTypeModifyBearerCommand *);
  (65, "ModifyBearerFailureIndication") (* MsgTypeModifyBearerFailureIndication *);
  (66, "DeleteBearerCommand") (* MsgTypeDeleteBearerCommand *);
  (67, "DeleteBearerFailureIndication") (* MsgTypeDeleteBearerFailureIndication *);
  (99, "DeleteBearerRequest") (* MsgTypeDeleteBearerRequest *);
  (95, "CreateBearerRequest") (* MsgTypeCreateBearerRequest *);
  (96, "CreateBearerResponse") (* MsgTypeCreateBearerResponse *);
  (100, "DeleteBearerResponse") (* MsgTypeDeleteBearerResponse *);
  (34, "ModifyBearerRequest") (* MsgTypeModifyBearerRequest *);
  (35, "ModifyBearerResponse") (* MsgTypeModifyBearerResponse *);
  (97, "UpdateBearerRequest") (* MsgTypeUpdateBearerRequest *);
  (98, "UpdateBearerResponse") (* MsgTypeUpdateBearerResponse *);
  (130, "ContextRequest") (* MsgTypeContextRequest *);
  (131, "ContextResponse") (* MsgTypeContextResponse *);
  (132, "ContextAcknowledge") (* MsgTypeContextAcknowledge *);
  (170, "ReleaseAccessBearersRequest") (* MsgTypeReleaseAccessBearersRequest *);
  (171, "ReleaseAccessBearersResponse") (* MsgTypeReleaseAccessBearersResponse *);
  (73, "StopPagingIndication") (* MsgTypeStopPagingIndication *);
  (211, "ModifyAccessBearersRequest") (* MsgTypeModifyAccessBearersRequest *);
  (212, "ModifyAccessBearersResponse") (* MsgTypeModifyAccessBearersResponse *);
  (101, "DeletePDNConnectionSetRequest") (* MsgTypeDeletePDNConnectionSetRequest *);
  (102, "DeletePDNConnectionSetResponse") (* MsgTypeDeletePDNConnectionSetResponse *);
  (200, "UpdatePDNConnectionSetRequest") (* MsgTypeUpdatePDNConnectionSetRequest *);
  (201, "UpdatePDNConnectionSetResponse") (* MsgTypeUpdatePDNConnectionSetResponse *);
  (179, "PGWRestartNotification") (* MsgTypePGWRestartNotification *);
  (180, "PGWRestartNotificationAcknowledge") (* MsgTypePGWRestartNotificationAcknowledge *);
  (149, "DetachNotification") (* MsgTypeDetachNotification *);
  (150, "DetachAcknowledge") (* MsgTypeDetachAcknowledge *);
  (165, "ResumeAcknowledge") (* MsgTypeResumeAcknowledge *);
  (164, "ResumeNotification") (* MsgTypeResumeNotification *);
  (163, "SuspendAcknowledge") (* MsgTypeSuspendAcknowledge *);
  (162, "SuspendNotification") (* MsgTypeSuspendNotification *);
  (38, "ChangeNotificationRequest") (* MsgTypeChangeNotificationRequest *);
  (39, "ChangeNotificationResponse") (* MsgTypeChangeNotificationResponse *);
  (176, "DownlinkDataNotification") (* MsgTypeDownlinkDataNotification *);
  (177, "DownlinkDataNotificationAcknowledge") (* MsgTypeDownlinkDataNotificationAcknowledge *);
  (70, "DownlinkDataNotificationFailureIndication") (* MsgTypeDownlinkDataNotificationFailureIndication *)].
