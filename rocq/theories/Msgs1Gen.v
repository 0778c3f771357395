(** GENERATED by tools/extract.py from gtpv1/message/*.go: do not edit. *)
From Coq Require Import String.
From Verif Require Import Base MsgModel.
Open Scope string_scope.
Open Scope N_scope.
Open Scope list_scope.

(** ** CreatePDPContextRequest: struct gtpv1/message/create-pdp-context-req.go:12-54 *)
(** NewCreatePDPContextRequest, gtpv1/message/create-pdp-context-req.go:57-164 (dispatch of the given IEs) *)
Definition new_CreatePDPContextRequest : table := Tbl true [
  (2, ASet "IMSI") (* ie.IMSI *);
  (3, ASet "RAI") (* ie.RouteingAreaIdentity *);
  (14, ASet "Recovery") (* ie.Recovery *);
  (15, ASet "SelectionMode") (* ie.SelectionMode *);
  (16, ASet "TEIDDataI") (* ie.TEIDDataI *);
  (17, ASet "TEIDCPlane") (* ie.TEIDCPlane *);
  (20, AIfNil "NSAPI" (ASet "NSAPI") (AIfNil "LinkedNSAPI" (ASet "LinkedNSAPI") (AApp "AdditionalIEs"))) (* ie.NSAPI *);
  (26, ASet "ChargingCharacteristics") (* ie.ChargingCharacteristics *);
  (27, ASet "TraceReference") (* ie.TraceReference *);
  (28, ASet "TraceType") (* ie.TraceType *);
  (128, ASet "EndUserAddress") (* ie.EndUserAddress *);
  (131, ASet "APN") (* ie.AccessPointName *);
  (132, ASet "PCO") (* ie.ProtocolConfigurationOptions *);
  (133, AIfNil "SGSNAddressForSignalling" (ASet "SGSNAddressForSignalling") (AIfNil "SGSNAddressForUserTraffic" (ASet "SGSNAddressForUserTraffic") (AApp "AdditionalIEs"))) (* ie.GSNAddress *);
  (134, ASet "MSISDN") (* ie.MSISDN *);
  (135, ASet "QoSProfile") (* ie.QoSProfile *);
  (137, ASet "TFT") (* ie.TrafficFlowTemplate *);
  (142, ASet "TriggerID") (* ie.TriggerID *);
  (143, ASet "OMCIdentity") (* ie.OMCIdentity *);
  (148, ASet "CommonFlags") (* ie.CommonFlags *);
  (149, ASet "APNRestriction") (* ie.APNRestriction *);
  (151, ASet "RATType") (* ie.RATType *);
  (152, ASet "UserLocationInformation") (* ie.UserLocationInformation *);
  (153, ASet "MSTimeZone") (* ie.MSTimeZone *);
  (154, ASet "IMEI") (* ie.IMEISV *);
  (155, ASet "CAMELChargingInformationContainer") (* ie.CAMELChargingInformationContainer *);
  (162, ASet "AdditionalTraceInfo") (* ie.AdditionalTraceInfo *);
  (183, ASet "CorrelationID") (* ie.CorrelationID *);
  (191, ASet "EvolvedARPI") (* ie.EvolvedAllocationRetentionPriorityI *);
  (193, ASet "ExtendedCommonFlags") (* ie.ExtendedCommonFlags *);
  (194, ASet "UCI") (* ie.UserCSGInformation *);
  (198, ASet "APNAMBR") (* ie.AggregateMaximumBitRate *);
  (203, ASet "SignallingPriorityIndication") (* ie.SignallingPriorityIndication *);
  (216, ASet "CNOperatorSelectionEntity") (* ie.CNOperatorSelectionEntity *);
  (223, ASet "MappedUEUsageType") (* ie.MappedUEUsageType *);
  (224, ASet "UPFunctionSelectionIndicationFlags") (* ie.UPFunctionSelectionIndicationFlags *);
  (255, ASet "PrivateExtension") (* ie.PrivateExtension *)
  ] (AApp "AdditionalIEs").

(** CreatePDPContextRequest.UnmarshalBinary, gtpv1/message/create-pdp-context-req.go:443-558 *)
Definition unm_CreatePDPContextRequest : table := Tbl true [
  (2, ASet "IMSI") (* ie.IMSI *);
  (3, ASet "RAI") (* ie.RouteingAreaIdentity *);
  (14, ASet "Recovery") (* ie.Recovery *);
  (15, ASet "SelectionMode") (* ie.SelectionMode *);
  (16, ASet "TEIDDataI") (* ie.TEIDDataI *);
  (17, ASet "TEIDCPlane") (* ie.TEIDCPlane *);
  (20, AIfNil "NSAPI" (ASet "NSAPI") (AIfNil "LinkedNSAPI" (ASet "LinkedNSAPI") (AApp "AdditionalIEs"))) (* ie.NSAPI *);
  (26, ASet "ChargingCharacteristics") (* ie.ChargingCharacteristics *);
  (27, ASet "TraceReference") (* ie.TraceReference *);
  (28, ASet "TraceType") (* ie.TraceType *);
  (128, ASet "EndUserAddress") (* ie.EndUserAddress *);
  (131, ASet "APN") (* ie.AccessPointName *);
  (132, ASet "PCO") (* ie.ProtocolConfigurationOptions *);
  (133, AIfNil "SGSNAddressForSignalling" (ASet "SGSNAddressForSignalling") (AIfNil "SGSNAddressForUserTraffic" (ASet "SGSNAddressForUserTraffic") (AApp "AdditionalIEs"))) (* ie.GSNAddress *);
  (134, ASet "MSISDN") (* ie.MSISDN *);
  (135, ASet "QoSProfile") (* ie.QoSProfile *);
  (137, ASet "TFT") (* ie.TrafficFlowTemplate *);
  (142, ASet "TriggerID") (* ie.TriggerID *);
  (143, ASet "OMCIdentity") (* ie.OMCIdentity *);
  (148, ASet "CommonFlags") (* ie.CommonFlags *);
  (149, ASet "APNRestriction") (* ie.APNRestriction *);
  (151, ASet "RATType") (* ie.RATType *);
  (152, ASet "UserLocationInformation") (* ie.UserLocationInformation *);
  (153, ASet "MSTimeZone") (* ie.MSTimeZone *);
  (154, ASet "IMEI") (* ie.IMEISV *);
  (155, ASet "CAMELChargingInformationContainer") (* ie.CAMELChargingInformationContainer *);
  (162, ASet "AdditionalTraceInfo") (* ie.AdditionalTraceInfo *);
  (183, ASet "CorrelationID") (* ie.CorrelationID *);
  (191, ASet "EvolvedARPI") (* ie.EvolvedAllocationRetentionPriorityI *);
  (193, ASet "ExtendedCommonFlags") (* ie.ExtendedCommonFlags *);
  (194, ASet "UCI") (* ie.UserCSGInformation *);
  (198, ASet "APNAMBR") (* ie.AggregateMaximumBitRate *);
  (203, ASet "SignallingPriorityIndication") (* ie.SignallingPriorityIndication *);
  (216, ASet "CNOperatorSelectionEntity") (* ie.CNOperatorSelectionEntity *);
  (223, ASet "MappedUEUsageType") (* ie.MappedUEUsageType *);
  (224, ASet "UPFunctionSelectionIndicationFlags") (* ie.UPFunctionSelectionIndicationFlags *);
  (255, ASet "PrivateExtension") (* ie.PrivateExtension *)
  ] (AApp "AdditionalIEs").

(** fields gtpv1/message/create-pdp-context-req.go:12-54; MarshalTo gtpv1/message/create-pdp-context-req.go:177-431; MarshalLen gtpv1/message/create-pdp-context-req.go:561-689; SetLength gtpv1/message/create-pdp-context-req.go:692-694;
    MessageTypeName "Create PDP Context Request"; TEID(): return c.Header.TEID *)
Definition d_CreatePDPContextRequest : mdesc := {|
  md_name := "CreatePDPContextRequest";
  md_ctor := Ctor1 50 16 true true;
  md_fields := [("IMSI", FSingle); ("RAI", FSingle); ("Recovery", FSingle); ("SelectionMode", FSingle); ("TEIDDataI", FSingle); ("TEIDCPlane", FSingle); ("NSAPI", FSingle); ("LinkedNSAPI", FSingle); ("ChargingCharacteristics", FSingle); ("TraceReference", FSingle); ("TraceType", FSingle); ("EndUserAddress", FSingle); ("APN", FSingle); ("PCO", FSingle); ("SGSNAddressForSignalling", FSingle); ("SGSNAddressForUserTraffic", FSingle); ("MSISDN", FSingle); ("QoSProfile", FSingle); ("TFT", FSingle); ("TriggerID", FSingle); ("OMCIdentity", FSingle); ("CommonFlags", FSingle); ("APNRestriction", FSingle); ("RATType", FSingle); ("UserLocationInformation", FSingle); ("MSTimeZone", FSingle); ("IMEI", FSingle); ("CAMELChargingInformationContainer", FSingle); ("AdditionalTraceInfo", FSingle); ("CorrelationID", FSingle); ("EvolvedARPI", FSingle); ("ExtendedCommonFlags", FSingle); ("UCI", FSingle); ("APNAMBR", FSingle); ("SignallingPriorityIndication", FSingle); ("CNOperatorSelectionEntity", FSingle); ("MappedUEUsageType", FSingle); ("UPFunctionSelectionIndicationFlags", FSingle); ("PrivateExtension", FSingle); ("AdditionalIEs", FList)];
  md_new := new_CreatePDPContextRequest;
  md_unm := unm_CreatePDPContextRequest;
  md_min := 2;
  md_soft := false;
  md_check := true;
  md_reset := false;
  md_steps := [MSingle "IMSI" true;
    MSingle "RAI" true;
    MSingle "Recovery" true;
    MSingle "SelectionMode" true;
    MSingle "TEIDDataI" true;
    MSingle "TEIDCPlane" true;
    MSingle "NSAPI" true;
    MSingle "LinkedNSAPI" true;
    MSingle "ChargingCharacteristics" true;
    MSingle "TraceReference" true;
    MSingle "TraceType" true;
    MSingle "EndUserAddress" true;
    MSingle "APN" true;
    MSingle "PCO" true;
    MSingle "SGSNAddressForSignalling" true;
    MSingle "SGSNAddressForUserTraffic" true;
    MSingle "MSISDN" true;
    MSingle "QoSProfile" true;
    MSingle "TFT" true;
    MSingle "TriggerID" true;
    MSingle "OMCIdentity" true;
    MSingle "CommonFlags" true;
    MSingle "APNRestriction" true;
    MSingle "RATType" true;
    MSingle "UserLocationInformation" true;
    MSingle "MSTimeZone" true;
    MSingle "IMEI" true;
    MSingle "CAMELChargingInformationContainer" true;
    MSingle "AdditionalTraceInfo" true;
    MSingle "CorrelationID" true;
    MSingle "EvolvedARPI" true;
    MSingle "ExtendedCommonFlags" true;
    MSingle "UCI" true;
    MSingle "APNAMBR" true;
    MSingle "SignallingPriorityIndication" true;
    MSingle "CNOperatorSelectionEntity" true;
    MSingle "MappedUEUsageType" true;
    MSingle "UPFunctionSelectionIndicationFlags" true;
    MSingle "PrivateExtension" true;
    MList "AdditionalIEs" true true];
  md_lens := [LSingle "IMSI";
    LSingle "RAI";
    LSingle "Recovery";
    LSingle "SelectionMode";
    LSingle "TEIDDataI";
    LSingle "TEIDCPlane";
    LSingle "NSAPI";
    LSingle "LinkedNSAPI";
    LSingle "ChargingCharacteristics";
    LSingle "TraceReference";
    LSingle "TraceType";
    LSingle "EndUserAddress";
    LSingle "APN";
    LSingle "PCO";
    LSingle "SGSNAddressForSignalling";
    LSingle "SGSNAddressForUserTraffic";
    LSingle "MSISDN";
    LSingle "QoSProfile";
    LSingle "TFT";
    LSingle "TriggerID";
    LSingle "OMCIdentity";
    LSingle "CommonFlags";
    LSingle "APNRestriction";
    LSingle "RATType";
    LSingle "UserLocationInformation";
    LSingle "MSTimeZone";
    LSingle "IMEI";
    LSingle "CAMELChargingInformationContainer";
    LSingle "AdditionalTraceInfo";
    LSingle "CorrelationID";
    LSingle "EvolvedARPI";
    LSingle "ExtendedCommonFlags";
    LSingle "UCI";
    LSingle "APNAMBR";
    LSingle "SignallingPriorityIndication";
    LSingle "CNOperatorSelectionEntity";
    LSingle "MappedUEUsageType";
    LSingle "UPFunctionSelectionIndicationFlags";
    LSingle "PrivateExtension";
    LList "AdditionalIEs" true];
  md_sub := 8 |}.


(** ** CreatePDPContextResponse: struct gtpv1/message/create-pdp-context-res.go:12-42 *)
(** NewCreatePDPContextResponse, gtpv1/message/create-pdp-context-res.go:45-124 (dispatch of the given IEs) *)
Definition new_CreatePDPContextResponse : table := Tbl true [
  (1, ASet "Cause") (* ie.Cause *);
  (8, ASet "ReorderingRequired") (* ie.ReorderingRequired *);
  (14, ASet "Recovery") (* ie.Recovery *);
  (16, ASet "TEIDDataI") (* ie.TEIDDataI *);
  (17, ASet "TEIDCPlane") (* ie.TEIDCPlane *);
  (20, ASet "NSAPI") (* ie.NSAPI *);
  (127, ASet "ChargingID") (* ie.ChargingID *);
  (128, ASet "EndUserAddress") (* ie.EndUserAddress *);
  (132, ASet "PCO") (* ie.ProtocolConfigurationOptions *);
  (133, AIfNil "GGSNAddressForCPlane" (ASet "GGSNAddressForCPlane") (AIfNil "GGSNAddressForUserTraffic" (ASet "GGSNAddressForUserTraffic") (AIfNil "AltGGSNAddressForCPlane" (ASet "AltGGSNAddressForCPlane") (ASet "AltGGSNAddressForUserTraffic")))) (* ie.GSNAddress *);
  (135, ASet "QoSProfile") (* ie.QoSProfile *);
  (251, AIfNil "ChargingGatewayAddress" (ASet "ChargingGatewayAddress") (AIfNil "AltChargingGatewayAddress" (ASet "AltChargingGatewayAddress") (ANop))) (* ie.ChargingGatewayAddress *);
  (148, ASet "CommonFlags") (* ie.CommonFlags *);
  (149, ASet "APNRestriction") (* ie.APNRestriction *);
  (181, ASet "MSInfoChangeReportingAction") (* ie.MSInfoChangeReportingAction *);
  (184, ASet "BearerControlMode") (* ie.BearerControlMode *);
  (191, ASet "EvolvedARPI") (* ie.EvolvedAllocationRetentionPriorityI *);
  (193, ASet "ExtendedCommonFlags") (* ie.ExtendedCommonFlags *);
  (195, ASet "CSGInformationReportingAction") (* ie.CSGInformationReportingAction *);
  (198, ASet "APNAMBR") (* ie.AggregateMaximumBitRate *);
  (202, ASet "GGSNBackOffTime") (* ie.GGSNBackOffTime *);
  (218, ASet "ExtendedCommonFlagsII") (* ie.ExtendedCommonFlagsII *);
  (255, ASet "PrivateExtension") (* ie.PrivateExtension *)
  ] (AApp "AdditionalIEs").

(** CreatePDPContextResponse.UnmarshalBinary, gtpv1/message/create-pdp-context-res.go:331-419 *)
Definition unm_CreatePDPContextResponse : table := Tbl true [
  (1, ASet "Cause") (* ie.Cause *);
  (8, ASet "ReorderingRequired") (* ie.ReorderingRequired *);
  (14, ASet "Recovery") (* ie.Recovery *);
  (16, ASet "TEIDDataI") (* ie.TEIDDataI *);
  (17, ASet "TEIDCPlane") (* ie.TEIDCPlane *);
  (20, ASet "NSAPI") (* ie.NSAPI *);
  (127, ASet "ChargingID") (* ie.ChargingID *);
  (128, ASet "EndUserAddress") (* ie.EndUserAddress *);
  (132, ASet "PCO") (* ie.ProtocolConfigurationOptions *);
  (133, AIfNil "GGSNAddressForCPlane" (ASet "GGSNAddressForCPlane") (AIfNil "GGSNAddressForUserTraffic" (ASet "GGSNAddressForUserTraffic") (AIfNil "AltGGSNAddressForCPlane" (ASet "AltGGSNAddressForCPlane") (ASet "AltGGSNAddressForUserTraffic")))) (* ie.GSNAddress *);
  (135, ASet "QoSProfile") (* ie.QoSProfile *);
  (251, AIfNil "ChargingGatewayAddress" (ASet "ChargingGatewayAddress") (ASet "AltChargingGatewayAddress")) (* ie.ChargingGatewayAddress *);
  (148, ASet "CommonFlags") (* ie.CommonFlags *);
  (149, ASet "APNRestriction") (* ie.APNRestriction *);
  (181, ASet "MSInfoChangeReportingAction") (* ie.MSInfoChangeReportingAction *);
  (184, ASet "BearerControlMode") (* ie.BearerControlMode *);
  (191, ASet "EvolvedARPI") (* ie.EvolvedAllocationRetentionPriorityI *);
  (193, ASet "ExtendedCommonFlags") (* ie.ExtendedCommonFlags *);
  (195, ASet "CSGInformationReportingAction") (* ie.CSGInformationReportingAction *);
  (198, ASet "APNAMBR") (* ie.AggregateMaximumBitRate *);
  (202, ASet "GGSNBackOffTime") (* ie.GGSNBackOffTime *);
  (218, ASet "ExtendedCommonFlagsII") (* ie.ExtendedCommonFlagsII *);
  (255, ASet "PrivateExtension") (* ie.PrivateExtension *)
  ] (AApp "AdditionalIEs").

(** fields gtpv1/message/create-pdp-context-res.go:12-42; MarshalTo gtpv1/message/create-pdp-context-res.go:137-319; MarshalLen gtpv1/message/create-pdp-context-res.go:422-514; SetLength gtpv1/message/create-pdp-context-res.go:517-519;
    MessageTypeName "Create PDP Context Response"; TEID(): return c.Header.TEID *)
Definition d_CreatePDPContextResponse : mdesc := {|
  md_name := "CreatePDPContextResponse";
  md_ctor := Ctor1 50 17 true true;
  md_fields := [("Cause", FSingle); ("ReorderingRequired", FSingle); ("Recovery", FSingle); ("TEIDDataI", FSingle); ("TEIDCPlane", FSingle); ("NSAPI", FSingle); ("ChargingID", FSingle); ("EndUserAddress", FSingle); ("PCO", FSingle); ("GGSNAddressForCPlane", FSingle); ("GGSNAddressForUserTraffic", FSingle); ("AltGGSNAddressForCPlane", FSingle); ("AltGGSNAddressForUserTraffic", FSingle); ("QoSProfile", FSingle); ("ChargingGatewayAddress", FSingle); ("AltChargingGatewayAddress", FSingle); ("CommonFlags", FSingle); ("APNRestriction", FSingle); ("MSInfoChangeReportingAction", FSingle); ("BearerControlMode", FSingle); ("EvolvedARPI", FSingle); ("ExtendedCommonFlags", FSingle); ("CSGInformationReportingAction", FSingle); ("APNAMBR", FSingle); ("GGSNBackOffTime", FSingle); ("ExtendedCommonFlagsII", FSingle); ("PrivateExtension", FSingle); ("AdditionalIEs", FList)];
  md_new := new_CreatePDPContextResponse;
  md_unm := unm_CreatePDPContextResponse;
  md_min := 2;
  md_soft := false;
  md_check := true;
  md_reset := false;
  md_steps := [MSingle "Cause" true;
    MSingle "ReorderingRequired" true;
    MSingle "Recovery" true;
    MSingle "TEIDDataI" true;
    MSingle "TEIDCPlane" true;
    MSingle "NSAPI" true;
    MSingle "ChargingID" true;
    MSingle "EndUserAddress" true;
    MSingle "PCO" true;
    MSingle "GGSNAddressForCPlane" true;
    MSingle "GGSNAddressForUserTraffic" true;
    MSingle "AltGGSNAddressForCPlane" true;
    MSingle "AltGGSNAddressForUserTraffic" true;
    MSingle "QoSProfile" true;
    MSingle "ChargingGatewayAddress" true;
    MSingle "AltChargingGatewayAddress" true;
    MSingle "CommonFlags" true;
    MSingle "APNRestriction" true;
    MSingle "MSInfoChangeReportingAction" true;
    MSingle "BearerControlMode" true;
    MSingle "EvolvedARPI" true;
    MSingle "ExtendedCommonFlags" true;
    MSingle "CSGInformationReportingAction" true;
    MSingle "APNAMBR" true;
    MSingle "GGSNBackOffTime" true;
    MSingle "ExtendedCommonFlagsII" true;
    MSingle "PrivateExtension" true;
    MList "AdditionalIEs" true true];
  md_lens := [LSingle "Cause";
    LSingle "ReorderingRequired";
    LSingle "Recovery";
    LSingle "TEIDDataI";
    LSingle "TEIDCPlane";
    LSingle "NSAPI";
    LSingle "ChargingID";
    LSingle "EndUserAddress";
    LSingle "PCO";
    LSingle "GGSNAddressForCPlane";
    LSingle "GGSNAddressForUserTraffic";
    LSingle "AltGGSNAddressForCPlane";
    LSingle "AltGGSNAddressForUserTraffic";
    LSingle "QoSProfile";
    LSingle "ChargingGatewayAddress";
    LSingle "AltChargingGatewayAddress";
    LSingle "CommonFlags";
    LSingle "APNRestriction";
    LSingle "MSInfoChangeReportingAction";
    LSingle "BearerControlMode";
    LSingle "EvolvedARPI";
    LSingle "ExtendedCommonFlags";
    LSingle "CSGInformationReportingAction";
    LSingle "APNAMBR";
    LSingle "GGSNBackOffTime";
    LSingle "ExtendedCommonFlagsII";
    LSingle "PrivateExtension";
    LList "AdditionalIEs" true];
  md_sub := 8 |}.


(** ** DeletePDPContextRequest: struct gtpv1/message/delete-pdp-context-req.go:12-24 *)
(** NewDeletePDPContextRequest, gtpv1/message/delete-pdp-context-req.go:27-62 (dispatch of the given IEs) *)
Definition new_DeletePDPContextRequest : table := Tbl true [
  (1, ASet "Cause") (* ie.Cause *);
  (19, ASet "TeardownInd") (* ie.TeardownInd *);
  (20, ASet "NSAPI") (* ie.NSAPI *);
  (132, ASet "PCO") (* ie.ProtocolConfigurationOptions *);
  (152, ASet "ULI") (* ie.UserLocationInformation *);
  (153, ASet "MSTimeZone") (* ie.MSTimeZone *);
  (193, ASet "ExtendedCommonFlags") (* ie.ExtendedCommonFlags *);
  (214, ASet "ULITimestamp") (* ie.ULITimestamp *);
  (255, ASet "PrivateExtension") (* ie.PrivateExtension *)
  ] (AApp "AdditionalIEs").

(** DeletePDPContextRequest.UnmarshalBinary, gtpv1/message/delete-pdp-context-req.go:161-204 *)
Definition unm_DeletePDPContextRequest : table := Tbl true [
  (1, ASet "Cause") (* ie.Cause *);
  (19, ASet "TeardownInd") (* ie.TeardownInd *);
  (20, ASet "NSAPI") (* ie.NSAPI *);
  (132, ASet "PCO") (* ie.ProtocolConfigurationOptions *);
  (152, ASet "ULI") (* ie.UserLocationInformation *);
  (153, ASet "MSTimeZone") (* ie.MSTimeZone *);
  (193, ASet "ExtendedCommonFlags") (* ie.ExtendedCommonFlags *);
  (214, ASet "ULITimestamp") (* ie.ULITimestamp *);
  (255, ASet "PrivateExtension") (* ie.PrivateExtension *)
  ] (AApp "AdditionalIEs").

(** fields gtpv1/message/delete-pdp-context-req.go:12-24; MarshalTo gtpv1/message/delete-pdp-context-req.go:75-149; MarshalLen gtpv1/message/delete-pdp-context-req.go:207-245; SetLength gtpv1/message/delete-pdp-context-req.go:248-250;
    MessageTypeName "Delete PDP Context Request"; TEID(): return d.Header.TEID *)
Definition d_DeletePDPContextRequest : mdesc := {|
  md_name := "DeletePDPContextRequest";
  md_ctor := Ctor1 50 20 true true;
  md_fields := [("Cause", FSingle); ("TeardownInd", FSingle); ("NSAPI", FSingle); ("PCO", FSingle); ("ULI", FSingle); ("MSTimeZone", FSingle); ("ExtendedCommonFlags", FSingle); ("ULITimestamp", FSingle); ("PrivateExtension", FSingle); ("AdditionalIEs", FList)];
  md_new := new_DeletePDPContextRequest;
  md_unm := unm_DeletePDPContextRequest;
  md_min := 2;
  md_soft := false;
  md_check := true;
  md_reset := false;
  md_steps := [MSingle "Cause" true;
    MSingle "TeardownInd" true;
    MSingle "NSAPI" true;
    MSingle "PCO" true;
    MSingle "ULI" true;
    MSingle "MSTimeZone" true;
    MSingle "ExtendedCommonFlags" true;
    MSingle "ULITimestamp" true;
    MSingle "PrivateExtension" true;
    MList "AdditionalIEs" true true];
  md_lens := [LSingle "Cause";
    LSingle "TeardownInd";
    LSingle "NSAPI";
    LSingle "PCO";
    LSingle "ULI";
    LSingle "MSTimeZone";
    LSingle "ExtendedCommonFlags";
    LSingle "ULITimestamp";
    LSingle "PrivateExtension";
    LList "AdditionalIEs" true];
  md_sub := 8 |}.


(** ** DeletePDPContextResponse: struct gtpv1/message/delete-pdp-context-res.go:12-21 *)
(** NewDeletePDPContextResponse, gtpv1/message/delete-pdp-context-res.go:24-53 (dispatch of the given IEs) *)
Definition new_DeletePDPContextResponse : table := Tbl true [
  (1, ASet "Cause") (* ie.Cause *);
  (132, ASet "PCO") (* ie.ProtocolConfigurationOptions *);
  (152, ASet "ULI") (* ie.UserLocationInformation *);
  (153, ASet "MSTimeZone") (* ie.MSTimeZone *);
  (214, ASet "ULITimestamp") (* ie.ULITimestamp *);
  (255, ASet "PrivateExtension") (* ie.PrivateExtension *)
  ] (AApp "AdditionalIEs").

(** DeletePDPContextResponse.UnmarshalBinary, gtpv1/message/delete-pdp-context-res.go:134-171 *)
Definition unm_DeletePDPContextResponse : table := Tbl true [
  (1, ASet "Cause") (* ie.Cause *);
  (132, ASet "PCO") (* ie.ProtocolConfigurationOptions *);
  (152, ASet "ULI") (* ie.UserLocationInformation *);
  (153, ASet "MSTimeZone") (* ie.MSTimeZone *);
  (214, ASet "ULITimestamp") (* ie.ULITimestamp *);
  (255, ASet "PrivateExtension") (* ie.PrivateExtension *)
  ] (AApp "AdditionalIEs").

(** fields gtpv1/message/delete-pdp-context-res.go:12-21; MarshalTo gtpv1/message/delete-pdp-context-res.go:66-122; MarshalLen gtpv1/message/delete-pdp-context-res.go:174-203; SetLength gtpv1/message/delete-pdp-context-res.go:206-208;
    MessageTypeName "Delete PDP Context Response"; TEID(): return d.Header.TEID *)
Definition d_DeletePDPContextResponse : mdesc := {|
  md_name := "DeletePDPContextResponse";
  md_ctor := Ctor1 50 21 true true;
  md_fields := [("Cause", FSingle); ("PCO", FSingle); ("ULI", FSingle); ("MSTimeZone", FSingle); ("ULITimestamp", FSingle); ("PrivateExtension", FSingle); ("AdditionalIEs", FList)];
  md_new := new_DeletePDPContextResponse;
  md_unm := unm_DeletePDPContextResponse;
  md_min := 2;
  md_soft := false;
  md_check := true;
  md_reset := false;
  md_steps := [MSingle "Cause" true;
    MSingle "PCO" true;
    MSingle "ULI" true;
    MSingle "MSTimeZone" true;
    MSingle "ULITimestamp" true;
    MSingle "PrivateExtension" true;
    MList "AdditionalIEs" true true];
  md_lens := [LSingle "Cause";
    LSingle "PCO";
    LSingle "ULI";
    LSingle "MSTimeZone";
    LSingle "ULITimestamp";
    LSingle "PrivateExtension";
    LList "AdditionalIEs" true];
  md_sub := 8 |}.


(** ** EchoRequest: struct gtpv1/message/echo-req.go:12-16 *)
(** NewEchoRequest, gtpv1/message/echo-req.go:19-38 (dispatch of the given IEs) *)
Definition new_EchoRequest : table := Tbl true [
  (255, ASet "PrivateExtension") (* ie.PrivateExtension *)
  ] (AApp "AdditionalIEs").

(** EchoRequest.UnmarshalBinary, gtpv1/message/echo-req.go:89-114 *)
Definition unm_EchoRequest : table := Tbl true [
  (255, ASet "PrivateExtension") (* ie.PrivateExtension *)
  ] (AApp "AdditionalIEs").

(** fields gtpv1/message/echo-req.go:12-16; MarshalTo gtpv1/message/echo-req.go:51-77; MarshalLen gtpv1/message/echo-req.go:117-131; SetLength gtpv1/message/echo-req.go:134-136;
    MessageTypeName "Echo Request"; TEID(): return e.Header.TEID *)
Definition d_EchoRequest : mdesc := {|
  md_name := "EchoRequest";
  md_ctor := Ctor1 50 1 false true;
  md_fields := [("PrivateExtension", FSingle); ("AdditionalIEs", FList)];
  md_new := new_EchoRequest;
  md_unm := unm_EchoRequest;
  md_min := 0;
  md_soft := false;
  md_check := false;
  md_reset := true;
  md_steps := [MSingle "PrivateExtension" true;
    MList "AdditionalIEs" true true];
  md_lens := [LSingle "PrivateExtension";
    LList "AdditionalIEs" true];
  md_sub := 8 |}.


(** ** EchoResponse: struct gtpv1/message/echo-res.go:12-17 *)
(** NewEchoResponse, gtpv1/message/echo-res.go:20-41 (dispatch of the given IEs) *)
Definition new_EchoResponse : table := Tbl true [
  (14, ASet "Recovery") (* ie.Recovery *);
  (255, ASet "PrivateExtension") (* ie.PrivateExtension *)
  ] (AApp "AdditionalIEs").

(** EchoResponse.UnmarshalBinary, gtpv1/message/echo-res.go:98-127 *)
Definition unm_EchoResponse : table := Tbl true [
  (14, ASet "Recovery") (* ie.Recovery *);
  (255, ASet "PrivateExtension") (* ie.PrivateExtension *)
  ] (AApp "AdditionalIEs").

(** fields gtpv1/message/echo-res.go:12-17; MarshalTo gtpv1/message/echo-res.go:54-86; MarshalLen gtpv1/message/echo-res.go:130-148; SetLength gtpv1/message/echo-res.go:151-153;
    MessageTypeName "Echo Response"; TEID(): return e.Header.TEID *)
Definition d_EchoResponse : mdesc := {|
  md_name := "EchoResponse";
  md_ctor := Ctor1 50 2 false true;
  md_fields := [("Recovery", FSingle); ("PrivateExtension", FSingle); ("AdditionalIEs", FList)];
  md_new := new_EchoResponse;
  md_unm := unm_EchoResponse;
  md_min := 2;
  md_soft := false;
  md_check := false;
  md_reset := true;
  md_steps := [MSingle "Recovery" true;
    MSingle "PrivateExtension" true;
    MList "AdditionalIEs" true true];
  md_lens := [LSingle "Recovery";
    LSingle "PrivateExtension";
    LList "AdditionalIEs" true];
  md_sub := 8 |}.


(** ** EndMarker: struct gtpv1/message/end-marker.go:12-16 *)
(** NewEndMarker, gtpv1/message/end-marker.go:19-38 (dispatch of the given IEs) *)
Definition new_EndMarker : table := Tbl true [
  (255, ASet "PrivateExtension") (* ie.PrivateExtension *)
  ] (AApp "AdditionalIEs").

(** EndMarker.UnmarshalBinary, gtpv1/message/end-marker.go:89-114 *)
Definition unm_EndMarker : table := Tbl true [
  (255, ASet "PrivateExtension") (* ie.PrivateExtension *)
  ] (AApp "AdditionalIEs").

(** fields gtpv1/message/end-marker.go:12-16; MarshalTo gtpv1/message/end-marker.go:51-77; MarshalLen gtpv1/message/end-marker.go:117-131; SetLength gtpv1/message/end-marker.go:134-136;
    MessageTypeName "End Marker"; TEID(): return e.Header.TEID *)
Definition d_EndMarker : mdesc := {|
  md_name := "EndMarker";
  md_ctor := Ctor1 48 254 false false;
  md_fields := [("PrivateExtension", FSingle); ("AdditionalIEs", FList)];
  md_new := new_EndMarker;
  md_unm := unm_EndMarker;
  md_min := 0;
  md_soft := false;
  md_check := false;
  md_reset := true;
  md_steps := [MSingle "PrivateExtension" true;
    MList "AdditionalIEs" true true];
  md_lens := [LSingle "PrivateExtension";
    LList "AdditionalIEs" true];
  md_sub := 8 |}.


(** ** ErrorIndication: struct gtpv1/message/error-indication.go:10-16 *)
(** NewErrorIndication, gtpv1/message/error-indication.go:19-42 (dispatch of the given IEs) *)
Definition new_ErrorIndication : table := Tbl true [
  (16, ASet "TEIDDataI") (* ie.TEIDDataI *);
  (133, ASet "GTPUPeerAddress") (* ie.GSNAddress *);
  (255, ASet "PrivateExtension") (* ie.PrivateExtension *)
  ] (AApp "AdditionalIEs").

(** ErrorIndication.UnmarshalBinary, gtpv1/message/error-indication.go:105-136 *)
Definition unm_ErrorIndication : table := Tbl true [
  (16, ASet "TEIDDataI") (* ie.TEIDDataI *);
  (133, ASet "GTPUPeerAddress") (* ie.GSNAddress *);
  (255, ASet "PrivateExtension") (* ie.PrivateExtension *)
  ] (AApp "AdditionalIEs").

(** fields gtpv1/message/error-indication.go:10-16; MarshalTo gtpv1/message/error-indication.go:55-93; MarshalLen gtpv1/message/error-indication.go:139-159; SetLength gtpv1/message/error-indication.go:162-164;
    MessageTypeName "Errror Indication"; TEID(): return e.Header.TEID *)
Definition d_ErrorIndication : mdesc := {|
  md_name := "ErrorIndication";
  md_ctor := Ctor1 50 26 true true;
  md_fields := [("TEIDDataI", FSingle); ("GTPUPeerAddress", FSingle); ("PrivateExtension", FSingle); ("AdditionalIEs", FList)];
  md_new := new_ErrorIndication;
  md_unm := unm_ErrorIndication;
  md_min := 2;
  md_soft := false;
  md_check := true;
  md_reset := false;
  md_steps := [MSingle "TEIDDataI" true;
    MSingle "GTPUPeerAddress" true;
    MSingle "PrivateExtension" true;
    MList "AdditionalIEs" true true];
  md_lens := [LSingle "TEIDDataI";
    LSingle "GTPUPeerAddress";
    LSingle "PrivateExtension";
    LList "AdditionalIEs" true];
  md_sub := 8 |}.


(** ** SupportedExtensionHeaderNotification: struct gtpv1/message/supported-extension-header-notification.go:12-16 *)
(** NewSupportedExtensionHeaderNotification, gtpv1/message/supported-extension-header-notification.go:19-38 (dispatch of the given IEs) *)
Definition new_SupportedExtensionHeaderNotification : table := Tbl true [
  (141, ASet "ExtensionHeaderTypeList") (* ie.ExtensionHeaderTypeList *)
  ] (AApp "AdditionalIEs").

(** SupportedExtensionHeaderNotification.UnmarshalBinary, gtpv1/message/supported-extension-header-notification.go:89-116 *)
Definition unm_SupportedExtensionHeaderNotification : table := Tbl true [
  (141, ASet "ExtensionHeaderTypeList") (* ie.ExtensionHeaderTypeList *)
  ] (AApp "AdditionalIEs").

(** fields gtpv1/message/supported-extension-header-notification.go:12-16; MarshalTo gtpv1/message/supported-extension-header-notification.go:51-77; MarshalLen gtpv1/message/supported-extension-header-notification.go:119-133; SetLength gtpv1/message/supported-extension-header-notification.go:136-138;
    MessageTypeName "Supported Extension Header Notification"; TEID(): return e.Header.TEID *)
Definition d_SupportedExtensionHeaderNotification : mdesc := {|
  md_name := "SupportedExtensionHeaderNotification";
  md_ctor := Ctor1 48 31 true true;
  md_fields := [("ExtensionHeaderTypeList", FSingle); ("AdditionalIEs", FList)];
  md_new := new_SupportedExtensionHeaderNotification;
  md_unm := unm_SupportedExtensionHeaderNotification;
  md_min := 2;
  md_soft := false;
  md_check := true;
  md_reset := false;
  md_steps := [MSingle "ExtensionHeaderTypeList" true;
    MList "AdditionalIEs" true true];
  md_lens := [LSingle "ExtensionHeaderTypeList";
    LList "AdditionalIEs" true];
  md_sub := 8 |}.


(** ** UpdatePDPContextRequest: struct gtpv1/message/update-pdp-context-req.go:12-46 *)
(** NewUpdatePDPContextRequest, gtpv1/message/update-pdp-context-req.go:49-134 (dispatch of the given IEs) *)
Definition new_UpdatePDPContextRequest : table := Tbl true [
  (2, ASet "IMSI") (* ie.IMSI *);
  (3, ASet "RAI") (* ie.RouteingAreaIdentity *);
  (14, ASet "Recovery") (* ie.Recovery *);
  (16, ASet "TEIDDataI") (* ie.TEIDDataI *);
  (17, ASet "TEIDCPlane") (* ie.TEIDCPlane *);
  (20, ASet "NSAPI") (* ie.NSAPI *);
  (27, ASet "TraceReference") (* ie.TraceReference *);
  (28, ASet "TraceType") (* ie.TraceType *);
  (132, ASet "PCO") (* ie.ProtocolConfigurationOptions *);
  (133, AIfNil "SGSNAddressForCPlane" (ASet "SGSNAddressForCPlane") (AIfNil "SGSNAddressForUserTraffic" (ASet "SGSNAddressForUserTraffic") (AIfNil "AlternativeSGSNAddressForCPlane" (ASet "AlternativeSGSNAddressForCPlane") (ASet "AlternativeSGSNAddressForUserTraffic")))) (* ie.GSNAddress *);
  (135, ASet "QoSProfile") (* ie.QoSProfile *);
  (137, ASet "TFT") (* ie.TrafficFlowTemplate *);
  (142, ASet "TriggerID") (* ie.TriggerID *);
  (143, ASet "OMCIdentity") (* ie.OMCIdentity *);
  (148, ASet "CommonFlags") (* ie.CommonFlags *);
  (151, ASet "RATType") (* ie.RATType *);
  (152, ASet "ULI") (* ie.UserLocationInformation *);
  (153, ASet "MSTimeZone") (* ie.MSTimeZone *);
  (162, ASet "AdditionalTraceInfo") (* ie.AdditionalTraceInfo *);
  (182, ASet "DirectTunnelFlags") (* ie.DirectTunnelFlags *);
  (191, ASet "EvolvedARPI") (* ie.EvolvedAllocationRetentionPriorityI *);
  (193, ASet "ExtendedCommonFlags") (* ie.ExtendedCommonFlags *);
  (194, ASet "UCI") (* ie.UserCSGInformation *);
  (198, ASet "APNAMBR") (* ie.AggregateMaximumBitRate *);
  (203, ASet "SignallingPriorityIndication") (* ie.SignallingPriorityIndication *);
  (216, ASet "CNOperatorSelectionEntity") (* ie.CNOperatorSelectionEntity *);
  (154, ASet "IMEI") (* ie.IMEISV *);
  (255, ASet "PrivateExtension") (* ie.PrivateExtension *)
  ] (AApp "AdditionalIEs").

(** UpdatePDPContextRequest.UnmarshalBinary, gtpv1/message/update-pdp-context-req.go:365-458 *)
Definition unm_UpdatePDPContextRequest : table := Tbl true [
  (2, ASet "IMSI") (* ie.IMSI *);
  (3, ASet "RAI") (* ie.RouteingAreaIdentity *);
  (14, ASet "Recovery") (* ie.Recovery *);
  (16, ASet "TEIDDataI") (* ie.TEIDDataI *);
  (17, ASet "TEIDCPlane") (* ie.TEIDCPlane *);
  (20, ASet "NSAPI") (* ie.NSAPI *);
  (27, ASet "TraceReference") (* ie.TraceReference *);
  (28, ASet "TraceType") (* ie.TraceType *);
  (132, ASet "PCO") (* ie.ProtocolConfigurationOptions *);
  (133, AIfNil "SGSNAddressForCPlane" (ASet "SGSNAddressForCPlane") (AIfNil "SGSNAddressForUserTraffic" (ASet "SGSNAddressForUserTraffic") (AIfNil "AlternativeSGSNAddressForCPlane" (ASet "AlternativeSGSNAddressForCPlane") (ASet "AlternativeSGSNAddressForUserTraffic")))) (* ie.GSNAddress *);
  (135, ASet "QoSProfile") (* ie.QoSProfile *);
  (137, ASet "TFT") (* ie.TrafficFlowTemplate *);
  (142, ASet "TriggerID") (* ie.TriggerID *);
  (143, ASet "OMCIdentity") (* ie.OMCIdentity *);
  (148, ASet "CommonFlags") (* ie.CommonFlags *);
  (151, ASet "RATType") (* ie.RATType *);
  (152, ASet "ULI") (* ie.UserLocationInformation *);
  (153, ASet "MSTimeZone") (* ie.MSTimeZone *);
  (162, ASet "AdditionalTraceInfo") (* ie.AdditionalTraceInfo *);
  (182, ASet "DirectTunnelFlags") (* ie.DirectTunnelFlags *);
  (191, ASet "EvolvedARPI") (* ie.EvolvedAllocationRetentionPriorityI *);
  (193, ASet "ExtendedCommonFlags") (* ie.ExtendedCommonFlags *);
  (194, ASet "UCI") (* ie.UserCSGInformation *);
  (198, ASet "APNAMBR") (* ie.AggregateMaximumBitRate *);
  (203, ASet "SignallingPriorityIndication") (* ie.SignallingPriorityIndication *);
  (216, ASet "CNOperatorSelectionEntity") (* ie.CNOperatorSelectionEntity *);
  (154, ASet "IMEI") (* ie.IMEISV *);
  (255, ASet "PrivateExtension") (* ie.PrivateExtension *)
  ] (AApp "AdditionalIEs").

(** fields gtpv1/message/update-pdp-context-req.go:12-46; MarshalTo gtpv1/message/update-pdp-context-req.go:147-353; MarshalLen gtpv1/message/update-pdp-context-req.go:461-565; SetLength gtpv1/message/update-pdp-context-req.go:568-570;
    MessageTypeName "Update PDP Context Request"; TEID(): return u.Header.TEID *)
Definition d_UpdatePDPContextRequest : mdesc := {|
  md_name := "UpdatePDPContextRequest";
  md_ctor := Ctor1 50 18 true true;
  md_fields := [("IMSI", FSingle); ("RAI", FSingle); ("Recovery", FSingle); ("TEIDDataI", FSingle); ("TEIDCPlane", FSingle); ("NSAPI", FSingle); ("TraceReference", FSingle); ("TraceType", FSingle); ("PCO", FSingle); ("SGSNAddressForCPlane", FSingle); ("SGSNAddressForUserTraffic", FSingle); ("AlternativeSGSNAddressForCPlane", FSingle); ("AlternativeSGSNAddressForUserTraffic", FSingle); ("QoSProfile", FSingle); ("TFT", FSingle); ("TriggerID", FSingle); ("OMCIdentity", FSingle); ("CommonFlags", FSingle); ("RATType", FSingle); ("ULI", FSingle); ("MSTimeZone", FSingle); ("AdditionalTraceInfo", FSingle); ("DirectTunnelFlags", FSingle); ("EvolvedARPI", FSingle); ("ExtendedCommonFlags", FSingle); ("UCI", FSingle); ("APNAMBR", FSingle); ("SignallingPriorityIndication", FSingle); ("CNOperatorSelectionEntity", FSingle); ("IMEI", FSingle); ("PrivateExtension", FSingle); ("AdditionalIEs", FList)];
  md_new := new_UpdatePDPContextRequest;
  md_unm := unm_UpdatePDPContextRequest;
  md_min := 2;
  md_soft := false;
  md_check := true;
  md_reset := false;
  md_steps := [MSingle "IMSI" true;
    MSingle "RAI" true;
    MSingle "Recovery" true;
    MSingle "TEIDDataI" true;
    MSingle "TEIDCPlane" true;
    MSingle "NSAPI" true;
    MSingle "TraceReference" true;
    MSingle "TraceType" true;
    MSingle "PCO" true;
    MSingle "SGSNAddressForCPlane" true;
    MSingle "SGSNAddressForUserTraffic" true;
    MSingle "AlternativeSGSNAddressForCPlane" true;
    MSingle "AlternativeSGSNAddressForUserTraffic" true;
    MSingle "QoSProfile" true;
    MSingle "TFT" true;
    MSingle "TriggerID" true;
    MSingle "OMCIdentity" true;
    MSingle "CommonFlags" true;
    MSingle "RATType" true;
    MSingle "ULI" true;
    MSingle "MSTimeZone" true;
    MSingle "AdditionalTraceInfo" true;
    MSingle "DirectTunnelFlags" true;
    MSingle "EvolvedARPI" true;
    MSingle "ExtendedCommonFlags" true;
    MSingle "UCI" true;
    MSingle "APNAMBR" true;
    MSingle "SignallingPriorityIndication" true;
    MSingle "CNOperatorSelectionEntity" true;
    MSingle "IMEI" true;
    MSingle "PrivateExtension" true;
    MList "AdditionalIEs" true true];
  md_lens := [LSingle "IMSI";
    LSingle "RAI";
    LSingle "Recovery";
    LSingle "TEIDDataI";
    LSingle "TEIDCPlane";
    LSingle "NSAPI";
    LSingle "TraceReference";
    LSingle "TraceType";
    LSingle "PCO";
    LSingle "SGSNAddressForCPlane";
    LSingle "SGSNAddressForUserTraffic";
    LSingle "AlternativeSGSNAddressForCPlane";
    LSingle "AlternativeSGSNAddressForUserTraffic";
    LSingle "QoSProfile";
    LSingle "TFT";
    LSingle "TriggerID";
    LSingle "OMCIdentity";
    LSingle "CommonFlags";
    LSingle "RATType";
    LSingle "ULI";
    LSingle "MSTimeZone";
    LSingle "AdditionalTraceInfo";
    LSingle "DirectTunnelFlags";
    LSingle "EvolvedARPI";
    LSingle "ExtendedCommonFlags";
    LSingle "UCI";
    LSingle "APNAMBR";
    LSingle "SignallingPriorityIndication";
    LSingle "CNOperatorSelectionEntity";
    LSingle "IMEI";
    LSingle "PrivateExtension";
    LList "AdditionalIEs" true];
  md_sub := 8 |}.


(** ** UpdatePDPContextResponse: struct gtpv1/message/update-pdp-context-res.go:12-36 *)
(** NewUpdatePDPContextResponse, gtpv1/message/update-pdp-context-res.go:39-106 (dispatch of the given IEs) *)
Definition new_UpdatePDPContextResponse : table := Tbl true [
  (1, ASet "Cause") (* ie.Cause *);
  (14, ASet "Recovery") (* ie.Recovery *);
  (16, ASet "TEIDDataI") (* ie.TEIDDataI *);
  (17, ASet "TEIDCPlane") (* ie.TEIDCPlane *);
  (127, ASet "ChargingID") (* ie.ChargingID *);
  (132, ASet "PCO") (* ie.ProtocolConfigurationOptions *);
  (133, AIfNil "GGSNAddressForCPlane" (ASet "GGSNAddressForCPlane") (AIfNil "GGSNAddressForUserTraffic" (ASet "GGSNAddressForUserTraffic") (AIfNil "AltGGSNAddressForCPlane" (ASet "AltGGSNAddressForCPlane") (ASet "AltGGSNAddressForUserTraffic")))) (* ie.GSNAddress *);
  (135, ASet "QoSProfile") (* ie.QoSProfile *);
  (251, AIfNil "ChargingGatewayAddress" (ASet "ChargingGatewayAddress") (AIfNil "AltChargingGatewayAddress" (ASet "AltChargingGatewayAddress") (ANop))) (* ie.ChargingGatewayAddress *);
  (148, ASet "CommonFlags") (* ie.CommonFlags *);
  (149, ASet "APNRestriction") (* ie.APNRestriction *);
  (184, ASet "BearerControlMode") (* ie.BearerControlMode *);
  (181, ASet "MSInfoChangeReportingAction") (* ie.MSInfoChangeReportingAction *);
  (191, ASet "EvolvedARPI") (* ie.EvolvedAllocationRetentionPriorityI *);
  (195, ASet "CSGInformationReportingAction") (* ie.CSGInformationReportingAction *);
  (198, ASet "APNAMBR") (* ie.AggregateMaximumBitRate *);
  (255, ASet "PrivateExtension") (* ie.PrivateExtension *)
  ] (AApp "AdditionalIEs").

(** UpdatePDPContextResponse.UnmarshalBinary, gtpv1/message/update-pdp-context-res.go:277-352 *)
Definition unm_UpdatePDPContextResponse : table := Tbl true [
  (1, ASet "Cause") (* ie.Cause *);
  (14, ASet "Recovery") (* ie.Recovery *);
  (16, ASet "TEIDDataI") (* ie.TEIDDataI *);
  (17, ASet "TEIDCPlane") (* ie.TEIDCPlane *);
  (127, ASet "ChargingID") (* ie.ChargingID *);
  (132, ASet "PCO") (* ie.ProtocolConfigurationOptions *);
  (133, AIfNil "GGSNAddressForCPlane" (ASet "GGSNAddressForCPlane") (AIfNil "GGSNAddressForUserTraffic" (ASet "GGSNAddressForUserTraffic") (AIfNil "AltGGSNAddressForCPlane" (ASet "AltGGSNAddressForCPlane") (ASet "AltGGSNAddressForUserTraffic")))) (* ie.GSNAddress *);
  (135, ASet "QoSProfile") (* ie.QoSProfile *);
  (251, AIfNil "ChargingGatewayAddress" (ASet "ChargingGatewayAddress") (AIfNil "AltChargingGatewayAddress" (ASet "AltChargingGatewayAddress") (ANop))) (* ie.ChargingGatewayAddress *);
  (148, ASet "CommonFlags") (* ie.CommonFlags *);
  (149, ASet "APNRestriction") (* ie.APNRestriction *);
  (184, ASet "BearerControlMode") (* ie.BearerControlMode *);
  (181, ASet "MSInfoChangeReportingAction") (* ie.MSInfoChangeReportingAction *);
  (191, ASet "EvolvedARPI") (* ie.EvolvedAllocationRetentionPriorityI *);
  (195, ASet "CSGInformationReportingAction") (* ie.CSGInformationReportingAction *);
  (198, ASet "APNAMBR") (* ie.AggregateMaximumBitRate *);
  (255, ASet "PrivateExtension") (* ie.PrivateExtension *)
  ] (AApp "AdditionalIEs").

(** fields gtpv1/message/update-pdp-context-res.go:12-36; MarshalTo gtpv1/message/update-pdp-context-res.go:119-265; MarshalLen gtpv1/message/update-pdp-context-res.go:355-429; SetLength gtpv1/message/update-pdp-context-res.go:432-434;
    MessageTypeName "Update PDP Context Response"; TEID(): return u.Header.TEID *)
Definition d_UpdatePDPContextResponse : mdesc := {|
  md_name := "UpdatePDPContextResponse";
  md_ctor := Ctor1 50 19 true true;
  md_fields := [("Cause", FSingle); ("Recovery", FSingle); ("TEIDDataI", FSingle); ("TEIDCPlane", FSingle); ("ChargingID", FSingle); ("PCO", FSingle); ("GGSNAddressForCPlane", FSingle); ("GGSNAddressForUserTraffic", FSingle); ("AltGGSNAddressForCPlane", FSingle); ("AltGGSNAddressForUserTraffic", FSingle); ("QoSProfile", FSingle); ("ChargingGatewayAddress", FSingle); ("AltChargingGatewayAddress", FSingle); ("CommonFlags", FSingle); ("APNRestriction", FSingle); ("BearerControlMode", FSingle); ("MSInfoChangeReportingAction", FSingle); ("EvolvedARPI", FSingle); ("CSGInformationReportingAction", FSingle); ("APNAMBR", FSingle); ("PrivateExtension", FSingle); ("AdditionalIEs", FList)];
  md_new := new_UpdatePDPContextResponse;
  md_unm := unm_UpdatePDPContextResponse;
  md_min := 2;
  md_soft := false;
  md_check := true;
  md_reset := false;
  md_steps := [MSingle "Cause" true;
    MSingle "Recovery" true;
    MSingle "TEIDDataI" true;
    MSingle "TEIDCPlane" true;
    MSingle "ChargingID" true;
    MSingle "PCO" true;
    MSingle "GGSNAddressForCPlane" true;
    MSingle "GGSNAddressForUserTraffic" true;
    MSingle "AltGGSNAddressForCPlane" true;
    MSingle "AltGGSNAddressForUserTraffic" true;
    MSingle "QoSProfile" true;
    MSingle "ChargingGatewayAddress" true;
    MSingle "AltChargingGatewayAddress" true;
    MSingle "CommonFlags" true;
    MSingle "APNRestriction" true;
    MSingle "BearerControlMode" true;
    MSingle "MSInfoChangeReportingAction" true;
    MSingle "EvolvedARPI" true;
    MSingle "CSGInformationReportingAction" true;
    MSingle "APNAMBR" true;
    MSingle "PrivateExtension" true;
    MList "AdditionalIEs" true true];
  md_lens := [LSingle "Cause";
    LSingle "Recovery";
    LSingle "TEIDDataI";
    LSingle "TEIDCPlane";
    LSingle "ChargingID";
    LSingle "PCO";
    LSingle "GGSNAddressForCPlane";
    LSingle "GGSNAddressForUserTraffic";
    LSingle "AltGGSNAddressForCPlane";
    LSingle "AltGGSNAddressForUserTraffic";
    LSingle "QoSProfile";
    LSingle "ChargingGatewayAddress";
    LSingle "AltChargingGatewayAddress";
    LSingle "CommonFlags";
    LSingle "APNRestriction";
    LSingle "BearerControlMode";
    LSingle "MSInfoChangeReportingAction";
    LSingle "EvolvedARPI";
    LSingle "CSGInformationReportingAction";
    LSingle "APNAMBR";
    LSingle "PrivateExtension";
    LList "AdditionalIEs" true];
  md_sub := 8 |}.


(** ** VersionNotSupported: struct gtpv1/message/version-not-supported.go:12-15 *)
(** NewVersionNotSupported, gtpv1/message/version-not-supported.go:18-32 (dispatch of the given IEs) *)
Definition new_VersionNotSupported : table := Tbl true [

  ] (AApp "AdditionalIEs").

(** VersionNotSupported.UnmarshalBinary, gtpv1/message/version-not-supported.go:76-98 *)
Definition unm_VersionNotSupported : table := Tbl true [

  ] (AApp "AdditionalIEs").

(** fields gtpv1/message/version-not-supported.go:12-15; MarshalTo gtpv1/message/version-not-supported.go:45-64; MarshalLen gtpv1/message/version-not-supported.go:101-111; SetLength gtpv1/message/version-not-supported.go:114-116;
    MessageTypeName "Version Not Supported"; TEID(): return v.Header.TEID *)
Definition d_VersionNotSupported : mdesc := {|
  md_name := "VersionNotSupported";
  md_ctor := Ctor1 50 3 true true;
  md_fields := [("AdditionalIEs", FList)];
  md_new := new_VersionNotSupported;
  md_unm := unm_VersionNotSupported;
  md_min := 2;
  md_soft := false;
  md_check := true;
  md_reset := false;
  md_steps := [MList "AdditionalIEs" true true];
  md_lens := [LList "AdditionalIEs" true];
  md_sub := 8 |}.

(** every message type with a regular structure *)
Definition all_msgs1 : list mdesc := [
  d_CreatePDPContextRequest;
  d_CreatePDPContextResponse;
  d_DeletePDPContextRequest;
  d_DeletePDPContextResponse;
  d_EchoRequest;
  d_EchoResponse;
  d_EndMarker;
  d_ErrorIndication;
  d_SupportedExtensionHeaderNotification;
  d_UpdatePDPContextRequest;
  d_UpdatePDPContextResponse;
  d_VersionNotSupported].

(** the switch of Parse, gtpv1/message/message.go:117-215: type octet to structure; default Generic *)
Definition parse_rows1 : list (N * string) := [
  (1, "EchoRequest") (* MsgTypeEchoRequest *);
  (2, "EchoResponse") (* MsgTypeEchoResponse *);
  (16, "CreatePDPContextRequest") (* MsgTypeCreatePDPContextRequest *);
  (17, "CreatePDPContextResponse") (* MsgTypeCreatePDPContextResponse *);
  (18, "UpdatePDPContextRequest") (* MsgTypeUpdatePDPContextRequest *);
  (19, "UpdatePDPContextResponse") (* MsgTypeUpdatePDPContextResponse *);
  (20, "DeletePDPContextRequest") (* MsgTypeDeletePDPContextRequest *);
  (3, "VersionNotSupported") (* MsgTypeVersionNotSupported *);
  (21, "DeletePDPContextResponse") (* MsgTypeDeletePDPContextResponse *);
  (26, "ErrorIndication") (* MsgTypeErrorIndication *);
  (31, "SupportedExtensionHeaderNotification") (* MsgTypeSupportedExtensionHeaderNotification *);
  (254, "EndMarker") (* MsgTypeEndMarker *);
  (255, "TPDU") (* MsgTypeTPDU *)].
