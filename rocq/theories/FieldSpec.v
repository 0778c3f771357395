(** Which IEs the named fields of the messages are for, written from the field names and
    the message tables of 3GPP TS 29.274 (GTPv2-C), TS 29.060 (GTPv1) and TS 09.60
    (GTPv0): a name means the same in every message.  Nothing here refers to the code that
    fills the fields, and some entries contradict it (see Properties54.v). *)
From Coq Require Import String.
From Verif Require Import Base MsgModel MsgSpec V2IE TvIE.
Open Scope string_scope.
Open Scope N_scope.
Open Scope list_scope.

(** GTPv2: IE types, and the fields (of any message) meant for them *)
Definition v2_field_types : list (list N * list string) := [
  ([1], ["IMSI"]) (* IMSI *);
  ([2], ["Cause"]) (* Cause *);
  ([3], ["Recovery"]) (* Recovery *);
  ([71], ["APN"]) (* AccessPointName *);
  ([72], ["AMBR"; "APNAMBR"]) (* AggregateMaximumBitRate *);
  ([73], ["EBI"; "EBIs"; "EPSBearerID"; "LinkedEBI"; "LinkedEPSBearerID"; "ListOfRABs"]) (* EPSBearerID *);
  ([74], ["AddressForControlPlane"; "ChargingGatewayAddress"; "EPDGIPAddress"; "HeNBLocalIPAddress"; "MMESGSNIdentifier"; "PGWS5S8IPAddressForControlPlane"; "PGWS5S8IPAddressForControlPlaneOrPMIP"; "S101IPAddress"; "S102IPAddress"; "SGWS11S4IPAddressForControlPlane"; "UELocalIPAddress"]) (* IPAddress *);
  ([75], ["MEI"]) (* MobileEquipmentIdentity *);
  ([76], ["MSISDN"]) (* MSISDN *);
  ([77], ["Indication"; "IndicationFlags"]) (* Indication *);
  ([78], ["PCO"]) (* ProtocolConfigurationOptions *);
  ([79], ["PAA"]) (* PDNAddressAllocation *);
  ([82], ["RATType"]) (* RATType *);
  ([83], ["ServingNetwork"; "TargetPLMNID"]) (* ServingNetwork *);
  ([86], ["RAI"; "ULI"; "ULIForSGW"]) (* UserLocationInformation *);
  ([87], ["AddressAndTEIDForCPlane"; "ForwardingFTEID"; "PGWS5S8FTEIDC"; "SGWS11S4FTEID"; "SenderFTEID"; "SenderFTEIDC"; "SenderFTEIDForControlPlane"]) (* FullyQualifiedTEID *);
  ([92], ["DataNotificationDelay"; "DelayDownlinkPacketNotificationRequest"]) (* DelayValue *);
  ([93], ["BearerContext"; "BearerContextMarkedForRemoval"; "BearerContexts"; "BearerContextsCreated"; "BearerContextsMarkedForRemoval"; "BearerContextsModified"; "BearerContextsToBeCreated"; "BearerContextsToBeModified"; "BearerContextsToBeRemoved"; "FailedBearerContext"]) (* BearerContext *);
  ([94], ["PDNConnectionChargingID"]) (* ChargingID *);
  ([95], ["ChargingCharacteristics"]) (* ChargingCharacteristics *);
  ([96], ["TraceInformation"]) (* TraceInformation *);
  ([99], ["PDNType"]) (* PDNType *);
  ([100], ["PTI"]) (* ProcedureTransactionID *);
  ([103; 104; 105; 106; 107; 108], ["UEMMContext"]) (* MM contexts *);
  ([109], ["UEPDNConnections"]) (* PDNConnection *);
  ([111], ["PTMSI"]) (* PacketTMSI *);
  ([112], ["PTMSISignature"]) (* PTMSISignature *);
  ([113], ["HopCounter"]) (* HopCounter *);
  ([114], ["UETimeZone"]) (* UETimeZone *);
  ([116], ["CompleteTAURequestMessage"]) (* CompleteRequestMessage *);
  ([117], ["GUTI"]) (* GUTI *);
  ([118], ["NBIFOMContainer"]) (* FContainer *);
  ([126], ["HeNBUDPPort"; "UDPSourcePortNumber"; "UETCPPort"; "UEUDPPort"]) (* PortNumber *);
  ([127], ["APNRestriction"]) (* APNRestriction *);
  ([128], ["SelectionMode"]) (* SelectionMode *);
  ([131], ["ChangeReportingAction"]) (* ChangeReportingAction *);
  ([132], ["EPDGFQCSID"; "MMEFQCSID"; "PGWFQCSID"; "SGWFQCSID"; "TWANFQCSID"]) (* FullyQualifiedCSID *);
  ([135], ["OriginatingNode"]) (* NodeType *);
  ([136], ["ChargingGatewayName"; "MMENodeName"; "SGSNNodeName"; "SGWNodeName"; "SGWUNodeName"]) (* FullyQualifiedDomainName *);
  ([144], ["RFSPIndexInUse"; "SubscribedRFSPIndex"]) (* RFSPIndex *);
  ([145], ["UCI"]) (* UserCSGInformation *);
  ([146], ["CSGInformationReportingAction"]) (* CSGInformationReportingAction *);
  ([150], ["DetachType"]) (* DetachType *);
  ([151], ["EPDGLDN"; "MMESGSNLDN"; "PGWLDN"; "SGWLDN"; "TWANLDN"]) (* LocalDistinguishedName *);
  ([152], ["SendingNodeFeatures"]) (* NodeFeatures *);
  ([154], ["DLLowPriorityTrafficThrottling"]) (* Throttling *);
  ([155], ["AllocationRetensionPriority"]) (* AllocationRetensionPriority *);
  ([156], ["DLBufferingDuration"; "PGWBackOffTime"]) (* EPCTimer *);
  ([157], ["SignallingPriorityIndication"]) (* SignallingPriorityIndication *);
  ([162], ["MDTConfiguration"]) (* MDTConfiguration *);
  ([163], ["APCO"]) (* AdditionalProtocolConfigurationOptions *);
  ([165], ["HeNBInformationReporting"]) (* HeNBInformationReporting *);
  ([166], ["TrustedTWANIPv4Parameters"]) (* IPv4ConfigurationParameters *);
  ([169], ["TWANIdentifier"; "WLANLocationInformation"]) (* TWANIdentifier *);
  ([170], ["ULITimestamp"]) (* ULITimestamp *);
  ([172], ["RANNASReleaseCause"]) (* RANNASCause *);
  ([173], ["CNOperatorSelectionEntity"]) (* CNOperatorSelectionEntity *);
  ([174], ["TWMI"]) (* TrustedWLANModeIndication *);
  ([175], ["MMENumberForMTSMS"; "SGSNNumber"]) (* NodeNumber *);
  ([176], ["MMEIdentifier"; "MMEIdentifierForMTSMS"; "SGSNIdentifier"; "SGSNIdentifierForMTSMS"; "TGPPAAAServerIdentifier"]) (* NodeIdentifier *);
  ([177], ["PresenceReportingAction"; "PresenceReportingAreaAction"]) (* PresenceReportingAreaAction *);
  ([178], ["PresenceReportingAreaInformation"]) (* PresenceReportingAreaInformation *);
  ([179], ["TWANIdentifierTimestamp"; "WLANLocationTimeStamp"; "WLANLocationTimestamp"]) (* TWANIdentifierTimestamp *);
  ([180], ["EPDGOverloadControlInformation"; "MMEOverloadControlInformation"; "MMESGSNOverloadControlInformation"; "PGWOverloadControlInformation"; "SGWOverloadControlInformaion"; "SGWOverloadControlInformation"; "TWANePDGOverloadControlInformaion"; "TWANePDGOverloadControlInformation"]) (* OverloadControlInformation *);
  ([181], ["PGWAPNLoadControlInformation"; "PGWNodeLoadControlInformation"; "SGWNodeLoadControlInformation"]) (* LoadControlInformation *);
  ([186], ["PagingAndServiceInformation"]) (* PagingAndServiceInformation *);
  ([187], ["DLBufferingSuggestedPacketCount"; "DLDataPacketsSize"; "MaximumWaitTime"; "RemainingRunningServiceGapTimer"; "UEUsageType"]) (* IntegerNumber *);
  ([188], ["OriginationTimeStamp"]) (* MillisecondTimeStamp *);
  ([189], ["MonitoringEventInformation"]) (* MonitoringEventInformation *);
  ([191], ["RemoteUEContextConnected"]) (* RemoteUEContext *);
  ([194], ["CIoTOptimizationsSupportIndication"]) (* CIoTOptimizationsSupportIndication *);
  ([195], ["SCEFPDNConnection"]) (* SCEFPDNConnection *);
  ([197], ["EPCO"]) (* ExtendedProtocolConfigurationOptions *);
  ([198], ["ServingPLMNRateControl"]) (* ServingPLMNRateControl *);
  ([199], ["MOExceptionDataCounter"]) (* Counter *);
  ([200], ["MappedUEUsageType"]) (* MappedUEUsageType *);
  ([201], ["SecondaryRATDataUsageReport"; "SecondaryRATUsageDataReport"]) (* SecondaryRATUsageDataReport *);
  ([202], ["UPFunctionSelectionIndicationFlags"]) (* UPFunctionSelectionIndicationFlags *);
  ([204], ["APNRateControlStatus"]) (* APNRateControlStatus *);
  ([205], ["ExtendedTraceInformation"]) (* ExtendedTraceInformation *);
  ([206], ["MonitoringEventExtensionInformation"]) (* MonitoringEventExtensionInformation *);
  ([207], ["AdditionalRRMPolicyIndexInUse"; "SubscribedAdditionalRRMPolicyIndex"]) (* AdditionalRRMPolicyIndex *);
  ([255], ["PrivateExtension"]) (* PrivateExtension *)].

(** Fields of one message that share an IE type are told apart by the instance: message,
    field, instance.  Fields not listed take any instance. *)
Definition v2_field_instances : list (string * list (string * N)) := [
  ("ContextAcknowledge", [("SGSNNumber", 0); ("MMENumberForMTSMS", 1); ("SGSNIdentifierForMTSMS", 0); ("MMEIdentifierForMTSMS", 1)]);
  ("ContextRequest", [("SGSNNodeName", 0); ("MMENodeName", 1); ("SGSNIdentifier", 0); ("MMEIdentifier", 1)]);
  ("ContextResponse", [("SenderFTEID", 0); ("SGWS11S4FTEID", 1); ("SGWNodeName", 0); ("SGSNNodeName", 1); ("MMENodeName", 2); ("S101IPAddress", 0); ("S102IPAddress", 1); ("SubscribedRFSPIndex", 0); ("RFSPIndexInUse", 1); ("UEUsageType", 0); ("RemainingRunningServiceGapTimer", 1); ("SubscribedAdditionalRRMPolicyIndex", 0); ("AdditionalRRMPolicyIndexInUse", 1)]);
  ("CreateBearerRequest", [("PGWFQCSID", 0); ("SGWFQCSID", 1); ("PGWNodeLoadControlInformation", 0); ("PGWAPNLoadControlInformation", 1); ("SGWNodeLoadControlInformation", 2); ("PGWOverloadControlInformation", 0); ("SGWOverloadControlInformation", 1)]);
  ("CreateBearerResponse", [("MMEFQCSID", 0); ("SGWFQCSID", 1); ("EPDGFQCSID", 2); ("TWANFQCSID", 3); ("TWANIdentifier", 0); ("WLANLocationInformation", 1); ("WLANLocationTimestamp", 1); ("MMEOverloadControlInformation", 0); ("SGWOverloadControlInformation", 1); ("TWANePDGOverloadControlInformation", 2); ("MMESGSNIdentifier", 0); ("UELocalIPAddress", 1); ("UEUDPPort", 0); ("UETCPPort", 1)]);
  ("CreateSessionRequest", [("ULI", 0); ("ULIForSGW", 1); ("SenderFTEIDC", 0); ("PGWS5S8FTEIDC", 1); ("BearerContextsToBeCreated", 0); ("BearerContextsToBeRemoved", 1); ("MMEFQCSID", 0); ("SGWFQCSID", 1); ("EPDGFQCSID", 2); ("TWANFQCSID", 3); ("MMESGSNLDN", 0); ("SGWLDN", 1); ("EPDGLDN", 2); ("TWANLDN", 3); ("UELocalIPAddress", 0); ("HeNBLocalIPAddress", 1); ("MMESGSNIdentifier", 2); ("EPDGIPAddress", 3); ("UEUDPPort", 0); ("HeNBUDPPort", 1); ("UETCPPort", 2); ("TWANIdentifier", 0); ("WLANLocationInformation", 1); ("MMESGSNOverloadControlInformation", 0); ("SGWOverloadControlInformation", 1); ("TWANePDGOverloadControlInformation", 2)]);
  ("CreateSessionResponse", [("SenderFTEIDC", 0); ("PGWS5S8FTEIDC", 1); ("BearerContextsCreated", 0); ("BearerContextMarkedForRemoval", 1); ("PGWFQCSID", 0); ("SGWFQCSID", 1); ("PGWLDN", 0); ("SGWLDN", 1); ("PGWNodeLoadControlInformation", 0); ("PGWAPNLoadControlInformation", 1); ("SGWNodeLoadControlInformation", 2); ("PGWOverloadControlInformation", 0); ("SGWOverloadControlInformation", 1)]);
  ("DeleteBearerCommand", [("MMESGSNOverloadControlInformation", 0); ("SGWOverloadControlInformation", 1)]);
  ("DeleteBearerFailureIndication", [("PGWOverloadControlInformation", 0); ("SGWOverloadControlInformation", 1)]);
  ("DeleteBearerRequest", [("LinkedEBI", 0); ("EBIs", 1); ("PGWFQCSID", 0); ("SGWFQCSID", 1); ("PGWNodeLoadControlInformation", 0); ("PGWAPNLoadControlInformation", 1); ("SGWNodeLoadControlInformation", 2); ("PGWOverloadControlInformation", 0); ("SGWOverloadControlInformation", 1)]);
  ("DeleteBearerResponse", [("MMEFQCSID", 0); ("SGWFQCSID", 1); ("EPDGFQCSID", 2); ("TWANFQCSID", 3); ("TWANIdentifier", 0); ("WLANLocationInformation", 1); ("TWANIdentifierTimestamp", 0); ("WLANLocationTimestamp", 1); ("MMEOverloadControlInformation", 0); ("SGWOverloadControlInformation", 1); ("TWANePDGOverloadControlInformation", 2); ("MMESGSNIdentifier", 0); ("UELocalIPAddress", 1); ("UEUDPPort", 0); ("UETCPPort", 1)]);
  ("DeletePDNConnectionSetRequest", [("MMEFQCSID", 0); ("SGWFQCSID", 1); ("PGWFQCSID", 2); ("EPDGFQCSID", 3); ("TWANFQCSID", 4)]);
  ("DeleteSessionRequest", [("TWANIdentifier", 0); ("WLANLocationInformation", 1); ("TWANIdentifierTimestamp", 0); ("WLANLocationTimeStamp", 1); ("MMESGSNOverloadControlInformation", 0); ("SGWOverloadControlInformaion", 1); ("TWANePDGOverloadControlInformaion", 2); ("UEUDPPort", 0); ("UETCPPort", 1)]);
  ("DeleteSessionResponse", [("PGWNodeLoadControlInformation", 0); ("PGWAPNLoadControlInformation", 1); ("SGWNodeLoadControlInformation", 2); ("PGWOverloadControlInformation", 0); ("SGWOverloadControlInformation", 1)]);
  ("ModifyAccessBearersRequest", [("BearerContextsToBeModified", 0); ("BearerContextsToBeRemoved", 1)]);
  ("ModifyAccessBearersResponse", [("BearerContextsModified", 0); ("BearerContextsMarkedForRemoval", 1)]);
  ("ModifyBearerCommand", [("MMESGSNOverloadControlInformation", 0); ("SGWOverloadControlInformation", 1); ("TWANePDGOverloadControlInformation", 2)]);
  ("ModifyBearerFailureIndication", [("PGWOverloadControlInformation", 0); ("SGWOverloadControlInformation", 1)]);
  ("ModifyBearerRequest", [("ULI", 0); ("ULIForSGW", 1); ("BearerContextsToBeModified", 0); ("BearerContextsToBeRemoved", 1); ("MMEFQCSID", 0); ("SGWFQCSID", 1); ("UELocalIPAddress", 0); ("HeNBLocalIPAddress", 1); ("UEUDPPort", 0); ("HeNBUDPPort", 1); ("MMESGSNIdentifier", 2); ("MMESGSNLDN", 0); ("SGWLDN", 1); ("MMESGSNOverloadControlInformation", 0); ("SGWOverloadControlInformation", 1); ("EPDGOverloadControlInformation", 2)]);
  ("ModifyBearerResponse", [("BearerContextsModified", 0); ("BearerContextsMarkedForRemoval", 1); ("PGWFQCSID", 0); ("SGWFQCSID", 1); ("SGWLDN", 0); ("PGWLDN", 1); ("PGWNodeLoadControlInformation", 0); ("PGWAPNLoadControlInformation", 1); ("SGWNodeLoadControlInformation", 2); ("PGWOverloadControlInformation", 0); ("SGWOverloadControlInformation", 1)]);
  ("PGWRestartNotification", [("PGWS5S8IPAddressForControlPlaneOrPMIP", 0); ("SGWS11S4IPAddressForControlPlane", 1)]);
  ("UpdateBearerRequest", [("PGWFQCSID", 0); ("SGWFQCSID", 1); ("PGWNodeLoadControlInformation", 0); ("PGWAPNLoadControlInformation", 1); ("SGWNodeLoadControlInformation", 2); ("PGWOverloadControlInformation", 0); ("SGWOverloadControlInformation", 1)]);
  ("UpdateBearerResponse", [("MMEFQCSID", 0); ("SGWFQCSID", 1); ("EPDGFQCSID", 2); ("TWANFQCSID", 3); ("TWANIdentifier", 0); ("WLANLocationInformation", 1); ("MMESGSNOverloadControlInformation", 0); ("SGWOverloadControlInformation", 1); ("TWANePDGOverloadControlInformation", 2); ("MMESGSNIdentifier", 0); ("UELocalIPAddress", 1); ("WLANLocationTimeStamp", 1); ("UEUDPPort", 0); ("UETCPPort", 1)]);
  ("UpdatePDNConnectionSetRequest", [("MMEFQCSID", 0); ("SGWFQCSID", 1)])].

(** GTPv1: IE types, and the fields (of any message) meant for them *)
Definition v1_field_types : list (list N * list string) := [
  ([1], ["Cause"]) (* Cause *);
  ([2], ["IMSI"]) (* IMSI *);
  ([3], ["RAI"]) (* RouteingAreaIdentity *);
  ([8], ["ReorderingRequired"]) (* ReorderingRequired *);
  ([14], ["Recovery"]) (* Recovery *);
  ([15], ["SelectionMode"]) (* SelectionMode *);
  ([16], ["TEIDDataI"]) (* TEIDDataI *);
  ([17], ["TEIDCPlane"]) (* TEIDCPlane *);
  ([19], ["TeardownInd"]) (* TeardownInd *);
  ([20], ["LinkedNSAPI"; "NSAPI"]) (* NSAPI *);
  ([26], ["ChargingCharacteristics"]) (* ChargingCharacteristics *);
  ([27], ["TraceReference"]) (* TraceReference *);
  ([28], ["TraceType"]) (* TraceType *);
  ([127], ["ChargingID"]) (* ChargingID *);
  ([128], ["EndUserAddress"]) (* EndUserAddress *);
  ([131], ["APN"]) (* AccessPointName *);
  ([132], ["PCO"]) (* ProtocolConfigurationOptions *);
  ([133], ["AltGGSNAddressForCPlane"; "AltGGSNAddressForUserTraffic"; "AlternativeSGSNAddressForCPlane"; "AlternativeSGSNAddressForUserTraffic"; "GGSNAddressForCPlane"; "GGSNAddressForUserTraffic"; "GTPUPeerAddress"; "SGSNAddressForCPlane"; "SGSNAddressForSignalling"; "SGSNAddressForUserTraffic"]) (* GSNAddress *);
  ([134], ["MSISDN"]) (* MSISDN *);
  ([135], ["QoSProfile"]) (* QoSProfile *);
  ([137], ["TFT"]) (* TrafficFlowTemplate *);
  ([141], ["ExtensionHeaderTypeList"]) (* ExtensionHeaderTypeList *);
  ([142], ["TriggerID"]) (* TriggerID *);
  ([143], ["OMCIdentity"]) (* OMCIdentity *);
  ([148], ["CommonFlags"]) (* CommonFlags *);
  ([149], ["APNRestriction"]) (* APNRestriction *);
  ([151], ["RATType"]) (* RATType *);
  ([152], ["ULI"; "UserLocationInformation"]) (* UserLocationInformation *);
  ([153], ["MSTimeZone"]) (* MSTimeZone *);
  ([154], ["IMEI"]) (* IMEISV *);
  ([155], ["CAMELChargingInformationContainer"]) (* CAMELChargingInformationContainer *);
  ([162], ["AdditionalTraceInfo"]) (* AdditionalTraceInfo *);
  ([181], ["MSInfoChangeReportingAction"]) (* MSInfoChangeReportingAction *);
  ([182], ["DirectTunnelFlags"]) (* DirectTunnelFlags *);
  ([183], ["CorrelationID"]) (* CorrelationID *);
  ([184], ["BearerControlMode"]) (* BearerControlMode *);
  ([191], ["EvolvedARPI"]) (* EvolvedAllocationRetentionPriorityI *);
  ([193], ["ExtendedCommonFlags"]) (* ExtendedCommonFlags *);
  ([194], ["UCI"]) (* UserCSGInformation *);
  ([195], ["CSGInformationReportingAction"]) (* CSGInformationReportingAction *);
  ([198], ["APNAMBR"]) (* AggregateMaximumBitRate *);
  ([202], ["GGSNBackOffTime"]) (* GGSNBackOffTime *);
  ([203], ["SignallingPriorityIndication"]) (* SignallingPriorityIndication *);
  ([214], ["ULITimestamp"]) (* ULITimestamp *);
  ([216], ["CNOperatorSelectionEntity"]) (* CNOperatorSelectionEntity *);
  ([218], ["ExtendedCommonFlagsII"]) (* ExtendedCommonFlagsII *);
  ([223], ["MappedUEUsageType"]) (* MappedUEUsageType *);
  ([224], ["UPFunctionSelectionIndicationFlags"]) (* UPFunctionSelectionIndicationFlags *);
  ([251], ["AltChargingGatewayAddress"; "ChargingGatewayAddress"]) (* ChargingGatewayAddress *);
  ([255], ["PrivateExtension"]) (* PrivateExtension *)].

(** GTPv0: IE types, and the fields (of any message) meant for them *)
Definition v0_field_types : list (list N * list string) := [
  ([1], ["Cause"]) (* Cause *);
  ([3], ["RAI"]) (* RouteingAreaIdentity *);
  ([6], ["QoSProfile"]) (* QualityOfServiceProfile *);
  ([8], ["ReorderingRequired"]) (* ReorderingRequired *);
  ([14], ["Recovery"]) (* Recovery *);
  ([15], ["SelectionMode"]) (* SelectionMode *);
  ([16], ["FlowLabelDataI"]) (* FlowLabelDataI *);
  ([17], ["FlowLabelSignalling"]) (* FlowLabelSignalling *);
  ([127], ["ChargingID"]) (* ChargingID *);
  ([128], ["EndUserAddress"]) (* EndUserAddress *);
  ([131], ["APN"]) (* AccessPointName *);
  ([132], ["PCO"]) (* ProtocolConfigurationOptions *);
  ([133], ["GGSNAddressForSignalling"; "GGSNAddressForUserTraffic"; "SGSNAddressForSignalling"; "SGSNAddressForUserTraffic"]) (* GSNAddress *);
  ([134], ["MSISDN"]) (* MSISDN *);
  ([251], ["ChargingGatewayAddress"]) (* ChargingGatewayAddress *);
  ([255], ["PrivateExtension"]) (* PrivateExtension *)].

Definition types_for (tab : list (list N * list string)) (f : string) : list N :=
  flat_map (fun r => if existsb (String.eqb f) (snd r) then fst r else []) tab.
Definition has_type (tab : list (list N * list string)) (f : string) (t : N) : bool := existsb (N.eqb t) (types_for tab f).
Definition instance_for (msg f : string) : option N :=
  match find (fun r => String.eqb msg (fst r)) v2_field_instances with
  | Some r => match find (fun x => String.eqb f (fst x)) (snd r) with Some x => Some (snd x) | None => None end
  | None => None
  end.
(** an IE of type [t] and instance [n] belongs to the named field [f] of a GTPv2 message
    (written so that a partial application is computed once) *)
Definition named2 (msg f : string) : N -> N -> bool :=
  let ts := types_for v2_field_types f in
  match instance_for msg f with
  | Some k => fun t n => existsb (N.eqb t) ts && (n =? k)
  | None => fun t n => existsb (N.eqb t) ts
  end.
(** ... and to AdditionalIEs when it belongs to no other field of the message *)
Definition belongs2 (msg : string) (fields : list string) (f : string) : N -> N -> bool :=
  if String.eqb f "AdditionalIEs"
  then let named := map (named2 msg) fields in fun t n => negb (existsb (fun g => g t n) named)
  else named2 msg f.

(** the latest of a list, for a field that holds one IE *)
Definition latest {A} (l : list A) : list A := match rev l with [] => [] | x :: _ => [x] end.
(** the IE number [j] of a list, if there are that many *)
Definition pick {A} (l : list A) (j : nat) : list A := match nth_error l j with Some x => [x] | None => [] end.
(** position of a name in a list *)
Fixpoint pos (f : string) (l : list string) : nat :=
  match l with [] => O | x :: r => if String.eqb x f then O else S (pos f r) end.

(** ** GTPv2: what a field holds when the message is made of [ies] *)
Definition holds2 (d : mdesc) (k : fkind) (f : string) (ies : list ie2) : list ie2 :=
  let l := filter (fun i => belongs2 (md_name d) (map fst (md_fields d)) f (i2_type i) (i2_instance i)) ies in
  match k with FList => l | FSingle => latest l end.


(** (message, field) pairs whose content is not what the field is for, in every message *)
Definition misplaced2 : list (string * string) :=
  [("ContextResponse", "UEMMContext");
   ("DeleteSessionResponse", "PGWNodeLoadControlInformation");
   ("DeleteSessionResponse", "PGWAPNLoadControlInformation");
   ("DeleteSessionResponse", "SGWNodeLoadControlInformation");
   ("DeleteSessionResponse", "PGWOverloadControlInformation");
   ("DeleteSessionResponse", "SGWOverloadControlInformation");
   ("ModifyAccessBearersRequest", "SenderFTEIDC");
   ("ModifyBearerRequest", "MMESGSNIdentifier");
   ("ModifyBearerResponse", "SGWNodeLoadControlInformation");
   ("ModifyBearerResponse", "PGWOverloadControlInformation");
   ("ModifyBearerResponse", "SGWOverloadControlInformation")].
(** messages whose AdditionalIEs does not hold exactly the IEs of no other field *)
Definition unexact_additional2 : list string :=
  ["ContextResponse"; "CreateBearerResponse"; "DeleteBearerCommand"; "DeleteBearerFailureIndication"; "DeleteSessionResponse";
   "ModifyAccessBearersRequest"; "ModifyAccessBearersResponse"; "ModifyBearerCommand"; "ModifyBearerFailureIndication";
   "ModifyBearerRequest"; "ModifyBearerResponse"; "UpdateBearerResponse"].
Definition misplaced_new2 : list (string * string) :=
  ("CreateSessionRequest", "AdditionalIEs") :: misplaced2 ++ map (fun s => (s, "AdditionalIEs")) unexact_additional2.
(** ... and fields the parser of ContextResponse never fills *)
Definition misplaced_parse2 : list (string * string) :=
  [("ContextResponse", "MonitoringEventExtensionInformation"); ("ContextResponse", "SubscribedAdditionalRRMPolicyIndex");
   ("ContextResponse", "AdditionalRRMPolicyIndexInUse")] ++ misplaced2 ++ map (fun s => (s, "AdditionalIEs")) unexact_additional2.

(** ** GTPv1, GTPv0: fields sharing an IE type are filled in the order of the structure *)
Definition siblings (tab : list (list N * list string)) (d : mdesc) (t : N) : list string :=
  filter (fun g => has_type tab g t) (map fst (md_fields d)).
(** the IE has a type no field is for *)
Definition unplaced (tab : list (list N * list string)) (d : mdesc) (i : ie1) : bool :=
  match siblings tab d (i1_type i) with [] => true | _ => false end.
Definition ofty (t : N) (l : list ie1) : list ie1 := filter (fun i => i1_type i =? t) l.
(** as long as there are no more IEs of a type than fields for it, the first field holds
    the first one, the second field the second one and so on; a list field holds all the
    IEs of its type; the IEs of other types are in AdditionalIEs; in the order given *)
Definition contents1 (tab : list (list N * list string)) (d : mdesc) (fs : @fmap ie1) (ies : list ie1) : Prop :=
  (forall f t, In (f, FSingle) (md_fields d) -> In t (types_for tab f) ->
     (List.length (ofty t ies) <= List.length (siblings tab d t))%nat ->
     fget fs f = map Some (pick (ofty t ies) (pos f (siblings tab d t)))) /\
  (forall f, In (f, FList) (md_fields d) -> f <> "AdditionalIEs" ->
     fget fs f = map Some (filter (fun i => has_type tab f (i1_type i)) ies)) /\
  (forall k, In ("AdditionalIEs", k) (md_fields d) ->
     filter (unplaced tab d) (nonnil (fget fs "AdditionalIEs")) = filter (unplaced tab d) ies).
