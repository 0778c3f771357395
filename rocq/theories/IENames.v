(** The names and the constants of the IE types.  Printed by tools/gen_ienames.py from
    gtpv{0,1,2}/ie/ie.go, in the order of the source.  No proofs here. *)
From Coq Require Import String.
From Verif Require Import Base.
Open Scope string_scope.
Open Scope N_scope.
Open Scope list_scope.

(** gtpv2/ie/ie.go:445-590 ieTypeNameMap *)
Definition ie_names2 : list (N * string) := [
  (1, "IMSI");
  (2, "Cause");
  (3, "Recovery");
  (51, "STNSR");
  (71, "AccessPointName");
  (72, "AggregateMaximumBitRate");
  (73, "EPSBearerID");
  (74, "IPAddress");
  (75, "MobileEquipmentIdentity");
  (76, "MSISDN");
  (77, "Indication");
  (78, "ProtocolConfigurationOptions");
  (79, "PDNAddressAllocation");
  (80, "BearerQoS");
  (81, "FlowQoS");
  (82, "RATType");
  (83, "ServingNetwork");
  (84, "BearerTFT");
  (85, "TrafficAggregateDescription");
  (86, "UserLocationInformation");
  (87, "FullyQualifiedTEID");
  (88, "TMSI");
  (89, "GlobalCNID");
  (90, "S103PDNDataForwardingInfo");
  (91, "S1UDataForwarding");
  (92, "DelayValue");
  (93, "BearerContext");
  (94, "ChargingID");
  (95, "ChargingCharacteristics");
  (96, "TraceInformation");
  (97, "BearerFlags");
  (99, "PDNType");
  (100, "ProcedureTransactionID");
  (103, "MMContextGSMKeyAndTriplets");
  (104, "MMContextUMTSKeyUsedCipherAndQuintuplets");
  (105, "MMContextGSMKeyUsedCipherAndQuintuplets");
  (106, "MMContextUMTSKeyAndQuintuplets");
  (107, "MMContextEPSSecurityContextQuadrupletsAndQuintuplets");
  (108, "MMContextUMTSKeyQuadrupletsAndQuintuplets");
  (109, "PDNConnection");
  (110, "PDUNumbers");
  (111, "PacketTMSI");
  (112, "PTMSISignature");
  (113, "HopCounter");
  (114, "UETimeZone");
  (115, "TraceReference");
  (116, "CompleteRequestMessage");
  (117, "GUTI");
  (118, "FContainer");
  (119, "FCause");
  (121, "PLMNID");
  (122, "TargetIdentification");
  (123, "PacketFlowID");
  (124, "RABContext");
  (125, "SourceRNCPDCPContextInfo");
  (126, "PortNumber");
  (127, "APNRestriction");
  (128, "SelectionMode");
  (129, "SourceIdentification");
  (130, "Reserved");
  (131, "ChangeReportingAction");
  (132, "FullyQualifiedCSID");
  (133, "ChannelNeeded");
  (134, "EMLPPPriority");
  (135, "NodeType");
  (136, "FullyQualifiedDomainName");
  (137, "TI");
  (138, "MBMSSessionDuration");
  (139, "MBMSServiceArea");
  (140, "MBMSSessionIdentifier");
  (141, "MBMSFlowIdentifier");
  (142, "MBMSIPMulticastDistribution");
  (143, "MBMSDistributionAcknowledge");
  (144, "RFSPIndex");
  (145, "UserCSGInformation");
  (146, "CSGInformationReportingAction");
  (147, "CSGID");
  (148, "CSGMembershipIndication");
  (149, "ServiceIndicator");
  (150, "DetachType");
  (151, "LocalDistinguishedName");
  (152, "NodeFeatures");
  (153, "MBMSTimeToDataTransfer");
  (154, "Throttling");
  (155, "AllocationRetensionPriority");
  (156, "EPCTimer");
  (157, "SignallingPriorityIndication");
  (158, "TMGI");
  (159, "AdditionalMMContextForSRVCC");
  (160, "AdditionalFlagsForSRVCC");
  (162, "MDTConfiguration");
  (163, "AdditionalProtocolConfigurationOptions");
  (164, "AbsoluteTimeofMBMSDataTransfer");
  (165, "HeNBInformationReporting");
  (166, "IPv4ConfigurationParameters");
  (167, "ChangeToReportFlags");
  (168, "ActionIndication");
  (169, "TWANIdentifier");
  (170, "ULITimestamp");
  (171, "MBMSFlags");
  (172, "RANNASCause");
  (173, "CNOperatorSelectionEntity");
  (174, "TrustedWLANModeIndication");
  (175, "NodeNumber");
  (176, "NodeIdentifier");
  (177, "PresenceReportingAreaAction");
  (178, "PresenceReportingAreaInformation");
  (179, "TWANIdentifierTimestamp");
  (180, "OverloadControlInformation");
  (181, "LoadControlInformation");
  (182, "Metric");
  (183, "SequenceNumber");
  (184, "APNAndRelativeCapacity");
  (185, "WLANOffloadabilityIndication");
  (186, "PagingAndServiceInformation");
  (187, "IntegerNumber");
  (188, "MillisecondTimeStamp");
  (189, "MonitoringEventInformation");
  (190, "ECGIList");
  (191, "RemoteUEContext");
  (192, "RemoteUserID");
  (193, "RemoteUEIPinformation");
  (194, "CIoTOptimizationsSupportIndication");
  (195, "SCEFPDNConnection");
  (196, "HeaderCompressionConfiguration");
  (197, "ExtendedProtocolConfigurationOptions");
  (198, "ServingPLMNRateControl");
  (199, "Counter");
  (200, "MappedUEUsageType");
  (201, "SecondaryRATUsageDataReport");
  (202, "UPFunctionSelectionIndicationFlags");
  (203, "MaximumPacketLossRate");
  (204, "APNRateControlStatus");
  (205, "ExtendedTraceInformation");
  (206, "MonitoringEventExtensionInformation");
  (207, "AdditionalRRMPolicyIndex");
  (208, "V2XContext");
  (209, "PC5QoSParameters");
  (210, "ServicesAuthorized");
  (211, "BitRate");
  (212, "PC5QoSFlow");
  (213, "SGiPtPTunnelAddress");
  (254, "SpecialIETypeForIETypeExtension");
  (255, "PrivateExtension")].
(** gtpv2/ie/ie.go:19-163 the constants *)
Definition ie_consts2 : list (string * N) := [
  ("IMSI", 1);
  ("Cause", 2);
  ("Recovery", 3);
  ("STNSR", 51);
  ("AccessPointName", 71);
  ("AggregateMaximumBitRate", 72);
  ("EPSBearerID", 73);
  ("IPAddress", 74);
  ("MobileEquipmentIdentity", 75);
  ("MSISDN", 76);
  ("Indication", 77);
  ("ProtocolConfigurationOptions", 78);
  ("PDNAddressAllocation", 79);
  ("BearerQoS", 80);
  ("FlowQoS", 81);
  ("RATType", 82);
  ("ServingNetwork", 83);
  ("BearerTFT", 84);
  ("TrafficAggregateDescription", 85);
  ("UserLocationInformation", 86);
  ("FullyQualifiedTEID", 87);
  ("TMSI", 88);
  ("GlobalCNID", 89);
  ("S103PDNDataForwardingInfo", 90);
  ("S1UDataForwarding", 91);
  ("DelayValue", 92);
  ("BearerContext", 93);
  ("ChargingID", 94);
  ("ChargingCharacteristics", 95);
  ("TraceInformation", 96);
  ("BearerFlags", 97);
  ("PDNType", 99);
  ("ProcedureTransactionID", 100);
  ("MMContextGSMKeyAndTriplets", 103);
  ("MMContextUMTSKeyUsedCipherAndQuintuplets", 104);
  ("MMContextGSMKeyUsedCipherAndQuintuplets", 105);
  ("MMContextUMTSKeyAndQuintuplets", 106);
  ("MMContextEPSSecurityContextQuadrupletsAndQuintuplets", 107);
  ("MMContextUMTSKeyQuadrupletsAndQuintuplets", 108);
  ("PDNConnection", 109);
  ("PDUNumbers", 110);
  ("PacketTMSI", 111);
  ("PTMSISignature", 112);
  ("HopCounter", 113);
  ("UETimeZone", 114);
  ("TraceReference", 115);
  ("CompleteRequestMessage", 116);
  ("GUTI", 117);
  ("FContainer", 118);
  ("FCause", 119);
  ("PLMNID", 120);
  ("TargetIdentification", 121);
  ("PacketFlowID", 123);
  ("RABContext", 124);
  ("SourceRNCPDCPContextInfo", 125);
  ("PortNumber", 126);
  ("APNRestriction", 127);
  ("SelectionMode", 128);
  ("SourceIdentification", 129);
  ("ChangeReportingAction", 131);
  ("FullyQualifiedCSID", 132);
  ("ChannelNeeded", 133);
  ("EMLPPPriority", 134);
  ("NodeType", 135);
  ("FullyQualifiedDomainName", 136);
  ("TI", 137);
  ("MBMSSessionDuration", 138);
  ("MBMSServiceArea", 139);
  ("MBMSSessionIdentifier", 140);
  ("MBMSFlowIdentifier", 141);
  ("MBMSIPMulticastDistribution", 142);
  ("MBMSDistributionAcknowledge", 143);
  ("RFSPIndex", 144);
  ("UserCSGInformation", 145);
  ("CSGInformationReportingAction", 146);
  ("CSGID", 147);
  ("CSGMembershipIndication", 148);
  ("ServiceIndicator", 149);
  ("DetachType", 150);
  ("LocalDistinguishedName", 151);
  ("NodeFeatures", 152);
  ("MBMSTimeToDataTransfer", 153);
  ("Throttling", 154);
  ("AllocationRetensionPriority", 155);
  ("EPCTimer", 156);
  ("SignallingPriorityIndication", 157);
  ("TMGI", 158);
  ("AdditionalMMContextForSRVCC", 159);
  ("AdditionalFlagsForSRVCC", 160);
  ("MDTConfiguration", 162);
  ("AdditionalProtocolConfigurationOptions", 163);
  ("AbsoluteTimeofMBMSDataTransfer", 164);
  ("HeNBInformationReporting", 165);
  ("IPv4ConfigurationParameters", 166);
  ("ChangeToReportFlags", 167);
  ("ActionIndication", 168);
  ("TWANIdentifier", 169);
  ("ULITimestamp", 170);
  ("MBMSFlags", 171);
  ("RANNASCause", 172);
  ("CNOperatorSelectionEntity", 173);
  ("TrustedWLANModeIndication", 174);
  ("NodeNumber", 175);
  ("NodeIdentifier", 176);
  ("PresenceReportingAreaAction", 177);
  ("PresenceReportingAreaInformation", 178);
  ("TWANIdentifierTimestamp", 179);
  ("OverloadControlInformation", 180);
  ("LoadControlInformation", 181);
  ("Metric", 182);
  ("SequenceNumber", 183);
  ("APNAndRelativeCapacity", 184);
  ("WLANOffloadabilityIndication", 185);
  ("PagingAndServiceInformation", 186);
  ("IntegerNumber", 187);
  ("MillisecondTimeStamp", 188);
  ("MonitoringEventInformation", 189);
  ("ECGIList", 190);
  ("RemoteUEContext", 191);
  ("RemoteUserID", 192);
  ("RemoteUEIPinformation", 193);
  ("CIoTOptimizationsSupportIndication", 194);
  ("SCEFPDNConnection", 195);
  ("HeaderCompressionConfiguration", 196);
  ("ExtendedProtocolConfigurationOptions", 197);
  ("ServingPLMNRateControl", 198);
  ("Counter", 199);
  ("MappedUEUsageType", 200);
  ("SecondaryRATUsageDataReport", 201);
  ("UPFunctionSelectionIndicationFlags", 202);
  ("MaximumPacketLossRate", 203);
  ("APNRateControlStatus", 204);
  ("ExtendedTraceInformation", 205);
  ("MonitoringEventExtensionInformation", 206);
  ("AdditionalRRMPolicyIndex", 207);
  ("V2XContext", 208);
  ("PC5QoSParameters", 209);
  ("ServicesAuthorized", 210);
  ("BitRate", 211);
  ("PC5QoSFlow", 212);
  ("SGiPtPTunnelAddress", 213);
  ("SpecialIETypeForIETypeExtension", 254);
  ("PrivateExtension", 255)].

(** gtpv1/ie/ie.go:386-485 ieTypeNameMap *)
Definition ie_names1 : list (N * string) := [
  (128, "EndUserAddress");
  (129, "MMContext");
  (130, "PDPContext");
  (131, "AccessPointName");
  (132, "ProtocolConfigurationOptions");
  (133, "GSNAddress");
  (134, "MSISDN");
  (135, "QoSProfile");
  (136, "AuthenticationQuintuplet");
  (137, "TrafficFlowTemplate");
  (138, "TargetIdentification");
  (139, "UTRANTransparentContainer");
  (140, "RABSetupInformation");
  (141, "ExtensionHeaderTypeList");
  (142, "TriggerID");
  (143, "OMCIdentity");
  (144, "RANTransparentContainer");
  (145, "PDPContextPrioritization");
  (146, "AdditionalRABSetupInformation");
  (147, "SGSNNumber");
  (148, "CommonFlags");
  (149, "APNRestriction");
  (150, "RadioPriorityLCS");
  (151, "RATType");
  (152, "UserLocationInformation");
  (153, "MSTimeZone");
  (154, "IMEISV");
  (155, "CAMELChargingInformationContainer");
  (156, "MBMSUEContext");
  (157, "TemporaryMobileGroupIdentity");
  (158, "RIMRoutingAddress");
  (159, "MBMSProtocolConfigurationOptions");
  (160, "MBMSServiceArea");
  (161, "SourceRNCPDCPContextInfo");
  (162, "AdditionalTraceInfo");
  (163, "HopCounter");
  (164, "SelectedPLMNID");
  (165, "MBMSSessionIdentifier");
  (166, "MBMS2G3GIndicator");
  (167, "EnhancedNSAPI");
  (168, "MBMSSessionDuration");
  (169, "AdditionalMBMSTraceInfo");
  (170, "MBMSSessionRepetitionNumber");
  (171, "MBMSTimeToDataTransfer");
  (173, "BSSContainer");
  (174, "CellIdentification");
  (175, "PDUNumbers");
  (176, "BSSGPCause");
  (177, "RequiredMBMSBearerCapabilities");
  (178, "RIMRoutingAddressDiscriminator");
  (179, "ListOfSetupPFCs");
  (180, "PSHandoverXIDParameters");
  (181, "MSInfoChangeReportingAction");
  (182, "DirectTunnelFlags");
  (183, "CorrelationID");
  (184, "BearerControlMode");
  (185, "MBMSFlowIdentifier");
  (186, "MBMSIPMulticastDistribution");
  (187, "MBMSDistributionAcknowledgement");
  (188, "ReliableInterRATHandoverInfo");
  (189, "RFSPIndex");
  (190, "FullyQualifiedDomainName");
  (191, "EvolvedAllocationRetentionPriorityI");
  (192, "EvolvedAllocationRetentionPriorityII");
  (193, "ExtendedCommonFlags");
  (194, "UserCSGInformation");
  (195, "CSGInformationReportingAction");
  (196, "CSGID");
  (197, "CSGMembershipIndication");
  (198, "AggregateMaximumBitRate");
  (199, "UENetworkCapability");
  (200, "UEAMBR");
  (201, "APNAMBRWithNSAPI");
  (202, "GGSNBackOffTime");
  (203, "SignallingPriorityIndication");
  (204, "SignallingPriorityIndicationWithNSAPI");
  (205, "HigherBitratesThan16MbpsFlag");
  (207, "AdditionalMMContextForSRVCC");
  (208, "AdditionalFlagsForSRVCC");
  (209, "STNSR");
  (210, "CMSISDN");
  (211, "ExtendedRANAPCause");
  (212, "ENodeBID");
  (213, "SelectionModeWithNSAPI");
  (214, "ULITimestamp");
  (215, "LHNIDWithNSAPI");
  (216, "CNOperatorSelectionEntity");
  (217, "UEUsageType");
  (218, "ExtendedCommonFlagsII");
  (219, "NodeIdentifier");
  (220, "CIoTOptimizationsSupportIndication");
  (221, "SCEFPDNConnection");
  (222, "IOVUpdatesCounter");
  (223, "MappedUEUsageType");
  (224, "UPFunctionSelectionIndicationFlags");
  (238, "SpecialIETypeForIETypeExtension");
  (251, "ChargingGatewayAddress");
  (255, "PrivateExtension")].
(** gtpv1/ie/ie.go:16-146 the constants *)
Definition ie_consts1 : list (string * N) := [
  ("Cause", 1);
  ("IMSI", 2);
  ("RouteingAreaIdentity", 3);
  ("TemporaryLogicalLinkIdentity", 4);
  ("PacketTMSI", 5);
  ("ReorderingRequired", 8);
  ("AuthenticationTriplet", 9);
  ("MAPCause", 11);
  ("PTMSISignature", 12);
  ("MSValidated", 13);
  ("Recovery", 14);
  ("SelectionMode", 15);
  ("TEIDDataI", 16);
  ("TEIDCPlane", 17);
  ("TEIDDataII", 18);
  ("TeardownInd", 19);
  ("NSAPI", 20);
  ("RANAPCause", 21);
  ("RABContext", 22);
  ("RadioPrioritySMS", 23);
  ("RadioPriority", 24);
  ("PacketFlowID", 25);
  ("ChargingCharacteristics", 26);
  ("TraceReference", 27);
  ("TraceType", 28);
  ("MSNotReachableReason", 29);
  ("ChargingID", 127);
  ("EndUserAddress", 128);
  ("MMContext", 129);
  ("PDPContext", 130);
  ("AccessPointName", 131);
  ("ProtocolConfigurationOptions", 132);
  ("GSNAddress", 133);
  ("MSISDN", 134);
  ("QoSProfile", 135);
  ("AuthenticationQuintuplet", 136);
  ("TrafficFlowTemplate", 137);
  ("TargetIdentification", 138);
  ("UTRANTransparentContainer", 139);
  ("RABSetupInformation", 140);
  ("ExtensionHeaderTypeList", 141);
  ("TriggerID", 142);
  ("OMCIdentity", 143);
  ("RANTransparentContainer", 144);
  ("PDPContextPrioritization", 145);
  ("AdditionalRABSetupInformation", 146);
  ("SGSNNumber", 147);
  ("CommonFlags", 148);
  ("APNRestriction", 149);
  ("RadioPriorityLCS", 150);
  ("RATType", 151);
  ("UserLocationInformation", 152);
  ("MSTimeZone", 153);
  ("IMEISV", 154);
  ("CAMELChargingInformationContainer", 155);
  ("MBMSUEContext", 156);
  ("TemporaryMobileGroupIdentity", 157);
  ("RIMRoutingAddress", 158);
  ("MBMSProtocolConfigurationOptions", 159);
  ("MBMSServiceArea", 160);
  ("SourceRNCPDCPContextInfo", 161);
  ("AdditionalTraceInfo", 162);
  ("HopCounter", 163);
  ("SelectedPLMNID", 164);
  ("MBMSSessionIdentifier", 165);
  ("MBMS2G3GIndicator", 166);
  ("EnhancedNSAPI", 167);
  ("MBMSSessionDuration", 168);
  ("AdditionalMBMSTraceInfo", 169);
  ("MBMSSessionRepetitionNumber", 170);
  ("MBMSTimeToDataTransfer", 171);
  ("BSSContainer", 173);
  ("CellIdentification", 174);
  ("PDUNumbers", 175);
  ("BSSGPCause", 176);
  ("RequiredMBMSBearerCapabilities", 177);
  ("RIMRoutingAddressDiscriminator", 178);
  ("ListOfSetupPFCs", 179);
  ("PSHandoverXIDParameters", 180);
  ("MSInfoChangeReportingAction", 181);
  ("DirectTunnelFlags", 182);
  ("CorrelationID", 183);
  ("BearerControlMode", 184);
  ("MBMSFlowIdentifier", 185);
  ("MBMSIPMulticastDistribution", 186);
  ("MBMSDistributionAcknowledgement", 187);
  ("ReliableInterRATHandoverInfo", 188);
  ("RFSPIndex", 189);
  ("FullyQualifiedDomainName", 190);
  ("EvolvedAllocationRetentionPriorityI", 191);
  ("EvolvedAllocationRetentionPriorityII", 192);
  ("ExtendedCommonFlags", 193);
  ("UserCSGInformation", 194);
  ("CSGInformationReportingAction", 195);
  ("CSGID", 196);
  ("CSGMembershipIndication", 197);
  ("AggregateMaximumBitRate", 198);
  ("UENetworkCapability", 199);
  ("UEAMBR", 200);
  ("APNAMBRWithNSAPI", 201);
  ("GGSNBackOffTime", 202);
  ("SignallingPriorityIndication", 203);
  ("SignallingPriorityIndicationWithNSAPI", 204);
  ("HigherBitratesThan16MbpsFlag", 205);
  ("AdditionalMMContextForSRVCC", 207);
  ("AdditionalFlagsForSRVCC", 208);
  ("STNSR", 209);
  ("CMSISDN", 210);
  ("ExtendedRANAPCause", 211);
  ("ENodeBID", 212);
  ("SelectionModeWithNSAPI", 213);
  ("ULITimestamp", 214);
  ("LHNIDWithNSAPI", 215);
  ("CNOperatorSelectionEntity", 216);
  ("UEUsageType", 217);
  ("ExtendedCommonFlagsII", 218);
  ("NodeIdentifier", 219);
  ("CIoTOptimizationsSupportIndication", 220);
  ("SCEFPDNConnection", 221);
  ("IOVUpdatesCounter", 222);
  ("MappedUEUsageType", 223);
  ("UPFunctionSelectionIndicationFlags", 224);
  ("SpecialIETypeForIETypeExtension", 238);
  ("ChargingGatewayAddress", 251);
  ("PrivateExtension", 255)].

(** gtpv0/ie/ie.go:246-274 ieTypeNameMap *)
Definition ie_names0 : list (N * string) := [
  (1, "Cause");
  (2, "IMSI");
  (3, "RouteingAreaIdentity");
  (4, "TemporaryLogicalLinkIdentity");
  (5, "PacketTMSI");
  (6, "QualityOfServiceProfile");
  (8, "ReorderingRequired");
  (9, "AuthenticationTriplet");
  (11, "MAPCause");
  (12, "PTMSISignature");
  (13, "MSValidated");
  (14, "Recovery");
  (15, "SelectionMode");
  (16, "FlowLabelDataI");
  (17, "FlowLabelSignalling");
  (18, "FlowLabelDataII");
  (19, "MSNotReachableReason");
  (127, "ChargingID");
  (128, "EndUserAddress");
  (129, "MMContext");
  (130, "PDPContext");
  (131, "AccessPointName");
  (132, "ProtocolConfigurationOptions");
  (133, "GSNAddress");
  (134, "MSISDN");
  (251, "ChargingGatewayAddress");
  (255, "PrivateExtension")].
(** gtpv0/ie/ie.go:16-48 the constants *)
Definition ie_consts0 : list (string * N) := [
  ("Cause", 1);
  ("IMSI", 2);
  ("RouteingAreaIdentity", 3);
  ("TemporaryLogicalLinkIdentity", 4);
  ("PacketTMSI", 5);
  ("QualityOfServiceProfile", 6);
  ("ReorderingRequired", 8);
  ("AuthenticationTriplet", 9);
  ("MAPCause", 11);
  ("PTMSISignature", 12);
  ("MSValidated", 13);
  ("Recovery", 14);
  ("SelectionMode", 15);
  ("FlowLabelDataI", 16);
  ("FlowLabelSignalling", 17);
  ("FlowLabelDataII", 18);
  ("MSNotReachableReason", 19);
  ("ChargingID", 127);
  ("EndUserAddress", 128);
  ("MMContext", 129);
  ("PDPContext", 130);
  ("AccessPointName", 131);
  ("ProtocolConfigurationOptions", 132);
  ("GSNAddress", 133);
  ("MSISDN", 134);
  ("ChargingGatewayAddress", 251);
  ("PrivateExtension", 255)].
