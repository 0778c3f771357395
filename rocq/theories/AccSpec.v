(** The accessors of a GTPv2 IE, by their Go names, each reduced to how it ends: with a value,
    with an error, or by panicking.  The Must* variants call the same function; the boolean
    ones (HasCS, HasPPC, VoiceBearer, ...) call the accessor listed and test a bit of what it
    returns; GUTI is treated apart. *)
From Coq Require Import String.
From Verif Require Import Base Utils V2IE V2Codec V2Codec2 V2Ind V2Pco V2Tft V2Uli V2Acc.
Open Scope string_scope.
Open Scope N_scope.
Open Scope list_scope.

Definition ends {A} (f : ie2 -> res A) (i : ie2) : res unit :=
  match f i with Ok _ => Ok tt | Err e => Err e | Panic => Panic end.
Definition accessors (g : N -> bool) : list (string * (ie2 -> res unit)) :=
  map (fun e => (fst e, ends (acc_u8 g (snd e)))) u8_ies ++
  map (fun e => (fst e, ends (acc_u16 g (snd e)))) u16_ies ++
  map (fun e => (fst e, ends (acc_u32 g (snd e)))) u32_ies ++
  map (fun e => (fst e, ends (acc_string g (snd e)))) string_ies ++
  map (fun e => (fst e, ends (acc_fqdn g (snd e)))) fqdn_ies ++
  map (fun e => (("Has" ++ fst e)%string, ends (has_of (snd e)))) ind_has ++
  [("ValueAsUint8", ends (value_u8 g)); ("ValueAsUint16", ends (value_u16 g)); ("ValueAsUint32", ends (value_u32 g));
   ("ValueAsUint64", ends (value_u64 g)); ("ValueAsString", ends (value_string g)); ("ValueAsFQDN", ends (value_fqdn g));
   ("BearerContext", ends (bearer_context g));
   ("EPSBearerID", ends (acc_ebi g)); ("ChargingID", ends (acc_charging_id g)); ("PDNType", ends (acc_pdn_type g));
   ("CSGID", ends (acc_csg_id g)); ("CMI", ends (acc_cmi g)); ("PTMSISignature", ends acc_ptmsi_sig);
   ("EnterpriseID", ends acc_enterprise_id); ("PrivateExtension", ends acc_private_extension);
   ("FullyQualifiedTEID", ends acc_fteid); ("InterfaceType", ends acc_if_type); ("GREKey", ends acc_gre_key); ("TEID", ends acc_teid);
   ("IP", ends acc_ip); ("IPAddress", ends acc_ip); ("IPv4", ends acc_ipv4); ("IPv6", ends acc_ipv6);
   ("S1UDataForwarding", ends acc_s1udf); ("SGWAddress", ends acc_sgw_address);
   ("S103PDNDataForwardingInfo", ends acc_s103); ("HSGWAddress", ends acc_hsgw_address); ("EBIs", ends acc_ebis);
   ("Cause", ends (acc_cause g)); ("CauseFlags", ends (acc_cause_flags g)); ("OffendingIE", ends (acc_offending g));
   ("AggregateMaximumBitRate", ends acc_ambr); ("AggregateMaximumBitRateUp", ends acc_ambr_up);
   ("AggregateMaximumBitRateDown", ends acc_ambr_down);
   ("AllocationRetensionPriority", ends (acc_arp g)); ("PriorityLevel", ends (acc_priority_level g));
   ("BearerQoS", ends (acc_bqos g)); ("FlowQoS", ends acc_fqos); ("QCILabel", ends (acc_qci g));
   ("MBRForUplink", ends acc_umbr); ("MBRForDownlink", ends acc_dmbr); ("GBRForUplink", ends acc_ugbr); ("GBRForDownlink", ends acc_dgbr);
   ("BearerFlags", ends (acc_bearer_flags g)); ("MBMSFlags", ends (acc_mbms_flags g));
   ("RANNASCause", ends (acc_ran_nas_cause g)); ("PagingAndServiceInformation", ends acc_pasi); ("PagingPolicyIndication", ends acc_ppi);
   ("IMSI", ends acc_imsi); ("MSISDN", ends acc_msisdn); ("MobileEquipmentIdentity", ends acc_mei);
   ("PLMNID", ends acc_plmn_id); ("ServingNetwork", ends acc_serving_network); ("CNID", ends acc_cnid);
   ("MMEGroupID", ends acc_mme_group); ("MMECode", ends acc_mme_code); ("MTMSI", ends acc_mtmsi);
   ("UserCSGInformation", ends acc_uci); ("AccessMode", ends acc_access_mode); ("TraceID", ends acc_trace_id);
   ("ParseTraceReferenceFields", ends (fun i => trace_reference_parse (i2_payload i)));
   ("MCC", ends acc_mcc_mnc_all); ("MNC", ends acc_mcc_mnc_all);
   ("FullyQualifiedCSID", ends acc_fqcsid); ("NodeIDType", ends acc_node_id_type); ("NodeID", ends acc_node_id); ("CSIDs", ends acc_csids);
   ("DelayValue", ends acc_delay_value); ("Timer", ends acc_timer); ("EPCTimer", ends acc_timer); ("Throttling", ends acc_throttling);
   ("TimeZone", ends acc_time_zone); ("DaylightSaving", ends acc_dst); ("Timestamp", ends acc_timestamp);
   ("Indication", ends acc_indication); ("ProtocolConfigurationOptions", ends (acc_pco g));
   ("TrafficFlowTemplate", ends (acc_tft g)); ("BearerTFT", ends (acc_tft g)); ("TrafficAggregateDescription", ends (acc_tft g));
   ("UserLocationInformation", ends acc_uli); ("UserLocationInfo", ends acc_uli_info);
   ("ParsePDNAddressAllocationFields", ends (fun i => paa_parse (i2_payload i)))].
