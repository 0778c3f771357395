{
 "claims": [
  {
   "property": "C01",
   "status": "proved",
   "theorems": [
    "C01_v2_parse_total",
    "C01_v2_parse_as_total"
   ],
   "note": ""
  },
  {
   "property": "C02",
   "status": "proved",
   "theorems": [
    "C02_v1_parse_total",
    "C02_v1_parse_as_total",
    "C02_v1_decapsulate_total",
    "C02_long_input_refuted"
   ],
   "note": "datagrams; a 65543-octet input panics (refuted)"
  },
  {
   "property": "C03",
   "status": "proved",
   "theorems": [
    "C03_v0_parse_total",
    "C03_v0_parse_as_total",
    "C03_long_input_refuted"
   ],
   "note": "datagrams; a longer input panics (refuted)"
  },
  {
   "property": "C04",
   "status": "proved",
   "theorems": [
    "C04_gtp_parse_total",
    "C04_gtp_parse_version",
    "C04_gtp_parse_accepts",
    "C04_gtp_parse_short"
   ],
   "note": ""
  },
  {
   "property": "C05",
   "status": "proved",
   "theorems": [
    "C05_v1_multi_total",
    "C05_v0_multi_total",
    "C05_v1_multi_consumes_all",
    "C05_v0_multi_consumes_all",
    "C05_v2_multi_total",
    "C05_v2_multi_consumes_all"
   ],
   "note": ""
  },
  {
   "property": "C06",
   "status": "proved",
   "theorems": [
    "C06_v2_ie_roundtrip",
    "C06_v2_ie_list_roundtrip",
    "C06_v2_new_consistent",
    "C06_v2_new_grouped_consistent",
    "C06_new_with_grouped_type_refuted"
   ],
   "note": "New with a grouped type builds an inconsistent IE (refuted separately)"
  },
  {
   "property": "C07",
   "status": "proved",
   "theorems": [
    "C07_v2_parse_marshal_exact"
   ],
   "note": ""
  },
  {
   "property": "C08",
   "status": "proved",
   "theorems": [
    "C08_v1_ie_roundtrip",
    "C08_v1_ie_list_roundtrip",
    "C08_v1_new_consistent",
    "C08_v1_parse_exact",
    "C08_unknown_tv_refuted",
    "C08_empty_tv_refuted",
    "C08_long_ext_list_refuted"
   ],
   "note": "the exceptions are exhibited as refutations"
  },
  {
   "property": "C09",
   "status": "proved",
   "theorems": [
    "C09_v0_ie_roundtrip",
    "C09_v0_ie_list_roundtrip",
    "C09_v0_new_consistent",
    "C09_v0_parse_exact",
    "C09_wrong_size_tv_refuted"
   ],
   "note": ""
  },
  {
   "property": "C10",
   "status": "proved",
   "theorems": [
    "C10_v2_header_roundtrip",
    "C10_v2_new_header_consistent",
    "C10_v2_header_parse_total",
    "C10_short_header_refuted",
    "C10_teid_without_flag_refuted"
   ],
   "note": "for consistent headers of at least 12 octets; shorter ones are refused by ParseHeader (refuted separately)"
  },
  {
   "property": "C11",
   "status": "proved",
   "theorems": [
    "C11_v1_header_roundtrip",
    "C11_v1_built_header_roundtrip",
    "C11_v1_header_parse_total",
    "C11_v1_header_parse_exact",
    "C11_empty_extension_list_refuted",
    "C11_set_next_type_refuted",
    "C11_add_twice_refuted"
   ],
   "note": "all headers built by the constructor and setters with at most one AddExtensionHeaders call; the API sequences that break a header are refuted separately"
  },
  {
   "property": "C12",
   "status": "proved",
   "theorems": [
    "C12_v0_header_roundtrip",
    "C12_v0_new_header_consistent",
    "C12_v0_header_parse_total",
    "C12_sndcp_refuted"
   ],
   "note": "all fields but the SNDCP number, which is refuted"
  },
  {
   "property": "C13",
   "status": "proved",
   "theorems": [
    "C13_chain_roundtrip",
    "C13_one_roundtrip",
    "C13_new_ext_ok",
    "C13_parse_exact",
    "C13_parse_total",
    "C13_long_content_refuted",
    "C13_padding_refuted"
   ],
   "note": "contents up to 1018 octets; padding of odd sizes and longer contents refuted"
  },
  {
   "property": "C14",
   "status": "partial",
   "theorems": [
    "C14_v2_create_session_request",
    "C14_v2_context_response",
    "C14_v2_size_and_layout",
    "C14_CreateSessionRequest_refuted",
    "C14_ContextResponse_refuted",
    "C14_nil_elements_partial",
    "C14_nil_elements_refuted",
    "C14_v2_generic_add",
    "C14_v2_generic_nil_refuted"
   ],
   "note": "all structures; CreateSessionRequest when PrivateExtension and AdditionalIEs are not both used, ContextResponse when the three fields its MarshalTo forgets are empty, both refuted without the condition"
  },
  {
   "property": "C15",
   "status": "partial",
   "theorems": [
    "C15_v2_create_session_request",
    "C15_v2_create_bearer_response",
    "C15_v2_context_response",
    "C15_v2_roundtrip",
    "C15_v2_generic_roundtrip",
    "C15_empty_echo_refuted",
    "C15_CreateBearerResponse_refuted",
    "C15_ContextResponse_refuted",
    "C15_ContextResponse_mm_context_refuted",
    "C15_v2_new_header",
    "C15_version_not_supported_teid_refuted"
   ],
   "note": "all structures; CreateSessionRequest, CreateBearerResponse and ContextResponse under the condition named in the theorem, each refuted without it; 8-octet messages without TEID and IEs are refused by Parse (refuted)"
  },
  {
   "property": "C16",
   "status": "partial",
   "theorems": [
    "C16_v2_remarshal_all",
    "C16_v2_remarshal",
    "C16_CreateSessionRequest_refuted"
   ],
   "note": "all structures, CreateSessionRequest only when PrivateExtension and AdditionalIEs are not both used (refuted otherwise); datagrams below 65536 octets"
  },
  {
   "property": "C17",
   "status": "partial",
   "theorems": [
    "C17_v1_size_and_layout",
    "C17_v1_roundtrip",
    "C17_v1_generic_roundtrip",
    "C17_v1_remarshal",
    "C17_v1_tpdu_remarshal",
    "C17_v1_not_reset_refuted",
    "C17_notification_sequence_refuted",
    "C17_bare_tv_remarshal_refuted",
    "C17_v1_encapsulate",
    "C17_v1_encapsulate_exts",
    "C17_v1_tpdu_sequence",
    "C17_v1_new_header",
    "C17_v1_new_flags",
    "C17_v1_generic_add",
    "C17_v1_decapsulate_type"
   ],
   "note": "size and round trip for all messages; re-marshalling for the messages that reset the payload and IEs of known size; the nine others are refuted"
  },
  {
   "property": "C18",
   "status": "partial",
   "theorems": [
    "C18_v0_size_and_layout",
    "C18_v0_roundtrip",
    "C18_v0_remarshal",
    "C18_v0_not_reset_refuted",
    "C18_v0_tpdu",
    "C18_v0_new_header",
    "C18_v0_decapsulate_type"
   ],
   "note": "size and round trip for all messages; re-marshalling for all but DeletePDPContextResponse, which is refuted"
  },
  {
   "property": "C19",
   "status": "proved",
   "theorems": [
    "C19_v1_dispatch",
    "C19_v0_dispatch",
    "C19_v1_names_distinct",
    "C19_v0_names_distinct",
    "C19_v2_dispatch",
    "C19_v2_names_distinct"
   ],
   "note": ""
  },
  {
   "property": "C20",
   "status": "proved",
   "theorems": [
    "C20_v1_new_keeps",
    "C20_v1_parse_keeps",
    "C20_v0_new_keeps",
    "C20_v0_parse_keeps",
    "C20_v1_dropping_refuted",
    "C20_v2_new_keeps_all",
    "C20_v2_new_drops_all",
    "C20_v2_parse_keeps_all",
    "C20_v2_parse_drops_all",
    "C20_v1_new_keeps_all",
    "C20_v1_new_drops_all",
    "C20_v1_parse_keeps_all",
    "C20_v1_parse_drops_all",
    "C20_v2_new_keeps",
    "C20_v2_parse_keeps",
    "C20_dropping_messages_refuted",
    "C20_new_ignores_nil"
   ],
   "note": "GTPv2 and GTPv1: exactly which IEs are kept and which are dropped, for every structure; GTPv0: none is dropped; that nothing is dropped is refuted for the structures listed"
  },
  {
   "property": "C21",
   "status": "partial",
   "theorems": [
    "C21_v1_ie_marshal_to",
    "C21_v0_ie_marshal_to",
    "C21_v0_header_marshal_to",
    "C21_v1_header_marshal_to",
    "C21_v1_dirty_buffer_refuted",
    "C21_v2_msg_marshal_to",
    "C21_v2_ie_marshal_to",
    "C21_v2_header_marshal_to",
    "C21_short_buffer_grouped_refuted",
    "C21_v0_msg_marshal_to",
    "C21_v1_msg_marshal_to"
   ],
   "note": "GTPv1 headers leave optional octets whose flag is not set unchanged (refuted)"
  },
  {
   "property": "C22",
   "status": "proved",
   "theorems": [
    "C22_grouped_editing"
   ],
   "note": ""
  },
  {
   "property": "C23",
   "status": "proved",
   "theorems": [
    "C23_plmn_roundtrip",
    "C23_plmn_injective",
    "C23_decode_plmn_total",
    "C23_empty_mnc_refuted"
   ],
   "note": ""
  },
  {
   "property": "C24",
   "status": "proved",
   "theorems": [
    "C24_bcd_roundtrip",
    "C24_bcd_rejects",
    "C24_bcd_total"
   ],
   "note": ""
  },
  {
   "property": "C25",
   "status": "proved",
   "theorems": [
    "C25_fqdn_roundtrip",
    "C25_fqdn_total",
    "C25_long_label_refuted"
   ],
   "note": "labels below 256 octets; longer ones refuted"
  },
  {
   "property": "C26",
   "status": "proved",
   "theorems": [
    "C26_uint24",
    "C26_uint24_inverse",
    "C26_uint40",
    "C26_uint40_inverse",
    "C26_parse_eci"
   ],
   "note": ""
  },
  {
   "property": "C27",
   "status": "proved",
   "theorems": [
    "C27_fteid_codec",
    "C27_fteid_accessors",
    "C27_gre_key_without_address_refuted"
   ],
   "note": "GREKey on an F-TEID without address fails (refuted separately)"
  },
  {
   "property": "C28",
   "status": "proved",
   "theorems": [
    "C28_paa_codec",
    "C28_paa_v4",
    "C28_paa_v6",
    "C28_paa_dual",
    "C28_ip_address"
   ],
   "note": "with the IP Address IE"
  },
  {
   "property": "C29",
   "status": "proved",
   "theorems": [
    "C29_qos_codecs",
    "C29_ambr",
    "C29_arp",
    "C29_bearer_qos",
    "C29_flow_qos",
    "C29_flow_qos_mbr_uplink_refuted"
   ],
   "note": "MBRForUplink on Flow QoS is refuted"
  },
  {
   "property": "C30",
   "status": "partial",
   "theorems": [
    "C30_roundtrip",
    "C30_has",
    "C30_new_ecgi",
    "C30_trailing",
    "C30_truncated",
    "C30_any_payload",
    "C30_no_panic",
    "C30_args_partial",
    "C30_args_eci_refuted",
    "C30_lazy_partial",
    "C30_user_location_info_partial",
    "C30_user_location_info_refuted"
   ],
   "note": "Struct constructor and UserLocationInformation accessor: proved for all subsets, values and payloads. Refuted parts: the positional constructor cuts the E-UTRAN cell identity to 20 bits, and UserLocationInfo shows the PLMN of the last component in all of them (both proved for the cases where they are right)."
  },
  {
   "property": "C31",
   "status": "partial",
   "theorems": [
    "C31_tft_encoding_partial",
    "C31_tft_decoding",
    "C31_tft_accepted_well_formed",
    "C31_tft_never_panics",
    "C31_tft_ies_partial",
    "C31_components",
    "C31_component_sizes",
    "C31_component_getters_never_panic",
    "C31_even_params_refuted",
    "C31_sixteen_filters_refuted",
    "C31_ipv6_prefix_refuted",
    "C31_ipv6_mask_refuted",
    "C31_operations_partial"
   ],
   "note": "templates with no or an odd number of parameters; an even number loses them, more than 15 filters overflow the counter, the IPv6 getters are wrong: all refuted with witnesses"
  },
  {
   "property": "C32",
   "status": "partial",
   "theorems": [
    "C32_pco_encoding",
    "C32_pco_decoding",
    "C32_pco_decoding_exact",
    "C32_pco_never_panics",
    "C32_pco_ie",
    "C32_ppp",
    "C32_pap",
    "C32_chap",
    "C32_chap_never_panics",
    "C32_ipcp",
    "C32_ppp_panics_exactly",
    "C32_ppp_family_panics_refuted",
    "C32_truncated_container_refuted"
   ],
   "note": "PPP, PAP and IPCP decoding panics (PPP characterised exactly) and truncated containers are accepted: refuted with witnesses"
  },
  {
   "property": "C33",
   "status": "proved",
   "theorems": [
    "C33_indication",
    "C33_flags_of_any_payload"
   ],
   "note": ""
  },
  {
   "property": "C34",
   "status": "partial",
   "theorems": [
    "C34_cause",
    "C34_cause_flags_refuted"
   ],
   "note": "HasBCE/HasCS, IsRemoteCause and IsPDNConnectionIEError are refuted; everything else is proved"
  },
  {
   "property": "C35",
   "status": "partial",
   "theorems": [
    "C35_epc_timer",
    "C35_epc_timer_exact",
    "C35_throttling",
    "C35_ue_time_zone",
    "C35_delay_value_partial",
    "C35_uli_timestamp",
    "C35_timer_too_long_refuted",
    "C35_throttling_odd_seconds_refuted",
    "C35_delay_value_refuted",
    "C35_uli_timestamp_before_1970_refuted"
   ],
   "note": "DelayValue decoding, inexpressible durations and times before 1970 are refuted; EPC timer characterised for every duration"
  },
  {
   "property": "C36",
   "status": "partial",
   "theorems": [
    "C36_imsi_partial",
    "C36_imsi_even_refuted",
    "C36_msisdn",
    "C36_mei",
    "C36_serving_network",
    "C36_plmn_id",
    "C36_global_cn_id",
    "C36_guti_partial",
    "C36_user_csg_information",
    "C36_trace_reference",
    "C36_fq_csid",
    "C36_guti_refuted",
    "C36_guti_panics_refuted",
    "C36_guti_bad_plmn_refuted",
    "C36_cmi_of_uci_refuted",
    "C36_fq_csid_refuted"
   ],
   "note": "even-length IMSI, GUTI(), CMI() of UCI, FQ-CSID corner cases are refuted; everything else proved"
  },
  {
   "property": "C37",
   "status": "partial",
   "theorems": [
    "C37_v2_accessors",
    "C37_v2_parsed",
    "C37_v2_guti_refuted"
   ],
   "note": "168 accessors by Go name (every one that returns an error; the Must- and Has- forms are wrappers of these) never panic, for any type, octet payload and children, hence for every IE of every parsed buffer. GUTI panics exactly on a three-octet payload at the end of its buffer (refuted part)."
  },
  {
   "property": "C38",
   "status": "partial",
   "theorems": [
    "C38_v1_octet",
    "C38_v1_word",
    "C38_v1_teid",
    "C38_v1_raw",
    "C38_v1_flag",
    "C38_v1_ptmsi_signature",
    "C38_v1_private_extension",
    "C38_v1_flags",
    "C38_v1_flags_ii",
    "C38_v1_imsi",
    "C38_v1_imsi_length_refuted",
    "C38_v1_imeisv",
    "C38_v1_msisdn",
    "C38_v1_msisdn_odd_refuted",
    "C38_v1_rai",
    "C38_v1_rai_mnc_refuted",
    "C38_v1_uli_area",
    "C38_v1_uli_cgi_sai",
    "C38_v1_uli_rai",
    "C38_v1_gsn_address",
    "C38_v1_gsn_address_mapped",
    "C38_v1_end_user_address",
    "C38_v1_ppp",
    "C38_v1_apn",
    "C38_v1_triplet",
    "C38_v1_quintuplet",
    "C38_v1_autn_refuted",
    "C38_v1_autn_panics",
    "C38_v1_ms_time_zone",
    "C38_v1_uli_timestamp",
    "C38_v1_pco",
    "C38_v1_accessors_total",
    "C38_v1_accessors_types",
    "C38_v1_xres_type_refuted",
    "C38_v1_answers",
    "C38_v1_answers_rac",
    "C38_v1_answers_area",
    "C38_v1_answers_ip",
    "C38_v1_answers_apn",
    "C38_v1_answers_quintuplet",
    "C38_v1_answers_pco"
   ],
   "note": "All constructors and accessors of gtpv1/ie outside the untyped ones: layout, wire well-formedness and read-back for all values; 49 accessors total and type-checked on any IE. Refuted parts: AUTN (wrong offset, and a panic on a 50-octet quintuplet), XRES on an empty IE of another type, RAI with a three-digit or empty MNC, MSISDN of odd length, IMSI of other than 15 digits."
  },
  {
   "property": "C39",
   "status": "partial",
   "theorems": [
    "C39_v0_octet",
    "C39_v0_word",
    "C39_v0_flow_label",
    "C39_v0_flow_label_ii",
    "C39_v0_ptmsi_signature",
    "C39_v0_reordering",
    "C39_v0_private_extension",
    "C39_v0_imsi",
    "C39_v0_imsi_invalid_refuted",
    "C39_v0_msisdn",
    "C39_v0_msisdn_odd_refuted",
    "C39_v0_rai",
    "C39_v0_rai_mcc_mnc_refuted",
    "C39_v0_address",
    "C39_v0_end_user_address",
    "C39_v0_eua_invalid_refuted",
    "C39_v0_ppp",
    "C39_v0_apn_layout",
    "C39_v0_apn_refuted",
    "C39_v0_qos",
    "C39_v0_qos_values_refuted",
    "C39_v0_accessors_total",
    "C39_v0_accessors_types",
    "C39_v0_answers"
   ],
   "note": "All constructors and accessors of gtpv0/ie: layout, wire well-formedness and read-back for all values; 36 accessors total and type-checked on any IE. Refuted parts: AccessPointName answers for no payload, MCC and MNC of RAI, QoSDelay/QoSPeak/QoSMean, MSISDN of odd length, IMSI and end user address of an invalid string."
  },
  {
   "property": "C40",
   "status": "partial",
   "theorems": [
    "C40_taken_fresh",
    "C40_returned_unique",
    "C40_returned_taken",
    "C40_gives_up",
    "C40_missed",
    "C40_allocates",
    "C40_returned_ie",
    "C40_exhausted",
    "C40_relayed_refuted"
   ],
   "note": "NewFTEID against all schedules and random draws; TEIDs passed to RelayTo are not marked as taken, so uniqueness against relayed TEIDs is refuted"
  },
  {
   "property": "C41",
   "status": "partial",
   "theorems": [
    "C41_relayed_exact",
    "C41_closed",
    "C41_relays_partial",
    "C41_short_refuted",
    "C41_long_refuted"
   ],
   "note": "exactness, CloseRelay and progress proved for datagrams of 11 to 1500 bytes; shorter ones are dropped and longer ones cut (refuted)"
  },
  {
   "property": "C42",
   "status": "partial",
   "theorems": [
    "C42_panic_causes_partial",
    "C42_short_refuted",
    "C42_error_indication_refuted"
   ],
   "note": "the causes of a crash are characterised exactly; datagrams of 0 or 1 bytes with a relay, and Error Indications without their IEs, crash the process in every reachable state (refuted)"
  },
  {
   "property": "C43",
   "status": "partial",
   "theorems": [
    "C43_delivered",
    "C43_written",
    "C43_end_to_end_partial",
    "C43_delivers_partial",
    "C43_long_refuted",
    "C43_order_refuted"
   ],
   "note": "content, sender, TEID, at-most-once and progress for payloads up to 1492 bytes; order of arrival and longer payloads are refuted"
  },
  {
   "property": "C44",
   "status": "proved",
   "theorems": [
    "C44_sent_only",
    "C44_echo",
    "C44_error_indication"
   ],
   "note": "every T-PDU that is not relayed is answered with an Error Indication while this is enabled"
  },
  {
   "property": "C45",
   "status": "proved",
   "theorems": [
    "C45_v2_handler_invoked",
    "C45_v2_handler_lookup",
    "C45_v2_no_handler",
    "C45_dispatched",
    "C45_user_called",
    "C45_calls_user",
    "C45_last_registered",
    "C45_default",
    "C45_add_handlers_order"
   ],
   "note": "user plane and control plane"
  },
  {
   "property": "C46",
   "status": "partial",
   "theorems": [
    "C46_v2_session_by_teid",
    "C46_v2_session_by_imsi",
    "C46_v2_imsi_by_teid",
    "C46_v2_registered_by_call",
    "C46_v2_imsi_by_call",
    "C46_v2_register",
    "C46_v2_remove",
    "C46_v2_remove_without_teid",
    "C46_v2_remove_by_imsi",
    "C46_v2_second_teid_refuted",
    "C46_v2_changed_imsi_refuted",
    "C46_v2_same_imsi_refuted",
    "C46_v2_concurrent_refuted",
    "C46_v2_sessions",
    "C46_v2_activate",
    "C46_v2_bearer_count"
   ],
   "note": "lookups, counts, Register and Remove proved as map operations for every history; sessions with two TEIDs, a changed IMSI or a shared IMSI, and concurrent Register/Remove are refuted"
  },
  {
   "property": "C47",
   "status": "partial",
   "theorems": [
    "C47_v2_sequence_range",
    "C47_v2_sequence_distinct_partial",
    "C47_v2_sent_number",
    "C47_v2_echo_reply",
    "C47_v2_response_number",
    "C47_v2_sequence_shared_refuted"
   ],
   "note": "range, distinctness without DecSequence in between, numbers on the wire, responses; sharing after a failed send is refuted"
  },
  {
   "property": "C48",
   "status": "proved",
   "theorems": [
    "C48_v2_queue_fifo",
    "C48_v2_wait",
    "C48_v2_progress",
    "C48_v2_mismatch_lost_refuted"
   ],
   "note": "a head with another number is consumed and lost (refuted separately)"
  },
  {
   "property": "C49",
   "status": "partial",
   "theorems": [
    "C49_v2_bearer_by_name",
    "C49_v2_ebi_by_name",
    "C49_v2_bearer_by_ebi",
    "C49_v2_ebi_by_teid",
    "C49_v2_name_by_ebi_partial",
    "C49_v2_bearers",
    "C49_v2_teids",
    "C49_v2_orders",
    "C49_v2_remove_by_ebi_partial",
    "C49_v2_unnamed_refuted"
   ],
   "note": "every query for every visiting order; the name \"\" is refuted for lookups by EBI"
  },
  {
   "property": "C50",
   "status": "partial",
   "theorems": [
    "C50_v2_validated_partial",
    "C50_v2_accepted",
    "C50_v2_rejected",
    "C50_v2_unparsable",
    "C50_v2_version_refuted"
   ],
   "note": "TEID and peer checks for every schedule, progress and rejection; the version check never fails (refuted)"
  },
  {
   "property": "C51",
   "status": "partial",
   "theorems": [
    "C51_v2_allocated",
    "C51_v2_not_reused",
    "C51_v2_gives_up",
    "C51_v2_misses",
    "C51_v2_reserved_crash_refuted"
   ],
   "note": "allocation proved; messages for reserved TEIDs crash the process (refuted in general)"
  },
  {
   "property": "C52",
   "status": "partial",
   "theorems": [
    "C52_v2_new_fields_partial",
    "C52_v2_parse_fields_partial",
    "C52_v2_misplaced_refuted",
    "C52_v1_new_fields",
    "C52_v1_parse_fields",
    "C52_v0_new_fields",
    "C52_v0_parse_fields"
   ],
   "note": "all GTPv1/v0 fields; GTPv2 fields except the 24 (New) / 26 (Parse) listed pairs, each of which is refuted"
  },
  {
   "property": "C53",
   "status": "partial",
   "theorems": [
    "C53_v2_marshal_repeatable",
    "C53_v2_marshal_to_repeatable",
    "C53_v1_marshal_repeatable_partial",
    "C53_v1_marshal_to_repeatable_partial",
    "C53_v0_marshal_repeatable_partial",
    "C53_v0_marshal_to_repeatable_partial",
    "C53_v1_tpdu_repeatable",
    "C53_v0_tpdu_repeatable",
    "C53_v1_refuted",
    "C53_v0_refuted"
   ],
   "note": "Proved for every GTPv2 message, whatever its fields hold, and for every GTPv1/GTPv0 message and T-PDU except nine GTPv1 messages and one GTPv0 message, for which the claim is refuted in general: once marshalled with an IE present they cannot be marshalled again."
  },
  {
   "property": "C54",
   "status": "partial",
   "theorems": [
    "C54_v2_parse_view",
    "C54_v2_remove_isolated",
    "C54_v2_add_apart_partial",
    "C54_v2_add_earlier_partial",
    "C54_v2_add_no_room_partial",
    "C54_v2_add_refuted"
   ],
   "note": "On a model with arrays and slices (V2Heap.v): parsing shows the values of the value model; Remove changes no other IE in memory; Add changes no IE apart from the octets behind the edited payload, so none before it, none in other arrays, and none at all if the array has no room. The rest is refuted in general: if there is room, Add overwrites the payload of the following IE of the same datagram."
  },
  {
   "property": "C55",
   "status": "partial",
   "theorems": [
    "C55_bearer_context_lookup",
    "C55_cause_flags_refuted",
    "C55_contexts_hold_all",
    "C55_contexts_read",
    "C55_create_bearer_request",
    "C55_create_bearer_response",
    "C55_empty_context"
   ],
   "note": "CauseFlags is refuted; the constructors and the accessors modelled so far"
  },
  {
   "property": "C56",
   "status": "partial",
   "theorems": [
    "C56_one_value",
    "C56_ebi",
    "C56_charging_id",
    "C56_csg_id",
    "C56_ptmsi_signature",
    "C56_bearer_flags",
    "C56_mbms_flags",
    "C56_node_features",
    "C56_private_extension",
    "C56_ran_nas_cause",
    "C56_s1u_data_forwarding",
    "C56_s103_data_forwarding",
    "C56_s1u_codec",
    "C56_s1u_teid_refuted",
    "C56_named_flags_refuted",
    "C56_empty_value_refuted",
    "C56_s103_many_ebis_refuted",
    "C56_paging_refuted",
    "C56_value_as_uint"
   ],
   "note": "the exceptions are refuted with witnesses"
  },
  {
   "property": "C57",
   "status": "partial",
   "theorems": [
    "C57_v2_create_session",
    "C57_v2_create_session_fails",
    "C57_v2_failure_cleans_up_refuted",
    "C57_v2_found_by_imsi_refuted",
    "C57_v2_bearer_qos_refuted"
   ],
   "note": "Proved for every reachable state, every list of readable IEs and an uninterrupted call: one Create Session Request is sent under the next sequence number, the new session and its default bearer carry what the last IE of each type says, and the session is found under the local TEIDs and the IMSI read so far; unreadable IEs end the call without sending. Refuted parts: the guaranteed downlink rate and the two preemption flags of the bearer, lookup by IMSI when the IMSI follows the F-TEID, and clean-up after a failure."
  },
  {
   "property": "C58",
   "status": "partial",
   "theorems": [
    "C58_v2_header_flags",
    "C58_v1_header_flags",
    "C58_v0_header_flags",
    "C58_v2_set_piggybacking",
    "C58_v2_set_teid",
    "C58_v2_set_teid_length_refuted",
    "C58_v2_set_sequence",
    "C58_v2_set_priority",
    "C58_v2_priority_refuted",
    "C58_v1_set_sequence",
    "C58_v1_set_npdu",
    "C58_v1_set_teid",
    "C58_v1_spare_bit_refuted",
    "C58_v1_set_next",
    "C58_v2_set_instance",
    "C58_v2_grouped_types",
    "C58_v1_tv_sizes_partial",
    "C58_v1_teid_data_ii_refuted",
    "C58_v0_tv_sizes"
   ],
   "note": "Header setters and getters, flag octets, TV size tables and grouped-type lists are proved against independent tables. Refuted: v2 SetTEID leaves Length unchanged when it adds the TEID field, v2 SetMessagePriority keeps only the upper four bits, v1 SetTEID sets the spare bit, and the v1 TV table gives TEID Data II four octets instead of five."
  },
  {
   "property": "C59",
   "status": "proved",
   "theorems": [
    "C59_v2_crash_causes",
    "C59_v2_no_crash_by_datagram"
   ],
   "note": ""
  },
  {
   "property": "C60",
   "status": "partial",
   "theorems": [
    "C60_v1_marks",
    "C60_v1_only_calls",
    "C60_v1_result",
    "C60_v1_option_kept",
    "C60_v1_option_kept_refuted",
    "C60_v1_no_deadlock",
    "C60_v1_steps_bounded",
    "C60_v1_all_return"
   ],
   "note": "Marks, destinations, results, deadlock freedom and termination hold for every schedule and every failure. The option of the socket is restored only if setting it back succeeds (its error is dropped): refuted otherwise, harmless to later marked writes."
  },
  {
   "property": "C61",
   "status": "partial",
   "theorems": [
    "C61_v1_relay",
    "C61_v1_relay_forwards",
    "C61_v1_direction_refuted",
    "C61_v1_close_refuted",
    "C61_v1_close_partial",
    "C61_v1_close_unserves_refuted",
    "C61_v1_closed_conn_flood_refuted"
   ],
   "note": "Relaying holds for every schedule until a connection is closed. Refuted: a pair serves both directions; a waiting goroutine relays one more T-PDU after Close (at most one, proved); Close ends the serving of both connections; closing a connection makes the goroutine send empty packets for ever if TEID 0 is registered."
  },
  {
   "property": "C62",
   "status": "partial",
   "theorems": [
    "C62_v2_dial",
    "C62_v2_dial_returns",
    "C62_v2_dial_alive_refuted",
    "C62_v2_dial_first_datagram_refuted",
    "C62_v2_dial_leak_refuted",
    "C62_v1_dial",
    "C62_v1_dial_sends",
    "C62_v1_dial_fails_first",
    "C62_v1_dial_silence_partial",
    "C62_v1_dial_silence_refuted",
    "C62_v1_dial_cancelled_refuted",
    "C62_v1_dial_alive_refuted"
   ],
   "note": "What makes each Dial succeed is characterised exactly, with what it sends; neither panics. Refuted: the answer may come from anyone, for GTPv2 even an Echo Request of somebody else; GTPv2 Dial fails on any other first datagram; DialUPlane loses its time limit after the first datagram and can block for ever; with a done context it returns nil, nil; a failed Dial leaves its socket open."
  },
  {
   "property": "C63",
   "status": "partial",
   "theorems": [
    "C63_v2_grouped_types",
    "C63_v2_user_function",
    "C63_v2_add_after_set_refuted",
    "C63_v2_nil_function_refuted",
    "C63_v2_other_types_undisturbed",
    "C63_v2_ungrouping_harmless",
    "C63_v2_grouping_later_refuted"
   ],
   "note": "The classification after any history, and that IEs of other types are unaffected, are proved. Refuted: AddGroupedIEType is ignored after SetIsGroupedFun; a nil function panics; an IE made or parsed before its type became grouped is marshalled without its value."
  },
  {
   "property": "C64",
   "status": "proved",
   "theorems": [
    "C64_v2_request",
    "C64_v2_respond",
    "C64_v2_transaction"
   ],
   "note": "for the responses built and parsed alike (built2), on calls not interleaved with others; interleavings are covered by C47 and C50"
  },
  {
   "property": "C65",
   "status": "partial",
   "theorems": [
    "C65_v2_says",
    "C65_v2_name_tells",
    "C65_v2_version_refuted",
    "C65_v1_says",
    "C65_v1_name_partial",
    "C65_v1_name_refuted",
    "C65_v1_name_tells",
    "C65_v0_says"
   ],
   "note": "Refuted: GTPv2 Version is always 2; the names of the GTPv1 types 26, 31 and 255."
  },
  {
   "property": "C66",
   "status": "partial",
   "theorems": [
    "C66_tunnels",
    "C66_returned",
    "C66_deleted",
    "C66_freed",
    "C66_disabled",
    "C66_add",
    "C66_override",
    "C66_delete",
    "C66_delete_missing",
    "C66_lost",
    "C66_override_gives_back_refuted",
    "C66_override_atomic_refuted",
    "C66_others_kept_refuted",
    "C66_tunnel_teid_taken_refuted"
   ],
   "note": "Refuted: the TEID of a replaced tunnel is never given back, AddTunnelOverride is not atomic, concurrent calls can delete a tunnel nobody named, a tunnel's TEID is not marked as taken. The kernel's side is assumed, see UKernel.v."
  },
  {
   "property": "C67",
   "status": "proved",
   "theorems": [
    "C67_v2_answers",
    "C67_v2_answers_ip",
    "C67_v2_answers_ip6",
    "C67_v2_answers_forwarding",
    "C67_v2_answers_offending",
    "C67_v2_answers_pdn",
    "C67_v2_answers_location",
    "C67_v2_answers_options",
    "C67_v2_answers_template",
    "C67_v2_answers_context"
   ],
   "note": "All accessors of AccSpec.v; for TrafficFlowTemplate also which template is answered. OffendingIE answers only for an IE without a payload, which is what NewCause writes."
  },
  {
   "property": "C68",
   "status": "proved",
   "theorems": [
    "C68_data_races",
    "C68_guarded",
    "C68_safe_functions"
   ],
   "note": "Both directions: no race outside the table of RaceSpec.v, and a schedule for each pair in it. The table is long: most functions of a UPlaneConn race with ListenAndServe and EnableKernelGTP, those of a Conn with Listen."
  },
  {
   "property": "C69",
   "status": "partial",
   "theorems": [
    "C69_no_deadlock",
    "C69_enable_logging_never_returns",
    "C69_every_call_returns_refuted",
    "C69_enable_logging_blocks",
    "C69_enable_logging_stops"
   ],
   "note": "Proved as long as EnableLogging is not called. Refuted: EnableLogging of gtpv1 and gtpv2 never returns, and stops every goroutine that logs afterwards."
  },
  {
   "property": "C70",
   "status": "partial",
   "theorems": [
    "C70_comes_to_rest",
    "C70_close_ends_everything",
    "C70_cancel_ends_serving",
    "C70_cancel_unblocks_readers_refuted",
    "C70_readers_get_no_error",
    "C70_close_gives_readers_an_error_refuted",
    "C70_close_without_serve_refuted",
    "C70_close_after_listen_twice_refuted",
    "C70_failed_listen_leaves_no_socket_refuted",
    "C70_returned_means_shut_refuted",
    "C70_returned_means_handled_refuted",
    "C70_serve_returns_why",
    "C70_a_closed_socket_is_dead",
    "C70_close_works_once",
    "C70_only_a_second_close_panics",
    "C70_only_close_panics_refuted"
   ],
   "note": "Proved for a connection that is opened once and served. Refuted: ReadFromGTP returns a nil error on Close and does not return when the context ends; Close without Serve unblocks nothing; Listen twice, a local address that is no IP address and a failed read leave a socket open; handlers may run after Serve has returned; use before Listen panics."
  },
  {
   "property": "C71",
   "status": "partial",
   "theorems": [
    "C71_same_parse",
    "C71_v2_ies_bounded",
    "C71_v2_ie_bounded",
    "C71_v2_message_bounded",
    "C71_v1_ies_bounded",
    "C71_v0_ies_bounded",
    "C71_v1_message_bounded",
    "C71_v1_tpdu_bounded",
    "C71_v0_message_bounded",
    "C71_v2_unmarshal_calls",
    "C71_v2_len_calls_quadratic",
    "C71_nested_ies_cost",
    "C71_linear_work_refuted"
   ],
   "note": "Refuted part: the number of MarshalLen calls is not linear in the size of the datagram; the bounds on IEs, depth, UnmarshalBinary calls and the quadratic bound are proved."
  },
  {
   "property": "C72",
   "status": "partial",
   "theorems": [
    "C72_v2_ie",
    "C72_v1_ie",
    "C72_v0_ie",
    "C72_v2_header",
    "C72_v1_header",
    "C72_v0_header",
    "C72_v2_prettify",
    "C72_v1_prettify",
    "C72_v0_prettify",
    "C72_v2_parsed",
    "C72_v1_parsed",
    "C72_v0_parsed",
    "C72_v2_grouped_refuted",
    "C72_v2_names_partial",
    "C72_v2_names_refuted",
    "C72_v1_names_partial",
    "C72_v1_names_refuted",
    "C72_v0_names",
    "C72_names_tell"
   ],
   "note": "Printed values can be told apart: proved for all IEs, headers and messages. Refuted: names of the GTPv1 types below 128 and of two GTPv2 types; type and instance of a grouped IE in Prettify."
  },
  {
   "property": "C73",
   "status": "partial",
   "theorems": [
    "C73_add_error_iff",
    "C73_add_ok",
    "C73_add_failed",
    "C73_add_none",
    "C73_discarded_error_refuted",
    "C73_zero_type_refuted",
    "C73_linked_chain",
    "C73_comprehension",
    "C73_types_told_apart"
   ],
   "note": "Which lists are accepted and what success and failure do to the header: proved. Refuted: an error leaves the header unchanged; every accepted list is read back (type 0)."
  },
  {
   "property": "C74",
   "status": "partial",
   "theorems": [
    "C74_errors_told",
    "C74_unexpected_ie_refuted"
   ],
   "note": "Proved for all kinds of errors but UnexpectedIEError, which is refuted."
  },
  {
   "property": "C75",
   "status": "partial",
   "theorems": [
    "C75_pgw_answers",
    "C75_pgw_answers_only",
    "C75_pgw_keeps",
    "C75_pgw_returns",
    "C75_no_teid_refuted",
    "C75_downlink_refuted",
    "C75_echo",
    "C75_echo_short_refuted",
    "C75_pgw_delete",
    "C75_pgw_delete_unknown",
    "C75_pgw_delete_silent_refuted",
    "C75_mme_created",
    "C75_mme_unknown_refuted"
   ],
   "note": "Proved: which Create Session Requests are answered and how, Delete Session, the packet rewriting, the MME's side, and that a request never ends the P-GW while TEIDs are free. Refuted: without a free TEID, on short packets, on a first attach and on a response under an unknown TEID the program ends; downlink packets always carry TEID 0; the session lacks the mobile country code. Of the S-GW example the deletion handlers are modelled (C76); the eNB example is not."
  },
  {
   "property": "C76",
   "status": "proved",
   "theorems": [
    "C76_v2_forward",
    "C76_sgw_delete",
    "C76_sgw_delete_silent_refuted",
    "C76_sgw_delete_bearer",
    "C76_sgw_delete_bearer_refused",
    "C76_sgw_delete_bearer_silent_refuted",
    "C76_sgw_delete_bearer_returns"
   ],
   "note": "Refuted at the edges: a request that finds no session, or a session without the TEID needed, is not answered; of several EBIs only the first is passed on. A Create Session Request with both a private extension and unknown IEs is excluded from the forwarding theorem (see C16). The waiting is a function of its outcome: answered, not answered, answered by another message."
  },
  {
   "property": "C77",
   "status": "proved",
   "theorems": [
    "C77_v2_fill",
    "C77_v2_received",
    "C77_v2_elsewhere",
    "C77_v2_elsewhere_refuted"
   ],
   "note": "Excludes Context Response, a Create Session Request with both a private extension and additional IEs (both refuted under C14), and the fields of misplaced_parse2 (refuted under C52). That Marshal reports an IE in a wrong field is refuted."
  },
  {
   "property": "C78",
   "status": "proved",
   "theorems": [
    "C78_sgw_created",
    "C78_sgw_removed",
    "C78_sgw_refusal_refuted",
    "C78_sgw_ipv6_refuted",
    "C78_sgw_relay",
    "C78_sgw_modify",
    "C78_sgw_modify_only",
    "C78_sgw_modify_nowhere_refuted",
    "C78_sgw_returns"
   ],
   "note": "Refuted at the edges: a P-GW's refusal is never passed on (the MME is answered with the S-GW's own cause later); an IPv6-only F-TEID is an error that leaves the session registered; a Modify Bearer Request without an F-TEID is accepted with a relay to no address; an F-TEID of the S-GW's own interface type replaces the S-GW's own TEID. net.ResolveUDPAddr is modelled on the text of an IP address only, and the five-second wait as an input."
  },
  {
   "property": "C79",
   "status": "proved",
   "theorems": [
    "C79_attach",
    "C79_mme_modified",
    "C79_mme_nowhere_refuted",
    "C79_modify",
    "C79_mme_modified_returns"
   ],
   "note": "The messages travel as octets; the network in between neither loses nor changes them. Refuted at the edge: a Bearer Context without an F-TEID starts the eNB with no address."
  },
  {
   "property": "C80",
   "status": "partial",
   "theorems": [
    "C80_sgw_asks",
    "C80_sgw_asks_only",
    "C80_sgw_keeps",
    "C80_attach",
    "C80_sgw_registered_refuted",
    "C80_sgw_ask_returns",
    "C80_sgw_no_teid_refuted"
   ],
   "note": "The request and both sessions are proved for every received message. Refuted: only drawn TEIDs are registered; no panic when no TEID is left."
  },
  {
   "property": "C81",
   "status": "partial",
   "theorems": [
    "C81_mme_asks",
    "C81_attach",
    "C81_mme_apn_refuted"
   ],
   "note": "Proved for every TEID, address, sequence number and read of the APN, from getPGWIP on; before it handleAttach panics for an IMSI without a session (C75). Refuted: the P-GW asked is the one of the APN named."
  },
  {
   "property": "C82",
   "status": "partial",
   "theorems": [
    "C82_mme_modifies",
    "C82_user_plane",
    "C82_mme_teid0_refuted",
    "C82_mme_no_teid_refuted"
   ],
   "note": "Proved for every TEID, address and sequence number; the messages travel as octets that are neither lost nor changed. Refuted: no request without a TEID of the S-GW (sent under 0); no panic when no TEID is left for the eNB."
  }
 ]
}