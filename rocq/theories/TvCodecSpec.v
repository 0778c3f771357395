(** Layouts of the typed IEs of GTPv1 (TS 29.060 clause 7.7) and GTPv0 (TS 09.60 clause 7.9)
    and tables of their accessors. *)
From Coq Require Import String ZArith.
From Verif Require Import Base Utils TvIE TvIESpec V2Codec V2Codec2 V2Pco TvCodec.
Open Scope N_scope.
Open Scope list_scope.

(** A constructor produced an IE of the given type with the given value; being [wf1] it
    marshals and parses as every IE does (C08, C09). *)
Definition made1 (tv : N -> option nat) (xl : N -> bool) (r : res (option ie1)) (t : N) (v : bytes) (i : ie1) : Prop :=
  r = Ok (Some i) /\ i1_type i = t /\ i1_payload i = v /\ wf1 tv xl i.
(** for constructors that never return nil *)
Definition some1 (r : res ie1) : res (option ie1) := do i <- r; Ok (Some i).

(** ** Type codes (TS 29.060 table 37; TS 09.60 table 38) *)
Definition octet_codes1 : list (string * N) := [
  ("Cause", 1); ("MAPCause", 11); ("Recovery", 14); ("SelectionMode", 15); ("NSAPI", 20); ("RANAPCause", 21);
  ("APNRestriction", 149); ("RATType", 151)]%string.
Definition word_codes1 : list (string * N) := [("PacketTMSI", 5); ("ChargingID", 127)]%string.
Definition raw_codes1 : list (string * N) := [("QoSProfile", 135); ("ExtensionHeaderTypeList", 141)]%string.
Definition teid_codes1 : list (string * N) := [("TEIDDataI", 16); ("TEIDCPlane", 17); ("TEIDDataII", 18)]%string.
Definition flag_codes1 : list (string * N) := [("ReorderingRequired", 8); ("MSValidated", 13); ("TeardownInd", 19)]%string.
Definition octet_codes0 : list (string * N) := [
  ("Cause", 1); ("Recovery", 14); ("SelectionMode", 15); ("MSNotReachableReason", 19)]%string.
Definition word_codes0 : list (string * N) := [
  ("TemporaryLogicalLinkIdentity", 4); ("PacketTMSI", 5); ("ChargingID", 127)]%string.

(** an octet of flags, highest first *)
Definition bits_octet (fs : list bool) : N := fold_left (fun a b => 2 * a + b2n b) fs 0.

(** ** Layouts *)
(** MSISDN (7.7.33): the octet 0x91 (international, ISDN numbering), then TBCD *)
Definition nature_of_address : N := 145.
(** PDP type organisation and number (7.7.27) *)
Definition eua_octets (addr : bytes) : bytes := [241; if (len addr =? 4)%nat then 33 else 87] ++ addr.
Definition ipv4_or_6 (ip : bytes) : Prop := (len ip = 4%nat \/ (len ip = 16%nat /\ firstn 12 ip <> v4in6)) /\ bytes_ok ip.
(** User Location Information (7.7.51) *)
Definition area_octets (loc : N) (plmn : bytes) (lac : N) (x : bytes) : bytes := [loc] ++ plmn ++ enc16 lac ++ x.
(** Authentication quintuplet (7.7.35): RAND, XRES with its length, CK, IK, AUTN with its length *)
Definition quintuplet_octets (rand xres ck ik autn : bytes) : bytes :=
  rand ++ [N.of_nat (len xres)] ++ xres ++ ck ++ ik ++ [N.of_nat (len autn)] ++ autn.
(** GTPv0 Quality of Service Profile (TS 09.60 7.9.7, TS 04.08): delay and reliability class,
    peak throughput and precedence class, mean throughput *)
Definition qos0_octets (delay reliability peak precedence mean : N) : bytes :=
  [8 * delay + reliability; 16 * peak + precedence; mean].

(** ** Accessors by name: the types they answer for, and how they end *)
Definition ends1 {A} (f : ie1 -> res A) (i : ie1) : res unit :=
  match f i with Ok _ => Ok tt | Err e => Err e | Panic => Panic end.
Definition accessors1 : list (string * list N * (ie1 -> res unit)) :=
  map (fun e => (fst e, [snd e], ends1 (acc8 (snd e)))) octet_ies1 ++
  map (fun e => (fst e, [snd e], ends1 (acc32 (snd e)))) word_ies1 ++
  map (fun e => (fst e, [snd e], ends1 (acc_raw (snd e)))) raw_ies1 ++
  [("TEID", [16; 17; 18], ends1 acc_teid1);
   ("CommonFlags", [148], ends1 (acc8 148)); ("ExtendedCommonFlags", [193], ends1 (acc8 193)); ("ExtendedCommonFlagsII", [218], ends1 (acc8 218));
   ("PTMSISignature", [12], ends1 acc_ptmsi_sig1); ("IMSI", [2], ends1 acc_imsi1); ("MSISDN", [134], ends1 acc_msisdn1); ("IMEISV", [154], ends1 acc_imeisv);
   ("PrivateExtension", [255], ends1 (acc_raw 255)); ("ExtensionIdentifier", [255], ends1 acc_ext_id); ("ExtensionValue", [255], ends1 acc_ext_value);
   ("RouteingAreaIdentity", [3], ends1 (acc_raw 3)); ("UserLocationInformation", [152], ends1 (acc_raw 152));
   ("MCC", [3; 152], ends1 acc_mcc1); ("MNC", [3; 152], ends1 acc_mnc1); ("LAC", [3; 152], ends1 acc_lac1); ("RAC", [3; 152], ends1 acc_rac1);
   ("CGI", [152], ends1 acc_cgi1); ("SAC", [152], ends1 acc_sac1);
   ("EndUserAddress", [128], ends1 (acc_raw 128)); ("PDPTypeOrganization", [128], ends1 acc_pdp_org); ("PDPTypeNumber", [128], ends1 acc_pdp_number);
   ("IP", [128; 133], ends1 acc_ip1); ("IPAddress", [128; 133], ends1 acc_ip1); ("GSNAddress", [133], ends1 (acc_address 133));
   ("AccessPointName", [131], ends1 acc_apn1);
   ("AuthenticationTriplet", [9], ends1 (acc_raw 9)); ("RAND", [9; 136], ends1 acc_rand); ("SRES", [9], ends1 acc_sres); ("Kc", [9], ends1 acc_kc);
   ("AuthenticationQuintuplet", [136], ends1 acc_quintuplet); ("CK", [136], ends1 acc_ck); ("IK", [136], ends1 acc_ik);
   ("TimeZone", [153], ends1 acc_ms_time_zone); ("DaylightSaving", [153], ends1 acc_ms_dst); ("Timestamp", [214], ends1 acc_timestamp1);
   ("ProtocolConfigurationOptions", [132], ends1 acc_pco1)]%string.
Definition accessors0 : list (string * list N * (ie1 -> res unit)) :=
  map (fun e => (fst e, [snd e], ends1 (acc8 (snd e)))) octet_ies0 ++
  map (fun e => (fst e, [snd e], ends1 (acc32 (snd e)))) word_ies0 ++
  [("PTMSISignature", [12], ends1 acc_ptmsi_sig1); ("IMSI", [2], ends1 acc_imsi1); ("MSISDN", [134], ends1 acc_msisdn1);
   ("PrivateExtension", [255], ends1 (acc_raw 255)); ("ExtensionIdentifier", [255], ends1 acc_ext_id); ("ExtensionValue", [255], ends1 acc_ext_value);
   ("RouteingAreaIdentity", [3], ends1 (acc_raw 3)); ("MCC", [3], ends1 acc_mcc0); ("MNC", [3], ends1 acc_mnc0); ("LAC", [3], ends1 acc_lac0); ("RAC", [3], ends1 acc_rac0);
   ("EndUserAddress", [128], ends1 (acc_raw 128)); ("PDPTypeOrganization", [128], ends1 acc_pdp_org); ("PDPTypeNumber", [128], ends1 acc_pdp_number);
   ("IPAddress", [128; 133], ends1 acc_ip1); ("GSNAddress", [133], ends1 (acc_address 133)); ("ChargingGatewayAddress", [251], ends1 (acc_address 251));
   ("AccessPointName", [131], ends1 acc_apn0);
   ("QualityOfServiceProfile", [6], ends1 (acc_raw 6)); ("QoSDelay", [6], ends1 acc_qos_delay); ("QoSReliability", [6], ends1 acc_qos_reliability);
   ("QoSPeak", [6], ends1 acc_qos_peak); ("QoSPrecedence", [6], ends1 acc_qos_precedence); ("QoSMean", [6], ends1 acc_qos_mean);
   ("FlowLabelDataI", [16], ends1 (acc_flow 16)); ("FlowLabelSignalling", [17], ends1 (acc_flow 17)); ("FlowLabelDataII", [18], ends1 (acc_raw 18));
   ("NSAPI", [18], ends1 acc_nsapi0); ("FlowLabelData", [16; 17; 18], ends1 acc_flow_data)]%string.
