(** Which IEs the GTPv2 accessors answer for (property C67): for each accessor the types, for
    each type what must be in its payload, and the octets the payload must have. *)
From Coq Require Import String.
From Verif Require Import Base.
Open Scope N_scope.
Open Scope list_scope.

(** an IE type, (octet, mask, value) conditions on the payload, and its smallest length *)
Definition need : Type := N * list (nat * N * N) * N.
Definition any (t n : N) : need := (t, [], n).
Definition only (t : N) (k : nat) (mask v n : N) : need := (t, [(k, mask, v)], n).
Definition serves (rows : list need) (t : N) (p : bytes) : Prop :=
  exists cs n, In (t, cs, n) rows /\ Forall (fun c => N.land (nth (fst (fst c)) p 0) (snd (fst c)) = snd c) cs /\ n <= N.of_nat (len p).

Definition answers2 : list (string * list need) := [
  ("Recovery", [any 3 1]); ("RATType", [any 82 1]); ("ProcedureTransactionID", [any 100 1]); ("HopCounter", [any 113 1]);
  ("APNRestriction", [any 127 1]); ("SelectionMode", [any 128 1]); ("NodeType", [any 135 1]); ("RFSPIndex", [any 144 1]);
  ("CSGMembershipIndication", [any 148 1]); ("ServiceIndicator", [any 149 1]); ("DetachType", [any 150 1]); ("NodeFeatures", [any 152 1]);
  ("ChargingCharacteristics", [any 95 2]); ("PortNumber", [any 126 2]); ("IntegerNumber", [any 187 2]);
  ("TMSI", [any 88 4]); ("PacketTMSI", [any 111 4]); ("LocalDistinguishedName", [any 151 0]);
  ("AccessPointName", [any 71 0]); ("FullyQualifiedDomainName", [any 136 0]); ("Indication", [any 77 0]);
  ("EPSBearerID", [any 73 1]); ("ChargingID", [any 94 4]); ("CSGID", [any 147 4; any 145 7]); ("CMI", [any 148 1; any 145 8]);
  ("PTMSISignature", [any 112 1]); ("EnterpriseID", [any 255 2]); ("PrivateExtension", [any 255 3]); ("InterfaceType", [any 87 1]);
  ("Cause", [any 2 1]); ("CauseFlags", [any 2 2]);
  ("AggregateMaximumBitRate", [any 72 8]); ("AggregateMaximumBitRateUp", [any 72 4]); ("AggregateMaximumBitRateDown", [any 72 8]);
  ("AllocationRetensionPriority", [any 155 1]); ("PriorityLevel", [any 155 1; any 80 22]);
  ("BearerQoS", [any 80 22]); ("FlowQoS", [any 81 21]); ("QCILabel", [any 80 2; any 81 1]);
  ("MBRForUplink", [any 80 7; any 81 6]); ("MBRForDownlink", [any 80 12; any 81 11]);
  ("GBRForUplink", [any 80 17; any 81 16]); ("GBRForDownlink", [any 80 22; any 81 21]);
  ("BearerFlags", [any 97 1]); ("MBMSFlags", [any 171 1]); ("RANNASCause", [any 172 2]);
  ("IMSI", [any 1 1]); ("MSISDN", [any 76 1]); ("MobileEquipmentIdentity", [any 75 1]);
  ("PLMNID", [any 120 3]); ("ServingNetwork", [any 83 3]); ("CNID", [any 89 5]);
  ("MMEGroupID", [any 117 5]); ("MMECode", [any 117 6]); ("MTMSI", [any 117 10]);
  ("UserCSGInformation", [any 145 8]); ("AccessMode", [any 145 8]); ("TraceID", [any 115 6; any 96 6]);
  ("NodeIDType", [any 132 1]); ("DelayValue", [any 92 1]); ("Timer", [any 156 1]); ("EPCTimer", [any 156 1]); ("Throttling", [any 154 2]);
  ("TimeZone", [any 114 1]); ("DaylightSaving", [any 114 2]); ("Timestamp", [any 170 4; any 179 4]);
  (* the first octet says which addresses, or which of two forms, follow *)
  ("FullyQualifiedTEID", [only 87 0 192 0 5; only 87 0 192 128 9; only 87 0 192 64 21; only 87 0 192 192 25]);
  ("GREKey", [any 87 6; only 90 0 255 4 9; only 90 0 255 16 21]); ("TEID", [any 87 5; only 91 0 255 4 9; only 91 0 255 16 21]);
  ("EBIs", [only 90 0 255 4 10; only 90 0 255 16 22]);
  ("HSGWAddress", [only 90 0 255 4 5; only 90 0 255 16 17]); ("SGWAddress", [only 91 1 255 4 6; only 91 1 255 16 18]);
  ("PagingAndServiceInformation", [only 186 0 1 0 2; only 186 0 1 1 3]); ("PagingPolicyIndication", [only 186 0 1 1 3]);
  ("FullyQualifiedCSID", [only 132 0 240 0 5; only 132 0 240 32 5; only 132 0 240 16 17]);
  ("NodeID", [only 132 0 240 0 6; only 132 0 240 32 6; only 132 0 240 16 18]);
  ("CSIDs", [only 132 0 240 0 1; only 132 0 240 32 1; only 132 0 240 16 1])]%string.

(** what an address accessor needs: an address; an allocation whose type octet names one; a
    forwarding IE whose length octet is 4 or 16; an F-TEID with an address flag *)
Definition ip_rows : list need := [
  any 74 4; only 79 0 7 1 5; only 79 0 7 2 18; only 79 0 7 3 22;
  only 90 0 255 4 5; only 90 0 255 16 17; only 91 1 255 4 6; only 91 1 255 16 18;
  only 87 0 192 128 9; only 87 0 192 64 21; only 87 0 192 192 25].

(** IPv6, apart from an address IE; an IPv4 address is an answer too (as ::ffff:a.b.c.d) *)
Definition ip6_rows : list need := [
  only 79 0 7 2 18; only 79 0 7 3 22; only 90 0 255 4 5; only 90 0 255 16 17; only 91 1 255 4 6; only 91 1 255 16 18;
  only 87 0 192 64 21; only 87 0 192 192 25].
(** the IEs that begin with a network code; a user location is apart *)
Definition plmn_rows : list need := [any 83 3; any 120 3; any 89 3; any 115 3; any 117 3; any 145 3].

(** octets of the user location parts whose flags are set *)
Definition location_octets (flags : N) : nat :=
  let part k n := if N.testbit flags k then n else 0%nat in
  (part 0%N 7 + part 1%N 7 + part 2%N 7 + part 3%N 5 + part 4%N 7 + part 5%N 5 + part 6%N 6 + part 7%N 6)%nat.
(** protocol configuration options behind the first octet: containers of two octets of
    identifier, one of length, and the contents - which are skipped only if they are all there *)
Fixpoint options_fit (fuel : nat) (p : bytes) : Prop :=
  match fuel, p with
  | _, [] => True
  | S k, _ :: _ :: n :: r => options_fit k (if (N.to_nat n <=? len r)%nat then skipn (N.to_nat n) r else r)
  | _, _ => False
  end.
(** the accessors that also look into a Bearer Context: at its first IE of the type given *)
Definition in_context : list (string * N) := [
  ("EPSBearerID", 73); ("ChargingID", 94); ("Cause", 2); ("BearerQoS", 80); ("BearerFlags", 97); ("RANNASCause", 172);
  ("ProtocolConfigurationOptions", 78); ("TrafficFlowTemplate", 84); ("BearerTFT", 84); ("TrafficAggregateDescription", 84)]%string.
