(** Which IEs the GTPv1 and GTPv0 accessors answer for (properties C38, C39): for each accessor
    the types, and for each type the octets the payload must have. *)
From Coq Require Import String.
From Verif Require Import Base.
Open Scope N_scope.
Open Scope list_scope.

Definition answers1 : list (string * list (N * N)) := [
  ("Cause", [(1, 1)]); ("MAPCause", [(11, 1)]); ("Recovery", [(14, 1)]); ("SelectionMode", [(15, 1)]); ("NSAPI", [(20, 1)]);
  ("RANAPCause", [(21, 1)]); ("APNRestriction", [(149, 1)]); ("RATType", [(151, 1)]);
  ("PacketTMSI", [(5, 4)]); ("ChargingID", [(127, 4)]); ("ExtensionHeaderTypeList", [(141, 0)]); ("QoSProfile", [(135, 0)]);
  ("TEID", [(16, 4); (17, 4); (18, 4)]); ("CommonFlags", [(148, 1)]); ("ExtendedCommonFlags", [(193, 1)]); ("ExtendedCommonFlagsII", [(218, 1)]);
  ("PTMSISignature", [(12, 3)]); ("IMSI", [(2, 1)]); ("MSISDN", [(134, 2)]); ("IMEISV", [(154, 1)]);
  ("PrivateExtension", [(255, 0)]); ("ExtensionIdentifier", [(255, 2)]); ("ExtensionValue", [(255, 3)]);
  ("RouteingAreaIdentity", [(3, 0)]); ("UserLocationInformation", [(152, 0)]);
  ("MCC", [(3, 2); (152, 3)]); ("MNC", [(3, 3); (152, 4)]); ("LAC", [(3, 5); (152, 6)]);
  ("EndUserAddress", [(128, 0)]); ("PDPTypeOrganization", [(128, 1)]); ("PDPTypeNumber", [(128, 2)]); ("GSNAddress", [(133, 4)]);
  ("AuthenticationTriplet", [(9, 0)]); ("RAND", [(9, 16); (136, 16)]); ("SRES", [(9, 20)]); ("Kc", [(9, 28)]);
  ("AuthenticationQuintuplet", [(136, 1)]); ("TimeZone", [(153, 1)]); ("DaylightSaving", [(153, 2)]); ("Timestamp", [(214, 4)])]%string.
Definition answers0 : list (string * list (N * N)) := [
  ("Cause", [(1, 1)]); ("Recovery", [(14, 1)]); ("SelectionMode", [(15, 1)]); ("MSNotReachableReason", [(19, 1)]);
  ("TemporaryLogicalLinkIdentity", [(4, 4)]); ("PacketTMSI", [(5, 4)]); ("ChargingID", [(127, 4)]);
  ("PTMSISignature", [(12, 3)]); ("IMSI", [(2, 1)]); ("MSISDN", [(134, 2)]);
  ("PrivateExtension", [(255, 0)]); ("ExtensionIdentifier", [(255, 2)]); ("ExtensionValue", [(255, 3)]);
  ("RouteingAreaIdentity", [(3, 0)]); ("MCC", [(3, 2)]); ("MNC", [(3, 2)]); ("LAC", [(3, 5)]); ("RAC", [(3, 6)]);
  ("EndUserAddress", [(128, 0)]); ("PDPTypeOrganization", [(128, 1)]); ("PDPTypeNumber", [(128, 2)]);
  ("GSNAddress", [(133, 4)]); ("ChargingGatewayAddress", [(251, 4)]); ("AccessPointName", []);
  ("QualityOfServiceProfile", [(6, 0)]); ("QoSDelay", [(6, 1)]); ("QoSReliability", [(6, 1)]);
  ("QoSPeak", [(6, 2)]); ("QoSPrecedence", [(6, 2)]); ("QoSMean", [(6, 3)]);
  ("FlowLabelDataI", [(16, 2)]); ("FlowLabelSignalling", [(17, 2)]); ("FlowLabelDataII", [(18, 0)]);
  ("NSAPI", [(18, 1)]); ("FlowLabelData", [(16, 2); (17, 2); (18, 3)])]%string.
(** an IE of type t with payload p is one of those *)
Definition served (rows : list (N * N)) (t : N) (p : bytes) : Prop :=
  exists n, In (t, n) rows /\ n <= N.of_nat (len p).
(** every length octet of an access point name counts octets that are there *)
Fixpoint labels_fit (fuel : nat) (p : bytes) : Prop :=
  match fuel, p with
  | _, [] => True
  | O, _ => False
  | S k, n :: r => (N.to_nat n <= len r)%nat /\ labels_fit k (skipn (N.to_nat n) r)
  end.
