(** Model of the remaining accessors of gtpv2/ie: those that only forward to another one.
    net.IP.String is not modelled: an address accessor that returns a string returns here
    the address whose String it is.  No proofs here. *)
From Verif Require Import Base Utils V2IE V2Codec V2Codec2.
Open Scope N_scope.
Open Scope list_scope.

(** s1udf.go:36-43 S1UDataForwarding *)
Definition acc_s1udf : ie2 -> res s1udf := typed 91 (fun i => s1udf_parse (i2_payload i)).
(** s1udf.go:154-160 SGWAddress *)
Definition acc_sgw_address : ie2 -> res (option bytes) := typed 91 acc_ip.
(** s103pdf.go:36-43 S103PDNDataForwardingInfo *)
Definition acc_s103 : ie2 -> res s103 := typed 90 (fun i => s103_parse (i2_payload i)).
(** s103pdf.go:184-190 HSGWAddress *)
Definition acc_hsgw_address : ie2 -> res (option bytes) := typed 90 acc_ip.
(** bearer-tft.go:63-65 BearerTFT and tad.go:52-54 TrafficAggregateDescription call
    TrafficFlowTemplate; ip-addr.go:40-47 IPAddress calls IP; apn-restriction.go:30-32
    RestrictionType calls APNRestriction; epc-timer.go:64-66 EPCTimer calls Timer: they are
    the same functions and are not repeated. *)
