(** GENERATED by tools/extract.py from gtpv0/message/*.go: do not edit. *)
From Coq Require Import String.
From Verif Require Import Base MsgModel.
Open Scope string_scope.
Open Scope N_scope.
Open Scope list_scope.

(** ** CreatePDPContextRequest: struct gtpv0/message/create-pdp-context-req.go:12-28 *)
(** NewCreatePDPContextRequest, gtpv0/message/create-pdp-context-req.go:31-79 (dispatch of the given IEs) *)
Definition new_CreatePDPContextRequest : table := Tbl true [
  (3, ASet "RAI") (* ie.RouteingAreaIdentity *);
  (6, ASet "QoSProfile") (* ie.QualityOfServiceProfile *);
  (14, ASet "Recovery") (* ie.Recovery *);
  (15, ASet "SelectionMode") (* ie.SelectionMode *);
  (16, ASet "FlowLabelDataI") (* ie.FlowLabelDataI *);
  (17, ASet "FlowLabelSignalling") (* ie.FlowLabelSignalling *);
  (128, ASet "EndUserAddress") (* ie.EndUserAddress *);
  (131, ASet "APN") (* ie.AccessPointName *);
  (132, ASet "PCO") (* ie.ProtocolConfigurationOptions *);
  (133, AIfNil "SGSNAddressForSignalling" (ASet "SGSNAddressForSignalling") (ASet "SGSNAddressForUserTraffic")) (* ie.GSNAddress *);
  (134, ASet "MSISDN") (* ie.MSISDN *);
  (255, ASet "PrivateExtension") (* ie.PrivateExtension *)
  ] (AApp "AdditionalIEs").

(** CreatePDPContextRequest.UnmarshalBinary, gtpv0/message/create-pdp-context-req.go:202-256 *)
Definition unm_CreatePDPContextRequest : table := Tbl true [
  (3, ASet "RAI") (* ie.RouteingAreaIdentity *);
  (6, ASet "QoSProfile") (* ie.QualityOfServiceProfile *);
  (14, ASet "Recovery") (* ie.Recovery *);
  (15, ASet "SelectionMode") (* ie.SelectionMode *);
  (16, ASet "FlowLabelDataI") (* ie.FlowLabelDataI *);
  (17, ASet "FlowLabelSignalling") (* ie.FlowLabelSignalling *);
  (128, ASet "EndUserAddress") (* ie.EndUserAddress *);
  (131, ASet "APN") (* ie.AccessPointName *);
  (132, ASet "PCO") (* ie.ProtocolConfigurationOptions *);
  (133, AIfNil "SGSNAddressForSignalling" (ASet "SGSNAddressForSignalling") (ASet "SGSNAddressForUserTraffic")) (* ie.GSNAddress *);
  (134, ASet "MSISDN") (* ie.MSISDN *);
  (255, ASet "PrivateExtension") (* ie.PrivateExtension *)
  ] (AApp "AdditionalIEs").

(** fields gtpv0/message/create-pdp-context-req.go:12-28; MarshalTo gtpv0/message/create-pdp-context-req.go:92-190; MarshalLen gtpv0/message/create-pdp-context-req.go:259-309; SetLength gtpv0/message/create-pdp-context-req.go:312-314;
    MessageTypeName "Create PDP Context Request"; TEID(): (of the header) *)
Definition d_CreatePDPContextRequest : mdesc := {|
  md_name := "CreatePDPContextRequest";
  md_ctor := Ctor0 30 16 (* seq label tid *);
  md_fields := [("RAI", FSingle); ("QoSProfile", FSingle); ("Recovery", FSingle); ("SelectionMode", FSingle); ("FlowLabelDataI", FSingle); ("FlowLabelSignalling", FSingle); ("EndUserAddress", FSingle); ("APN", FSingle); ("PCO", FSingle); ("SGSNAddressForSignalling", FSingle); ("SGSNAddressForUserTraffic", FSingle); ("MSISDN", FSingle); ("PrivateExtension", FSingle); ("AdditionalIEs", FList)];
  md_new := new_CreatePDPContextRequest;
  md_unm := unm_CreatePDPContextRequest;
  md_min := 2;
  md_soft := false;
  md_check := false;
  md_reset := true;
  md_steps := [MSingle "RAI" true;
    MSingle "QoSProfile" true;
    MSingle "Recovery" true;
    MSingle "SelectionMode" true;
    MSingle "FlowLabelDataI" true;
    MSingle "FlowLabelSignalling" true;
    MSingle "EndUserAddress" true;
    MSingle "APN" true;
    MSingle "PCO" true;
    MSingle "SGSNAddressForSignalling" true;
    MSingle "SGSNAddressForUserTraffic" true;
    MSingle "MSISDN" true;
    MSingle "PrivateExtension" true;
    MList "AdditionalIEs" true true];
  md_lens := [LSingle "RAI";
    LSingle "QoSProfile";
    LSingle "Recovery";
    LSingle "SelectionMode";
    LSingle "FlowLabelDataI";
    LSingle "FlowLabelSignalling";
    LSingle "EndUserAddress";
    LSingle "APN";
    LSingle "PCO";
    LSingle "SGSNAddressForSignalling";
    LSingle "SGSNAddressForUserTraffic";
    LSingle "MSISDN";
    LSingle "PrivateExtension";
    LList "AdditionalIEs" true];
  md_sub := 20 |}.


(** ** CreatePDPContextResponse: struct gtpv0/message/create-pdp-context-res.go:12-28 *)
(** NewCreatePDPContextResponse, gtpv0/message/create-pdp-context-res.go:31-78 (dispatch of the given IEs) *)
Definition new_CreatePDPContextResponse : table := Tbl true [
  (1, ASet "Cause") (* ie.Cause *);
  (6, ASet "QoSProfile") (* ie.QualityOfServiceProfile *);
  (8, ASet "ReorderingRequired") (* ie.ReorderingRequired *);
  (14, ASet "Recovery") (* ie.Recovery *);
  (16, ASet "FlowLabelDataI") (* ie.FlowLabelDataI *);
  (17, ASet "FlowLabelSignalling") (* ie.FlowLabelSignalling *);
  (127, ASet "ChargingID") (* ie.ChargingID *);
  (128, ASet "EndUserAddress") (* ie.EndUserAddress *);
  (132, ASet "PCO") (* ie.ProtocolConfigurationOptions *);
  (133, AIfNil "GGSNAddressForSignalling" (ASet "GGSNAddressForSignalling") (ASet "GGSNAddressForUserTraffic")) (* ie.GSNAddress *);
  (251, ASet "ChargingGatewayAddress") (* ie.ChargingGatewayAddress *);
  (255, ASet "PrivateExtension") (* ie.PrivateExtension *)
  ] (AApp "AdditionalIEs").

(** CreatePDPContextResponse.UnmarshalBinary, gtpv0/message/create-pdp-context-res.go:201-255 *)
Definition unm_CreatePDPContextResponse : table := Tbl true [
  (1, ASet "Cause") (* ie.Cause *);
  (6, ASet "QoSProfile") (* ie.QualityOfServiceProfile *);
  (8, ASet "ReorderingRequired") (* ie.ReorderingRequired *);
  (14, ASet "Recovery") (* ie.Recovery *);
  (16, ASet "FlowLabelDataI") (* ie.FlowLabelDataI *);
  (17, ASet "FlowLabelSignalling") (* ie.FlowLabelSignalling *);
  (127, ASet "ChargingID") (* ie.ChargingID *);
  (128, ASet "EndUserAddress") (* ie.EndUserAddress *);
  (132, ASet "PCO") (* ie.ProtocolConfigurationOptions *);
  (133, AIfNil "GGSNAddressForSignalling" (ASet "GGSNAddressForSignalling") (ASet "GGSNAddressForUserTraffic")) (* ie.GSNAddress *);
  (251, ASet "ChargingGatewayAddress") (* ie.ChargingGatewayAddress *);
  (255, ASet "PrivateExtension") (* ie.PrivateExtension *)
  ] (AApp "AdditionalIEs").

(** fields gtpv0/message/create-pdp-context-res.go:12-28; MarshalTo gtpv0/message/create-pdp-context-res.go:91-189; MarshalLen gtpv0/message/create-pdp-context-res.go:258-307; SetLength gtpv0/message/create-pdp-context-res.go:310-312;
    MessageTypeName "Create PDP Context Response"; TEID(): (of the header) *)
Definition d_CreatePDPContextResponse : mdesc := {|
  md_name := "CreatePDPContextResponse";
  md_ctor := Ctor0 30 17 (* seq label tid *);
  md_fields := [("Cause", FSingle); ("QoSProfile", FSingle); ("ReorderingRequired", FSingle); ("Recovery", FSingle); ("FlowLabelDataI", FSingle); ("FlowLabelSignalling", FSingle); ("ChargingID", FSingle); ("EndUserAddress", FSingle); ("PCO", FSingle); ("GGSNAddressForSignalling", FSingle); ("GGSNAddressForUserTraffic", FSingle); ("ChargingGatewayAddress", FSingle); ("PrivateExtension", FSingle); ("AdditionalIEs", FList)];
  md_new := new_CreatePDPContextResponse;
  md_unm := unm_CreatePDPContextResponse;
  md_min := 2;
  md_soft := false;
  md_check := false;
  md_reset := true;
  md_steps := [MSingle "Cause" true;
    MSingle "QoSProfile" true;
    MSingle "ReorderingRequired" true;
    MSingle "Recovery" true;
    MSingle "FlowLabelDataI" true;
    MSingle "FlowLabelSignalling" true;
    MSingle "ChargingID" true;
    MSingle "EndUserAddress" true;
    MSingle "PCO" true;
    MSingle "GGSNAddressForSignalling" true;
    MSingle "GGSNAddressForUserTraffic" true;
    MSingle "ChargingGatewayAddress" true;
    MSingle "PrivateExtension" true;
    MList "AdditionalIEs" true true];
  md_lens := [LSingle "Cause";
    LSingle "QoSProfile";
    LSingle "ReorderingRequired";
    LSingle "Recovery";
    LSingle "FlowLabelDataI";
    LSingle "FlowLabelSignalling";
    LSingle "ChargingID";
    LSingle "EndUserAddress";
    LSingle "PCO";
    LSingle "GGSNAddressForSignalling";
    LSingle "GGSNAddressForUserTraffic";
    LSingle "ChargingGatewayAddress";
    LSingle "PrivateExtension";
    LList "AdditionalIEs" true];
  md_sub := 20 |}.


(** ** DeletePDPContextRequest: struct gtpv0/message/delete-pdp-context-req.go:14-18 *)
(** NewDeletePDPContextRequest, gtpv0/message/delete-pdp-context-req.go:21-42 (dispatch of the given IEs) *)
Definition new_DeletePDPContextRequest : table := Tbl true [
  (255, ASet "PrivateExtension") (* ie.PrivateExtension *)
  ] (AApp "AdditionalIEs").

(** DeletePDPContextRequest.UnmarshalBinary, gtpv0/message/delete-pdp-context-req.go:93-121 *)
Definition unm_DeletePDPContextRequest : table := Tbl true [
  (255, ASet "PrivateExtension") (* ie.PrivateExtension *)
  ] (AApp "AdditionalIEs").

(** fields gtpv0/message/delete-pdp-context-req.go:14-18; MarshalTo gtpv0/message/delete-pdp-context-req.go:55-81; MarshalLen gtpv0/message/delete-pdp-context-req.go:124-138; SetLength gtpv0/message/delete-pdp-context-req.go:141-143;
    MessageTypeName "Delete PDP Context Request"; TEID(): (of the header) *)
Definition d_DeletePDPContextRequest : mdesc := {|
  md_name := "DeletePDPContextRequest";
  md_ctor := Ctor0 30 20 (* seq label tid *);
  md_fields := [("PrivateExtension", FSingle); ("AdditionalIEs", FList)];
  md_new := new_DeletePDPContextRequest;
  md_unm := unm_DeletePDPContextRequest;
  md_min := 2;
  md_soft := false;
  md_check := false;
  md_reset := true;
  md_steps := [MSingle "PrivateExtension" true;
    MList "AdditionalIEs" true true];
  md_lens := [LSingle "PrivateExtension";
    LList "AdditionalIEs" true];
  md_sub := 20 |}.


(** ** DeletePDPContextResponse: struct gtpv0/message/delete-pdp-context-res.go:12-17 *)
(** NewDeletePDPContextResponse, gtpv0/message/delete-pdp-context-res.go:20-43 (dispatch of the given IEs) *)
Definition new_DeletePDPContextResponse : table := Tbl true [
  (1, ASet "Cause") (* ie.Cause *);
  (255, ASet "PrivateExtension") (* ie.PrivateExtension *)
  ] (AApp "AdditionalIEs").

(** DeletePDPContextResponse.UnmarshalBinary, gtpv0/message/delete-pdp-context-res.go:99-129 *)
Definition unm_DeletePDPContextResponse : table := Tbl true [
  (1, ASet "Cause") (* ie.Cause *);
  (255, ASet "PrivateExtension") (* ie.PrivateExtension *)
  ] (AApp "AdditionalIEs").

(** fields gtpv0/message/delete-pdp-context-res.go:12-17; MarshalTo gtpv0/message/delete-pdp-context-res.go:56-87; MarshalLen gtpv0/message/delete-pdp-context-res.go:132-149; SetLength gtpv0/message/delete-pdp-context-res.go:152-154;
    MessageTypeName "Delete PDP Context Response"; TEID(): (of the header) *)
Definition d_DeletePDPContextResponse : mdesc := {|
  md_name := "DeletePDPContextResponse";
  md_ctor := Ctor0 30 21 (* seq label tid *);
  md_fields := [("Cause", FSingle); ("PrivateExtension", FSingle); ("AdditionalIEs", FList)];
  md_new := new_DeletePDPContextResponse;
  md_unm := unm_DeletePDPContextResponse;
  md_min := 2;
  md_soft := false;
  md_check := false;
  md_reset := false;
  md_steps := [MSingle "Cause" true;
    MSingle "PrivateExtension" true;
    MList "AdditionalIEs" true true];
  md_lens := [LSingle "Cause";
    LSingle "PrivateExtension";
    LList "AdditionalIEs" true];
  md_sub := 20 |}.


(** ** EchoRequest: struct gtpv0/message/echo-req.go:14-18 *)
(** NewEchoRequest, gtpv0/message/echo-req.go:21-42 (dispatch of the given IEs) *)
Definition new_EchoRequest : table := Tbl true [
  (255, ASet "PrivateExtension") (* ie.PrivateExtension *)
  ] (AApp "AdditionalIEs").

(** EchoRequest.UnmarshalBinary, gtpv0/message/echo-req.go:93-121 *)
Definition unm_EchoRequest : table := Tbl true [
  (255, ASet "PrivateExtension") (* ie.PrivateExtension *)
  ] (AApp "AdditionalIEs").

(** fields gtpv0/message/echo-req.go:14-18; MarshalTo gtpv0/message/echo-req.go:55-81; MarshalLen gtpv0/message/echo-req.go:124-139; SetLength gtpv0/message/echo-req.go:142-144;
    MessageTypeName "Echo Request"; TEID(): (of the header) *)
Definition d_EchoRequest : mdesc := {|
  md_name := "EchoRequest";
  md_ctor := Ctor0 30 1 (* seq label tid *);
  md_fields := [("PrivateExtension", FSingle); ("AdditionalIEs", FList)];
  md_new := new_EchoRequest;
  md_unm := unm_EchoRequest;
  md_min := 2;
  md_soft := false;
  md_check := false;
  md_reset := true;
  md_steps := [MSingle "PrivateExtension" true;
    MList "AdditionalIEs" true true];
  md_lens := [LSingle "PrivateExtension";
    LList "AdditionalIEs" true];
  md_sub := 20 |}.


(** ** EchoResponse: struct gtpv0/message/echo-res.go:12-17 *)
(** NewEchoResponse, gtpv0/message/echo-res.go:20-43 (dispatch of the given IEs) *)
Definition new_EchoResponse : table := Tbl true [
  (14, ASet "Recovery") (* ie.Recovery *);
  (255, ASet "PrivateExtension") (* ie.PrivateExtension *)
  ] (AApp "AdditionalIEs").

(** EchoResponse.UnmarshalBinary, gtpv0/message/echo-res.go:100-130 *)
Definition unm_EchoResponse : table := Tbl true [
  (14, ASet "Recovery") (* ie.Recovery *);
  (255, ASet "PrivateExtension") (* ie.PrivateExtension *)
  ] (AApp "AdditionalIEs").

(** fields gtpv0/message/echo-res.go:12-17; MarshalTo gtpv0/message/echo-res.go:56-88; MarshalLen gtpv0/message/echo-res.go:133-151; SetLength gtpv0/message/echo-res.go:154-156;
    MessageTypeName "Echo Response"; TEID(): (of the header) *)
Definition d_EchoResponse : mdesc := {|
  md_name := "EchoResponse";
  md_ctor := Ctor0 30 2 (* seq label tid *);
  md_fields := [("Recovery", FSingle); ("PrivateExtension", FSingle); ("AdditionalIEs", FList)];
  md_new := new_EchoResponse;
  md_unm := unm_EchoResponse;
  md_min := 2;
  md_soft := false;
  md_check := false;
  md_reset := true;
  md_steps := [MSingle "Recovery" true;
    MSingle "PrivateExtension" true;
    MList "AdditionalIEs" true true];
  md_lens := [LSingle "Recovery";
    LSingle "PrivateExtension";
    LList "AdditionalIEs" true];
  md_sub := 20 |}.


(** ** UpdatePDPContextRequest: struct gtpv0/message/update-pdp-context-req.go:12-24 *)
(** NewUpdatePDPContextRequest, gtpv0/message/update-pdp-context-req.go:27-66 (dispatch of the given IEs) *)
Definition new_UpdatePDPContextRequest : table := Tbl true [
  (3, ASet "RAI") (* ie.RouteingAreaIdentity *);
  (6, ASet "QoSProfile") (* ie.QualityOfServiceProfile *);
  (14, ASet "Recovery") (* ie.Recovery *);
  (16, ASet "FlowLabelDataI") (* ie.FlowLabelDataI *);
  (17, ASet "FlowLabelSignalling") (* ie.FlowLabelSignalling *);
  (128, ASet "EndUserAddress") (* ie.EndUserAddress *);
  (133, AIfNil "SGSNAddressForSignalling" (ASet "SGSNAddressForSignalling") (ASet "SGSNAddressForUserTraffic")) (* ie.GSNAddress *);
  (255, ASet "PrivateExtension") (* ie.PrivateExtension *)
  ] (AApp "AdditionalIEs").

(** UpdatePDPContextRequest.UnmarshalBinary, gtpv0/message/update-pdp-context-req.go:165-211 *)
Definition unm_UpdatePDPContextRequest : table := Tbl true [
  (3, ASet "RAI") (* ie.RouteingAreaIdentity *);
  (6, ASet "QoSProfile") (* ie.QualityOfServiceProfile *);
  (14, ASet "Recovery") (* ie.Recovery *);
  (16, ASet "FlowLabelDataI") (* ie.FlowLabelDataI *);
  (17, ASet "FlowLabelSignalling") (* ie.FlowLabelSignalling *);
  (128, ASet "EndUserAddress") (* ie.EndUserAddress *);
  (133, AIfNil "SGSNAddressForSignalling" (ASet "SGSNAddressForSignalling") (ASet "SGSNAddressForUserTraffic")) (* ie.GSNAddress *);
  (255, ASet "PrivateExtension") (* ie.PrivateExtension *)
  ] (AApp "AdditionalIEs").

(** fields gtpv0/message/update-pdp-context-req.go:12-24; MarshalTo gtpv0/message/update-pdp-context-req.go:79-153; MarshalLen gtpv0/message/update-pdp-context-req.go:214-252; SetLength gtpv0/message/update-pdp-context-req.go:255-257;
    MessageTypeName "Update PDP Context Request"; TEID(): (of the header) *)
Definition d_UpdatePDPContextRequest : mdesc := {|
  md_name := "UpdatePDPContextRequest";
  md_ctor := Ctor0 30 18 (* seq label tid *);
  md_fields := [("RAI", FSingle); ("QoSProfile", FSingle); ("Recovery", FSingle); ("FlowLabelDataI", FSingle); ("FlowLabelSignalling", FSingle); ("EndUserAddress", FSingle); ("SGSNAddressForSignalling", FSingle); ("SGSNAddressForUserTraffic", FSingle); ("PrivateExtension", FSingle); ("AdditionalIEs", FList)];
  md_new := new_UpdatePDPContextRequest;
  md_unm := unm_UpdatePDPContextRequest;
  md_min := 2;
  md_soft := false;
  md_check := false;
  md_reset := true;
  md_steps := [MSingle "RAI" true;
    MSingle "QoSProfile" true;
    MSingle "Recovery" true;
    MSingle "FlowLabelDataI" true;
    MSingle "FlowLabelSignalling" true;
    MSingle "EndUserAddress" true;
    MSingle "SGSNAddressForSignalling" true;
    MSingle "SGSNAddressForUserTraffic" true;
    MSingle "PrivateExtension" true;
    MList "AdditionalIEs" true true];
  md_lens := [LSingle "RAI";
    LSingle "QoSProfile";
    LSingle "Recovery";
    LSingle "FlowLabelDataI";
    LSingle "FlowLabelSignalling";
    LSingle "EndUserAddress";
    LSingle "SGSNAddressForSignalling";
    LSingle "SGSNAddressForUserTraffic";
    LSingle "PrivateExtension";
    LList "AdditionalIEs" true];
  md_sub := 20 |}.


(** ** UpdatePDPContextResponse: struct gtpv0/message/update-pdp-context-res.go:12-26 *)
(** NewUpdatePDPContextResponse, gtpv0/message/update-pdp-context-res.go:29-72 (dispatch of the given IEs) *)
Definition new_UpdatePDPContextResponse : table := Tbl true [
  (1, ASet "Cause") (* ie.Cause *);
  (6, ASet "QoSProfile") (* ie.QualityOfServiceProfile *);
  (14, ASet "Recovery") (* ie.Recovery *);
  (16, ASet "FlowLabelDataI") (* ie.FlowLabelDataI *);
  (17, ASet "FlowLabelSignalling") (* ie.FlowLabelSignalling *);
  (127, ASet "ChargingID") (* ie.ChargingID *);
  (128, ASet "EndUserAddress") (* ie.EndUserAddress *);
  (133, AIfNil "GGSNAddressForSignalling" (ASet "GGSNAddressForSignalling") (ASet "GGSNAddressForUserTraffic")) (* ie.GSNAddress *);
  (251, ASet "ChargingGatewayAddress") (* ie.ChargingGatewayAddress *);
  (255, ASet "PrivateExtension") (* ie.PrivateExtension *)
  ] (AApp "AdditionalIEs").

(** UpdatePDPContextResponse.UnmarshalBinary, gtpv0/message/update-pdp-context-res.go:183-233 *)
Definition unm_UpdatePDPContextResponse : table := Tbl true [
  (1, ASet "Cause") (* ie.Cause *);
  (6, ASet "QoSProfile") (* ie.QualityOfServiceProfile *);
  (14, ASet "Recovery") (* ie.Recovery *);
  (16, ASet "FlowLabelDataI") (* ie.FlowLabelDataI *);
  (17, ASet "FlowLabelSignalling") (* ie.FlowLabelSignalling *);
  (127, ASet "ChargingID") (* ie.ChargingID *);
  (128, ASet "EndUserAddress") (* ie.EndUserAddress *);
  (133, AIfNil "GGSNAddressForSignalling" (ASet "GGSNAddressForSignalling") (ASet "GGSNAddressForUserTraffic")) (* ie.GSNAddress *);
  (251, ASet "ChargingGatewayAddress") (* ie.ChargingGatewayAddress *);
  (255, ASet "PrivateExtension") (* ie.PrivateExtension *)
  ] (AApp "AdditionalIEs").

(** fields gtpv0/message/update-pdp-context-res.go:12-26; MarshalTo gtpv0/message/update-pdp-context-res.go:85-171; MarshalLen gtpv0/message/update-pdp-context-res.go:236-280; SetLength gtpv0/message/update-pdp-context-res.go:283-285;
    MessageTypeName "Update PDP Context Response"; TEID(): (of the header) *)
Definition d_UpdatePDPContextResponse : mdesc := {|
  md_name := "UpdatePDPContextResponse";
  md_ctor := Ctor0 30 19 (* seq label tid *);
  md_fields := [("Cause", FSingle); ("QoSProfile", FSingle); ("Recovery", FSingle); ("FlowLabelDataI", FSingle); ("FlowLabelSignalling", FSingle); ("ChargingID", FSingle); ("EndUserAddress", FSingle); ("GGSNAddressForSignalling", FSingle); ("GGSNAddressForUserTraffic", FSingle); ("ChargingGatewayAddress", FSingle); ("PrivateExtension", FSingle); ("AdditionalIEs", FList)];
  md_new := new_UpdatePDPContextResponse;
  md_unm := unm_UpdatePDPContextResponse;
  md_min := 2;
  md_soft := false;
  md_check := false;
  md_reset := true;
  md_steps := [MSingle "Cause" true;
    MSingle "QoSProfile" true;
    MSingle "Recovery" true;
    MSingle "FlowLabelDataI" true;
    MSingle "FlowLabelSignalling" true;
    MSingle "ChargingID" true;
    MSingle "EndUserAddress" true;
    MSingle "GGSNAddressForSignalling" true;
    MSingle "GGSNAddressForUserTraffic" true;
    MSingle "ChargingGatewayAddress" true;
    MSingle "PrivateExtension" true;
    MList "AdditionalIEs" true true];
  md_lens := [LSingle "Cause";
    LSingle "QoSProfile";
    LSingle "Recovery";
    LSingle "FlowLabelDataI";
    LSingle "FlowLabelSignalling";
    LSingle "ChargingID";
    LSingle "EndUserAddress";
    LSingle "GGSNAddressForSignalling";
    LSingle "GGSNAddressForUserTraffic";
    LSingle "ChargingGatewayAddress";
    LSingle "PrivateExtension";
    LList "AdditionalIEs" true];
  md_sub := 20 |}.

(** every message type with a regular structure *)
Definition all_msgs0 : list mdesc := [
  d_CreatePDPContextRequest;
  d_CreatePDPContextResponse;
  d_DeletePDPContextRequest;
  d_DeletePDPContextResponse;
  d_EchoRequest;
  d_EchoResponse;
  d_UpdatePDPContextRequest;
  d_UpdatePDPContextResponse].

(** the switch of Parse, gtpv0/message/message.go:106-198: type octet to structure; default Generic *)
Definition parse_rows0 : list (N * string) := [
  (1, "EchoRequest") (* MsgTypeEchoRequest *);
  (2, "EchoResponse") (* MsgTypeEchoResponse *);
  (16, "CreatePDPContextRequest") (* MsgTypeCreatePDPContextRequest *);
  (17, "CreatePDPContextResponse") (* MsgTypeCreatePDPContextResponse *);
  (18, "UpdatePDPContextRequest") (* MsgTypeUpdatePDPContextRequest *);
  (19, "UpdatePDPContextResponse") (* MsgTypeUpdatePDPContextResponse *);
  (20, "DeletePDPContextRequest") (* MsgTypeDeletePDPContextRequest *);
  (21, "DeletePDPContextResponse") (* MsgTypeDeletePDPContextResponse *);
  (255, "TPDU") (* MsgTypeTPDU *)].
