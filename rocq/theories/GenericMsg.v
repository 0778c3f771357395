(** The Generic message of gtpv{0,1,2}/message/generic.go as a descriptor: one list
    field IEs, every IE appended to it.  No proofs here. *)
From Coq Require Import String.
From Verif Require Import Base MsgModel.
Open Scope string_scope.
Open Scope N_scope.
Open Scope list_scope.

(** fields generic.go:14-17; UnmarshalBinary gtpv2 90-105, gtpv1 73-88, gtpv0 78-93
    (g.IEs, err = ie.ParseMultiIEs(payload): the list as a whole); MarshalTo gtpv2 59-78,
    gtpv1 42-61, gtpv0 47-66; MarshalLen gtpv2 108-119, gtpv1 91-102, gtpv0 96-106.
    [md_new] is the constructor loop of gtpv0 (20-34); the v1 and v2 constructors keep nil
    elements and are modelled in V1Msg.v / V2Msg.v. *)
Definition d_Generic (c : ctor) (sub : N) : mdesc := {|
  md_name := "Generic"; md_ctor := c; md_fields := [("IEs", FList)];
  md_new := Tbl true [] (AApp "IEs"); md_unm := Tbl true [] (AApp "IEs");
  md_min := 2; md_soft := false; md_check := false; md_reset := true;
  md_steps := [MList "IEs" true true]; md_lens := [LList "IEs" true]; md_sub := sub |}.
