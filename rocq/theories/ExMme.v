(** The example MME of /repo/examples/mme, continued from ExPgw.v: the Modify Bearer Response.
    No proofs here. *)
From Coq Require Import String.
From Verif Require Import Base Maps V2IE V2Header MsgModel Msgs2Gen V2Msg V2Codec V2Codec2 V2Ctx CPlane ExPgw ExSgw ExSgw2.
Open Scope string_scope.
Open Scope N_scope.
Open Scope list_scope.

(** examples/mme/mme.go:147-173 the loop over the children of the first Bearer Context modified; [far]: the address
    and the TEID of the mock eNB, which start as nil and 0 *)
Fixpoint mme_far (cs : list ie2) (s : session) (far : option bytes * N) : res (session * (option bytes * N)) :=
  match cs with
  | [] => Ok (s, far)
  | c :: r =>
      if i2_type c =? 87 then
        if negb (i2_instance c =? 0) then mme_far r s far else
        do it <- acc_if_type c; do t <- acc_teid c; do ip <- acc_ip c; do a <- udp_addr ip;
        mme_far r (add_teid s it t) (Some a, t)
      else mme_far r s far
  end.
(** examples/mme/mme.go:117-182 handleModifyBearerResponse: the session, and where the mock eNB that is started
    sends its packets.  What a failing call has stored in the session is left out. *)
Definition mme_modified (m : msg2) (s : option session) : res (session * (option bytes * N)) :=
  match s with
  | None => Err ENoSession
  | Some s =>
      do c <- needs m "Cause" (acc_cause g2);
      if negb (c =? 16) then Err ECause else
      needs m "BearerContextsModified" (fun c => mme_far (i2_children c) s (None, 0))
  end.
