(** The example MME of /repo/examples/mme, continued from ExMme2.v: its Modify Bearer Request, for
    the eNB.  Lines are those of main.go.  No proofs here. *)
From Coq Require Import String.
From Verif Require Import Base Maps V2IE V2Header MsgModel Msgs2Gen V2Msg V2Codec V2Codec2 V2Ind V2Ctx CPlane ExPgw ExSgw ExSgw2 ExSgw3.
Open Scope string_scope.
Open Scope N_scope.
Open Scope list_scope.

(** 160-196 the goroutine of a session created: [s] is the session of the IMSI and [ebi] the EBI of its default
    bearer, [te] what NewFTEID found, [eip] the address of the eNB, [n] the sequence number that SendMessageTo
    (gtpv2/conn.go:381-394, called by ModifyBearer, 624-632) takes; its write succeeds.  The result: the octets and
    the session.  A TEID of the S-GW that is not found is reported and 0 is used (lines 171-173: no return).  Without a TEID
    for the eNB the program ends at line 183, after the write, and here before it. *)
Definition mme_modify (s : option session) (ebi : N) (te : option N) (eip : bytes) (n : N) : res (bytes * session) :=
  match s with
  | None => Err ENoSession
  | Some s =>
      do f <- made (allocated 0 te (Some eip));
      let t := match aget (s_teids s) 11 with Some t => t | None => 0 end in
      do ctx <- new_bearer_context g2 [Some (new_ebi g2 ebi); Some f];
      do w <- sent_as d_ModifyBearerRequest t n [Some (new_indication_octets g2 [0; 0; 0; 0; 0; 0; 0]); ctx];
      do it <- acc_if_type f; do u <- acc_teid f;
      Ok (w, add_teid s it u)
  end.
