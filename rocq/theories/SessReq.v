(** Model of the procedures of a session that is set up: gtpv2/conn.go:613-646 DeleteSession,
    ModifyBearer and DeleteBearer, and gtpv2/conn.go:649-661 RespondTo, on top of the
    transition system of CPlane.v.

    Simplifications: those of CPlane.v; the peer's address is read when the call starts; the
    session is not nil.  No proofs here. *)
From Verif Require Import Base V2IE V2Header MsgModel Msgs2Gen V2Msg CPlane.
Open Scope N_scope.
Open Scope list_scope.

Inductive procedure := DeleteSession | ModifyBearer | DeleteBearer.
(** gtpv2/conn.go:614, 625, 636 the message *)
Definition request_of (p : procedure) : mdesc :=
  match p with
  | DeleteSession => d_DeleteSessionRequest
  | ModifyBearer => d_ModifyBearerRequest
  | DeleteBearer => d_DeleteBearerRequest
  end.
(** gtpv2/conn.go:613-646: NewXxx(teid, 0, ie...), then SendMessageTo(msg, sess.peerAddr) *)
Definition procedure_call (w : world) (p : procedure) (c teid s : N) (ies : list (option ie2)) : res ccall :=
  do m <- v2_new g2 (request_of p) teid 0 ies;
  Ok (KSend c (request_of p) m (s_peer (w_sess w s))).
(** the call, and the first n steps of its goroutine *)
Definition run_procedure (w : world) (p : procedure) (c teid s : N) (ies : list (option ie2)) (n : nat) : option world :=
  match procedure_call w p c teid s ies with
  | Ok k => run w (LCall k :: repeat (LRun (w_next w) true) n)
  | _ => None
  end.
(** gtpv2/conn.go:649-661 RespondTo(raddr, received, toBeSent): what is written, for a
    response made with NewXxx(teid, seq, ies...) and a received message m *)
Definition response (d : mdesc) (teid seq : N) (ies : list (option ie2)) (m : msg2) : res bytes :=
  do r <- v2_new g2 d teid seq ies; respond_bytes d r (h2_seq (m_hdr m)).
