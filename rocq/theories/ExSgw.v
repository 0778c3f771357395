(** The example S-GW of /repo/examples/sgw, which passes messages between an MME and a P-GW, and
    the Modify Bearer Response of the example MME.  As in ExPgw.v a handler is a function of the
    message and of what the connections gave it: the sessions found, the sequence number of the
    request that it sends, and the message that WaitMessage returned ([None]: timeout).  The
    write of a request succeeds.  No proofs here. *)
From Coq Require Import String.
From Verif Require Import Base Maps V2IE V2Header MsgModel Msgs2Gen V2Msg V2Codec V2Codec2 V2Ctx CPlane ExPgw.
Open Scope string_scope.
Open Scope N_scope.
Open Scope list_scope.

(** the error of a lookup of a session (gtpv2/conn.go:664-681) *)
Definition ENoSession : err := EOther 6.
(** gtpv2/errors.go:20 ErrTimeout, of WaitMessage (gtpv2/session.go:147-161); a message of another
    sequence number is an error too and stands under this one *)
Definition ETimeout : err := EOther 7.
(** gtpv2/errors.go:56-63 UnexpectedTypeError *)
Definition EUnexpectedType : err := EOther 8.
(** fmt.Errorf of s5.go:199-202 *)
Definition EBoth : err := EOther 9.
(** gtpv2/errors.go:138 BearerNotFoundError *)
Definition ENoBearer : err := EOther 10.

(** what a handler leaves: the octets written to the other side (the request passed on), the
    octets written to the sender (the answer), whether the session or bearer is removed, and the
    error returned *)
Record relayed := Relayed { rl_asked : option bytes; rl_answer : option bytes; rl_removed : bool; rl_err : option err }.
(** New(teid, 0, ies...) and a write under the sequence number n: RespondTo (gtpv2/conn.go:649-661)
    or DeleteSession, DeleteBearer (conn.go:613-646) *)
Definition sent_as (d : mdesc) (teid n : N) (ies : list (option ie2)) : res bytes :=
  do r <- v2_new g2 d teid 0 ies; respond_bytes d r n.
(** [incoming.SetTEID(teid)] and RespondTo *)
Definition passed (d : mdesc) (r : msg2) (teid n : N) : res bytes := respond_bytes d (Msg (h2_set_teid (m_hdr r) teid) (m_fs r)) n.
(** the type switch on the message that arrived *)
Definition is_a (d : mdesc) (name : string) : bool := String.eqb (md_name d) name.

(** examples/sgw/s11.go:321-393 handleDeleteSessionRequest; [ebi]: the EBI of the default bearer *)
Definition sgw_delete (m : msg2) (s11 s5 : option session) (ebi q : N) (wait : option (mdesc * msg2)) : res relayed :=
  match s11, s5 with
  | Some a, Some b =>
      match aget (s_teids b) 7 with
      | None => Ok (Relayed None None false (Some ETEIDNotFound))
      | Some p =>
          do ask <- sent_as d_DeleteSessionRequest p q [Some (new_ebi g2 ebi)];
          match aget (s_teids a) 10 with
          | None => Ok (Relayed (Some ask) None false (Some ETEIDNotFound))
          | Some t =>
              match wait with
              | None =>
                  do x <- sent_as d_DeleteSessionResponse t (h2_seq (m_hdr m)) [Some (new_cause g2 12 0 0 0 None)];
                  Ok (Relayed (Some ask) (Some x) false (Some ETimeout))
              | Some (d, r) =>
                  if is_a d "DeleteSessionResponse" then
                    do x <- passed d r t (h2_seq (m_hdr m)); Ok (Relayed (Some ask) (Some x) true None)
                  else Ok (Relayed (Some ask) None false (Some EUnexpectedType))
              end
          end
      end
  | _, _ => Ok (Relayed None None false (Some ENoSession))
  end.

(** examples/sgw/s5.go:155-272 handleDeleteBearerRequest; [bearer e]: the session has a bearer of
    EBI e.  Lines 207-216: [return err] returns nil. *)
Definition sgw_delete_bearer (m : msg2) (s5 s11 : option session) (bearer : N -> bool) (q : N) (wait : option (mdesc * msg2)) : res relayed :=
  match s5, s11 with
  | Some b, Some a =>
      match aget (s_teids b) 7, aget (s_teids a) 10 with
      | Some p, Some t =>
          let answer i := sent_as d_DeleteBearerResponse p (h2_seq (m_hdr m)) [Some i] in
          match fget (m_fs m) "LinkedEBI", fget (m_fs m) "EBIs" with
          | _ :: _, Some e :: _ =>
              do x <- answer (new_cause g2 64 0 0 0 (Some (i2_type e))); Ok (Relayed None (Some x) false (Some EBoth))
          | _ :: _, None :: _ => Panic
          | [], [] =>
              do x <- answer (new_cause g2 70 0 0 0 (Some 73)); Ok (Relayed None (Some x) false None)
          | None :: _, [] | [], None :: _ => Panic
          | Some i :: _, [] | [], Some i :: _ =>
              do e <- must (acc_ebi g2 i);
              if bearer e then
                do ask <- sent_as d_DeleteBearerRequest t q [Some i];
                match wait with
                | None => do x <- answer (new_cause g2 73 0 0 0 None); Ok (Relayed (Some ask) (Some x) true (Some ETimeout))
                | Some (d, r) =>
                    if is_a d "DeleteBearerResponse" then
                      do x <- passed d r p (h2_seq (m_hdr m)); Ok (Relayed (Some ask) (Some x) true None)
                    else Ok (Relayed (Some ask) None false (Some EUnexpectedType))
                end
              else do x <- answer (new_cause g2 64 0 0 0 None); Ok (Relayed None (Some x) false (Some ENoBearer))
          end
      | _, _ => Ok (Relayed None None false (Some ETEIDNotFound))
      end
  | _, _ => Ok (Relayed None None false (Some ENoSession))
  end.
