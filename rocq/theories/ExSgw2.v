(** The example S-GW of /repo/examples/sgw, continued from ExSgw.v: what it takes from the
    P-GW's Create Session Response, what it passes on to the MME, and the bearer's addresses.
    Lines are those of /repo/examples/sgw/s5.go and s11.go.  No proofs here. *)
From Coq Require Import String.
From Verif Require Import Base Maps V2IE V2Header MsgModel Msgs2Gen V2Msg V2Codec V2Codec2 V2Ctx CPlane ExPgw ExSgw.
Open Scope string_scope.
Open Scope N_scope.
Open Scope list_scope.

(** the error of net.ResolveUDPAddr *)
Definition EAddress : err := EOther 11.
(** the fields of gtpv2.Bearer that the handlers set: SubscriberIP, EBI, the remote address, the
    outgoing TEID and the Charging ID *)
Record ubearer := UBearer { ub_ip : option bytes; ub_ebi : N; ub_remote : option bytes; ub_out : N; ub_charge : N }.
(** s11.go:422-429: [ip.String()+":2152"] given to net.ResolveUDPAddr.  The text of an IPv6
    address has colons and no brackets, which is an error, and so is that of no address;
    the lookup of a name of another kind fails here. *)
Definition udp_addr (ip : option bytes) : res bytes := match to4 ip with Some a => Ok a | None => Err EAddress end.
(** s11.go:417-444 handleFTEIDU, called for F-TEIDs only; what a failing call has stored is left out *)
Definition fteid_u (i : ie2) (s : session) (b : ubearer) : res (session * ubearer) :=
  do ip <- acc_ip i; do a <- udp_addr ip; do t <- acc_teid i; do it <- acc_if_type i;
  Ok (add_teid s it t, UBearer (ub_ip b) (ub_ebi b) (Some a) t (ub_charge b)).

(** how handleCreateSessionResponse ends, when it does not return an error at once: the S5
    session is removed and an error returned, or the message is passed on *)
Inductive s5_end := Removed (e : err) | Given (s : session) (b : ubearer).
(** s5.go:77-107 the loop over the children of the first Bearer Context *)
Fixpoint sgw_children (cs : list ie2) (s : session) (b : ubearer) : res s5_end :=
  match cs with
  | [] => Ok (Given s b)
  | c :: r =>
      if i2_type c =? 2 then do v <- acc_cause g2 c; if v =? 16 then sgw_children r s b else Ok (Removed ECause)
      else if i2_type c =? 73 then
        do e <- acc_ebi g2 c; sgw_children r s (UBearer (ub_ip b) e (ub_remote b) (ub_out b) (ub_charge b))
      else if i2_type c =? 87 then do x <- fteid_u c s b; sgw_children r (fst x) (snd x)
      else if i2_type c =? 94 then
        do v <- acc_charging_id g2 c; sgw_children r s (UBearer (ub_ip b) (ub_ebi b) (ub_remote b) (ub_out b) v)
      else sgw_children r s b
  end.
(** [if x := msg.Field; x != nil {...} else {RemoveSession; return RequiredIEMissingError}] *)
Definition need_or {A} (m : msg2) (f : string) (rd : ie2 -> res A) (k : A -> res s5_end) : res s5_end :=
  match fget (m_fs m) f with [] => Ok (Removed EMissing) | None :: _ => Panic | Some i :: _ => do v <- rd i; k v end.
(** s5.go:13-126 handleCreateSessionResponse; [s5]: the session of the TEID, [s11]: whether the
    subscriber has a session with the MME, [room]: whether PassMessageTo (gtpv2/session.go:134-141)
    hands the message over within its five seconds *)
Definition sgw_created (m : msg2) (s5 : option session) (b : ubearer) (s11 room : bool) : res s5_end :=
  match s5 with
  | None => Err ENoSession
  | Some s =>
      need_or m "Cause" (acc_cause g2) (fun c =>
      if negb (c =? 16) then Ok (Removed ECause) else
      need_or m "PAA" acc_ip (fun ip =>
      let b := UBearer ip (ub_ebi b) (ub_remote b) (ub_out b) (ub_charge b) in
      need_or m "PGWS5S8FTEIDC" (fun i => do it <- acc_if_type i; do t <- acc_teid i; Ok (it, t)) (fun x =>
      let s := add_teid s (fst x) (snd x) in
      need_or m "BearerContextsCreated" (fun c => Ok (i2_children c)) (fun cs =>
      do e <- sgw_children cs s b;
      match e with
      | Removed e => Ok (Removed e)
      | Given s b =>
          match s_imsi s with
          | [] => Ok (Removed EParam)
          | _ => if s11 then if room then Ok (Given (set_s s (SActive true)) b) else Err ETimeout else Err ENoSession
          end
      end))))
  end.

(** s11.go:203-214: the P-GW's response [r] changed and sent to the MME.  [sender], [csid] and
    [s1u] are the F-TEID for S11, the FQ-CSID of instance 1 and the F-TEID for S1-U, all not nil;
    [t] is the MME's TEID and [n] the sequence number of the MME's request.  Indexing an empty
    list of contexts panics.  SetLength has no effect here: RespondTo marshals with it. *)
Definition sgw_relay (r : msg2) (sender csid s1u : ie2) (t n : N) : res bytes :=
  match fget (m_fs r) "BearerContextsCreated" with
  | Some c :: l =>
      do c1 <- add2 g2 c [Some s1u]; do c2 <- remove2 g2 c1 94 0;
      let fs := fset (fset (fset (m_fs r) "SenderFTEIDC" [Some sender]) "SGWFQCSID" [Some csid]) "BearerContextsCreated" (Some c2 :: l) in
      passed d_CreateSessionResponse (Msg (m_hdr r) fs) t n
  | _ => Panic
  end.

(** s11.go:250-279 handleModifyBearerRequest: the F-TEIDs of the first Bearer Context to be
    modified, and the two relays that are set up, as (incoming TEID, outgoing TEID, address).
    [s] and [b]: the session and bearer with the MME; [s5] and [b5]: those with the P-GW.
    RemoteAddress of a bearer without an address is the nil address. *)
Fixpoint modify_children (cs : list ie2) (s : session) (b : ubearer) : res (session * ubearer) :=
  match cs with
  | [] => Ok (s, b)
  | c :: r => if i2_type c =? 87 then do x <- fteid_u c s b; modify_children r (fst x) (snd x) else modify_children r s b
  end.
Record modified := Modified { mo_up : N * N * option bytes; mo_down : N * N * option bytes; mo_answer : bytes; mo_session : session; mo_bearer : ubearer }.
(** s11.go:232-319; [ip]: the S-GW's address on S1-U *)
Definition sgw_modify (m : msg2) (s11 s5 : option session) (b b5 : ubearer) (ip : bytes) : res modified :=
  match s11, s5 with
  | Some s, Some s5 =>
      do x <- (match fget (m_fs m) "BearerContextsToBeModified" with
               | [] => Ok (s, b) | None :: _ => Panic | Some c :: _ => modify_children (i2_children c) s b end);
      let '(s, b) := x in
      match aget (s_teids s) 10, aget (s_teids s) 1, aget (s_teids s5) 4 with
      | Some mme, Some s1u, Some s5u =>
          do f <- new_fteid g2 1 s1u (Some ip) None;
          do ctx <- new_bearer_context g2 [Some (new_cause g2 16 0 0 0 None); Some (new_ebi g2 (ub_ebi b)); f];
          do raw <- sent_as d_ModifyBearerResponse mme (h2_seq (m_hdr m)) [Some (new_cause g2 16 0 0 0 None); ctx];
          Ok (Modified (s1u, ub_out b5, ub_remote b5) (s5u, ub_out b, ub_remote b) raw s b)
      | _, _, _ => Err ETEIDNotFound
      end
  | _, _ => Err ENoSession
  end.
