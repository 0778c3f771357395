(** The example P-GW and MME of /repo/examples: what their handlers do with one message.
    A handler is a function of the message and of what the connection gave it; logging and the
    addresses of the peer are left out.  The calls on the connection (RemoveSessionByIMSI,
    NewSenderFTEID, RegisterSession, RemoveSession) are those of CPlane.v and appear here as
    arguments and results.  No proofs here. *)
From Coq Require Import String.
From Verif Require Import Base Maps V2IE V2Header MsgModel Msgs2Gen V2Msg V2Codec V2Codec2 V2Ctx CPlane.
Open Scope string_scope.
Open Scope N_scope.
Open Scope list_scope.

(** gtpv2/errors.go:35-43 RequiredIEMissingError *)
Definition EMissing : err := EOther 2.
(** examples/pgw/pgw.go:35 fmt.Errorf("subscriber %s not found") *)
Definition EUnknown : err := EOther 3.
(** gtpv2/errors.go:23-33 CauseNotOKError *)
Definition ECause : err := EOther 4.
(** gtpv2/errors.go:45-53 RequiredParameterMissingError *)
Definition EParam : err := EOther 5.

(** [if x := msg.Field; x != nil {... x.Accessor() ...} else {return RequiredIEMissingError}] *)
Definition needs {A} (m : msg2) (f : string) (rd : ie2 -> res A) : res A :=
  match fget (m_fs m) f with
  | [] => Err EMissing
  | None :: _ => Panic
  | Some i :: _ => rd i
  end.
Definition has (m : msg2) (f : string) : bool := match fget (m_fs m) f with [] => false | _ => true end.
(** [x, _ := i.Accessor()], the Must accessors *)
Definition must (r : res N) : res N := match r with Ok v => Ok v | Err _ => Ok 0 | Panic => Panic end.
(** session.AddTEID *)
Definition add_teid (s : session) (ift t : N) : session := set_s s (STeid ift t).

(** examples/pgw/pgw.go:18-36 getSubscriberIP: IMSI 12345123456789x has 10.10.10.x *)
Definition known_imsi (k : N) : bytes := [49; 50; 51; 52; 53; 49; 50; 51; 52; 53; 54; 55; 56; 57; 48 + k].
Definition subscribers : list (bytes * bytes) := map (fun k => (known_imsi k, [10; 10; 10; k])) [1; 2; 3; 4; 5].
Definition subscriber_ip (imsi : bytes) : res bytes :=
  match find (fun p => bytes_eqb (fst p) imsi) subscribers with Some (_, ip) => Ok ip | None => Err EUnknown end.

(** pgw.go:120-138 the loop over the children; [only0]: children of another instance are
    passed over (examples/mme/mme.go:86-88).  The results are the EBI and the session. *)
Fixpoint read_context (only0 : bool) (cs : list ie2) (ebi : N) (s : session) : res (N * session) :=
  match cs with
  | [] => Ok (ebi, s)
  | c :: r =>
      if i2_type c =? 73 then do e <- acc_ebi g2 c; read_context only0 r e s
      else if i2_type c =? 87 then
        if only0 && negb (i2_instance c =? 0) then read_context only0 r ebi s else
        do it <- acc_if_type c; do t <- acc_teid c; read_context only0 r ebi (add_teid s it t)
      else read_context only0 r ebi s
  end.

(** pgw.go:50-141: what is kept of the request; [peer] is the S-GW, the session's bearer 0.  The
    call of RemoveSessionByIMSI (line 63) changes nothing here. *)
Definition pgw_keep (m : msg2) (peer : addr) : res (N * session) :=
  do imsi <- needs m "IMSI" acc_imsi;
  do msisdn <- needs m "MSISDN" acc_msisdn;
  do mei <- needs m "MEI" acc_mei;
  do apn <- needs m "APN" (acc_fqdn g2 71);
  do net <- needs m "ServingNetwork" acc_mcc_mnc;
  do rat <- needs m "RATType" (acc_u8 g2 82);
  do teid <- needs m "SenderFTEIDC" acc_teid;
  let s := Sess peer false imsi msisdn mei [] (snd net) rat [(6, teid)] [(default_name, 0)] [] in
  needs m "BearerContextsToBeCreated" (fun c => read_context false (i2_children c) 0 s).

(** [.WithInstance(n)] on the result of a constructor; a nil IE panics *)
Definition with_instance (r : res (option ie2)) (n : N) : res ie2 :=
  do o <- r; match o with Some i => Ok (set_instance2 i n) | None => Panic end.
(** conn.go:748-774 NewSenderFTEID, gtpv1/u-conn.go:682-709 NewFTEID: None when no TEID was
    found, Some t when t was reserved *)
Definition allocated (ift : N) (t : option N) (ip : option bytes) : res (option ie2) :=
  match t with Some t => new_fteid g2 ift t ip None | None => Ok None end.

(** what the handler leaves: the octets sent, the session, the TEID it is registered with, and
    the TEID that the goroutine of lines 190-211 writes to *)
Record pgw_done := PgwDone { pd_sent : bytes; pd_session : session; pd_teid : N; pd_down : N }.
(** pgw.go:45-217 handleCreateSessionRequest; [tc] and [tu] are what NewSenderFTEID and
    NewFTEID found, [cip] and [uip] the local addresses ([cip] for NewFullyQualifiedCSID as in
    V2Codec2.v).  In line 132 the TEID is assigned to a variable of the loop: [teidOut] of
    line 118 keeps its zero value. *)
Definition pgw_create (m : msg2) (peer : addr) (tc tu : option N) (cip uip : bytes) : res pgw_done :=
  do k <- pgw_keep m peer; let '(ebi, s) := k in
  do ip <- subscriber_ip (s_imsi s);
  do s5c <- with_instance (allocated 7 tc (Some cip)) 1;
  do s5u <- with_instance (allocated 5 tu (Some uip)) 2;
  match aget (s_teids s) 6 with
  | None => Err ETEIDNotFound
  | Some sgw =>
      do paa <- new_paa g2 (Some ip) 0;
      do ctx <- new_bearer_context g2 [Some (new_cause g2 16 0 0 0 None); Some (new_ebi g2 ebi); Some s5u; Some (new_charging_id g2 0)];
      do r <- v2_new g2 d_CreateSessionResponse sgw 0
                [Some (new_cause g2 16 0 0 0 None); Some s5c; paa; Some (new_uint8 g2 127 2); ctx];
      do r <- (if has m "SGWFQCSID" then
                 do f <- new_fqcsid g2 (NodeIP cip) [1];
                 Ok (Msg (m_hdr r) (fset (m_fs r) "PGWFQCSID" (match f with Some i => [Some i] | None => [] end)))
               else Ok r);
      do c <- must (acc_teid s5c); do u <- must (acc_teid s5u);
      let s := add_teid (add_teid s 7 c) 5 u in
      do raw <- respond_bytes d_CreateSessionResponse r (h2_seq (m_hdr m));
      match aget (s_teids s) 7 with
      | None => Err ETEIDNotFound
      | Some t => match s_imsi s with
                  | [] => Err EParam
                  | _ => Ok (PgwDone raw (set_s s (SActive true)) t 0)
                  end
      end
  end.

(** pgw.go:198-205 the echo of one T-PDU of n octets *)
Definition pgw_echo (p : bytes) : res bytes :=
  do r <- set_idx p 20 0; do r <- set_idx r 22 155;
  do d <- slice p 16 20; do r <- copy_at r 12 16 d;
  do s <- slice p 12 16; copy_at r 16 20 s.

(** pgw.go:219-255 handleDeleteSessionRequest; [s]: the session of the TEID, [None] when
    GetSessionByTEID fails.  The results are the octets sent, if any, and whether the session
    is removed. *)
Definition pgw_delete (m : msg2) (s : option session) : res (option bytes * bool) :=
  let answer t c := (do r <- v2_new g2 d_DeleteSessionResponse t 0 [Some (new_cause g2 c 0 0 0 None)];
                     respond_bytes d_DeleteSessionResponse r (h2_seq (m_hdr m))) in
  match s with
  | None => do b <- answer 0 96; Ok (Some b, false)
  | Some s => match aget (s_teids s) 6 with
              | None => Ok (None, false)
              | Some t => do b <- answer t 16; Ok (Some b, true)
              end
  end.

(** examples/mme/mock.go:52-68 handleAttach up to DeleteSession: the TEID that is deleted.
    [s]: the session of the subscriber's IMSI; the nil session of an unknown IMSI is used. *)
Definition mme_attach (s : option session) : res N :=
  match s with
  | None => Panic
  | Some s => match aget (s_teids s) 11 with Some t => Ok t | None => Err ETEIDNotFound end
  end.

(** examples/mme/mme.go:16-115 handleCreateSessionResponse; [s]: the session of the TEID,
    [None] when GetSessionByTEID fails and RemoveSession is called with a nil session.  What a
    failing call has stored in the session by then is left out.  The results are the address and the EBI of the bearer and the session. *)
Definition mme_created (m : msg2) (s : option session) (ip0 : option bytes) (ebi0 : N) : res (option bytes * N * session) :=
  match s with
  | None => Panic
  | Some s =>
      do c <- needs m "Cause" (acc_cause g2);
      if negb (c =? 16) then Err ECause else
      do ip <- (match fget (m_fs m) "PAA" with Some i :: _ => acc_ip i | _ => Ok ip0 end);
      do t <- needs m "SenderFTEIDC" acc_teid;
      let s := add_teid s 11 t in
      match aget (s_teids s) 10 with
      | None => Err ETEIDNotFound
      | Some _ =>
          do x <- needs m "BearerContextsCreated" (fun c => read_context true (i2_children c) ebi0 s);
          let '(ebi, s) := x in
          match s_imsi s with
          | [] => Err EParam
          | _ => Ok (ip, ebi, set_s s (SActive true))
          end
      end
  end.
