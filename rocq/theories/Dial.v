(** gtpv2/conn.go:78-130 Dial and gtpv1/u-conn.go:248-313 DialUPlane, as functions of what
    the environment does: whether each system call succeeds, which datagram each read
    returns, whether the context is done when it is looked at.  The address is assumed to be
    one newPktConn accepts if it says so; the goroutine started at the end is that of
    UPlane.v and CPlane.v.  No proofs here. *)
From Coq Require Import String.
From Verif Require Import Base Maps Utils V2IE V2Header MsgModel Msgs2Gen V2Msg TvIE V1Header Msgs1Gen V1Msg.
From Verif Require CPlane UPlane.
Open Scope string_scope.
Open Scope N_scope.
Open Scope list_scope.

Definition sent : Type := list (N * bytes).            (* datagrams written, oldest first *)
(** what the caller gets: a connection, nil with a nil error, an error, or a panic; or the
    call never returns; or it is still running when the given environment ends *)
Inductive answer := AConn | ANil | AErr | APanic | ABlocked | ARunning.
(** the answer, the datagrams written, and whether a socket was opened and not closed *)
Record dialed := Dialed { dl_answer : answer; dl_sent : sent; dl_open : bool }.

(** ** GTPv2-C *)
Record env2 := Env2 {
  e_listen : bool;                                     (* conn.go:96 ListenPacket *)
  e_write : bool;                                      (* 102 writing the Echo Request *)
  e_deadline : bool;                                   (* 109 SetReadDeadline *)
  e_read : option (N * bytes);                         (* 112 a datagram within 3 seconds, or an error *)
  e_clear : bool;                                      (* 116 SetReadDeadline *)
  e_reply : bool }.                                    (* writing the Echo Response, if any *)
(** gtpv2/conn.go:428-436 EchoRequest, 379-394 SendMessageTo: the first number is 1;
    gtpv2/ie/recovery.go:8-10 NewRecovery *)
Definition echo_request2 (counter : N) : res bytes :=
  do m <- v2_new default_grouped Msgs2Gen.d_EchoRequest 0 0 [Some (new_uint8 default_grouped 3 counter)];
  do r <- v2_marshal default_grouped Msgs2Gen.d_EchoRequest (Msg (h2_set_seq (m_hdr m) 1) (m_fs m)); Ok (fst r).
(** gtpv2/conn.go:313-330 handleMessage, 361-377 validate, handlers.go:44-87, on the
    connection Dial has just made *)
Definition handle2 (c : CPlane.conn) (from : N) (d : mdesc) (m : msg2) (reply : bool) : answer * sent :=
  if CPlane.c_valid c && negb (h2_get_teid (m_hdr m) =? 0) &&
     match aget (CPlane.c_itei c) (h2_get_teid (m_hdr m)) with None => true | Some _ => false end then (AErr, [])
  else match aget (CPlane.c_handlers c) (h2_type (m_hdr m)) with
  | Some CPlane.HEchoReq =>
      if CPlane.is_struct "EchoRequest" d then
        match CPlane.echo_response (CPlane.c_restart c) (h2_seq (m_hdr m)) with
        | Ok b => if reply then (AConn, [(from, b)]) else (AErr, [])
        | Err _ => (AErr, [])
        | Panic => (APanic, [])
        end
      else (AErr, [])
  | Some CPlane.HEchoRes => if CPlane.is_struct "EchoResponse" d then (AConn, []) else (AErr, [])
  | _ => (AErr, [])
  end.
(** conn.go:78-130; 106 the buffer of 1500 *)
Definition dial2 (ift counter : N) (raddr : N) (e : env2) : dialed :=
  let c := CPlane.new_conn ift counter in
  if negb (e_listen e) then Dialed AErr [] false else
  match echo_request2 counter with
  | Ok b =>
      if negb (e_write e) then Dialed AErr [] true else
      let s := [(raddr, b)] in
      if negb (e_deadline e) then Dialed AErr s true else
      match e_read e with
      | None => Dialed AErr s true
      | Some (from, d) =>
          if negb (e_clear e) then Dialed AErr s true else
          match v2_parse default_grouped (firstn 1500 d) with
          | Ok (d, m) => let r := handle2 c from d m (e_reply e) in Dialed (fst r) (s ++ snd r) true
          | Err _ => Dialed AErr s true
          | Panic => Dialed APanic s true
          end
      end
  | Err _ => Dialed AErr [] true
  | Panic => Dialed APanic [] true
  end.

(** ** GTPv1-U *)
Inductive heard := Nothing | Broken | Heard (from : N) (d : bytes).
(** one turn of the loop, u-conn.go:273-304 *)
Record turn := Turn {
  t_done : bool;                                       (* 275 ctx.Done() *)
  t_write : bool;                                      (* 282 writing the Echo Request *)
  t_read : heard;                                      (* 286 nothing comes, an error, a datagram *)
  t_clear : bool }.                                    (* 290 SetReadDeadline(time.Time{}) *)
Record env1 := Env1 { f_listen : bool; f_deadline : bool; f_turns : list turn }.
(** u-conn.go:603-613 EchoRequest *)
Definition echo_request1 : res bytes :=
  do m <- v1_new Msgs1Gen.d_EchoRequest 0 0 [];
  do r <- v1_marshal Msgs1Gen.d_EchoRequest m; Ok (fst r).
(** 273-304; [limited]: the read deadline is set.  272: the buffer of 1600 *)
Fixpoint turns1 (raddr : N) (limited : bool) (ts : list turn) (s : sent) : dialed :=
  match ts with
  | [] => Dialed ARunning s true
  | t :: ts =>
      if t_done t then Dialed ANil s true else
      match echo_request1 with
      | Ok b =>
          if negb (t_write t) then Dialed AErr s true else
          let s := s ++ [(raddr, b)] in
          match t_read t with
          | Nothing => Dialed (if limited then AErr else ABlocked) s true
          | Broken => Dialed AErr s true
          | Heard from d =>
              if negb (t_clear t) then Dialed AErr s true else
              match v1_parse (firstn 1600 d) with
              | Ok p => if UPlane.is_struct "EchoResponse" p then Dialed AConn s true
                        else turns1 raddr false ts s
              | Err _ => Dialed AErr s true
              | Panic => Dialed APanic s true
              end
          end
      | Err _ => Dialed AErr s true
      | Panic => Dialed APanic s true
      end
  end.
(** 248-313 *)
Definition dial1 (raddr : N) (e : env1) : dialed :=
  if negb (f_listen e) then Dialed AErr [] false else
  if negb (f_deadline e) then Dialed AErr [] true else
  turns1 raddr true (f_turns e) [].
