(** Model of the GTPv1 user plane: gtpv1/u-conn.go, gtpv1/handlers.go, gtpv1/tunnel.go and
    the parts of gtpv1/tunnel_linux.go that touch the connection's own tables.

    The connection is used by many goroutines at once, so it is modelled as a transition
    system.  A [label] is one atomic step: entering an API call, one access to a table
    under its lock (or one sync.Map operation), one network write, one channel rendezvous.
    The labels also carry everything the environment decides: which goroutine runs, random
    numbers, arriving datagrams, whether a write fails.  An execution is a list of labels;
    a property of every list is a property of every schedule.

    Simplifications: unsynchronised reads of one word (errIndEnabled, KernelGTP.enabled,
    len(relayMap)) are atomic; addresses are opaque numbers; net.ParseIP of the local
    address is given ([u_local]); a handler registered by the user has no other effect than
    being called (what it does through the API appears as separate labels); the socket, its
    deadlines and the netlink calls are the environment.  Logging is dropped.
    No proofs here. *)
From Coq Require Import String.
From Verif Require Import Base Maps TvIE V1Header V2IE V2Codec MsgModel Msgs1Gen V1Msg.
Open Scope string_scope.
Open Scope N_scope.
Open Scope list_scope.

(** net.Addr *)
Definition addr : Type := N.
(** gtpv1/handlers.go:17 HandlerFunc: the four defaults (handlers.go:45-54), a function of
    the user's, or a nil function value *)
Inductive handler := HTpdu | HEchoReq | HEchoRes | HErrInd | HUser (k : N) | HNil.
(** gtpv1/tunnel.go:12-16 peer *)
Record peer := Peer { p_teid : N; p_addr : addr; p_conn : N }.

(** gtpv1/u-conn.go:205-221 UPlaneConn.  A nil relayMap and an empty one behave alike.
    [u_open]: pktConn is not nil. *)
Record uconn := UConn {
  u_local : option bytes; u_open : bool; u_handlers : amap handler; u_teids : list N;
  u_relay : amap peer; u_errind : bool; u_kernel : bool; u_closed : bool }.

Definition set_handlers (u : uconn) v := UConn (u_local u) (u_open u) v (u_teids u) (u_relay u) (u_errind u) (u_kernel u) (u_closed u).
Definition set_teids (u : uconn) v := UConn (u_local u) (u_open u) (u_handlers u) v (u_relay u) (u_errind u) (u_kernel u) (u_closed u).
Definition set_relay (u : uconn) v := UConn (u_local u) (u_open u) (u_handlers u) (u_teids u) v (u_errind u) (u_kernel u) (u_closed u).
Definition set_errind (u : uconn) v := UConn (u_local u) (u_open u) (u_handlers u) (u_teids u) (u_relay u) v (u_kernel u) (u_closed u).
Definition set_kernel (u : uconn) := UConn (u_local u) true (u_handlers u) (u_teids u) (u_relay u) (u_errind u) true (u_closed u).
Definition set_open (u : uconn) := UConn (u_local u) true (u_handlers u) (u_teids u) (u_relay u) (u_errind u) (u_kernel u) (u_closed u).
Definition set_closed (u : uconn) := UConn (u_local u) (u_open u) (u_handlers u) (u_teids u) (u_relay u) (u_errind u) (u_kernel u) true.

(** gtpv1/handlers.go:36-54 newDefaultMsgHandlerMap *)
Definition default_handlers : amap handler := [(255, HTpdu); (1, HEchoReq); (2, HEchoRes); (26, HErrInd)].
(** gtpv1/u-conn.go:231-243 NewUPlaneConn *)
Definition new_uconn (local : option bytes) : uconn :=
  UConn local false default_handlers [] [] true false false.

(** the message.Message methods of a parsed message: gtpv1/message/header.go:187-189
    Sequence, 271-273 MessageType; TEID, e.g. t-pdu.go:92-94 *)
Definition pdu_hdr (p : pdu1) : hdr1 := match p with P1 _ m => m_hdr m | P1_tpdu h => h end.
(** the type assertions of the handlers, e.g. gtpv1/handlers.go:102 *)
Definition is_struct (name : string) (p : pdu1) : bool :=
  match p with P1 d _ => String.eqb (md_name d) name | P1_tpdu _ => false end.

(** gtpv1/u-conn.go:655-666 RespondTo, the message sent.  Flags, sequence number and
    Length change before MarshalLen and MarshalTo. *)
Definition respond_bytes (d : mdesc) (m : msg1) (seq : N) : res bytes :=
  let m := Msg (h1_set_seq (m_hdr m) seq) (m_fs m) in
  do n <- v1_len d m; do r <- v1_mto d m (zeros n); Ok (fst r).
(** gtpv1/handlers.go:99-109 handleEchoRequest with Restarts() = 0 (u-conn.go:669-671);
    ie.NewRecovery is gtpv1/ie/recovery.go *)
Definition echo_response (seq : N) : res bytes :=
  do m <- v1_new d_EchoResponse 0 0 [Some (new1 tv1 14 [0])];
  respond_bytes d_EchoResponse m seq.
(** gtpv1/ie/gsn-address.go:13-31 NewGSNAddress *)
Definition new_gsn (ip : option bytes) : option ie1 :=
  match ip with
  | None => None
  | Some b => Some (new1 tv1 133 (match to4 ip with Some v4 => v4 | None => b end))
  end.
(** gtpv1/u-conn.go:630-649 ErrorIndication, the message sent *)
Definition error_indication (local : option bytes) (teid seq : N) : res bytes :=
  do m <- v1_new d_ErrorIndication 0 seq [Some (new1 tv1 16 (enc32 teid)); new_gsn local];
  do r <- v1_marshal d_ErrorIndication m; Ok (fst r).
(** gtpv1/handlers.go:123-137 handleErrorIndication: MustTEID and MustIPAddress are called
    on the two fields; on a nil *IE they panic (gtpv1/ie/teid.go:29, gtpv1/ie/ip.go:13),
    on any other they return a value or a discarded error *)
Definition ind_panics (m : msg1) : bool :=
  match fget (m_fs m) "TEIDDataI", fget (m_fs m) "GTPUPeerAddress" with
  | Some _ :: _, Some _ :: _ => false
  | _, _ => true
  end.

(** where a goroutine stands *)
Inductive thread :=
| TAlloc (c tries ift : N) (v4 v6 : option bytes)      (* NewFTEID, u-conn.go:684-702: in the loop *)
| TAllocRet (c t ift : N) (v4 v6 : option bytes)       (* NewFTEID: after break, 704-707 *)
| TRelayTo (c tin : N) (p : peer)                      (* RelayTo, tunnel.go:26-31: past the kernel check *)
| TCloseRelay (c tin : N)                              (* CloseRelay, tunnel.go:41-46 *)
| TFree (c tin : N)                                    (* CloseRelay: before iteiMap.delete *)
| TKernel (c : N)                                      (* EnableKernelGTP, tunnel_linux.go:76-81 *)
| TRecv (c : N) (from : addr) (raw : bytes)            (* serve, u-conn.go:387-390: a new goroutine *)
| TLookup (c : N) (from : addr) (raw : bytes)          (* serve: before the lock in 396 *)
| TRelay (p : peer) (raw : bytes)                      (* serve: before 413 *)
| TParse (c : N) (from : addr) (raw : bytes)           (* serve: before Parse, 400 and 421 *)
| THandle (c : N) (from : addr) (p : pdu1) (h : handler) (* handleMessage, u-conn.go:596: before the call *)
| TWrite (c : N) (b : bytes) (a : addr)                (* WriteTo, u-conn.go:478-482 *)
| TOffer (c : N) (from : addr) (t : N) (p : bytes)     (* handleTPDU, handlers.go:88-95: the offer *)
| TRead (c : N) (n : nat).                             (* ReadFromGTP, u-conn.go:457-471: in select *)

(** what happened, as a history *)
Inductive event :=
| EvTaken (tid c t : N)                                (* NewFTEID marked t as taken *)
| EvMiss (tid c t : N)                                 (* NewFTEID drew t and could not use it *)
| EvTeid (tid c : N) (t : N) (r : res (option ie2))    (* NewFTEID returned this IE, made for t *)
| EvNoTeid (tid c : N)                                 (* NewFTEID returned nil *)
| EvFreed (c t : N)                                    (* t is no longer marked as taken *)
| EvRelayOn (c tin : N) (p : peer) | EvRelayOff (c tin : N) | EvRelayClear (c : N)
| EvHandler (c typ : N) (h : handler) | EvErrInd (c : N) (b : bool)
| EvOpen (c : N)                                       (* connection c has a socket *)
| EvClose (c : N)
| EvRecv (tid c : N) (from : addr) (d : bytes)         (* a datagram arrived *)
| EvLookup (tid c t : N) (r : option peer)             (* the relay table was consulted for TEID t *)
| EvRelayed (tid c : N) (a : addr) (b : bytes)         (* relaying wrote b to a through c *)
| EvDispatch (tid c typ : N) (h : option handler)      (* the handler table was consulted *)
| EvFlag (tid c : N) (b : bool)                        (* handleTPDU read errIndEnabled *)
| EvUser (tid k : N) (p : pdu1)                        (* handler k of the user was called with p *)
| EvWrite (tid c t : N) (p : bytes) (a : addr)         (* WriteToGTP was called *)
| EvSent (tid c : N) (a : addr) (b : bytes)            (* WriteTo wrote b to a through c *)
| EvRead (tid c : N) (n : nat)                         (* ReadFromGTP was called with a buffer of n bytes *)
| EvDelivered (tid rd c : N) (a : addr) (t : N) (p : bytes)  (* call rd of ReadFromGTP returned *)
| EvReadClosed (rd c : N)                              (* ReadFromGTP returned 0, nil, 0, nil *)
| EvDropped (tid : N)                                  (* the goroutine ended without further effect *)
| EvPanic (tid : N).

Record world := World {
  w_conns : N -> uconn; w_threads : amap thread; w_next : N; w_crashed : bool;
  w_log : list event }.                                (* newest event first *)

Inductive label :=
| LOpen (c : N)                                        (* ListenAndServe, DialUPlane: a socket *)
| LNewFTEID (c ift : N) (v4 v6 : option bytes)
| LTry (tid rnd : N)                                   (* one turn of NewFTEID's loop *)
| LRelayTo (c tin tout : N) (a : addr) (src : N)
| LCloseRelay (c tin : N)
| LEnableKernel (c : N)
| LDelTunnel (c itei : N)
| LErrInd (c : N) (b : bool)
| LAddHandler (c typ : N) (h : handler)
| LDatagram (c : N) (from : addr) (d : bytes)
| LWriteGTP (c t : N) (p : bytes) (a : addr)
| LReadGTP (c : N) (n : nat)
| LRun (tid : N) (ok : bool)                           (* the goroutine's next step; ok: the write succeeds *)
| LRendezvous (rd tid : N)                             (* a reader receives an offered T-PDU *)
| LTimeout (tid : N)                                   (* three seconds passed *)
| LReadClosed (rd : N)
| LClose (c : N).

Definition set_conn (w : world) (c : N) (u : uconn) : world :=
  World (upd (w_conns w) c u) (w_threads w) (w_next w) (w_crashed w) (w_log w).
Definition emit (w : world) (e : event) : world :=
  World (w_conns w) (w_threads w) (w_next w) (w_crashed w) (e :: w_log w).
(** the goroutine goes on as th, or ends *)
Definition goes (w : world) (tid : N) (th : thread) : world :=
  World (w_conns w) (aput (w_threads w) tid th) (w_next w) (w_crashed w) (w_log w).
Definition ends (w : world) (tid : N) : world :=
  World (w_conns w) (adel (w_threads w) tid) (w_next w) (w_crashed w) (w_log w).
Definition spawn (w : world) (th : thread) : world :=
  World (w_conns w) (aput (w_threads w) (w_next w) th) (w_next w + 1) (w_crashed w) (w_log w).
(** a panic in a goroutine ends the process *)
Definition crash (w : world) (tid : N) : world :=
  World (w_conns w) (adel (w_threads w) tid) (w_next w) true (EvPanic tid :: w_log w).

(** gtpv1/u-conn.go:361 buf := make([]byte, 1500): a longer datagram is cut by the socket *)
Definition received (d : bytes) : bytes := firstn 1500 d.
(** gtpv1/u-conn.go:413 PutUint32(raw[4:8], peer.teid) *)
Definition readdress (raw : bytes) (t : N) : res bytes := on_slice raw 4 8 (put32 t).

(** gtpv1/handlers.go:56-137 the default handlers; a user's handler *)
Definition run_handler (w : world) (tid c : N) (from : addr) (p : pdu1) (h : handler) : world :=
  match h with
  | HNil => crash w tid
  | HUser k => ends (emit w (EvUser tid k p)) tid
  | HTpdu =>
      match p with
      | P1_tpdu h =>
          let w := emit w (EvFlag tid c (u_errind (w_conns w c))) in
          if u_errind (w_conns w c) then
            match error_indication (u_local (w_conns w c)) (h1_teid h) (h1_seq h) with
            | Ok b => goes w tid (TWrite c b from)
            | Err _ => ends (emit w (EvDropped tid)) tid
            | Panic => crash w tid
            end
          else goes w tid (TOffer c from (h1_teid h) (h1_payload h))
      | P1 _ _ => ends (emit w (EvDropped tid)) tid
      end
  | HEchoReq =>
      if is_struct "EchoRequest" p then
        match echo_response (h1_seq (pdu_hdr p)) with
        | Ok b => goes w tid (TWrite c b from)
        | Err _ => ends (emit w (EvDropped tid)) tid
        | Panic => crash w tid
        end
      else ends (emit w (EvDropped tid)) tid
  | HEchoRes => ends (emit w (EvDropped tid)) tid
  | HErrInd =>
      match p with
      | P1 d m => if String.eqb (md_name d) "ErrorIndication" && ind_panics m then crash w tid
                  else ends (emit w (EvDropped tid)) tid
      | P1_tpdu _ => ends (emit w (EvDropped tid)) tid
      end
  end.

(** the next step of a goroutine *)
Definition run_thread (w : world) (tid : N) (th : thread) (ok : bool) : option world :=
  match th with
  | TAlloc c tries ift v4 v6 =>                        (* u-conn.go:684, 704-706 *)
      if tries <? 65535 then None else Some (ends (emit w (EvNoTeid tid c)) tid)
  | TAllocRet c t ift v4 v6 =>                         (* u-conn.go:707 *)
      Some (ends (emit w (EvTeid tid c t (new_fteid default_grouped ift t v4 v6))) tid)
  | TRelayTo c tin p =>                                (* tunnel.go:26-31 *)
      Some (ends (emit (set_conn w c (set_relay (w_conns w c) (aput (u_relay (w_conns w c)) tin p)))
                       (EvRelayOn c tin p)) tid)
  | TCloseRelay c tin =>                               (* tunnel.go:41-43 *)
      Some (goes (emit (set_conn w c (set_relay (w_conns w c) (adel (u_relay (w_conns w c)) tin)))
                       (EvRelayOff c tin)) tid (TFree c tin))
  | TFree c tin =>                                     (* tunnel.go:45 *)
      Some (ends (emit (set_conn w c (set_teids (w_conns w c) (filter (fun x => negb (x =? tin)) (u_teids (w_conns w c)))))
                       (EvFreed c tin)) tid)
  | TKernel c =>                                       (* tunnel_linux.go:76-81 *)
      Some (ends (emit (set_conn w c (set_relay (w_conns w c) [])) (EvRelayClear c)) tid)
  | TRecv c from raw =>                                (* u-conn.go:390-395 *)
      match u_relay (w_conns w c) with
      | [] => Some (goes w tid (TParse c from raw))
      | _ :: _ =>
          match idx raw 1 with
          | Ok t => if t =? 255 then
                      if (len raw <? 11)%nat then Some (ends (emit w (EvDropped tid)) tid)
                      else Some (goes w tid (TLookup c from raw))
                    else Some (goes w tid (TParse c from raw))
          | _ => Some (crash w tid)
          end
      end
  | TLookup c from raw =>                              (* u-conn.go:396-399 *)
      match (do s <- slice raw 4 8; be32 s) with
      | Ok t =>
          let r := aget (u_relay (w_conns w c)) t in
          let w := emit w (EvLookup tid c t r) in
          Some (match r with Some p => goes w tid (TRelay p raw) | None => goes w tid (TParse c from raw) end)
      | _ => Some (crash w tid)
      end
  | TRelay p raw =>                                    (* u-conn.go:413-418, 489-491 *)
      match readdress raw (p_teid p) with
      | Ok b => if u_open (w_conns w (p_conn p)) then
                  Some (ends (emit w (if ok then EvRelayed tid (p_conn p) (p_addr p) b else EvDropped tid)) tid)
                else Some (crash w tid)
      | _ => Some (crash w tid)
      end
  | TParse c from raw =>                               (* u-conn.go:400-409, 421-431, 590-594 *)
      match v1_parse raw with
      | Ok p =>
          let h := aget (u_handlers (w_conns w c)) (h1_type (pdu_hdr p)) in
          let w := emit w (EvDispatch tid c (h1_type (pdu_hdr p)) h) in
          Some (match h with Some h => goes w tid (THandle c from p h) | None => ends w tid end)
      | Err _ => Some (ends (emit w (EvDropped tid)) tid)
      | Panic => Some (crash w tid)
      end
  | THandle c from p h => Some (run_handler w tid c from p h)
  | TWrite c b a =>                                    (* u-conn.go:478-482 *)
      if u_open (w_conns w c) then Some (ends (emit w (if ok then EvSent tid c a b else EvDropped tid)) tid)
      else Some (crash w tid)
  | TOffer _ _ _ _ | TRead _ _ => None
  end.

(** the bytes of a datagram *)
Definition octet (x : N) : bool := x <? 256.

Definition step (w : world) (l : label) : option world :=
  if w_crashed w then None else
  match l with
  | LOpen c => Some (emit (set_conn w c (set_open (w_conns w c))) (EvOpen c))
  | LNewFTEID c ift v4 v6 => Some (spawn w (TAlloc c 0 ift v4 v6))
  | LTry tid rnd =>                                    (* u-conn.go:684-702; iteiMap.tryStore 728-731 *)
      match aget (w_threads w) tid with
      | Some (TAlloc c tries ift v4 v6) =>
          if (tries <? 65535) && (rnd <? 4294967296) then
            if (rnd =? 0) || existsb (N.eqb rnd) (u_teids (w_conns w c))
            then Some (goes (emit w (EvMiss tid c rnd)) tid (TAlloc c (tries + 1) ift v4 v6))
            else Some (goes (emit (set_conn w c (set_teids (w_conns w c) (rnd :: u_teids (w_conns w c))))
                                  (EvTaken tid c rnd)) tid (TAllocRet c rnd ift v4 v6))
          else None
      | _ => None
      end
  | LRelayTo c tin tout a src =>                       (* tunnel.go:21-24 *)
      if u_kernel (w_conns w c) then Some w else Some (spawn w (TRelayTo c tin (Peer tout a src)))
  | LCloseRelay c tin =>                               (* tunnel.go:36-39 *)
      if u_kernel (w_conns w c) then Some w else Some (spawn w (TCloseRelay c tin))
  | LEnableKernel c =>                                 (* tunnel_linux.go:40-74, when netlink succeeds *)
      Some (emit (spawn (set_conn w c (set_kernel (w_conns w c))) (TKernel c)) (EvOpen c))
  | LDelTunnel c itei =>                               (* tunnel_linux.go:127-164, when netlink succeeds *)
      if u_kernel (w_conns w c) then
        Some (emit (set_conn w c (set_teids (w_conns w c) (filter (fun x => negb (x =? itei)) (u_teids (w_conns w c)))))
                   (EvFreed c itei))
      else Some w
  | LErrInd c b =>                                     (* u-conn.go:742-758 *)
      Some (emit (set_conn w c (set_errind (w_conns w c) b)) (EvErrInd c b))
  | LAddHandler c typ h =>                             (* u-conn.go:577-588, handlers.go:23-25 *)
      Some (emit (set_conn w c (set_handlers (w_conns w c) (aput (u_handlers (w_conns w c)) typ h))) (EvHandler c typ h))
  | LDatagram c from d =>                              (* u-conn.go:361-387 *)
      if u_open (w_conns w c) && forallb octet d then
        Some (emit (spawn w (TRecv c from (received d))) (EvRecv (w_next w) c from d))
      else None
  | LWriteGTP c t p a =>                               (* u-conn.go:494-504 *)
      let w1 := emit w (EvWrite (w_next w) c t p a) in
      match tpdu1_marshal (encapsulate1 t p) with
      | Ok (b, _) => Some (spawn w1 (TWrite c b a))
      | Err _ => Some (World (w_conns w1) (w_threads w1) (w_next w1 + 1) (w_crashed w1) (w_log w1))
      | Panic => Some (crash w1 (w_next w))
      end
  | LReadGTP c n => Some (emit (spawn w (TRead c n)) (EvRead (w_next w) c n))
  | LRun tid ok =>
      match aget (w_threads w) tid with Some th => run_thread w tid th ok | None => None end
  | LRendezvous rd tid =>                              (* u-conn.go:461-469 with handlers.go:90 *)
      match aget (w_threads w) rd, aget (w_threads w) tid with
      | Some (TRead c n), Some (TOffer c' a t p) =>
          if c =? c' then Some (ends (ends (emit w (EvDelivered tid rd c a t (firstn n p))) tid) rd) else None
      | _, _ => None
      end
  | LTimeout tid =>                                    (* handlers.go:92 *)
      match aget (w_threads w) tid with
      | Some (TOffer _ _ _ _) => Some (ends (emit w (EvDropped tid)) tid)
      | _ => None
      end
  | LReadClosed rd =>                                  (* u-conn.go:459-460 *)
      match aget (w_threads w) rd with
      | Some (TRead c _) =>
          if u_closed (w_conns w c) then Some (ends (emit w (EvReadClosed rd c)) rd) else None
      | _ => None
      end
  | LClose c =>                                        (* u-conn.go:514-521: closing a closed channel panics *)
      if u_closed (w_conns w c) then Some (crash (World (w_conns w) (w_threads w) (w_next w + 1) (w_crashed w) (w_log w)) (w_next w))
      else Some (emit (set_conn w c (set_closed (w_conns w c))) (EvClose c))
  end.

Fixpoint run (w : world) (ls : list label) : option world :=
  match ls with
  | [] => Some w
  | l :: r => match step w l with Some w' => run w' r | None => None end
  end.
(** connections as NewUPlaneConn makes them; [local c] is the address of connection c *)
Definition start (local : N -> option bytes) : world :=
  World (fun c => new_uconn (local c)) [] 0 false [].
