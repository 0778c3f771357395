(** * The life of a connection: opening, serving, closing

    The goroutines of one [gtpv2.Conn] (kind [CP]) or one [gtpv1.UPlaneConn] (kind [UP]) and
    of its callers, in any number and interleaved in any way, around the socket, the channel
    Close closes and the contexts the caller may end.

    Simplifications. A datagram is a number: what is in it, and what the handler makes of it,
    is the subject of UPlane.v and CPlane.v; here its goroutine may do any of the things those
    handlers do.  The mutexes are left out: each is taken for one assignment or one write
    (RaceModel.v shows that nothing waits on them for ever).  Storing and loading the field
    pktConn are atomic (C68 lists where that is a data race).  Kernel GTP-U is not switched on.
    A read of a UDP socket does not return io.EOF. *)
From Verif Require Import Base.
Local Open Scope nat_scope.

Inductive kind := CP | UP.

(** A UDP socket: whether it is open, and the datagrams that wait in it *)
Record sock := Sk { sk_open : bool; sk_in : list N }.

(** How a call or a goroutine ended. *)
Inductive outcome :=
| ServeNil (c : nat)          (** Serve or ListenAndServe returned nil; c is its context *)
| ServeErr (c : nat)          (** … returned an error *)
| ListenOk | ListenErr
| CloserDone (c : nat)        (** the goroutine that waits for the end has closed the socket *)
| Handled (d : N)
| Offered (d : N) | Discarded (d : N)  (** the goroutine of handleTPDU *)
| ReadGTP (r : option N) (err : bool)  (** ReadFromGTP: a T-PDU or no bytes, and whether its error is not nil *)
| ReadFrom (r : option N)     (** ReadFrom: a datagram, or an error *)
| Wrote (d : N) (ok : bool)
| CloseOk.

(** Where a call or goroutine is.  [c] names the context given to the call. *)
Inductive spc := SStart | SCheck | SLoad | SRead (j : nat).
Inductive kpc := KWait | KClose.
Inductive thread :=
| TListenU (c : nat)            (** UPlaneConn.ListenAndServe before it has looked at pktConn *)
| TListen (next : option nat)   (** about to open a socket, and then to serve *)
| TServe (c : nat) (p : spc)
| TCloser (c : nat) (p : kpc)
| THandle (d : N)
| TOffer (d : N)
| TReadGTP
| TReadFrom | TReadOn (j : nat)
| TWrite (d : N)
| TClose
| Ended (o : outcome).

(** The connection: the sockets opened so far, which of them pktConn refers to, whether closeCh
    is closed, the contexts that have ended, what was sent and from which socket. *)
Record core := Core {
  socks : list sock; cur : option nat; closed : bool; cancelled : list nat; wire : list (nat * N) }.
Record st := St { co : core; threads : list thread; panicked : bool }.

(** gtpv2/conn.go:56-70 NewConn; gtpv1/u-conn.go:231-243 NewUPlaneConn *)
Definition new_conn : st := St (Core [] None false [] []) [] false.

Definition upd {A} (i : nat) (x : A) (l : list A) : list A :=
  if i <? List.length l then firstn i l ++ x :: skipn (S i) l else l.
Definition set_socks (l : list sock) (c : core) : core := Core l (cur c) (closed c) (cancelled c) (wire c).
Definition set_cur (j : option nat) (c : core) : core := Core (socks c) j (closed c) (cancelled c) (wire c).
Definition set_closed (c : core) : core := Core (socks c) (cur c) true (cancelled c) (wire c).
Definition sends (j : nat) (d : N) (c : core) : core := Core (socks c) (cur c) (closed c) (cancelled c) (wire c ++ [(j, d)]).
Definition shut (j : nat) (c : core) : core :=
  match nth_error (socks c) j with Some x => set_socks (upd j (Sk false (sk_in x)) (socks c)) c | None => c end.
(** Reading a socket: a datagram, nothing yet, or closed *)
Inductive rd := RGot (d : N) (c : core) | RWait | RShut.
Definition read_sock (j : nat) (c : core) : rd :=
  match nth_error (socks c) j with
  | Some (Sk true (d :: q)) => RGot d (set_socks (upd j (Sk true q) (socks c)) c)
  | Some (Sk true []) => RWait
  | _ => RShut
  end.
(** whether the context c has ended or Close was called *)
Definition over (c : nat) (x : core) : bool := existsb (Nat.eqb c) (cancelled x) || closed x.

(** What the turn of a goroutine makes of the connection: it panics, or goes on as a thread
    and starts others. *)
Inductive result := Crash | Next (x : core) (t : thread) (new : list thread).
(** Where the Go runtime, the socket or the handler decides *)
Inductive choice := First | Second | Third.

(** gtpv2/conn.go:146-155 Listen, 137-143 ListenAndServe; gtpv1/u-conn.go:319-335
    ListenAndServe, with 177-202 newPktConn: the socket opens (First), does not (Second: the
    field is nil afterwards), or opens for an address that is no IP address, which newPktConn
    refuses without closing the socket (Third, gtpv1) *)
Definition listen (k : kind) (x : core) (next : option nat) (h : choice) : option result :=
  match h with
  | First => Some (Next (set_cur (Some (List.length (socks x))) (set_socks (socks x ++ [Sk true []]) x))
                     (match next with Some c => TServe c SStart | None => Ended ListenOk end) [])
  | Second => Some (Next (set_cur None x) (Ended ListenErr) [])
  | Third => match k with UP => Some (Next (set_cur None (set_socks (socks x ++ [Sk true []]) x)) (Ended ListenErr) []) | CP => None end
  end.

(** gtpv2/conn.go:167-207 Serve; gtpv1/u-conn.go:337-436 serve: in gtpv1 each round begins by
    looking at the context and at closeCh *)
Definition serve (k : kind) (x : core) (c : nat) (p : spc) : option result :=
  let again := TServe c (match k with UP => SCheck | CP => SLoad end) in
  match p with
  | SStart => Some (Next x again [TCloser c KWait])
  | SCheck => Some (Next x (if over c x then Ended (ServeNil c) else TServe c SLoad) [])
  | SLoad => Some (match cur x with Some j => Next x (TServe c (SRead j)) [] | None => Crash end)
  | SRead j => match read_sock j x with
               | RGot d x' => Some (Next x' again [THandle d])
               | RWait => None
               | RShut => Some (Next x (Ended (ServeNil c)) [])
               end
  end.

(** gtpv2/conn.go:168-178, gtpv1/u-conn.go:338-359: the goroutine that waits for the end.  A
    socket closed before makes Close return an error, which is logged. *)
Definition closer (k : kind) (x : core) (c : nat) (p : kpc) : option result :=
  match p with
  | KWait => if over c x then Some (Next x (TCloser c KClose) []) else None
  | KClose => Some (match cur x with
                    | Some j => Next (shut j x) (Ended (CloserDone c)) []
                    | None => match k with UP => Next x (Ended (CloserDone c)) [] | CP => Crash end
                    end)
  end.

(** a write: gtpv2/conn.go:227-229 WriteTo; gtpv1/u-conn.go:478-482 WriteTo *)
Definition write (x : core) (d : N) (ok ko : thread) : result :=
  match cur x with
  | None => Crash
  | Some j => match nth_error (socks x) j with
              | Some (Sk true _) => Next (sends j d x) ok []
              | _ => Next x ko []
              end
  end.

(** The turn of a goroutine.  The goroutine of a datagram (gtpv2/conn.go:194-205,
    gtpv1/u-conn.go:387-434) does nothing else (First), hands a T-PDU to ReadFromGTP (Second,
    gtpv1/handlers.go:59-97) or sends an answer (Third).  handlers.go:88-95: the goroutine that
    offers a T-PDU gives up after three seconds.  gtpv1/u-conn.go:457-472 ReadFromGTP returns
    with a nil error when closeCh is closed.  gtpv2/conn.go:218-220, gtpv1/u-conn.go:448-450
    ReadFrom; gtpv2/conn.go:233-240, gtpv1/u-conn.go:514-521 Close: closing a closed channel
    panics. *)
Definition turn (k : kind) (x : core) (t : thread) (h : choice) : option result :=
  match t, h with
  | TListenU c, First => Some (Next x (match cur x with None => TListen (Some c) | Some _ => TServe c SStart end) [])
  | TListen next, _ => listen k x next h
  | TServe c p, First => serve k x c p
  | TCloser c p, First => closer k x c p
  | THandle d, First => Some (Next x (Ended (Handled d)) [])
  | THandle d, Second => match k with UP => Some (Next x (Ended (Handled d)) [TOffer d]) | CP => None end
  | THandle d, Third => Some (write x d (Ended (Handled d)) (Ended (Handled d)))
  | TOffer d, First => Some (Next x (Ended (Discarded d)) [])
  | TReadGTP, First => if closed x then Some (Next x (Ended (ReadGTP None false)) []) else None
  | TReadFrom, First => Some (match cur x with Some j => Next x (TReadOn j) [] | None => Crash end)
  | TReadOn j, First => match read_sock j x with
                        | RGot d x' => Some (Next x' (Ended (ReadFrom (Some d))) [])
                        | RWait => None
                        | RShut => Some (Next x (Ended (ReadFrom None)) [])
                        end
  | TWrite d, First => Some (write x d (Ended (Wrote d true)) (Ended (Wrote d false)))
  | TClose, First => Some (if closed x then Crash else Next (set_closed x) (Ended CloseOk) [])
  | _, _ => None
  end.

(** The library's own steps: a goroutine takes its turn, or a T-PDU passes from the goroutine
    that offers it to a call of ReadFromGTP (gtpv1/handlers.go:89-91, u-conn.go:461-471). *)
Inductive act := Run (i : nat) (h : choice) | Meet (i j : nat).
Definition lib (k : kind) (s : st) (a : act) : option st :=
  if panicked s then None else
  match a with
  | Run i h =>
      match nth_error (threads s) i with
      | None => None
      | Some t => match turn k (co s) t h with
                  | None => None
                  | Some Crash => Some (St (co s) (threads s) true)
                  | Some (Next x t' new) => Some (St x (upd i t' (threads s) ++ new) false)
                  end
      end
  | Meet i j =>
      match nth_error (threads s) i, nth_error (threads s) j with
      | Some (TOffer d), Some TReadGTP =>
          Some (St (co s) (upd j (Ended (ReadGTP (Some d) false)) (upd i (Ended (Offered d)) (threads s))) false)
      | _, _ => None
      end
  end.

(** What the callers, the peers and the network do: a call begins, a context ends, a datagram
    arrives at an open socket, the read of a Serve fails for another reason than closing
    (gtpv2/conn.go:188, gtpv1/u-conn.go:381: the error names the local address). *)
Inductive event := Call (t : thread) | Cancel (c : nat) | Arrive (j : nat) (d : N) | Fail (i : nat).
(** The exported calls of each kind *)
Definition a_call (k : kind) (t : thread) : bool :=
  match k, t with
  | CP, TListen _ | CP, TServe _ SStart | UP, TListenU _ | UP, TReadGTP => true
  | _, TReadFrom | _, TWrite _ | _, TClose => true
  | _, _ => false
  end.
Definition env (k : kind) (s : st) (e : event) : option st :=
  if panicked s then None else
  match e with
  | Call t => if a_call k t then Some (St (co s) (threads s ++ [t]) false) else None
  | Cancel c => let x := co s in
                Some (St (Core (socks x) (cur x) (closed x) (c :: cancelled x) (wire x)) (threads s) false)
  | Arrive j d => match nth_error (socks (co s)) j with
                  | Some (Sk true q) => Some (St (set_socks (upd j (Sk true (q ++ [d])) (socks (co s))) (co s)) (threads s) false)
                  | _ => None
                  end
  | Fail i => match nth_error (threads s) i with
              | Some (TServe c (SRead j)) =>
                  match nth_error (socks (co s)) j, cur (co s) with
                  | Some (Sk true _), Some _ => Some (St (co s) (upd i (Ended (ServeErr c)) (threads s)) false)
                  | Some (Sk true _), None => Some (St (co s) (threads s) true)
                  | _, _ => None
                  end
              | _ => None
              end
  end.
