(** gtpv1/relay.go: the (deprecated) Relay between two connections.  The two goroutines of
    Run take one step at a time; ReadFromGTP and WriteToGTP of the connections are the
    environment's: a read returns a T-PDU, or the zero values when the connection is closed
    (gtpv1/u-conn.go:457-471), or goes on waiting.  Whether a connection is still being served
    (u-conn.go:361-383) is kept, because Close sets read deadlines.  ReadFromGTP never
    returns an error, since tpduCh is never closed.  No proofs here. *)
From Verif Require Import Base Maps.
Open Scope N_scope.
Open Scope list_scope.

Inductive side := Left | Right.
Definition other (s : side) : side := match s with Left => Right | Right => Left end.
(** peer: teid and addr *)
Definition target : Type := (N * N)%type.
(** where a goroutine stands *)
Inductive loop :=
| LTop                                       (* relay.go:45/72: before select *)
| LRead                                      (* 52/79: in ReadFromGTP *)
| LGot (t : N) (p : bytes)                   (* 57/84: before getPeer *)
| LSend (q : target) (p : bytes)             (* 61/88: before WriteToGTP *)
| LEnd.                                      (* 47/74 returned *)
Inductive event :=
| EvAdd (t : N) (q : target)                 (* AddPeer(t, teidOut, raddr) *)
| EvGot (s : side) (t : N) (p : bytes)       (* ReadFromGTP on connection s returned *)
| EvFwd (s : side) (q : target) (p : bytes)  (* WriteToGTP on connection s was called *)
| EvClosed                                   (* Relay.Close returned nil *)
| EvConnClosed (s : side)                    (* the connection was closed *)
| EvUnserved (s : side).                     (* serve of the connection returned an error *)
Record world := World {
  w_pairs : amap target; w_closed : bool; w_left : loop; w_right : loop;
  w_conn_closed : side -> bool; w_deadline : side -> bool; w_served : side -> bool; w_log : list event }.
Inductive label :=
| AAdd (t : N) (q : target)
| AStep (s : side)                           (* a step of the goroutine that reads from s *)
| ATpdu (s : side) (t : N) (p : bytes)       (* the pending ReadFromGTP on s receives a T-PDU *)
| AEmpty (s : side)                          (* ... returns since the connection is closed *)
| AClose (ok1 ok2 : bool)                    (* Close; whether the two SetReadDeadline succeed *)
| AConnClose (s : side)
| ALate (s : side).                          (* the read of serve fails: the deadline has passed *)

(** relay.go:43/70: the buffer of 1600 octets *)
Definition copied (p : bytes) : bytes := firstn 1600 p.
Definition side_eqb (a b : side) : bool := match a, b with Left, Left | Right, Right => true | _, _ => false end.
Definition sput {A} (f : side -> A) (s : side) (v : A) : side -> A := fun x => if side_eqb x s then v else f x.
Definition get_loop (w : world) (s : side) : loop := match s with Left => w_left w | Right => w_right w end.
Definition goes (w : world) (s : side) (l : loop) : world :=
  World (w_pairs w) (w_closed w) (match s with Left => l | Right => w_left w end)
        (match s with Right => l | Left => w_right w end) (w_conn_closed w) (w_deadline w) (w_served w) (w_log w).
Definition emit (w : world) (e : event) : world :=
  World (w_pairs w) (w_closed w) (w_left w) (w_right w) (w_conn_closed w) (w_deadline w) (w_served w) (e :: w_log w).
Definition set_deadline (w : world) (s : side) : world :=
  World (w_pairs w) (w_closed w) (w_left w) (w_right w) (w_conn_closed w) (sput (w_deadline w) s true) (w_served w) (w_log w).

Definition step (w : world) (a : label) : option world :=
  match a with
  | AAdd t q =>                              (* 122-127 *)
      Some (emit (World (aput (w_pairs w) t q) (w_closed w) (w_left w) (w_right w) (w_conn_closed w) (w_deadline w) (w_served w) (w_log w))
                 (EvAdd t q))
  | AStep s =>
      match get_loop w s with
      | LTop => Some (goes w s (if w_closed w then LEnd else LRead))          (* 45-50/72-77 *)
      | LGot t p =>                                                            (* 57-60/84-87, 129-135 *)
          Some (goes w s (match aget (w_pairs w) t with Some q => LSend q p | None => LTop end))
      | LSend q p => Some (goes (emit w (EvFwd (other s) q p)) s LTop)         (* 61-63/88-90 *)
      | LRead | LEnd => None
      end
  | ATpdu s t p =>                           (* 52/79 *)
      match get_loop w s with
      | LRead => Some (goes (emit w (EvGot s t (copied p))) s (LGot t (copied p)))
      | _ => None
      end
  | AEmpty s =>
      match get_loop w s with
      | LRead => if w_conn_closed w s then Some (goes w s (LGot 0 [])) else None
      | _ => None
      end
  | AClose ok1 ok2 =>                        (* 101-110; closing a closed channel panics *)
      if negb ok1 then Some w else
      let w := set_deadline w Left in
      if negb ok2 then Some w else
      let w := set_deadline w Right in
      if w_closed w then None
      else Some (emit (World (w_pairs w) true (w_left w) (w_right w) (w_conn_closed w) (w_deadline w) (w_served w) (w_log w)) EvClosed)
  | AConnClose s =>
      Some (emit (World (w_pairs w) (w_closed w) (w_left w) (w_right w) (sput (w_conn_closed w) s true) (w_deadline w) (w_served w) (w_log w))
                 (EvConnClosed s))
  | ALate s =>                               (* u-conn.go:372-383: a timeout is neither EOF nor "closed" *)
      if w_deadline w s && w_served w s then
        Some (emit (World (w_pairs w) (w_closed w) (w_left w) (w_right w) (w_conn_closed w) (w_deadline w) (sput (w_served w) s false) (w_log w))
                   (EvUnserved s))
      else None
  end.
Fixpoint run (w : world) (ls : list label) : option world :=
  match ls with
  | [] => Some w
  | l :: r => match step w l with Some w' => run w' r | None => None end
  end.
(** 28-37 NewRelay, 43 Run: two served, open connections *)
Definition start : world := World [] false LTop LTop (fun _ => false) (fun _ => false) (fun _ => true) [].
