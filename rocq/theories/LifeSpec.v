(** * What is claimed of the life of a connection, in terms of Life.v *)
From Verif Require Import Base Life.
Local Open Scope nat_scope.

(** One step of the library, one step of the world around it *)
Definition lib_step (k : kind) (s s' : st) : Prop := exists a, lib k s a = Some s'.
Definition step (k : kind) (s s' : st) : Prop := lib_step k s s' \/ exists e, env k s e = Some s'.
Inductive steps (k : kind) : st -> st -> Prop :=
| steps_refl s : steps k s s
| steps_more s s' s'' : steps k s s' -> step k s' s'' -> steps k s s''.
(** What a history of calls, datagrams, ended contexts and goroutine turns leads to *)
Definition reachable (k : kind) (s : st) : Prop := steps k new_conn s.

(** Nothing is left for the library to do until a call is made, a datagram arrives or a context
    ends. *)
Definition quiet (k : kind) (s : st) : Prop := panicked s = false /\ forall s', ~ lib_step k s s'.
(** n steps of the library, one after the other *)
Inductive lib_run (k : kind) : nat -> st -> st -> Prop :=
| run_none s : lib_run k 0 s s
| run_more n s s' s'' : lib_run k n s s' -> lib_step k s' s'' -> lib_run k (S n) s s''.

(** The connection has been opened once, and no attempt to open it failed. *)
Definition opened_once (s : st) : Prop :=
  List.length (socks (co s)) = 1 /\ ~ In (Ended ListenErr) (threads s).
(** A call of Serve or ListenAndServe with the context c got to serving. *)
Definition served (s : st) (c : nat) : Prop :=
  In (Ended (ServeNil c)) (threads s) \/ In (Ended (ServeErr c)) (threads s) \/ exists p, In (TServe c p) (threads s).
(** Every socket the connection ever opened is closed. *)
Definition all_shut (s : st) : Prop := forall x, In x (socks (co s)) -> sk_open x = false.
(** Every call has returned and every goroutine has ended. *)
Definition all_ended (s : st) : Prop := forall t, In t (threads s) -> exists o, t = Ended o.

(** What was sent from the socket j *)
Definition sent_from (j : nat) (x : core) : list (nat * N) := filter (fun w => fst w =? j) (wire x).
(** The socket j is closed. *)
Definition dead (j : nat) (x : core) : Prop := exists q, nth_error (socks x) j = Some (Sk false q).

(** A sequence of turns and events, for the examples *)
Inductive move := L (a : act) | E (e : event).
Fixpoint play (k : kind) (l : list move) (s : st) : option st :=
  match l with
  | [] => Some s
  | m :: r => match (match m with L a => lib k s a | E e => env k s e end) with Some s' => play k r s' | None => None end
  end.
