(** Writing to a user-plane socket with a DSCP/ECN mark: gtpv1/u-conn.go:51-172 (pktConn4 and
    pktConn6 differ only in the name of the socket option) and 473-491.

    A call of UPlaneConn.WriteTo or UPlaneConn.WriteToWithDSCPECN is a goroutine that takes
    one step at a time; a schedule is any list of steps.  The socket is its TOS (or traffic
    class) option; reading or setting the option and writing may fail, as the schedule
    says.  Not modelled: other users of the connection's lock (each holds it for a map access
    only), changes of the option through the file returned by File, and a nil pktConn (see
    UPlane.v).  No proofs here. *)
From Verif Require Import Base Maps.
Open Scope N_scope.
Open Scope list_scope.

Definition addr := N.
(** a call: the mark it asks for, the destination and the packet *)
Record call := Call { k_mark : N; k_to : addr; k_pkt : bytes }.

(** where a call stands.  [own]: the call came through WriteTo and holds UPlaneConn.mu *)
Inductive thread :=
| TConn (k : call)                           (* WriteTo, u-conn.go:479: before u.mu.Lock *)
| TLock (own : bool) (k : call)              (* WriteToWithDSCPECN, 93/150: before pkt.mu.Lock *)
| TGet (own : bool) (k : call)               (* 95/152: before reading the option *)
| TSet (own : bool) (k : call) (old : N)     (* 99/156: before setting it *)
| TSend (own : bool) (k : call) (old : N)    (* 107/164: before the write *)
| TBack (own : bool) (old : N) (r : bool)    (* 103-106/160-163, deferred: before setting it back *)
| TFree (own : bool) (r : bool)              (* 94/151, deferred: before pkt.mu.Unlock *)
| TConnFree (r : bool).                      (* 480, deferred: before u.mu.Unlock *)

Inductive event :=
| EvCall (id : N) (k : call)                 (* the call was made *)
| EvWire (id : N) (mark : N) (a : addr) (b : bytes)  (* a datagram left with this mark *)
| EvBack (id : N) (ok : bool)                (* the option was set back, or that failed *)
| EvRet (id : N) (ok : bool).                (* the call returned, with a nil error if ok *)

Record world := World {
  w_opt : N;                                 (* the option of the socket *)
  w_mu : option N;                           (* pktConn4.mu, pktConn6.mu: who holds it *)
  w_umu : option N;                          (* UPlaneConn.mu *)
  w_threads : amap thread; w_next : N; w_log : list event }.
Inductive label :=
| LWrite (a : addr) (b : bytes)              (* UPlaneConn.WriteTo is called *)
| LWriteMarked (mark : N) (a : addr) (b : bytes)  (* UPlaneConn.WriteToWithDSCPECN is called *)
| LRun (id : N) (ok : bool).                 (* the next step of a call; ok: the system call succeeds *)

Definition emit (w : world) (e : event) : world :=
  World (w_opt w) (w_mu w) (w_umu w) (w_threads w) (w_next w) (e :: w_log w).
Definition goes (w : world) (id : N) (th : thread) : world :=
  World (w_opt w) (w_mu w) (w_umu w) (aput (w_threads w) id th) (w_next w) (w_log w).
Definition ends (w : world) (id : N) : world :=
  World (w_opt w) (w_mu w) (w_umu w) (adel (w_threads w) id) (w_next w) (w_log w).
Definition spawn (w : world) (th : thread) : world :=
  World (w_opt w) (w_mu w) (w_umu w) (aput (w_threads w) (w_next w) th) (w_next w + 1) (w_log w).
Definition set_opt (w : world) (m : N) : world :=
  World m (w_mu w) (w_umu w) (w_threads w) (w_next w) (w_log w).
Definition set_mu (w : world) (o : option N) : world :=
  World (w_opt w) o (w_umu w) (w_threads w) (w_next w) (w_log w).
Definition set_umu (w : world) (o : option N) : world :=
  World (w_opt w) (w_mu w) o (w_threads w) (w_next w) (w_log w).

Definition run_thread (w : world) (id : N) (th : thread) (ok : bool) : option world :=
  match th with
  | TConn k =>                               (* 479; sync.Mutex blocks while it is held *)
      match w_umu w with None => Some (goes (set_umu w (Some id)) id (TLock true k)) | Some _ => None end
  | TLock own k =>                           (* 93/150 *)
      match w_mu w with None => Some (goes (set_mu w (Some id)) id (TGet own k)) | Some _ => None end
  | TGet own k =>                            (* 95-98/152-155, 82-85/139-142 *)
      Some (goes w id (if ok then TSet own k (w_opt w) else TFree own false))
  | TSet own k old =>                        (* 99-102/156-159, 76-79/133-136 *)
      Some (if ok then goes (set_opt w (k_mark k)) id (TSend own k old) else goes w id (TFree own false))
  | TSend own k old =>                       (* 107/164, 71-73/128-130: sent with the option of that moment *)
      Some (goes (if ok then emit w (EvWire id (w_opt w) (k_to k) (k_pkt k)) else w) id (TBack own old ok))
  | TBack own old r =>                       (* 105/162: the error is dropped *)
      Some (goes (emit (if ok then set_opt w old else w) (EvBack id ok)) id (TFree own r))
  | TFree own r =>                           (* 94/151 *)
      Some (let w := set_mu w None in
            if own then goes w id (TConnFree r) else emit (ends w id) (EvRet id r))
  | TConnFree r => Some (emit (ends (set_umu w None) id) (EvRet id r))   (* 480 *)
  end.
Definition step (w : world) (l : label) : option world :=
  match l with
  | LWrite a b =>                            (* 478-482: with mark 0 *)
      let k := Call 0 a b in Some (spawn (emit w (EvCall (w_next w) k)) (TConn k))
  | LWriteMarked m a b =>                    (* 489-491 *)
      let k := Call m a b in Some (spawn (emit w (EvCall (w_next w) k)) (TLock false k))
  | LRun id ok => match aget (w_threads w) id with Some th => run_thread w id th ok | None => None end
  end.
Fixpoint run (w : world) (ls : list label) : option world :=
  match ls with
  | [] => Some w
  | l :: r => match step w l with Some w' => run w' r | None => None end
  end.
(** a socket whose option is m, and no call yet: u-conn.go:190-200 newPktConn *)
Definition start (m : N) : world := World m None None [] 0 [].
