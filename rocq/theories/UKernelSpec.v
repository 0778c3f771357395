(** What the history of a connection's kernel tunnels means. *)
From Verif Require Import Base UKernel.
Open Scope N_scope.
Open Scope list_scope.

(** the tunnel belongs to the call: the call says which tunnel to replace or delete *)
Definition names (k : kcall) (q : pdp) : Prop :=
  match k with
  | KAdd _ => False
  | KOverride p => p_ms q = p_ms p \/ p_itei q = p_itei p
  | KDelITEI t => p_itei q = t
  | KDelMS ms => p_ms q = ms
  end.
(** the call asks for this tunnel *)
Definition asks (k : kcall) (p : pdp) : Prop := k = KAdd p \/ k = KOverride p.
Definition called (h : list kevent) (id : N) (k : kcall) : Prop := In (EvCalled id k) h.
(** the tunnels after a history *)
Definition tunnels (h : list kevent) : list pdp :=
  fold_left (fun tab e => match e with
    | EvAdded p => tab ++ [p]
    | EvDeleted r => filter (fun q => negb (p_itei q =? p_itei r)) tab
    | _ => tab end) h [].
(** the TEIDs NewFTEID will not give again *)
Definition taken (h : list kevent) (t : N) : bool :=
  fold_left (fun a e => match e with
    | EvTaken x => if x =? t then true else a
    | EvFreed x => if x =? t then false else a
    | _ => a end) h false.
(** the world is reachable: some schedule leads to it *)
Definition reachable (w : kworld) : Prop := exists ls, krun k_start ls = Some w.
(** goroutine id makes n steps, nobody else does anything and no system call fails *)
Definition alone (id : N) (n : nat) : list klabel := repeat (LRun id true) n.
