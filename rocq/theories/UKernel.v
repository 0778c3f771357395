(** Model of the kernel tunnels of gtpv1/tunnel_linux.go:88-163 (AddTunnel, AddTunnelOverride,
    DelTunnelByITEI, DelTunnelByMSAddress) on one UPlaneConn.

    A label is one atomic step of one goroutine or of the environment.  The module
    vishvananda/netlink and the kernel are not part of the code: they are the functions
    [by_ms], [by_itei], [k_add] and [k_del] on the list of the device's tunnels.  Assumed: a lookup
    answers with a tunnel of the device that has the key, or an error; adding is refused if the
    subscriber's address or the incoming TEID is in use (the request is made exclusive);
    deleting goes by the incoming TEID; any of these calls may also fail without effect
    ([ok] = false in the label).  An IP address is a byte string.  No proofs here. *)
From Verif Require Import Base.
Open Scope N_scope.
Open Scope list_scope.

(** tunnel_linux.go:93-99, 116: netlink.PDP of version 1 *)
Record pdp := Pdp { p_peer : bytes; p_ms : bytes; p_otei : N; p_itei : N }.

(** ** The kernel *)
Definition by_ms (tab : list pdp) (ms : bytes) : option pdp := find (fun q => bytes_eqb (p_ms q) ms) tab.
Definition by_itei (tab : list pdp) (t : N) : option pdp := find (fun q => p_itei q =? t) tab.
Definition k_add (tab : list pdp) (p : pdp) : option (list pdp) :=
  match by_ms tab (p_ms p), by_itei tab (p_itei p) with None, None => Some (tab ++ [p]) | _, _ => None end.
Definition k_del (tab : list pdp) (q : pdp) : option (pdp * list pdp) :=
  match by_itei tab (p_itei q) with
  | Some r => Some (r, filter (fun x => negb (p_itei x =? p_itei q)) tab)
  | None => None
  end.

(** ** The calls *)
Inductive kcall :=
| KAdd (p : pdp)                  (* AddTunnel *)
| KOverride (p : pdp)             (* AddTunnelOverride *)
| KDelITEI (t : N)                (* DelTunnelByITEI *)
| KDelMS (ms : bytes).            (* DelTunnelByMSAddress *)
(** where a goroutine stands: before line ... *)
Inductive kthread :=
| T114 (p : pdp)                  (* GTPPDPByMSAddress *)
| T116 (p q : pdp)                (* GTPPDPDel of the tunnel found *)
| T118 (p : pdp)                  (* GTPPDPByITEI *)
| T120 (p q : pdp)                (* GTPPDPDel of the tunnel found *)
| T100 (p : pdp)                  (* GTPPDPAdd *)
| T132 (t : N)                    (* GTPPDPByITEI *)
| T151 (ms : bytes)               (* GTPPDPByMSAddress *)
| T137 (q : pdp) (t : N)          (* 137, 157: GTPPDPDel; t is freed afterwards *)
| T141 (t : N).                   (* 141, 161: iteiMap.delete *)
(** what happened *)
Inductive kevent :=
| EvCalled (id : N) (k : kcall)
| EvAdded (p : pdp)               (* the kernel added p *)
| EvDeleted (p : pdp)             (* the kernel deleted p *)
| EvTaken (t : N)                 (* NewFTEID took t, u-conn.go:696 *)
| EvFreed (t : N)                 (* t was removed from the taken TEIDs *)
| EvReturned (id : N) (good : bool).
(** [k_tab]: the device's tunnels; [k_taken]: iteiMap; [k_on]: KernelGTP.enabled *)
Record kworld := KWorld {
  k_on : bool; k_tab : list pdp; k_taken : N -> bool; k_threads : N -> option kthread; k_next : N; k_hist : list kevent }.
(** a new connection: no Kernel GTP-U, no TEID taken; tunnels are those of a device not made yet *)
Definition k_start : kworld := KWorld false [] (fun _ => false) (fun _ => None) 0 [].

Inductive klabel :=
| LOn                             (* EnableKernelGTP succeeded, tunnel_linux.go:74 *)
| LTake (t : N)                   (* tryStore in NewFTEID succeeded *)
| LCall (k : kcall)
| LRun (id : N) (ok : bool).      (* goroutine id makes its next step; ok: the netlink call does not fail *)

Definition log (w : kworld) (e : kevent) : kworld :=
  KWorld (k_on w) (k_tab w) (k_taken w) (k_threads w) (k_next w) (k_hist w ++ [e]).
Definition with_tab (w : kworld) (t : list pdp) : kworld := KWorld (k_on w) t (k_taken w) (k_threads w) (k_next w) (k_hist w).
Definition upd {A} (m : N -> A) (k : N) (v : A) : N -> A := fun x => if x =? k then v else m x.
Definition with_taken (w : kworld) (t : N) (v : bool) : kworld :=
  KWorld (k_on w) (k_tab w) (upd (k_taken w) t v) (k_threads w) (k_next w) (k_hist w).
Definition goto (w : kworld) (id : N) (t : kthread) : kworld :=
  KWorld (k_on w) (k_tab w) (k_taken w) (upd (k_threads w) id (Some t)) (k_next w) (k_hist w).
Definition return_ (w : kworld) (id : N) (good : bool) : kworld :=
  log (KWorld (k_on w) (k_tab w) (k_taken w) (upd (k_threads w) id None) (k_next w) (k_hist w)) (EvReturned id good).

(** the first step of a call, past the test of KernelGTP.enabled *)
Definition entry (k : kcall) : kthread :=
  match k with
  | KAdd p => T100 p | KOverride p => T114 p | KDelITEI t => T132 t | KDelMS ms => T151 ms
  end.
(** delete q: its error is ignored in AddTunnelOverride *)
Definition deleting (w : kworld) (ok : bool) (q : pdp) : kworld * bool :=
  match (if ok then k_del (k_tab w) q else None) with
  | Some (r, tab) => (log (with_tab w tab) (EvDeleted r), true)
  | None => (w, false)
  end.
(** tunnel_linux.go:88-163, one step *)
Definition run_kthread (w : kworld) (id : N) (ok : bool) (t : kthread) : kworld :=
  match t with
  | T114 p => match (if ok then by_ms (k_tab w) (p_ms p) else None) with
              | Some q => goto w id (T116 p q) | None => goto w id (T118 p) end
  | T116 p q => goto (fst (deleting w ok q)) id (T118 p)
  | T118 p => match (if ok then by_itei (k_tab w) (p_itei p) else None) with
              | Some q => goto w id (T120 p q) | None => goto w id (T100 p) end
  | T120 p q => goto (fst (deleting w ok q)) id (T100 p)
  | T100 p => match (if ok then k_add (k_tab w) p else None) with
              | Some tab => return_ (log (with_tab w tab) (EvAdded p)) id true
              | None => return_ w id false end
  | T132 t => match (if ok then by_itei (k_tab w) t else None) with
              | Some q => goto w id (T137 q t) | None => return_ w id false end
  | T151 ms => match (if ok then by_ms (k_tab w) ms else None) with
              | Some q => goto w id (T137 q (p_itei q)) | None => return_ w id false end
  | T137 q t => let (w, good) := deleting w ok q in if good then goto w id (T141 t) else return_ w id false
  | T141 t => return_ (log (with_taken w t false) (EvFreed t)) id true
  end.
Definition kstep (w : kworld) (l : klabel) : option kworld :=
  match l with
  | LOn => Some (KWorld true (k_tab w) (k_taken w) (k_threads w) (k_next w) (k_hist w))
  | LTake t => if k_taken w t then None else Some (log (with_taken w t true) (EvTaken t))
  | LCall k =>
      let id := k_next w in
      let w := log (KWorld (k_on w) (k_tab w) (k_taken w) (k_threads w) (id + 1) (k_hist w)) (EvCalled id k) in
      Some (if k_on w then goto w id (entry k) else return_ w id false)
  | LRun id ok => match k_threads w id with Some t => Some (run_kthread w id ok t) | None => None end
  end.
Fixpoint krun (w : kworld) (ls : list klabel) : option kworld :=
  match ls with [] => Some w | l :: ls => match kstep w l with Some w => krun w ls | None => None end end.
