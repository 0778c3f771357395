(** What a data race and a deadlock are, and the data races of the library. *)
From Coq Require Import String.
From Verif Require Import Base RaceModel.
Open Scope string_scope.
Open Scope N_scope.
Open Scope list_scope.

(** ** Data races *)
(** the next thing a goroutine does is to read (false) or write (true) this field of this object *)
Definition about_to (t : thr) (f : field) (o : N) (w : bool) : Prop :=
  match t_code t with
  | Rd g x :: _ | Use g x :: _ | If g x _ _ :: _ => g = f /\ t_env t x = o /\ w = false
  | Wr g x _ :: _ => g = f /\ t_env t x = o /\ w = true
  | _ => False
  end.
(** two goroutines, inside the functions [a] and [b], are both about to access the field [f] of
    the same object, and one of them to write it: nothing orders the two accesses *)
Definition racy (s : st) (a b : string) (f : field) : Prop :=
  exists i j p q o w v, i <> j /\ nth_error (s_thr s) i = Some p /\ nth_error (s_thr s) j = Some q /\
    t_tag p = a /\ t_tag q = b /\ about_to p f o w /\ about_to q f o v /\ (w || v = true)%bool.
Definition can_race (a b : string) (f : field) : Prop := exists s, reachable s /\ racy s a b f.

(** The data races: the functions of the second list race with those of the third on the field. *)
Definition sends : list string :=
  ["Conn.SendMessageTo"; "Conn.EchoRequest"; "Conn.EchoResponse"; "Conn.RespondTo"; "Conn.CreateSession"; "Conn.DeleteSession"; "Conn.ModifyBearer"; "Conn.DeleteBearer"].
Definition races : list (field * list string * list string) := [
  (* the socket of a UPlaneConn, which is made when it starts to listen *)
  (UPkt, ["UPlaneConn.ListenAndServe"; "UPlaneConn.EnableKernelGTP"],
     ["UPlaneConn.ListenAndServe"; "UPlaneConn.EnableKernelGTP"; "UPlaneConn.ReadFrom"; "UPlaneConn.LocalAddr"; "UPlaneConn.SetDeadline"; "UPlaneConn.SetReadDeadline"; "UPlaneConn.SetWriteDeadline";
      "UPlaneConn.WriteToWithDSCPECN"; "UPlaneConn.ErrorIndication"; "Relay.Close"; "UPlaneConn closing"; "UPlaneConn datagram"]);
  (UPkt, ["UPlaneConn.EnableKernelGTP"],
     ["UPlaneConn.WriteTo"; "UPlaneConn.WriteToGTP"; "UPlaneConn.EchoRequest"; "UPlaneConn.EchoResponse"; "UPlaneConn.RespondTo"; "Relay running"]);
  (* its table of relayed tunnels *)
  (URelay, ["UPlaneConn.RelayTo"; "UPlaneConn.CloseRelay"; "UPlaneConn.EnableKernelGTP"], ["UPlaneConn datagram"; "UPlaneConn.EnableKernelGTP"]);
  (* whether it answers T-PDUs with Error Indications *)
  (UErrInd, ["UPlaneConn.EnableErrorIndication"; "UPlaneConn.DisableErrorIndication"], ["UPlaneConn datagram"]);
  (* whether it uses the kernel, and its GTP device *)
  (UKernel, ["UPlaneConn.EnableKernelGTP"],
     ["UPlaneConn.EnableKernelGTP"; "UPlaneConn.RelayTo"; "UPlaneConn.CloseRelay"; "UPlaneConn.AddTunnel"; "UPlaneConn.AddTunnelOverride"; "UPlaneConn.DelTunnelByITEI"; "UPlaneConn.DelTunnelByMSAddress"; "UPlaneConn closing"]);
  (UFile, ["UPlaneConn.EnableKernelGTP"], ["UPlaneConn.EnableKernelGTP"; "UPlaneConn closing"]);
  (ULink, ["UPlaneConn.EnableKernelGTP"],
     ["UPlaneConn.EnableKernelGTP"; "UPlaneConn.AddTunnel"; "UPlaneConn.AddTunnelOverride"; "UPlaneConn.DelTunnelByITEI"; "UPlaneConn.DelTunnelByMSAddress"; "UPlaneConn.Link"; "UPlaneConn closing"]);
  (* the socket of a Conn *)
  (CPkt, ["Conn.Listen"; "Conn.ListenAndServe"],
     ["Conn.ListenAndServe"; "Conn.Serve"; "Conn.ReadFrom"; "Conn.WriteTo"; "Conn.LocalAddr"; "Conn.SetDeadline"; "Conn.SetReadDeadline"; "Conn.SetWriteDeadline";
      "Conn.VersionNotSupportedIndication"; "Conn serving"; "Conn closing"; "Conn datagram"] ++ sends);
  (* whether it validates messages *)
  (CValid, ["Conn.EnableValidation"; "Conn.DisableValidation"], ["Conn datagram"]);
  (* the peer of a Session, as an address and as text *)
  (SPeer, ["Session.UpdatePeerAddr"], ["Session.UpdatePeerAddr"; "Session.PeerAddr"; "Conn.DeleteSession"; "Conn.ModifyBearer"; "Conn.DeleteBearer"]);
  (SPeerStr, ["Session.UpdatePeerAddr"], ["Session.UpdatePeerAddr"; "Conn.GetSessionByTEID"; "Conn.GetIMSIByTEID"; "Conn datagram"]);
  (* its IMSI *)
  (SImsi, ["Session.IMSI = ..."; "Conn.ParseCreateSession"; "Conn.CreateSession"],
     ["Session.IMSI = ..."; "Session.IMSI"; "Session.Activate"; "Session.RemoveBearerByEBI"; "Session.LookupBearerByName"; "Session.LookupBearerByEBI"; "Session.LookupBearerNameByEBI";
      "Conn.GetIMSIByTEID"; "Conn.RegisterSession"; "Conn.RemoveSession"; "Conn.RemoveSessionByIMSI"]);
  (* the address, TEIDs and EBI of a Bearer *)
  (BAddr, ["Bearer.SetRemoteAddress"], ["Bearer.SetRemoteAddress"; "Bearer.RemoteAddress"]);
  (BIn, ["Bearer.SetIncomingTEID"], ["Bearer.SetIncomingTEID"; "Bearer.IncomingTEID"; "Session.LookupEBIByTEID"]);
  (BOut, ["Bearer.SetOutgoingTEID"], ["Bearer.SetOutgoingTEID"; "Bearer.OutgoingTEID"; "Session.LookupEBIByTEID"]);
  (BEbi, ["Bearer.EBI = ..."; "Conn.ParseCreateSession"; "Conn.CreateSession"],
     ["Bearer.EBI = ..."; "Bearer.EBI"; "Session.RemoveBearerByEBI"; "Session.LookupBearerByEBI"; "Session.LookupBearerNameByEBI"; "Session.LookupEBIByName"; "Session.LookupEBIByTEID"]);
  (* the function that tells grouped IEs *)
  (GFun, ["ie.SetIsGroupedFun"], ["IE.IsGrouped"; "gtpv2 message.Parse, Marshal"; "Dial"; "Conn.ParseCreateSession"; "Conn datagram"] ++ sends) ].
Definition listed (a b : string) (f : field) : Prop :=
  exists ws os, In (f, ws, os) races /\ (In a ws /\ In b os \/ In b ws /\ In a os).

(** ** Deadlocks *)
Definition unfinished (s : st) (i : nat) : Prop := exists t, nth_error (s_thr s) i = Some t /\ t_code t <> [].
Definition can_move (s : st) (i : nat) : Prop := exists o, moves s i o <> [].
(** about to call a method of a connection that is nil *)
Definition panics (s : st) (i : nat) : Prop :=
  exists t f x k, nth_error (s_thr s) i = Some t /\ t_code t = Use f x :: k /\ s_mem s f (t_env t x) = false.
(** [i] wants a mutex that [j] holds *)
Definition waits_for (s : st) (i j : nat) : Prop :=
  exists t u l x y w v k, nth_error (s_thr s) i = Some t /\ nth_error (s_thr s) j = Some u /\
    t_code t = Lock l x w :: k /\ In (l, y, t_env t x, v) (t_held u) /\ (w || v = true)%bool.
(** [i] can go on, or whoever it waits for can *)
Inductive served (s : st) : nat -> Prop :=
| served_self i : can_move s i \/ panics s i -> served s i
| served_by i j : waits_for s i j -> served s j -> served s i.

Inductive later (s : st) : st -> Prop :=
| later_now : later s s
| later_step s' s'' : later s s' -> step s' s'' -> later s s''.
