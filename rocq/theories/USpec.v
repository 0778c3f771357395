(** What the user plane owes its user, stated over histories (lists of events, newest
    first).  Nothing here mentions the tables or goroutines of the implementation. *)
From Coq Require Import String.
From Verif Require Import Base Maps TvIE V1Header MsgModel V1Msg UPlane.
Open Scope N_scope.
Open Scope list_scope.

(** the events of one call or one datagram *)
Definition about (id : N) (e : event) : bool :=
  match e with
  | EvTaken i _ _ | EvMiss i _ _ | EvTeid i _ _ _ | EvNoTeid i _ | EvRecv i _ _ _ | EvLookup i _ _ _
  | EvRelayed i _ _ _ | EvDispatch i _ _ _ | EvFlag i _ _ | EvUser i _ _ | EvWrite i _ _ _ _
  | EvSent i _ _ _ | EvRead i _ _ | EvReadClosed i _ | EvDropped i | EvPanic i => i =? id
  | EvDelivered i rd _ _ _ _ => (i =? id) || (rd =? id)
  | EvFreed _ _ | EvRelayOn _ _ _ | EvRelayOff _ _ | EvRelayClear _ | EvHandler _ _ _ | EvErrInd _ _
  | EvOpen _ | EvClose _ => false
  end.
Definition hist (id : N) (l : list event) : list event := filter (about id) l.

(** TEIDs taken and not released *)
Fixpoint held (c : N) (l : list event) : list N :=
  match l with
  | [] => []
  | EvTaken _ c' t :: r => if c' =? c then t :: held c r else held c r
  | EvFreed c' t :: r => if c' =? c then filter (fun x => negb (x =? t)) (held c r) else held c r
  | _ :: r => held c r
  end.
(** TEIDs returned by NewFTEID and not released *)
Fixpoint owned (c : N) (l : list event) : list N :=
  match l with
  | [] => []
  | EvTeid _ c' t _ :: r => if c' =? c then t :: owned c r else owned c r
  | EvFreed c' t :: r => if c' =? c then filter (fun x => negb (x =? t)) (owned c r) else owned c r
  | _ :: r => owned c r
  end.
(** the relay in force for an incoming TEID *)
Fixpoint relay_for (c t : N) (l : list event) : option peer :=
  match l with
  | [] => None
  | EvRelayOn c' t' p :: r => if (c' =? c) && (t' =? t) then Some p else relay_for c t r
  | EvRelayOff c' t' :: r => if (c' =? c) && (t' =? t) then None else relay_for c t r
  | EvRelayClear c' :: r => if c' =? c then None else relay_for c t r
  | _ :: r => relay_for c t r
  end.
(** the handler in force for a message type: the last one registered, else the default *)
Definition handler_default (typ : N) : option handler :=
  if typ =? 255 then Some HTpdu else if typ =? 1 then Some HEchoReq
  else if typ =? 2 then Some HEchoRes else if typ =? 26 then Some HErrInd else None.
Fixpoint handler_for (c typ : N) (l : list event) : option handler :=
  match l with
  | [] => handler_default typ
  | EvHandler c' t' h :: r => if (c' =? c) && (t' =? typ) then Some h else handler_for c typ r
  | _ :: r => handler_for c typ r
  end.
(** is automatic Error Indication enabled? *)
Fixpoint err_ind (c : N) (l : list event) : bool :=
  match l with
  | [] => true
  | EvErrInd c' b :: r => if c' =? c then b else err_ind c r
  | _ :: r => err_ind c r
  end.
Fixpoint opened (c : N) (l : list event) : bool :=
  match l with
  | [] => false
  | EvOpen c' :: r => (c' =? c) || opened c r
  | _ :: r => opened c r
  end.
Fixpoint closed_ev (c : N) (l : list event) : bool :=
  match l with
  | [] => false
  | EvClose c' :: r => (c' =? c) || closed_ev c r
  | _ :: r => closed_ev c r
  end.

(** [raw] is a G-PDU of at least eleven bytes for TEID [t]: message type 255, TEID in
    bytes 4 to 7 *)
Definition gpdu_for (t : N) (raw : bytes) : Prop :=
  (11 <= len raw)%nat /\ nth 1 raw 0 = 255 /\ firstn 4 (skipn 4 raw) = enc32 t.
(** the same bytes with another TEID *)
Definition readdressed (t : N) (raw : bytes) : bytes := firstn 4 raw ++ enc32 t ++ skipn 8 raw.

(** the datagram is not one that relaying takes: no relay exists, or it is not a G-PDU, or
    it is one of at least eleven bytes for a TEID without relay *)
Definition unrelayed (c : N) (d : bytes) (l : list event) : Prop :=
  (exists t p, relay_for c t l = Some p) ->
  (2 <= len d)%nat /\ (nth 1 d 0 = 255 -> (11 <= len d)%nat /\ forall t, gpdu_for t d -> relay_for c t l = None).

(** a datagram that was not relayed: only its arrival, or also a look at the relay table
    that found nothing *)
Definition arrived (id c : N) (from : addr) (d : bytes) (h : list event) : Prop :=
  h = [EvRecv id c from d] \/
  exists t, h = [EvLookup id c t None; EvRecv id c from d].

(** Echo Response with a sequence number and Recovery 0 (TS 29.060 7.2.2, 6, 7.7.11) *)
Definition echo_octets (seq : N) : bytes := [50; 2; 0; 6; 0; 0; 0; 0] ++ enc16 seq ++ [0; 0; 14; 0].
(** Error Indication for a TEID: TEID Data I, GSN Address (TS 29.060 7.3.7, 7.7.13, 7.7.32) *)
Definition gsn_octets (ip : option bytes) : bytes :=
  match ip with Some a => 133 :: enc16 (N.of_nat (len a)) ++ a | None => [] end.
Definition errind_octets (ip : option bytes) (t seq : N) : bytes :=
  [50; 26] ++ enc16 (N.of_nat (9 + len (gsn_octets ip))) ++ [0; 0; 0; 0] ++ enc16 seq ++ [0; 0] ++
  16 :: enc32 t ++ gsn_octets ip.
(** the address as the Error Indication carries it: four bytes for an IPv4 address *)
Definition gsn_ip (ip : option bytes) : option bytes :=
  match V2Codec.to4 ip with Some a => Some a | None => ip end.
(** net.ParseIP gives nil or sixteen bytes *)
Definition parsed_ip (ip : option bytes) : Prop :=
  match ip with Some a => len a = 16%nat /\ bytes_ok a | None => True end.

(** an IE of a parsed Error Indication *)
Definition has_ie (typ : N) (l : list ie1) : Prop := exists i, In i l /\ i1_type i = typ.
(** the two mandatory IEs of an Error Indication (TS 29.281 7.3.1): TEID Data I and GTP-U
    Peer Address are among the IEs of the message body *)
Definition two_ies (p : bytes) : Prop := exists ies, multi1 tv1 xl1 p = Ok ies /\ has_ie 16 ies /\ has_ie 133 ies.

(** the histories of the system: what the log may hold after any sequence of steps *)
Definition history (local : N -> option bytes) (l : list event) : Prop :=
  exists ls w, run (start local) ls = Some w /\ w_log w = l.

(** the event after which nothing more happens for a call or datagram *)
Definition final (h : list event) : bool :=
  match h with
  | (EvTeid _ _ _ _ | EvNoTeid _ _ | EvRelayed _ _ _ _ | EvDispatch _ _ _ None | EvUser _ _ _
    | EvSent _ _ _ _ | EvDelivered _ _ _ _ _ _ | EvReadClosed _ _ | EvDropped _ | EvPanic _) :: _ => true
  | _ => false
  end.
(** releases concern TEIDs that were returned and not released since *)
Definition releases_owned (c : N) (l : list event) : Prop :=
  forall l2 t l1, l = l2 ++ EvFreed c t :: l1 -> In t (owned c l1).
