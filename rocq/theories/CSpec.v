(** What the control plane owes its user, stated over histories (lists of events, newest
    first).  Nothing here mentions the tables or goroutines of the implementation. *)
From Coq Require Import String.
From Verif Require Import Base Maps V2IE V2Header MsgModel V2Msg CPlane.
Open Scope N_scope.
Open Scope list_scope.

(** the events of one call or one datagram *)
Definition about (id : N) (e : event) : bool :=
  match e with
  | EvCall i _ | EvTeidOn i _ _ _ | EvImsiOn i _ _ _ | EvTeidOff i _ _ | EvImsiOff i _ _ | EvOffByImsi i _ _
  | EvGotTeid i _ _ | EvGotImsi i _ _ _ | EvReserved i _ _ | EvMiss i _ _ | EvFTEID i _ _ _ | EvNoFTEID i _
  | EvSeq i _ _ | EvDec i _ _ | EvSent i _ _ _ _ | EvReply i _ _ _ | EvFlag i _ _ | EvLook i _ _ _
  | EvPassed i _ | EvRejected i _ | EvDispatch i _ _ _ | EvUser i _ _ _ | EvQueued i _ _ | EvTook i _ _ _ _
  | EvTimeout i | EvDone i | EvFail i | EvPanic i => i =? id
  | EvSession _ _ _ _ | EvBearer _ _ | EvSet _ _ | EvBSet _ _ | EvOpen _ | EvClose _ | EvValid _ _ | EvHandler _ _ _ => false
  end.
Definition hist (id : N) (l : list event) : list event := filter (about id) l.

(** ** Sessions and bearers *)
Fixpoint imsi_of (s : N) (l : list event) : bytes :=
  match l with
  | [] => []
  | EvSession s' _ im _ :: r => if s' =? s then im else imsi_of s r
  | EvSet s' (SImsi im) :: r => if s' =? s then im else imsi_of s r
  | _ :: r => imsi_of s r
  end.
Fixpoint peer_of (s : N) (l : list event) : addr :=
  match l with
  | [] => 0
  | EvSession s' a _ _ :: r => if s' =? s then a else peer_of s r
  | EvSet s' (SPeer a) :: r => if s' =? s then a else peer_of s r
  | _ :: r => peer_of s r
  end.
Fixpoint active_of (s : N) (l : list event) : bool :=
  match l with
  | [] => false
  | EvSession s' _ _ _ :: r => if s' =? s then false else active_of s r
  | EvSet s' (SActive b) :: r => if s' =? s then b else active_of s r
  | _ :: r => active_of s r
  end.
(** the TEID a session has for an interface type *)
Fixpoint teid_of (s ift : N) (l : list event) : option N :=
  match l with
  | [] => None
  | EvSession s' _ _ _ :: r => if s' =? s then None else teid_of s ift r
  | EvSet s' (STeid i t) :: r => if (s' =? s) && (i =? ift) then Some t else teid_of s ift r
  | _ :: r => teid_of s ift r
  end.
(** the bearer a session has under a name *)
Fixpoint named (s : N) (name : bytes) (l : list event) : option N :=
  match l with
  | [] => None
  | EvSession s' _ _ b :: r => if s' =? s then (if bytes_eqb name default_name then Some b else None) else named s name r
  | EvSet s' (SBearer n b) :: r => if (s' =? s) && bytes_eqb n name then Some b else named s name r
  | EvSet s' (SNoBearer n) :: r => if (s' =? s) && bytes_eqb n name then None else named s name r
  | _ :: r => named s name r
  end.
Fixpoint ebi_of (b : N) (l : list event) : N :=
  match l with
  | [] => 0
  | EvSession _ _ _ b' :: r => if b' =? b then 0 else ebi_of b r
  | EvBearer b' ebi :: r => if b' =? b then ebi else ebi_of b r
  | EvBSet b' (BEbi v) :: r => if b' =? b then v else ebi_of b r
  | _ :: r => ebi_of b r
  end.
Fixpoint in_of (b : N) (l : list event) : N :=
  match l with
  | [] => 0
  | EvSession _ _ _ b' :: r | EvBearer b' _ :: r => if b' =? b then 0 else in_of b r
  | EvBSet b' (BIn v) :: r => if b' =? b then v else in_of b r
  | _ :: r => in_of b r
  end.
Fixpoint out_of (b : N) (l : list event) : N :=
  match l with
  | [] => 0
  | EvSession _ _ _ b' :: r | EvBearer b' _ :: r => if b' =? b then 0 else out_of b r
  | EvBSet b' (BOut v) :: r => if b' =? b then v else out_of b r
  | _ :: r => out_of b r
  end.
(** the sessions there are *)
Definition exists_session (s : N) (l : list event) : Prop := exists a im b, In (EvSession s a im b) l.

(** the messages put into, and taken from, the queue of a session, oldest first *)
Fixpoint queued (s : N) (l : list event) : list qmsg :=
  match l with
  | [] => []
  | EvQueued _ s' m :: r => if s' =? s then queued s r ++ [m] else queued s r
  | _ :: r => queued s r
  end.
Fixpoint took (s : N) (l : list event) : list qmsg :=
  match l with
  | [] => []
  | EvTook _ s' _ m _ :: r => if s' =? s then took s r ++ [m] else took s r
  | _ :: r => took s r
  end.

(** ** The connection *)

(** what a connection knows about a TEID: registered for a session, reserved by
    NewSenderFTEID, or nothing *)
Inductive known := Registered (s : N) | Reserved | Unknown.
Fixpoint teid_known (c t : N) (l : list event) : known :=
  match l with
  | [] => Unknown
  | EvTeidOn _ c' t' s :: r => if (c' =? c) && (t' =? t) then Registered s else teid_known c t r
  | EvReserved _ c' t' :: r => if (c' =? c) && (t' =? t) then Reserved else teid_known c t r
  | EvTeidOff _ c' t' :: r => if (c' =? c) && (t' =? t) then Unknown else teid_known c t r
  | EvOffByImsi _ c' im :: r =>
      if c' =? c then match teid_known c t r with
                      | Registered s => if bytes_eqb (imsi_of s r) im then Unknown else Registered s
                      | k => k
                      end
      else teid_known c t r
  | _ :: r => teid_known c t r
  end.
(** the session registered for an IMSI *)
Fixpoint imsi_known (c : N) (im : bytes) (l : list event) : option N :=
  match l with
  | [] => None
  | EvImsiOn _ c' im' s :: r => if (c' =? c) && bytes_eqb im' im then Some s else imsi_known c im r
  | EvImsiOff _ c' im' :: r => if (c' =? c) && bytes_eqb im' im then None else imsi_known c im r
  | _ :: r => imsi_known c im r
  end.
(** the handler in force for a message type: the last one registered, else the default *)
Definition handler_default (typ : N) : option handler :=
  if typ =? 1 then Some HEchoReq else if typ =? 2 then Some HEchoRes
  else if typ =? 3 then Some HVersion else None.
Fixpoint handler_for (c typ : N) (l : list event) : option handler :=
  match l with
  | [] => handler_default typ
  | EvHandler c' t' h :: r => if (c' =? c) && (t' =? typ) then Some h else handler_for c typ r
  | _ :: r => handler_for c typ r
  end.
(** is validation enabled? *)
Fixpoint validating (c : N) (l : list event) : bool :=
  match l with
  | [] => true
  | EvValid c' b :: r => if c' =? c then b else validating c r
  | _ :: r => validating c r
  end.
Fixpoint opened (c : N) (l : list event) : bool :=
  match l with
  | [] => false
  | EvOpen c' :: r => (c' =? c) || opened c r
  | _ :: r => opened c r
  end.
Fixpoint closed_ev (c : N) (l : list event) : bool :=
  match l with
  | [] => false
  | EvClose c' :: r => (c' =? c) || closed_ev c r
  | _ :: r => closed_ev c r
  end.
(** the last sequence number: what IncSequence or DecSequence returned last *)
Fixpoint last_seq (c : N) (l : list event) : N :=
  match l with
  | [] => 0
  | EvSeq _ c' n :: r | EvDec _ c' n :: r => if c' =? c then n else last_seq c r
  | _ :: r => last_seq c r
  end.

(** the histories of the system: what the log may hold after any sequence of steps *)
Definition history (ift counter : N -> N) (l : list event) : Prop :=
  exists ls w, run (start ift counter) ls = Some w /\ w_log w = l.

(** Echo Response with a sequence number and a restart counter (TS 29.274 7.1.2, 5.5, 8.5) *)
Definition echo_octets (counter seq : N) : bytes :=
  [64; 2; 0; 9] ++ skipn 1 (enc32 seq) ++ [0] ++ [3; 0; 1; 0; counter].

(** the states of the system *)
Definition reachable (ift counter : N -> N) (w : world) : Prop := exists ls, run (start ift counter) ls = Some w.
(** a call whose steps nobody interrupts: its first n steps *)
Definition alone (w : world) (k : ccall) (n : nat) : option world := run w (LCall k :: repeat (LRun (w_next w) true) n).

(** how many sequence numbers were drawn on a connection *)
Fixpoint drawn (c : N) (l : list event) : nat :=
  match l with
  | [] => 0
  | EvSeq _ c' _ :: r => if c' =? c then S (drawn c r) else drawn c r
  | _ :: r => drawn c r
  end.
(** the octets of the sequence number in a message (TS 29.274 5.1: after the TEID, if any) *)
Definition seq_octets (b : bytes) : bytes := firstn 3 (skipn (if N.testbit (nth 0 b 0) 3 then 8 else 4) b).
(** 24 bits, most significant octet first *)
Definition octets24 (n : N) : bytes := [n / 65536 mod 256; n / 256 mod 256; n mod 256].

(** the number of turns of NewSenderFTEID's loop *)
Definition attempts : N := 65535.

(** may a message with TEID t from this sender pass? *)
Definition accepts (c : N) (from : addr) (t : N) (l : list event) : Prop :=
  validating c l = false \/ t = 0 \/ exists s, teid_known c t l = Registered s /\ peer_of s l = from.
(** what handling a message with handler h amounts to *)
Definition handled (restart id c : N) (from : addr) (d : mdesc) (m : msg2) (h : option handler) : event :=
  match h with
  | None => EvFail id
  | Some (HUser k) => EvUser id k d m
  | Some HEchoReq => if String.eqb (md_name d) "EchoRequest" then EvReply id c from (echo_octets restart (h2_seq (m_hdr m))) else EvFail id
  | Some HEchoRes => if String.eqb (md_name d) "EchoResponse" then EvDone id else EvFail id
  | Some HVersion => EvFail id
  | Some HNil => EvPanic id
  end.
