(** Model of the GTPv2 control plane: gtpv2/conn.go, gtpv2/session.go, gtpv2/bearer.go and
    gtpv2/handlers.go, as a transition system in the manner of UPlane.v: a [label] is one
    atomic step of one goroutine or of the environment, an execution is a list of labels.

    Simplifications: addresses are opaque numbers and equal as numbers iff their String()
    are; sessions and bearers are numbers (pointers), never nil where the API takes one;
    each session has its own Subscriber and Location; unsynchronised accesses to one field
    are atomic; Range over a sync.Map is one step that sees one snapshot, in an order chosen
    by the environment; a parsed message is a value, not a shared pointer; the four
    statements which fill the QoS of a bearer are one.  Logging, deadlines and Dial are
    dropped.  No proofs here. *)
From Coq Require Import String.
From Verif Require Import Base Maps Utils V2IE V2Header MsgModel Msgs2Gen V2Msg V2Codec V2Codec2.
Open Scope string_scope.
Open Scope N_scope.
Open Scope list_scope.

Definition addr : Type := N.
Notation g2 := default_grouped.
(** gtpv2/handlers.go:16 HandlerFunc: the three defaults (44-52), a function of the user's,
    or a nil function value *)
Inductive handler := HEchoReq | HEchoRes | HVersion | HUser (k : N) | HNil.

(** gtpv2/bearer.go:12-19 QoSProfile *)
Record qos := Qos { q_pci : bool; q_pvi : bool; q_pl : N; q_qci : N;
  q_mbrul : N; q_mbrdl : N; q_gbrul : N; q_gbrdl : N }.
(** gtpv2/bearer.go:22-30 Bearer (raddr, SubscriberIP and ChargingID are plain fields and
    left out) *)
Record bearer := Bearer { b_ebi : N; b_in : N; b_out : N; b_apn : bytes; b_qos : qos }.
(** gtpv2/session.go:53-65, conn.go:464: &Bearer{QoSProfile: &QoSProfile{}} *)
Definition empty_bearer : bearer := Bearer 0 0 0 [] (Qos false false 0 0 0 0 0 0).
(** a message in a session's queue: which one, and its Sequence() *)
Record qmsg := QMsg { qm_id : N; qm_seq : N }.
(** gtpv2/session.go:16-47 Location, Subscriber, Session *)
Record session := Sess { s_peer : addr; s_active : bool; s_imsi : bytes; s_msisdn : bytes;
  s_imei : bytes; s_mcc : bytes; s_mnc : bytes; s_rat : N;
  s_teids : amap N; s_bearers : smap N; s_queue : list qmsg }.
(** "default" *)
Definition default_name : bytes := [100; 101; 102; 97; 117; 108; 116].
(** gtpv2/session.go:53-65 NewSession; [b] is the default bearer *)
Definition new_session (peer : addr) (imsi : bytes) (b : N) : session :=
  Sess peer false imsi [] [] [] [] 0 [] [(default_name, b)] [].

(** gtpv2/conn.go:30-53 Conn; [c_open]: pktConn is not nil; in [c_itei] a TEID may be mapped
    to a nil session *)
Record conn := Conn { c_open : bool; c_ift : N; c_valid : bool; c_closed : bool;
  c_handlers : amap handler; c_seq : N; c_restart : N;
  c_imsi : smap N; c_itei : amap (option N) }.
(** gtpv2/handlers.go:44-52 newDefaultMsgHandlerMap *)
Definition default_handlers : amap handler := [(1, HEchoReq); (2, HEchoRes); (3, HVersion)].
(** gtpv2/conn.go:56-69 NewConn *)
Definition new_conn (ift counter : N) : conn := Conn false ift true false default_handlers 0 counter [] [].

Definition set_open (u : conn) := Conn true (c_ift u) (c_valid u) (c_closed u) (c_handlers u) (c_seq u) (c_restart u) (c_imsi u) (c_itei u).
Definition set_valid (u : conn) v := Conn (c_open u) (c_ift u) v (c_closed u) (c_handlers u) (c_seq u) (c_restart u) (c_imsi u) (c_itei u).
Definition set_closed (u : conn) := Conn (c_open u) (c_ift u) (c_valid u) true (c_handlers u) (c_seq u) (c_restart u) (c_imsi u) (c_itei u).
Definition set_handlers (u : conn) v := Conn (c_open u) (c_ift u) (c_valid u) (c_closed u) v (c_seq u) (c_restart u) (c_imsi u) (c_itei u).
Definition set_seq (u : conn) v := Conn (c_open u) (c_ift u) (c_valid u) (c_closed u) (c_handlers u) v (c_restart u) (c_imsi u) (c_itei u).
Definition set_imsis (u : conn) v := Conn (c_open u) (c_ift u) (c_valid u) (c_closed u) (c_handlers u) (c_seq u) (c_restart u) v (c_itei u).
Definition set_iteis (u : conn) v := Conn (c_open u) (c_ift u) (c_valid u) (c_closed u) (c_handlers u) (c_seq u) (c_restart u) (c_imsi u) v.

(** gtpv2/conn.go:398-409 IncSequence, 412-418 DecSequence: the new value *)
Definition inc_seq (n : N) : N := let n := (n + 1) mod 4294967296 in if 8388607 <? n then 0 else n.
Definition dec_seq (n : N) : N := (n + 4294967295) mod 4294967296.

(** changes of a session or of a bearer through its fields and setters *)
Inductive sset :=
| SImsi (v : bytes) | SMsisdn (v : bytes) | SImei (v : bytes) | SMcc (v : bytes) | SMnc (v : bytes)
| SRat (v : N) | SPeer (a : addr) | SActive (b : bool)
| STeid (ift t : N)                                    (* session.go:115-117 AddTEID *)
| SBearer (name : bytes) (b : N)                       (* session.go:167-169 AddBearer, 197-200 SetDefaultBearer *)
| SNoBearer (name : bytes).                            (* session.go:172-174 RemoveBearer *)
Inductive bset := BEbi (v : N) | BIn (v : N) | BOut (v : N) | BApn (v : bytes) | BQos (q : qos).
Definition set_s (s : session) (x : sset) : session :=
  match x with
  | SImsi v => Sess (s_peer s) (s_active s) v (s_msisdn s) (s_imei s) (s_mcc s) (s_mnc s) (s_rat s) (s_teids s) (s_bearers s) (s_queue s)
  | SMsisdn v => Sess (s_peer s) (s_active s) (s_imsi s) v (s_imei s) (s_mcc s) (s_mnc s) (s_rat s) (s_teids s) (s_bearers s) (s_queue s)
  | SImei v => Sess (s_peer s) (s_active s) (s_imsi s) (s_msisdn s) v (s_mcc s) (s_mnc s) (s_rat s) (s_teids s) (s_bearers s) (s_queue s)
  | SMcc v => Sess (s_peer s) (s_active s) (s_imsi s) (s_msisdn s) (s_imei s) v (s_mnc s) (s_rat s) (s_teids s) (s_bearers s) (s_queue s)
  | SMnc v => Sess (s_peer s) (s_active s) (s_imsi s) (s_msisdn s) (s_imei s) (s_mcc s) v (s_rat s) (s_teids s) (s_bearers s) (s_queue s)
  | SRat v => Sess (s_peer s) (s_active s) (s_imsi s) (s_msisdn s) (s_imei s) (s_mcc s) (s_mnc s) v (s_teids s) (s_bearers s) (s_queue s)
  | SPeer v => Sess v (s_active s) (s_imsi s) (s_msisdn s) (s_imei s) (s_mcc s) (s_mnc s) (s_rat s) (s_teids s) (s_bearers s) (s_queue s)
  | SActive v => Sess (s_peer s) v (s_imsi s) (s_msisdn s) (s_imei s) (s_mcc s) (s_mnc s) (s_rat s) (s_teids s) (s_bearers s) (s_queue s)
  | STeid i t => Sess (s_peer s) (s_active s) (s_imsi s) (s_msisdn s) (s_imei s) (s_mcc s) (s_mnc s) (s_rat s) (aput (s_teids s) i t) (s_bearers s) (s_queue s)
  | SBearer n b => Sess (s_peer s) (s_active s) (s_imsi s) (s_msisdn s) (s_imei s) (s_mcc s) (s_mnc s) (s_rat s) (s_teids s) (sput (s_bearers s) n b) (s_queue s)
  | SNoBearer n => Sess (s_peer s) (s_active s) (s_imsi s) (s_msisdn s) (s_imei s) (s_mcc s) (s_mnc s) (s_rat s) (s_teids s) (sdel (s_bearers s) n) (s_queue s)
  end.
Definition set_queue (s : session) q :=
  Sess (s_peer s) (s_active s) (s_imsi s) (s_msisdn s) (s_imei s) (s_mcc s) (s_mnc s) (s_rat s) (s_teids s) (s_bearers s) q.
(** gtpv2/bearer.go:55-67 and the exported fields *)
Definition set_b (b : bearer) (x : bset) : bearer :=
  match x with
  | BEbi v => Bearer v (b_in b) (b_out b) (b_apn b) (b_qos b)
  | BIn v => Bearer (b_ebi b) v (b_out b) (b_apn b) (b_qos b)
  | BOut v => Bearer (b_ebi b) (b_in b) v (b_apn b) (b_qos b)
  | BApn v => Bearer (b_ebi b) (b_in b) (b_out b) v (b_qos b)
  | BQos v => Bearer (b_ebi b) (b_in b) (b_out b) (b_apn b) v
  end.

(** the statements of RegisterSession and ParseCreateSession on a session, its default
    bearer and the tables of the connection *)
Inductive stmt :=
| DoS (x : sset) | DoB (x : bset)
| DoTeid (t : N)                                       (* conn.go:700 iteiSessionMap.store *)
| DoImsi.                                              (* conn.go:701 imsiSessionMap.store of session.IMSI *)
(** gtpv2/conn.go:699-704 RegisterSession *)
Definition register_script (ift t : N) : list stmt := [DoTeid t; DoImsi; DoS (STeid ift t)].

(** how a sequence of statements ends: it goes on, returns an error, or panics *)
Inductive outcome := Goes | Fails | Panics.
Definition script : Type := list stmt * outcome.
(** x, err = r; if err != nil return: on an error the zero value is stored *)
Definition assign {A} (r : res A) (z : A) (f : A -> stmt) : script :=
  match r with Ok v => ([f v], Goes) | Err _ => ([f z], Fails) | Panic => ([], Panics) end.
(** x, err := r; if err != nil return *)
Definition require {A} (r : res A) (k : A -> script) : script :=
  match r with Ok v => k v | Err _ => ([], Fails) | Panic => ([], Panics) end.
Definition next (a : script) (b : script) : script :=
  match snd a with Goes => (fst a ++ fst b, snd b) | o => (fst a, o) end.
Definition skip : script := ([], Goes).

(** gtpv2/conn.go:521-567 the children of a Bearer Context of instance 0 *)
Definition create_child (i : ie2) : script :=
  if i2_type i =? 73 then assign (acc_ebi g2 i) 0 (fun v => DoB (BEbi v))
  else if i2_type i =? 80 then
    require (acc_priority_level g2 i) (fun pl => require (acc_qci g2 i) (fun qci =>
    require (acc_umbr i) (fun ul => require (acc_dmbr i) (fun dl =>
    require (acc_ugbr i) (fun gu => require (acc_ugbr i) (fun gd =>
      ([DoB (BQos (Qos (has_pci g2 i) (has_pvi g2 i) pl qci ul dl gu gd))], Goes)))))))
  else if i2_type i =? 87 then
    require (acc_if_type i) (fun it => require (acc_teid i) (fun t => ([DoS (STeid it t)], Goes)))
  else skip.
(** gtpv2/conn.go:467-573 one IE *)
Definition create_ie (ift : N) (i : ie2) : script :=
  let t := i2_type i in
  if t =? 1 then assign (acc_imsi i) [] (fun v => DoS (SImsi v))
  else if t =? 76 then assign (acc_msisdn i) [] (fun v => DoS (SMsisdn v))
  else if t =? 75 then assign (acc_mei i) [] (fun v => DoS (SImei v))
  else if t =? 83 then
    next (assign (do p <- acc_mcc_mnc i; Ok (fst p)) [] (fun v => DoS (SMcc v)))
         (assign (do p <- acc_mcc_mnc i; Ok (snd p)) [] (fun v => DoS (SMnc v)))
  else if t =? 71 then assign (acc_fqdn g2 71 i) [] (fun v => DoB (BApn v))
  else if t =? 82 then assign (acc_u8 g2 82 i) 0 (fun v => DoS (SRat v))
  else if t =? 87 then
    require (acc_if_type i) (fun it => require (acc_teid i) (fun n =>
      (DoS (STeid it n) :: (if it =? ift then register_script ift n else []), Goes)))
  else if t =? 93 then
    if i2_instance i =? 0 then fold_right (fun ch r => next (create_child ch) r) skip (i2_children i) else skip
  else skip.
(** gtpv2/conn.go:461-576 ParseCreateSession, after NewSession and GetDefaultBearer *)
Definition create_script (ift : N) (ies : list (option ie2)) : script :=
  fold_right (fun o r => match o with Some i => next (create_ie ift i) r | None => r end) skip ies.

(** gtpv2/conn.go:649-661 RespondTo, the message sent *)
Definition respond_bytes (d : mdesc) (m : msg2) (seq : N) : res bytes :=
  let m := Msg (h2_set_seq (m_hdr m) seq) (m_fs m) in
  do n <- v2_len g2 d m; do r <- v2_mto g2 d m (zeros n); Ok (fst r).
(** gtpv2/handlers.go:54-65 handleEchoRequest; gtpv2/ie/recovery.go:8-10 NewRecovery *)
Definition echo_response (counter seq : N) : res bytes :=
  do m <- v2_new g2 d_EchoResponse 0 0 [Some (new_uint8 g2 3 counter)];
  respond_bytes d_EchoResponse m seq.

(** what a goroutine was started for: the API calls of more than one step, and datagrams *)
Inductive ccall :=
| KRegister (c t s : N) | KRemove (c s : N) | KRemoveImsi (c : N) (imsi : bytes)
| KNewFTEID (c : N) (v4 v6 : option bytes)
| KSend (c : N) (d : mdesc) (m : msg2) (a : addr)      (* SendMessageTo *)
| KCreate (c s : N) (a : addr) (ies : list (option ie2)) (* CreateSession, which made session s *)
| KDatagram (c : N) (from : addr) (d : bytes)
| KPass (s : N) (m : qmsg) | KWait (s n : N).

(** what CreateSession does after its script *)
Inductive fin := FReturn | FSend (d : mdesc) (m : res msg2) (a : addr) | FFail | FPanic.
(** where a goroutine stands *)
Inductive thread :=
| TScript (c s b : N) (l : list stmt) (f : fin)
| TRemove1 (c s : N)                                   (* RemoveSession, conn.go:707: at the start *)
| TRemove2 (c s : N)                                   (* conn.go:710: before GetTEID *)
| TRemove3 (c t : N)                                   (* conn.go:724: before the delete *)
| TRemoveR (c s : N)                                   (* conn.go:714: before Range *)
| TRemoveI (c : N) (imsi : bytes)                      (* RemoveSessionByIMSI, conn.go:730 *)
| TAlloc (c tries : N) (v4 v6 : option bytes)          (* NewSenderFTEID, conn.go:750: in the loop *)
| TAllocRet (c t : N) (v4 v6 : option bytes)           (* conn.go:773 *)
| TSend (c : N) (d : mdesc) (m : msg2) (a : addr)      (* SendMessageTo, conn.go:381: before IncSequence *)
| TSendW (c n : N) (b : bytes) (a : addr)              (* conn.go:390: before WriteTo *)
| TDec (c n : N)                                       (* conn.go:386, 391: before DecSequence *)
| TRecv (c : N) (from : addr) (raw : bytes)            (* Serve, conn.go:194 *)
| TCheck (c : N) (from : addr) (d : mdesc) (m : msg2)  (* handleMessage, conn.go:314 *)
| TLook (c : N) (from : addr) (d : mdesc) (m : msg2)   (* validate, conn.go:371 *)
| TDisp (c : N) (from : addr) (d : mdesc) (m : msg2)   (* handleMessage, conn.go:320 *)
| THandle (c : N) (from : addr) (d : mdesc) (m : msg2) (h : handler) (* conn.go:325 *)
| TWrite (c : N) (b : bytes) (a : addr)                (* RespondTo, conn.go:657 *)
| TPass (s : N) (m : qmsg)                             (* PassMessageTo, session.go:135 *)
| TWait (s n : N).                                     (* WaitMessage, session.go:148 *)

(** what happened, as a history *)
Inductive event :=
| EvCall (id : N) (k : ccall)
| EvSession (s : N) (peer : addr) (imsi : bytes) (b : N) (* a session was made, with default bearer b *)
| EvBearer (b ebi : N)                                 (* a bearer was made *)
| EvSet (s : N) (x : sset) | EvBSet (b : N) (x : bset)
| EvTeidOn (id c t s : N) | EvImsiOn (id c : N) (imsi : bytes) (s : N)
| EvTeidOff (id c t : N) | EvImsiOff (id c : N) (imsi : bytes)
| EvOffByImsi (id c : N) (imsi : bytes)                (* every TEID of a session with this IMSI was removed *)
| EvGotTeid (id s : N) (r : option N)                  (* RemoveSession: GetTEID returned r *)
| EvGotImsi (id c : N) (imsi : bytes) (r : option N)   (* RemoveSessionByIMSI found r *)
| EvReserved (id c t : N)                              (* NewSenderFTEID marked t as taken *)
| EvMiss (id c t : N)                                  (* NewSenderFTEID drew t and could not use it *)
| EvFTEID (id c t : N) (r : res (option ie2)) | EvNoFTEID (id c : N) (* NewSenderFTEID returned *)
| EvSeq (id c n : N)                                   (* IncSequence returned n *)
| EvDec (id c n : N)                                   (* DecSequence returned n *)
| EvSent (id c : N) (a : addr) (n : N) (b : bytes)     (* SendMessageTo wrote b to a and returned n *)
| EvReply (id c : N) (a : addr) (b : bytes)            (* RespondTo wrote b to a *)
| EvOpen (c : N) | EvClose (c : N) | EvValid (c : N) (b : bool) | EvHandler (c typ : N) (h : handler)
| EvFlag (id c : N) (b : bool)                         (* handleMessage read validationEnabled *)
| EvLook (id c t : N) (r : option (option N))          (* validate looked for the session *)
| EvPassed (id c : N) | EvRejected (id c : N)          (* the message passed validation, or not *)
| EvDispatch (id c typ : N) (h : option handler)       (* the handler table was consulted *)
| EvUser (id k : N) (d : mdesc) (m : msg2)             (* handler k of the user was called *)
| EvQueued (id s : N) (m : qmsg)                       (* PassMessageTo put m into the queue *)
| EvTook (id s n : N) (m : qmsg) (r : option qmsg)     (* WaitMessage n took m from the queue and returned r, or an error *)
| EvTimeout (id : N)
| EvDone (id : N)                                      (* the call returned without error *)
| EvFail (id : N)                                      (* the call returned an error, or the datagram was dropped *)
| EvPanic (id : N).

Record world := World {
  w_conns : N -> conn; w_sess : N -> session; w_ns : N; w_brs : N -> bearer; w_nb : N;
  w_threads : amap thread; w_next : N; w_crashed : bool;
  w_log : list event }.                                (* newest event first *)

Inductive label :=
| LOpen (c : N) | LClose (c : N) | LValid (c : N) (b : bool) | LAddHandler (c typ : N) (h : handler)
| LNewSession (peer : addr) (imsi : bytes) | LNewBearer (ebi : N)
| LSet (s : N) (x : sset) | LBSet (b : N) (x : bset)
| LRemoveBearerByEBI (s ebi : N) (order : smap N)
| LInc (c : N) | LDec (c : N)
| LCreate (c : N) (a : addr) (ies : list (option ie2))
| LCall (k : ccall)
| LTry (id rnd : N)                                    (* one turn of NewSenderFTEID's loop *)
| LRun (id : N) (ok : bool)                            (* the goroutine's next step; ok: the write succeeds *)
| LTimeout (id : N).

Definition set_conn (w : world) (c : N) (u : conn) : world :=
  World (upd (w_conns w) c u) (w_sess w) (w_ns w) (w_brs w) (w_nb w) (w_threads w) (w_next w) (w_crashed w) (w_log w).
Definition put_sess (w : world) (s : N) (x : session) : world :=
  World (w_conns w) (upd (w_sess w) s x) (w_ns w) (w_brs w) (w_nb w) (w_threads w) (w_next w) (w_crashed w) (w_log w).
Definition put_br (w : world) (b : N) (x : bearer) : world :=
  World (w_conns w) (w_sess w) (w_ns w) (upd (w_brs w) b x) (w_nb w) (w_threads w) (w_next w) (w_crashed w) (w_log w).
Definition emit (w : world) (e : event) : world :=
  World (w_conns w) (w_sess w) (w_ns w) (w_brs w) (w_nb w) (w_threads w) (w_next w) (w_crashed w) (e :: w_log w).
Definition goes (w : world) (id : N) (th : thread) : world :=
  World (w_conns w) (w_sess w) (w_ns w) (w_brs w) (w_nb w) (aput (w_threads w) id th) (w_next w) (w_crashed w) (w_log w).
Definition ends (w : world) (id : N) : world :=
  World (w_conns w) (w_sess w) (w_ns w) (w_brs w) (w_nb w) (adel (w_threads w) id) (w_next w) (w_crashed w) (w_log w).
Definition spawn (w : world) (th : thread) : world :=
  World (w_conns w) (w_sess w) (w_ns w) (w_brs w) (w_nb w) (aput (w_threads w) (w_next w) th) (w_next w + 1) (w_crashed w) (w_log w).
Definition bump (w : world) : world :=
  World (w_conns w) (w_sess w) (w_ns w) (w_brs w) (w_nb w) (w_threads w) (w_next w + 1) (w_crashed w) (w_log w).
(** a panic in a goroutine ends the process *)
Definition crash (w : world) (id : N) : world :=
  World (w_conns w) (w_sess w) (w_ns w) (w_brs w) (w_nb w) (w_threads w) (w_next w) true (EvPanic id :: w_log w).
Definition done (w : world) (id : N) : world := emit w (EvDone id).
Definition fails (w : world) (id : N) : world := emit w (EvFail id).

(** a new session with its default bearer *)
Definition add_session (w : world) (peer : addr) (imsi : bytes) : world :=
  World (w_conns w) (upd (w_sess w) (w_ns w) (new_session peer imsi (w_nb w))) (w_ns w + 1)
        (upd (w_brs w) (w_nb w) empty_bearer) (w_nb w + 1)
        (w_threads w) (w_next w) (w_crashed w) (EvSession (w_ns w) peer imsi (w_nb w) :: w_log w).
Definition add_bearer (w : world) (ebi : N) : world :=
  World (w_conns w) (w_sess w) (w_ns w) (upd (w_brs w) (w_nb w) (set_b empty_bearer (BEbi ebi))) (w_nb w + 1)
        (w_threads w) (w_next w) (w_crashed w) (EvBearer (w_nb w) ebi :: w_log w).
Definition do_set (w : world) (s : N) (x : sset) : world :=
  emit (put_sess w s (set_s (w_sess w s) x)) (EvSet s x).
Definition do_bset (w : world) (b : N) (x : bset) : world :=
  emit (put_br w b (set_b (w_brs w b) x)) (EvBSet b x).

(** gtpv2/conn.go:179 buf := make([]byte, 1500) *)
Definition received (d : bytes) : bytes := firstn 1500 d.
Definition octet (x : N) : bool := x <? 256.
Definition is_struct (name : string) (d : mdesc) : bool := String.eqb (md_name d) name.

(** one statement *)
Definition run_stmt (w : world) (id c s b : N) (x : stmt) : world :=
  match x with
  | DoS x => do_set w s x
  | DoB x => do_bset w b x
  | DoTeid t => emit (set_conn w c (set_iteis (w_conns w c) (aput (c_itei (w_conns w c)) t (Some s)))) (EvTeidOn id c t s)
  | DoImsi => emit (set_conn w c (set_imsis (w_conns w c) (sput (c_imsi (w_conns w c)) (s_imsi (w_sess w s)) s)))
                   (EvImsiOn id c (s_imsi (w_sess w s)) s)
  end.
(** gtpv2/handlers.go:54-87 the default handlers; a user's handler *)
Definition run_handler (w : world) (id c : N) (from : addr) (d : mdesc) (m : msg2) (h : handler) : world :=
  match h with
  | HNil => crash w id
  | HUser k => emit w (EvUser id k d m)
  | HEchoReq =>
      if is_struct "EchoRequest" d then
        match echo_response (c_restart (w_conns w c)) (h2_seq (m_hdr m)) with
        | Ok b => goes w id (TWrite c b from)
        | Err _ => fails w id
        | Panic => crash w id
        end
      else fails w id
  | HEchoRes => if is_struct "EchoResponse" d then done w id else fails w id
  | HVersion => fails w id
  end.
(** gtpv2/conn.go:715-718 s.IMSI == session.IMSI; a nil session panics *)
Definition has_nil (m : amap (option N)) : bool := existsb (fun p => match snd p with None => true | Some _ => false end) m.
Definition without_imsi (ss : N -> session) (imsi : bytes) (m : amap (option N)) : amap (option N) :=
  filter (fun p => match snd p with Some s => negb (bytes_eqb (s_imsi (ss s)) imsi) | None => true end) m.

(** the next step of goroutine id, which [step] has taken off the list of goroutines; if it
    goes on, it is put back with [goes] *)
Definition run_thread (w : world) (id : N) (th : thread) (ok : bool) : option world :=
  match th with
  | TScript c s b (x :: r) f => Some (goes (run_stmt w id c s b x) id (TScript c s b r f))
  | TScript c s b [] f =>                              (* conn.go:575, 597-610 *)
      Some (match f with
            | FReturn => done w id
            | FSend d (Ok m) a => goes w id (TSend c d m a)
            | FSend _ (Err _) _ | FFail => fails w id
            | FSend _ Panic _ | FPanic => crash w id
            end)
  | TRemove1 c s =>                                    (* conn.go:708 *)
      let imsi := s_imsi (w_sess w s) in
      Some (goes (emit (set_conn w c (set_imsis (w_conns w c) (sdel (c_imsi (w_conns w c)) imsi))) (EvImsiOff id c imsi)) id (TRemove2 c s))
  | TRemove2 c s =>                                    (* conn.go:710; session.go:120-125 *)
      let r := aget (s_teids (w_sess w s)) (c_ift (w_conns w c)) in
      Some (goes (emit w (EvGotTeid id s r)) id (match r with Some t => TRemove3 c t | None => TRemoveR c s end))
  | TRemove3 c t =>                                    (* conn.go:724 *)
      Some (done (emit (set_conn w c (set_iteis (w_conns w c) (adel (c_itei (w_conns w c)) t))) (EvTeidOff id c t)) id)
  | TRemoveR c s =>                                    (* conn.go:714-720 *)
      let imsi := s_imsi (w_sess w s) in
      if has_nil (c_itei (w_conns w c)) then Some (crash w id)
      else Some (done (emit (set_conn w c (set_iteis (w_conns w c) (without_imsi (w_sess w) imsi (c_itei (w_conns w c))))) (EvOffByImsi id c imsi)) id)
  | TRemoveI c imsi =>                                 (* conn.go:731-736 *)
      let r := sget (c_imsi (w_conns w c)) imsi in
      let w := emit w (EvGotImsi id c imsi r) in
      Some (match r with Some s => goes w id (TRemove1 c s) | None => done w id end)
  | TAlloc c tries v4 v6 =>                            (* conn.go:750, 770-772 *)
      if tries <? 65535 then None else Some (emit w (EvNoFTEID id c))
  | TAllocRet c t v4 v6 =>                             (* conn.go:773 *)
      Some (emit w (EvFTEID id c t (new_fteid g2 (c_ift (w_conns w c)) t v4 v6)))
  | TSend c d m a =>                                   (* conn.go:381-388 *)
      let n := inc_seq (c_seq (w_conns w c)) in
      let w := emit (set_conn w c (set_seq (w_conns w c) n)) (EvSeq id c n) in
      Some (match v2_marshal g2 d (Msg (h2_set_seq (m_hdr m) n) (m_fs m)) with
            | Ok (b, _) => goes w id (TSendW c n b a)
            | Err _ => goes w id (TDec c n)
            | Panic => crash w id
            end)
  | TSendW c n b a =>                                  (* conn.go:390-394, 227-229 *)
      if c_open (w_conns w c) then
        Some (if ok then emit w (EvSent id c a n b) else goes w id (TDec c n))
      else Some (crash w id)
  | TDec c _ =>                                        (* conn.go:386, 391 *)
      let n := dec_seq (c_seq (w_conns w c)) in
      Some (fails (emit (set_conn w c (set_seq (w_conns w c) n)) (EvDec id c n)) id)
  | TRecv c from raw =>                                (* conn.go:195-199 *)
      Some (match v2_parse g2 raw with
            | Ok (d, m) => goes w id (TCheck c from d m)
            | Err _ => fails w id
            | Panic => crash w id
            end)
  | TCheck c from d m =>                               (* conn.go:314-318, 362-370; Version() is 2 (message/header.go:229-231) *)
      let v := c_valid (w_conns w c) in
      let w := emit w (EvFlag id c v) in
      Some (goes w id (if v && negb (h2_get_teid (m_hdr m) =? 0) then TLook c from d m else TDisp c from d m))
  | TLook c from d m =>                                (* conn.go:371-373, 664-673 *)
      let t := h2_get_teid (m_hdr m) in
      let r := aget (c_itei (w_conns w c)) t in
      let w := emit w (EvLook id c t r) in
      Some (match r with
            | None => fails (emit w (EvRejected id c)) id
            | Some None => crash w id
            | Some (Some s) =>
                if from =? s_peer (w_sess w s) then goes (emit w (EvPassed id c)) id (TDisp c from d m)
                else fails (emit w (EvRejected id c)) id
            end)
  | TDisp c from d m =>                                (* conn.go:320-323 *)
      let h := aget (c_handlers (w_conns w c)) (h2_type (m_hdr m)) in
      let w := emit w (EvDispatch id c (h2_type (m_hdr m)) h) in
      Some (match h with Some h => goes w id (THandle c from d m h) | None => fails w id end)
  | THandle c from d m h => Some (run_handler w id c from d m h)
  | TWrite c b a =>                                    (* conn.go:657, 227-229 *)
      if c_open (w_conns w c) then Some (if ok then emit w (EvReply id c a b) else fails w id)
      else Some (crash w id)
  | TPass s m =>                                       (* session.go:136-137, queue of 1000: session.go:61 *)
      if (List.length (s_queue (w_sess w s)) <? 1000)%nat then
        Some (emit (put_sess w s (set_queue (w_sess w s) (s_queue (w_sess w s) ++ [m]))) (EvQueued id s m))
      else None
  | TWait s n =>                                       (* session.go:149-157 *)
      match s_queue (w_sess w s) with
      | [] => None
      | m :: q => Some (emit (put_sess w s (set_queue (w_sess w s) q)) (EvTook id s n m (if qm_seq m =? n then Some m else None)))
      end
  end.

(** the first statement of a call *)
Definition entry (w : world) (k : ccall) : option thread :=
  match k with
  | KRegister c t s => if s <? w_ns w then Some (TScript c s 0 (register_script (c_ift (w_conns w c)) t) FReturn) else None
  | KRemove c s => if s <? w_ns w then Some (TRemove1 c s) else None
  | KRemoveImsi c imsi => Some (TRemoveI c imsi)
  | KNewFTEID c v4 v6 => Some (TAlloc c 0 v4 v6)
  | KSend c d m a => Some (TSend c d m a)
  | KCreate _ _ _ _ => None
  | KDatagram c from d => if c_open (w_conns w c) && forallb octet d then Some (TRecv c from (received d)) else None
  | KPass s m => if s <? w_ns w then Some (TPass s m) else None
  | KWait s n => if s <? w_ns w then Some (TWait s n) else None
  end.
(** gtpv2/session.go:68-78 Activate, 81-87 Deactivate; setters *)
Definition allowed (w : world) (s : N) (x : sset) : bool :=
  (s <? w_ns w) &&
  match x with
  | SActive true => match s_imsi (w_sess w s) with [] => false | _ => true end
  | SBearer _ b => b <? w_nb w
  | _ => true
  end.
(** gtpv2/session.go:232-248 LookupBearerNameByEBI: a bearer named "" counts as not found *)
Definition name_by_ebi (brs : N -> bearer) (order : smap N) (ebi : N) : option bytes :=
  match find (fun p => ebi =? b_ebi (brs (snd p))) order with
  | Some ([], _) | None => None
  | Some (n, _) => Some n
  end.
(** [order] visits the entries of [m], each once *)
Fixpoint remove1 (x : bytes * N) (l : smap N) : option (smap N) :=
  match l with
  | [] => None
  | y :: r => if bytes_eqb (fst x) (fst y) && (snd x =? snd y) then Some r
              else match remove1 x r with Some r' => Some (y :: r') | None => None end
  end.
Fixpoint visits (order m : smap N) : bool :=
  match order with
  | [] => match m with [] => true | _ => false end
  | x :: r => match remove1 x m with Some m' => visits r m' | None => false end
  end.

Definition step (w : world) (l : label) : option world :=
  if w_crashed w then None else
  match l with
  | LOpen c => Some (emit (set_conn w c (set_open (w_conns w c))) (EvOpen c))  (* conn.go:146-155 *)
  | LClose c =>                                        (* conn.go:233-240: closing a closed channel panics *)
      if c_closed (w_conns w c) then Some (crash (bump w) (w_next w))
      else Some (emit (set_conn w c (set_closed (w_conns w c))) (EvClose c))
  | LValid c b => Some (emit (set_conn w c (set_valid (w_conns w c) b)) (EvValid c b)) (* conn.go:344-358 *)
  | LAddHandler c typ h =>                             (* conn.go:298-311 *)
      Some (emit (set_conn w c (set_handlers (w_conns w c) (aput (c_handlers (w_conns w c)) typ h))) (EvHandler c typ h))
  | LNewSession peer imsi => Some (add_session w peer imsi)
  | LNewBearer ebi => Some (add_bearer w ebi)          (* bearer.go:33-37 *)
  | LSet s x => if allowed w s x then Some (do_set w s x) else None
  | LBSet b x => if b <? w_nb w then Some (do_bset w b x) else None
  | LRemoveBearerByEBI s ebi order =>                  (* session.go:177-183, two steps in one *)
      if (s <? w_ns w) && visits order (s_bearers (w_sess w s)) then
        Some (match name_by_ebi (w_brs w) order ebi with Some n => do_set w s (SNoBearer n) | None => w end)
      else None
  | LInc c =>
      let n := inc_seq (c_seq (w_conns w c)) in
      Some (bump (emit (set_conn w c (set_seq (w_conns w c) n)) (EvSeq (w_next w) c n)))
  | LDec c =>
      let n := dec_seq (c_seq (w_conns w c)) in
      Some (bump (emit (set_conn w c (set_seq (w_conns w c) n)) (EvDec (w_next w) c n)))
  | LCreate c a ies =>                                 (* conn.go:595-610; NewSession in 463 *)
      let w1 := add_session w a [] in
      let sc := create_script (c_ift (w_conns w c)) ies in
      let f := match snd sc with
               | Goes => FSend d_CreateSessionRequest (v2_new g2 d_CreateSessionRequest 0 0 ies) a
               | Fails => FFail | Panics => FPanic end in
      Some (emit (spawn w1 (TScript c (w_ns w) (w_nb w) (fst sc) f)) (EvCall (w_next w) (KCreate c (w_ns w) a ies)))
  | LCall k =>
      match entry w k with
      | Some th => Some (emit (spawn w th) (EvCall (w_next w) k))
      | None => None
      end
  | LTry id rnd =>                                     (* conn.go:756-768; iteiSessionMap.tryStore 868-871 *)
      match aget (w_threads w) id with
      | Some (TAlloc c tries v4 v6) =>
          if (tries <? 65535) && (rnd <? 4294967296) then
            if (rnd =? 0) || match aget (c_itei (w_conns w c)) rnd with Some _ => true | None => false end
            then Some (goes (emit (ends w id) (EvMiss id c rnd)) id (TAlloc c (tries + 1) v4 v6))
            else Some (goes (emit (set_conn (ends w id) c (set_iteis (w_conns w c) (aput (c_itei (w_conns w c)) rnd None)))
                                  (EvReserved id c rnd)) id (TAllocRet c rnd v4 v6))
          else None
      | _ => None
      end
  | LRun id ok =>
      match aget (w_threads w) id with Some th => run_thread (ends w id) id th ok | None => None end
  | LTimeout id =>                                     (* session.go:138, 158 *)
      match aget (w_threads w) id with
      | Some (TPass _ _) | Some (TWait _ _) => Some (emit (ends w id) (EvTimeout id))
      | _ => None
      end
  end.

Fixpoint run (w : world) (ls : list label) : option world :=
  match ls with
  | [] => Some w
  | l :: r => match step w l with Some w' => run w' r | None => None end
  end.
(** connections as NewConn makes them, with local interface types and restart counters *)
Definition start (ift counter : N -> N) : world :=
  World (fun c => new_conn (ift c) (counter c)) (fun _ => new_session 0 [] 0) 0 (fun _ => empty_bearer) 0 [] 0 false [].

(** ** Queries: calls that only read *)

(** gtpv2/errors.go:96-105 InvalidTEIDError *)
Definition EInvalidTEID : err := EOther 1.
(** gtpv2/conn.go:664-673 GetSessionByTEID *)
Definition get_by_teid (w : world) (c t : N) (peer : addr) : res N :=
  match aget (c_itei (w_conns w c)) t with
  | None => Err EInvalidTEID
  | Some None => Panic
  | Some (Some s) => if peer =? s_peer (w_sess w s) then Ok s else Err EInvalidTEID
  end.
(** gtpv2/conn.go:676-681 GetSessionByIMSI *)
Definition get_by_imsi (w : world) (c : N) (imsi : bytes) : option N := sget (c_imsi (w_conns w c)) imsi.
(** gtpv2/conn.go:684-691 GetIMSIByTEID *)
Definition imsi_by_teid (w : world) (c t : N) (peer : addr) : res bytes :=
  do s <- get_by_teid w c t peer; Ok (s_imsi (w_sess w s)).
(** gtpv2/session.go:120-125 GetTEID *)
Definition get_teid (w : world) (s ift : N) : option N := aget (s_teids (w_sess w s)) ift.
(** gtpv2/conn.go:786-794 Sessions, 799-810 SessionCount, 815-826 BearerCount, visiting the
    table in the order given *)
Definition sessions (order : smap N) : list N := map snd order.
Definition session_count (w : world) (order : smap N) : nat :=
  List.length (filter (fun p => s_active (w_sess w (snd p))) order).
Definition bearer_count_all (w : world) (order : smap N) : nat :=
  fold_right (fun p n => if s_active (w_sess w (snd p)) then (List.length (s_bearers (w_sess w (snd p))) + n)%nat else n) 0%nat order.
(** gtpv2/session.go:186-194 GetDefaultBearer, 203-209 LookupBearerByName *)
Definition by_name (w : world) (s : N) (name : bytes) : option N := sget (s_bearers (w_sess w s)) name.
(** gtpv2/session.go:212-228 LookupBearerByEBI, in the order given *)
Definition by_ebi (w : world) (order : smap N) (ebi : N) : option N :=
  match find (fun p => ebi =? b_ebi (w_brs w (snd p))) order with Some (_, b) => Some b | None => None end.
(** gtpv2/session.go:253-259 LookupEBIByName *)
Definition ebi_by_name (w : world) (s : N) (name : bytes) : N :=
  match sget (s_bearers (w_sess w s)) name with Some b => b_ebi (w_brs w b) | None => 0 end.
(** gtpv2/session.go:264-276 LookupEBIByTEID, in the order given *)
Definition ebi_by_teid (w : world) (order : smap N) (t : N) : N :=
  match find (fun p => (t =? b_in (w_brs w (snd p))) || (t =? b_out (w_brs w (snd p)))) order with
  | Some (_, b) => b_ebi (w_brs w b) | None => 0 end.
(** gtpv2/session.go:331-342 Bearers, 345-356 BearerCount *)
Definition bearers (order : smap N) : list N := map snd order.
