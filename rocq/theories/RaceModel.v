(** Which variables shared between goroutines the exported functions of gtpv1, gtpv2 and
    gtpv2/ie touch, in which order, and which mutexes they hold: gtpv1/u-conn.go, relay.go,
    tunnel.go, tunnel_linux.go, handlers.go, logger.go; gtpv2/conn.go, session.go, bearer.go,
    handlers.go, logger.go; gtpv2/ie/ie_grouped.go.

    A function is a [cmd]: accesses to fields, mutex operations and choices.  Kept are the
    fields that some function writes after the object has been made, and of their values one
    bit (nil or not, empty or not, on or off).  Everything else that decides where control
    goes (errors, datagrams, other values) is a free choice.  Operations on sync.Map and on
    channels are atomic and touch none of the fields, so only their effect on which objects
    can be found is kept: an object can be found once it was stored in such a map or returned
    ([Publish]), whoever looks for it.  Waiting for a datagram, a channel or a timer is a step
    that may come at any time.  Executions are followed up to the first panic.  Fields the
    library only writes (APN, QoS values, MSISDN, ...) are left out; a Subscriber belongs to
    one Session.  Messages, IEs and buffers belong to the caller or to one goroutine.  A
    handler of the user's is a caller like any other.  No proofs here. *)
From Coq Require Import String.
From Verif Require Import Base.
Open Scope string_scope.
Open Scope N_scope.
Open Scope list_scope.

(** the kinds of objects: UPlaneConn, Conn, Session, Bearer, Relay *)
Inductive kind := KU | KC | KS | KB | KR.
(** gtpv1/u-conn.go:205-228 UPlaneConn.pktConn (not nil), relayMap and its entries (not
    empty), errIndEnabled, KernelGTP.enabled, .connFile, .Link; gtpv2/conn.go:30-53
    Conn.pktConn, validationEnabled, sequence; gtpv2/session.go:30-46 Session.isActive,
    peerAddr, peerAddrString, Subscriber.IMSI; gtpv2/bearer.go:22-30 Bearer.raddr, teidIn,
    teidOut, EBI; gtpv1/relay.go:18-23 Relay.teidPair; gtpv1/logger.go:15, gtpv2/logger.go:15
    logger; gtpv2/ie/ie_grouped.go:37, 47 defaultGroupedIEMap, isGroupedFun *)
Inductive field :=
| UPkt | URelay | UErrInd | UKernel | UFile | ULink | CPkt | CValid | CSeq
| SActive | SPeer | SPeerStr | SImsi | BAddr | BIn | BOut | BEbi | RPair | Log1 | Log2 | GFun | GMap.
(** the mutexes: UPlaneConn.mu, the mutex of its pktConn (u-conn.go:52-57, 114-119; here one
    for each UPlaneConn, even if its pktConn is replaced), Conn.mu, Session.mu, Relay.mu, logMu
    of gtpv1 and gtpv2, mu of gtpv2/ie (a RWMutex; a waiting writer does not stop readers here) *)
Inductive lockk := MU | MPkt | MC | MS | MR | MLog1 | MLog2 | MG.

(** Objects are numbers; a [cmd] names them by variables.  Variable 0 stands for the package,
    1 to 5 for a UPlaneConn, Conn, Session, Bearer and Relay, 6 and up for further ones. *)
Inductive cmd :=
| Skip
| Rd (f : field) (x : N)                       (* read x.f *)
| Use (f : field) (x : N)                      (* read x.f and call a method of it: panics on nil *)
| Wr (f : field) (x : N) (v : option bool)     (* write x.f; None: whatever *)
| If (f : field) (x : N) (a b : cmd)           (* read x.f and branch *)
| Lock (l : lockk) (x : N) (w : bool)          (* w = false: RLock *)
| Unlock (l : lockk) (x : N) (w : bool)
| IfKnown (k : kind) (x : N) (a b : cmd)       (* can the object be found? *)
| Publish (k : kind) (x : N)
| Fresh (x : N)                                (* x := a new object *)
| Pick (x : N)                                 (* x := any object *)
| Seq (a b : cmd) | Choice (a b : cmd) | Loop (a : cmd)
| Go (g : string).                             (* start a goroutine; it inherits the variables *)

(** a call or goroutine under way: its name, its variables, the code to come, the mutexes held
    (with the variable they were locked through) *)
Record thr := Thr { t_tag : string; t_env : N -> N; t_code : list cmd; t_held : list (lockk * N * N * bool) }.
Record st := St { s_thr : list thr; s_mem : field -> N -> bool; s_known : kind -> N -> bool; s_next : N }.

Definition seqs (l : list cmd) : cmd := fold_right Seq Skip l.
Definition opt (c : cmd) : cmd := Choice c Skip.
Definition locked (l : lockk) (x : N) (c : list cmd) : cmd := seqs (Lock l x true :: c ++ [Unlock l x true]).

(** ** gtpv1 *)
(** gtpv1/logger.go:64-69 logf *)
Definition logf1 : cmd := locked MLog1 0 [Rd Log1 0].
(** logger.go:53-62 setLogger, which 24-30 SetLogger calls; 37-42 EnableLogging; 46-51 DisableLogging *)
Definition set_logger1 : cmd := locked MLog1 0 [Wr Log1 0 None].
Definition enable_logging1 : cmd := locked MLog1 0 [set_logger1].
Definition disable_logging1 : cmd := locked MLog1 0 [Rd Log1 0].
(** u-conn.go:88-104, 150-166 WriteToWithDSCPECN of the pktConn *)
Definition pkt_write (x : N) : cmd := locked MPkt x [].
(** u-conn.go:478-482 WriteTo, 489-491 WriteToWithDSCPECN *)
Definition u_write (x : N) : cmd := locked MU x [Use UPkt x; pkt_write x].
Definition u_write_marked (x : N) : cmd := seqs [Use UPkt x; pkt_write x].
(** u-conn.go:448-450 ReadFrom, 524-526 LocalAddr, 543-561 SetDeadline, SetReadDeadline, SetWriteDeadline *)
Definition u_pkt (x : N) : cmd := Use UPkt x.
(** u-conn.go:630-649 ErrorIndication: LocalAddr, then WriteTo *)
Definition u_err_ind : cmd := seqs [u_pkt 1; opt (u_write 1)].
(** u-conn.go:231-243 NewUPlaneConn: the new object *)
Definition u_init : cmd := seqs [Fresh 1; Wr UPkt 1 (Some false); Wr URelay 1 (Some false); Wr UErrInd 1 (Some true); Wr UKernel 1 (Some false); Wr UFile 1 (Some false); Wr ULink 1 (Some false)].
Definition new_uplane : cmd := Seq u_init (Publish KU 1).
(** u-conn.go:337-436 serve: ctx is done or the connection closed, a read fails, or a datagram
    arrives *)
Definition u_serve : cmd := seqs [Go "UPlaneConn closing"; Loop (seqs [u_pkt 1; Go "UPlaneConn datagram"]); opt (seqs [u_pkt 1; opt (u_pkt 1)])].
(** u-conn.go:246-314 DialUPlane; 604-614 EchoRequest *)
Definition dial_uplane : cmd := seqs [u_init;
  let rest := seqs [u_pkt 1; Loop (opt (seqs [u_write 1; u_pkt 1; u_pkt 1])); opt (seqs [Go "UPlaneConn serving"; Publish KU 1])] in
  If UPkt 1 rest (Choice (Wr UPkt 1 (Some false)) (Seq (Wr UPkt 1 (Some true)) rest))].
(** u-conn.go:307-311: the goroutine of DialUPlane *)
Definition u_serving : cmd := seqs [u_serve; opt (seqs [u_pkt 1; logf1])].
(** u-conn.go:319-335 ListenAndServe *)
Definition u_listen : cmd :=
  If UPkt 1 u_serve (Choice (locked MU 1 [Wr UPkt 1 (Some false)]) (Seq (locked MU 1 [Wr UPkt 1 (Some true)]) u_serve)).
(** u-conn.go:338-359: the goroutine that waits for the end *)
Definition u_closing : cmd := seqs [
  If UKernel 1 (seqs [Rd UFile 1; opt logf1; Rd ULink 1; opt logf1]) Skip;
  If UPkt 1 (seqs [u_pkt 1; opt logf1]) Skip].
(** handlers.go:59-97 handleTPDU; the goroutine it starts offers the T-PDU on a channel *)
Definition h_tpdu : cmd := If UErrInd 1 (seqs [u_err_ind; opt logf1]) Skip.
(** u-conn.go:590-601 handleMessage with handlers.go:59-137: T-PDU, Echo Request (answered by
    RespondTo, u-conn.go:655-666), Error Indication (logged), Echo Response or none *)
Definition u_handle : cmd := Choice h_tpdu (Choice (u_write 1) (Choice logf1 Skip)).
(** u-conn.go:387-434: the goroutine of a datagram; variable 6 is the connection RelayTo named *)
Definition u_datagram : cmd :=
  let err := seqs [u_pkt 1; logf1] in
  let plain := Choice err (Seq u_handle (opt err)) in
  If URelay 1
    (Choice plain (opt (Seq (locked MU 1 [Rd URelay 1])
       (Choice (opt (Seq u_handle (opt err))) (seqs [Pick 6; IfKnown KU 6 (Seq (u_write_marked 6) (opt err)) Skip])))))
    plain.
(** u-conn.go:514-521 Close *)
Definition u_close : cmd := locked MU 1 [].
(** u-conn.go:742-746 EnableErrorIndication, 754-758 DisableErrorIndication *)
Definition u_err_on : cmd := locked MU 1 [Wr UErrInd 1 (Some true)].
Definition u_err_off : cmd := locked MU 1 [Wr UErrInd 1 (Some false)].
(** tunnel.go:21-33 RelayTo, 36-47 CloseRelay *)
Definition u_relay_to : cmd := If UKernel 1 Skip (locked MU 1 [Rd URelay 1; Wr URelay 1 (Some true)]).
Definition u_close_relay : cmd := If UKernel 1 Skip (locked MU 1 [Wr URelay 1 None]).
(** tunnel_linux.go:40-85 EnableKernelGTP *)
Definition u_kernel : cmd :=
  let rest := seqs [u_pkt 1;
    opt (seqs [Wr ULink 1 (Some true); Rd ULink 1;
      opt (seqs [Wr UFile 1 (Some true); Wr UKernel 1 (Some true); If URelay 1 (locked MU 1 [Wr URelay 1 (Some false)]) Skip])])] in
  If UPkt 1 rest (Choice (Wr UPkt 1 (Some false)) (Seq (Wr UPkt 1 (Some true)) rest)).
(** tunnel_linux.go:88-104 AddTunnel, 127-143 DelTunnelByITEI, 146-163 DelTunnelByMSAddress;
    109-124 AddTunnelOverride *)
Definition u_tunnel : cmd := If UKernel 1 (Rd ULink 1) Skip.
Definition u_tunnel_override : cmd := If UKernel 1 (seqs [Rd ULink 1; u_tunnel]) Skip.
(** u-conn.go:682-709 NewFTEID *)
Definition u_new_fteid : cmd := Loop logf1.
(** relay.go:27-36 NewRelay, 42-94 Run and its two goroutines (variable 6 is the connection
    they write to: any), 99-108 Close, 117-122 AddPeer, 124-130 getPeer *)
Definition new_relay : cmd := seqs [Fresh 5; Wr RPair 5 (Some false); Publish KR 5].
Definition relay_run : cmd := seqs [Go "Relay running"; Go "Relay running"].
Definition relay_running : cmd := Loop (seqs [locked MR 5 [Rd RPair 5]; Pick 6; IfKnown KU 6 (u_write 6) Skip]).
Definition relay_close : cmd := seqs [Pick 6; IfKnown KU 6 (u_pkt 6) Skip; opt (seqs [Pick 6; IfKnown KU 6 (u_pkt 6) Skip])].
Definition relay_add : cmd := locked MR 5 [Wr RPair 5 (Some true)].

(** ** gtpv2 *)
(** gtpv2/logger.go:63-68 logf, 53-61 setLogger, 37-42 EnableLogging, 46-51 DisableLogging *)
Definition logf2 : cmd := locked MLog2 0 [Rd Log2 0].
Definition set_logger2 : cmd := locked MLog2 0 [Wr Log2 0 None].
Definition enable_logging2 : cmd := locked MLog2 0 [set_logger2].
Definition disable_logging2 : cmd := locked MLog2 0 [Rd Log2 0].
(** gtpv2/ie/ie_grouped.go:80-82 IsGrouped, 47-52 the built-in function, which a function set
    by SetIsGroupedFun replaces *)
Definition is_grouped : cmd := seqs [Rd GFun 0; opt (seqs [Lock MG 0 false; Rd GMap 0; Unlock MG 0 false])].
(** marshalling, parsing and reading IEs, gtpv2/ie/ie.go:221-438, ask IsGrouped for each *)
Definition with_ies : cmd := Loop is_grouped.
(** ie_grouped.go:56-60 SetIsGroupedFun, 66-72 AddGroupedIEType *)
Definition set_grouped_fun : cmd := locked MG 0 [Wr GFun 0 None].
Definition add_grouped : cmd := locked MG 0 [Wr GMap 0 (Some true)].
(** conn.go:218-229 ReadFrom, WriteTo, 243-245 LocalAddr, 262-280 SetDeadline, SetReadDeadline, SetWriteDeadline *)
Definition c_pkt : cmd := Use CPkt 2.
(** conn.go:398-426 IncSequence, DecSequence, SequenceNumber *)
Definition c_inc : cmd := locked MC 2 [Rd CSeq 2; Wr CSeq 2 None; Rd CSeq 2; opt (Wr CSeq 2 (Some false)); Rd CSeq 2].
Definition c_dec : cmd := locked MC 2 [Rd CSeq 2; Wr CSeq 2 None; Rd CSeq 2].
Definition c_seq : cmd := locked MC 2 [Rd CSeq 2].
(** conn.go:380-395 SendMessageTo; 429-437 EchoRequest calls it *)
Definition c_send : cmd := seqs [c_inc; with_ies; Choice c_dec (seqs [c_pkt; opt c_dec])].
(** conn.go:649-661 RespondTo; 440-447 EchoResponse calls it, and so does 451-458
    VersionNotSupportedIndication with a message without IEs *)
Definition c_respond : cmd := seqs [with_ies; opt c_pkt].
Definition c_version : cmd := opt c_pkt.
(** conn.go:56-69 NewConn *)
Definition c_init : cmd := seqs [Fresh 2; Wr CPkt 2 (Some false); Wr CValid 2 (Some true); Wr CSeq 2 (Some false)].
Definition new_conn : cmd := Seq c_init (Publish KC 2).
(** conn.go:664-673 GetSessionByTEID: the session found is variable 3 *)
Definition session_by_teid (found : cmd) : cmd := opt (seqs [Pick 3; IfKnown KS 3 (seqs [Rd SPeerStr 3; opt found]) Skip]).
(** conn.go:313-330 handleMessage, 360-376 validate; handlers.go:54-87: only an Echo Request is
    answered; [look]: the search for the session of a TEID *)
Definition c_handle (look : cmd) : cmd := If CValid 2 (Choice c_version (Seq look (opt c_respond))) (opt c_respond).
(** conn.go:167-206 Serve *)
Definition c_serve : cmd := seqs [Go "Conn closing"; Loop (seqs [c_pkt; Go "Conn datagram"]); c_pkt; opt c_pkt].
(** conn.go:168-177, 194-204: its goroutines *)
Definition c_closing : cmd := seqs [c_pkt; opt logf2].
Definition c_datagram : cmd := seqs [with_ies; Choice logf2 (seqs [c_handle (session_by_teid Skip); opt (seqs [c_pkt; logf2])])].
(** conn.go:77-134 Dial, where no session is found yet, and 128-132 its goroutine *)
Definition c_dial : cmd := seqs [c_init; Choice (Wr CPkt 2 (Some false)) (seqs [Wr CPkt 2 (Some true); c_send;
  opt (seqs [c_pkt; c_pkt; c_pkt; with_ies; c_handle Skip; opt (seqs [Go "Conn serving"; Publish KC 2])])])].
Definition c_serving : cmd := seqs [c_serve; opt (seqs [c_pkt; logf2])].
(** conn.go:146-155 Listen, 137-143 ListenAndServe *)
Definition c_listen : cmd := locked MC 2 [Wr CPkt 2 None].
Definition c_listen_serve : cmd := Choice (locked MC 2 [Wr CPkt 2 (Some false)]) (Seq (locked MC 2 [Wr CPkt 2 (Some true)]) c_serve).
(** conn.go:233-240 Close, 344-358 EnableValidation, DisableValidation *)
Definition c_close : cmd := locked MC 2 [].
Definition c_valid_on : cmd := locked MC 2 [Wr CValid 2 (Some true)].
Definition c_valid_off : cmd := locked MC 2 [Wr CValid 2 (Some false)].
(** session.go:53-65 NewSession with its default bearer (variable 4); who can find the session
    can find the bearer *)
Definition s_init : cmd := seqs [Fresh 3; Wr SActive 3 (Some false); Wr SPeer 3 (Some true); Wr SPeerStr 3 (Some true); Wr SImsi 3 (Some false);
  Fresh 4; Wr BAddr 4 (Some false); Wr BIn 4 (Some false); Wr BOut 4 (Some false); Wr BEbi 4 (Some false)].
Definition s_publish : cmd := Seq (Publish KS 3) (Publish KB 4).
Definition new_session : cmd := Seq s_init s_publish.
(** conn.go:699-704 RegisterSession *)
Definition c_register : cmd := Rd SImsi 3.
(** conn.go:461-576 ParseCreateSession: the IEs in any order and number; an IE that cannot be
    read ends it without a result *)
Definition c_parse_create (rest : cmd) : cmd := seqs [s_init;
  Loop (seqs [with_ies; Choice (Wr SImsi 3 (Some true)) (Choice (Seq s_publish c_register) (Choice (Wr BEbi 4 (Some true)) Skip))]);
  opt (Seq rest (opt s_publish))].
(** conn.go:595-610 CreateSession *)
Definition c_create : cmd := c_parse_create (seqs [with_ies; c_send]).
(** conn.go:613-643 DeleteSession, ModifyBearer, DeleteBearer *)
Definition c_delete : cmd := seqs [with_ies; Rd SPeer 3; c_send].
(** conn.go:684-691 GetIMSIByTEID *)
Definition c_imsi_by_teid : cmd := session_by_teid (Rd SImsi 3).
(** conn.go:707-725 RemoveSession, 730-737 RemoveSessionByIMSI *)
Definition c_remove : cmd := seqs [Rd SImsi 3; opt (seqs [logf2; Loop (seqs [Pick 6; IfKnown KS 6 (seqs [Rd SImsi 6; Rd SImsi 3]) Skip])])].
Definition c_remove_imsi : cmd := Choice logf2 (seqs [Pick 3; IfKnown KS 3 c_remove Skip]).
(** conn.go:748-774 NewSenderFTEID *)
Definition c_new_fteid : cmd := Loop logf2.
(** session.go:68-95 Activate, Deactivate, IsActive *)
Definition s_activate : cmd := locked MS 3 [Rd SImsi 3; opt (Wr SActive 3 (Some true))].
Definition s_deactivate : cmd := locked MS 3 [Wr SActive 3 (Some false)].
Definition s_is_active : cmd := locked MS 3 [Rd SActive 3].
(** session.go:331-356 Bearers, BearerCount *)
Definition s_bearers : cmd := locked MS 3 [].
(** conn.go:799-826 SessionCount, BearerCount *)
Definition c_sessions (each : cmd) : cmd := Loop (seqs [Pick 3; IfKnown KS 3 each Skip]).
(** session.go:98-106 PeerAddr, UpdatePeerAddr *)
Definition s_peer : cmd := Rd SPeer 3.
Definition s_update_peer : cmd := seqs [Wr SPeer 3 (Some true); Wr SPeerStr 3 (Some true)].
(** session.go:203-209 LookupBearerByName; 212-248 LookupBearerByEBI, LookupBearerNameByEBI, and
    177-183 RemoveBearerByEBI, which calls it; 253-259 LookupEBIByName; 264-276 LookupEBIByTEID;
    variable 6 is a bearer found in the session *)
Definition s_by_name : cmd := opt (Rd SImsi 3).
Definition s_by_ebi : cmd := seqs [Loop (seqs [Pick 6; IfKnown KB 6 (Rd BEbi 6) Skip]); opt (Rd SImsi 3)].
Definition s_ebi_by_name : cmd := opt (seqs [Pick 6; IfKnown KB 6 (Rd BEbi 6) Skip]).
Definition s_ebi_by_teid : cmd := Loop (seqs [Pick 6; IfKnown KB 6 (seqs [Rd BIn 6; opt (Rd BOut 6); opt (Rd BEbi 6)]) Skip]).
(** bearer.go:33-37 NewBearer *)
Definition new_bearer : cmd := seqs [Fresh 4; Wr BAddr 4 (Some false); Wr BIn 4 (Some false); Wr BOut 4 (Some false); Wr BEbi 4 (Some true); Publish KB 4].

(** ** The functions a caller may use, with the objects they are given *)
Definition ops : list (string * (list (kind * N) * cmd)) := [
  ("gtpv1.SetLogger", ([], set_logger1)); ("gtpv1.EnableLogging", ([], enable_logging1)); ("gtpv1.DisableLogging", ([], disable_logging1));
  ("NewUPlaneConn", ([], new_uplane)); ("DialUPlane", ([], dial_uplane));
  ("UPlaneConn.ListenAndServe", ([(KU, 1)], u_listen)); ("UPlaneConn.Close", ([(KU, 1)], u_close));
  ("UPlaneConn.ReadFrom", ([(KU, 1)], u_pkt 1)); ("UPlaneConn.LocalAddr", ([(KU, 1)], u_pkt 1)); ("UPlaneConn.SetDeadline", ([(KU, 1)], u_pkt 1));
  ("UPlaneConn.SetReadDeadline", ([(KU, 1)], u_pkt 1)); ("UPlaneConn.SetWriteDeadline", ([(KU, 1)], u_pkt 1));
  ("UPlaneConn.ReadFromGTP", ([(KU, 1)], Skip))                      (* u-conn.go:457-471 *);
  ("UPlaneConn.WriteTo", ([(KU, 1)], u_write 1)); ("UPlaneConn.WriteToWithDSCPECN", ([(KU, 1)], u_write_marked 1));
  ("UPlaneConn.WriteToGTP", ([(KU, 1)], opt (u_write 1)))            (* u-conn.go:494-505 *);
  ("UPlaneConn.EchoRequest", ([(KU, 1)], opt (u_write 1)))           (* u-conn.go:604-614 *);
  ("UPlaneConn.EchoResponse", ([(KU, 1)], opt (u_write 1)))          (* u-conn.go:617-627 *);
  ("UPlaneConn.ErrorIndication", ([(KU, 1)], u_err_ind)); ("UPlaneConn.RespondTo", ([(KU, 1)], opt (u_write 1)));
  ("UPlaneConn.Restarts", ([(KU, 1)], Skip))                         (* u-conn.go:669-671 *);
  ("UPlaneConn.AddHandler", ([(KU, 1)], Skip)); ("UPlaneConn.AddHandlers", ([(KU, 1)], Skip))  (* u-conn.go:577-588: sync.Map *);
  ("UPlaneConn.NewFTEID", ([(KU, 1)], u_new_fteid));
  ("UPlaneConn.EnableErrorIndication", ([(KU, 1)], u_err_on)); ("UPlaneConn.DisableErrorIndication", ([(KU, 1)], u_err_off));
  ("UPlaneConn.RelayTo", ([(KU, 1)], u_relay_to)); ("UPlaneConn.CloseRelay", ([(KU, 1)], u_close_relay));
  ("UPlaneConn.EnableKernelGTP", ([(KU, 1)], u_kernel)); ("UPlaneConn.AddTunnel", ([(KU, 1)], u_tunnel));
  ("UPlaneConn.AddTunnelOverride", ([(KU, 1)], u_tunnel_override)); ("UPlaneConn.DelTunnelByITEI", ([(KU, 1)], u_tunnel));
  ("UPlaneConn.DelTunnelByMSAddress", ([(KU, 1)], u_tunnel)); ("UPlaneConn.Link", ([(KU, 1)], Rd ULink 1))   (* u-conn.go:227: an exported field *);
  ("NewRelay", ([], new_relay)); ("Relay.Run", ([(KR, 5)], relay_run)); ("Relay.Close", ([(KR, 5)], relay_close)); ("Relay.AddPeer", ([(KR, 5)], relay_add));
  ("gtpv2.SetLogger", ([], set_logger2)); ("gtpv2.EnableLogging", ([], enable_logging2)); ("gtpv2.DisableLogging", ([], disable_logging2));
  ("ie.SetIsGroupedFun", ([], set_grouped_fun)); ("ie.AddGroupedIEType", ([], add_grouped)); ("IE.IsGrouped", ([], is_grouped));
  ("gtpv2 message.Parse, Marshal", ([], with_ies))                   (* and whatever else handles IEs *);
  ("NewConn", ([], new_conn)); ("Dial", ([], c_dial));
  ("Conn.Listen", ([(KC, 2)], c_listen)); ("Conn.ListenAndServe", ([(KC, 2)], c_listen_serve)); ("Conn.Serve", ([(KC, 2)], c_serve)); ("Conn.Close", ([(KC, 2)], c_close));
  ("Conn.ReadFrom", ([(KC, 2)], c_pkt)); ("Conn.WriteTo", ([(KC, 2)], c_pkt)); ("Conn.LocalAddr", ([(KC, 2)], c_pkt));
  ("Conn.SetDeadline", ([(KC, 2)], c_pkt)); ("Conn.SetReadDeadline", ([(KC, 2)], c_pkt)); ("Conn.SetWriteDeadline", ([(KC, 2)], c_pkt));
  ("Conn.AddHandler", ([(KC, 2)], Skip)); ("Conn.AddHandlers", ([(KC, 2)], Skip))              (* conn.go:298-311: sync.Map *);
  ("Conn.EnableValidation", ([(KC, 2)], c_valid_on)); ("Conn.DisableValidation", ([(KC, 2)], c_valid_off));
  ("Conn.SendMessageTo", ([(KC, 2)], c_send)); ("Conn.IncSequence", ([(KC, 2)], c_inc)); ("Conn.DecSequence", ([(KC, 2)], c_dec)); ("Conn.SequenceNumber", ([(KC, 2)], c_seq));
  ("Conn.EchoRequest", ([(KC, 2)], c_send)); ("Conn.EchoResponse", ([(KC, 2)], c_respond)); ("Conn.VersionNotSupportedIndication", ([(KC, 2)], c_version));
  ("Conn.RespondTo", ([(KC, 2)], c_respond));
  ("Conn.ParseCreateSession", ([(KC, 2)], c_parse_create Skip)); ("Conn.CreateSession", ([(KC, 2)], c_create));
  ("Conn.DeleteSession", ([(KC, 2); (KS, 3)], c_delete)); ("Conn.ModifyBearer", ([(KC, 2); (KS, 3)], c_delete)); ("Conn.DeleteBearer", ([(KC, 2); (KS, 3)], c_delete));
  ("Conn.GetSessionByTEID", ([(KC, 2)], session_by_teid Skip)); ("Conn.GetSessionByIMSI", ([(KC, 2)], Skip)) (* conn.go:676-681 *); ("Conn.GetIMSIByTEID", ([(KC, 2)], c_imsi_by_teid));
  ("Conn.RegisterSession", ([(KC, 2); (KS, 3)], c_register)); ("Conn.RemoveSession", ([(KC, 2); (KS, 3)], c_remove)); ("Conn.RemoveSessionByIMSI", ([(KC, 2)], c_remove_imsi));
  ("Conn.NewSenderFTEID", ([(KC, 2)], c_new_fteid)); ("Conn.Sessions", ([(KC, 2)], Skip)) (* conn.go:786-794 *);
  ("Conn.SessionCount", ([(KC, 2)], c_sessions s_is_active)); ("Conn.BearerCount", ([(KC, 2)], c_sessions (Seq s_is_active (opt s_bearers))));
  ("NewSession", ([], new_session)); ("Session.Activate", ([(KS, 3)], s_activate)); ("Session.Deactivate", ([(KS, 3)], s_deactivate)); ("Session.IsActive", ([(KS, 3)], s_is_active));
  ("Session.PeerAddr", ([(KS, 3)], s_peer)); ("Session.UpdatePeerAddr", ([(KS, 3)], s_update_peer));
  ("Session.IMSI", ([(KS, 3)], Rd SImsi 3)); ("Session.IMSI = ...", ([(KS, 3)], Wr SImsi 3 None))   (* session.go:24-26: an exported field *);
  ("Session.AddTEID", ([(KS, 3)], Skip)); ("Session.GetTEID", ([(KS, 3)], Skip))               (* session.go:115-125: sync.Map *);
  ("PassMessageTo", ([(KS, 3)], Skip)); ("Session.WaitMessage", ([(KS, 3)], Skip))             (* session.go:134-161: the queue, which nobody closes *);
  ("Session.AddBearer", ([(KS, 3); (KB, 4)], Skip)); ("Session.RemoveBearer", ([(KS, 3)], Skip)); ("Session.RemoveBearerByEBI", ([(KS, 3)], s_by_ebi));
  ("Session.GetDefaultBearer", ([(KS, 3)], Skip)); ("Session.SetDefaultBearer", ([(KS, 3); (KB, 4)], Skip))   (* session.go:167-200: sync.Map *);
  ("Session.LookupBearerByName", ([(KS, 3)], s_by_name)); ("Session.LookupBearerByEBI", ([(KS, 3)], s_by_ebi)); ("Session.LookupBearerNameByEBI", ([(KS, 3)], s_by_ebi));
  ("Session.LookupEBIByName", ([(KS, 3)], s_ebi_by_name)); ("Session.LookupEBIByTEID", ([(KS, 3)], s_ebi_by_teid));
  ("Session.Bearers", ([(KS, 3)], s_bearers)); ("Session.BearerCount", ([(KS, 3)], s_bearers));
  ("NewBearer", ([], new_bearer)); ("Bearer.RemoteAddress", ([(KB, 4)], Rd BAddr 4)); ("Bearer.SetRemoteAddress", ([(KB, 4)], Wr BAddr 4 None));
  ("Bearer.IncomingTEID", ([(KB, 4)], Rd BIn 4)); ("Bearer.SetIncomingTEID", ([(KB, 4)], Wr BIn 4 None));
  ("Bearer.OutgoingTEID", ([(KB, 4)], Rd BOut 4)); ("Bearer.SetOutgoingTEID", ([(KB, 4)], Wr BOut 4 None))  (* bearer.go:40-67 *);
  ("Bearer.EBI", ([(KB, 4)], Rd BEbi 4)); ("Bearer.EBI = ...", ([(KB, 4)], Wr BEbi 4 None))          (* bearer.go:26: an exported field *) ].
(** the goroutines they start, with the objects they use *)
Definition goroutines : list (string * (list (kind * N) * cmd)) := [
  ("UPlaneConn serving", ([(KU, 1)], u_serving)); ("UPlaneConn closing", ([(KU, 1)], u_closing)); ("UPlaneConn datagram", ([(KU, 1)], u_datagram));
  ("Relay running", ([(KR, 5)], relay_running));
  ("Conn serving", ([(KC, 2)], c_serving)); ("Conn closing", ([(KC, 2)], c_closing)); ("Conn datagram", ([(KC, 2)], c_datagram)) ].
Definition entry (t : string) : list (kind * N) * cmd :=
  match find (fun e => String.eqb (fst e) t) (ops ++ goroutines) with Some e => snd e | None => ([], Skip) end.
Definition args (t : string) : list (kind * N) := fst (entry t).
Definition body (t : string) : cmd := snd (entry t).

(** ** One step *)
Scheme Equality for field. Scheme Equality for lockk. Scheme Equality for kind.
Definition upd {A} (m : N -> A) (x : N) (v : A) : N -> A := fun y => if y =? x then v else m y.
Definition upd_mem (m : field -> N -> bool) (f : field) (o : N) (v : bool) : field -> N -> bool :=
  fun g p => if field_beq g f && (p =? o) then v else m g p.
Definition upd_known (m : kind -> N -> bool) (k : kind) (o : N) : kind -> N -> bool :=
  fun j p => if kind_beq j k && (p =? o) then true else m j p.
(** no goroutine holds the mutex in a way that excludes locking it *)
Definition free (s : st) (l : lockk) (o : N) (w : bool) : bool :=
  forallb (fun t => forallb (fun h => match h with (l', _, o', w') => negb (lockk_beq l' l && (o' =? o) && (w || w')) end) (t_held t)) (s_thr s).
Fixpoint release (l : lockk) (x : N) (w : bool) (h : list (lockk * N * N * bool)) : option (list (lockk * N * N * bool)) :=
  match h with
  | [] => None
  | (l', x', o', w') :: r =>
      if lockk_beq l' l && (x' =? x) && Bool.eqb w' w then Some r
      else match release l x w r with Some r' => Some ((l', x', o', w') :: r') | None => None end
  end.
Definition set_thr (s : st) (i : nat) (t : thr) : st :=
  St (firstn i (s_thr s) ++ t :: skipn (S i) (s_thr s)) (s_mem s) (s_known s) (s_next s).
Definition with_mem (s : st) m := St (s_thr s) m (s_known s) (s_next s).
Definition with_known (s : st) k := St (s_thr s) (s_mem s) k (s_next s).
(** the states after one step of goroutine i; [o] is the object a [Pick] finds *)
Definition moves (s : st) (i : nat) (o : N) : list st :=
  match nth_error (s_thr s) i with
  | Some (Thr t e (c :: k) h) =>
      let go k' := set_thr s i (Thr t e k' h) in
      match c with
      | Skip | Rd _ _ => [go k]
      | Use f x => if s_mem s f (e x) then [go k] else []
      | Wr f x (Some v) => [with_mem (go k) (upd_mem (s_mem s) f (e x) v)]
      | Wr f x None => [with_mem (go k) (upd_mem (s_mem s) f (e x) true); with_mem (go k) (upd_mem (s_mem s) f (e x) false)]
      | If f x a b => [go ((if s_mem s f (e x) then a else b) :: k)]
      | Lock l x w => if free s l (e x) w then [set_thr s i (Thr t e k ((l, x, e x, w) :: h))] else []
      | Unlock l x w => match release l x w h with Some h' => [set_thr s i (Thr t e k h')] | None => [] end
      | IfKnown j x a b => [go ((if s_known s j (e x) then a else b) :: k)]
      | Publish j x => [with_known (go k) (upd_known (s_known s) j (e x))]
      | Fresh x => let s' := set_thr s i (Thr t (upd e x (s_next s)) k h) in [St (s_thr s') (s_mem s') (s_known s') (N.succ (s_next s))]
      | Pick x => [set_thr s i (Thr t (upd e x o) k h)]
      | Seq a b => [go (a :: b :: k)]
      | Choice a b => [go (a :: k); go (b :: k)]
      | Loop a => [go k; go (a :: Loop a :: k)]
      | Go g => let s' := go k in [St (s_thr s' ++ [Thr g e [body g] []]) (s_mem s') (s_known s') (s_next s')]
      end
  | _ => []
  end.
(** a caller starts a function with objects that can be found *)
Definition call (s : st) (t : string) (e : N -> N) : st :=
  St (s_thr s ++ [Thr t e [body t] []]) (s_mem s) (s_known s) (s_next s).
Inductive step : st -> st -> Prop :=
| step_call s t e : In t (map fst ops) -> e 0 = 0 -> Forall (fun a => s_known s (fst a) (e (snd a)) = true) (args t) -> step s (call s t e)
| step_move s i o s' : In s' (moves s i o) -> step s s'.
(** nothing has been called; object 0 is the package, the first new object is 1 *)
Definition start : st := St [] (fun _ _ => false) (fun _ _ => false) 1.
Inductive reachable : st -> Prop :=
| reach_start : reachable start
| reach_step s s' : reachable s -> step s s' -> reachable s'.
