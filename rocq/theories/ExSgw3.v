(** The example S-GW of /repo/examples/sgw, continued from ExSgw2.v: what it keeps of the MME's
    Create Session Request and what it asks of the P-GW.  Lines are those of
    /repo/examples/sgw/s11.go; the connections are made in main.go:66 (S11: interface type 11) and
    main.go:75 (S5/S8: interface type 6).  No proofs here. *)
From Coq Require Import String.
From Verif Require Import Base Maps V2IE V2Header MsgModel Msgs2Gen V2Msg V2Codec V2Codec2 V2Ctx CPlane ExPgw ExSgw ExSgw2.
Open Scope string_scope.
Open Scope N_scope.
Open Scope list_scope.

(** what ParseCreateSession (gtpv2/conn.go:461-576) returns when an IE cannot be read *)
Definition EParse : err := EOther 12.
(** a field of the message given as an argument: a pointer, nil when the field is empty *)
Definition field (m : msg2) (f : string) : option ie2 := match fget (m_fs m) f with Some i :: _ => Some i | _ => None end.
(** s11.go:29-116: the address of the P-GW and the session with the MME at [peer].  The local address resolves
    (line 55).  The call of RemoveSessionByIMSI (line 72) changes nothing here, and the APN is the bearer's. *)
Definition sgw_keep (m : msg2) (peer : addr) : res (bytes * session) :=
  do p <- needs m "PGWS5S8FTEIDC" (fun i => do ip <- acc_ip i; do t <- acc_teid i; Ok (ip, t));
  do mme <- needs m "SenderFTEIDC" acc_teid;
  do a <- udp_addr (fst p);
  do imsi <- needs m "IMSI" acc_imsi;
  do msisdn <- needs m "MSISDN" acc_msisdn;
  do mei <- needs m "MEI" acc_mei;
  do apn <- needs m "APN" (acc_fqdn g2 71);
  do net <- needs m "ServingNetwork" acc_mcc_mnc;
  do rat <- needs m "RATType" (acc_u8 g2 82);
  Ok (a, add_teid (add_teid (Sess peer false imsi msisdn mei (fst net) (snd net) rat [] [(default_name, 0)] []) 7 (snd p)) 10 mme).
(** the result of NewSenderFTEID, on which MustTEID is called: it panics on nil (lines 124, 154) *)
Definition made (r : res (option ie2)) : res ie2 := do o <- r; match o with Some i => Ok i | None => Panic end.
(** 141-148 the IEs given to CreateSession *)
Definition sgw_ies (m : msg2) (s5c : ie2) (ctx : option ie2) (csid : ie2) : list (option ie2) :=
  [field m "IMSI"; field m "MSISDN"; field m "MEI"; field m "ServingNetwork"; field m "RATType"; field m "IndicationFlags";
   Some s5c; field m "PGWS5S8FTEIDC"; field m "APN"; field m "SelectionMode"; field m "PDNType"; field m "PAA";
   field m "APNRestriction"; field m "AMBR"; field m "ULI"; ctx; field m "MMEFQCSID"; Some csid].
(** the session after the statements of ParseCreateSession; those on the bearer and on the tables are left out *)
Definition session_of (l : list stmt) (s : session) : session :=
  fold_left (fun s x => match x with DoS y => set_s s y | _ => s end) l s.
(** the TEIDs that ParseCreateSession registers the session with *)
Definition teids_of (l : list stmt) : list N := flat_map (fun x => match x with DoTeid t => [t] | _ => [] end) l.
(** what the handler has done when it waits for the P-GW: the address and the octets sent, the session with the
    MME, the session with the P-GW, the TEIDs each is registered with by the handler, and those that CreateSession
    registered the second with *)
Record asked := Asked { as_to : bytes; as_sent : bytes; as_s11 : session; as_s5 : session; as_t11 : N; as_t5 : N; as_reg : list N }.
(** s11.go:18-155 handleCreateSessionRequest up to the wait; [ts], [tc] and [tu] are what NewSenderFTEID and
    NewFTEID found, [i11], [i5c] and [i5u] the local addresses, [n] the sequence number that SendMessageTo
    (gtpv2/conn.go:381-394) takes; its write succeeds.  Without a TEID for S5/S8-C
    the program ends at line 154, after the write, and here before it.  [pgw]: the name of the P-GW's address. *)
Definition sgw_ask (m : msg2) (peer pgw : addr) (ts tc tu : option N) (i11 i5c i5u : bytes) (n : N) : res asked :=
  do k <- sgw_keep m peer;
  do sender <- made (allocated 11 ts (Some i11));
  do t11 <- must (acc_teid sender);
  let s11 := add_teid (snd k) 11 t11 in
  let s5c := allocated 6 tc (Some i5c) in
  do s5u <- with_instance (allocated 4 tu (Some i5u)) 2;
  do q <- new_bqos g2 1 2 1 255 0 0 0 0;
  do ctx <- new_bearer_context g2 [Some (new_ebi g2 5); Some s5u; q];
  do csid <- with_instance (new_fqcsid g2 (NodeIP i5u) [1]) 1;
  do s5c <- made s5c;
  let ies := sgw_ies m s5c ctx csid in
  let sc := create_script 6 ies in
  match snd sc with
  | Panics => Panic
  | Fails => Err EParse
  | Goes =>
      do r <- v2_new g2 d_CreateSessionRequest 0 0 ies;
      do w <- v2_marshal g2 d_CreateSessionRequest (Msg (h2_set_seq (m_hdr r) n) (m_fs r));
      let s := session_of (fst sc) (Sess pgw false [] [] [] [] [] 0 [] [(default_name, 0)] []) in
      do it <- must (acc_if_type s5u); do t4 <- must (acc_teid s5u); do t5 <- must (acc_teid s5c);
      Ok (Asked (fst k) (fst w) s11 (add_teid (add_teid s it t4) 6 t5) t11 t5 (teids_of (fst sc)))
  end.
