(** The example MME of /repo/examples/mme, continued from ExMme.v: its Create Session Request.
    Lines are those of mock.go; the subscribers and the bearer are those of main.go:118-137, the
    connection that of main.go (S11: interface type 10).  No proofs here. *)
From Coq Require Import String.
From Verif Require Import Base Maps V2IE V2Header MsgModel Msgs2Gen V2Msg V2Codec V2Codec2 V2Uli V2Ind V2Ctx CPlane ExPgw ExSgw ExSgw2 ExSgw3.
Open Scope string_scope.
Open Scope N_scope.
Open Scope list_scope.

(** main.go:118-133 the subscriber number k, k from 1 to 5: its IMSI is [known_imsi k], its TAI is k and its ECI 257 k *)
Definition sub_msisdn (k : N) : bytes := [56; 49; 51; 48; 57; 48; 48; 48; 48; 48; 48; 48; 48 + k].
Definition sub_imei (k : N) : bytes := [49; 50; 51; 52; 53; 54; 55; 56; 48; 48; 48; 48; 48; 49; 48 + k].
Definition sub_mcc : bytes := [49; 50; 51].
Definition sub_mnc : bytes := [52; 53].
(** main.go:151-154 "some-apn-1.example" or "some-apn-2.example"; getPGWIP (23-33): 127.0.0.52 or 127.0.0.53 *)
Definition apn_of (two : bool) : bytes :=
  [115; 111; 109; 101; 45; 97; 112; 110; 45; if two then 50 else 49; 46; 101; 120; 97; 109; 112; 108; 101].
Definition pgw_of (two : bool) : bytes := [127; 0; 0; if two then 53 else 52].
(** the IEs given to CreateSession that do not depend on TEIDs and addresses *)
Definition mme_uli (k : N) : res (option ie2) :=
  new_uli g2 (Some (Loc2 sub_mcc sub_mnc 0 0)) (Some (Loc2 sub_mcc sub_mnc 0 0)) (Some (Loc2 sub_mcc sub_mnc 0 0))
    (Some (Loc1 sub_mcc sub_mnc k)) (Some (new_ecgi sub_mcc sub_mnc (257 * k))) (Some (Loc1 sub_mcc sub_mnc 0))
    (Some (Loc1 sub_mcc sub_mnc 0)) (Some (Loc1 sub_mcc sub_mnc 0)).
Definition mme_context : res (option ie2) :=
  do q <- new_bqos g2 0 2 0 255 4294967295 4294967295 4294967295 4294967295; new_bearer_context g2 [Some (new_ebi g2 5); q].
(** 87-119 the IEs given to CreateSession.  The bearer is shared by the goroutines that attach subscribers: its APN
    is read twice, [a1] for the address of the P-GW (line 74) and [a2] for the IE. *)
Definition mme_ies (k : N) (a2 : bool) (sender : option ie2) (pgwf csid : ie2) : res (list (option ie2)) :=
  do imsi <- new_imsi g2 (known_imsi k); do msisdn <- new_msisdn g2 (sub_msisdn k); do mei <- new_mei g2 (sub_imei k);
  do u <- mme_uli k; do apn <- new_fqdn g2 71 (apn_of a2); do paa <- new_paa g2 (Some [0; 0; 0; 0]) 0; do ambr <- new_ambr g2 0 0;
  do ctx <- mme_context; do net <- new_serving_network g2 sub_mcc sub_mnc;
  Ok [imsi; msisdn; mei; u; Some (new_uint8 g2 82 6); Some (new_indication_octets g2 [0; 0; 0; 0; 0; 0; 0]);
      sender; Some pgwf; Some apn; Some (new_uint8 g2 128 0); Some (new_uint8 g2 99 1); paa; Some (new_uint8 g2 127 0); ambr;
      ctx; Some csid; net; Some (new_ue_time_zone g2 32400000000000 0)].
(** 74-125 handleAttach from getPGWIP on, and CreateSession (gtpv2/conn.go:595-611): the octets sent, the session and
    the TEIDs it is registered with; [t] is what NewSenderFTEID found, [lip] the local address, [n] the sequence number *)
Definition mme_ask (k : N) (a1 a2 : bool) (t : option N) (lip : bytes) (sgw : addr) (n : N) : res (bytes * session * list N) :=
  do sender <- allocated 10 t (Some lip);
  do pgwf <- with_instance (new_fteid g2 7 0 (Some (pgw_of a1)) None) 1;
  do csid <- made (new_fqcsid g2 (NodeIP lip) [1]);
  do ies <- mme_ies k a2 sender pgwf csid;
  let sc := create_script 10 ies in
  match snd sc with
  | Panics => Panic
  | Fails => Err EParse
  | Goes =>
      do r <- v2_new g2 d_CreateSessionRequest 0 0 ies;
      do w <- v2_marshal g2 d_CreateSessionRequest (Msg (h2_set_seq (m_hdr r) n) (m_fs r));
      Ok (fst w, session_of (fst sc) (Sess sgw false [] [] [] [] [] 0 [] [(default_name, 0)] []), teids_of (fst sc))
  end.
