(** What the example S-GW asks of the P-GW (ExSgw3.v): what C80 says of it. *)
From Coq Require Import String Lia.
From Verif Require Import Base BaseLemmas Maps MapsProofs Utils UtilsProofs V2IE V2IESpec V2IEProofs V2Header V2HeaderProofs MsgModel MsgSpec MsgProofs MsgProofs2 MsgProofs3 GenericMsg Msgs2Gen V2Msg V2MsgProofs MsgRepair
  V2Codec V2Codec2 V2Ctx CodecSpec V2CodecProofs V2AccProofs PropertiesCtx FieldSpec FieldProofs FieldProofs2 Properties52 PropertiesBase PropertiesBase2 Properties2Fix CPlane SessReq SessReqProofs PropertiesReq ExPgw PropertiesEx PropertiesEx2 PropertiesFwd ExSgw PropertiesSgw PropertiesFill ExSgw2 PropertiesSgw2 PropertiesSgw3 ExMme PropertiesJoin ExSgw3.
Open Scope string_scope.
Open Scope N_scope.
Open Scope list_scope.

(** the MME's request has all that the S-GW asks for: the address [a] of the P-GW, the subscriber and the TEID [mme] *)
Definition complete (m : msg2) (a imsi : bytes) (mme : N) : Prop :=
  (exists ip, reads m "PGWS5S8FTEIDC" acc_ip ip /\ to4 ip = Some a) /\ readable m "PGWS5S8FTEIDC" acc_teid /\ reads m "SenderFTEIDC" acc_teid mme /\
  reads m "IMSI" acc_imsi imsi /\ readable m "MSISDN" acc_msisdn /\ readable m "MEI" acc_mei /\ readable m "APN" (acc_fqdn g2 71) /\
  readable m "ServingNetwork" acc_mcc_mnc /\ readable m "RATType" (acc_u8 g2 82).
(** the fields of the MME's request that the P-GW is to get as they are *)
Definition passed_fields : list string :=
  ["IMSI"; "MSISDN"; "MEI"; "ServingNetwork"; "RATType"; "IndicationFlags"; "PGWS5S8FTEIDC"; "APN"; "SelectionMode"; "PDNType"; "PAA";
   "APNRestriction"; "AMBR"; "ULI"; "MMEFQCSID"].
(** the request for a session that the P-GW gets: what is passed on, what is the S-GW's own, and nothing else *)
Definition asks_for (m x : msg2) (ctx u : ie2) (tc tu : N) (i5c i5u : bytes) : Prop :=
  (forall f, In f passed_fields -> fget (m_fs x) f = fget (m_fs m) f) /\
  (exists s5c, fget (m_fs x) "SenderFTEIDC" = [Some s5c] /\ acc_fteid s5c = Ok (FTeid 128 6 tc (Some i5c) None)) /\
  fget (m_fs x) "BearerContextsToBeCreated" = [Some ctx] /\
  i2_children ctx = [new_ebi g2 5; u; IE2 80 22 0 (73 :: 255 :: repeat 0 20) []] /\ acc_fteid u = Ok (FTeid 128 4 tu (Some i5u) None) /\ i2_instance u = 2 /\
  (exists c, fget (m_fs x) "SGWFQCSID" = [Some c] /\ acc_fqcsid c = Ok (FqCsid 0 1 i5u [1])) /\
  forall f, ~ In f ("SenderFTEIDC" :: "BearerContextsToBeCreated" :: "SGWFQCSID" :: passed_fields) -> fget (m_fs x) f = [].

