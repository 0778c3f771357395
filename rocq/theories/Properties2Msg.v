(** Properties C01, C14-C16, C19-C21 for GTPv2 messages.  Specifications: MsgSpec.v
    (v2_octets, ts29274, present, typed_fields), V2IESpec.v. *)
From Coq Require Import String Permutation.
From Verif Require Import Base BaseLemmas V2IE V2IESpec V2IEProofs V2Header V2HeaderProofs
  MsgModel MsgProofs MsgProofs2 MsgProofs3 GenericMsg MsgSpec Msgs2Gen V2Msg V2MsgProofs PropertiesBase.
Open Scope string_scope.
Open Scope N_scope.
Open Scope list_scope.

(** Recovery, EBI and Cause IEs used in the examples *)
Definition x_recovery := IE2 3 1 0 [9] [].
Definition x_ebi := IE2 73 1 0 [5] [].
Definition x_cause := IE2 2 2 0 [16; 0] [].

(** computing witnesses *)
Ltac ok_val e k := let r := eval vm_compute in e in match r with Ok ?x => k x end.
Ltac ok_pair e k := let r := eval vm_compute in e in match r with Ok (?x, ?y) => k x y end.
Ltac done := repeat split; vm_compute; reflexivity.

(** ** C01 *)
Theorem C01_v2_parse_total : forall g b, bytes_ok b -> v2_parse g b <> Panic.
Proof. exact v2_parse_safe. Qed.
Theorem C01_v2_parse_as_total : forall g d b, bytes_ok b -> v2_parse_as g d b <> Panic.
Proof. exact v2_parse_as_safe. Qed.
Example C01_example : exists m, v2_parse dg [72; 36; 0; 13; 0; 0; 0; 1; 0; 0; 7; 0; 73; 0; 1; 0; 5] = Ok (d_DeleteSessionRequest, m)
  /\ fget (m_fs m) "LinkedEBI" = [Some x_ebi].
Proof.
  ok_pair (v2_parse dg [72; 36; 0; 13; 0; 0; 0; 1; 0; 0; 7; 0; 73; 0; 1; 0; 5]) ltac:(fun d m => exists m). done.
Qed.

(** ** C14 and C21 *)
Theorem C14_v2_size_and_layout : forall g d, In d sized2 ->
  exists order, Permutation order (map fst (md_fields d)) /\
  forall m, typed_fields d (m_fs m) -> Forall (wf2 g) (present (m_fs m)) -> h2_ok (m_hdr m) ->
  let h := m_hdr m in
  let l := ies_of order (m_fs m) in
  let n := (h2_base h + len (flat_map (wire2 g) l))%nat in
  Permutation l (present (m_fs m)) /\ v2_len g d m = Ok n /\
  exists w m1, v2_marshal g d m = Ok (w, m1) /\ len w = n /\ m_fs m1 = m_fs m /\
    (N.of_nat n < 65540 ->
     w = v2_octets (h2_flags h) (h2_type h) (h2_teid h) (h2_seq h) (h2_spare h) (flat_map (wire2 g) l)).
Proof.
  intros g d Hd. exists (order_of d). split.
  - destruct (sized2_parts d Hd) as (D1 & D2 & D3 & D4). apply order_perm; assumption.
  - intros m Hs Hw Hh. destruct (v2_marshal_layout g d m Hd Hs Hw Hh) as (A & B & w & m1 & C1 & C2 & C3 & _ & C4).
    cbv zeta. split; [exact A|]. split; [exact B|]. exists w, m1. auto.
Qed.
Theorem C21_v2_msg_marshal_to : forall g d m b n, In d sized2 -> typed_fields d (m_fs m) ->
  Forall (wf2 g) (present (m_fs m)) -> h2_ok (m_hdr m) -> v2_len g d m = Ok n -> (n <= len b)%nat ->
  exists w m1, v2_marshal g d m = Ok (w, m1) /\ len w = n /\ v2_mto g d m b = Ok (w ++ skipn n b, m1).
Proof.
  intros g d m b n Hd Hs Hw Hh Hn Hb.
  destruct (v2_marshal_layout g d m Hd Hs Hw Hh) as (A & B & w & m1 & C1 & C2 & C3 & C4 & _).
  rewrite B in Hn. injection Hn as <-. exists w, m1. split; [exact C1|]. split; [exact C2|]. apply C4, Hb.
Qed.
(** 44 structures plus Generic are covered; the two others are refuted below. *)
Example C14_covered : List.length sized2 = 43%nat /\ List.length all_msgs2 = 44%nat.
Proof. vm_compute. split; reflexivity. Qed.
Example C14_example : exists m, v2_new dg d_DeleteSessionRequest 1 7 [Some x_ebi; None; Some x_cause] = Ok m /\
  In d_DeleteSessionRequest sized2 /\ typed_fields d_DeleteSessionRequest (m_fs m) /\
  v2_marshal dg d_DeleteSessionRequest m =
   Ok ([72; 36; 0; 19; 0; 0; 0; 1; 0; 0; 7; 0; 2; 0; 2; 0; 16; 0; 73; 0; 1; 0; 5],
       Msg (Hdr2 72 36 19 1 7 0 [2; 0; 2; 0; 16; 0; 73; 0; 1; 0; 5]) (m_fs m)).
Proof.
  assert (Hin : In d_DeleteSessionRequest built2).
  { unfold built2. rewrite filter_In. split; [|vm_compute; reflexivity]. unfold all_msgs2. repeat first [left; reflexivity|right]. }
  destruct (v2_new_roundtrip dg d_DeleteSessionRequest 1 7 [Some x_ebi; None; Some x_cause] Hin) as (m & E & T & _);
    [reflexivity|reflexivity|repeat constructor|].
  exists m. split; [exact E|]. split.
  - unfold sized2. apply in_cons. rewrite filter_In. split; [apply built2_all, Hin|vm_compute; reflexivity].
  - split; [exact T|]. vm_compute in E. injection E as <-. vm_compute. reflexivity.
Qed.

(** CreateSessionRequest forgets to advance past the private extension
    (create-session-req.go): with an additional IE behind it the result is wrong. *)
Definition x_private := IE2 255 3 0 [1; 2; 3] [].
Definition x_unknown := IE2 250 2 0 [8; 9] [].
Theorem C14_CreateSessionRequest_refuted : exists m w m1,
  v2_new dg d_CreateSessionRequest 1 7 [Some x_private; Some x_unknown] = Ok m /\
  v2_marshal dg d_CreateSessionRequest m = Ok (w, m1) /\
  w = [72; 32; 0; 21; 0; 0; 0; 1; 0; 0; 7; 0; 250; 0; 2; 0; 8; 9; 3; 0; 0; 0; 0; 0; 0] /\
  v2_parse dg w = Err EUnexpectedEOF.
Proof.
  ok_val (v2_new dg d_CreateSessionRequest 1 7 [Some x_private; Some x_unknown]) ltac:(fun m => exists m;
  ok_pair (v2_marshal dg d_CreateSessionRequest m) ltac:(fun w m1 => exists w, m1)). done.
Qed.
(** ContextResponse.MarshalTo and MarshalLen skip three IEs that New stores
    (context-rsp.go). *)
Theorem C14_ContextResponse_refuted : exists f i m w m1, wf2 dg i /\
  v2_new dg d_ContextResponse 1 7 [Some i] = Ok m /\ fget (m_fs m) f = [Some i] /\
  v2_marshal dg d_ContextResponse m = Ok (w, m1) /\ len w = 12%nat.
Proof.
  exists "MonitoringEventExtensionInformation", (IE2 206 1 0 [7] []).
  ok_val (v2_new dg d_ContextResponse 1 7 [Some (IE2 206 1 0 [7] [])]) ltac:(fun m => exists m;
  ok_pair (v2_marshal dg d_ContextResponse m) ltac:(fun w m1 => exists w, m1)). split.
  - apply wf2_plain; try reflexivity. repeat constructor.
  - done.
Qed.

(** ** C15 *)
Theorem C15_v2_roundtrip : forall g d teid seq ies, In d built2 -> teid < 2 ^ 32 -> seq < 2 ^ 24 ->
  Forall (wf2 g) (nonnil ies) ->
  exists m, v2_new g d teid seq ies = Ok m /\ typed_fields d (m_fs m) /\
    (forall n, v2_len g d m = Ok n -> (12 <= n)%nat -> N.of_nat n < 65536 ->
     exists b m1, v2_marshal g d m = Ok (b, m1) /\ len b = n /\
       v2_parse g b = Ok (d, m1) /\ m_fs m1 = m_fs m /\
       h2_seq (m_hdr m1) = seq /\
       h2_get_teid (m_hdr m1) = (match md_ctor d with Ctor _ _ _ _ true => teid | _ => 0 end) /\
       ts29274 (h2_type (m_hdr m1)) = md_name d).
Proof. exact v2_new_roundtrip. Qed.
Theorem C15_v2_generic_roundtrip : forall g mt teid seq ies, mt < 256 -> teid < 2 ^ 32 -> seq < 2 ^ 24 ->
  Forall (wf2 g) ies -> N.of_nat (12 + len (flat_map (wire2 g) ies)) < 65536 ->
  exists m b m1, v2_new_generic g mt teid seq (map Some ies) = Ok m /\
    v2_marshal g d_Generic2 m = Ok (b, m1) /\
    b = v2_octets 72 mt teid seq 0 (flat_map (wire2 g) ies) /\
    v2_parse_as g d_Generic2 b = Ok m1 /\ fget (m_fs m1) "IEs" = map Some ies.
Proof. exact v2_generic_roundtrip. Qed.
(** 41 of the 44 structures are covered; all but the two Echo messages carry a TEID, so
    that 12 <= n always holds for them. *)
Example C15_covered : List.length built2 = 41%nat /\
  map md_name (filter (fun d => match md_ctor d with Ctor _ _ _ _ true => false | _ => true end) built2)
  = ["EchoRequest"; "EchoResponse"].
Proof. vm_compute. split; reflexivity. Qed.
Example C15_example : exists m b m1, v2_new dg d_EchoRequest 0 7 [Some x_recovery; None; Some x_unknown] = Ok m /\
  v2_marshal dg d_EchoRequest m = Ok (b, m1) /\ b = [64; 1; 0; 15; 0; 0; 7; 0; 3; 0; 1; 0; 9; 250; 0; 2; 0; 8; 9] /\
  v2_parse dg b = Ok (d_EchoRequest, m1).
Proof.
  ok_val (v2_new dg d_EchoRequest 0 7 [Some x_recovery; None; Some x_unknown]) ltac:(fun m => exists m;
  ok_pair (v2_marshal dg d_EchoRequest m) ltac:(fun w m1 => exists w, m1)). done.
Qed.
(** A message without TEID and without IEs is 8 bytes long, and Parse refuses it. *)
Theorem C15_empty_echo_refuted : exists m b m1, v2_new dg d_EchoRequest 0 7 [] = Ok m /\
  v2_marshal dg d_EchoRequest m = Ok (b, m1) /\ b = [64; 1; 0; 4; 0; 0; 7; 0] /\ v2_parse dg b = Err ETooShortToParse.
Proof.
  ok_val (v2_new dg d_EchoRequest 0 7 []) ltac:(fun m => exists m;
  ok_pair (v2_marshal dg d_EchoRequest m) ltac:(fun w m1 => exists w, m1)). done.
Qed.
(** CreateBearerResponse: New keeps an unexpected instance, the parser drops it. *)
Theorem C15_CreateBearerResponse_refuted : exists i m b m1 m2, wf2 dg i /\
  v2_new dg d_CreateBearerResponse 1 7 [Some i] = Ok m /\ v2_marshal dg d_CreateBearerResponse m = Ok (b, m1) /\
  v2_parse dg b = Ok (d_CreateBearerResponse, m2) /\ present (m_fs m) = [i] /\ present (m_fs m2) = [].
Proof.
  exists (IE2 132 1 5 [7] []). ok_val (v2_new dg d_CreateBearerResponse 1 7 [Some (IE2 132 1 5 [7] [])]) ltac:(fun m => exists m;
  ok_pair (v2_marshal dg d_CreateBearerResponse m) ltac:(fun w m1 => exists w, m1;
  ok_pair (v2_parse dg w) ltac:(fun d m2 => exists m2))). split.
  - apply wf2_plain; try reflexivity. repeat constructor.
  - done.
Qed.
(** ContextResponse: the MM context never reaches its field. *)
Theorem C15_ContextResponse_refuted : exists i m b m1 m2, wf2 dg i /\
  v2_new dg d_ContextResponse 1 7 [Some i] = Ok m /\ v2_marshal dg d_ContextResponse m = Ok (b, m1) /\
  v2_parse dg b = Ok (d_ContextResponse, m2) /\ present (m_fs m) = [i] /\ present (m_fs m2) = [].
Proof.
  exists (IE2 206 1 0 [7] []). ok_val (v2_new dg d_ContextResponse 1 7 [Some (IE2 206 1 0 [7] [])]) ltac:(fun m => exists m;
  ok_pair (v2_marshal dg d_ContextResponse m) ltac:(fun w m1 => exists w, m1;
  ok_pair (v2_parse dg w) ltac:(fun d m2 => exists m2))). split.
  - apply wf2_plain; try reflexivity. repeat constructor.
  - done.
Qed.
Theorem C15_ContextResponse_mm_context_refuted : exists m,
  v2_new dg d_ContextResponse 1 7 [Some (IE2 107 1 0 [7] [])] = Ok m /\ fget (m_fs m) "UEMMContext" = [] /\
  fget (m_fs m) "AdditionalIEs" = [Some (IE2 107 1 0 [7] [])].
Proof. ok_val (v2_new dg d_ContextResponse 1 7 [Some (IE2 107 1 0 [7] [])]) ltac:(fun m => exists m). done. Qed.

(** ** C16 *)
Theorem C16_v2_remarshal : forall g b d m, bytes_ok b -> N.of_nat (len b) < 65536 -> v2_parse g b = Ok (d, m) ->
  md_name d <> "ContextResponse" -> md_name d <> "CreateSessionRequest" ->
  (h2_has_teid (m_hdr m) = true \/ present (m_fs m) <> []) ->
  exists b' m1, v2_marshal g d m = Ok (b', m1) /\ v2_parse g b' = Ok (d, m1) /\ m_fs m1 = m_fs m /\
    (len b' <= len b)%nat /\
    h2_flags (m_hdr m1) = h2_flags (m_hdr m) /\ h2_type (m_hdr m1) = h2_type (m_hdr m) /\
    h2_teid (m_hdr m1) = h2_teid (m_hdr m) /\ h2_seq (m_hdr m1) = h2_seq (m_hdr m) /\
    h2_spare (m_hdr m1) = h2_spare (m_hdr m).
Proof.
  intros g b d m Hb Hl Hp N1 N2 Hne. apply (v2_remarshal g b d m); auto.
  unfold named, bad_size2, mem. cbn [existsb]. rewrite (String.eqb_sym "ContextResponse"), (String.eqb_sym "CreateSessionRequest").
  apply String.eqb_neq in N1. apply String.eqb_neq in N2.
  repeat first [rewrite N1|rewrite N2|rewrite (String.eqb_sym _ "ContextResponse")|rewrite (String.eqb_sym _ "CreateSessionRequest")]; reflexivity.
Qed.
(** trailing bytes beyond the Length field and IEs overwritten by later ones are not
    reproduced, everything else is *)
Example C16_example : exists m b' m1,
  v2_parse dg [72; 36; 0; 18; 0; 0; 0; 1; 0; 0; 7; 0; 73; 0; 1; 0; 5; 73; 0; 1; 0; 6; 99; 99] = Ok (d_DeleteSessionRequest, m) /\
  v2_marshal dg d_DeleteSessionRequest m = Ok (b', m1) /\ b' = [72; 36; 0; 13; 0; 0; 0; 1; 0; 0; 7; 0; 73; 0; 1; 0; 6].
Proof.
  ok_pair (v2_parse dg [72; 36; 0; 18; 0; 0; 0; 1; 0; 0; 7; 0; 73; 0; 1; 0; 5; 73; 0; 1; 0; 6; 99; 99])
    ltac:(fun d m => exists m; ok_pair (v2_marshal dg d_DeleteSessionRequest m) ltac:(fun w m1 => exists w, m1)). done.
Qed.
Theorem C16_CreateSessionRequest_refuted : exists b m b' m1, bytes_ok b /\
  v2_parse dg b = Ok (d_CreateSessionRequest, m) /\ v2_marshal dg d_CreateSessionRequest m = Ok (b', m1) /\
  v2_parse dg b' = Err EUnexpectedEOF.
Proof.
  exists [72; 32; 0; 21; 0; 0; 0; 1; 0; 0; 7; 0; 255; 0; 3; 0; 1; 2; 3; 250; 0; 2; 0; 8; 9].
  ok_pair (v2_parse dg [72; 32; 0; 21; 0; 0; 0; 1; 0; 0; 7; 0; 255; 0; 3; 0; 1; 2; 3; 250; 0; 2; 0; 8; 9])
    ltac:(fun d m => exists m; ok_pair (v2_marshal dg d_CreateSessionRequest m) ltac:(fun w m1 => exists w, m1)).
  split; [repeat constructor|]. done.
Qed.

(** ** C19 *)
Theorem C19_v2_dispatch : forall g b d m, bytes_ok b -> v2_parse g b = Ok (d, m) ->
  exists t, idx b 1 = Ok t /\ h2_type (m_hdr m) = t /\ md_name d = ts29274 t.
Proof. exact v2_dispatch. Qed.
(** the structures carry distinct names, so the name identifies the structure *)
Theorem C19_v2_names_distinct : forall d d', In d all_msgs2 -> In d' all_msgs2 -> md_name d = md_name d' -> d = d'.
Proof. intros d d'. apply (name_unique all_msgs2). apply nodups_NoDup, names2_nodup. Qed.
Example C19_example : md_name (struct2 32) = "CreateSessionRequest" /\ md_name (struct2 4) = "Generic".
Proof. vm_compute. split; reflexivity. Qed.

(** ** C20 *)
Theorem C20_v2_new_keeps : forall g d teid seq pre i post m, In d keeping2 ->
  v2_new g d teid seq (pre ++ Some i :: post) = Ok m ->
  (exists f, In f (map fst (md_fields d)) /\ In (Some i) (fget (m_fs m) f)) \/
  (exists f j, In (f, FSingle) (md_fields d) /\ In (Some j) post /\ i2_type j = i2_type i /\ fget (m_fs m) f = [Some j]).
Proof. exact v2_new_keeps. Qed.
Theorem C20_v2_parse_keeps : forall g b d m pre i post, In d keeping2 -> bytes_ok b -> v2_parse g b = Ok (d, m) ->
  h2_payload (m_hdr m) = flat_map (wire2 g) (pre ++ i :: post) -> Forall (wf2 g) (pre ++ i :: post) ->
  (exists f, In f (map fst (md_fields d)) /\ In (Some i) (fget (m_fs m) f)) \/
  (exists f j, In (f, FSingle) (md_fields d) /\ In j post /\ i2_type j = i2_type i /\ fget (m_fs m) f = [Some j]).
Proof. exact v2_parse_keeps. Qed.
Example C20_covered : List.length keeping2 = 33%nat.
Proof. vm_compute. reflexivity. Qed.
Example C20_example : exists m, In d_Generic2 keeping2 /\
  v2_new dg d_DeleteSessionRequest 1 7 [Some x_ebi; Some x_unknown; Some x_unknown] = Ok m /\
  fget (m_fs m) "LinkedEBI" = [Some x_ebi] /\ fget (m_fs m) "AdditionalIEs" = [Some x_unknown; Some x_unknown].
Proof.
  ok_val (v2_new dg d_DeleteSessionRequest 1 7 [Some x_ebi; Some x_unknown; Some x_unknown]) ltac:(fun m => exists m).
  split; [unfold keeping2; apply in_eq|]. done.
Qed.
(** The other messages really drop IEs: a message built from, or received with, that IE
    alone holds nothing. *)
Definition dropped_ie (t n : N) : ie2 :=
  if dg t then IE2 t 5 n [73; 0; 1; 0; 5] [x_ebi] else IE2 t 1 n [7] [].
Definition drops_by_new (d : mdesc) (t n : N) : bool :=
  match v2_new dg d 1 7 [Some (dropped_ie t n)] with
  | Ok m => match present (m_fs m) with [] => true | _ => false end | _ => false end.
Definition drops_by_parse (d : mdesc) (t n : N) : bool :=
  match md_ctor d with
  | Ctor _ _ _ mt _ =>
      match v2_parse dg (v2_octets 72 mt 1 7 0 (wire2 dg (dropped_ie t n))) with
      | Ok (d', m) => String.eqb (md_name d) (md_name d') && match present (m_fs m) with [] => true | _ => false end
      | _ => false end
  | _ => false
  end.
Definition drop_rows : list (mdesc * N * N) :=
  [(d_CreateBearerResponse, 74, 2); (d_DeleteBearerCommand, 180, 2); (d_DeleteBearerFailureIndication, 180, 2);
   (d_ModifyAccessBearersRequest, 93, 2); (d_ModifyAccessBearersResponse, 93, 2); (d_ModifyBearerCommand, 180, 3);
   (d_ModifyBearerFailureIndication, 180, 2); (d_ResumeAcknowledge, 73, 0); (d_ResumeNotification, 82, 0);
   (d_UpdateBearerResponse, 74, 2)].
Theorem C20_dropping_messages_refuted :
  forallb (fun r => match r with (d, t, n) => drops_by_new d t n && drops_by_parse d t n end) drop_rows = true
  /\ drops_by_new d_CreateSessionRequest 169 2 = true.
Proof. vm_compute. split; reflexivity. Qed.

Print Assumptions C01_v2_parse_total.
Print Assumptions C01_v2_parse_as_total.
Print Assumptions C14_v2_size_and_layout.
Print Assumptions C21_v2_msg_marshal_to.
Print Assumptions C15_v2_roundtrip.
Print Assumptions C15_v2_generic_roundtrip.
Print Assumptions C16_v2_remarshal.
Print Assumptions C19_v2_dispatch.
Print Assumptions C19_v2_names_distinct.
Print Assumptions C20_v2_new_keeps.
Print Assumptions C20_v2_parse_keeps.
