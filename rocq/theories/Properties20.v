(** Property C20 for every GTPv2 message: which information elements are kept and which are
    dropped.  Specification: DropSpec.v (new_drops, parse_drops). *)
From Coq Require Import String Permutation.
From Verif Require Import Base BaseLemmas V2IE V2IESpec V2IEProofs V2Header V2HeaderProofs
  MsgModel MsgProofs MsgProofs2 MsgProofs3 GenericMsg MsgSpec Msgs2Gen V2Msg V2MsgProofs MsgRepair DropSpec MsgDrop PropertiesBase Properties2Msg.
Open Scope string_scope.
Open Scope N_scope.
Open Scope list_scope.

(** an IE that is not listed is found in a field, or a later IE of its type took its place *)
Theorem C20_v2_new_keeps_all : forall g d teid seq pre i post m, In d (d_Generic2 :: all_msgs2) ->
  new_drops (md_name d) (i2_type i) (i2_instance i) = false ->
  v2_new g d teid seq (pre ++ Some i :: post) = Ok m ->
  (exists f, In f (map fst (md_fields d)) /\ In (Some i) (fget (m_fs m) f)) \/
  (exists f j, In (f, FSingle) (md_fields d) /\ In (Some j) post /\ i2_type j = i2_type i /\ fget (m_fs m) f = [Some j]).
Proof. exact new_keeps_all. Qed.
(** a listed IE makes no difference to the message *)
Theorem C20_v2_new_drops_all : forall g d teid seq pre i post, In d (d_Generic2 :: all_msgs2) ->
  new_drops (md_name d) (i2_type i) (i2_instance i) = true ->
  v2_new g d teid seq (pre ++ Some i :: post) = v2_new g d teid seq (pre ++ post).
Proof. exact new_drops_all. Qed.
(** the same of a received message *)
Theorem C20_v2_parse_keeps_all : forall g b d m pre i post, v2_parse g b = Ok (d, m) ->
  h2_payload (m_hdr m) = flat_map (wire2 g) (pre ++ i :: post) -> Forall (wf2 g) (pre ++ i :: post) ->
  parse_drops (md_name d) (i2_type i) (i2_instance i) = false ->
  (exists f, In f (map fst (md_fields d)) /\ In (Some i) (fget (m_fs m) f)) \/
  (exists f j, In (f, FSingle) (md_fields d) /\ In j post /\ i2_type j = i2_type i /\ fget (m_fs m) f = [Some j]).
Proof. exact parse_keeps_all. Qed.
Theorem C20_v2_parse_drops_all : forall g b d m b' m' pre i post, v2_parse g b = Ok (d, m) ->
  h2_payload (m_hdr m) = flat_map (wire2 g) (pre ++ i :: post) -> Forall (wf2 g) (pre ++ i :: post) ->
  parse_drops (md_name d) (i2_type i) (i2_instance i) = true ->
  v2_parse g b' = Ok (d, m') -> h2_payload (m_hdr m') = flat_map (wire2 g) (pre ++ post) -> m_fs m = m_fs m'.
Proof. exact parse_drops_all. Qed.

(** a Modify Bearer Command with four overload control IEs loses the one of instance 3; a
    Context Response keeps the MM context and the policy index it does not know *)
Definition x_overload (n : N) : ie2 := IE2 180 5 n [73; 0; 1; 0; 5] [x_ebi].
Example C20_new_example : exists m,
  v2_new dg d_ModifyBearerCommand 1 7 [Some (x_overload 0); Some (x_overload 3); Some (x_overload 2); Some x_unknown] = Ok m /\
  new_drops "ModifyBearerCommand" 180 3 = true /\ new_drops "ModifyBearerCommand" 180 2 = false /\ new_drops "ModifyBearerCommand" 250 0 = false /\
  present (m_fs m) = [x_overload 0; x_overload 2; x_unknown].
Proof.
  ok_val (v2_new dg d_ModifyBearerCommand 1 7 [Some (x_overload 0); Some (x_overload 3); Some (x_overload 2); Some x_unknown]) ltac:(fun m => exists m). done.
Qed.
Example C20_parse_example : exists m m',
  v2_parse dg [72; 165; 0; 18; 0; 0; 0; 1; 0; 0; 7; 0; 2; 0; 2; 0; 16; 0; 180; 0; 0; 3] = Ok (d_ResumeAcknowledge, m) /\
  v2_parse dg [72; 165; 0; 14; 0; 0; 0; 1; 0; 0; 7; 0; 2; 0; 2; 0; 16; 0] = Ok (d_ResumeAcknowledge, m') /\
  parse_drops "ResumeAcknowledge" 180 3 = true /\ parse_drops "ResumeAcknowledge" 2 0 = false /\
  m_fs m = m_fs m' /\ present (m_fs m) = [x_cause].
Proof.
  ok_pair (v2_parse dg [72; 165; 0; 18; 0; 0; 0; 1; 0; 0; 7; 0; 2; 0; 2; 0; 16; 0; 180; 0; 0; 3]) ltac:(fun d m => exists m).
  ok_pair (v2_parse dg [72; 165; 0; 14; 0; 0; 0; 1; 0; 0; 7; 0; 2; 0; 2; 0; 16; 0]) ltac:(fun d m => exists m). done.
Qed.

Print Assumptions C20_v2_new_keeps_all.
Print Assumptions C20_v2_new_drops_all.
Print Assumptions C20_v2_parse_keeps_all.
Print Assumptions C20_v2_parse_drops_all.
