(** GTPv2 messages: the descriptors of Msgs2Gen.v over the IE and header of gtpv2, and
    gtpv2/message/message.go.  No proofs here. *)
From Coq Require Import String.
From Verif Require Import Base V2IE V2Header MsgModel GenericMsg Msgs2Gen.
Open Scope string_scope.
Open Scope N_scope.
Open Scope list_scope.

(** gtpv2/message/header.go as seen by the messages *)
Definition ho2 : hdops hdr2 :=
  HdOps _ h2_mlen h2_payload h2_set_payload h2_set_len h2_set_length h2_mto h2_parse.

(** the NewHeader call of a constructor *)
Definition ctor2 (c : ctor) (teid seq : N) : hdr2 :=
  match c with
  | Ctor v p t mt has => new_hdr2 (new_hdr2_flags v p t) mt (if has then teid else 0) seq []
  | _ => new_hdr2 0 0 0 0 []
  end.

(** gtpv2/message/generic.go *)
Definition d_Generic2 : mdesc := d_Generic (Ctor 2 0 1 0 true) 4.

(** gtpv2/message/message.go:309-413 the switch of Parse *)
Definition lookup2 (name : string) : option mdesc :=
  find (fun d => String.eqb (md_name d) name) all_msgs2.
Definition struct2 (typ : N) : mdesc :=
  match find (fun r => fst r =? typ) parse_rows2 with
  | Some (_, n) => match lookup2 n with Some d => d | None => d_Generic2 end
  | None => d_Generic2
  end.

Section G.
Context (g : N -> bool).

(** gtpv2/ie as seen by the messages *)
Definition io2 : ieops ie2 := IeOps _ i2_type i2_instance (mlen2 g) (mto2 g) (multi2 g).
Definition msg2 : Type := @msg ie2 hdr2.

(** NewXxx(teid, seq, ies...) *)
Definition v2_new (d : mdesc) (teid seq : N) (ies : list (option ie2)) : res msg2 :=
  msg_new io2 ho2 d (ctor2 (md_ctor d) teid seq) ies.
(** MarshalLen, MarshalTo, Marshal, ParseXxx *)
Definition v2_len (d : mdesc) (m : msg2) : res nat := msg_mlen io2 ho2 d m.
Definition v2_mto (d : mdesc) (m : msg2) (b : bytes) : res (bytes * msg2) := msg_mto io2 ho2 d m b.
Definition v2_marshal (d : mdesc) (m : msg2) : res (bytes * msg2) := msg_marshal io2 ho2 d m.
Definition v2_parse_as (d : mdesc) (b : bytes) : res msg2 := msg_parse io2 ho2 d b.

(** gtpv2/message/message.go:309-413 Parse: the structure chosen and its content *)
Definition v2_parse (b : bytes) : res (mdesc * msg2) :=
  if (len b <? 2)%nat then Err EUnexpectedEOF else
  do t <- idx b 1;
  do m <- v2_parse_as (struct2 t) b;
  Ok (struct2 t, m).

(** gtpv2/message/generic.go:122-128 SetLength: no nil test, a nil element panics *)
Definition v2_generic_set_length (m : msg2) : res msg2 :=
  let h := m_hdr m in
  do n <- len_list io2 false (fget (m_fs m) "IEs");
  Ok (Msg (h2_set_len h (u16 (N.of_nat (h2_mlen h - len (h2_payload h) - 4 + n)))) (m_fs m)).
(** gtpv2/message/generic.go:20-33 NewGeneric *)
Definition v2_new_generic (mtype teid seq : N) (ies : list (option ie2)) : res msg2 :=
  v2_generic_set_length (Msg (new_hdr2 (new_hdr2_flags 2 0 1) mtype teid seq []) [("IEs", ies)]).
(** gtpv2/message/generic.go:36-46 NewGenericWithoutTEID *)
Definition v2_new_generic_noteid (mtype teid seq : N) (ies : list (option ie2)) : res msg2 :=
  Ok (Msg (new_hdr2 (new_hdr2_flags 2 0 0) mtype teid seq []) [("IEs", ies)]).
(** gtpv2/message/generic.go:141-144 AddIE *)
Definition v2_generic_add (m : msg2) (ies : list (option ie2)) : res msg2 :=
  v2_generic_set_length (Msg (m_hdr m) (fset (m_fs m) "IEs" (fget (m_fs m) "IEs" ++ ies))).
End G.
