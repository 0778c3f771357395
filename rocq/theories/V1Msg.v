(** GTPv1 messages: the descriptors of Msgs1Gen.v over the IE and header of gtpv1, T-PDU,
    Generic and gtpv1/message/message.go.  No proofs here. *)
From Coq Require Import String.
From Verif Require Import Base TvIE V1Header MsgModel GenericMsg Msgs1Gen.
Open Scope string_scope.
Open Scope N_scope.
Open Scope list_scope.

(** gtpv1/ie and gtpv1/message/header.go as seen by the messages; IEs have no instance *)
Definition io1 : ieops ie1 := IeOps _ i1_type (fun _ => 0) (mlen1 tv1 xl1) (mto1 tv1 xl1) (multi1 tv1 xl1).
Definition ho1 : hdops hdr1 :=
  HdOps _ h1_mlen h1_payload h1_set_payload h1_set_len h1_set_length h1_mto h1_parse.
Definition msg1 : Type := @msg ie1 hdr1.

(** the NewHeader call of a constructor; the flags are those of Ctor1: does the
    constructor take a TEID, a sequence number *)
Definition ctor1 (c : ctor) (teid seq : N) : hdr1 :=
  match c with
  | Ctor1 flags mt t s => new_hdr1 flags mt (if t then teid else 0) (if s then seq else 0) []
  | _ => new_hdr1 0 0 0 0 []
  end.

(** gtpv1/message/generic.go; the type given to NewGeneric is arbitrary *)
Definition d_Generic1 : mdesc := d_Generic (Ctor1 50 0 true true) 8.

Definition v1_new (d : mdesc) (teid seq : N) (ies : list (option ie1)) : res msg1 :=
  msg_new io1 ho1 d (ctor1 (md_ctor d) teid seq) ies.
Definition v1_len (d : mdesc) (m : msg1) : res nat := msg_mlen io1 ho1 d m.
Definition v1_mto (d : mdesc) (m : msg1) (b : bytes) : res (bytes * msg1) := msg_mto io1 ho1 d m b.
Definition v1_marshal (d : mdesc) (m : msg1) : res (bytes * msg1) := msg_marshal io1 ho1 d m.
Definition v1_parse_as (d : mdesc) (b : bytes) : res msg1 := msg_parse io1 ho1 d b.

(** gtpv1/message/generic.go:21-29 NewGeneric: nil elements are kept, MarshalLen skips them *)
Definition v1_new_generic (mtype teid seq : N) (ies : list (option ie1)) : res msg1 :=
  msg_set_length io1 ho1 d_Generic1 (Msg (new_hdr1 50 mtype teid seq []) [("IEs", ies)]).
(** gtpv1/message/generic.go:120-123 AddIE *)
Definition v1_generic_add (m : msg1) (ies : list (option ie1)) : res msg1 :=
  msg_set_length io1 ho1 d_Generic1 (Msg (m_hdr m) (fset (m_fs m) "IEs" (fget (m_fs m) "IEs" ++ ies))).

(** gtpv1/message/t-pdu.go: a TPDU is its header.  13-18, 21-26, 29-34 the constructors *)
Definition new_tpdu1 (teid : N) (p : bytes) : hdr1 := h1_set_length (new_hdr1 48 255 teid 0 p).
Definition new_tpdu1_seq (teid seq : N) (p : bytes) : hdr1 := h1_set_length (new_hdr1 50 255 teid seq p).
Definition new_tpdu1_exts (teid : N) (p : bytes) (es : list ext1) : hdr1 :=
  h1_set_length (new_hdr1_exts 52 255 teid 0 p es).
(** t-pdu.go:47-54 MarshalTo; the receiver's Length is updated *)
Definition tpdu1_mto (h : hdr1) (b : bytes) : res (bytes * hdr1) :=
  if (len b <? h1_mlen h)%nat then Err ETooShortToMarshal else
  let h := h1_set_length h in
  do b' <- h1_mto h b; Ok (b', h).
(** t-pdu.go:37-44 Marshal *)
Definition tpdu1_marshal (h : hdr1) : res (bytes * hdr1) := tpdu1_mto h (zeros (h1_mlen h)).
(** t-pdu.go:57-74 ParseTPDU *)
Definition tpdu1_parse (b : bytes) : res hdr1 := h1_parse b.
(** gtpv1/utils.go:10-22 Encapsulate, EncapsulateWithExtensionHeader *)
Definition encapsulate1 (teid : N) (p : bytes) : hdr1 := new_tpdu1 teid p.
Definition encapsulate1_exts (teid : N) (p : bytes) (es : list ext1) : hdr1 := new_tpdu1_exts teid p es.
(** gtpv1/utils.go:24-35 Decapsulate *)
Definition decapsulate1 (b : bytes) : res (N * bytes) :=
  do h <- h1_parse b;
  if h1_type h =? 255 then Ok (h1_teid h, h1_payload h) else Err EInvalidMessageType.
(** gtpv1/utils.go:37-51 DecapsulateWithExtensionHeader *)
Definition decapsulate1_exts (b : bytes) : res (N * bytes * list ext1) :=
  do h <- h1_parse b;
  if h1_type h =? 255 then Ok (h1_teid h, h1_payload h, h1_exts h) else Err EInvalidMessageType.

(** a message as Parse returns it *)
Inductive pdu1 : Type := P1 (d : mdesc) (m : msg1) | P1_tpdu (h : hdr1).

Definition lookup1 (name : string) : option mdesc :=
  find (fun d => String.eqb (md_name d) name) all_msgs1.
(** gtpv1/message/message.go:124-208 the switch of Parse; None is a T-PDU *)
Definition struct1 (typ : N) : option mdesc :=
  match find (fun r => fst r =? typ) parse_rows1 with
  | Some (_, n) => if String.eqb n "TPDU" then None else
                   match lookup1 n with Some d => Some d | None => Some d_Generic1 end
  | None => Some d_Generic1
  end.
(** gtpv1/message/message.go:117-215 Parse *)
Definition v1_parse (b : bytes) : res pdu1 :=
  if (len b <? 2)%nat then Err ETooShortToParse else
  do t <- idx b 1;
  match struct1 t with
  | Some d => do m <- v1_parse_as d b; Ok (P1 d m)
  | None => do h <- tpdu1_parse b; Ok (P1_tpdu h)
  end.
