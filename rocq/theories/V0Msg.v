(** GTPv0 messages: the descriptors of Msgs0Gen.v over the IE and header of gtpv0, T-PDU,
    Generic and gtpv0/message/message.go.  No proofs here. *)
From Coq Require Import String.
From Verif Require Import Base TvIE V0Header MsgModel GenericMsg Msgs0Gen.
Open Scope string_scope.
Open Scope N_scope.
Open Scope list_scope.

(** gtpv0/ie and gtpv0/message/header.go as seen by the messages *)
Definition io0 : ieops ie1 := IeOps _ i1_type (fun _ => 0) (mlen1 tv0 xl0) (mto1 tv0 xl0) (multi1 tv0 xl0).
Definition ho0 : hdops hdr0 :=
  HdOps _ h0_mlen h0_payload h0_set_payload h0_set_len h0_set_length h0_mto h0_parse.
Definition msg0 : Type := @msg ie1 hdr0.

(** the NewHeader call of a constructor *)
Definition ctor0 (c : ctor) (seq label tid : N) : hdr0 :=
  match c with
  | Ctor0 flags mt => new_hdr0 flags mt seq label tid []
  | _ => new_hdr0 0 0 0 0 0 []
  end.

(** gtpv0/message/generic.go *)
Definition d_Generic0 : mdesc := d_Generic (Ctor0 30 0) 20.

Definition v0_new (d : mdesc) (seq label tid : N) (ies : list (option ie1)) : res msg0 :=
  msg_new io0 ho0 d (ctor0 (md_ctor d) seq label tid) ies.
Definition v0_len (d : mdesc) (m : msg0) : res nat := msg_mlen io0 ho0 d m.
Definition v0_mto (d : mdesc) (m : msg0) (b : bytes) : res (bytes * msg0) := msg_mto io0 ho0 d m b.
Definition v0_marshal (d : mdesc) (m : msg0) : res (bytes * msg0) := msg_marshal io0 ho0 d m.
Definition v0_parse_as (d : mdesc) (b : bytes) : res msg0 := msg_parse io0 ho0 d b.
(** gtpv0/message/generic.go:20-34 NewGeneric *)
Definition v0_new_generic (mtype seq label tid : N) (ies : list (option ie1)) : res msg0 :=
  msg_new io0 ho0 d_Generic0 (new_hdr0 30 mtype seq label tid []) ies.

(** gtpv0/message/t-pdu.go: a TPDU is its header.  13-21 NewTPDU; 34-42 MarshalTo (t.Payload
    is the embedded header's, so the assignment in line 39 does nothing); 71-73 SetLength *)
Definition new_tpdu0 (seq label tid : N) (p : bytes) : hdr0 :=
  h0_set_len (new_hdr0 30 255 seq label tid p) (u16 (N.of_nat (len p))).
Definition tpdu0_mto (h : hdr0) (b : bytes) : res (bytes * hdr0) :=
  if (len b <? h0_mlen h)%nat then Err ETooShortToMarshal else
  let h := h0_set_length h in
  do b' <- h0_mto h b; Ok (b', h).
Definition tpdu0_marshal (h : hdr0) : res (bytes * hdr0) := tpdu0_mto h (zeros (h0_mlen h)).
Definition tpdu0_parse (b : bytes) : res hdr0 := h0_parse b.
(** gtpv0/message/message.go:201-211 Decapsulate; nil for anything but a T-PDU *)
Definition decapsulate0 (b : bytes) : res (option bytes) :=
  do h <- h0_parse b; Ok (if h0_type h =? 255 then Some (h0_payload h) else None).

Inductive pdu0 : Type := P0 (d : mdesc) (m : msg0) | P0_tpdu (h : hdr0).

Definition lookup0 (name : string) : option mdesc :=
  find (fun d => String.eqb (md_name d) name) all_msgs0.
(** gtpv0/message/message.go:113-191 the switch of Parse; None is a T-PDU *)
Definition struct0 (typ : N) : option mdesc :=
  match find (fun r => fst r =? typ) parse_rows0 with
  | Some (_, n) => if String.eqb n "TPDU" then None else
                   match lookup0 n with Some d => Some d | None => Some d_Generic0 end
  | None => Some d_Generic0
  end.
(** gtpv0/message/message.go:106-198 Parse *)
Definition v0_parse (b : bytes) : res pdu0 :=
  if (len b <? 2)%nat then Err ETooShortToParse else
  do t <- idx b 1;
  match struct0 t with
  | Some d => do m <- v0_parse_as d b; Ok (P0 d m)
  | None => do h <- tpdu0_parse b; Ok (P0_tpdu h)
  end.
