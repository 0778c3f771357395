(** What a GTPv1 / GTPv0 IE looks like on the wire (TS 29.060 clause 7.7, TS 09.60
    clause 7.9), written without reference to the model's marshalling functions:
    types below 128 are TV (type octet, value of a fixed size), the others TLV (type
    octet, two-octet length, value); [xl] are the types with a one-octet length. *)
From Verif Require Import Base TvIE.

Section S.
Context (tv : N -> option nat) (xl : N -> bool).

Definition wire1 (i : ie1) : bytes :=
  [i1_type i] ++
  (if i1_type i <? 128 then [] else if xl (i1_type i) then [i1_length i] else enc16 (i1_length i)) ++
  i1_payload i.

(** Consistent IE: a TV has a known non-zero size and a value of that size; a TLV has
    the length of its value in its length field. *)
Inductive wf1 : ie1 -> Prop :=
| wf1_tv t p n : t < 128 -> tv t = Some n -> (1 <= n)%nat -> len p = n -> bytes_ok p -> wf1 (IE1 t 0 p)
| wf1_xl t p l : 128 <= t -> t < 256 -> xl t = true -> l < 256 -> N.to_nat l = len p -> bytes_ok p ->
    wf1 (IE1 t l p)
| wf1_tlv t p l : 128 <= t -> t < 256 -> xl t = false -> l < 65536 -> N.to_nat l = len p -> bytes_ok p ->
    wf1 (IE1 t l p).

(** What the parsers also produce: a lone type octet below 128 that the table does not
    know, or knows with size zero. *)
Definition bare1 (i : ie1) : Prop :=
  i1_type i < 128 /\ i1_length i = 0 /\ i1_payload i = [] /\
  (tv (i1_type i) = None \/ tv (i1_type i) = Some 0%nat).
End S.
