(** What a GTPv2 IE looks like on the wire (TS 29.274 clause 8.2.1), written
    without reference to the model's marshalling functions. *)
From Verif Require Import Base V2IE.

Section S.
Context (g : N -> bool).

(** type octet, two-octet length, spare/instance octet, then the value; the value
    of a grouped IE is the sequence of its members. *)
Fixpoint wire2 (i : ie2) : bytes :=
  match i with
  | IE2 t l n p c => [t] ++ enc16 l ++ [n] ++ (if g t then flat_map wire2 c else p)
  end.

(** Consistent IE: octets are octets, the length field counts the value, the stored
    value of a grouped IE is that of its members, members are consistent. *)
Inductive wf2 : ie2 -> Prop :=
| wf2_plain t l n p :
    g t = false -> t < 256 -> n < 256 -> bytes_ok p -> l < 65536 -> N.to_nat l = len p ->
    wf2 (IE2 t l n p [])
| wf2_grouped t l n p c :
    g t = true -> t < 256 -> n < 256 -> l < 65536 -> N.to_nat l = len p ->
    p = flat_map wire2 c -> Forall wf2 c -> wf2 (IE2 t l n p c).
End S.
