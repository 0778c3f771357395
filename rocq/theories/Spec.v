(** Specifications that do not mention the model's functions. *)
From Verif Require Import Base V2IE V2IESpec.

(** ** Digit strings (Go strings are byte strings; '0' is 48, 'a' is 97) *)
Definition digit (c : N) : Prop := 48 <= c <= 57.
Definition lowhex (c : N) : Prop := 48 <= c <= 57 \/ 97 <= c <= 102.
Definition is_mcc (s : bytes) : Prop := len s = 3%nat /\ Forall digit s.
Definition is_mnc (s : bytes) : Prop := (len s = 2%nat \/ len s = 3%nat) /\ Forall digit s.

(** TS 24.008 10.5.1.3: three octets, two digits per octet, low half first, the third MNC
    digit in the high half of octet 2, filler 1111 there for a two-digit MNC *)
Definition plmn_octets (mcc mnc : bytes) : bytes :=
  match mcc, mnc with
  | [a; b; c], [x; y] => [(b - 48) * 16 + (a - 48); 15 * 16 + (c - 48); (y - 48) * 16 + (x - 48)]
  | [a; b; c], [x; y; z] => [(b - 48) * 16 + (a - 48); (z - 48) * 16 + (c - 48); (y - 48) * 16 + (x - 48)]
  | _, _ => []
  end.

(** TBCD: two digits per octet, low half first, an odd number is completed by 1111 *)
Definition hex_value (c : N) : N := if c <? 58 then c - 48 else c - 87.
Fixpoint tbcd (s : bytes) : bytes :=
  match s with
  | [] => []
  | [a] => [15 * 16 + hex_value a]
  | a :: b :: r => (hex_value b * 16 + hex_value a) :: tbcd r
  end.

(** RFC 1035 style labels as used by APN/FQDN IEs: each label preceded by its length *)
Definition dot : N := 46.
Fixpoint labels_to_string (ls : list bytes) : bytes :=
  match ls with
  | [] => []
  | [l] => l
  | l :: rest => l ++ dot :: labels_to_string rest
  end.
Definition labels_octets (ls : list bytes) : bytes := flat_map (fun l => N.of_nat (len l) :: l) ls.

(** ** Editing a list of IEs *)
Inductive edit := EAdd (ies : list (option ie2)) | ERemove (typ ins : N).
Definition edit_list (c : list ie2) (e : edit) : list ie2 :=
  match e with
  | EAdd ies => c ++ flat_map (fun o => match o with Some x => [x] | None => [] end) ies
  | ERemove typ ins => filter (fun x => negb ((i2_type x =? typ) && (i2_inst x mod 16 =? ins))) c
  end.
