(** What can be read off the printed form of an IE or message.  Independent of the printing
    functions. *)
From Coq Require Import String.
From Verif Require Import Base V2IE TvIE V2Header MsgModel.
Open Scope string_scope.
Open Scope N_scope.
Open Scope list_scope.

(** the same type, length, instance and payload *)
Definition same_values (i j : ie2) : Prop :=
  i2_type i = i2_type j /\ i2_length i = i2_length j /\ i2_inst i mod 16 = i2_inst j mod 16 /\ i2_payload i = i2_payload j.
(** the same values or, for two grouped IEs, members with the same values, one by one *)
Definition same_shown (g : N -> bool) (i j : ie2) : Prop :=
  if g (i2_type i) then g (i2_type j) = true /\ Forall2 same_values (i2_children i) (i2_children j)
  else g (i2_type j) = false /\ same_values i j.
Definition same_opt {I} (R : I -> I -> Prop) (x y : option I) : Prop :=
  match x, y with None, None => True | Some i, Some j => R i j | _, _ => False end.

(** IE types whose constants have another name than the IEs of the type print, GTPv2 *)
Definition misnamed2 : list (string * string) := [("PLMNID", "Undefined"); ("TargetIdentification", "PLMNID")].
