(** What marked writing owes its user, over histories (newest event first). *)
From Verif Require Import Base Maps UDscp.
Open Scope N_scope.
Open Scope list_scope.

(** the datagrams a call put on the wire *)
Fixpoint wire_of (id : N) (l : list event) : list (N * addr * bytes) :=
  match l with
  | [] => []
  | EvWire i m a b :: r => if i =? id then (m, a, b) :: wire_of id r else wire_of id r
  | _ :: r => wire_of id r
  end.
(** the results a call returned *)
Fixpoint rets_of (id : N) (l : list event) : list bool :=
  match l with
  | [] => []
  | EvRet i r :: l => if i =? id then r :: rets_of id l else rets_of id l
  | _ :: r => rets_of id r
  end.
(** every attempt to set the option back succeeded *)
Definition all_back (l : list event) : Prop := forall id, ~ In (EvBack id false) l.
