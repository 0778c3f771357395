(** Which information elements the GTPv1 messages drop (property C20): the third and every
    later charging gateway address (type 251) of two messages, and nothing else. *)
From Coq Require Import String.
From Verif Require Import Base TvIE.
Open Scope string_scope.
Open Scope N_scope.
Open Scope list_scope.

Definition gateways (l : list ie1) : list ie1 := filter (fun i => i1_type i =? 251) l.
(** two addresses of a charging gateway are already among the IEs before i, and i is another *)
Definition third_gateway (before : list ie1) (i : ie1) : bool :=
  ((i1_type i =? 251) && (2 <=? length (gateways before))%nat)%bool.
(** the IEs of a call's argument list; a nil is not an IE *)
Definition given (l : list (option ie1)) : list ie1 :=
  flat_map (fun o => match o with Some i => [i] | None => [] end) l.
(** the messages whose constructor, and whose parser, drop it *)
Definition new_drops1 (s : string) (before : list ie1) (i : ie1) : bool :=
  ((String.eqb s "CreatePDPContextResponse" || String.eqb s "UpdatePDPContextResponse") && third_gateway before i)%bool.
Definition parse_drops1 (s : string) (before : list ie1) (i : ie1) : bool :=
  (String.eqb s "UpdatePDPContextResponse" && third_gateway before i)%bool.
