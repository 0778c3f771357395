(** Which information elements the GTPv2 messages drop (property C20): for a message, the
    types of which only some instances are kept, and what happens to all other types. *)
From Coq Require Import String.
From Verif Require Import Base.
Open Scope string_scope.
Open Scope N_scope.
Open Scope list_scope.

Definition all_instances : list N := [0; 1; 2; 3; 4; 5; 6; 7; 8; 9; 10; 11; 12; 13; 14; 15].
(** rows (type, instances kept); [dflt]: are the other types dropped? *)
Fixpoint dropped_row (rows : list (N * list N)) (dflt : bool) (t n : N) : bool :=
  match rows with
  | [] => dflt
  | (x, kept) :: r => if x =? t then negb (existsb (N.eqb n) kept) else dropped_row r dflt t n
  end.
Definition named_rows (l : list (string * list (N * list N))) (s : string) : list (N * list N) :=
  match find (fun p => String.eqb (fst p) s) l with Some p => snd p | None => [] end.
(** the two Resume messages keep only what they know *)
Definition drops_default (s : string) : bool := (String.eqb s "ResumeAcknowledge" || String.eqb s "ResumeNotification")%bool.
Definition rows_common : list (string * list (N * list N)) :=
  [("DeleteBearerCommand", [(180, [0; 1])]); ("DeleteBearerFailureIndication", [(180, [0; 1])]);
   ("ModifyAccessBearersRequest", [(93, [0; 1])]); ("ModifyAccessBearersResponse", [(93, [0; 1])]);
   ("ModifyBearerCommand", [(180, [0; 1; 2])]); ("ModifyBearerFailureIndication", [(180, [0; 1])]);
   ("UpdateBearerResponse", [(74, [0; 1])]);
   ("ResumeAcknowledge", [(2, all_instances); (255, all_instances)]);
   ("ResumeNotification", [(1, all_instances); (73, all_instances); (87, all_instances); (135, all_instances); (255, all_instances)])].
(** what the constructor of message s drops *)
Definition rows_new : string -> list (N * list N) := named_rows
  (("CreateBearerResponse", [(74, [0; 1])]) :: ("CreateSessionRequest", [(169, [0; 1])]) :: rows_common).
(** what its parser drops *)
Definition rows_parse : string -> list (N * list N) := named_rows
  (("CreateBearerResponse", [(74, [0; 1]); (126, [0; 1]); (132, [0; 1; 2; 3]); (169, [0; 1]); (179, [1]); (180, [0; 1; 2])]) :: rows_common).
Definition new_drops (s : string) (t n : N) : bool := dropped_row (rows_new s) (drops_default s) t n.
Definition parse_drops (s : string) (t n : N) : bool := dropped_row (rows_parse s) (drops_default s) t n.
