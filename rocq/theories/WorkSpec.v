(** How many IEs there are in a parsed IE, and how deep they are nested. *)
From Coq Require Import String.
From Verif Require Import Base V2IE TvIE MsgModel.

(** an IE and everything inside it *)
Fixpoint ie_count (i : ie2) : nat :=
  match i with IE2 _ _ _ _ c => (1 + list_sum (map ie_count c))%nat end.
(** an IE without members has depth one *)
Fixpoint ie_depth (i : ie2) : nat :=
  match i with IE2 _ _ _ _ c => (1 + list_max (map ie_depth c))%nat end.

(** all the IEs held by the fields of a message, each counted with [w] *)
Definition held {I H : Type} (w : I -> nat) (m : @msg I H) : nat :=
  list_sum (map (fun f => list_sum (map (fun o => match o with Some i => w i | None => 0%nat end) (snd f))) (m_fs m)).

(** A BearerContext that holds a BearerContext that holds ... [d] of them in all: each is four
    octets of header around the next. *)
Fixpoint nest (d : nat) : bytes :=
  match d with
  | O => []
  | S d' => 93 :: N.of_nat (4 * d') / 256 :: N.of_nat (4 * d') mod 256 :: 0 :: nest d'
  end.
(** an Echo Request (type 1, without TEID) around it *)
Definition nest_msg (d : nat) : bytes :=
  64 :: 1 :: N.of_nat (4 * d + 4) / 256 :: N.of_nat (4 * d + 4) mod 256 :: 0 :: 0 :: 1 :: 0 :: nest d.
