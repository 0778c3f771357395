(** C54: which memory an IE occupies. *)
From Verif Require Import Base V2IE V2IESpec V2Heap.

(** the slices an IE and its members read *)
Fixpoint slices (i : iem) : list slc := let 'IEM _ _ _ p c := i in p :: flat_map slices c.
(** an IE of the heap: its slices are parts of existing arrays *)
Definition inside (h : heap) (i : iem) : Prop :=
  Forall (fun s => (s_arr s < List.length h)%nat /\ (s_off s + s_len s <= len (arr h (s_arr s)))%nat) (slices i).
(** an IE that reads nothing of positions [lo] to [hi] of array [a] *)
Definition apart (a lo hi : nat) (i : iem) : Prop :=
  Forall (fun s => s_arr s <> a \/ (s_off s + s_len s <= lo)%nat \/ (hi <= s_off s)%nat) (slices i).
Definition elsewhere (a : nat) (i : iem) : Prop := Forall (fun s => s_arr s <> a) (slices i).
(** where a payload ends *)
Definition ends_at (i : iem) : nat := (s_off (im_payload i) + s_len (im_payload i))%nat.
(** octets that adding IEs appends *)
Definition octets_of (g : N -> bool) (h : heap) (ies : list (option iem)) : bytes :=
  flat_map (fun x => match x with Some x => wire2 g (view h x) | None => [] end) ies.
