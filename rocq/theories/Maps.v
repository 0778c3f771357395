(** Go maps and sync.Maps as association lists, keyed by an integer ([amap]) or by a string
    ([smap]).  No proofs here. *)
From Verif Require Import Base.
Open Scope N_scope.
Open Scope list_scope.

(** a Go map (or sync.Map) keyed by an integer *)
Definition amap (A : Type) : Type := list (N * A).
Fixpoint aget {A} (m : amap A) (k : N) : option A :=
  match m with [] => None | (x, v) :: r => if x =? k then Some v else aget r k end.
Definition adel {A} (m : amap A) (k : N) : amap A := filter (fun p => negb (fst p =? k)) m.
Definition aput {A} (m : amap A) (k : N) (v : A) : amap A := (k, v) :: adel m k.

(** a sync.Map keyed by a string *)
Definition smap (A : Type) : Type := list (bytes * A).
Fixpoint sget {A} (m : smap A) (k : bytes) : option A :=
  match m with [] => None | (x, v) :: r => if bytes_eqb x k then Some v else sget r k end.
Definition sdel {A} (m : smap A) (k : bytes) : smap A := filter (fun p => negb (bytes_eqb (fst p) k)) m.
Definition sput {A} (m : smap A) (k : bytes) (v : A) : smap A := (k, v) :: sdel m k.

Definition upd {A} (f : N -> A) (k : N) (v : A) : N -> A := fun x => if x =? k then v else f x.
