(** Bytes, outcomes and checked slice operations: the Go run-time semantics the
    rest of the model is written in.  No proofs here. *)
From Coq Require Export List NArith ZArith Bool Arith.
From Coq Require Import Ascii String.
Export ListNotations.
Open Scope N_scope.
Open Scope list_scope.

(** A Go []byte.  Elements are the byte values; [bytes_ok] says they are below 256. *)
Notation bytes := (list N).
Definition is_byte (x : N) : Prop := x < 256.
Definition bytes_ok (b : bytes) : Prop := Forall is_byte b.
Definition bytes_okb (b : bytes) : bool := forallb (fun x => x <? 256) b.

(** len(b) *)
Notation len := (@List.length N).

(** Error values returned by the Go code (only their identity matters). *)
Inductive err : Type :=
| EUnexpectedEOF        (* io.ErrUnexpectedEOF *)
| ETooShortToParse      (* message.ErrTooShortToParse *)
| ETooShortToMarshal    (* message.ErrTooShortToMarshal *)
| EInvalidLength        (* ErrInvalidLength *)
| EInvalidVersion       (* gtp.ErrInvalidVersion *)
| EInvalidMessageType   (* message.ErrInvalidMessageType *)
| EInvalidType          (* ie.ErrInvalidType / *ie.InvalidTypeError *)
| EIENotFound           (* ie.ErrIENotFound *)
| EIEValueNotFound      (* ie.ErrIEValueNotFound *)
| EMalformed            (* ie.ErrMalformed *)
| EHex                  (* encoding/hex decode errors *)
| ETEIDNotFound         (* gtpv2.ErrTEIDNotFound *)
| EOther (n : N).       (* other, distinguished by number *)

(** Outcome of a Go call: a value, an error, or a run-time panic. *)
Inductive res (A : Type) : Type :=
| Ok (a : A)
| Err (e : err)
| Panic.
Arguments Ok {A} a.
Arguments Err {A} e.
Arguments Panic {A}.

Definition bind {A B} (r : res A) (f : A -> res B) : res B :=
  match r with Ok a => f a | Err e => Err e | Panic => Panic end.

Notation "'do' x <- r ; k" := (bind r (fun x => k))
  (at level 200, x pattern, r at level 100, k at level 200, right associativity).

Definition is_ok {A} (r : res A) : bool := match r with Ok _ => true | _ => false end.
Definition is_err {A} (r : res A) : bool := match r with Err _ => true | _ => false end.
Definition is_panic {A} (r : res A) : bool := match r with Panic => true | _ => false end.

Definition res_map {A B} (f : A -> B) (r : res A) : res B :=
  match r with Ok a => Ok (f a) | Err e => Err e | Panic => Panic end.

(** b[i]: panics when out of range. *)
Definition idx {A} (b : list A) (i : nat) : res A :=
  match nth_error b i with Some x => Ok x | None => Panic end.

(** b[lo:hi].  Go checks hi against cap(b); the model checks it against len(b),
    so it panics at least whenever Go does. *)
Definition slice {A} (b : list A) (lo hi : nat) : res (list A) :=
  if (lo <=? hi)%nat && (hi <=? List.length b)%nat
  then Ok (firstn (hi - lo) (skipn lo b)) else Panic.

(** b[lo:] *)
Definition slice_from {A} (b : list A) (lo : nat) : res (list A) :=
  if (lo <=? List.length b)%nat then Ok (skipn lo b) else Panic.

(** b[:hi] *)
Definition slice_to {A} (b : list A) (hi : nat) : res (list A) := slice b 0 hi.

(** b[i] = v *)
Definition set_idx (b : bytes) (i : nat) (v : N) : res bytes :=
  if (i <? len b)%nat then Ok (firstn i b ++ v :: skipn (S i) b) else Panic.

(** copy(dst, src) on whole slices: min(len dst, len src) bytes are written. *)
Definition go_copy (dst src : bytes) : bytes :=
  firstn (len dst) src ++ skipn (len src) dst.

(** Run [f] on the sub-slice b[lo:hi] and put the result back in place. *)
Definition on_slice (b : bytes) (lo hi : nat) (f : bytes -> res bytes) : res bytes :=
  do s <- slice b lo hi; do s' <- f s; Ok (firstn lo b ++ s' ++ skipn hi b).

Definition on_slice_from (b : bytes) (lo : nat) (f : bytes -> res bytes) : res bytes :=
  on_slice b lo (len b) f.

(** copy(b[lo:hi], src) *)
Definition copy_at (b : bytes) (lo hi : nat) (src : bytes) : res bytes :=
  on_slice b lo hi (fun s => Ok (go_copy s src)).

(** copy(b[lo:], src) *)
Definition copy_from (b : bytes) (lo : nat) (src : bytes) : res bytes :=
  copy_at b lo (len b) src.

(** make([]byte, n) for a non-negative n; a negative n panics, see [go_make]. *)
Definition zeros (n : nat) : bytes := repeat 0 n.
Definition go_make (n : Z) : res bytes :=
  if (n <? 0)%Z then Panic else Ok (zeros (Z.to_nat n)).

(** Fixed-width integers *)
Definition u8 (x : N) : N := x mod 256.
Definition u16 (x : N) : N := x mod 65536.
Definition u32 (x : N) : N := x mod 4294967296.
Definition u64 (x : N) : N := x mod 18446744073709551616.

(** Big-endian encodings of n bytes (values above the width are cut off). *)
Fixpoint enc (n : nat) (v : N) : bytes :=
  match n with O => [] | S n' => enc n' (v / 256) ++ [v mod 256] end.
Definition enc16 (v : N) : bytes := [v / 256 mod 256; v mod 256].
Definition enc24 (v : N) : bytes := [v / 65536 mod 256; v / 256 mod 256; v mod 256].
Definition enc32 (v : N) : bytes :=
  [v / 16777216 mod 256; v / 65536 mod 256; v / 256 mod 256; v mod 256].
Definition enc40 (v : N) : bytes :=
  [v / 4294967296 mod 256; v / 16777216 mod 256; v / 65536 mod 256; v / 256 mod 256; v mod 256].
Definition enc64 (v : N) : bytes := enc32 (v / 4294967296) ++ enc32 (v mod 4294967296).

(** binary.BigEndian.Uint16/32/64(s): panics when s is too short, ignores the rest. *)
Definition be16 (s : bytes) : res N :=
  match s with a :: b :: _ => Ok (a * 256 + b) | _ => Panic end.
Definition be32 (s : bytes) : res N :=
  match s with
  | a :: b :: c :: d :: _ => Ok (a * 16777216 + b * 65536 + c * 256 + d) | _ => Panic end.
Definition be64 (s : bytes) : res N :=
  match s with
  | a :: b :: c :: d :: e :: f :: g :: h :: _ =>
      Ok ((a * 16777216 + b * 65536 + c * 256 + d) * 4294967296
          + (e * 16777216 + f * 65536 + g * 256 + h))
  | _ => Panic end.

(** binary.BigEndian.PutUint16/32/64(s, v): panics when s is too short. *)
Definition put16 (v : N) (s : bytes) : res bytes :=
  if (2 <=? len s)%nat then Ok (enc16 v ++ skipn 2 s) else Panic.
Definition put32 (v : N) (s : bytes) : res bytes :=
  if (4 <=? len s)%nat then Ok (enc32 v ++ skipn 4 s) else Panic.
Definition put64 (v : N) (s : bytes) : res bytes :=
  if (8 <=? len s)%nat then Ok (enc64 v ++ skipn 8 s) else Panic.

(** Bit tests *)
Definition bit (v : N) (k : N) : bool := N.testbit v k.
Definition b2n (b : bool) : N := if b then 1 else 0.

Definition nonempty {A} (l : list A) : bool := match l with [] => false | _ => true end.

(** Go strings are byte strings; [str] turns a Coq literal into one. *)
Definition str (s : String.string) : bytes := map N_of_ascii (list_ascii_of_string s).

Fixpoint list_eqb {A} (eq : A -> A -> bool) (x y : list A) : bool :=
  match x, y with
  | [], [] => true
  | a :: x', b :: y' => eq a b && list_eqb eq x' y'
  | _, _ => false
  end.
Definition bytes_eqb : bytes -> bytes -> bool := list_eqb N.eqb.
