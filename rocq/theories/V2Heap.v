(** Memory model of parsed GTPv2 IEs: gtpv2/ie/ie.go and gtpv2/ie/ie_grouped.go with the slices
    the code really has.  UnmarshalBinary does not copy: Payload is a part of the array that was
    parsed, and append writes into that array as long as its capacity allows.
    V2IE.v is the same code with payloads as values.

    Arrays are never freed.  No slice in this code limits its capacity, so a slice reaches to the end
    of its array; nil is a slice of an empty array.  A pointer to an IE is its value: an IE changes
    through Add and Remove only. *)
From Coq Require Import ZArith.
From Verif Require Import Base Utils V2IE.

Definition heap := list bytes.
Record slc := Slc { s_arr : nat; s_off : nat; s_len : nat }.
Definition arr (h : heap) (a : nat) : bytes := nth a h [].
(** the elements of a slice *)
Definition read (h : heap) (s : slc) : bytes := firstn (s_len s) (skipn (s_off s) (arr h (s_arr s))).
(** s[lo:hi] for bounds within the slice *)
Definition sub (s : slc) (lo hi : nat) : slc := Slc (s_arr s) (s_off s + lo)%nat (hi - lo)%nat.

(** gtpv2/ie/ie.go: type IE struct *)
Inductive iem : Type := IEM (typ length inst : N) (payload : slc) (children : list iem).
Definition im_payload (i : iem) : slc := let 'IEM _ _ _ p _ := i in p.
Definition im_type (i : iem) : N := let 'IEM t _ _ _ _ := i in t.
Definition im_inst (i : iem) : N := let 'IEM _ _ n _ _ := i in n.
Definition im_children (i : iem) : list iem := let 'IEM _ _ _ _ c := i in c.

(** what a reader of the IE sees *)
Fixpoint view (h : heap) (i : iem) : ie2 :=
  let 'IEM t l n p c := i in IE2 t l n (read h p) (map (view h) c).

(** the built-in append(s, d...): in place if the capacity allows, otherwise into a new array with
    as much room to spare as the run-time system likes ([grow], of the length needed) *)
Definition put (a : bytes) (at_ : nat) (d : bytes) : bytes := firstn at_ a ++ d ++ skipn (at_ + len d) a.
Definition append (grow : nat -> nat) (h : heap) (s : slc) (d : bytes) : heap * slc :=
  let a := arr h (s_arr s) in
  let e := (s_off s + s_len s)%nat in
  if (e + len d <=? len a)%nat
  then (firstn (s_arr s) h ++ put a e d :: skipn (S (s_arr s)) h, Slc (s_arr s) (s_off s) (s_len s + len d)%nat)
  else (h ++ [read h s ++ d ++ zeros (grow (s_len s + len d)%nat)], Slc (List.length h) 0 (s_len s + len d)%nat).

Section Grouped.
Context (g : N -> bool).

(** ie.go:253-277 UnmarshalBinary and 329-340 ParseMultiIEs; the bounds are those of [parse2_f] *)
Fixpoint parse_m (fuel : nat) (h : heap) (s : slc) : res iem :=
  match fuel with
  | O => Panic
  | S f =>
      let b := read h s in
      if (len b <? 4)%nat then Err EUnexpectedEOF else
      do t <- idx b 0;
      do w <- slice b 1 3; do l <- be16 w;
      if (Z.of_nat (len b) - 4 <? Z.of_N l)%Z then Err EInvalidLength else
      do n <- idx b 3;
      let p := sub s 4 (4 + N.to_nat l)%nat in
      if g t then do cs <- multi_m f h p; Ok (IEM t l n p cs)
      else Ok (IEM t l n p [])
  end
with multi_m (fuel : nat) (h : heap) (s : slc) : res (list iem) :=
  match fuel with
  | O => Panic
  | S f =>
      if (s_len s =? 0)%nat then Ok [] else
      do i <- parse_m f h s;
      let k := mlen2 g (view h i) in
      if (s_len s <? k)%nat then Panic else
      do r <- multi_m f h (sub s k (s_len s));
      Ok (i :: r)
  end.
(** ParseMultiIEs of all of array [a], as on the array of its own that Serve makes for a datagram
    (gtpv2/conn.go:192-193) *)
Definition parsed (h : heap) (a : nat) : res (list iem) := multi_m (len (arr h a) + 2) h (Slc a 0 (len (arr h a))).

(** ie.go:292-301 SetLength *)
Definition set_length_m (i : iem) : iem := let 'IEM t _ n p c := i in IEM t (u16 (N.of_nat (s_len p))) n p c.

(** ie_grouped.go:91-102 the loop of Add *)
Fixpoint add_loop_m (grow : nat -> nat) (h : heap) (ies : list (option iem)) (p : slc) (c : list iem) : res (heap * slc * list iem) :=
  match ies with
  | [] => Ok (h, p, c)
  | None :: r => add_loop_m grow h r p c
  | Some x :: r =>
      match marshal2 g (view h x) with
      | Ok d => let '(h', p') := append grow h p d in add_loop_m grow h' r p' (c ++ [x])
      | Err _ => add_loop_m grow h r p (c ++ [x])
      | Panic => Panic
      end
  end.
(** ie_grouped.go:86-104 Add *)
Definition add_m (grow : nat -> nat) (h : heap) (i : iem) (ies : list (option iem)) : res (heap * iem) :=
  let 'IEM t l n p c := i in
  if negb (g t) then Ok (h, i) else
  do r <- add_loop_m grow h ies p c;
  let '(h', p', c') := r in Ok (h', set_length_m (IEM t l n p' c')).

(** ie_grouped.go:115-128 the loop of Remove *)
Fixpoint remove_loop_m (grow : nat -> nat) (h : heap) (typ ins : N) (cs : list iem) (new : list (option iem)) (k : nat) (p : slc)
  : res (heap * list (option iem) * slc) :=
  match cs with
  | [] => Ok (h, new, p)
  | x :: r =>
      if (im_type x =? typ) && (N.land (im_inst x) 15 =? ins) then
        do new' <- slice new 0 (List.length new - 1);
        remove_loop_m grow h typ ins r new' k p
      else
        if (k <? List.length new)%nat then
          let new' := firstn k new ++ Some x :: skipn (S k) new in
          match marshal2 g (view h x) with
          | Ok d => let '(h', p') := append grow h p d in remove_loop_m grow h' typ ins r new' (S k) p'
          | Err _ => remove_loop_m grow h typ ins r new' (S k) p
          | Panic => Panic
          end
        else Panic
  end.
(** ie_grouped.go:107-131 Remove: Payload is set to nil first *)
Definition remove_m (grow : nat -> nat) (h : heap) (i : iem) (typ ins : N) : res (heap * iem) :=
  let 'IEM t l n p c := i in
  if negb (g t) then Ok (h, i) else
  do r <- remove_loop_m grow (h ++ [[]]) typ ins c (repeat None (List.length c)) 0 (Slc (List.length h) 0 0);
  let '(h', new, p') := r in
  match no_nils new with
  | Some c' => Ok (h', set_length_m (IEM t l n p' c'))
  | None => Panic
  end.
End Grouped.
