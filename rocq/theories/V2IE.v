(** Model of gtpv2/ie/ie.go (generic IE codec) and gtpv2/ie/ie_grouped.go.

    The classification of grouped IE types is a parameter [g]: the code lets the
    user replace or extend it (SetIsGroupedFun, AddGroupedIEType). *)
From Verif Require Import Base Utils.

(** gtpv2/ie/ie.go: type IE struct { Type; Length; instance; Payload; ChildIEs } *)
Inductive ie2 : Type :=
  IE2 (typ length inst : N) (payload : bytes) (children : list ie2).

Definition i2_type (i : ie2) : N := let 'IE2 t _ _ _ _ := i in t.
Definition i2_length (i : ie2) : N := let 'IE2 _ l _ _ _ := i in l.
Definition i2_inst (i : ie2) : N := let 'IE2 _ _ n _ _ := i in n.
Definition i2_payload (i : ie2) : bytes := let 'IE2 _ _ _ p _ := i in p.
Definition i2_children (i : ie2) : list ie2 := let 'IE2 _ _ _ _ c := i in c.

(** gtpv2/ie/ie.go:203-205 Instance() *)
Definition i2_instance (i : ie2) : N := N.land (i2_inst i) 15.

(** gtpv2/ie/ie_grouped.go:37-46 defaultGroupedIEMap: BearerContext, PDNConnection,
    OverloadControlInformation, LoadControlInformation, RemoteUEContext,
    SCEFPDNConnection, V2XContext, PC5QoSParameters. *)
Definition default_grouped (t : N) : bool :=
  existsb (N.eqb t) [93; 109; 180; 181; 191; 195; 208; 209].

Section Grouped.
Context (g : N -> bool).

(** gtpv2/ie/ie.go:280-289 MarshalLen *)
Fixpoint mlen2 (i : ie2) : nat :=
  match i with
  | IE2 t _ _ p c => if g t then (4 + list_sum (map mlen2 c))%nat else (4 + len p)%nat
  end.

(** gtpv2/ie/ie.go:217-247 MarshalTo.  The child loop stops silently when the
    buffer is too short for the next child. *)
Fixpoint mto2 (i : ie2) (b : bytes) : res bytes :=
  match i with
  | IE2 t l n p c =>
      if (len b <? 4)%nat then Err EUnexpectedEOF else
      do b <- set_idx b 0 t;
      do b <- on_slice b 1 3 (put16 l);
      do b <- set_idx b 3 n;
      if g t then
        (fix loop (cs : list ie2) (off : nat) (b : bytes) : res bytes :=
           match cs with
           | [] => Ok b
           | x :: r =>
               if (len b <? off + mlen2 x)%nat then Ok b
               else do b <- on_slice b off (off + mlen2 x) (mto2 x);
                    loop r (off + mlen2 x)%nat b
           end) c 4%nat b
      else if (len b <? mlen2 i)%nat then Err EUnexpectedEOF
      else copy_at b 4 (mlen2 i) p
  end.

(** gtpv2/ie/ie.go:208-214 Marshal *)
Definition marshal2 (i : ie2) : res bytes := mto2 i (zeros (mlen2 i)).

(** gtpv2/ie/ie.go:253-277 UnmarshalBinary and 329-340 ParseMultiIEs, mutually
    recursive through grouped IEs.  [fuel] bounds the recursion; running out is
    Panic and is excluded by the totality theorems. *)
Fixpoint parse2_f (fuel : nat) (b : bytes) : res ie2 :=
  match fuel with
  | O => Panic
  | S f =>
      if (len b <? 4)%nat then Err EUnexpectedEOF else
      do t <- idx b 0;
      do s <- slice b 1 3; do l <- be16 s;
      if (Z.of_nat (len b) - 4 <? Z.of_N l)%Z then Err EInvalidLength else
      do n <- idx b 3;
      do p <- slice b 4 (4 + N.to_nat l);
      if g t then do cs <- multi2_f f p; Ok (IE2 t l n p cs)
      else Ok (IE2 t l n p [])
  end
with multi2_f (fuel : nat) (b : bytes) : res (list ie2) :=
  match fuel with
  | O => Panic
  | S f =>
      match b with
      | [] => Ok []
      | _ => do i <- parse2_f f b;
             do b' <- slice_from b (mlen2 i);
             do r <- multi2_f f b';
             Ok (i :: r)
      end
  end.

(** ie.Parse / ie.ParseMultiIEs with enough fuel for any input. *)
Definition parse2 (b : bytes) : res ie2 := parse2_f (len b + 2) b.
Definition multi2 (b : bytes) : res (list ie2) := multi2_f (len b + 2) b.

(** gtpv2/ie/ie.go:292-301 SetLength: the grouped branch is overwritten by the
    last assignment, so the result is always uint16(len(Payload)). *)
Definition set_length2 (i : ie2) : ie2 :=
  match i with
  | IE2 t l n p c =>
      let _ := if g t then u16 (N.of_nat (list_sum (map mlen2 c))) else l in
      IE2 t (u16 (N.of_nat (len p))) n p c
  end.

(** gtpv2/ie/ie.go:175-184 New *)
Definition new2 (t ins : N) (data : bytes) : ie2 :=
  set_length2 (IE2 t 0 (N.land ins 15) data []).

(** gtpv2/ie/ie.go:187-196 SetInstance / WithInstance *)
Definition set_instance2 (i : ie2) (ins : N) : ie2 :=
  match i with IE2 t l _ p c => IE2 t l (N.land ins 15) p c end.

(** gtpv2/ie/ie_grouped.go:12-30 NewGroupedIE; nil arguments are None, and the
    result is None (a nil *IE) when marshalling a child fails. *)
Fixpoint new_grouped_loop (ies : list (option ie2)) (p : bytes) (c : list ie2)
  : res (option (bytes * list ie2)) :=
  match ies with
  | [] => Ok (Some (p, c))
  | None :: r => new_grouped_loop r p c
  | Some x :: r =>
      match marshal2 x with
      | Ok s => new_grouped_loop r (p ++ s) (c ++ [x])
      | Err _ => Ok None
      | Panic => Panic
      end
  end.
Definition new_grouped (t : N) (ies : list (option ie2)) : res (option ie2) :=
  do r <- new_grouped_loop ies [] [];
  match r with
  | Some (p, c) => Ok (Some (set_length2 (IE2 t 0 0 p c)))
  | None => Ok None
  end.

(** gtpv2/ie/ie_grouped.go:91-102 the loop of Add: the child is kept even when it
    cannot be marshalled. *)
Fixpoint add_loop (ies : list (option ie2)) (p : bytes) (c : list ie2) : res (bytes * list ie2) :=
  match ies with
  | [] => Ok (p, c)
  | None :: r => add_loop r p c
  | Some x :: r =>
      match marshal2 x with
      | Ok s => add_loop r (p ++ s) (c ++ [x])
      | Err _ => add_loop r p (c ++ [x])
      | Panic => Panic
      end
  end.
(** gtpv2/ie/ie_grouped.go:86-104 Add *)
Definition add2 (i : ie2) (ies : list (option ie2)) : res ie2 :=
  match i with
  | IE2 t l n p c =>
      if negb (g t) then Ok i else
      do r <- add_loop ies p c;
      Ok (set_length2 (IE2 t l n (fst r) (snd r)))
  end.

(** gtpv2/ie/ie_grouped.go:115-128 the loop of Remove: [new] is the slice
    newChildren (None = nil pointer), shortened by one at every match. *)
Fixpoint remove_loop (typ ins : N) (cs : list ie2) (new : list (option ie2)) (k : nat) (p : bytes)
  : res (list (option ie2) * bytes) :=
  match cs with
  | [] => Ok (new, p)
  | x :: r =>
      if (i2_type x =? typ) && (i2_instance x =? ins) then
        do new' <- slice new 0 (List.length new - 1);
        remove_loop typ ins r new' k p
      else
        if (k <? List.length new)%nat then
          let new' := firstn k new ++ Some x :: skipn (S k) new in
          match marshal2 x with
          | Ok s => remove_loop typ ins r new' (S k) (p ++ s)
          | Err _ => remove_loop typ ins r new' (S k) p
          | Panic => Panic
          end
        else Panic
  end.
(** A []*IE without nil elements. *)
Fixpoint no_nils {A} (l : list (option A)) : option (list A) :=
  match l with
  | [] => Some []
  | Some x :: r => match no_nils r with Some r' => Some (x :: r') | None => None end
  | None :: _ => None
  end.
(** gtpv2/ie/ie_grouped.go:107-131 Remove.  A nil left in ChildIEs would make every
    later MarshalLen panic; the model reports it as Panic at once. *)
Definition remove2 (i : ie2) (typ ins : N) : res ie2 :=
  match i with
  | IE2 t l n p c =>
      if negb (g t) then Ok i else
      do r <- remove_loop typ ins c (repeat None (List.length c)) 0 [];
      match no_nils (fst r) with
      | Some c' => Ok (set_length2 (IE2 t l n (snd r) c'))
      | None => Panic
      end
  end.

(** gtpv2/ie/ie_grouped.go:137-148 FindByType *)
Definition find2 (i : ie2) (typ ins : N) : res ie2 :=
  if negb (g (i2_type i)) then Err EInvalidType else
  match find (fun x => (i2_type x =? typ) && (i2_instance x =? ins)) (i2_children i) with
  | Some x => Ok x
  | None => Err EIENotFound
  end.

(** gtpv2/ie/ie.go:343-378 NewUint8IE .. NewFQDNIE *)
Definition new_uint8 (t v : N) : ie2 := new2 t 0 [v].
Definition new_uint16 (t v : N) : ie2 := new2 t 0 (enc16 v).
Definition new_uint32 (t v : N) : ie2 := new2 t 0 (enc32 v).
Definition new_uint64 (t v : N) : ie2 := new2 t 0 (enc64 v).
Definition new_string (t : N) (s : bytes) : ie2 := new2 t 0 s.
Definition new_fqdn (t : N) (s : bytes) : res ie2 := do b <- encode_fqdn s; Ok (new2 t 0 b).

(** gtpv2/ie/ie.go:381-444 ValueAsUint8 .. ValueAsFQDN *)
Definition value_u8 (i : ie2) : res N :=
  if g (i2_type i) then Err EInvalidType else
  if (len (i2_payload i) <? 1)%nat then Err EUnexpectedEOF else idx (i2_payload i) 0.
Definition value_u16 (i : ie2) : res N :=
  if g (i2_type i) then Err EInvalidType else
  if (len (i2_payload i) <? 2)%nat then Err EUnexpectedEOF else
  do s <- slice (i2_payload i) 0 2; be16 s.
Definition value_u32 (i : ie2) : res N :=
  if g (i2_type i) then Err EInvalidType else
  if (len (i2_payload i) <? 4)%nat then Err EUnexpectedEOF else
  do s <- slice (i2_payload i) 0 4; be32 s.
Definition value_u64 (i : ie2) : res N :=
  if g (i2_type i) then Err EInvalidType else
  if (len (i2_payload i) <? 8)%nat then Err EUnexpectedEOF else
  do s <- slice (i2_payload i) 0 8; be64 s.
Definition value_string (i : ie2) : res bytes :=
  if g (i2_type i) then Err EInvalidType else Ok (i2_payload i).
Definition value_fqdn (i : ie2) : res bytes :=
  if g (i2_type i) then Err EInvalidType else decode_fqdn (i2_payload i).

End Grouped.
