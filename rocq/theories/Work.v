(** What parsing costs: ie.Parse, ie.ParseMultiIEs and message.Parse of gtpv2 with a count of
    the method calls they make on IEs.  [V2IE] has the same functions without the count; that
    the two agree on every result is the theorem C71_same_parse.  No proofs here. *)
From Verif Require Import Base V2IE V2Header MsgModel V2Msg.

(** How often (IE).UnmarshalBinary and (IE).MarshalLen are entered. *)
Record calls : Type := Calls { n_unm : nat; n_len : nat }.
Definition none : calls := Calls 0 0.
Definition plus (a b : calls) : calls := Calls (n_unm a + n_unm b) (n_len a + n_len b).

(** a run: the calls made so far and the outcome *)
Definition run (A : Type) : Type := (calls * res A)%type.
Definition pure {A} (r : res A) : run A := (none, r).
Definition after {A} (c : calls) (r : run A) : run A := (plus c (fst r), snd r).
Definition andthen {A B} (r : run A) (f : A -> run B) : run B :=
  match snd r with
  | Ok a => after (fst r) (f a)
  | Err e => (fst r, Err e)
  | Panic => (fst r, Panic)
  end.

Section G.
Context (g : N -> bool).

(** gtpv2/ie/ie.go:280-289 MarshalLen calls itself once for every child of a grouped IE *)
Fixpoint len_calls (i : ie2) : nat :=
  match i with
  | IE2 t _ _ _ c => if g t then (1 + list_sum (map len_calls c))%nat else 1%nat
  end.

(** gtpv2/ie/ie.go:253-277 UnmarshalBinary and 329-340 ParseMultiIEs, which asks every IE it
    has parsed for its MarshalLen (line 337) *)
Fixpoint parse2_w (fuel : nat) (b : bytes) : run ie2 :=
  match fuel with
  | O => pure Panic
  | S f => after (Calls 1 0) (
      if (len b <? 4)%nat then pure (Err EUnexpectedEOF) else
      andthen (pure (idx b 0)) (fun t =>
      andthen (pure (slice b 1 3)) (fun s =>
      andthen (pure (be16 s)) (fun l =>
      if (Z.of_nat (len b) - 4 <? Z.of_N l)%Z then pure (Err EInvalidLength) else
      andthen (pure (idx b 3)) (fun n =>
      andthen (pure (slice b 4 (4 + N.to_nat l))) (fun p =>
      if g t then andthen (multi2_w f p) (fun cs => pure (Ok (IE2 t l n p cs)))
      else pure (Ok (IE2 t l n p []))))))))
  end
with multi2_w (fuel : nat) (b : bytes) : run (list ie2) :=
  match fuel with
  | O => pure Panic
  | S f =>
      match b with
      | [] => pure (Ok [])
      | _ => andthen (parse2_w f b) (fun i =>
             after (Calls 0 (len_calls i)) (
             andthen (pure (slice_from b (mlen2 g i))) (fun b' =>
             andthen (multi2_w f b') (fun r =>
             pure (Ok (i :: r))))))
      end
  end.

(** ie.Parse and ie.ParseMultiIEs *)
Definition parse_run (b : bytes) : run ie2 := parse2_w (len b + 2) b.
Definition multi_run (b : bytes) : run (list ie2) := multi2_w (len b + 2) b.

(** gtpv2/message/message.go:309-413 Parse: the header, then one ParseMultiIEs of the
    payload in the UnmarshalBinary of the message chosen (e.g. delete-bearer-req.go:256-346);
    dispatching the IEs to the fields calls Instance() only. *)
Definition msg_calls (b : bytes) : calls :=
  if (len b <? 2)%nat then none else
  match idx b 1, h2_parse b with
  | Ok t, Ok h =>
      if (len (h2_payload h) <? md_min (struct2 t))%nat then none else fst (multi_run (h2_payload h))
  | _, _ => none
  end.
End G.
