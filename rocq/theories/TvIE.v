(** Model of gtpv1/ie/ie.go and gtpv0/ie/ie.go, which are the same functions over two
    tables: [tv] is tvLengthMap (gtpv1/ie/ie.go:269-298, gtpv0/ie/ie.go:140-160) and
    [xl] says which types have a one-octet length (gtpv1: ExtensionHeaderTypeList = 141,
    gtpv1/ie/ie.go:181,208,315; gtpv0: none).  Both are instantiated below.  No proofs here. *)
From Verif Require Import Base.

(** gtpv1/ie/ie.go:149-153, gtpv0/ie/ie.go:51-55 IE *)
Record ie1 : Type := IE1 { i1_type : N; i1_length : N; i1_payload : bytes }.

Section Tv.
Context (tv : N -> option nat) (xl : N -> bool).

(** gtpv1/ie/ie.go:306-320, gtpv0/ie/ie.go:168-176 MarshalLen *)
Definition mlen1 (i : ie1) : nat :=
  match tv (i1_type i) with
  | Some l => (l + 1)%nat
  | None =>
      if i1_type i <? 128 then (1 + len (i1_payload i))%nat
      else if xl (i1_type i) then (2 + len (i1_payload i))%nat
      else (3 + len (i1_payload i))%nat
  end.

(** gtpv1/ie/ie.go:323-330, gtpv0/ie/ie.go:179-186 SetLength *)
Definition set_length1 (i : ie1) : ie1 :=
  IE1 (i1_type i)
      (match tv (i1_type i) with Some _ => 0 | None => u16 (N.of_nat (len (i1_payload i))) end)
      (i1_payload i).

(** gtpv1/ie/ie.go:156-161, gtpv0/ie/ie.go:58-62 New *)
Definition new1 (t : N) (p : bytes) : ie1 := set_length1 (IE1 t 0 p).

(** gtpv1/ie/ie.go:173-190, gtpv0/ie/ie.go:74-87 MarshalTo *)
Definition mto1 (i : ie1) (b : bytes) : res bytes :=
  if (len b <? mlen1 i)%nat then Err ETooShortToMarshal else
  do b <- set_idx b 0 (i1_type i);
  do r <- (if xl (i1_type i) then do b <- set_idx b 1 (u8 (i1_length i)); Ok (b, 2%nat)
           else if i1_type i <? 128 then Ok (b, 1%nat)
           else do b <- on_slice b 1 3 (put16 (i1_length i)); Ok (b, 3%nat));
  let '(b, off) := r in
  copy_at b off (mlen1 i) (i1_payload i).

(** gtpv1/ie/ie.go:164-170, gtpv0/ie/ie.go:65-71 Marshal *)
Definition marshal1 (i : ie1) : res bytes := mto1 i (zeros (mlen1 i)).

(** gtpv1/ie/ie.go:219-232, gtpv0/ie/ie.go:111-123 decodeTVFromBytes; the receiver's
    payload is nil when MarshalLen is called *)
Definition parse_tv (t : N) (b : bytes) : res ie1 :=
  let l := len b in
  if (l <? 2)%nat then Err ETooShortToParse else
  let n := mlen1 (IE1 t 0 []) in
  if (l <? n)%nat then Err EInvalidLength else
  do p <- slice b 1 n; Ok (IE1 t 0 p).

(** gtpv1/ie/ie.go:234-247, gtpv0/ie/ie.go:125-138 decodeTLVFromBytes *)
Definition parse_tlv (t : N) (b : bytes) : res ie1 :=
  let l := len b in
  if (l <? 3)%nat then Err ETooShortToParse else
  do s <- slice b 1 3; do n <- be16 s;
  if (l <? N.to_nat n + 3)%nat then Err EInvalidLength else
  do p <- slice b 3 (3 + N.to_nat n); Ok (IE1 t n p).

(** gtpv1/ie/ie.go:249-267 decodeExtensionHeaderTypeList *)
Definition parse_xl (t : N) (b : bytes) : res ie1 :=
  let l := len b in
  if (l <? 2)%nat then Err ETooShortToParse else
  if (l <? mlen1 (IE1 t 0 []))%nat then Err EInvalidLength else
  do n <- idx b 1;
  if (l <? 2 + N.to_nat n)%nat then Err EInvalidLength else
  do p <- slice b 2 (2 + N.to_nat n); Ok (IE1 t n p).

(** gtpv1/ie/ie.go:193-217, gtpv0/ie/ie.go:90-109 Parse / UnmarshalBinary *)
Definition parse1 (b : bytes) : res ie1 :=
  if (len b <? 2)%nat then Err ETooShortToParse else
  do t <- idx b 0;
  if xl t then parse_xl t b else if t <? 128 then parse_tv t b else parse_tlv t b.

(** gtpv1/ie/ie.go:354-367, gtpv0/ie/ie.go:210-223 ParseMultiIEs.  Each turn of the loop
    consumes at least one byte; the fuel of [multi1] suffices for any input. *)
Fixpoint multi1_f (fuel : nat) (b : bytes) : res (list ie1) :=
  match fuel with
  | O => Panic
  | S f =>
      match b with
      | [] => Ok []
      | _ => do i <- parse1 b;
             do b' <- slice_from b (mlen1 i);
             do r <- multi1_f f b';
             Ok (i :: r)
      end
  end.
Definition multi1 (b : bytes) : res (list ie1) := multi1_f (S (len b)) b.
End Tv.

(** a Go map lookup with its ok result *)
Fixpoint tv_get (m : list (N * nat)) (t : N) : option nat :=
  match m with [] => None | (k, v) :: r => if t =? k then Some v else tv_get r t end.

(** gtpv1/ie/ie.go:269-298 tvLengthMap *)
Definition tv_map1 : list (N * nat) :=
  [(0,0%nat); (1,1%nat); (2,8%nat); (3,6%nat); (4,4%nat); (5,4%nat); (8,1%nat); (9,28%nat);
   (11,1%nat); (12,3%nat); (13,1%nat); (14,1%nat); (15,1%nat); (16,4%nat); (17,4%nat); (18,4%nat);
   (19,1%nat); (20,1%nat); (21,1%nat); (22,9%nat); (23,1%nat); (24,1%nat); (25,2%nat); (26,2%nat);
   (27,2%nat); (28,2%nat); (29,1%nat); (127,4%nat)].
Definition tv1 : N -> option nat := tv_get tv_map1.
(** gtpv1/ie/ie.go:181,208,315 ExtensionHeaderTypeList (gtpv1/ie/ie.go constant 141) *)
Definition xl1 (t : N) : bool := t =? 141.

(** gtpv0/ie/ie.go:140-160 tvLengthMap *)
Definition tv_map0 : list (N * nat) :=
  [(0,0%nat); (1,1%nat); (2,8%nat); (3,6%nat); (4,4%nat); (5,4%nat); (6,3%nat); (8,1%nat);
   (9,28%nat); (11,1%nat); (12,3%nat); (13,1%nat); (14,1%nat); (15,1%nat); (16,2%nat); (17,2%nat);
   (18,3%nat); (19,1%nat); (127,4%nat)].
Definition tv0 : N -> option nat := tv_get tv_map0.
(** gtpv0/ie/ie.go has no type with a one-octet length *)
Definition xl0 (t : N) : bool := false.
