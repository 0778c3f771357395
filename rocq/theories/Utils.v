(** Model of utils/utils.go.  Strings are byte strings (Go semantics). *)
From Verif Require Import Base.

(** encoding/hex: value of one hexadecimal character, both cases accepted. *)
Definition hexval (c : N) : option N :=
  if (48 <=? c) && (c <=? 57) then Some (c - 48)
  else if (97 <=? c) && (c <=? 102) then Some (c - 87)
  else if (65 <=? c) && (c <=? 70) then Some (c - 55)
  else None.

(** encoding/hex.DecodeString: an invalid character or an odd length is an error. *)
Fixpoint hex_decode (s : bytes) : res bytes :=
  match s with
  | [] => Ok []
  | [_] => Err EHex
  | a :: b :: r =>
      match hexval a, hexval b with
      | Some x, Some y => do t <- hex_decode r; Ok (N.lor (N.shiftl x 4) y :: t)
      | _, _ => Err EHex
      end
  end.

(** encoding/hex: lower-case digit. *)
Definition hexdigit (v : N) : N := if v <? 10 then v + 48 else v + 87.

(** encoding/hex.EncodeToString *)
Fixpoint hex_encode (b : bytes) : bytes :=
  match b with
  | [] => []
  | x :: r => hexdigit (N.shiftr x 4) :: hexdigit (N.land x 15) :: hex_encode r
  end.

(** utils.go:51-58 swap, one byte: ((raw>>4)&0xf) + ((raw<<4)&0xf0) in uint8. *)
Definition swap_byte (x : N) : N :=
  u8 (N.land (N.shiftr x 4) 15 + N.land (u8 (N.shiftl x 4)) 240).
(** utils.go:51-58 swap *)
Definition swap (raw : bytes) : bytes := map swap_byte raw.

(** utils.go:19-32 StrToSwappedBytes *)
Definition str_to_swapped (s filler : bytes) : res bytes :=
  do raw <- (if Nat.even (len s) then hex_decode s else hex_decode (s ++ filler));
  Ok (swap raw).

(** utils.go:38-49 SwappedBytesToStr *)
Definition swapped_to_str (raw : bytes) (cut : bool) : res bytes :=
  match raw with
  | [] => Ok []
  | _ => let s := hex_encode (swap raw) in
         if cut then slice_to s (len s - 1) else Ok s
  end.

(** utils.go:62-67 Uint24To32 *)
Definition uint24to32 (b : bytes) : N :=
  match b with
  | [x; y; z] => N.lor (N.lor (N.shiftl x 16) (N.shiftl y 8)) z
  | _ => 0
  end.
(** utils.go:71-73 Uint32To24 *)
Definition uint32to24 (n : N) : bytes := [u8 (N.shiftr n 16); u8 (N.shiftr n 8); u8 n].
(** utils.go:77-82 Uint40To64 *)
Definition uint40to64 (b : bytes) : N :=
  match b with
  | [a; b; c; d; e] =>
      N.lor (N.lor (N.lor (N.lor (N.shiftl a 32) (N.shiftl b 24)) (N.shiftl c 16)) (N.shiftl d 8)) e
  | _ => 0
  end.
(** utils.go:86-88 Uint64To40 *)
Definition uint64to40 (n : N) : bytes :=
  [u8 (N.shiftr n 32); u8 (N.shiftr n 24); u8 (N.shiftr n 16); u8 (N.shiftr n 8); u8 n].

Definition ch_f : N := 102. (* 'f' *)
Definition ch_dot : N := 46. (* '.' *)

(** utils.go:91-113 EncodePLMN *)
Definition encode_plmn (mcc mnc : bytes) : res bytes :=
  do c <- str_to_swapped mcc [ch_f];
  do n <- str_to_swapped mnc [ch_f];
  if (len mnc =? 2)%nat then Ok (c ++ n)
  else
    do c0 <- idx c 0; do c1 <- idx c 1; do n1 <- idx n 1; do n0 <- idx n 0;
    Ok [c0; N.lor (N.land c1 15) (N.land (u8 (N.shiftl n1 4)) 240); n0].

(** utils.go:116-122 DecodeMNC *)
Definition decode_mnc (b : bytes) : res bytes :=
  let raw := hex_encode b in
  do r0 <- idx raw 0;
  if r0 =? ch_f then do r3 <- idx raw 3; do r2 <- idx raw 2; Ok [r3; r2]
  else do r3 <- idx raw 3; do r2 <- idx raw 2; do r0 <- idx raw 0; Ok [r3; r2; r0].

(** utils.go:125-128 DecodeMCC *)
Definition decode_mcc (b : bytes) : res bytes :=
  let raw := hex_encode b in
  do r1 <- idx raw 1; do r0 <- idx raw 0; do r3 <- idx raw 3; Ok [r1; r0; r3].

(** utils.go:131-135 DecodePLMN *)
Definition decode_plmn (b : bytes) : res (bytes * bytes) :=
  do s1 <- slice b 0 2; do mcc <- decode_mcc s1;
  do s2 <- slice b 1 3; do mnc <- decode_mnc s2;
  Ok (mcc, mnc).

(** utils.go:138-144 ParseECI *)
Definition parse_eci (eci : N) : res (N * N) :=
  do buf <- put32 eci (zeros 4);
  do cell <- idx buf 3;
  do b0 <- idx buf 0; do b1 <- idx buf 1; do b2 <- idx buf 2;
  do enb <- be32 [0; b0; b1; b2];
  Ok (enb, cell).

(** strings.SplitSeq(s, "."): always at least one label. *)
Fixpoint split_dot (s : bytes) : list bytes :=
  match s with
  | [] => [[]]
  | c :: r =>
      if c =? ch_dot then [] :: split_dot r
      else match split_dot r with
           | l :: ls => (c :: l) :: ls
           | [] => [[c]]
           end
  end.

(** strings.Join(ls, ".") *)
Fixpoint join_dot (ls : list bytes) : bytes :=
  match ls with
  | [] => []
  | [l] => l
  | l :: rest => l ++ ch_dot :: join_dot rest
  end.

(** utils.go:152-157: the loop over labels writing at [offset]. *)
Fixpoint encode_fqdn_loop (b : bytes) (offset : nat) (labels : list bytes) : res bytes :=
  match labels with
  | [] => Ok b
  | label :: rest =>
      do b <- set_idx b offset (u8 (N.of_nat (len label)));
      do b <- copy_from b (offset + 1) label;
      encode_fqdn_loop b (offset + (len label + 1)) rest
  end.
(** utils.go:148-160 EncodeFQDN *)
Definition encode_fqdn (fqdn : bytes) : res bytes :=
  encode_fqdn_loop (zeros (len fqdn + 1)) 0 (split_dot fqdn).

(** utils.go:169-177: the loop of DecodeFQDN; [fuel] bounds the iterations and
    running out of it is Panic. *)
Fixpoint decode_fqdn_loop (fuel : nat) (b : bytes) (offset : nat) : res (list bytes) :=
  match fuel with
  | O => Panic
  | S fuel' =>
      if (offset <? len b)%nat then
        do x <- idx b offset;
        let l := N.to_nat x in
        if (len b <? offset + l + 1)%nat then Ok []
        else
          do s <- slice b (offset + 1) (offset + l + 1);
          do rest <- decode_fqdn_loop fuel' b (offset + (l + 1));
          Ok (s :: rest)
      else Ok []
  end.
(** utils.go:163-180 DecodeFQDN *)
Definition decode_fqdn (b : bytes) : res bytes :=
  do ls <- decode_fqdn_loop (S (len b)) b 0; Ok (join_dot ls).
