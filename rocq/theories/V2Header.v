(** Model of gtpv2/message/header.go. *)
From Verif Require Import Base Utils.

(** gtpv2/message/header.go:23-31 Header *)
Record hdr2 : Type := Hdr2 {
  h2_flags : N; h2_type : N; h2_length : N; h2_teid : N; h2_seq : N; h2_spare : N;
  h2_payload : bytes }.

(** gtpv2/message/header.go:181-183 HasTEID *)
Definition h2_has_teid_f (flags : N) : bool := N.land (N.shiftr flags 3) 1 =? 1.
Definition h2_has_teid (h : hdr2) : bool := h2_has_teid_f (h2_flags h).

(** gtpv2/message/header.go:169-171 IsPiggybacking *)
Definition h2_piggy (h : hdr2) : bool := N.land (N.shiftr (h2_flags h) 4) 1 =? 1.
(** gtpv2/message/header.go:209-211 HasMessagePriority *)
Definition h2_has_prio (h : hdr2) : bool := N.land (N.shiftr (h2_flags h) 2) 1 =? 1.

Definition h2_set_flags (h : hdr2) (f : N) : hdr2 :=
  Hdr2 f (h2_type h) (h2_length h) (h2_teid h) (h2_seq h) (h2_spare h) (h2_payload h).
Definition h2_set_payload (h : hdr2) (p : bytes) : hdr2 :=
  Hdr2 (h2_flags h) (h2_type h) (h2_length h) (h2_teid h) (h2_seq h) (h2_spare h) p.
Definition h2_set_len (h : hdr2) (l : N) : hdr2 :=
  Hdr2 (h2_flags h) (h2_type h) l (h2_teid h) (h2_seq h) (h2_spare h) (h2_payload h).

(** gtpv2/message/header.go:148-153 SetLength (uint16 arithmetic) *)
Definition h2_set_length (h : hdr2) : hdr2 :=
  let l := u16 (N.of_nat (4 + len (h2_payload h))) in
  h2_set_len h (if h2_has_teid h then u16 (l + 4) else l).

(** gtpv2/message/header.go:34-46 NewHeader *)
Definition new_hdr2 (flags mtype teid seq : N) (data : bytes) : hdr2 :=
  h2_set_length (Hdr2 flags mtype 0 teid seq 0 data).

(** gtpv2/message/header.go:49-53 NewHeaderFlags *)
Definition new_hdr2_flags (v p t : N) : N :=
  u8 (N.lor (N.lor (N.shiftl (N.land v 7) 5) (N.shiftl (N.land p 1) 4)) (N.shiftl (N.land t 1) 3)).

(** gtpv2/message/header.go:138-145 MarshalLen *)
Definition h2_mlen (h : hdr2) : nat :=
  (8 + len (h2_payload h) + (if h2_has_teid h then 4 else 0))%nat.

(** gtpv2/message/header.go:65-79 MarshalTo: no size check, a short buffer panics. *)
Definition h2_mto (h : hdr2) (b : bytes) : res bytes :=
  do b <- set_idx b 0 (h2_flags h);
  do b <- set_idx b 1 (h2_type h);
  do b <- on_slice b 2 4 (put16 (h2_length h));
  do r <- (if h2_has_teid h
           then do b <- on_slice b 4 8 (put32 (h2_teid h)); Ok (b, 8%nat)
           else Ok (b, 4%nat));
  let '(b, off) := r in
  do b <- copy_at b off (off + 3) (uint32to24 (h2_seq h));
  do b <- set_idx b (off + 3) (h2_spare h);
  copy_at b (off + 4) (h2_mlen h) (h2_payload h).

(** gtpv2/message/header.go:56-62 Marshal *)
Definition h2_marshal (h : hdr2) : res bytes := h2_mto h (zeros (h2_mlen h)).

(** gtpv2/message/header.go:82-135 ParseHeader / UnmarshalBinary.  The sums
    fixedHeaderSize+h.Length are uint16 and wrap. *)
Definition h2_parse (b : bytes) : res hdr2 :=
  let l := len b in
  if (l <? 12)%nat then Err ETooShortToParse else
  do flags <- idx b 0;
  do typ <- idx b 1;
  do s <- slice b 2 4; do length <- be16 s;
  if length <? 4 then Err ETooShortToParse else
  if h2_has_teid_f flags then
    if length <? 8 then Err ETooShortToParse else
    do s <- slice b 4 8; do teid <- be32 s;
    do s <- slice b 8 11; let seq := uint24to32 s in
    do spare <- idx b 11;
    if (l <? N.to_nat length + 4)%nat then
      do p <- slice_from b 12; Ok (Hdr2 flags typ length teid seq spare p)
    else if 12 <=? u16 (4 + length) then
      do p <- slice b 12 (N.to_nat (u16 (4 + length)));
      Ok (Hdr2 flags typ length teid seq spare p)
    else Err EInvalidLength
  else
    do s <- slice b 4 7; let seq := uint24to32 s in
    do spare <- idx b 7;
    if (l <? N.to_nat length + 4)%nat then
      do p <- slice_from b 8; Ok (Hdr2 flags typ length 0 seq spare p)
    else if 8 <=? u16 (4 + length) then
      do p <- slice b 8 (N.to_nat (u16 (4 + length)));
      Ok (Hdr2 flags typ length 0 seq spare p)
    else Err EInvalidLength.

(** gtpv2/message/header.go:176-178 SetPiggybacking: (Flags & 0xef) | (val & 0x01 << 4);
    in Go << and & have the same precedence, so val & 0x01 << 4 is (val & 0x01) << 4. *)
Definition h2_set_piggy (h : hdr2) (v : N) : hdr2 :=
  h2_set_flags h (N.lor (N.land (h2_flags h) 239) (u8 (N.shiftl (N.land v 1) 4))).
(** gtpv2/message/header.go:185-190 teid() *)
Definition h2_get_teid (h : hdr2) : N := if h2_has_teid h then h2_teid h else 0.
(** gtpv2/message/header.go:193-196 SetTEID *)
Definition h2_set_teid (h : hdr2) (teid : N) : hdr2 :=
  Hdr2 (N.lor (h2_flags h) 8) (h2_type h) (h2_length h) teid (h2_seq h) (h2_spare h) (h2_payload h).
(** gtpv2/message/header.go:204-206 SetSequenceNumber *)
Definition h2_set_seq (h : hdr2) (seq : N) : hdr2 :=
  Hdr2 (h2_flags h) (h2_type h) (h2_length h) (h2_teid h) seq (h2_spare h) (h2_payload h).
(** gtpv2/message/header.go:215-218 SetMessagePriority *)
Definition h2_set_prio (h : hdr2) (mp : N) : hdr2 :=
  Hdr2 (N.lor (h2_flags h) 4) (h2_type h) (h2_length h) (h2_teid h) (h2_seq h) (N.land mp 240) (h2_payload h).
(** gtpv2/message/header.go:224-226 MessagePriority *)
Definition h2_prio (h : hdr2) : N := N.land (h2_spare h) 240.
