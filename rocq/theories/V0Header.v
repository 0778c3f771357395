(** Model of gtpv0/message/header.go.  No proofs here. *)
From Verif Require Import Base Utils.

(** gtpv0/message/header.go:15-24 Header *)
Record hdr0 : Type := Hdr0 {
  h0_flags : N; h0_type : N; h0_length : N; h0_seq : N; h0_sndcp : N; h0_label : N;
  h0_tid : N; h0_payload : bytes }.

Definition h0_set_payload (h : hdr0) (p : bytes) : hdr0 :=
  Hdr0 (h0_flags h) (h0_type h) (h0_length h) (h0_seq h) (h0_sndcp h) (h0_label h) (h0_tid h) p.
Definition h0_set_len (h : hdr0) (l : N) : hdr0 :=
  Hdr0 (h0_flags h) (h0_type h) l (h0_seq h) (h0_sndcp h) (h0_label h) (h0_tid h) (h0_payload h).
(** header.go:108-110 MarshalLen *)
Definition h0_mlen (h : hdr0) : nat := (20 + len (h0_payload h))%nat.
(** header.go:113-115 SetLength *)
Definition h0_set_length (h : hdr0) : hdr0 := h0_set_len h (u16 (N.of_nat (len (h0_payload h)))).
(** header.go:27-40 NewHeader *)
Definition new_hdr0 (flags mtype seq label tid : N) (p : bytes) : hdr0 :=
  h0_set_length (Hdr0 flags mtype 0 seq 255 label tid p).
(** header.go:43-47 HeaderFlags *)
Definition hdr0_flags (v p s : N) : N :=
  u8 (N.lor (N.lor (N.lor (N.shiftl (N.land v 7) 5) (N.shiftl (N.land p 1) 4)) (N.land s 1)) 14).

(** header.go:59-74 MarshalTo *)
Definition h0_mto (h : hdr0) (b : bytes) : res bytes :=
  if (len b <? h0_mlen h)%nat then Err ETooShortToMarshal else
  do b <- set_idx b 0 (h0_flags h);
  do b <- set_idx b 1 (h0_type h);
  do b <- on_slice b 2 4 (put16 (h0_length h));
  do b <- on_slice b 4 6 (put16 (h0_seq h));
  do b <- on_slice b 6 8 (put16 (h0_label h));
  do b <- on_slice b 8 12 (put32 (u32 (N.lor (N.shiftl (h0_sndcp h) 24) 16777215)));
  do b <- on_slice b 12 20 (put64 (h0_tid h));
  copy_at b 20 (h0_mlen h) (h0_payload h).
(** header.go:50-56 Marshal *)
Definition h0_marshal (h : hdr0) : res bytes := h0_mto h (zeros (h0_mlen h)).

(** header.go:77-105 ParseHeader / UnmarshalBinary; 20+h.Length in the last slice is uint16 *)
Definition h0_parse (b : bytes) : res hdr0 :=
  let l := len b in
  if (l <? 20)%nat then Err ETooShortToParse else
  do flags <- idx b 0;
  do typ <- idx b 1;
  do s <- slice b 2 4; do length <- be16 s;
  do s <- slice b 4 6; do seq <- be16 s;
  do s <- slice b 6 8; do label <- be16 s;
  do sn <- idx b 9;
  do s <- slice b 12 20; do tid <- be64 s;
  if negb (N.to_nat length + 20 =? l)%nat then
    do p <- slice_from b 20; Ok (Hdr0 flags typ length seq sn label tid p)
  else
    do p <- slice b 20 (N.to_nat (u16 (20 + length)));
    Ok (Hdr0 flags typ length seq sn label tid p).

(** header.go:132-137 tid: the TID in human-readable form *)
Definition h0_tid_str (h : hdr0) : res bytes := swapped_to_str (enc64 (h0_tid h)) false.
