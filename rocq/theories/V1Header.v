(** Model of gtpv1/message/header.go and gtpv1/message/extension-header.go.  No proofs here. *)
From Verif Require Import Base.

(** gtpv1/message/extension-header.go:28-33 ExtensionHeader *)
Record ext1 : Type := Ext1 { eh_type : N; eh_length : N; eh_content : bytes; eh_next : N }.

(** extension-header.go:157-159 pad4Len: (4-n)&3 on a possibly negative int is (4-n) mod 4 *)
Definition pad4 (n : nat) : nat := (n + (4 - n mod 4) mod 4)%nat.
(** extension-header.go:132-134 MarshalLen *)
Definition eh_mlen (e : ext1) : nat := pad4 (len (eh_content e) + 2).
(** extension-header.go:137-139 SetLength *)
Definition eh_set_length (e : ext1) : ext1 :=
  Ext1 (eh_type e) (u8 (N.of_nat (pad4 (len (eh_content e) + 2) / 4))) (eh_content e) (eh_next e).
(** extension-header.go:40-49 NewExtensionHeader *)
Definition new_ext1 (t : N) (content : bytes) (next : N) : ext1 := eh_set_length (Ext1 t 0 content next).

(** extension-header.go:61-76 MarshalTo.  [offset = Length*4-1]; with Length = 0 it is -1
    and copy(b[1:-1]) panics. *)
Definition eh_mto (e : ext1) (b : bytes) : res bytes :=
  let l := len b in
  if (l <? eh_mlen e)%nat then Err ETooShortToMarshal else
  do b <- set_idx b 0 (eh_length e);
  let n := (4 * N.to_nat (eh_length e))%nat in
  if (l <? n)%nat then Err ETooShortToMarshal else
  match n with
  | O => Panic
  | S off => do b <- copy_at b 1 off (eh_content e); set_idx b off (eh_next e)
  end.
(** extension-header.go:52-58 Marshal *)
Definition eh_marshal (e : ext1) : res bytes := eh_mto e (zeros (eh_mlen e)).

(** extension-header.go:79-107 ParseExtensionHeader / UnmarshalBinary *)
Definition eh_parse (b : bytes) : res ext1 :=
  let l := len b in
  if (l <? 2)%nat then Err ETooShortToParse else
  do n <- idx b 0;
  if n =? 0 then Err EInvalidLength else
  let off := (4 * N.to_nat n - 1)%nat in
  if (l <? off + 1)%nat then Err ETooShortToParse else
  do c <- slice b 1 off;
  do nx <- idx b off;
  Ok (Ext1 0 n c nx).

(** extension-header.go:110-129 ParseMultiExtensionHeaders: a for loop that ends at an
    error or at a header whose NextType is 0.  Every header consumes at least four bytes,
    so the fuel given by [eh_multi] suffices. *)
Fixpoint eh_multi_f (fuel : nat) (next : N) (b : bytes) : res (list ext1) :=
  match fuel with
  | O => Panic
  | S f =>
      do e0 <- eh_parse b;
      let e := Ext1 next (eh_length e0) (eh_content e0) (eh_next e0) in
      do b' <- slice_from b (eh_mlen e);
      if eh_next e =? 0 then Ok [e] else
      do r <- eh_multi_f f (eh_next e) b';
      Ok (e :: r)
  end.
Definition eh_multi (b : bytes) : res (list ext1) := eh_multi_f (S (len b)) 0 b.

(** gtpv1/message/header.go:13-23 Header *)
Record hdr1 : Type := Hdr1 {
  h1_flags : N; h1_type : N; h1_length : N; h1_teid : N; h1_seq : N; h1_npdu : N;
  h1_next : N; h1_exts : list ext1; h1_payload : bytes }.

(** header.go:192-194, 210-212, 228-230 HasSequence, HasNPDUNumber, HasExtensionHeader *)
Definition f1_s (f : N) : bool := N.land (N.shiftr f 1) 1 =? 1.
Definition f1_pn (f : N) : bool := N.land f 1 =? 1.
Definition f1_e (f : N) : bool := N.land (N.shiftr f 2) 1 =? 1.
Definition f1_opt (f : N) : bool := f1_s f || f1_pn f || f1_e f.

(** header.go:245-258 MarshalLen *)
Definition h1_mlen (h : hdr1) : nat :=
  (len (h1_payload h) + 8 + (if f1_opt (h1_flags h) then 4 else 0)
   + (if f1_e (h1_flags h) then list_sum (map eh_mlen (h1_exts h)) else 0))%nat.

Definition h1_set_payload (h : hdr1) (p : bytes) : hdr1 :=
  Hdr1 (h1_flags h) (h1_type h) (h1_length h) (h1_teid h) (h1_seq h) (h1_npdu h) (h1_next h) (h1_exts h) p.
Definition h1_set_len (h : hdr1) (l : N) : hdr1 :=
  Hdr1 (h1_flags h) (h1_type h) l (h1_teid h) (h1_seq h) (h1_npdu h) (h1_next h) (h1_exts h) (h1_payload h).
(** header.go:261-263 SetLength *)
Definition h1_set_length (h : hdr1) : hdr1 := h1_set_len h (u16 (N.of_nat (h1_mlen h - 8))).
(** header.go:26-38 NewHeader *)
Definition new_hdr1 (flags mtype teid seq : N) (p : bytes) : hdr1 :=
  h1_set_length (Hdr1 flags mtype 0 teid seq 0 0 [] p).
(** header.go:55-59 NewHeaderFlags *)
Definition new_hdr1_flags (v p e s n : N) : N :=
  u8 (N.lor (N.lor (N.lor (N.lor (N.shiftl (N.land v 7) 5) (N.shiftl (N.land p 1) 4)) (N.shiftl (N.land e 1) 2))
       (N.shiftl (N.land s 1) 1)) (N.land n 1)).
(** header.go:181-184 SetTEID: bit 4 of a GTPv1 header is spare, not a TEID flag *)
Definition h1_set_teid (h : hdr1) (teid : N) : hdr1 :=
  Hdr1 (N.lor (h1_flags h) 8) (h1_type h) (h1_length h) teid (h1_seq h) (h1_npdu h) (h1_next h) (h1_exts h) (h1_payload h).
(** header.go:197-201 SetSequenceNumber (203-206 WithSequenceNumber) *)
Definition h1_set_seq (h : hdr1) (seq : N) : hdr1 :=
  h1_set_length (Hdr1 (N.lor (h1_flags h) 2) (h1_type h) (h1_length h) (h1_teid h) seq (h1_npdu h) (h1_next h) (h1_exts h) (h1_payload h)).
(** header.go:215-219 SetNPDUNumber (222-225 WithNPDUNumber) *)
Definition h1_set_npdu (h : hdr1) (n : N) : hdr1 :=
  h1_set_length (Hdr1 (N.lor (h1_flags h) 1) (h1_type h) (h1_length h) (h1_teid h) (h1_seq h) n (h1_next h) (h1_exts h) (h1_payload h)).
(** header.go:41-45 NewHeaderWithNPDUNumber *)
Definition new_hdr1_npdu (flags mtype teid seq npdu : N) (p : bytes) : hdr1 :=
  h1_set_npdu (new_hdr1 flags mtype teid seq p) npdu.
(** header.go:233-236 SetNextExtensionHeaderType: Length is not updated *)
Definition h1_set_next (h : hdr1) (t : N) : hdr1 :=
  Hdr1 (N.lor (h1_flags h) 4) (h1_type h) (h1_length h) (h1_teid h) (h1_seq h) (h1_npdu h) t (h1_exts h) (h1_payload h).

(** header.go:296-319 AddExtensionHeaders; the second component tells whether an error
    was returned.  On an error the header keeps what was appended before. *)
Fixpoint add_exts (next : N) (acc es : list ext1) : list ext1 * option N :=
  match es with
  | [] => (acc, Some next)
  | e :: r => if next =? eh_type e then add_exts (eh_next e) (acc ++ [e]) r else (acc, None)
  end.
Definition h1_add_exts (h : hdr1) (es : list ext1) : hdr1 * bool :=
  match es with
  | [] => (h, false)
  | e :: _ =>
      let r := add_exts (eh_type e) (h1_exts h) es in
      let h' := Hdr1 (N.lor (h1_flags h) 4) (h1_type h) (h1_length h) (h1_teid h) (h1_seq h) (h1_npdu h)
                     (eh_type e) (fst r) (h1_payload h) in
      match snd r with
      | Some 0 => (h1_set_length h', false)
      | _ => (h', true)
      end
  end.
(** header.go:48-52 NewHeaderWithExtensionHeaders: the error is discarded *)
Definition new_hdr1_exts (flags mtype teid seq : N) (p : bytes) (es : list ext1) : hdr1 :=
  fst (h1_add_exts (new_hdr1 flags mtype teid seq p) es).

(** header.go:100-105 the loop over the extension headers *)
Fixpoint exts_mto (es : list ext1) (off : nat) (b : bytes) : res (bytes * nat) :=
  match es with
  | [] => Ok (b, off)
  | e :: r => do b' <- on_slice_from b off (eh_mto e); exts_mto r (off + eh_mlen e) b'
  end.
(** header.go:71-110 MarshalTo *)
Definition h1_mto (h : hdr1) (b : bytes) : res bytes :=
  if (len b <? h1_mlen h)%nat then Err ETooShortToMarshal else
  do b <- set_idx b 0 (h1_flags h);
  do b <- set_idx b 1 (h1_type h);
  do b <- on_slice b 2 4 (put16 (h1_length h));
  do b <- on_slice b 4 8 (put32 (h1_teid h));
  do b <- (if f1_s (h1_flags h) then on_slice b 8 10 (put16 (h1_seq h)) else Ok b);
  do b <- (if f1_pn (h1_flags h) then set_idx b 10 (h1_npdu h) else Ok b);
  do b <- (if f1_e (h1_flags h) then set_idx b 11 (h1_next h) else Ok b);
  let off := if f1_opt (h1_flags h) then 12%nat else 8%nat in
  do r <- (if f1_e (h1_flags h) then exts_mto (h1_exts h) off b else Ok (b, off));
  let '(b, off) := r in
  copy_from b off (h1_payload h).
(** header.go:62-68 Marshal *)
Definition h1_marshal (h : hdr1) : res bytes := h1_mto h (zeros (h1_mlen h)).

(** header.go:166 h.ExtensionHeaders[0].Type = ... *)
Definition set_first_type (es : list ext1) (t : N) : res (list ext1) :=
  match es with
  | [] => Panic
  | e :: r => Ok (Ext1 t (eh_length e) (eh_content e) (eh_next e) :: r)
  end.
(** header.go:113-178 ParseHeader / UnmarshalBinary; 8+h.Length in the last line is uint16 *)
Definition h1_parse (b : bytes) : res hdr1 :=
  let l := len b in
  if (l <? 8)%nat then Err ETooShortToParse else
  do flags <- idx b 0;
  do typ <- idx b 1;
  do s <- slice b 2 4; do length <- be16 s;
  do s <- slice b 4 8; do teid <- be32 s;
  if (l <? N.to_nat length + 8)%nat then Err ETooShortToParse else
  do o <- (if f1_opt flags then
             if length <? 4 then Err ETooShortToParse else
             do seq <- (if f1_s flags then do s <- slice b 8 10; be16 s else Ok 0);
             do np <- (if f1_pn flags then idx b 10 else Ok 0);
             do nx <- (if f1_e flags then idx b 11 else Ok 0);
             Ok (seq, np, nx, 12%nat)
           else Ok (0, 0, 0, 8%nat));
  let '(seq, np, nx, off) := o in
  do x <- (if f1_e flags then
             do s <- slice_from b off;
             do es <- eh_multi s;
             do es <- set_first_type es nx;
             Ok (es, (off + list_sum (map eh_mlen es))%nat)
           else Ok ([], off));
  let '(es, off) := x in
  if (N.to_nat length + 8 <? off)%nat then Err EInvalidLength else
  do p <- slice b off (N.to_nat (u16 (8 + length)));
  Ok (Hdr1 flags typ length teid seq np nx es p).
