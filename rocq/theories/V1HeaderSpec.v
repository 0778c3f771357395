(** GTPv1 header and extension headers on the wire (TS 29.060 clause 6, TS 29.281 clause 5),
    written without reference to the marshalling functions of the model. *)
From Verif Require Import Base V1Header.

(** Octets of one extension header; [old] is what the destination held before. The length
    octet counts units of four octets; content shorter than the unit is not filled up. *)
Definition eh_pad (e : ext1) : nat := (4 * N.to_nat (eh_length e) - 2 - len (eh_content e))%nat.
Definition eh_octets (old : bytes) (e : ext1) : bytes :=
  [eh_length e] ++ eh_content e ++ firstn (eh_pad e) (skipn (1 + len (eh_content e)) old) ++ [eh_next e].
Fixpoint exts_octets (old : bytes) (es : list ext1) : bytes :=
  match es with
  | [] => []
  | e :: r => eh_octets old e ++ exts_octets (skipn (4 * N.to_nat (eh_length e)) old) r
  end.

(** Octets of an extension header marshalled into a fresh buffer *)
Definition eh_wire (e : ext1) : bytes := [eh_length e] ++ (eh_content e ++ zeros (eh_pad e)) ++ [eh_next e].

(** Octets of a header and its payload: flags, type, length, TEID; the four optional octets
    if any of E (4), S (2), PN (1) is set; the extension headers if E is set. Optional octets
    whose flag is not set keep what the destination held. *)
Definition h1_octets (old : bytes) (h : hdr1) : bytes :=
  let f := h1_flags h in
  let e := N.testbit f 2 in let s := N.testbit f 1 in let pn := N.testbit f 0 in
  [f; h1_type h] ++ enc16 (h1_length h) ++ enc32 (h1_teid h) ++
  (if e || s || pn then
     (if s then enc16 (h1_seq h) else firstn 2 (skipn 8 old)) ++
     (if pn then [h1_npdu h] else firstn 1 (skipn 10 old)) ++
     (if e then [h1_next h] else firstn 1 (skipn 11 old))
   else []) ++
  (if e then exts_octets (skipn 12 old) (h1_exts h) else []) ++
  h1_payload h.

(** An extension header the one-octet length can express, with that length. *)
Record eh_ok (e : ext1) : Prop := {
  eho_type : eh_type e < 256; eho_next : eh_next e < 256; eho_bytes : bytes_ok (eh_content e);
  eho_len : eh_length e < 256;
  eho_fit : (len (eh_content e) + 2 <= 4 * N.to_nat (eh_length e) < len (eh_content e) + 6)%nat }.

(** The type of each extension header is announced by its predecessor; the last announces 0. *)
Fixpoint eh_chain (t : N) (es : list ext1) : Prop :=
  match es with
  | [] => t = 0
  | e :: r => t <> 0 /\ eh_type e = t /\ eh_chain (eh_next e) r
  end.

(** Header fields in range; with the E flag the extension headers form a non-empty chain.
    Nothing about payload and Length. *)
Record h1_ok (h : hdr1) : Prop := {
  h1o_flags : h1_flags h < 256; h1o_type : h1_type h < 256; h1o_teid : h1_teid h < 4294967296;
  h1o_seq : h1_seq h < 65536; h1o_npdu : h1_npdu h < 256; h1o_next : h1_next h < 256;
  h1o_exts : N.testbit (h1_flags h) 2 = true ->
             Forall eh_ok (h1_exts h) /\ h1_exts h <> [] /\
             exists e r, h1_exts h = e :: r /\ eh_type e = h1_next h /\ eh_chain (eh_next e) r }.

(** What a receiver can know of a header: fields whose flag is not set are gone, and short
    extension header contents come back filled up with zeros. *)
Definition eh_known (e : ext1) : ext1 :=
  Ext1 (eh_type e) (eh_length e) (eh_content e ++ zeros (eh_pad e)) (eh_next e).
Definition h1_known (h : hdr1) : hdr1 :=
  let f := h1_flags h in
  Hdr1 f (h1_type h) (h1_length h) (h1_teid h)
       (if N.testbit f 1 then h1_seq h else 0) (if N.testbit f 0 then h1_npdu h else 0)
       (if N.testbit f 2 then h1_next h else 0)
       (if N.testbit f 2 then map eh_known (h1_exts h) else []) (h1_payload h).
