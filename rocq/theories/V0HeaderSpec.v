(** GTPv0 header as octets (GSM 09.60 §6). Independent of V0Header.v's functions. *)
From Verif Require Import Base V0Header.

(** flags, type, length, sequence number, flow label, SNDCP N-PDU number, three octets
    all ones, TID, payload *)
Definition h0_octets (h : hdr0) : bytes :=
  [h0_flags h; h0_type h] ++ enc16 (h0_length h) ++ enc16 (h0_seq h) ++ enc16 (h0_label h) ++
  [h0_sndcp h; 255; 255; 255] ++ enc64 (h0_tid h) ++ h0_payload h.

(** fields in range; nothing about payload and Length *)
Record h0_ok (h : hdr0) : Prop := {
  h0o_flags : h0_flags h < 256; h0o_type : h0_type h < 256; h0o_seq : h0_seq h < 65536;
  h0o_sndcp : h0_sndcp h < 256; h0o_label : h0_label h < 65536;
  h0o_tid : h0_tid h < 18446744073709551616 }.

(** What ParseHeader reports: the SNDCP number is read from the octet after it, which is
    always 255. *)
Definition h0_known (h : hdr0) : hdr0 :=
  Hdr0 (h0_flags h) (h0_type h) (h0_length h) (h0_seq h) 255 (h0_label h) (h0_tid h) (h0_payload h).
