(** Model of gtp.go: the version dispatch over the three protocol versions.  No proofs here. *)
From Verif Require Import Base V2Header V2Msg V1Header V1Msg V0Header V0Msg MsgModel.

Inductive gtp_pdu : Type := G0 (p : pdu0) | G1 (p : pdu1) | G2 (d : mdesc) (m : msg2).

(** gtp.go:39-54 Parse; [g] is the v2 package's grouped-type predicate *)
Definition gtp_parse (g : N -> bool) (b : bytes) : res gtp_pdu :=
  if (len b <? 8)%nat then Err ETooShortToParse else
  do f <- idx b 0;
  match N.shiftr f 5 with
  | 0 => do p <- v0_parse b; Ok (G0 p)
  | 1 => do p <- v1_parse b; Ok (G1 p)
  | 2 => do p <- v2_parse g b; Ok (G2 (fst p) (snd p))
  | _ => Err EInvalidVersion
  end.
