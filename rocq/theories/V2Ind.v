(** Model of gtpv2/ie/indication.go.  Printed by tools/gen_ind.py from that file, one entry per
    statement or accessor.  No proofs here. *)
From Coq Require Import String.
From Verif Require Import Base V2IE V2Codec.
Open Scope string_scope.
Open Scope N_scope.
Open Scope list_scope.

(** indication.go:17-26: the parameters of NewIndication, in order *)
Definition ind_params : list string := [
  "daf"; "dtf"; "hi"; "dfi"; "oi"; "isrsi"; "israi"; "sgwci";
  "sqci"; "uimsi"; "cfsi"; "crsi"; "ps"; "pt"; "si"; "msv";
  "retLoc"; "pbic"; "srni"; "s6af"; "s4af"; "mbmdt"; "israu"; "ccrsi";
  "cprai"; "arrl"; "ppoff"; "ppon"; "ppsi"; "csfbi"; "clii"; "cpsr";
  "nsi"; "uasi"; "dtci"; "bdwi"; "psci"; "pcri"; "aosi"; "aopi";
  "roaai"; "epcosi"; "cpopci"; "pmtmsi"; "s11tf"; "pnsi"; "unaccsi"; "wpmsi";
  "fgsnn26"; "reprefi"; "fgsiwk"; "eevrsi"; "ltemui"; "ltempi"; "enbcrsi"; "tspcmi";
  "csrmfi"; "mtedtn"; "mtedta"; "n5gnmi"; "fgcnrs"; "fgcnri"; "fsrhoi"; "ethpdn";
  "sp98"; "sp97"; "sp96"; "sp95"; "sp94"; "sp93"; "sp92"; "emci"].

(** indication.go:29-108: [i.Payload[o] |= (p << s)] as (o, position of p, s) *)
Definition ind_puts : list (nat * nat * N) := [
  (0, 7, 0%N)%nat (* sgwci, 29 *);
  (0, 6, 1%N)%nat (* israi, 30 *);
  (0, 5, 2%N)%nat (* isrsi, 31 *);
  (0, 4, 3%N)%nat (* oi, 32 *);
  (0, 3, 4%N)%nat (* dfi, 33 *);
  (0, 2, 5%N)%nat (* hi, 34 *);
  (0, 1, 6%N)%nat (* dtf, 35 *);
  (0, 0, 7%N)%nat (* daf, 36 *);
  (1, 15, 0%N)%nat (* msv, 38 *);
  (1, 14, 1%N)%nat (* si, 39 *);
  (1, 13, 2%N)%nat (* pt, 40 *);
  (1, 12, 3%N)%nat (* ps, 41 *);
  (1, 11, 4%N)%nat (* crsi, 42 *);
  (1, 10, 5%N)%nat (* cfsi, 43 *);
  (1, 9, 6%N)%nat (* uimsi, 44 *);
  (1, 8, 7%N)%nat (* sqci, 45 *);
  (2, 23, 0%N)%nat (* ccrsi, 47 *);
  (2, 22, 1%N)%nat (* israu, 48 *);
  (2, 21, 2%N)%nat (* mbmdt, 49 *);
  (2, 20, 3%N)%nat (* s4af, 50 *);
  (2, 19, 4%N)%nat (* s6af, 51 *);
  (2, 18, 5%N)%nat (* srni, 52 *);
  (2, 17, 6%N)%nat (* pbic, 53 *);
  (2, 16, 7%N)%nat (* retLoc, 54 *);
  (3, 31, 0%N)%nat (* cpsr, 56 *);
  (3, 30, 1%N)%nat (* clii, 57 *);
  (3, 29, 2%N)%nat (* csfbi, 58 *);
  (3, 28, 3%N)%nat (* ppsi, 59 *);
  (3, 27, 4%N)%nat (* ppon, 60 *);
  (3, 26, 5%N)%nat (* ppoff, 61 *);
  (3, 25, 6%N)%nat (* arrl, 62 *);
  (3, 24, 7%N)%nat (* cprai, 63 *);
  (4, 39, 0%N)%nat (* aopi, 65 *);
  (4, 38, 1%N)%nat (* aosi, 66 *);
  (4, 37, 2%N)%nat (* pcri, 67 *);
  (4, 36, 3%N)%nat (* psci, 68 *);
  (4, 35, 4%N)%nat (* bdwi, 69 *);
  (4, 34, 5%N)%nat (* dtci, 70 *);
  (4, 33, 6%N)%nat (* uasi, 71 *);
  (4, 32, 7%N)%nat (* nsi, 72 *);
  (5, 47, 0%N)%nat (* wpmsi, 74 *);
  (5, 46, 1%N)%nat (* unaccsi, 75 *);
  (5, 45, 2%N)%nat (* pnsi, 76 *);
  (5, 44, 3%N)%nat (* s11tf, 77 *);
  (5, 43, 4%N)%nat (* pmtmsi, 78 *);
  (5, 42, 5%N)%nat (* cpopci, 79 *);
  (5, 41, 6%N)%nat (* epcosi, 80 *);
  (5, 40, 7%N)%nat (* roaai, 81 *);
  (6, 55, 0%N)%nat (* tspcmi, 83 *);
  (6, 54, 1%N)%nat (* enbcrsi, 84 *);
  (6, 53, 2%N)%nat (* ltempi, 85 *);
  (6, 52, 3%N)%nat (* ltemui, 86 *);
  (6, 51, 4%N)%nat (* eevrsi, 87 *);
  (6, 50, 5%N)%nat (* fgsiwk, 88 *);
  (6, 49, 6%N)%nat (* reprefi, 89 *);
  (6, 48, 7%N)%nat (* fgsnn26, 90 *);
  (7, 63, 0%N)%nat (* ethpdn, 92 *);
  (7, 62, 1%N)%nat (* fsrhoi, 93 *);
  (7, 61, 2%N)%nat (* fgcnri, 94 *);
  (7, 60, 3%N)%nat (* fgcnrs, 95 *);
  (7, 59, 4%N)%nat (* n5gnmi, 96 *);
  (7, 58, 5%N)%nat (* mtedta, 97 *);
  (7, 57, 6%N)%nat (* mtedtn, 98 *);
  (7, 56, 7%N)%nat (* csrmfi, 99 *);
  (8, 71, 0%N)%nat (* emci, 101 *);
  (8, 70, 1%N)%nat (* sp92, 102 *);
  (8, 69, 2%N)%nat (* sp93, 103 *);
  (8, 68, 3%N)%nat (* sp94, 104 *);
  (8, 67, 4%N)%nat (* sp95, 105 *);
  (8, 66, 5%N)%nat (* sp96, 106 *);
  (8, 65, 6%N)%nat (* sp97, 107 *);
  (8, 64, 7%N)%nat (* sp98, 108 *)].

(** indication.go:165-1007: Has<name> is [len(v) < n => false; hasNthBit(v[o])], as
    (name, n, o, bit from 0) *)
Definition ind_has : list (string * (nat * nat * N)) := [
  ("SGWCI", (1, 0, 0%N)%nat) (* 165-175 *);
  ("ISRAI", (1, 0, 1%N)%nat) (* 178-188 *);
  ("ISRSI", (1, 0, 2%N)%nat) (* 191-201 *);
  ("OI", (1, 0, 3%N)%nat) (* 204-214 *);
  ("DFI", (1, 0, 4%N)%nat) (* 217-227 *);
  ("HI", (1, 0, 5%N)%nat) (* 230-240 *);
  ("DTF", (1, 0, 6%N)%nat) (* 243-253 *);
  ("DAF", (1, 0, 7%N)%nat) (* 256-266 *);
  ("MSV", (2, 1, 0%N)%nat) (* 269-279 *);
  ("SI", (2, 1, 1%N)%nat) (* 282-292 *);
  ("PT", (2, 1, 2%N)%nat) (* 295-305 *);
  ("PS", (2, 1, 3%N)%nat) (* 308-318 *);
  ("CRSI", (2, 1, 4%N)%nat) (* 321-331 *);
  ("CFSI", (2, 1, 5%N)%nat) (* 334-344 *);
  ("UIMSI", (2, 1, 6%N)%nat) (* 347-357 *);
  ("SQCI", (2, 1, 7%N)%nat) (* 360-370 *);
  ("CCRSI", (3, 2, 0%N)%nat) (* 373-383 *);
  ("ISRAU", (3, 2, 1%N)%nat) (* 386-396 *);
  ("MBMDT", (3, 2, 2%N)%nat) (* 399-409 *);
  ("S4AF", (3, 2, 3%N)%nat) (* 412-422 *);
  ("S6AF", (3, 2, 4%N)%nat) (* 425-435 *);
  ("SRNI", (3, 2, 5%N)%nat) (* 438-448 *);
  ("PBIC", (3, 2, 6%N)%nat) (* 451-461 *);
  ("RETLOC", (3, 2, 7%N)%nat) (* 464-474 *);
  ("CPSR", (4, 3, 0%N)%nat) (* 477-487 *);
  ("CLII", (4, 3, 1%N)%nat) (* 490-500 *);
  ("CSFBI", (4, 3, 2%N)%nat) (* 503-513 *);
  ("PPSI", (4, 3, 3%N)%nat) (* 516-526 *);
  ("PPON", (4, 3, 4%N)%nat) (* 529-539 *);
  ("PPOF", (4, 3, 5%N)%nat) (* 542-552 *);
  ("ARRL", (4, 3, 6%N)%nat) (* 555-565 *);
  ("CPRAI", (4, 3, 7%N)%nat) (* 568-578 *);
  ("AOPI", (5, 4, 0%N)%nat) (* 581-591 *);
  ("AOSI", (5, 4, 1%N)%nat) (* 594-604 *);
  ("PCRI", (5, 4, 2%N)%nat) (* 607-617 *);
  ("PSCI", (5, 4, 3%N)%nat) (* 620-630 *);
  ("BDWI", (5, 4, 4%N)%nat) (* 633-643 *);
  ("DTCI", (5, 4, 5%N)%nat) (* 646-656 *);
  ("UASI", (5, 4, 6%N)%nat) (* 659-669 *);
  ("NSI", (5, 4, 7%N)%nat) (* 672-682 *);
  ("WPMSI", (6, 5, 0%N)%nat) (* 685-695 *);
  ("UNACCSI", (6, 5, 1%N)%nat) (* 698-708 *);
  ("PNSI", (6, 5, 2%N)%nat) (* 711-721 *);
  ("S11TF", (6, 5, 3%N)%nat) (* 724-734 *);
  ("PMTMSI", (6, 5, 4%N)%nat) (* 737-747 *);
  ("CPOPCI", (6, 5, 5%N)%nat) (* 750-760 *);
  ("EPCOSI", (6, 5, 6%N)%nat) (* 763-773 *);
  ("ROAAI", (6, 5, 7%N)%nat) (* 776-786 *);
  ("TSPCMI", (7, 6, 0%N)%nat) (* 789-799 *);
  ("ENBCRSI", (7, 6, 1%N)%nat) (* 802-812 *);
  ("LTEMPI", (7, 6, 2%N)%nat) (* 815-825 *);
  ("LTEMUI", (7, 6, 3%N)%nat) (* 828-838 *);
  ("EEVRSI", (7, 6, 4%N)%nat) (* 841-851 *);
  ("5GSIWK", (7, 6, 5%N)%nat) (* 854-864 *);
  ("REPREFI", (7, 6, 6%N)%nat) (* 867-877 *);
  ("5GSNN26", (7, 6, 7%N)%nat) (* 880-890 *);
  ("ETHPDN", (8, 7, 0%N)%nat) (* 893-903 *);
  ("5SRHOI", (8, 7, 1%N)%nat) (* 906-916 *);
  ("5GCNRI", (8, 7, 2%N)%nat) (* 919-929 *);
  ("5GCNRS", (8, 7, 3%N)%nat) (* 932-942 *);
  ("N5GNMI", (8, 7, 4%N)%nat) (* 945-955 *);
  ("MTEDTA", (8, 7, 5%N)%nat) (* 958-968 *);
  ("MTEDTN", (8, 7, 6%N)%nat) (* 971-981 *);
  ("CSRMFI", (8, 7, 7%N)%nat) (* 984-994 *);
  ("EMCI", (9, 8, 0%N)%nat) (* 997-1007 *)].

Section G.
Context (g : N -> bool).
(** one statement [b[o] |= (p << s)], uint8 arithmetic *)
Definition ind_put (args : list N) (b : bytes) (x : nat * nat * N) : res bytes :=
  let '(o, j, s) := x in
  do old <- idx b o;
  set_idx b o (N.lor old (u8 (N.shiftl (nth j args 0) s))).
Fixpoint ind_put_all (args : list N) (xs : list (nat * nat * N)) (b : bytes) : res bytes :=
  match xs with [] => Ok b | x :: r => do b <- ind_put args b x; ind_put_all args r b end.
(** indication.go:17-110 NewIndication; [args] are its 72 arguments *)
Definition new_indication (args : list N) : res ie2 :=
  let i := new2 g 77 0 (zeros 9) in
  do p <- ind_put_all args ind_puts (i2_payload i);
  Ok (IE2 (i2_type i) (i2_length i) (i2_instance i) p (i2_children i)).
(** strconv.Atoi of a one-character string *)
Definition atoi1 (c : N) : option N := if (48 <=? c) && (c <=? 57) then Some (c - 48) else None.
(** indication.go:121-136: the loop.  A character that is not an ASCII digit gives nil,
    so the difference between bytes and runes does not show. *)
Fixpoint ind_bits (i : nat) (s b : bytes) : res (option bytes) :=
  match s with
  | [] => Ok (Some b)
  | c :: r =>
      match atoi1 c with
      | None => Ok None
      | Some v =>
          let bit := if 1 <? v then 1 else v in
          do old <- idx b (i / 8);
          do b <- set_idx b (i / 8) (N.lor old (u8 (N.shiftl bit (N.of_nat (8 * (i / 8 + 1) - i - 1)))));
          ind_bits (S i) r b
      end
  end.
(** indication.go:115-140 NewIndicationFromBitSequence *)
Definition new_indication_bits (s : bytes) : res (option ie2) :=
  if negb (len s =? 72)%nat then Ok None else
  let i := new2 g 77 0 (zeros 9) in
  do p <- ind_bits 0 s (i2_payload i);
  Ok (match p with
      | Some p => Some (IE2 (i2_type i) (i2_length i) (i2_instance i) p (i2_children i))
      | None => None
      end).
(** indication.go:143-153 NewIndicationFromOctets *)
Definition new_indication_octets (octs : bytes) : ie2 :=
  set_length2 g (IE2 77 0 0 (firstn 9 octs) []).
(** indication.go:156-162 Indication *)
Definition acc_indication : ie2 -> res bytes := typed 77 (fun i => Ok (i2_payload i)).
(** indication.go:165-1007 Has<name> *)
Definition has_of (x : nat * nat * N) (i : ie2) : res bool :=
  let '(n, o, k) := x in
  match acc_indication i with
  | Err _ => Ok false
  | Panic => Panic
  | Ok v => if (len v <? n)%nat then Ok false else do x <- idx v o; Ok (hasbit k x)
  end.
Definition has_ind (name : string) (i : ie2) : option (res bool) :=
  match find (fun e => String.eqb (fst e) name) ind_has with
  | Some e => Some (has_of (snd e) i)
  | None => None
  end.
End G.
