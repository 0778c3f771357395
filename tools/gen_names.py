#!/usr/bin/env python3
"""Print rocq/theories/MsgSelf.v from the MessageTypeName, TEID and TID methods of the messages."""
import glob, os, re
def table(v):
    rows, gen, ids = [], None, 0
    for p in sorted(glob.glob(f'/repo/gtpv{v}/message/*.go')):
        if p.endswith('_test.go'): continue
        L = open(p).read().split('\n')
        for i, l in enumerate(L):
            q = re.match(r'func \(\w+ \*(\w+)\) MessageTypeName\(\) string \{', l)
            if q:
                r = re.match(r'\treturn "(.*)"$', L[i+1])
                if r: rows.append((q.group(1), r.group(1), f'{os.path.basename(p)}:{i+1}-{i+3}'))
                else:
                    assert re.match(r'\treturn fmt.Sprintf\("Unknown \(%d\)", g\.(Header\.)?Type\)$', L[i+1]) and q.group(1) == 'Generic', L[i+1]
                    gen = f'{os.path.basename(p)}:{i+1}-{i+3}'
            q = re.match(r'func \((\w+) \*(\w+)\) (TEID\(\) uint32|TID\(\) string) \{', l)
            if q and q.group(2) != 'Header':
                want = {2: f'return {q.group(1)}.Header.teid()', 1: f'return {q.group(1)}.Header.TEID', 0: f'return {q.group(1)}.tid()'}[v]
                assert L[i+1].strip() == want, (p, L[i+1]); ids += 1
    assert gen and ids == len(rows) + 1, (v, ids, len(rows))
    return rows, gen
o = ['''(** What a message says about itself: MessageTypeName, MessageType, Version, Sequence and
    TEID / TID of every message.  Printed by tools/gen_names.py from gtpv{0,1,2}/message/*.go;
    it checks that every TEID method has the body modelled below.  No proofs here. *)
From Coq Require Import String Ascii.
From Verif Require Import Base V2Header V1Header V0Header.
Open Scope string_scope.
Open Scope N_scope.
Open Scope list_scope.

(** fmt.Sprintf("%d") of a uint8 *)
Definition digit_char (n : N) : string := String (ascii_of_N (48 + n)) EmptyString.
Definition dec8 (n : N) : string :=
  if n <? 10 then digit_char n
  else if n <? 100 then digit_char (n / 10) ++ digit_char (n mod 10)
  else digit_char (n / 100) ++ digit_char (n / 10 mod 10) ++ digit_char (n mod 10).
Fixpoint lookup (s : string) (l : list (string * string)) : option string :=
  match l with [] => None | (k, v) :: r => if String.eqb k s then Some v else lookup s r end.
(** MessageTypeName of a message of the structure named [s]; only Generic looks at the type *)
Definition name_of (tbl : list (string * string)) (s : string) (t : N) : string :=
  match lookup s tbl with Some n => n | None => "Unknown (" ++ dec8 t ++ ")" end.
''']
for v in (2, 1, 0):
    rows, gen = table(v)
    o.append(f'(** gtpv{v}/message: MessageTypeName by structure; any other is Generic ({gen}) *)')
    o.append(f'Definition names{v} : list (string * string) := [')
    o.append(';\n'.join(f'  ("{a}", "{b}") (* {c} *)' for a, b, c in rows) + '].\n')
o.append('''(** gtpv2/message/header.go:229-231, gtpv1/message/header.go:266-268, gtpv0/message/header.go:140-142 Version *)
Definition version2 (h : hdr2) : N := 2.
Definition version1 (h : hdr1) : N := 1.
Definition version0 (h : hdr0) : N := 0.
(** gtpv2/message/header.go:234-236, gtpv1/message/header.go:271-273, gtpv0/message/header.go:145-147 MessageType *)
Definition message_type2 (h : hdr2) : N := h2_type h.
Definition message_type1 (h : hdr1) : N := h1_type h.
Definition message_type0 (h : hdr0) : N := h0_type h.
(** gtpv2/message/header.go:199-201, gtpv1/message/header.go:187-189 Sequence *)
Definition sequence2 (h : hdr2) : N := h2_seq h.
Definition sequence1 (h : hdr1) : N := h1_seq h.
(** TEID of every GTPv2 message: Header.teid(), header.go:185-190 *)
Definition teid2 (h : hdr2) : N := h2_get_teid h.
(** TEID of every GTPv1 message: Header.TEID *)
Definition teid1 (h : hdr1) : N := h1_teid h.
(** TID of every GTPv0 message: Header.tid(), header.go:132-137 *)
Definition tid0 (h : hdr0) : res bytes := h0_tid_str h.
(** gtpv1/message/header.go:192-194 HasSequence, 210-212 HasNPDUNumber, 228-230 HasExtensionHeader *)
Definition has_sequence1 (h : hdr1) : bool := f1_s (h1_flags h).
Definition has_npdu1 (h : hdr1) : bool := f1_pn (h1_flags h).
Definition has_ext1 (h : hdr1) : bool := f1_e (h1_flags h).''')
print('\n'.join(o))
