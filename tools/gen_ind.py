#!/usr/bin/env python3
"""Print rocq/theories/V2Ind.v from gtpv2/ie/indication.go."""
import re
L = open('/repo/gtpv2/ie/indication.go').read().split('\n')
src = '\n'.join(L)
m = re.search(r'func NewIndication\(\n(.*?) uint8,\n\)', src, re.S)
params = [p.strip() for p in m.group(1).replace('\n', ' ').split(',')]
assert len(params) == 72
puts = []
for n, l in enumerate(L[:112], 1):
    q = re.match(r'\s*i\.Payload\[(\d)\] \|= \(?(\w+)(?: << (\d))?\)?$', l)
    if q: puts.append((int(q.group(1)), params.index(q.group(2)), int(q.group(3) or 0), q.group(2), n))
assert len(puts) == 72
ordn = {'1st':0,'2nd':1,'3rd':2,'4th':3,'5th':4,'6th':5,'7th':6,'8th':7}
has = []
i = 0
while i < len(L):
    q = re.match(r'func \(i \*IE\) Has(\w+)\(\) bool \{', L[i])
    if q:
        j = i
        while L[j] != '}': j += 1
        body = '\n'.join(L[i:j+1])
        r = re.fullmatch(r'func \(i \*IE\) Has\w+\(\) bool \{\n\tv, err := i\.Indication\(\)\n\tif err != nil \{\n\t\treturn false\n\t\}\n\tif len\(v\) < (\d) \{\n\t\treturn false\n\t\}\n\n\treturn has(\w+)Bit\(v\[(\d)\]\)\n\}', body)
        assert r, body
        has.append((q.group(1), int(r.group(1)), int(r.group(3)), ordn[r.group(2)], i+1, j+1))
        i = j
    i += 1
o = []
o.append('''(** Model of gtpv2/ie/indication.go.  Printed by tools/gen_ind.py from that file, one entry per
    statement or accessor.  No proofs here. *)
From Coq Require Import String.
From Verif Require Import Base V2IE V2Codec.
Open Scope string_scope.
Open Scope N_scope.
Open Scope list_scope.

(** indication.go:17-26: the parameters of NewIndication, in order *)
Definition ind_params : list string := [''')
o.append('  ' + ';\n  '.join('; '.join(f'"{p}"' for p in params[k:k+8]) for k in range(0, 72, 8)) + '].\n')
o.append('''(** indication.go:29-108: [i.Payload[o] |= (p << s)] as (o, position of p, s) *)
Definition ind_puts : list (nat * nat * N) := [''')
o.append(';\n'.join(f'  ({a}, {b}, {s})%nat'.replace(f', {s})%nat', f', {s}%N)%nat') + f' (* {p}, {n} *)' for a, b, s, p, n in puts) + '].\n')
o.append('''(** indication.go:165-1007: Has<name> is [len(v) < n => false; hasNthBit(v[o])], as
    (name, n, o, bit from 0) *)
Definition ind_has : list (string * (nat * nat * N)) := [''')
o.append(';\n'.join(f'  ("{a}", ({n}, {b}, {k}%N)%nat) (* {x}-{y} *)' for a, n, b, k, x, y in has) + '].\n')
o.append('''Section G.
Context (g : N -> bool).
(** one statement [b[o] |= (p << s)], uint8 arithmetic *)
Definition ind_put (args : list N) (b : bytes) (x : nat * nat * N) : res bytes :=
  let '(o, j, s) := x in
  do old <- idx b o;
  set_idx b o (N.lor old (u8 (N.shiftl (nth j args 0) s))).
Fixpoint ind_put_all (args : list N) (xs : list (nat * nat * N)) (b : bytes) : res bytes :=
  match xs with [] => Ok b | x :: r => do b <- ind_put args b x; ind_put_all args r b end.
(** indication.go:17-110 NewIndication; [args] are its 72 arguments *)
Definition new_indication (args : list N) : res ie2 :=
  let i := new2 g 77 0 (zeros 9) in
  do p <- ind_put_all args ind_puts (i2_payload i);
  Ok (IE2 (i2_type i) (i2_length i) (i2_instance i) p (i2_children i)).
(** strconv.Atoi of a one-character string *)
Definition atoi1 (c : N) : option N := if (48 <=? c) && (c <=? 57) then Some (c - 48) else None.
(** indication.go:121-136: the loop.  A character that is not an ASCII digit gives nil,
    so the difference between bytes and runes does not show. *)
Fixpoint ind_bits (i : nat) (s b : bytes) : res (option bytes) :=
  match s with
  | [] => Ok (Some b)
  | c :: r =>
      match atoi1 c with
      | None => Ok None
      | Some v =>
          let bit := if 1 <? v then 1 else v in
          do old <- idx b (i / 8);
          do b <- set_idx b (i / 8) (N.lor old (u8 (N.shiftl bit (N.of_nat (8 * (i / 8 + 1) - i - 1)))));
          ind_bits (S i) r b
      end
  end.
(** indication.go:115-140 NewIndicationFromBitSequence *)
Definition new_indication_bits (s : bytes) : res (option ie2) :=
  if negb (len s =? 72)%nat then Ok None else
  let i := new2 g 77 0 (zeros 9) in
  do p <- ind_bits 0 s (i2_payload i);
  Ok (match p with
      | Some p => Some (IE2 (i2_type i) (i2_length i) (i2_instance i) p (i2_children i))
      | None => None
      end).
(** indication.go:143-153 NewIndicationFromOctets *)
Definition new_indication_octets (octs : bytes) : ie2 :=
  set_length2 g (IE2 77 0 0 (firstn 9 octs) []).
(** indication.go:156-162 Indication *)
Definition acc_indication : ie2 -> res bytes := typed 77 (fun i => Ok (i2_payload i)).
(** indication.go:165-1007 Has<name> *)
Definition has_of (x : nat * nat * N) (i : ie2) : res bool :=
  let '(n, o, k) := x in
  match acc_indication i with
  | Err _ => Ok false
  | Panic => Panic
  | Ok v => if (len v <? n)%nat then Ok false else do x <- idx v o; Ok (hasbit k x)
  end.
Definition has_ind (name : string) (i : ie2) : option (res bool) :=
  match find (fun e => String.eqb (fst e) name) ind_has with
  | Some e => Some (has_of (snd e) i)
  | None => None
  end.
End G.''')
print('\n'.join(o))
