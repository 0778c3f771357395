#!/usr/bin/env python3
"""Print rocq/theories/IENames.v from gtpv{0,1,2}/ie/ie.go: the map from IE types to names and
the constants of the IE types."""
import re, sys
repo = sys.argv[1] if len(sys.argv) > 1 else '/repo'
out = ['(** The names and the constants of the IE types.  Printed by tools/gen_ienames.py from',
       '    gtpv{0,1,2}/ie/ie.go, in the order of the source.  No proofs here. *)',
       'From Coq Require Import String.', 'From Verif Require Import Base.',
       'Open Scope string_scope.', 'Open Scope N_scope.', 'Open Scope list_scope.', '']
for v in '210':
    f = f'gtpv{v}/ie/ie.go'
    lines = open(f'{repo}/{f}').read().split('\n')
    consts, names, cl, nl = [], [], [0, 0], [0, 0]
    mode = None
    for k, l in enumerate(lines, 1):
        s = re.sub(r'//.*', '', l).strip()
        if s == 'const (':
            mode, it, expr = 'c', 0, None
            cl[0] = cl[0] or k
        elif s.startswith('var ieTypeNameMap'):
            mode, nl[0] = 'n', k
        elif s in (')', '}') and mode:
            (cl if mode == 'c' else nl)[1] = k
            mode = None
        elif mode == 'c' and s:
            n, e = re.fullmatch(r'(\w+)(?:\s+uint8)?(?:\s*=\s*(.*))?', s).groups()
            expr = e or expr
            assert re.fullmatch(r'[\d\s+\-iota]*', expr), expr
            val = eval(expr.replace('iota', str(it)))
            it += 1
            if n != '_':
                consts.append((n, val))
        elif mode == 'n' and s:
            t, n = re.fullmatch(r'(\d+):\s*"([^"]*)",', s).groups()
            names.append((int(t), n))
    assert len(set(t for t, _ in names)) == len(names) and len(set(n for n, _ in consts)) == len(consts)
    out.append(f'(** {f}:{nl[0]}-{nl[1]} ieTypeNameMap *)')
    out.append(f'Definition ie_names{v} : list (N * string) := [')
    out.append(';\n'.join(f'  ({t}, "{n}")' for t, n in names) + '].')
    out.append(f'(** {f}:{cl[0]}-{cl[1]} the constants *)')
    out.append(f'Definition ie_consts{v} : list (string * N) := [')
    out.append(';\n'.join(f'  ("{n}", {t})' for n, t in consts) + '].')
    out.append('')
print('\n'.join(out).rstrip())
