#!/usr/bin/env python3
"""Reads the GTP message files of /repo as text and writes Coq descriptors of
their constructors, parsers, marshallers and length functions.

Every statement of the functions handled here must match one of the shapes below
exactly; anything else aborts the extraction, so nothing is skipped silently.
usage: extract.py OUTDIR"""
import re, sys, glob, os

REPO = '/repo'
OUT = sys.argv[1]

class Bad(Exception):
    pass

def strip(lines):
    """lines: list of (lineno, text) -> without comments and blank lines"""
    out = []
    inc = False
    for n, t in lines:
        t = re.sub(r'//.*$', '', t).strip()
        if t.startswith('/*'):
            inc = True
        if inc:
            if t.endswith('*/'):
                inc = False
            continue
        if not t:
            continue
        # a case label continued over several lines
        if out and out[-1][1].startswith('case ') and out[-1][1].endswith(','):
            out[-1] = (out[-1][0], out[-1][1] + ' ' + t)
        else:
            out.append((n, t))
    return out

def consts(path, pkgfile):
    """iota constants of a Go const block: name -> value (uint8)"""
    src = open(os.path.join(REPO, path)).read()
    res = {}
    for blk in re.findall(r'^const \(\n(.*?)^\)', src, re.M | re.S):
        it = -1
        base = None
        for line in blk.split('\n'):
            line = re.sub(r'//.*$', '', line).strip()
            if not line:
                continue
            m = re.match(r'^(\w+)(?:\s+uint8)?\s*(?:=\s*(.*))?$', line)
            if not m:
                raise Bad((path, line))
            it += 1
            name, e = m.group(1), m.group(2)
            if e is not None:
                base = e.strip()
            if base is None:
                raise Bad((path, line))
            v = eval(base, {}, {'iota': it}) if 'iota' in base else int(base, 0)
            if 'iota' not in base and e is None:
                raise Bad((path, line))
            if name != '_':
                res[name] = v
    return res

def functions(path):
    """(recv, type, name, args, startline, endline, bodylines)"""
    lines = open(os.path.join(REPO, path)).read().split('\n')
    i = 0
    while i < len(lines):
        m = re.match(r'^func (?:\((\w+) \*(\w+)\) )?(\w+)\(([^)]*)\)[^{]*\{$', lines[i])
        if m:
            j = i + 1
            while lines[j] != '}':
                j += 1
            body = [(k + 1, lines[k]) for k in range(i + 1, j)]
            yield m.group(1), m.group(2), m.group(3), m.group(4), i + 1, j + 1, strip(body)
            i = j
        i += 1

def structs(path):
    src = open(os.path.join(REPO, path)).read()
    for m in re.finditer(r'^type (\w+) struct \{\n(.*?)^\}', src, re.M | re.S):
        line = src[:m.start()].count('\n') + 1
        end = src[:m.end()].count('\n') + 1
        fs = []
        ok = True
        for l in m.group(2).split('\n'):
            l = re.sub(r'//.*$', '', l).strip()
            if not l:
                continue
            fs.append(l)
        yield m.group(1), fs, line, end

class P:
    """parser over stripped lines"""
    def __init__(self, lines, recv, ietypes):
        self.l = lines; self.i = 0; self.r = recv; self.t = ietypes
    def peek(self):
        return self.l[self.i][1] if self.i < len(self.l) else None
    def next(self):
        x = self.l[self.i][1]; self.i += 1; return x
    def expect(self, s):
        x = self.next()
        if x != s:
            raise Bad((self.l[self.i-1], 'expected', s))
    def m(self, pat):
        """match and consume a line against a regex where @ is the receiver"""
        if self.i >= len(self.l):
            return None
        mm = re.match('^' + pat.replace('@', re.escape(self.r)) + '$', self.l[self.i][1])
        if mm:
            self.i += 1
        return mm
    def need(self, pat):
        mm = self.m(pat)
        if not mm:
            raise Bad((self.l[self.i] if self.i < len(self.l) else 'EOF', 'needed', pat))
        return mm

    # ---- dispatch actions
    def block(self):
        """statements until '}' (not consumed) or case/default; returns (act, ends_with_continue)"""
        t = self.peek()
        if t is None or t == '}' or t.startswith('} else') or re.match(r'^(case .*|default):$', t):
            return 'ANop', False
        m = self.m(r'continue')
        if m:
            return 'ANop', True
        m = self.m(r'@\.(\w+) = i')
        if m:
            return self.seq('ASet "%s"' % m.group(1))
        m = self.m(r'@\.(\w+) = append\(@\.(\w+), i\)')
        if m:
            if m.group(1) != m.group(2):
                raise Bad(('append', m.group(0)))
            return self.seq('AApp "%s"' % m.group(1))
        m = self.m(r'switch i\.Instance\(\) \{')
        if m:
            cases, dflt = self.cases(r'case (\d+):')
            a = 'AInst [%s] (%s)' % ('; '.join('(%s, %s)' % (k, v) for k, v in cases), dflt)
            return self.seq(a)
        m = self.m(r'if i\.Instance\(\) == (\d+) \{')
        if m:
            yes, c1 = self.block(); no, c2 = self.els()
            return self.seq_if(lambda y, n: 'AInst [(%s, %s)] (%s)' % (m.group(1), y, n), yes, c1, no, c2)
        m = self.m(r'if @\.(\w+) == nil \{')
        if m:
            yes, c1 = self.block(); no, c2 = self.els()
            return self.seq_if(lambda y, n: 'AIfNil "%s" (%s) (%s)' % (m.group(1), y, n), yes, c1, no, c2)
        m = self.m(r'if @\.(\w+) != nil \{')
        if m:
            yes, c1 = self.block(); no, c2 = self.els()
            return self.seq_if(lambda y, n: 'AIfNil "%s" (%s) (%s)' % (m.group(1), n, y), yes, c1, no, c2)
        raise Bad((self.l[self.i], 'statement'))
    def els(self):
        m = self.m(r'\} else if @\.(\w+) == nil \{')
        if m:
            yes, c1 = self.block(); no, c2 = self.els()
            if c1 or c2: raise Bad('else if with continue')
            return 'AIfNil "%s" (%s) (%s)' % (m.group(1), yes, no), False
        if self.m(r'\} else \{'):
            a, c = self.block()
            self.expect('}')
            return a, c
        self.expect('}')
        return 'ANop', False
    def seq(self, a):
        """a followed by the rest: the rest must be empty or continue"""
        rest, c = self.block()
        if rest != 'ANop':
            raise Bad((self.l[self.i-1], 'sequence after assignment', a, rest))
        return a, c
    def seq_if(self, mk, yes, c1, no, c2):
        rest, c = self.block()
        if rest == 'ANop' and not c:
            return mk(yes, no), (c1 and c2)
        # branch without continue falls through into the rest
        if not c1:
            if yes != 'ANop': raise Bad(('fallthrough yes', yes, rest))
            yes = rest
        if not c2:
            if no != 'ANop': raise Bad(('fallthrough no', no, rest))
            no = rest
        return mk(yes, no), c
    def cases(self, pat):
        """case bodies of a switch up to the closing brace (consumed)"""
        cs = []; dflt = 'ANop'
        while True:
            if self.m(r'\}'):
                return cs, dflt
            if self.m(r'default:'):
                a, _ = self.block(); dflt = a; continue
            m = self.need(pat)
            ks = m.group(1)
            a, _ = self.block()
            for k in ks.split(','):
                cs.append((k.strip(), a))
    def dispatch(self):
        """for _, i := range X { if i == nil {continue}; switch i.Type {...} }"""
        nilskip = False
        if self.m(r'if i == nil \{'):
            self.expect('continue'); self.expect('}')
            nilskip = True
        if not self.m(r'switch i\.Type \{'):
            d, _ = self.block()
            self.expect('}')
            return nilskip, [], d
        cs, d = self.cases(r'case (.+):')
        self.expect('}')
        r = []
        for k, a in cs:
            k = k.replace('ie.', '')
            if k not in self.t: raise Bad(('ie type', k))
            r.append((k, self.t[k], a))
        return nilskip, r, d

def coq_table(name, cites, nilskip, cs, d):
    s = '(** %s *)\n' % cites
    s += 'Definition %s : table := Tbl %s [\n' % (name, 'true' if nilskip else 'false')
    s += ';\n'.join('  (%d, %s) (* ie.%s *)' % (v, a, k) for k, v, a in cs)
    s += '\n  ] (%s).\n\n' % d
    return s

def ident(n):
    return n

def fields_of(fs):
    out = []
    for f in fs:
        if f == '*Header':
            continue
        m = re.match(r'^(\w+)\s+\*ie\.IE$', f)
        if m:
            out.append((m.group(1), 'FSingle')); continue
        m = re.match(r'^(\w+)\s+\[\]\*ie\.IE$', f)
        if m:
            out.append((m.group(1), 'FList')); continue
        raise Bad(('field', f))
    return out

def msteps(p):
    """FIELD/LIST steps of MarshalTo"""
    out = []
    while True:
        m = p.m(r'if ie := @\.(\w+); ie != nil \{')
        if m:
            p.need(r'if err := ie\.MarshalTo\(@\.(?:Header\.)?Payload\[offset:\]\); err != nil \{')
            p.expect('return err'); p.expect('}')
            adv = bool(p.m(r'offset \+= ie\.MarshalLen\(\)'))
            p.expect('}')
            out.append('MSingle "%s" %s' % (m.group(1), 'true' if adv else 'false'))
            continue
        m = p.m(r'for _, ie := range @\.(\w+) \{')
        if m:
            skip = False
            if p.m(r'if ie == nil \{'):
                p.expect('continue'); p.expect('}'); skip = True
            if p.m(r'if ie != nil \{'):
                raise Bad('ifnonnil')
            p.need(r'if err := ie\.MarshalTo\(@\.(?:Header\.)?Payload\[offset:\]\); err != nil \{')
            p.expect('return err'); p.expect('}')
            adv = bool(p.m(r'offset \+= ie\.MarshalLen\(\)'))
            p.expect('}')
            out.append('MList "%s" %s %s' % (m.group(1), 'true' if skip else 'false', 'true' if adv else 'false'))
            continue
        return out

def lsteps(p):
    out = []
    while True:
        m = p.m(r'if ie := @\.(\w+); ie != nil \{')
        if m:
            p.need(r'l \+= ie\.MarshalLen\(\)'); p.expect('}')
            out.append('LSingle "%s"' % m.group(1)); continue
        m = p.m(r'for _, ie := range @\.(\w+) \{')
        if m:
            skip = False
            if p.m(r'if ie == nil \{'):
                p.expect('continue'); p.expect('}'); skip = True
            p.need(r'l \+= ie\.MarshalLen\(\)'); p.expect('}')
            out.append('LList "%s" %s' % (m.group(1), 'true' if skip else 'false')); continue
        return out

SKIP_STRUCT = {'Header', 'ExtensionHeader', 'Generic', 'TPDU'}

def run(ver, hdrcalls):
    pkg = 'gtpv%d' % ver
    ietypes = consts(pkg + '/ie/ie.go', 'ie')
    msgs = consts(pkg + '/message/message.go', 'message')
    out = []
    names = []
    exceptions = []
    for path in sorted(glob.glob(os.path.join(REPO, pkg, 'message', '*.go'))):
        rel = os.path.relpath(path, REPO)
        if rel.endswith('_test.go') or 'deprecated' in rel:
            continue
        fns = list(functions(rel))
        for st, fs, l0, l1 in structs(rel):
            if st in SKIP_STRUCT:
                continue
            try:
                flds = fields_of(fs)
            except Bad as e:
                exceptions.append((rel, st, e)); continue
            F = {}
            for recv, typ, name, args, a, b, body in fns:
                if typ == st:
                    F[name] = (recv, args, a, b, body)
                elif typ is None and name == 'New' + st:
                    F['New'] = (None, args, a, b, body)
            try:
                names.append(st)
                out.append(one(rel, st, flds, l0, l1, F, ietypes, msgs, ver, hdrcalls))
            except Bad as e:
                print('BAD', rel, st, e)
                names.pop()
                exceptions.append((rel, st, e))
    return out, names, exceptions, msgs

def one(rel, st, flds, l0, l1, F, ietypes, msgs, ver, hdrcalls):
    s = '(** ** %s: struct %s:%d-%d *)\n' % (st, rel, l0, l1)
    # constructor
    _, args, a, b, body = F['New']
    p = P(body, '', ietypes)
    m = p.need(r'(\w+) := &%s\{' % st)
    p.r = m.group(1)
    hdr = ''
    while not p.peek() == '}':
        hdr += ' ' + p.next()
    p.expect('}')
    hdr = re.sub(r'\s+', ' ', hdr).strip()
    hdr = hdrcalls(hdr, args, msgs)
    p.need(r'for _, i := range (?:ies|ie) \{')
    ns, cs, d = p.dispatch()
    # after: SetLength; return
    p.need(r'@\.SetLength\(\)')
    p.need(r'return @')
    if p.i != len(p.l): raise Bad(('New rest', p.l[p.i]))
    s += coq_table('new_' + st, 'New%s, %s:%d-%d (dispatch of the given IEs)' % (st, rel, a, b), ns, cs, d)
    # Marshal
    recv, args, a, b, body = F['Marshal']
    p = P(body, recv, ietypes)
    p.need(r'b := make\(\[\]byte, @\.MarshalLen\(\)\)')
    p.need(r'if err := @\.MarshalTo\(b\); err != nil \{'); p.expect('return nil, err'); p.expect('}')
    p.need(r'return b, nil')
    if p.i != len(p.l): raise Bad('Marshal rest')
    # MarshalTo
    recv, args, a, b, body = F['MarshalTo']
    p = P(body, recv, ietypes)
    check = reset = False
    if p.m(r'if len\(b\) < @\.MarshalLen\(\) \{'):
        p.expect('return ErrTooShortToMarshal'); p.expect('}'); check = True
    if p.m(r'if @\.Header\.Payload != nil \{'):
        p.need(r'@\.Header\.Payload = nil'); p.expect('}'); reset = True
    p.need(r'@\.Header\.Payload = make\(\[\]byte, @\.MarshalLen\(\)-@\.Header\.MarshalLen\(\)\)')
    p.need(r'offset := 0')
    ms = msteps(p)
    p.need(r'@\.Header\.SetLength\(\)')
    p.need(r'return @\.Header\.MarshalTo\(b\)')
    if p.i != len(p.l): raise Bad('MarshalTo rest')
    mcite = '%s:%d-%d' % (rel, a, b)
    # MarshalLen
    recv, args, a, b, body = F['MarshalLen']
    p = P(body, recv, ietypes)
    p.need(r'l := @\.Header\.MarshalLen\(\) - len\(@\.Header\.Payload\)')
    ls = lsteps(p)
    p.need(r'return l')
    if p.i != len(p.l): raise Bad('MarshalLen rest')
    lcite = '%s:%d-%d' % (rel, a, b)
    # SetLength
    recv, args, a, b, body = F['SetLength']
    p = P(body, recv, ietypes)
    m = p.need(r'@\.(?:Header\.)?Length = uint16\(@\.MarshalLen\(\) - (\d+)\)')
    setlen = m.group(1)
    if p.i != len(p.l): raise Bad('SetLength rest')
    scite = '%s:%d-%d' % (rel, a, b)
    # UnmarshalBinary
    recv, args, a, b, body = F['UnmarshalBinary']
    p = P(body, recv, ietypes)
    p.need(r'var err error')
    p.need(r'@\.Header, err = ParseHeader\(b\)')
    p.need(r'if err != nil \{'); p.need(r'return (?:err|fmt\.Errorf\("failed to Parse Header: %w", err\))'); p.expect('}')
    minlen = 0
    m = p.m(r'if len\(@\.(?:Header\.)?Payload\) < (\d+) \{')
    if m:
        p.expect('return nil'); p.expect('}'); minlen = int(m.group(1))
    m = p.m(r'(\w+), err := ie\.ParseMultiIEs\(@\.(?:Header\.)?Payload\)')
    if not m: raise Bad(('unm', p.l[p.i]))
    soft = False
    p.need(r'if err != nil \{')
    if p.m(r'if errors\.Is\(err, ErrTooShortToParse\) \{'):
        p.expect('return nil'); p.expect('}'); soft = True
    p.need(r'return (?:err|fmt\.Errorf\("failed to Parse IEs: %w", err\))'); p.expect('}')
    p.need(r'for _, i := range %s \{' % m.group(1))
    ns, cs, d = p.dispatch()
    p.need(r'return nil')
    if p.i != len(p.l): raise Bad('Unm rest')
    s += coq_table('unm_' + st, '%s.UnmarshalBinary, %s:%d-%d' % (st, rel, a, b), ns, cs, d)
    # name / TEID
    for fn in ('MessageTypeName',) + (('TEID',) if ver else ()):
        if fn not in F: raise Bad(('missing', fn))
    nm = re.match(r'return "(.*)"$', F['MessageTypeName'][4][0][1]).group(1)
    teid = F['TEID'][4][0][1] if ver else '(of the header)'
    s += '(** fields %s:%d-%d; MarshalTo %s; MarshalLen %s; SetLength %s;\n    MessageTypeName "%s"; TEID(): %s *)\n' % (rel, l0, l1, mcite, lcite, scite, nm, teid)
    s += 'Definition d_%s : mdesc := {|\n  md_name := "%s";\n  md_ctor := %s;\n  md_fields := [%s];\n  md_new := new_%s;\n  md_unm := unm_%s;\n  md_min := %d;\n  md_soft := %s;\n  md_check := %s;\n  md_reset := %s;\n  md_steps := [%s];\n  md_lens := [%s];\n  md_sub := %s |}.\n\n' % (
        st, st, hdr,
        '; '.join('("%s", %s)' % f for f in flds), st, st, minlen, 'true' if soft else 'false',
        'true' if check else 'false', 'true' if reset else 'false',
        ';\n    '.join(ms), ';\n    '.join(ls), setlen)
    return s

def parse_table(ver, msgs, names):
    """the switch of message.Parse: type octet -> struct"""
    rel = 'gtpv%d/message/message.go' % ver
    for recv, typ, name, args, a, b, body in functions(rel):
        if name == 'Parse' and typ is None:
            p = P(body, 'm', {})
            while not p.m(r'switch b\[1\] \{'):
                p.next()
            rows = []
            d = None
            while True:
                if p.m(r'\}'): break
                if p.m(r'default:'):
                    d = p.need(r'[mg] = &(\w+)\{\}').group(1); continue
                k = p.need(r'case (\w+):').group(1)
                v = p.need(r'[mg] = &(\w+)\{\}').group(1)
                rows.append((k, msgs[k], v))
            return rows, d, '%s:%d-%d' % (rel, a, b)

def hdr2(h, args, msgs):
    m = re.match(r'^Header: NewHeader\( ?NewHeaderFlags\((\d), (\d), (\d)\), (\w+), (\w+), (\w+), nil, ?\), ?$', h)
    if not m: raise Bad(('hdr', h))
    v, pg, t, mt, teid, seq = m.groups()
    argn = [x for x in re.findall(r'(\w+)', args)]
    if teid == 'teid': te = 'true'
    elif teid == '0': te = 'false'
    else: raise Bad(('teid', h))
    if seq != 'seq': raise Bad(('seq', h))
    return 'Ctor %s %s %s %d %s' % (v, pg, t, msgs[mt], te)

def hdr1(h, args, msgs):
    m = re.match(r'^Header: NewHeader\( ?(0x[0-9a-f]+), (\w+), (\w+), (\w+), nil,? ?\), ?$', h)
    if not m: raise Bad(('hdr', h))
    fl, mt, teid, seq = m.groups()
    te = {'teid': 'true', '0': 'false'}[teid]
    sq = {'seq': 'true', '0': 'false'}[seq]
    return 'Ctor1 %d %d %s %s' % (int(fl, 16), msgs[mt], te, sq)

def hdr0(h, args, msgs):
    m = re.match(r'^Header: NewHeader\( ?(0x[0-9a-f]+), (\w+), (\w+), (\w+), (\w+), nil,? ?\), ?$', h)
    if not m: raise Bad(('hdr', h))
    fl, mt, seq, label, tid = m.groups()
    return 'Ctor0 %d %d' % (int(fl, 16), msgs[mt]) + ' (* %s %s %s *)' % (seq, label, tid)

if __name__ == '__main__':
    for ver, hc in ((2, hdr2), (1, hdr1), (0, hdr0)):
        out, names, exc, msgs = run(ver, hc)
        rows, d, cite = parse_table(ver, msgs, names)
        txt = '(** GENERATED by tools/extract.py from gtpv%d/message/*.go: do not edit. *)\n' % ver
        txt += 'From Coq Require Import String.\nFrom Verif Require Import Base MsgModel.\nOpen Scope string_scope.\nOpen Scope N_scope.\nOpen Scope list_scope.\n\n'
        txt += '\n'.join(out)
        txt += '(** every message type with a regular structure *)\nDefinition all_msgs%d : list mdesc := [\n  %s].\n\n' % (ver, ';\n  '.join('d_' + n for n in names))
        txt += '(** the switch of Parse, %s: type octet to structure; default %s *)\nDefinition parse_rows%d : list (N * string) := [\n  %s].\n' % (cite, d, ver, ';\n  '.join('(%d, "%s") (* %s *)' % (v, n, k) for k, v, n in rows))
        open(os.path.join(OUT, 'Msgs%dGen.v' % ver), 'w').write(txt)
        print(ver, len(names), 'messages; exceptions:', [(e[1], e[2]) for e in exc])
