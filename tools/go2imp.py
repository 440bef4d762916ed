#!/usr/bin/env python3
"""Emit the limb functions of go-ristretto as programs of the language of GoLang.v: the same
statements, in the same order, that go2coq.py turns into let-chains, but reading and writing
the cells of the variables involved.

usage: go2imp.py > rocq/theories/GoLimbCode.v
"""
import re, sys, os
sys.path.insert(0, os.path.dirname(os.path.abspath(__file__)))
import go2coq
from go2coq import Fn, Unit

OUT = []
go2coq.print = lambda *a, **k: None
SKIP = set()
def bytes_(o):
    # bytes of an array parameter, one cell each
    o = re.sub(r'(load(\d)(?:u32)?) \(skipn (\d+) (\w+)\)', lambda m: '%s [%s]' % (m.group(1),
        '; '.join('%s_%d' % (m.group(4), int(m.group(3)) + i) for i in range(int(m.group(2))))), o)
    return re.sub(r'at_ (\w+) (\d+)', r'\1_\2', re.sub(r'\(at_ (\w+) (\d+)\)', r'\1_\2', o))
SIG = {}    # coq name -> parameter names after the receiver (array or value), in order

def emit(self, l0, l1, nm):
    if self.coq in SKIP: return
    recv = self.recv
    named = getattr(self, 'named', [])
    params = [recv] + [n for n, t in self.params if n != recv] if recv else [n for n, t in self.params]
    if self.ret and self.ret not in params: params.append(self.ret)
    params += [x for x in named if x not in params]
    if nm and recv: pass
    body, locs, glob = [], [], []
    def loc(x):
        if x in params: return x
        if x not in locs: locs.append(x)
        return '(%d + n)%%nat' % locs.index(x)
    def cell(tok):
        m = re.fullmatch(r'(\w+?)_(\d+)', tok)
        if m and isinstance(self.ty.get(m.group(1)), tuple):
            return '(%s, C %s)' % (loc(m.group(1)), m.group(2))
        if isinstance(self.ty.get(tok), str) or tok.startswith('arg'):
            return '(%s, C 0)' % loc(tok)
        return None
    def cells(e):
        seen = []
        for t in re.findall(r'[A-Za-z_][\w.]*', e):
            if t not in seen and cell(t): seen.append(t)
        return seen
    def call(f, dst, args):
        # args: coq argument strings of the shallow call
        a2, gl = [], []
        for a in args:
            m = re.match(r'\((?:Sc|Fe51|Fe25) (\w+?)_0\b', a)
            if m: a2.append(loc(m.group(1)))
            elif cell(a): a2.append(loc(a))
            else:
                if a not in glob: glob.append(a)
                a2.append(a)
        extra = [g for g in GLOB[f]]
        for g in extra:
            if g not in glob: glob.append(g)
        body.append(('call', f, dst, a2, extra))
    for o in map(bytes_, self.out):
        m = re.fullmatch(r"d?let (\w+) := (.*) in", o)
        if m:
            x, e = m.groups(); cs = cells(e)
            if not cell(x): self.ty[x] = 'int64'
            pat = '; '.join(cs)
            f = 'fun _ _ => %s' % e if not cs else 'fun _ vs => match vs with [%s] => %s | _ => 0 end' % (pat, e)
            body.append('Do "" (%s) %s [%s]' % (f, cell(x), '; '.join(cell(c) for c in cs))); continue
        m = re.fullmatch(r"let \((\w+), (\w+)\) := (.*) in", o)
        if m:
            x, y, e = m.groups(); cs = cells(e)
            for v in (x, y):
                if v == '_': self.ty['_'] = 'uint64'
            body.append('Do2 "" (fun _ vs => match vs with [%s] => %s | _ => (0, 0) end) %s %s [%s]' %
                        ('; '.join(cs), e, cell(x), cell(y), '; '.join(cell(c) for c in cs))); continue
        m = re.fullmatch(r"let '\((\w+) (.*?)\) := (\w+) (.*) in", o)
        con, names, f, arg = m.groups(); names = names.split()
        src = re.match(r'\((?:Sc|Fe51|Fe25) (\w+?)_0\b', arg).group(1)
        if con == 'H10': body.append(('call', f, None, [loc(src)] + [loc(x) for x in names], []))
        else: body.append(('call', f, loc(names[0][:-2]), [loc(src)], []))
    fin = self.final.split(' ', 1)[0]
    if fin in SIG:
        toks = re.findall(r'\([^()]*\)|\S+', self.final)[1:]
        call(fin, recv, toks)
    k = len(locs)
    lines = []
    for b in body:
        if isinstance(b, str): lines.append(b)
        else:
            _, f, dst, a, gl = b
            lines.append('d_%s %s (%d + n)%%nat' % (f, ' '.join(([dst] if dst else []) + a + gl), k))
    SIG[self.coq] = params; GLOB[self.coq] = glob
    OUT.append('(** [%s]: /repo/%s:%d-%d; locals from [n] on: %s *)' % (self.go, self.unit.file, l0, l1, ', '.join(locs) or 'none'))
    OUT.append('Definition d_%s (%s n : nat) : stmt Z := prog [\n  %s].\n' % (self.coq, ' '.join(params + glob), ';\n  '.join(lines)))
GLOB = {}
Fn.emit = emit

class _W: pass
go2coq.scalar()
# Scalar.ConditionalSet, Neg, Set are written by hand in ScalarModel.v
u = Unit('scalar.go', 'Scalar', ('uint32', 8, 'Sc'), 'sc', {'Sub': 'sc_sub'})
S = ('arr', 'uint32', 8, 'Sc')
u.fn('ConditionalSet', 'sc_condSet', [('s', S), ('t', S), ('b', 'int32')], 's')
u.fn('Neg', 'sc_neg', [('a', S)], 's')
go2coq.fe51()
go2coq.fe25()
print('''(** Generated by tools/go2imp.py from /repo/scalar.go, /repo/edwards25519/field_radix51.go,
    field_mul64.go and field_generic.go; do not edit.

    The limb functions as programs over memory cells holding machine words (GoLang.v).  The
    first parameter is the receiver; a parameter is the name of the variable a pointer points
    to, or of the variable holding an argument passed by value.  Variables of the package
    ([scL], [scZero]) are parameters too.  Calls are expanded; arguments passed by value are
    copied into locals first.  [h0] ... [h9] of [square] are its named results. *)
From Coq Require Import ZArith List String.
From Verif Require Import Words ScalarCode Fe25Code GoLang.
Import ListNotations.
Open Scope string_scope.
Open Scope Z_scope.
Local Notation C := (@GoLang.C Z).
''')
print('\n'.join(OUT))
