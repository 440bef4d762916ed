#!/usr/bin/env python3
"""Emit the method-call code of go-ristretto (field.go, curve.go, table.go, elligator.go) as
programs of the language of GoLang.v.  Only the subset of Go used there is supported; anything
else raises an error.

usage: go2prog.py > rocq/theories/GoCurveCode.v
"""
import re, sys, os
sys.path.insert(0, os.path.dirname(os.path.abspath(__file__)))
import go2coq
from go2coq import P, tokenize, RANGE, WRAP, ALIAS, Fn

FIELDS = {'ExtendedPoint': ['X', 'Y', 'Z', 'T'], 'CompletedPoint': ['X', 'Y', 'Z', 'T'],
          'ProjectivePoint': ['X', 'Y', 'Z'], 'NielsPoint': ['YPlusX', 'YMinusX', 'XY2D'],
          'JacobiPoint': ['S', 'T']}
SHORT = {'FieldElement': 'fe', 'ExtendedPoint': 'ep', 'CompletedPoint': 'cp', 'ProjectivePoint': 'pp',
         'NielsPoint': 'np', 'JacobiPoint': 'jc', 'ScalarMultTable': 'tb'}
CONST = {'feZero': 'k_zero K', 'feOne': 'k_one K', 'feMinusOne': 'k_minusOne K', 'feI': 'k_I K', 'feMinusI': 'k_minusI K',
         'feD': 'k_D K', 'fe2D': 'k_2D K'}
OP2 = {'Mul': 'o_mul K', 'add': 'o_add K', 'sub': 'o_sub K'}
OP1 = {'Square': 'o_square K', 'DoubledSquare': 'o_doubledSquare K', 'Neg': 'o_neg K', 'Set': '(fun x => x)'}
INTS = set(RANGE) | {'int'}
RANGE['int'] = (-2**63, 2**63-1)
WRAP['int'] = ''

def size(t):
    if t[0] == 'arr': return t[1] * size(t[2])
    if t in INTS or t == 'FieldElement': return 1
    return len(FIELDS[t])

def parse_type(toks):
    toks = [x for x in toks if x != '*']
    if toks[0] == '[': return ('arr', int(toks[1]), parse_type(toks[3:]))
    if toks[0] == 'ScalarMultTable': return ('arr', 32, ('arr', 8, 'NielsPoint'))
    return ALIAS.get(toks[0], toks[0])

DONE = {}

class G(Fn):
    """translate one function"""
    def __init__(self, file, recvty, go):
        self.file, self.recvty, self.go = file, recvty, go
        self.coq = 'g_%s' % ('_'.join(([SHORT[recvty]] if recvty else []) + [go]))
        self.ty, self.where, self.ctr, self.cval = {}, {}, {}, {}
        self.nloc = 0; self.nctr = 0; self.locs = []
        self.cells = None; self.tmp = 0; self.result = None
    def local(self, name, t):
        self.ty[name] = t; self.where[name] = '(lo %d nl)' % self.nloc
        self.locs.append(name); self.nloc += 1
        return self.where[name]
    # places
    def place(self, e):
        if e[0] == 'un' and e[1] in '&*': return self.place(e[2])
        if e[0] == 'id': return self.where[e[1]], self.ty[e[1]]
        if e[0] == 'sel':
            p, t = self.place(e[1]); return '(off %s %d)' % (p, FIELDS[t].index(e[2])), FIELDS and 'FieldElement'
        if e[0] == 'idx':
            p, t = self.place(e[1]); assert t[0] == 'arr', e
            return '(elt %s %d %s)' % (p, size(t[2]), self.ix(e[2])), t[2]
        raise NotImplementedError(e)
    def ix(self, e):
        if e[0] == 'lit': return '(C %d)' % e[1]
        if e[0] == 'id': return self.ctr[e[1]]
        if e[0] == 'bin':
            a = e[2]; b = e[3]
            if e[1] == '+': return '(Plus %s %s)' % (self.ix(a), self.ix(b)) if not self.lit2(a, b) else '(C %d)' % (a[1] + b[1])
            if e[1] == '-': return '(Minus %s %s)' % (self.ix(a), self.ix(b))
            if e[1] == '*' and b[0] == 'lit' and a[0] == 'lit': return '(C %d)' % (a[1] * b[1])
            if e[1] == '*' and a[0] == 'lit': return '(Times %d %s)' % (a[1], self.ix(b))
            if e[1] == '>>' and b == ('lit', 1): return '(Half %s)' % self.ix(a)
        raise NotImplementedError(e)
    def fold(self, e):
        if e[0] == 'bin':
            a, b = self.fold(e[2]), self.fold(e[3])
            if a[0] == 'lit' and b[0] == 'lit' and e[1] in '+*-': return ('lit', {'+': a[1]+b[1], '*': a[1]*b[1], '-': a[1]-b[1]}[e[1]])
            return ('bin', e[1], a, b)
        if e[0] == 'idx': return ('idx', self.fold(e[1]), self.fold(e[2]))
        if e[0] in ('un', 'sel'): return e[:2] + (self.fold(e[2]),) if e[0] == 'un' else ('sel', self.fold(e[1]), e[2])
        if e[0] == 'call': return ('call', self.fold(e[1]) if e[1][0] != 'id' else e[1], [self.fold(a) for a in e[2]])
        return e
    def lit2(self, a, b): return a[0] == 'lit' and b[0] == 'lit'
    # integer expressions
    def cellvar(self, p, name):
        for v, q in self.cells:
            if q == p: return v
        while name in [v for v, _ in self.cells]: name += "'"
        self.cells.append((name, p)); return name
    def ex(self, e):
        if e[0] == 'id' and e[1] in self.cval: return (self.cval[e[1]], self.ctrty[e[1]], None)
        if e[0] == 'id':
            p, t = self.place(e); return (self.cellvar(p, e[1]), t, None)
        if e[0] == 'idx':
            p, t = self.place(e); return (self.cellvar(p, 'x%d' % len(self.cells)), t, None)
        if e[0] == 'un' and e[1] == '-':
            c, t, v = self.ex(e[2])
            if v is not None: return (self.const(-v), None, -v)
            if t == 'int': return ('(- %s)' % self.par(c), t, None)
        if e[0] == 'call':
            f = e[1]
            if f[0] == 'id' and f[1] in ('equal15', 'equal30', 'negative'):
                return ('%s %s' % (f[1], ' '.join(self.par(self.ex(a)[0]) for a in e[2])), 'int32', None)
            if f[0] == 'sel':
                return self.hoist(e)
        return Fn.ex(self, e)
    def hoist(self, e):
        m = e[1][2]; saved = self.cells
        p, _ = self.place(e[1][1]); t = self.local('tmp%d' % self.nloc, 'int32')
        if m == 'IsOneI': self.emit_('io1 "IsOneI" (fe_IsOneI K) %s %s' % (t, p))
        elif m == 'EqualsI':
            c = self.konst(e[2][0])
            if c: self.emit_('io1 "EqualsI" (fun x => fe_EqualsI K x (%s)) %s %s' % (c, t, p))
            else: self.emit_('io2 "EqualsI" (fe_EqualsI K) %s %s %s' % (t, p, self.place(e[2][0])[0]))
        elif m in ('IsNegativeI', 'IsNonZeroI'): self.emit_('iot "%s" (fe_%s K) %s %s' % (m, m, t, p))
        else: raise NotImplementedError(e)
        self.cells = saved
        return (self.cellvar(t, 'r%d' % len(self.cells)), 'int32', None)
    def konst(self, e):
        while e[0] == 'un': e = e[2]
        return CONST.get(e[1]) if e[0] == 'id' and e[1] not in self.where else None
    def intdo(self, dst, e):
        self.cells = []
        c, t, v = self.ex(self.fold(e))
        cs = self.cells; self.cells = None
        rho = 'rho' if 'rho' in c else '_'
        if cs: f = 'fun %s vs => match vs with [%s] => %s | _ => 0 end' % (rho, '; '.join(v for v, _ in cs), c)
        else: f = 'fun _ _ => %s' % c
        self.emit_('ido (%s) %s [%s]' % (f, dst, '; '.join(p for _, p in cs)))
        return t
    def emit_(self, s): self.cur.append(s)
    def intarg(self, e):
        """the place of an integer argument"""
        if e[0] in ('id',) and e[1] in self.where: return self.where[e[1]]
        t = self.local('tmp%d' % self.nloc, 'int32'); self.intdo(t, e); return t
    # statements
    def call(self, e):
        """method call; returns the place and type of the receiver"""
        f, args = e[1], e[2]
        if f[0] == 'id':
            self.emit_('%s %s (@K + nl)%%nat (@C + nc)%%nat' % (DONE[f[1]], ' '.join(self.place(a)[0] for a in args))); return None
        if f[1][0] == 'call': p, t = self.call(f[1])
        else: p, t = self.place(f[1])
        m = f[2]
        if t == 'FieldElement' and m in OP2:
            a, b = args; ka, kb = self.konst(a), self.konst(b)
            if ka: self.emit_('fo1 "%s" (fun x => %s (%s) x) %s %s' % (m, OP2[m], ka, p, self.place(b)[0]))
            elif kb: self.emit_('fo1 "%s" (fun x => %s x (%s)) %s %s' % (m, OP2[m], kb, p, self.place(a)[0]))
            else: self.emit_('fo2 "%s" (%s) %s %s %s' % (m, OP2[m], p, self.place(a)[0], self.place(b)[0]))
        elif t == 'FieldElement' and m in OP1:
            k = self.konst(args[0])
            if k: assert m == 'Set'; self.emit_('fo0 "Set" (%s) %s' % (k, p))
            else: self.emit_('fo1 "%s" %s %s %s' % (m, OP1[m] if m == 'Set' else '(%s)' % OP1[m], p, self.place(args[0])[0]))
        elif t == 'FieldElement' and m in ('SetZero', 'SetOne'):
            self.emit_('fo0 "Set" (%s) %s' % (CONST['fe' + m[3:]], p))
        elif t == 'FieldElement' and m == 'normalize': self.emit_('fo1 "normalize" (o_normalize K) %s %s' % (p, p))
        elif t == 'FieldElement' and m == 'ConditionalSet':
            k = self.konst(args[0]); b = self.intarg(args[1])
            if k: self.emit_('foc0 (%s) %s %s' % (k, p, b))
            else: self.emit_('foc %s %s %s' % (p, self.place(args[0])[0], b))
        else:
            g = DONE[(t if not isinstance(t, tuple) else 'ScalarMultTable', m)]
            kinds = KIND[g]; out = []
            for a, k in zip(args, kinds):
                if k == 'ix': out.append(self.ix(a))
                elif k == 'int': out.append(self.intarg(a))
                else: out.append(self.place(a)[0])
            self.emit_('%s %s (@K + nl)%%nat (@C + nc)%%nat' % (g, ' '.join([p] + out)))
        return p, t
    def block(self, lines):
        saved = getattr(self, 'cur', None); self.cur = []
        scope = (dict(self.where), dict(self.ty))
        while lines:
            s = lines.pop(0)
            if s == '}': break
            m = re.fullmatch(r'for (\w+) :?= (?:int32\()?(\d+)\)?; \1 (<|<=|>=) (\d+); \1(\+\+|--| \+= 2) \{', s)
            if m:
                v, a, cmp_, b, step = m.groups(); a, b = int(a), int(b)
                k = self.nctr; self.nctr += 1
                K = '(Ctr (%d + nc))' % k
                if step == '++':
                    cnt = b - a + (cmp_ == '<=')
                    x = K if a == 0 else '(Plus (C %d) %s)' % (a, K)
                    val = 'Z.of_nat (rho (%d + nc)%%nat)' % k if a == 0 else 'Z.of_nat (rho (%d + nc)%%nat + %d)' % (k, a)
                elif step == '--':
                    assert cmp_ == '>=' and b == 0; cnt = a + 1; x = '(Minus (C %d) %s)' % (a, K); val = None
                else:
                    cnt = (b - a) // 2; assert cmp_ == '<' and (b - a) % 2 == 0
                    x = '(Plus (C %d) (Times 2 %s))' % (a, K); val = None
                old = (dict(self.ctr), dict(self.cval))
                self.ctr[v] = x; self.ctrty = getattr(self, 'ctrty', {}); self.ctrty[v] = 'int32' if 'int32(' in s else 'int'
                if val: self.cval[v] = val
                body = self.block(lines)
                self.ctr, self.cval = old
                self.cur.append('For (%d + nc) %d (prog [\n    %s])' % (k, cnt, ';\n    '.join(body)))
                continue
            self.stmt(s)
        out = self.cur; self.cur = saved
        self.where, self.ty = scope
        return out
    def stmt(self, s):
        m = re.fullmatch(r'var ([\w, ]+?) (\*?\[?[\w\]]+)(?: = (\w+))?', s)
        if m:
            t = parse_type(tokenize(m.group(2)))
            for x in m.group(1).split(','):
                x = x.strip()
                if x == 'i' and t == 'int': continue
                self.local(x, t)
            if m.group(3): self.intdo(self.where[m.group(1)], ('lit', int(m.group(3))))
            return
        if s.startswith('return'):
            rest = s[6:].strip()
            if rest in ('', self.recv): return
            e = P(tokenize(rest)).expr()
            if e[0] == 'call' and e[1][0] == 'sel' and e[1][2] not in ('IsNonZeroI',): self.call(e); return
            self.intdo('ret', e); self.uses_ret = True; return
        toks = tokenize(s); p = P(toks)
        l = p.unary()
        if p.peek() is None: self.call(self.fold(l)); return
        op = p.next(); r = p.expr(); assert p.peek() is None, s
        l = self.fold(l)
        if op == ':=':
            if l[1] in self.where: raise NotImplementedError(s)
            dst = self.local(l[1], 'int32')
            t = self.intdo(dst, r); self.ty[l[1]] = t; return
        dst, t = self.place(l)
        if op == '=': self.intdo(dst, r); return
        self.intdo(dst, ('bin', op[:-1], l, r))
    def run(self):
        src = open('/repo/' + self.file).read()
        if self.recvty: pat = r'^func \((\w+) \*%s\) %s\((.*?)\)([^\n]*)\{\n' % (self.recvty, self.go)
        else: pat = r'^func ()%s\((.*?)\)([^\n]*)\{\n' % self.go
        m = re.search(pat, src, re.M); assert m, self.go
        end = src.index('\n}', m.end()) + 2
        l0 = src[:m.start()].count('\n') + 1; l1 = src[:end].count('\n') + 1
        body = src[m.end():end-2]
        self.recv = m.group(1); params = []; kinds = []
        if self.recvty:
            self.ty[self.recv] = parse_type([self.recvty]); self.where[self.recv] = self.recv; params.append((self.recv, 'place'))
        pend = []
        for part in [x.strip() for x in m.group(2).split(',') if x.strip()]:
            w = part.split(' ')
            pend.append(w[0])
            if len(w) > 1:
                t = parse_type(tokenize(w[1]))
                for x in pend:
                    if x == 'pos':
                        self.ctr[x] = x; params.append((x, 'ix')); kinds.append('ix')
                    else:
                        self.ty[x] = t; self.where[x] = x; params.append((x, 'place'))
                        kinds.append('int' if t in INTS and '*' not in w[1] else 'place')
                pend = []
        body = re.sub(r'//[^\n]*', '', body); body = re.sub(r'/\*.*?\*/', '', body, flags=re.S)
        lines = [x.strip() for x in body.split('\n') if x.strip()]
        self.uses_ret = False
        out = self.block(lines)
        if self.uses_ret: params.append(('ret', 'place'))
        txt = ';\n  '.join(out).replace('@K', str(self.nloc)).replace('@C', str(self.nctr))
        nm = (self.recvty + '.' if self.recvty else '') + self.go
        print('(** [%s]: /repo/%s:%d-%d; locals from [nl] on: %s *)' % (nm, self.file, l0, l1, ', '.join(self.locs) or 'none'))
        print('Definition %s %s (nl nc : nat) : stmt V := prog [\n  %s].\n' % (
            self.coq, ' '.join('(%s : %s V)' % (x, k) for x, k in params), txt))
        DONE[(self.recvty, self.go) if self.recvty else self.go] = self.coq; KIND[self.coq] = kinds
KIND = {}

def base():
    F, CU, T, EL = ['edwards25519/%s.go' % x for x in ('field', 'curve', 'table', 'elligator')]
    for m in ['double', 'Add', 'Sub', 'Inverse', 'Abs', 'Exp22523', 'InvSqrt', 'Sqrt', 'InvSqrtI']: G(F, 'FieldElement', m).run()
    EP, CP, PP, NP = 'ExtendedPoint', 'CompletedPoint', 'ProjectivePoint', 'NielsPoint'
    for t, m in [(EP, 'SetTorsion3'), (EP, 'SetTorsion2'), (EP, 'SetTorsion1'), (PP, 'SetZero'), (EP, 'SetZero'), (EP, 'Set'),
                 (EP, 'ConditionalSet'), (CP, 'AddExtended'), (CP, 'SubExtended'), (CP, 'DoubleProjective'), (CP, 'DoubleExtended'),
                 (PP, 'SetExtended'), (PP, 'SetCompleted'), (EP, 'SetCompleted'), (EP, 'Double'), (EP, 'Add'), (EP, 'Sub'), (EP, 'Neg'),
                 (None, 'computeScalarWindow5'), (EP, 'ScalarMult')]:
        G(CU, t, m).run()
    for t, m in [(NP, 'SetZero'), (NP, 'Set'), (NP, 'ConditionalSet'), (NP, 'Neg'), (CP, 'AddExtendedNiels'), (CP, 'SubExtendedNiels'),
                 (NP, 'SetExtended'), ('ScalarMultTable', 'Compute'), (None, 'computeScalarWindow4'), ('ScalarMultTable', 'selectPoint'),
                 ('ScalarMultTable', 'ScalarMult')]:
        G(T, t, m).run()
    G(EL, 'JacobiPoint', 'Dual').run()

if __name__ == '__main__':
    print('''(** Generated by tools/go2prog.py from /repo/edwards25519/field.go, curve.go, table.go and
    elligator.go; do not edit.

    The code above the limb arithmetic as programs of GoLang.v, over an arbitrary field backend.
    A cell holds a field element or an integer: it is a pair of both of which one is used.  A
    struct is as many consecutive cells as it has fields, an array the concatenation of its
    elements; a parameter is the place a pointer points to (or where an argument passed by
    value is).  The methods of a backend are single operations; other calls are expanded, with
    the locals of the callee after those of the caller and its loop counters after the
    caller's.  Package variables (feOne, feI, ...) are constants.  A method that returns its
    receiver returns nothing here; [ret] is where an integer result goes. *)
From Coq Require Import ZArith List String.
From Verif Require Import Words FieldModel GoLang.
Import ListNotations.
Open Scope string_scope.
Open Scope Z_scope.

Section Curve.
Context (K : FeOps).
Local Notation V := (fe K * Z)%type.

(** the [k]-th local of a function whose locals start at [n] *)
Definition lo (k n : nat) : place V := ((k + n)%nat, C 0).

(** the methods of a backend *)
Definition fo0 (tag : string) (v : fe K) (d : place V) : stmt V := Do tag (fun _ _ => (v, 0)) d [].
Definition fo1 (tag : string) (f : fe K -> fe K) (d a : place V) : stmt V :=
  Do tag (fun _ vs => match vs with [x] => (f (fst x), 0) | _ => (k_zero K, 0) end) d [a].
Definition fo2 (tag : string) (f : fe K -> fe K -> fe K) (d a b : place V) : stmt V :=
  Do tag (fun _ vs => match vs with [x; y] => (f (fst x) (fst y), 0) | _ => (k_zero K, 0) end) d [a; b].
Definition foc (d a b : place V) : stmt V :=
  Do "ConditionalSet" (fun _ vs => match vs with [x; y; z] => (o_condSet K (fst x) (fst y) (snd z), 0) | _ => (k_zero K, 0) end) d [d; a; b].
Definition foc0 (v : fe K) (d b : place V) : stmt V :=
  Do "ConditionalSet" (fun _ vs => match vs with [x; z] => (o_condSet K (fst x) v (snd z), 0) | _ => (k_zero K, 0) end) d [d; b].
(** integer expressions *)
Definition ido (f : (nat -> nat) -> list Z -> Z) (d : place V) (args : list (place V)) : stmt V :=
  Do "int" (fun rho vs => (k_zero K, f rho (map snd vs))) d args.
(** methods returning an integer, the last with a receiver that may change *)
Definition io1 (tag : string) (f : fe K -> Z) (d a : place V) : stmt V :=
  Do tag (fun _ vs => match vs with [x] => (k_zero K, f (fst x)) | _ => (k_zero K, 0) end) d [a].
Definition io2 (tag : string) (f : fe K -> fe K -> Z) (d a b : place V) : stmt V :=
  Do tag (fun _ vs => match vs with [x; y] => (k_zero K, f (fst x) (fst y)) | _ => (k_zero K, 0) end) d [a; b].
Definition iot (tag : string) (f : fe K -> Z * fe K) (d a : place V) : stmt V :=
  Do2 tag (fun _ vs => match vs with [x] => let (r, y) := f (fst x) in ((k_zero K, r), (y, snd x)) | _ => ((k_zero K, 0), (k_zero K, 0)) end) d a [a].
''')
    base()
    print('End Curve.')
