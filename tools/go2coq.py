#!/usr/bin/env python3
"""Translate straight-line Go functions over fixed-size integer arrays into Coq
let-chains.  Every arithmetic operation gets the wrap-around of its Go type, in the
order in which the Go code performs it.  Only the subset of Go used by the limb code
of go-ristretto is supported; anything else raises an error.

usage: go2coq.py scalar|fe51|fe25 > file.v
"""
import re, sys

RANGE = {'uint8': (0, 2**8-1), 'uint16': (0, 2**16-1), 'uint32': (0, 2**32-1),
         'uint64': (0, 2**64-1), 'int8': (-2**7, 2**7-1), 'int32': (-2**31, 2**31-1),
         'int64': (-2**63, 2**63-1)}
WRAP = {'uint8': 'u8', 'uint16': 'u16', 'uint32': 'u32', 'uint64': 'u64',
        'int8': 'i8', 'int32': 'i32', 'int64': 'i64'}
ALIAS = {'byte': 'uint8'}

TOK = re.compile(r'\s*(0[xX][0-9a-fA-F]+|\d+|[A-Za-z_]\w*|<<=|>>=|<<|>>|&\^|\+=|-=|\*=|\|=|&=|\^=|:=|\+\+|--|==|!=|[-+*/%&|^()\[\]{},.:=<>!;])')

def tokenize(s):
    out, i = [], 0
    s = s.rstrip()
    while i < len(s):
        m = TOK.match(s, i)
        if not m:
            raise SyntaxError('token: ' + s[i:i+40])
        out.append(m.group(1)); i = m.end()
    return out

class P:
    """expression parser; AST nodes are tuples"""
    PREC = {'*': 5, '/': 5, '%': 5, '<<': 5, '>>': 5, '&': 5, '&^': 5, '+': 4, '-': 4, '|': 4, '^': 4}
    def __init__(self, toks): self.t, self.i = toks, 0
    def peek(self): return self.t[self.i] if self.i < len(self.t) else None
    def next(self):
        x = self.peek(); self.i += 1; return x
    def expect(self, x):
        y = self.next()
        if y != x: raise SyntaxError('expected %s got %s' % (x, y))
    def expr(self, p=0):
        l = self.unary()
        while self.peek() in self.PREC and self.PREC[self.peek()] > p:
            op = self.next()
            r = self.expr(self.PREC[op])
            l = ('bin', op, l, r)
        return l
    def unary(self):
        if self.peek() in ('-', '&', '*', '^'):
            op = self.next(); return ('un', op, self.unary())
        return self.postfix(self.primary())
    def primary(self):
        t = self.next()
        if t == '(':
            e = self.expr(); self.expect(')'); return e
        if re.match(r'0[xX]|\d', t): return ('lit', int(t, 0))
        return ('id', t)
    def postfix(self, e):
        while True:
            if self.peek() == '[':
                self.next()
                if self.peek() == ':':
                    self.next(); lo = ('lit', 0)
                else:
                    lo = self.expr()
                    if self.peek() == ']':
                        self.next(); e = ('idx', e, lo); continue
                    self.expect(':')
                if self.peek() != ']': self.expr()
                self.expect(']'); e = ('slice', e, lo)
            elif self.peek() == '(':
                self.next(); args = []
                while self.peek() != ')':
                    args.append(self.expr())
                    if self.peek() == ',': self.next()
                self.next(); e = ('call', e, args)
            elif self.peek() == '.':
                self.next(); e = ('sel', e, self.next())
            else: return e

class Fn:
    def __init__(self, unit, go, coq, params, ret, locals_=None, note=''):
        self.unit, self.go, self.coq, self.params, self.ret = unit, go, coq, params, ret
        self.ty = {}; self.out = []; self.note = note
        self.recv = None
    # --- expressions -> (coq, type or None for untyped constant, const value or None)
    def const(self, v): return (str(v) if v >= 0 else '(%d)' % v)
    def ex(self, e):
        k = e[0]
        if k == 'lit': return (self.const(e[1]), None, e[1])
        if k == 'id':
            if e[1] not in self.ty: raise NameError(e[1])
            return (e[1], self.ty[e[1]], None)
        if k == 'idx':
            a, i = e[1][1], e[2]
            assert i[0] == 'lit', e
            t = self.ty[a]
            if t[0] == 'list': return ('at_ %s %d' % (a, i[1]), t[1], None)
            assert t[0] == 'arr' and i[1] < t[2]
            return ('%s_%d' % (a, i[1]), t[1], None)
        if k == 'un':
            c, t, v = self.ex(e[2])
            if e[1] == '-':
                if v is not None: return (self.const(-v), None, -v)
                return ('%s (- %s)' % (WRAP[t], self.par(c)), t, None)
            raise NotImplementedError(e)
        if k == 'bin':
            return self.binop(e)
        if k == 'call':
            f = e[1]
            if f[0] == 'id':
                n = ALIAS.get(f[1], f[1])
                if n in RANGE:
                    c, t, v = self.ex(e[2][0])
                    if v is not None:
                        assert RANGE[n][0] <= v <= RANGE[n][1]
                        return (self.const(v), n, None)
                    if RANGE[n][0] <= RANGE[t][0] and RANGE[t][1] <= RANGE[n][1]:
                        return (c, n, None)
                    return ('%s %s' % (WRAP[n], self.par(c)), n, None)
                if n in self.unit.ext:
                    rt = self.unit.ext[n]
                    return ('%s %s' % (self.unit.extname.get(n, n), ' '.join(self.par(self.arg(a)) for a in e[2])), rt, None)
        raise NotImplementedError(e)
    def arg(self, a):
        if a[0] == 'slice': return 'skipn %d %s' % (a[2][1], a[1][1])
        return self.ex(a)[0]
    def par(self, c):
        return c if re.match(r'^[\w]+$', c) or (c.startswith('(') and self.balanced(c)) else '(%s)' % c
    def balanced(self, c):
        d = 0
        for i, ch in enumerate(c):
            d += (ch == '(') - (ch == ')')
            if d == 0: return i == len(c) - 1
        return False
    def binop(self, e):
        op = e[1]
        (c1, t1, v1), (c2, t2, v2) = self.ex(e[2]), self.ex(e[3])
        if v1 is not None and v2 is not None:
            v = {'<<': lambda: v1 << v2, '+': lambda: v1+v2, '-': lambda: v1-v2, '*': lambda: v1*v2}[op]()
            return (self.const(v), None, v)
        if op in ('<<', '>>'):
            assert v2 is not None
            if op == '<<': return ('%s (Z.shiftl %s %d)' % (WRAP[t1], self.par(c1), v2), t1, None)
            return ('Z.shiftr %s %d' % (self.par(c1), v2), t1, None)
        t = t1 or t2
        assert t1 is None or t2 is None or t1 == t2, (e, t1, t2)
        for v in (v1, v2):
            assert v is None or RANGE[t][0] <= v <= RANGE[t][1]
        if op in ('+', '-', '*'):
            return ('%s (%s %s %s)' % (WRAP[t], self.par(c1), op, self.par(c2)), t, None)
        f = {'&': 'Z.land', '|': 'Z.lor', '^': 'Z.lxor'}[op]
        if op == '&' and v1 is not None:   # keep the mask on the right, as [&] commutes
            c1, c2 = c2, c1
        return ('%s %s %s' % (f, self.par(c1), self.par(c2)), t, None)
    # --- statements
    def let(self, name, c): self.out.append('%s %s := %s in' % (LET, name, c))
    def lhs(self, e):
        if e[0] == 'id': return e[1]
        if e[0] == 'idx':
            a = e[1][1]; assert e[2][0] == 'lit'
            return '%s_%d' % (a, e[2][1])
        raise NotImplementedError(e)
    def lty(self, e):
        if e[0] == 'id': return self.ty.get(e[1])
        return self.ty[e[1][1]][1]
    def whole(self, a):
        t = self.ty[a]
        if t[0] == 'arr':
            if t[3] is None:
                return '[' + '; '.join('%s_%d' % (a, i) for i in range(t[2])) + ']'
            return '(%s %s)' % (t[3], ' '.join('%s_%d' % (a, i) for i in range(t[2])))
        return a
    def stmt(self, s):
        toks = tokenize(s)
        if toks[0] == 'var':
            # var a, b T   /  var carry [n]T
            j = 1; names = [toks[1]]; j = 2
            while j < len(toks) and toks[j] == ',': names.append(toks[j+1]); j += 2
            if toks[j] == '[':
                n = int(toks[j+1]); et = ALIAS.get(toks[j+3], toks[j+3])
                for nm in names:
                    self.ty[nm] = ('arr', et, n, None)
            else:
                T = ALIAS.get(toks[j], toks[j])
                if T in self.unit.arrty:
                    for nm in names: self.ty[nm] = ('arr',) + self.unit.arrty[T]
                else:
                    for nm in names: self.ty[nm] = T
                    if toks[j+1:] :
                        assert toks[j+1] == '='; self.let(names[0], toks[j+2])
            return
        if toks[0] == 'return':
            p = P(toks[1:])
            if p.peek() is None:
                self.final = self.ret_named(); return
            e = p.expr()
            if e[0] == 'id' and e[1] == self.recv:
                self.final = self.result(); return
            if e[0] == 'call' and e[1][0] == 'sel':
                f = self.unit.meth[e[1][2]]
                args = []
                for n, a in enumerate(e[2]):
                    if a[0] == 'un' and a[1] == '&': args.append(a[2][1])
                    elif a[0] == 'id' and isinstance(self.ty.get(a[1]), tuple): args.append(self.whole(a[1]))
                    else:
                        nm = 'arg%d' % n
                        self.let(nm, self.ex(a)[0]); args.append(nm)
                self.final = '%s %s' % (f, ' '.join(args)); return
            c = self.ex(e)[0]; self.final = c; return
        # tuple assignment from bits.X
        m = re.match(r'^(\w+)\s*,\s*(\w+)\s*(:?=)\s*bits\.(\w+)(\(.*\))$', s)
        if m:
            a, b, _, f, rest = m.groups()
            e = P(tokenize('f' + rest)).expr()
            args = ' '.join(self.par(self.ex(x)[0]) for x in e[2])
            for nm in (a, b):
                if nm != '_': self.ty[nm] = 'uint64'
            self.out.append('let (%s, %s) := bits_%s %s in' % (a, b, f.lower(), args)); return
        m = re.match(r'^((?:\w+\s*,\s*)+\w+)\s*:=\s*(\w+)\.(\w+)\(\)$', s)
        if m:
            names = [x.strip() for x in m.group(1).split(',')]
            for nm in names: self.ty[nm] = 'int64'
            self.out.append('let \'(H10 %s) := %s %s in' % (' '.join(names), self.unit.meth[m.group(3)], self.whole(m.group(2)))); return
        m = re.match(r'^(\w+)\.(\w+)\((\w+)\)$', s)
        if m:
            d, f, a = m.groups(); t = self.ty[d]
            self.out.append("let '(%s %s) := %s %s in" % (t[3], ' '.join('%s_%d' % (d, i) for i in range(t[2])), self.unit.meth[f], self.whole(a))); return
        p = P(toks)
        if p.peek() == '*':      # *fe = *a
            p.next(); l = p.next(); p.expect('='); p.expect('*'); r = p.next()
            return self.copy(l, r)
        l = p.unary()
        op = p.next()
        if op in ('++', '--'):
            t = self.lty(l); self.let(self.lhs(l), '%s (%s %s 1)' % (WRAP[t], self.lhs(l), op[0])); return
        if op == '=' and p.peek() == '*':
            p.next(); return self.copy(l[1], p.next())
        r = p.expr(); assert p.peek() is None, s
        if op == ':=':
            c, t, v = self.ex(r); assert t is not None, s
            self.ty[l[1]] = t; self.let(self.lhs(l), c); return
        if op == '=':
            c, t, v = self.ex(r); assert v is not None or t == self.lty(l), (s, t, self.lty(l))
            self.let(self.lhs(l), c); return
        c, t, v = self.ex(('bin', op[:-1], l, r)); assert t == self.lty(l), s
        self.let(self.lhs(l), c)
    def copy(self, dst, src):
        n = self.ty[dst][2]
        for i in range(n): self.let('%s_%d' % (dst, i), '%s_%d' % (src, i))
    def result(self):
        return self.whole(self.ret)
    def ret_named(self): return '(H10 %s)' % ' '.join(self.named)
    def run(self):
        src = self.unit.src
        pat = re.compile(r'^func (?:\((\w+) \*?\w+\) )?%s\(' % re.escape(self.go), re.M)
        m = pat.search(src); assert m, self.go
        start = m.start(); end = src.index('\n}', start) + 2
        l0 = src[:start].count('\n') + 1; l1 = src[:end].count('\n') + 1
        text = src[start:end]
        self.recv = m.group(1)
        hdr_end = text.index('{\n')
        hdr, body = text[:hdr_end], text[hdr_end+2:-2]
        for n, t in self.params:
            self.ty[n] = t
        if self.ret and self.ret not in self.ty:
            self.ty[self.ret] = ('arr',) + self.unit.arrty[self.unit.main]
        nm = re.search(r'\) \((h0.*) int64\)', hdr)
        if nm:
            self.named = [x.strip() for x in nm.group(1).split(',')]
            for x in self.named: self.ty[x] = 'int64'
        body = re.sub(r'//[^\n]*', '', body); body = re.sub(r'/\*.*?\*/', '', body, flags=re.S)
        # join lines inside parentheses
        stmts, cur, depth = [], '', 0
        for ln in body.split('\n'):
            cur += ' ' + ln.strip(); depth = cur.count('(') - cur.count(')')
            if depth == 0 and not re.search(r'[-+*|&]\s*$', cur):
                if cur.strip(): stmts.append(cur.strip())
                cur = ''
        self.final = None
        for s in stmts: self.stmt(s)
        if self.final is None: self.final = self.result()
        self.lines = (l0, l1)
        self.emit(l0, l1, nm)
    def emit(self, l0, l1, nm):
        sig = ' '.join('(%s : %s)' % (n, self.pty(t)) for n, t in self.params)
        heads, tails = [], 0
        for n, t in self.params:
            if t[0] == 'arr':
                heads.append('match %s with %s %s =>' % (n, t[3], ' '.join('%s_%d' % (n, i) for i in range(t[2])))); tails += 1
        rty = 'h10' if nm else self.unit.rty.get(self.go, self.unit.rettype)
        print('(** [%s]: /repo/%s:%d-%d%s *)' % (self.go, self.unit.file, l0, l1, self.note))
        print('Definition %s %s : %s :=' % (self.coq, sig, rty))
        for h in heads: print('  ' + h)
        for o in self.out: print('  ' + o)
        print('  ' + self.final + ' end' * tails + '.\n')
    def pty(self, t):
        if t[0] == 'arr': return self.unit.tyname
        if t[0] == 'list': return 'list Z'
        return 'Z'

class Unit:
    def __init__(self, file, main, arr, tyname, meth, ext=None, rty=None, extname=None):
        self.extname = extname or {}
        self.file = file; self.src = open('/repo/' + file).read()
        self.main = main; self.arrty = {main: arr}; self.tyname = tyname; self.rettype = tyname
        self.meth = meth; self.ext = ext or {}; self.rty = rty or {}
    def fn(self, go, coq, params, ret, note=''):
        Fn(self, go, coq, params, ret, note=note).run()

LET = 'let'

def inverse(src):
    m = re.search(r'^func \(s \*Scalar\) Inverse\(t \*Scalar\) \*Scalar \{\n(.*?)^\}', src, re.S | re.M)
    l0 = src[:m.start()].count('\n') + 1; l1 = src[:m.end()].count('\n') + 1
    out = []; lines = [x.strip() for x in m.group(1).split('\n') if x.strip()]
    assert lines.pop(0) == 'var t0, t1, t2, t3, t4, t5 Scalar'
    while lines:
        x = lines.pop(0)
        q = re.fullmatch(r'(t\d)\.Square\(&?(t\d?)\)', x)
        if q: out.append('dlet %s := sc_square %s in' % q.groups()); continue
        q = re.fullmatch(r'(t\d)\.Mul\(&?(t\d?), &?(t\d?)\)', x)
        if q: out.append('dlet %s := sc_mul %s %s in' % q.groups()); continue
        q = re.fullmatch(r'for i := 0; i < (\d+); i\+\+ \{', x)
        if q:
            y = re.fullmatch(r'(t\d)\.Square\(&(t\d)\)', lines.pop(0)); assert y.group(1) == y.group(2)
            assert lines.pop(0) == '}'
            out.append('dlet %s := Nat.iter %s sc_square %s in' % (y.group(1), q.group(1), y.group(1))); continue
        q = re.fullmatch(r's\.Mul\(&(t\d), &(t\d)\)', x); assert q, x
        out.append('sc_mul %s %s.' % q.groups()); assert lines == ['return s']; lines = []
    print('(** [Inverse]: /repo/scalar.go:%d-%d; the final loop is [Nat.iter] *)' % (l0, l1))
    print('Definition sc_inverse (t : sc) : sc :=\n  ' + '\n  '.join(out) + '\n')

def scalar():
    global LET; LET = 'dlet'
    A = ('uint32', 8, 'Sc')
    u = Unit('scalar.go', 'Scalar', A, 'sc',
             {'Sub': 'sc_sub', 'reduceAfterMul': 'sc_reduceAfterMul'},
             ext={'load3': 'int64', 'load4': 'int64', 'load4u32': 'uint32'}, rty={'BytesInto': 'list Z'})
    S = ('arr',) + A; B = ('list', 'uint8')
    print('''(** Generated by tools/go2coq.py from /repo/scalar.go; do not edit. *)
From Coq Require Import ZArith List.
From Verif Require Import Words.
Import ListNotations.
Open Scope Z_scope.

(** A [let] that the type checker keeps folded; used for the statement sequences below. *)
Definition LetIn {A B : Type} (e : A) (f : A -> B) : B := f e.
Strategy 1000 [LetIn].
Notation "'dlet' x := e 'in' b" := (LetIn e (fun x => b))
  (at level 200, x name, e at level 200, b at level 200, format "'dlet'  x  :=  e  'in' '//' b").

(** [type Scalar [8]uint32]: /repo/scalar.go:20 *)
Inductive sc : Set := Sc (s0 s1 s2 s3 s4 s5 s6 s7 : Z).

(** [scZero], [scOne], [scL]: /repo/scalar.go:23-30 *)
Definition scZero : sc := Sc 0 0 0 0 0 0 0 0.
Definition scOne : sc := Sc 1 0 0 0 0 0 0 0.
Definition scL : sc := Sc 0x5cf5d3ed 0x5812631a 0xa2f79cd6 0x14def9de 0 0 0 0x10000000.

(** [load3]: /repo/scalar.go:1087-1093 *)
Definition load3 (inp : list Z) : Z :=
  let r := at_ inp 0 in
  let r := Z.lor r (i64 (Z.shiftl (at_ inp 1) 8)) in
  let r := Z.lor r (i64 (Z.shiftl (at_ inp 2) 16)) in
  r.

(** [load4]: /repo/scalar.go:1096-1103 *)
Definition load4 (inp : list Z) : Z :=
  let r := at_ inp 0 in
  let r := Z.lor r (i64 (Z.shiftl (at_ inp 1) 8)) in
  let r := Z.lor r (i64 (Z.shiftl (at_ inp 2) 16)) in
  let r := Z.lor r (i64 (Z.shiftl (at_ inp 3) 24)) in
  r.

(** [load4u32]: /repo/scalar.go:1106-1109 *)
Definition load4u32 (inp : list Z) : Z :=
  Z.lor (Z.lor (Z.lor (at_ inp 0) (u32 (Z.shiftl (at_ inp 1) 8)))
    (u32 (Z.shiftl (at_ inp 2) 16))) (u32 (Z.shiftl (at_ inp 3) 24)).
''')
    u.arrty['buf'] = ('uint8', 32, None)
    f = Fn(u, 'BytesInto', 'sc_bytes', [('s', S)], 'buf', note='; returns the contents of buf')
    f.ty['buf'] = ('arr', 'uint8', 32, None); f.run()
    u.fn('Sub', 'sc_sub', [('a', S), ('b', S)], 's')
    u.fn('Add', 'sc_add', [('a', S), ('b', S)], 's')
    u.fn('SetBytes', 'sc_setBytes', [('x', B)], 's')
    u.fn('SetReduced', 'sc_setReduced', [('t', B)], 's')
    args = [('s%d' % i, 'int64') for i in range(23)]
    u.fn('reduceAfterMul', 'sc_reduceAfterMul', args, 's')
    u.fn('Square', 'sc_square', [('a', S)], 's')
    u.fn('Mul', 'sc_mul', [('a', S), ('b', S)], 's')
    u.fn('MulAdd', 'sc_mulAdd', [('a', S), ('b', S), ('c', S)], 's')
    u.fn('MulSub', 'sc_mulSub', [('a', S), ('b', S), ('c', S)], 's')
    inverse(u.src)

CONSTS = ['feZero', 'feOne', 'feMinusOne', 'feI', 'feMinusI', 'feD', 'fe2D', 'feInvSqrtMinusDMinusOne',
  'feDoubleInvSqrtMinusDMinusOne', 'feDoubleIInvSqrtMinusDMinusOne', 'feDMinusOneSquared', 'feOneMinusDSquared',
  'feDp1OverDm1', 'feSqrtID', 'feInvSqrt1pD']

def consts(file, con, n, pre):
    src = open('/repo/' + file).read()
    def lit(m):
        a = [int(x, 0) for x in re.findall(r'-?\d+', m)]
        assert len(a) == n
        return '%s %s' % (con, ' '.join(('(%d)' % x) if x < 0 else str(x) for x in a))
    for c in CONSTS:
        m = re.search(r'^\t%s\s*=\s*FieldElement\{([^}]*)\}' % c, src, re.M)
        if not m:
            assert c == 'feZero'
            pos = src.index('\tfeZero'); body = ' '.join(['0'] * n); val = lit(body); end = pos
        else:
            pos, end = m.start(), m.end(); val = lit(m.group(1))
        l0 = src[:pos+1].count('\n') + 1; l1 = src[:end].count('\n') + 1
        print('(** [%s]: /repo/%s:%d-%d *)\nDefinition %s_%s : %s := %s.' % (c, file, l0, l1, pre, c, con.lower(), val))
    m = re.search(r'epBase = ExtendedPoint\{(.*?)\n\t\}', src, re.S)
    els = re.findall(r'FieldElement\{([^}]*)\}', m.group(1)); assert len(els) == 3
    l0 = src[:m.start()].count('\n') + 1; l1 = src[:m.end()].count('\n') + 1
    for nm, x in zip('XYT', els):
        print('(** [epBase.%s]: /repo/%s:%d-%d *)\nDefinition %s_epBase%s : %s := %s.' % (nm, file, l0, l1, pre, nm, con.lower(), lit(x)))
    print()

def fe51():
    A = ('uint64', 5, 'Fe51')
    S = ('arr',) + A; B = ('list', 'uint8')
    print('''(** Generated by tools/go2coq.py from /repo/edwards25519/field_radix51.go and
    field_mul64.go; do not edit. *)
From Coq Require Import ZArith List.
From Verif Require Import Words.
Import ListNotations.
Open Scope Z_scope.

(** [type FieldElement [5]uint64]: /repo/edwards25519/field_radix51.go:8 *)
Inductive fe51 : Set := Fe51 (l0 l1 l2 l3 l4 : Z).
''')
    consts('edwards25519/field_radix51.go', 'Fe51', 5, 'r51')
    u = Unit('edwards25519/field_radix51.go', 'FieldElement', A, 'fe51', {'setReduced': 'r51_setReduced'}, rty={'BytesInto': 'list Z'})
    u.fn('Neg', 'r51_neg', [('a', S)], 'fe')
    u.fn('sub', 'r51_sub', [('a', S), ('b', S)], 'fe')
    u.fn('add', 'r51_add', [('a', S), ('b', S)], 'fe')
    u.fn('setReduced', 'r51_setReduced', [('a', S)], 'fe')
    u.fn('ConditionalSet', 'r51_condSet', [('fe', S), ('a', S), ('b', 'int32')], 'fe')
    f = Fn(u, 'BytesInto', 'r51_bytes', [('fe', S)], 's', note='; returns the contents of s')
    f.ty['s'] = ('arr', 'uint8', 32, None); f.run()
    u.fn('SetBytes', 'r51_setBytes', [('buf', B)], 'fe')
    u2 = Unit('edwards25519/field_mul64.go', 'FieldElement', A, 'fe51', {})
    u2.fn('Mul', 'r51_mul', [('a', S), ('b', S)], 'fe')
    u2.fn('Square', 'r51_square', [('a', S)], 'fe')
    u2.fn('DoubledSquare', 'r51_doubledSquare', [('a', S)], 'fe')

def fe25():
    A = ('int32', 10, 'Fe25')
    S = ('arr',) + A; B = ('list', 'uint8')
    print('''(** Generated by tools/go2coq.py from /repo/edwards25519/field_generic.go; do not edit. *)
From Coq Require Import ZArith List.
From Verif Require Import Words.
Import ListNotations.
Open Scope Z_scope.

(** [type FieldElement [10]int32]: /repo/edwards25519/field_generic.go:8 *)
Inductive fe25 : Set := Fe25 (l0 l1 l2 l3 l4 l5 l6 l7 l8 l9 : Z).

(** the ten unnormalised coefficients h0, ..., h9 of type int64 *)
Inductive h10 : Set := H10 (h0 h1 h2 h3 h4 h5 h6 h7 h8 h9 : Z).

(** [load3]: /repo/edwards25519/field_generic.go:146-152 *)
Definition g_load3 (inp : list Z) : Z :=
  let r := at_ inp 0 in
  let r := Z.lor r (i64 (Z.shiftl (at_ inp 1) 8)) in
  let r := Z.lor r (i64 (Z.shiftl (at_ inp 2) 16)) in
  r.

(** [load4]: /repo/edwards25519/field_generic.go:155-162 *)
Definition g_load4 (inp : list Z) : Z :=
  let r := at_ inp 0 in
  let r := Z.lor r (i64 (Z.shiftl (at_ inp 1) 8)) in
  let r := Z.lor r (i64 (Z.shiftl (at_ inp 2) 16)) in
  let r := Z.lor r (i64 (Z.shiftl (at_ inp 3) 24)) in
  r.
''')
    consts('edwards25519/field_generic.go', 'Fe25', 10, 'g25')
    u = Unit('edwards25519/field_generic.go', 'FieldElement', A, 'fe25', {'setReduced': 'g25_setReduced', 'square': 'g25_squareRaw'},
             rty={'BytesInto': 'list Z * fe25'}, ext={'load3': 'int64', 'load4': 'int64'}, extname={'load3': 'g_load3', 'load4': 'g_load4'})
    u.fn('Neg', 'g25_neg', [('a', S)], 'fe')
    u.fn('add', 'g25_add', [('a', S), ('b', S)], 'fe')
    u.fn('sub', 'g25_sub', [('a', S), ('b', S)], 'fe')
    u.fn('setReduced', 'g25_setReduced', [('h%d' % i, 'int64') for i in range(10)], 'fe')
    u.fn('normalize', 'g25_normalize', [('fe', S)], 'fe')
    u.fn('ConditionalSet', 'g25_condSet', [('fe', S), ('a', S), ('b', 'int32')], 'fe')
    f = Fn(u, 'BytesInto', 'g25_bytes', [('fe', S)], 's', note='; returns the contents of s and the receiver, which is normalised in place')
    f.ty['s'] = ('arr', 'uint8', 32, None)
    f.result = lambda: '(%s, %s)' % (f.whole('s'), f.whole('fe'))
    f.run()
    u.fn('SetBytes', 'g25_setBytes', [('buf', B)], 'fe')
    u.fn('Mul', 'g25_mul', [('a', S), ('b', S)], 'fe')
    u.fn('square', 'g25_squareRaw', [('fe', S)], 'fe')
    u.fn('Square', 'g25_square', [('a', S)], 'fe')
    u.fn('DoubledSquare', 'g25_doubledSquare', [('a', S)], 'fe')

if __name__ == '__main__':
    {'scalar': scalar, 'fe51': fe51, 'fe25': fe25}[sys.argv[1]]()
