#!/usr/bin/env python3
"""Translate the field and group functions of /repo/cref/cref.c to Coq.

  c2coq.py fe    prints theories/CrefFeCode.v: straight-line arithmetic as programs of CLang.v
  c2coq.py seq   prints theories/CrefCode.v: functions that are sequences of calls
  c2coq.py mem   prints theories/CrefPtrCode.v: the latter on a memory
  c2coq.py inv   prints theories/CrefInvert.v: group_scalar_invert
  c2coq.py table prints theories/CrefTable.v: the constants of type group_ge and the table of base point multiples

The arithmetic is typed with the integer promotions and usual arithmetic conversions of C;
constant subexpressions are folded and load_3, load_4 are inlined.
"""
import re, sys

SRC = '/repo/cref/cref.c'
TEXT = open(SRC).read()


def function(name):
    """(first line, last line, parameters, body without comments) of a function definition"""
    m = re.search(r'^[a-z][\w \*]*\b%s\s*\(([^;{]*)\)\s*\n?\{' % name, TEXT, re.M)
    i = m.end()
    depth, j = 1, i
    while depth:
        depth += {'{': 1, '}': -1}.get(TEXT[j], 0)
        j += 1
    first = TEXT.count('\n', 0, m.start()) + 1
    last = TEXT.count('\n', 0, j) + 1
    body = TEXT[i:j - 1]
    body = re.sub(r'/\*.*?\*/', ' ', body, flags=re.S)
    body = re.sub(r'//[^\n]*', ' ', body)
    return first, last, m.group(1), body


def cite(name):
    a, b, _, _ = function(name)
    return '/repo/cref/cref.c:%d-%d' % (a, b)


# ---------------------------------------------------------------- expressions

TOK = re.compile(r'\s*(\d+|[A-Za-z_]\w*|->|<<|>>|[-+*()&|\[\],])')
RANK = ['I32', 'U32', 'I64', 'U64']


class Expr:
    """a typed C expression: coq text, type, constant value or None"""
    def __init__(self, coq, ty, const=None):
        self.coq, self.ty, self.const = coq, ty, const


def const(v, ty):
    return Expr('Cst %s' % (v if v >= 0 else '(%d)' % v), ty, v)


def par(e):
    return '(%s)' % e.coq


def promote(e):
    return Expr(e.coq, 'I32', e.const) if e.ty == 'U8' else e


def convert(e, ty):
    """conversion; a node only where the value may change"""
    e = promote(e)
    if e.ty == ty or (e.ty, ty) in [('I32', 'I64'), ('U32', 'I64'), ('U32', 'U64')]:
        return Expr(e.coq, ty, e.const)
    if e.const is not None and e.const >= 0:
        return Expr(e.coq, ty, e.const)
    return Expr('Cast %s %s' % (ty, par(e)), ty)


OPS = {'+': 'Add', '-': 'Sub', '*': 'Mul', '&': 'And', '|': 'Or'}


def binary(o, a, b):
    a, b = promote(a), promote(b)
    if o in ('<<', '>>'):
        if a.const is not None:
            return const(a.const << b.const if o == '<<' else a.const >> b.const, a.ty)
        return Expr('%s %s %s %d' % ('Shl' if o == '<<' else 'Shr', a.ty, par(a), b.const), a.ty)
    ty = max(a.ty, b.ty, key=RANK.index)
    a, b = convert(a, ty), convert(b, ty)
    return Expr('Bin %s %s %s %s' % (OPS[o], ty, par(a), par(b)), ty)


class Parser:
    def __init__(self, text, fn):
        self.toks = []
        i = 0
        text = text.strip()
        while i < len(text):
            m = TOK.match(text, i)
            assert m, text[i:]
            self.toks.append(m.group(1))
            i = m.end()
        self.i, self.fn = 0, fn

    def peek(self, k=0):
        return self.toks[self.i + k] if self.i + k < len(self.toks) else None

    def next(self):
        self.i += 1
        return self.toks[self.i - 1]

    def expect(self, t):
        assert self.next() == t, (self.toks, self.i)

    LEVELS = [['|'], ['&'], ['<<', '>>'], ['+', '-'], ['*']]

    def expr(self, lvl=0):
        if lvl == len(self.LEVELS):
            return self.unary()
        e = self.expr(lvl + 1)
        while self.peek() in self.LEVELS[lvl]:
            o = self.next()
            e = binary(o, e, self.expr(lvl + 1))
        return e

    TYPES = {'crypto_int32': 'I32', 'crypto_int64': 'I64', 'crypto_uint64': 'U64', 'crypto_uint32': 'U32'}

    def unary(self):
        if self.peek() == '-':
            self.next()
            e = promote(self.unary())
            return Expr('Opp %s %s' % (e.ty, par(e)), e.ty)
        if self.peek() == '(' and self.peek(1) in self.TYPES:
            self.next()
            ty = self.TYPES[self.next()]
            self.expect(')')
            return convert(self.unary(), ty)
        if self.peek() == '(':
            self.next()
            e = self.expr()
            self.expect(')')
            return e
        t = self.next()
        if t.isdigit():
            return const(int(t), 'I32')
        if t in ('load_3', 'load_4'):
            self.expect('(')
            self.expect('s')
            off = 0
            if self.peek() == '+':
                self.next()
                off = int(self.next())
            self.expect(')')
            e = Expr('Cast U64 %s' % par(self.fn.var('s%d' % off)), 'U64')
            for k in range(1, int(t[-1])):
                b = Expr('Cast U64 %s' % par(self.fn.var('s%d' % (off + k))), 'U64')
                e = binary('|', e, binary('<<', b, const(8 * k, 'I32')))
            return e
        if self.peek() == '->':
            self.next()
            self.expect('v')
            self.expect('[')
            k = int(self.next())
            self.expect(']')
            return self.fn.var('%s_%d' % (t, k))
        return self.fn.var(t)


class Straight:
    def __init__(self, name, ins, outs, out_ty):
        self.name, self.outs, self.out_ty = name, outs, out_ty
        self.vars, self.lines = {}, []
        self.n = 0
        for p, count, ty in ins:
            for k in range(count):
                self.vars['%s%s%d' % (p, '_' if p != 's' else '', k)] = (self.n, ty)
                self.n += 1
        self.run()

    def var(self, x):
        n, ty = self.vars[x]
        return Expr('Var %d' % n, ty)

    def assign(self, x, ty, e):
        e = convert(e, ty) if ty != 'U8' else Expr('Cast U8 %s' % par(e), 'U8')
        self.lines.append((e.coq, x))
        self.vars[x] = (self.n, ty)
        self.n += 1

    def run(self):
        _, _, _, body = function(self.name)
        types = {}
        for st in body.split(';'):
            st = ' '.join(st.split())
            if not st:
                continue
            m = re.match(r'(crypto_\w+) (\w+)( = (.*))?$', st)
            if m:
                ty = Parser.TYPES[m.group(1)]
                types[m.group(2)] = ty
                if m.group(4):
                    self.assign(m.group(2), ty, Parser(m.group(4), self).expr())
                continue
            m = re.match(r'([\w>\[\]-]+?) (\+|-)?= (.*)$', st)
            x = m.group(1)
            e = Parser(m.group(3), self).expr()
            if m.group(2):
                e = binary(m.group(2), self.var(x), e)
            o = re.match(r'%s(?:->v)?\[(\d+)\]$' % self.outs, x)
            if o:
                self.assign('out%s' % o.group(1), self.out_ty, e)
            else:
                self.assign(x, types[x], e)

    def coq(self, cname):
        n_out = len([x for x in self.vars if x.startswith('out')])
        outs = '; '.join(str(self.vars['out%d' % k][0]) for k in range(n_out))
        s = '(** [%s]: %s *)\n' % (self.name, cite(self.name))
        s += 'Definition %s : cfun := CFun [\n' % cname
        s += ';\n'.join('  (* %s *) %s' % (x, e) for e, x in self.lines)
        s += '\n  ]%%list [%s]%%nat%%list.\n' % outs
        return s


def constant(name):
    m = re.search(r'%s = \{\{(.*?)\}\}' % name, TEXT)
    line = TEXT.count('\n', 0, m.start()) + 1
    ls = ' '.join(x.strip() if x.strip()[0] != '-' else '(%s)' % x.strip() for x in m.group(1).split(','))
    return line, ls


CONSTS = [('fe25519_zero', 'c_zero'), ('fe25519_one', 'c_one'), ('fe25519_sqrtm1', 'c_sqrtm1'),
          ('fe25519_m1', 'c_m1'), ('ge25519_ecd', 'c_ecd'), ('ge25519_ec2d', 'c_ec2d'), ('ge25519_magic', 'c_magic')]


def print_fe():
    print('''(** Generated by tools/c2coq.py from /repo/cref/cref.c; do not edit. *)
From Coq Require Import ZArith List.
From Verif Require Import Words CLang Fe25Code.
Import ListNotations.
Open Scope Z_scope.
''')
    for n, c in CONSTS:
        line, ls = constant(n)
        print('(** [%s]: /repo/cref/cref.c:%d *)\nDefinition %s : fe25 := Fe25 %s.' % (n, line, c, ls))
    print()
    f, fg, s = [('f', 10, 'I32')], [('f', 10, 'I32'), ('g', 10, 'I32')], [('s', 32, 'U8')]
    for name, ins, out, ty in [
            ('fe25519_unpack', s, 'h', 'I32'), ('fe25519_pack', [('h', 10, 'I32')], 's', 'U8'),
            ('fe25519_neg', f, 'h', 'I32'), ('fe25519_add', fg, 'h', 'I32'), ('fe25519_sub', fg, 'h', 'I32'),
            ('fe25519_mul', fg, 'h', 'I32'), ('fe25519_square', f, 'h', 'I32'), ('fe25519_square_double', f, 'h', 'I32')]:
        print(Straight(name, ins, out, ty).coq('p_' + name[8:]))


# ---------------------------------------------------------------- sequences of calls

STRUCTS = {'group_ge': ('Ge', 'xyzt'), 'ge25519_p3': ('Ge', 'xyzt'), 'ge25519_p1p1': ('P1p1', 'xzyt'),
           'ge25519_p2': ('P2', 'xyz'), 'ge25519_aff': ('Aff', 'xy')}
GLOBALS = dict(CONSTS)
VOID = {'fe25519_add': 2, 'fe25519_sub': 2, 'fe25519_mul': 2, 'fe25519_square': 1, 'fe25519_square_double': 1, 'fe25519_neg': 1,
        'fe25519_double': 1, 'fe25519_triple': 1, 'fe25519_invert': 1, 'fe25519_pow2523': 1, 'fe25519_invsqrt': 1, 'fe25519_sqrt': 1,
        'fe25519_abs': 1}
TESTS = ['fe25519_isnegative', 'fe25519_iszero', 'fe25519_isone', 'fe25519_iseq']


def cname(f):
    return {'fe25519': 'c_', 'group_g': 'g_'}.get(f[:7], 'g_') + re.sub(r'^(fe25519|group_ge|ge25519)_', '', f)


class Seq:
    def __init__(self, name, result, reads_dest=False):
        """result: list of what the function hands back: 'int', or a parameter"""
        self.name, self.result = name, result
        self.first, self.last, params, self.body = function(name)
        self.params = []
        self.types = {}
        for p in params.split(','):
            p = p.replace('const', ' ').strip()
            m = re.match(r'(.*?)\s*\*?\s*(\w+)(\[\w+\])?$', p)
            ty = m.group(1).replace('*', '').strip()
            ty = 'bytes' if ty == 'unsigned char' and m.group(3) else ty
            self.types[m.group(2)] = ty
            self.params.append(m.group(2))
        self.out = []
        self.k = 0
        self.args = [p for p in self.params if p not in result or reads_dest]
        self.ret = None
        self.translate()

    def lv(self, x):
        x = x.strip()
        m = re.match(r'\((\w+) \*\)(\w+)$', x)
        if m:
            return self.struct(m.group(2), m.group(1))
        x = x.lstrip('&*')
        if x in GLOBALS:
            return GLOBALS[x]
        if self.types.get(x) in STRUCTS:
            return self.struct(x, self.types[x])
        return re.sub(r'->|\.', '_', x)

    def struct(self, x, ty):
        con, fs = STRUCTS[ty]
        return '(%s %s)' % (con, ' '.join('%s_%s' % (x, f) for f in fs))

    def bind(self, pat, e):
        self.out.append('let* %s := %s in' % (pat, e))

    def let(self, x, e):
        self.out.append('let %s := %s in' % (x, e))

    def int_expr(self, e):
        """expression of type int over tests; the tests are evaluated first, left to right"""
        def test(m):
            self.k += 1
            args = ' '.join(self.lv(a) for a in m.group(2).split(','))
            self.bind('tst%d' % self.k, '%s %s' % (cname(m.group(1)), args))
            return 'tst%d' % self.k
        e = re.sub(r'\b(%s)\(([^()]*)\)' % '|'.join(TESTS), test, e)
        e = re.sub(r'!\s*(\w+)', r'(Z.b2z (\1 =? 0))', e)
        e = re.sub(r'^(\w+) == (\w+)$', r'Z.b2z (\1 =? \2)', e.strip())
        return e

    def stmt(self, st):
        st = ' '.join(st.split())
        if not st:
            return
        m = re.match(r'(fe25519|int|unsigned char|%s) ([\w, ]+)$' % '|'.join(STRUCTS), st)
        if m:
            for x in m.group(2).split(','):
                self.types[x.strip()] = m.group(1)
            return
        m = re.match(r'return( (.*))?$', st)
        if m:
            if m.group(2):
                e = self.int_expr(m.group(2))
                self.ret = '(- %s)' % e[1:] if e.startswith('-') else '(%s)' % e
            return
        m = re.match(r'if\(!(\w+)\(([^()]*)\)\) (fe25519_\w+)\((.*)\)$', st)
        if m:
            t = self.int_expr('%s(%s)' % (m.group(1), m.group(2)))
            d, *a = [self.lv(x) for x in m.group(4).split(',')]
            self.bind(d, 'if %s =? 0 then %s %s else Some %s' % (t, cname(m.group(3)), ' '.join(a), d))
            return
        m = re.match(r'for \(i = 1;i < (\d+);\+\+i\) (fe25519_\w+)\((.*)\)$', st)
        if m:
            d, a = [self.lv(x) for x in m.group(3).split(',')]
            assert d == a
            if int(m.group(1)) > 1:
                self.bind(d, 'c_iter %d %s %s' % (int(m.group(1)) - 1, cname(m.group(2)), a))
            return
        m = re.match(r'fe25519_cmov\(([^,]*),([^,]*),(.*)\)$', st)
        if m:
            d, x = self.lv(m.group(1)), self.lv(m.group(2))
            self.let(d, 'c_cmov %s %s (%s)' % (d, x, self.int_expr(m.group(3).strip())))
            return
        m = re.match(r'fe25519_set(one|zero)\((.*)\)$', st)
        if m:
            self.let(self.lv(m.group(2)), 'c_' + m.group(1))
            return
        m = re.match(r'fe25519_unpack\((.*),(.*)\)$', st)
        if m:
            self.bind(self.lv(m.group(1)), 'c_unpack %s' % self.lv(m.group(2)))
            return
        m = re.match(r'fe25519_pack\((.*),(.*)\)$', st)
        if m:
            self.bind(self.lv(m.group(1)), 'c_pack %s' % self.lv(m.group(2)))
            return
        m = re.match(r'(fe25519_\w+)\((.*)\)$', st)
        if m and m.group(1) in VOID:
            d, *a = [self.lv(x) for x in m.group(2).split(',')]
            assert len(a) == VOID[m.group(1)], st
            self.bind(d, '%s %s' % (cname(m.group(1)), ' '.join(a)))
            return
        m = re.match(r'(\w+) = (fe25519_invsqrti)\((.*)\)$', st)
        if m:
            d, a = [self.lv(x) for x in m.group(3).split(',')]
            self.bind("(%s, %s)" % (m.group(1), d), '%s %s' % (cname(m.group(2)), a))
            return
        m = re.match(r'(add_p1p1|dbl_p1p1|p1p1_to_p2|p1p1_to_p3|group_ge_double|group_ge_from_jacobi_quartic)\((.*)\)$', st)
        if m:
            d, *a = [self.lv(x) for x in m.group(2).split(',')]
            self.bind(d, '%s %s' % (cname(m.group(1)), ' '.join(a)))
            return
        m = re.match(r'([\w>*.-]+) (\|)?= (.*)$', st)
        assert m, st
        d, e = m.group(1), m.group(3)
        if self.types.get(d) in ('int', 'unsigned char'):
            e = self.int_expr(e)
            if m.group(2):
                e = 'Z.lor %s (%s)' % (d, e)
            if self.types[d] == 'unsigned char':
                e = 'u8 (%s)' % e
            self.let(d, e)
        else:
            self.let(self.lv(d), self.lv(e))

    def translate(self):
        body = re.sub(r'for \((i = 1);(i < \d+);(\+\+i)\)', r'for (\1@\2@\3)', self.body)
        for st in body.split(';'):
            self.stmt(st.replace('@', ';'))

    def coq(self):
        args = ''
        for p in self.args:
            ty = self.types[p]
            args += ' (%s : %s)' % (p, STRUCTS[ty][0].lower() if ty in STRUCTS else 'list Z' if ty == 'bytes' else 'fe25')
        tys, vals = [], []
        for r in self.result:
            if r == 'int':
                tys.append('Z')
                vals.append(self.ret)
            else:
                ty = self.types[r]
                tys.append(STRUCTS[ty][0].lower() if ty in STRUCTS else 'list Z' if ty == 'bytes' else 'fe25')
                vals.append(self.lv(r))
        s = '(** [%s]: /repo/cref/cref.c:%d-%d *)\n' % (self.name, self.first, self.last)
        ty = ' * '.join(tys)
        s += 'Definition %s%s : option %s :=\n' % (cname(self.name), args, '(%s)' % ty if ' ' in ty else ty)
        for p in self.args:
            if self.types[p] in STRUCTS:
                s += "  let '%s := %s in\n" % (self.struct(p, self.types[p]), p)
        s += '\n'.join('  ' + x for x in self.out)
        s += '\n  Some %s.\n' % (vals[0] if len(vals) == 1 else '(%s)' % ', '.join(vals))
        return s


def print_seq():
    print('''(** Generated by tools/c2coq.py from /repo/cref/cref.c; do not edit.

    A function that assigns through a pointer returns the new value; [None] is undefined behaviour.  A pointer cast between
    struct types reads and writes the common initial fields. *)
From Coq Require Import ZArith List.
From Verif Require Import Words Fe25Code CrefFeCode CrefFe.
Import ListNotations.
Open Scope Z_scope.
''')
    for name, result, rd in [
            ('fe25519_invert', ['out'], False), ('fe25519_pow2523', ['out'], False), ('fe25519_invsqrt', ['r'], False),
            ('fe25519_sqrt', ['r'], False), ('fe25519_abs', ['x'], False), ('fe25519_invsqrti', ['int', 'r'], False),
            ('fe25519_sqrti', ['int', 'r'], False),
            ('ge25519_mixadd2', ['r'], True), ('p1p1_to_p2', ['r'], False), ('p1p1_to_p3', ['r'], False), ('add_p1p1', ['r'], False),
            ('dbl_p1p1', ['r'], False), ('group_ge_unpack', ['int', 'r'], False), ('group_ge_pack', ['r'], False),
            ('group_ge_add', ['r'], False), ('group_ge_double', ['r'], False), ('group_ge_negate', ['r'], False),
            ('group_ge_equals', ['int'], False), ('group_ge_isneutral', ['int'], False),
            ('group_ge_from_jacobi_quartic', ['x'], False), ('group_ge_elligator', ['x'], False)]:
        print(Seq(name, result, rd).coq())


# ---------------------------------------------------------------- the same functions on a memory

class Mem(Seq):
    """addresses are numbers; parameters are addresses, the locals are at [n], [n + 1], ..."""
    def translate(self):
        self.n = 0
        Seq.translate(self)

    def addr(self, x):
        x = x.strip()
        m = re.match(r'\((\w+) \*\)(\w+)$', x)
        if m:
            return m.group(2)
        x = x.lstrip('&*')
        if x in GLOBALS:
            return None
        m = re.match(r'(\w+)(?:->|\.)(\w)$', x)
        if m:
            k = STRUCTS[self.types[m.group(1)]][1].index(m.group(2))
            return '(%s + %d)%%nat' % (m.group(1), k)
        return x

    def rd(self, x):
        a = self.addr(x)
        return GLOBALS[x.strip().lstrip('&')] if a is None else '(m %s)' % a

    def store(self, d, e):
        self.bind('v', e)
        self.dlet('st m %s v' % self.addr(d))

    def dlet(self, e):
        self.out.append('dlet m := %s in' % e)

    def test(self, m):
        self.k += 1
        self.bind('tst%d' % self.k, '%s %s' % (cname(m.group(1)), ' '.join(self.rd(a) for a in m.group(2).split(','))))
        return 'tst%d' % self.k

    def int_expr(self, e):
        e = re.sub(r'\b(%s)\(([^()]*)\)' % '|'.join(TESTS), self.test, e)
        e = re.sub(r'!\s*(\w+)', r'(Z.b2z (\1 =? 0))', e)
        return re.sub(r'^(\w+) == (\w+)$', r'Z.b2z (\1 =? \2)', e.strip())

    def stmt(self, st):
        st = ' '.join(st.split())
        if not st:
            return
        m = re.match(r'(fe25519|int|unsigned char|%s) ([\w, ]+)$' % '|'.join(STRUCTS), st)
        if m:
            for x in m.group(2).split(','):
                x = x.strip()
                self.types[x] = m.group(1)
                if m.group(1) not in ('int', 'unsigned char'):
                    self.let(x, '(n + %d)%%nat' % self.n)
                    self.n += len(STRUCTS[m.group(1)][1]) if m.group(1) in STRUCTS else 1
            return
        m = re.match(r'return( (.*))?$', st)
        if m:
            if m.group(2):
                self.ret = '(%s)' % self.int_expr(m.group(2))
            return
        m = re.match(r'if\(!(\w+)\(([^()]*)\)\) (fe25519_\w+)\((.*)\)$', st)
        if m:
            t = self.int_expr('%s(%s)' % (m.group(1), m.group(2)))
            d, *a = m.group(4).split(',')
            self.bind('m', 'if %s =? 0 then (let* v := %s %s in Some (st m %s v)) else Some m' %
                      (t, cname(m.group(3)), ' '.join(map(self.rd, a)), self.addr(d)))
            return
        m = re.match(r'for \(i = 1;i < (\d+);\+\+i\) (fe25519_\w+)\((.*)\)$', st)
        if m:
            d, a = m.group(3).split(',')
            if int(m.group(1)) > 1:
                self.bind('m', 'iter_o %d (fun m => let* v := %s %s in Some (st m %s v)) m' %
                          (int(m.group(1)) - 1, cname(m.group(2)), self.rd(a), self.addr(d)))
            return
        m = re.match(r'fe25519_cmov\(([^,]*),([^,]*),(.*)\)$', st)
        if m:
            c = self.int_expr(m.group(3).strip())
            self.dlet('st m %s (c_cmov %s %s (%s))' % (self.addr(m.group(1)), self.rd(m.group(1)), self.rd(m.group(2)), c))
            return
        m = re.match(r'fe25519_set(one|zero)\((.*)\)$', st)
        if m:
            self.dlet('st m %s c_%s' % (self.addr(m.group(2)), m.group(1)))
            return
        m = re.match(r'(fe25519_\w+)\((.*)\)$', st)
        if m and m.group(1) in VOID:
            d, *a = m.group(2).split(',')
            assert len(a) == VOID[m.group(1)], st
            if m.group(1)[8:] not in LIMBS:
                self.bind('m', '%s %s (n + %d) m' % (mname(m.group(1)), ' '.join(map(self.addr, m.group(2).split(','))), self.n))
                return
            self.store(d, '%s %s' % (cname(m.group(1)), ' '.join(map(self.rd, a))))
            return
        m = re.match(r'(\w+) = (fe25519_invsqrti)\((.*)\)$', st)
        if m:
            d, a = m.group(3).split(',')
            self.bind("(%s, m)" % m.group(1), '%s %s %s (n + %d) m' % (mname(m.group(2)), self.addr(d), self.addr(a), self.n))
            return
        m = re.match(r'(add_p1p1|dbl_p1p1|p1p1_to_p2|p1p1_to_p3|group_ge_double|group_ge_from_jacobi_quartic)\((.*)\)$', st)
        if m:
            self.bind('m', '%s %s (n + %d) m' % (mname(m.group(1)), ' '.join(map(self.addr, m.group(2).split(','))), self.n))
            return
        m = re.match(r'([\w>*.-]+) (\|)?= (.*)$', st)
        assert m, st
        d, e = m.group(1), m.group(3)
        if self.types.get(d) in ('int', 'unsigned char'):
            e = self.int_expr(e)
            if m.group(2):
                e = 'Z.lor %s (%s)' % (d, e)
            if self.types[d] == 'unsigned char':
                e = 'u8 (%s)' % e
            self.let(d, e)
        else:
            self.dlet('st m %s %s' % (self.addr(d), self.rd(e)))

    def coq(self):
        ps = ' '.join(self.params)
        s = '(** [%s]: /repo/cref/cref.c:%d-%d *)\n' % (self.name, self.first, self.last)
        r = 'option (Z * cmem)' if 'int' in self.result else 'option cmem'
        s += 'Definition %s (%s n : nat) (m : cmem) : %s :=\n' % (mname(self.name), ps, r)
        s += '\n'.join('  ' + x for x in self.out)
        s += '\n  Some %s.\n' % ('(%s, m)' % self.ret if 'int' in self.result else 'm')
        return s


LIMBS = ['add', 'sub', 'mul', 'square', 'square_double', 'neg']


def mname(f):
    return 'm_' + cname(f)


def print_mem():
    print("""(** Generated by tools/c2coq.py from /repo/cref/cref.c; do not edit.

    The functions of CrefCode.v on a memory (CrefPtr.v): a parameter is the address an argument points to, the locals of a
    function are at [n], [n + 1], ..., and each statement is one access after the other.  The field operations read their
    arguments before they write (CrefLimbs.v). *)
From Coq Require Import ZArith List.
From Verif Require Import Words ScalarCode CLang Fe25Code CrefFeCode CrefFe CrefCode CrefPtr.
Open Scope Z_scope.
""")
    for name, result in [
            ('fe25519_double', []), ('fe25519_triple', []), ('fe25519_invert', []), ('fe25519_pow2523', []), ('fe25519_invsqrt', []), ('fe25519_sqrt', []),
            ('fe25519_abs', []), ('fe25519_invsqrti', ['int']), ('fe25519_sqrti', ['int']),
            ('ge25519_mixadd2', []), ('p1p1_to_p2', []), ('p1p1_to_p3', []), ('add_p1p1', []), ('dbl_p1p1', []),
            ('group_ge_add', []), ('group_ge_double', []), ('group_ge_negate', []), ('group_ge_equals', ['int']),
            ('group_ge_isneutral', ['int']), ('group_ge_from_jacobi_quartic', []), ('group_ge_elligator', [])]:
        print(Mem(name, result).coq())


def print_inv():
    a, b, params, body = function('group_scalar_invert')
    print("""(** Generated by tools/c2coq.py from /repo/cref/cref.c; do not edit. *)
From Coq Require Import ZArith List.
From Verif Require Import Words ScalarCode CrefScalar.
Open Scope Z_scope.

(** [group_scalar_invert]: /repo/cref/cref.c:%d-%d *)
Definition cs_invert (x : list Z) : list Z :=""" % (a, b))
    stmts = [' '.join(st.split()) for st in body.replace('for(i = 0; i < 126; i++)', 'for126').split(';')]
    assert stmts[0].startswith('group_scalar t0') and stmts[1] == 'int i' and stmts[-1] == ''
    for st in stmts[2:-1]:
        m = re.match(r'(for126 )?group_scalar_(square|mul)\(&?(\w+), &?(\w+)(?:, &?(\w+))?\)$', st)
        loop, f, d, u, v = m.groups()
        if loop:
            assert f == 'square' and d == u
            e = 'Nat.iter 126 cs_square %s' % u
        else:
            e = 'cs_%s %s' % (f, u) + (' ' + v if v else '')
        if st == stmts[-2]:
            assert d == 'r'
            print('  %s.' % e)
        else:
            print('  dlet %s := %s in' % (d, e))


def print_table():
    def fe(x):
        v = [int(y) for y in x.split(',')]
        assert len(v) == 10
        return '(Fe25 %s)' % ' '.join(str(y) if y >= 0 else '(%d)' % y for y in v)
    print("""(** Generated by tools/c2coq.py from /repo/cref/cref.c and /repo/cref/base_multiples.data; do not edit. *)
From Coq Require Import ZArith List.
From Verif Require Import Words Fe25Code CrefFe.
Import ListNotations.
Open Scope Z_scope.
""")
    text = re.sub(r'/\*.*?\*/', lambda m: re.sub(r'[^\n]', ' ', m.group(0)), TEXT, flags=re.S)
    for name in ['group_ge_neutral', 'group_ge_base']:
        m = re.search(r'^const group_ge %s\s*= \{(.*?)\};' % name, text, re.M | re.S)
        a = text.count('\n', 0, m.start()) + 1
        b = text.count('\n', 0, m.end()) + 1
        fs = re.findall(r'\{\{([^{}]*)\}\}', m.group(1))
        assert len(fs) == 4
        print('(** [%s]: /repo/cref/cref.c:%d-%d *)\nDefinition %s : ge :=\n  Ge %s.\n' % (name, a, b, name.replace('group_ge', 'g'), '\n     '.join(map(fe, fs))))
    data = open('/repo/cref/base_multiples.data').read()
    fs = re.findall(r'\{\{([^{}]*)\}\}', data)
    assert len(fs) == 850
    aff = ['Aff %s %s' % (fe(fs[2 * i]), fe(fs[2 * i + 1])) for i in range(425)]
    print('(** [ge25519_base_multiples_affine]: /repo/cref/cref.c:2052-2054, /repo/cref/base_multiples.data:1-425 *)')
    print('Definition base_multiples : list aff := [\n  %s].' % ';\n  '.join(aff))


if __name__ == '__main__':
    {'fe': print_fe, 'seq': print_seq, 'mem': print_mem, 'inv': print_inv, 'table': print_table}[sys.argv[1]]()
