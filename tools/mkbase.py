#!/usr/bin/env python3
"""Transcribe BaseScalarMultTable (table_radix51.go, table_generic.go) into Coq and
compute the intermediate doublings used to check it."""
import re, sys
OUT = sys.argv[1]
P = 2**255 - 19
D = (-121665 * pow(121666, -1, P)) % P
def parse(fn, n):
    src = open(fn).read()
    els = []
    for m in re.finditer(r'(YPlusX|YMinusX|XY2D):\s*FieldElement\{([^}]*)\}', src):
        line = src[:m.start()].count('\n') + 1
        v = [int(x, 0) for x in m.group(2).replace('\n', ' ').split(',') if x.strip()]
        assert len(v) == n, (line, v)
        els.append((m.group(1), v))
    assert len(els) == 768
    ents = []
    for i in range(0, 768, 3):
        assert [e[0] for e in els[i:i+3]] == ['YPlusX', 'YMinusX', 'XY2D']
        ents.append([e[1] for e in els[i:i+3]])
    return [ents[8*i:8*i+8] for i in range(32)], src.count('\n')
t51, n51 = parse('/repo/edwards25519/table_radix51.go', 5)
t25, n25 = parse('/repo/edwards25519/table_generic.go', 10)
SH = [0, 26, 51, 77, 102, 128, 153, 179, 204, 230]
v51 = lambda l: sum(x << (51*i) for i, x in enumerate(l)) % P
v25 = lambda l: sum(x << SH[i] for i, x in enumerate(l)) % P
for i in range(32):
    for j in range(8):
        for k in range(3):
            assert v51(t51[i][j][k]) == v25(t25[i][j][k]), (i, j, k)
def add(A, B):
    x1, y1 = A; x2, y2 = B
    c = D*x1*x2*y1*y2 % P
    return ((x1*y2+x2*y1)*pow(1+c, -1, P) % P, (y1*y2+x1*x2)*pow(1-c, -1, P) % P)
def niels(A):
    x, y = A
    return ((y+x) % P, (y-x) % P, 2*D*x*y % P)
def aff(e):
    a, b = v51(e[0]), v51(e[1]); h = pow(2, -1, P)
    return ((a-b)*h % P, (a+b)*h % P)
B0 = aff(t51[0][0])
print("base", B0)
cur = B0; dbls = []
for i in range(32):
    acc = (0, 1)
    for j in range(8):
        acc = add(acc, cur)
        assert niels(acc) == tuple(v51(x) for x in t51[i][j]), (i, j)
    ds = []
    for k in range(5):
        acc = add(acc, acc); ds.append(acc)
    cur = acc
    dbls.append(ds[:4])
mx = max(abs(x) for r in t25 for e in r for f in e for x in f); print("max limb 25", mx, [max(abs(f[k]) for r in t25 for e in r for f in e) for k in range(10)])
print("max limb 51", max(x for r in t51 for e in r for f in e for x in f) < 2**51)
def num(x): return str(x) if x >= 0 else '(%d)' % x
def table(fn, name, con, typ, t, mod, src, nl, imp):
    o = open(OUT + '/' + fn, 'w')
    o.write('(** Generated by tools/mkbase.py from /repo/edwards25519/%s; do not edit. *)\n' % src)
    o.write('From Coq Require Import ZArith List.\nFrom Verif Require Import %s CurveModel.\nImport ListNotations.\nOpen Scope Z_scope.\n\n' % imp)
    o.write('(** [BaseScalarMultTable]: /repo/edwards25519/%s:6-%d *)\n' % (src, nl))
    o.write('Definition %s : list (list (niels %s)) := [\n' % (name, typ))
    o.write(';\n'.join('  [' + ';\n   '.join('mkNiels ' + ' '.join('(%s %s)' % (con, ' '.join(num(x) for x in f)) for f in e) for e in r) + ']' for r in t))
    o.write('\n].\n')
table('BaseTable51.v', 'r51_baseTable', 'Fe51', 'fe51', t51, None, 'table_radix51.go', n51, 'Fe51Code')
table('BaseTable25.v', 'r25_baseTable', 'Fe25', 'fe25', t25, None, 'table_generic.go', n25, 'Fe25Code')
o = open(OUT + '/BaseTableData.v', 'w')
o.write('(** Generated by tools/mkbase.py: the Niels coordinates of the first four doublings of the\n    last entry of each row of the base point table; a certificate, models no code. *)\n')
o.write('From Coq Require Import ZArith List.\nImport ListNotations.\nOpen Scope Z_scope.\n\nDefinition base_dbls : list (list (Z * Z * Z)) := [\n')
o.write(';\n'.join('  [' + ';\n   '.join('(%d, %d, %d)' % niels(A) for A in ds) + ']' for ds in dbls))
o.write('\n].\n')
