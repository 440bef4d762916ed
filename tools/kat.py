#!/usr/bin/env python3
"""Evaluates the model on the known-answer tests of /repo (ristretto_test.go, scalar_test.go) and
writes one JSON line per test and build.  Usage: kat.py THEORIES_DIR (compiled) OUT [BUILD ...]
With TABLE=1 in the environment, TestBaseScalarMultTable (20 minutes and more per build) instead."""
import base64, json, os, re, subprocess, sys, tempfile
th, out = sys.argv[1:3]
builds = sys.argv[3:] or ['PureGo64', 'Amd64', 'Generic']
R = open('/repo/ristretto_test.go').read()
S = open('/repo/scalar_test.go').read()

def lst(b): return '[' + ';'.join(str(x) for x in b) + ']'
def section(src, start, end): i = src.index(start); return src[i:src.index(end, i)]
H = lambda h: lst(bytes.fromhex(h))
T = lambda s: lst(s.encode())
tests = []   # (name, Coq term of type bool with K for the operations and B for the build)
def eq(name, term, h): tests.append((name, 'same (%s) %s' % (term, H(h))))

for a, b in re.findall(r'\{"(\w+)", "([0-9a-f]{64})"\}', section(R, 'func TestPointDerive', '\n}')):
    eq('TestPointDerive ' + a, 'pt_Bytes K (pt_Derive K Sha512.sha512 %s)' % T(a), b)
v = section(R, 'func TestRistretto255TestVectors', '\n}')
for i, h in enumerate(re.findall(r'"([0-9a-f]{64})"', section(v, 'smallMultiples', 'var B'))):
    eq('TestRistretto255TestVectors multiple %d' % i,
       'pt_Bytes K (Nat.iter %d (fun P => pt_Add K (ep_SetBase K) P) (ep_SetZero K))' % i, h)
for h in re.findall(r'"([0-9a-f]{64})"', section(v, 'badEncodings', 'for _')):
    tests.append(('TestRistretto255TestVectors bad ' + h, 'negb (fst (pt_SetBytes K %s))' % H(h)))
for a, b in re.findall(r'\{"([^"]+)",\s*"([0-9a-f]{64})"\}', section(v, 'encodedHashToPoints', 'for _')):
    eq('TestRistretto255TestVectors hash ' + a, 'pt_Bytes K (pt_DeriveDalek K Sha512.sha512 %s)' % T(a), b)
for a, b in re.findall(r'testLizardVector\(t, "([0-9a-f]{32})",\s*"([0-9a-f]{64})"', R):
    eq('TestLizardVectors ' + a, 'pt_Bytes K (pt_SetLizard K Sha256.sha256 %s)' % H(a), b)
    tests.append(('TestLizardInjective on ' + a,
      'match fst (pt_Lizard K Sha256.sha256 (snd (pt_SetBytes K %s))) with Some d => same d %s | None => false end' % (H(b), H(a))))
for f, g in [('TestScDeriveShort', 'sc_deriveShort'), ('TestScDerive(', 'sc_derive')]:
    for a, b in re.findall(r'"(\w+)":\s+"([0-9a-f]{64})"', section(S, 'func ' + f, '\n}')):
        eq(f.strip('(') + ' ' + a, 'sc_bytes (%s Sha512.sha512 %s)' % (g, T(a)), b)
s, p = re.findall(r'"([A-Za-z0-9+/]{43}=)"', section(S, 'func TestIssue14', '\n}'))
s, p = lst(base64.b64decode(s)), lst(base64.b64decode(p))
tests.append(('TestIssue14', 'fst (pt_SetBytes K %s) && pt_Equals K (snd (pt_SetBytes K %s)) (pt_ScalarMultBase K (baseTable B) (sc_setBytes %s))' % (p, p, s)))
assert len(tests) == 4 + 16 + 29 + 7 + 4 + 6 + 1, len(tests)

if os.environ.get('TABLE'):
    tests = [('TestBaseScalarMultTable', 'eqtable (tbl_Compute K (ep_SetBase K)) (baseTable B)')]
res = []
with tempfile.TemporaryDirectory() as d:
    for b in builds:
        src = ['From Coq Require Import ZArith List Bool.',
               'From Verif Require Import Words ScalarCode ScalarModel Fe51Code Fe25Code FieldModel CurveModel RistrettoModel Backends Sha256 Sha512.',
               'Import ListNotations. Open Scope Z_scope.',
               'Definition B := %s. Definition K := ops B.' % b,
               'Definition same (x y : list Z) : bool := if list_eq_dec Z.eq_dec x y then true else false.']
        n = 10 if b == 'Generic' else 5
        x, y = ([c + str(i) for i in range(n)] for c in 'xy')
        src += ['Definition eqfe (a b : fe K) : bool := let \'(Fe%s %s) := a in let \'(Fe%s %s) := b in %s.' %
                ('25' if n == 10 else '51', ' '.join(x), '25' if n == 10 else '51', ' '.join(y),
                 ' && '.join('(%s =? %s)' % c for c in zip(x, y))),
                'Definition eqniels (a b : niels (fe K)) : bool := eqfe (nYpX a) (nYpX b) && eqfe (nYmX a) (nYmX b) && eqfe (nXY2D a) (nXY2D b).',
                'Fixpoint all2 {A} (e : A -> A -> bool) (x y : list A) : bool := match x, y with nil, nil => true | a :: x, b :: y => e a b && all2 e x y | _, _ => false end.',
                'Definition eqtable := all2 (all2 eqniels).']
        src += ['Eval vm_compute in (%s).' % t for _, t in tests]
        open(d + '/Kat.v', 'w').write('\n'.join(src) + '\n')
        r = subprocess.run(['coqc', '-Q', th, 'Verif', d + '/Kat.v'], capture_output=True, text=True)
        got = re.findall(r'= (true|false)\s+: bool', r.stdout)
        if len(got) != len(tests): print(b, r.stdout[-500:], r.stderr[-2000:]); sys.exit(1)
        for (n, _), g in zip(tests, got):
            res.append(dict(build=b, test=n, agrees=g == 'true'))
            if g != 'true': print('DIFFERS', b, n)
with open(out, 'w') as f:
    for r in res: f.write(json.dumps(r) + '\n')
print(len(res), 'tests,', sum(not r['agrees'] for r in res), 'differ')
