#!/usr/bin/env python3
"""Emit Scalar.Inverse of go-ristretto (scalar.go) as a program of the language of GoLang.v.

usage: go2inv.py > rocq/theories/GoInverseCode.v
"""
import re

src = open('/repo/scalar.go').read().split('\n')
start = next(i for i, x in enumerate(src) if x.startswith('func (s *Scalar) Inverse(t *Scalar)'))
end = next(i for i in range(start, len(src)) if src[i] == '}')
NAME = {'s': 's', 't': 't'}
for k in range(6): NAME['t%d' % k] = '(%d + n)' % k
out, loop = [], None
for x in src[start + 1:end]:
    x = x.strip()
    if x in ('', 'return s', 'var t0, t1, t2, t3, t4, t5 Scalar'): continue
    m = re.fullmatch(r'for i := 0; i < (\d+); i\+\+ \{', x)
    if m: loop = (m.group(1), []); continue
    if x == '}':
        out.append('For 0 %s (prog [%s])' % (loop[0], '; '.join(loop[1]))); loop = None; continue
    m = re.fullmatch(r'(\w+)\.(Square|Mul)\(&?(\w+)(?:, &?(\w+))?\)', x)
    d, op, a, b = m.groups()
    assert (b is None) == (op == 'Square')
    st = 'so%d "%s" %s %s %s' % (1 if b is None else 2, op, 'sc_square' if b is None else 'sc_mul', NAME[d], ' '.join(NAME[v] for v in (a, b) if v))
    (loop[1] if loop else out).append(st)
print('''(** Generated by tools/go2inv.py from /repo/scalar.go; do not edit.

    [Scalar.Inverse] as a program of GoLang.v; a cell holds a Scalar, the calls of Square and
    Mul are single operations. *)
From Coq Require Import ZArith List String.
From Verif Require Import ScalarCode GoLang.
Import ListNotations.
Open Scope string_scope.

Definition so1 (tag : string) (f : sc -> sc) (d a : nat) : stmt sc :=
  Do tag (fun _ vs => match vs with [x] => f x | _ => scZero end) (d, C 0) [(a, C 0)].
Definition so2 (tag : string) (f : sc -> sc -> sc) (d a b : nat) : stmt sc :=
  Do tag (fun _ vs => match vs with [x; y] => f x y | _ => scZero end) (d, C 0) [(a, C 0); (b, C 0)].

(** [Inverse]: /repo/scalar.go:%d-%d; locals from [n] on: t0, t1, t2, t3, t4, t5 *)
Definition d_sc_inverse (s t n : nat) : stmt sc := prog [
  %s].''' % (start + 1, end + 1, ';\n  '.join(out)))
