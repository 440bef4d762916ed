#!/usr/bin/env python3
"""Emit the encoding, decoding and Elligator code of go-ristretto (curve.go, elligator.go and
Point.SetElligator) as programs of the language of GoLang.v, on top of those of go2prog.py.

usage: go2codec.py > rocq/theories/GoCodecCode.v
"""
import re, sys, os, io, contextlib
sys.path.insert(0, os.path.dirname(os.path.abspath(__file__)))
import go2prog
from go2prog import G, P, tokenize, DONE, KIND, CONST, SHORT, INTS, size, parse_type

for c in ['InvSqrtMinusDMinusOne', 'DoubleInvSqrtMinusDMinusOne', 'DoubleIInvSqrtMinusDMinusOne', 'DMinusOneSquared', 'OneMinusDSquared',
          'Dp1OverDm1', 'SqrtID', 'InvSqrt1pD']:
    CONST['fe' + c] = 'k_%s K' % (c[0].lower() + c[1:])
RESULT = {'InvSqrtI': 'int32', 'elligator2Inverse': 'int'}
SHORT['Point'] = 'pt'

class H(G):
    def natex(self, e):
        if e[0] == 'lit': return str(e[1])
        if e[0] == 'id': return re.match(r'Z.of_nat \((rho \(.*?\)%nat)\)', self.cval[e[1]]).group(1)
        return '(%s %s %s)' % (self.natex(e[2]), e[1], self.natex(e[3]))
    def ex(self, e):
        if e[0] == 'call' and e[1] == ('id', 'ctcompare'):
            t = self.local('tmp%d' % self.nloc, 'int')
            self.emit_('g_ConstantTimeCompare %s %s %s (@K + nl)%%nat (@C + nc)%%nat' % (self.place(e[2][0])[0], self.place(e[2][1])[0], t))
            return (self.cellvar(t, 'r%d' % len(self.cells)), 'int', None)
        if e[0] == 'bin' and e[1] == '<<' and e[3][0] == 'call' and e[3][1] == ('id', 'uint'):
            c, t, _ = self.ex(e[2]); assert t == 'int'
            return ('Z.shiftl %s (Z.of_nat %s)' % (self.par(c), self.natex(e[3][2][0]) + '%nat'), t, None)
        return G.ex(self, e)
    def hoist(self, e):
        m = e[1][2]
        if m not in RESULT: return G.hoist(self, e)
        p, t = self.place(e[1][1]); r = self.local('tmp%d' % self.nloc, RESULT[m])
        self.emit_('%s %s %s %s (@K + nl)%%nat (@C + nc)%%nat' % (DONE[(t, m)], p, ' '.join(self.place(a)[0] for a in e[2]), r))
        return (self.cellvar(r, 'r%d' % len(self.cells)), RESULT[m], None)
    def call(self, e):
        f, args = e[1], e[2]
        if f[0] == 'sel' and f[1][0] != 'call':
            p, t = self.place(f[1])
            if t == 'FieldElement' and f[2] == 'SetBytes': self.emit_('sbo %s %s' % (p, self.place(args[0])[0])); return p, t
            if t == 'FieldElement' and f[2] == 'BytesInto': self.emit_('bio %s %s' % (p, self.place(args[0])[0])); return p, t
        return G.call(self, e)
    def stmt(self, s):
        s = re.sub(r'subtle\.ConstantTimeCompare\((\w+)\[:\], (\w+)\[:\]\)', r'ctcompare(\1, \2)', s)
        s = s.replace('edwards25519.', '').replace('p.e().', 'p.')
        m = re.fullmatch(r'var ([\w, ]+?) (\w+)', s)
        if m and m.group(2) in INTS:      # zero-initialised
            for x in m.group(1).split(','):
                self.local(x.strip(), m.group(2)); self.intdo(self.where[x.strip()], ('lit', 0))
            return
        if s == 'return ret == 0':
            self.emit_('ido (fun _ vs => match vs with [ret] => if ret =? 0 then 1 else 0 | _ => 0 end) ret [%s]' % self.where['ret'])
            self.uses_ret = True; return
        G.stmt(self, s)
        if s.startswith('return int(') or s == 'return setMask': assert self.uses_ret

HEAD = '''(** Generated by tools/go2codec.py from /repo/edwards25519/curve.go, elligator.go and /repo/ristretto.go;
    do not edit.

    Decoding, encoding, comparison and Elligator as programs of GoLang.v, in the style of
    GoCurveCode.v.  SetBytes and BytesInto of a field element are single operations; BytesInto
    stores its receiver and then the 32 bytes (only the generic backend changes the receiver).
    A result of type bool is 1 or 0.  Integer locals declared without a value are set to 0; the
    other locals hold anything at first.  A Point is its ExtendedPoint (ristretto.go:31, 403). *)
From Coq Require Import ZArith List String.
From Verif Require Import Words FieldModel CurveModel GoLang GoCurveCode.
Import ListNotations.
Open Scope string_scope.
Open Scope Z_scope.

Section Codec.
Context (K : FeOps).
Local Notation V := (fe K * Z)%type.
'''
OPS = '''
(** [FieldElement.SetBytes] and [BytesInto] of the backend *)
Definition sbo (d a : place V) : stmt V := Do "SetBytes" (fun _ vs => (o_setBytes K (map snd vs), 0)) d (map (off a) (seq 0 32)).
Definition bio (a d : place V) : stmt V :=
  DoN "BytesInto" (fun _ vs => match vs with
    | [x] => let (b, y) := o_bytes K (fst x) in fun i => match i with O => (y, 0) | S i => (k_zero K, nth i b 0) end
    | _ => fun _ => (k_zero K, 0) end) (a :: map (off d) (seq 0 32)) [a].

(** crypto/subtle.ConstantTimeCompare (Go standard library) on two [[32]byte]:
    [v |= x[i] ^ y[i]] over all i and [ConstantTimeByteEq(v, 0)]; locals from [nl] on: v *)
Definition g_ConstantTimeCompare (x y ret : place V) (nl nc : nat) : stmt V := prog [
  ido (fun _ _ => 0) (lo 0 nl) [];
  For (0 + nc) 32 (prog [
    ido (fun _ vs => match vs with [v; a; b] => Z.lor v (Z.lxor a b) | _ => 0 end) (lo 0 nl) [lo 0 nl; elt x 1 (Ctr (0 + nc)); elt y 1 (Ctr (0 + nc))]]);
  ido (fun _ vs => match vs with [v] => ct_byte_eq v 0 | _ => 0 end) ret [lo 0 nl]].
'''
with contextlib.redirect_stdout(io.StringIO()): go2prog.base()
buf = io.StringIO()
EP, CP, JC = 'ExtendedPoint', 'CompletedPoint', 'JacobiPoint'
with contextlib.redirect_stdout(buf):
    for t, m in [(EP, 'SetRistretto'), (EP, 'RistrettoInto'), (EP, 'RistrettoEqualsI')]: H('edwards25519/curve.go', t, m).run()
    for t, m in [(EP, 'ToJacobiQuarticRistretto'), (JC, 'elligator2Inverse'), (EP, 'RistrettoElligator2Inverse'),
                 (CP, 'SetJacobiQuartic'), (CP, 'SetRistrettoElligator2')]: H('edwards25519/elligator.go', t, m).run()
    go2prog.FIELDS['Point'] = go2prog.FIELDS[EP]
    DONE[('Point', 'SetCompleted')] = DONE[(EP, 'SetCompleted')]
    H('ristretto.go', 'Point', 'SetElligator').run()
txt = buf.getvalue()
used = [x for x in ['lo', 'fo0', 'fo1', 'fo2', 'foc', 'foc0', 'ido', 'io1', 'io2', 'iot'] + sorted(set(DONE.values()))
        if re.search(r'(?<![\w])%s\b' % x, txt + OPS) and 'Definition %s ' % x not in txt]
print(HEAD + '\n'.join('Local Notation %s := (GoCurveCode.%s K).' % (x, x) for x in used))
print(OPS)
print(txt + 'End Codec.')
