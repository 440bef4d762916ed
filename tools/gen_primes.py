#!/usr/bin/env python3
# Generates rocq/theories/PrimeCerts.v from Pocklington data.
import json,math,sys
p=2**255-19;l=2**252+27742317777372353535851937790883648493
full={int(n):[int(f) for f in fs] for n,a,fs in json.load(open(sys.argv[1]))}
done={};order=[]
def go(n):
    if n in done or n==2: return
    fs=sorted(full[n],reverse=True); F=1; use=[]
    for q in fs:
        if F*F>n: break
        F*=q; use.append(q)
    for a in range(2,64):
        if pow(a,n-1,n)==1 and all(math.gcd(pow(a,(n-1)//x,n)-1,n)==1 for x in use): break
    else: raise Exception(n)
    for q in sorted(set(use)): go(q)
    k=1
    while 64**k<n: k+=1
    k+=3
    R=64**k
    n1=(-pow(n,-1,64))%64
    done[n]=1
    wit=[(q,pow((pow(a,(n-1)//q,n)-1)*R,-1,n)) for q in use]
    order.append((n,a,k,n1,wit))
go(p);go(l)
o="".join("  mkCert %d d%d %d d%d [%s]"%(n,a,k,n1,"; ".join("(%d, %d)"%w for w in wit))+(";\n" if i<len(order)-1 else "\n") for i,(n,a,k,n1,wit) in enumerate(order))
open('/verif/rocq/theories/PrimeCerts.v','w').write('''(** Pocklington certificates for p and l.  Generated by tools/gen_primes.py; data only,
    checked in Primes.v. *)
From Coq Require Import ZArith List.
From Verif Require Import DigitTables.
Import ListNotations.
Local Open Scope Z_scope.

(** n, base a, number of digits, -1/n mod 64, and for each used prime factor q of n-1
    an inverse of (a^((n-1)/q) - 1) * 64^k modulo n. *)
Record cert := mkCert { c_n : Z; c_a : dg; c_k : nat; c_n' : dg; c_fs : list (Z * Z) }.

Definition certs : list cert := [
'''+o+"].\n")
print(len(order))
