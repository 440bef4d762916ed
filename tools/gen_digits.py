#!/usr/bin/env python3
# Generates rocq/theories/DigitTables.v: tables for base-64 digit arithmetic.
# (The digits exist only so that large integer computations are cheap for coqchk, which has no VM.)
B=64
o='''(** Base-64 digits with multiplication and addition tables.
    Generated by tools/gen_digits.py.  Models no code: these digits are used to make the
    large-number computations in proofs (primality, curve constants) cheap for the kernel. *)
Inductive dg : Set := '''+" | ".join(f"d{i}" for i in range(B))+".\n\n"
o+="(** a * b = 64 * fst + snd *)\nDefinition dmul (a b : dg) : dg * dg :=\n match a with\n"
for i in range(B):
    o+=f" | d{i} => match b with "+" ".join(f"| d{j} => (d{i*j//B}, d{i*j%B})" for j in range(B))+" end\n"
o+=" end.\n\n(** a + b = 64 * fst + snd *)\nDefinition dadd (a b : dg) : bool * dg :=\n match a with\n"
for i in range(B):
    o+=f" | d{i} => match b with "+" ".join(f"| d{j} => ({'true' if i+j>=B else 'false'}, d{(i+j)%B})" for j in range(B))+" end\n"
o+=" end.\n\nDefinition dinc (c : bool) (a : dg) : dg :=\n match c with false => a | true => match a with "+" ".join(f"| d{i} => d{(i+1)%B}" for i in range(B))+" end end.\n"
o+="\nRequire Import ZArith List.\nImport ListNotations.\nLocal Open Scope Z_scope.\n"
o+="Definition dv (a : dg) : Z := match a with "+" ".join(f"| d{i} => {i}" for i in range(B))+" end.\n"
o+="Definition all_dg : list dg := ["+"; ".join(f"d{i}" for i in range(B))+"].\n"
o+='''
Lemma all_dg_in a : In a all_dg.
Proof. destruct a; cbn; repeat (try (left; reflexivity); right). Qed.
'''
open('/verif/rocq/theories/DigitTables.v','w').write(o)
