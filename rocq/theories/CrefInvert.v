(** Generated by tools/c2coq.py from /repo/cref/cref.c; do not edit. *)
From Coq Require Import ZArith List.
From Verif Require Import Words ScalarCode CrefScalar.
Open Scope Z_scope.

(** [group_scalar_invert]: /repo/cref/cref.c:203-407 *)
Definition cs_invert (x : list Z) : list Z :=
  dlet t1 := cs_square x in
  dlet t2 := cs_mul x t1 in
  dlet t0 := cs_mul t1 t2 in
  dlet t1 := cs_square t0 in
  dlet t3 := cs_square t1 in
  dlet t1 := cs_mul t2 t3 in
  dlet t2 := cs_square t1 in
  dlet t3 := cs_mul t0 t2 in
  dlet t0 := cs_square t3 in
  dlet t2 := cs_mul t1 t0 in
  dlet t0 := cs_square t2 in
  dlet t1 := cs_mul t2 t0 in
  dlet t0 := cs_square t1 in
  dlet t1 := cs_mul t3 t0 in
  dlet t0 := cs_square t1 in
  dlet t3 := cs_square t0 in
  dlet t0 := cs_mul t1 t3 in
  dlet t3 := cs_mul t2 t0 in
  dlet t0 := cs_square t3 in
  dlet t2 := cs_mul t1 t0 in
  dlet t0 := cs_square t2 in
  dlet t1 := cs_mul t3 t0 in
  dlet t0 := cs_square t1 in
  dlet t3 := cs_mul t1 t0 in
  dlet t0 := cs_mul t2 t3 in
  dlet t2 := cs_mul t1 t0 in
  dlet t1 := cs_square t2 in
  dlet t3 := cs_square t1 in
  dlet t4 := cs_square t3 in
  dlet t3 := cs_mul t1 t4 in
  dlet t1 := cs_mul t0 t3 in
  dlet t0 := cs_mul t2 t1 in
  dlet t2 := cs_mul t1 t0 in
  dlet t1 := cs_square t2 in
  dlet t3 := cs_square t1 in
  dlet t1 := cs_mul t0 t3 in
  dlet t0 := cs_square t1 in
  dlet t3 := cs_square t0 in
  dlet t0 := cs_mul t1 t3 in
  dlet t3 := cs_mul t2 t0 in
  dlet t0 := cs_square t3 in
  dlet t2 := cs_mul t1 t0 in
  dlet t0 := cs_square t2 in
  dlet t1 := cs_square t0 in
  dlet t0 := cs_mul t2 t1 in
  dlet t1 := cs_mul t3 t0 in
  dlet t0 := cs_square t1 in
  dlet t3 := cs_square t0 in
  dlet t0 := cs_square t3 in
  dlet t3 := cs_square t0 in
  dlet t0 := cs_square t3 in
  dlet t3 := cs_square t0 in
  dlet t0 := cs_mul t1 t3 in
  dlet t3 := cs_mul t2 t0 in
  dlet t0 := cs_square t3 in
  dlet t2 := cs_mul t1 t0 in
  dlet t0 := cs_square t2 in
  dlet t1 := cs_mul t2 t0 in
  dlet t0 := cs_square t1 in
  dlet t4 := cs_mul t2 t0 in
  dlet t0 := cs_square t4 in
  dlet t4 := cs_square t0 in
  dlet t0 := cs_mul t1 t4 in
  dlet t1 := cs_mul t3 t0 in
  dlet t0 := cs_square t1 in
  dlet t3 := cs_mul t1 t0 in
  dlet t0 := cs_square t3 in
  dlet t4 := cs_square t0 in
  dlet t0 := cs_mul t3 t4 in
  dlet t3 := cs_mul t2 t0 in
  dlet t0 := cs_square t3 in
  dlet t2 := cs_square t0 in
  dlet t0 := cs_square t2 in
  dlet t2 := cs_mul t1 t0 in
  dlet t0 := cs_square t2 in
  dlet t1 := cs_mul t3 t0 in
  dlet t0 := cs_mul t2 t1 in
  dlet t2 := cs_mul t1 t0 in
  dlet t1 := cs_square t2 in
  dlet t3 := cs_square t1 in
  dlet t1 := cs_mul t0 t3 in
  dlet t0 := cs_square t1 in
  dlet t3 := cs_mul t2 t0 in
  dlet t0 := cs_mul t1 t3 in
  dlet t1 := cs_square t0 in
  dlet t2 := cs_square t1 in
  dlet t1 := cs_mul t0 t2 in
  dlet t2 := cs_mul t3 t1 in
  dlet t1 := cs_mul t0 t2 in
  dlet t0 := cs_mul t2 t1 in
  dlet t2 := cs_square t0 in
  dlet t3 := cs_mul t0 t2 in
  dlet t2 := cs_square t3 in
  dlet t3 := cs_mul t1 t2 in
  dlet t1 := cs_mul t0 t3 in
  dlet t0 := cs_square t1 in
  dlet t2 := cs_mul t1 t0 in
  dlet t0 := cs_square t2 in
  dlet t4 := cs_mul t2 t0 in
  dlet t0 := cs_square t4 in
  dlet t4 := cs_square t0 in
  dlet t5 := cs_square t4 in
  dlet t4 := cs_square t5 in
  dlet t5 := cs_square t4 in
  dlet t4 := cs_square t5 in
  dlet t5 := cs_mul t0 t4 in
  dlet t0 := cs_mul t2 t5 in
  dlet t2 := cs_mul t3 t0 in
  dlet t0 := cs_mul t1 t2 in
  dlet t1 := cs_square t0 in
  dlet t3 := cs_mul t0 t1 in
  dlet t1 := cs_square t3 in
  dlet t4 := cs_mul t0 t1 in
  dlet t1 := cs_square t4 in
  dlet t4 := cs_square t1 in
  dlet t1 := cs_square t4 in
  dlet t4 := cs_mul t3 t1 in
  dlet t1 := cs_mul t2 t4 in
  dlet t2 := cs_square t1 in
  dlet t3 := cs_square t2 in
  dlet t4 := cs_square t3 in
  dlet t3 := cs_mul t2 t4 in
  dlet t2 := cs_mul t1 t3 in
  dlet t3 := cs_mul t0 t2 in
  dlet t0 := cs_square t3 in
  dlet t2 := cs_square t0 in
  dlet t0 := cs_square t2 in
  dlet t2 := cs_mul t1 t0 in
  dlet t0 := cs_mul t3 t2 in
  dlet t1 := cs_square t0 in
  dlet t3 := cs_square t1 in
  dlet t4 := cs_mul t1 t3 in
  dlet t3 := cs_square t4 in
  dlet t4 := cs_square t3 in
  dlet t3 := cs_mul t1 t4 in
  dlet t1 := cs_mul t2 t3 in
  dlet t2 := cs_square t1 in
  dlet t3 := cs_square t2 in
  dlet t2 := cs_mul t0 t3 in
  dlet t0 := cs_square t2 in
  dlet t3 := cs_mul t1 t0 in
  dlet t0 := cs_square t3 in
  dlet t1 := cs_mul t2 t0 in
  dlet t0 := cs_mul t3 t1 in
  dlet t2 := cs_square t0 in
  dlet t3 := cs_square t2 in
  dlet t2 := cs_square t3 in
  dlet t3 := cs_square t2 in
  dlet t2 := cs_mul t1 t3 in
  dlet t1 := cs_mul t0 t2 in
  dlet t0 := cs_square t1 in
  dlet t3 := cs_square t0 in
  dlet t4 := cs_square t3 in
  dlet t3 := cs_mul t0 t4 in
  dlet t0 := cs_mul t1 t3 in
  dlet t3 := cs_mul t2 t0 in
  dlet t0 := cs_square t3 in
  dlet t2 := cs_square t0 in
  dlet t0 := cs_mul t1 t2 in
  dlet t1 := cs_square t0 in
  dlet t2 := cs_mul t3 t1 in
  dlet t1 := cs_mul t0 t2 in
  dlet t0 := cs_square t1 in
  dlet t3 := cs_mul t2 t0 in
  dlet t0 := cs_square t3 in
  dlet t2 := cs_square t0 in
  dlet t0 := cs_mul t1 t2 in
  dlet t1 := cs_mul t3 t0 in
  dlet t2 := cs_square t1 in
  dlet t3 := cs_mul t0 t2 in
  dlet t0 := cs_mul t1 t3 in
  dlet t1 := cs_square t0 in
  dlet t2 := cs_square t1 in
  dlet t4 := cs_square t2 in
  dlet t2 := cs_mul t1 t4 in
  dlet t4 := cs_square t2 in
  dlet t2 := cs_square t4 in
  dlet t4 := cs_square t2 in
  dlet t2 := cs_mul t1 t4 in
  dlet t1 := cs_mul t3 t2 in
  dlet t2 := cs_square t1 in
  dlet t3 := cs_square t2 in
  dlet t2 := cs_mul t1 t3 in
  dlet t3 := cs_square t2 in
  dlet t2 := cs_square t3 in
  dlet t3 := cs_mul t1 t2 in
  dlet t2 := cs_mul t0 t3 in
  dlet t0 := cs_square t2 in
  dlet t3 := cs_mul t2 t0 in
  dlet t0 := cs_square t3 in
  dlet t4 := cs_square t0 in
  dlet t0 := cs_mul t3 t4 in
  dlet t3 := cs_mul t1 t0 in
  dlet t0 := cs_square t3 in
  dlet t1 := cs_mul t3 t0 in
  dlet t0 := cs_mul t2 t1 in
  dlet t0 := Nat.iter 126 cs_square t0 in
  cs_mul t3 t0.
