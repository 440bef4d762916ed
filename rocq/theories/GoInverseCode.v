(** Generated by tools/go2inv.py from /repo/scalar.go; do not edit.

    [Scalar.Inverse] as a program of GoLang.v; a cell holds a Scalar, the calls of Square and
    Mul are single operations. *)
From Coq Require Import ZArith List String.
From Verif Require Import ScalarCode GoLang.
Import ListNotations.
Open Scope string_scope.

Definition so1 (tag : string) (f : sc -> sc) (d a : nat) : stmt sc :=
  Do tag (fun _ vs => match vs with [x] => f x | _ => scZero end) (d, C 0) [(a, C 0)].
Definition so2 (tag : string) (f : sc -> sc -> sc) (d a b : nat) : stmt sc :=
  Do tag (fun _ vs => match vs with [x; y] => f x y | _ => scZero end) (d, C 0) [(a, C 0); (b, C 0)].

(** [Inverse]: /repo/scalar.go:807-1011; locals from [n] on: t0, t1, t2, t3, t4, t5 *)
Definition d_sc_inverse (s t n : nat) : stmt sc := prog [
  so1 "Square" sc_square (1 + n) t;
  so2 "Mul" sc_mul (2 + n) t (1 + n);
  so2 "Mul" sc_mul (0 + n) (1 + n) (2 + n);
  so1 "Square" sc_square (1 + n) (0 + n);
  so1 "Square" sc_square (3 + n) (1 + n);
  so2 "Mul" sc_mul (1 + n) (2 + n) (3 + n);
  so1 "Square" sc_square (2 + n) (1 + n);
  so2 "Mul" sc_mul (3 + n) (0 + n) (2 + n);
  so1 "Square" sc_square (0 + n) (3 + n);
  so2 "Mul" sc_mul (2 + n) (1 + n) (0 + n);
  so1 "Square" sc_square (0 + n) (2 + n);
  so2 "Mul" sc_mul (1 + n) (2 + n) (0 + n);
  so1 "Square" sc_square (0 + n) (1 + n);
  so2 "Mul" sc_mul (1 + n) (3 + n) (0 + n);
  so1 "Square" sc_square (0 + n) (1 + n);
  so1 "Square" sc_square (3 + n) (0 + n);
  so2 "Mul" sc_mul (0 + n) (1 + n) (3 + n);
  so2 "Mul" sc_mul (3 + n) (2 + n) (0 + n);
  so1 "Square" sc_square (0 + n) (3 + n);
  so2 "Mul" sc_mul (2 + n) (1 + n) (0 + n);
  so1 "Square" sc_square (0 + n) (2 + n);
  so2 "Mul" sc_mul (1 + n) (3 + n) (0 + n);
  so1 "Square" sc_square (0 + n) (1 + n);
  so2 "Mul" sc_mul (3 + n) (1 + n) (0 + n);
  so2 "Mul" sc_mul (0 + n) (2 + n) (3 + n);
  so2 "Mul" sc_mul (2 + n) (1 + n) (0 + n);
  so1 "Square" sc_square (1 + n) (2 + n);
  so1 "Square" sc_square (3 + n) (1 + n);
  so1 "Square" sc_square (4 + n) (3 + n);
  so2 "Mul" sc_mul (3 + n) (1 + n) (4 + n);
  so2 "Mul" sc_mul (1 + n) (0 + n) (3 + n);
  so2 "Mul" sc_mul (0 + n) (2 + n) (1 + n);
  so2 "Mul" sc_mul (2 + n) (1 + n) (0 + n);
  so1 "Square" sc_square (1 + n) (2 + n);
  so1 "Square" sc_square (3 + n) (1 + n);
  so2 "Mul" sc_mul (1 + n) (0 + n) (3 + n);
  so1 "Square" sc_square (0 + n) (1 + n);
  so1 "Square" sc_square (3 + n) (0 + n);
  so2 "Mul" sc_mul (0 + n) (1 + n) (3 + n);
  so2 "Mul" sc_mul (3 + n) (2 + n) (0 + n);
  so1 "Square" sc_square (0 + n) (3 + n);
  so2 "Mul" sc_mul (2 + n) (1 + n) (0 + n);
  so1 "Square" sc_square (0 + n) (2 + n);
  so1 "Square" sc_square (1 + n) (0 + n);
  so2 "Mul" sc_mul (0 + n) (2 + n) (1 + n);
  so2 "Mul" sc_mul (1 + n) (3 + n) (0 + n);
  so1 "Square" sc_square (0 + n) (1 + n);
  so1 "Square" sc_square (3 + n) (0 + n);
  so1 "Square" sc_square (0 + n) (3 + n);
  so1 "Square" sc_square (3 + n) (0 + n);
  so1 "Square" sc_square (0 + n) (3 + n);
  so1 "Square" sc_square (3 + n) (0 + n);
  so2 "Mul" sc_mul (0 + n) (1 + n) (3 + n);
  so2 "Mul" sc_mul (3 + n) (2 + n) (0 + n);
  so1 "Square" sc_square (0 + n) (3 + n);
  so2 "Mul" sc_mul (2 + n) (1 + n) (0 + n);
  so1 "Square" sc_square (0 + n) (2 + n);
  so2 "Mul" sc_mul (1 + n) (2 + n) (0 + n);
  so1 "Square" sc_square (0 + n) (1 + n);
  so2 "Mul" sc_mul (4 + n) (2 + n) (0 + n);
  so1 "Square" sc_square (0 + n) (4 + n);
  so1 "Square" sc_square (4 + n) (0 + n);
  so2 "Mul" sc_mul (0 + n) (1 + n) (4 + n);
  so2 "Mul" sc_mul (1 + n) (3 + n) (0 + n);
  so1 "Square" sc_square (0 + n) (1 + n);
  so2 "Mul" sc_mul (3 + n) (1 + n) (0 + n);
  so1 "Square" sc_square (0 + n) (3 + n);
  so1 "Square" sc_square (4 + n) (0 + n);
  so2 "Mul" sc_mul (0 + n) (3 + n) (4 + n);
  so2 "Mul" sc_mul (3 + n) (2 + n) (0 + n);
  so1 "Square" sc_square (0 + n) (3 + n);
  so1 "Square" sc_square (2 + n) (0 + n);
  so1 "Square" sc_square (0 + n) (2 + n);
  so2 "Mul" sc_mul (2 + n) (1 + n) (0 + n);
  so1 "Square" sc_square (0 + n) (2 + n);
  so2 "Mul" sc_mul (1 + n) (3 + n) (0 + n);
  so2 "Mul" sc_mul (0 + n) (2 + n) (1 + n);
  so2 "Mul" sc_mul (2 + n) (1 + n) (0 + n);
  so1 "Square" sc_square (1 + n) (2 + n);
  so1 "Square" sc_square (3 + n) (1 + n);
  so2 "Mul" sc_mul (1 + n) (0 + n) (3 + n);
  so1 "Square" sc_square (0 + n) (1 + n);
  so2 "Mul" sc_mul (3 + n) (2 + n) (0 + n);
  so2 "Mul" sc_mul (0 + n) (1 + n) (3 + n);
  so1 "Square" sc_square (1 + n) (0 + n);
  so1 "Square" sc_square (2 + n) (1 + n);
  so2 "Mul" sc_mul (1 + n) (0 + n) (2 + n);
  so2 "Mul" sc_mul (2 + n) (3 + n) (1 + n);
  so2 "Mul" sc_mul (1 + n) (0 + n) (2 + n);
  so2 "Mul" sc_mul (0 + n) (2 + n) (1 + n);
  so1 "Square" sc_square (2 + n) (0 + n);
  so2 "Mul" sc_mul (3 + n) (0 + n) (2 + n);
  so1 "Square" sc_square (2 + n) (3 + n);
  so2 "Mul" sc_mul (3 + n) (1 + n) (2 + n);
  so2 "Mul" sc_mul (1 + n) (0 + n) (3 + n);
  so1 "Square" sc_square (0 + n) (1 + n);
  so2 "Mul" sc_mul (2 + n) (1 + n) (0 + n);
  so1 "Square" sc_square (0 + n) (2 + n);
  so2 "Mul" sc_mul (4 + n) (2 + n) (0 + n);
  so1 "Square" sc_square (0 + n) (4 + n);
  so1 "Square" sc_square (4 + n) (0 + n);
  so1 "Square" sc_square (5 + n) (4 + n);
  so1 "Square" sc_square (4 + n) (5 + n);
  so1 "Square" sc_square (5 + n) (4 + n);
  so1 "Square" sc_square (4 + n) (5 + n);
  so2 "Mul" sc_mul (5 + n) (0 + n) (4 + n);
  so2 "Mul" sc_mul (0 + n) (2 + n) (5 + n);
  so2 "Mul" sc_mul (2 + n) (3 + n) (0 + n);
  so2 "Mul" sc_mul (0 + n) (1 + n) (2 + n);
  so1 "Square" sc_square (1 + n) (0 + n);
  so2 "Mul" sc_mul (3 + n) (0 + n) (1 + n);
  so1 "Square" sc_square (1 + n) (3 + n);
  so2 "Mul" sc_mul (4 + n) (0 + n) (1 + n);
  so1 "Square" sc_square (1 + n) (4 + n);
  so1 "Square" sc_square (4 + n) (1 + n);
  so1 "Square" sc_square (1 + n) (4 + n);
  so2 "Mul" sc_mul (4 + n) (3 + n) (1 + n);
  so2 "Mul" sc_mul (1 + n) (2 + n) (4 + n);
  so1 "Square" sc_square (2 + n) (1 + n);
  so1 "Square" sc_square (3 + n) (2 + n);
  so1 "Square" sc_square (4 + n) (3 + n);
  so2 "Mul" sc_mul (3 + n) (2 + n) (4 + n);
  so2 "Mul" sc_mul (2 + n) (1 + n) (3 + n);
  so2 "Mul" sc_mul (3 + n) (0 + n) (2 + n);
  so1 "Square" sc_square (0 + n) (3 + n);
  so1 "Square" sc_square (2 + n) (0 + n);
  so1 "Square" sc_square (0 + n) (2 + n);
  so2 "Mul" sc_mul (2 + n) (1 + n) (0 + n);
  so2 "Mul" sc_mul (0 + n) (3 + n) (2 + n);
  so1 "Square" sc_square (1 + n) (0 + n);
  so1 "Square" sc_square (3 + n) (1 + n);
  so2 "Mul" sc_mul (4 + n) (1 + n) (3 + n);
  so1 "Square" sc_square (3 + n) (4 + n);
  so1 "Square" sc_square (4 + n) (3 + n);
  so2 "Mul" sc_mul (3 + n) (1 + n) (4 + n);
  so2 "Mul" sc_mul (1 + n) (2 + n) (3 + n);
  so1 "Square" sc_square (2 + n) (1 + n);
  so1 "Square" sc_square (3 + n) (2 + n);
  so2 "Mul" sc_mul (2 + n) (0 + n) (3 + n);
  so1 "Square" sc_square (0 + n) (2 + n);
  so2 "Mul" sc_mul (3 + n) (1 + n) (0 + n);
  so1 "Square" sc_square (0 + n) (3 + n);
  so2 "Mul" sc_mul (1 + n) (2 + n) (0 + n);
  so2 "Mul" sc_mul (0 + n) (3 + n) (1 + n);
  so1 "Square" sc_square (2 + n) (0 + n);
  so1 "Square" sc_square (3 + n) (2 + n);
  so1 "Square" sc_square (2 + n) (3 + n);
  so1 "Square" sc_square (3 + n) (2 + n);
  so2 "Mul" sc_mul (2 + n) (1 + n) (3 + n);
  so2 "Mul" sc_mul (1 + n) (0 + n) (2 + n);
  so1 "Square" sc_square (0 + n) (1 + n);
  so1 "Square" sc_square (3 + n) (0 + n);
  so1 "Square" sc_square (4 + n) (3 + n);
  so2 "Mul" sc_mul (3 + n) (0 + n) (4 + n);
  so2 "Mul" sc_mul (0 + n) (1 + n) (3 + n);
  so2 "Mul" sc_mul (3 + n) (2 + n) (0 + n);
  so1 "Square" sc_square (0 + n) (3 + n);
  so1 "Square" sc_square (2 + n) (0 + n);
  so2 "Mul" sc_mul (0 + n) (1 + n) (2 + n);
  so1 "Square" sc_square (1 + n) (0 + n);
  so2 "Mul" sc_mul (2 + n) (3 + n) (1 + n);
  so2 "Mul" sc_mul (1 + n) (0 + n) (2 + n);
  so1 "Square" sc_square (0 + n) (1 + n);
  so2 "Mul" sc_mul (3 + n) (2 + n) (0 + n);
  so1 "Square" sc_square (0 + n) (3 + n);
  so1 "Square" sc_square (2 + n) (0 + n);
  so2 "Mul" sc_mul (0 + n) (1 + n) (2 + n);
  so2 "Mul" sc_mul (1 + n) (3 + n) (0 + n);
  so1 "Square" sc_square (2 + n) (1 + n);
  so2 "Mul" sc_mul (3 + n) (0 + n) (2 + n);
  so2 "Mul" sc_mul (0 + n) (1 + n) (3 + n);
  so1 "Square" sc_square (1 + n) (0 + n);
  so1 "Square" sc_square (2 + n) (1 + n);
  so1 "Square" sc_square (4 + n) (2 + n);
  so2 "Mul" sc_mul (2 + n) (1 + n) (4 + n);
  so1 "Square" sc_square (4 + n) (2 + n);
  so1 "Square" sc_square (2 + n) (4 + n);
  so1 "Square" sc_square (4 + n) (2 + n);
  so2 "Mul" sc_mul (2 + n) (1 + n) (4 + n);
  so2 "Mul" sc_mul (1 + n) (3 + n) (2 + n);
  so1 "Square" sc_square (2 + n) (1 + n);
  so1 "Square" sc_square (3 + n) (2 + n);
  so2 "Mul" sc_mul (2 + n) (1 + n) (3 + n);
  so1 "Square" sc_square (3 + n) (2 + n);
  so1 "Square" sc_square (2 + n) (3 + n);
  so2 "Mul" sc_mul (3 + n) (1 + n) (2 + n);
  so2 "Mul" sc_mul (2 + n) (0 + n) (3 + n);
  so1 "Square" sc_square (0 + n) (2 + n);
  so2 "Mul" sc_mul (3 + n) (2 + n) (0 + n);
  so1 "Square" sc_square (0 + n) (3 + n);
  so1 "Square" sc_square (4 + n) (0 + n);
  so2 "Mul" sc_mul (0 + n) (3 + n) (4 + n);
  so2 "Mul" sc_mul (3 + n) (1 + n) (0 + n);
  so1 "Square" sc_square (0 + n) (3 + n);
  so2 "Mul" sc_mul (1 + n) (3 + n) (0 + n);
  so2 "Mul" sc_mul (0 + n) (2 + n) (1 + n);
  For 0 126 (prog [so1 "Square" sc_square (0 + n) (0 + n)]);
  so2 "Mul" sc_mul s (3 + n) (0 + n)].
