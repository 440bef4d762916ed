(** The comparisons of field elements and scalars on limbs, in the style of GoLimbCode.v but
    written by hand.  [ret] is the variable that receives the result. *)
From Coq Require Import ZArith List String.
From Verif Require Import Words ScalarCode FieldModel GoLang GoLimbCode.
Import ListNotations.
Open Scope string_scope.
Open Scope Z_scope.
Local Notation C := (@GoLang.C Z).
Local Notation all n a := (map (fun i => (a, C i)) (seq 0 n)).

(** [bytes fe buf n]: BytesInto of the backend, [sub b fe a n]: its sub *)
Section Backend.
Context (bytes : nat -> nat -> nat -> stmt Z) (sub : nat -> nat -> nat -> nat -> stmt Z).

(** [IsNegativeI]: /repo/edwards25519/field.go:121-125; local from [n] on: buf *)
Definition d_fe_IsNegativeI (fe ret n : nat) : stmt Z := prog [
  bytes fe (0 + n)%nat (1 + n)%nat;
  Do "" (fun _ vs => match vs with [x] => Z.land x 1 | _ => 0 end) (ret, C 0) [((0 + n)%nat, C 0)]].

(** [IsNonZeroI]: /repo/edwards25519/field.go:128-142; locals from [n] on: buf, ret *)
Definition d_fe_IsNonZeroI (fe ret n : nat) : stmt Z := prog [
  bytes fe (0 + n)%nat (2 + n)%nat;
  Do "" (fun _ buf => Z.lor (Z.lor (Z.lor (le_val (slice buf 0 8)) (le_val (slice buf 8 16))) (le_val (slice buf 16 24))) (le_val (slice buf 24 32)))
     ((1 + n)%nat, C 0) (all 32 (0 + n)%nat);
  Do "" (fun _ vs => match vs with [r] => Z.lor r (Z.shiftr r 32) | _ => 0 end) ((1 + n)%nat, C 0) [((1 + n)%nat, C 0)];
  Do "" (fun _ vs => match vs with [r] => Z.lor r (Z.shiftr r 16) | _ => 0 end) ((1 + n)%nat, C 0) [((1 + n)%nat, C 0)];
  Do "" (fun _ vs => match vs with [r] => Z.lor r (Z.shiftr r 8) | _ => 0 end) ((1 + n)%nat, C 0) [((1 + n)%nat, C 0)];
  Do "" (fun _ vs => match vs with [r] => Z.lor r (Z.shiftr r 4) | _ => 0 end) ((1 + n)%nat, C 0) [((1 + n)%nat, C 0)];
  Do "" (fun _ vs => match vs with [r] => Z.lor r (Z.shiftr r 2) | _ => 0 end) ((1 + n)%nat, C 0) [((1 + n)%nat, C 0)];
  Do "" (fun _ vs => match vs with [r] => Z.lor r (Z.shiftr r 1) | _ => 0 end) ((1 + n)%nat, C 0) [((1 + n)%nat, C 0)];
  Do "" (fun _ vs => match vs with [r] => i32 (Z.land r 1) | _ => 0 end) (ret, C 0) [((1 + n)%nat, C 0)]].

(** [EqualsI]: /repo/edwards25519/field.go:151-154, and [IsOneI]: field.go:145-148, where [a] is
    the variable feOne; locals from [n] on: b, the result of IsNonZeroI *)
Definition d_fe_EqualsI (fe a ret n : nat) : stmt Z := prog [
  sub (0 + n)%nat fe a (2 + n)%nat;
  d_fe_IsNonZeroI (0 + n)%nat (1 + n)%nat (2 + n)%nat;
  Do "" (fun _ vs => match vs with [r] => i32 (1 - r) | _ => 0 end) (ret, C 0) [((1 + n)%nat, C 0)]].
End Backend.

(** [Scalar.IsNonZeroI]: /repo/scalar.go:1014-1022; local from [n] on: ret *)
Definition d_sc_isNonZeroI (s ret n : nat) : stmt Z := prog [
  Do "" (fun _ vs => match vs with [s0; s1; s2; s3; s4; s5; s6; s7] => Z.lor (Z.lor (Z.lor (Z.lor (Z.lor (Z.lor (Z.lor s0 s1) s2) s3) s4) s5) s6) s7 | _ => 0 end)
     ((0 + n)%nat, C 0) (all 8 s);
  Do "" (fun _ vs => match vs with [r] => Z.lor r (Z.shiftr r 16) | _ => 0 end) ((0 + n)%nat, C 0) [((0 + n)%nat, C 0)];
  Do "" (fun _ vs => match vs with [r] => Z.lor r (Z.shiftr r 8) | _ => 0 end) ((0 + n)%nat, C 0) [((0 + n)%nat, C 0)];
  Do "" (fun _ vs => match vs with [r] => Z.lor r (Z.shiftr r 4) | _ => 0 end) ((0 + n)%nat, C 0) [((0 + n)%nat, C 0)];
  Do "" (fun _ vs => match vs with [r] => Z.lor r (Z.shiftr r 2) | _ => 0 end) ((0 + n)%nat, C 0) [((0 + n)%nat, C 0)];
  Do "" (fun _ vs => match vs with [r] => Z.lor r (Z.shiftr r 1) | _ => 0 end) ((0 + n)%nat, C 0) [((0 + n)%nat, C 0)];
  Do "" (fun _ vs => match vs with [r] => i32 (Z.land r 1) | _ => 0 end) (ret, C 0) [((0 + n)%nat, C 0)]].

(** [Scalar.EqualsI]: /repo/scalar.go:1025-1028; locals from [n] on: b, the result of IsNonZeroI *)
Definition d_sc_equalsI (s a ret n : nat) : stmt Z := prog [
  d_sc_sub (0 + n)%nat s a (2 + n)%nat;
  d_sc_isNonZeroI (0 + n)%nat (1 + n)%nat (2 + n)%nat;
  Do "" (fun _ vs => match vs with [r] => i32 (1 - r) | _ => 0 end) (ret, C 0) [((1 + n)%nat, C 0)]].

(** [SetBytesStrict]: /repo/scalar.go:94-114; locals from [n] on: t, r.  Here [ret] is 1 for true.
    The comparison [r != t] of two arrays is one test, after reading all the words. *)
Definition d_sc_setBytesStrict (s x scL ret n : nat) : stmt Z := prog [
  prog (map (fun i => Do "" (fun _ vs => load4u32 vs) ((0 + n)%nat, C i) [(x, C (4 * i)); (x, C (4 * i + 1)); (x, C (4 * i + 2)); (x, C (4 * i + 3))]) (seq 0 8));
  d_sc_sub (1 + n)%nat (0 + n)%nat scL (2 + n)%nat;
  If (fun vs => negb (forallb (fun p => fst p =? snd p) (combine (firstn 8 vs) (skipn 8 vs)))) (all 8 (1 + n)%nat ++ all 8 (0 + n)%nat)
    (Do "" (fun _ _ => 0) (ret, C 0) [])
    (prog [prog (map (fun i => Do "=" (fun _ vs => nth 0 vs 0) (s, C i) [((0 + n)%nat, C i)]) (seq 0 8));
           Do "" (fun _ _ => 1) (ret, C 0) []])].
