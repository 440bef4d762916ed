(** Generated by tools/go2prog.py from /repo/edwards25519/field.go, curve.go, table.go and
    elligator.go; do not edit.

    The code above the limb arithmetic as programs of GoLang.v, over an arbitrary field backend.
    A cell holds a field element or an integer: it is a pair of both of which one is used.  A
    struct is as many consecutive cells as it has fields, an array the concatenation of its
    elements; a parameter is the place a pointer points to (or where an argument passed by
    value is).  The methods of a backend are single operations; other calls are expanded, with
    the locals of the callee after those of the caller and its loop counters after the
    caller's.  Package variables (feOne, feI, ...) are constants.  A method that returns its
    receiver returns nothing here; [ret] is where an integer result goes. *)
From Coq Require Import ZArith List String.
From Verif Require Import Words FieldModel GoLang.
Import ListNotations.
Open Scope string_scope.
Open Scope Z_scope.

Section Curve.
Context (K : FeOps).
Local Notation V := (fe K * Z)%type.

(** the [k]-th local of a function whose locals start at [n] *)
Definition lo (k n : nat) : place V := ((k + n)%nat, C 0).

(** the methods of a backend *)
Definition fo0 (tag : string) (v : fe K) (d : place V) : stmt V := Do tag (fun _ _ => (v, 0)) d [].
Definition fo1 (tag : string) (f : fe K -> fe K) (d a : place V) : stmt V :=
  Do tag (fun _ vs => match vs with [x] => (f (fst x), 0) | _ => (k_zero K, 0) end) d [a].
Definition fo2 (tag : string) (f : fe K -> fe K -> fe K) (d a b : place V) : stmt V :=
  Do tag (fun _ vs => match vs with [x; y] => (f (fst x) (fst y), 0) | _ => (k_zero K, 0) end) d [a; b].
Definition foc (d a b : place V) : stmt V :=
  Do "ConditionalSet" (fun _ vs => match vs with [x; y; z] => (o_condSet K (fst x) (fst y) (snd z), 0) | _ => (k_zero K, 0) end) d [d; a; b].
Definition foc0 (v : fe K) (d b : place V) : stmt V :=
  Do "ConditionalSet" (fun _ vs => match vs with [x; z] => (o_condSet K (fst x) v (snd z), 0) | _ => (k_zero K, 0) end) d [d; b].
(** integer expressions *)
Definition ido (f : (nat -> nat) -> list Z -> Z) (d : place V) (args : list (place V)) : stmt V :=
  Do "int" (fun rho vs => (k_zero K, f rho (map snd vs))) d args.
(** methods returning an integer, the last with a receiver that may change *)
Definition io1 (tag : string) (f : fe K -> Z) (d a : place V) : stmt V :=
  Do tag (fun _ vs => match vs with [x] => (k_zero K, f (fst x)) | _ => (k_zero K, 0) end) d [a].
Definition io2 (tag : string) (f : fe K -> fe K -> Z) (d a b : place V) : stmt V :=
  Do tag (fun _ vs => match vs with [x; y] => (k_zero K, f (fst x) (fst y)) | _ => (k_zero K, 0) end) d [a; b].
Definition iot (tag : string) (f : fe K -> Z * fe K) (d a : place V) : stmt V :=
  Do2 tag (fun _ vs => match vs with [x] => let (r, y) := f (fst x) in ((k_zero K, r), (y, snd x)) | _ => ((k_zero K, 0), (k_zero K, 0)) end) d a [a].

(** [FieldElement.double]: /repo/edwards25519/field.go:30-32; locals from [nl] on: none *)
Definition g_fe_double (fe : place V) (a : place V) (nl nc : nat) : stmt V := prog [
  fo2 "add" (o_add K) fe a a].

(** [FieldElement.Add]: /repo/edwards25519/field.go:35-37; locals from [nl] on: none *)
Definition g_fe_Add (fe : place V) (a : place V) (b : place V) (nl nc : nat) : stmt V := prog [
  fo2 "add" (o_add K) fe a b;
  fo1 "normalize" (o_normalize K) fe fe].

(** [FieldElement.Sub]: /repo/edwards25519/field.go:40-42; locals from [nl] on: none *)
Definition g_fe_Sub (fe : place V) (a : place V) (b : place V) (nl nc : nat) : stmt V := prog [
  fo2 "sub" (o_sub K) fe a b;
  fo1 "normalize" (o_normalize K) fe fe].

(** [FieldElement.Inverse]: /repo/edwards25519/field.go:58-109; locals from [nl] on: t0, t1, t2, t3 *)
Definition g_fe_Inverse (fe : place V) (a : place V) (nl nc : nat) : stmt V := prog [
  fo1 "Square" (o_square K) (lo 0 nl) a;
  fo1 "Square" (o_square K) (lo 1 nl) (lo 0 nl);
  fo1 "Square" (o_square K) (lo 1 nl) (lo 1 nl);
  fo2 "Mul" (o_mul K) (lo 1 nl) a (lo 1 nl);
  fo2 "Mul" (o_mul K) (lo 0 nl) (lo 0 nl) (lo 1 nl);
  fo1 "Square" (o_square K) (lo 2 nl) (lo 0 nl);
  fo2 "Mul" (o_mul K) (lo 1 nl) (lo 1 nl) (lo 2 nl);
  fo1 "Square" (o_square K) (lo 2 nl) (lo 1 nl);
  For (0 + nc) 4 (prog [
    fo1 "Square" (o_square K) (lo 2 nl) (lo 2 nl)]);
  fo2 "Mul" (o_mul K) (lo 1 nl) (lo 2 nl) (lo 1 nl);
  fo1 "Square" (o_square K) (lo 2 nl) (lo 1 nl);
  For (1 + nc) 9 (prog [
    fo1 "Square" (o_square K) (lo 2 nl) (lo 2 nl)]);
  fo2 "Mul" (o_mul K) (lo 2 nl) (lo 2 nl) (lo 1 nl);
  fo1 "Square" (o_square K) (lo 3 nl) (lo 2 nl);
  For (2 + nc) 19 (prog [
    fo1 "Square" (o_square K) (lo 3 nl) (lo 3 nl)]);
  fo2 "Mul" (o_mul K) (lo 2 nl) (lo 3 nl) (lo 2 nl);
  fo1 "Square" (o_square K) (lo 2 nl) (lo 2 nl);
  For (3 + nc) 9 (prog [
    fo1 "Square" (o_square K) (lo 2 nl) (lo 2 nl)]);
  fo2 "Mul" (o_mul K) (lo 1 nl) (lo 2 nl) (lo 1 nl);
  fo1 "Square" (o_square K) (lo 2 nl) (lo 1 nl);
  For (4 + nc) 49 (prog [
    fo1 "Square" (o_square K) (lo 2 nl) (lo 2 nl)]);
  fo2 "Mul" (o_mul K) (lo 2 nl) (lo 2 nl) (lo 1 nl);
  fo1 "Square" (o_square K) (lo 3 nl) (lo 2 nl);
  For (5 + nc) 99 (prog [
    fo1 "Square" (o_square K) (lo 3 nl) (lo 3 nl)]);
  fo2 "Mul" (o_mul K) (lo 2 nl) (lo 3 nl) (lo 2 nl);
  fo1 "Square" (o_square K) (lo 2 nl) (lo 2 nl);
  For (6 + nc) 49 (prog [
    fo1 "Square" (o_square K) (lo 2 nl) (lo 2 nl)]);
  fo2 "Mul" (o_mul K) (lo 1 nl) (lo 2 nl) (lo 1 nl);
  fo1 "Square" (o_square K) (lo 1 nl) (lo 1 nl);
  For (7 + nc) 4 (prog [
    fo1 "Square" (o_square K) (lo 1 nl) (lo 1 nl)]);
  fo2 "Mul" (o_mul K) fe (lo 1 nl) (lo 0 nl)].

(** [FieldElement.Abs]: /repo/edwards25519/field.go:112-118; locals from [nl] on: xNeg, tmp1, tmp2 *)
Definition g_fe_Abs (fe : place V) (x : place V) (nl nc : nat) : stmt V := prog [
  fo1 "Neg" (o_neg K) (lo 0 nl) x;
  fo1 "Set" (fun x => x) fe x;
  iot "IsNegativeI" (fe_IsNegativeI K) (lo 2 nl) x;
  ido (fun _ vs => match vs with [r0] => r0 | _ => 0 end) (lo 1 nl) [(lo 2 nl)];
  foc fe (lo 0 nl) (lo 1 nl)].

(** [FieldElement.Exp22523]: /repo/edwards25519/field.go:207-266; locals from [nl] on: t0, t1, t2 *)
Definition g_fe_Exp22523 (fe : place V) (a : place V) (nl nc : nat) : stmt V := prog [
  fo1 "Square" (o_square K) (lo 0 nl) a;
  For (0 + nc) 0 (prog [
    fo1 "Square" (o_square K) (lo 0 nl) (lo 0 nl)]);
  fo1 "Square" (o_square K) (lo 1 nl) (lo 0 nl);
  For (1 + nc) 1 (prog [
    fo1 "Square" (o_square K) (lo 1 nl) (lo 1 nl)]);
  fo2 "Mul" (o_mul K) (lo 1 nl) a (lo 1 nl);
  fo2 "Mul" (o_mul K) (lo 0 nl) (lo 0 nl) (lo 1 nl);
  fo1 "Square" (o_square K) (lo 0 nl) (lo 0 nl);
  For (2 + nc) 0 (prog [
    fo1 "Square" (o_square K) (lo 0 nl) (lo 0 nl)]);
  fo2 "Mul" (o_mul K) (lo 0 nl) (lo 1 nl) (lo 0 nl);
  fo1 "Square" (o_square K) (lo 1 nl) (lo 0 nl);
  For (3 + nc) 4 (prog [
    fo1 "Square" (o_square K) (lo 1 nl) (lo 1 nl)]);
  fo2 "Mul" (o_mul K) (lo 0 nl) (lo 1 nl) (lo 0 nl);
  fo1 "Square" (o_square K) (lo 1 nl) (lo 0 nl);
  For (4 + nc) 9 (prog [
    fo1 "Square" (o_square K) (lo 1 nl) (lo 1 nl)]);
  fo2 "Mul" (o_mul K) (lo 1 nl) (lo 1 nl) (lo 0 nl);
  fo1 "Square" (o_square K) (lo 2 nl) (lo 1 nl);
  For (5 + nc) 19 (prog [
    fo1 "Square" (o_square K) (lo 2 nl) (lo 2 nl)]);
  fo2 "Mul" (o_mul K) (lo 1 nl) (lo 2 nl) (lo 1 nl);
  fo1 "Square" (o_square K) (lo 1 nl) (lo 1 nl);
  For (6 + nc) 9 (prog [
    fo1 "Square" (o_square K) (lo 1 nl) (lo 1 nl)]);
  fo2 "Mul" (o_mul K) (lo 0 nl) (lo 1 nl) (lo 0 nl);
  fo1 "Square" (o_square K) (lo 1 nl) (lo 0 nl);
  For (7 + nc) 49 (prog [
    fo1 "Square" (o_square K) (lo 1 nl) (lo 1 nl)]);
  fo2 "Mul" (o_mul K) (lo 1 nl) (lo 1 nl) (lo 0 nl);
  fo1 "Square" (o_square K) (lo 2 nl) (lo 1 nl);
  For (8 + nc) 99 (prog [
    fo1 "Square" (o_square K) (lo 2 nl) (lo 2 nl)]);
  fo2 "Mul" (o_mul K) (lo 1 nl) (lo 2 nl) (lo 1 nl);
  fo1 "Square" (o_square K) (lo 1 nl) (lo 1 nl);
  For (9 + nc) 49 (prog [
    fo1 "Square" (o_square K) (lo 1 nl) (lo 1 nl)]);
  fo2 "Mul" (o_mul K) (lo 0 nl) (lo 1 nl) (lo 0 nl);
  fo1 "Square" (o_square K) (lo 0 nl) (lo 0 nl);
  For (10 + nc) 1 (prog [
    fo1 "Square" (o_square K) (lo 0 nl) (lo 0 nl)]);
  fo2 "Mul" (o_mul K) fe (lo 0 nl) a].

(** [FieldElement.InvSqrt]: /repo/edwards25519/field.go:269-286; locals from [nl] on: den2, den3, den4, den6, chk, t, t2, tmp7, tmp8 *)
Definition g_fe_InvSqrt (fe : place V) (a : place V) (nl nc : nat) : stmt V := prog [
  fo1 "Square" (o_square K) (lo 0 nl) a;
  fo2 "Mul" (o_mul K) (lo 1 nl) (lo 0 nl) a;
  fo1 "Square" (o_square K) (lo 2 nl) (lo 0 nl);
  fo2 "Mul" (o_mul K) (lo 3 nl) (lo 0 nl) (lo 2 nl);
  fo2 "Mul" (o_mul K) (lo 5 nl) (lo 3 nl) a;
  g_fe_Exp22523 (lo 5 nl) (lo 5 nl) (9 + nl)%nat (0 + nc)%nat;
  fo2 "Mul" (o_mul K) (lo 5 nl) (lo 5 nl) (lo 1 nl);
  fo1 "Mul" (fun x => o_mul K x (k_I K)) (lo 6 nl) (lo 5 nl);
  fo1 "Square" (o_square K) (lo 4 nl) (lo 5 nl);
  fo2 "Mul" (o_mul K) (lo 4 nl) (lo 4 nl) a;
  fo1 "Set" (fun x => x) fe (lo 5 nl);
  io1 "IsOneI" (fe_IsOneI K) (lo 8 nl) (lo 4 nl);
  ido (fun _ vs => match vs with [r0] => i32 (1 - r0) | _ => 0 end) (lo 7 nl) [(lo 8 nl)];
  foc fe (lo 6 nl) (lo 7 nl)].

(** [FieldElement.Sqrt]: /repo/edwards25519/field.go:289-299; locals from [nl] on: aCopy, feNeg, tmp2, tmp3 *)
Definition g_fe_Sqrt (fe : place V) (a : place V) (nl nc : nat) : stmt V := prog [
  fo1 "Set" (fun x => x) (lo 0 nl) a;
  g_fe_InvSqrt fe a (4 + nl)%nat (0 + nc)%nat;
  fo2 "Mul" (o_mul K) fe fe (lo 0 nl);
  fo1 "Neg" (o_neg K) (lo 1 nl) fe;
  iot "IsNegativeI" (fe_IsNegativeI K) (lo 3 nl) fe;
  ido (fun _ vs => match vs with [r0] => r0 | _ => 0 end) (lo 2 nl) [(lo 3 nl)];
  foc fe (lo 1 nl) (lo 2 nl)].

(** [FieldElement.InvSqrtI]: /repo/edwards25519/field.go:303-335; locals from [nl] on: inCaseA, inCaseB, inCaseD, den2, den3, den4, den6, chk, t, corr, tmp10, tmp11, tmp12, tmp13 *)
Definition g_fe_InvSqrtI (fe : place V) (a : place V) (ret : place V) (nl nc : nat) : stmt V := prog [
  fo1 "Square" (o_square K) (lo 3 nl) a;
  fo2 "Mul" (o_mul K) (lo 4 nl) (lo 3 nl) a;
  fo1 "Square" (o_square K) (lo 5 nl) (lo 3 nl);
  fo2 "Mul" (o_mul K) (lo 6 nl) (lo 3 nl) (lo 5 nl);
  fo2 "Mul" (o_mul K) (lo 8 nl) (lo 6 nl) a;
  g_fe_Exp22523 (lo 8 nl) (lo 8 nl) (14 + nl)%nat (0 + nc)%nat;
  fo2 "Mul" (o_mul K) (lo 8 nl) (lo 8 nl) (lo 4 nl);
  fo1 "Square" (o_square K) (lo 7 nl) (lo 8 nl);
  fo2 "Mul" (o_mul K) (lo 7 nl) (lo 7 nl) a;
  io1 "IsOneI" (fe_IsOneI K) (lo 10 nl) (lo 7 nl);
  ido (fun _ vs => match vs with [r0] => r0 | _ => 0 end) (lo 0 nl) [(lo 10 nl)];
  io1 "EqualsI" (fun x => fe_EqualsI K x (k_I K)) (lo 11 nl) (lo 7 nl);
  ido (fun _ vs => match vs with [r0] => r0 | _ => 0 end) (lo 2 nl) [(lo 11 nl)];
  fo1 "Neg" (o_neg K) (lo 7 nl) (lo 7 nl);
  io1 "IsOneI" (fe_IsOneI K) (lo 12 nl) (lo 7 nl);
  ido (fun _ vs => match vs with [r0] => r0 | _ => 0 end) (lo 1 nl) [(lo 12 nl)];
  fo0 "Set" (k_one K) (lo 9 nl);
  ido (fun _ vs => match vs with [inCaseB; inCaseD] => i32 (inCaseB + inCaseD) | _ => 0 end) (lo 13 nl) [(lo 1 nl); (lo 2 nl)];
  foc0 (k_I K) (lo 9 nl) (lo 13 nl);
  fo2 "Mul" (o_mul K) (lo 8 nl) (lo 8 nl) (lo 9 nl);
  fo1 "Set" (fun x => x) fe (lo 8 nl);
  ido (fun _ vs => match vs with [inCaseA; inCaseB] => i32 (inCaseA + inCaseB) | _ => 0 end) ret [(lo 0 nl); (lo 1 nl)]].

(** [ExtendedPoint.SetTorsion3]: /repo/edwards25519/curve.go:27-33; locals from [nl] on: none *)
Definition g_ep_SetTorsion3 (p : place V) (nl nc : nat) : stmt V := prog [
  fo0 "Set" (k_minusI K) (off p 0);
  fo0 "Set" (k_zero K) (off p 1);
  fo0 "Set" (k_one K) (off p 2);
  fo0 "Set" (k_zero K) (off p 3)].

(** [ExtendedPoint.SetTorsion2]: /repo/edwards25519/curve.go:36-42; locals from [nl] on: none *)
Definition g_ep_SetTorsion2 (p : place V) (nl nc : nat) : stmt V := prog [
  fo0 "Set" (k_I K) (off p 0);
  fo0 "Set" (k_zero K) (off p 1);
  fo0 "Set" (k_one K) (off p 2);
  fo0 "Set" (k_zero K) (off p 3)].

(** [ExtendedPoint.SetTorsion1]: /repo/edwards25519/curve.go:45-51; locals from [nl] on: none *)
Definition g_ep_SetTorsion1 (p : place V) (nl nc : nat) : stmt V := prog [
  fo0 "Set" (k_zero K) (off p 0);
  fo0 "Set" (k_minusOne K) (off p 1);
  fo0 "Set" (k_one K) (off p 2);
  fo0 "Set" (k_zero K) (off p 3)].

(** [ProjectivePoint.SetZero]: /repo/edwards25519/curve.go:54-59; locals from [nl] on: none *)
Definition g_pp_SetZero (p : place V) (nl nc : nat) : stmt V := prog [
  fo0 "Set" (k_zero K) (off p 0);
  fo0 "Set" (k_one K) (off p 1);
  fo0 "Set" (k_one K) (off p 2)].

(** [ExtendedPoint.SetZero]: /repo/edwards25519/curve.go:62-68; locals from [nl] on: none *)
Definition g_ep_SetZero (p : place V) (nl nc : nat) : stmt V := prog [
  fo0 "Set" (k_zero K) (off p 0);
  fo0 "Set" (k_one K) (off p 1);
  fo0 "Set" (k_one K) (off p 2);
  fo0 "Set" (k_zero K) (off p 3)].

(** [ExtendedPoint.Set]: /repo/edwards25519/curve.go:76-82; locals from [nl] on: none *)
Definition g_ep_Set (p : place V) (q : place V) (nl nc : nat) : stmt V := prog [
  fo1 "Set" (fun x => x) (off p 0) (off q 0);
  fo1 "Set" (fun x => x) (off p 1) (off q 1);
  fo1 "Set" (fun x => x) (off p 2) (off q 2);
  fo1 "Set" (fun x => x) (off p 3) (off q 3)].

(** [ExtendedPoint.ConditionalSet]: /repo/edwards25519/curve.go:85-91; locals from [nl] on: none *)
Definition g_ep_ConditionalSet (p : place V) (q : place V) (b : place V) (nl nc : nat) : stmt V := prog [
  foc (off p 0) (off q 0) b;
  foc (off p 1) (off q 1) b;
  foc (off p 2) (off q 2) b;
  foc (off p 3) (off q 3) b].

(** [CompletedPoint.AddExtended]: /repo/edwards25519/curve.go:94-113; locals from [nl] on: a, b, c, d, t *)
Definition g_cp_AddExtended (p : place V) (q : place V) (r : place V) (nl nc : nat) : stmt V := prog [
  fo2 "sub" (o_sub K) (lo 0 nl) (off q 1) (off q 0);
  fo2 "sub" (o_sub K) (lo 4 nl) (off r 1) (off r 0);
  fo2 "Mul" (o_mul K) (lo 0 nl) (lo 0 nl) (lo 4 nl);
  fo2 "add" (o_add K) (lo 1 nl) (off q 0) (off q 1);
  fo2 "add" (o_add K) (lo 4 nl) (off r 0) (off r 1);
  fo2 "Mul" (o_mul K) (lo 1 nl) (lo 1 nl) (lo 4 nl);
  fo2 "Mul" (o_mul K) (lo 2 nl) (off q 3) (off r 3);
  fo1 "Mul" (fun x => o_mul K x (k_2D K)) (lo 2 nl) (lo 2 nl);
  fo2 "Mul" (o_mul K) (lo 3 nl) (off q 2) (off r 2);
  fo2 "add" (o_add K) (lo 3 nl) (lo 3 nl) (lo 3 nl);
  fo2 "sub" (o_sub K) (off p 0) (lo 1 nl) (lo 0 nl);
  fo2 "sub" (o_sub K) (off p 3) (lo 3 nl) (lo 2 nl);
  fo2 "add" (o_add K) (off p 2) (lo 3 nl) (lo 2 nl);
  fo2 "add" (o_add K) (off p 1) (lo 1 nl) (lo 0 nl)].

(** [CompletedPoint.SubExtended]: /repo/edwards25519/curve.go:116-135; locals from [nl] on: a, b, c, d, t *)
Definition g_cp_SubExtended (p : place V) (q : place V) (r : place V) (nl nc : nat) : stmt V := prog [
  fo2 "sub" (o_sub K) (lo 0 nl) (off q 1) (off q 0);
  fo2 "add" (o_add K) (lo 4 nl) (off r 1) (off r 0);
  fo2 "Mul" (o_mul K) (lo 0 nl) (lo 0 nl) (lo 4 nl);
  fo2 "add" (o_add K) (lo 1 nl) (off q 0) (off q 1);
  fo2 "sub" (o_sub K) (lo 4 nl) (off r 1) (off r 0);
  fo2 "Mul" (o_mul K) (lo 1 nl) (lo 1 nl) (lo 4 nl);
  fo2 "Mul" (o_mul K) (lo 2 nl) (off q 3) (off r 3);
  fo1 "Mul" (fun x => o_mul K x (k_2D K)) (lo 2 nl) (lo 2 nl);
  fo2 "Mul" (o_mul K) (lo 3 nl) (off q 2) (off r 2);
  fo2 "add" (o_add K) (lo 3 nl) (lo 3 nl) (lo 3 nl);
  fo2 "sub" (o_sub K) (off p 0) (lo 1 nl) (lo 0 nl);
  fo2 "add" (o_add K) (off p 3) (lo 3 nl) (lo 2 nl);
  fo2 "sub" (o_sub K) (off p 2) (lo 3 nl) (lo 2 nl);
  fo2 "add" (o_add K) (off p 1) (lo 1 nl) (lo 0 nl)].

(** [CompletedPoint.DoubleProjective]: /repo/edwards25519/curve.go:138-152; locals from [nl] on: t0 *)
Definition g_cp_DoubleProjective (p : place V) (q : place V) (nl nc : nat) : stmt V := prog [
  fo1 "Square" (o_square K) (off p 0) (off q 0);
  fo1 "Square" (o_square K) (off p 2) (off q 1);
  fo1 "DoubledSquare" (o_doubledSquare K) (off p 3) (off q 2);
  fo2 "add" (o_add K) (off p 1) (off q 0) (off q 1);
  fo1 "Square" (o_square K) (lo 0 nl) (off p 1);
  fo2 "add" (o_add K) (off p 1) (off p 2) (off p 0);
  fo2 "sub" (o_sub K) (off p 2) (off p 2) (off p 0);
  fo2 "sub" (o_sub K) (off p 0) (lo 0 nl) (off p 1);
  fo2 "sub" (o_sub K) (off p 3) (off p 3) (off p 2)].

(** [CompletedPoint.DoubleExtended]: /repo/edwards25519/curve.go:155-171; locals from [nl] on: a, b, c, d *)
Definition g_cp_DoubleExtended (p : place V) (q : place V) (nl nc : nat) : stmt V := prog [
  fo1 "Square" (o_square K) (lo 0 nl) (off q 0);
  fo1 "Square" (o_square K) (lo 1 nl) (off q 1);
  fo1 "DoubledSquare" (o_doubledSquare K) (lo 2 nl) (off q 2);
  fo1 "Neg" (o_neg K) (lo 3 nl) (lo 0 nl);
  fo2 "add" (o_add K) (off p 0) (off q 0) (off q 1);
  fo1 "Square" (o_square K) (off p 0) (off p 0);
  fo2 "sub" (o_sub K) (off p 0) (off p 0) (lo 0 nl);
  fo2 "sub" (o_sub K) (off p 0) (off p 0) (lo 1 nl);
  fo2 "add" (o_add K) (off p 2) (lo 3 nl) (lo 1 nl);
  fo2 "sub" (o_sub K) (off p 3) (off p 2) (lo 2 nl);
  fo2 "sub" (o_sub K) (off p 1) (lo 3 nl) (lo 1 nl)].

(** [ProjectivePoint.SetExtended]: /repo/edwards25519/curve.go:174-179; locals from [nl] on: none *)
Definition g_pp_SetExtended (p : place V) (q : place V) (nl nc : nat) : stmt V := prog [
  fo1 "Set" (fun x => x) (off p 0) (off q 0);
  fo1 "Set" (fun x => x) (off p 1) (off q 1);
  fo1 "Set" (fun x => x) (off p 2) (off q 2)].

(** [ProjectivePoint.SetCompleted]: /repo/edwards25519/curve.go:182-187; locals from [nl] on: none *)
Definition g_pp_SetCompleted (p : place V) (q : place V) (nl nc : nat) : stmt V := prog [
  fo2 "Mul" (o_mul K) (off p 0) (off q 0) (off q 3);
  fo2 "Mul" (o_mul K) (off p 1) (off q 1) (off q 2);
  fo2 "Mul" (o_mul K) (off p 2) (off q 2) (off q 3)].

(** [ExtendedPoint.SetCompleted]: /repo/edwards25519/curve.go:214-220; locals from [nl] on: none *)
Definition g_ep_SetCompleted (p : place V) (q : place V) (nl nc : nat) : stmt V := prog [
  fo2 "Mul" (o_mul K) (off p 0) (off q 0) (off q 3);
  fo2 "Mul" (o_mul K) (off p 1) (off q 1) (off q 2);
  fo2 "Mul" (o_mul K) (off p 2) (off q 2) (off q 3);
  fo2 "Mul" (o_mul K) (off p 3) (off q 0) (off q 1)].

(** [ExtendedPoint.Double]: /repo/edwards25519/curve.go:190-195; locals from [nl] on: tmp *)
Definition g_ep_Double (p : place V) (q : place V) (nl nc : nat) : stmt V := prog [
  g_cp_DoubleExtended (lo 0 nl) q (1 + nl)%nat (0 + nc)%nat;
  g_ep_SetCompleted p (lo 0 nl) (1 + nl)%nat (0 + nc)%nat].

(** [ExtendedPoint.Add]: /repo/edwards25519/curve.go:198-203; locals from [nl] on: tmp *)
Definition g_ep_Add (p : place V) (q : place V) (r : place V) (nl nc : nat) : stmt V := prog [
  g_cp_AddExtended (lo 0 nl) q r (1 + nl)%nat (0 + nc)%nat;
  g_ep_SetCompleted p (lo 0 nl) (1 + nl)%nat (0 + nc)%nat].

(** [ExtendedPoint.Sub]: /repo/edwards25519/curve.go:206-211; locals from [nl] on: tmp *)
Definition g_ep_Sub (p : place V) (q : place V) (r : place V) (nl nc : nat) : stmt V := prog [
  g_cp_SubExtended (lo 0 nl) q r (1 + nl)%nat (0 + nc)%nat;
  g_ep_SetCompleted p (lo 0 nl) (1 + nl)%nat (0 + nc)%nat].

(** [ExtendedPoint.Neg]: /repo/edwards25519/curve.go:409-415; locals from [nl] on: none *)
Definition g_ep_Neg (p : place V) (q : place V) (nl nc : nat) : stmt V := prog [
  fo1 "Neg" (o_neg K) (off p 0) (off q 0);
  fo1 "Set" (fun x => x) (off p 1) (off q 1);
  fo1 "Set" (fun x => x) (off p 2) (off q 2);
  fo1 "Neg" (o_neg K) (off p 3) (off q 3)].

(** [computeScalarWindow5]: /repo/edwards25519/curve.go:328-358; locals from [nl] on: carry *)
Definition g_computeScalarWindow5 (s : place V) (w : place V) (nl nc : nat) : stmt V := prog [
  For (0 + nc) 6 (prog [
    ido (fun _ vs => match vs with [x0] => i8 (Z.land x0 31) | _ => 0 end) (elt w 1 (Plus (Times 8 (Ctr (0 + nc))) (C 0))) [(elt s 1 (Plus (Times 5 (Ctr (0 + nc))) (C 0)))];
    ido (fun _ vs => match vs with [x0] => i8 (Z.land (Z.shiftr x0 5) 31) | _ => 0 end) (elt w 1 (Plus (Times 8 (Ctr (0 + nc))) (C 1))) [(elt s 1 (Plus (Times 5 (Ctr (0 + nc))) (C 0)))];
    ido (fun _ vs => match vs with [x0; x1] => Z.lxor x0 (i8 (Z.land (u8 (Z.shiftl x1 3)) 31)) | _ => 0 end) (elt w 1 (Plus (Times 8 (Ctr (0 + nc))) (C 1))) [(elt w 1 (Plus (Times 8 (Ctr (0 + nc))) (C 1))); (elt s 1 (Plus (Times 5 (Ctr (0 + nc))) (C 1)))];
    ido (fun _ vs => match vs with [x0] => i8 (Z.land (Z.shiftr x0 2) 31) | _ => 0 end) (elt w 1 (Plus (Times 8 (Ctr (0 + nc))) (C 2))) [(elt s 1 (Plus (Times 5 (Ctr (0 + nc))) (C 1)))];
    ido (fun _ vs => match vs with [x0] => i8 (Z.land (Z.shiftr x0 7) 31) | _ => 0 end) (elt w 1 (Plus (Times 8 (Ctr (0 + nc))) (C 3))) [(elt s 1 (Plus (Times 5 (Ctr (0 + nc))) (C 1)))];
    ido (fun _ vs => match vs with [x0; x1] => Z.lxor x0 (i8 (Z.land (u8 (Z.shiftl x1 1)) 31)) | _ => 0 end) (elt w 1 (Plus (Times 8 (Ctr (0 + nc))) (C 3))) [(elt w 1 (Plus (Times 8 (Ctr (0 + nc))) (C 3))); (elt s 1 (Plus (Times 5 (Ctr (0 + nc))) (C 2)))];
    ido (fun _ vs => match vs with [x0] => i8 (Z.land (Z.shiftr x0 4) 31) | _ => 0 end) (elt w 1 (Plus (Times 8 (Ctr (0 + nc))) (C 4))) [(elt s 1 (Plus (Times 5 (Ctr (0 + nc))) (C 2)))];
    ido (fun _ vs => match vs with [x0; x1] => Z.lxor x0 (i8 (Z.land (u8 (Z.shiftl x1 4)) 31)) | _ => 0 end) (elt w 1 (Plus (Times 8 (Ctr (0 + nc))) (C 4))) [(elt w 1 (Plus (Times 8 (Ctr (0 + nc))) (C 4))); (elt s 1 (Plus (Times 5 (Ctr (0 + nc))) (C 3)))];
    ido (fun _ vs => match vs with [x0] => i8 (Z.land (Z.shiftr x0 1) 31) | _ => 0 end) (elt w 1 (Plus (Times 8 (Ctr (0 + nc))) (C 5))) [(elt s 1 (Plus (Times 5 (Ctr (0 + nc))) (C 3)))];
    ido (fun _ vs => match vs with [x0] => i8 (Z.land (Z.shiftr x0 6) 31) | _ => 0 end) (elt w 1 (Plus (Times 8 (Ctr (0 + nc))) (C 6))) [(elt s 1 (Plus (Times 5 (Ctr (0 + nc))) (C 3)))];
    ido (fun _ vs => match vs with [x0; x1] => Z.lxor x0 (i8 (Z.land (u8 (Z.shiftl x1 2)) 31)) | _ => 0 end) (elt w 1 (Plus (Times 8 (Ctr (0 + nc))) (C 6))) [(elt w 1 (Plus (Times 8 (Ctr (0 + nc))) (C 6))); (elt s 1 (Plus (Times 5 (Ctr (0 + nc))) (C 4)))];
    ido (fun _ vs => match vs with [x0] => i8 (Z.land (Z.shiftr x0 3) 31) | _ => 0 end) (elt w 1 (Plus (Times 8 (Ctr (0 + nc))) (C 7))) [(elt s 1 (Plus (Times 5 (Ctr (0 + nc))) (C 4)))]]);
  ido (fun _ vs => match vs with [x0] => i8 (Z.land x0 31) | _ => 0 end) (elt w 1 (C 48)) [(elt s 1 (C 30))];
  ido (fun _ vs => match vs with [x0] => i8 (Z.land (Z.shiftr x0 5) 31) | _ => 0 end) (elt w 1 (C 49)) [(elt s 1 (C 30))];
  ido (fun _ vs => match vs with [x0; x1] => Z.lxor x0 (i8 (Z.land (u8 (Z.shiftl x1 3)) 31)) | _ => 0 end) (elt w 1 (C 49)) [(elt w 1 (C 49)); (elt s 1 (C 31))];
  ido (fun _ vs => match vs with [x0] => i8 (Z.land (Z.shiftr x0 2) 31) | _ => 0 end) (elt w 1 (C 50)) [(elt s 1 (C 31))];
  ido (fun _ _ => 0) (lo 0 nl) [];
  For (1 + nc) 50 (prog [
    ido (fun _ vs => match vs with [x0; carry] => i8 (x0 + carry) | _ => 0 end) (elt w 1 (Ctr (1 + nc))) [(elt w 1 (Ctr (1 + nc))); (lo 0 nl)];
    ido (fun _ vs => match vs with [x0; x1] => i8 (x0 + (Z.shiftr x1 5)) | _ => 0 end) (elt w 1 (Plus (Ctr (1 + nc)) (C 1))) [(elt w 1 (Plus (Ctr (1 + nc)) (C 1))); (elt w 1 (Ctr (1 + nc)))];
    ido (fun _ vs => match vs with [x0] => Z.land x0 31 | _ => 0 end) (elt w 1 (Ctr (1 + nc))) [(elt w 1 (Ctr (1 + nc)))];
    ido (fun _ vs => match vs with [x0] => Z.shiftr x0 4 | _ => 0 end) (lo 0 nl) [(elt w 1 (Ctr (1 + nc)))];
    ido (fun _ vs => match vs with [x0; carry] => i8 (x0 - (i8 (Z.shiftl carry 5))) | _ => 0 end) (elt w 1 (Ctr (1 + nc))) [(elt w 1 (Ctr (1 + nc))); (lo 0 nl)]]);
  ido (fun _ vs => match vs with [x0; carry] => i8 (x0 + carry) | _ => 0 end) (elt w 1 (C 50)) [(elt w 1 (C 50)); (lo 0 nl)]].

(** [ExtendedPoint.ScalarMult]: /repo/edwards25519/curve.go:361-406; locals from [nl] on: lut, t, window, pp, cp, b, c, v, c *)
Definition g_ep_ScalarMult (p : place V) (q : place V) (s : place V) (nl nc : nat) : stmt V := prog [
  g_computeScalarWindow5 s (lo 2 nl) (9 + nl)%nat (4 + nc)%nat;
  g_ep_SetZero (elt (lo 0 nl) 4 (C 0)) (9 + nl)%nat (4 + nc)%nat;
  g_ep_Set (elt (lo 0 nl) 4 (C 1)) q (9 + nl)%nat (4 + nc)%nat;
  For (0 + nc) 7 (prog [
    g_ep_Double (elt (lo 0 nl) 4 (Plus (C 2) (Times 2 (Ctr (0 + nc))))) (elt (lo 0 nl) 4 (Half (Plus (C 2) (Times 2 (Ctr (0 + nc)))))) (9 + nl)%nat (4 + nc)%nat;
    g_ep_Add (elt (lo 0 nl) 4 (Plus (Plus (C 2) (Times 2 (Ctr (0 + nc)))) (C 1))) (elt (lo 0 nl) 4 (Plus (C 2) (Times 2 (Ctr (0 + nc))))) q (9 + nl)%nat (4 + nc)%nat]);
  g_ep_Double (elt (lo 0 nl) 4 (C 16)) (elt (lo 0 nl) 4 (C 8)) (9 + nl)%nat (4 + nc)%nat;
  g_ep_SetZero p (9 + nl)%nat (4 + nc)%nat;
  For (1 + nc) 51 (prog [
    g_cp_DoubleExtended (lo 4 nl) p (9 + nl)%nat (4 + nc)%nat;
    For (2 + nc) 4 (prog [
    g_pp_SetCompleted (lo 3 nl) (lo 4 nl) (9 + nl)%nat (4 + nc)%nat;
    g_cp_DoubleProjective (lo 4 nl) (lo 3 nl) (9 + nl)%nat (4 + nc)%nat]);
    g_ep_SetCompleted p (lo 4 nl) (9 + nl)%nat (4 + nc)%nat;
    g_ep_Set (lo 1 nl) (elt (lo 0 nl) 4 (C 0)) (9 + nl)%nat (4 + nc)%nat;
    ido (fun _ vs => match vs with [x0] => x0 | _ => 0 end) (lo 5 nl) [(elt (lo 2 nl) 1 (Minus (C 50) (Ctr (1 + nc))))];
    For (3 + nc) 16 (prog [
    ido (fun rho vs => match vs with [b] => Z.lor (equal15 b (i32 (- (Z.of_nat (rho (3 + nc)%nat + 1))))) (equal15 b (i32 (Z.of_nat (rho (3 + nc)%nat + 1)))) | _ => 0 end) (lo 6 nl) [(lo 5 nl)];
    g_ep_ConditionalSet (lo 1 nl) (elt (lo 0 nl) 4 (Plus (C 1) (Ctr (3 + nc)))) (lo 6 nl) (9 + nl)%nat (4 + nc)%nat]);
    ido (fun _ vs => match vs with [b] => negative b | _ => 0 end) (lo 8 nl) [(lo 5 nl)];
    fo1 "Neg" (o_neg K) (lo 7 nl) (off (lo 1 nl) 0);
    foc (off (lo 1 nl) 0) (lo 7 nl) (lo 8 nl);
    fo1 "Neg" (o_neg K) (lo 7 nl) (off (lo 1 nl) 3);
    foc (off (lo 1 nl) 3) (lo 7 nl) (lo 8 nl);
    g_ep_Add p p (lo 1 nl) (9 + nl)%nat (4 + nc)%nat])].

(** [NielsPoint.SetZero]: /repo/edwards25519/table.go:11-16; locals from [nl] on: none *)
Definition g_np_SetZero (p : place V) (nl nc : nat) : stmt V := prog [
  fo0 "Set" (k_one K) (off p 1);
  fo0 "Set" (k_one K) (off p 0);
  fo0 "Set" (k_zero K) (off p 2)].

(** [NielsPoint.Set]: /repo/edwards25519/table.go:19-24; locals from [nl] on: none *)
Definition g_np_Set (p : place V) (q : place V) (nl nc : nat) : stmt V := prog [
  fo1 "Set" (fun x => x) (off p 0) (off q 0);
  fo1 "Set" (fun x => x) (off p 1) (off q 1);
  fo1 "Set" (fun x => x) (off p 2) (off q 2)].

(** [NielsPoint.ConditionalSet]: /repo/edwards25519/table.go:27-32; locals from [nl] on: none *)
Definition g_np_ConditionalSet (p : place V) (q : place V) (b : place V) (nl nc : nat) : stmt V := prog [
  foc (off p 0) (off q 0) b;
  foc (off p 1) (off q 1) b;
  foc (off p 2) (off q 2) b].

(** [NielsPoint.Neg]: /repo/edwards25519/table.go:35-40; locals from [nl] on: none *)
Definition g_np_Neg (p : place V) (q : place V) (nl nc : nat) : stmt V := prog [
  fo1 "Set" (fun x => x) (off p 1) (off q 0);
  fo1 "Set" (fun x => x) (off p 0) (off q 1);
  fo1 "Neg" (o_neg K) (off p 2) (off q 2)].

(** [CompletedPoint.AddExtendedNiels]: /repo/edwards25519/table.go:43-57; locals from [nl] on: t0 *)
Definition g_cp_AddExtendedNiels (p : place V) (q : place V) (r : place V) (nl nc : nat) : stmt V := prog [
  fo2 "add" (o_add K) (off p 0) (off q 1) (off q 0);
  fo2 "sub" (o_sub K) (off p 1) (off q 1) (off q 0);
  fo2 "Mul" (o_mul K) (off p 2) (off p 0) (off r 0);
  fo2 "Mul" (o_mul K) (off p 1) (off p 1) (off r 1);
  fo2 "Mul" (o_mul K) (off p 3) (off r 2) (off q 3);
  fo2 "add" (o_add K) (lo 0 nl) (off q 2) (off q 2);
  fo2 "sub" (o_sub K) (off p 0) (off p 2) (off p 1);
  fo2 "add" (o_add K) (off p 1) (off p 2) (off p 1);
  fo2 "add" (o_add K) (off p 2) (lo 0 nl) (off p 3);
  fo2 "sub" (o_sub K) (off p 3) (lo 0 nl) (off p 3)].

(** [CompletedPoint.SubExtendedNiels]: /repo/edwards25519/table.go:60-74; locals from [nl] on: t0 *)
Definition g_cp_SubExtendedNiels (p : place V) (q : place V) (r : place V) (nl nc : nat) : stmt V := prog [
  fo2 "add" (o_add K) (off p 0) (off q 1) (off q 0);
  fo2 "sub" (o_sub K) (off p 1) (off q 1) (off q 0);
  fo2 "Mul" (o_mul K) (off p 2) (off p 0) (off r 1);
  fo2 "Mul" (o_mul K) (off p 1) (off p 1) (off r 0);
  fo2 "Mul" (o_mul K) (off p 3) (off r 2) (off q 3);
  fo2 "add" (o_add K) (lo 0 nl) (off q 2) (off q 2);
  fo2 "sub" (o_sub K) (off p 0) (off p 2) (off p 1);
  fo2 "add" (o_add K) (off p 1) (off p 2) (off p 1);
  fo2 "sub" (o_sub K) (off p 2) (lo 0 nl) (off p 3);
  fo2 "add" (o_add K) (off p 3) (lo 0 nl) (off p 3)].

(** [NielsPoint.SetExtended]: /repo/edwards25519/table.go:77-88; locals from [nl] on: x, y, zInv *)
Definition g_np_SetExtended (p : place V) (q : place V) (nl nc : nat) : stmt V := prog [
  g_fe_Inverse (lo 2 nl) (off q 2) (3 + nl)%nat (0 + nc)%nat;
  fo2 "Mul" (o_mul K) (lo 0 nl) (off q 0) (lo 2 nl);
  fo2 "Mul" (o_mul K) (lo 1 nl) (off q 1) (lo 2 nl);
  g_fe_Add (off p 0) (lo 1 nl) (lo 0 nl) (3 + nl)%nat (0 + nc)%nat;
  g_fe_Sub (off p 1) (lo 1 nl) (lo 0 nl) (3 + nl)%nat (0 + nc)%nat;
  fo2 "Mul" (o_mul K) (off p 2) (lo 0 nl) (lo 1 nl);
  g_fe_Add (off p 2) (off p 2) (off p 2) (3 + nl)%nat (0 + nc)%nat;
  fo1 "Mul" (fun x => o_mul K x (k_D K)) (off p 2) (off p 2)].

(** [ScalarMultTable.Compute]: /repo/edwards25519/table.go:91-113; locals from [nl] on: c, cp, c_pp, c_cp *)
Definition g_tb_Compute (t : place V) (p : place V) (nl nc : nat) : stmt V := prog [
  g_ep_Set (lo 1 nl) p (4 + nl)%nat (2 + nc)%nat;
  For (0 + nc) 32 (prog [
    g_ep_SetZero (lo 0 nl) (4 + nl)%nat (2 + nc)%nat;
    For (1 + nc) 8 (prog [
    g_ep_Add (lo 0 nl) (lo 0 nl) (lo 1 nl) (4 + nl)%nat (2 + nc)%nat;
    g_np_SetExtended (elt (elt t 24 (Ctr (0 + nc))) 3 (Ctr (1 + nc))) (lo 0 nl) (4 + nl)%nat (2 + nc)%nat]);
    g_cp_DoubleExtended (lo 3 nl) (lo 0 nl) (4 + nl)%nat (2 + nc)%nat;
    g_pp_SetCompleted (lo 2 nl) (lo 3 nl) (4 + nl)%nat (2 + nc)%nat;
    g_cp_DoubleProjective (lo 3 nl) (lo 2 nl) (4 + nl)%nat (2 + nc)%nat;
    g_pp_SetCompleted (lo 2 nl) (lo 3 nl) (4 + nl)%nat (2 + nc)%nat;
    g_cp_DoubleProjective (lo 3 nl) (lo 2 nl) (4 + nl)%nat (2 + nc)%nat;
    g_pp_SetCompleted (lo 2 nl) (lo 3 nl) (4 + nl)%nat (2 + nc)%nat;
    g_cp_DoubleProjective (lo 3 nl) (lo 2 nl) (4 + nl)%nat (2 + nc)%nat;
    g_pp_SetCompleted (lo 2 nl) (lo 3 nl) (4 + nl)%nat (2 + nc)%nat;
    g_cp_DoubleProjective (lo 3 nl) (lo 2 nl) (4 + nl)%nat (2 + nc)%nat;
    g_ep_SetCompleted (lo 1 nl) (lo 3 nl) (4 + nl)%nat (2 + nc)%nat])].

(** [computeScalarWindow4]: /repo/edwards25519/table.go:116-128; locals from [nl] on: carry *)
Definition g_computeScalarWindow4 (s : place V) (w : place V) (nl nc : nat) : stmt V := prog [
  For (0 + nc) 32 (prog [
    ido (fun _ vs => match vs with [x0] => i8 (Z.land x0 15) | _ => 0 end) (elt w 1 (Times 2 (Ctr (0 + nc)))) [(elt s 1 (Ctr (0 + nc)))];
    ido (fun _ vs => match vs with [x0] => i8 (Z.land (Z.shiftr x0 4) 15) | _ => 0 end) (elt w 1 (Plus (Times 2 (Ctr (0 + nc))) (C 1))) [(elt s 1 (Ctr (0 + nc)))]]);
  ido (fun _ _ => 0) (lo 0 nl) [];
  For (1 + nc) 63 (prog [
    ido (fun _ vs => match vs with [x0; carry] => i8 (x0 + carry) | _ => 0 end) (elt w 1 (Ctr (1 + nc))) [(elt w 1 (Ctr (1 + nc))); (lo 0 nl)];
    ido (fun _ vs => match vs with [x0] => Z.shiftr (i8 (x0 + 8)) 4 | _ => 0 end) (lo 0 nl) [(elt w 1 (Ctr (1 + nc)))];
    ido (fun _ vs => match vs with [x0; carry] => i8 (x0 - (i8 (Z.shiftl carry 4))) | _ => 0 end) (elt w 1 (Ctr (1 + nc))) [(elt w 1 (Ctr (1 + nc))); (lo 0 nl)]]);
  ido (fun _ vs => match vs with [x0; carry] => i8 (x0 + carry) | _ => 0 end) (elt w 1 (C 63)) [(elt w 1 (C 63)); (lo 0 nl)]].

(** [ScalarMultTable.selectPoint]: /repo/edwards25519/table.go:195-205; locals from [nl] on: bNegative, bAbs, tmp2, negP *)
Definition g_tb_selectPoint (t : place V) (p : place V) (pos : ix V) (b : place V) (nl nc : nat) : stmt V := prog [
  ido (fun _ vs => match vs with [b] => negative b | _ => 0 end) (lo 0 nl) [b];
  ido (fun _ vs => match vs with [b; bNegative] => i32 (b - (i32 (Z.shiftl (Z.land (i32 (- bNegative)) b) 1))) | _ => 0 end) (lo 1 nl) [b; (lo 0 nl)];
  g_np_SetZero p (4 + nl)%nat (1 + nc)%nat;
  For (0 + nc) 8 (prog [
    ido (fun rho vs => match vs with [bAbs] => equal30 bAbs (i32 ((Z.of_nat (rho (0 + nc)%nat)) + 1)) | _ => 0 end) (lo 2 nl) [(lo 1 nl)];
    g_np_ConditionalSet p (elt (elt t 24 pos) 3 (Ctr (0 + nc))) (lo 2 nl) (4 + nl)%nat (1 + nc)%nat]);
  g_np_Neg (lo 3 nl) p (4 + nl)%nat (1 + nc)%nat;
  g_np_ConditionalSet p (lo 3 nl) (lo 0 nl) (4 + nl)%nat (1 + nc)%nat].

(** [ScalarMultTable.ScalarMult]: /repo/edwards25519/table.go:131-160; locals from [nl] on: w, np, cp, pp, tmp4, tmp5 *)
Definition g_tb_ScalarMult (t : place V) (p : place V) (s : place V) (nl nc : nat) : stmt V := prog [
  g_computeScalarWindow4 s (lo 0 nl) (6 + nl)%nat (2 + nc)%nat;
  g_ep_SetZero p (6 + nl)%nat (2 + nc)%nat;
  For (0 + nc) 32 (prog [
    ido (fun _ vs => match vs with [x0] => x0 | _ => 0 end) (lo 4 nl) [(elt (lo 0 nl) 1 (Plus (Times 2 (Ctr (0 + nc))) (C 1)))];
    g_tb_selectPoint t (lo 1 nl) (Ctr (0 + nc)) (lo 4 nl) (6 + nl)%nat (2 + nc)%nat;
    g_cp_AddExtendedNiels (lo 2 nl) p (lo 1 nl) (6 + nl)%nat (2 + nc)%nat;
    g_ep_SetCompleted p (lo 2 nl) (6 + nl)%nat (2 + nc)%nat]);
  g_cp_DoubleExtended (lo 2 nl) p (6 + nl)%nat (2 + nc)%nat;
  g_pp_SetCompleted (lo 3 nl) (lo 2 nl) (6 + nl)%nat (2 + nc)%nat;
  g_cp_DoubleProjective (lo 2 nl) (lo 3 nl) (6 + nl)%nat (2 + nc)%nat;
  g_pp_SetCompleted (lo 3 nl) (lo 2 nl) (6 + nl)%nat (2 + nc)%nat;
  g_cp_DoubleProjective (lo 2 nl) (lo 3 nl) (6 + nl)%nat (2 + nc)%nat;
  g_pp_SetCompleted (lo 3 nl) (lo 2 nl) (6 + nl)%nat (2 + nc)%nat;
  g_cp_DoubleProjective (lo 2 nl) (lo 3 nl) (6 + nl)%nat (2 + nc)%nat;
  g_ep_SetCompleted p (lo 2 nl) (6 + nl)%nat (2 + nc)%nat;
  For (1 + nc) 32 (prog [
    ido (fun _ vs => match vs with [x0] => x0 | _ => 0 end) (lo 5 nl) [(elt (lo 0 nl) 1 (Times 2 (Ctr (1 + nc))))];
    g_tb_selectPoint t (lo 1 nl) (Ctr (1 + nc)) (lo 5 nl) (6 + nl)%nat (2 + nc)%nat;
    g_cp_AddExtendedNiels (lo 2 nl) p (lo 1 nl) (6 + nl)%nat (2 + nc)%nat;
    g_ep_SetCompleted p (lo 2 nl) (6 + nl)%nat (2 + nc)%nat])].

(** [JacobiPoint.Dual]: /repo/edwards25519/elligator.go:137-142; locals from [nl] on: none *)
Definition g_jc_Dual (p : place V) (q : place V) (nl nc : nat) : stmt V := prog [
  fo1 "Neg" (o_neg K) (off p 0) (off q 0);
  fo1 "Neg" (o_neg K) (off p 1) (off q 1)].

End Curve.
