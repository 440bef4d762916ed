(** Model of /repo/edwards25519/field.go, written once over the operations that
    each [FieldElement] implementation (field_radix51.go + field_mul64.go, or
    field_generic.go) provides.  A method that assigns through its receiver is a
    function returning the new value of the receiver; a sequence of statements is
    a chain of [let]s in the same order, rebinding the assigned variable. *)
From Coq Require Import ZArith List.
From Verif Require Import Words ScalarModel.
Import ListNotations.
Open Scope Z_scope.

(** The backend interface: the variables and methods that field_radix51.go:8-301 with
    field_mul64.go:11-301, and alternatively field_generic.go:6-461, define.
    [o_bytes] is [BytesInto]; its second component is the receiver after the call,
    because the generic implementation normalises its receiver in place. *)
Record FeOps : Type := mkFeOps {
  fe : Type;
  k_zero : fe; k_one : fe; k_minusOne : fe; k_I : fe; k_minusI : fe; k_D : fe; k_2D : fe;
  k_invSqrtMinusDMinusOne : fe; k_doubleInvSqrtMinusDMinusOne : fe;
  k_doubleIInvSqrtMinusDMinusOne : fe; k_dMinusOneSquared : fe; k_oneMinusDSquared : fe;
  k_dp1OverDm1 : fe; k_sqrtID : fe; k_invSqrt1pD : fe;
  k_baseX : fe; k_baseY : fe; k_baseT : fe;
  o_neg : fe -> fe;
  o_sub : fe -> fe -> fe;
  o_add : fe -> fe -> fe;
  o_normalize : fe -> fe;
  o_mul : fe -> fe -> fe;
  o_square : fe -> fe;
  o_doubledSquare : fe -> fe;
  o_condSet : fe -> fe -> Z -> fe;
  o_bytes : fe -> list Z * fe;
  o_setBytes : list Z -> fe
}.

(** Sub-slice [s[i:j]]. *)
Definition slice (s : list Z) (i j : nat) : list Z := firstn (j - i) (skipn i s).

(** [for i = lo; i < hi; i++ { x = f(x) }] *)
Definition go_for {A : Type} (lo hi : nat) (f : A -> A) (x : A) : A := Nat.iter (hi - lo) f x.

(** [for i := 0; i < n; i++ { x = f(i, x) }] *)
Fixpoint for_up {A : Type} (n : nat) (f : nat -> A -> A) (x : A) : A :=
  match n with
  | O => x
  | S m => f m (for_up m f x)
  end.

(** [equal30]: /repo/edwards25519/field.go:338-342 *)
Definition equal30 (b c : Z) : Z :=
  let x := u32 (Z.lxor b c) in
  let x := u32 (x - 1) in
  i32 (Z.shiftr x 31).

(** [equal15]: /repo/edwards25519/field.go:345-351 *)
Definition equal15 (b c : Z) : Z :=
  let ub := u16 b in
  let uc := u16 c in
  let x := u32 (Z.lxor ub uc) in
  let x := u32 (x - 1) in
  i32 (Z.shiftr x 31).

(** [negative]: /repo/edwards25519/field.go:354-356 *)
Definition negative (b : Z) : Z := Z.land (Z.shiftr b 31) 1.

Section Field.
Context (K : FeOps).
Notation FE := (fe K).
Notation add := (o_add K).
Notation sub := (o_sub K).
Notation Neg := (o_neg K).
Notation Mul := (o_mul K).
Notation Square := (o_square K).
Notation ConditionalSet := (o_condSet K).
Notation BytesInto := (o_bytes K).

(** [double]: /repo/edwards25519/field.go:30-32 *)
Definition fe_double (a : FE) : FE := add a a.

(** [Add]: /repo/edwards25519/field.go:35-37 *)
Definition fe_Add (a b : FE) : FE := o_normalize K (add a b).

(** [Sub]: /repo/edwards25519/field.go:40-42 *)
Definition fe_Sub (a b : FE) : FE := o_normalize K (sub a b).

(** [Bytes]: /repo/edwards25519/field.go:51-55; with the receiver after the call *)
Definition fe_Bytes (x : FE) : list Z * FE := BytesInto x.

(** [Inverse]: /repo/edwards25519/field.go:58-109 *)
Definition fe_Inverse (a : FE) : FE :=
  let t0 := Square a in
  let t1 := Square t0 in
  let t1 := Square t1 in
  let t1 := Mul a t1 in
  let t0 := Mul t0 t1 in
  let t2 := Square t0 in
  let t1 := Mul t1 t2 in
  let t2 := Square t1 in
  let t2 := go_for 1 5 Square t2 in
  let t1 := Mul t2 t1 in
  let t2 := Square t1 in
  let t2 := go_for 1 10 Square t2 in
  let t2 := Mul t2 t1 in
  let t3 := Square t2 in
  let t3 := go_for 1 20 Square t3 in
  let t2 := Mul t3 t2 in
  let t2 := Square t2 in
  let t2 := go_for 1 10 Square t2 in
  let t1 := Mul t2 t1 in
  let t2 := Square t1 in
  let t2 := go_for 1 50 Square t2 in
  let t2 := Mul t2 t1 in
  let t3 := Square t2 in
  let t3 := go_for 1 100 Square t3 in
  let t2 := Mul t3 t2 in
  let t2 := Square t2 in
  let t2 := go_for 1 50 Square t2 in
  let t1 := Mul t2 t1 in
  let t1 := Square t1 in
  let t1 := go_for 1 5 Square t1 in
  Mul t1 t0.

(** [IsNegativeI]: /repo/edwards25519/field.go:121-125; returns the result and the
    receiver after the call *)
Definition fe_IsNegativeI (x : FE) : Z * FE :=
  let '(buf, x) := BytesInto x in
  (Z.land (at_ buf 0) 1, x).

(** [IsNonZeroI]: /repo/edwards25519/field.go:128-142; returns the result and the
    receiver after the call.  [binary.LittleEndian.Uint64] is [le_val] of eight bytes. *)
Definition fe_IsNonZeroI (x : FE) : Z * FE :=
  let '(buf, x) := BytesInto x in
  let ret := Z.lor (Z.lor (Z.lor (le_val (slice buf 0 8)) (le_val (slice buf 8 16)))
                          (le_val (slice buf 16 24))) (le_val (slice buf 24 32)) in
  let ret := Z.lor ret (Z.shiftr ret 32) in
  let ret := Z.lor ret (Z.shiftr ret 16) in
  let ret := Z.lor ret (Z.shiftr ret 8) in
  let ret := Z.lor ret (Z.shiftr ret 4) in
  let ret := Z.lor ret (Z.shiftr ret 2) in
  let ret := Z.lor ret (Z.shiftr ret 1) in
  (i32 (Z.land ret 1), x).

(** [Abs] with distinct receiver and argument: /repo/edwards25519/field.go:112-118;
    returns the receiver and the argument after the call *)
Definition fe_Abs (x : FE) : FE * FE :=
  let xNeg := Neg x in
  let r := x in
  let '(b, x) := fe_IsNegativeI x in
  let r := ConditionalSet r xNeg b in
  (r, x).

(** [x.Abs(&x)] (receiver and argument the same variable): /repo/edwards25519/field.go:112-118 *)
Definition fe_Abs_self (x : FE) : FE :=
  let xNeg := Neg x in
  let '(b, x) := fe_IsNegativeI x in
  ConditionalSet x xNeg b.

(** [IsOneI]: /repo/edwards25519/field.go:145-148 (only the local [b] is normalised) *)
Definition fe_IsOneI (x : FE) : Z :=
  let b := sub x (k_one K) in
  i32 (1 - fst (fe_IsNonZeroI b)).

(** [EqualsI]: /repo/edwards25519/field.go:151-154 *)
Definition fe_EqualsI (x a : FE) : Z :=
  let b := sub x a in
  i32 (1 - fst (fe_IsNonZeroI b)).

(** [Equals]: /repo/edwards25519/field.go:157-160 *)
Definition fe_Equals (x a : FE) : bool :=
  let b := sub x a in
  fst (fe_IsNonZeroI b) =? 0.

(** [BigInt]: /repo/edwards25519/field.go:167-175; the value and the receiver after the call *)
Definition fe_BigInt (x : FE) : Z * FE :=
  let '(buf, x) := BytesInto x in
  let rBuf := map (fun i => at_ buf (31 - i)) (seq 0 32) in
  (big_SetBytes rBuf, x).

(** [SetBigInt]: /repo/edwards25519/field.go:191-201; [big.Int.Mod] is Euclidean, as [Z.modulo] with a
    positive modulus; rBuf[i] stays 0 when the loop does not reach i *)
Definition fe_SetBigInt (x : Z) : FE :=
  let bi25519 := 0x7fffffffffffffffffffffffffffffffffffffffffffffffffffffffffffffed in
  let buf := big_Bytes (x mod bi25519) in
  let rBuf := map (fun i => if (i <? length buf)%nat then at_ buf (length buf - i - 1) else 0) (seq 0 32) in
  o_setBytes K rBuf.

(** [Exp22523]: /repo/edwards25519/field.go:207-266 *)
Definition fe_Exp22523 (a : FE) : FE :=
  let t0 := Square a in
  let t0 := go_for 1 1 Square t0 in
  let t1 := Square t0 in
  let t1 := go_for 1 2 Square t1 in
  let t1 := Mul a t1 in
  let t0 := Mul t0 t1 in
  let t0 := Square t0 in
  let t0 := go_for 1 1 Square t0 in
  let t0 := Mul t1 t0 in
  let t1 := Square t0 in
  let t1 := go_for 1 5 Square t1 in
  let t0 := Mul t1 t0 in
  let t1 := Square t0 in
  let t1 := go_for 1 10 Square t1 in
  let t1 := Mul t1 t0 in
  let t2 := Square t1 in
  let t2 := go_for 1 20 Square t2 in
  let t1 := Mul t2 t1 in
  let t1 := Square t1 in
  let t1 := go_for 1 10 Square t1 in
  let t0 := Mul t1 t0 in
  let t1 := Square t0 in
  let t1 := go_for 1 50 Square t1 in
  let t1 := Mul t1 t0 in
  let t2 := Square t1 in
  let t2 := go_for 1 100 Square t2 in
  let t1 := Mul t2 t1 in
  let t1 := Square t1 in
  let t1 := go_for 1 50 Square t1 in
  let t0 := Mul t1 t0 in
  let t0 := Square t0 in
  let t0 := go_for 1 2 Square t0 in
  Mul t0 a.

(** [InvSqrt]: /repo/edwards25519/field.go:269-286 *)
Definition fe_InvSqrt (a : FE) : FE :=
  let den2 := Square a in
  let den3 := Mul den2 a in
  let den4 := Square den2 in
  let den6 := Mul den2 den4 in
  let t := Mul den6 a in
  let t := fe_Exp22523 t in
  let t := Mul t den3 in
  let t2 := Mul t (k_I K) in
  let chk := Square t in
  let chk := Mul chk a in
  let r := t in
  ConditionalSet r t2 (i32 (1 - fe_IsOneI chk)).

(** [Sqrt]: /repo/edwards25519/field.go:289-299 *)
Definition fe_Sqrt (a : FE) : FE :=
  let aCopy := a in
  let r := fe_InvSqrt a in
  let r := Mul r aCopy in
  let feNeg := Neg r in
  let '(b, r) := fe_IsNegativeI r in
  ConditionalSet r feNeg b.

(** [InvSqrtI]: /repo/edwards25519/field.go:303-335; returns the result and the new receiver *)
Definition fe_InvSqrtI (a : FE) : Z * FE :=
  let den2 := Square a in
  let den3 := Mul den2 a in
  let den4 := Square den2 in
  let den6 := Mul den2 den4 in
  let t := Mul den6 a in
  let t := fe_Exp22523 t in
  let t := Mul t den3 in
  let chk := Square t in
  let chk := Mul chk a in
  let inCaseA := fe_IsOneI chk in
  let inCaseD := fe_EqualsI chk (k_I K) in
  let chk := Neg chk in
  let inCaseB := fe_IsOneI chk in
  let corr := k_one K in
  let corr := ConditionalSet corr (k_I K) (i32 (inCaseB + inCaseD)) in
  let t := Mul t corr in
  (i32 (inCaseA + inCaseB), t).

End Field.
