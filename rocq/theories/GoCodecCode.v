(** Generated by tools/go2codec.py from /repo/edwards25519/curve.go, elligator.go and /repo/ristretto.go;
    do not edit.

    Decoding, encoding, comparison and Elligator as programs of GoLang.v, in the style of
    GoCurveCode.v.  SetBytes and BytesInto of a field element are single operations; BytesInto
    stores its receiver and then the 32 bytes (only the generic backend changes the receiver).
    A result of type bool is 1 or 0.  Integer locals declared without a value are set to 0; the
    other locals hold anything at first.  A Point is its ExtendedPoint (ristretto.go:31, 403). *)
From Coq Require Import ZArith List String.
From Verif Require Import Words FieldModel CurveModel GoLang GoCurveCode.
Import ListNotations.
Open Scope string_scope.
Open Scope Z_scope.

Section Codec.
Context (K : FeOps).
Local Notation V := (fe K * Z)%type.
Local Notation lo := (GoCurveCode.lo K).
Local Notation fo0 := (GoCurveCode.fo0 K).
Local Notation fo1 := (GoCurveCode.fo1 K).
Local Notation fo2 := (GoCurveCode.fo2 K).
Local Notation foc := (GoCurveCode.foc K).
Local Notation foc0 := (GoCurveCode.foc0 K).
Local Notation ido := (GoCurveCode.ido K).
Local Notation io1 := (GoCurveCode.io1 K).
Local Notation io2 := (GoCurveCode.io2 K).
Local Notation iot := (GoCurveCode.iot K).
Local Notation g_ep_SetCompleted := (GoCurveCode.g_ep_SetCompleted K).
Local Notation g_fe_Abs := (GoCurveCode.g_fe_Abs K).
Local Notation g_fe_InvSqrt := (GoCurveCode.g_fe_InvSqrt K).
Local Notation g_fe_InvSqrtI := (GoCurveCode.g_fe_InvSqrtI K).
Local Notation g_jc_Dual := (GoCurveCode.g_jc_Dual K).

(** [FieldElement.SetBytes] and [BytesInto] of the backend *)
Definition sbo (d a : place V) : stmt V := Do "SetBytes" (fun _ vs => (o_setBytes K (map snd vs), 0)) d (map (off a) (seq 0 32)).
Definition bio (a d : place V) : stmt V :=
  DoN "BytesInto" (fun _ vs => match vs with
    | [x] => let (b, y) := o_bytes K (fst x) in fun i => match i with O => (y, 0) | S i => (k_zero K, nth i b 0) end
    | _ => fun _ => (k_zero K, 0) end) (a :: map (off d) (seq 0 32)) [a].

(** crypto/subtle.ConstantTimeCompare (Go standard library) on two [[32]byte]:
    [v |= x[i] ^ y[i]] over all i and [ConstantTimeByteEq(v, 0)]; locals from [nl] on: v *)
Definition g_ConstantTimeCompare (x y ret : place V) (nl nc : nat) : stmt V := prog [
  ido (fun _ _ => 0) (lo 0 nl) [];
  For (0 + nc) 32 (prog [
    ido (fun _ vs => match vs with [v; a; b] => Z.lor v (Z.lxor a b) | _ => 0 end) (lo 0 nl) [lo 0 nl; elt x 1 (Ctr (0 + nc)); elt y 1 (Ctr (0 + nc))]]);
  ido (fun _ vs => match vs with [v] => ct_byte_eq v 0 | _ => 0 end) ret [lo 0 nl]].

(** [ExtendedPoint.SetRistretto]: /repo/edwards25519/curve.go:224-268; locals from [nl] on: s, s2, chk, yDen, yNum, yDen2, xDen2, isr, xDenInv, yDenInv, t, b, ret, buf2, tmp14, tmp15, tmp16, tmp17, tmp18 *)
Definition g_ep_SetRistretto (p : place V) (buf : place V) (ret : place V) (nl nc : nat) : stmt V := prog [
  ido (fun _ _ => 0) (lo 11 nl) [];
  ido (fun _ _ => 0) (lo 12 nl) [];
  sbo (lo 0 nl) buf;
  bio (lo 0 nl) (lo 13 nl);
  g_ConstantTimeCompare buf (lo 13 nl) (lo 14 nl) (19 + nl)%nat (0 + nc)%nat;
  ido (fun _ vs => match vs with [r0] => i32 ( (1 - r0)) | _ => 0 end) (lo 12 nl) [(lo 14 nl)];
  ido (fun _ vs => match vs with [ret; x1] => Z.lor ret (Z.land x1 1) | _ => 0 end) (lo 12 nl) [(lo 12 nl); (elt (lo 13 nl) 1 (C 0))];
  fo1 "Square" (o_square K) (lo 1 nl) (lo 0 nl);
  fo1 "add" (fun x => o_add K (k_one K) x) (lo 3 nl) (lo 1 nl);
  fo1 "sub" (fun x => o_sub K (k_one K) x) (lo 4 nl) (lo 1 nl);
  fo1 "Square" (o_square K) (lo 5 nl) (lo 3 nl);
  fo1 "Square" (o_square K) (lo 6 nl) (lo 4 nl);
  fo1 "Mul" (fun x => o_mul K x (k_D K)) (lo 6 nl) (lo 6 nl);
  fo2 "add" (o_add K) (lo 6 nl) (lo 6 nl) (lo 5 nl);
  fo1 "Neg" (o_neg K) (lo 6 nl) (lo 6 nl);
  fo2 "Mul" (o_mul K) (lo 10 nl) (lo 6 nl) (lo 5 nl);
  g_fe_InvSqrt (lo 7 nl) (lo 10 nl) (19 + nl)%nat (0 + nc)%nat;
  fo1 "Square" (o_square K) (lo 2 nl) (lo 7 nl);
  fo2 "Mul" (o_mul K) (lo 2 nl) (lo 2 nl) (lo 10 nl);
  io1 "IsOneI" (fe_IsOneI K) (lo 15 nl) (lo 2 nl);
  ido (fun _ vs => match vs with [ret; r1] => Z.lor ret (i32 (1 - r1)) | _ => 0 end) (lo 12 nl) [(lo 12 nl); (lo 15 nl)];
  fo2 "Mul" (o_mul K) (lo 8 nl) (lo 7 nl) (lo 3 nl);
  fo2 "Mul" (o_mul K) (lo 9 nl) (lo 8 nl) (lo 7 nl);
  fo2 "Mul" (o_mul K) (lo 9 nl) (lo 9 nl) (lo 6 nl);
  fo2 "Mul" (o_mul K) (off p 0) (lo 0 nl) (lo 8 nl);
  fo2 "add" (o_add K) (off p 0) (off p 0) (off p 0);
  iot "IsNegativeI" (fe_IsNegativeI K) (lo 16 nl) (off p 0);
  ido (fun _ vs => match vs with [r0] => r0 | _ => 0 end) (lo 11 nl) [(lo 16 nl)];
  fo1 "Neg" (o_neg K) (lo 10 nl) (off p 0);
  foc (off p 0) (lo 10 nl) (lo 11 nl);
  fo2 "Mul" (o_mul K) (off p 1) (lo 4 nl) (lo 9 nl);
  fo0 "Set" (k_one K) (off p 2);
  fo2 "Mul" (o_mul K) (off p 3) (off p 0) (off p 1);
  iot "IsNegativeI" (fe_IsNegativeI K) (lo 17 nl) (off p 3);
  ido (fun _ vs => match vs with [ret; r1] => Z.lor ret r1 | _ => 0 end) (lo 12 nl) [(lo 12 nl); (lo 17 nl)];
  iot "IsNonZeroI" (fe_IsNonZeroI K) (lo 18 nl) (off p 1);
  ido (fun _ vs => match vs with [ret; r1] => Z.lor ret (i32 (1 - r1)) | _ => 0 end) (lo 12 nl) [(lo 12 nl); (lo 18 nl)];
  foc0 (k_zero K) (off p 0) (lo 12 nl);
  foc0 (k_zero K) (off p 1) (lo 12 nl);
  foc0 (k_zero K) (off p 2) (lo 12 nl);
  foc0 (k_zero K) (off p 3) (lo 12 nl);
  ido (fun _ vs => match vs with [ret] => if ret =? 0 then 1 else 0 | _ => 0 end) ret [(lo 12 nl)]].

(** [ExtendedPoint.RistrettoInto]: /repo/edwards25519/curve.go:280-325; locals from [nl] on: d, u1, u2, isr, i1, i2, zInv, denInv, nx, ny, s, b, tmp12, tmp13, tmp14 *)
Definition g_ep_RistrettoInto (p : place V) (buf : place V) (nl nc : nat) : stmt V := prog [
  ido (fun _ _ => 0) (lo 11 nl) [];
  fo2 "add" (o_add K) (lo 0 nl) (off p 2) (off p 1);
  fo2 "sub" (o_sub K) (lo 1 nl) (off p 2) (off p 1);
  fo2 "Mul" (o_mul K) (lo 1 nl) (lo 1 nl) (lo 0 nl);
  fo2 "Mul" (o_mul K) (lo 2 nl) (off p 0) (off p 1);
  fo1 "Square" (o_square K) (lo 3 nl) (lo 2 nl);
  fo2 "Mul" (o_mul K) (lo 3 nl) (lo 3 nl) (lo 1 nl);
  g_fe_InvSqrt (lo 3 nl) (lo 3 nl) (15 + nl)%nat (0 + nc)%nat;
  fo2 "Mul" (o_mul K) (lo 4 nl) (lo 3 nl) (lo 1 nl);
  fo2 "Mul" (o_mul K) (lo 5 nl) (lo 3 nl) (lo 2 nl);
  fo2 "Mul" (o_mul K) (lo 6 nl) (lo 4 nl) (lo 5 nl);
  fo2 "Mul" (o_mul K) (lo 6 nl) (lo 6 nl) (off p 3);
  fo2 "Mul" (o_mul K) (lo 0 nl) (lo 6 nl) (off p 3);
  fo1 "Mul" (fun x => o_mul K x (k_I K)) (lo 8 nl) (off p 1);
  fo1 "Mul" (fun x => o_mul K x (k_I K)) (lo 9 nl) (off p 0);
  fo1 "Mul" (fun x => o_mul K (k_invSqrtMinusDMinusOne K) x) (lo 7 nl) (lo 4 nl);
  iot "IsNegativeI" (fe_IsNegativeI K) (lo 12 nl) (lo 0 nl);
  ido (fun _ vs => match vs with [r0] => i32 (1 - r0) | _ => 0 end) (lo 11 nl) [(lo 12 nl)];
  foc (lo 8 nl) (off p 0) (lo 11 nl);
  foc (lo 9 nl) (off p 1) (lo 11 nl);
  foc (lo 7 nl) (lo 5 nl) (lo 11 nl);
  fo2 "Mul" (o_mul K) (lo 0 nl) (lo 8 nl) (lo 6 nl);
  iot "IsNegativeI" (fe_IsNegativeI K) (lo 13 nl) (lo 0 nl);
  ido (fun _ vs => match vs with [r0] => r0 | _ => 0 end) (lo 11 nl) [(lo 13 nl)];
  fo1 "Neg" (o_neg K) (lo 0 nl) (lo 9 nl);
  foc (lo 9 nl) (lo 0 nl) (lo 11 nl);
  fo2 "sub" (o_sub K) (lo 10 nl) (off p 2) (lo 9 nl);
  fo2 "Mul" (o_mul K) (lo 10 nl) (lo 10 nl) (lo 7 nl);
  iot "IsNegativeI" (fe_IsNegativeI K) (lo 14 nl) (lo 10 nl);
  ido (fun _ vs => match vs with [r0] => r0 | _ => 0 end) (lo 11 nl) [(lo 14 nl)];
  fo1 "Neg" (o_neg K) (lo 0 nl) (lo 10 nl);
  foc (lo 10 nl) (lo 0 nl) (lo 11 nl);
  bio (lo 10 nl) buf].

(** [ExtendedPoint.RistrettoEqualsI]: /repo/edwards25519/curve.go:419-426; locals from [nl] on: x1y2, x2y1, x1x2, y1y2, tmp4, tmp5 *)
Definition g_ep_RistrettoEqualsI (p : place V) (q : place V) (ret : place V) (nl nc : nat) : stmt V := prog [
  fo2 "Mul" (o_mul K) (lo 0 nl) (off p 0) (off q 1);
  fo2 "Mul" (o_mul K) (lo 1 nl) (off q 0) (off p 1);
  fo2 "Mul" (o_mul K) (lo 2 nl) (off p 0) (off q 0);
  fo2 "Mul" (o_mul K) (lo 3 nl) (off p 1) (off q 1);
  io2 "EqualsI" (fe_EqualsI K) (lo 4 nl) (lo 0 nl) (lo 1 nl);
  io2 "EqualsI" (fe_EqualsI K) (lo 5 nl) (lo 2 nl) (lo 3 nl);
  ido (fun _ vs => match vs with [r0; r1] => i32 (1 - (Z.land (i32 (1 - r0)) (i32 (1 - r1)))) | _ => 0 end) ret [(lo 4 nl); (lo 5 nl)]].

(** [ExtendedPoint.ToJacobiQuarticRistretto]: /repo/edwards25519/elligator.go:57-135; locals from [nl] on: X2, Y2, Z2, Y4, ZmY, ZpY, Z2mY2, gamma, den, sOverX, spOverXp, tmp, iZ, iZmX, iZpX, sOverY, spOverYp, XorYisZero, tmp18, tmp19 *)
Definition g_ep_ToJacobiQuarticRistretto (p : place V) (qs : place V) (nl nc : nat) : stmt V := prog [
  fo1 "Square" (o_square K) (lo 0 nl) (off p 0);
  fo1 "Square" (o_square K) (lo 1 nl) (off p 1);
  fo1 "Square" (o_square K) (lo 3 nl) (lo 1 nl);
  fo1 "Square" (o_square K) (lo 2 nl) (off p 2);
  fo2 "sub" (o_sub K) (lo 4 nl) (off p 2) (off p 1);
  fo2 "add" (o_add K) (lo 5 nl) (off p 2) (off p 1);
  fo2 "sub" (o_sub K) (lo 6 nl) (lo 2 nl) (lo 1 nl);
  fo2 "Mul" (o_mul K) (lo 7 nl) (lo 3 nl) (lo 0 nl);
  fo2 "Mul" (o_mul K) (lo 7 nl) (lo 7 nl) (lo 6 nl);
  g_fe_InvSqrt (lo 7 nl) (lo 7 nl) (20 + nl)%nat (0 + nc)%nat;
  fo2 "Mul" (o_mul K) (lo 8 nl) (lo 7 nl) (lo 1 nl);
  fo2 "Mul" (o_mul K) (lo 9 nl) (lo 8 nl) (lo 4 nl);
  fo2 "Mul" (o_mul K) (lo 10 nl) (lo 8 nl) (lo 5 nl);
  fo2 "Mul" (o_mul K) (off (elt qs 2 (C 0)) 0) (lo 9 nl) (off p 0);
  fo2 "Mul" (o_mul K) (lo 11 nl) (lo 10 nl) (off p 0);
  fo1 "Neg" (o_neg K) (off (elt qs 2 (C 1)) 0) (lo 11 nl);
  fo1 "Mul" (fun x => o_mul K (k_doubleInvSqrtMinusDMinusOne K) x) (lo 11 nl) (off p 2);
  fo2 "Mul" (o_mul K) (off (elt qs 2 (C 0)) 1) (lo 11 nl) (lo 9 nl);
  fo2 "Mul" (o_mul K) (off (elt qs 2 (C 1)) 1) (lo 11 nl) (lo 10 nl);
  fo1 "Neg" (o_neg K) (lo 8 nl) (lo 6 nl);
  fo1 "Mul" (fun x => o_mul K x (k_invSqrt1pD K)) (lo 8 nl) (lo 8 nl);
  fo2 "Mul" (o_mul K) (lo 8 nl) (lo 8 nl) (lo 7 nl);
  fo1 "Mul" (fun x => o_mul K (k_I K) x) (lo 12 nl) (off p 2);
  fo2 "sub" (o_sub K) (lo 13 nl) (lo 12 nl) (off p 0);
  fo2 "add" (o_add K) (lo 14 nl) (lo 12 nl) (off p 0);
  fo2 "Mul" (o_mul K) (lo 15 nl) (lo 8 nl) (lo 13 nl);
  fo2 "Mul" (o_mul K) (lo 16 nl) (lo 8 nl) (lo 14 nl);
  fo2 "Mul" (o_mul K) (off (elt qs 2 (C 2)) 0) (lo 15 nl) (off p 1);
  fo2 "Mul" (o_mul K) (lo 11 nl) (lo 16 nl) (off p 1);
  fo1 "Neg" (o_neg K) (off (elt qs 2 (C 3)) 0) (lo 11 nl);
  fo1 "Mul" (fun x => o_mul K (k_doubleInvSqrtMinusDMinusOne K) x) (lo 11 nl) (lo 12 nl);
  fo2 "Mul" (o_mul K) (off (elt qs 2 (C 2)) 1) (lo 11 nl) (lo 15 nl);
  fo2 "Mul" (o_mul K) (off (elt qs 2 (C 3)) 1) (lo 11 nl) (lo 16 nl);
  iot "IsNonZeroI" (fe_IsNonZeroI K) (lo 18 nl) (off p 0);
  iot "IsNonZeroI" (fe_IsNonZeroI K) (lo 19 nl) (off p 1);
  ido (fun _ vs => match vs with [r0; r1] => i32 (1 - (Z.land r0 r1)) | _ => 0 end) (lo 17 nl) [(lo 18 nl); (lo 19 nl)];
  foc0 (k_one K) (off (elt qs 2 (C 0)) 1) (lo 17 nl);
  foc0 (k_one K) (off (elt qs 2 (C 1)) 1) (lo 17 nl);
  foc0 (k_doubleIInvSqrtMinusDMinusOne K) (off (elt qs 2 (C 2)) 1) (lo 17 nl);
  foc0 (k_doubleIInvSqrtMinusDMinusOne K) (off (elt qs 2 (C 3)) 1) (lo 17 nl);
  foc0 (k_one K) (off (elt qs 2 (C 2)) 0) (lo 17 nl);
  foc0 (k_minusOne K) (off (elt qs 2 (C 3)) 0) (lo 17 nl)].

(** [JacobiPoint.elligator2Inverse]: /repo/edwards25519/elligator.go:151-192; locals from [nl] on: x, y, a, a2, S2, S4, invSqiY, negS2, out, sNonZero, tmp10, tEqualsOne, tmp12, ret, done, sq, tmp16, tmp17, tmp18, tmp19 *)
Definition g_jc_elligator2Inverse (p : place V) (fe : place V) (ret : place V) (nl nc : nat) : stmt V := prog [
  iot "IsNonZeroI" (fe_IsNonZeroI K) (lo 10 nl) (off p 0);
  ido (fun _ vs => match vs with [r0] => r0 | _ => 0 end) (lo 9 nl) [(lo 10 nl)];
  io1 "EqualsI" (fun x => fe_EqualsI K x (k_one K)) (lo 12 nl) (off p 1);
  ido (fun _ vs => match vs with [r0] => r0 | _ => 0 end) (lo 11 nl) [(lo 12 nl)];
  fo0 "Set" (k_zero K) (lo 8 nl);
  foc0 (k_sqrtID K) (lo 8 nl) (lo 11 nl);
  ido (fun _ vs => match vs with [sNonZero] => i32 (1 - sNonZero) | _ => 0 end) (lo 13 nl) [(lo 9 nl)];
  ido (fun _ vs => match vs with [sNonZero] => i32 (1 - sNonZero) | _ => 0 end) (lo 14 nl) [(lo 9 nl)];
  fo1 "add" (fun x => o_add K x (k_one K)) (lo 2 nl) (off p 1);
  fo1 "Mul" (fun x => o_mul K x (k_dp1OverDm1 K)) (lo 2 nl) (lo 2 nl);
  fo1 "Square" (o_square K) (lo 3 nl) (lo 2 nl);
  fo1 "Square" (o_square K) (lo 4 nl) (off p 0);
  fo1 "Square" (o_square K) (lo 5 nl) (lo 4 nl);
  fo2 "sub" (o_sub K) (lo 6 nl) (lo 5 nl) (lo 3 nl);
  g_fe_InvSqrtI (lo 1 nl) (lo 6 nl) (lo 16 nl) (20 + nl)%nat (0 + nc)%nat;
  ido (fun _ vs => match vs with [r0] => r0 | _ => 0 end) (lo 15 nl) [(lo 16 nl)];
  ido (fun _ vs => match vs with [ret; sq] => Z.lor ret (i32 (1 - sq)) | _ => 0 end) (lo 13 nl) [(lo 13 nl); (lo 15 nl)];
  ido (fun _ vs => match vs with [done; sq] => Z.lor done sq | _ => 0 end) (lo 14 nl) [(lo 14 nl); (lo 15 nl)];
  fo1 "Neg" (o_neg K) (lo 7 nl) (lo 4 nl);
  iot "IsNegativeI" (fe_IsNegativeI K) (lo 18 nl) (off p 0);
  ido (fun _ vs => match vs with [r0] => r0 | _ => 0 end) (lo 17 nl) [(lo 18 nl)];
  foc (lo 4 nl) (lo 7 nl) (lo 17 nl);
  fo2 "add" (o_add K) (lo 0 nl) (lo 2 nl) (lo 4 nl);
  fo2 "Mul" (o_mul K) (lo 0 nl) (lo 0 nl) (lo 1 nl);
  g_fe_Abs (lo 0 nl) (lo 0 nl) (20 + nl)%nat (0 + nc)%nat;
  ido (fun _ vs => match vs with [done] => i32 (1 - done) | _ => 0 end) (lo 19 nl) [(lo 14 nl)];
  foc (lo 8 nl) (lo 0 nl) (lo 19 nl);
  fo1 "Set" (fun x => x) fe (lo 8 nl);
  ido (fun _ vs => match vs with [ret] => ret | _ => 0 end) ret [(lo 13 nl)]].

(** [ExtendedPoint.RistrettoElligator2Inverse]: /repo/edwards25519/elligator.go:17-50; locals from [nl] on: setMask, jcs, jc, tmp3, tmp4 *)
Definition g_ep_RistrettoElligator2Inverse (p : place V) (fes : place V) (ret : place V) (nl nc : nat) : stmt V := prog [
  ido (fun _ _ => 0) (lo 0 nl) [];
  g_ep_ToJacobiQuarticRistretto p (lo 1 nl) (5 + nl)%nat (1 + nc)%nat;
  For (0 + nc) 4 (prog [
    g_jc_elligator2Inverse (elt (lo 1 nl) 2 (Ctr (0 + nc))) (elt fes 1 (Times 2 (Ctr (0 + nc)))) (lo 3 nl) (5 + nl)%nat (1 + nc)%nat;
    ido (fun rho vs => match vs with [setMask; r1] => Z.lor setMask (u8 (Z.shiftl r1 (Z.of_nat (2 * rho (0 + nc)%nat)%nat))) | _ => 0 end) (lo 0 nl) [(lo 0 nl); (lo 3 nl)];
    g_jc_Dual (lo 2 nl) (elt (lo 1 nl) 2 (Ctr (0 + nc))) (5 + nl)%nat (1 + nc)%nat;
    g_jc_elligator2Inverse (lo 2 nl) (elt fes 1 (Plus (Times 2 (Ctr (0 + nc))) (C 1))) (lo 4 nl) (5 + nl)%nat (1 + nc)%nat;
    ido (fun rho vs => match vs with [setMask; r1] => Z.lor setMask (u8 (Z.shiftl r1 (Z.of_nat ((2 * rho (0 + nc)%nat) + 1)%nat))) | _ => 0 end) (lo 0 nl) [(lo 0 nl); (lo 4 nl)]]);
  ido (fun _ vs => match vs with [setMask] => setMask | _ => 0 end) ret [(lo 0 nl)]].

(** [CompletedPoint.SetJacobiQuartic]: /repo/edwards25519/elligator.go:196-212; locals from [nl] on: s2 *)
Definition g_cp_SetJacobiQuartic (p : place V) (jc : place V) (nl nc : nat) : stmt V := prog [
  fo1 "Square" (o_square K) (lo 0 nl) (off jc 0);
  fo1 "Mul" (fun x => o_mul K x (k_doubleInvSqrtMinusDMinusOne K)) (off p 0) (off jc 0);
  fo1 "Set" (fun x => x) (off p 2) (off jc 1);
  fo1 "sub" (fun x => o_sub K (k_one K) x) (off p 1) (lo 0 nl);
  fo1 "add" (fun x => o_add K (k_one K) x) (off p 3) (lo 0 nl)].

(** [CompletedPoint.SetRistrettoElligator2]: /repo/edwards25519/elligator.go:216-266; locals from [nl] on: r, rPlusD, rPlusOne, D, N, ND, sqrt, twiddle, sgn, rSubOne, r0i, sNeg, jc, b, tmp14, tmp15, tmp16, tmp17, tmp18 *)
Definition g_cp_SetRistrettoElligator2 (p : place V) (r0 : place V) (nl nc : nat) : stmt V := prog [
  ido (fun _ _ => 0) (lo 13 nl) [];
  fo1 "Mul" (fun x => o_mul K x (k_I K)) (lo 10 nl) r0;
  fo2 "Mul" (o_mul K) (lo 0 nl) r0 (lo 10 nl);
  fo1 "add" (fun x => o_add K (k_D K) x) (lo 1 nl) (lo 0 nl);
  fo1 "Mul" (fun x => o_mul K (k_D K) x) (lo 3 nl) (lo 0 nl);
  fo1 "add" (fun x => o_add K x (k_one K)) (lo 3 nl) (lo 3 nl);
  fo2 "Mul" (o_mul K) (lo 3 nl) (lo 3 nl) (lo 1 nl);
  fo1 "Neg" (o_neg K) (lo 3 nl) (lo 3 nl);
  fo1 "add" (fun x => o_add K x (k_one K)) (lo 2 nl) (lo 0 nl);
  fo1 "Mul" (fun x => o_mul K (k_oneMinusDSquared K) x) (lo 4 nl) (lo 2 nl);
  fo2 "Mul" (o_mul K) (lo 5 nl) (lo 4 nl) (lo 3 nl);
  g_fe_InvSqrtI (lo 6 nl) (lo 5 nl) (lo 14 nl) (19 + nl)%nat (0 + nc)%nat;
  ido (fun _ vs => match vs with [r0] => r0 | _ => 0 end) (lo 13 nl) [(lo 14 nl)];
  g_fe_Abs (lo 6 nl) (lo 6 nl) (19 + nl)%nat (0 + nc)%nat;
  fo0 "Set" (k_one K) (lo 7 nl);
  ido (fun _ vs => match vs with [b] => i32 (1 - b) | _ => 0 end) (lo 15 nl) [(lo 13 nl)];
  foc (lo 7 nl) (lo 10 nl) (lo 15 nl);
  fo0 "Set" (k_one K) (lo 8 nl);
  ido (fun _ vs => match vs with [b] => i32 (1 - b) | _ => 0 end) (lo 16 nl) [(lo 13 nl)];
  foc0 (k_minusOne K) (lo 8 nl) (lo 16 nl);
  fo2 "Mul" (o_mul K) (lo 6 nl) (lo 6 nl) (lo 7 nl);
  fo2 "Mul" (o_mul K) (off (lo 12 nl) 0) (lo 6 nl) (lo 4 nl);
  fo1 "Neg" (o_neg K) (off (lo 12 nl) 1) (lo 8 nl);
  fo2 "Mul" (o_mul K) (off (lo 12 nl) 1) (lo 6 nl) (off (lo 12 nl) 1);
  fo2 "Mul" (o_mul K) (off (lo 12 nl) 1) (off (lo 12 nl) 0) (off (lo 12 nl) 1);
  fo1 "Mul" (fun x => o_mul K (k_dMinusOneSquared K) x) (off (lo 12 nl) 1) (off (lo 12 nl) 1);
  fo1 "sub" (fun x => o_sub K x (k_one K)) (lo 9 nl) (lo 0 nl);
  fo2 "Mul" (o_mul K) (off (lo 12 nl) 1) (lo 9 nl) (off (lo 12 nl) 1);
  fo1 "sub" (fun x => o_sub K x (k_one K)) (off (lo 12 nl) 1) (off (lo 12 nl) 1);
  fo1 "Neg" (o_neg K) (lo 11 nl) (off (lo 12 nl) 0);
  iot "IsNegativeI" (fe_IsNegativeI K) (lo 18 nl) (off (lo 12 nl) 0);
  ido (fun _ vs => match vs with [r0; b] => equal30 r0 b | _ => 0 end) (lo 17 nl) [(lo 18 nl); (lo 13 nl)];
  foc (off (lo 12 nl) 0) (lo 11 nl) (lo 17 nl);
  g_cp_SetJacobiQuartic p (lo 12 nl) (19 + nl)%nat (0 + nc)%nat].

(** [Point.SetElligator]: /repo/ristretto.go:120-127; locals from [nl] on: fe, cp *)
Definition g_pt_SetElligator (p : place V) (buf : place V) (nl nc : nat) : stmt V := prog [
  sbo (lo 0 nl) buf;
  g_cp_SetRistrettoElligator2 (lo 1 nl) (lo 0 nl) (2 + nl)%nat (0 + nc)%nat;
  g_ep_SetCompleted p (lo 1 nl) (2 + nl)%nat (0 + nc)%nat].

End Codec.
