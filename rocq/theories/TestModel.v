(** The tests of the repository, as functions of the numbers and bytes that they draw at random.  Each function is one
    iteration of the loop of the test; [true] means that the iteration does not call t.Fatalf.  In tests that can panic
    or that call the C code, [None] is a panic or undefined behaviour. *)
From Coq Require Import ZArith List Bool.
From Verif Require Import Words ScalarCode ScalarModel FieldModel CurveModel TextCodec RistrettoModel Sha256 CrefFeCode CrefFe CrefScalar CrefCode CrefMul.
Import ListNotations.
Open Scope Z_scope.

Notation "'run' x := a 'in' b" := (match a with Some x => b | None => None end) (at level 200, x name, right associativity).

(** bytes.Equal *)
Definition bytes_Equal (a b : list Z) : bool := if list_eq_dec Z.eq_dec a b then true else false.

(** Big.Int.Bytes, written in reverse into an array of n bytes that contains [old]: the loops of
    /repo/scalar_test.go:183-185 and 196-199, /repo/edwards25519/curve_test.go:127-129 *)
Definition write_le (old : list Z) (bi : Z) : list Z :=
  let b := rev (big_Bytes bi) in firstn (length old) b ++ skipn (length b) old.

(** ** scalar_test.go.  [bi1], [bi2], ... are the numbers drawn by big.Int.Rand *)

(** /repo/scalar_test.go:17-30 *)
Definition t_ScPacking (bi : Z) : bool :=
  let s := sc_setBigInt bi in
  let buf := sc_bytes s in
  let s2 := sc_setBytes buf in
  sc_bigInt s =? sc_bigInt s2.
(** /repo/scalar_test.go:32-42 *)
Definition t_ScBigIntPacking (bi : Z) : bool := sc_bigInt (sc_setBigInt bi) =? bi.
(** /repo/scalar_test.go:44-58 *)
Definition t_ScSub (bi1 bi2 : Z) : bool :=
  let bi3 := (bi1 - bi2) mod biL in sc_bigInt (sc_sub (sc_setBigInt bi1) (sc_setBigInt bi2)) =? bi3.
(** /repo/scalar_test.go:60-74 *)
Definition t_ScAdd (bi1 bi2 : Z) : bool :=
  let bi3 := (bi1 + bi2) mod biL in sc_bigInt (sc_add (sc_setBigInt bi1) (sc_setBigInt bi2)) =? bi3.
(** /repo/scalar_test.go:76-90 *)
Definition t_ScMul (bi1 bi2 : Z) : bool :=
  let bi3 := (bi1 * bi2) mod biL in sc_bigInt (sc_mul (sc_setBigInt bi1) (sc_setBigInt bi2)) =? bi3.
(** /repo/scalar_test.go:92-105 *)
Definition t_ScSquare (bi1 : Z) : bool :=
  let bi2 := (bi1 * bi1) mod biL in sc_bigInt (sc_square (sc_setBigInt bi1)) =? bi2.
(** /repo/scalar_test.go:107-125 *)
Definition t_ScMulSub (bi1 bi2 bi3 : Z) : bool :=
  let bi4 := (bi1 * bi2 - bi3) mod biL in
  sc_bigInt (sc_mulSub (sc_setBigInt bi1) (sc_setBigInt bi2) (sc_setBigInt bi3)) =? bi4.
(** /repo/scalar_test.go:127-145 *)
Definition t_ScMulAdd (bi1 bi2 bi3 : Z) : bool :=
  let bi4 := (bi1 * bi2 + bi3) mod biL in
  sc_bigInt (sc_mulAdd (sc_setBigInt bi1) (sc_setBigInt bi2) (sc_setBigInt bi3)) =? bi4.
(** /repo/scalar_test.go:147-158; [bi2] is the variable after ModInverse *)
Definition t_ScInverse (bi1 bi2 : Z) : bool := sc_bigInt (sc_inverse (sc_setBigInt bi1)) =? bi2.
(** /repo/scalar_test.go:160-172 *)
Definition t_ScNeg (bi1 : Z) : bool := let bi2 := (- bi1) mod biL in sc_bigInt (sc_neg (sc_setBigInt bi1)) =? bi2.
(** /repo/scalar_test.go:174-192 *)
Definition t_ScReduced (bi1 : Z) : bool :=
  let bi2 := bi1 mod biL in
  let rBuf := write_le (repeat 0 64) bi1 in
  sc_bigInt (sc_setReduced rBuf) =? bi2.
(** /repo/scalar_test.go:208-219; [s] is the scalar of the iteration before *)
Definition t_ScSetBytesStrict_canonical (s : sc) (bi : Z) : bool :=
  let buf := write_le (repeat 0 32) bi in
  let (s, ok) := sc_setBytesStrict s buf in
  ok && sc_equals s (sc_setBigInt bi).
(** /repo/scalar_test.go:221-228 for the two differences, and 230-246; [before] is the random scalar *)
Definition t_ScSetBytesStrict_large (before : sc) (bi : Z) : bool :=
  let bi := bi + biL in
  let buf := write_le (repeat 0 32) bi in
  let (s, ok) := sc_setBytesStrict before buf in
  negb ok && sc_equals s before.
(** /repo/scalar_test.go:249-262; [rand] are the bytes drawn by Rand, [s2] the scalar of the iteration before *)
Definition t_ScTextMarshaling (rand : list Z) (s2 : sc) : option bool :=
  let s := sc_rand rand in
  match sc_UnmarshalText s2 (sc_MarshalText s) with
  | Done s2 => Some (sc_bigInt s =? sc_bigInt s2)
  | Fail _ => Some false
  | Panic => None
  end.
(** /repo/scalar_test.go:292-302, for any number *)
Definition t_ScSetUint64 (v : Z) : bool := sc_equals (sc_setUint64 v) (sc_setBigInt v).
(** /repo/scalar_test.go:303-317 *)
Definition t_ScConditionalSet (rand1 rand2 : list Z) : bool :=
  let s1 := sc_rand rand1 in
  let s2 := sc_rand rand2 in
  let s1 := sc_condSet s1 s2 0 in
  if sc_equals s1 s2 then false
  else let s1 := sc_condSet s1 s2 1 in sc_equals s1 s2.

Section Tests.
Context (K : FeOps).
Notation FE := (fe K).
Notation EXT := (ext FE).

(** ** field_test.go *)

(** /repo/edwards25519/field_test.go:17-27 *)
Definition t_FeBigIntPacking (bi : Z) : bool := fst (fe_BigInt K (fe_SetBigInt K bi)) =? bi.
(** /repo/edwards25519/field_test.go:29-42 *)
Definition t_FePacking (bi : Z) : bool :=
  let fe1 := fe_SetBigInt K bi in
  let (buf, fe1) := fe_Bytes K fe1 in
  let fe2 := o_setBytes K buf in
  fe_Equals K fe1 fe2.
(** /repo/edwards25519/field_test.go:44-58 *)
Definition t_FeMul (bi1 bi2 : Z) : bool :=
  let bi3 := (bi1 * bi2) mod (2 ^ 255 - 19) in
  fst (fe_BigInt K (o_mul K (fe_SetBigInt K bi1) (fe_SetBigInt K bi2))) =? bi3.
(** /repo/edwards25519/field_test.go:60-72 *)
Definition t_FeSquare (bi1 : Z) : bool :=
  let bi2 := (bi1 * bi1) mod (2 ^ 255 - 19) in
  fst (fe_BigInt K (o_square K (fe_SetBigInt K bi1))) =? bi2.
(** /repo/edwards25519/field_test.go:74-88 *)
Definition t_FeSub (bi1 bi2 : Z) : bool :=
  let bi3 := (bi1 - bi2) mod (2 ^ 255 - 19) in
  fst (fe_BigInt K (fe_Sub K (fe_SetBigInt K bi1) (fe_SetBigInt K bi2))) =? bi3.
(** /repo/edwards25519/field_test.go:90-104 *)
Definition t_FeAdd (bi1 bi2 : Z) : bool :=
  let bi3 := (bi1 + bi2) mod (2 ^ 255 - 19) in
  fst (fe_BigInt K (fe_Add K (fe_SetBigInt K bi1) (fe_SetBigInt K bi2))) =? bi3.
(** /repo/edwards25519/field_test.go:106-117; [bi2] is the variable after ModInverse *)
Definition t_FeInverse (bi1 bi2 : Z) : bool := fst (fe_BigInt K (fe_Inverse K (fe_SetBigInt K bi1))) =? bi2.
(** /repo/edwards25519/field_test.go:119-136; SetI is /repo/edwards25519/field.go:12-15 *)
Definition t_FeInvSqrtI (bi : Z) : bool :=
  let feI := k_I K in
  let fe1 := fe_SetBigInt K bi in
  let (sq, fe2) := fe_InvSqrtI K fe1 in
  let fe1 := if sq =? 0 then o_mul K fe1 feI else fe1 in
  let fe2 := o_mul K fe2 fe1 in
  let fe2 := o_square K fe2 in
  fe_Equals K fe1 fe2.
(** /repo/edwards25519/field_test.go:138-156; IsNegativeI normalises its receiver *)
Definition t_FeSqrt (bi : Z) : bool :=
  let bi := (bi * bi) mod (2 ^ 255 - 19) in
  let fe1 := fe_SetBigInt K bi in
  let fe2 := fe_Sqrt K fe1 in
  let (neg, fe2) := fe_IsNegativeI K fe2 in
  if neg =? 1 then false
  else let fe2 := o_square K fe2 in fe_Equals K fe1 fe2.
(** /repo/edwards25519/constants_test.go:7-44 *)
Definition t_FeConstants : bool :=
  let dP1 := o_add K (k_D K) (k_one K) in
  let x := o_mul K (fe_Inverse K (o_sub K (k_D K) (k_one K))) dP1 in
  let sqrtID := fe_Sqrt K (o_mul K (k_I K) (k_D K)) in
  let dbl := fe_Add K (k_invSqrtMinusDMinusOne K) (k_invSqrtMinusDMinusOne K) in
  let dblI := o_mul K (k_doubleInvSqrtMinusDMinusOne K) (k_I K) in
  let invSqrt1pD := fe_InvSqrt K (o_add K (k_D K) (k_one K)) in
  (fe_EqualsI K x (k_dp1OverDm1 K) =? 1) && (fe_EqualsI K sqrtID (k_sqrtID K) =? 1) &&
  (fe_EqualsI K dbl (k_doubleInvSqrtMinusDMinusOne K) =? 1) && (fe_EqualsI K dblI (k_doubleIInvSqrtMinusDMinusOne K) =? 1) &&
  (fe_EqualsI K invSqrt1pD (k_invSqrt1pD K) =? 1).

(** ** curve_test.go.  The tests make points from random bytes with the following lines. *)

(** fe.SetBytes(&buf); cp.SetRistrettoElligator2(&fe); ep.SetCompleted(&cp), for instance
    /repo/edwards25519/curve_test.go:29-31 *)
Definition go_point (buf : list Z) : EXT :=
  let fe := o_setBytes K buf in
  let cp := cp_SetRistrettoElligator2 K fe in
  ep_SetCompleted K cp.
(** cFe.Unpack(&buf); cP.Elligator(&cFe), for instance /repo/edwards25519/curve_test.go:24-25 *)
Definition c_point (buf : list Z) : option ge := run cFe := c_unpack buf in g_elligator cFe.

(** /repo/edwards25519/curve_test.go:12-39 *)
Definition t_PointDouble (buf : list Z) : option bool :=
  run cP := c_point buf in
  run cP2 := g_double cP in
  run cBuf := g_pack cP2 in
  let goBuf := ep_RistrettoInto K (ep_Double K (go_point buf)) in
  Some (bytes_Equal cBuf goBuf).
(** /repo/edwards25519/curve_test.go:41-75 *)
Definition t_PointSub (buf1 buf2 : list Z) : option bool :=
  run cP1 := c_point buf1 in
  run cP2 := c_point buf2 in
  run cP2 := g_negate cP2 in
  run cP3 := g_add cP1 cP2 in
  run cBuf := g_pack cP3 in
  let goBuf := ep_RistrettoInto K (ep_Sub K (go_point buf1) (go_point buf2)) in
  Some (bytes_Equal cBuf goBuf).
(** /repo/edwards25519/curve_test.go:77-110 *)
Definition t_PointAdd (buf1 buf2 : list Z) : option bool :=
  run cP1 := c_point buf1 in
  run cP2 := c_point buf2 in
  run cP3 := g_add cP1 cP2 in
  run cBuf := g_pack cP3 in
  let goBuf := ep_RistrettoInto K (ep_Add K (go_point buf1) (go_point buf2)) in
  Some (bytes_Equal cBuf goBuf).
(** /repo/edwards25519/curve_test.go:112-147; [old] is sBuf after the iteration before: the test does not clear it. *)
Definition t_ScalarMult_sBuf (old : list Z) (biS : Z) : list Z := write_le old biS.
Definition t_ScalarMult (buf sBuf : list Z) : option bool :=
  run cP := c_point buf in
  let cS := cs_unpack sBuf in
  run cP2 := g_scalarmult cP cS in
  run cBuf := g_pack cP2 in
  let goBuf := ep_RistrettoInto K (ep_ScalarMult K (go_point buf) sBuf) in
  Some (bytes_Equal cBuf goBuf).
(** /repo/edwards25519/curve_test.go:153-158: the array torsion *)
Definition torsion (j : nat) : EXT := nth j [ep_SetZero K; ep_torsion1 K; ep_torsion2 K; ep_torsion3 K] (ep_SetZero K).
(** /repo/edwards25519/curve_test.go:149-174 *)
Definition t_RistrettoEqualsI (buf : list Z) : bool :=
  let ep1 := go_point buf in
  forallb (fun j => ep_RistrettoEqualsI K ep1 (ep_Add K ep1 (torsion j)) =? 1) (seq 0 4).

(** ** elligator_test.go *)

(** /repo/edwards25519/elligator_test.go:12-50; the second comparison repeats the first *)
Definition t_ElligatorAndRistretto (buf : list Z) : option bool :=
  run cP := c_point buf in
  run cBuf := g_pack cP in
  let goBuf := ep_RistrettoInto K (go_point buf) in
  if negb (bytes_Equal cBuf goBuf) then Some false
  else
    let ep2 := snd (ep_SetRistretto K goBuf) in
    let goBuf2 := ep_RistrettoInto K ep2 in
    run cP2 := g_unpack cBuf in
    run cBuf2 := g_pack (snd cP2) in
    Some (bytes_Equal cBuf goBuf).
(** ... and the comparison that was meant, of cBuf2 and goBuf2 *)
Definition t_ElligatorAndRistretto_meant (buf : list Z) : option bool :=
  run cP := c_point buf in
  run cBuf := g_pack cP in
  let goBuf := ep_RistrettoInto K (go_point buf) in
  let ep2 := snd (ep_SetRistretto K goBuf) in
  let goBuf2 := ep_RistrettoInto K ep2 in
  run cP2 := g_unpack cBuf in
  run cBuf2 := g_pack (snd cP2) in
  Some (bytes_Equal cBuf2 goBuf2).
(** /repo/edwards25519/elligator_test.go:52-84, for a point *)
Definition t_ToJacobiQuarticRistretto (ep : EXT) : bool :=
  let (jcs, ep) := ep_ToJacobiQuarticRistretto K ep in
  forallb (fun j =>
    let cp2 := cp_SetJacobiQuartic K (nth j jcs (mkJac (k_zero K) (k_zero K))) in
    let ep2 := ep_SetCompleted K cp2 in
    ep_RistrettoEqualsI K ep2 ep =? 1) (seq 0 4).
(** /repo/edwards25519/elligator_test.go:86-149, for [i mod 4] and the bytes from which fe is made *)
Definition t_RistrettoElligator2Inverse (i : nat) (buf : list Z) : bool :=
  let fe := o_setBytes K buf in
  let cp := cp_SetRistrettoElligator2 K fe in
  let ep := ep_SetCompleted K cp in
  let ep := ep_Add K ep (torsion i) in
  let '(setMask, fs, ep) := ep_RistrettoElligator2Inverse K ep in
  let found := filter (fun j => negb (Z.land (Z.shiftl 1 (Z.of_nat j)) setMask =? 0)) (seq 0 8) in
  forallb (fun j =>
    let cp2 := cp_SetRistrettoElligator2 K (nth j fs (k_zero K)) in
    let ep2 := ep_SetCompleted K cp2 in
    ep_RistrettoEqualsI K ep2 ep =? 1) found &&
  existsb (fun j => fe_Equals K (nth j fs (k_zero K)) fe) found.

(** ** table_test.go and vartime_test.go *)

(** /repo/edwards25519/table_test.go:10-33 *)
Definition t_AddExtendedNiels (buf1 buf2 : list Z) : bool :=
  let ep1 := go_point buf1 in
  let ep2 := go_point buf2 in
  let ep3a := ep_Add K ep1 ep2 in
  let np2 := np_SetExtended K ep2 in
  let ep3b := ep_SetCompleted K (cp_AddExtendedNiels K ep1 np2) in
  ep_RistrettoEqualsI K ep3a ep3b =? 1.
(** /repo/edwards25519/table_test.go:35-58 *)
Definition t_SubExtendedNiels (buf1 buf2 : list Z) : bool :=
  let ep1 := go_point buf1 in
  let ep2 := go_point buf2 in
  let ep3a := ep_Sub K ep1 ep2 in
  let np2 := np_SetExtended K ep2 in
  let ep3b := ep_SetCompleted K (cp_SubExtendedNiels K ep1 np2) in
  ep_RistrettoEqualsI K ep3a ep3b =? 1.
(** s[31] &= 31, for instance /repo/edwards25519/table_test.go:68 *)
Definition mask31 (s : list Z) : list Z := firstn 31 s ++ [Z.land (at_ s 31) 31].
(** /repo/edwards25519/table_test.go:60-75 *)
Definition t_TableVarTimeBaseScalarMult (s : list Z) : option bool :=
  let table := tbl_Compute K (ep_SetBase K) in
  let s := mask31 s in
  let p1 := tbl_ScalarMult K table s in
  run p2 := tbl_VarTimeScalarMult K table s in
  Some (ep_RistrettoEqualsI K p1 p2 =? 1).
(** /repo/edwards25519/table_test.go:77-92 *)
Definition t_TableBaseScalarMult (s : list Z) : bool :=
  let table := tbl_Compute K (ep_SetBase K) in
  let s := mask31 s in
  let p1 := tbl_ScalarMult K table s in
  let p2 := ep_ScalarMult K (ep_SetBase K) s in
  ep_RistrettoEqualsI K p1 p2 =? 1.
(** /repo/edwards25519/vartime_test.go:37-57 *)
Definition t_VarTimeScalarMult (buf s : list Z) : option bool :=
  let q := go_point buf in
  let s := mask31 s in
  let p1 := ep_ScalarMult K q s in
  run p2 := ep_VarTimeScalarMult K q s in
  Some (ep_RistrettoEqualsI K p1 p2 =? 1).

(** ** ristretto_test.go *)

(** /repo/ristretto_test.go:139-151 *)
Definition t_BasePointMultiples (base : list (list (niels FE))) (rand : list Z) : bool :=
  let s := sc_rand rand in
  let p1 := pt_ScalarMultBase K base s in
  let p2 := pt_ScalarMult K (pt_SetBase K) s in
  pt_Equals K p1 p2.
(** /repo/ristretto_test.go:153-167 *)
Definition t_ConditionalSet (rand1 rand2 : list Z) : bool :=
  let p1 := pt_Rand K rand1 in
  let p2 := pt_Rand K rand2 in
  let p1 := pt_ConditionalSet K p1 p2 0 in
  if pt_Equals K p1 p2 then false
  else let p1 := pt_ConditionalSet K p1 p2 1 in pt_Equals K p1 p2.
(** /repo/ristretto_test.go:188-207; [buf2] is the array after the iteration before *)
Definition t_LizardInjective (buf1 buf2 : list Z) : bool :=
  let p := pt_SetLizard K sha256 buf1 in
  let buf := pt_Bytes K p in
  let (ok, p) := pt_SetBytes K buf in
  if negb ok then false
  else
    let '(err, buf2, p) := pt_LizardInto K sha256 p buf2 in
    match err with lizard_nil => bytes_Equal buf1 buf2 | _ => false end.
End Tests.

(** /repo/edwards25519/vartime_test.go:9-35 *)
Definition t_ComputeScalar5NAF (s : list Z) : option bool :=
  let s := mask31 s in
  run w := computeScalar5NAF s in
  let sbi := big_SetBytes (map (fun j => at_ s (31 - j)) (seq 0 32)) in
  let '(power, wbi) := fold_left (fun (st : Z * Z) j => let (power, wbi) := st in
    let summand := at_ w j * power in (power + power, wbi + summand)) (seq 0 255) (1, 0) in
  Some (wbi =? sbi).
