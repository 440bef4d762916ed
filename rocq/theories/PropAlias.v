(** C39: receivers may alias arguments.

    A method is a program of GoLang.v; name 0 is its receiver, names 1, 2, .. below [L] its
    pointer arguments, and the names from [L] on its own variables (locals, arguments passed by
    value, and the constants scL and scZero).  [sg] maps names to variables: any of the names
    below [L] may be the same variable ([fresh_locals L sg] only says that each name from [L]
    on is a variable of its own).  Every theorem says, for every [sg] and every memory [m]:
    after the call the receiver holds the result computed from the values the arguments had
    before the call, and every variable other than the receiver and the method's own is
    unchanged ([others_same]).  NielsPoint.Neg is the exception: [C39_refuted]. *)
From Coq Require Import ZArith List.
From Verif Require Import Words ScalarCode Fe51Code Fe25Code FieldModel CurveModel ScalarModel Fe51Laws
  GoLang GoViews GoLimbCode GoInverseCode GoCurveCode GoAliasFacts GoAliasMore.
Import ListNotations.
Open Scope Z_scope.
Local Notation P n := ((n%nat, C 0)).

Theorem C39_Scalar_Add : forall sg m, fresh_locals 3 sg -> sc_of (m (sg 3%nat)) = scL -> 
  sc_of (final nosub sg rho0 (d_sc_add 0 1 2 3 4) m (sg 0%nat)) = sc_add (sc_of (m (sg 1%nat))) (sc_of (m (sg 2%nat))) /\
  others_same 3 sg m (final nosub sg rho0 (d_sc_add 0 1 2 3 4) m).
Proof. exact alias_free_Scalar_Add. Qed.
Print Assumptions C39_Scalar_Add.

Theorem C39_Scalar_Sub : forall sg m, fresh_locals 3 sg -> 
  sc_of (final nosub sg rho0 (d_sc_sub 0 1 2 3) m (sg 0%nat)) = sc_sub (sc_of (m (sg 1%nat))) (sc_of (m (sg 2%nat))) /\
  others_same 3 sg m (final nosub sg rho0 (d_sc_sub 0 1 2 3) m).
Proof. exact alias_free_Scalar_Sub. Qed.
Print Assumptions C39_Scalar_Sub.

Theorem C39_Scalar_Neg : forall sg m, fresh_locals 2 sg -> sc_of (m (sg 2%nat)) = scZero -> 
  sc_of (final nosub sg rho0 (d_sc_neg 0 1 2 3) m (sg 0%nat)) = sc_neg (sc_of (m (sg 1%nat))) /\
  others_same 2 sg m (final nosub sg rho0 (d_sc_neg 0 1 2 3) m).
Proof. exact alias_free_Scalar_Neg. Qed.
Print Assumptions C39_Scalar_Neg.

Theorem C39_Scalar_Mul : forall sg m, fresh_locals 3 sg -> 
  sc_of (final nosub sg rho0 (d_sc_mul 0 1 2 3) m (sg 0%nat)) = sc_mul (sc_of (m (sg 1%nat))) (sc_of (m (sg 2%nat))) /\
  others_same 3 sg m (final nosub sg rho0 (d_sc_mul 0 1 2 3) m).
Proof. exact alias_free_Scalar_Mul. Qed.
Print Assumptions C39_Scalar_Mul.

Theorem C39_Scalar_Square : forall sg m, fresh_locals 2 sg -> 
  sc_of (final nosub sg rho0 (d_sc_square 0 1 2) m (sg 0%nat)) = sc_square (sc_of (m (sg 1%nat))) /\
  others_same 2 sg m (final nosub sg rho0 (d_sc_square 0 1 2) m).
Proof. exact alias_free_Scalar_Square. Qed.
Print Assumptions C39_Scalar_Square.

Theorem C39_Scalar_MulAdd : forall sg m, fresh_locals 4 sg -> 
  sc_of (final nosub sg rho0 (d_sc_mulAdd 0 1 2 3 4) m (sg 0%nat)) = sc_mulAdd (sc_of (m (sg 1%nat))) (sc_of (m (sg 2%nat))) (sc_of (m (sg 3%nat))) /\
  others_same 4 sg m (final nosub sg rho0 (d_sc_mulAdd 0 1 2 3 4) m).
Proof. exact alias_free_Scalar_MulAdd. Qed.
Print Assumptions C39_Scalar_MulAdd.

Theorem C39_Scalar_MulSub : forall sg m, fresh_locals 4 sg -> 
  sc_of (final nosub sg rho0 (d_sc_mulSub 0 1 2 3 4) m (sg 0%nat)) = sc_mulSub (sc_of (m (sg 1%nat))) (sc_of (m (sg 2%nat))) (sc_of (m (sg 3%nat))) /\
  others_same 4 sg m (final nosub sg rho0 (d_sc_mulSub 0 1 2 3 4) m).
Proof. exact alias_free_Scalar_MulSub. Qed.
Print Assumptions C39_Scalar_MulSub.

Theorem C39_Scalar_ConditionalSet : forall sg m, fresh_locals 2 sg -> 
  sc_of (final nosub sg rho0 (d_sc_condSet 0 1 2 3) m (sg 0%nat)) = sc_condSet (sc_of (m (sg 0%nat))) (sc_of (m (sg 1%nat))) (m (sg 2%nat) 0%nat) /\
  others_same 2 sg m (final nosub sg rho0 (d_sc_condSet 0 1 2 3) m).
Proof. exact alias_free_Scalar_ConditionalSet. Qed.
Print Assumptions C39_Scalar_ConditionalSet.

Theorem C39_r51_add : forall sg m, fresh_locals 3 sg -> 
  fe51_of (final nosub sg rho0 (d_r51_add 0 1 2 3) m (sg 0%nat)) = r51_add (fe51_of (m (sg 1%nat))) (fe51_of (m (sg 2%nat))) /\
  others_same 3 sg m (final nosub sg rho0 (d_r51_add 0 1 2 3) m).
Proof. exact alias_free_r51_add. Qed.
Print Assumptions C39_r51_add.

Theorem C39_r51_sub : forall sg m, fresh_locals 3 sg -> 
  fe51_of (final nosub sg rho0 (d_r51_sub 0 1 2 3) m (sg 0%nat)) = r51_sub (fe51_of (m (sg 1%nat))) (fe51_of (m (sg 2%nat))) /\
  others_same 3 sg m (final nosub sg rho0 (d_r51_sub 0 1 2 3) m).
Proof. exact alias_free_r51_sub. Qed.
Print Assumptions C39_r51_sub.

Theorem C39_r51_Mul : forall sg m, fresh_locals 3 sg -> 
  fe51_of (final nosub sg rho0 (d_r51_mul 0 1 2 3) m (sg 0%nat)) = r51_mul (fe51_of (m (sg 1%nat))) (fe51_of (m (sg 2%nat))) /\
  others_same 3 sg m (final nosub sg rho0 (d_r51_mul 0 1 2 3) m).
Proof. exact alias_free_r51_Mul. Qed.
Print Assumptions C39_r51_Mul.

Theorem C39_r51_Neg : forall sg m, fresh_locals 2 sg -> 
  fe51_of (final nosub sg rho0 (d_r51_neg 0 1 2) m (sg 0%nat)) = r51_neg (fe51_of (m (sg 1%nat))) /\
  others_same 2 sg m (final nosub sg rho0 (d_r51_neg 0 1 2) m).
Proof. exact alias_free_r51_Neg. Qed.
Print Assumptions C39_r51_Neg.

Theorem C39_r51_Square : forall sg m, fresh_locals 2 sg -> 
  fe51_of (final nosub sg rho0 (d_r51_square 0 1 2) m (sg 0%nat)) = r51_square (fe51_of (m (sg 1%nat))) /\
  others_same 2 sg m (final nosub sg rho0 (d_r51_square 0 1 2) m).
Proof. exact alias_free_r51_Square. Qed.
Print Assumptions C39_r51_Square.

Theorem C39_r51_DoubledSquare : forall sg m, fresh_locals 2 sg -> 
  fe51_of (final nosub sg rho0 (d_r51_doubledSquare 0 1 2) m (sg 0%nat)) = r51_doubledSquare (fe51_of (m (sg 1%nat))) /\
  others_same 2 sg m (final nosub sg rho0 (d_r51_doubledSquare 0 1 2) m).
Proof. exact alias_free_r51_DoubledSquare. Qed.
Print Assumptions C39_r51_DoubledSquare.

Theorem C39_r51_ConditionalSet : forall sg m, fresh_locals 2 sg -> 
  fe51_of (final nosub sg rho0 (d_r51_condSet 0 1 2 3) m (sg 0%nat)) = r51_condSet (fe51_of (m (sg 0%nat))) (fe51_of (m (sg 1%nat))) (m (sg 2%nat) 0%nat) /\
  others_same 2 sg m (final nosub sg rho0 (d_r51_condSet 0 1 2 3) m).
Proof. exact alias_free_r51_ConditionalSet. Qed.
Print Assumptions C39_r51_ConditionalSet.

Theorem C39_g25_add : forall sg m, fresh_locals 3 sg -> 
  fe25_of (final nosub sg rho0 (d_g25_add 0 1 2 3) m (sg 0%nat)) = g25_add (fe25_of (m (sg 1%nat))) (fe25_of (m (sg 2%nat))) /\
  others_same 3 sg m (final nosub sg rho0 (d_g25_add 0 1 2 3) m).
Proof. exact alias_free_g25_add. Qed.
Print Assumptions C39_g25_add.

Theorem C39_g25_sub : forall sg m, fresh_locals 3 sg -> 
  fe25_of (final nosub sg rho0 (d_g25_sub 0 1 2 3) m (sg 0%nat)) = g25_sub (fe25_of (m (sg 1%nat))) (fe25_of (m (sg 2%nat))) /\
  others_same 3 sg m (final nosub sg rho0 (d_g25_sub 0 1 2 3) m).
Proof. exact alias_free_g25_sub. Qed.
Print Assumptions C39_g25_sub.

Theorem C39_g25_Mul : forall sg m, fresh_locals 3 sg -> 
  fe25_of (final nosub sg rho0 (d_g25_mul 0 1 2 3) m (sg 0%nat)) = g25_mul (fe25_of (m (sg 1%nat))) (fe25_of (m (sg 2%nat))) /\
  others_same 3 sg m (final nosub sg rho0 (d_g25_mul 0 1 2 3) m).
Proof. exact alias_free_g25_Mul. Qed.
Print Assumptions C39_g25_Mul.

Theorem C39_g25_Neg : forall sg m, fresh_locals 2 sg -> 
  fe25_of (final nosub sg rho0 (d_g25_neg 0 1 2) m (sg 0%nat)) = g25_neg (fe25_of (m (sg 1%nat))) /\
  others_same 2 sg m (final nosub sg rho0 (d_g25_neg 0 1 2) m).
Proof. exact alias_free_g25_Neg. Qed.
Print Assumptions C39_g25_Neg.

Theorem C39_g25_Square : forall sg m, fresh_locals 2 sg -> 
  fe25_of (final nosub sg rho0 (d_g25_square 0 1 2) m (sg 0%nat)) = g25_square (fe25_of (m (sg 1%nat))) /\
  others_same 2 sg m (final nosub sg rho0 (d_g25_square 0 1 2) m).
Proof. exact alias_free_g25_Square. Qed.
Print Assumptions C39_g25_Square.

Theorem C39_g25_DoubledSquare : forall sg m, fresh_locals 2 sg -> 
  fe25_of (final nosub sg rho0 (d_g25_doubledSquare 0 1 2) m (sg 0%nat)) = g25_doubledSquare (fe25_of (m (sg 1%nat))) /\
  others_same 2 sg m (final nosub sg rho0 (d_g25_doubledSquare 0 1 2) m).
Proof. exact alias_free_g25_DoubledSquare. Qed.
Print Assumptions C39_g25_DoubledSquare.

Theorem C39_g25_ConditionalSet : forall sg m, fresh_locals 2 sg -> 
  fe25_of (final nosub sg rho0 (d_g25_condSet 0 1 2 3) m (sg 0%nat)) = g25_condSet (fe25_of (m (sg 0%nat))) (fe25_of (m (sg 1%nat))) (m (sg 2%nat) 0%nat) /\
  others_same 2 sg m (final nosub sg rho0 (d_g25_condSet 0 1 2 3) m).
Proof. exact alias_free_g25_ConditionalSet. Qed.
Print Assumptions C39_g25_ConditionalSet.

Theorem C39_r51_setReduced : forall sg m, fresh_locals 2 sg -> 
  fe51_of (final nosub sg rho0 (d_r51_setReduced 0 1 2) m (sg 0%nat)) = r51_setReduced (fe51_of (m (sg 1%nat))) /\
  others_same 2 sg m (final nosub sg rho0 (d_r51_setReduced 0 1 2) m).
Proof. exact alias_free_r51_setReduced. Qed.
Print Assumptions C39_r51_setReduced.

Theorem C39_FieldElement_Add : forall (K : FeOps) sg m, fresh_locals 3 sg ->
  fe_at K (final nosub sg rho0 (g_fe_Add K (P 0) (P 1) (P 2) 3 0) m (sg 0%nat)) 0 = fe_Add K (fe_at K (m (sg 1%nat)) 0) (fe_at K (m (sg 2%nat)) 0) /\
  others_same 3 sg m (final nosub sg rho0 (g_fe_Add K (P 0) (P 1) (P 2) 3 0) m).
Proof. exact (alias_free_FieldElement_Add). Qed.
Print Assumptions C39_FieldElement_Add.

Theorem C39_FieldElement_Sub : forall (K : FeOps) sg m, fresh_locals 3 sg ->
  fe_at K (final nosub sg rho0 (g_fe_Sub K (P 0) (P 1) (P 2) 3 0) m (sg 0%nat)) 0 = fe_Sub K (fe_at K (m (sg 1%nat)) 0) (fe_at K (m (sg 2%nat)) 0) /\
  others_same 3 sg m (final nosub sg rho0 (g_fe_Sub K (P 0) (P 1) (P 2) 3 0) m).
Proof. exact (alias_free_FieldElement_Sub). Qed.
Print Assumptions C39_FieldElement_Sub.

Theorem C39_FieldElement_double : forall (K : FeOps) sg m, fresh_locals 2 sg ->
  fe_at K (final nosub sg rho0 (g_fe_double K (P 0) (P 1) 2 0) m (sg 0%nat)) 0 = fe_double K (fe_at K (m (sg 1%nat)) 0) /\
  others_same 2 sg m (final nosub sg rho0 (g_fe_double K (P 0) (P 1) 2 0) m).
Proof. exact (alias_free_FieldElement_double). Qed.
Print Assumptions C39_FieldElement_double.

Theorem C39_FieldElement_Inverse : forall (K : FeOps) sg m, fresh_locals 2 sg ->
  fe_at K (final nosub sg rho0 (g_fe_Inverse K (P 0) (P 1) 2 0) m (sg 0%nat)) 0 = fe_Inverse K (fe_at K (m (sg 1%nat)) 0) /\
  others_same 2 sg m (final nosub sg rho0 (g_fe_Inverse K (P 0) (P 1) 2 0) m).
Proof. exact (alias_free_FieldElement_Inverse). Qed.
Print Assumptions C39_FieldElement_Inverse.

Theorem C39_FieldElement_Exp22523 : forall (K : FeOps) sg m, fresh_locals 2 sg ->
  fe_at K (final nosub sg rho0 (g_fe_Exp22523 K (P 0) (P 1) 2 0) m (sg 0%nat)) 0 = fe_Exp22523 K (fe_at K (m (sg 1%nat)) 0) /\
  others_same 2 sg m (final nosub sg rho0 (g_fe_Exp22523 K (P 0) (P 1) 2 0) m).
Proof. exact (alias_free_FieldElement_Exp22523). Qed.
Print Assumptions C39_FieldElement_Exp22523.

Theorem C39_FieldElement_InvSqrt : forall (K : FeOps) sg m, fresh_locals 2 sg ->
  fe_at K (final nosub sg rho0 (g_fe_InvSqrt K (P 0) (P 1) 2 0) m (sg 0%nat)) 0 = fe_InvSqrt K (fe_at K (m (sg 1%nat)) 0) /\
  others_same 2 sg m (final nosub sg rho0 (g_fe_InvSqrt K (P 0) (P 1) 2 0) m).
Proof. exact (alias_free_FieldElement_InvSqrt). Qed.
Print Assumptions C39_FieldElement_InvSqrt.

Theorem C39_FieldElement_Sqrt : forall (K : FeOps) sg m, fresh_locals 2 sg ->
  fe_at K (final nosub sg rho0 (g_fe_Sqrt K (P 0) (P 1) 2 0) m (sg 0%nat)) 0 = fe_Sqrt K (fe_at K (m (sg 1%nat)) 0) /\
  others_same 2 sg m (final nosub sg rho0 (g_fe_Sqrt K (P 0) (P 1) 2 0) m).
Proof. exact (alias_free_FieldElement_Sqrt). Qed.
Print Assumptions C39_FieldElement_Sqrt.

Theorem C39_ExtendedPoint_Set : forall (K : FeOps) sg m, fresh_locals 2 sg ->
  ext_at K (final nosub sg rho0 (g_ep_Set K (P 0) (P 1) 2 0) m (sg 0%nat)) 0 = (ext_at K (m (sg 1%nat)) 0) /\
  others_same 2 sg m (final nosub sg rho0 (g_ep_Set K (P 0) (P 1) 2 0) m).
Proof. exact (alias_free_ExtendedPoint_Set). Qed.
Print Assumptions C39_ExtendedPoint_Set.

Theorem C39_ExtendedPoint_ConditionalSet : forall (K : FeOps) sg m, fresh_locals 2 sg ->
  ext_at K (final nosub sg rho0 (g_ep_ConditionalSet K (P 0) (P 1) (P 2) 3 0) m (sg 0%nat)) 0 = ep_ConditionalSet K (ext_at K (m (sg 0%nat)) 0) (ext_at K (m (sg 1%nat)) 0) (int_at K (m (sg 2%nat)) 0) /\
  others_same 2 sg m (final nosub sg rho0 (g_ep_ConditionalSet K (P 0) (P 1) (P 2) 3 0) m).
Proof. exact (alias_free_ExtendedPoint_ConditionalSet). Qed.
Print Assumptions C39_ExtendedPoint_ConditionalSet.

Theorem C39_ExtendedPoint_Double : forall (K : FeOps) sg m, fresh_locals 2 sg ->
  ext_at K (final nosub sg rho0 (g_ep_Double K (P 0) (P 1) 2 0) m (sg 0%nat)) 0 = ep_Double K (ext_at K (m (sg 1%nat)) 0) /\
  others_same 2 sg m (final nosub sg rho0 (g_ep_Double K (P 0) (P 1) 2 0) m).
Proof. exact (alias_free_ExtendedPoint_Double). Qed.
Print Assumptions C39_ExtendedPoint_Double.

Theorem C39_ExtendedPoint_Add : forall (K : FeOps) sg m, fresh_locals 3 sg ->
  ext_at K (final nosub sg rho0 (g_ep_Add K (P 0) (P 1) (P 2) 3 0) m (sg 0%nat)) 0 = ep_Add K (ext_at K (m (sg 1%nat)) 0) (ext_at K (m (sg 2%nat)) 0) /\
  others_same 3 sg m (final nosub sg rho0 (g_ep_Add K (P 0) (P 1) (P 2) 3 0) m).
Proof. exact (alias_free_ExtendedPoint_Add). Qed.
Print Assumptions C39_ExtendedPoint_Add.

Theorem C39_ExtendedPoint_Sub : forall (K : FeOps) sg m, fresh_locals 3 sg ->
  ext_at K (final nosub sg rho0 (g_ep_Sub K (P 0) (P 1) (P 2) 3 0) m (sg 0%nat)) 0 = ep_Sub K (ext_at K (m (sg 1%nat)) 0) (ext_at K (m (sg 2%nat)) 0) /\
  others_same 3 sg m (final nosub sg rho0 (g_ep_Sub K (P 0) (P 1) (P 2) 3 0) m).
Proof. exact (alias_free_ExtendedPoint_Sub). Qed.
Print Assumptions C39_ExtendedPoint_Sub.

Theorem C39_ExtendedPoint_Neg : forall (K : FeOps) sg m, fresh_locals 2 sg ->
  ext_at K (final nosub sg rho0 (g_ep_Neg K (P 0) (P 1) 2 0) m (sg 0%nat)) 0 = ep_Neg K (ext_at K (m (sg 1%nat)) 0) /\
  others_same 2 sg m (final nosub sg rho0 (g_ep_Neg K (P 0) (P 1) 2 0) m).
Proof. exact (alias_free_ExtendedPoint_Neg). Qed.
Print Assumptions C39_ExtendedPoint_Neg.

Theorem C39_ExtendedPoint_ScalarMult : forall (K : FeOps) sg m, fresh_locals 3 sg ->
  ext_at K (final nosub sg rho0 (g_ep_ScalarMult K (P 0) (P 1) (P 2) 3 0) m (sg 0%nat)) 0 = ep_ScalarMult K (ext_at K (m (sg 1%nat)) 0) (ints K (m (sg 2%nat)) 32) /\
  others_same 3 sg m (final nosub sg rho0 (g_ep_ScalarMult K (P 0) (P 1) (P 2) 3 0) m).
Proof. exact (alias_free_ExtendedPoint_ScalarMult). Qed.
Print Assumptions C39_ExtendedPoint_ScalarMult.

Theorem C39_NielsPoint_Set : forall (K : FeOps) sg m, fresh_locals 2 sg ->
  niels_at K (final nosub sg rho0 (g_np_Set K (P 0) (P 1) 2 0) m (sg 0%nat)) 0 = (niels_at K (m (sg 1%nat)) 0) /\
  others_same 2 sg m (final nosub sg rho0 (g_np_Set K (P 0) (P 1) 2 0) m).
Proof. exact (alias_free_NielsPoint_Set). Qed.
Print Assumptions C39_NielsPoint_Set.

Theorem C39_NielsPoint_ConditionalSet : forall (K : FeOps) sg m, fresh_locals 2 sg ->
  niels_at K (final nosub sg rho0 (g_np_ConditionalSet K (P 0) (P 1) (P 2) 3 0) m (sg 0%nat)) 0 = np_ConditionalSet K (niels_at K (m (sg 0%nat)) 0) (niels_at K (m (sg 1%nat)) 0) (int_at K (m (sg 2%nat)) 0) /\
  others_same 2 sg m (final nosub sg rho0 (g_np_ConditionalSet K (P 0) (P 1) (P 2) 3 0) m).
Proof. exact (alias_free_NielsPoint_ConditionalSet). Qed.
Print Assumptions C39_NielsPoint_ConditionalSet.

Theorem C39_JacobiPoint_Dual : forall (K : FeOps) sg m, fresh_locals 2 sg ->
  jac_at K (final nosub sg rho0 (g_jc_Dual K (P 0) (P 1) 2 0) m (sg 0%nat)) 0 = jc_Dual K (jac_at K (m (sg 1%nat)) 0) /\
  others_same 2 sg m (final nosub sg rho0 (g_jc_Dual K (P 0) (P 1) 2 0) m).
Proof. exact (alias_free_JacobiPoint_Dual). Qed.
Print Assumptions C39_JacobiPoint_Dual.

Theorem C39_Scalar_Inverse : forall sg m, fresh_locals 2 sg ->
  final nosub sg rho0 (d_sc_inverse 0 1 2) m (sg 0%nat) 0%nat = sc_inverse (m (sg 1%nat) 0%nat) /\
  others_same 2 sg m (final nosub sg rho0 (d_sc_inverse 0 1 2) m).
Proof. exact alias_free_Scalar_Inverse. Qed.
Print Assumptions C39_Scalar_Inverse.

Theorem C39_FieldElement_InvSqrtI : forall (K : FeOps) sg m, fresh_locals 2 sg ->
  (int_at K (final nosub sg rho0 (g_fe_InvSqrtI K (P 0) (P 1) (P 2) 3 0) m (sg 2%nat)) 0,
   fe_at K (final nosub sg rho0 (g_fe_InvSqrtI K (P 0) (P 1) (P 2) 3 0) m (sg 0%nat)) 0) =
    fe_InvSqrtI K (fe_at K (m (sg 1%nat)) 0) /\
  others_same 2 sg m (final nosub sg rho0 (g_fe_InvSqrtI K (P 0) (P 1) (P 2) 3 0) m).
Proof. exact alias_free_FieldElement_InvSqrtI. Qed.
Print Assumptions C39_FieldElement_InvSqrtI.

Theorem C39_FieldElement_Abs : forall sg m, fresh_locals 2 sg ->
  let m' := final nosub sg rho0 (g_fe_Abs R51 (P 0) (P 1) 2 0) m in
  let x := fe_at R51 (m (sg 1%nat)) 0 in
  fe_at R51 (m' (sg 0%nat)) 0 = fst (fe_Abs R51 x) /\
  (sg 0%nat <> sg 1%nat -> fe_at R51 (m' (sg 1%nat)) 0 = x) /\
  (forall b i, b <> sg 0%nat -> b <> sg 1%nat -> (forall a, (2 <= a)%nat -> sg a <> b) -> m' b i = m b i).
Proof. exact alias_free_Abs_R51. Qed.
Print Assumptions C39_FieldElement_Abs.

(** [p.Neg(p)] of a NielsPoint gives a wrong point: /repo/edwards25519/table.go:35-40 sets
    [p.YMinusX] from [q.YPlusX] and then [p.YPlusX] from the overwritten [q.YMinusX].  No code in
    /repo calls it with the receiver as argument. *)
Theorem C39_refuted : exists sg m, fresh_locals 2 sg /\ sg 0%nat = sg 1%nat /\
  niels_at R51 (final (E:=Empty_set) nosub sg rho0 (g_np_Neg R51 (P 0) (P 1) 2 0) m (sg 0%nat)) 0 <>
    np_Neg R51 (niels_at R51 (m (sg 1%nat)) 0).
Proof. exact (ex_intro _ niels_sg (ex_intro _ niels_mem (conj niels_fresh (conj eq_refl niels_neg_aliased)))). Qed.
Print Assumptions C39_refuted.

Theorem C39_NielsPoint_Neg_partial : forall (K : FeOps) sg (m : mem (fe K * Z)), fresh_locals 2 sg -> sg 0%nat <> sg 1%nat ->
  niels_at K (final nosub sg rho0 (g_np_Neg K (P 0) (P 1) 2 0) m (sg 0%nat)) 0 = np_Neg K (niels_at K (m (sg 1%nat)) 0) /\
  others_same 2 sg m (final nosub sg rho0 (g_np_Neg K (P 0) (P 1) 2 0) m).
Proof. exact niels_neg_distinct. Qed.
Print Assumptions C39_NielsPoint_Neg_partial.

(** The hypotheses are met by [s.Add(s, s)]: names 0, 1, 2 are the variable 0. *)
Definition sg3 (a : nat) : nat := match a with 0%nat | 1%nat | 2%nat => 0%nat | _ => a end.
Definition m3 : mem Z := fun b i => match b, i with
  | 0%nat, 0%nat => 7 | 0%nat, 7%nat => 0x0fffffff
  | 3%nat, _ => nth i [0x5cf5d3ed; 0x5812631a; 0xa2f79cd6; 0x14def9de; 0; 0; 0; 0x10000000] 0 | _, _ => 0 end.
Example C39_Add_self : fresh_locals 3 sg3 /\ sc_of (m3 (sg3 3%nat)) = scL /\
  sc_of (final (E:=Empty_set) nosub sg3 rho0 (d_sc_add 0 1 2 3 4) m3 (sg3 0%nat)) = sc_add (sc_of (m3 0%nat)) (sc_of (m3 0%nat)) /\
  sc_of (final (E:=Empty_set) nosub sg3 rho0 (d_sc_add 0 1 2 3 4) m3 (sg3 0%nat)) <> sc_of (m3 0%nat).
Proof.
  split; [|vm_compute; repeat split; discriminate].
  intros a b ha h. destruct a as [|[|[|a]]]; [inversion ha|inversion ha as [|? h1]; inversion h1|inversion ha as [|? h1]; inversion h1 as [|? h2]; inversion h2|].
  destruct b as [|[|[|b]]]; cbn in h; [discriminate h|discriminate h|discriminate h|exact h].
Qed.
