(** Property C61: the tests of the repository that draw random inputs pass for every input that they can draw, except
    where the theorem says otherwise.

    TestModel.v contains one iteration of each test as a function of what the test draws.  [true] is an iteration that does
    not report an error; [Some] says that it does not panic, and that the C code it calls has no undefined behaviour.
    [b] is the build; the tests of curve_test.go and elligator_test.go compare the Go code of the build with the C code of
    /repo/edwards25519/cref. *)
From Coq Require Import ZArith List Lia Bool.
From Verif Require Import Words Primes Fp Edwards FieldModel CurveModel ScalarCode ScalarModel ScalarReduce ScalarFacts RistrettoModel Backends Sha256 TestModel TestRest.
From Verif Require Elligator51.
Import ListNotations.
Open Scope Z_scope.

(** scalar_test.go.  Big integers are drawn below l, or below 2^512 in TestScReduced; [t_ScInverse a b] has the number that
    ModInverse leaves in its receiver as second argument.  TestScConditionalSet fails when the two scalars coincide. *)
Theorem C61_scalar : (forall a, t_ScPacking a = true) /\ (forall a, 0 <= a < l -> t_ScBigIntPacking a = true) /\
  (forall a b, 0 <= a < l -> 0 <= b < l -> t_ScSub a b = true /\ t_ScAdd a b = true /\ t_ScMul a b = true) /\
  (forall a, 0 <= a < l -> t_ScSquare a = true /\ t_ScNeg a = true) /\
  (forall a b c, 0 <= a < l -> 0 <= b < l -> 0 <= c < l -> t_ScMulSub a b c = true /\ t_ScMulAdd a b c = true) /\
  (forall a b, 0 <= a < l -> 0 <= b < l -> (t_ScInverse a b = true <-> (a * b) mod l = 1 \/ a = 0 /\ b = 0)) /\
  (forall a, 0 <= a < 2 ^ 512 -> t_ScReduced a = true) /\
  (forall s a, 0 <= a < l -> t_ScSetBytesStrict_canonical s a = true) /\
  (forall s a, reduced s -> 0 <= a < 2 ^ 256 - l -> t_ScSetBytesStrict_large s a = true) /\
  (forall r s, bytes 64 r -> t_ScTextMarshaling r s = Some true) /\
  (forall v, 0 <= v < 2 ^ 64 -> t_ScSetUint64 v = true) /\
  (forall r1 r2, bytes 64 r1 -> bytes 64 r2 -> (t_ScConditionalSet r1 r2 = true <-> le_val r1 mod l <> le_val r2 mod l)).
Proof. exact tests_scalar. Qed.
Print Assumptions C61_scalar.

(** field_test.go and constants_test.go *)
Theorem C61_field : forall b, (forall a, 0 <= a < p -> t_FeBigIntPacking (ops b) a = true) /\ (forall a, t_FePacking (ops b) a = true) /\
  (forall x y, t_FeMul (ops b) x y = true /\ t_FeSub (ops b) x y = true /\ t_FeAdd (ops b) x y = true) /\
  (forall x, t_FeSquare (ops b) x = true /\ t_FeInvSqrtI (ops b) x = true /\ t_FeSqrt (ops b) x = true) /\
  (forall x y, 0 <= x < p -> 0 <= y < p -> (t_FeInverse (ops b) x y = true <-> (x * y) mod p = 1 \/ x = 0 /\ y = 0)) /\
  t_FeConstants (ops b) = true.
Proof. exact tests_field. Qed.
Print Assumptions C61_field.

(** curve_test.go.  TestScalarMult does not clear its buffer; it stays below 2^253. *)
Theorem C61_curve : forall b buf1 buf2 s, bytes 32 buf1 -> bytes 32 buf2 -> bytes 32 s -> le_val s < 2 ^ 253 ->
  t_PointDouble (ops b) buf1 = Some true /\ t_PointAdd (ops b) buf1 buf2 = Some true /\ t_PointSub (ops b) buf1 buf2 = Some true /\
  t_ScalarMult (ops b) buf1 s = Some true /\ t_RistrettoEqualsI (ops b) buf1 = true /\
  (forall bi, 0 <= bi < l -> bytes 32 (t_ScalarMult_sBuf s bi) /\ le_val (t_ScalarMult_sBuf s bi) < 2 ^ 253).
Proof. exact tests_curve. Qed.
Print Assumptions C61_curve.

(** elligator_test.go.  The second comparison of TestElligatorAndRistretto repeats the first; the comparison that was meant
    succeeds too. *)
Theorem C61_elligator : forall b buf, bytes 32 buf ->
  t_ElligatorAndRistretto (ops b) buf = Some true /\ t_ElligatorAndRistretto_meant (ops b) buf = Some true /\
  t_ToJacobiQuarticRistretto (ops b) (go_point (ops b) buf) = true /\
  t_ToJacobiQuarticRistretto (ops b) (mkExt (k_zero (ops b)) (k_one (ops b)) (k_one (ops b)) (k_zero (ops b))) = true.
Proof. exact tests_elligator. Qed.
Print Assumptions C61_elligator.

(** TestRistrettoElligator2Inverse draws even numbers below 2^255.  It fails for the 9 even numbers from p on, for which the
    element is odd, and for one other: the preimage that RistrettoElligator2Inverse never reports (C31). *)
Theorem C61_inverse : forall b i buf, bytes 32 buf -> Z.even (le_val buf) = true -> le_val buf < 2 ^ 255 ->
  (t_RistrettoElligator2Inverse (ops b) i buf = true <-> le_val buf < p /\ buf <> Elligator51.missed).
Proof. exact tests_inverse. Qed.
Print Assumptions C61_inverse.

(** So the test can draw an input for which it fails. *)
Theorem C61_inverse_refuted : forall b i, exists missed, bytes 32 missed /\ Z.even (le_val missed) = true /\ le_val missed < p /\
  t_RistrettoElligator2Inverse (ops b) i missed = false.
Proof. exact (fun b i => ex_intro _ Elligator51.missed (tests_inverse_fail b i)). Qed.
Print Assumptions C61_inverse_refuted.

(** table_test.go and vartime_test.go *)
Theorem C61_tables : forall b buf1 buf2 s, bytes 32 buf1 -> bytes 32 buf2 -> bytes 32 s ->
  t_AddExtendedNiels (ops b) buf1 buf2 = true /\ t_SubExtendedNiels (ops b) buf1 buf2 = true /\
  t_TableVarTimeBaseScalarMult (ops b) s = Some true /\ t_TableBaseScalarMult (ops b) s = true /\
  t_VarTimeScalarMult (ops b) buf1 s = Some true /\ t_ComputeScalar5NAF s = Some true.
Proof. exact tests_tables. Qed.
Print Assumptions C61_tables.

(** ristretto_test.go.  TestConditionalSet fails when the two points coincide; TestLizardInjective when another string of 16
    bytes has the same point. *)
Theorem C61_ristretto : forall b, (forall t, bytes 64 t -> t_BasePointMultiples (ops b) (baseTable b) t = true) /\
  (forall r1 r2, bytes 32 r1 -> bytes 32 r2 ->
    (t_ConditionalSet (ops b) r1 r2 = true <-> pt_Equals (ops b) (pt_Rand (ops b) r1) (pt_Rand (ops b) r2) = false)) /\
  (forall buf1 buf2, bytes 16 buf1 ->
    (t_LizardInjective (ops b) buf1 buf2 = true <-> forall other, bytes 16 other ->
      pt_Equals (ops b) (pt_SetLizard (ops b) sha256 other) (pt_SetLizard (ops b) sha256 buf1) = true -> other = buf1)).
Proof. exact tests_ristretto. Qed.
Print Assumptions C61_ristretto.

(** The point {1, 0, 1, 0} of the second iteration of TestToJacobiQuarticRistretto is not on the curve. *)
Theorem C61_off : forall b A, ~ point b (mkExt (k_one (ops b)) (k_zero (ops b)) (k_one (ops b)) (k_zero (ops b))) A.
Proof. exact jacobi_off. Qed.
Print Assumptions C61_off.

(** The hypotheses are met by numbers and strings that the tests can draw; the bytes of the second iteration of
    TestRistrettoElligator2Inverse are one of the inputs for which the test passes. *)
Definition second : list Z := [168; 27; 92; 74; 203; 42; 48; 117; 170; 109; 234; 14; 45; 169; 188; 205;
  21; 110; 235; 115; 153; 84; 52; 117; 151; 235; 123; 244; 88; 85; 179; 5].
Example C61_second : bytes 32 second /\ Z.even (le_val second) = true /\ le_val second < p /\ le_val second < 2 ^ 253 /\ second <> Elligator51.missed.
Proof. refine (conj (conj eq_refl _) (conj eq_refl (conj _ (conj _ _)))); [repeat (apply Forall_cons; [unfold is_byte; lia|]); apply Forall_nil | vm_compute; reflexivity | vm_compute; reflexivity | vm_compute; discriminate]. Qed.
Example C61_numbers : (2 * ((l + 1) / 2)) mod l = 1 /\ 0 <= (l + 1) / 2 < l /\ (2 * ((p + 1) / 2)) mod p = 1 /\
  bytes 64 (repeat 255 64) /\ bytes 16 (repeat 7 16) /\ le_val (repeat 255 64) mod l <> le_val (repeat 0 64) mod l.
Proof.
  refine (conj _ (conj _ (conj _ (conj _ (conj _ _))))); [vm_compute; reflexivity | split; vm_compute; [discriminate | reflexivity] | vm_compute; reflexivity
  | split; [reflexivity | apply Forall_forall; intros x hx; apply repeat_spec in hx; subst x; unfold is_byte; lia]
  | split; [reflexivity | apply Forall_forall; intros x hx; apply repeat_spec in hx; subst x; unfold is_byte; lia] | vm_compute; discriminate].
Qed.
