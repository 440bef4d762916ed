(** Property C53: package edwards25519 implements the curve group for all its points, and which multiples its scalar
    multiplications compute for every 32-byte scalar, in all three builds.

    [represents], [addable] and [niels_of] are defined in Backends.v, [operand], [etable], [completed] and [projective] in
    EdwardsFacts.v: they say that the limbs are in bounds and that the coordinates are those of the curve point.  Unlike in
    C45 the curve point need not be the double of another.  [le_val s] is the number with the little-endian bytes [s], and
    [Req A B] says that [A - B] is one of the four points of order dividing 4. *)
From Coq Require Import ZArith Znumtheory List Lia Bool.
From Verif Require Import Words Primes Fp Edwards GroupOrder RistrettoSpec FieldModel CurveModel WindowProofs AllScalars Backends EdwardsFacts.
Import ListNotations.
Open Scope Z_scope.

Theorem C53_add : forall b P Q A B, represents b P A -> operand b Q B ->
  operand b (ep_Add (ops b) P Q) (Eadd A B) /\ operand b (ep_Sub (ops b) P Q) (Eadd A (Eopp B)).
Proof. exact e_add. Qed.
Print Assumptions C53_add.

Theorem C53_double : forall b P A, represents b P A -> operand b (ep_Double (ops b) P) (Eadd A A).
Proof. exact e_double. Qed.
Print Assumptions C53_double.

Theorem C53_neg : forall b P A, operand b P A -> operand b (ep_Neg (ops b) P) (Eopp A).
Proof. exact e_neg. Qed.
Print Assumptions C53_neg.

Theorem C53_zero : forall b, operand b (ep_SetZero (ops b)) E0.
Proof. exact e_zero. Qed.
Print Assumptions C53_zero.

(** The formulas on the intermediate representations. *)
Theorem C53_addExtended : forall b P Q A B, represents b P A -> operand b Q B ->
  completed b (cp_AddExtended (ops b) P Q) (Eadd A B) /\ completed b (cp_SubExtended (ops b) P Q) (Eadd A (Eopp B)).
Proof. exact e_addExtended. Qed.
Print Assumptions C53_addExtended.

Theorem C53_addNiels : forall b P N A B, represents b P A -> niels_of b N B ->
  completed b (cp_AddExtendedNiels (ops b) P N) (Eadd A B) /\ completed b (cp_SubExtendedNiels (ops b) P N) (Eadd A (Eopp B)).
Proof. exact e_addNiels. Qed.
Print Assumptions C53_addNiels.

Theorem C53_doubles : forall b,
  (forall P A, represents b P A -> completed b (cp_DoubleExtended (ops b) P) (Eadd A A)) /\
  (forall P A, projective b P A -> completed b (cp_DoubleProjective (ops b) P) (Eadd A A)).
Proof. exact e_doubles. Qed.
Print Assumptions C53_doubles.

Theorem C53_convert : forall b,
  (forall C A, completed b C A -> operand b (ep_SetCompleted (ops b) C) A /\ projective b (pp_SetCompleted (ops b) C) A) /\
  (forall P A, represents b P A -> niels_of b (np_SetExtended (ops b) P) A).
Proof. exact e_convert. Qed.
Print Assumptions C53_convert.

Theorem C53_niels : forall b,
  niels_of b (np_SetZero (ops b)) E0 /\ forall N A, niels_of b N A -> niels_of b (np_Neg (ops b) N) (Eopp A).
Proof. exact e_niels. Qed.
Print Assumptions C53_niels.

(** ScalarMult multiplies by the scalar up to [2^254 + 15 (2^250 - 1) / 31].  Above, bit 255 is ignored, and a highest digit
    above 16 counts as 0. *)
Theorem C53_scalarMult : forall b P A s, operand b P A -> bytes 32 s ->
  let n := le_val s mod 2 ^ 255 in
  let r := (2 ^ 250 - 1) / 31 in
  operand b (ep_ScalarMult (ops b) P s) (Emul (if n <=? 2 ^ 254 + 15 * r then n else (n + 16 * r) mod 2 ^ 250 - 16 * r) A) /\
  (le_val s <= 2 ^ 254 + 15 * r -> operand b (ep_ScalarMult (ops b) P s) (Emul (le_val s) A)).
Proof. exact e_scalarMult. Qed.
Print Assumptions C53_scalarMult.

(** So it computes the right element of the ristretto group exactly up to that bound, for every element but the zero. *)
Theorem C53_scalarMult_exact : forall A s, even A -> ~ Req A E0 -> bytes 32 s ->
  (Req (Emul (sm_multiple (le_val s)) A) (Emul (le_val s) A) <-> le_val s <= 2 ^ 254 + 15 * ((2 ^ 250 - 1) / 31)) /\
  (Req (Emul (tbl_multiple (le_val s)) A) (Emul (le_val s) A) <-> le_val s <= 2 ^ 255 + 7 * ((2 ^ 252 - 1) / 15)).
Proof. exact e_scalarMult_iff. Qed.
Print Assumptions C53_scalarMult_exact.

Theorem C53_scalarMult_refuted : exists s, bytes 32 s /\ forall b P A, operand b P A -> even A -> ~ Req A E0 ->
  exists B, operand b (ep_ScalarMult (ops b) P s) B /\ ~ Req B (Emul (le_val s) A).
Proof. exact e_scalarMult_refuted. Qed.
Print Assumptions C53_scalarMult_refuted.

(** Precomputed tables; the multiplication with them is right up to [2^255 + 7 (2^252 - 1) / 15].  Above, a highest digit
    above 8 counts as 0 in the constant time version, and the variable time version panics. *)
Theorem C53_table : forall b P A, operand b P A -> etable b (tbl_Compute (ops b) P) A.
Proof. exact e_table. Qed.
Print Assumptions C53_table.

Theorem C53_tableMult : forall b t A s, etable b t A -> bytes 32 s ->
  let r := (2 ^ 252 - 1) / 15 in
  operand b (tbl_ScalarMult (ops b) t s)
    (Emul (if le_val s <=? 2 ^ 255 + 7 * r then le_val s else (le_val s + 8 * r) mod 2 ^ 252 - 8 * r) A) /\
  (le_val s <= 2 ^ 255 + 7 * r -> operand b (tbl_ScalarMult (ops b) t s) (Emul (le_val s) A)).
Proof. exact e_tableMult. Qed.
Print Assumptions C53_tableMult.

Theorem C53_tableVarTime : forall b t A s, etable b t A -> bytes 32 s ->
  let m := 2 ^ 255 + 7 * ((2 ^ 252 - 1) / 15) in
  (le_val s <= m -> exists R, tbl_VarTimeScalarMult (ops b) t s = Some R /\ operand b R (Emul (le_val s) A)) /\
  (m < le_val s -> tbl_VarTimeScalarMult (ops b) t s = None).
Proof. exact e_tableVarTime. Qed.
Print Assumptions C53_tableVarTime.

(** VarTimeScalarMult never panics; it multiplies by the value of the signed digits, which is the scalar below [2^255] and
    above may be [2^256] less. *)
Theorem C53_varTime : forall b P A s, operand b P A -> bytes 32 s ->
  exists naf R, computeScalar5NAF s = Some naf /\ (dval 2 naf = le_val s \/ dval 2 naf = le_val s - 2 ^ 256) /\
    (le_val s < 2 ^ 255 -> dval 2 naf = le_val s) /\
    ep_VarTimeScalarMult (ops b) P s = Some R /\ operand b R (Emul (dval 2 naf) A).
Proof. exact e_varTime. Qed.
Print Assumptions C53_varTime.

Theorem C53_varTime_exact : forall A s naf, even A -> ~ Req A E0 -> bytes 32 s -> computeScalar5NAF s = Some naf ->
  (Req (Emul (dval 2 naf) A) (Emul (le_val s) A) <-> dval 2 naf = le_val s).
Proof. exact e_varTime_iff. Qed.
Print Assumptions C53_varTime_exact.

Theorem C53_varTime_refuted : exists s, bytes 32 s /\ forall b P A, operand b P A -> even A -> ~ Req A E0 ->
  exists R B, ep_VarTimeScalarMult (ops b) P s = Some R /\ operand b R B /\ ~ Req B (Emul (le_val s) A).
Proof. exact e_varTime_refuted. Qed.
Print Assumptions C53_varTime_refuted.

(** Non-vacuity: every curve point has coordinates, in particular the point of order 8, which is not the double of another. *)
Example C53_ex_points : forall b A, operand b (affine b A) A.
Proof. exact e_affine. Qed.
Example C53_ex_odd : forall b, operand b (affine b ET8) ET8 /\ ~ even ET8.
Proof. exact e_odd. Qed.
(** [2^254 + 1] is computed right although it exceeds [2^254]; [2^255 - 1] gives -1. *)
Example C53_ex_multiples : sm_multiple (2 ^ 254 + 1) = 2 ^ 254 + 1 /\ sm_multiple (2 ^ 255 - 1) = -1 /\
  tbl_multiple (2 ^ 255 + 1) = 2 ^ 255 + 1 /\ tbl_multiple (2 ^ 256 - 1) = -1.
Proof. exact e_multiples. Qed.
