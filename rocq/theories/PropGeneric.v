(** Properties C36 to C38: the generic field backend (field_generic.go: ten int32 limbs).

    [v25 x] is the integer represented by the limbs of [x] (radix 2^25.5, /repo/edwards25519/field_generic.go:172-173),
    [bnd25 e o x] says that its even limbs are at most [e] and its odd limbs at most [o] in absolute value.
    [run K base prog st] (ApiModel.v) executes a list of API calls with the field backend [K]; [init K] gives every
    variable its Go zero value; the first component of the result is what the caller observes. *)
From Coq Require Import ZArith List Lia Bool.
From Verif Require Import Words Primes Fp Edwards GroupOrder RistrettoSpec Fe51Code Fe51Proofs Fe25Code Fe25Proofs FieldModel CurveModel FieldLaws
  ScalarCode ScalarModel TextCodec RistrettoModel Sha256 RistrettoFacts Fe51Laws Fe25Laws BaseTable51 BaseTable25
  ApiModel ApiSpec ApiProofs ApiIdeal Generic25.
Import ListNotations.
Open Scope Z_scope.

(** ** C36 *)
Theorem C36_mul : forall a b, bnd25 268435456 268435456 a -> bnd25 113025455 113025455 b ->
  bnd25 33554432 16944988 (g25_mul a b) /\ v25 (g25_mul a b) mod p = (v25 a * v25 b) mod p.
Proof. exact f25_mul. Qed.
Print Assumptions C36_mul.

(** The bound on the second factor cannot be relaxed by one. *)
Theorem C36_mul_sharp : exists a b, bnd25 1 1 a /\ bnd25 113025456 113025456 b /\
  v25 (g25_mul a b) mod p <> (v25 a * v25 b) mod p.
Proof. exact mul_sharp_ex. Qed.
Print Assumptions C36_mul_sharp.

Theorem C36_square : forall a, bnd25 134217728 134217728 a ->
  bnd25 33554432 16944988 (g25_square a) /\ v25 (g25_square a) mod p = (v25 a * v25 a) mod p.
Proof. exact f25_square. Qed.
Print Assumptions C36_square.

Theorem C36_doubledSquare : forall a, bnd25 129000000 129000000 a ->
  bnd25 33554432 16944988 (g25_doubledSquare a) /\ v25 (g25_doubledSquare a) mod p = (2 * (v25 a * v25 a)) mod p.
Proof. exact f25_doubledSquare. Qed.
Print Assumptions C36_doubledSquare.

Theorem C36_normalize : forall a, bnd25 2147483648 2147483648 a ->
  bnd25 33554432 16944988 (g25_normalize a) /\ v25 (g25_normalize a) mod p = v25 a mod p.
Proof. exact f25_normalize. Qed.
Print Assumptions C36_normalize.

Theorem C36_add : forall e o e' o' x y, bnd25 e o x -> bnd25 e' o' y -> e + e' <= 2147483647 -> o + o' <= 2147483647 ->
  bnd25 (e + e') (o + o') (g25_add x y) /\ v25 (g25_add x y) = v25 x + v25 y.
Proof. exact g25_add_ok. Qed.
Print Assumptions C36_add.

Theorem C36_sub : forall e o e' o' x y, bnd25 e o x -> bnd25 e' o' y -> e + e' <= 2147483647 -> o + o' <= 2147483647 ->
  bnd25 (e + e') (o + o') (g25_sub x y) /\ v25 (g25_sub x y) = v25 x - v25 y.
Proof. exact g25_sub_ok. Qed.
Print Assumptions C36_sub.

Theorem C36_neg : forall e o x, bnd25 e o x -> e <= 2147483647 -> o <= 2147483647 ->
  bnd25 e o (g25_neg x) /\ v25 (g25_neg x) = - v25 x.
Proof. exact g25_neg_ok. Qed.
Print Assumptions C36_neg.

Theorem C36_conditionalSet : forall x y b, g25_condSet x y (Z.b2z b) = if b then y else x.
Proof. exact g25_condSet_ok. Qed.
Print Assumptions C36_conditionalSet.

Theorem C36_setBytes : forall s, bytes 32 s ->
  bnd25 33554432 16944988 (g25_setBytes s) /\ v25 (g25_setBytes s) mod p = (le_val s mod 2 ^ 255) mod p.
Proof. exact f25_setBytes. Qed.
Print Assumptions C36_setBytes.

(** The canonical bytes; the receiver is overwritten with the canonical limbs. *)
Theorem C36_bytesInto : forall x, bnd25 101669928 50834964 x ->
  fst (g25_bytes x) = le_bytes 32 (v25 x mod p) /\ v25 (snd (g25_bytes x)) = v25 x mod p /\ bnd25 67108863 33554431 (snd (g25_bytes x)).
Proof. exact f25_bytes. Qed.
Print Assumptions C36_bytesInto.

Theorem C36_constants :
  map (fun x => v25 x mod p) [k_zero R25; k_one R25; k_minusOne R25; k_I R25; k_minusI R25; k_D R25; k_2D R25;
    k_invSqrtMinusDMinusOne R25; k_doubleInvSqrtMinusDMinusOne R25; k_doubleIInvSqrtMinusDMinusOne R25; k_dMinusOneSquared R25;
    k_oneMinusDSquared R25; k_dp1OverDm1 R25; k_sqrtID R25; k_invSqrt1pD R25; k_baseX R25; k_baseY R25; k_baseT R25] =
  map (fun x => v51 x mod p) [k_zero R51; k_one R51; k_minusOne R51; k_I R51; k_minusI R51; k_D R51; k_2D R51;
    k_invSqrtMinusDMinusOne R51; k_doubleInvSqrtMinusDMinusOne R51; k_doubleIInvSqrtMinusDMinusOne R51; k_dMinusOneSquared R51;
    k_oneMinusDSquared R51; k_dp1OverDm1 R51; k_sqrtID R51; k_invSqrt1pD R51; k_baseX R51; k_baseY R51; k_baseT R51].
Proof. exact constants_agree. Qed.
Print Assumptions C36_constants.

Example C36_case : bnd25 101669928 50834964 (Fe25 101669928 (-50834964) 101669928 (-50834964) 3 5 (-101669928) 50834964 7 (-50834964)) /\
  bnd25 268435456 268435456 (Fe25 268435456 268435456 1 (-268435456) 3 5 4 50834964 7 (-268435456)) /\
  bnd25 113025455 113025455 (Fe25 113025455 (-113025455) 1 2 3 5 4 50834964 7 (-113025455)) /\ bytes 32 (repeat 255 32).
Proof.
  refine (conj _ (conj _ (conj _ _))); [unfold bnd25; lia .. |]. split; [reflexivity|]. unfold is_byte. cbn. repeat constructor; lia.
Qed.

(** ** C37 *)

(** Not every build gives the same results: the encoding of 152 decodes to a point [D] whose limbs are so large
    that [Add] of [D] to itself overflows in the generic backend, and the result differs from [Double]. *)
Theorem C37_refuted : exists prog, Forall well_typed prog /\
  option_map fst (run R51 r51_baseTable prog (init R51)) = Some [OBool true; ONone; ONone; OBool true] /\
  option_map fst (run R25 r25_baseTable prog (init R25)) = Some [OBool true; ONone; ONone; OBool false].
Proof. exact bad_refutes. Qed.
Print Assumptions C37_refuted.

Theorem C37_decoded_add_refuted : exists buf D, bytes 32 buf /\ pt_SetBytes R25 buf = (true, D) /\
  pt_Equals R25 (pt_Add R25 D D) (pt_Double R25 D) = false.
Proof. exact bad_add. Qed.
Print Assumptions C37_decoded_add_refuted.

(** What holds: the two backends return the same results for every program on initialised variables in which no
    decoded Point (SetBytes, UnmarshalBinary, or the receiver of Lizard; their copies and negations)
    is the second operand of Add or Sub, or the argument of ScalarMult, PublicScalarMult or Compute.
    [tracks] (ApiProofs.v) checks that; [irun ... <> None] (ApiSpec.v) says that no uninitialised Point is used.
    Missing: programs that do use decoded points there; they are right exactly when no limb overflows (next theorem). *)
Theorem C37_static_partial : forall prog, Forall well_typed prog -> irun enc dec ell lizenc lizdec inv prog iinit <> None ->
  tracks prog (fun _ => true) = true ->
  exists os, option_map fst (run R25 r25_baseTable prog (init R25)) = Some os /\
             option_map fst (run R51 r51_baseTable prog (init R51)) = Some os.
Proof. exact agree_static. Qed.
Print Assumptions C37_static_partial.

(** The same for programs during which the operands named above, when they are used, satisfy
    [|X_i| + |Y_i| <= 113025455] in every limb ([safe], [need] in ApiProofs.v and [fits25] in Fe25Laws.v). *)
Theorem C37_safe_partial : forall prog, Forall well_typed prog -> irun enc dec ell lizenc lizdec inv prog iinit <> None ->
  safe L25 r25_baseTable prog (init R25) ->
  exists os, option_map fst (run R25 r25_baseTable prog (init R25)) = Some os /\
             option_map fst (run R51 r51_baseTable prog (init R51)) = Some os.
Proof. exact agree_safe. Qed.
Print Assumptions C37_safe_partial.

(** The two literal tables hold the same points (those of [r51_baseTable] are right by C21). *)
Theorem C37_base_table :
  map (map (fun n => (v25 (nYpX n) mod p, v25 (nYmX n) mod p, v25 (nXY2D n) mod p))) r25_baseTable =
  map (map (fun n => (v51 (nYpX n) mod p, v51 (nYmX n) mod p, v51 (nXY2D n) mod p))) r51_baseTable.
Proof. exact tables_mod. Qed.
Print Assumptions C37_base_table.

Example C37_case : exists os,
  let prog := [SSetUint64 0 5; PScalarMultBase 0 0; PSetElligator 1 (repeat 7 32); PAdd 2 0 1; PSetBytes 3 (repeat 0 32);
               PAdd 4 3 2; PDouble 5 3; PBytes 4; PEquals 4 2; TCompute 0 4; PScalarMultTable 6 0 0; PNeg 6 6; PSub 7 3 6; PBytes 7] in
  Forall well_typed prog /\ irun enc dec ell lizenc lizdec inv prog iinit <> None /\ tracks prog (fun _ => true) = true /\
  option_map fst (irun enc dec ell lizenc lizdec inv prog iinit) = Some os.
Proof. exact case_prog_ok. Qed.

(** ** C38 *)

(** In the 64-bit backend none of the methods that serialise a field element changes it, and Lizard leaves
    its Point unchanged.  (All other read-only methods of the model do not return a receiver at all:
    they call only methods that write to local variables.) *)
Theorem C38_field64 : forall x : fe51,
  snd (o_bytes R51 x) = x /\ snd (fe_IsNegativeI R51 x) = x /\ snd (fe_IsNonZeroI R51 x) = x.
Proof. exact read_only51. Qed.
Print Assumptions C38_field64.

Theorem C38_point64 : forall (h : list Z -> list Z) (P : ext fe51) buf,
  snd (ep_RistrettoElligator2Inverse R51 P) = P /\ snd (pt_LizardInto R51 h P buf) = P /\ snd (pt_Lizard R51 h P) = P.
Proof. exact lizard51_receiver. Qed.
Print Assumptions C38_point64.

(** In the generic backend they do write: BytesInto stores the carried limbs in its receiver, and so
    IsNegativeI, IsNonZeroI and Lizard modify theirs; Lizard of the base point changes its limbs. *)
Theorem C38_refuted : (exists x, bnd25 33554432 16944988 x /\ snd (g25_bytes x) <> x) /\
  forall h : list Z -> list Z, snd (pt_Lizard R25 h (pt_SetBase R25)) <> pt_SetBase R25.
Proof. exact read_only25_refuted. Qed.
Print Assumptions C38_refuted.

(** The written limbs represent the same field element and the same group element, so a single reader does not
    notice.  Missing (false): that nothing is written. *)
Theorem C38_value_partial : forall x, bnd25 101669928 50834964 x -> v25 (snd (g25_bytes x)) mod p = v25 x mod p.
Proof. exact bytes25_value. Qed.
Print Assumptions C38_value_partial.

Theorem C38_lizard_partial : forall P A, dpoint L25 P A ->
  dpoint L25 (snd (pt_Lizard R25 sha256 P)) A /\ pt_Bytes R25 (snd (pt_Lizard R25 sha256 P)) = pt_Bytes R25 P.
Proof. exact lizard25_value. Qed.
Print Assumptions C38_lizard_partial.

Example C38_case : dpoint L25 (pt_SetBase R25) EBc.
Proof. exact (point_d L25 _ _ (point_Base L25)). Qed.
