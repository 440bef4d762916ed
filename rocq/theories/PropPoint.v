(** Properties C16 to C28 and C35, and the Point part of C10: the type [Point] on the 64-bit
    (radix 2^51) backend.

    [E] is the set of points (x, y) of the curve -x^2 + y^2 = 1 + d x^2 y^2 over GF(p), with the
    addition law [Eadd], and [Emul k A] is the k-fold sum.  [represents P A] says that the limbs
    of the Point [P] are bounded and that P = (X : Y : Z : T) has Z <> 0 and X = xZ, Y = yZ,
    T = xyZ for the coordinates x, y of [A]; [element P A] adds that A is the double of a curve
    point, which is the condition to be in the ristretto group, and [valid P] says that [P] is an
    [element] for some [A].  All are in Points51.v. *)
From Coq Require Import ZArith List Lia Bool.
From Verif Require Import Words Primes Fp Edwards GroupOrder RistrettoSpec Fe51Code FieldModel CurveModel
  ScalarCode ScalarModel ScalarReduce ScalarSub ScalarFacts FieldLaws Fe51Laws Field51Facts RistrettoModel BaseTable51 Points51.
Import ListNotations.
Open Scope Z_scope.

(** The sample points: the base point B, and 2B. *)
Lemma valid_B : valid (pt_SetBase R51).
Proof. exact valid_Base. Qed.
Lemma valid_2B : valid (pt_Add R51 (pt_SetBase R51) (pt_SetBase R51)).
Proof. exact (valid_Add _ _ valid_B valid_B). Qed.
Lemma B_nonzero : pt_Equals R51 (pt_SetBase R51) (pt_SetZero R51) = false.
Proof. exact base_nonzero. Qed.

(** A point represents at most one curve point. *)
Theorem represents_at_most_one : forall P A B, represents P A -> represents P B -> A = B.
Proof. exact represents_unique. Qed.

(** ** C10, Points *)

Theorem C10_point : forall P Q b, valid P -> valid Q -> pt_ConditionalSet R51 P Q (Z.b2z b) = if b then Q else P.
Proof. exact cond_set. Qed.
Print Assumptions C10_point.

(** ** C16: no exceptional cases, for all curve points *)

Theorem C16_add : forall P Q A B, represents P A -> represents Q B -> represents (pt_Add R51 P Q) (Eadd A B).
Proof. exact rep_Add. Qed.
Print Assumptions C16_add.

Theorem C16_sub : forall P Q A B, represents P A -> represents Q B -> represents (pt_Sub R51 P Q) (Eadd A (Eopp B)).
Proof. exact rep_Sub. Qed.
Print Assumptions C16_sub.

Theorem C16_double : forall P A, represents P A -> represents (pt_Double R51 P) (Eadd A A).
Proof. exact rep_Double. Qed.
Print Assumptions C16_double.

Theorem C16_neg : forall P A, represents P A -> represents (pt_Neg R51 P) (Eopp A).
Proof. exact rep_Neg. Qed.
Print Assumptions C16_neg.

Theorem C16_zero : represents (pt_SetZero R51) E0.
Proof. exact rep_Zero. Qed.
Print Assumptions C16_zero.

(** The library's base point is the RFC 8032 base point plus the point (-i, 0) of order 4. *)
Theorem C16_base : represents (pt_SetBase R51) (Eadd EB T4').
Proof. exact rep_Base. Qed.
Print Assumptions C16_base.

Theorem C16_closed : forall P Q A B, element P A -> element Q B ->
  element (pt_Add R51 P Q) (Eadd A B) /\ element (pt_Sub R51 P Q) (Eadd A (Eopp B)) /\
  element (pt_Double R51 P) (Eadd A A) /\ element (pt_Neg R51 P) (Eopp A) /\ pt_Set R51 P = P.
Proof. exact elt_ops. Qed.
Print Assumptions C16_closed.

(** exceptional inputs of incomplete formulas: P + P, P - P and P + 0 *)
Example C16_ex : let B := pt_SetBase R51 in let b := Eadd EB T4' in
  represents (pt_Add R51 B B) (Eadd b b) /\ represents (pt_Sub R51 B B) E0 /\ represents (pt_Add R51 B (pt_SetZero R51)) b.
Proof.
  cbv zeta. split; [exact (C16_add _ _ _ _ C16_base C16_base)|]. split.
  - rewrite <- (Eadd_opp (Eadd EB T4')). exact (C16_sub _ _ _ _ C16_base C16_base).
  - pose proof (C16_add _ _ _ _ C16_base C16_zero) as h. rewrite Eadd_0_r in h. exact h.
Qed.

(** ** C17 *)

Theorem C17_assoc : forall P Q R, valid P -> valid Q -> valid R ->
  pt_Equals R51 (pt_Add R51 P (pt_Add R51 Q R)) (pt_Add R51 (pt_Add R51 P Q) R) = true.
Proof. exact grp_assoc. Qed.
Print Assumptions C17_assoc.

Theorem C17_comm : forall P Q, valid P -> valid Q -> pt_Equals R51 (pt_Add R51 P Q) (pt_Add R51 Q P) = true.
Proof. exact grp_comm. Qed.
Print Assumptions C17_comm.

Theorem C17_zero : forall P, valid P -> pt_Equals R51 (pt_Add R51 P (pt_SetZero R51)) P = true.
Proof. exact grp_zero. Qed.
Print Assumptions C17_zero.

Theorem C17_neg : forall P, valid P -> pt_Equals R51 (pt_Add R51 P (pt_Neg R51 P)) (pt_SetZero R51) = true.
Proof. exact grp_neg. Qed.
Print Assumptions C17_neg.

Theorem C17_sub : forall P Q, valid P -> valid Q -> pt_Equals R51 (pt_Sub R51 P Q) (pt_Add R51 P (pt_Neg R51 Q)) = true.
Proof. exact grp_sub. Qed.
Print Assumptions C17_sub.

Theorem C17_double : forall P, valid P -> pt_Equals R51 (pt_Double R51 P) (pt_Add R51 P P) = true.
Proof. exact grp_double. Qed.
Print Assumptions C17_double.

Theorem C17_compat : forall P P' Q Q', valid P -> valid P' -> valid Q -> valid Q' ->
  pt_Equals R51 P P' = true -> pt_Equals R51 Q Q' = true ->
  pt_Equals R51 (pt_Add R51 P Q) (pt_Add R51 P' Q') = true /\ pt_Equals R51 (pt_Sub R51 P Q) (pt_Sub R51 P' Q') = true /\
  pt_Equals R51 (pt_Double R51 P) (pt_Double R51 P') = true /\ pt_Equals R51 (pt_Neg R51 P) (pt_Neg R51 P') = true.
Proof. exact grp_compat. Qed.
Print Assumptions C17_compat.

Theorem C17_valid : forall P Q, valid P -> valid Q ->
  valid (pt_SetZero R51) /\ valid (pt_SetBase R51) /\ valid (pt_Add R51 P Q) /\ valid (pt_Sub R51 P Q) /\
  valid (pt_Double R51 P) /\ valid (pt_Neg R51 P).
Proof.
  exact (fun P Q hP hQ => conj valid_Zero (conj valid_Base (conj (valid_Add P Q hP hQ) (conj (valid_Sub P Q hP hQ)
    (conj (valid_Double P hP) (valid_Neg P hP)))))).
Qed.
Print Assumptions C17_valid.

(** two different points *)
Example C17_ex : valid (pt_SetBase R51) /\ valid (pt_SetZero R51) /\ pt_Equals R51 (pt_SetBase R51) (pt_SetZero R51) = false.
Proof. exact (conj valid_Base (conj valid_Zero base_nonzero)). Qed.

(** ** C18 *)

Theorem C18_scalarMult : forall P A s, represents P A -> reduced s ->
  represents (pt_ScalarMult R51 P s) (Emul (scv s) A).
Proof. exact rep_ScalarMult. Qed.
Print Assumptions C18_scalarMult.

Theorem C18_element : forall P A s, element P A -> reduced s -> element (pt_ScalarMult R51 P s) (Emul (scv s) A).
Proof. exact elt_ScalarMult. Qed.
Print Assumptions C18_element.

(** [Emul] is repeated addition. *)
Theorem C18_Emul_sum : forall n A, Emul 0 A = E0 /\ Emul (n + 1) A = Eadd (Emul n A) A.
Proof. exact (fun n A => conj (Emul_0 A) (Emul_succ n A)). Qed.
Print Assumptions C18_Emul_sum.

Example C18_ex : represents (pt_ScalarMult R51 (pt_SetBase R51) (sc_setBigInt (l - 1))) (Emul (l - 1) (Eadd EB T4')).
Proof.
  destruct (setBigInt_spec (l - 1)) as [hs es]. rewrite Z.mod_small in es by (pose proof l_gt; lia).
  rewrite <- es at 2. exact (C18_scalarMult _ _ _ C16_base hs).
Qed.

(** ** C19: [Some] says that no table index is out of range and that the loops end *)

Theorem C19_publicScalarMult : forall P A s, represents P A -> reduced s ->
  exists R, pt_PublicScalarMult R51 P s = Some R /\ represents R (Emul (scv s) A).
Proof. exact rep_PublicScalarMult. Qed.
Print Assumptions C19_publicScalarMult.

Theorem C19_same : forall P s, valid P -> reduced s ->
  exists R, pt_PublicScalarMult R51 P s = Some R /\ valid R /\ pt_Equals R51 R (pt_ScalarMult R51 P s) = true.
Proof. exact public_same. Qed.
Print Assumptions C19_same.

Example C19_ex : valid (pt_SetBase R51) /\ reduced (sc_setBigInt (l - 1)).
Proof. exact (conj valid_Base (proj1 (setBigInt_spec (l - 1)))). Qed.

(** ** C20 *)

Theorem C20_tables : forall P A s, represents P A -> reduced s ->
  represents (pt_ScalarMultTable R51 (pt_Compute R51 P) s) (Emul (scv s) A) /\
  exists R, pt_PublicScalarMultTable R51 (pt_Compute R51 P) s = Some R /\ represents R (Emul (scv s) A).
Proof. exact rep_tables. Qed.
Print Assumptions C20_tables.

(** what [Compute] stores *)
Theorem C20_entries : forall P A i j, represents P A -> (i < 32)%nat -> (j < 8)%nat ->
  niels_of (tbl_at R51 (pt_Compute R51 P) i j) (Emul ((Z.of_nat j + 1) * 256 ^ Z.of_nat i) A).
Proof. exact table_entries. Qed.
Print Assumptions C20_entries.

Example C20_ex : represents (pt_ScalarMultTable R51 (pt_Compute R51 (pt_SetBase R51)) (sc_setBigInt (-1))) (Emul (l - 1) (Eadd EB T4')).
Proof.
  destruct (setBigInt_spec (-1)) as [hs es].
  assert (e : scv (sc_setBigInt (-1)) = l - 1).
  { rewrite es. symmetry. apply (Z.mod_unique_pos _ _ (-1)); [pose proof l_gt; lia | lia]. }
  rewrite <- e. exact (proj1 (C20_tables _ _ _ C16_base hs)).
Qed.

(** ** C21 *)

(** all 256 entries of the literal table *)
Theorem C21_table : forall i j, (i < 32)%nat -> (j < 8)%nat ->
  niels_of (tbl_at R51 r51_baseTable i j) (Emul ((Z.of_nat j + 1) * 256 ^ Z.of_nat i) (Eadd EB T4')).
Proof. exact base_entries. Qed.
Print Assumptions C21_table.

Theorem C21_mult : forall s, reduced s ->
  element (pt_ScalarMultBase R51 r51_baseTable s) (Emul (scv s) EBc) /\
  exists R, pt_PublicScalarMultBase R51 r51_baseTable s = Some R /\ element R (Emul (scv s) EBc).
Proof. exact base_mult. Qed.
Print Assumptions C21_mult.

(** both are [Equals] to any representation of s times the RFC 8032 base point *)
Theorem C21_class : forall s P, reduced s -> element P (Emul (scv s) EB) ->
  pt_Equals R51 (pt_ScalarMultBase R51 r51_baseTable s) P = true /\
  exists R, pt_PublicScalarMultBase R51 r51_baseTable s = Some R /\ pt_Equals R51 R P = true.
Proof. exact base_class. Qed.
Print Assumptions C21_class.

(** 4/5 is the y coordinate of [EB] and its x coordinate is even. *)
Example C21_ex : (ey EB * #5 = #4)%F /\ Fneg (ex EB) = false /\ EBc = Eadd EB T4' /\ reduced (sc_setBigInt (l - 1)).
Proof. exact (conj (proj1 EB_def) (conj (proj2 EB_def) (conj EBc_eq (proj1 (setBigInt_spec (l - 1)))))). Qed.

(** ** C22 *)

Theorem C22_cyclic : forall P, valid P ->
  exists s, reduced s /\ pt_Equals R51 P (pt_ScalarMultBase R51 r51_baseTable s) = true /\
    forall t, reduced t -> pt_Equals R51 P (pt_ScalarMultBase R51 r51_baseTable t) = true -> t = s.
Proof. exact cyclic. Qed.
Print Assumptions C22_cyclic.

Theorem C22_order : forall P, valid P ->
  pt_Equals R51 (pt_Add R51 (pt_ScalarMult R51 P (sc_setBigInt (l - 1))) P) (pt_SetZero R51) = true.
Proof. exact order_l. Qed.
Print Assumptions C22_order.

Theorem C22_base_nonzero : pt_Equals R51 (pt_SetBase R51) (pt_SetZero R51) = false.
Proof. exact base_nonzero. Qed.
Print Assumptions C22_base_nonzero.

Theorem C22_prime : Znumtheory.prime l /\ l = 2 ^ 252 + 27742317777372353535851937790883648493.
Proof. exact (conj prime_l eq_refl). Qed.
Print Assumptions C22_prime.

Example C22_ex : valid (pt_Add R51 (pt_SetBase R51) (pt_SetBase R51)).
Proof. exact valid_2B. Qed.

(** ** C23 *)

Theorem C23_add : forall P a b, valid P -> reduced a -> reduced b ->
  pt_Equals R51 (pt_ScalarMult R51 P (sc_add a b)) (pt_Add R51 (pt_ScalarMult R51 P a) (pt_ScalarMult R51 P b)) = true.
Proof. exact act_add. Qed.
Print Assumptions C23_add.

Theorem C23_sub : forall P a b, valid P -> reduced a -> reduced b ->
  pt_Equals R51 (pt_ScalarMult R51 P (sc_sub a b)) (pt_Sub R51 (pt_ScalarMult R51 P a) (pt_ScalarMult R51 P b)) = true.
Proof. exact act_sub. Qed.
Print Assumptions C23_sub.

Theorem C23_mul : forall P a b, valid P -> reduced a -> reduced b ->
  pt_Equals R51 (pt_ScalarMult R51 P (sc_mul a b)) (pt_ScalarMult R51 (pt_ScalarMult R51 P b) a) = true.
Proof. exact act_mul. Qed.
Print Assumptions C23_mul.

Theorem C23_neg : forall P a, valid P -> reduced a ->
  pt_Equals R51 (pt_ScalarMult R51 P (sc_neg a)) (pt_Neg R51 (pt_ScalarMult R51 P a)) = true.
Proof. exact act_neg. Qed.
Print Assumptions C23_neg.

Theorem C23_one : forall P, valid P -> pt_Equals R51 (pt_ScalarMult R51 P scOne) P = true.
Proof. exact act_one. Qed.
Print Assumptions C23_one.

Theorem C23_zero : forall P, valid P -> pt_Equals R51 (pt_ScalarMult R51 P scZero) (pt_SetZero R51) = true.
Proof. exact act_zero. Qed.
Print Assumptions C23_zero.

Theorem C23_dist : forall P Q a, valid P -> valid Q -> reduced a ->
  pt_Equals R51 (pt_ScalarMult R51 (pt_Add R51 P Q) a) (pt_Add R51 (pt_ScalarMult R51 P a) (pt_ScalarMult R51 Q a)) = true.
Proof. exact act_dist. Qed.
Print Assumptions C23_dist.

Theorem C23_inverse : forall P a, valid P -> reduced a -> scv a <> 0 ->
  pt_Equals R51 (pt_ScalarMult R51 (pt_ScalarMult R51 P a) (sc_inverse a)) P = true.
Proof. exact act_inverse. Qed.
Print Assumptions C23_inverse.

Theorem C23_compat : forall P Q a, valid P -> valid Q -> reduced a -> pt_Equals R51 P Q = true ->
  pt_Equals R51 (pt_ScalarMult R51 P a) (pt_ScalarMult R51 Q a) = true.
Proof. exact act_compat. Qed.
Print Assumptions C23_compat.

(** the action is free: different scalars give different multiples of a nonzero point *)
Theorem C23_free : forall P a b, valid P -> reduced a -> reduced b -> pt_Equals R51 P (pt_SetZero R51) <> true ->
  pt_Equals R51 (pt_ScalarMult R51 P a) (pt_ScalarMult R51 P b) = true -> a = b.
Proof. exact act_cancel. Qed.
Print Assumptions C23_free.

Example C23_ex : valid (pt_SetBase R51) /\ reduced scOne /\ scv scOne <> 0 /\ pt_Equals R51 (pt_SetBase R51) (pt_SetZero R51) <> true.
Proof.
  refine (conj valid_Base (conj (proj1 scOne_ok) (conj _ _))); [discriminate|]. rewrite base_nonzero. discriminate.
Qed.

(** ** C24 *)

Theorem C24_equals : forall P Q A B, element P A -> element Q B ->
  (pt_Equals R51 P Q = true <-> In (Eadd A (Eopp B)) [E0; T2; T4; T4']) /\
  pt_EqualsI R51 P Q = Z.b2z (pt_Equals R51 P Q).
Proof. exact Equals_torsion. Qed.
Print Assumptions C24_equals.

(** the four torsion points are (0, 1), (0, -1), (i, 0) and (-i, 0) *)
Theorem C24_torsion : (ex E0 = F0 /\ ey E0 = F1) /\ (ex T2 = F0 /\ ey T2 = (- F1)%F) /\ (ex T4 = Fi /\ ey T4 = F0) /\
  (ex T4' = (- Fi)%F /\ ey T4' = F0).
Proof. exact torsion_coords. Qed.
Print Assumptions C24_torsion.

Theorem C24_refl : forall P, valid P -> pt_Equals R51 P P = true.
Proof. exact Equals_refl. Qed.
Print Assumptions C24_refl.

Theorem C24_sym : forall P Q, valid P -> valid Q -> pt_Equals R51 P Q = pt_Equals R51 Q P.
Proof. exact Equals_sym. Qed.
Print Assumptions C24_sym.

Theorem C24_trans : forall P Q R, valid P -> valid Q -> valid R -> pt_Equals R51 P Q = true -> pt_Equals R51 Q R = true ->
  pt_Equals R51 P R = true.
Proof. exact Equals_trans. Qed.
Print Assumptions C24_trans.

(** two representations of different curve points of the same class, and two classes *)
Example C24_ex : element (pt_SetBase R51) (Eadd EB T4') /\ In (Eadd (Eadd EB T4') (Eopp EB)) [E0; T2; T4; T4'] /\
  pt_Equals R51 (pt_SetBase R51) (pt_SetZero R51) = false.
Proof.
  refine (conj _ (conj (proj1 (Req_torsion _ _) _) base_nonzero)).
  - rewrite <- EBc_eq. exact elt_Base.
  - rewrite <- EBc_eq. exact EBc_Req.
Qed.

(** ** C25 *)

Theorem C25_injective : forall P Q, valid P -> valid Q -> (pt_Bytes R51 P = pt_Bytes R51 Q <-> pt_Equals R51 P Q = true).
Proof. exact enc_iff. Qed.
Print Assumptions C25_injective.

Theorem C25_length : forall P, valid P -> bytes 32 (pt_Bytes R51 P).
Proof. exact enc_length. Qed.
Print Assumptions C25_length.

(** The encoding is the one of the ristretto specification: the even s with y = (1 - s^2)/(1 + s^2)
    for the member (x, y) of the class for which x and xy are even and y is not zero. *)
Theorem C25_specification : forall P A, element P A -> exists s C, pt_Bytes R51 P = le_bytes 32 (fval s) /\
  In (Eadd C (Eopp A)) [E0; T2; T4; T4'] /\ (ey C * (F1 + s * s) = F1 - s * s)%F /\
  Z.even (fval s) = true /\ Z.even (fval (ex C)) = true /\ Z.even (fval (ex C * ey C)%F) = true /\ ey C <> F0.
Proof. exact enc_canonical. Qed.
Print Assumptions C25_specification.

(** the encoding of the base point in RFC 9496, appendix A.1 *)
Example C25_ex : pt_Bytes R51 (pt_SetBase R51) =
  [0xe2; 0xf2; 0xae; 0x0a; 0x6a; 0xbc; 0x4e; 0x71; 0xa8; 0x84; 0xa9; 0x61; 0xc5; 0x00; 0x51; 0x5f;
   0x58; 0xe3; 0x0b; 0x6a; 0xa5; 0x82; 0xdd; 0x8d; 0xb6; 0xa6; 0x59; 0x45; 0xe0; 0x8d; 0x2d; 0x76].
Proof. exact base_encoding. Qed.

(** ** C26 *)

Theorem C26_roundtrip : forall P, valid P ->
  exists Q, pt_SetBytes R51 (pt_Bytes R51 P) = (true, Q) /\ valid Q /\ pt_Equals R51 Q P = true.
Proof. exact dec_enc. Qed.
Print Assumptions C26_roundtrip.

Theorem C26_binary : forall P R, valid P ->
  exists Q, pt_UnmarshalBinary R51 R (pt_MarshalBinary R51 P) = (true, Q) /\ valid Q /\ pt_Equals R51 Q P = true.
Proof. exact dec_enc_binary. Qed.
Print Assumptions C26_binary.

Example C26_ex : valid (pt_Add R51 (pt_SetBase R51) (pt_SetBase R51)).
Proof. exact valid_2B. Qed.

(** ** C27 *)

Theorem C27_sound : forall b P, bytes 32 b -> pt_SetBytes R51 b = (true, P) -> valid P /\ pt_Bytes R51 P = b.
Proof. exact dec_sound. Qed.
Print Assumptions C27_sound.

Theorem C27_iff : forall b, bytes 32 b -> (fst (pt_SetBytes R51 b) = true <-> exists P, valid P /\ pt_Bytes R51 P = b).
Proof. exact dec_iff. Qed.
Print Assumptions C27_iff.

Theorem C27_length : forall P b, length b <> 32%nat -> pt_UnmarshalBinary R51 P b = (false, P).
Proof. exact unmarshal_length. Qed.
Print Assumptions C27_length.

Theorem C27_unmarshal : forall P b, length b = 32%nat -> pt_UnmarshalBinary R51 P b = pt_SetBytes R51 b.
Proof. exact unmarshal_32. Qed.
Print Assumptions C27_unmarshal.

(** an accepted string, and a rejected one *)
Example C27_ex : bytes 32 (pt_Bytes R51 (pt_SetBase R51)) /\ fst (pt_SetBytes R51 (pt_Bytes R51 (pt_SetBase R51))) = true /\
  bytes 32 (1 :: repeat 0 31) /\ fst (pt_SetBytes R51 (1 :: repeat 0 31)) = false.
Proof.
  refine (conj (enc_length _ valid_Base) (conj _ (conj _ odd_rejected))).
  - apply (C27_iff _ (enc_length _ valid_Base)). exists (pt_SetBase R51). exact (conj valid_Base eq_refl).
  - split; [reflexivity|]. repeat constructor; lia.
Qed.

(** ** C28 *)

Theorem C28_failed : forall b, bytes 32 b -> fst (pt_SetBytes R51 b) = false ->
  snd (pt_SetBytes R51 b) = mkExt (Fe51 0 0 0 0 0) (Fe51 0 0 0 0 0) (Fe51 0 0 0 0 0) (Fe51 0 0 0 0 0).
Proof. exact dec_fail. Qed.
Print Assumptions C28_failed.

Theorem C28_zerovalue_invalid : ~ valid (mkExt (Fe51 0 0 0 0 0) (Fe51 0 0 0 0 0) (Fe51 0 0 0 0 0) (Fe51 0 0 0 0 0)).
Proof. exact zerovalue_invalid. Qed.
Print Assumptions C28_zerovalue_invalid.

Theorem C28_zerovalue_equals : forall P, valid P ->
  let z := mkExt (Fe51 0 0 0 0 0) (Fe51 0 0 0 0 0) (Fe51 0 0 0 0 0) (Fe51 0 0 0 0 0) in
  pt_Equals R51 z P = true /\ pt_Equals R51 P z = true.
Proof. exact zerovalue_equals. Qed.
Print Assumptions C28_zerovalue_equals.

Example C28_ex : bytes 32 (1 :: repeat 0 31) /\ fst (pt_SetBytes R51 (1 :: repeat 0 31)) = false.
Proof. refine (conj _ odd_rejected). split; [reflexivity|]. repeat constructor; lia. Qed.

(** ** C35 *)

Theorem C35_elgamal : forall sk r P, reduced sk -> reduced r -> valid P ->
  exists c, eg_encrypt R51 r51_baseTable (eg_publicKey R51 r51_baseTable sk) P r = Some c /\
    valid (eg_decrypt R51 sk c) /\ pt_Equals R51 (eg_decrypt R51 sk c) P = true.
Proof. exact elgamal. Qed.
Print Assumptions C35_elgamal.

Example C35_ex : reduced (sc_setBigInt 12345) /\ reduced (sc_setBigInt (l - 1)) /\ valid (pt_Add R51 (pt_SetBase R51) (pt_SetBase R51)).
Proof. exact (conj (proj1 (setBigInt_spec _)) (conj (proj1 (setBigInt_spec _)) valid_2B)). Qed.
