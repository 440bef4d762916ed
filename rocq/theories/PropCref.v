(** Properties C47, C49 and C50: the C reference implementation /repo/cref/cref.c.

    [None] is undefined behaviour (signed overflow; shifts and conversions as GCC defines them, see CLang.v), so
    every [exists z, c_... = Some z] says that there is none.  [v25] is the integer represented by ten limbs,
    [bnd25 e o x] bounds the even and odd limbs, [cpoint P A] (CrefFacts.v) says that the limbs of [P] are in bounds and
    (x : y : z : t) are extended coordinates of the curve point [A]. *)
From Coq Require Import ZArith List Lia Bool.
From Verif Require Import Words Primes Fp Edwards GroupOrder RistrettoSpec Fe25Code Fe25Proofs FieldModel CurveModel RistrettoModel ElligatorSpec Backends
  CLang CrefFeCode CrefFe CrefCode CrefFacts.
Import ListNotations.
Open Scope Z_scope.

(** ** C47: field arithmetic *)
Theorem C47_mul : forall a b, bnd25 134217728 67779952 a -> bnd25 100663296 50834964 b ->
  exists z, c_mul a b = Some z /\ bnd25 33554432 16944988 z /\ v25 z mod p = (v25 a * v25 b) mod p.
Proof. exact cf_mul. Qed.
Print Assumptions C47_mul.

Theorem C47_square : forall a, bnd25 100663296 50834964 a ->
  exists z, c_square a = Some z /\ bnd25 33554432 16944988 z /\ v25 z mod p = (v25 a * v25 a) mod p.
Proof. exact cf_square. Qed.
Print Assumptions C47_square.

Theorem C47_square_double : forall a, bnd25 100663296 50834964 a ->
  exists z, c_square_double a = Some z /\ bnd25 33554432 16944988 z /\ v25 z mod p = (2 * (v25 a * v25 a)) mod p.
Proof. exact cf_square_double. Qed.
Print Assumptions C47_square_double.

Theorem C47_add : forall x y, bnd25 1073741823 1073741823 x -> bnd25 1073741823 1073741823 y -> exists z, c_add x y = Some z /\ v25 z = v25 x + v25 y.
Proof. exact cf_add. Qed.
Print Assumptions C47_add.

Theorem C47_sub : forall x y, bnd25 1073741823 1073741823 x -> bnd25 1073741823 1073741823 y -> exists z, c_sub x y = Some z /\ v25 z = v25 x - v25 y.
Proof. exact cf_sub. Qed.
Print Assumptions C47_sub.

Theorem C47_neg : forall x, bnd25 1073741823 1073741823 x -> exists z, c_neg x = Some z /\ v25 z = - v25 x.
Proof. exact cf_neg. Qed.
Print Assumptions C47_neg.

Theorem C47_cmov : forall r x b, bnd25 1073741823 1073741823 r -> bnd25 1073741823 1073741823 x -> c_cmov r x (Z.b2z b) = if b then x else r.
Proof. exact cf_cmov. Qed.
Print Assumptions C47_cmov.

Theorem C47_unpack : forall s, bytes 32 s ->
  exists z, c_unpack s = Some z /\ bnd25 33554432 16944988 z /\ v25 z mod p = (le_val s mod 2 ^ 255) mod p.
Proof. exact cf_unpack. Qed.
Print Assumptions C47_unpack.

Theorem C47_pack : forall x, bnd25 100663296 50834964 x -> c_pack x = Some (le_bytes 32 (v25 x mod p)).
Proof. exact cf_pack. Qed.
Print Assumptions C47_pack.

Theorem C47_tests : forall x y, bnd25 33554432 16944988 x -> bnd25 67108864 33889976 y ->
  c_iszero x = Some (Z.b2z (v25 x mod p =? 0)) /\ c_isnegative x = Some ((v25 x mod p) mod 2) /\
  c_iseq x y = Some (Z.b2z (v25 x mod p =? v25 y mod p)) /\ c_isone x = Some (Z.b2z (v25 x mod p =? 1)).
Proof. exact cf_tests. Qed.
Print Assumptions C47_tests.

Theorem C47_abs : forall x, bnd25 100663296 50834964 x -> exists z, c_abs x = Some z /\ bnd25 100663296 50834964 z /\
  v25 z mod p = (if Z.even (v25 x mod p) then v25 x mod p else (- v25 x) mod p).
Proof. exact cf_abs. Qed.
Print Assumptions C47_abs.

Theorem C47_invert : forall x, bnd25 100663296 50834964 x -> exists z, c_invert x = Some z /\ bnd25 33554432 16944988 z /\
  (v25 x mod p = 0 -> v25 z mod p = 0) /\ (v25 x mod p <> 0 -> (v25 z * v25 x) mod p = 1).
Proof. exact cf_invert. Qed.
Print Assumptions C47_invert.

(** Roots: [is_sq f] is [exists w, f = w * w] in GF(p), [Fi] the root of -1 of the code. *)
Theorem C47_invsqrt : forall x, bnd25 100663296 50834964 x -> exists z, c_invsqrt x = Some z /\ bnd25 33554432 16944988 z /\
  let f := of_Z (v25 x) in let g := of_Z (v25 z) in
  (f = F0 -> g = F0) /\ (f <> F0 -> is_sq f -> (g * g * f = F1)%F) /\ (f <> F0 -> ~ is_sq f -> (g * g * f <> F1)%F).
Proof. exact cf_invsqrt. Qed.
Print Assumptions C47_invsqrt.

Theorem C47_sqrt : forall x, bnd25 100663296 50834964 x -> exists z, c_sqrt x = Some z /\ bnd25 33554432 16944988 z /\
  let f := of_Z (v25 x) in let g := of_Z (v25 z) in is_sq f -> (g * g = f)%F.
Proof. exact cf_sqrt. Qed.
Print Assumptions C47_sqrt.

Theorem C47_invsqrti : forall x, bnd25 100663296 50834964 x -> exists b z, c_invsqrti x = Some (Z.b2z b, z) /\ bnd25 33554432 16944988 z /\
  let f := of_Z (v25 x) in let g := of_Z (v25 z) in
  (f = F0 -> b = false /\ g = F0) /\ (f <> F0 -> is_sq f -> b = true /\ (g * g * f = F1)%F) /\
  (f <> F0 -> ~ is_sq f -> b = false /\ (g * g * (Fi * f) = F1)%F).
Proof. exact cf_invsqrti. Qed.
Print Assumptions C47_invsqrti.

Theorem C47_sqrti : forall x, bnd25 100663296 50834964 x -> exists b z, c_sqrti x = Some (Z.b2z b, z) /\ bnd25 33554432 16944988 z /\
  let f := of_Z (v25 x) in let g := of_Z (v25 z) in
  (f = F0 -> b = false /\ g = F0) /\ (f <> F0 -> is_sq f -> b = true /\ (g * g = f)%F) /\
  (f <> F0 -> ~ is_sq f -> b = false /\ (g * g = Fi * f)%F).
Proof. exact cf_sqrti. Qed.
Print Assumptions C47_sqrti.

(** With the shifts of ISO C11, where a left shift of a negative number, or one that overflows, is undefined, the
    functions do have undefined behaviour: fe25519_mul on (-8192) * 8192, fe25519_pack on an unpacked number. *)
Theorem C47_iso_shifts_refuted : exists a b, bnd25 8192 0 a /\ bnd25 8192 0 b /\ ccall true p_mul (limbs_of a ++ limbs_of b) = None /\
  exists z, c_mul a b = Some z.
Proof. exact cf_strict. Qed.
Print Assumptions C47_iso_shifts_refuted.

Theorem C47_iso_shifts_pack_refuted : exists s x, bytes 32 s /\ c_unpack s = Some x /\ ccall true p_pack (limbs_of x) = None.
Proof. exact cf_strict_pack. Qed.
Print Assumptions C47_iso_shifts_pack_refuted.

Definition x47 : fe25 := Fe25 (-11) 100663 7 50000000 (-9) 10000000 (-100000000) 3 5 (-50000000).
Example C47_case : bnd25 100663296 50834964 x47 /\ v25 x47 mod p <> 0 /\
  c_mul x47 c_ecd = Some (Fe25 (-8455172) (-10103339) 27841683 7872746 16913740 10396508 4913486 (-567856) (-16042237) (-533938)).
Proof.
  refine (conj _ (conj _ _)).
  - cbv [bnd25 x47]. lia.
  - rewrite p_eq. vm_compute. discriminate.
  - vm_compute. reflexivity.
Qed.

(** ** C49: the group *)
Theorem C49_add : forall P Q A B, cpoint P A -> cpoint Q B -> exists R, g_add P Q = Some R /\ cpoint R (Eadd A B).
Proof. exact cp_add. Qed.
Print Assumptions C49_add.

Theorem C49_double : forall P A, cpoint P A -> exists R, g_double P = Some R /\ cpoint R (Eadd A A).
Proof. exact cp_double. Qed.
Print Assumptions C49_double.

Theorem C49_negate : forall P A, cpoint P A -> exists R, g_negate P = Some R /\ cpoint R (Eopp A).
Proof. exact cp_negate. Qed.
Print Assumptions C49_negate.

Theorem C49_equals : forall P Q A B, cpoint P A -> cpoint Q B ->
  exists r, g_equals P Q = Some (Z.b2z r) /\ (r = true <-> In (Eadd A (Eopp B)) [E0; T2; T4; T4']).
Proof. exact cp_equals. Qed.
Print Assumptions C49_equals.

(** group_ge_isneutral multiplies by 8; on doubles of points that is the same as equality with the neutral element. *)
Theorem C49_isneutral : forall P A, cpoint P A -> exists r, g_isneutral P = Some (Z.b2z r) /\ (r = true <-> Emul 8 A = E0).
Proof. exact cp_isneutral. Qed.
Print Assumptions C49_isneutral.

Theorem C49_isneutral_even : forall P A, cpoint P A -> even A -> exists r, g_isneutral P = Some (Z.b2z r) /\ (r = true <-> In A [E0; T2; T4; T4']).
Proof. exact cp_isneutral_even. Qed.
Print Assumptions C49_isneutral_even.

(** ** C50: encodings, against all three builds of the Go code ([point b Q B], [ops b]: see PropBackends.v) *)
Theorem C50_pack : forall b P Q A B, cpoint P A -> even A -> point b Q B ->
  exists s, g_pack P = Some s /\ bytes 32 s /\ (s = pt_Bytes (ops b) Q <-> In (Eadd A (Eopp B)) [E0; T2; T4; T4']).
Proof. exact cp_pack. Qed.
Print Assumptions C50_pack.

(** group_ge_unpack first clears the top bit and reduces modulo p; then it agrees with SetBytes. *)
Theorem C50_unpack : forall b buf, bytes 32 buf ->
  (exists P A Q B, g_unpack buf = Some (0, P) /\ cpoint P A /\ even A /\ g_pack P = Some (canonical_bytes buf) /\
     pt_SetBytes (ops b) (canonical_bytes buf) = (true, Q) /\ point b Q B /\ A = B) \/
  (g_unpack buf = Some (-1, Ge c_zero c_zero c_zero c_zero) /\
     pt_SetBytes (ops b) (canonical_bytes buf) = (false, ep_zerovalue (ops b))).
Proof. exact cp_unpack. Qed.
Print Assumptions C50_unpack.

(** So it does not accept the same encodings as SetBytes. *)
Theorem C50_same_decoder_refuted : forall b, exists buf P, bytes 32 buf /\ g_unpack buf = Some (0, P) /\ fst (pt_SetBytes (ops b) buf) = false.
Proof. exact cp_unpack_loose. Qed.
Print Assumptions C50_same_decoder_refuted.

(** fe25519_unpack, group_ge_elligator and group_ge_pack give the encoding of SetElligator. *)
Theorem C50_elligator : forall b buf, bytes 32 buf -> exists r P, c_unpack buf = Some r /\ g_elligator r = Some P /\
  g_pack P = Some (pt_Bytes (ops b) (pt_SetElligator (ops b) buf)).
Proof. exact cp_elligator. Qed.
Print Assumptions C50_elligator.

Example C49_C50_case : cpoint (Ge c_zero c_one c_one c_zero) E0 /\ even E0 /\ point PureGo64 (pt_SetZero (ops PureGo64)) E0.
Proof.
  split; [|split].
  - apply cpoint_cge. exists F1. refine (conj _ (conj _ (conj _ (conj _ _)))).
    + intro h. apply (f_equal fval) in h. vm_compute in h. discriminate h.
    + split; [cbn; lia|]. apply F_eq. vm_compute. reflexivity.
    + split; [cbn; lia|]. apply F_eq. vm_compute. reflexivity.
    + split; [cbn; lia|]. apply F_eq. vm_compute. reflexivity.
    + split; [cbn; lia|]. apply F_eq. vm_compute. reflexivity.
  - apply even_0.
  - exact (proj1 (proj1 (b_const PureGo64))).
Qed.
