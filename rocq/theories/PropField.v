(** Properties C11 to C15, and the field part of C10: the type [FieldElement] of the 64-bit
    (radix 2^51) backend.

    [v51 x] is the integer [sum of x_i * 2^(51 i)] of the five limbs of [x], [bnd51 m x] says
    that each limb is in [0, m]; [U51 = 2^51 + 2^13] bounds the limbs of every product, and
    [val51 x] is [v51 x] as an element of GF(p). *)
From Coq Require Import ZArith List Lia Bool.
From Verif Require Import Words Primes Fp NumTheory Fe51Code Fe51Proofs FieldModel FieldLaws FieldFacts Fe51Laws Field51Facts.
Import ListNotations.
Open Scope Z_scope.

(** Sample elements: every limb at the bound of [Mul], and the residue p - 1 written with
    limbs that are not canonical. *)
Definition fe_max : fe51 := Fe51 (2 ^ 54 - 1) (2 ^ 54 - 1) (2 ^ 54 - 1) (2 ^ 54 - 1) (2 ^ 54 - 1).
Definition fe_pm1 : fe51 := Fe51 (2 * (2 ^ 51 - 19) - 1) (2 * (2 ^ 51 - 1)) (2 * (2 ^ 51 - 1)) (2 * (2 ^ 51 - 1)) (2 * (2 ^ 51 - 1)).

Lemma fe_max_bnd : bnd51 (2 ^ 54 - 1) fe_max.
Proof. cbn. lia. Qed.
Lemma fe_pm1_bnd : bnd51 (2 * U51) fe_pm1 /\ v51 fe_pm1 = 2 * p - 1.
Proof. split; [unfold U51; cbn; lia | vm_compute; reflexivity]. Qed.

(** ** C10, field elements *)

Theorem C10_field : forall x y b, bnd51 (2 ^ 64 - 1) x -> bnd51 (2 ^ 64 - 1) y ->
  r51_condSet x y (Z.b2z b) = if b then y else x.
Proof. exact f51_condSet. Qed.
Print Assumptions C10_field.

Example C10_field_ex : r51_condSet fe_max fe_pm1 1 = fe_pm1 /\ r51_condSet fe_max fe_pm1 0 = fe_max /\ fe_max <> fe_pm1.
Proof. split; [reflexivity|]. split; [reflexivity|]. vm_compute. discriminate. Qed.

(** ** C11 *)

Theorem C11_mul : forall a b, bnd51 (2 ^ 54 - 1) a -> bnd51 (2 ^ 54 - 1) b ->
  bnd51 U51 (r51_mul a b) /\ v51 (r51_mul a b) mod p = (v51 a * v51 b) mod p.
Proof. exact f51_mul. Qed.
Print Assumptions C11_mul.

Theorem C11_square : forall a, bnd51 (2 ^ 54 - 1) a ->
  bnd51 U51 (r51_square a) /\ v51 (r51_square a) mod p = (v51 a * v51 a) mod p.
Proof. exact f51_square. Qed.
Print Assumptions C11_square.

Theorem C11_doubledSquare : forall a, bnd51 (2 ^ 53 + 2 ^ 15) a ->
  bnd51 U51 (r51_doubledSquare a) /\ v51 (r51_doubledSquare a) mod p = (2 * (v51 a * v51 a)) mod p.
Proof. exact f51_doubledSquare. Qed.
Print Assumptions C11_doubledSquare.

(** the lazy addition, subtraction and negation *)
Theorem C11_lazy_add : forall m n a b, bnd51 m a -> bnd51 n b -> m + n < 2 ^ 64 ->
  bnd51 (m + n) (r51_add a b) /\ v51 (r51_add a b) = v51 a + v51 b.
Proof. exact f51_add. Qed.
Print Assumptions C11_lazy_add.

Theorem C11_lazy_sub : forall m a b, bnd51 m a -> m < 2 ^ 63 -> bnd51 (2 ^ 63 - 1) b ->
  bnd51 (m + (2 ^ 52 - 2)) (r51_sub a b) /\ v51 (r51_sub a b) mod p = (v51 a - v51 b) mod p.
Proof. exact f51_sub. Qed.
Print Assumptions C11_lazy_sub.

Theorem C11_neg : forall a, bnd51 (2 ^ 63 - 1) a ->
  bnd51 (2 ^ 52 - 2) (r51_neg a) /\ v51 (r51_neg a) mod p = (- v51 a) mod p.
Proof. exact f51_neg. Qed.
Print Assumptions C11_neg.

(** [Add] and [Sub] return the canonical representative. *)
Theorem C11_Add : forall a b, bnd51 (2 ^ 62 - 1) a -> bnd51 (2 ^ 62 - 1) b ->
  bnd51 (2 ^ 51 - 1) (fe_Add R51 a b) /\ v51 (fe_Add R51 a b) = (v51 a + v51 b) mod p.
Proof. exact f51_Add. Qed.
Print Assumptions C11_Add.

Theorem C11_Sub : forall a b, bnd51 (2 ^ 62 - 1) a -> bnd51 (2 ^ 62 - 1) b ->
  bnd51 (2 ^ 51 - 1) (fe_Sub R51 a b) /\ v51 (fe_Sub R51 a b) = (v51 a - v51 b) mod p.
Proof. exact f51_Sub. Qed.
Print Assumptions C11_Sub.

Theorem C11_normalize : forall a, bnd51 (2 ^ 63 - 1) a ->
  bnd51 (2 ^ 51 - 1) (r51_setReduced a) /\ v51 (r51_setReduced a) = v51 a mod p.
Proof. exact f51_normalize. Qed.
Print Assumptions C11_normalize.

Example C11_ex : bnd51 (2 ^ 54 - 1) fe_max /\ v51 (r51_mul fe_max fe_max) mod p = (v51 fe_max * v51 fe_max) mod p
  /\ v51 (r51_square fe_max) mod p = (v51 fe_max * v51 fe_max) mod p
  /\ v51 (r51_doubledSquare fe_pm1) mod p = 2 /\ v51 (fe_Add R51 fe_pm1 fe_pm1) = p - 2
  /\ v51 (fe_Sub R51 fe_pm1 fe_max) = (p - 1 - v51 fe_max) mod p.
Proof. split; [exact fe_max_bnd|]. vm_compute. repeat split; reflexivity. Qed.

(** ** C12 *)

Theorem C12_bytes : forall a, bnd51 (2 ^ 63 - 1) a ->
  bytes 32 (r51_bytes a) /\ le_val (r51_bytes a) = v51 a mod p.
Proof. exact f51_bytes. Qed.
Print Assumptions C12_bytes.

Theorem C12_setBytes : forall s, bytes 32 s ->
  bnd51 (2 ^ 51 - 1) (r51_setBytes s) /\ v51 (r51_setBytes s) = le_val s mod 2 ^ 255.
Proof. exact f51_setBytes. Qed.
Print Assumptions C12_setBytes.

Theorem C12_bytes_setBytes : forall s, bytes 32 s -> le_val s < p -> r51_bytes (r51_setBytes s) = s.
Proof. exact f51_bytes_setBytes. Qed.
Print Assumptions C12_bytes_setBytes.

Theorem C12_setBytes_bytes : forall a, bnd51 (2 ^ 63 - 1) a -> v51 (r51_setBytes (r51_bytes a)) = v51 a mod p.
Proof. exact f51_setBytes_bytes. Qed.
Print Assumptions C12_setBytes_bytes.

(** for every integer, negative ones included *)
Theorem C12_SetBigInt : forall x, bnd51 U51 (fe_SetBigInt R51 x) /\ v51 (fe_SetBigInt R51 x) mod p = x mod p.
Proof. exact f51_SetBigInt. Qed.
Print Assumptions C12_SetBigInt.

Theorem C12_BigInt : forall a, bnd51 (7 * U51) a -> fst (fe_BigInt R51 a) = v51 a mod p.
Proof. exact f51_BigInt. Qed.
Print Assumptions C12_BigInt.

Example C12_ex : bnd51 (2 ^ 63 - 1) fe_pm1 /\ r51_bytes fe_pm1 = 0xec :: repeat 0xff 30 ++ [0x7f]
  /\ v51 (r51_setBytes (0xed :: repeat 0xff 31)) = p /\ fst (fe_BigInt R51 fe_pm1) = p - 1
  /\ v51 (fe_SetBigInt R51 (-5)) mod p = p - 5.
Proof. split; [cbn; lia|]. vm_compute. repeat split; reflexivity. Qed.

(** ** C13 *)

Theorem C13_inverse : forall a, bnd51 (7 * U51) a -> bnd51 U51 (fe_Inverse R51 a) /\
  (v51 a mod p <> 0 -> (v51 (fe_Inverse R51 a) * v51 a) mod p = 1) /\
  (v51 a mod p = 0 -> v51 (fe_Inverse R51 a) mod p = 0).
Proof. exact f51_Inverse. Qed.
Print Assumptions C13_inverse.

Example C13_ex : bnd51 (7 * U51) fe_pm1 /\ v51 fe_pm1 mod p <> 0 /\ (v51 (fe_Inverse R51 fe_pm1) * v51 fe_pm1) mod p = 1.
Proof.
  assert (hb : bnd51 (7 * U51) fe_pm1) by (unfold U51; cbn; lia).
  assert (hn : v51 fe_pm1 mod p <> 0) by (vm_compute; discriminate).
  exact (conj hb (conj hn (proj1 (proj2 (C13_inverse fe_pm1 hb)) hn))).
Qed.

(** ** C14 *)

Theorem C14_InvSqrt : forall a, bnd51 (7 * U51) a ->
  let f := val51 a in let g := val51 (fe_InvSqrt R51 a) in
  bnd51 U51 (fe_InvSqrt R51 a) /\ (f = F0 -> g = F0) /\
  (f <> F0 -> is_sq f -> (g * g * f)%F = F1) /\ (f <> F0 -> ~ is_sq f -> (g * g * f)%F <> F1).
Proof. exact f51_InvSqrt. Qed.
Print Assumptions C14_InvSqrt.

Theorem C14_InvSqrtI : forall a, bnd51 (7 * U51) a ->
  let f := val51 a in let g := val51 (snd (fe_InvSqrtI R51 a)) in let b := fst (fe_InvSqrtI R51 a) in
  bnd51 U51 (snd (fe_InvSqrtI R51 a)) /\ (f = F0 -> b = 0 /\ g = F0) /\
  (f <> F0 -> is_sq f -> b = 1 /\ (g * g * f)%F = F1) /\ (f <> F0 -> ~ is_sq f -> b = 0 /\ (g * g * (Fi * f))%F = F1).
Proof. exact f51_InvSqrtI. Qed.
Print Assumptions C14_InvSqrtI.

(** [Fneg g = false]: the canonical representative of [g] is even *)
Theorem C14_Sqrt : forall a, bnd51 (7 * U51) a -> is_sq (val51 a) ->
  let g := val51 (fe_Sqrt R51 a) in bnd51 (2 * U51) (fe_Sqrt R51 a) /\ (g * g)%F = val51 a /\ Fneg g = false.
Proof. exact f51_Sqrt. Qed.
Print Assumptions C14_Sqrt.

(** -1, written with limbs that are not canonical, is a square; i is not. *)
Example C14_ex : bnd51 (7 * U51) fe_pm1 /\ is_sq (val51 fe_pm1) /\ val51 fe_pm1 <> F0 /\ fst (fe_InvSqrtI R51 fe_pm1) = 1.
Proof.
  assert (hb : bnd51 (7 * U51) fe_pm1) by (unfold U51; cbn; lia).
  assert (he : val51 fe_pm1 = (- F1)%F) by (apply F_eq; vm_compute; reflexivity).
  assert (hs : is_sq (val51 fe_pm1)) by (rewrite he; exists Fi; exact Fi_sq).
  assert (hn : val51 fe_pm1 <> F0) by (rewrite he; intro h; apply (f_equal fval) in h; vm_compute in h; discriminate).
  exact (conj hb (conj hs (conj hn (proj1 (proj1 (proj2 (proj2 (C14_InvSqrtI fe_pm1 hb))) hn hs))))).
Qed.

(** ** C15 *)

Theorem C15_IsNegativeI : forall a, bnd51 (7 * U51) a -> fe_IsNegativeI R51 a = (Z.b2z (Z.odd (v51 a mod p)), a).
Proof. exact f51_IsNegativeI. Qed.
Print Assumptions C15_IsNegativeI.

Theorem C15_IsNonZeroI : forall a, bnd51 (7 * U51) a -> fe_IsNonZeroI R51 a = (Z.b2z (negb (v51 a mod p =? 0)), a).
Proof. exact f51_IsNonZeroI. Qed.
Print Assumptions C15_IsNonZeroI.

Theorem C15_Equals : forall a b, bnd51 (3 * U51) a -> bnd51 (3 * U51) b ->
  fe_EqualsI R51 a b = Z.b2z (v51 a mod p =? v51 b mod p) /\ fe_Equals R51 a b = (v51 a mod p =? v51 b mod p).
Proof. exact f51_EqualsI. Qed.
Print Assumptions C15_Equals.

Theorem C15_IsOneI : forall a, bnd51 (5 * U51) a -> fe_IsOneI R51 a = Z.b2z (v51 a mod p =? 1).
Proof. exact f51_IsOneI. Qed.
Print Assumptions C15_IsOneI.

(** [Abs] into another element, and in place *)
Theorem C15_Abs : forall a, bnd51 (2 * U51) a -> let r := fe_Abs R51 a in let s := fe_Abs_self R51 a in
  snd r = a /\ bnd51 (2 * U51) (fst r) /\ bnd51 (2 * U51) s /\
  v51 (fst r) mod p = (if Z.odd (v51 a mod p) then (- v51 a) mod p else v51 a mod p) /\
  v51 s mod p = (if Z.odd (v51 a mod p) then (- v51 a) mod p else v51 a mod p).
Proof. exact f51_Abs. Qed.
Print Assumptions C15_Abs.

(** p as limbs is zero, p + 1 is one: representations that are not canonical. *)
Example C15_ex : let z := Fe51 (2 ^ 51 - 19) (2 ^ 51 - 1) (2 ^ 51 - 1) (2 ^ 51 - 1) (2 ^ 51 - 1) in
  let o := Fe51 (2 ^ 51 - 18) (2 ^ 51 - 1) (2 ^ 51 - 1) (2 ^ 51 - 1) (2 ^ 51 - 1) in
  bnd51 (2 * U51) z /\ fst (fe_IsNonZeroI R51 z) = 0 /\ fst (fe_IsNegativeI R51 z) = 0 /\ fe_IsOneI R51 o = 1
  /\ fe_Equals R51 z (Fe51 0 0 0 0 0) = true /\ fe_EqualsI R51 z o = 0 /\ v51 (fst (fe_Abs R51 o)) mod p = p - 1
  /\ v51 (fe_Abs_self R51 fe_pm1) mod p = p - 1.
Proof. cbv zeta. split; [unfold U51; cbn; lia|]. vm_compute. repeat split; reflexivity. Qed.
