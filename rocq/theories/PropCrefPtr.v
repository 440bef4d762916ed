(** Property C52: pointers that overlap in calls of the C reference implementation /repo/cref/cref.c.

    A memory [m] maps addresses to field elements; [ge_at m a] are the four at [a], a group_ge.  A call gets the addresses its
    arguments point to and [n], the first address that is free for local variables, so everything below [n] belongs to the
    callers.  Unless a hypothesis excludes it the result may overlap the arguments in any way.  [None] is undefined
    behaviour; [cpoint P A]: [P] represents the curve point [A] (CrefFacts.v). *)
From Coq Require Import ZArith List Lia Bool.
From Verif Require Import Words Primes Fp Edwards GroupOrder RistrettoSpec Fe25Code Fe25Proofs FieldModel CurveModel RistrettoModel Backends ScalarCode ScalarModel ScalarFacts
  CLang CrefFeCode CrefFe CrefCode CrefFacts CrefScalar CrefScalarOps CrefTable CrefMul CrefMulProofs CrefPtr CrefPtrCode CrefPtrProofs CrefPtrMul CrefPtrMulProofs
  CrefLimbs CrefLimbsProofs CrefPtrFacts.
Import ListNotations.
Open Scope Z_scope.

(** ** One field operation, on a memory of limbs *)

(** Here every limb is read when the line that mentions it is executed and written when it is assigned; [cells m] are the
    field elements of the memory.  Each function changes the field element at [h] alone, to the value of C47. *)
Theorem C52_fe_mul : forall h f g m v, c_mul (cells m f) (cells m g) = Some v ->
  exists m', lcall2 p_mul h f g m = Some m' /\ cells m' h = v /\ forall a, a <> h -> cells m' a = cells m a.
Proof. exact lf_mul. Qed.
Print Assumptions C52_fe_mul.
Theorem C52_fe_add : forall h f g m v, c_add (cells m f) (cells m g) = Some v ->
  exists m', lcall2 p_add h f g m = Some m' /\ cells m' h = v /\ forall a, a <> h -> cells m' a = cells m a.
Proof. exact lf_add. Qed.
Print Assumptions C52_fe_add.
Theorem C52_fe_sub : forall h f g m v, c_sub (cells m f) (cells m g) = Some v ->
  exists m', lcall2 p_sub h f g m = Some m' /\ cells m' h = v /\ forall a, a <> h -> cells m' a = cells m a.
Proof. exact lf_sub. Qed.
Print Assumptions C52_fe_sub.
Theorem C52_fe_neg : forall h f m v, c_neg (cells m f) = Some v ->
  exists m', lcall1 p_neg h f m = Some m' /\ cells m' h = v /\ forall a, a <> h -> cells m' a = cells m a.
Proof. exact lf_neg. Qed.
Print Assumptions C52_fe_neg.
Theorem C52_fe_square : forall h f m v, c_square (cells m f) = Some v ->
  exists m', lcall1 p_square h f m = Some m' /\ cells m' h = v /\ forall a, a <> h -> cells m' a = cells m a.
Proof. exact lf_square. Qed.
Print Assumptions C52_fe_square.
Theorem C52_fe_square_double : forall h f m v, c_square_double (cells m f) = Some v ->
  exists m', lcall1 p_square_double h f m = Some m' /\ cells m' h = v /\ forall a, a <> h -> cells m' a = cells m a.
Proof. exact lf_square_double. Qed.
Print Assumptions C52_fe_square_double.
Theorem C52_fe_cmov : forall r x b m, cells (l_cmov r x b m) r = c_cmov (cells m r) (cells m x) b /\
  forall a, a <> r -> cells (l_cmov r x b m) a = cells m a.
Proof. exact lf_cmov. Qed.
Print Assumptions C52_fe_cmov.

(** ** Functions that call these *)
Theorem C52_fe_calls : forall r x n m, (r < n)%nat -> (x < n)%nat ->
  let computes := fun (f : fe25 -> option fe25) (run : nat -> nat -> nat -> cmem -> option cmem) => forall w, f (m x) = Some w ->
    exists m', run r x n m = Some m' /\ m' r = w /\ forall a, (a < n)%nat -> a <> r -> m' a = m a in
  computes c_double m_c_double /\ computes c_invert m_c_invert /\ computes c_pow2523 m_c_pow2523 /\ computes c_invsqrt m_c_invsqrt /\
  computes c_sqrt m_c_sqrt /\ computes c_abs m_c_abs /\ (r <> x -> computes c_triple m_c_triple).
Proof. exact mf_calls. Qed.
Print Assumptions C52_fe_calls.
Theorem C52_fe_calls_int : forall r x n m, (r < n)%nat -> (x < n)%nat ->
  let computes := fun (f : fe25 -> option (Z * fe25)) (run : nat -> nat -> nat -> cmem -> option (Z * cmem)) => forall b w, f (m x) = Some (b, w) ->
    exists m', run r x n m = Some (b, m') /\ m' r = w /\ forall a, (a < n)%nat -> a <> r -> m' a = m a in
  computes c_invsqrti m_c_invsqrti /\ computes c_sqrti m_c_sqrti.
Proof. exact mf_calls_int. Qed.
Print Assumptions C52_fe_calls_int.

(** [fe25519_triple(x, x)] gives 4 x. *)
Theorem C52_triple_overlap_refuted : exists x n m m', (x < n)%nat /\ m x = c_one /\ m_c_triple x x n m = Some m' /\ v25 (m' x) = 4.
Proof. exact mf_triple_overlap. Qed.
Print Assumptions C52_triple_overlap_refuted.

(** ** The group *)
Theorem C52_add : forall r x y n m A B, (r + 4 <= n)%nat -> (x + 4 <= n)%nat -> (y + 4 <= n)%nat -> cpoint (ge_at m x) A -> cpoint (ge_at m y) B ->
  exists m', m_g_add r x y n m = Some m' /\ cpoint (ge_at m' r) (Eadd A B) /\ forall a, (a < n)%nat -> (a < r)%nat \/ (r + 4 <= a)%nat -> m' a = m a.
Proof. exact mp_add. Qed.
Print Assumptions C52_add.

Theorem C52_double : forall r x n m A, (r + 4 <= n)%nat -> (x + 4 <= n)%nat -> cpoint (ge_at m x) A ->
  exists m', m_g_double r x n m = Some m' /\ cpoint (ge_at m' r) (Eadd A A) /\ forall a, (a < n)%nat -> (a < r)%nat \/ (r + 4 <= a)%nat -> m' a = m a.
Proof. exact mp_double. Qed.
Print Assumptions C52_double.

Theorem C52_negate : forall r x n m A, r = x \/ (r + 4 <= x)%nat \/ (x + 4 <= r)%nat -> cpoint (ge_at m x) A ->
  exists m', m_g_negate r x n m = Some m' /\ cpoint (ge_at m' r) (Eopp A) /\ forall a, (a < r)%nat \/ (r + 4 <= a)%nat -> m' a = m a.
Proof. exact mp_negate. Qed.
Print Assumptions C52_negate.

Theorem C52_equals : forall x y n m A B, (x + 4 <= n)%nat -> (y + 4 <= n)%nat -> cpoint (ge_at m x) A -> cpoint (ge_at m y) B ->
  exists b m', m_g_equals x y n m = Some (Z.b2z b, m') /\ (b = true <-> In (Eadd A (Eopp B)) [E0; T2; T4; T4']) /\ forall a, (a < n)%nat -> m' a = m a.
Proof. exact mp_equals. Qed.
Print Assumptions C52_equals.

Theorem C52_isneutral : forall x n m A, (x + 4 <= n)%nat -> cpoint (ge_at m x) A ->
  exists b m', m_g_isneutral x n m = Some (Z.b2z b, m') /\ (b = true <-> Emul 8 A = E0) /\ forall a, (a < n)%nat -> m' a = m a.
Proof. exact mp_isneutral. Qed.
Print Assumptions C52_isneutral.

(** the field element may be a coordinate of the result: [g.Elligator(g.X())] of /repo/cref/cref.go:39-41,59-61 *)
Theorem C52_elligator : forall b x r0 n m buf, (x + 4 <= n)%nat -> (r0 < n)%nat -> bytes 32 buf -> c_unpack buf = Some (m r0) ->
  exists m', m_g_elligator x r0 n m = Some m' /\ g_pack (ge_at m' x) = Some (pt_Bytes (ops b) (pt_SetElligator (ops b) buf)) /\
    forall a, (a < n)%nat -> (a < x)%nat \/ (x + 4 <= a)%nat -> m' a = m a.
Proof. exact mp_elligator. Qed.
Print Assumptions C52_elligator.

Theorem C52_scalarmult : forall r x s n m A, (r + 4 <= n)%nat -> (x + 4 <= n)%nat -> cpoint (ge_at m x) A -> bytes 32 s -> le_val s < 2 ^ 254 ->
  exists m', m_scalarmult r x s n m = Some m' /\ cpoint (ge_at m' r) (Emul (le_val s) A) /\
    forall a, (a < n)%nat -> (a < r)%nat \/ (r + 4 <= a)%nat -> m' a = m a.
Proof. exact mp_scalarmult. Qed.
Print Assumptions C52_scalarmult.

Theorem C52_scalarmult_base : forall r s n m, (r + 4 <= n)%nat -> bytes 32 s -> le_val s < l ->
  exists m', m_scalarmult_base r s n m = Some m' /\ cpoint (ge_at m' r) (Emul (le_val s) EB) /\
    forall a, (a < n)%nat -> (a < r)%nat \/ (r + 4 <= a)%nat -> m' a = m a.
Proof. exact mp_scalarmult_base. Qed.
Print Assumptions C52_scalarmult_base.

(** The points are at [x], [x + 4], ...; the result must not overlap them. *)
Theorem C52_multiscalarmult : forall r x ss n m As, (r + 4 <= n)%nat -> (x + 4 * length ss <= n)%nat -> (r + 4 <= x)%nat \/ (x + 4 * length ss <= r)%nat ->
  length As = length ss ->
  (forall i, (i < length ss)%nat -> cpoint (ge_at m (x + 4 * i)) (nth i As E0) /\ bytes 32 (nth i ss []) /\ le_val (nth i ss []) < 2 ^ 254) ->
  exists m', m_multiscalarmult r x ss n m = Some m' /\ cpoint (ge_at m' r) (lincomb (map le_val ss) As) /\
    forall a, (a < n)%nat -> (a < r)%nat \/ (r + 4 <= a)%nat -> m' a = m a.
Proof. exact mp_multiscalarmult. Qed.
Print Assumptions C52_multiscalarmult.

(** [group_ge_multiscalarmult(x, x, s, 1)] with x = B and s = 1 does not give B. *)
Theorem C52_multi_overlap_refuted : exists x s n m m' A, cpoint (ge_at m x) EB /\ bytes 32 s /\ le_val s = 1 /\ (x + 4 <= n)%nat /\
  m_multiscalarmult x x [s] n m = Some m' /\ cpoint (ge_at m' x) A /\ ~ In (Eadd A (Eopp EB)) [E0; T2; T4; T4'].
Proof. exact mp_multi_bad. Qed.
Print Assumptions C52_multi_overlap_refuted.

(** ** Scalars: of the functions only group_scalar_add writes before it has read everything ([sc_at m a] is the scalar at [a];
    [csc s]: 32 bytes, less than l) *)
Theorem C52_scalar_add : forall r x y m, csc (sc_at m x) -> csc (sc_at m y) ->
  csc (sc_at (l_scalar_add r x y m) r) /\ le_val (sc_at (l_scalar_add r x y m) r) = (le_val (sc_at m x) + le_val (sc_at m y)) mod l /\
  forall a, a <> r -> sc_at (l_scalar_add r x y m) a = sc_at m a.
Proof. exact ms_scalar_add. Qed.
Print Assumptions C52_scalar_add.

(** [group_ge_add(&b, &b, &b)], [group_ge_scalarmult(&b, &b, &s)] and [group_ge_negate(&b, &b)] with b = B, s = 2 *)
Example C52_case : exists m s, cpoint (ge_at m 0) EB /\ bytes 32 s /\ le_val s = 2 /\
  (exists m', m_g_add 0 0 0 4 m = Some m' /\ cpoint (ge_at m' 0) (Eadd EB EB)) /\
  (exists m', m_scalarmult 0 0 s 4 m = Some m' /\ cpoint (ge_at m' 0) (Emul 2 EB)) /\
  (exists m', m_g_negate 0 0 4 m = Some m' /\ cpoint (ge_at m' 0) (Eopp EB)).
Proof. exact mp_case. Qed.
Example C52_case_fe : exists m v, c_mul (cells m 0%nat) (cells m 0%nat) = Some v /\ v25 (cells m 0%nat) = 3 /\ v25 v = 9 /\
  exists m', lcall2 p_mul 0 0 0 m = Some m' /\ v25 (cells m' 0%nat) = 9.
Proof.
  exists (fun a => if Nat.eqb a 0 then 3 else 0). eexists. split; [vm_compute; reflexivity|]. split; [vm_compute; reflexivity|]. split; [vm_compute; reflexivity|].
  eexists. split; [vm_compute; reflexivity|]. vm_compute. reflexivity.
Qed.
Example C52_case_scalar : exists m, csc (sc_at m 0) /\ le_val (sc_at m 0) = 5 /\ le_val (sc_at (l_scalar_add 0 0 0 m) 0) = 10.
Proof. exact ms_case. Qed.
