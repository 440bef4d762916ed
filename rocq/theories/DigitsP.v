(** Digit arithmetic modulo p = 2^255-19 (for checking constants; models no code). *)
From Coq Require Import ZArith Znumtheory Lia Bool List.
From Verif Require Import DigitTables Digits Primes Fp.
Import ListNotations.
Local Open Scope Z_scope.

(** Split after n digits. *)
Fixpoint split (n : nat) (x : list dg) : list dg * list dg :=
  match n, x with
  | S n, a :: x => let '(lo, hi) := split n x in (a :: lo, hi)
  | _, _ => ([], x)
  end.

Lemma split_ok n : forall x, (n <= length x)%nat -> let '(lo, hi) := split n x in val x = val lo + 64 ^ Z.of_nat n * val hi.
Proof.
  induction n as [|n IH]; intros x Hx.
  - destruct x; cbn [split]; cbv beta iota; cbn [val]; change (64 ^ Z.of_nat 0) with 1; lia.
  - destruct x as [|a x]; [cbn in Hx; lia|]. cbn [split]. specialize (IH x ltac:(cbn in Hx; lia)).
    destruct (split n x) as [lo hi]. cbn [val]. rewrite IH, Nat2Z.inj_succ, Z.pow_succ_r by lia. lia.
Qed.

Lemma split_short n : forall x, (length x < n)%nat -> split n x = (x, []).
Proof.
  induction n as [|n IH]; intros x Hx; [lia|]. destruct x as [|a x]; [reflexivity|].
  cbn [split]. rewrite IH by (cbn in Hx; lia). reflexivity.
Qed.

(** 64^43 = 2^258 = 152 (mod p) *)
Definition fold1 (x : list dg) : list dg :=
  let '(lo, hi) := split 43 x in
  match hi with [] => lo | _ => add lo (mul [d24; d2] hi) false end.

Lemma fold1_ok x : of_Z (val (fold1 x)) = of_Z (val x).
Proof.
  unfold fold1.
  assert (E : let '(lo, hi) := split 43 x in val x = val lo + 64 ^ 43 * val hi).
  { destruct (Nat.le_gt_cases 43 (length x)) as [H|H].
    - apply (split_ok 43 x H).
    - rewrite split_short by exact H. cbn [val]. lia. }
  destruct (split 43 x) as [lo hi]. rewrite E. apply of_Z_eq.
  destruct hi as [|h hi]; [f_equal; cbn [val]; lia|].
  rewrite add_ok, mul_ok. cbn [b2z].
  replace (val lo + val [d24; d2] * val (h :: hi) + 0) with (val lo + 152 * val (h :: hi)) by (cbn [val]; change (dv d24) with 24; change (dv d2) with 2; lia).
  replace (64 ^ 43 * val (h :: hi)) with (152 * val (h :: hi) + (8 * val (h :: hi)) * p).
  - rewrite Z.add_assoc, Z.mod_add by (pose proof p_pos; lia). reflexivity.
  - rewrite p_eq. change (64 ^ 43) with (8 * 2 ^ 255). lia.
Qed.

Definition mulp (x y : list dg) : list dg := fold1 (fold1 (mul x y)).
Definition addp (x y : list dg) : list dg := add x y false.

Lemma mulp_ok x y : of_Z (val (mulp x y)) = (of_Z (val x) * of_Z (val y))%F.
Proof. unfold mulp. rewrite !fold1_ok, mul_ok. apply of_Z_mul. Qed.

Lemma addp_ok x y : of_Z (val (addp x y)) = (of_Z (val x) + of_Z (val y))%F.
Proof. unfold addp. rewrite add_ok. cbn [b2z]. rewrite Z.add_0_r. apply of_Z_add. Qed.

(** digits of a non-negative number below 64^44 *)
Definition dig (z : Z) : list dg := of_Zfuel 44 z.
Lemma dig_ok z : 0 <= z < 2 ^ 264 -> val (dig z) = z.
Proof. intros H. apply of_Zfuel_ok. change (64 ^ Z.of_nat 44) with (2 ^ 264). exact H. Qed.
