(** The radix-2^51 backend (field_radix51.go with field_mul64.go) packaged as a [FeOps],
    and the proof that it satisfies [FeLaws]. *)
From Coq Require Import ZArith List Lia Bool Ring.
From Verif Require Import Words WordsTac NumTheory Primes Fp Edwards GroupOrder Fe51Code Fe51Proofs FieldModel BitFold FieldLaws.
Import ListNotations.
Open Scope Z_scope.

(** The [FieldElement] of builds on 64-bit platforms: /repo/edwards25519/field_radix51.go:8-301,
    /repo/edwards25519/field_mul64.go:11-301; [normalize] is field_radix51.go:139-141 and calls
    [setReduced]; [BytesInto] does not change its receiver. *)
Definition R51 : FeOps := mkFeOps fe51
  r51_feZero r51_feOne r51_feMinusOne r51_feI r51_feMinusI r51_feD r51_fe2D
  r51_feInvSqrtMinusDMinusOne r51_feDoubleInvSqrtMinusDMinusOne r51_feDoubleIInvSqrtMinusDMinusOne
  r51_feDMinusOneSquared r51_feOneMinusDSquared r51_feDp1OverDm1 r51_feSqrtID r51_feInvSqrt1pD
  r51_epBaseX r51_epBaseY r51_epBaseT
  r51_neg r51_sub r51_add r51_setReduced r51_mul r51_square r51_doubledSquare r51_condSet
  (fun x => (r51_bytes x, x)) r51_setBytes.

Definition U51 : Z := 2251799813693440.

Definition rel51 (n : Z) (x : fe51) (f : F) : Prop := bnd51 (n * U51) x /\ of_Z (v51 x) = f.

Lemma P25519_p : P25519 = p.
Proof. rewrite p_eq. vm_compute. reflexivity. Qed.

Lemma of_Z_plus_pk x k : of_Z (x + P25519 * k) = of_Z x.
Proof. apply of_Z_eq. rewrite P25519_p, Z.mul_comm, Z_mod_plus_full. reflexivity. Qed.

Lemma bnd51_U n x : bnd51 (n * U51) x -> n <= 7 -> bnd51 18014398509481983 x.
Proof. intros h hn. apply (bnd51_le (n * U51)); [unfold U51; lia | exact h]. Qed.
Lemma bnd51_U' n x : bnd51 (n * U51) x -> n <= 7 -> bnd51 9223372036854775807 x.
Proof. intros h hn. apply (bnd51_le (n * U51)); [unfold U51; lia | exact h]. Qed.

Lemma rel51_const n x f : bnd51 (n * U51) x -> v51 x mod p = fval f -> rel51 n x f.
Proof. intros hb hv. split; [exact hb|]. apply F_eq. rewrite fval_of_Z. exact hv. Qed.

Lemma r51_condSet_ok m x y b : bnd51 m x -> bnd51 m y -> m < 2 ^ 64 ->
  r51_condSet x y (Z.b2z b) = if b then y else x.
Proof.
  destruct x as [x0 x1 x2 x3 x4], y as [y0 y1 y2 y3 y4]. intros hx hy hm. unb.
  unfold r51_condSet. cbv zeta. destruct b.
  - change (u64 (u64 (i32 (1 - Z.b2z true)) - 1)) with (Z.ones 64).
    rewrite !(condset_word1 _ _ (Z.ones 64) 64) by (reflexivity || lia). reflexivity.
  - change (u64 (u64 (i32 (1 - Z.b2z false)) - 1)) with 0.
    rewrite !(condset_word0 _ _ 0) by reflexivity. reflexivity.
Qed.

Ltac rconst := apply rel51_const; [unfold bnd51, U51, r51_feZero; refine (conj _ (conj _ (conj _ (conj _ _)))); lia
  | vm_compute; reflexivity].

Lemma rel51_nonneg n x f : rel51 n x f -> 0 <= n.
Proof. intros [h _]. destruct x. unfold bnd51, U51 in h. lia. Qed.

Lemma rel51_mul x y f g : rel51 7 x f -> rel51 7 y g -> rel51 1 (r51_mul x y) (Fmul f g).
Proof.
  intros [hx ex] [hy ey]. destruct (r51_mul_ok x y) as [hb [k hk]]; try (apply (bnd51_U 7); [assumption | lia]).
  split; [exact hb|]. rewrite <- ex, <- ey, <- of_Z_mul, hk, of_Z_plus_pk. reflexivity.
Qed.

Lemma rel51_add n m x y f g : rel51 n x f -> rel51 m y g -> n <= 7 -> m <= 7 -> rel51 (n + m) (r51_add x y) (Fadd f g).
Proof.
  intros [hx ex] [hy ey] hn hm. destruct (r51_add_ok _ _ x y hx hy) as [hb hv]; [unfold U51; lia|].
  split.
  - replace ((n + m) * U51) with (n * U51 + m * U51) by ring. exact hb.
  - rewrite hv, of_Z_add, ex, ey. reflexivity.
Qed.

Lemma rel51_sub n m x y f g : rel51 n x f -> rel51 m y g -> n <= 7 -> m <= 7 ->
  rel51 (n + Z.max 2 m) (r51_sub x y) (Fsub f g).
Proof.
  intros [hx ex] [hy ey] hn hm.
  destruct (r51_sub_ok _ x y hx) as [hb [k hv]]; [unfold U51; lia | apply (bnd51_U' m); assumption |].
  split.
  - apply (bnd51_le (n * U51 + 4503599627370494)); [unfold U51; lia | exact hb].
  - rewrite hv, of_Z_plus_pk, of_Z_sub, ex, ey. reflexivity.
Qed.

Lemma rel51_le n m x f : n <= m -> rel51 n x f -> rel51 m x f.
Proof. intros hnm [hb hv]. split; [|exact hv]. apply (bnd51_le (n * U51)); [unfold U51; lia | exact hb]. Qed.

Definition L51 : FeLaws R51.
Proof.
  refine (mkFeLaws R51 rel51 2 7 1 _ _ _ _ _ _ _ _ _ _ _ _ _ _ _ _ _ _ _ _ _ _ _ _ _ _ _ _ _ _ _ _ _ (fun _ _ => True) _ _ _ _ _ _); try lia.
  - exact rel51_le.
  - change (Z.max 4 7) with 7. exact rel51_mul.
  - change (Z.max 4 7) with 7. intros x f [hx ex]. destruct (r51_square_ok x) as [hb [k hk]]; try (apply (bnd51_U 7); [assumption | lia]).
    split; [exact hb|]. rewrite <- ex, <- of_Z_mul, hk. cbn [R51 o_square]. rewrite of_Z_plus_pk. reflexivity.
  - intros x f [hx ex]. destruct (r51_doubledSquare_ok x) as [hb [k hk]].
    { apply (bnd51_le (2 * U51)); [unfold U51; lia | exact hx]. }
    split; [exact hb|]. rewrite <- ex, <- !of_Z_mul, hk. cbn [R51 o_doubledSquare]. rewrite of_Z_plus_pk. reflexivity.
  - exact rel51_add.
  - exact rel51_sub.
  - intros n x f [hx ex] hn.
    destruct (r51_neg_ok x) as [hb [k hv]]; [apply (bnd51_U' n); assumption |].
    split; cbn [R51 o_neg].
    + apply (bnd51_le 4503599627370494); [unfold U51; lia | exact hb].
    + rewrite hv, of_Z_plus_pk, of_Z_opp, ex. reflexivity.
  - intros x f [hx ex]. destruct (r51_setReduced_ok x) as [hb hv]; [apply (bnd51_U' 7); [assumption | lia]|].
    split; cbn [R51 o_normalize].
    + apply (bnd51_le 2251799813685247); [unfold U51; lia | exact hb].
    + rewrite hv, P25519_p, of_Z_mod, ex. reflexivity.
  - intros n m x y f g b [hx ex] [hy ey] hn hm. cbn [R51 o_condSet].
    apply (r51_condSet_ok 18014398509481983); [apply (bnd51_U n) | apply (bnd51_U m) | reflexivity]; assumption.
  - intros n x f h hn. pose proof h as [hx ex]. exists x. cbn [R51 o_bytes]. refine (conj _ _).
    + rewrite r51_bytes_ok by (apply (bnd51_U' n); assumption). rewrite P25519_p, <- ex, fval_of_Z. reflexivity.
    + destruct h as [hb hv]. split; [|exact hv]. apply (bnd51_le (n * U51)); [unfold U51; lia | exact hb].
  - intros s hs. destruct (r51_setBytes_ok s hs) as [hb hv]. split; cbn [R51 o_setBytes].
    + apply (bnd51_le 2251799813685247); [unfold U51; lia | exact hb].
    + rewrite hv. reflexivity.
  - rconst.
  - rconst.
  - rconst.
  - rconst.
  - rconst.
  - rconst.
  - rconst.
  - rconst.
  - rconst.
  - rconst.
  - rconst.
  - rconst.
  - rconst.
  - rconst.
  - rconst.
  - rconst.
  - rconst.
  - rconst.
  - intros a x y h f g ha hx hy _. apply rel51_mul; [apply (rel51_le 4); [lia | exact ha]|].
    apply (rel51_le (2 + Z.max 2 2)); [lia|]. apply rel51_sub; [exact hy | exact hx | lia | lia].
  - intros a x y h f g ha hx hy _. apply rel51_mul; [apply (rel51_le 4); [lia | exact ha]|].
    apply (rel51_le (2 + 2)); [lia|]. apply rel51_add; [exact hx | exact hy | lia | lia].
  - intros a x y h f g ha hx hy _. apply rel51_mul; [apply (rel51_le 4); [lia | exact ha]|].
    apply (rel51_le (2 + 2)); [lia|]. apply rel51_add; [exact hy | exact hx | lia | lia].
Defined.
