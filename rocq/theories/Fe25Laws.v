(** The generic backend (field_generic.go) packaged as a [FeOps], and the proof that it
    satisfies [FeLaws]. *)
From Coq Require Import ZArith List Lia Bool Ring.
From Verif Require Import Words WordsTac NumTheory Primes Fp Edwards GroupOrder Fe51Proofs Fe51Laws Fe25Code Fe25Proofs FieldModel BitFold FieldLaws.
Import ListNotations.
Open Scope Z_scope.

(** The [FieldElement] of every other build: /repo/edwards25519/field_generic.go:8-464.
    [BytesInto] normalises its receiver in place. *)
Definition R25 : FeOps := mkFeOps fe25
  g25_feZero g25_feOne g25_feMinusOne g25_feI g25_feMinusI g25_feD g25_fe2D
  g25_feInvSqrtMinusDMinusOne g25_feDoubleInvSqrtMinusDMinusOne g25_feDoubleIInvSqrtMinusDMinusOne
  g25_feDMinusOneSquared g25_feOneMinusDSquared g25_feDp1OverDm1 g25_feSqrtID g25_feInvSqrt1pD
  g25_epBaseX g25_epBaseY g25_epBaseT
  g25_neg g25_sub g25_add g25_normalize g25_mul g25_square g25_doubledSquare g25_condSet
  g25_bytes g25_setBytes.

Definition UE : Z := 33554432.
Definition UO : Z := 16944988.

Definition rel25 (n : Z) (x : fe25) (f : F) : Prop := bnd25 (n * UE) (n * UO) x /\ of_Z (v25 x) = f.

Lemma bnd25_U n m e o x : bnd25 (n * UE) (n * UO) x -> n <= m -> m * UE <= e -> m * UO <= o -> bnd25 e o x.
Proof. intros h hn he ho. apply (bnd25_le (n * UE) (n * UO)); [unfold UE in *; lia | unfold UO in *; lia | exact h]. Qed.

Lemma rel25_const n x f : bnd25 (n * UE) (n * UO) x -> v25 x mod p = fval f -> rel25 n x f.
Proof. intros hb hv. split; [exact hb|]. apply F_eq. rewrite fval_of_Z. exact hv. Qed.

Lemma rel25_nonneg n x f : rel25 n x f -> 0 <= n.
Proof. intros [h _]. destruct x. unfold bnd25, UE in h. lia. Qed.

Ltac rconst25 := apply rel25_const; [unfold bnd25, UE, UO, g25_feZero; pack25; lia | vm_compute; reflexivity].

(** [x] and [y] can be added and subtracted with a result below 113025455 in each limb, the limit
    of the second factor of [Mul] (19 times the limb must be an int32) *)
Definition fits25 (x y : fe25) : Prop :=
  match x, y with Fe25 x0 x1 x2 x3 x4 x5 x6 x7 x8 x9, Fe25 y0 y1 y2 y3 y4 y5 y6 y7 y8 y9 =>
    Z.abs x0 + Z.abs y0 <= 113025455 /\ Z.abs x1 + Z.abs y1 <= 113025455 /\ Z.abs x2 + Z.abs y2 <= 113025455 /\
    Z.abs x3 + Z.abs y3 <= 113025455 /\ Z.abs x4 + Z.abs y4 <= 113025455 /\ Z.abs x5 + Z.abs y5 <= 113025455 /\
    Z.abs x6 + Z.abs y6 <= 113025455 /\ Z.abs x7 + Z.abs y7 <= 113025455 /\ Z.abs x8 + Z.abs y8 <= 113025455 /\
    Z.abs x9 + Z.abs y9 <= 113025455
  end.

Lemma abs_sub x y : Z.abs x + Z.abs y <= 113025455 -> i32 (y - x) = y - x /\ -113025455 <= y - x <= 113025455.
Proof. intro h. assert (-113025455 <= y - x <= 113025455) by lia. split; [|assumption]. unfold i32. rewrite Z.mod_small; lia. Qed.
Lemma abs_add x y : Z.abs x + Z.abs y <= 113025455 -> i32 (x + y) = x + y /\ -113025455 <= x + y <= 113025455.
Proof. intro h. assert (-113025455 <= x + y <= 113025455) by lia. split; [|assumption]. unfold i32. rewrite Z.mod_small; lia. Qed.
Lemma abs_sym x y : Z.abs x + Z.abs y <= 113025455 -> Z.abs y + Z.abs x <= 113025455.
Proof. rewrite Z.add_comm. exact (fun h => h). Qed.
Lemma abs_neg x y : Z.abs x + Z.abs y <= 113025455 -> Z.abs (i32 (- x)) + Z.abs y <= 113025455.
Proof.
  intro h. assert (e : i32 (- x) = - x) by (unfold i32; rewrite Z.mod_small; lia). rewrite e, Z.abs_opp. exact h.
Qed.
Lemma abs_small x y m : - m <= x <= m -> - m <= y <= m -> m <= 50000000 -> Z.abs x + Z.abs y <= 113025455.
Proof. lia. Qed.

Ltac fit25 x y := destruct x, y; unfold fits25; intros (h0 & h1 & h2 & h3 & h4 & h5 & h6 & h7 & h8 & h9).

Lemma fits25_sub x y : fits25 x y -> bnd25 113025455 113025455 (g25_sub y x) /\ v25 (g25_sub y x) = v25 y - v25 x.
Proof.
  fit25 x y. unfold g25_sub, bnd25, v25, v10; cbv zeta. 
  apply abs_sub in h0, h1, h2, h3, h4, h5, h6, h7, h8, h9.
  rewrite (proj1 h0), (proj1 h1), (proj1 h2), (proj1 h3), (proj1 h4), (proj1 h5), (proj1 h6), (proj1 h7), (proj1 h8), (proj1 h9).
  split; [exact (conj (proj2 h0) (conj (proj2 h1) (conj (proj2 h2) (conj (proj2 h3) (conj (proj2 h4) (conj (proj2 h5)
    (conj (proj2 h6) (conj (proj2 h7) (conj (proj2 h8) (proj2 h9)))))))))) | ring].
Qed.

Lemma fits25_add x y : fits25 x y -> bnd25 113025455 113025455 (g25_add x y) /\ v25 (g25_add x y) = v25 x + v25 y.
Proof.
  fit25 x y. unfold g25_add, bnd25, v25, v10; cbv zeta. 
  apply abs_add in h0, h1, h2, h3, h4, h5, h6, h7, h8, h9.
  rewrite (proj1 h0), (proj1 h1), (proj1 h2), (proj1 h3), (proj1 h4), (proj1 h5), (proj1 h6), (proj1 h7), (proj1 h8), (proj1 h9).
  split; [exact (conj (proj2 h0) (conj (proj2 h1) (conj (proj2 h2) (conj (proj2 h3) (conj (proj2 h4) (conj (proj2 h5)
    (conj (proj2 h6) (conj (proj2 h7) (conj (proj2 h8) (proj2 h9)))))))))) | ring].
Qed.

Lemma fits25_sym x y : fits25 x y -> fits25 y x.
Proof. fit25 x y. pack25; apply abs_sym; assumption. Qed.

Lemma fits25_neg x y : fits25 x y -> fits25 (g25_neg x) y.
Proof. fit25 x y. unfold g25_neg. cbv zeta. pack25; apply abs_neg; assumption. Qed.

Lemma fits25_small x y : bnd25 UE UO x -> bnd25 UE UO y -> fits25 x y.
Proof.
  destruct x, y. unfold fits25, bnd25. intros (a0 & a1 & a2 & a3 & a4 & a5 & a6 & a7 & a8 & a9) (b0 & b1 & b2 & b3 & b4 & b5 & b6 & b7 & b8 & b9).
  pack25; (eapply abs_small; [eassumption | eassumption | unfold UE, UO; lia]).
Qed.

(** products with a second factor beyond three units *)
Lemma rel25_mulw a y h g : rel25 4 a h -> bnd25 113025455 113025455 y -> of_Z (v25 y) = g -> rel25 1 (g25_mul a y) (Fmul h g).
Proof.
  intros [ha ea] hy ey. destruct (g25_mul_ok a y) as [hb [k hk]]; [|exact hy|].
  { apply (bnd25_U 4 4 _ _ _ ha); unfold UE, UO; lia. }
  split; [exact hb|]. rewrite <- ea, <- ey, <- of_Z_mul, hk, of_Z_plus_pk. reflexivity.
Qed.

Definition L25 : FeLaws R25.
Proof.
  refine (mkFeLaws R25 rel25 1 3 2 _ _ _ _ _ _ _ _ _ _ _ _ _ _ _ _ _ _ _ _ _ _ _ _ _ _ _ _ _ _ _ _ _ fits25 _ _ _ _ _ _); try lia.
  - intros n m x f hnm [hb hv]. split; [|exact hv]. apply (bnd25_U n m _ _ _ hb hnm); lia.
  - change (Z.max 4 3) with 4. intros x y f g hx [hy ey]. apply rel25_mulw; [exact hx | | exact ey].
    apply (bnd25_U 3 3 _ _ _ hy); unfold UE, UO; lia.
  - change (Z.max 4 3) with 4. intros x f [hx ex]. destruct (g25_square_ok x) as [hb [k hk]].
    { apply (bnd25_U 4 4 _ _ _ hx); unfold UE, UO; lia. }
    split; [exact hb|]. rewrite <- ex, <- of_Z_mul, hk. cbn [R25 o_square]. rewrite of_Z_plus_pk. reflexivity.
  - intros x f [hx ex]. destruct (g25_doubledSquare_ok x) as [hb [k hk]].
    { apply (bnd25_U 2 2 _ _ _ hx); unfold UE, UO; lia. }
    split; [exact hb|]. rewrite <- ex, <- !of_Z_mul, hk. cbn [R25 o_doubledSquare]. rewrite of_Z_plus_pk. reflexivity.
  - intros n m x y f g [hx ex] [hy ey] hn hm.
    destruct (g25_add_ok _ _ _ _ x y hx hy) as [hb hv]; [unfold UE; lia | unfold UO; lia |].
    split; cbn [R25 o_add].
    + apply (bnd25_le _ _ _ _ _ (Z.eq_le_incl _ _ (eq_sym (Z.mul_add_distr_r n m UE))) (Z.eq_le_incl _ _ (eq_sym (Z.mul_add_distr_r n m UO))) hb).
    + cbn [R25 o_sub o_add]; rewrite hv, of_Z_add, ex, ey. reflexivity.
  - intros n m x y f g [hx ex] [hy ey] hn hm.
    destruct (g25_sub_ok _ _ _ _ x y hx hy) as [hb hv]; [unfold UE; lia | unfold UO; lia |].
    split; cbn [R25 o_sub].
    + apply (fun h1 h2 => bnd25_le _ _ _ _ _ h1 h2 hb); unfold UE, UO; lia.
    + cbn [R25 o_sub o_add]; rewrite hv, of_Z_sub, ex, ey. reflexivity.
  - intros n x f [hx ex] hn.
    destruct (g25_neg_ok _ _ x hx) as [hb hv]; [unfold UE; lia | unfold UO; lia |].
    split; cbn [R25 o_neg].
    + apply (fun h1 h2 => bnd25_le _ _ _ _ _ h1 h2 hb); unfold UE, UO; lia.
    + rewrite hv, of_Z_opp, ex. reflexivity.
  - intros x f [hx ex]. destruct (g25_normalize_ok x) as [hb [k hv]].
    { apply (bnd25_U 3 3 _ _ _ hx); unfold UE, UO; lia. }
    split; cbn [R25 o_normalize]; [exact hb|].
    rewrite hv, of_Z_plus_pk, ex. reflexivity.
  - intros n m x y f g b [hx ex] [hy ey] hn hm. cbn [R25 o_condSet]. apply g25_condSet_ok.
  - intros n x f [hx ex] hn. cbn [R25 o_bytes]. destruct (g25_bytes_ok x) as [hb [hv hr]].
    { apply (bnd25_U n 3 _ _ _ hx); unfold UE, UO; lia. }
    exists (snd (g25_bytes x)). refine (conj _ (conj _ _)).
    + rewrite <- ex, fval_of_Z, <- P25519_p, <- hb. apply surjective_pairing.
    + apply (fun h1 h2 => bnd25_le _ _ _ _ _ h1 h2 hr); unfold UE, UO; lia.
    + rewrite hv, P25519_p, of_Z_mod. exact ex.
  - intros s hs. destruct (g25_setBytes_ok s hs) as [hb [k hv]]. split; cbn [R25 o_setBytes]; [exact hb|].
    rewrite hv, of_Z_plus_pk. reflexivity.
  - rconst25.
  - rconst25.
  - rconst25.
  - rconst25.
  - rconst25.
  - rconst25.
  - rconst25.
  - rconst25.
  - rconst25.
  - rconst25.
  - rconst25.
  - rconst25.
  - rconst25.
  - rconst25.
  - rconst25.
  - rconst25.
  - rconst25.
  - rconst25.
  - intros x y f g [hx _] [hy _]. apply fits25_small; [exact hx | exact hy].
  - intros x y f _ h. apply fits25_neg, h.
  - cbn [R25 k_baseX k_baseY]. unfold fits25, g25_epBaseX, g25_epBaseY. pack25; lia.
  - intros a x y h f g ha [_ ex] [_ ey] hf. destruct (fits25_sub x y hf) as [hb hv].
    apply rel25_mulw; [exact ha | exact hb |]. cbn [R25 o_sub o_add]; rewrite hv, of_Z_sub, ex, ey. reflexivity.
  - intros a x y h f g ha [_ ex] [_ ey] hf. destruct (fits25_add x y hf) as [hb hv].
    apply rel25_mulw; [exact ha | exact hb |]. cbn [R25 o_sub o_add]; rewrite hv, of_Z_add, ex, ey. reflexivity.
  - intros a x y h f g ha [_ ex] [_ ey] hf. destruct (fits25_add y x (fits25_sym x y hf)) as [hb hv].
    apply rel25_mulw; [exact ha | exact hb |]. cbn [R25 o_sub o_add]; rewrite hv, of_Z_add, ex, ey. reflexivity.
Defined.
