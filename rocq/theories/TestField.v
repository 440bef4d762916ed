(** The tests of the repository: field_test.go and constants_test.go, over any lawful field backend *)
From Coq Require Import ZArith Znumtheory List Lia Bool.
From Verif Require Import Words Primes Fp Edwards ScalarCode ScalarModel FieldModel CurveModel FieldLaws FieldFacts TestModel.
Import ListNotations.
Open Scope Z_scope.

Lemma p_255 : 2 ^ 255 - 19 = p.
Proof. vm_compute. reflexivity. Qed.
Lemma fval_small x : 0 <= x < p -> fval (of_Z x) = x.
Proof. intro h. rewrite fval_of_Z. apply Z.mod_small. exact h. Qed.

Section Field.
Context {K : FeOps} (L : FeLaws K).
Local Ltac facts := pose proof (cN_rng _ L); pose proof (cB_rng _ L); pose proof (cL_ge _ L); pose proof (cL_le _ L).

Lemma big n x f v : rel L n x f -> n <= cL L -> fval f = v -> (fst (fe_BigInt K x) =? v) = true.
Proof. intros h hn <-. destruct (fe_BigInt_ok L n x f h hn) as (x' & e & _). rewrite e. cbn [fst]. apply Z.eqb_refl. Qed.

Lemma test_FeBigIntPacking bi : 0 <= bi < p -> t_FeBigIntPacking K bi = true.
Proof. intro h. facts. apply (big 1 _ (of_Z bi)); [apply fe_SetBigInt_ok | lia | apply fval_small; exact h]. Qed.
Lemma test_FePacking bi : t_FePacking K bi = true.
Proof.
  facts. unfold t_FePacking, fe_Bytes. cbv zeta. destruct (law_bytes K L 1 _ _ (fe_SetBigInt_ok L bi) ltac:(lia)) as (x' & e & h'). rewrite e.
  pose proof (law_setBytes K L _ (le_bytes_bytes 32 (fval (of_Z bi)))) as hs.
  rewrite (fe_Equals_ok L _ _ _ _ _ _ h' hs) by lia. apply Feqb_eq. apply F_eq. clear. generalize (of_Z bi). intro f. rewrite fval_of_Z.
  pose proof (fval_range f) as hr. assert (p < 2 ^ 255) by (vm_compute; reflexivity).
  rewrite le_val_le_bytes by apply fval_256. rewrite (Z.mod_small _ (2 ^ 255)) by lia. rewrite Z.mod_small by lia. reflexivity.
Qed.
Lemma test_FeMul a b : t_FeMul K a b = true.
Proof.
  facts. unfold t_FeMul. cbv zeta. apply (big 1 _ (Fmul (of_Z a) (of_Z b))); [|lia|].
  - apply (fe_mul_r L 1 1); try apply fe_SetBigInt_ok; lia.
  - rewrite <- of_Z_mul, fval_of_Z, p_255. reflexivity.
Qed.
Lemma test_FeSquare a : t_FeSquare K a = true.
Proof.
  facts. unfold t_FeSquare. cbv zeta. apply (big 1 _ (Fmul (of_Z a) (of_Z a))); [|lia|].
  - apply (fe_square_r L 1); try apply fe_SetBigInt_ok; lia.
  - rewrite <- of_Z_mul, fval_of_Z, p_255. reflexivity.
Qed.
Lemma test_FeSub a b : t_FeSub K a b = true.
Proof.
  facts. unfold t_FeSub. cbv zeta. apply (big 1 _ (Fsub (of_Z a) (of_Z b))); [|lia|].
  - apply (fe_Sub_r L 1 1); try apply fe_SetBigInt_ok; lia.
  - rewrite <- of_Z_sub, fval_of_Z, p_255. reflexivity.
Qed.
Lemma test_FeAdd a b : t_FeAdd K a b = true.
Proof.
  facts. unfold t_FeAdd. cbv zeta. apply (big 1 _ (Fadd (of_Z a) (of_Z b))); [|lia|].
  - apply (fe_Add_r L 1 1); try apply fe_SetBigInt_ok; lia.
  - rewrite <- of_Z_add, fval_of_Z, p_255. reflexivity.
Qed.
Lemma test_FeInverse a b : 0 <= a < p -> 0 <= b < p -> (t_FeInverse K a b = true <-> (a * b) mod p = 1 \/ a = 0 /\ b = 0).
Proof.
  intros ha hb. facts. unfold t_FeInverse. pose proof (fe_Inverse_ok L 1 _ _ (fe_SetBigInt_ok L a) ltac:(lia)) as hi.
  destruct (fe_BigInt_ok L 1 _ _ hi ltac:(lia)) as (x' & e & _). rewrite e. cbn [fst]. clear e hi. rewrite Z.eqb_eq.
  assert (eb : fval (Finv (of_Z a)) = b <-> Finv (of_Z a) = of_Z b).
  { split; [intros <-; rewrite of_Z_fval; reflexivity | intros ->; apply fval_small; exact hb]. }
  assert (e1 : (a * b) mod p = 1 <-> (of_Z a * of_Z b = F1)%F).
  { rewrite <- of_Z_mul. split; intro h.
    - apply F_eq. rewrite fval_of_Z, h. vm_compute. reflexivity.
    - rewrite <- fval_of_Z, h. vm_compute. reflexivity. }
  assert (e0 : forall x, 0 <= x < p -> (x = 0 <-> of_Z x = F0)).
  { intros x hx. split; [intros ->; reflexivity|]. intro h. rewrite <- (fval_small x hx), h. vm_compute. reflexivity. }
  rewrite eb, e1, (e0 a ha), (e0 b hb). generalize (of_Z a) as f, (of_Z b) as g. intros f g.
  destruct (F_dec f F0) as [->|nf].
  - rewrite Finv_0. split; [intro h; right; split; [reflexivity | symmetry; exact h]|]. intros [h|[_ h]]; [|symmetry; exact h].
    exfalso. apply F1_neq_0. rewrite <- h. ring.
  - pose proof (Finv_l f nf) as hi. split.
    + intros <-. left. rewrite <- hi. ring.
    + intros [h|[h _]]; [|contradiction]. apply (Fmul_cancel_l f); [exact nf|]. rewrite h, <- hi. ring.
Qed.
Lemma test_FeInvSqrtI bi : t_FeInvSqrtI K bi = true.
Proof.
  facts. unfold t_FeInvSqrtI. cbv zeta. pose proof (fe_SetBigInt_ok L bi) as h1. set (x := fe_SetBigInt K bi) in *. clearbody x.
  set (f := of_Z bi) in *. clearbody f.
  destruct (fe_InvSqrtI_ok L 1 x f h1 ltac:(lia)) as (y & e & h2). rewrite e. clear e.
  destruct (isri_val_spec f) as (s0 & s1 & s2). set (g := isri_val f) in *. clearbody g. set (c := isri_flag f) in *. clearbody c.
  set (x1 := if Z.b2z c =? 0 then o_mul K x (k_I K) else x). 
  assert (h3 : rel L 1 x1 (if c then f else Fmul f Fi)).
  { unfold x1. destruct c; cbn; [exact h1|]. apply (fe_mul_r L 1 1); [exact h1 | apply law_I | lia | lia]. }
  clearbody x1. pose proof (fe_mul_r L 1 1 _ _ _ _ h2 h3 ltac:(lia) ltac:(lia)) as h4.
  pose proof (fe_square_r L 1 _ _ h4 ltac:(lia)) as h5.
  rewrite (fe_Equals_ok L _ _ _ _ _ _ h3 h5) by lia. apply Feqb_eq.
  destruct (F_dec f F0) as [e|nf].
  - destruct (s0 e) as [-> ->]. rewrite e. ring.
  - destruct (is_sq_dec f) as [hs|hs].
    + destruct (s1 nf hs) as [-> h]. transitivity (f * (g * g * f))%F; [rewrite h; ring | ring].
    + destruct (s2 nf hs) as [-> h]. transitivity (f * Fi * (g * g * (Fi * f)))%F; [rewrite h; ring | ring].
Qed.
Lemma isr_sq x : (isr_val (x * x) * (x * x) * (isr_val (x * x) * (x * x)) = x * x)%F.
Proof.
  destruct (isr_val_spec (x * x)%F) as (s0 & s1 & _). destruct (F_dec (x * x)%F F0) as [e|nf]; [rewrite e; ring|].
  specialize (s1 nf (ex_intro _ x eq_refl)). set (g := isr_val (x * x)%F) in *. clearbody g.
  transitivity (x * x * (g * g * (x * x)))%F; [ring | rewrite s1; ring].
Qed.
Lemma test_FeSqrt bi : t_FeSqrt K bi = true.
Proof.
  facts. unfold t_FeSqrt. rewrite p_255. cbv zeta. pose proof (fe_SetBigInt_ok L ((bi * bi) mod p)) as h1.
  assert (e : of_Z ((bi * bi) mod p) = (of_Z bi * of_Z bi)%F).
  { rewrite <- of_Z_mul. apply F_eq. rewrite !fval_of_Z, Z.mod_mod by (pose proof p_pos; lia). reflexivity. }
  rewrite e in h1. clear e. set (x := fe_SetBigInt K ((bi * bi) mod p)) in *. clearbody x.
  set (f := of_Z bi) in *. clearbody f.
  pose proof (fe_Sqrt_ok L 1 x _ h1 ltac:(lia)) as h2. set (y := fe_Sqrt K x) in *. clearbody y.
  destruct (fe_IsNegativeI_ok L 2 y _ h2 ltac:(lia)) as (y' & e & h3). rewrite e. clear e. rewrite Fabs_nonneg. cbn [Z.b2z Z.eqb].
  pose proof (fe_square_r L _ _ _ h3 ltac:(lia)) as h4.
  rewrite (fe_Equals_ok L _ _ _ _ _ _ h1 h4) by lia. apply Feqb_eq. rewrite Fabs_sq, isr_sq. reflexivity.
Qed.

(** -(1 + d) is an eighth power, which gives the sign of the root that the code's exponentiation computes *)
Definition Fw : F := of_Z 20546495711025382900254742517702141999900165801929180532477215801563676043403.
Lemma Fw_4 : (Fisdm1 * (Fw * Fw * (Fw * Fw)) = - F1)%F.
Proof. apply F_eq. vm_compute. reflexivity. Qed.
Lemma Fw_8 : (Fd + F1 = - (Fw * Fw * (Fw * Fw) * (Fw * Fw * (Fw * Fw))))%F.
Proof. apply F_eq. vm_compute. reflexivity. Qed.
Lemma Fw_nz : Fw <> F0.
Proof. intro h. apply (f_equal fval) in h. vm_compute in h. discriminate. Qed.
Lemma Fopp_m1 x : (- x = x * - F1)%F.
Proof. ring. Qed.
Lemma Fmul_1r x : (x * F1 = x)%F.
Proof. ring. Qed.
Lemma Ft_w : (Ft (Fd + F1) * (Fw * Fw * (Fw * Fw)) = F1)%F.
Proof.
  assert (w4 : (Fw * Fw * (Fw * Fw))%F = Fpow Fw 4).
  { change 4 with (2 + 2). rewrite Fpow_add by lia. change 2 with (1 + 1). rewrite Fpow_add, Fpow_1 by lia. reflexivity. }
  rewrite Fw_8, w4. rewrite <- Fpow_add by lia.
  change (4 + 4) with 8. rewrite (Fopp_m1 (Fpow Fw 8)).
  unfold Ft. rewrite Fpow_mul_base by (vm_compute; discriminate). rewrite <- Fpow_mul by (vm_compute; discriminate).
  assert (em : Fpow (- F1)%F isr_exp = F1).
  { replace isr_exp with (2 * (isr_exp / 2)) by (vm_compute; reflexivity). rewrite Fpow_mul by (vm_compute; discriminate).
    change 2 with (1 + 1) at 1. rewrite Fpow_add, Fpow_1 by lia. replace (- F1 * - F1)%F with F1 by ring. apply Fpow_F1. vm_compute. discriminate. }
  rewrite em, Fmul_1r.
  rewrite <- Fpow_add by (vm_compute; discriminate).
  assert (ee : 8 * isr_exp + 4 = (p - 1) * 7) by (vm_compute; reflexivity). rewrite ee. rewrite Fpow_mul by (pose proof p_big; lia).
  rewrite (Fpow_fermat Fw Fw_nz). apply Fpow_F1. lia.
Qed.
Lemma isr_1pd : isr_val (Fd + F1)%F = (- (Fi * Fisdm1))%F.
Proof.
  pose proof Ft_w as h. pose proof Fw_4 as h4. unfold isr_val. set (t := Ft (Fd + F1)%F) in *. clearbody t. rewrite Fw_8.
  set (v := (Fw * Fw * (Fw * Fw))%F) in *. clearbody v.
  assert (e : (t * t * - (v * v) = - F1)%F). { transitivity (- ((t * v) * (t * v)))%F; [ring | rewrite h; ring]. }
  rewrite e. replace (Feqb (- F1)%F F1) with false by (symmetry; apply not_true_is_false; intro c; apply Feqb_eq in c; exact (F1_neq_opp (eq_sym c))).
  cbn [negb]. assert (nv : v <> F0) by (intros ->; apply F1_neq_0; rewrite <- h; ring).
  apply (Fmul_cancel_l v); [exact nv|]. transitivity (t * v * Fi)%F; [ring|]. rewrite h. transitivity (- (Fi * (Fisdm1 * v)))%F; [rewrite h4; ring | ring].
Qed.
Lemma test_FeConstants m : rel L m (k_sqrtID K) Fsqrt_id -> 0 <= m -> 2 + Z.max (cN L) m <= cL L -> t_FeConstants K = true.
Proof.
  intros hq hm0 hm1. facts. unfold t_FeConstants. cbv zeta.
  pose proof (law_D K L) as hD. pose proof (law_one K L) as h1. pose proof (law_I K L) as hI.
  pose proof (law_add K L 1 1 _ _ _ _ hD h1 ltac:(lia) ltac:(lia)) as hp. pose proof (law_sub K L 1 1 _ _ _ _ hD h1 ltac:(lia) ltac:(lia)) as hm.
  pose proof (fe_Inverse_ok L _ _ _ hm ltac:(lia)) as hi. pose proof (fe_mul_r L _ _ _ _ _ _ hi hp ltac:(lia) ltac:(lia)) as hx.
  pose proof (fe_mul_r L _ _ _ _ _ _ hI hD ltac:(lia) ltac:(lia)) as hid. pose proof (fe_Sqrt_ok L _ _ _ hid ltac:(lia)) as hs.
  pose proof (fe_Add_r L _ _ _ _ _ _ (law_isdm1 K L) (law_isdm1 K L) ltac:(lia) ltac:(lia) ltac:(lia)) as hd.
  pose proof (fe_mul_r L _ _ _ _ _ _ (law_disdm1 K L) hI ltac:(lia) ltac:(lia)) as hdi.
  pose proof (fe_InvSqrt_ok L _ _ _ hp ltac:(lia)) as hr.
  rewrite (fe_EqualsI_ok L _ _ _ _ _ _ hx (law_dp1dm1 K L)) by lia. rewrite (fe_EqualsI_ok L _ _ _ _ _ _ hd (law_disdm1 K L)) by lia.
  rewrite (fe_EqualsI_ok L _ _ _ _ _ _ hdi (law_diisdm1 K L)) by lia. rewrite (fe_EqualsI_ok L _ _ _ _ _ _ hr (law_is1pd K L)) by lia.
  rewrite (fe_EqualsI_ok L _ _ _ _ _ _ hs hq) by lia.
  assert (nd : (Fd - F1 <> F0)%F). { intro h. apply (f_equal fval) in h. vm_compute in h. discriminate. }
  assert (E1 : Feqb (Finv (Fd - F1) * (Fd + F1))%F Fdp1dm1 = true).
  { apply Feqb_eq. apply (Fmul_cancel_l (Fd - F1)%F); [exact nd|]. transitivity (Finv (Fd - F1) * (Fd - F1) * (Fd + F1))%F; [ring|].
    rewrite (Finv_l _ nd), <- Fdp1dm1_eq. ring. }
  assert (E2 : Feqb (Fabs (isr_val (Fi * Fd) * (Fi * Fd)))%F Fsqrt_id = true).
  { apply Feqb_eq. apply Fnonneg_sq_unique; [apply Fabs_nonneg | apply Fsqrt_id_nonneg|]. rewrite Fabs_sq, <- Fsqrt_id_sq, isr_sq. reflexivity. }
  assert (E3 : Feqb (Fisdm1 + Fisdm1)%F (of_Z 2 * Fisdm1)%F = true).
  { apply Feqb_eq. change (of_Z 2) with (F1 + F1)%F. ring. }
  assert (E4 : Feqb (of_Z 2 * Fisdm1 * Fi)%F (Fi * (of_Z 2 * Fisdm1))%F = true) by (apply Feqb_eq; ring).
  assert (E5 : Feqb (isr_val (Fd + F1)%F) (- (Fi * Fisdm1))%F = true) by (apply Feqb_eq; exact isr_1pd).
  rewrite E1, E2, E3, E4, E5. reflexivity.
Qed.
End Field.
