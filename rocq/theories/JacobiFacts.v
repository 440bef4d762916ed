(** JacobiPoint: the quartic, its map to the curve, and the inverse of Elligator on one point of the quartic, in every build. *)
From Coq Require Import ZArith Znumtheory List Lia Bool.
From Verif Require Import Words Primes Fp Edwards GroupOrder RistrettoSpec FieldModel CurveModel FieldLaws CurveProofs
  ElligatorSpec ElligatorMath ElligatorProofs ApiProofs Backends EdwardsFacts EdProgProofs.
Import ListNotations.
Open Scope Z_scope.

(** [jacobi_of b q s t]: the coordinates of [q] stand for [s] and [t], with limbs in bounds *)
Definition jacobi_of (b : build) (q : jacobi (fe (ops b))) (s t : F) : Prop :=
  (limbs b 2 (jS q) /\ limbs b (match b with PureGo64 => 2 | _ => 1 end) (jT q)) /\
  of_Z (value b (jS q)) = s /\ of_Z (value b (jT q)) = t.
Lemma jo_rjac b q s t : jacobi_of b q s t <-> rjac (laws b) q (s, t).
Proof.
  unfold jacobi_of, rjac. cbn [fst snd]. rewrite cN_b, !rel_iff. split.
  - intros ((h1 & h2) & h3 & h4). exact (conj (conj h1 h3) (conj h2 h4)).
  - intros ((h1 & h3) & (h2 & h4)). exact (conj (conj h1 h2) (conj h3 h4)).
Qed.

Lemma j_set b q s t : jacobi_of b q s t -> on_J s t ->
  exists A, below s t A /\ even A /\ completed b (cp_SetJacobiQuartic (ops b) q) A.
Proof.
  intros h hJ. apply jo_rjac in h. destruct h as [h1 h2]. cbn [fst snd] in h1, h2. destruct (below_exists s t hJ) as [A hA].
  exists A. refine (conj hA (conj (below_even s t A hA) _)). apply co_rct. fe_facts (laws b).
  apply (cp_SetJacobiQuartic_ok (laws b) q s t A h1); [|exact hA]. exact (rel_le _ (laws b) (cN (laws b)) (1 + cN (laws b)) _ _ ltac:(lia) h2).
Qed.
Lemma j_dual b q s t : jacobi_of b q s t -> jacobi_of b (jc_Dual (ops b) q) (Fopp s) (Fopp t) /\ forall A, below s t A -> below (Fopp s) (Fopp t) A.
Proof.
  intro h. split; [|intro A; apply below_neg]. apply jo_rjac in h. apply jo_rjac. exact (jc_Dual_ok (laws b) q (s, t) h).
Qed.

(** ** Points of the quartic above a point of the curve *)
Lemma neg_pt_ne (t : F) : t <> F0 -> t <> Fopp t.
Proof. intros h e. apply h. exact (self_opp t e). Qed.
Lemma below_pair s t A : below s t A -> (forall s' t', below s' t' A <-> (s', t') = (s, t) \/ (s', t') = (Fopp s, Fopp t)) /\ (s, t) <> (Fopp s, Fopp t).
Proof.
  intro h. split.
  - intros s' t'. split; [|exact (pair_neg s t s' t' A h)]. intro g. destruct (F_dec s F0) as [e|e].
    + subst s. destruct (below_s0 t A h) as [eA ht]. assert (es : s' = F0) by (apply (below_x0 s' t' A g); rewrite eA; reflexivity).
      subst s'. destruct (below_s0 t' A g) as [_ ht']. replace (Fopp F0) with F0 by ring.
      destruct ht as [-> | ->], ht' as [-> | ->]; auto. right. f_equal. ring.
    + destruct (below_same s t s' t' A h g e) as [[-> ->]|[-> ->]]; auto.
  - intro e. apply pair_eq in e. exact (neg_pt_ne t (J_t_nz s t (proj1 h)) (proj2 e)).
Qed.
Lemma T2_none s t : ~ below s t T2.
Proof.
  intros (h & h1 & h2). change (ey T2) with (Fopp F1) in h2. change (ex T2) with F0 in h1.
  apply four_nz. transitivity ((F1 + F1) * (F1 + F1))%F; [apply F_eq; vm_compute; reflexivity|].
  assert (e : (F1 + F1)%F = F0) by (transitivity ((F1 - s * s) - (Fopp F1 * (F1 + s * s)))%F; [ring|]; rewrite h2; ring).
  rewrite e. ring.
Qed.
Lemma small_cases A : ex A = F0 \/ ey A = F0 -> A = E0 \/ A = T2 \/ A = T4 \/ A = T4'.
Proof. intro h. apply Req_E0_coords, Req_coset in h. rewrite !Eadd_0_l in h. exact h. Qed.
Lemma j_cover A : even A ->
  (A = T2 /\ forall s t, ~ below s t A) \/
  (A <> T2 /\ exists s t, (forall s' t', below s' t' A <-> (s', t') = (s, t) \/ (s', t') = (Fopp s, Fopp t)) /\ (s, t) <> (Fopp s, Fopp t)).
Proof.
  intro hA.
  assert (G : A = T2 \/ exists s t, below s t A).
  { destruct (F_dec (ex A) F0) as [hx|hx]; [|destruct (F_dec (ey A) F0) as [hy|hy]].
    1,2: assert (hz : ex A = F0 \/ ey A = F0) by auto; destruct below_zeros as (z0 & z1 & z2);
      destruct (small_cases A hz) as [->|[->|[->| ->]]]; [right; eauto | left; reflexivity | right; eauto | right; eauto].
    destruct (jq_main A F1 hA F1_neq_0 hx hy) as (s0 & t0 & _ & _ & _ & _ & _ & _ & _ & b0 & _). right. exists s0, t0. exact b0. }
  destruct G as [->|(s & t & h)]; [left; split; [reflexivity | exact T2_none]|]. right. split.
  - intros ->. exact (T2_none s t h).
  - exists s, t. exact (below_pair s t A h).
Qed.

(** ** ToJacobiQuarticRistretto *)
Lemma F2_impl {X Y : Type} (R S : X -> Y -> Prop) l1 l2 : (forall x y, R x y -> S x y) -> Forall2 R l1 l2 -> Forall2 S l1 l2.
Proof. intros h g. induction g; constructor; auto. Qed.
Lemma jq_images A z : even A -> z <> F0 -> exists Bs, Forall2 (fun st B => below (fst st) (snd st) B) (jq A z) Bs /\
  (In A [E0; T2; T4; T4'] -> Bs = [E0; E0; T4'; T4]) /\ (~ In A [E0; T2; T4; T4'] -> Bs = [A; Eadd A T2; Eadd A T4'; Eadd A T4]).
Proof.
  intros hA hz.
  assert (D : (ex A = F0 \/ ey A = F0) \/ (ex A <> F0 /\ ey A <> F0)).
  { destruct (F_dec (ex A) F0); [left; left; assumption|]. destruct (F_dec (ey A) F0); [left; right; assumption | right; split; assumption]. }
  destruct D as [h|[hx hy]].
  - rewrite (jq_zero A z h). destruct below_zeros as (z0 & z1 & z2). exists [E0; E0; T4'; T4]. split; [|split].
    + repeat (constructor; [assumption|]). constructor.
    + reflexivity.
    + intro n. exfalso. apply n. cbn [In]. destruct (small_cases A h) as [->|[->|[->| ->]]]; auto.
  - destruct (jq_main A z hA hz hx hy) as (s0 & t0 & s1 & t1 & s2 & t2 & s3 & t3 & e & b0 & b1 & b2 & b3). rewrite e.
    exists [A; Eadd A T2; Eadd A T4'; Eadd A T4]. split; [|split].
    + repeat (constructor; [assumption|]). constructor.
    + intros [h|[h|[h|[h|[]]]]]; exfalso; subst A; (apply hx; reflexivity) || (apply hy; reflexivity).
    + reflexivity.
Qed.
Lemma j_points b P A : point b P A -> exists js P' Bs, ep_ToJacobiQuarticRistretto (ops b) P = (js, P') /\ represents b P' A /\
  Forall2 (fun q B => exists s t, jacobi_of b q s t /\ below s t B) js Bs /\
  (In A [E0; T2; T4; T4'] -> Bs = [E0; E0; T4'; T4]) /\ (~ In A [E0; T2; T4; T4'] -> Bs = [A; Eadd A T2; Eadd A T4'; Eadd A T4]).
Proof.
  intros [h he]. apply rep_rd in h. destruct (ep_ToJacobiQuarticRistretto_ok (laws b) P A h) as (z & js & P' & hz & e & hj & hP).
  destruct (jq_images A z he hz) as (Bs & hB & h1). exists js, P', Bs. refine (conj e (conj (proj2 (rep_rd b P' A) hP) (conj _ h1))).
  clear - hj hB. revert Bs hB. induction hj as [|q st js sts hq hj IH]; intros Bs hB; inversion hB; subst; constructor; [|apply IH; assumption].
  exists (fst st), (snd st). split; [|assumption]. apply jo_rjac. destruct st. exact hq.
Qed.

(** ** The inverse of Elligator on one point of the quartic *)
Lemma j_inverse b q s t : jacobi_of b q s t -> on_J s t -> exists ret out q',
  jc_elligator2Inverse (ops b) q = (ret, out, q') /\ limbs b 2 out /\ jacobi_of b q' s t /\ Fneg (elt b out) = false /\
  (s <> F0 -> (ret = 1 /\ ell (elt b out) s t /\ forall f, ell f s t -> Fneg f = false -> f = elt b out) \/
              (ret = 0 /\ forall f, ~ ell f s t)) /\
  (s = F0 -> ret = 1 /\ ell (elt b out) F0 (Fopp F1)).
Proof.
  intros h hJ. pose proof h as h'. apply jo_rjac in h'. destruct h' as [h1 h2]. cbn [fst snd] in h1, h2.
  destruct (jc_elligator2Inverse_ok (laws b) q s t h1 h2) as (out & q' & e & ho & g1 & g2).
  apply rel_iff in ho. destruct ho as [lo eo]. exists (Z.b2z (inv_ret s t)), out, q'.
  assert (eo' : elt b out = inv_out s t) by exact eo. rewrite eo'.
  refine (conj e (conj lo (conj _ (conj (inv_out_nonneg s t) (conj _ _))))).
  - apply jo_rjac. exact (conj g1 g2).
  - intro hs. destruct (inv_ret s t) eqn:er.
    + left. refine (conj eq_refl (conj (inv_ok s t hJ hs er) _)). intros f hf hn. symmetry. exact (proj2 (inv_all s t f hs hf hn)).
    + right. refine (conj eq_refl _). intros f hf. pose proof (inv_all s t (Fabs f) hs (ell_abs f s t hf) (Fabs_nonneg f)) as [k _]. rewrite er in k. discriminate k.
  - intros ->. destruct (inv_s0 t) as [e1 e2]. rewrite e1, e2. refine (conj eq_refl _).
    assert (H : forall f, (f = F0 \/ f * f = Fi * Fd \/ Fd * (f * f) = Fi)%F -> ell f F0 (Fopp F1)).
    { intros f hf. destruct (ell_exists f) as (s' & t' & he). pose proof (proj2 (ell_s0 f s' t' he) hf) as es. subst s'.
      assert (et : t' = Fopp F1); [|rewrite <- et; exact he].
      pose proof he as hc. unfold ell in hc. cbv zeta in hc. destruct hc as [(_ & _ & k)|[(hD & _ & _ & k1 & _)|(hD & _ & _ & k1 & k2)]]; [exact k| |].
      - exfalso. apply (ell_N_nz f). rewrite <- k1. ring.
      - assert (er : ell_r f = F0).
        { destruct (F_dec (ell_r f) F0) as [k|k]; [exact k|]. exfalso. apply (Fmul_nz _ _ k (ell_N_nz f)). rewrite <- k1. ring. }
        rewrite er in k2. destruct (F_dec (t' + F1)%F F0) as [k|k]; [transitivity (t' + F1 - F1)%F; [ring|]; rewrite k; ring|].
        exfalso. rewrite er in hD. apply (Fmul_nz _ _ k hD). rewrite k2. ring. }
    destruct (Feqb t F1); apply H; [right; left; exact Fsqrt_id_sq | left; reflexivity].
Qed.
(** no field element is mapped to (0, 1), but the function returns 1 *)
Lemma ell_01 f : ~ ell f F0 F1.
Proof.
  intro h. pose proof h as hc. unfold ell in hc. cbv zeta in hc.
  assert (two : F1 <> Fopp F1) by (apply neg_pt_ne; exact F1_neq_0).
  destruct hc as [(_ & _ & k)|[(hD & _ & _ & k1 & _)|(hD & _ & _ & k1 & k2)]]; [exact (two k)| |].
  - apply (ell_N_nz f). rewrite <- k1. ring.
  - assert (er : ell_r f = F0).
    { destruct (F_dec (ell_r f) F0) as [k|k]; [exact k|]. exfalso. apply (Fmul_nz _ _ k (ell_N_nz f)). rewrite <- k1. ring. }
    rewrite er in k2, hD. apply two. destruct (F_dec (F1 + F1)%F F0) as [k|k]; [transitivity (F1 + F1 - F1)%F; [ring|]; rewrite k; ring|].
    exfalso. apply (Fmul_nz _ _ k hD). rewrite k2. ring.
Qed.
Lemma jac01 b : jacobi_of b (mkJac (k_zero (ops b)) (k_one (ops b))) F0 F1 /\ on_J F0 F1.
Proof.
  split; [|exact (proj1 (proj1 below_zeros))]. apply jo_rjac. split; cbn [jS jT fst snd]; fe_facts (laws b).
  - exact (rel_le _ (laws b) 1 2 _ _ ltac:(lia) (law_zero _ (laws b))).
  - exact (rel_le _ (laws b) 1 (cN (laws b)) _ _ ltac:(lia) (law_one _ (laws b))).
Qed.
Theorem j_inverse_refuted b : exists q s t out q', jacobi_of b q s t /\ on_J s t /\ jc_elligator2Inverse (ops b) q = (1, out, q') /\ forall f, ~ ell f s t.
Proof.
  destruct (jac01 b) as [h hJ]. destruct (j_inverse b _ _ _ h hJ) as (ret & out & q' & e & _ & _ & _ & _ & h0).
  destruct (h0 eq_refl) as [-> _]. exists (mkJac (k_zero (ops b)) (k_one (ops b))), F0, F1, out, q'. exact (conj h (conj hJ (conj e ell_01))).
Qed.

Theorem base_case : point PureGo64 (ep_SetBase (ops PureGo64)) (Eadd EB T4') /\ ~ In (Eadd EB T4') [E0; T2; T4; T4'] /\
  exists s t, below s t (Eadd EB T4').
Proof.
  assert (hn : ~ In (Eadd EB T4') [E0; T2; T4; T4']).
  { intro h. rewrite <- EBc_eq in h. pose proof (proj1 (dlog_eq _ _ _ _ dlog_EBc (torsion_dlog _ h)) (Req_refl _)) as e. discriminate e. }
  pose proof (proj1 (proj2 (b_const PureGo64))) as hp. refine (conj hp (conj hn _)).
  destruct (j_cover _ (proj2 hp)) as [[e _]|(_ & s & t & h & _)].
  - exfalso. apply hn. rewrite e. cbn [In]. auto.
  - exists s, t. apply h. left. reflexivity.
Qed.
