(** Correctness of the point arithmetic of curve.go and table.go over any field backend
    satisfying [FeLaws]: the representation relations and one operation at a time. *)
From Coq Require Import ZArith List Lia Bool Ring Field.
From Verif Require Import Words FieldModel CurveModel BitFold Primes Fp Edwards GroupOrder RistrettoSpec FieldLaws.
Import ListNotations.
Open Scope Z_scope.

Lemma rel_eq {K} (L : FeLaws K) n m x f g : rel L n x f -> n <= m -> f = g -> rel L m x g.
Proof. intros h hn <-. apply (rel_le K L n); assumption. Qed.

Ltac fe_facts L :=
  pose proof (cN_rng _ L); pose proof (cB_rng _ L); pose proof (cL_ge _ L); pose proof (cL_le _ L).

(** synthesise [rel L ?n e ?f] from the shape of [e] *)
Ltac fe_go :=
  lazymatch goal with
  | H : fits _ ?x ?y |- rel _ _ (o_mul _ _ (o_sub _ ?y ?x)) _ => eapply fits_sub; [fe_le | fe_le | fe_le | exact H]
  | H : fits _ ?x ?y |- rel _ _ (o_mul _ _ (o_add _ ?x ?y)) _ => eapply fits_add; [fe_le | fe_le | fe_le | exact H]
  | H : fits _ ?x ?y |- rel _ _ (o_mul _ _ (o_add _ ?y ?x)) _ => eapply fits_add'; [fe_le | fe_le | fe_le | exact H]
  | |- rel _ _ (o_mul _ _ _) _ => eapply fe_mul_r; [fe_go | fe_go | lia | lia]
  | |- rel _ _ (o_square _ _) _ => eapply fe_square_r; [fe_go | lia]
  | |- rel _ _ (o_doubledSquare _ _) _ => eapply fe_dsquare_r; [fe_go | lia]
  | |- rel _ _ (o_add _ _ _) _ => eapply law_add; [fe_go | fe_go | lia | lia]
  | |- rel _ _ (o_sub _ _ _) _ => eapply law_sub; [fe_go | fe_go | lia | lia]
  | |- rel _ _ (o_neg _ _) _ => eapply law_neg; [fe_go | lia]
  | |- rel _ _ (o_normalize _ _) _ => eapply fe_normalize_r; [fe_go | lia]
  | |- rel _ _ (fe_Add _ _ _) _ => eapply fe_Add_r; [fe_go | fe_go | lia | lia | lia]
  | |- rel _ _ (fe_Sub _ _ _) _ => eapply fe_Sub_r; [fe_go | fe_go | lia | lia | lia]
  | |- rel _ _ (fe_Inverse _ _) _ => eapply fe_Inverse_ok; [fe_go | lia]
  | |- rel _ _ (fe_InvSqrt _ _) _ => eapply fe_InvSqrt_ok; [fe_go | lia]
  | |- rel _ _ (k_zero _) _ => apply law_zero
  | |- rel _ _ (k_one _) _ => apply law_one
  | |- rel _ _ (k_minusOne _) _ => apply law_minusOne
  | |- rel _ _ (k_I _) _ => apply law_I
  | |- rel _ _ (k_minusI _) _ => apply law_minusI
  | |- rel _ _ (k_D _) _ => apply law_D
  | |- rel _ _ (k_2D _) _ => apply law_2D
  | |- rel _ _ (k_invSqrtMinusDMinusOne _) _ => apply law_isdm1
  | |- rel _ _ (k_doubleInvSqrtMinusDMinusOne _) _ => apply law_disdm1
  | |- rel _ _ (k_doubleIInvSqrtMinusDMinusOne _) _ => apply law_diisdm1
  | |- rel _ _ (k_dMinusOneSquared _) _ => apply law_dm1s
  | |- rel _ _ (k_oneMinusDSquared _) _ => apply law_omds
  | |- rel _ _ (k_dp1OverDm1 _) _ => apply law_dp1dm1
  | |- rel _ _ (k_sqrtID _) _ => apply law_sqrtID
  | |- rel _ _ (k_invSqrt1pD _) _ => apply law_is1pd
  | H : rel _ _ ?x _ |- rel _ _ ?x _ => exact H
  end
with fe_le := eapply rel_eq; [fe_go | lia | reflexivity].

(** prove [rel L n e f] for a given [n] and [f], leaving the field equation *)
Ltac fe_rel := eapply rel_eq; [fe_go | lia |].

Section Points.
Context {K : FeOps} (L : FeLaws K).
Local Notation FE := (fe K).

(** [P] represents the curve point [A]: (X : Y : Z : T) = (x z, y z, z, x y z), z <> 0 *)
Definition rpt (n : Z) (P : ext FE) (A : E) : Prop :=
  exists z, z <> F0 /\ rel L n (eX P) (Fmul (ex A) z) /\ rel L n (eY P) (Fmul (ey A) z) /\
  rel L n (eZ P) z /\ rel L n (eT P) (Fmul (Fmul (ex A) (ey A)) z).

(** the points of the API: X, Y and T may have been serialised in place *)
Definition rd (P : ext FE) (A : E) : Prop :=
  exists z, z <> F0 /\ rel L 2 (eX P) (Fmul (ex A) z) /\ rel L 2 (eY P) (Fmul (ey A) z) /\
  rel L (cN L) (eZ P) z /\ rel L 2 (eT P) (Fmul (Fmul (ex A) (ey A)) z).

(** those that may also be the second operand of an addition *)
Definition rf (P : ext FE) (A : E) : Prop := rd P A /\ fits L (eX P) (eY P).

(** completed points: x = X/Z, y = Y/T *)
Definition rct (P : compl FE) (A : E) : Prop :=
  exists z t, z <> F0 /\ t <> F0 /\ rel L (cL L) (cX P) (Fmul (ex A) z) /\ rel L (cL L) (cY P) (Fmul (ey A) t) /\
  rel L (cL L) (cZ P) z /\ rel L (cL L) (cT P) t.

(** projective points *)
Definition rpp (P : proj FE) (A : E) : Prop :=
  exists z, z <> F0 /\ rel L (cN L) (jX P) (Fmul (ex A) z) /\ rel L (cN L) (jY P) (Fmul (ey A) z) /\
  rel L (cN L) (jZ P) z.

(** Niels points: (y + x, y - x, 2 d x y) *)
Definition rnp (n : Z) (P : niels FE) (A : E) : Prop :=
  rel L n (nYpX P) (Fadd (ey A) (ex A)) /\ rel L n (nYmX P) (Fsub (ey A) (ex A)) /\
  rel L n (nXY2D P) (Fmul (Fmul (of_Z 2) Fd) (Fmul (ex A) (ey A))).

Lemma rpt_le n m P A : n <= m -> rpt n P A -> rpt m P A.
Proof.
  intros hnm (z & hz & h1 & h2 & h3 & h4). exists z.
  refine (conj hz (conj _ (conj _ (conj _ _)))); apply (rel_le K L n); assumption.
Qed.

Lemma rf_rd P A : rf P A -> rd P A.
Proof. intros [h _]. exact h. Qed.

Lemma rpt_rd n P A : n <= cN L -> rpt n P A -> rd P A.
Proof.
  intros hn (z & hz & h1 & h2 & h3 & h4). pose proof (cN_rng K L). exists z.
  refine (conj hz (conj _ (conj _ (conj _ _)))); (eapply (rel_le K L n); [lia | assumption]).
Qed.

Lemma rpt_rf n P A : n <= cN L -> rpt n P A -> rf P A.
Proof.
  intros hn h. split; [exact (rpt_rd n P A hn h)|]. destruct h as (z & hz & h1 & h2 & h3 & h4).
  eapply fits_small; (eapply (rel_le K L n); [exact hn | eassumption]).
Qed.

Lemma rd_rpt P A : rd P A -> rpt 2 P A.
Proof.
  intros (z & hz & h1 & h2 & h3 & h4). pose proof (cN_rng K L). exists z.
  refine (conj hz (conj h1 (conj h2 (conj _ h4)))). apply (rel_le K L (cN L)); [lia | exact h3].
Qed.

Lemma rnp_le n m P A : n <= m -> rnp n P A -> rnp m P A.
Proof.
  intros hnm (h1 & h2 & h3). refine (conj _ (conj _ _)); apply (rel_le K L n); assumption.
Qed.

Lemma rct_ext C A : rct C A -> rpt 1 (ep_SetCompleted K C) A.
Proof.
  intros (z & t & hz & ht & h1 & h2 & h3 & h4). exists (Fmul z t).
  refine (conj (Fmul_nz _ _ hz ht) _).
  refine (conj _ (conj _ (conj _ _))); cbn [ep_SetCompleted eX eY eZ eT]; (fe_rel; ring).
Qed.

Lemma rct_proj C A : rct C A -> rpp (pp_SetCompleted K C) A.
Proof.
  intros (z & t & hz & ht & h1 & h2 & h3 & h4). exists (Fmul z t). fe_facts L.
  refine (conj (Fmul_nz _ _ hz ht) _).
  refine (conj _ (conj _ _)); cbn [pp_SetCompleted jX jY jZ]; (fe_rel; ring).
Qed.

Definition prodxy (A B : E) : F := Fmul (Fmul (ex A) (ex B)) (Fmul (ey A) (ey B)).

Lemma add_nzp A B : Fadd F1 (Fmul Fd (prodxy A B)) <> F0.
Proof. unfold prodxy. intro h. apply (complete_p _ _ _ _ (E_on A) (E_on B)). rewrite <- h. ring. Qed.
Lemma add_nzm A B : Fsub F1 (Fmul Fd (prodxy A B)) <> F0.
Proof. unfold prodxy. intro h. apply (complete_m _ _ _ _ (E_on A) (E_on B)). rewrite <- h. ring. Qed.

Lemma ex_add A B : (ex (Eadd A B) * (F1 + Fd * prodxy A B) = ex A * ey B + ex B * ey A)%F.
Proof.
  change (ex (Eadd A B)) with (addx (ex A) (ey A) (ex B) (ey B)). unfold addx.
  pose proof (add_nzp A B) as h. unfold prodxy in *. field.
  intro h'. apply h. rewrite <- h'. ring.
Qed.
Lemma ey_add A B : (ey (Eadd A B) * (F1 - Fd * prodxy A B) = ey A * ey B + ex A * ex B)%F.
Proof.
  change (ey (Eadd A B)) with (addy (ex A) (ey A) (ex B) (ey B)). unfold addy.
  pose proof (add_nzm A B) as h. unfold prodxy in *. field.
  intro h'. apply h. rewrite <- h'. ring.
Qed.

Lemma F2z z w : z <> F0 -> w <> F0 -> Fmul (Fmul (of_Z 2) z) w <> F0.
Proof. intros hz hw. apply Fmul_nz; [apply Fmul_nz; [exact F2_nz | exact hz] | exact hw]. Qed.

Lemma cp_AddExtended_ok P Q A B : rd P A -> rf Q B -> rct (cp_AddExtended K P Q) (Eadd A B).
Proof.
  intros (z & hz & h1 & h2 & h3 & h4) [(w & hw & g1 & g2 & g3 & g4) gf]. fe_facts L.
  exists (of_Z 2 * (z * w) * (F1 + Fd * prodxy A B))%F, (of_Z 2 * (z * w) * (F1 - Fd * prodxy A B))%F.
  refine (conj (F2z _ _ (Fmul_nz _ _ hz hw) (add_nzp A B)) (conj (F2z _ _ (Fmul_nz _ _ hz hw) (add_nzm A B)) _)).
  cbv zeta beta delta [cp_AddExtended]. cbn [cX cY cZ cT].
  refine (conj _ (conj _ (conj _ _))); fe_rel.
  - transitivity (of_Z 2 * (z * w) * (ex A * ey B + ex B * ey A))%F; [ring|]. rewrite <- ex_add. ring.
  - transitivity (of_Z 2 * (z * w) * (ey A * ey B + ex A * ex B))%F; [ring|]. rewrite <- ey_add. ring.
  - unfold prodxy. ring.
  - unfold prodxy. ring.
Qed.

Lemma ex_opp A : ex (Eopp A) = Fopp (ex A). Proof. reflexivity. Qed.
Lemma ey_opp A : ey (Eopp A) = ey A. Proof. reflexivity. Qed.

Lemma cp_SubExtended_ok P Q A B : rd P A -> rf Q B -> rct (cp_SubExtended K P Q) (Esub A B).
Proof.
  intros (z & hz & h1 & h2 & h3 & h4) [(w & hw & g1 & g2 & g3 & g4) gf]. fe_facts L. unfold Esub.
  exists (of_Z 2 * (z * w) * (F1 + Fd * prodxy A (Eopp B)))%F, (of_Z 2 * (z * w) * (F1 - Fd * prodxy A (Eopp B)))%F.
  refine (conj (F2z _ _ (Fmul_nz _ _ hz hw) (add_nzp A (Eopp B))) (conj (F2z _ _ (Fmul_nz _ _ hz hw) (add_nzm A (Eopp B))) _)).
  cbv zeta beta delta [cp_SubExtended]. cbn [cX cY cZ cT].
  refine (conj _ (conj _ (conj _ _))); fe_rel.
  - transitivity (of_Z 2 * (z * w) * (ex A * ey (Eopp B) + ex (Eopp B) * ey A))%F; [rewrite ex_opp, ey_opp; ring|]. rewrite <- ex_add. ring.
  - transitivity (of_Z 2 * (z * w) * (ey A * ey (Eopp B) + ex A * ex (Eopp B)))%F; [rewrite ex_opp, ey_opp; ring|]. rewrite <- ey_add. ring.
  - unfold prodxy. rewrite ex_opp, ey_opp. ring.
  - unfold prodxy. rewrite ex_opp, ey_opp. ring.
Qed.

Lemma dbl_den A : (Fd * prodxy A A = ey A * ey A - ex A * ex A - F1)%F.
Proof. pose proof (E_on A) as h. unfold on_curve in h. unfold prodxy. rewrite h. ring. Qed.

Lemma cp_DoubleExtended_ok P A : rd P A -> rct (cp_DoubleExtended K P) (Eadd A A).
Proof.
  intros (z & hz & h1 & h2 & h3 & h4). fe_facts L.
  pose proof (Fmul_nz _ _ hz hz) as hzz.
  exists ((z * z) * (F1 + Fd * prodxy A A))%F, (- ((z * z) * (F1 - Fd * prodxy A A)))%F.
  refine (conj (Fmul_nz _ _ hzz (add_nzp A A)) (conj _ _)).
  { intro h. apply (proj1 (Fopp_0_iff _)) in h. exact (Fmul_nz _ _ hzz (add_nzm A A) h). }
  cbv zeta beta delta [cp_DoubleExtended]. cbn [cX cY cZ cT].
  refine (conj _ (conj _ (conj _ _))); fe_rel.
  - transitivity ((z * z) * (ex A * ey A + ex A * ey A))%F; [ring|]. rewrite <- ex_add. ring.
  - transitivity (- ((z * z) * (ey A * ey A + ex A * ex A)))%F; [ring|]. rewrite <- ey_add. ring.
  - rewrite dbl_den. ring.
  - rewrite dbl_den. ring.
Qed.

Lemma cp_DoubleProjective_ok P A : rpp P A -> rct (cp_DoubleProjective K P) (Eadd A A).
Proof.
  intros (z & hz & h1 & h2 & h3). fe_facts L.
  pose proof (Fmul_nz _ _ hz hz) as hzz.
  exists ((z * z) * (F1 + Fd * prodxy A A))%F, ((z * z) * (F1 - Fd * prodxy A A))%F.
  refine (conj (Fmul_nz _ _ hzz (add_nzp A A)) (conj (Fmul_nz _ _ hzz (add_nzm A A)) _)).
  cbv zeta beta delta [cp_DoubleProjective]. cbn [cX cY cZ cT].
  refine (conj _ (conj _ (conj _ _))); fe_rel.
  - transitivity ((z * z) * (ex A * ey A + ex A * ey A))%F; [ring|]. rewrite <- ex_add. ring.
  - transitivity ((z * z) * (ey A * ey A + ex A * ex A))%F; [ring|]. rewrite <- ey_add. ring.
  - rewrite dbl_den. ring.
  - rewrite dbl_den. ring.
Qed.

Lemma ep_Add_ok P Q A B : rd P A -> rf Q B -> rpt 1 (ep_Add K P Q) (Eadd A B).
Proof. intros hP hQ. apply rct_ext, cp_AddExtended_ok; assumption. Qed.
Lemma ep_Sub_ok P Q A B : rd P A -> rf Q B -> rpt 1 (ep_Sub K P Q) (Esub A B).
Proof. intros hP hQ. apply rct_ext, cp_SubExtended_ok; assumption. Qed.
Lemma ep_Double_ok P A : rd P A -> rpt 1 (ep_Double K P) (Eadd A A).
Proof. intros hP. apply rct_ext, cp_DoubleExtended_ok; assumption. Qed.

Lemma ep_Neg_ok n P A : rpt n P A -> n <= cL L -> rpt (Z.max (cN L) n) (ep_Neg K P) (Eopp A).
Proof.
  intros (z & hz & h1 & h2 & h3 & h4) hn. fe_facts L. exists z. refine (conj hz _).
  cbn [ep_Neg eX eY eZ eT]. rewrite ex_opp, ey_opp.
  refine (conj _ (conj _ (conj _ _))); (fe_rel; ring).
Qed.

Lemma ep_Neg_rd P A : rd P A -> rd (ep_Neg K P) (Eopp A).
Proof.
  intros (z & hz & h1 & h2 & h3 & h4). fe_facts L. exists z. refine (conj hz _).
  cbn [ep_Neg eX eY eZ eT]. rewrite ex_opp, ey_opp.
  refine (conj _ (conj _ (conj _ _))); (fe_rel; ring).
Qed.

Lemma ep_Neg_rf P A : rf P A -> rf (ep_Neg K P) (Eopp A).
Proof.
  intros [h hf]. split; [exact (ep_Neg_rd P A h)|]. destruct h as (z & hz & h1 & h2 & h3 & h4).
  exact (fits_neg K L _ _ _ h1 hf).
Qed.

Lemma ep_Zero_ok : rpt 1 (ep_SetZero K) E0.
Proof.
  exists F1. refine (conj F1_neq_0 _). cbn [ep_SetZero eX eY eZ eT].
  change (ex E0) with F0. change (ey E0) with F1.
  refine (conj _ (conj _ (conj _ _))); (fe_rel; ring).
Qed.

Lemma ep_Base_ok : rpt 2 (ep_SetBase K) EBc.
Proof.
  exists F1. refine (conj F1_neq_0 _). cbn [ep_SetBase eX eY eZ eT]. 
  refine (conj _ (conj _ (conj _ _))).
  - eapply rel_eq; [apply law_baseX | lia | ring].
  - eapply rel_eq; [apply law_baseY | lia | ring].
  - fe_rel. ring.
  - eapply rel_eq; [apply law_baseT | lia | ring].
Qed.

Lemma ep_Base_rf : rf (ep_SetBase K) EBc.
Proof.
  split; [|exact (fits_base K L)].
  exists F1. refine (conj F1_neq_0 _). cbn [ep_SetBase eX eY eZ eT]. pose proof (cN_rng K L).
  refine (conj _ (conj _ (conj _ _))).
  - eapply rel_eq; [apply law_baseX | lia | ring].
  - eapply rel_eq; [apply law_baseY | lia | ring].
  - fe_rel. ring.
  - eapply rel_eq; [apply law_baseT | lia | ring].
Qed.

Lemma rpt_1 P A : rpt 1 P A -> rf P A.
Proof. pose proof (cN_rng K L). apply rpt_rf. lia. Qed.

(** conditional assignment *)
Lemma ep_ConditionalSet_ok n m P Q A B b : rpt n P A -> rpt m Q B -> n <= cL L -> m <= cL L ->
  ep_ConditionalSet K P Q (Z.b2z b) = if b then Q else P.
Proof.
  intros (z & hz & h1 & h2 & h3 & h4) (w & hw & g1 & g2 & g3 & g4) hn hm.
  unfold ep_ConditionalSet. destruct P as [a1 a2 a3 a4], Q as [b1 b2 b3 b4]. cbn [eX eY eZ eT] in *.
  rewrite (law_condSet K L n m _ _ _ _ b h1 g1 hn hm), (law_condSet K L n m _ _ _ _ b h2 g2 hn hm),
    (law_condSet K L n m _ _ _ _ b h3 g3 hn hm), (law_condSet K L n m _ _ _ _ b h4 g4 hn hm).
  destruct b; reflexivity.
Qed.

(** ** Niels points *)

Lemma cp_AddExtendedNiels_ok P N A B : rd P A -> rnp (cN L) N B -> rct (cp_AddExtendedNiels K P N) (Eadd A B).
Proof.
  intros (z & hz & h1 & h2 & h3 & h4) (g1 & g2 & g3). fe_facts L.
  exists (of_Z 2 * z * (F1 + Fd * prodxy A B))%F, (of_Z 2 * z * (F1 - Fd * prodxy A B))%F.
  refine (conj (F2z _ _ hz (add_nzp A B)) (conj (F2z _ _ hz (add_nzm A B)) _)).
  cbv zeta beta delta [cp_AddExtendedNiels]. cbn [cX cY cZ cT].
  refine (conj _ (conj _ (conj _ _))); fe_rel.
  - transitivity (of_Z 2 * z * (ex A * ey B + ex B * ey A))%F; [ring|]. rewrite <- ex_add. ring.
  - transitivity (of_Z 2 * z * (ey A * ey B + ex A * ex B))%F; [ring|]. rewrite <- ey_add. ring.
  - unfold prodxy. ring.
  - unfold prodxy. ring.
Qed.

Lemma cp_SubExtendedNiels_ok P N A B : rd P A -> rnp (cN L) N B -> rct (cp_SubExtendedNiels K P N) (Esub A B).
Proof.
  intros (z & hz & h1 & h2 & h3 & h4) (g1 & g2 & g3). fe_facts L. unfold Esub.
  exists (of_Z 2 * z * (F1 + Fd * prodxy A (Eopp B)))%F, (of_Z 2 * z * (F1 - Fd * prodxy A (Eopp B)))%F.
  refine (conj (F2z _ _ hz (add_nzp A (Eopp B))) (conj (F2z _ _ hz (add_nzm A (Eopp B))) _)).
  cbv zeta beta delta [cp_SubExtendedNiels]. cbn [cX cY cZ cT].
  refine (conj _ (conj _ (conj _ _))); fe_rel.
  - transitivity (of_Z 2 * z * (ex A * ey (Eopp B) + ex (Eopp B) * ey A))%F; [rewrite ex_opp, ey_opp; ring|]. rewrite <- ex_add. ring.
  - transitivity (of_Z 2 * z * (ey A * ey (Eopp B) + ex A * ex (Eopp B)))%F; [rewrite ex_opp, ey_opp; ring|]. rewrite <- ey_add. ring.
  - unfold prodxy. rewrite ex_opp, ey_opp. ring.
  - unfold prodxy. rewrite ex_opp, ey_opp. ring.
Qed.

Lemma np_SetZero_ok : rnp 1 (np_SetZero K) E0.
Proof.
  unfold rnp. cbn [np_SetZero nYpX nYmX nXY2D]. change (ex E0) with F0. change (ey E0) with F1.
  refine (conj _ (conj _ _)); (fe_rel; ring).
Qed.

Lemma np_Neg_ok n N A : rnp n N A -> n <= cL L -> rnp (Z.max (cN L) n) (np_Neg K N) (Eopp A).
Proof.
  intros (g1 & g2 & g3) hn. fe_facts L. unfold rnp. cbn [np_Neg nYpX nYmX nXY2D]. rewrite ex_opp, ey_opp.
  refine (conj _ (conj _ _)); (fe_rel; ring).
Qed.

Lemma np_SetExtended_ok P A : rd P A -> rnp 1 (np_SetExtended K P) A.
Proof.
  intros (z & hz & h1 & h2 & h3 & h4). fe_facts L. unfold rnp.
  cbv zeta beta delta [np_SetExtended]. cbn [nYpX nYmX nXY2D].
  assert (hi : (z * Finv z = F1)%F) by (transitivity (Finv z * z)%F; [ring | apply Finv_l, hz]).
  refine (conj _ (conj _ _)); fe_rel.
  - transitivity ((ey A + ex A) * (z * Finv z))%F; [ring|]. rewrite hi. ring.
  - transitivity ((ey A - ex A) * (z * Finv z))%F; [ring|]. rewrite hi. ring.
  - transitivity (of_Z 2 * Fd * (ex A * ey A) * ((z * Finv z) * (z * Finv z)))%F; [ring|]. rewrite hi. ring.
Qed.

Lemma np_ConditionalSet_ok n m P Q A B b : rnp n P A -> rnp m Q B -> n <= cL L -> m <= cL L ->
  np_ConditionalSet K P Q (Z.b2z b) = if b then Q else P.
Proof.
  intros (h1 & h2 & h3) (g1 & g2 & g3) hn hm.
  unfold np_ConditionalSet. destruct P as [a1 a2 a3], Q as [b1 b2 b3]. cbn [nYpX nYmX nXY2D] in *.
  rewrite (law_condSet K L n m _ _ _ _ b h1 g1 hn hm), (law_condSet K L n m _ _ _ _ b h2 g2 hn hm),
    (law_condSet K L n m _ _ _ _ b h3 g3 hn hm).
  destruct b; reflexivity.
Qed.

(** the same with both operands in [rf] *)
Lemma ep_Add_rf P Q A B : rf P A -> rf Q B -> rpt 1 (ep_Add K P Q) (Eadd A B).
Proof. intros [hP _] hQ. exact (ep_Add_ok P Q A B hP hQ). Qed.
Lemma ep_Sub_rf P Q A B : rf P A -> rf Q B -> rpt 1 (ep_Sub K P Q) (Esub A B).
Proof. intros [hP _] hQ. exact (ep_Sub_ok P Q A B hP hQ). Qed.
Lemma ep_Double_rf P A : rf P A -> rpt 1 (ep_Double K P) (Eadd A A).
Proof. intros [hP _]. exact (ep_Double_ok P A hP). Qed.
Lemma cp_AddExtended_rf P Q A B : rf P A -> rf Q B -> rct (cp_AddExtended K P Q) (Eadd A B).
Proof. intros [hP _] hQ. exact (cp_AddExtended_ok P Q A B hP hQ). Qed.
Lemma cp_SubExtended_rf P Q A B : rf P A -> rf Q B -> rct (cp_SubExtended K P Q) (Esub A B).
Proof. intros [hP _] hQ. exact (cp_SubExtended_ok P Q A B hP hQ). Qed.
Lemma cp_DoubleExtended_rf P A : rf P A -> rct (cp_DoubleExtended K P) (Eadd A A).
Proof. intros [hP _]. exact (cp_DoubleExtended_ok P A hP). Qed.
Lemma cp_AddExtendedNiels_rf P N A B : rf P A -> rnp (cN L) N B -> rct (cp_AddExtendedNiels K P N) (Eadd A B).
Proof. intros [hP _]. exact (cp_AddExtendedNiels_ok P N A B hP). Qed.
Lemma cp_SubExtendedNiels_rf P N A B : rf P A -> rnp (cN L) N B -> rct (cp_SubExtendedNiels K P N) (Esub A B).
Proof. intros [hP _]. exact (cp_SubExtendedNiels_ok P N A B hP). Qed.
Lemma np_SetExtended_rf P A : rf P A -> rnp 1 (np_SetExtended K P) A.
Proof. intros [hP _]. exact (np_SetExtended_ok P A hP). Qed.
Lemma ep_ConditionalSet_rf P Q A B b : rf P A -> rf Q B -> ep_ConditionalSet K P Q (Z.b2z b) = if b then Q else P.
Proof.
  intros [hP _] [hQ _]. fe_facts L. apply (ep_ConditionalSet_ok 2 2 P Q A B b (rd_rpt P A hP) (rd_rpt Q B hQ)); lia.
Qed.

End Points.
