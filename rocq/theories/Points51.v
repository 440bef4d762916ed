(** What it means for a Point of the 64-bit backend to represent a curve point, and API-level
    consequences of RistrettoFacts.v. *)
From Coq Require Import ZArith Znumtheory List Lia Bool.
From Verif Require Import Words Primes Fp Edwards GroupOrder RistrettoSpec Fe51Code Fe51Proofs FieldModel CurveModel FieldLaws
  CurveProofs EncodeProofs ScalarMultProofs ScalarCode ScalarModel ScalarReduce ScalarSub ScalarFacts TextCodec RistrettoModel
  RistrettoFacts Fe51Laws BaseTable51 BaseTableProofs Field51Facts.
Import ListNotations.
Open Scope Z_scope.

(** Extended coordinates (X : Y : Z : T) of the affine point [A], with limbs at most twice those of
    a product. *)
Definition represents (P : ext fe51) (A : E) : Prop :=
  (bnd51 (2 * U51) (eX P) /\ bnd51 (2 * U51) (eY P) /\ bnd51 (2 * U51) (eZ P) /\ bnd51 (2 * U51) (eT P)) /\
  val51 (eZ P) <> F0 /\ val51 (eX P) = (ex A * val51 (eZ P))%F /\ val51 (eY P) = (ey A * val51 (eZ P))%F /\
  val51 (eT P) = (ex A * ey A * val51 (eZ P))%F.

(** An element of the ristretto group: a representation of a double of a curve point. *)
Definition element (P : ext fe51) (A : E) : Prop := represents P A /\ even A.
Definition valid (P : ext fe51) : Prop := exists A, element P A.

(** Affine Niels coordinates (y + x, y - x, 2dxy). *)
Definition niels_of (N : niels fe51) (A : E) : Prop :=
  (bnd51 (2 * U51) (nYpX N) /\ bnd51 (2 * U51) (nYmX N) /\ bnd51 (2 * U51) (nXY2D N)) /\
  val51 (nYpX N) = (ey A + ex A)%F /\ val51 (nYmX N) = (ey A - ex A)%F /\
  val51 (nXY2D N) = (of_Z 2 * Fd * (ex A * ey A))%F.

Lemma rep_rpt P A : represents P A <-> rf L51 P A.
Proof.
  split.
  - intros ((b1 & b2 & b3 & b4) & hz & h1 & h2 & h3). refine (conj _ I). exists (val51 (eZ P)).
    exact (conj hz (conj (conj b1 h1) (conj (conj b2 h2) (conj (conj b3 eq_refl) (conj b4 h3))))).
  - intros [(z & hz & (b1 & h1) & (b2 & h2) & (b3 & h3) & (b4 & h4)) _].
    change (of_Z (v51 (eZ P))) with (val51 (eZ P)) in h3. rewrite <- h3 in *. 
    exact (conj (conj b1 (conj b2 (conj b3 b4))) (conj hz (conj h1 (conj h2 h4)))).
Qed.
Lemma elt_point P A : element P A <-> point L51 P A.
Proof. unfold element, point. rewrite rep_rpt. reflexivity. Qed.

Lemma represents_unique P A B : represents P A -> represents P B -> A = B.
Proof.
  intros (_ & hz & h1 & h2 & _) (_ & _ & g1 & g2 & _). apply E_eq; apply (Fmul_cancel_l (val51 (eZ P)) _ _ hz).
  - transitivity (ex A * val51 (eZ P))%F; [ring|]. rewrite <- h1, g1. ring.
  - transitivity (ey A * val51 (eZ P))%F; [ring|]. rewrite <- h2, g2. ring.
Qed.

Ltac torep := repeat match goal with
  | H : represents _ _ |- _ => apply rep_rpt in H
  | H : element _ _ |- _ => apply elt_point in H
  end; lazymatch goal with
  | |- represents _ _ => apply rep_rpt
  | |- element _ _ => apply elt_point
  | _ => idtac end.

(** ** group operations on any curve points *)
Lemma rep_Add P Q A B : represents P A -> represents Q B -> represents (pt_Add R51 P Q) (Eadd A B).
Proof. intros. torep. apply (rpt_1 L51), ep_Add_rf; assumption. Qed.
Lemma rep_Sub P Q A B : represents P A -> represents Q B -> represents (pt_Sub R51 P Q) (Eadd A (Eopp B)).
Proof. intros. torep. apply (rpt_1 L51), ep_Sub_rf; assumption. Qed.
Lemma rep_Double P A : represents P A -> represents (pt_Double R51 P) (Eadd A A).
Proof. intros. torep. apply (rpt_1 L51), ep_Double_rf; assumption. Qed.
Lemma rep_Neg P A : represents P A -> represents (pt_Neg R51 P) (Eopp A).
Proof.
  intros h. torep. exact (ep_Neg_rf L51 P A h).
Qed.
Lemma rep_Zero : represents (pt_SetZero R51) E0.
Proof. torep. apply (rpt_1 L51), ep_Zero_ok. Qed.
Lemma rep_Base : represents (pt_SetBase R51) (Eadd EB T4').
Proof. rewrite <- EBc_eq. torep. exact (ep_Base_rf L51). Qed.

Lemma elt_ops P Q A B : element P A -> element Q B ->
  element (pt_Add R51 P Q) (Eadd A B) /\ element (pt_Sub R51 P Q) (Eadd A (Eopp B)) /\
  element (pt_Double R51 P) (Eadd A A) /\ element (pt_Neg R51 P) (Eopp A) /\ pt_Set R51 P = P.
Proof.
  intros [h1 h2] [h3 h4]. split; [|split; [|split; [|split]]].
  - exact (conj (rep_Add _ _ _ _ h1 h3) (even_add _ _ h2 h4)).
  - exact (conj (rep_Sub _ _ _ _ h1 h3) (even_add _ _ h2 (even_opp _ h4))).
  - exact (conj (rep_Double _ _ h1) (even_double _)).
  - exact (conj (rep_Neg _ _ h1) (even_opp _ h2)).
  - destruct P. reflexivity.
Qed.
Lemma elt_Double P A : element P A -> element (pt_Double R51 P) (Eadd A A).
Proof. intro h. apply (elt_ops P P A A h h). Qed.
Lemma elt_Neg P A : element P A -> element (pt_Neg R51 P) (Eopp A).
Proof. intro h. apply (elt_ops P P A A h h). Qed.
Lemma elt_Zero : element (pt_SetZero R51) E0.
Proof. exact (conj rep_Zero even_0). Qed.
Lemma elt_Base : element (pt_SetBase R51) EBc.
Proof. apply elt_point. apply point_Base. Qed.

Lemma valid_Add P Q : valid P -> valid Q -> valid (pt_Add R51 P Q).
Proof. intros [A h] [B g]. exists (Eadd A B). apply (elt_ops P Q A B h g). Qed.
Lemma valid_Sub P Q : valid P -> valid Q -> valid (pt_Sub R51 P Q).
Proof. intros [A h] [B g]. exists (Eadd A (Eopp B)). apply (elt_ops P Q A B h g). Qed.
Lemma valid_Double P : valid P -> valid (pt_Double R51 P).
Proof. intros [A h]. exists (Eadd A A). apply (elt_ops P P A A h h). Qed.
Lemma valid_Neg P : valid P -> valid (pt_Neg R51 P).
Proof. intros [A h]. exists (Eopp A). apply (elt_ops P P A A h h). Qed.
Lemma valid_Zero : valid (pt_SetZero R51).
Proof. exists E0. exact elt_Zero. Qed.
Lemma valid_Base : valid (pt_SetBase R51).
Proof. exists EBc. exact elt_Base. Qed.

(** ** Equals *)
Lemma eq_iff P Q A B : element P A -> element Q B -> (pt_Equals R51 P Q = true <-> Req A B).
Proof. intros. torep. apply (Equals_point L51); assumption. Qed.
Lemma eqI_iff P Q A B : element P A -> element Q B -> (pt_EqualsI R51 P Q = 1 <-> Req A B) /\ (pt_EqualsI R51 P Q = 0 <-> ~ Req A B).
Proof. intros. torep. apply (EqualsI_point L51); assumption. Qed.

Lemma Req_torsion A B : Req A B <-> In (Eadd A (Eopp B)) [E0; T2; T4; T4'].
Proof.
  unfold Req. change (Esub A B) with (Eadd A (Eopp B)). rewrite E4_list. cbn [In].
  split; [intros [-> | [-> | [-> | ->]]]; auto | intros [<- | [<- | [<- | [<- | []]]]]; auto].
Qed.
Lemma Equals_torsion P Q A B : element P A -> element Q B ->
  (pt_Equals R51 P Q = true <-> In (Eadd A (Eopp B)) [E0; T2; T4; T4']) /\
  pt_EqualsI R51 P Q = Z.b2z (pt_Equals R51 P Q).
Proof.
  intros h g. split; [rewrite <- Req_torsion; apply eq_iff; assumption|].
  destruct (eqI_iff P Q A B h g) as [h1 h0]. unfold pt_Equals.
  destruct (Z.eqb_spec (pt_EqualsI R51 P Q) 1) as [e|e]; [exact e|]. apply h0. intro h2. apply e. apply h1. exact h2.
Qed.
Lemma torsion_coords : (ex E0 = F0 /\ ey E0 = F1) /\ (ex T2 = F0 /\ ey T2 = (- F1)%F) /\ (ex T4 = Fi /\ ey T4 = F0) /\
  (ex T4' = (- Fi)%F /\ ey T4' = F0).
Proof. repeat split. Qed.

Lemma Equals_refl P : valid P -> pt_Equals R51 P P = true.
Proof. intros [A h]. apply (eq_iff P P A A h h). apply Req_refl. Qed.
Lemma Equals_sym P Q : valid P -> valid Q -> pt_Equals R51 P Q = pt_Equals R51 Q P.
Proof.
  intros [A h] [B g]. apply eq_true_iff_eq. rewrite (eq_iff P Q A B h g), (eq_iff Q P B A g h). split; apply Req_sym.
Qed.
Lemma Equals_trans P Q R : valid P -> valid Q -> valid R -> pt_Equals R51 P Q = true -> pt_Equals R51 Q R = true ->
  pt_Equals R51 P R = true.
Proof.
  intros [A h] [B g] [C k]. rewrite (eq_iff P Q A B h g), (eq_iff Q R B C g k), (eq_iff P R A C h k). apply Req_trans.
Qed.

(** prove an [Equals] between expressions *)
Ltac elts := lazymatch goal with
  | |- element (pt_SetZero R51) _ => exact elt_Zero
  | |- element (pt_SetBase R51) _ => exact elt_Base
  | |- element (pt_Add R51 _ _) _ => refine (proj1 (elt_ops _ _ _ _ _ _)); elts
  | |- element (pt_Sub R51 _ _) _ => refine (proj1 (proj2 (elt_ops _ _ _ _ _ _))); elts
  | |- element (pt_Double R51 ?P) _ => refine (elt_Double P _ _); elts
  | |- element (pt_Neg R51 ?P) _ => refine (elt_Neg P _ _); elts
  | h : element ?P _ |- element ?P _ => exact h end.
Ltac eqs := match goal with |- pt_Equals R51 ?P ?Q = true =>
  let A := fresh in let B := fresh in evar (A : E); evar (B : E);
  refine (proj2 (eq_iff P Q A B _ _) _); subst A B; [elts | elts |] end.
Lemma Req_of_eq A B : A = B -> Req A B.
Proof. intros ->. apply Req_refl. Qed.

Lemma grp_assoc P Q R : valid P -> valid Q -> valid R ->
  pt_Equals R51 (pt_Add R51 P (pt_Add R51 Q R)) (pt_Add R51 (pt_Add R51 P Q) R) = true.
Proof. intros [A h] [B g] [C k]. eqs. apply Req_of_eq. apply Eadd_assoc. Qed.
Lemma grp_comm P Q : valid P -> valid Q -> pt_Equals R51 (pt_Add R51 P Q) (pt_Add R51 Q P) = true.
Proof. intros [A h] [B g]. eqs. apply Req_of_eq. apply Eadd_comm. Qed.
Lemma grp_zero P : valid P -> pt_Equals R51 (pt_Add R51 P (pt_SetZero R51)) P = true.
Proof. intros [A h]. eqs. apply Req_of_eq. apply Eadd_0_r. Qed.
Lemma grp_neg P : valid P -> pt_Equals R51 (pt_Add R51 P (pt_Neg R51 P)) (pt_SetZero R51) = true.
Proof. intros [A h]. eqs. apply Req_of_eq. apply Eadd_opp. Qed.
Lemma grp_sub P Q : valid P -> valid Q -> pt_Equals R51 (pt_Sub R51 P Q) (pt_Add R51 P (pt_Neg R51 Q)) = true.
Proof. intros [A h] [B g]. eqs. apply Req_refl. Qed.
Lemma grp_double P : valid P -> pt_Equals R51 (pt_Double R51 P) (pt_Add R51 P P) = true.
Proof. intros [A h]. eqs. apply Req_refl. Qed.
Lemma grp_compat P P' Q Q' : valid P -> valid P' -> valid Q -> valid Q' ->
  pt_Equals R51 P P' = true -> pt_Equals R51 Q Q' = true ->
  pt_Equals R51 (pt_Add R51 P Q) (pt_Add R51 P' Q') = true /\ pt_Equals R51 (pt_Sub R51 P Q) (pt_Sub R51 P' Q') = true /\
  pt_Equals R51 (pt_Double R51 P) (pt_Double R51 P') = true /\ pt_Equals R51 (pt_Neg R51 P) (pt_Neg R51 P') = true.
Proof.
  intros [A h] [A' h'] [B g] [B' g'] e1 e2. apply (eq_iff P P' A A' h h') in e1. apply (eq_iff Q Q' B B' g g') in e2.
  split; [|split; [|split]]; eqs.
  - apply Req_add; assumption.
  - apply Req_add; [|apply Req_opp]; assumption.
  - apply Req_add; assumption.
  - apply Req_opp; assumption.
Qed.

(** ** scalar multiplication *)
Lemma rep_ScalarMult P A s : represents P A -> reduced s -> represents (pt_ScalarMult R51 P s) (Emul (scv s) A).
Proof.
  intros h hs. torep. destruct (reduced_bytes s hs) as (hb & <- & hv & _). apply (ep_ScalarMult_ok L51); assumption.
Qed.
Lemma rep_PublicScalarMult P A s : represents P A -> reduced s ->
  exists R, pt_PublicScalarMult R51 P s = Some R /\ represents R (Emul (scv s) A).
Proof.
  intros h hs. torep. destruct (reduced_bytes s hs) as (hb & <- & _ & hv).
  destruct (ep_VarTimeScalarMult_ok L51 P A _ h hb hv) as (R & e & g). exists R. split; [exact e|]. apply rep_rpt. exact g.
Qed.
Lemma rep_tables P A s : represents P A -> reduced s ->
  represents (pt_ScalarMultTable R51 (pt_Compute R51 P) s) (Emul (scv s) A) /\
  exists R, pt_PublicScalarMultTable R51 (pt_Compute R51 P) s = Some R /\ represents R (Emul (scv s) A).
Proof.
  intros h hs. torep. destruct (reduced_bytes s hs) as (hb & <- & _ & hv).
  assert (ht : tbl_ok L51 2 (pt_Compute R51 P) A).
  { destruct (tbl_Compute_ok L51 P A h) as [hl h3]. split; [exact hl|]. intros i hi. destruct (h3 i hi) as [h4 h5].
    split; [exact h4|]. intros j hj. apply (rnp_le L51 1); [lia | apply h5; exact hj]. }
  split.
  - apply rep_rpt. apply (tbl_ScalarMult_ok L51); assumption.
  - destruct (tbl_VarTimeScalarMult_ok L51 _ A _ ht hb hv) as (R & e & g). exists R. split; [exact e|]. apply rep_rpt. exact g.
Qed.
Lemma table_entries P A i j : represents P A -> (i < 32)%nat -> (j < 8)%nat ->
  niels_of (tbl_at R51 (pt_Compute R51 P) i j) (Emul ((Z.of_nat j + 1) * 256 ^ Z.of_nat i) A).
Proof.
  intros h hi hj. torep. destruct (tbl_Compute_ok L51 P A h) as [hl h3]. destruct (h3 i hi) as [h4 h5].
  destruct (rnp_le L51 1 2 _ _ ltac:(lia) (h5 j hj)) as ((b1 & e1) & (b2 & e2) & (b3 & e3)).
  exact (conj (conj b1 (conj b2 b3)) (conj e1 (conj e2 e3))).
Qed.
Lemma base_entries i j : (i < 32)%nat -> (j < 8)%nat ->
  niels_of (tbl_at R51 r51_baseTable i j) (Emul ((Z.of_nat j + 1) * 256 ^ Z.of_nat i) (Eadd EB T4')).
Proof.
  intros hi hj. rewrite <- EBc_eq. destruct base51_ok as [hl h3]. destruct (h3 i hi) as [h4 h5].
  destruct (rnp_le L51 1 2 _ _ ltac:(lia) (h5 j hj)) as ((b1 & e1) & (b2 & e2) & (b3 & e3)).
  exact (conj (conj b1 (conj b2 b3)) (conj e1 (conj e2 e3))).
Qed.
Lemma base_mult s : reduced s ->
  element (pt_ScalarMultBase R51 r51_baseTable s) (Emul (scv s) EBc) /\
  exists R, pt_PublicScalarMultBase R51 r51_baseTable s = Some R /\ element R (Emul (scv s) EBc).
Proof.
  intro hs. split.
  - apply elt_point. exact (point_ScalarMultBase L51 _ s base51_ok hs).
  - destruct (point_PublicScalarMultBase L51 _ s base51_ok hs) as (R & e & h). exists R. split; [exact e|]. apply elt_point. exact h.
Qed.
Lemma base_class s P : reduced s -> element P (Emul (scv s) EB) ->
  pt_Equals R51 (pt_ScalarMultBase R51 r51_baseTable s) P = true /\
  exists R, pt_PublicScalarMultBase R51 r51_baseTable s = Some R /\ pt_Equals R51 R P = true.
Proof.
  intros hs hP. destruct (base_mult s hs) as [h (R & e & hR)].
  assert (hq : Req (Emul (scv s) EBc) (Emul (scv s) EB)) by (apply Req_mul, EBc_Req). split.
  - apply (eq_iff _ _ _ _ h hP). exact hq.
  - exists R. split; [exact e|]. apply (eq_iff _ _ _ _ hR hP). exact hq.
Qed.

Lemma elt_ScalarMult P A s : element P A -> reduced s -> element (pt_ScalarMult R51 P s) (Emul (scv s) A).
Proof. intros [h1 h2] hs. exact (conj (rep_ScalarMult _ _ _ h1 hs) (even_mul _ _ h2)). Qed.
Lemma valid_ScalarMult P s : valid P -> reduced s -> valid (pt_ScalarMult R51 P s).
Proof. intros [A h] hs. exists (Emul (scv s) A). apply elt_ScalarMult; assumption. Qed.
Lemma public_same P s : valid P -> reduced s ->
  exists R, pt_PublicScalarMult R51 P s = Some R /\ valid R /\ pt_Equals R51 R (pt_ScalarMult R51 P s) = true.
Proof.
  intros [A [h1 h2]] hs. destruct (rep_PublicScalarMult P A s h1 hs) as (R & e & h). exists R. split; [exact e|].
  assert (hR : element R (Emul (scv s) A)) by exact (conj h (even_mul _ _ h2)).
  split; [eexists; exact hR|]. apply (eq_iff _ _ _ _ hR (elt_ScalarMult P A s (conj h1 h2) hs)). apply Req_refl.
Qed.

(** ** the group *)
Lemma cyclic P : valid P -> exists s, reduced s /\ pt_Equals R51 P (pt_ScalarMultBase R51 r51_baseTable s) = true /\
  forall t, reduced t -> pt_Equals R51 P (pt_ScalarMultBase R51 r51_baseTable t) = true -> t = s.
Proof.
  intros [A h]. destruct (R_cyclic A (proj2 h)) as (m & hm & hA).
  destruct (setBigInt_spec m) as [hs es]. rewrite Z.mod_small in es by exact hm. exists (sc_setBigInt m).
  assert (hB : forall k, Req (Emul k EBc) (Emul k EB)) by (intro k; apply Req_mul, EBc_Req).
  split; [exact hs|]. split.
  - apply (eq_iff _ _ _ _ h (proj1 (base_mult _ hs))). rewrite es. apply (Req_trans _ (Emul m EB)); [exact hA | apply Req_sym, hB].
  - intros t ht e. apply (eq_iff _ _ _ _ h (proj1 (base_mult _ ht))) in e.
    apply scv_inj; [exact (reduced_words _ ht) | exact (reduced_words _ hs)|]. rewrite es.
    apply (R_cyclic_unique A); [exact (proj2 ht) | exact hm | | exact hA].
    apply (Req_trans _ _ _ e). apply hB.
Qed.
Lemma base_nonzero : pt_Equals R51 (pt_SetBase R51) (pt_SetZero R51) = false.
Proof.
  apply not_true_is_false. rewrite (eq_iff _ _ _ _ elt_Base elt_Zero). intro h.
  apply (Req_trans (Emul 1 EB)) in h; [|rewrite Emul_1; apply Req_sym, EBc_Req].
  change E0 with (Emul 0 EB) in h. apply R_order_B in h. pose proof l_gt. apply Z.divide_pos_le in h; lia.
Qed.

(** l as a sum: (l - 1) P + P is zero. *)
Lemma order_l P : valid P ->
  pt_Equals R51 (pt_Add R51 (pt_ScalarMult R51 P (sc_setBigInt (l - 1))) P) (pt_SetZero R51) = true.
Proof.
  intros [A h]. destruct (setBigInt_spec (l - 1)) as [hs es]. pose proof l_gt. rewrite Z.mod_small in es by lia.
  pose proof (elt_ScalarMult P A _ h hs) as h'. eqs. rewrite es, <- Emul_succ. replace (l - 1 + 1) with l by lia.
  apply R_exponent. exact (proj2 h).
Qed.

(** ** scalars act as Z/l *)
Section Action.
Variables (P Q : ext fe51) (a b : sc).
Hypotheses (hP : valid P) (hQ : valid Q) (ha : reduced a) (hb : reduced b).
Local Notation "s * R" := (pt_ScalarMult R51 R s).
Local Notation "R == S" := (pt_Equals R51 R S = true) (at level 70).

Lemma act_add : sc_add a b * P == pt_Add R51 (a * P) (b * P).
Proof.
  destruct hP as [A h]. destruct (add_spec a b ha hb) as [hs es].
  pose proof (elt_ScalarMult P A _ h hs) as h1. pose proof (elt_ScalarMult P A _ h ha). pose proof (elt_ScalarMult P A _ h hb).
  eqs. rewrite es, <- Emul_add. apply R_mul_mod. exact (proj2 h).
Qed.
Lemma act_sub : sc_sub a b * P == pt_Sub R51 (a * P) (b * P).
Proof.
  destruct hP as [A h]. destruct (sub_spec a b ha hb) as [hs es].
  pose proof (elt_ScalarMult P A _ h hs) as h1. pose proof (elt_ScalarMult P A _ h ha). pose proof (elt_ScalarMult P A _ h hb).
  eqs. rewrite es. change (Eadd (Emul (scv a) A) (Eopp (Emul (scv b) A))) with (Esub (Emul (scv a) A) (Emul (scv b) A)).
  rewrite <- Emul_sub. apply R_mul_mod. exact (proj2 h).
Qed.
Lemma act_mul : sc_mul a b * P == a * (b * P).
Proof.
  destruct hP as [A h]. destruct (mul_spec a b (reduced_words _ ha) (reduced_words _ hb)) as [hs es].
  pose proof (elt_ScalarMult P A _ h hs) as h1. pose proof (elt_ScalarMult _ _ a (elt_ScalarMult P A b h hb) ha).
  eqs. rewrite es, <- Emul_mul. apply R_mul_mod. exact (proj2 h).
Qed.
Lemma act_dist : a * (pt_Add R51 P Q) == pt_Add R51 (a * P) (a * Q).
Proof.
  destruct hP as [A h], hQ as [B g]. pose proof (elt_ScalarMult _ _ a (proj1 (elt_ops P Q A B h g)) ha).
  pose proof (elt_ScalarMult P A a h ha). pose proof (elt_ScalarMult Q B a g ha).
  eqs. apply Req_of_eq. apply Emul_add_r.
Qed.
Lemma act_one : scOne * P == P.
Proof.
  destruct hP as [A h]. destruct scOne_ok as [hs es]. pose proof (elt_ScalarMult P A _ h hs) as h1.
  eqs. rewrite es. apply Req_refl.
Qed.
Lemma act_zero : scZero * P == pt_SetZero R51.
Proof.
  destruct hP as [A h]. destruct scZero_ok as [hs es]. pose proof (elt_ScalarMult P A _ h hs) as h1.
  eqs. rewrite es. apply Req_refl.
Qed.
Lemma act_neg : sc_neg a * P == pt_Neg R51 (a * P).
Proof.
  destruct hP as [A h]. destruct (neg_spec a ha) as [hs es]. pose proof (elt_ScalarMult P A _ h hs) as h1.
  pose proof (elt_ScalarMult P A a h ha) as h2. eqs. rewrite es, <- Emul_opp. apply R_mul_mod. exact (proj2 h).
Qed.
Lemma act_inverse : scv a <> 0 -> sc_inverse a * (a * P) == P.
Proof.
  intro hn. destruct hP as [A h]. destruct (inverse_spec a (reduced_words _ ha)) as [hs [hi _]].
  pose proof (elt_ScalarMult _ _ _ (elt_ScalarMult P A a h ha) hs). eqs.
  rewrite <- Emul_mul. apply Req_sym. apply (Req_trans _ _ _ (Req_of_eq _ _ (eq_sym (Emul_1 A)))).
  assert (E1 : (scv (sc_inverse a) * scv a) mod l = 1).
  { apply hi. rewrite reduced_mod by exact ha. exact hn. }
  rewrite <- E1. apply R_mul_mod. exact (proj2 h).
Qed.
Lemma act_compat : P == Q -> a * P == a * Q.
Proof.
  destruct hP as [A h], hQ as [B g]. intro e. apply (eq_iff P Q A B h g) in e.
  pose proof (elt_ScalarMult P A a h ha). pose proof (elt_ScalarMult Q B a g ha). eqs. apply Req_mul. exact e.
Qed.
Lemma act_cancel : ~ P == pt_SetZero R51 -> a * P == b * P -> a = b.
Proof.
  destruct hP as [A h]. intros hn e. rewrite (eq_iff P _ A E0 h elt_Zero) in hn.
  apply (eq_iff _ _ _ _ (elt_ScalarMult P A a h ha) (elt_ScalarMult P A b h hb)) in e.
  destruct (R_cyclic A (proj2 h)) as (m & hm & hA).
  assert (h0 : Req (Emul (scv a * m) EB) (Emul (scv b * m) EB)).
  { rewrite !Emul_mul. apply (Req_trans _ (Emul (scv a) A)); [apply Req_mul, Req_sym, hA|].
    apply (Req_trans _ _ _ e). apply Req_mul. exact hA. }
  apply R_order_B in h0. rewrite <- Z.mul_sub_distr_r in h0. apply prime_mult in h0; [|exact prime_l].
  pose proof (proj2 ha). pose proof (proj2 hb). destruct h0 as [[c hc] | [c hc]].
  - apply scv_inj; [exact (reduced_words _ ha) | exact (reduced_words _ hb)|]. 
    assert (c = 0) by nia. subst c. lia.
  - exfalso. apply hn. assert (c = 0) by nia. subst c. rewrite hc in hA. exact hA.
Qed.
End Action.

(** ** encoding and decoding *)
Lemma enc_iff P Q : valid P -> valid Q -> (pt_Bytes R51 P = pt_Bytes R51 Q <-> pt_Equals R51 P Q = true).
Proof.
  intros [A h] [B g]. rewrite (eq_iff P Q A B h g). torep. apply (Bytes_iff L51); apply point_d; assumption.
Qed.
Lemma enc_canonical P A : element P A -> exists s C, pt_Bytes R51 P = le_bytes 32 (fval s) /\
  In (Eadd C (Eopp A)) [E0; T2; T4; T4'] /\ (ey C * (F1 + s * s) = F1 - s * s)%F /\
  Z.even (fval s) = true /\ Z.even (fval (ex C)) = true /\ Z.even (fval (ex C * ey C)%F) = true /\ ey C <> F0.
Proof.
  intros h. apply elt_point in h. destruct (Bytes_point L51 P A h) as (s & e & C & hC & h1 & h2 & h3 & h4 & h5).
  exists s, C. rewrite <- Req_torsion. unfold Fneg in h1, h3, h4. rewrite <- !Z.negb_odd, h1, h3, h4.
  refine (conj e (conj hC (conj h2 (conj eq_refl (conj eq_refl (conj eq_refl h5)))))).
Qed.
Lemma enc_length P : valid P -> bytes 32 (pt_Bytes R51 P).
Proof. intros [A h]. apply elt_point in h. exact (Bytes_bytes L51 P A (point_d L51 _ _ h)). Qed.
Lemma dec_enc P : valid P -> exists Q, pt_SetBytes R51 (pt_Bytes R51 P) = (true, Q) /\ valid Q /\ pt_Equals R51 Q P = true.
Proof.
  intros [A h]. pose proof (proj1 (elt_point _ _) h) as h'.
  destruct (SetBytes_Bytes L51 ltac:(cbn; lia) P A h') as (Q & B & e & hQ & hr). apply elt_point in hQ.
  exists Q. refine (conj e (conj _ _)); [exists B; exact hQ|]. apply (eq_iff _ _ _ _ hQ h). exact hr.
Qed.
Lemma dec_enc_binary P R : valid P ->
  exists Q, pt_UnmarshalBinary R51 R (pt_MarshalBinary R51 P) = (true, Q) /\ valid Q /\ pt_Equals R51 Q P = true.
Proof.
  intros h. destruct (dec_enc P h) as (Q & e & r). exists Q. refine (conj _ r).
  unfold pt_UnmarshalBinary, pt_MarshalBinary. rewrite (proj1 (enc_length P h)). exact e.
Qed.
Lemma dec_cases b : bytes 32 b ->
  (exists P, pt_SetBytes R51 b = (true, P) /\ valid P /\ pt_Bytes R51 P = b) \/
  (pt_SetBytes R51 b = (false, ep_zerovalue R51) /\ forall Q, valid Q -> pt_Bytes R51 Q <> b).
Proof.
  intro hb. destruct (SetBytes_cases L51 ltac:(cbn; lia) b hb) as [(P & A & e & h & h2) | [e h]].
  - left. exists P. refine (conj e (conj _ h2)). exists A. apply elt_point. exact h.
  - right. refine (conj e _). intros Q [B g]. apply elt_point in g. exact (h Q B g).
Qed.
Lemma dec_sound b P : bytes 32 b -> pt_SetBytes R51 b = (true, P) -> valid P /\ pt_Bytes R51 P = b.
Proof.
  intros hb e. pose proof (dec_cases b hb) as [(P' & e' & h) | [e' _]]; rewrite e in e'; clear e.
  - apply (f_equal snd) in e'. cbn [snd] in e'. rewrite e'. exact h.
  - apply (f_equal fst) in e'. discriminate e'.
Qed.
Lemma dec_iff b : bytes 32 b -> (fst (pt_SetBytes R51 b) = true <-> exists P, valid P /\ pt_Bytes R51 P = b).
Proof.
  intro hb. pose proof (dec_cases b hb) as [(P & e & h) | [e h]]; rewrite e; clear e; cbn [fst].
  - split; [intros _; exists P; exact h | reflexivity].
  - split; [discriminate|]. intros (P & h1 & h2). destruct (h P h1 h2).
Qed.
Lemma unmarshal_length P b : length b <> 32%nat -> pt_UnmarshalBinary R51 P b = (false, P).
Proof. intro h. unfold pt_UnmarshalBinary. apply Nat.eqb_neq in h. rewrite h. reflexivity. Qed.
Lemma unmarshal_32 P b : length b = 32%nat -> pt_UnmarshalBinary R51 P b = pt_SetBytes R51 b.
Proof. intro h. unfold pt_UnmarshalBinary. apply Nat.eqb_eq in h. rewrite h. reflexivity. Qed.
Lemma dec_fail b : bytes 32 b -> fst (pt_SetBytes R51 b) = false -> snd (pt_SetBytes R51 b) = ep_zerovalue R51.
Proof.
  intros hb h. pose proof (dec_cases b hb) as [(P & e & _) | [e _]]; rewrite e in h |- *; clear e; [discriminate h | reflexivity].
Qed.
Lemma zerovalue_invalid : ~ valid (ep_zerovalue R51).
Proof. intros [A [(_ & hz & _) _]]. apply hz. reflexivity. Qed.
Lemma zerovalue_equals P : valid P -> pt_Equals R51 (ep_zerovalue R51) P = true /\ pt_Equals R51 P (ep_zerovalue R51) = true.
Proof. intros [A [h _]]. apply rep_rpt in h. exact (Equals_zerovalue L51 P A (proj1 h)). Qed.

Lemma cond_set P Q b : valid P -> valid Q -> pt_ConditionalSet R51 P Q (Z.b2z b) = if b then Q else P.
Proof. intros [A h] [B g]. torep. apply (point_ConditionalSet L51 P Q A B b); assumption. Qed.

(** ** El'Gamal *)
Lemma elgamal sk r P : reduced sk -> reduced r -> valid P ->
  exists c, eg_encrypt R51 r51_baseTable (eg_publicKey R51 r51_baseTable sk) P r = Some c /\
    valid (eg_decrypt R51 sk c) /\ pt_Equals R51 (eg_decrypt R51 sk c) P = true.
Proof.
  intros hs hr [A h]. pose proof (proj1 (elt_point _ _) h) as h'.
  destruct (elgamal_ok L51 r51_baseTable sk r P A base51_ok hs hr h') as (c & D & e & hD & hR). apply elt_point in hD.
  exists c. refine (conj e (conj _ _)); [exists D; exact hD|]. apply (eq_iff _ _ _ _ hD h). exact hR.
Qed.

(** ** samples for the examples *)
Lemma base_encoding : pt_Bytes R51 (pt_SetBase R51) =
  [0xe2; 0xf2; 0xae; 0x0a; 0x6a; 0xbc; 0x4e; 0x71; 0xa8; 0x84; 0xa9; 0x61; 0xc5; 0x00; 0x51; 0x5f;
   0x58; 0xe3; 0x0b; 0x6a; 0xa5; 0x82; 0xdd; 0x8d; 0xb6; 0xa6; 0x59; 0x45; 0xe0; 0x8d; 0x2d; 0x76].
Proof.
  pose proof (proj1 (elt_point _ _) elt_Base) as h. destruct (Bytes_point L51 _ _ h) as (s & -> & es).
  set (t := 53453403443306840533278073560698739391446669128918427283046925944918568268514).
  assert (et : encodes (of_Z t) EBc).
  { exists EBc. split; [apply Req_refl|]. split; [reflexivity|]. split; [apply F_eq; vm_compute; reflexivity|].
    split; [reflexivity|]. split; [vm_compute; reflexivity|]. intro h0. apply (f_equal fval) in h0. vm_compute in h0. discriminate. }
  rewrite (encodes_unique _ _ _ _ es et (Req_refl _)). vm_compute. reflexivity.
Qed.
Lemma odd_rejected : fst (pt_SetBytes R51 (1 :: repeat 0 31)) = false.
Proof.
  assert (hb : bytes 32 (1 :: repeat 0 31)) by (split; [reflexivity|]; repeat constructor; lia).
  apply not_true_is_false. rewrite (dec_iff _ hb). intros (P & [A h] & e).
  destruct (enc_canonical P A h) as (s & C & e1 & _ & _ & hs & _). rewrite e in e1. apply (f_equal le_val) in e1.
  rewrite (le_val_le_bytes 32 (fval s) (fval_256 s)) in e1. rewrite <- e1 in hs. vm_compute in hs. discriminate.
Qed.
