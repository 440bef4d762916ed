(** Lizard of the tuples (0 : 0 : Z : 0): the quartic points, and with them the result, are those of the zero point. *)
From Coq Require Import ZArith List Lia Bool Ring Field.
From Verif Require Import Words FieldModel CurveModel BitFold Primes Fp Edwards GroupOrder RistrettoSpec FieldLaws CurveProofs EncodeProofs
  ElligatorSpec ElligatorMath ElligatorProofs RistrettoModel RistrettoFacts LizardProofs DegenerateFacts.
Import ListNotations.
Open Scope Z_scope.

Definition zl : list (F * F) := jq E0 F1.
Lemma zl_eq : zl = [(F0, F1); (F0, F1); (F1, Fi * (#2 * Fisdm1))%F; (- F1, Fi * (#2 * Fisdm1))%F].
Proof. apply jq_zero. left. reflexivity. Qed.
Lemma jq_E0 z : jq E0 z = zl.
Proof. rewrite zl_eq. apply jq_zero. left. reflexivity. Qed.
Lemma jq8_E0 z : jq8 E0 z = jq8 E0 F1.
Proof. unfold jq8. rewrite !jq_E0. reflexivity. Qed.

Section Deg.
Context {K : FeOps} (L : FeLaws K).
Local Notation FE := (fe K).

(** as [deg], without the condition on additions *)
Definition deg0 (P : ext FE) : Prop :=
  exists z, rel L 2 (eX P) F0 /\ rel L 2 (eY P) F0 /\ rel L (cN L) (eZ P) z /\ rel L 2 (eT P) F0.

Lemma deg_quartic P : deg0 P -> exists js P', ep_ToJacobiQuarticRistretto K P = (js, P') /\ Forall2 (rjac L) js zl /\ deg0 P'.
Proof.
  intros (z & h1 & h2 & h3 & h4). fe_facts L.
  fe_open (@ep_ToJacobiQuarticRistretto) (ep_ToJacobiQuarticRistretto K P).
  fs L X2. fs L Y2. fs L Y4. fs L Z2. fs L ZmY. fs L ZpY. fs L Z2mY2. fs L ga. fs L gb. fs L g.
  fs L den. fs L sOX. fs L spOX. fs L q0S. fs L tmp1. fs L q1S. fs L tmp2. fs L q0T. fs L q1T.
  fs L den1. fs L den2. fs L den3. fs L iZ. fs L iZmX. fs L iZpX. fs L sOY. fs L spOY. fs L q2S. fs L tmp3. fs L q3S.
  fs L tmp4. fs L q2T. fs L q3T. zs L X'. zs L Y'.
  assert (hz : Feqb F0 F0 = true) by (apply Feqb_eq; reflexivity).
  bs xy true ltac:(rewrite hz; reflexivity).
  cs L q0T' true ltac:(exact e_xy). cs L q1T' true ltac:(exact e_xy).
  cs L q2T' true ltac:(exact e_xy). cs L q3T' true ltac:(exact e_xy).
  cs L q2S' true ltac:(exact e_xy). cs L q3S' true ltac:(exact e_xy).
  subst PP. cbv beta.
  eexists. eexists. refine (conj eq_refl (conj _ _)).
  - rewrite zl_eq. unfold rjac. repeat apply Forall2_cons; cbn [fst snd jS jT]; try (apply Forall2_nil); split.
    + eapply rel_eq; [exact h_q0S | lia|]. rewrite e_q0S. ring.
    + eapply rel_eq; [exact h_q0T' | lia|]. rewrite e_q0T'. reflexivity.
    + eapply rel_eq; [exact h_q1S | lia|]. rewrite e_q1S, e_tmp1. ring.
    + eapply rel_eq; [exact h_q1T' | lia|]. rewrite e_q1T'. reflexivity.
    + eapply rel_eq; [exact h_q2S' | lia|]. rewrite e_q2S'. reflexivity.
    + eapply rel_eq; [exact h_q2T' | lia|]. rewrite e_q2T'. reflexivity.
    + eapply rel_eq; [exact h_q3S' | lia|]. rewrite e_q3S'. reflexivity.
    + eapply rel_eq; [exact h_q3T' | lia|]. rewrite e_q3T'. reflexivity.
  - exists z. cbn [eX eY eZ eT]. refine (conj _ (conj _ (conj _ _))); eapply rel_eq; try eassumption; try lia; reflexivity.
Qed.

Theorem deg_inverse P : deg0 P -> exists mask fes P', ep_RistrettoElligator2Inverse K P = (mask, fes, P') /\
  map (mask_bit mask) (seq 0 8) = map Z.b2z (map inv_fst (jq8 E0 F1)) /\
  Forall2 (fun x f => rel L 2 x f) fes (map inv_snd (jq8 E0 F1)) /\ deg0 P'.
Proof.
  intro hP. destruct (deg_quartic P hP) as (js & P' & e & hj & hP').
  unfold ep_RistrettoElligator2Inverse. rewrite e. clear e.
  unfold jq8. unfold zl in hj. unfold jq in hj |- *.
  match type of hj with Forall2 _ _ [?a; ?b; ?c; ?d] => set (c0 := a) in *; set (c1 := b) in *; set (c2 := c) in *; set (c3 := d) in * end.
  clearbody c0 c1 c2 c3.
  inversion hj as [|j0 ? ? ? r0 hj0]; subst. inversion hj0 as [|j1 ? ? ? r1 hj1]; subst. inversion hj1 as [|j2 ? ? ? r2 hj2]; subst.
  inversion hj2 as [|j3 ? ? ? r3 hj3]; subst. inversion hj3; subst. clear hj hj0 hj1 hj2 hj3.
  set (jcs := [j0; j1; j2; j3]).
  destruct (ell_inv_step_ok L jcs 0 j0 c0 0 [] eq_refl r0) as (f0 & f1 & e0 & h0 & h1).
  match type of e0 with _ = (?m, ?f) => destruct (ell_inv_step_ok L jcs 1 j1 c1 m f eq_refl r1) as (f2 & f3 & e1 & h2 & h3) end.
  match type of e1 with _ = (?m, ?f) => destruct (ell_inv_step_ok L jcs 2 j2 c2 m f eq_refl r2) as (f4 & f5 & e2 & h4 & h5) end.
  match type of e2 with _ = (?m, ?f) => destruct (ell_inv_step_ok L jcs 3 j3 c3 m f eq_refl r3) as (f6 & f7 & e3 & h6 & h7) end.
  rewrite <- e2, <- e1, <- e0 in e3.
  match goal with |- context [for_up 4 ?f ?x] => assert (EE : for_up 4 f x = f 3%nat (f 2%nat (f 1%nat (f 0%nat x)))) by reflexivity end.
  rewrite EE, e3. clear EE e3 e2 e1 e0. eexists. eexists. exists P'. refine (conj eq_refl (conj _ (conj _ hP'))).
  - cbn [flat_map app map]. exact (mask_bits _ _ _ _ _ _ _ _).
  - cbn [flat_map app map]. unfold inv_snd. cbn [fst snd]. repeat (apply Forall2_cons; [assumption|]). apply Forall2_nil.
Qed.

(** the loop depends on the bits of the mask and the encodings of the field elements *)
Lemma step_ext H mask fes mask' fes' j st : mask_bit mask j = mask_bit mask' j ->
  fst (o_bytes K (nth j fes (k_zero K))) = fst (o_bytes K (nth j fes' (k_zero K))) ->
  lizard_step K H mask fes j st = lizard_step K H mask' fes' j st.
Proof. intros h1 h2. destruct st as [buf n]. unfold lizard_step, mask_bit in *. rewrite h1, h2. reflexivity. Qed.
Lemma loop_ext {X} (f g : nat -> X -> X) n x : (forall j y, (j < n)%nat -> f j y = g j y) -> for_up n f x = for_up n g x.
Proof. revert x. induction n as [|n IH]; intros x h; [reflexivity|]. cbn [for_up]. rewrite IH by (intros; apply h; lia). apply h. lia. Qed.

Lemma rel_bytes x f : rel L 2 x f -> fst (o_bytes K x) = le_bytes 32 (fval f).
Proof. intro h. fe_facts L. destruct (law_bytes K L 2 x f h ltac:(lia)) as (x' & e & _). rewrite e. reflexivity. Qed.

Theorem deg_lizard H P Q A buf : deg0 P -> dpoint L Q A -> A = E0 ->
  exists P', deg0 P' /\ pt_LizardInto K H P buf = (fst (pt_LizardInto K H Q buf), P').
Proof.
  intros hP hQ ->. destruct (deg_inverse P hP) as (m1 & f1 & P' & e1 & hm1 & hf1 & hP').
  destruct (ep_RistrettoElligator2Inverse_ok L Q E0 (proj1 hQ)) as (z & m2 & f2 & Q' & _ & e2 & hm2 & hf2 & _).
  rewrite jq8_E0 in hm2, hf2. exists P'. split; [exact hP'|]. unfold pt_LizardInto. rewrite e1, e2. clear e1 e2.
  assert (hm : map (mask_bit m1) (seq 0 8) = map (mask_bit m2) (seq 0 8)) by (rewrite hm1, hm2; reflexivity).
  assert (hl : length (map inv_snd (jq8 E0 F1)) = 8%nat) by (rewrite map_length; reflexivity).
  clear hm1 hm2. set (fs := map inv_snd (jq8 E0 F1)) in *. clearbody fs.
  rewrite (loop_ext (lizard_step K H m1 f1) (lizard_step K H m2 f2)).
  - destruct (for_up 8 (lizard_step K H m2 f2) (buf, 0)) as [d n]. reflexivity.
  - intros j st hj. apply step_ext.
    + apply (f_equal (fun l => nth j l 0)) in hm. rewrite !map_seq_nth in hm by exact hj. exact hm.
    + rewrite (rel_bytes _ _ (Forall2_nth_rel L f1 fs j hf1 ltac:(lia))), (rel_bytes _ _ (Forall2_nth_rel L f2 fs j hf2 ltac:(lia))). reflexivity.
Qed.

(** the operations that do not need the condition on additions *)
Lemma deg_deg0 P : deg L P -> deg0 P.
Proof. intros (z & h1 & h2 & h3 & h4 & _). exists z. auto. Qed.
Lemma deg0_deg P : deg0 P -> fits L (eX P) (eY P) -> deg L P.
Proof. intros (z & h1 & h2 & h3 & h4) h. exists z. auto. Qed.
Lemma deg0_bd P : deg0 P -> bd L P.
Proof. intros (z & h1 & h2 & h3 & h4). exists F0, F0, z, F0. auto. Qed.
Lemma deg0_add P Q : bd L P -> bdf L Q -> deg0 P \/ deg0 Q -> deg L (ep_Add K P Q) /\ deg L (ep_Sub K P Q).
Proof.
  intros hP hQ [h|h]; [|exact (deg_add L P Q hP hQ (or_intror (deg0_deg Q h (proj2 hQ))))]. clear hP.
  assert (H : cdeg L (cp_AddExtended K P Q) /\ cdeg L (cp_SubExtended K P Q)).
  { destruct h as (z & h1 & h2 & h3 & h4). destruct hQ as [(x & y & w & t & g1 & g2 & g3 & g4) gf]. fe_facts L.
    cbv zeta beta delta [cp_AddExtended cp_SubExtended]. split; do 2 eexists; cbn [cX cY cZ cT].
    all: refine (conj _ (conj _ (conj _ _))); try (fe_rel; try reflexivity; ring). }
  exact (conj (cdeg_ext L _ (proj1 H)) (cdeg_ext L _ (proj2 H))).
Qed.
Lemma deg0_double P : deg0 P -> deg L (ep_Double K P).
Proof.
  intro h. apply (cdeg_ext L). destruct h as (z & h1 & h2 & h3 & h4). fe_facts L.
  cbv zeta beta delta [cp_DoubleExtended]. do 2 eexists; cbn [cX cY cZ cT].
  all: refine (conj _ (conj _ (conj _ _))); try (fe_rel; try reflexivity; ring).
Qed.
Lemma deg0_neg P : deg0 P -> deg0 (ep_Neg K P).
Proof.
  intros (z & h1 & h2 & h3 & h4). fe_facts L. exists z. cbn [ep_Neg eX eY eZ eT].
  refine (conj _ (conj h2 (conj h3 _))); (fe_rel; ring).
Qed.
Lemma deg0_equals P Q : bd L P -> bd L Q -> deg0 P \/ deg0 Q -> ep_RistrettoEqualsI K P Q = 1.
Proof.
  intros hP hQ h.
  assert (H : exists x y x' y', rel L 2 (eX P) x /\ rel L 2 (eY P) y /\ rel L 2 (eX Q) x' /\ rel L 2 (eY Q) y' /\
    (x * y' = F0 /\ x' * y = F0 /\ x * x' = F0 /\ y * y' = F0)%F).
  { destruct h as [(z & h1 & h2 & _)|(z & h1 & h2 & _)].
    - destruct hQ as (x' & y' & _ & _ & g1 & g2 & _). exists F0, F0, x', y'. repeat (refine (conj _ _)); try assumption; ring.
    - destruct hP as (x' & y' & _ & _ & g1 & g2 & _). exists x', y', F0, F0. repeat (refine (conj _ _)); try assumption; ring. }
  destruct H as (x & y & x' & y' & h1 & h2 & g1 & g2 & e1 & e2 & e3 & e4). fe_facts L.
  unfold ep_RistrettoEqualsI. cbv zeta.
  rewrite (fe_EqualsI_ok L 1 1 _ _ (x * y')%F (x' * y)%F) by (try lia; eapply fe_mul_r; eauto; lia).
  rewrite (fe_EqualsI_ok L 1 1 _ _ (x * x')%F (y * y')%F) by (try lia; eapply fe_mul_r; eauto; lia).
  rewrite e1, e2, e3, e4, Feqb_refl'. reflexivity.
Qed.
Lemma deg0_bytes P : deg0 P -> ep_RistrettoInto K P = repeat 0 32.
Proof. intros (z & h1 & h2 & h3 & h4). exact (x0_bytes L P _ _ _ h1 h2 h3 h4). Qed.
End Deg.
