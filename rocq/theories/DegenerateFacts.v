(** The tuples (0 : 0 : Z : 0), which represent no point: the zero value of a Point, and what a failed SetBytes
    leaves in its receiver.  Every operation with such an operand returns such a tuple. *)
From Coq Require Import ZArith List Lia Bool Ring Field.
From Verif Require Import Words WordsTac FieldModel CurveModel BitFold Primes Fp Edwards GroupOrder RistrettoSpec FieldLaws CurveProofs
  EncodeProofs WindowProofs ScalarMultProofs.
Import ListNotations.
Open Scope Z_scope.

(** a number written with small digits is zero only if all of them are *)
Definition nz (w : list Z) : bool := existsb (fun d => negb (d =? 0)) w.

Lemma nz_dval B m w : 0 < B -> (forall d, In d w -> d = 0 \/ d mod B <> 0) -> m = dval B w -> nz w = negb (m =? 0).
Proof.
  intros hB hw ->. induction w as [|d w IH]; [reflexivity|]. cbn [nz existsb dval].
  specialize (IH (fun e h => hw e (or_intror h))). unfold nz in IH. rewrite IH.
  destruct (hw d (or_introl eq_refl)) as [->|h].
  - cbn [Z.eqb negb orb]. f_equal. apply eq_true_iff_eq. rewrite !Z.eqb_eq. nia.
  - assert (d <> 0) by (intros ->; apply h; apply Z.mod_0_l; lia).
    replace (d =? 0) with false by (symmetry; apply Z.eqb_neq; assumption). cbn [negb orb].
    replace (d + B * dval B w =? 0) with false; [reflexivity|]. symmetry. apply Z.eqb_neq. intro e.
    apply h. replace d with ((- dval B w) * B) by lia. apply Z.mod_mul. lia.
Qed.

Section Deg.
Context {K : FeOps} (L : FeLaws K).
Local Notation FE := (fe K).
Local Notation zv := (ep_zerovalue K).

Definition deg (P : ext FE) : Prop :=
  exists z, rel L 2 (eX P) F0 /\ rel L 2 (eY P) F0 /\ rel L (cN L) (eZ P) z /\ rel L 2 (eT P) F0 /\ fits L (eX P) (eY P).
(** any tuple within the bounds *)
Definition bd (P : ext FE) : Prop :=
  exists x y z t, rel L 2 (eX P) x /\ rel L 2 (eY P) y /\ rel L (cN L) (eZ P) z /\ rel L 2 (eT P) t.
Definition bdf (P : ext FE) : Prop := bd P /\ fits L (eX P) (eY P).
Definition cdeg (C : compl FE) : Prop :=
  exists z t, rel L (cL L) (cX C) F0 /\ rel L (cL L) (cY C) F0 /\ rel L (cL L) (cZ C) z /\ rel L (cL L) (cT C) t.
Definition pdeg (P : proj FE) : Prop :=
  exists z, rel L (cN L) (jX P) F0 /\ rel L (cN L) (jY P) F0 /\ rel L (cN L) (jZ P) z.
Definition ndeg (N : niels FE) : Prop :=
  rel L (cN L) (nYpX N) F0 /\ rel L (cN L) (nYmX N) F0 /\ rel L (cN L) (nXY2D N) F0.

Lemma deg_bdf P : deg P -> bdf P.
Proof. intros (z & h1 & h2 & h3 & h4 & h5). split; [|exact h5]. exists F0, F0, z, F0. auto. Qed.
Lemma rd_bd P A : rd L P A -> bd P.
Proof. intros (z & _ & h1 & h2 & h3 & h4). do 4 eexists. eauto. Qed.
Lemma rf_bdf P A : rf L P A -> bdf P.
Proof. intros [h f]. exact (conj (rd_bd P A h) f). Qed.

Lemma deg_zv : deg zv.
Proof.
  fe_facts L. exists F0. unfold ep_zerovalue. cbn [eX eY eZ eT].
  pose proof (law_zero K L) as h0. repeat (refine (conj _ _)); try (eapply rel_le; [|exact h0]; lia).
  eapply fits_small; (eapply rel_le; [|exact h0]; lia).
Qed.

Lemma cdeg_ext C : cdeg C -> deg (ep_SetCompleted K C).
Proof.
  intros (z & t & h1 & h2 & h3 & h4). fe_facts L. exists (Fmul z t).
  assert (a1 : rel L 1 (eX (ep_SetCompleted K C)) F0) by (cbn [ep_SetCompleted eX eY eZ eT]; fe_rel; ring).
  assert (a2 : rel L 1 (eY (ep_SetCompleted K C)) F0) by (cbn [ep_SetCompleted eX eY eZ eT]; fe_rel; ring).
  assert (a3 : rel L 1 (eZ (ep_SetCompleted K C)) (z * t)%F) by (cbn [ep_SetCompleted eX eY eZ eT]; fe_rel; ring).
  assert (a4 : rel L 1 (eT (ep_SetCompleted K C)) F0) by (cbn [ep_SetCompleted eX eY eZ eT]; fe_rel; ring).
  refine (conj _ (conj _ (conj _ (conj _ _)))).
  5: eapply fits_small.
  all: eapply (rel_le K L 1); [lia | eassumption].
Qed.
Lemma cdeg_proj C : cdeg C -> pdeg (pp_SetCompleted K C).
Proof.
  intros (z & t & h1 & h2 & h3 & h4). fe_facts L. exists (Fmul z t). cbn [pp_SetCompleted jX jY jZ].
  refine (conj _ (conj _ _)); (fe_rel; ring).
Qed.

Lemma add_deg_l P Q : deg P -> bdf Q -> cdeg (cp_AddExtended K P Q) /\ cdeg (cp_SubExtended K P Q).
Proof.
  intros (z & h1 & h2 & h3 & h4 & hf) [(x & y & w & t & g1 & g2 & g3 & g4) gf]. fe_facts L. clear hf.
  cbv zeta beta delta [cp_AddExtended cp_SubExtended]. split; do 2 eexists; cbn [cX cY cZ cT].
  all: refine (conj _ (conj _ (conj _ _))); try (fe_rel; try reflexivity; ring).
Qed.
Lemma add_deg_r P Q : bd P -> deg Q -> cdeg (cp_AddExtended K P Q) /\ cdeg (cp_SubExtended K P Q).
Proof.
  intros (x & y & w & t & h1 & h2 & h3 & h4) (z & g1 & g2 & g3 & g4 & gf). fe_facts L.
  cbv zeta beta delta [cp_AddExtended cp_SubExtended]. split; do 2 eexists; cbn [cX cY cZ cT].
  all: refine (conj _ (conj _ (conj _ _))); try (fe_rel; try reflexivity; ring).
Qed.
Lemma dbl_deg P : deg P -> cdeg (cp_DoubleExtended K P).
Proof.
  intros (z & h1 & h2 & h3 & h4 & hf). fe_facts L. clear hf.
  cbv zeta beta delta [cp_DoubleExtended]. do 2 eexists; cbn [cX cY cZ cT].
  all: refine (conj _ (conj _ (conj _ _))); try (fe_rel; try reflexivity; ring).
Qed.
Lemma dblp_deg P : pdeg P -> cdeg (cp_DoubleProjective K P).
Proof.
  intros (z & h1 & h2 & h3). fe_facts L.
  cbv zeta beta delta [cp_DoubleProjective]. do 2 eexists; cbn [cX cY cZ cT].
  all: refine (conj _ (conj _ (conj _ _))); try (fe_rel; try reflexivity; ring).
Qed.
Lemma neg_deg P : deg P -> deg (ep_Neg K P).
Proof.
  intros (z & h1 & h2 & h3 & h4 & hf). fe_facts L. exists z. cbn [ep_Neg eX eY eZ eT].
  pose proof (fits_neg K L _ _ _ h1 hf) as hg. clear hf.
  refine (conj _ (conj h2 (conj h3 (conj _ hg)))); (fe_rel; ring).
Qed.
Lemma np_deg P : deg P -> ndeg (np_SetExtended K P).
Proof.
  intros (z & h1 & h2 & h3 & h4 & hf). fe_facts L. clear hf. unfold ndeg.
  cbv zeta beta delta [np_SetExtended]. cbn [nYpX nYmX nXY2D].
  refine (conj _ (conj _ _)); (fe_rel; ring).
Qed.
Lemma npneg_deg N : ndeg N -> ndeg (np_Neg K N).
Proof.
  intros (h1 & h2 & h3). fe_facts L. unfold ndeg. cbn [np_Neg nYpX nYmX nXY2D].
  refine (conj _ (conj _ _)); (fe_rel; ring).
Qed.
Lemma addn_deg_r P N : bd P -> ndeg N -> cdeg (cp_AddExtendedNiels K P N).
Proof.
  intros (x & y & w & t & h1 & h2 & h3 & h4) (g1 & g2 & g3). fe_facts L.
  cbv zeta beta delta [cp_AddExtendedNiels]. do 2 eexists; cbn [cX cY cZ cT].
  all: refine (conj _ (conj _ (conj _ _))); try (fe_rel; try reflexivity; ring).
Qed.
Definition nbd (N : niels FE) : Prop := exists a b c, rel L (cN L) (nYpX N) a /\ rel L (cN L) (nYmX N) b /\ rel L (cN L) (nXY2D N) c.
Lemma addn_deg_l P N : deg P -> nbd N -> cdeg (cp_AddExtendedNiels K P N).
Proof.
  intros (z & h1 & h2 & h3 & h4 & hf) (a & b & c & g1 & g2 & g3). fe_facts L. clear hf.
  cbv zeta beta delta [cp_AddExtendedNiels]. do 2 eexists; cbn [cX cY cZ cT].
  all: refine (conj _ (conj _ (conj _ _))); try (fe_rel; try reflexivity; ring).
Qed.

Lemma bd_cond P Q b : bd P -> bd Q -> ep_ConditionalSet K P Q (Z.b2z b) = if b then Q else P.
Proof.
  intros (x & y & w & t & h1 & h2 & h3 & h4) (x' & y' & w' & t' & g1 & g2 & g3 & g4). fe_facts L.
  unfold ep_ConditionalSet. destruct P as [a1 a2 a3 a4], Q as [b1 b2 b3 b4]. cbn [eX eY eZ eT] in *.
  rewrite (law_condSet K L 2 2 _ _ _ _ b h1 g1) by lia. rewrite (law_condSet K L 2 2 _ _ _ _ b h2 g2) by lia.
  rewrite (law_condSet K L (cN L) (cN L) _ _ _ _ b h3 g3) by lia. rewrite (law_condSet K L 2 2 _ _ _ _ b h4 g4) by lia.
  destruct b; reflexivity.
Qed.
Lemma nbd_cond P Q b : nbd P -> nbd Q -> np_ConditionalSet K P Q (Z.b2z b) = if b then Q else P.
Proof.
  intros (x & y & w & h1 & h2 & h3) (x' & y' & w' & g1 & g2 & g3). fe_facts L.
  unfold np_ConditionalSet. destruct P as [a1 a2 a3], Q as [b1 b2 b3]. cbn [nYpX nYmX nXY2D] in *.
  rewrite (law_condSet K L (cN L) (cN L) _ _ _ _ b h1 g1) by lia. rewrite (law_condSet K L (cN L) (cN L) _ _ _ _ b h2 g2) by lia.
  rewrite (law_condSet K L (cN L) (cN L) _ _ _ _ b h3 g3) by lia.
  destruct b; reflexivity.
Qed.

Lemma deg_add P Q : bd P -> bdf Q -> deg P \/ deg Q -> deg (ep_Add K P Q) /\ deg (ep_Sub K P Q).
Proof.
  intros hP hQ [h|h].
  - destruct (add_deg_l P Q h hQ) as [h1 h2]. exact (conj (cdeg_ext _ h1) (cdeg_ext _ h2)).
  - destruct (add_deg_r P Q hP h) as [h1 h2]. exact (conj (cdeg_ext _ h1) (cdeg_ext _ h2)).
Qed.
Lemma deg_double P : deg P -> deg (ep_Double K P).
Proof. intro h. exact (cdeg_ext _ (dbl_deg P h)). Qed.

Lemma deg_equals P Q : bd P -> bd Q -> deg P \/ deg Q -> ep_RistrettoEqualsI K P Q = 1.
Proof.
  intros hP hQ h.
  assert (H : exists x y x' y', rel L 2 (eX P) x /\ rel L 2 (eY P) y /\ rel L 2 (eX Q) x' /\ rel L 2 (eY Q) y' /\
    (x * y' = F0 /\ x' * y = F0 /\ x * x' = F0 /\ y * y' = F0)%F).
  { destruct h as [(z & h1 & h2 & _)|(z & h1 & h2 & _)].
    - destruct hQ as (x' & y' & _ & _ & g1 & g2 & _). exists F0, F0, x', y'. repeat (refine (conj _ _)); try assumption; ring.
    - destruct hP as (x' & y' & _ & _ & g1 & g2 & _). exists x', y', F0, F0. repeat (refine (conj _ _)); try assumption; ring. }
  destruct H as (x & y & x' & y' & h1 & h2 & g1 & g2 & e1 & e2 & e3 & e4). fe_facts L.
  unfold ep_RistrettoEqualsI. cbv zeta.
  rewrite (fe_EqualsI_ok L 1 1 _ _ (x * y')%F (x' * y)%F) by (try lia; eapply fe_mul_r; eauto; lia).
  rewrite (fe_EqualsI_ok L 1 1 _ _ (x * x')%F (y * y')%F) by (try lia; eapply fe_mul_r; eauto; lia).
  rewrite e1, e2, e3, e4, Feqb_refl'. reflexivity.
Qed.

Lemma isr_0 : isr_val F0 = F0.
Proof. exact (proj1 (isr_val_spec F0) eq_refl). Qed.

Lemma x0_bytes P y z t : rel L 2 (eX P) F0 -> rel L 2 (eY P) y -> rel L (cN L) (eZ P) z -> rel L 2 (eT P) t ->
  ep_RistrettoInto K P = repeat 0 32.
Proof.
  intros h1 h2 h3 h4. fe_facts L.
  fe_open (@ep_RistrettoInto) (ep_RistrettoInto K P).
  fs L d0. fs L u1a. fs L u1. fs L u2. fs L isra. fs L isrb. fs L isr. fs L i1. fs L i2. fs L zInva. fs L zInv.
  fs L d1. fs L nx0. fs L ny0. fs L denInv0.
  ns L d2.
  bs b (negb (Fneg g_d1)) ltac:(apply i32_1_sub_b2z).
  cs L nx (negb (Fneg g_d1)) ltac:(exact e_b).
  cs L ny1 (negb (Fneg g_d1)) ltac:(exact e_b).
  cs L denInv (negb (Fneg g_d1)) ltac:(exact e_b).
  fs L d3. ns L d4. fs L d5.
  cs L ny (Fneg g_d3) ltac:(reflexivity).
  fs L s0. fs L s1. ns L s2. fs L d6.
  cs L s (Fneg g_s1) ltac:(reflexivity).
  destruct (law_bytes K L _ s g_s h_s ltac:(lia)) as (s' & e1 & _). rewrite e1. cbn [fst].
  subst PP. cbv beta.
  assert (E1 : g_isr = F0).
  { rewrite e_isr, <- isr_0. f_equal. rewrite e_isrb, e_isra, e_u2. clear. ring. }
  assert (E2 : g_denInv = F0).
  { rewrite e_denInv, e_denInv0, e_i1, e_i2, E1. destruct (negb _); ring. }
  assert (E3 : g_s1 = F0) by (rewrite e_s1, E2; ring).
  assert (E4 : g_s = F0).
  { rewrite e_s, e_d6, E3. destruct (Fneg F0); ring. }
  rewrite E4. vm_compute. reflexivity.
Qed.

Lemma deg_bytes P : deg P -> ep_RistrettoInto K P = repeat 0 32.
Proof. intros (z & h1 & h2 & h3 & h4 & _). exact (x0_bytes P _ _ _ h1 h2 h3 h4). Qed.
Lemma E0_bytes P : rd L P E0 -> ep_RistrettoInto K P = repeat 0 32.
Proof.
  intros (z & _ & h1 & h2 & h3 & h4). refine (x0_bytes P _ _ _ _ h2 h3 h4). eapply rel_eq; [exact h1 | lia |].
  change (ex E0) with F0. ring.
Qed.

(** ** Scalar multiplication: the flag tells whether a degenerate tuple has been added *)
Definition fl (P : ext FE) (b : bool) : Prop := if b then deg P else rf L P E0.
Definition cfl (C : compl FE) (b : bool) : Prop := if b then cdeg C else rct L C E0.
Definition pfl (P : proj FE) (b : bool) : Prop := if b then pdeg P else rpp L P E0.
Definition nfl (N : niels FE) (b : bool) : Prop := if b then ndeg N else rnp L (cN L) N E0.

Lemma fl_bdf P b : fl P b -> bdf P.
Proof. destruct b; [apply deg_bdf | apply rf_bdf]. Qed.
Lemma nfl_nbd N b : nfl N b -> nbd N.
Proof. destruct b; intros (h1 & h2 & h3); do 3 eexists; eauto. Qed.
Lemma E00 : Eadd E0 E0 = E0. Proof. apply Eadd_0_l. Qed.
Lemma fl_zero : fl (ep_SetZero K) false.
Proof. exact (rpt_1 L _ _ (ep_Zero_ok L)). Qed.
Lemma cfl_ext C b : cfl C b -> fl (ep_SetCompleted K C) b.
Proof. destruct b; intro h; [exact (cdeg_ext C h) | exact (rpt_1 L _ _ (rct_ext L C E0 h))]. Qed.
Lemma cfl_proj C b : cfl C b -> pfl (pp_SetCompleted K C) b.
Proof. destruct b; intro h; [exact (cdeg_proj C h) | exact (rct_proj L C E0 h)]. Qed.
Lemma pfl_double P b : pfl P b -> cfl (cp_DoubleProjective K P) b.
Proof. destruct b; intro h; [exact (dblp_deg P h)|]. cbn [cfl]. rewrite <- E00. exact (cp_DoubleProjective_ok L P E0 h). Qed.
Lemma fl_cdouble P b : fl P b -> cfl (cp_DoubleExtended K P) b.
Proof. destruct b; intro h; [exact (dbl_deg P h)|]. cbn [cfl]. rewrite <- E00. exact (cp_DoubleExtended_rf L P E0 h). Qed.
Lemma fl_cadd P Q b c : fl P b -> fl Q c -> cfl (cp_AddExtended K P Q) (b || c).
Proof.
  intros hP hQ. destruct b; [exact (proj1 (add_deg_l P Q hP (fl_bdf Q c hQ)))|].
  destruct c; [exact (proj1 (add_deg_r P Q (proj1 (fl_bdf P false hP)) hQ))|].
  cbn [cfl orb]. rewrite <- E00. exact (cp_AddExtended_rf L P Q E0 E0 hP hQ).
Qed.
Lemma opp0 : Eopp E0 = E0. Proof. apply E_eq; [change (Fopp F0 = F0); ring | reflexivity]. Qed.
Lemma sub00 : Esub E0 E0 = E0. Proof. unfold Esub. rewrite opp0. exact E00. Qed.
Lemma fl_csub P Q b c : fl P b -> fl Q c -> cfl (cp_SubExtended K P Q) (b || c).
Proof.
  intros hP hQ. destruct b; [exact (proj2 (add_deg_l P Q hP (fl_bdf Q c hQ)))|].
  destruct c; [exact (proj2 (add_deg_r P Q (proj1 (fl_bdf P false hP)) hQ))|].
  cbn [cfl orb]. rewrite <- sub00. exact (cp_SubExtended_rf L P Q E0 E0 hP hQ).
Qed.
Lemma fl_addn P N b c : fl P b -> nfl N c -> cfl (cp_AddExtendedNiels K P N) (b || c).
Proof.
  intros hP hQ. destruct b; [exact (addn_deg_l P N hP (nfl_nbd N c hQ))|].
  destruct c; [exact (addn_deg_r P N (proj1 (fl_bdf P false hP)) hQ)|].
  cbn [cfl orb]. rewrite <- E00. exact (cp_AddExtendedNiels_rf L P N E0 E0 hP hQ).
Qed.
Lemma fl_add P Q b c : fl P b -> fl Q c -> fl (ep_Add K P Q) (b || c).
Proof. intros hP hQ. exact (cfl_ext _ _ (fl_cadd P Q b c hP hQ)). Qed.
Lemma fl_double P b : fl P b -> fl (ep_Double K P) b.
Proof. intro h. exact (cfl_ext _ _ (fl_cdouble P b h)). Qed.
Lemma fl_neg P b : fl P b -> fl (ep_Neg K P) b.
Proof. destruct b; intro h; [exact (neg_deg P h)|]. cbn [fl]. rewrite <- opp0. exact (ep_Neg_rf L P E0 h). Qed.
Lemma nfl_neg N b : nfl N b -> nfl (np_Neg K N) b.
Proof.
  destruct b; intro h; [exact (npneg_deg N h)|]. cbn [nfl]. fe_facts L. pose proof (np_Neg_ok L (cN L) N E0 h ltac:(lia)) as g.
  rewrite opp0, Z.max_id in g. exact g.
Qed.
Lemma nfl_set P b : fl P b -> nfl (np_SetExtended K P) b.
Proof.
  destruct b; intro h; [exact (np_deg P h)|]. cbn [nfl]. fe_facts L.
  eapply rnp_le; [|exact (np_SetExtended_rf L P E0 h)]. lia.
Qed.
Lemma nfl_zero : nfl (np_SetZero K) false.
Proof. cbn [nfl]. fe_facts L. eapply rnp_le; [|exact (np_SetZero_ok L)]. lia. Qed.
Lemma fl_cond P Q b c d : fl P b -> fl Q c -> ep_ConditionalSet K P Q (Z.b2z d) = if d then Q else P.
Proof. intros h g. exact (bd_cond P Q d (proj1 (fl_bdf _ _ h)) (proj1 (fl_bdf _ _ g))). Qed.
Lemma nfl_cond P Q b c d : nfl P b -> nfl Q c -> np_ConditionalSet K P Q (Z.b2z d) = if d then Q else P.
Proof. intros h g. exact (nbd_cond P Q d (nfl_nbd _ _ h) (nfl_nbd _ _ g)). Qed.
End Deg.
