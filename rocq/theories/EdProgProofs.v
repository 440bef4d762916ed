(** Programs over package edwards25519 behave like the ideal machine of EdProgSpec.v, in every build. *)
From Coq Require Import ZArith Znumtheory List Lia Bool.
From Verif Require Import Words Primes Fp Edwards GroupOrder RistrettoSpec FieldModel CurveModel FieldLaws CurveProofs EncodeProofs
  ScalarMultProofs AllScalars ScalarModel ScalarReduce ScalarFacts RistrettoModel RistrettoFacts ElligatorMath ElligatorSpec ElligatorProofs LizardProofs Elligator51
  LizardProofs ApiProofs ApiIdeal WindowProofs Backends EdwardsFacts BijFacts EdProgModel EdProgSpec.
From Verif Require EllGen.
Import ListNotations.
Open Scope Z_scope.
Local Notation length := List.length.

(** ** Projective points with X and Y as in an ExtendedPoint, and the torsion points *)
Section Points.
Context {K : FeOps} (L : FeLaws K).
Local Notation FE := (fe K).
Definition rq (P : proj FE) (A : E) : Prop :=
  exists z, z <> F0 /\ rel L 2 (jX P) (Fmul (ex A) z) /\ rel L 2 (jY P) (Fmul (ey A) z) /\ rel L (cN L) (jZ P) z.

Lemma rq_double P A : rq P A -> rct L (cp_DoubleProjective K P) (Eadd A A).
Proof.
  intros (z & hz & h1 & h2 & h3). fe_facts L.
  pose proof (Fmul_nz _ _ hz hz) as hzz.
  exists ((z * z) * (F1 + Fd * prodxy A A))%F, ((z * z) * (F1 - Fd * prodxy A A))%F.
  refine (conj (Fmul_nz _ _ hzz (add_nzp A A)) (conj (Fmul_nz _ _ hzz (add_nzm A A)) _)).
  cbv zeta beta delta [cp_DoubleProjective]. cbn [cX cY cZ cT].
  refine (conj _ (conj _ (conj _ _))); fe_rel.
  - transitivity ((z * z) * (ex A * ey A + ex A * ey A))%F; [ring|]. rewrite <- ex_add. ring.
  - transitivity ((z * z) * (ey A * ey A + ex A * ex A))%F; [ring|]. rewrite <- ey_add. ring.
  - rewrite dbl_den. ring.
  - rewrite dbl_den. ring.
Qed.
Lemma rq_ext P A : rd L P A -> rq (pp_SetExtended K P) A.
Proof. intros (z & hz & h1 & h2 & h3 & _). exists z. exact (conj hz (conj h1 (conj h2 h3))). Qed.
Lemma rq_rpp P A : rpp L P A -> rq P A.
Proof.
  intros (z & hz & h1 & h2 & h3). fe_facts L. exists z.
  refine (conj hz (conj _ (conj _ h3))); [apply (rel_le K L (cN L) 2 _ _ ltac:(lia) h1) | apply (rel_le K L (cN L) 2 _ _ ltac:(lia) h2)].
Qed.
Lemma rq_zero : rq (pp_SetZero K) E0.
Proof.
  fe_facts L. exists F1. refine (conj F1_neq_0 _). cbn [pp_SetZero jX jY jZ]. change (ex E0) with F0. change (ey E0) with F1.
  refine (conj _ (conj _ _)); (fe_rel; ring).
Qed.

Lemma small_rf x y t A : rel L 1 x (ex A) -> rel L 1 y (ey A) -> rel L 1 t (Fmul (ex A) (ey A)) -> rf L (mkExt x y (k_one K) t) A.
Proof.
  intros h1 h2 h3. fe_facts L. split.
  - exists F1. refine (conj F1_neq_0 _). cbn [eX eY eZ eT]. refine (conj _ (conj _ (conj _ _))); (fe_rel; ring).
  - cbn [eX eY]. apply (fits_small K L x y (ex A) (ey A)); apply (rel_le K L 1 (cN L)); (lia || assumption).
Qed.
Lemma torsion_rf : rf L (ep_torsion1 K) T2 /\ rf L (ep_torsion2 K) T4 /\ rf L (ep_torsion3 K) T4'.
Proof.
  refine (conj _ (conj _ _)); apply small_rf.
  - exact (law_zero K L).
  - exact (law_minusOne K L).
  - change (ex T2) with F0. change (ey T2) with (Fopp F1). fe_rel. ring.
  - exact (law_I K L).
  - exact (law_zero K L).
  - change (ex T4) with Fi. change (ey T4) with F0. fe_rel. ring.
  - exact (law_minusI K L).
  - exact (law_zero K L).
  - change (ex T4') with (Fopp Fi). change (ey T4') with F0. fe_rel. ring.
Qed.
End Points.

Lemma torsion_dlog A : In A [E0; T2; T4; T4'] -> dlog A 0.
Proof.
  intro h. apply (dlog_Req A E0 0); [|exact dlog_0]. apply Points51.Req_torsion. 
  assert (e : Eopp E0 = E0) by (apply E_eq; [change (Fopp F0 = F0); ring | reflexivity]).
  rewrite e, Eadd_comm, Eadd_0_l. exact h.
Qed.
Lemma dlog_EBc : dlog EBc 1.
Proof.
  rewrite <- (Emul_1 EBc). apply dlog_base. rewrite ScalarFacts.l_lit. lia.
Qed.

(** ** What the variables hold *)
Definition hE (b : build) (P : ext (fe (ops b))) (m : Z) : Prop := exists A, operand b P A /\ dlog A m.
(** of points that may not be the second operand *)
Definition hR (b : build) (P : ext (fe (ops b))) (m : Z) : Prop := exists A, represents b P A /\ dlog A m.
Definition hC (b : build) (P : compl (fe (ops b))) (m : Z) : Prop := exists A, completed b P A /\ dlog A m.
Definition hP (b : build) (P : proj (fe (ops b))) (m : Z) : Prop := exists A, rq (laws b) P A /\ dlog A m.
Definition hN (b : build) (P : niels (fe (ops b))) (m : Z) : Prop := exists A, niels_of b P A /\ dlog A m.
Definition hT (b : build) (t : list (list (niels (fe (ops b))))) (m : Z) : Prop := exists A, etable b t A /\ dlog A m.

Definition hJ (b : build) (q : jacobi (fe (ops b))) (m : Z) : Prop :=
  exists s t A, rjac (laws b) q (s, t) /\ below s t A /\ dlog A m.

Definition vt (v : Z) : Z := match computeScalar5NAF (le_bytes 32 v) with Some naf => dval 2 naf | None => 0 end.
Lemma vt_spec v : 0 <= v < 2 ^ 256 -> (vt v = v \/ vt v = v - 2 ^ 256) /\ (v < 2 ^ 255 -> vt v = v).
Proof.
  intro h. assert (hv : le_val (le_bytes 32 v) = v) by (rewrite le_val_le_bytes; [|exact h]; reflexivity).
  destruct (e_varTime PureGo64 _ _ _ (e_zero PureGo64) (le_bytes_bytes 32 v)) as (naf & R & e & h1 & h2 & _).
  unfold vt. rewrite e. rewrite hv in h1, h2. exact (conj h1 h2).
Qed.

Lemma Forall2_in {X Y : Type} (R : X -> Y -> Prop) xs ys : Forall2 R xs ys -> forall x, In x xs -> exists y, In y ys /\ R x y.
Proof.
  intro h. induction h as [|x y xs ys hxy h IH]; intros u [].
  - subst u. exists y. split; [left; reflexivity | exact hxy].
  - destruct (IH u H) as (v & h1 & h2). exists v. split; [right; exact h1 | exact h2].
Qed.
Lemma Forall2_len {X Y : Type} (R : X -> Y -> Prop) xs ys : Forall2 R xs ys -> List.length xs = List.length ys.
Proof. intro h. induction h as [|x y xs ys hxy h IH]; [reflexivity | cbn [List.length]; rewrite IH; reflexivity]. Qed.
Section Build.
Context (b : build).
Local Notation K := (ops b).

Lemma hR_point P m : hR b P m -> exists A, point b P A /\ dlog A m.
Proof. intros (A & h & d). exists A. exact (conj (conj h (dlog_even A m d)) d). Qed.
Lemma hE_hR P m : hE b P m -> hR b P m.
Proof. intros (A & [h _] & d). exists A. exact (conj h d). Qed.
Lemma hR_hE P m : b <> Generic -> hR b P m -> hE b P m.
Proof.
  intros hg h. destruct (hR_point P m h) as (A & hA & d). destruct (b_summand64 b P A hg hA) as [[h1 _] h2]. exists A. exact (conj (conj h1 h2) d).
Qed.
Lemma hE_of P A m : operand b P A -> dlog A m -> hE b P m.
Proof. intros h d. exists A. exact (conj h d). Qed.
Lemma hC_of P A m : completed b P A -> dlog A m -> hC b P m.
Proof. intros h d. exists A. exact (conj h d). Qed.

Lemma hE_const : hE b (ep_SetZero K) 0 /\ hE b (ep_SetBase K) 1 /\ hE b (ep_torsion1 K) 0 /\ hE b (ep_torsion2 K) 0 /\ hE b (ep_torsion3 K) 0.
Proof.
  destruct (torsion_rf (laws b)) as (t1 & t2 & t3).
  refine (conj _ (conj _ (conj _ (conj _ _)))).
  - exact (hE_of _ _ _ (e_zero b) dlog_0).
  - apply (hE_of _ EBc); [|exact dlog_EBc]. apply op_rf. exact (ep_Base_rf (laws b)).
  - apply (hE_of _ T2); [apply op_rf; exact t1 | apply torsion_dlog; cbn [In]; auto].
  - apply (hE_of _ T4); [apply op_rf; exact t2 | apply torsion_dlog; cbn [In]; auto].
  - apply (hE_of _ T4'); [apply op_rf; exact t3 | apply torsion_dlog; cbn [In]; auto].
Qed.
Lemma hR_cond P Q m n c : hR b P m -> hR b Q n -> ep_ConditionalSet K P Q (Z.b2z c) = if c then Q else P.
Proof.
  intros h g. destruct (hR_point P m h) as (A & hA & _), (hR_point Q n g) as (B & hB & _). exact (b_condset b P Q A B c hA hB).
Qed.
Lemma hE_add P Q m n : hR b P m -> hE b Q n -> hE b (ep_Add K P Q) ((m + n) mod l) /\ hE b (ep_Sub K P Q) ((m - n) mod l).
Proof.
  intros (A & hA & dA) (B & hB & dB). destruct (e_add b P Q A B hA hB) as [h1 h2]. split.
  - exact (hE_of _ _ _ h1 (dlog_add _ _ _ _ dA dB)).
  - exact (hE_of _ _ _ h2 (dlog_sub _ _ _ _ dA dB)).
Qed.
Lemma hE_double P m : hR b P m -> hE b (ep_Double K P) ((m + m) mod l).
Proof. intros (A & hA & dA). exact (hE_of _ _ _ (e_double b P A hA) (dlog_add _ _ _ _ dA dA)). Qed.
Lemma hE_neg P m : hE b P m -> hE b (ep_Neg K P) ((- m) mod l).
Proof. intros (A & hA & dA). exact (hE_of _ _ _ (e_neg b P A hA) (dlog_opp _ _ dA)). Qed.
Lemma hR_neg P m : hR b P m -> hR b (ep_Neg K P) ((- m) mod l).
Proof.
  intros (A & hA & dA). exists (Eopp A). split; [|exact (dlog_opp _ _ dA)]. apply rep_rd. apply rep_rd in hA. exact (ep_Neg_rd (laws b) P A hA).
Qed.
Lemma hE_completed C m : hC b C m -> hE b (ep_SetCompleted K C) m /\ hP b (pp_SetCompleted K C) m.
Proof.
  intros (A & hA & dA). destruct (proj1 (e_convert b) C A hA) as [h1 h2]. split; [exact (hE_of _ _ _ h1 dA)|].
  exists A. split; [|exact dA]. apply rq_rpp. apply pr_rpp. exact h2.
Qed.
Lemma hR_decode buf : bytes 32 buf ->
  exists Q, ep_SetRistretto K buf = (match dec buf with Some _ => true | None => false end, Q) /\ forall m, dec buf = Some m -> hR b Q m.
Proof.
  intros hb. destruct (SetBytes_dlog _ _ _ _ _ _ ideal (laws b) (baseTable b) (base_ok b) buf hb) as (Q & e & h).
  exists Q. split; [exact e|]. intros m em. destruct (h m em) as (A & hA & dA). apply pt_dpoint in hA. exists A. exact (conj (proj1 hA) dA).
Qed.
Lemma hE_bytes P m : hR b P m -> ep_RistrettoInto K P = enc m.
Proof.
  intro h. destruct (hR_point P m h) as (A & hA & dA). destruct (b_encodes b P A hA) as (s & e & hs).
  unfold pt_Bytes in e. rewrite e. symmetry. exact (enc_encodes s A m hs dA).
Qed.
Lemma hE_equals P Q m n : hR b P m -> hR b Q n -> ep_RistrettoEqualsI K P Q = if m =? n then 1 else 0.
Proof.
  intros h g. destruct (hR_point P m h) as (A & hA & dA), (hR_point Q n g) as (B & hB & dB). apply pt_dpoint in hA, hB.
  exact (proj1 (EqualsI_dlog (laws b) P Q A B m n hA hB dA dB)).
Qed.
Lemma hE_scalarMult P m k : hE b P m -> bytes 32 k -> hE b (ep_ScalarMult K P k) ((z_mult (le_val k) * m) mod l).
Proof.
  intros (A & hA & dA) hk. exact (hE_of _ _ _ (proj1 (e_scalarMult b P A k hA hk)) (dlog_mul _ _ _ dA)).
Qed.
Lemma hE_varTime P m k : hE b P m -> bytes 32 k ->
  exists R, ep_VarTimeScalarMult K P k = Some R /\ hE b R ((vt (le_val k) * m) mod l).
Proof.
  intros (A & hA & dA) hk. destruct (e_varTime b P A k hA hk) as (naf & R & e & _ & _ & eR & hR). exists R. split; [exact eR|].
  assert (ek : le_bytes 32 (le_val k) = k) by (rewrite <- (proj1 hk) at 1; apply le_bytes_le_val, hk).
  unfold vt. rewrite ek, e. exact (hE_of _ _ _ hR (dlog_mul _ _ _ dA)).
Qed.
Lemma hE_table t m k : hT b t m -> bytes 32 k -> hE b (tbl_ScalarMult K t k) ((z_tmult (le_val k) * m) mod l).
Proof.
  intros (A & hA & dA) hk. exact (hE_of _ _ _ (proj1 (e_tableMult b t A k hA hk)) (dlog_mul _ _ _ dA)).
Qed.
Lemma hE_tableVarTime t m k : hT b t m -> bytes 32 k ->
  if le_val k <=? 2 ^ 255 + 7 * ((2 ^ 252 - 1) / 15)
  then exists R, tbl_VarTimeScalarMult K t k = Some R /\ hE b R ((le_val k * m) mod l)
  else tbl_VarTimeScalarMult K t k = None.
Proof.
  intros (A & hA & dA) hk. destruct (e_tableVarTime b t A k hA hk) as [h1 h2]. fold tbl_max.
  destruct (Z.leb_spec (le_val k) tbl_max) as [h|h]; [|exact (h2 h)].
  destruct (h1 h) as (R & e & hR). exists R. exact (conj e (hE_of _ _ _ hR (dlog_mul _ _ _ dA))).
Qed.
Lemma hC_add P Q m n : hR b P m -> hE b Q n -> hC b (cp_AddExtended K P Q) ((m + n) mod l) /\ hC b (cp_SubExtended K P Q) ((m - n) mod l).
Proof.
  intros (A & hA & dA) (B & hB & dB). destruct (e_addExtended b P Q A B hA hB) as [h1 h2]. split.
  - exact (hC_of _ _ _ h1 (dlog_add _ _ _ _ dA dB)).
  - exact (hC_of _ _ _ h2 (dlog_sub _ _ _ _ dA dB)).
Qed.
Lemma hC_niels P Q m n : hR b P m -> hN b Q n -> hC b (cp_AddExtendedNiels K P Q) ((m + n) mod l) /\ hC b (cp_SubExtendedNiels K P Q) ((m - n) mod l).
Proof.
  intros (A & hA & dA) (B & hB & dB). destruct (e_addNiels b P Q A B hA hB) as [h1 h2]. split.
  - exact (hC_of _ _ _ h1 (dlog_add _ _ _ _ dA dB)).
  - exact (hC_of _ _ _ h2 (dlog_sub _ _ _ _ dA dB)).
Qed.
Lemma hC_doubleE P m : hR b P m -> hC b (cp_DoubleExtended K P) ((m + m) mod l).
Proof. intros (A & hA & dA). exact (hC_of _ _ _ (proj1 (e_doubles b) P A hA) (dlog_add _ _ _ _ dA dA)). Qed.
Lemma hC_doubleP P m : hP b P m -> hC b (cp_DoubleProjective K P) ((m + m) mod l).
Proof.
  intros (A & hA & dA). apply (hC_of _ (Eadd A A)); [|exact (dlog_add _ _ _ _ dA dA)]. apply co_rct. exact (rq_double (laws b) P A hA).
Qed.
Lemma hC_elligator buf : bytes 32 buf -> hC b (cp_SetRistrettoElligator2 K (o_setBytes K buf)) (ell buf).
Proof.
  intro hb. destruct (rfc_map_exists (fe_of buf)) as [A hA]. apply (hC_of _ A); [|exact (ell_ok buf A hb hA)].
  apply co_rct. exact (cp_SetRistrettoElligator2_ok (laws b) _ _ A (law_setBytes _ (laws b) buf hb) hA).
Qed.
Lemma hP_ext P m : hR b P m -> hP b (pp_SetExtended K P) m.
Proof. intros (A & hA & dA). exists A. split; [|exact dA]. apply rq_ext. apply rep_rd. exact hA. Qed.
Lemma hN_ext P m : hR b P m -> hN b (np_SetExtended K P) m.
Proof. intros (A & hA & dA). exists A. split; [|exact dA]. exact (proj2 (e_convert b) P A hA). Qed.
Lemma hN_neg N m : hN b N m -> hN b (np_Neg K N) ((- m) mod l).
Proof. intros (A & hA & dA). exists (Eopp A). exact (conj (proj2 (e_niels b) N A hA) (dlog_opp _ _ dA)). Qed.
Lemma hN_cond P Q m n c : hN b P m -> hN b Q n -> hN b (np_ConditionalSet K P Q (Z.b2z c)) (if c then n else m).
Proof.
  intros h g. assert (e : np_ConditionalSet K P Q (Z.b2z c) = if c then Q else P).
  { destruct h as (A & hA & _), g as (B & hB & _). apply ni_rnp in hA, hB. pose proof (proj1 (cN_le_cL (laws b))) as hc. pose proof (cN_le_cL (laws b)) as hc'.
    fe_facts (laws b). apply (np_ConditionalSet_ok (laws b) (cN (laws b)) (cN (laws b)) P Q A B c hA hB); lia. }
  rewrite e. destruct c; assumption.
Qed.
Lemma hT_compute P m : hE b P m -> hT b (tbl_Compute K P) m.
Proof. intros (A & hA & dA). exists A. exact (conj (e_table b P A hA) dA). Qed.

Lemma hJ_from P m : hR b P m -> exists j0 j1 j2 j3 P', ep_ToJacobiQuarticRistretto K P = ([j0; j1; j2; j3], P') /\ hR b P' m /\
  hJ b j0 m /\ hJ b j1 m /\ hJ b j2 m /\ hJ b j3 m.
Proof.
  intros (A & hA & dA). pose proof (dlog_even A m dA) as he. apply rep_rd in hA.
  destruct (ep_ToJacobiQuarticRistretto_ok (laws b) P A hA) as (z & js & P' & hz & e & hj & hP'). pose proof (jq_sound A z he hz) as hs.
  assert (H : forall q st, rjac (laws b) q st -> In st (jq A z) -> hJ b q m).
  { intros q [s t] hq hi. destruct (hs s t hi) as (B & hB & hR'). exists s, t, B. exact (conj hq (conj hB (dlog_Req B A m hR' dA))). }
  assert (G : Forall (fun q => hJ b q m) js /\ List.length js = 4%nat).
  { split.
    - apply Forall_forall. intros q hq. destruct (Forall2_in _ _ _ hj q hq) as (st & hst & hr). exact (H q st hr hst).
    - rewrite (Forall2_len _ _ _ hj). reflexivity. }
  destruct G as [G gl]. destruct js as [|j0 [|j1 [|j2 [|j3 [|? ?]]]]]; try discriminate gl.
  exists j0, j1, j2, j3, P'. refine (conj e (conj _ _)).
  - exists A. split; [apply rep_rd; exact hP' | exact dA].
  - inversion G as [|? ? g0 G0]; subst. inversion G0 as [|? ? g1 G1]; subst. inversion G1 as [|? ? g2 G2]; subst. inversion G2 as [|? ? g3 G3]; subst.
    exact (conj g0 (conj g1 (conj g2 g3))).
Qed.
Lemma hJ_dual q m : hJ b q m -> hJ b (jc_Dual K q) m.
Proof.
  intros (s & t & A & h1 & h2 & h3). exists (Fopp s), (Fopp t), A. exact (conj (jc_Dual_ok (laws b) q (s, t) h1) (conj (below_neg s t A h2) h3)).
Qed.
Lemma hC_jacobi q m : hJ b q m -> hC b (cp_SetJacobiQuartic K q) m.
Proof.
  intros (s & t & A & [h1 h2] & hb & h3). apply (hC_of _ A); [|exact h3]. apply co_rct. fe_facts (laws b). cbn [fst snd] in h1, h2.
  apply (cp_SetJacobiQuartic_ok (laws b) q s t A h1); [|exact hb]. exact (rel_le _ (laws b) (cN (laws b)) (1 + cN (laws b)) _ _ ltac:(lia) h2).
Qed.

Lemma candidate_ok buf : bytes 32 buf -> (i_candidate buf = true <-> nonneg_bytes buf /\ buf <> missed).
Proof.
  intro hb. unfold i_candidate. set (M := 347587707554176910664335222571809819192038173877021618066561357284830225728).
  assert (em : missed = le_bytes 32 M) by (vm_compute; reflexivity).
  assert (eb : le_bytes 32 (le_val buf) = buf) by (rewrite <- (proj1 hb) at 1; apply le_bytes_le_val, hb).
  assert (ev : le_val (le_bytes 32 M) = M) by (vm_compute; reflexivity).
  assert (E : buf = missed <-> le_val buf = M).
  { rewrite em. split; intro e; [rewrite e; exact ev | rewrite <- eb, e; reflexivity]. }
  clearbody M. clear em ev eb. unfold nonneg_bytes. rewrite !andb_true_iff, Z.ltb_lt, negb_true_iff, Z.eqb_neq, E. tauto.
Qed.
Lemma hR_inverse P m buf : hR b P m -> bytes 32 buf -> exists mask fes P', ep_RistrettoElligator2Inverse K P = (mask, fes, P') /\ hR b P' m /\
  ((exists j, (j < 8)%nat /\ Z.testbit mask (Z.of_nat j) = true /\ buf = fst (o_bytes K (nth j fes (k_zero K)))) <->
   i_candidate buf && (ell buf =? m) = true).
Proof.
  intros (A & hA & dA) hb. pose proof (dlog_even A m dA) as he. apply rep_rd in hA. pose proof (conj hA he : dpoint (laws b) P A) as hP.
  pose proof (EllGen.reported_exact (laws b) P buf (ex_intro _ A hP)) as hx. unfold EllGen.reported_bytes in hx.
  destruct (ep_RistrettoElligator2Inverse_ok (laws b) P A hA) as (z & mask & fes & P' & _ & e & _ & _ & hP'). rewrite e in hx.
  exists mask, fes, P'. refine (conj e (conj _ _)); [exists A; split; [apply rep_rd; exact hP' | exact dA]|].
  rewrite hx. destruct (EllGen.elligator_map (laws b) buf hb) as (C & hC & mC). pose proof (ell_ok buf C hb mC) as dC.
  rewrite (Equals_dpoint (laws b) _ _ C A hC hP), (dlog_inj C A (ell buf) m dC dA), andb_true_iff, (candidate_ok buf hb), Z.eqb_eq. tauto.
Qed.
Lemma inverse_seen (X : nat -> list Z) mask buf c :
  ((exists j, (j < 8)%nat /\ Z.testbit mask (Z.of_nat j) = true /\ buf = X j) <-> c = true) ->
  existsb (fun j => Z.testbit mask (Z.of_nat j) && (if list_eq_dec Z.eq_dec (X j) buf then true else false)) (seq 0 8) = c.
Proof.
  intro h. apply eq_true_iff_eq. rewrite existsb_exists, <- h. split.
  - intros (j & hj & hx). apply in_seq in hj. apply andb_true_iff in hx. destruct hx as [h1 h2]. exists j.
    destruct (list_eq_dec Z.eq_dec (X j) buf) as [e|]; [|discriminate h2]. refine (conj _ (conj h1 (eq_sym e))). lia.
  - intros (j & hj & h1 & h2). exists j. split; [apply in_seq; lia|]. apply andb_true_iff. split; [exact h1|].
    destruct (list_eq_dec Z.eq_dec (X j) buf) as [|n]; [reflexivity | destruct (n (eq_sym h2))].
Qed.

(** ** Programs *)
(** a variable that may be a second operand *)
Definition free (t : nat -> bool) (i : nat) : Prop := b <> Generic \/ t i = false.
Record holds (st : est K) (s : ist) (t : nat -> bool) : Prop := mkHolds {
  oR : forall i m, zE s i = Some m -> hR b (vE K st i) m;
  oE : forall i m, zE s i = Some m -> free t i -> hE b (vE K st i) m;
  oC : forall i m, zC s i = Some m -> hC b (vC K st i) m;
  oP : forall i m, zP s i = Some m -> hP b (vP K st i) m;
  oN : forall i m, zN s i = Some m -> hN b (vN K st i) m;
  oT : forall i m, zT s i = Some m -> hT b (vT K st i) m;
  oJ : forall i m, zJ s i = Some m -> hJ b (vJ K st i) m }.

Lemma eset_ok {A : Type} (h : A -> Z -> Prop) (f : nat -> A) (g : nat -> option Z) d x y :
  (forall i m, g i = Some m -> h (f i) m) -> (forall m, y = Some m -> h x m) -> forall i m, eset g d y i = Some m -> h (eset f d x i) m.
Proof. intros h1 h2 i m. unfold eset. destruct (Nat.eqb i d); [apply h2 | apply h1]. Qed.
Lemma some_ok {A : Type} (h : A -> Z -> Prop) x y : h x y -> forall m, Some y = Some m -> h x m.
Proof. intros g m e. injection e as <-. exact g. Qed.

Lemma upE' st s t d x y v : holds st s t -> (forall m, y = Some m -> hR b x m) -> (forall m, y = Some m -> b <> Generic \/ v = false -> hE b x m) ->
  holds (setE K st d x) (isetE s d y) (eset t d v).
Proof.
  intros [h0 h1 h2 h3 h4 h5 h6] g0 g1. split; [exact (eset_ok _ _ _ d x y h0 g0) | | exact h2 | exact h3 | exact h4 | exact h5 | exact h6].
  intros i m. cbn [vE zE setE isetE]. unfold eset, free. destruct (Nat.eqb i d); [apply g1 | apply h1].
Qed.
Lemma upE st s t d x y : holds st s t -> hE b x y -> holds (setE K st d x) (isetE s d (Some y)) (eset t d false).
Proof.
  intros h g. apply upE'; [exact h | apply some_ok; exact (hE_hR _ _ g)|]. intros m e _. injection e as <-. exact g.
Qed.
Lemma upR st s t d x y v : holds st s t -> (forall m, y = Some m -> hR b x m) -> (forall m, v = false -> y = Some m -> hE b x m) ->
  holds (setE K st d x) (isetE s d y) (eset t d v).
Proof.
  intros h g k. apply upE'; [exact h | exact g|]. intros m e [hg|hv]; [exact (hR_hE _ _ hg (g m e)) | exact (k m hv e)].
Qed.
Lemma upC st s t d x y : holds st s t -> (forall m, y = Some m -> hC b x m) -> holds (setC K st d x) (isetC s d y) t.
Proof. intros [h0 h1 h2 h3 h4 h5 h6] h. split; [exact h0 | exact h1 | exact (eset_ok _ _ _ d x y h2 h) | exact h3 | exact h4 | exact h5 | exact h6]. Qed.
Lemma upP st s t d x y : holds st s t -> (forall m, y = Some m -> hP b x m) -> holds (setPr K st d x) (isetP s d y) t.
Proof. intros [h0 h1 h2 h3 h4 h5 h6] h. split; [exact h0 | exact h1 | exact h2 | exact (eset_ok _ _ _ d x y h3 h) | exact h4 | exact h5 | exact h6]. Qed.
Lemma upN st s t d x y : holds st s t -> (forall m, y = Some m -> hN b x m) -> holds (setN K st d x) (isetN s d y) t.
Proof. intros [h0 h1 h2 h3 h4 h5 h6] h. split; [exact h0 | exact h1 | exact h2 | exact h3 | exact (eset_ok _ _ _ d x y h4 h) | exact h5 | exact h6]. Qed.
Lemma upT st s t d x y : holds st s t -> (forall m, y = Some m -> hT b x m) -> holds (setTb K st d x) (isetT s d y) t.
Proof. intros [h0 h1 h2 h3 h4 h5 h6] h. split; [exact h0 | exact h1 | exact h2 | exact h3 | exact h4 | exact (eset_ok _ _ _ d x y h5 h) | exact h6]. Qed.

Lemma upJ st s t d x y : holds st s t -> (forall m, y = Some m -> hJ b x m) -> holds (setJ K st d x) (isetJ s d y) t.
Proof. intros [h0 h1 h2 h3 h4 h5 h6] h. split; [exact h0 | exact h1 | exact h2 | exact h3 | exact h4 | exact h5 | exact (eset_ok _ _ _ d x y h6 h)]. Qed.
(** a receiver whose coordinates have been serialised in place *)
Lemma upSame st s t a x m : holds st s t -> zE s a = Some m -> hR b x m -> holds (setE K st a x) s (eset t a true).
Proof.
  intros [h0 h1 h2 h3 h4 h5 h6] e hx.
  assert (H : forall i n, zE s i = Some n -> hR b (eset (vE K st) a x i) n).
  { intros i n en. unfold eset. destruct (Nat.eqb_spec i a) as [->|_]; [|exact (h0 i n en)]. rewrite e in en. injection en as <-. exact hx. }
  split; [exact H | | exact h2 | exact h3 | exact h4 | exact h5 | exact h6].
  intros i n en hf. cbn [vE setE]. unfold free in hf. unfold eset in hf |- *. destruct (Nat.eqb_spec i a) as [->|_]; [|exact (h1 i n en hf)].
  destruct hf as [hg|hf]; [|discriminate hf]. rewrite e in en. injection en as <-. exact (hR_hE _ _ hg hx).
Qed.

(** how the outcome of a call of the program corresponds to that of the ideal machine *)
Definition fits_out (r : option (eobs * est K)) (o : iout) (t : nat -> bool) : Prop :=
  match o with
  | IUnset => True
  | IPanic => r = None
  | IDone x s => exists st, r = Some (x, st) /\ holds st s t
  end.
Lemma out_done x st s t : holds st s t -> fits_out (Some (x, st)) (IDone x s) t.
Proof. intro h. exists st. exact (conj eq_refl h). Qed.
Lemma need_free t i : b <> Generic \/ negb (t i) = true -> free t i.
Proof. intros [h|h]; [left; exact h | right; apply negb_true_iff; exact h]. Qed.

Local Ltac rd x h := destruct x as [?m|] eqn:h; cbn [ilet]; [|exact Logic.I].

Lemma step_ok i st s t : holds st s t -> e_typed i -> (b <> Generic \/ e_need i t = true) ->
  fits_out (e_step K i st) (i_step enc dec ell vt i s) (e_mark i t).
Proof.
  intros hh ht hg. pose proof hh as [HR HE HC HP HN HT HJ]. destruct hE_const as (k0 & k1 & k2 & k3 & k4).
  destruct i; cbn [e_step i_step e_typed e_need e_mark] in *.
  1-5: apply out_done, upE; [exact hh | assumption].
  - rd (zE s a) e1. apply out_done, upR; [exact hh | apply some_ok; exact (HR _ _ e1)|].
    intros m' hv em. injection em as <-. exact (HE _ _ e1 (or_intror hv)).
  - rd (zE s d) e1. rd (zE s a) e2. rewrite (hR_cond _ _ _ _ c (HR _ _ e1) (HR _ _ e2)). apply out_done, upR; [exact hh | apply some_ok|].
    + destruct c; [exact (HR _ _ e2) | exact (HR _ _ e1)].
    + intros m' hv em. apply orb_false_iff in hv. destruct hv as [v1 v2]. injection em as <-.
      destruct c; [exact (HE _ _ e2 (or_intror v2)) | exact (HE _ _ e1 (or_intror v1))].
  - rd (zE s a) e1. rd (zE s b0) e2. apply out_done, upE; [exact hh | exact (proj1 (hE_add _ _ _ _ (HR _ _ e1) (HE _ _ e2 (need_free _ _ hg))))].
  - rd (zE s a) e1. rd (zE s b0) e2. apply out_done, upE; [exact hh | exact (proj2 (hE_add _ _ _ _ (HR _ _ e1) (HE _ _ e2 (need_free _ _ hg))))].
  - rd (zE s a) e1. apply out_done, upE; [exact hh | exact (hE_double _ _ (HR _ _ e1))].
  - rd (zE s a) e1. apply out_done, upR; [exact hh | apply some_ok; exact (hR_neg _ _ (HR _ _ e1))|].
    intros m' hv em. injection em as <-. exact (hE_neg _ _ (HE _ _ e1 (or_intror hv))).
  - rd (zC s c) e1. apply out_done, upE; [exact hh | exact (proj1 (hE_completed _ _ (HC _ _ e1)))].
  - destruct (hR_decode buf ht) as (Q & e & h). rewrite e. apply out_done, upR; [exact hh | exact h | discriminate].
  - rd (zE s a) e1. rewrite (hE_bytes _ _ (HR _ _ e1)). apply out_done. exact hh.
  - rd (zE s a) e1. rewrite (hE_bytes _ _ (HR _ _ e1)). apply out_done. exact hh.
  - rd (zE s a) e1. rd (zE s b0) e2. rewrite (hE_equals _ _ _ _ (HR _ _ e1) (HR _ _ e2)). apply out_done. exact hh.
  - rd (zE s a) e1. apply out_done, upE; [exact hh | exact (hE_scalarMult _ _ _ (HE _ _ e1 (need_free _ _ hg)) ht)].
  - rd (zE s a) e1. destruct (hE_varTime _ _ _ (HE _ _ e1 (need_free _ _ hg)) ht) as (R & e & h). rewrite e. apply out_done, upE; [exact hh | exact h].
  - rd (zT s t0) e1. apply out_done, upE; [exact hh | exact (hE_table _ _ _ (HT _ _ e1) ht)].
  - rd (zT s t0) e1. pose proof (hE_tableVarTime _ _ _ (HT _ _ e1) ht) as h.
    destruct (le_val s0 <=? 2 ^ 255 + 7 * ((2 ^ 252 - 1) / 15)).
    + destruct h as (R & e & h). rewrite e. apply out_done, upE; [exact hh | exact h].
    + rewrite h. reflexivity.
  - rd (zE s a) e1. rd (zE s b0) e2. apply out_done, upC; [exact hh | apply some_ok; exact (proj1 (hC_add _ _ _ _ (HR _ _ e1) (HE _ _ e2 (need_free _ _ hg))))].
  - rd (zE s a) e1. rd (zE s b0) e2. apply out_done, upC; [exact hh | apply some_ok; exact (proj2 (hC_add _ _ _ _ (HR _ _ e1) (HE _ _ e2 (need_free _ _ hg))))].
  - rd (zP s a) e1. apply out_done, upC; [exact hh | apply some_ok; exact (hC_doubleP _ _ (HP _ _ e1))].
  - rd (zE s a) e1. apply out_done, upC; [exact hh | apply some_ok; exact (hC_doubleE _ _ (HR _ _ e1))].
  - rd (zE s a) e1. rd (zN s n) e2. apply out_done, upC; [exact hh | apply some_ok; exact (proj1 (hC_niels _ _ _ _ (HR _ _ e1) (HN _ _ e2)))].
  - rd (zE s a) e1. rd (zN s n) e2. apply out_done, upC; [exact hh | apply some_ok; exact (proj2 (hC_niels _ _ _ _ (HR _ _ e1) (HN _ _ e2)))].
  - apply out_done, upC; [exact hh | apply some_ok; exact (hC_elligator buf ht)].
  - apply out_done, upP; [exact hh | apply some_ok]. exists E0. exact (conj (rq_zero (laws b)) dlog_0).
  - rd (zE s a) e1. apply out_done, upP; [exact hh | apply some_ok; exact (hP_ext _ _ (HR _ _ e1))].
  - rd (zC s c) e1. apply out_done, upP; [exact hh | apply some_ok; exact (proj2 (hE_completed _ _ (HC _ _ e1)))].
  - apply out_done, upN; [exact hh | apply some_ok]. exists E0. exact (conj (proj1 (e_niels b)) dlog_0).
  - rd (zN s a) e1. apply out_done, upN; [exact hh | apply some_ok; apply HN; exact e1].
  - rd (zN s d) e1. rd (zN s a) e2. apply out_done, upN; [exact hh | apply some_ok; apply hN_cond; [exact (HN _ _ e1) | exact (HN _ _ e2)]].
  - rd (zN s a) e1. destruct (Nat.eqb d a).
    + apply out_done, upN; [exact hh | discriminate].
    + apply out_done, upN; [exact hh | apply some_ok; exact (hN_neg _ _ (HN _ _ e1))].
  - rd (zE s a) e1. apply out_done, upN; [exact hh | apply some_ok; exact (hN_ext _ _ (HR _ _ e1))].
  - rd (zE s a) e1. apply out_done, upT; [exact hh | apply some_ok; exact (hT_compute _ _ (HE _ _ e1 (need_free _ _ hg)))].
  - rd (zE s a) e1. destruct (hJ_from _ _ (HR _ _ e1)) as (j0 & j1 & j2 & j3 & P' & e & hP' & g0 & g1 & g2 & g3). rewrite e. cbv zeta beta iota. cbn [nth].
    apply out_done. do 4 (apply upJ; [|apply some_ok; assumption]). exact (upSame _ _ _ _ _ _ hh e1 hP').
  - rd (zJ s a) e1. apply out_done, upJ; [exact hh | apply some_ok; exact (hJ_dual _ _ (HJ _ _ e1))].
  - rd (zJ s j) e1. apply out_done, upC; [exact hh | apply some_ok; exact (hC_jacobi _ _ (HJ _ _ e1))].
  - rd (zE s a) e1. destruct (hR_inverse _ _ buf (HR _ _ e1) ht) as (mask & fes & P' & e & hP' & hs). rewrite e. cbv zeta beta iota.
    rewrite (inverse_seen (fun j => fst (o_bytes K (nth j fes (k_zero K)))) mask buf _ hs). apply out_done. exact (upSame _ _ _ _ _ _ hh e1 hP').
Qed.

Lemma init_holds t : holds (e_init K) i_init t.
Proof. split; discriminate. Qed.

Definition ended {A : Type} (x : option A) : bool := match x with Some _ => true | None => false end.
Lemma run_ok prog : forall st s t r, holds st s t -> Forall e_typed prog -> (b <> Generic \/ e_fit prog t = true) ->
  i_run enc dec ell vt prog s = Some r -> fst (e_run K prog st) = fst r /\ ended (snd (e_run K prog st)) = snd r.
Proof.
  induction prog as [|i prog IH]; intros st s t r hh ht hg hr.
  - injection hr as <-. exact (conj eq_refl eq_refl).
  - cbn [i_run] in hr. cbn [e_run]. cbn [e_fit] in hg. rewrite andb_true_iff in hg. inversion ht as [|? ? ht1 ht2]; subst.
    assert (hg1 : b <> Generic \/ e_need i t = true) by (destruct hg as [g|[g _]]; [left; exact g | right; exact g]).
    assert (hg2 : b <> Generic \/ e_fit prog (e_mark i t) = true) by (destruct hg as [g|[_ g]]; [left; exact g | right; exact g]).
    pose proof (step_ok i st s t hh ht1 hg1) as hs.
    destruct (i_step enc dec ell vt i s) as [| |o s1]; cbn [fits_out] in hs.
    + discriminate hr.
    + rewrite hs. injection hr as <-. exact (conj eq_refl eq_refl).
    + destruct hs as (st1 & e & h1). rewrite e. destruct (i_run enc dec ell vt prog s1) as [[os x]|] eqn:er; [|discriminate hr].
      injection hr as <-. destruct (IH st1 s1 (e_mark i t) (os, x) h1 ht2 hg2 er) as [g1 g2].
      destruct (e_run K prog st1) as [os1 x1]. cbn [fst snd] in *. rewrite g1, g2. exact (conj eq_refl eq_refl).
Qed.
End Build.

Theorem ed_programs b prog r : Forall e_typed prog -> (b <> Generic \/ e_fit prog (fun _ => false) = true) ->
  i_run enc dec ell vt prog i_init = Some r ->
  fst (e_run (ops b) prog (e_init (ops b))) = fst r /\ ended (snd (e_run (ops b) prog (e_init (ops b)))) = snd r.
Proof. intros h1 h2 h3. exact (run_ok b prog _ _ _ r (init_holds b _) h1 h2 h3). Qed.
