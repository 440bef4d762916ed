(** ScalarMult of a decoded Point in the generic builds: the table entry 3 Q = 2 Q + Q is wrong for some Q, and so is 3 Q. *)
From Coq Require Import ZArith Znumtheory List Lia Bool Ring Field.
From Verif Require Import Words Primes Fp Edwards GroupOrder RistrettoSpec Fe25Code Fe25Proofs FieldModel CurveModel FieldLaws BitFold
  CurveProofs EncodeProofs ScalarMultProofs ScalarCode ScalarModel ScalarReduce ScalarFacts TextCodec RistrettoModel RistrettoFacts Fe25Laws Generic25 Backends BijFacts.
From Verif Require Points51.
Import ListNotations.
Open Scope Z_scope.
Local Notation zv := (ep_zerovalue R25).

Lemma lut_3 K q : nth 3 (sm_lut K q) (ep_zerovalue K) = ep_Add K (ep_Double K q) q.
Proof. reflexivity. Qed.
Lemma lut_0 K q : nth 0 (sm_lut K q) (ep_zerovalue K) = ep_SetZero K.
Proof. reflexivity. Qed.

Lemma cs25 (t u : ext fe25) b : ep_ConditionalSet R25 t u (Z.b2z b) = if b then u else t.
Proof.
  unfold ep_ConditionalSet. cbn [R25 o_condSet]. rewrite !g25_condSet_ok. destruct b; [destruct u | destruct t]; reflexivity.
Qed.
Lemma sel_nonneg lut b : 0 <= b <= 16 -> sm_select R25 lut b = nth (Z.to_nat b) lut zv.
Proof.
  intro hb. unfold sm_select. cbv zeta. set (step := fun k t => ep_ConditionalSet R25 t _ _).
  assert (INV : forall k, (k <= 16)%nat -> for_up k step (nth 0 lut zv) = nth (if b <=? Z.of_nat k then Z.to_nat b else 0%nat) lut zv).
  { induction k as [|k IH]; intro hk.
    - cbn [for_up]. f_equal. destruct (b <=? Z.of_nat 0) eqn:E; [apply Z.leb_le in E; lia|reflexivity].
    - cbn [for_up]. rewrite IH by lia. unfold step. rewrite !i32_sm by lia. rewrite !equal15_small by lia. rewrite lor_b2z, cs25.
      destruct ((b =? - Z.of_nat (k + 1)) || (b =? Z.of_nat (k + 1))) eqn:Eb.
      + assert (b = Z.of_nat (k + 1)) as -> by (apply orb_true_iff in Eb; rewrite !Z.eqb_eq in Eb; lia).
        replace (Z.of_nat (k + 1) <=? Z.of_nat (S k)) with true by (symmetry; apply Z.leb_le; lia). rewrite Nat2Z.id. reflexivity.
      + apply orb_false_iff in Eb. rewrite !Z.eqb_neq in Eb. f_equal.
        destruct (b <=? Z.of_nat k) eqn:E1, (b <=? Z.of_nat (S k)) eqn:E2; try reflexivity; rewrite ?Z.leb_le, ?Z.leb_gt in *; lia. }
  rewrite INV by lia. replace (b <=? Z.of_nat 16) with true by (symmetry; apply Z.leb_le; lia).
  rewrite negative_ok by lia. replace (b <? 0) with false by (symmetry; apply Z.ltb_ge; lia).
  cbn [eX eY eZ eT R25 o_condSet]. rewrite !g25_condSet_ok. destruct (nth (Z.to_nat b) lut zv). reflexivity.
Qed.

(** five doublings of the neutral element *)
Definition dbl5 (p : ext fe25) : ext fe25 :=
  ep_SetCompleted R25 (go_for 0 4 (fun cp => cp_DoubleProjective R25 (pp_SetCompleted R25 cp)) (cp_DoubleExtended R25 p)).
Lemma dbl5_zero p : rf L25 p E0 -> rf L25 (dbl5 p) E0.
Proof.
  intro h. unfold dbl5, go_for. change (4 - 0)%nat with 4%nat. cbn [Nat.iter nat_rect]. apply rpt_1, rct_ext.
  assert (e : forall C, rct L25 C E0 -> rct L25 (cp_DoubleProjective R25 (pp_SetCompleted R25 C)) E0).
  { intros C hC. rewrite <- (Eadd_0_r E0). apply cp_DoubleProjective_ok, rct_proj, hC. }
  do 4 apply e. rewrite <- (Eadd_0_r E0). apply cp_DoubleExtended_rf, h.
Qed.
Lemma step_is lut w i p : sm_step R25 lut w i p = ep_Add R25 (dbl5 p) (sm_select R25 lut (at_ w i)).
Proof. reflexivity. Qed.

(** what a Point has to do with three field elements: bounded limbs *)
Definition raw (P : ext fe25) (x y z t : F) : Prop :=
  rel L25 1 (eX P) x /\ rel L25 1 (eY P) y /\ rel L25 1 (eZ P) z /\ rel L25 1 (eT P) t.
Lemma add_zero p Q x y w t : rf L25 p E0 -> raw Q x y w t -> w <> F0 ->
  exists c t', c <> F0 /\ raw (ep_Add R25 p Q) (c * x)%F (c * y)%F (c * w)%F t'.
Proof.
  intros [(z & hz & h1 & h2 & h3 & h4) _] (g1 & g2 & g3 & g4) hw. fe_facts L25.
  assert (gf : fits L25 (eX Q) (eY Q)) by (eapply fits_small; eassumption).
  exists (of_Z 4 * (z * z) * w)%F, (of_Z 4 * (z * z) * x * y)%F. split.
  { apply Fmul_nz; [apply Fmul_nz; [intro e; apply (f_equal fval) in e; revert e; vm_compute; discriminate | apply Fmul_nz; exact hz] | exact hw]. }
  change (ex E0) with F0 in *. change (ey E0) with F1 in *.
  unfold ep_Add. unfold raw. cbv zeta beta delta [cp_AddExtended ep_SetCompleted]. cbn [cX cY cZ cT eX eY eZ eT].
  refine (conj _ (conj _ (conj _ _))); fe_rel; ring.
Qed.

(** RistrettoEqualsI only looks at (X : Y) *)
Lemma equals_raw P Q x y z t B : raw P x y z t -> rd L25 Q B ->
  ep_RistrettoEqualsI R25 P Q = Z.b2z (Feqb (x * ey B)%F (ex B * y)%F || Feqb (x * ex B)%F (y * ey B)%F).
Proof.
  intros (h1 & h2 & _ & _) hQ. apply rd_rpt in hQ. destruct hQ as (w & hw & g1 & g2 & g3 & g4). fe_facts L25.
  unfold ep_RistrettoEqualsI. cbv zeta.
  rewrite (fe_EqualsI_ok L25 1 1 _ _ (x * (ey B * w))%F ((ex B * w) * y)%F) by (try lia; eapply fe_mul_r; eauto; lia).
  rewrite (fe_EqualsI_ok L25 1 1 _ _ (x * (ex B * w))%F (y * (ey B * w))%F) by (try lia; eapply fe_mul_r; eauto; lia).
  rewrite !i32_1_sub_b2z, land_b2z, i32_1_sub_b2z, negb_andb, !negb_involutive.
  assert (C : forall a b, Feqb (w * a)%F (w * b)%F = Feqb a b).
  { intros a b. apply eq_true_iff_eq. rewrite !Feqb_eq. split; [apply Fmul_cancel_l, hw | congruence]. }
  replace (x * (ey B * w))%F with (w * (x * ey B))%F by ring. replace (ex B * w * y)%F with (w * (ex B * y))%F by ring.
  replace (x * (ex B * w))%F with (w * (x * ex B))%F by ring. replace (y * (ey B * w))%F with (w * (y * ey B))%F by ring.
  rewrite !C. reflexivity.
Qed.
Lemma curve_nz (B : E) : ex B <> F0 \/ ey B <> F0.
Proof.
  pose proof (proj1 (on_curveb_ok _ _) (eok B)) as hB. destruct (Feqb (ex B) F0) eqn:e; [|left; intro e1; rewrite (proj2 (Feqb_eq _ _) e1) in e; discriminate e].
  apply Feqb_eq in e. right. intro e2. unfold on_curve in hB. rewrite e, e2 in hB.
  apply F1_neq_0. transitivity (F1 + Fd * (F0 * F0) * (F0 * F0))%F; [ring|]. rewrite <- hB. ring.
Qed.
Lemma class_proj (A B : E) x y : Req A B -> (x * ey B = ex B * y \/ x * ex B = y * ey B)%F -> (x * ey A = ex A * y \/ x * ex A = y * ey A)%F.
Proof.
  rewrite Req_coords. set (a := ex A). set (b := ey A). set (c := ex B). set (d := ey B). intros hR hx.
  assert (hn : c <> F0 \/ d <> F0) by apply curve_nz. clearbody a b c d.
  destruct hR as [e|e], hx as [h|h]; [left | right | right | left]; destruct hn as [hn|hn]; apply (Fmul_cancel_l _ _ _ hn).
  - transitivity (x * (c * b))%F; [ring|]. rewrite <- e. transitivity (a * (x * d))%F; [ring|]. rewrite h. ring.
  - transitivity (b * (x * d))%F; [ring|]. rewrite h. transitivity (y * (c * b))%F; [ring|]. rewrite <- e. ring.
  - transitivity (a * (x * c))%F; [ring|]. rewrite h. transitivity (y * (a * d))%F; [ring|]. rewrite e. ring.
  - transitivity (x * (a * d))%F; [ring|]. rewrite e. transitivity (b * (x * c))%F; [ring|]. rewrite h. ring.
  - transitivity (x * (a * c))%F; [ring|]. rewrite e. transitivity (b * (x * d))%F; [ring|]. rewrite h. ring.
  - transitivity (a * (x * d))%F; [ring|]. rewrite h. transitivity (y * (a * c))%F; [ring|]. rewrite e. ring.
  - transitivity (b * (x * c))%F; [ring|]. rewrite h. transitivity (y * (b * d))%F; [ring|]. rewrite <- e. ring.
  - transitivity (x * (b * d))%F; [ring|]. rewrite <- e. transitivity (a * (x * c))%F; [ring|]. rewrite h. ring.
Qed.

Lemma equals_scaled P P' Q R x y z t z' t' c A B : raw P x y z t -> raw P' (c * x)%F (c * y)%F z' t' -> c <> F0 ->
  rd L25 Q A -> rd L25 R B -> Req A B -> pt_Equals R25 P Q = false -> pt_Equals R25 P' R = false.
Proof.
  intros h h' hc hQ hR hAB. unfold pt_Equals, pt_EqualsI. rewrite (equals_raw P Q x y z t A h hQ), (equals_raw P' R _ _ z' t' B h' hR).
  intro e. match goal with |- (Z.b2z ?b =? 1) = false => destruct b eqn:Eb; [|reflexivity] end. exfalso.
  apply orb_true_iff in Eb. rewrite !Feqb_eq in Eb.
  assert (hx : (x * ey B = ex B * y \/ x * ex B = y * ey B)%F).
  { destruct Eb as [Eb|Eb]; [left | right]; apply (Fmul_cancel_l c _ _ hc).
    - transitivity (c * x * ey B)%F; [ring|]. rewrite Eb. ring.
    - transitivity (c * x * ex B)%F; [ring|]. rewrite Eb. ring. }
  apply (class_proj A B x y hAB) in hx. rewrite <- !Feqb_eq, <- orb_true_iff in hx. rewrite hx in e. discriminate e.
Qed.

(** ** 3 D for the decoded point D of [bad_decode] *)
Definition three : sc := Sc 3 0 0 0 0 0 0 0.
Lemma three_red : reduced three /\ scv three = 3.
Proof.
  assert (e : scv three = 3) by reflexivity. split; [|exact e]. split; [|rewrite e, l_lit; lia].
  unfold three. cbn. repeat split; lia.
Qed.
Definition bad_T : ext fe25 := mkExt
  (Fe25 27368712 16062622 6389147 1893732 (-24445800) (-6705074) (-12564006) 14932851 (-16738837) (-11882211))
  (Fe25 12276012 10820903 20511877 15811898 (-10343466) 12008962 (-20311269) (-475310) (-138159) 473233)
  (Fe25 (-6121396) 7149452 (-28298626) (-1462683) 30349952 (-7095821) (-31215532) 8227125 (-24861662) 2936509)
  (Fe25 2808531 13595234 6922486 7746680 4903357 (-2357708) 18229178 (-12304347) 17070717 (-12726484)).
Lemma bad_sum : ep_Add R25 (ep_Double R25 bad_D) bad_D = bad_T.
Proof. vm_cast_no_check (eq_refl bad_T). Qed.
Lemma bad_neq : pt_Equals R25 bad_T (pt_Add R25 bad_D (pt_Double R25 bad_D)) = false.
Proof. vm_cast_no_check (eq_refl false). Qed.
Lemma bad_raw : raw bad_T (of_Z (v25 (eX bad_T))) (of_Z (v25 (eY bad_T))) (of_Z (v25 (eZ bad_T))) (of_Z (v25 (eT bad_T))).
Proof.
  unfold raw. cbn [L25 rel]. refine (conj _ (conj _ (conj _ _))); (split; [unfold bad_T; cbn [eX eY eZ eT]; unfold bnd25, UE, UO; pack25; lia | reflexivity]).
Qed.
Lemma bad_z : of_Z (v25 (eZ bad_T)) <> F0.
Proof. intro e. apply (f_equal fval) in e. revert e. vm_compute. discriminate. Qed.

Lemma window_three : computeScalarWindow5 (sc_bytes three) = 3 :: repeat 0 50.
Proof. vm_compute. reflexivity. Qed.

Lemma mult_three D : exists p0, rf L25 p0 E0 /\
  pt_ScalarMult R25 D three = ep_Add R25 p0 (ep_Add R25 (ep_Double R25 D) D).
Proof.
  unfold pt_ScalarMult, ep_ScalarMult. cbv zeta. rewrite window_three. set (w := 3 :: repeat 0 50).
  assert (INV : forall k, (k <= 50)%nat -> rf L25 (for_up k (fun k p => sm_step R25 (sm_lut R25 D) w (50 - k) p) (ep_SetZero R25)) E0).
  { induction k as [|k IH]; intro hk; [cbn [for_up]; apply rpt_1, ep_Zero_ok|]. cbn [for_up]. rewrite step_is.
    assert (e : at_ w (50 - k) = 0).
    { unfold w. destruct (50 - k)%nat as [|m] eqn:Em; [lia|]. unfold at_. cbn [nth]. apply nth_repeat. }
    rewrite e, sel_nonneg by lia. change (Z.to_nat 0) with 0%nat. rewrite lut_0. rewrite <- (Eadd_0_r E0).
    apply rpt_1, ep_Add_rf; [apply dbl5_zero, IH; lia | apply rpt_1, ep_Zero_ok]. }
  eexists. split; [apply dbl5_zero; exact (INV 50%nat (le_n 50))|].
  change 51%nat with (S 50). remember 50%nat as n eqn:En. cbn [for_up]. rewrite step_is. rewrite Nat.sub_diag.
  change (at_ w 0) with 3. rewrite sel_nonneg by lia. change (Z.to_nat 3) with 3%nat. rewrite lut_3. reflexivity.
Qed.

Lemma bad_mult B R A : rd L25 bad_D A -> rd L25 R B -> Req (Eadd A (Eadd A A)) B ->
  pt_Equals R25 (pt_ScalarMult R25 bad_D three) R = false.
Proof.
  intros hA hR hB. destruct (mult_three bad_D) as (p0 & h0 & e). rewrite e, bad_sum. clear e.
  destruct (add_zero p0 bad_T _ _ _ _ h0 bad_raw bad_z) as (c & t' & hc & hr).
  refine (equals_scaled _ _ _ R _ _ _ _ _ _ c (Eadd A (Eadd A A)) B bad_raw hr hc _ hR hB bad_neq).
  apply rf_rd, rpt_1. apply ep_Add_ok; [exact hA|]. apply rpt_1, ep_Double_ok. exact hA.
Qed.

Lemma g_dh c : exists s t P, reduced s /\ reduced t /\ pt_SetBytes (ops Generic) (public c t) = (true, P) /\
  pt_Equals (ops Generic) (pt_ScalarMult (ops Generic) P s) (pt_ScalarMultBase (ops Generic) (baseTable Generic) (sc_mul s t)) = false /\
  pt_Equals (ops Generic) (pt_ScalarMult (ops Generic) P s) (pt_Add (ops Generic) P (pt_Double (ops Generic) P)) = false.
Proof.
  pose proof bad_decode as e0. change R25 with (ops Generic) in e0.
  assert (hb : bytes 32 (le_bytes 32 152)) by (split; [apply le_bytes_length | apply le_bytes_bytes]).
  destruct (j_onto Generic c _ hb) as (t & ht & et & _); [rewrite e0; reflexivity|]. rewrite <- et in e0.
  destruct three_red as [hs es]. exists three, t, bad_D. refine (conj hs (conj ht (conj e0 _))).
  destruct (decoded c Generic t bad_D ht e0) as (A & hA & hR). pose proof (proj1 (proj1 (pt_dpoint Generic _ _) hA)) as hA'. cbn [laws] in hA'.
  change (ops Generic) with R25. destruct (mul_spec three t (proj1 hs) (proj1 ht)) as [hm em].
  assert (hX : forall X B, point Generic X B -> Req (Eadd A (Eadd A A)) B -> pt_Equals R25 (pt_ScalarMult R25 bad_D three) X = false).
  { intros X B hX hE. exact (bad_mult B X A hA' (proj1 (proj1 (pt_dpoint Generic _ _) hX)) hE). }
  split.
  - apply (hX _ _ (mult_point Generic _ hm)). rewrite em, es.
    replace (Eadd A (Eadd A A)) with (Emul 3 A) by (replace 3 with (1 + (1 + 1)) by reflexivity; rewrite !Emul_add, !Emul_1; reflexivity).
    apply (Req_trans _ (Emul (3 * scv t) EBc)); [rewrite Emul_mul; apply Req_mul; exact hR | apply Req_sym, R_mul_mod, even_EBc].
  - refine (hX _ _ (proj1 (proj1 (b_add Generic _ _ _ _ hA (b_double Generic _ _ hA)))) (Req_refl _)).
Qed.
Lemma bij_ex : bytes 32 (le_bytes 32 152) /\ fst (pt_SetBytes (ops Generic) (le_bytes 32 152)) = true /\
  reduced three /\ scv three = 3 /\ point Generic (pt_SetBase (ops Generic)) (Eadd EB T4') /\
  summand Generic (pt_SetBase (ops Generic)) (Eadd EB T4').
Proof.
  refine (conj (le_bytes_bytes 32 152) (conj _ (conj (proj1 three_red) (conj (proj2 three_red) _)))).
  - pose proof bad_decode as e0. change R25 with (ops Generic) in e0. rewrite e0. reflexivity.
  - destruct (b_const Generic) as [_ h]. exact (conj (proj1 h) h).
Qed.
