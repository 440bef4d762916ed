(** Elligator (/repo/edwards25519/elligator.go) over any lawful field backend *)
From Coq Require Import ZArith List Lia Bool Ring Field.
From Verif Require Import Words FieldModel CurveModel BitFold Primes Fp Edwards GroupOrder RistrettoSpec FieldLaws CurveProofs EncodeProofs
  ElligatorSpec ElligatorMath.
Import ListNotations.
Open Scope Z_scope.

(** an absolute value *)
Ltac as_ L x :=
  lazymatch goal with
  | |- ?P (let x := ?e in @?body x) =>
    let g := fresh "g_" x in let E := fresh "e_" x in let h := fresh "h_" x in
    refine (step_fe L P body e 2 _ _ _); [eapply fe_Abs_self_ok; [fe_go | lia | lia] | intros x g E h; cbv beta]
  end.

Section Elligator.
Context {K : FeOps} (L : FeLaws K).
Local Notation FE := (fe K).

Lemma cp_SetJacobiQuartic_ok q s t A : rel L 2 (jS q) s -> rel L (1 + cN L) (jT q) t -> below s t A ->
  rct L (cp_SetJacobiQuartic K q) A.
Proof.
  intros hS hT (hJ & hx & hy). fe_facts L. pose proof (J_t_nz s t hJ). pose proof (J_den_nz s t hJ).
  unfold cp_SetJacobiQuartic. cbv zeta. exists t, (F1 + s * s)%F. cbn [cX cY cZ cT].
  refine (conj _ (conj _ (conj _ (conj _ (conj _ _))))); try assumption.
  - fe_rel. rewrite hx. ring.
  - fe_rel. rewrite hy. reflexivity.
  - fe_rel. reflexivity.
  - fe_rel. reflexivity.
Qed.

Lemma cp_SetRistrettoElligator2_ok r0 f A : rel L 1 r0 f -> rfc_map f A -> rct L (cp_SetRistrettoElligator2 K r0) A.
Proof.
  intros hf hA. fe_facts L. pose proof (ell_value f) as HV. cbv zeta in HV.
  destruct (rfc_ell f A hA) as (s & t & he & hB).
  fe_open (@cp_SetRistrettoElligator2) (cp_SetRistrettoElligator2 K r0).
  fs L r0i. fs L r. fs L rPlusD. fs L Da. fs L Db. fs L Dc. fs L Dd. fs L rPlusOne. fs L Nn. fs L ND.
  destruct (fe_InvSqrtI_ok L _ ND g_ND h_ND ltac:(lia)) as (sq & e & h_sq). rewrite e. clear e. cbv beta iota.
  set (b := isri_flag g_ND) in *.
  as_ L sq1. fs L tw0. cs L tw (negb b) ltac:(apply i32_1_sub_b2z). fs L sgn0. cs L sgn (negb b) ltac:(apply i32_1_sub_b2z).
  fs L sq2. fs L S0. fs L Ta. fs L Tb. fs L Tc. fs L Td. fs L rSubOne. fs L Te. fs L T. fs L sNeg. ns L S1.
  cs L S2 (Bool.eqb (Fneg g_S0) b) ltac:(rewrite equal30_ok by (destruct (Fneg g_S0), b; cbn; lia); destruct (Fneg g_S0), b; reflexivity).
  subst PP. cbv beta.
  assert (Er : g_r = ell_r f) by (rewrite e_r, e_r0i; unfold ell_r; ring).
  assert (En : g_Nn = ell_N (ell_r f)) by (rewrite e_Nn, e_rPlusOne, Er; unfold ell_N; ring).
  assert (Ed : g_Dd = ell_D (ell_r f)) by (rewrite e_Dd, e_Dc, e_Db, e_Da, e_rPlusD, Er; unfold ell_D; ring).
  assert (Eb : b = isri_flag (ell_N (ell_r f) * ell_D (ell_r f))%F) by (unfold b; rewrite e_ND, En, Ed; reflexivity).
  assert (Ew : g_sq2 = (Fabs (isri_val (ell_N (ell_r f) * ell_D (ell_r f))) * (if b then F1 else f * Fi))%F).
  { rewrite e_sq2, e_sq1, e_tw, e_tw0, e_r0i, e_ND, En, Ed. destruct b; reflexivity. }
  rewrite <- Eb, <- Ew, <- En, <- e_S0 in HV.
  assert (Es : g_S2 = (if Bool.eqb (Fneg g_S0) b then - g_S0 else g_S0)%F).
  { rewrite e_S2, e_sNeg. reflexivity. }
  assert (Et : g_T = ((ell_r f - F1) * ((Fd - F1) * (Fd - F1) * (g_S0 * (g_sq2 * - (if b then F1 else - F1)))) - F1)%F).
  { rewrite e_T, e_Te, e_rSubOne, e_Td, e_Tc, e_Tb, e_Ta, e_sgn, e_sgn0, Er. destruct b; reflexivity. }
  rewrite <- Es, <- Et in HV. destruct (ell_unique f s t _ _ he HV) as [E1 E2].
  apply (cp_SetJacobiQuartic_ok _ s t A); [| | exact hB].
  - cbn [jS]. eapply rel_eq; [exact h_S2 | lia | exact E1].
  - cbn [jT]. eapply rel_eq; [exact h_T | lia | exact E2].
Qed.

Lemma jc_elligator2Inverse_ok q s t : rel L 2 (jS q) s -> rel L (cN L) (jT q) t ->
  exists out q', jc_elligator2Inverse K q = (Z.b2z (inv_ret s t), out, q') /\ rel L 2 out (inv_out s t) /\
  rel L 2 (jS q') s /\ rel L (cN L) (jT q') t.
Proof.
  intros hS hT. fe_facts L.
  fe_open (@jc_elligator2Inverse) (jc_elligator2Inverse K q).
  zs L S1.
  bs tOne (Feqb t F1) ltac:(apply (fe_EqualsI_ok L (cN L) 1); [exact hT | apply law_one | lia | lia | lia]).
  fs L out0. cs L out1 (Feqb t F1) ltac:(exact e_tOne).
  bs ret0 (Feqb s F0) ltac:(rewrite i32_1_sub_b2z, negb_involutive; reflexivity).
  bs done0 (Feqb s F0) ltac:(rewrite i32_1_sub_b2z, negb_involutive; reflexivity).
  fs L a0. fs L a. fs L a2. fs L S2. fs L S4. fs L arg.
  destruct (fe_InvSqrtI_ok L _ arg g_arg h_arg ltac:(lia)) as (y & e & h_y). rewrite e. clear e. cbv beta iota.
  set (fl := isri_flag g_arg) in *.
  bs ret1 (Feqb s F0 || negb fl)%bool ltac:(rewrite e_ret0, i32_1_sub_b2z; apply lor_b2z).
  bs done1 (Feqb s F0 || fl)%bool ltac:(rewrite e_done0; apply lor_b2z).
  fs L nS2. ns L S3.
  cs L S2' (Fneg s) ltac:(reflexivity).
  fs L x0. fs L x1. as_ L x.
  cs L out (negb (Feqb s F0 || fl))%bool ltac:(rewrite e_done1; apply i32_1_sub_b2z).
  subst PP. cbv beta. cbv beta iota.
  assert (Ea : g_a = inv_a t) by (rewrite e_a, e_a0; reflexivity).
  assert (Eg : g_arg = inv_arg s t) by (rewrite e_arg, e_S4, e_S2, e_a2, Ea; reflexivity).
  exists out, (mkJac S3 (jT q)). cbn [jS jT]. refine (conj _ (conj _ (conj _ _))).
  - rewrite e_ret1. unfold inv_ret, fl. rewrite Eg. reflexivity.
  - eapply rel_eq; [exact h_out | lia|]. rewrite e_out. unfold inv_out. fold fl. 
    assert (fl = isri_flag (inv_arg s t)) as <- by (unfold fl; rewrite Eg; reflexivity).
    rewrite e_x, e_x1, e_x0, e_S2', e_nS2, e_S2, Ea, e_out1, e_out0.
    destruct (Feqb s F0 || fl)%bool; cbn [negb]; [reflexivity | rewrite <- Eg; reflexivity].
  - eapply rel_eq; [exact h_S3 | lia | reflexivity].
  - exact hT.
Qed.

Definition rjac (q : jacobi FE) (st : F * F) : Prop := rel L 2 (jS q) (fst st) /\ rel L (cN L) (jT q) (snd st).

Lemma ep_ToJacobiQuarticRistretto_ok P A : rd L P A ->
  exists z js P', z <> F0 /\ ep_ToJacobiQuarticRistretto K P = (js, P') /\ Forall2 rjac js (jq A z) /\ rd L P' A.
Proof.
  intros (z & hz & h1 & h2 & h3 & h4). fe_facts L. exists z.
  fe_open (@ep_ToJacobiQuarticRistretto) (ep_ToJacobiQuarticRistretto K P).
  fs L X2. fs L Y2. fs L Y4. fs L Z2. fs L ZmY. fs L ZpY. fs L Z2mY2. fs L ga. fs L gb. fs L g.
  fs L den. fs L sOX. fs L spOX. fs L q0S. fs L tmp1. fs L q1S. fs L tmp2. fs L q0T. fs L q1T.
  fs L den1. fs L den2. fs L den3. fs L iZ. fs L iZmX. fs L iZpX. fs L sOY. fs L spOY. fs L q2S. fs L tmp3. fs L q3S.
  fs L tmp4. fs L q2T. fs L q3T. zs L X'. zs L Y'.
  bs xy (jq_z A z) ltac:(rewrite land_b2z, i32_1_sub_b2z, negb_andb, !negb_involutive; reflexivity).
  cs L q0T' (jq_z A z) ltac:(exact e_xy). cs L q1T' (jq_z A z) ltac:(exact e_xy).
  cs L q2T' (jq_z A z) ltac:(exact e_xy). cs L q3T' (jq_z A z) ltac:(exact e_xy).
  cs L q2S' (jq_z A z) ltac:(exact e_xy). cs L q3S' (jq_z A z) ltac:(exact e_xy).
  subst PP. cbv beta.
  eexists. eexists. refine (conj hz (conj eq_refl (conj _ _))).
  - assert (G : g_g = jq_gamma A z) by (rewrite e_g, e_gb, e_ga, e_Y4, e_Y2, e_X2, e_Z2mY2, e_Z2, e_Y2; reflexivity).
    assert (G1 : g_den = jq_den A z) by (rewrite e_den, G, e_Y2; reflexivity).
    assert (G2 : g_den3 = jq_den2 A z) by (rewrite e_den3, e_den2, e_den1, G, e_Z2mY2, e_Z2, e_Y2; reflexivity).
    unfold jq, rjac. repeat apply Forall2_cons; cbn [fst snd jS jT]; try (apply Forall2_nil); split.
    + eapply rel_eq; [exact h_q0S | lia|]. rewrite e_q0S, e_sOX, G1, e_ZmY. reflexivity.
    + eapply rel_eq; [exact h_q0T' | lia|]. rewrite e_q0T', e_q0T, e_tmp2, e_sOX, G1, e_ZmY. reflexivity.
    + eapply rel_eq; [exact h_q1S | lia|]. rewrite e_q1S, e_tmp1, e_spOX, G1, e_ZpY. reflexivity.
    + eapply rel_eq; [exact h_q1T' | lia|]. rewrite e_q1T', e_q1T, e_tmp2, e_spOX, G1, e_ZpY. reflexivity.
    + eapply rel_eq; [exact h_q2S' | lia|]. rewrite e_q2S', e_q2S, e_sOY, G2, e_iZmX, e_iZ. reflexivity.
    + eapply rel_eq; [exact h_q2T' | lia|]. rewrite e_q2T', e_q2T, e_tmp4, e_sOY, G2, e_iZmX, e_iZ. reflexivity.
    + eapply rel_eq; [exact h_q3S' | lia|]. rewrite e_q3S', e_q3S, e_tmp3, e_spOY, G2, e_iZpX, e_iZ. reflexivity.
    + eapply rel_eq; [exact h_q3T' | lia|]. rewrite e_q3T', e_q3T, e_tmp4, e_spOY, G2, e_iZpX, e_iZ. reflexivity.
  - exists z. cbn [eX eY eZ eT]. refine (conj hz (conj _ (conj _ (conj _ _)))); eapply rel_eq; try eassumption; try lia; reflexivity.
Qed.

Lemma jc_Dual_ok q st : rjac q st -> rjac (jc_Dual K q) (Fopp (fst st), Fopp (snd st)).
Proof.
  intros [h1 h2]. fe_facts L. unfold rjac, jc_Dual. cbn [jS jT fst snd]. split; eapply rel_eq; try (eapply law_neg; [eassumption | lia]); try lia; reflexivity.
Qed.

Lemma ell_inv_step_ok jcs j q st mask fes : nth_error jcs j = Some q -> rjac q st ->
  exists f1 f2, ell_inv_step K jcs j (mask, fes) =
    (Z.lor (Z.lor mask (u8 (Z.shiftl (Z.b2z (inv_ret (fst st) (snd st))) (Z.of_nat (2 * j)))))
           (u8 (Z.shiftl (Z.b2z (inv_ret (- fst st)%F (- snd st)%F)) (Z.of_nat (2 * j + 1)))), fes ++ [f1; f2]) /\
    rel L 2 f1 (inv_out (fst st) (snd st)) /\ rel L 2 f2 (inv_out (- fst st)%F (- snd st)%F).
Proof.
  intros hq hr. unfold ell_inv_step. rewrite (nth_error_nth jcs j _ hq).
  destruct (jc_elligator2Inverse_ok q _ _ (proj1 hr) (proj2 hr)) as (o1 & q1 & e1 & r1 & s1 & t1). rewrite e1.
  pose proof (jc_Dual_ok q1 st (conj s1 t1)) as [s2 t2]. cbn [fst snd] in s2, t2.
  destruct (jc_elligator2Inverse_ok _ _ _ s2 t2) as (o2 & q2 & e2 & r2 & _). cbv zeta. rewrite e2.
  exists o1, o2. rewrite <- app_assoc. cbn [app]. auto.
Qed.

Definition mask_bit (mask : Z) (j : nat) : Z := Z.land (Z.shiftr mask (Z.of_nat j)) 1.

Lemma mask_bits (b0 b1 b2 b3 b4 b5 b6 b7 : bool) :
  let sh b k := u8 (Z.shiftl (Z.b2z b) (Z.of_nat k)) in
  let m := Z.lor (Z.lor (Z.lor (Z.lor (Z.lor (Z.lor (Z.lor (Z.lor 0 (sh b0 0%nat)) (sh b1 1%nat)) (sh b2 2%nat)) (sh b3 3%nat)) (sh b4 4%nat)) (sh b5 5%nat)) (sh b6 6%nat)) (sh b7 7%nat) in
  map (mask_bit m) (seq 0 8) = map Z.b2z [b0; b1; b2; b3; b4; b5; b6; b7].
Proof. destruct b0, b1, b2, b3, b4, b5, b6, b7; vm_compute; reflexivity. Qed.

Definition inv_fst (q : F * F) : bool := inv_ret (fst q) (snd q).
Definition inv_snd (q : F * F) : F := inv_out (fst q) (snd q).

Theorem ep_RistrettoElligator2Inverse_ok P A : rd L P A ->
  exists z mask fes P', z <> F0 /\ ep_RistrettoElligator2Inverse K P = (mask, fes, P') /\
  map (mask_bit mask) (seq 0 8) = map Z.b2z (map inv_fst (jq8 A z)) /\
  Forall2 (fun x f => rel L 2 x f) fes (map inv_snd (jq8 A z)) /\ rd L P' A.
Proof.
  intro hP. destruct (ep_ToJacobiQuarticRistretto_ok P A hP) as (z & js & P' & hz & e & hj & hP'). exists z.
  unfold ep_RistrettoElligator2Inverse. rewrite e. clear e.
  unfold jq8. unfold jq in hj |- *.
  match type of hj with Forall2 _ _ [?a; ?b; ?c; ?d] => set (c0 := a) in *; set (c1 := b) in *; set (c2 := c) in *; set (c3 := d) in * end.
  clearbody c0 c1 c2 c3.
  inversion hj as [|j0 ? ? ? r0 hj0]; subst. inversion hj0 as [|j1 ? ? ? r1 hj1]; subst. inversion hj1 as [|j2 ? ? ? r2 hj2]; subst.
  inversion hj2 as [|j3 ? ? ? r3 hj3]; subst. inversion hj3; subst. clear hj hj0 hj1 hj2 hj3.
  set (jcs := [j0; j1; j2; j3]).
  destruct (ell_inv_step_ok jcs 0 j0 c0 0 [] eq_refl r0) as (f0 & f1 & e0 & h0 & h1).
  match type of e0 with _ = (?m, ?f) => destruct (ell_inv_step_ok jcs 1 j1 c1 m f eq_refl r1) as (f2 & f3 & e1 & h2 & h3) end.
  match type of e1 with _ = (?m, ?f) => destruct (ell_inv_step_ok jcs 2 j2 c2 m f eq_refl r2) as (f4 & f5 & e2 & h4 & h5) end.
  match type of e2 with _ = (?m, ?f) => destruct (ell_inv_step_ok jcs 3 j3 c3 m f eq_refl r3) as (f6 & f7 & e3 & h6 & h7) end.
  rewrite <- e2, <- e1, <- e0 in e3.
  match goal with |- context [for_up 4 ?f ?x] => assert (EE : for_up 4 f x = f 3%nat (f 2%nat (f 1%nat (f 0%nat x)))) by reflexivity end.
  rewrite EE, e3. clear EE e3 e2 e1 e0. eexists. eexists. exists P'. refine (conj hz (conj eq_refl (conj _ (conj _ hP')))).
  - cbn [flat_map app map]. exact (mask_bits _ _ _ _ _ _ _ _).
  - cbn [flat_map app map]. unfold inv_snd. cbn [fst snd]. repeat (apply Forall2_cons; [assumption|]). apply Forall2_nil.
Qed.
End Elligator.
