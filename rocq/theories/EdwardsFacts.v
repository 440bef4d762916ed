(** Package edwards25519 on arbitrary curve points and 32-byte scalars, in every build. *)
From Coq Require Import ZArith Znumtheory List Lia Bool.
From Verif Require Import Words Primes Fp Edwards GroupOrder RistrettoSpec FieldModel CurveModel FieldLaws CurveProofs EncodeProofs
  WindowProofs ScalarMultProofs AllScalars Backends.
Import ListNotations.
Open Scope Z_scope.

(** [operand b P A]: the ExtendedPoint [P] represents the curve point [A], which need not be the double of another,
    and may be the second operand of an addition. *)
Definition operand (b : build) (P : ext (fe (ops b))) (A : E) : Prop := represents b P A /\ addable b P.
(** 32 rows of 8 Niels points, for the multiples [(j + 1) * 256^i] of [A] *)
Definition etable (b : build) (t : list (list (niels (fe (ops b))))) (A : E) : Prop :=
  length t = 32%nat /\ forall i, (i < 32)%nat -> length (nth i t []) = 8%nat /\
  forall j, (j < 8)%nat -> niels_of b (nth j (nth i t []) (np_zerovalue (ops b))) (Emul ((Z.of_nat j + 1) * 256 ^ Z.of_nat i) A).

Lemma op_rf b P A : operand b P A <-> rf (laws b) P A.
Proof. unfold operand, rf. rewrite rep_rd, addable_iff. reflexivity. Qed.
Lemma et_ok b t A : etable b t A <-> tbl_ok (laws b) (cN (laws b)) t A.
Proof.
  unfold etable, tbl_ok, tbl_at, niels_of, rnp. rewrite cN_b. split.
  - intros (hl & h). refine (conj hl _). intros i hi. destruct (h i hi) as [h1 h2]. refine (conj h1 _).
    intros j hj. destruct (h2 j hj) as ((b1 & b2 & b3) & e1 & e2 & e3). rewrite !rel_iff.
    exact (conj (conj b1 e1) (conj (conj b2 e2) (conj b3 e3))).
  - intros (hl & h). refine (conj hl _). intros i hi. destruct (h i hi) as [h1 h2]. refine (conj h1 _).
    intros j hj. destruct (h2 j hj) as (g1 & g2 & g3). rewrite rel_iff in g1, g2, g3.
    destruct g1 as [b1 e1], g2 as [b2 e2], g3 as [b3 e3]. exact (conj (conj b1 (conj b2 b3)) (conj e1 (conj e2 e3))).
Qed.

Lemma e_add b P Q A B : represents b P A -> operand b Q B ->
  operand b (ep_Add (ops b) P Q) (Eadd A B) /\ operand b (ep_Sub (ops b) P Q) (Eadd A (Eopp B)).
Proof.
  intros h g. apply rep_rd in h. apply op_rf in g. split; apply op_rf.
  - exact (rpt_1 _ _ _ (ep_Add_ok (laws b) P Q A B h g)).
  - exact (rpt_1 _ _ _ (ep_Sub_ok (laws b) P Q A B h g)).
Qed.
Lemma e_double b P A : represents b P A -> operand b (ep_Double (ops b) P) (Eadd A A).
Proof. intro h. apply rep_rd in h. apply op_rf. exact (rpt_1 _ _ _ (ep_Double_ok (laws b) P A h)). Qed.
Lemma e_neg b P A : operand b P A -> operand b (ep_Neg (ops b) P) (Eopp A).
Proof. intro h. apply op_rf in h. apply op_rf. exact (ep_Neg_rf (laws b) P A h). Qed.
Lemma e_zero b : operand b (ep_SetZero (ops b)) E0.
Proof. apply op_rf. exact (rpt_1 _ _ _ (ep_Zero_ok (laws b))). Qed.
Lemma e_table b P A : operand b P A -> etable b (tbl_Compute (ops b) P) A.
Proof.
  intro h. apply op_rf in h. apply et_ok. pose proof (tbl_Compute_ok (laws b) P A h) as [h1 h2]. refine (conj h1 _).
  intros i hi. destruct (h2 i hi) as [h3 h4]. refine (conj h3 _). intros j hj.
  apply (rnp_le (laws b) 1); [apply (cN_le_cL (laws b))|exact (h4 j hj)].
Qed.

(** the largest scalars for which the digits suffice *)
Definition sm_max : Z := 2 ^ 254 + 15 * ((2 ^ 250 - 1) / 31).
Definition tbl_max : Z := 2 ^ 255 + 7 * ((2 ^ 252 - 1) / 15).

Lemma le256 s : bytes 32 s -> 0 <= le_val s < 2 ^ 256.
Proof. intros [hl hf]. pose proof (le_val_range _ hf) as h. rewrite hl in h. exact h. Qed.
Lemma sm_small v : 0 <= v <= sm_max -> sm_multiple v = v.
Proof.
  intro h. unfold sm_multiple. rewrite Z.mod_small.
  - fold sm_max. replace (v <=? sm_max) with true by (symmetry; apply Z.leb_le; lia). reflexivity.
  - split; [lia|]. apply Z.le_lt_trans with sm_max; [lia|]. vm_compute. reflexivity.
Qed.
Lemma tbl_small v : v <= tbl_max -> tbl_multiple v = v.
Proof.
  intro h. unfold tbl_multiple. fold tbl_max. replace (v <=? tbl_max) with true by (symmetry; apply Z.leb_le; lia). reflexivity.
Qed.

Lemma e_scalarMult b P A s : operand b P A -> bytes 32 s ->
  operand b (ep_ScalarMult (ops b) P s) (Emul (sm_multiple (le_val s)) A) /\
  (le_val s <= sm_max -> operand b (ep_ScalarMult (ops b) P s) (Emul (le_val s) A)).
Proof.
  intros h hs. apply op_rf in h. pose proof (ep_ScalarMult_all (laws b) P A s h hs) as g.
  pose proof (le256 s hs). split; [apply op_rf; exact g|]. intro hv. rewrite sm_small in g by lia. apply op_rf. exact g.
Qed.
Lemma e_tableMult b t A s : etable b t A -> bytes 32 s ->
  operand b (tbl_ScalarMult (ops b) t s) (Emul (tbl_multiple (le_val s)) A) /\
  (le_val s <= tbl_max -> operand b (tbl_ScalarMult (ops b) t s) (Emul (le_val s) A)).
Proof.
  intros h hs. apply et_ok in h. pose proof (tbl_ScalarMult_all (laws b) t A s h hs) as g.
  split; [apply op_rf; exact g|]. intro hv. rewrite tbl_small in g by lia. apply op_rf. exact g.
Qed.
Lemma e_tableVarTime b t A s : etable b t A -> bytes 32 s ->
  (le_val s <= tbl_max -> exists R, tbl_VarTimeScalarMult (ops b) t s = Some R /\ operand b R (Emul (le_val s) A)) /\
  (tbl_max < le_val s -> tbl_VarTimeScalarMult (ops b) t s = None).
Proof.
  intros h hs. apply et_ok in h. destruct (tbl_VarTimeScalarMult_all (laws b) t A s h hs) as [g1 g2]. split; intro hv.
  - destruct (g1 hv) as (R & e & hR). exists R. refine (conj e _). apply op_rf. exact hR.
  - exact (g2 hv).
Qed.
Lemma e_varTime b P A s : operand b P A -> bytes 32 s ->
  exists naf R, computeScalar5NAF s = Some naf /\ (dval 2 naf = le_val s \/ dval 2 naf = le_val s - 2 ^ 256) /\
    (le_val s < 2 ^ 255 -> dval 2 naf = le_val s) /\
    ep_VarTimeScalarMult (ops b) P s = Some R /\ operand b R (Emul (dval 2 naf) A).
Proof.
  intros h hs. apply op_rf in h. destruct (ep_VarTimeScalarMult_all (laws b) P A s h hs) as (naf & R & h1 & h2 & h3 & h4 & h5).
  exists naf, R. refine (conj h1 (conj h2 (conj h3 (conj h4 _)))). apply op_rf. exact h5.
Qed.

(** Scalars matter modulo [l] only, and no less: for an even point outside the kernel of ristretto. *)
Lemma Req_mul_iff A m n : even A -> ~ Req A E0 -> (Req (Emul m A) (Emul n A) <-> (l | m - n)).
Proof.
  intros hA hn. destruct (R_cyclic A hA) as (k & hk & hR).
  assert (hk0 : ~ (l | k)).
  { intro d. apply hn. apply (Req_trans _ _ _ hR). change E0 with (Emul 0 EB). apply R_order_B. rewrite Z.sub_0_r. exact d. }
  assert (hm : forall j, Req (Emul j A) (Emul (j * k) EB)) by (intro j; rewrite Emul_mul; apply Req_mul, hR).
  split; intro h.
  - assert (d : (l | m * k - n * k)).
    { apply R_order_B. apply (Req_trans _ _ _ (Req_sym _ _ (hm m))). exact (Req_trans _ _ _ h (hm n)). }
    replace (m * k - n * k) with (k * (m - n)) in d by ring.
    apply Gauss in d; [exact d|]. apply prime_rel_prime; [exact prime_l|exact hk0].
  - apply (Req_trans _ _ _ (hm m)). apply Req_sym. apply (Req_trans _ _ _ (hm n)). apply R_order_B.
    replace (n * k - m * k) with (- k * (m - n)) by ring. apply Z.divide_mul_r, h.
Qed.
Lemma l_ndiv c : 1 <= c <= 100 -> ~ (l | c * 2 ^ 250).
Proof.
  intros hc d. apply Z.mod_divide in d; [|pose proof l_gt; lia].
  assert (T : forallb (fun c => negb ((c * 2 ^ 250) mod l =? 0)) (map Z.of_nat (seq 1 100)) = true).
  { rewrite ScalarFacts.l_lit. vm_compute. reflexivity. }
  rewrite forallb_forall in T. specialize (T c). cbn beta in T. rewrite d in T. discriminate T.
  apply in_map_iff. exists (Z.to_nat c). split; [lia|]. apply in_seq. lia.
Qed.
Lemma sm_exact v : 0 <= v < 2 ^ 256 -> ((l | sm_multiple v - v) <-> v <= sm_max).
Proof.
  intro hv. split; intro h; [|rewrite sm_small, Z.sub_diag by lia; apply Z.divide_0_r].
  destruct (Z.le_gt_cases v sm_max) as [hs|hs]; [exact hs|exfalso].
  assert (hmax : sm_max < 2 ^ 255) by (vm_compute; reflexivity).
  apply Z.divide_opp_r in h. revert h.
  unfold sm_multiple. fold sm_max. set (r := (2 ^ 250 - 1) / 31). assert (hr : 31 * r + 1 = 2 ^ 250) by (vm_compute; reflexivity).
  assert (ho : 0 <= r) by lia. assert (hm : sm_max = 16 * 2 ^ 250 + 15 * r) by (vm_compute; reflexivity).
  change (2 ^ 256) with (64 * 2 ^ 250) in hv. change (2 ^ 255) with (32 * 2 ^ 250) in *.
  clearbody r. set (p := 2 ^ 250) in *. assert (hp : 0 < p) by (vm_compute; reflexivity). cbv zeta.
  pose proof (Z.div_mod v (32 * p) ltac:(lia)) as E. pose proof (Z.mod_pos_bound v (32 * p) ltac:(lia)) as hn.
  set (n := v mod (32 * p)) in *. set (t := v / (32 * p)) in *.
  assert (ht : 0 <= t <= 1) by (clearbody n t; nia). clearbody n t.
  destruct (n <=? sm_max) eqn:En.
  - apply Z.leb_le in En. assert (t = 1) as -> by (destruct (Z.eq_dec t 0) as [->|]; lia).
    replace (- (n - v)) with (32 * p) by lia. apply l_ndiv. lia.
  - apply Z.leb_gt in En. pose proof (Z.div_mod (n + 16 * r) p ltac:(lia)) as E2.
    pose proof (Z.mod_pos_bound (n + 16 * r) p ltac:(lia)) as hq. set (q := (n + 16 * r) / p) in *. set (m := (n + 16 * r) mod p) in *.
    clearbody q m. assert (17 <= q <= 33) by nia.
    replace (- (m - 16 * r - v)) with ((q + 32 * t) * p) by lia. apply l_ndiv. lia.
Qed.
Lemma tbl_exact v : 0 <= v < 2 ^ 256 -> ((l | tbl_multiple v - v) <-> v <= tbl_max).
Proof.
  intro hv. split; intro h; [|rewrite tbl_small, Z.sub_diag by lia; apply Z.divide_0_r].
  destruct (Z.le_gt_cases v tbl_max) as [hs|hs]; [exact hs|exfalso].
  apply Z.divide_opp_r in h. revert h.
  unfold tbl_multiple. fold tbl_max. set (r := (2 ^ 252 - 1) / 15). assert (hr : 15 * r + 1 = 4 * 2 ^ 250) by (vm_compute; reflexivity).
  assert (hm : tbl_max = 32 * 2 ^ 250 + 7 * r) by (vm_compute; reflexivity).
  change (2 ^ 256) with (64 * 2 ^ 250) in hv. change (2 ^ 252) with (4 * 2 ^ 250).
  clearbody r. set (p := 2 ^ 250) in *. assert (hp : 0 < p) by (vm_compute; reflexivity). cbv zeta.
  replace (v <=? tbl_max) with false by (symmetry; apply Z.leb_gt; lia).
  pose proof (Z.div_mod (v + 8 * r) (4 * p) ltac:(lia)) as E2.
  pose proof (Z.mod_pos_bound (v + 8 * r) (4 * p) ltac:(lia)) as hq. set (q := (v + 8 * r) / (4 * p)) in *. set (m := (v + 8 * r) mod (4 * p)) in *.
  clearbody q m. assert (9 <= q <= 17) by nia.
  replace (- (m - 8 * r - v)) with ((4 * q) * p) by lia. apply l_ndiv. lia.
Qed.

(** The element of the ristretto group is right exactly for scalars up to the bound. *)
Lemma e_scalarMult_iff A s : even A -> ~ Req A E0 -> bytes 32 s ->
  (Req (Emul (sm_multiple (le_val s)) A) (Emul (le_val s) A) <-> le_val s <= sm_max) /\
  (Req (Emul (tbl_multiple (le_val s)) A) (Emul (le_val s) A) <-> le_val s <= tbl_max).
Proof.
  intros hA hn hs. pose proof (le256 s hs) as hv. split.
  - rewrite (Req_mul_iff A _ _ hA hn). exact (sm_exact _ hv).
  - rewrite (Req_mul_iff A _ _ hA hn). exact (tbl_exact _ hv).
Qed.
Lemma e_varTime_iff A s naf : even A -> ~ Req A E0 -> bytes 32 s -> computeScalar5NAF s = Some naf ->
  (Req (Emul (dval 2 naf) A) (Emul (le_val s) A) <-> dval 2 naf = le_val s).
Proof.
  intros hA hn hs hc. rewrite (Req_mul_iff A _ _ hA hn). split; [|intros ->; rewrite Z.sub_diag; apply Z.divide_0_r].
  intro d. destruct (computeScalar5NAF_all s hs) as (naf' & c & e & _ & _ & h1 & _ & h2). rewrite hc in e.
  assert (naf = naf') as <- by congruence. assert (c = 0 \/ c = 1) as [->| ->] by lia; [lia|].
  exfalso. rewrite h2 in d. apply Z.divide_opp_r in d. replace (- (le_val s - 1 * 2 ^ 256 - le_val s)) with (64 * 2 ^ 250) in d by lia.
  revert d. apply l_ndiv. lia.
Qed.

(** ** The other representations of points *)
(** x = X/Z and y = Y/T *)
Definition completed (b : build) (P : compl (fe (ops b))) (A : E) : Prop :=
  let n := match b with PureGo64 => 7 | _ => 3 end in
  let f := fun x => of_Z (value b x) in
  (limbs b n (cX P) /\ limbs b n (cY P) /\ limbs b n (cZ P) /\ limbs b n (cT P)) /\
  f (cZ P) <> F0 /\ f (cT P) <> F0 /\ f (cX P) = (ex A * f (cZ P))%F /\ f (cY P) = (ey A * f (cT P))%F.
(** x = X/Z and y = Y/Z *)
Definition projective (b : build) (P : proj (fe (ops b))) (A : E) : Prop :=
  let n := match b with PureGo64 => 2 | _ => 1 end in
  let f := fun x => of_Z (value b x) in
  (limbs b n (jX P) /\ limbs b n (jY P) /\ limbs b n (jZ P)) /\
  f (jZ P) <> F0 /\ f (jX P) = (ex A * f (jZ P))%F /\ f (jY P) = (ey A * f (jZ P))%F.

Lemma cL_b b : cL (laws b) = match b with PureGo64 => 7 | _ => 3 end.
Proof. destruct b; reflexivity. Qed.
Lemma co_rct b P A : completed b P A <-> rct (laws b) P A.
Proof.
  unfold completed, rct. rewrite cL_b. cbv zeta. split.
  - intros ((b1 & b2 & b3 & b4) & hz & ht & h1 & h2). exists (of_Z (value b (cZ P))), (of_Z (value b (cT P))).
    rewrite !rel_iff. exact (conj hz (conj ht (conj (conj b1 h1) (conj (conj b2 h2) (conj (conj b3 eq_refl) (conj b4 eq_refl)))))).
  - intros (z & t & hz & ht & h1 & h2 & h3 & h4). rewrite rel_iff in h1, h2, h3, h4.
    destruct h1 as [b1 h1], h2 as [b2 h2], h3 as [b3 h3], h4 as [b4 h4]. rewrite <- h3 in h1, hz. rewrite <- h4 in h2, ht.
    exact (conj (conj b1 (conj b2 (conj b3 b4))) (conj hz (conj ht (conj h1 h2)))).
Qed.
Lemma pr_rpp b P A : projective b P A <-> rpp (laws b) P A.
Proof.
  unfold projective, rpp. rewrite cN_b. cbv zeta. split.
  - intros ((b1 & b2 & b3) & hz & h1 & h2). exists (of_Z (value b (jZ P))).
    rewrite !rel_iff. exact (conj hz (conj (conj b1 h1) (conj (conj b2 h2) (conj b3 eq_refl)))).
  - intros (z & hz & h1 & h2 & h3). rewrite rel_iff in h1, h2, h3.
    destruct h1 as [b1 h1], h2 as [b2 h2], h3 as [b3 h3]. rewrite <- h3 in h1, h2, hz.
    exact (conj (conj b1 (conj b2 b3)) (conj hz (conj h1 h2))).
Qed.
Lemma ni_rnp b N A : niels_of b N A <-> rnp (laws b) (cN (laws b)) N A.
Proof.
  unfold niels_of, rnp. rewrite cN_b. cbv zeta. split.
  - intros ((b1 & b2 & b3) & e1 & e2 & e3). rewrite !rel_iff. exact (conj (conj b1 e1) (conj (conj b2 e2) (conj b3 e3))).
  - intros (g1 & g2 & g3). rewrite rel_iff in g1, g2, g3.
    destruct g1 as [b1 e1], g2 as [b2 e2], g3 as [b3 e3]. exact (conj (conj b1 (conj b2 b3)) (conj e1 (conj e2 e3))).
Qed.

Lemma e_addExtended b P Q A B : represents b P A -> operand b Q B ->
  completed b (cp_AddExtended (ops b) P Q) (Eadd A B) /\ completed b (cp_SubExtended (ops b) P Q) (Eadd A (Eopp B)).
Proof.
  intros h g. apply rep_rd in h. apply op_rf in g. split; apply co_rct.
  - exact (cp_AddExtended_ok (laws b) P Q A B h g).
  - exact (cp_SubExtended_ok (laws b) P Q A B h g).
Qed.
Lemma e_addNiels b P N A B : represents b P A -> niels_of b N B ->
  completed b (cp_AddExtendedNiels (ops b) P N) (Eadd A B) /\ completed b (cp_SubExtendedNiels (ops b) P N) (Eadd A (Eopp B)).
Proof.
  intros h g. apply rep_rd in h. apply ni_rnp in g. split; apply co_rct.
  - exact (cp_AddExtendedNiels_ok (laws b) P N A B h g).
  - exact (cp_SubExtendedNiels_ok (laws b) P N A B h g).
Qed.
Lemma e_doubles b : (forall P A, represents b P A -> completed b (cp_DoubleExtended (ops b) P) (Eadd A A)) /\
  (forall P A, projective b P A -> completed b (cp_DoubleProjective (ops b) P) (Eadd A A)).
Proof.
  split; intros P A h; apply co_rct.
  - apply rep_rd in h. exact (cp_DoubleExtended_ok (laws b) P A h).
  - apply pr_rpp in h. exact (cp_DoubleProjective_ok (laws b) P A h).
Qed.
Lemma e_convert b : (forall C A, completed b C A -> operand b (ep_SetCompleted (ops b) C) A /\ projective b (pp_SetCompleted (ops b) C) A) /\
  (forall P A, represents b P A -> niels_of b (np_SetExtended (ops b) P) A).
Proof.
  split.
  - intros C A h. apply co_rct in h. split; [apply op_rf; exact (rpt_1 _ _ _ (rct_ext _ _ _ h))|].
    apply pr_rpp. exact (rct_proj (laws b) C A h).
  - intros P A h. apply rep_rd in h. apply ni_rnp. apply (rnp_le (laws b) 1); [apply (cN_le_cL (laws b))|].
    exact (np_SetExtended_ok (laws b) P A h).
Qed.
Lemma e_niels b : niels_of b (np_SetZero (ops b)) E0 /\ forall N A, niels_of b N A -> niels_of b (np_Neg (ops b) N) (Eopp A).
Proof.
  split.
  - apply ni_rnp. apply (rnp_le (laws b) 1); [apply (cN_le_cL (laws b))|exact (np_SetZero_ok (laws b))].
  - intros N A h. apply ni_rnp in h. apply ni_rnp. pose proof (np_Neg_ok (laws b) _ N A h (proj1 (cN_le_cL (laws b)))) as g.
    rewrite Z.max_id in g. exact g.
Qed.

(** Every curve point has extended coordinates. *)
Definition affine (b : build) (A : E) : ext (fe (ops b)) :=
  let f := fun x => o_setBytes (ops b) (le_bytes 32 (fval x)) in
  mkExt (f (ex A)) (f (ey A)) (k_one (ops b)) (f (Fmul (ex A) (ey A))).
Lemma e_affine b A : operand b (affine b A) A.
Proof.
  apply op_rf, rpt_1. exists F1. unfold affine. cbn [eX eY eZ eT].
  assert (H : forall x, rel (laws b) 1 (o_setBytes (ops b) (le_bytes 32 (fval x))) (Fmul x F1)).
  { intro x. pose proof (law_setBytes (ops b) (laws b) (le_bytes 32 (fval x)) (le_bytes_bytes 32 (fval x))) as h.
    rewrite RistrettoFacts.fval_le_bytes in h. replace (Fmul x F1) with x by ring. exact h. }
  exact (conj F1_neq_0 (conj (H _) (conj (H _) (conj (law_one (ops b) (laws b)) (H _))))).
Qed.

(** ** Examples *)
Definition s255 : list Z := le_bytes 32 (2 ^ 255 - 1).
Lemma e_scalarMult_refuted : exists s, bytes 32 s /\ forall b P A, operand b P A -> even A -> ~ Req A E0 ->
  exists B, operand b (ep_ScalarMult (ops b) P s) B /\ ~ Req B (Emul (le_val s) A).
Proof.
  exists s255. split; [apply le_bytes_bytes|]. intros b P A h he hn.
  eexists. split; [exact (proj1 (e_scalarMult b P A s255 h (le_bytes_bytes _ _)))|].
  rewrite (proj1 (e_scalarMult_iff A s255 he hn (le_bytes_bytes _ _))). apply Z.lt_nge. vm_compute. reflexivity.
Qed.
Definition s17 : list Z := le_bytes 32 (17 * 2 ^ 251).
Lemma s17_naf : match computeScalar5NAF s17 with Some naf => dval 2 naf =? -15 * 2 ^ 251 | None => false end = true.
Proof. vm_compute. reflexivity. Qed.
Lemma e_varTime_refuted : exists s, bytes 32 s /\ forall b P A, operand b P A -> even A -> ~ Req A E0 ->
  exists R B, ep_VarTimeScalarMult (ops b) P s = Some R /\ operand b R B /\ ~ Req B (Emul (le_val s) A).
Proof.
  exists s17. split; [apply le_bytes_bytes|]. intros b P A h he hn.
  destruct (e_varTime b P A s17 h (le_bytes_bytes _ _)) as (naf & R & h1 & _ & _ & h4 & h5).
  exists R. eexists. refine (conj h4 (conj h5 _)). rewrite (e_varTime_iff A s17 naf he hn (le_bytes_bytes _ _) h1).
  pose proof s17_naf as hv. rewrite h1 in hv. apply Z.eqb_eq in hv. rewrite hv.
  assert (le_val s17 = 17 * 2 ^ 251) as -> by (vm_compute; reflexivity). lia.
Qed.
Lemma e_odd b : operand b (affine b ET8) ET8 /\ ~ even ET8.
Proof.
  split; [apply e_affine|]. intros H.
  assert (even (Emul 1 EG)) as H1 by (rewrite Emul_1; apply even_add; [apply even_B|exact H]).
  apply even_index in H1. discriminate H1.
Qed.
Lemma e_multiples : sm_multiple (2 ^ 254 + 1) = 2 ^ 254 + 1 /\ sm_multiple (2 ^ 255 - 1) = -1 /\
  tbl_multiple (2 ^ 255 + 1) = 2 ^ 255 + 1 /\ tbl_multiple (2 ^ 256 - 1) = -1.
Proof. repeat split; vm_compute; reflexivity. Qed.
