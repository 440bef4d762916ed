(** The tests of the repository: curve_test.go, elligator_test.go, table_test.go, vartime_test.go and ristretto_test.go,
    in every build *)
From Coq Require Import ZArith Znumtheory List Lia Bool.
From Verif Require Import Words Primes Fp Edwards GroupOrder RistrettoSpec ScalarCode ScalarModel ScalarReduce ScalarSub ScalarFacts
  FieldModel CurveModel FieldLaws CurveProofs EncodeProofs WindowProofs ScalarMultProofs AllScalars RistrettoModel RistrettoFacts
  ElligatorSpec ElligatorMath ElligatorProofs LizardProofs Sha256 Backends EdwardsFacts
  CrefFe CrefScalar CrefCode CrefMul CrefFeProofs CrefGroupProofs CrefFacts CrefScalarOps CrefMulFacts CrefSlideFacts TestModel TestFacts TestField.
From Verif Require Points51 Elligator51 EllGen.
Import ListNotations.
Open Scope Z_scope.
Local Notation point := Backends.point.

(** the field tests in every build *)
Lemma b_sqrtID b : exists m, rel (laws b) m (k_sqrtID (ops b)) Fsqrt_id /\ 0 <= m /\ 2 + Z.max (cN (laws b)) m <= cL (laws b).
Proof.
  destruct b.
  - exists 2. refine (conj (law_sqrtID _ (laws PureGo64)) _). cbn. lia.
  - exists 1. refine (conj _ _); [|cbn; lia]. apply (rel_iff Amd64). split; [|exact (proj2 (proj1 (rel_iff Amd64 _ _ _) (law_sqrtID _ (laws Amd64))))].
    vm_compute. repeat split; try reflexivity; discriminate.
  - exists 1. refine (conj _ _); [|cbn; lia]. apply (rel_iff Generic). split; [|exact (proj2 (proj1 (rel_iff Generic _ _ _) (law_sqrtID _ (laws Generic))))].
    vm_compute. repeat split; try reflexivity; discriminate.
Qed.
Lemma b_constants b : t_FeConstants (ops b) = true.
Proof. destruct (b_sqrtID b) as (m & h1 & h2 & h3). exact (test_FeConstants (laws b) m h1 h2 h3). Qed.

(** ** points *)
Lemma go_pt b buf : go_point (ops b) buf = pt_SetElligator (ops b) buf.
Proof. reflexivity. Qed.
Lemma gp b buf : bytes 32 buf -> exists A P, summand b (go_point (ops b) buf) A /\ rfc_map (fe_of buf) A /\ c_point buf = Some P /\ cpoint P A.
Proof.
  intro hb. destruct (b_elligator b buf hb) as (A & hA & hm). destruct (c_unpack_ok buf hb) as (r & e & hr).
  destruct (g_elligator_ok r _ A hr hm) as (P & eP & hP). exists A, P. rewrite go_pt.
  refine (conj hA (conj hm (conj _ (proj2 (cpoint_cge P A) hP)))). unfold c_point. rewrite e. exact eP.
Qed.
Lemma op_sum b P A : summand b P A <-> operand b P A /\ even A.
Proof. unfold summand, Backends.point, operand. split; [intros [[h1 h2] h3]; exact (conj (conj h1 h3) h2) | intros [[h1 h3] h2]; exact (conj (conj h1 h2) h3)]. Qed.
Lemma Req_in A B : Req A B -> In (Eadd A (Eopp B)) [E0; T2; T4; T4'].
Proof. apply Points51.Req_torsion. Qed.
Lemma packs b P Q A B : cpoint P A -> even A -> point b Q B -> Req A B -> g_pack P = Some (ep_RistrettoInto (ops b) Q).
Proof.
  intros hP he hQ hr. destruct (cp_pack b P Q A B hP he hQ) as (s & e & _ & h). rewrite e. apply f_equal. exact (proj2 h (Req_in A B hr)).
Qed.
Lemma same s : Some (bytes_Equal s s) = Some true.
Proof. apply f_equal. apply bytes_Equal_iff. reflexivity. Qed.
Lemma eqI b P Q A B : represents b P A -> represents b Q B -> Req A B -> (ep_RistrettoEqualsI (ops b) P Q =? 1) = true.
Proof.
  intros h g hr. apply rep_rd in h, g. apply Z.eqb_eq. exact (proj2 (proj1 (ep_RistrettoEqualsI_iff (laws b) P Q A B h g)) hr).
Qed.

Lemma test_PointDouble b buf : bytes 32 buf -> t_PointDouble (ops b) buf = Some true.
Proof.
  intro hb. destruct (gp b buf hb) as (A & P & hA & hm & e & hP). unfold t_PointDouble. rewrite e.
  destruct (cp_double P A hP) as (R & e2 & hR). rewrite e2. cbv zeta.
  rewrite (packs b R (ep_Double (ops b) (go_point (ops b) buf)) (Eadd A A) (Eadd A A) hR (even_double A) (proj1 (b_double b _ A (proj1 hA))) (Req_refl _)).
  apply same.
Qed.
Lemma test_PointAdd b buf1 buf2 : bytes 32 buf1 -> bytes 32 buf2 -> t_PointAdd (ops b) buf1 buf2 = Some true.
Proof.
  intros h1 h2. destruct (gp b buf1 h1) as (A & P & hA & hm & e & hP). destruct (gp b buf2 h2) as (B & Q & hB & hn & e' & hQ).
  unfold t_PointAdd. rewrite e, e'. destruct (cp_add P Q A B hP hQ) as (R & e2 & hR). rewrite e2. cbv zeta.
  rewrite (packs b R (ep_Add (ops b) (go_point (ops b) buf1) (go_point (ops b) buf2)) (Eadd A B) (Eadd A B) hR
    (even_add _ _ (rfc_map_even _ _ hm) (rfc_map_even _ _ hn)) (proj1 (proj1 (b_add b _ _ A B (proj1 hA) hB))) (Req_refl _)).
  apply same.
Qed.
Lemma test_PointSub b buf1 buf2 : bytes 32 buf1 -> bytes 32 buf2 -> t_PointSub (ops b) buf1 buf2 = Some true.
Proof.
  intros h1 h2. destruct (gp b buf1 h1) as (A & P & hA & hm & e & hP). destruct (gp b buf2 h2) as (B & Q & hB & hn & e' & hQ).
  unfold t_PointSub. rewrite e, e'. destruct (cp_negate Q B hQ) as (Q' & e1 & hQ'). rewrite e1.
  destruct (cp_add P Q' A (Eopp B) hP hQ') as (R & e2 & hR). rewrite e2. cbv zeta.
  rewrite (packs b R (ep_Sub (ops b) (go_point (ops b) buf1) (go_point (ops b) buf2)) (Eadd A (Eopp B)) (Eadd A (Eopp B)) hR
    (even_add _ _ (rfc_map_even _ _ hm) (even_opp _ (rfc_map_even _ _ hn))) (proj1 (proj2 (b_add b _ _ A B (proj1 hA) hB))) (Req_refl _)).
  apply same.
Qed.

(** scalars modulo l *)
Lemma Req_modl A m n : even A -> (l | m - n) -> Req (Emul m A) (Emul n A).
Proof.
  intros hA h. destruct (R_cyclic A hA) as (k & hk & hR).
  assert (hm : forall j, Req (Emul j A) (Emul (j * k) EB)) by (intro j; rewrite Emul_mul; apply Req_mul, hR).
  apply (Req_trans _ _ _ (hm m)). apply Req_sym. apply (Req_trans _ _ _ (hm n)). apply R_order_B.
  replace (n * k - m * k) with (- k * (m - n)) by ring. apply Z.divide_mul_r, h.
Qed.
Lemma sm_max_253 : 2 ^ 253 < sm_max /\ 2 ^ 253 < tbl_max.
Proof. split; vm_compute; reflexivity. Qed.
Lemma test_ScalarMult b buf s : bytes 32 buf -> bytes 32 s -> le_val s < 2 ^ 253 -> t_ScalarMult (ops b) buf s = Some true.
Proof.
  intros hb hs hv. destruct (gp b buf hb) as (A & P & hA & hm & e & hP). unfold t_ScalarMult. rewrite e. cbv zeta.
  destruct (cs_unpack_ok s hs) as [[u1 u2] u3]. pose proof (le256 s hs) as hr. pose proof sm_max_253 as hmx.
  assert (ll : l < 2 ^ 254) by (vm_compute; reflexivity). pose proof l_pos as lp.
  destruct (cp_scalarmult P A (cs_unpack s) hP u1 ltac:(lia)) as (R & e2 & hR). rewrite e2.
  rewrite u3, (Z.mod_small (le_val s)) in hR by lia. pose proof (rfc_map_even _ _ hm) as he.
  pose proof (proj2 (e_scalarMult b _ A s (proj1 (proj1 (op_sum b _ A) hA)) hs) ltac:(lia)) as hG.
  assert (d : Req (Emul (le_val s mod l) A) (Emul (le_val s) A)).
  { apply Req_modl; [exact he|]. exists (- (le_val s / l)). pose proof (Z.div_mod (le_val s) l ltac:(lia)) as ed. lia. }
  rewrite (packs b R (ep_ScalarMult (ops b) (go_point (ops b) buf) s) _ (Emul (le_val s) A) hR (even_mul _ _ he) (conj (proj1 hG) (even_mul _ _ he)) d).
  apply same.
Qed.
Lemma le31 s : bytes 32 s -> le_val s = le_val (firstn 31 s) + 256 ^ 31 * at_ s 31 /\ 0 <= le_val (firstn 31 s) < 256 ^ 31.
Proof.
  intros [hl hf]. split.
  - clear hf. do 32 (destruct s as [|? s]; [discriminate hl|]). destruct s as [|? s]; [|discriminate hl].
    match goal with |- le_val ?a = le_val ?b + _ => change a with (b ++ [at_ a 31]) at 1 end. rewrite le_val_app. cbn [le_val].
    match goal with |- context [Z.of_nat (length ?b)] => change (Z.of_nat (length b)) with 31 end. ring.
  - rewrite <- (firstn_skipn 31 s) in hf. apply Forall_app in hf. pose proof (le_val_range _ (proj1 hf)) as h.
    rewrite firstn_length, hl in h. exact h.
Qed.
Lemma test_ScalarMult_sBuf old bi : bytes 32 old -> le_val old < 2 ^ 253 -> 0 <= bi < l ->
  bytes 32 (t_ScalarMult_sBuf old bi) /\ le_val (t_ScalarMult_sBuf old bi) < 2 ^ 253.
Proof.
  intros ho hv hb. pose proof l_256 as l0. assert (l1 : l < 2 ^ 253) by (vm_compute; reflexivity). unfold t_ScalarMult_sBuf.
  pose proof (write_le_bytes 32 old bi ho ltac:(lia)) as hw. split; [exact hw|].
  destruct (big_Bytes_rev bi 32 ltac:(lia)) as (k & hk & e & hk').
  destruct (Nat.eq_dec k 32) as [->|nk].
  - assert (ew : write_le old bi = le_bytes 32 bi).
    { unfold write_le. rewrite e. cbv zeta. rewrite (proj1 ho), firstn_all2, skipn_all2 by (rewrite le_bytes_length, ?(proj1 ho); lia). apply app_nil_r. }
    rewrite ew, le_val_le_bytes by lia. lia.
  - assert (e31 : at_ (write_le old bi) 31 = at_ old 31).
    { unfold write_le. rewrite e. cbv zeta. rewrite (proj1 ho), firstn_all2 by (rewrite le_bytes_length; lia). rewrite le_bytes_length. unfold at_.
      rewrite app_nth2 by (rewrite le_bytes_length; lia). rewrite le_bytes_length. rewrite <- (firstn_skipn k old) at 2.
      rewrite app_nth2 by (rewrite firstn_length, (proj1 ho); lia). f_equal. rewrite firstn_length, (proj1 ho). lia. }
    destruct (le31 _ hw) as [w1 w2]. destruct (le31 _ ho) as [o1 o2]. rewrite e31 in w1. change (256 ^ 31) with (2 ^ 248) in *. lia.
Qed.

(** ** torsion *)
Lemma tor b j : exists T, operand b (torsion (ops b) j) T /\ Req T E0.
Proof.
  assert (H : forall X Y T, rel (laws b) 1 X (ex T) -> rel (laws b) 1 Y (ey T) -> (ex T * ey T = F0)%F -> Req T E0 ->
    exists T', operand b (mkExt X Y (k_one (ops b)) (k_zero (ops b))) T' /\ Req T' E0).
  { intros X Y T hX hY h0 hR. exists T. split; [|exact hR]. apply op_rf, rpt_1. exists F1. cbn [eX eY eZ eT].
    assert (E : forall x, (x * F1 = x)%F) by (intro; ring). rewrite !E, h0.
    exact (conj F1_neq_0 (conj hX (conj hY (conj (law_one _ (laws b)) (law_zero _ (laws b)))))). }
  assert (Z0 : exists T, operand b (ep_SetZero (ops b)) T /\ Req T E0) by (exists E0; split; [apply e_zero | apply Req_refl]).
  unfold torsion. destruct j as [|[|[|[|j]]]]; cbn [nth]; try exact Z0.
  - apply (H _ _ T2); [apply law_zero | apply law_minusOne | cbn; ring | apply Points51.Req_torsion; rewrite Eopp_0, Eadd_0_r; cbn; auto].
  - apply (H _ _ T4); [apply law_I | apply law_zero | cbn; ring | apply Points51.Req_torsion; rewrite Eopp_0, Eadd_0_r; cbn; auto].
  - apply (H _ _ T4'); [apply law_minusI | apply law_zero | cbn; ring | apply Points51.Req_torsion; rewrite Eopp_0, Eadd_0_r; cbn; auto].
  - destruct j; exact Z0.
Qed.
Lemma Req_tor A T : Req T E0 -> Req A (Eadd A T).
Proof. intro h. rewrite <- (Eadd_0_r A) at 1. apply Req_add; [apply Req_refl | apply Req_sym; exact h]. Qed.
Lemma test_RistrettoEqualsI b buf : bytes 32 buf -> t_RistrettoEqualsI (ops b) buf = true.
Proof.
  intro hb. destruct (gp b buf hb) as (A & P & hA & _). unfold t_RistrettoEqualsI. cbv zeta. apply forallb_forall. intros j _.
  destruct (tor b j) as (T & hT & hR).
  exact (eqI b _ _ A (Eadd A T) (proj1 (proj1 hA)) (proj1 (proj1 (e_add b _ _ A T (proj1 (proj1 hA)) hT))) (Req_tor A T hR)).
Qed.

(** ** elligator_test.go *)
Lemma test_ElligatorAndRistretto b buf : bytes 32 buf ->
  t_ElligatorAndRistretto (ops b) buf = Some true /\ t_ElligatorAndRistretto_meant (ops b) buf = Some true.
Proof.
  intro hb. destruct (gp b buf hb) as (A & P & hA & hm & e & hP).
  pose proof (packs b P (go_point (ops b) buf) A A hP (rfc_map_even _ _ hm) (proj1 hA) (Req_refl A)) as ep.
  destruct (b_bytes b b _ _ A A (proj1 hA) (proj1 hA)) as [hby _].
  destruct (b_roundtrip b b _ A (proj1 hA)) as (Q & B & e2 & hQ & hin).
  change (pt_Bytes (ops b)) with (ep_RistrettoInto (ops b)) in *. change (pt_SetBytes (ops b)) with (ep_SetRistretto (ops b)) in *.
  set (go := ep_RistrettoInto (ops b) (go_point (ops b) buf)) in *.
  assert (e3 : ep_RistrettoInto (ops b) Q = go).
  { unfold go. exact (proj2 (proj2 (b_bytes b b Q _ B A hQ (proj1 hA))) hin). }
  assert (ec : canonical_bytes go = go).
  { destruct (b_encodes b _ A (proj1 hA)) as (s & es & _). change (pt_Bytes (ops b)) with (ep_RistrettoInto (ops b)) in es. fold go in es.
    rewrite es, canonical_bytes_fval, RistrettoFacts.fval_le_bytes. reflexivity. }
  assert (eu : exists P2, g_unpack go = Some (0, P2) /\ g_pack P2 = Some go).
  { destruct (cp_unpack b go hby) as [(P2 & A2 & Q2 & B2 & u1 & u2 & u3 & u4 & _)|[_ u2]]; rewrite ec in *.
    - exists P2. split; assumption.
    - change (pt_SetBytes (ops b)) with (ep_SetRistretto (ops b)) in u2. rewrite e2 in u2. discriminate u2. }
  destruct eu as (P2 & u1 & u2). unfold t_ElligatorAndRistretto, t_ElligatorAndRistretto_meant. rewrite e, ep. fold go. cbv zeta.
  rewrite u1. cbn [snd]. rewrite u2, e2. cbn [snd]. rewrite e3.
  assert (r : bytes_Equal go go = true) by (apply bytes_Equal_iff; reflexivity). rewrite r. split; reflexivity.
Qed.
Lemma test_ToJacobiQuarticRistretto b P A : point b P A -> t_ToJacobiQuarticRistretto (ops b) P = true.
Proof.
  intros [h he]. apply rep_rd in h. unfold t_ToJacobiQuarticRistretto.
  destruct (ep_ToJacobiQuarticRistretto_ok (laws b) P A h) as (z & js & P' & hz & e & hj & hP'). rewrite e. clear e. apply forallb_forall.
  intros j hin. apply in_seq in hin.
  assert (hj' : rjac (laws b) (nth j js (mkJac (k_zero (ops b)) (k_zero (ops b)))) (nth j (jq A z) (F0, F0))).
  { assert (h4 : (j < length (jq A z))%nat) by (cbn; lia). clear hin. revert h4. revert j. generalize dependent (jq A z). intros qs hj.
    induction hj as [|x y xs ys hx hxs IH]; intros j h4; [cbn in h4; lia|]. destruct j as [|j]; [exact hx | apply IH; cbn in h4; lia]. }
  destruct (nth j (jq A z) (F0, F0)) as [s t] eqn:E. 
  assert (hst : In (s, t) (jq A z)) by (rewrite <- E; apply nth_In; cbn; lia).
  destruct (jq_sound A z he hz s t hst) as (B & hB & hR). destruct hj' as [j1 j2]. cbn [fst snd] in j1, j2.
  pose proof (cN_rng _ (laws b)) as hn.
  assert (hc : rct (laws b) (cp_SetJacobiQuartic (ops b) (nth j js (mkJac (k_zero (ops b)) (k_zero (ops b))))) B).
  { apply (cp_SetJacobiQuartic_ok (laws b) _ s t B); [exact j1 | apply (rel_le _ (laws b) (cN (laws b))); [lia | exact j2] | exact hB]. }
  apply co_rct in hc. apply rep_rd in hP'.
  exact (eqI b _ _ B A (proj1 (proj1 (proj1 (e_convert b) _ B hc))) hP' hR).
Qed.
