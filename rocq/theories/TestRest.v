(** The tests of the repository: elligator_test.go (the inverse), table_test.go, vartime_test.go and ristretto_test.go,
    in every build *)
From Coq Require Import ZArith Znumtheory List Lia Bool.
From Verif Require Import Words Primes Fp Edwards GroupOrder RistrettoSpec ScalarCode ScalarModel ScalarReduce ScalarSub ScalarFacts
  FieldModel CurveModel BitFold FieldLaws CurveProofs EncodeProofs WindowProofs ScalarMultProofs AllScalars RistrettoModel RistrettoFacts
  ElligatorSpec ElligatorMath ElligatorProofs LizardProofs Sha256 Backends EdwardsFacts CrefSlideFacts TestModel TestFacts TestField TestPoints.
From Verif Require Points51 Elligator51 EllGen.
Import ListNotations.
Open Scope Z_scope.
Local Notation point := Backends.point.

(** [cp_SetRistrettoElligator2_ok] (ElligatorProofs.v) for the larger limbs that RistrettoElligator2Inverse returns *)
Section Ell.
Context {K : FeOps} (L : FeLaws K).
Lemma cp_SetRistrettoElligator2_2 r0 f A : rel L 2 r0 f -> rfc_map f A -> rct L (cp_SetRistrettoElligator2 K r0) A.
Proof.
  intros hf hA. fe_facts L. pose proof (ell_value f) as HV. cbv zeta in HV.
  destruct (rfc_ell f A hA) as (s & t & he & hB).
  fe_open (@cp_SetRistrettoElligator2) (cp_SetRistrettoElligator2 K r0).
  fs L r0i. fs L r. fs L rPlusD. fs L Da. fs L Db. fs L Dc. fs L Dd. fs L rPlusOne. fs L Nn. fs L ND.
  destruct (fe_InvSqrtI_ok L _ ND g_ND h_ND ltac:(lia)) as (sq & e & h_sq). rewrite e. clear e. cbv beta iota.
  set (b := isri_flag g_ND) in *.
  as_ L sq1. fs L tw0. cs L tw (negb b) ltac:(apply i32_1_sub_b2z). fs L sgn0. cs L sgn (negb b) ltac:(apply i32_1_sub_b2z).
  fs L sq2. fs L S0. fs L Ta. fs L Tb. fs L Tc. fs L Td. fs L rSubOne. fs L Te. fs L T. fs L sNeg. ns L S1.
  cs L S2 (Bool.eqb (Fneg g_S0) b) ltac:(rewrite equal30_ok by (destruct (Fneg g_S0), b; cbn; lia); destruct (Fneg g_S0), b; reflexivity).
  subst PP. cbv beta.
  assert (Er : g_r = ell_r f) by (rewrite e_r, e_r0i; unfold ell_r; ring).
  assert (En : g_Nn = ell_N (ell_r f)) by (rewrite e_Nn, e_rPlusOne, Er; unfold ell_N; ring).
  assert (Ed : g_Dd = ell_D (ell_r f)) by (rewrite e_Dd, e_Dc, e_Db, e_Da, e_rPlusD, Er; unfold ell_D; ring).
  assert (Eb : b = isri_flag (ell_N (ell_r f) * ell_D (ell_r f))%F) by (unfold b; rewrite e_ND, En, Ed; reflexivity).
  assert (Ew : g_sq2 = (Fabs (isri_val (ell_N (ell_r f) * ell_D (ell_r f))) * (if b then F1 else f * Fi))%F).
  { rewrite e_sq2, e_sq1, e_tw, e_tw0, e_r0i, e_ND, En, Ed. destruct b; reflexivity. }
  rewrite <- Eb, <- Ew, <- En, <- e_S0 in HV.
  assert (Es : g_S2 = (if Bool.eqb (Fneg g_S0) b then - g_S0 else g_S0)%F).
  { rewrite e_S2, e_sNeg. reflexivity. }
  assert (Et : g_T = ((ell_r f - F1) * ((Fd - F1) * (Fd - F1) * (g_S0 * (g_sq2 * - (if b then F1 else - F1)))) - F1)%F).
  { rewrite e_T, e_Te, e_rSubOne, e_Td, e_Tc, e_Tb, e_Ta, e_sgn, e_sgn0, Er. destruct b; reflexivity. }
  rewrite <- Es, <- Et in HV. destruct (ell_unique f s t _ _ he HV) as [E1 E2].
  apply (cp_SetJacobiQuartic_ok L _ s t A); [| | exact hB].
  - cbn [jS]. eapply rel_eq; [exact h_S2 | lia | exact E1].
  - cbn [jT]. eapply rel_eq; [exact h_T | lia | exact E2].
Qed.

End Ell.

Lemma test_RistrettoElligator2Inverse b i buf : bytes 32 buf ->
  (t_RistrettoElligator2Inverse (ops b) i buf = true <-> Fneg (fe_of buf) = false /\ fe_of buf <> Fsqrt_iod).
Proof.
  intro hb. destruct (b_elligator b buf hb) as (A & hA & hm). destruct (tor b i) as (T & hT & hR).
  pose proof (rfc_map_even _ _ hm) as he. apply op_sum in hA. destruct hA as [hA _].
  destruct (e_add b _ _ A T (proj1 hA) hT) as [hP _]. 
  assert (heT : even (Eadd A T)) by (apply (even_Req _ A he); apply Req_sym, Req_tor, hR).
  unfold t_RistrettoElligator2Inverse. cbv zeta.
  change (ep_SetCompleted (ops b) (cp_SetRistrettoElligator2 (ops b) (o_setBytes (ops b) buf))) with (pt_SetElligator (ops b) buf).
  set (P := ep_Add (ops b) (pt_SetElligator (ops b) buf) (torsion (ops b) i)) in *. clearbody P. destruct hP as [hP _]. apply rep_rd in hP.
  destruct (ep_RistrettoElligator2Inverse_ok (laws b) P (Eadd A T) hP) as (z & mask & fes & P' & hz & e & hmk & hf & hP'). rewrite e. clear e.
  set (q8 := jq8 (Eadd A T) z) in *.
  pose proof (law_setBytes _ (laws b) buf hb) as hs. fold (fe_of buf) in hs. set (f := fe_of buf) in *.
  pose proof (cN_rng _ (laws b)) as n1. pose proof (cL_ge _ (laws b)) as n2.
  assert (Hj : forall j, (j < 8)%nat -> let q := nth j q8 (F0, F0) in
    In q q8 /\ negb (Z.land (Z.shiftl 1 (Z.of_nat j)) mask =? 0) = inv_ret (fst q) (snd q) /\
    rel (laws b) 2 (nth j fes (k_zero (ops b))) (inv_out (fst q) (snd q))).
  { intros j hj q. refine (conj _ (conj _ _)).
    - apply nth_In. exact hj.
    - apply (f_equal (fun x => nth j x 0)) in hmk. rewrite map_seq_nth in hmk by exact hj.
      change 0 with (Z.b2z false) in hmk. rewrite map_nth in hmk.
      rewrite (nth_indep _ false (inv_fst (F0, F0))) in hmk by exact hj. rewrite map_nth in hmk. fold q in hmk.
      apply Elligator51.mask_testbit in hmk. change (inv_ret (fst q) (snd q)) with (inv_fst q). rewrite <- hmk. clear.
      rewrite Z.land_comm, Z.shiftl_1_l. destruct (Z.testbit mask (Z.of_nat j)) eqn:E.
      + destruct (Z.land mask (2 ^ Z.of_nat j) =? 0) eqn:E0; [|reflexivity]. apply Z.eqb_eq in E0.
        apply (f_equal (fun x => Z.testbit x (Z.of_nat j))) in E0. rewrite Z.land_spec, E, Z.pow2_bits_true, Z.bits_0 in E0 by lia. discriminate E0.
      + replace (Z.land mask (2 ^ Z.of_nat j)) with 0; [reflexivity|]. symmetry. apply Z.bits_inj'. intros n hn. rewrite Z.land_spec, Z.bits_0.
        destruct (Z.eq_dec n (Z.of_nat j)) as [->|h]; [rewrite E; reflexivity|]. rewrite Z.pow2_bits_false by lia. apply andb_false_r.
    - pose proof (Forall2_nth_rel (laws b) fes _ j hf hj) as hr.
      rewrite (nth_indep _ F0 (inv_snd (F0, F0))), map_nth in hr by (exact hj). exact hr. }
  set (found := filter _ (seq 0 8)).
  assert (F : forall j, In j found <-> (j < 8)%nat /\ inv_ret (fst (nth j q8 (F0, F0))) (snd (nth j q8 (F0, F0))) = true).
  { intro j. unfold found. rewrite filter_In, in_seq. split; intros [h1 h2].
    - destruct (Hj j ltac:(lia)) as (_ & h3 & _). rewrite h3 in h2. split; [lia | exact h2].
    - destruct (Hj j h1) as (_ & h3 & _). rewrite h3. split; [lia | exact h2]. }
  clearbody found.
  assert (S : forall j, In j found -> reported (Eadd A T) z (inv_out (fst (nth j q8 (F0, F0))) (snd (nth j q8 (F0, F0))))).
  { intros j hj. apply F in hj. destruct hj as [h1 h2]. destruct (Hj j h1) as (h3 & _ & _).
    exists (fst (nth j q8 (F0, F0))), (snd (nth j q8 (F0, F0))). rewrite <- surjective_pairing. exact (conj h3 (conj h2 eq_refl)). }
  assert (A1 : forallb (fun j => ep_RistrettoEqualsI (ops b) (ep_SetCompleted (ops b) (cp_SetRistrettoElligator2 (ops b) (nth j fes (k_zero (ops b))))) P' =? 1) found = true).
  { apply forallb_forall. intros j hj. destruct (reported_sound (Eadd A T) z heT hz _ (S j hj)) as (_ & B & hB & hBR).
    pose proof (proj1 (proj1 (F j) hj)) as h8. destruct (Hj j h8) as (_ & _ & hr).
    pose proof (cp_SetRistrettoElligator2_2 (laws b) _ _ B hr hB) as hc. apply co_rct in hc.
    apply (proj2 (rep_rd b P' (Eadd A T))) in hP'.
    exact (eqI b _ _ B (Eadd A T) (proj1 (proj1 (proj1 (e_convert b) _ B hc))) hP' hBR). }
  rewrite A1, andb_true_l, existsb_exists. split.
  - intros (j & hj & hq). pose proof (proj1 (proj1 (F j) hj)) as h8. destruct (Hj j h8) as (_ & _ & hr).
    rewrite (fe_Equals_ok (laws b) _ _ _ _ _ _ hr hs) in hq by lia. apply Feqb_eq in hq. pose proof (S j hj) as hS. rewrite hq in hS.
    destruct (reported_sound (Eadd A T) z heT hz f hS) as (hn & _). split; [exact hn|]. intro ei. rewrite ei in hS.
    exact (iod_not_reported (Eadd A T) z heT hz hS).
  - intros [hn hi]. destruct (reported_complete (Eadd A T) z heT hz f A hn hm (Req_tor A T hR) hi) as (s & t & h1 & h2 & h3).
    destruct (In_nth _ _ (F0, F0) h1) as (j & hj & ej). change (j < 8)%nat in hj.
    exists j. split.
    + apply F. split; [exact hj|]. fold q8 in ej. rewrite ej. exact h2.
    + destruct (Hj j hj) as (_ & _ & hr). fold q8 in ej. rewrite ej in hr. cbn [fst snd] in hr. rewrite h3 in hr.
      rewrite (fe_Equals_ok (laws b) _ _ _ _ _ _ hr hs) by lia. apply Feqb_eq. reflexivity.
Qed.
(** the bytes that the test draws are even and below 2^255 *)
Lemma test_RistrettoElligator2Inverse_even b i buf : bytes 32 buf -> Z.even (le_val buf) = true -> le_val buf < 2 ^ 255 ->
  (t_RistrettoElligator2Inverse (ops b) i buf = true <-> le_val buf < p /\ buf <> Elligator51.missed).
Proof.
  intros hb he hv. rewrite (test_RistrettoElligator2Inverse b i buf hb). pose proof (le_val_range _ (proj2 hb)) as hr.
  assert (ef : fval (fe_of buf) = le_val buf mod p).
  { unfold fe_of. rewrite fval_of_Z, (Z.mod_small (le_val buf)) by lia. reflexivity. }
  assert (pe : 2 ^ 255 = p + 19) by (vm_compute; reflexivity). pose proof p_pos as pp.
  assert (po : Z.odd p = true) by (vm_compute; reflexivity).
  assert (hl : Fneg (fe_of buf) = false <-> le_val buf < p).
  { unfold Fneg. rewrite ef. destruct (Z.lt_ge_cases (le_val buf) p) as [h|h].
    - rewrite Z.mod_small by lia. rewrite <- Z.negb_even, he. split; intro; [exact h | reflexivity].
    - assert (em : le_val buf mod p = le_val buf - p).
      { replace (le_val buf) with (le_val buf - p + 1 * p) at 1 by ring. rewrite Z.mod_add by lia. apply Z.mod_small. 
        assert (19 < p) by (vm_compute; reflexivity). lia. }
      rewrite em, Z.odd_sub, po, <- Z.negb_even, he. split; [discriminate | lia]. }
  rewrite hl. split; intros [h1 h2]; (split; [exact h1|]).
  - intros ->. apply h2. unfold Elligator51.missed. apply Elligator51.fe_of_le_bytes.
  - intro e. apply h2. unfold Elligator51.missed. rewrite <- e, ef, Z.mod_small by lia. rewrite <- (le_bytes_le_val buf (proj2 hb)) at 1.
    rewrite (proj1 hb). reflexivity.
Qed.

(** ** table_test.go and vartime_test.go *)
Lemma gop b buf : bytes 32 buf -> exists A, operand b (go_point (ops b) buf) A.
Proof. intro hb. destruct (gp b buf hb) as (A & P & hA & _). apply op_sum in hA. exists A. exact (proj1 hA). Qed.
Lemma test_ExtendedNiels b buf1 buf2 : bytes 32 buf1 -> bytes 32 buf2 ->
  t_AddExtendedNiels (ops b) buf1 buf2 = true /\ t_SubExtendedNiels (ops b) buf1 buf2 = true.
Proof.
  intros h1 h2. destruct (gop b buf1 h1) as (A & hA). destruct (gop b buf2 h2) as (B & hB).
  destruct (e_add b _ _ A B (proj1 hA) hB) as [ha hs]. pose proof (proj2 (e_convert b) _ B (proj1 hB)) as hN.
  destruct (e_addNiels b _ _ A B (proj1 hA) hN) as [ca cs]. 
  pose proof (proj1 (proj1 (proj1 (e_convert b) _ _ ca))) as ra. pose proof (proj1 (proj1 (proj1 (e_convert b) _ _ cs))) as rs. split.
  - exact (eqI b _ _ _ _ (proj1 ha) ra (Req_refl _)).
  - exact (eqI b _ _ _ _ (proj1 hs) rs (Req_refl _)).
Qed.
Lemma mask31_ok s : bytes 32 s -> bytes 32 (mask31 s) /\ le_val (mask31 s) = le_val s mod 2 ^ 253.
Proof.
  intros hs. pose proof (at_byte 32 s 31 hs) as hb. unfold is_byte in hb. destruct (le31 s hs) as [h1 h2].
  pose proof hs as [hl hf]. rewrite <- (firstn_skipn 31 s) in hf. apply Forall_app in hf. destruct hf as [hf _].
  unfold mask31. rewrite land31. pose proof (Z.mod_pos_bound (at_ s 31) 32 ltac:(lia)) as hm.
  assert (l31 : length (firstn 31 s) = 31%nat) by (rewrite firstn_length, hl; reflexivity). split.
  - split; [rewrite app_length, l31; reflexivity|]. apply Forall_app. split; [exact hf|]. apply Forall_cons; [unfold is_byte; lia | apply Forall_nil].
  - rewrite le_val_app, l31. cbn [le_val]. change (256 ^ Z.of_nat 31) with (2 ^ 248). change (256 ^ 31) with (2 ^ 248) in h1, h2. rewrite h1.
    set (lo := le_val (firstn 31 s)) in *. set (a := at_ s 31) in *. clearbody lo a. rewrite (Z.div_mod a 32) at 2 by lia.
    replace (lo + 2 ^ 248 * (32 * (a / 32) + a mod 32)) with (lo + 2 ^ 248 * (a mod 32) + (a / 32) * 2 ^ 253) by (change (2 ^ 253) with (2 ^ 248 * 32); ring).
    rewrite Z.mod_add by lia. rewrite (Z.mod_small (_ + _)); [ring|]. change (2 ^ 253) with (2 ^ 248 * 32). generalize dependent (2 ^ 248). intros. nia.
Qed.
Lemma mask31_lt s : bytes 32 s -> 0 <= le_val (mask31 s) < 2 ^ 253.
Proof. intro hs. rewrite (proj2 (mask31_ok s hs)). apply Z.mod_pos_bound. lia. Qed.
Lemma bop b : operand b (ep_SetBase (ops b)) (Eadd EB T4').
Proof. destruct (b_const b) as [_ h]. apply op_sum in h. exact (proj1 h). Qed.
Lemma test_TableVarTimeBaseScalarMult b s : bytes 32 s -> t_TableVarTimeBaseScalarMult (ops b) s = Some true.
Proof.
  intro hs. destruct (mask31_ok s hs) as [hm _]. pose proof (mask31_lt s hs) as hv. pose proof sm_max_253 as hmx.
  unfold t_TableVarTimeBaseScalarMult. cbv zeta. pose proof (e_table b _ _ (bop b)) as ht. set (t := tbl_Compute (ops b) (ep_SetBase (ops b))) in *. clearbody t.
  destruct (proj1 (e_tableVarTime b t _ (mask31 s) ht hm) ltac:(lia)) as (R & e & hR). rewrite e.
  pose proof (proj2 (e_tableMult b t _ (mask31 s) ht hm) ltac:(lia)) as h1. apply f_equal. exact (eqI b _ _ _ _ (proj1 h1) (proj1 hR) (Req_refl _)).
Qed.
Lemma test_TableBaseScalarMult b s : bytes 32 s -> t_TableBaseScalarMult (ops b) s = true.
Proof.
  intro hs. destruct (mask31_ok s hs) as [hm _]. pose proof (mask31_lt s hs) as hv. pose proof sm_max_253 as hmx.
  unfold t_TableBaseScalarMult. cbv zeta. pose proof (e_table b _ _ (bop b)) as ht. set (t := tbl_Compute (ops b) (ep_SetBase (ops b))) in *. clearbody t.
  pose proof (proj2 (e_tableMult b t _ (mask31 s) ht hm) ltac:(lia)) as h1. pose proof (proj2 (e_scalarMult b _ _ (mask31 s) (bop b) hm) ltac:(lia)) as h2.
  exact (eqI b _ _ _ _ (proj1 h1) (proj1 h2) (Req_refl _)).
Qed.
Lemma test_VarTimeScalarMult b buf s : bytes 32 buf -> bytes 32 s -> t_VarTimeScalarMult (ops b) buf s = Some true.
Proof.
  intros hb hs. destruct (mask31_ok s hs) as [hm _]. pose proof (mask31_lt s hs) as hv. pose proof sm_max_253 as hmx.
  destruct (gop b buf hb) as (A & hA). unfold t_VarTimeScalarMult. cbv zeta.
  destruct (e_varTime b _ A (mask31 s) hA hm) as (naf & R & _ & _ & hd & e & hR). rewrite e. rewrite (hd ltac:(lia)) in hR.
  pose proof (proj2 (e_scalarMult b _ A (mask31 s) hA hm) ltac:(lia)) as h2. apply f_equal. exact (eqI b _ _ _ _ (proj1 h2) (proj1 hR) (Req_refl _)).
Qed.

(** the last digit of the form of a number below 2^253 is 0 *)
Lemma naf5_bound n : forall r, (length r <= n)%nat -> is_naf 5 r -> Z.abs (dval 2 r) < 2 ^ (Z.of_nat (length r) + 3).
Proof.
  induction n as [|n IH]; intros r hn hr.
  - destruct r; [cbn; lia | cbn in hn; lia].
  - destruct r as [|x t]; [cbn; lia|]. pose proof (proj1 hr 0%nat) as hx. unfold at_ in hx. cbn [nth] in hx. change (2 ^ (5 - 1)) with 16 in hx.
    cbn [length] in *. destruct (Z.eq_dec x 0) as [->|nx].
    + pose proof (IH t ltac:(lia) (naf_tail _ _ _ hr)) as h. cbn [dval].
      replace (Z.of_nat (S (length t)) + 3) with (Z.succ (Z.of_nat (length t) + 3)) by lia. rewrite Z.pow_succ_r by lia. lia.
    + destruct hx as [hx|[_ hx]]; [contradiction|].
      assert (hz : forall k, (k < 4)%nat -> at_ t k = 0) by (intros k hk; apply (proj2 hr 0%nat (S k)); [exact nx | lia | lia]).
      destruct (Nat.lt_ge_cases (length t) 4) as [h4|h4].
      * assert (e : dval 2 t = 0).
        { clear -h4 hz. destruct t as [|a [|b [|c [|d t]]]]; cbn in h4; try lia; pose proof (hz 0%nat ltac:(lia)) as z0; pose proof (hz 1%nat ltac:(lia)) as z1; pose proof (hz 2%nat ltac:(lia)) as z2;
            unfold at_ in z0, z1, z2; cbn [nth dval] in z0, z1, z2 |- *; try lia; destruct d; lia. }
        cbn [dval]. rewrite e. assert (2 ^ 4 <= 2 ^ (Z.of_nat (S (length t)) + 3)) by (apply Z.pow_le_mono_r; lia). lia.
      * destruct t as [|a [|b [|c [|d t]]]]; cbn in h4; try lia.
        pose proof (hz 0%nat ltac:(lia)) as z0. pose proof (hz 1%nat ltac:(lia)) as z1. pose proof (hz 2%nat ltac:(lia)) as z2. pose proof (hz 3%nat ltac:(lia)) as z3.
        unfold at_ in z0, z1, z2, z3. cbn in z0, z1, z2, z3. subst a b c d. cbn [length] in *.
        pose proof (IH t ltac:(lia) (naf_tail _ _ _ (naf_tail _ _ _ (naf_tail _ _ _ (naf_tail _ _ _ (naf_tail _ _ _ hr)))))) as h. cbn [dval].
        replace (Z.of_nat (S (S (S (S (S (length t)))))) + 3) with (5 + (Z.of_nat (length t) + 3)) by lia. rewrite Z.pow_add_r by lia. change (2 ^ 5) with 32. lia.
Qed.
Lemma at_firstn (r : list Z) n i : at_ (firstn n r) i = if (i <? n)%nat then at_ r i else 0.
Proof.
  unfold at_. revert n i. induction r as [|x r IH]; intros n i; [rewrite firstn_nil; destruct (i <? n)%nat; destruct i; reflexivity|].
  destruct n as [|n]; [destruct i; reflexivity|]. destruct i as [|i]; [reflexivity|]. cbn [firstn nth]. rewrite IH. reflexivity.
Qed.
Lemma naf_firstn w r n : is_naf w r -> is_naf w (firstn n r).
Proof.
  intros [h1 h2]. split.
  - intro i. rewrite at_firstn. destruct (i <? n)%nat; [apply h1 | left; reflexivity].
  - intros i k hi hik hk. rewrite at_firstn in hi. rewrite at_firstn. destruct (i <? n)%nat eqn:E; [|contradiction]. destruct (k <? n)%nat; [|reflexivity].
    exact (h2 i k hi hik hk).
Qed.
Lemma dval_at w : forall n, (n < length w)%nat -> dval 2 (firstn (S n) w) = dval 2 (firstn n w) + 2 ^ Z.of_nat n * at_ w n.
Proof.
  induction w as [|x w IH]; intros n hn; [cbn in hn; lia|]. destruct n as [|n]; [unfold at_; cbn [firstn dval nth]; change (2 ^ Z.of_nat 0) with 1; ring|]. cbn in hn.
  change (x + 2 * dval 2 (firstn (S n) w) = x + 2 * dval 2 (firstn n w) + 2 ^ Z.of_nat (S n) * at_ w n). rewrite IH by lia.
  rewrite Nat2Z.inj_succ, Z.pow_succ_r by lia. ring.
Qed.
Lemma naf_top r : length r = 256%nat -> is_naf 5 r -> 0 <= dval 2 r < 2 ^ 253 -> dval 2 (firstn 255 r) = dval 2 r.
Proof.
  intros hl hr hv. pose proof (dval_at r 255 ltac:(lia)) as e. rewrite firstn_all2 in e by lia. change (Z.of_nat 255) with 255 in e.
  destruct (Z.eq_dec (at_ r 255) 0) as [e0|n0]; [rewrite e0 in e; lia|exfalso].
  assert (hz : forall k, (251 <= k < 255)%nat -> at_ r k = 0).
  { intros k hk. destruct (Z.eq_dec (at_ r k) 0) as [|n]; [assumption|]. destruct n0. apply (proj2 hr k 255%nat n); lia. }
  pose proof (dval_at r 254 ltac:(lia)) as e4. pose proof (dval_at r 253 ltac:(lia)) as e3. pose proof (dval_at r 252 ltac:(lia)) as e2. pose proof (dval_at r 251 ltac:(lia)) as e1.
  rewrite hz in e1, e2, e3, e4 by lia. rewrite Z.mul_0_r, Z.add_0_r in e1, e2, e3, e4.
  pose proof (naf5_bound 256 (firstn 251 r) ltac:(rewrite firstn_length; lia) (naf_firstn _ _ _ hr)) as hb.
  rewrite firstn_length, hl in hb. change (Z.of_nat (Nat.min 251 256) + 3) with 254 in hb.
  rewrite e4, e3, e2, e1 in e. change (2 ^ 255) with (4 * 2 ^ 253) in e. change (2 ^ 254) with (2 * 2 ^ 253) in hb.
  generalize dependent (2 ^ 253). intros B hv e hb. nia.
Qed.
Lemma naf_loop w : forall n k p0 v0, (k + n <= length w)%nat ->
  snd (fold_left (fun (st : Z * Z) j => let (power, wbi) := st in let summand := at_ w j * power in (power + power, wbi + summand)) (seq k n) (p0, v0)) =
  v0 + p0 * dval 2 (firstn n (skipn k w)).
Proof.
  induction n as [|n IH]; intros k p0 v0 h; [cbn; lia|]. cbn [seq fold_left]. rewrite IH by lia.
  assert (e : skipn k w = at_ w k :: skipn (S k) w).
  { clear -h. unfold at_. revert k h. induction w as [|x w IHw]; intros k h; [cbn in h; lia|]. destruct k as [|k]; [reflexivity|]. cbn in h. cbn [skipn nth]. rewrite IHw by lia. reflexivity. }
  rewrite e. cbn [firstn dval]. ring.
Qed.
Lemma test_ComputeScalar5NAF s : bytes 32 s -> t_ComputeScalar5NAF s = Some true.
Proof.
  intro hs. destruct (mask31_ok s hs) as [hm _]. pose proof (mask31_lt s hs) as hv. unfold t_ComputeScalar5NAF. cbv zeta. set (m := mask31 s) in *. clearbody m.
  destruct (computeScalar5NAF_all m hm) as (r & c & e & hl & _ & hc & hc1 & hd). rewrite e.
  assert (c0 : c = 0).
  { destruct (Z.eq_dec c 1) as [e1|]; [|lia]. specialize (hc1 e1). rewrite Z.testbit_odd, Z.shiftr_div_pow2, Z.div_small in hc1 by lia. discriminate hc1. }
  rewrite c0, Z.mul_0_l, Z.sub_0_r in hd.
  pose proof (naf_loop r 255 0 1 0 ltac:(lia)) as hf. rewrite Z.add_0_l, Z.mul_1_l in hf. change (skipn 0 r) with r in hf.
  destruct (fold_left _ (seq 0 255) (1, 0)) as [power wbi]. cbn [snd] in hf. apply f_equal. apply Z.eqb_eq. rewrite hf.
  rewrite naf_top; [|exact hl | exact (proj2 (go_is_naf m r hm e)) | rewrite hd; exact hv]. rewrite hd. unfold big_SetBytes. apply f_equal.
  rewrite <- map_rev. etransitivity; [symmetry; exact (map_nth_seq m)|]. rewrite (proj1 hm). reflexivity.
Qed.

(** ** ristretto_test.go *)
Lemma test_BasePointMultiples b t : bytes 64 t -> t_BasePointMultiples (ops b) (baseTable b) t = true.
Proof.
  intro ht. destruct (rand_reduced t ht) as [hr _]. unfold t_BasePointMultiples. cbv zeta. set (s := sc_rand t) in *. clearbody s.
  pose proof (proj1 (b_baseMult b s hr)) as h1. pose proof (proj1 (b_scalarMult b _ _ s (proj2 (b_const b)) hr)) as h2.
  apply (proj1 (b_equals b _ _ _ _ (proj1 h1) (proj1 h2))). rewrite Eadd_opp. left. reflexivity.
Qed.
Lemma test_ConditionalSet b r1 r2 : bytes 32 r1 -> bytes 32 r2 ->
  (t_ConditionalSet (ops b) r1 r2 = true <-> pt_Equals (ops b) (pt_Rand (ops b) r1) (pt_Rand (ops b) r2) = false).
Proof.
  intros h1 h2. destruct (b_elligator b r1 h1) as (A & hA & _). destruct (b_elligator b r2 h2) as (B & hB & _). unfold t_ConditionalSet, pt_Rand. cbv zeta.
  rewrite (b_condset b _ _ A B false (proj1 hA) (proj1 hB) : pt_ConditionalSet (ops b) (pt_SetElligator (ops b) r1) (pt_SetElligator (ops b) r2) 0 = pt_SetElligator (ops b) r1).
  rewrite (b_condset b _ _ A B true (proj1 hA) (proj1 hB) : pt_ConditionalSet (ops b) (pt_SetElligator (ops b) r1) (pt_SetElligator (ops b) r2) 1 = pt_SetElligator (ops b) r2).
  assert (e : pt_Equals (ops b) (pt_SetElligator (ops b) r2) (pt_SetElligator (ops b) r2) = true).
  { apply (proj1 (b_equals b _ _ _ _ (proj1 hB) (proj1 hB))). rewrite Eadd_opp. left. reflexivity. }
  rewrite e. generalize (pt_Equals (ops b) (pt_SetElligator (ops b) r1) (pt_SetElligator (ops b) r2)). intros []; split; intro h; try discriminate h; reflexivity.
Qed.
Lemma test_LizardInjective b buf1 buf2 : bytes 16 buf1 ->
  (t_LizardInjective (ops b) buf1 buf2 = true <-> forall other, bytes 16 other ->
    pt_Equals (ops b) (pt_SetLizard (ops b) sha256 other) (pt_SetLizard (ops b) sha256 buf1) = true -> other = buf1).
Proof.
  intro h1. destruct (b_lizard b buf2 buf1 h1) as (A & hA & _). unfold t_LizardInjective. cbv zeta.
  destruct (b_roundtrip b b _ A (proj1 hA)) as (Q & B & e & hQ & hin). rewrite e. cbn [negb].
  assert (hQ' : dpoint (laws b) Q B) by (apply pt_dpoint; exact hQ).
  destruct (EllGen.lizard_list (laws b) sha256 Q B buf2 sha256_bytes hQ' (or_intror Elligator51.sha256_special)) as (ds & P' & e2 & nd & hd).
  rewrite e2. clear e2.
  assert (tr : forall d, bytes 16 d -> (pt_Equals (ops b) (pt_SetLizard (ops b) sha256 d) Q = true <->
    pt_Equals (ops b) (pt_SetLizard (ops b) sha256 d) (pt_SetLizard (ops b) sha256 buf1) = true)).
  { intros d hd'. destruct (b_lizard b buf2 d hd') as (D & hD & _).
    rewrite (proj1 (b_equals b _ _ D B (proj1 hD) hQ)), (proj1 (b_equals b _ _ D A (proj1 hD) (proj1 hA))), <- !Points51.Req_torsion.
    apply Points51.Req_torsion in hin. split; intro h; [exact (Req_trans _ _ _ h hin) | exact (Req_trans _ _ _ h (Req_sym _ _ hin))]. }
  assert (h0 : In buf1 ds).
  { apply hd. split; [exact h1|]. apply (tr buf1 h1). apply (proj1 (b_equals b _ _ _ _ (proj1 hA) (proj1 hA))). rewrite Eadd_opp. left. reflexivity. }
  split.
  - intros h other ho he. assert (ho' : In other ds) by (apply hd; split; [exact ho | apply (tr other ho); exact he]).
    destruct ds as [|x [|y r]]; [destruct h0 | | discriminate h]. destruct h0 as [<-|[]]. destruct ho' as [<-|[]]. reflexivity.
  - intro h. assert (ha : forall d, In d ds -> d = buf1) by (intros d hd'; apply hd in hd'; destruct hd' as [g1 g2]; apply h; [exact g1 | apply (tr d g1); exact g2]).
    destruct ds as [|x [|y r]]; [destruct h0 | |].
    + cbn [last]. apply bytes_Equal_iff. symmetry. apply ha. left. reflexivity.
    + exfalso. inversion nd as [|? ? n1 n2]; subst. apply n1. left. rewrite (ha x), (ha y); [reflexivity | right; left; reflexivity | left; reflexivity].
Qed.

(** ** The statements of PropTests.v *)
Lemma tests_scalar :
  (forall a, t_ScPacking a = true) /\ (forall a, 0 <= a < l -> t_ScBigIntPacking a = true) /\
  (forall a b, 0 <= a < l -> 0 <= b < l -> t_ScSub a b = true /\ t_ScAdd a b = true /\ t_ScMul a b = true) /\
  (forall a, 0 <= a < l -> t_ScSquare a = true /\ t_ScNeg a = true) /\
  (forall a b c, 0 <= a < l -> 0 <= b < l -> 0 <= c < l -> t_ScMulSub a b c = true /\ t_ScMulAdd a b c = true) /\
  (forall a b, 0 <= a < l -> 0 <= b < l -> (t_ScInverse a b = true <-> (a * b) mod l = 1 \/ a = 0 /\ b = 0)) /\
  (forall a, 0 <= a < 2 ^ 512 -> t_ScReduced a = true) /\
  (forall s a, 0 <= a < l -> t_ScSetBytesStrict_canonical s a = true) /\
  (forall s a, reduced s -> 0 <= a < 2 ^ 256 - l -> t_ScSetBytesStrict_large s a = true) /\
  (forall r s, bytes 64 r -> t_ScTextMarshaling r s = Some true) /\
  (forall v, 0 <= v < 2 ^ 64 -> t_ScSetUint64 v = true) /\
  (forall r1 r2, bytes 64 r1 -> bytes 64 r2 -> (t_ScConditionalSet r1 r2 = true <-> le_val r1 mod l <> le_val r2 mod l)).
Proof.
  refine (conj test_ScPacking (conj test_ScBigIntPacking (conj _ (conj _ (conj _ (conj test_ScInverse (conj test_ScReduced (conj test_ScSetBytesStrict_canonical
    (conj test_ScSetBytesStrict_large (conj test_ScTextMarshaling (conj test_ScSetUint64 test_ScConditionalSet))))))))))).
  - intros a b ha hb. exact (conj (test_ScSub a b ha hb) (conj (test_ScAdd a b ha hb) (test_ScMul a b ha hb))).
  - intros a ha. exact (conj (test_ScSquare a ha) (test_ScNeg a ha)).
  - intros a b c ha hb hc. exact (conj (test_ScMulSub a b c ha hb hc) (test_ScMulAdd a b c ha hb hc)).
Qed.
Lemma tests_field b :
  (forall a, 0 <= a < p -> t_FeBigIntPacking (ops b) a = true) /\ (forall a, t_FePacking (ops b) a = true) /\
  (forall x y, t_FeMul (ops b) x y = true /\ t_FeSub (ops b) x y = true /\ t_FeAdd (ops b) x y = true) /\
  (forall x, t_FeSquare (ops b) x = true /\ t_FeInvSqrtI (ops b) x = true /\ t_FeSqrt (ops b) x = true) /\
  (forall x y, 0 <= x < p -> 0 <= y < p -> (t_FeInverse (ops b) x y = true <-> (x * y) mod p = 1 \/ x = 0 /\ y = 0)) /\
  t_FeConstants (ops b) = true.
Proof.
  refine (conj (test_FeBigIntPacking (laws b)) (conj (test_FePacking (laws b)) (conj _ (conj _ (conj (test_FeInverse (laws b)) (b_constants b)))))).
  - intros x y. exact (conj (test_FeMul (laws b) x y) (conj (test_FeSub (laws b) x y) (test_FeAdd (laws b) x y))).
  - intros x. exact (conj (test_FeSquare (laws b) x) (conj (test_FeInvSqrtI (laws b) x) (test_FeSqrt (laws b) x))).
Qed.
Lemma tests_curve b buf1 buf2 s : bytes 32 buf1 -> bytes 32 buf2 -> bytes 32 s -> le_val s < 2 ^ 253 ->
  t_PointDouble (ops b) buf1 = Some true /\ t_PointAdd (ops b) buf1 buf2 = Some true /\ t_PointSub (ops b) buf1 buf2 = Some true /\
  t_ScalarMult (ops b) buf1 s = Some true /\ t_RistrettoEqualsI (ops b) buf1 = true /\
  (forall bi, 0 <= bi < l -> bytes 32 (t_ScalarMult_sBuf s bi) /\ le_val (t_ScalarMult_sBuf s bi) < 2 ^ 253).
Proof.
  intros h1 h2 hs hv. exact (conj (test_PointDouble b buf1 h1) (conj (test_PointAdd b buf1 buf2 h1 h2) (conj (test_PointSub b buf1 buf2 h1 h2)
    (conj (test_ScalarMult b buf1 s h1 hs hv) (conj (test_RistrettoEqualsI b buf1 h1) (fun bi => test_ScalarMult_sBuf s bi hs hv)))))).
Qed.
Lemma tests_elligator b buf : bytes 32 buf ->
  t_ElligatorAndRistretto (ops b) buf = Some true /\ t_ElligatorAndRistretto_meant (ops b) buf = Some true /\
  t_ToJacobiQuarticRistretto (ops b) (go_point (ops b) buf) = true /\
  t_ToJacobiQuarticRistretto (ops b) (mkExt (k_zero (ops b)) (k_one (ops b)) (k_one (ops b)) (k_zero (ops b))) = true.
Proof.
  intro hb. destruct (test_ElligatorAndRistretto b buf hb) as [h1 h2]. destruct (gp b buf hb) as (A & P & hA & _).
  exact (conj h1 (conj h2 (conj (test_ToJacobiQuarticRistretto b _ A (proj1 hA)) (test_ToJacobiQuarticRistretto b _ E0 (proj1 (proj1 (b_const b))))))).
Qed.
Lemma tests_inverse b i buf : bytes 32 buf -> Z.even (le_val buf) = true -> le_val buf < 2 ^ 255 ->
  (t_RistrettoElligator2Inverse (ops b) i buf = true <-> le_val buf < p /\ buf <> Elligator51.missed).
Proof. exact (test_RistrettoElligator2Inverse_even b i buf). Qed.
Lemma tests_inverse_fail b i : bytes 32 Elligator51.missed /\ Z.even (le_val Elligator51.missed) = true /\ le_val Elligator51.missed < p /\
  t_RistrettoElligator2Inverse (ops b) i Elligator51.missed = false.
Proof.
  pose proof (fval_range Fsqrt_iod) as hr. assert (hp : p < 2 ^ 255) by (rewrite p_eq; lia).
  assert (hb : bytes 32 Elligator51.missed) by (apply le_bytes_bytes).
  assert (hv : le_val Elligator51.missed = fval Fsqrt_iod) by (unfold Elligator51.missed; apply le_val_le_bytes; change (256 ^ Z.of_nat 32) with (2 * 2 ^ 255); lia).
  pose proof Fsqrt_iod_nonneg as hn. unfold Fneg in hn.
  assert (he : Z.even (le_val Elligator51.missed) = true) by (rewrite hv, <- Z.negb_odd, hn; reflexivity).
  refine (conj hb (conj he (conj _ _))); [rewrite hv; lia|].
  pose proof (proj1 (test_RistrettoElligator2Inverse_even b i _ hb he ltac:(lia))) as h.
  destruct (t_RistrettoElligator2Inverse (ops b) i Elligator51.missed); [exfalso; exact (proj2 (h eq_refl) eq_refl) | reflexivity].
Qed.
Lemma tests_tables b buf1 buf2 s : bytes 32 buf1 -> bytes 32 buf2 -> bytes 32 s ->
  t_AddExtendedNiels (ops b) buf1 buf2 = true /\ t_SubExtendedNiels (ops b) buf1 buf2 = true /\
  t_TableVarTimeBaseScalarMult (ops b) s = Some true /\ t_TableBaseScalarMult (ops b) s = true /\
  t_VarTimeScalarMult (ops b) buf1 s = Some true /\ t_ComputeScalar5NAF s = Some true.
Proof.
  intros h1 h2 hs. destruct (test_ExtendedNiels b buf1 buf2 h1 h2) as [n1 n2].
  exact (conj n1 (conj n2 (conj (test_TableVarTimeBaseScalarMult b s hs) (conj (test_TableBaseScalarMult b s hs)
    (conj (test_VarTimeScalarMult b buf1 s h1 hs) (test_ComputeScalar5NAF s hs)))))).
Qed.
Lemma tests_ristretto b :
  (forall t, bytes 64 t -> t_BasePointMultiples (ops b) (baseTable b) t = true) /\
  (forall r1 r2, bytes 32 r1 -> bytes 32 r2 ->
    (t_ConditionalSet (ops b) r1 r2 = true <-> pt_Equals (ops b) (pt_Rand (ops b) r1) (pt_Rand (ops b) r2) = false)) /\
  (forall buf1 buf2, bytes 16 buf1 ->
    (t_LizardInjective (ops b) buf1 buf2 = true <-> forall other, bytes 16 other ->
      pt_Equals (ops b) (pt_SetLizard (ops b) sha256 other) (pt_SetLizard (ops b) sha256 buf1) = true -> other = buf1)).
Proof. exact (conj (test_BasePointMultiples b) (conj (test_ConditionalSet b) (test_LizardInjective b))). Qed.
(** {1, 0, 1, 0} is no point of the curve *)
Lemma jacobi_off b A : ~ point b (mkExt (k_one (ops b)) (k_zero (ops b)) (k_one (ops b)) (k_zero (ops b))) A.
Proof.
  intro h. destruct h as [[_ (_ & hx & hy & _)] _]. cbn [eX eY eZ eT] in hx, hy.
  assert (e1 : of_Z (value b (k_one (ops b))) = F1) by (destruct b; reflexivity). assert (e0 : of_Z (value b (k_zero (ops b))) = F0) by (destruct b; reflexivity).
  rewrite e1 in hx, hy. rewrite e0 in hy. pose proof (E_on A) as h. unfold on_curve in h.
  replace (ex A * F1)%F with (ex A) in hx by ring. replace (ey A * F1)%F with (ey A) in hy by ring. rewrite <- hx, <- hy in h.
  apply F1_neq_opp. transitivity (F1 + Fd * (F1 * F1) * (F0 * F0))%F; [ring|]. rewrite <- h. ring.
Qed.
