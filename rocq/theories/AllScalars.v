(** Scalar multiplication in package edwards25519 for every 32-byte scalar: which multiple is computed when the
    scalar is too large for the signed digits. *)
From Coq Require Import ZArith Znumtheory List Lia Bool.
From Verif Require Import Words WordsTac Primes Fp Edwards GroupOrder RistrettoSpec FieldModel CurveModel BitFold FieldLaws
  CurveProofs EncodeProofs WindowProofs ScalarMultProofs.
Import ListNotations.
Open Scope Z_scope.

(** [sum of B^i for i < n] *)
Fixpoint ones (B : Z) (n : nat) : Z := match n with O => 0 | S n => 1 + B * ones B n end.

Lemma ones_pow B n : (B - 1) * ones B n + 1 = B ^ Z.of_nat n.
Proof.
  induction n as [|n IH]; [cbn [ones]; change (Z.of_nat 0) with 0; rewrite Z.pow_0_r; ring|]. cbn [ones]. rewrite Nat2Z.inj_succ, Z.pow_succ_r, <- IH by lia. ring.
Qed.
Lemma dval_range B lo hi w : 0 <= B -> digits_in lo hi w -> lo * ones B (length w) <= dval B w <= hi * ones B (length w).
Proof.
  intro hB. induction w as [|d w IH]; intro h; [cbn [dval length ones]; lia|].
  pose proof (Forall_inv h) as h1. pose proof (Forall_inv_tail h) as h2. specialize (IH h2).
  cbn beta in h1. cbn [dval length ones].
  generalize dependent (dval B w). generalize (ones B (length w)). intros r v hv. nia.
Qed.

(** The digits of computeScalarWindow5 below the last one. *)
Lemma window5_all s : bytes 32 s ->
  let w := computeScalarWindow5 s in
  length w = 51%nat /\ (forall i, (i < 50)%nat -> -16 <= at_ w i <= 15) /\ 0 <= at_ w 50 <= 32 /\
  dval 32 w = le_val s mod 2 ^ 255.
Proof.
  intro hs. destruct (window5_raw_ok s hs) as (l0 & r0 & v0 & t0).
  pose proof (window5_loop_ok (window5_raw s) 50 r0 l0 ltac:(lia)) as h.
  cbv zeta. unfold computeScalarWindow5. destruct (for_up 50 window5_step (window5_raw s, 0)) as [w c].
  cbn [w5inv] in h. destruct h as (a1 & a2 & a3 & a4 & a5 & a6 & a7).
  assert (ht : at_ (window5_raw s) 50 <= 31) by (apply (digits_at 0 31); [lia|exact r0]).
  rewrite i8_sm by lia. split; [rewrite upd_length; exact a1|]. split; [|split].
  - intros i hi. rewrite at_upd_neq by lia. apply a3, hi.
  - rewrite at_upd_eq by lia. lia.
  - rewrite dval_upd by lia. lia.
Qed.
Lemma window4_all s : bytes 32 s ->
  let w := computeScalarWindow4 s in
  length w = 64%nat /\ (forall i, (i < 63)%nat -> -8 <= at_ w i <= 7) /\ 0 <= at_ w 63 <= 16 /\
  dval 16 w = le_val s.
Proof.
  intro hs. destruct (window4_raw_ok s hs) as (l0 & r0 & v0 & t0).
  pose proof (window4_loop_ok (window4_raw s) 63 r0 l0 ltac:(lia)) as h.
  cbv zeta. unfold computeScalarWindow4. destruct (for_up 63 window4_step (window4_raw s, 0)) as [w c].
  cbn [w4inv] in h. destruct h as (a1 & a2 & a3 & a6 & a7).
  assert (ht : 0 <= at_ w 63 <= 15) by (rewrite a6 by lia; apply (digits_at 0 15); [lia|exact r0]).
  rewrite i8_sm by lia. split; [rewrite upd_length; exact a1|]. split; [|split].
  - intros i hi. rewrite at_upd_neq by lia. apply a3, hi.
  - rewrite at_upd_eq by lia. lia.
  - rewrite dval_upd by lia. lia.
Qed.

(** the last digit, from the value *)
Lemma top_digit B n lo w v : length w = S n -> (forall i, (i < n)%nat -> - lo <= at_ w i <= B - 1 - lo) -> 1 < B ->
  dval B w = v -> at_ w n = (v + lo * ones B n) / B ^ Z.of_nat n /\ dval B (upd w n 0) = (v + lo * ones B n) mod B ^ Z.of_nat n - lo * ones B n.
Proof.
  intros hl hd hB <-.
  assert (E : w = firstn n w ++ [at_ w n]) by (rewrite <- firstn_S, firstn_all2 by lia; reflexivity).
  assert (hfl : length (firstn n w) = n) by (apply firstn_length_le; lia).
  assert (hr : - lo * ones B n <= dval B (firstn n w) <= (B - 1 - lo) * ones B n).
  { rewrite <- hfl at 1 4. apply dval_range; [lia|]. apply digits_in_iff. intros i hi. rewrite hfl in hi.
    specialize (hd i hi). rewrite E in hd. unfold at_ in *. rewrite app_nth1 in hd by lia. exact hd. }
  assert (V : dval B w = dval B (firstn n w) + B ^ Z.of_nat n * at_ w n).
  { rewrite E at 1. rewrite dval_app, hfl. cbn [dval]. f_equal. ring. }
  rewrite dval_upd by lia. rewrite V. pose proof (ones_pow B n) as hp. set (P := B ^ Z.of_nat n) in *.
  set (R := ones B n) in *. set (u := dval B (firstn n w)) in *. set (t := at_ w n). clearbody P R u t. clear -hr hp.
  assert (hu : 0 <= u + lo * R < P) by lia.
  replace (u + P * t + lo * R) with (u + lo * R + t * P) by ring.
  rewrite Z.div_add, Z.mod_add by lia. rewrite Z.div_small, Z.mod_small by lia. split; ring.
Qed.

(** the multiple of the point that [ScalarMult] computes, by a 32-byte scalar of value [v] *)
Definition sm_multiple (v : Z) : Z :=
  let n := v mod 2 ^ 255 in
  let r := (2 ^ 250 - 1) / 31 in
  if n <=? 2 ^ 254 + 15 * r then n else (n + 16 * r) mod 2 ^ 250 - 16 * r.
(** the multiple of the point that the [ScalarMult] of its table computes *)
Definition tbl_multiple (v : Z) : Z :=
  let r := (2 ^ 252 - 1) / 15 in
  if v <=? 2 ^ 255 + 7 * r then v else (v + 8 * r) mod 2 ^ 252 - 8 * r.

Lemma ones32 : ones 32 50 = (2 ^ 250 - 1) / 31 /\ 32 ^ Z.of_nat 50 = 2 ^ 250.
Proof. split; vm_compute; reflexivity. Qed.
Lemma ones16 : ones 16 63 = (2 ^ 252 - 1) / 15 /\ 16 ^ Z.of_nat 63 = 2 ^ 252.
Proof. split; vm_compute; reflexivity. Qed.

Section All.
Context {K : FeOps} (L : FeLaws K).
Local Notation zv := (ep_zerovalue K).

(** a digit above 16 selects the neutral element *)
Lemma sm_select_big lut A b : (forall j, (j <= 16)%nat -> rf L (nth j lut zv) (Emul (Z.of_nat j) A)) -> 17 <= b <= 32 ->
  sm_select K lut b = sm_select K lut 0.
Proof.
  intros hl hb. unfold sm_select. cbv zeta.
  assert (INV : forall b k, (b = 0 \/ 17 <= b <= 32) -> (k <= 16)%nat -> for_up k (fun k t =>
     ep_ConditionalSet K t (nth (k + 1) lut zv) (Z.lor (equal15 b (i32 (- Z.of_nat (k + 1)))) (equal15 b (i32 (Z.of_nat (k + 1)))))) (nth 0 lut zv) = nth 0 lut zv).
  { clear b hb. intros b k hb. induction k as [|k IH]; intro hk; [reflexivity|]. cbn [for_up]. rewrite IH by lia.
    rewrite !i32_sm by lia. rewrite !equal15_small by lia.
    replace (b =? - Z.of_nat (k + 1)) with false by (symmetry; apply Z.eqb_neq; lia).
    replace (b =? Z.of_nat (k + 1)) with false by (symmetry; apply Z.eqb_neq; lia).
    change (Z.lor (Z.b2z false) (Z.b2z false)) with (Z.b2z false).
    erewrite (ep_ConditionalSet_rf L); [reflexivity|apply hl; lia|apply hl; lia]. }
  rewrite !INV by lia. rewrite !negative_ok by lia.
  replace (b <? 0) with false by (symmetry; apply Z.ltb_ge; lia). reflexivity.
Qed.

Theorem ep_ScalarMult_all q A s : rf L q A -> bytes 32 s ->
  rf L (ep_ScalarMult K q s) (Emul (sm_multiple (le_val s)) A).
Proof.
  intros hq hs. destruct (window5_all s hs) as (wl & wd & wt & wv).
  pose proof (sm_lut_ok L q A hq) as hl. unfold ep_ScalarMult. cbv zeta.
  destruct (top_digit 32 50 16 _ _ wl wd ltac:(lia) wv) as [td tv].
  set (w := computeScalarWindow5 s) in *. set (lut := sm_lut K q) in *. clearbody w lut.
  set (n := le_val s mod 2 ^ 255) in *.
  destruct ones32 as [o1 o2]. rewrite o1, o2 in td, tv. set (r := (2 ^ 250 - 1) / 31) in *.
  assert (hr : 31 * r + 1 = 2 ^ 250) by (vm_compute; reflexivity).
  assert (W : exists w', length w' = 51%nat /\ digits_in (-16) 16 w' /\ dval 32 w' = sm_multiple (le_val s) /\
     forall k, (k <= 51)%nat -> for_up k (fun k p => sm_step K lut w (50 - k) p) (ep_SetZero K) =
               for_up k (fun k p => sm_step K lut w' (50 - k) p) (ep_SetZero K)).
  { unfold sm_multiple. fold n. fold r. cbv zeta. destruct (n <=? 2 ^ 254 + 15 * r) eqn:E.
    - apply Z.leb_le in E. exists w. split; [exact wl|]. split; [|split; [exact wv|reflexivity]].
      assert (ht : at_ w 50 <= 16).
      { rewrite td. apply Z.lt_succ_r. apply Z.div_lt_upper_bound; [lia|]. change (2 ^ 254) with (16 * 2 ^ 250) in E. lia. }
      apply digits_in_iff. intros i hi. rewrite wl in hi. destruct (Nat.eq_dec i 50) as [->|]; [lia|]. specialize (wd i ltac:(lia)). lia.
    - apply Z.leb_gt in E. exists (upd w 50 0). split; [rewrite upd_length; exact wl|]. split; [|split; [exact tv|]].
      + apply digits_in_iff. intros i hi. rewrite upd_length, wl in hi.
        destruct (Nat.eq_dec i 50) as [->|]; [rewrite at_upd_eq by lia; lia|]. rewrite at_upd_neq by lia. specialize (wd i ltac:(lia)). lia.
      + assert (ht : 17 <= at_ w 50).
        { rewrite td. apply Z.div_le_lower_bound; [lia|]. change (2 ^ 254) with (16 * 2 ^ 250) in E. lia. }
        intros k hk. induction k as [|k IH]; [reflexivity|]. cbn [for_up]. rewrite IH by lia. unfold sm_step. cbv zeta. f_equal.
        destruct (Nat.eq_dec k 0) as [->|].
        * change (50 - 0)%nat with 50%nat. rewrite at_upd_eq by lia. apply (sm_select_big lut A); [exact hl|lia].
        * rewrite at_upd_neq by lia. reflexivity. }
  destruct W as (w' & wl' & wd' & wv' & We). rewrite We by lia. clear We. rewrite <- wv'.
  assert (INV : forall k, (k <= 51)%nat -> rf L (for_up k (fun k p => sm_step K lut w' (50 - k) p) (ep_SetZero K)) (Emul (dval 32 (skipn (51 - k) w')) A)).
  { induction k as [|k IH]; intro hk.
    - cbn [for_up]. rewrite skipn_all2 by lia. cbn [dval]. rewrite Emul_0. apply rpt_1, ep_Zero_ok.
    - cbn [for_up]. rewrite dval_skipn by lia. replace (51 - S k)%nat with (50 - k)%nat by lia.
      replace (S (50 - k)) with (51 - k)%nat by lia. apply (sm_step_ok L); [exact hl| |apply IH; lia].
      apply digits_at; [lia|exact wd']. }
  specialize (INV 51%nat (le_n 51)). rewrite (Nat.sub_diag 51), (skipn_O w') in INV. exact INV.
Qed.

(** a digit above 8 selects the neutral element *)
Lemma tbl_select_big t A i b : tbl_ok L (cN L) t A -> (i < 32)%nat -> 9 <= b <= 16 -> tbl_select K t i b = tbl_select K t i 0.
Proof.
  intros [_ ht] hi hb. destruct (ht i hi) as [_ h]. unfold tbl_select. cbv zeta.
  pose proof (cN_le_cL L) as [hc1 hc2].
  assert (hz : rnp L (cN L) (np_SetZero K) E0) by (eapply rnp_le; [exact hc2|apply np_SetZero_ok]).
  assert (Eb : forall b, (b = 0 \/ 9 <= b <= 16) -> i32 (b - i32 (Z.shiftl (Z.land (i32 (- negative b)) b) 1)) = b).
  { clear b hb. intros b hb. rewrite negative_ok by lia. replace (b <? 0) with false by (symmetry; apply Z.ltb_ge; lia). cbn [Z.b2z].
    change (i32 (-(0))) with 0. rewrite Z.land_0_l. change (i32 (Z.shiftl 0 1)) with 0. rewrite i32_sm; lia. }
  rewrite !Eb by lia.
  assert (INV : forall b k, (b = 0 \/ 9 <= b <= 16) -> (k <= 8)%nat -> for_up k (fun k p =>
     np_ConditionalSet K p (tbl_at K t i k) (equal30 b (i32 (Z.of_nat k + 1)))) (np_SetZero K) = np_SetZero K).
  { clear b hb Eb. intros b k hb. induction k as [|k IH]; intro hk; [reflexivity|]. cbn [for_up]. rewrite IH by lia.
    rewrite i32_sm by lia. rewrite equal30_ok by lia.
    replace (b =? Z.of_nat k + 1) with false by (symmetry; apply Z.eqb_neq; lia).
    rewrite (np_ConditionalSet_ok L (cN L) (cN L) _ _ _ _ _ hz (h k ltac:(lia)) hc1 hc1). reflexivity. }
  rewrite !INV by lia. rewrite !negative_ok by lia.
  replace (b <? 0) with false by (symmetry; apply Z.ltb_ge; lia). reflexivity.
Qed.

Theorem tbl_ScalarMult_all t A s : tbl_ok L (cN L) t A -> bytes 32 s ->
  rf L (tbl_ScalarMult K t s) (Emul (tbl_multiple (le_val s)) A).
Proof.
  intros ht hs. destruct (window4_all s hs) as (wl & wd & wt & wv). unfold tbl_ScalarMult. cbv zeta.
  destruct (top_digit 16 63 8 _ _ wl wd ltac:(lia) wv) as [td tv].
  set (w := computeScalarWindow4 s) in *. clearbody w. set (n := le_val s) in *.
  destruct ones16 as [o1 o2]. rewrite o1, o2 in td, tv. set (r := (2 ^ 252 - 1) / 15) in *.
  assert (hr : 15 * r + 1 = 2 ^ 252) by (vm_compute; reflexivity).
  assert (W : exists w', length w' = 64%nat /\ digits_in (-8) 8 w' /\ dval 16 w' = tbl_multiple n /\
     (forall i, (i < 32)%nat -> tbl_select K t i (at_ w (2 * i + 1)) = tbl_select K t i (at_ w' (2 * i + 1))) /\
     (forall i, (i < 32)%nat -> at_ w (2 * i) = at_ w' (2 * i))).
  { unfold tbl_multiple. fold r. cbv zeta. destruct (n <=? 2 ^ 255 + 7 * r) eqn:E.
    - apply Z.leb_le in E. exists w. split; [exact wl|]. split; [|split; [exact wv|split; reflexivity]].
      assert (ht8 : at_ w 63 <= 8).
      { rewrite td. apply Z.lt_succ_r. apply Z.div_lt_upper_bound; [lia|]. change (2 ^ 255) with (8 * 2 ^ 252) in E. lia. }
      apply digits_in_iff. intros i hi. rewrite wl in hi. destruct (Nat.eq_dec i 63) as [->|]; [lia|]. specialize (wd i ltac:(lia)). lia.
    - apply Z.leb_gt in E. exists (upd w 63 0). split; [rewrite upd_length; exact wl|]. split; [|split; [exact tv|split]].
      + apply digits_in_iff. intros i hi. rewrite upd_length, wl in hi.
        destruct (Nat.eq_dec i 63) as [->|]; [rewrite at_upd_eq by lia; lia|]. rewrite at_upd_neq by lia. specialize (wd i ltac:(lia)). lia.
      + assert (ht9 : 9 <= at_ w 63).
        { rewrite td. apply Z.div_le_lower_bound; [lia|]. change (2 ^ 255) with (8 * 2 ^ 252) in E. lia. }
        intros i hi. destruct (Nat.eq_dec i 31) as [->|].
        * change (2 * 31 + 1)%nat with 63%nat. rewrite at_upd_eq by lia. apply (tbl_select_big t A); [exact ht|lia|lia].
        * rewrite at_upd_neq by lia. reflexivity.
      + intros i hi. rewrite at_upd_neq by lia. reflexivity. }
  destruct W as (w' & wl' & wd' & wv' & We1 & We0). rewrite <- wv'.
  pose proof (tbl_pass_ok L t A w' 1 (ep_SetZero K) 0 32 ht wd' (rpt_1 L _ _ (ep_Zero_ok L)) ltac:(lia)) as h1.
  rewrite Z.add_0_l in h1. apply (tbl_dbl4_ok L) in h1.
  pose proof (tbl_pass_ok L t A w' 0 _ _ 32 ht wd' h1 ltac:(lia)) as h2.
  rewrite <- hsum_dval, firstn_all2 in h2 by lia.
  assert (EX1 : forall p k, (k <= 32)%nat -> for_up k (fun i p => ep_SetCompleted K (cp_AddExtendedNiels K p (tbl_select K t i (at_ w (2 * i + 1))))) p =
     for_up k (fun i p => ep_SetCompleted K (cp_AddExtendedNiels K p (tbl_select K t i (at_ w' (2 * i + 1))))) p).
  { intros p k hk. induction k as [|k IH]; [reflexivity|]. cbn [for_up]. rewrite IH, We1 by lia. reflexivity. }
  assert (EX0 : forall p k, (k <= 32)%nat -> for_up k (fun i p => ep_SetCompleted K (cp_AddExtendedNiels K p (tbl_select K t i (at_ w (2 * i))))) p =
     for_up k (fun i p => ep_SetCompleted K (cp_AddExtendedNiels K p (tbl_select K t i (at_ w' (2 * i + 0))))) p).
  { intros p k hk. induction k as [|k IH]; [reflexivity|]. cbn [for_up]. rewrite IH, We0, Nat.add_0_r by lia. reflexivity. }
  rewrite EX0, EX1 by lia. exact h2.
Qed.

(** the variable time version of the table multiplication indexes the row of 8 with the digit less 1 *)
Theorem tbl_VarTimeScalarMult_all t A s : tbl_ok L (cN L) t A -> bytes 32 s ->
  (le_val s <= 2 ^ 255 + 7 * ((2 ^ 252 - 1) / 15) -> exists r, tbl_VarTimeScalarMult K t s = Some r /\ rf L r (Emul (le_val s) A)) /\
  (2 ^ 255 + 7 * ((2 ^ 252 - 1) / 15) < le_val s -> tbl_VarTimeScalarMult K t s = None).
Proof.
  intros ht hs. destruct (window4_all s hs) as (wl & wd & wt & wv).
  destruct (top_digit 16 63 8 _ _ wl wd ltac:(lia) wv) as [td _]. unfold tbl_VarTimeScalarMult. cbv zeta.
  set (w := computeScalarWindow4 s) in *. clearbody w. set (n := le_val s) in *.
  destruct ones16 as [o1 o2]. rewrite o1, o2 in td. set (r := (2 ^ 252 - 1) / 15) in *.
  assert (hr : 15 * r + 1 = 2 ^ 252) by (vm_compute; reflexivity).
  split; intro E.
  - assert (ht8 : at_ w 63 <= 8).
    { rewrite td. apply Z.lt_succ_r. apply Z.div_lt_upper_bound; [lia|]. change (2 ^ 255) with (8 * 2 ^ 252) in E. lia. }
    assert (wd8 : digits_in (-8) 8 w).
    { apply digits_in_iff. intros i hi. rewrite wl in hi. destruct (Nat.eq_dec i 63) as [->|]; [lia|]. specialize (wd i ltac:(lia)). lia. }
    destruct (tbl_vtpass_ok L t A w 1 (ep_SetZero K) 0 32 ht wd8 (rpt_1 L _ _ (ep_Zero_ok L)) ltac:(lia)) as [r1 [-> h1]].
    rewrite Z.add_0_l in h1. apply (tbl_dbl4_ok L) in h1. cbn [option_map].
    destruct (tbl_vtpass_ok L t A w 0 _ _ 32 ht wd8 h1 ltac:(lia)) as [r2 [e2 h2]].
    rewrite <- hsum_dval, firstn_all2, wv in h2 by lia.
    exists r2. split; [|exact h2]. rewrite <- e2.
    assert (EX : forall p k, for_up k (fun i p => tbl_vtStep K t i (at_ w (2 * i + 0)) p) p =
       for_up k (fun i p => tbl_vtStep K t i (at_ w (2 * i)) p) p).
    { intros p k. induction k as [|k IH]; [reflexivity|]. cbn [for_up]. rewrite IH, Nat.add_0_r. reflexivity. }
    symmetry. apply EX.
  - assert (ht9 : 9 <= at_ w 63).
    { rewrite td. apply Z.div_le_lower_bound; [lia|]. change (2 ^ 255) with (8 * 2 ^ 252) in E. lia. }
    assert (N : forall k f, (forall i, f i None = None) -> for_up k f (None : option (ext (fe K))) = None).
    { intros k f hf. induction k as [|k IH]; [reflexivity|]. cbn [for_up]. rewrite IH. apply hf. }
    assert (S0 : forall i b, tbl_vtStep K t i b None = None).
    { intros i b. reflexivity. }
    assert (P1 : for_up 32 (fun i p => tbl_vtStep K t i (at_ w (2 * i + 1)) p) (Some (ep_SetZero K)) = None).
    { change (for_up 32 ?f ?x) with (f 31%nat (for_up 31 f x)). cbn beta. change (2 * 31 + 1)%nat with 63%nat.
      destruct (for_up 31 (fun i p => tbl_vtStep K t i (at_ w (2 * i + 1)) p) (Some (ep_SetZero K))) as [p0|]; [|apply S0].
      unfold tbl_vtStep, tbl_vtSelect. destruct ht as [_ ht]. destruct (ht 31%nat ltac:(lia)) as [hl _].
      replace (at_ w 63 =? 0) with false by (symmetry; apply Z.eqb_neq; lia).
      replace (at_ w 63 <? 0) with false by (symmetry; apply Z.ltb_ge; lia).
      rewrite i32_sm by lia. cbv zeta.
      rewrite (proj2 (nth_error_None (nth 31 t []) (Z.to_nat (at_ w 63 - 1)))) by lia. reflexivity. }
    rewrite P1. cbn [option_map]. apply N. intro i. apply S0.
Qed.

(** ** the variable time multiplication: the carry out of the highest digit is lost *)
Lemma naf_loop_all s fuel pos c naf : bytes 32 s -> (256 - pos <= fuel)%nat ->
  length naf = 256%nat -> Forall naf_digit naf -> (forall i, (pos <= i)%nat -> at_ naf i = 0) ->
  0 <= c <= 1 -> (c = 1 -> (0 < pos)%nat /\ Z.testbit (le_val s) (Z.of_nat pos - 1) = true) ->
  dval 2 naf + c * 2 ^ Z.of_nat pos = le_val s mod 2 ^ Z.of_nat pos ->
  exists naf' c', naf_loop fuel (naf_words s) pos c naf = Some naf' /\
    length naf' = 256%nat /\ Forall naf_digit naf' /\ 0 <= c' <= 1 /\
    (c' = 1 -> Z.testbit (le_val s) 255 = true) /\ dval 2 naf' = le_val s - c' * 2 ^ 256.
Proof.
  intros hs. assert (hV0 : 0 <= le_val s < 2 ^ 256).
  { destruct hs as [hl hf]. pose proof (le_val_range _ hf) as h. rewrite hl in h. exact h. }
  assert (DONE : forall pos c naf, (256 <= pos)%nat -> length naf = 256%nat -> Forall naf_digit naf ->
    0 <= c <= 1 -> (c = 1 -> (0 < pos)%nat /\ Z.testbit (le_val s) (Z.of_nat pos - 1) = true) ->
    dval 2 naf + c * 2 ^ Z.of_nat pos = le_val s mod 2 ^ Z.of_nat pos ->
    exists naf' c', Some naf = Some naf' /\ length naf' = 256%nat /\ Forall naf_digit naf' /\ 0 <= c' <= 1 /\
      (c' = 1 -> Z.testbit (le_val s) 255 = true) /\ dval 2 naf' = le_val s - c' * 2 ^ 256).
  { clear pos c naf. intros pos c naf hp hl hd hc hc1 hv. exists naf, c. split; [reflexivity|]. split; [exact hl|]. split; [exact hd|].
    split; [exact hc|].
    assert (lt' : le_val s < 2 ^ Z.of_nat pos).
    { apply Z.lt_le_trans with (2 ^ 256); [lia|]. apply Z.pow_le_mono_r; lia. }
    rewrite Z.mod_small in hv by lia.
    destruct (Z.eq_dec c 1) as [->|hc0].
    - destruct (hc1 eq_refl) as [_ hb]. assert (pos = 256%nat) as ->.
      { destruct (Nat.eq_dec pos 256) as [e|n]; [exact e|exfalso].
        rewrite Z.bits_above_log2 in hb; [discriminate|lia|].
        destruct (Z.eq_dec (le_val s) 0) as [->|]; [change (Z.log2 0) with 0; lia|].
        apply Z.log2_lt_pow2; [lia|]. apply Z.lt_le_trans with (2 ^ 256); [lia|]. apply Z.pow_le_mono_r; lia. }
      split; [intros _; exact hb|]. change (Z.of_nat 256) with 256 in hv. lia.
    - replace c with 0 in * by lia. split; [lia|]. lia. }
  revert pos c naf. induction fuel as [|fuel IH]; intros pos c naf hf hl hd hz hc hc1 hv.
  - cbn [naf_loop]. replace (Nat.ltb pos 256) with false by (symmetry; apply Nat.ltb_ge; lia). apply (DONE pos c); try assumption; lia.
  - cbn [naf_loop]. destruct (Nat.ltb pos 256) eqn:Ep.
    2: { apply Nat.ltb_ge in Ep. apply (DONE pos c); assumption. }
    apply Nat.ltb_lt in Ep. cbv zeta. fold (naf_buf (naf_words s) pos). rewrite naf_buf_ok by assumption.
    set (V := le_val s) in *. set (P := 2 ^ Z.of_nat pos) in *.
    assert (hP : 0 < P) by (apply Z.pow_pos_nonneg; lia).
    set (u := V / P mod 32). assert (hu : 0 <= u < 32) by (apply Z.mod_pos_bound; lia).
    assert (M5 : V mod 2 ^ Z.of_nat (pos + 5) = V mod P + P * u).
    { replace (Z.of_nat (pos + 5)) with (Z.of_nat pos + 5) by lia. rewrite Z.pow_add_r by lia. fold P. apply Z.rem_mul_r; lia. }
    assert (M1 : V mod 2 ^ Z.of_nat (pos + 1) = V mod P + P * (u mod 2)).
    { replace (Z.of_nat (pos + 1)) with (Z.of_nat pos + 1) by lia. rewrite Z.pow_add_r by lia. fold P. change (2 ^ 1) with 2.
      rewrite Z.rem_mul_r by lia. f_equal. f_equal. unfold u. generalize (V / P). intro t. clear. Z.to_euclidean_division_equations; lia. }
    assert (Tb : forall n, 0 <= n < 5 -> Z.testbit V (Z.of_nat pos + n) = Z.testbit u n).
    { intros n hn. unfold u. change 32 with (2 ^ 5). rewrite Z.mod_pow2_bits_low by lia. unfold P. rewrite Z.div_pow2_bits by lia. f_equal. lia. }
    assert (Ew : u64 (c + u) = c + u) by (unfold u64; apply Z.mod_small; lia). rewrite Ew.
    assert (El : Z.land (c + u) 1 = (c + u) mod 2) by (change 1 with (Z.ones 1) at 1; apply Z.land_ones; lia). rewrite El.
    assert (P5 : 2 ^ Z.of_nat (pos + 5) = 32 * P).
    { replace (Z.of_nat (pos + 5)) with (5 + Z.of_nat pos) by lia. rewrite Z.pow_add_r by lia. reflexivity. }
    assert (P1 : 2 ^ Z.of_nat (pos + 1) = 2 * P).
    { replace (Z.of_nat (pos + 1)) with (1 + Z.of_nat pos) by lia. rewrite Z.pow_add_r by lia. reflexivity. }
    assert (DG : forall d, naf_digit d -> Forall naf_digit (upd naf pos d)).
    { intros d hdd. apply Forall_forall. intros x hx. apply In_nth with (d := 0) in hx. destruct hx as [i [hi <-]].
      rewrite upd_length in hi. destruct (Nat.eq_dec pos i) as [<-|n]; [rewrite nth_upd_eq by exact hi; exact hdd|].
      rewrite nth_upd_neq by exact n. rewrite Forall_forall in hd. apply hd, nth_In, hi. }
    destruct ((c + u) mod 2 =? 0) eqn:Ez.
    + apply Z.eqb_eq in Ez. assert (hb : c = u mod 2) by (clear -Ez hc; Z.to_euclidean_division_equations; lia).
      apply IH; try assumption; try (rewrite M1, P1, <- hb); try lia.
      * intros i hi. apply hz. lia.
      * intro hc'. split; [lia|]. replace (Z.of_nat (pos + 1) - 1) with (Z.of_nat pos + 0) by lia. rewrite Tb by lia.
        rewrite Z.bit0_odd. rewrite Zmod_odd in hb. destruct (Z.odd u); [reflexivity|lia].
    + apply Z.eqb_neq in Ez.
      assert (ho : Z.odd (c + u) = true) by (rewrite Zmod_odd in Ez; destruct (Z.odd (c + u)); [reflexivity|lia]).
      destruct (c + u <? 16) eqn:E16.
      * apply Z.ltb_lt in E16. rewrite i8_sm by lia. apply IH; try lia.
        -- rewrite upd_length. exact hl.
        -- apply DG. right. split; [lia|exact ho].
        -- intros i hi. rewrite at_upd_neq by lia. apply hz. lia.
        -- rewrite dval_upd by lia. rewrite hz by lia. fold P. rewrite M5. lia.
      * apply Z.ltb_ge in E16. assert (c + u <> 32) by (intro e; rewrite e in ho; discriminate).
        assert (c + u <> 16) by (intro e; rewrite e in ho; discriminate).
        rewrite (i8_sm (c + u)) by lia. rewrite i8_sm by lia. apply IH; try lia.
        -- rewrite upd_length. exact hl.
        -- apply DG. right. split; [lia|]. rewrite Z.odd_sub, ho. reflexivity.
        -- intros i hi. rewrite at_upd_neq by lia. apply hz. lia.
        -- intros _. split; [lia|]. replace (Z.of_nat (pos + 5) - 1) with (Z.of_nat pos + 4) by lia. rewrite Tb by lia.
           assert (16 <= u) by (destruct (Z.eq_dec (c + u) 16) as [e|]; [rewrite e in ho; discriminate|lia]).
           rewrite Z.testbit_odd, shr by lia. change (2 ^ 4) with 16. replace (u / 16) with 1 by (Z.to_euclidean_division_equations; lia). reflexivity.
        -- rewrite dval_upd by lia. rewrite hz by lia. fold P. rewrite M5, P5. lia.
Qed.

Lemma computeScalar5NAF_all s : bytes 32 s ->
  exists naf c, computeScalar5NAF s = Some naf /\ length naf = 256%nat /\ Forall naf_digit naf /\ 0 <= c <= 1 /\
    (c = 1 -> Z.testbit (le_val s) 255 = true) /\ dval 2 naf = le_val s - c * 2 ^ 256.
Proof.
  intros hs. unfold computeScalar5NAF. fold (naf_words s). apply (naf_loop_all s); try assumption; try lia.
  - apply repeat_length.
  - apply Forall_forall. intros x hx. apply repeat_spec in hx. left. exact hx.
  - intros i _. unfold at_. destruct (Nat.lt_ge_cases i 256) as [h|h]; [apply nth_repeat|].
    apply nth_overflow. rewrite repeat_length. exact h.
  - rewrite dval_repeat0, Z.mod_1_r. reflexivity.
Qed.

Theorem ep_VarTimeScalarMult_all q A s : rf L q A -> bytes 32 s ->
  exists naf r, computeScalar5NAF s = Some naf /\ (dval 2 naf = le_val s \/ dval 2 naf = le_val s - 2 ^ 256) /\
    (le_val s < 2 ^ 255 -> dval 2 naf = le_val s) /\
    ep_VarTimeScalarMult K q s = Some r /\ rf L r (Emul (dval 2 naf) A).
Proof.
  intros hq hs. destruct (computeScalar5NAF_all s hs) as (naf & c & E & nl & nd & hc & hb & nv).
  destruct (vt_lut_ok L q A hq) as [ll hl]. unfold ep_VarTimeScalarMult. cbv zeta. exists naf.
  assert (N1 : dval 2 naf = le_val s \/ dval 2 naf = le_val s - 2 ^ 256).
  { assert (c = 0 \/ c = 1) as [->| ->] by lia; [left|right]; lia. }
  assert (N2 : le_val s < 2 ^ 255 -> dval 2 naf = le_val s).
  { intro hv. destruct (Z.eq_dec c 1) as [->|]; [|replace c with 0 in nv by lia; lia].
    specialize (hb eq_refl). pose proof (le_val_range _ (proj2 hs)) as hr.
    destruct (Z.eq_dec (le_val s) 0) as [e|]; [rewrite e, Z.bits_0 in hb; discriminate|].
    rewrite Z.bits_above_log2 in hb; [discriminate|lia|]. apply Z.log2_lt_pow2; lia. }
  rewrite E.
  pose proof (vt_skip_ok naf 256 nl ltac:(lia)) as h. rewrite skipn_all2 in h by lia. specialize (h eq_refl).
  destruct (vt_skip naf 256) as [|i].
  - eexists. refine (conj eq_refl (conj N1 (conj N2 (conj eq_refl _)))). rewrite h, Emul_0. apply rpt_1, ep_Zero_ok.
  - destruct h as (h1 & h2 & h3).
    destruct (vt_loop_ok L (vt_lut K q) naf A 257 i (ep_SetZero K) ll hl nl nd ltac:(lia) h1 h2) as [r [e hr]].
    + rewrite h3. change (2 * 0) with 0. rewrite Emul_0. apply rpt_1, ep_Zero_ok.
    + exists r. exact (conj eq_refl (conj N1 (conj N2 (conj e (rpt_1 L _ _ hr))))).
Qed.

End All.
