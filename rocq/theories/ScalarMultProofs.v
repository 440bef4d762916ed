(** Scalar multiplication: ScalarMult, VarTimeScalarMult, the tables of Niels points and
    the multiplications that use them compute the multiple of the point. *)
From Coq Require Import ZArith List Lia Bool.
From Verif Require Import Words WordsTac Fp Edwards FieldModel CurveModel BitFold FieldLaws CurveProofs WindowProofs.
Import ListNotations.
Open Scope Z_scope.

Lemma Emul_dbl n A : Eadd (Emul n A) (Emul n A) = Emul (2 * n) A.
Proof. rewrite <- Emul_add. f_equal. lia. Qed.

Lemma Emul_S n A : Eadd (Emul n A) A = Emul (n + 1) A.
Proof. symmetry. apply Emul_succ. Qed.

Lemma dval_skipn B w i : (i < length w)%nat -> dval B (skipn i w) = at_ w i + B * dval B (skipn (S i) w).
Proof.
  revert i. induction w as [|d w IH]; intros [|i] h; cbn [length] in h; try lia; [reflexivity|].
  cbn [skipn]. rewrite IH by lia. reflexivity.
Qed.

Lemma i32_sm x : -2147483648 <= x < 2147483648 -> i32 x = x.
Proof. intro h. unfold i32. rewrite Z.mod_small; lia. Qed.

Section SM.
Context {K : FeOps} (L : FeLaws K).
Local Notation FE := (fe K).
Local Notation zv := (ep_zerovalue K).

Lemma cN_le_cL : cN L <= cL L /\ 1 <= cN L.
Proof. pose proof (cL_ge K L). pose proof (cN_rng K L). lia. Qed.

(** ** ScalarMult *)
Lemma sm_lut_ok q A : rf L q A ->
  forall j, (j <= 16)%nat -> rf L (nth j (sm_lut K q) zv) (Emul (Z.of_nat j) A).
Proof.
  intro hq. unfold sm_lut. cbv zeta.
  set (step := fun k lut => upd (upd lut (2 * k + 2) _) _ _).
  assert (INV : forall k, (k <= 7)%nat -> let lut := for_up k step (upd (upd (repeat zv 17) 0 (ep_SetZero K)) 1 q) in
    length lut = 17%nat /\ forall j, (j <= 2 * k + 1)%nat -> rf L (nth j lut zv) (Emul (Z.of_nat j) A)).
  { induction k as [|k IH]; intro hk; cbv zeta.
    - cbn [for_up]. split; [rewrite !upd_length; apply repeat_length|]. intros j hj.
      assert (j = 0 \/ j = 1)%nat as [->| ->] by lia.
      + apply rpt_1, ep_Zero_ok.
      + exact hq.
    - specialize (IH ltac:(lia)). cbv zeta in IH. cbn [for_up]. destruct IH as [hl IH].
      set (lut := for_up k step _) in *. clearbody lut. unfold step. split; [rewrite !upd_length; exact hl|].
      replace (Nat.div (2 * k + 2) 2) with (k + 1)%nat by (replace (2 * k + 2)%nat with ((k + 1) * 2)%nat by lia; rewrite Nat.div_mul; lia).
      assert (hE : rf L (ep_Double K (nth (k + 1) lut zv)) (Emul (Z.of_nat (2 * k + 2)) A)).
      { replace (Z.of_nat (2 * k + 2)) with (2 * Z.of_nat (k + 1)) by lia. rewrite <- Emul_dbl.
        apply rpt_1, ep_Double_rf, IH. lia. }
      intros j hj. destruct (Nat.eq_dec j (2 * k + 2 + 1)) as [->|n1].
      + rewrite nth_upd_eq by (rewrite upd_length; lia). rewrite nth_upd_eq by lia.
        replace (Z.of_nat (2 * k + 2 + 1)) with (Z.of_nat (2 * k + 2) + 1) by lia. rewrite <- Emul_S.
        apply rpt_1, ep_Add_rf; assumption.
      + rewrite nth_upd_neq by lia. destruct (Nat.eq_dec j (2 * k + 2)) as [->|n2].
        * rewrite nth_upd_eq by lia. exact hE.
        * rewrite nth_upd_neq by lia. apply IH. lia. }
  specialize (INV 7%nat ltac:(lia)). cbv zeta in INV. destruct INV as [hl INV].
  set (lut := for_up 7 step _) in *. clearbody lut. intros j hj.
  destruct (Nat.eq_dec j 16) as [->|n].
  - rewrite nth_upd_eq by lia. change (Z.of_nat 16) with (2 * Z.of_nat 8). rewrite <- Emul_dbl.
    apply rpt_1, ep_Double_rf, INV. lia.
  - rewrite nth_upd_neq by lia. apply INV. lia.
Qed.

Lemma cond_neg_ok t A b : rf L t A ->
  let v := o_neg K (eX t) in
  let t := mkExt (o_condSet K (eX t) v (Z.b2z b)) (eY t) (eZ t) (eT t) in
  let v := o_neg K (eT t) in
  rf L (mkExt (eX t) (eY t) (eZ t) (o_condSet K (eT t) v (Z.b2z b))) (if b then Eopp A else A).
Proof.
  intro h. pose proof h as [(z & hz & h1 & h2 & h3 & h4) hf]. fe_facts L. cbv zeta. cbn [eX eY eZ eT].
  pose proof (law_neg K L 2 _ _ h1 ltac:(lia)) as n1. pose proof (law_neg K L 2 _ _ h4 ltac:(lia)) as n4.
  rewrite (law_condSet K L 2 (Z.max (cN L) 2) _ _ _ _ b h1 n1) by lia.
  rewrite (law_condSet K L 2 (Z.max (cN L) 2) _ _ _ _ b h4 n4) by lia.
  destruct b; [exact (ep_Neg_rf L t A h)|]. destruct t. exact h.
Qed.

Lemma sm_select_ok lut A b : (forall j, (j <= 16)%nat -> rf L (nth j lut zv) (Emul (Z.of_nat j) A)) ->
  -16 <= b <= 16 -> rf L (sm_select K lut b) (Emul b A).
Proof.
  intros hl hb. unfold sm_select. cbv zeta.
  set (step := fun k t => ep_ConditionalSet K t _ _).
  assert (INV : forall k, (k <= 16)%nat -> for_up k step (nth 0 lut zv) = nth (if Z.abs b <=? Z.of_nat k then Z.to_nat (Z.abs b) else 0%nat) lut zv).
  { induction k as [|k IH]; intro hk.
    - cbn [for_up]. f_equal. destruct (Z.abs b <=? Z.of_nat 0) eqn:E; [apply Z.leb_le in E; lia|reflexivity].
    - cbn [for_up]. rewrite IH by lia. unfold step. rewrite !i32_sm by lia. rewrite !equal15_small by lia. rewrite lor_b2z.
      erewrite (ep_ConditionalSet_rf L); [|apply hl; destruct (_ <=? _) eqn:E; [apply Z.leb_le in E|]; lia|apply hl; lia].
      destruct ((b =? - Z.of_nat (k + 1)) || (b =? Z.of_nat (k + 1))) eqn:Eb.
      + assert (Z.abs b = Z.of_nat (k + 1)) as -> by (apply orb_true_iff in Eb; rewrite !Z.eqb_eq in Eb; lia).
        replace (Z.of_nat (k + 1) <=? Z.of_nat (S k)) with true by (symmetry; apply Z.leb_le; lia). rewrite Nat2Z.id. reflexivity.
      + apply orb_false_iff in Eb. rewrite !Z.eqb_neq in Eb. f_equal.
        destruct (Z.abs b <=? Z.of_nat k) eqn:E1, (Z.abs b <=? Z.of_nat (S k)) eqn:E2; try reflexivity;
          rewrite ?Z.leb_le, ?Z.leb_gt in *; lia. }
  rewrite INV by lia. replace (Z.abs b <=? Z.of_nat 16) with true by (symmetry; apply Z.leb_le; lia).
  rewrite negative_ok by lia.
  pose proof (hl (Z.to_nat (Z.abs b)) ltac:(lia)) as h0. rewrite Z2Nat.id in h0 by lia.
  pose proof (cond_neg_ok _ _ (b <? 0) h0) as h. cbv zeta in h. cbn [eX eY eZ eT] in h |- *.
  destruct (b <? 0) eqn:E.
  - apply Z.ltb_lt in E. rewrite <- Emul_opp in h. replace (- Z.abs b) with b in h by lia. exact h.
  - apply Z.ltb_ge in E. replace (Emul b A) with (Emul (Z.abs b) A) by (f_equal; lia). exact h.
Qed.

Lemma sm_step_ok lut w A i p V : (forall j, (j <= 16)%nat -> rf L (nth j lut zv) (Emul (Z.of_nat j) A)) ->
  -16 <= at_ w i <= 16 -> rf L p (Emul V A) ->
  rf L (sm_step K lut w i p) (Emul (at_ w i + 32 * V) A).
Proof.
  intros hl hb hp. unfold sm_step. cbv zeta. unfold go_for. change (4 - 0)%nat with 4%nat. cbn [Nat.iter nat_rect].
  rewrite Z.add_comm, Emul_add. apply rpt_1, ep_Add_rf; [|apply sm_select_ok; assumption].
  apply rpt_1, rct_ext.
  replace (32 * V) with (2 * (2 * (2 * (2 * (2 * V))))) by lia. rewrite <- !Emul_dbl.
  do 4 (apply cp_DoubleProjective_ok, rct_proj). apply cp_DoubleExtended_rf, hp.
Qed.

Theorem ep_ScalarMult_ok q A s : rf L q A -> bytes 32 s -> le_val s < 2 ^ 254 ->
  rf L (ep_ScalarMult K q s) (Emul (le_val s) A).
Proof.
  intros hq hs hv. destruct (computeScalarWindow5_ok s hs hv) as (wl & wd & wv).
  pose proof (sm_lut_ok q A hq) as hl. unfold ep_ScalarMult. cbv zeta.
  set (w := computeScalarWindow5 s) in *. set (lut := sm_lut K q) in *. clearbody w lut.
  assert (INV : forall k, (k <= 51)%nat -> rf L (for_up k (fun k p => sm_step K lut w (50 - k) p) (ep_SetZero K)) (Emul (dval 32 (skipn (51 - k) w)) A)).
  { induction k as [|k IH]; intro hk.
    - cbn [for_up]. rewrite skipn_all2 by lia. cbn [dval]. rewrite Emul_0. apply rpt_1, ep_Zero_ok.
    - cbn [for_up]. rewrite dval_skipn by lia. replace (51 - S k)%nat with (50 - k)%nat by lia.
      replace (S (50 - k)) with (51 - k)%nat by lia. apply sm_step_ok; [exact hl| |apply IH; lia].
      apply digits_at; [lia|exact wd]. }
  specialize (INV 51%nat (le_n 51)). rewrite (Nat.sub_diag 51), (skipn_O w), wv in INV. exact INV.
Qed.

(** ** VarTimeScalarMult *)
Lemma vt_lut_ok q A : rf L q A -> length (vt_lut K q) = 8%nat /\
  forall j, (j < 8)%nat -> rf L (nth j (vt_lut K q) zv) (Emul (2 * Z.of_nat j + 1) A).
Proof.
  intro hq. unfold vt_lut. cbv zeta. set (step := fun k lut => upd lut _ _).
  assert (INV : forall k, (k <= 7)%nat -> let lut := for_up k step (upd (repeat zv 8) 0 q) in
    length lut = 8%nat /\ forall j, (j < k + 1)%nat -> rf L (nth j lut zv) (Emul (2 * Z.of_nat j + 1) A)).
  { induction k as [|k IH]; intro hk; cbv zeta.
    - cbn [for_up]. split; [rewrite upd_length; apply repeat_length|]. intros j hj. replace j with 0%nat by lia. exact hq.
    - specialize (IH ltac:(lia)). cbv zeta in IH. destruct IH as [hl IH]. cbn [for_up].
      set (lut := for_up k step _) in *. clearbody lut. unfold step. split; [rewrite upd_length; exact hl|].
      intros j hj. destruct (Nat.eq_dec j (k + 1)) as [->|n]; [|rewrite nth_upd_neq by lia; apply IH; lia].
      rewrite nth_upd_eq by lia. replace (k + 1 - 1)%nat with k by lia.
      replace (2 * Z.of_nat (k + 1) + 1) with ((2 * Z.of_nat k + 1) + 2) by lia. rewrite Emul_add, Emul_2.
      apply rpt_1, ep_Add_rf; [apply IH; lia|]. apply rpt_1, ep_Double_rf, hq. }
  specialize (INV 7%nat ltac:(lia)). cbv zeta in INV. destruct INV as [hl INV]. split; [exact hl|]. intros j hj. apply INV. lia.
Qed.

Lemma vt_inner_ok naf A i cp : length naf = 256%nat -> (i < 256)%nat ->
  rct L cp (Emul (2 * dval 2 (skipn (S i) naf)) A) ->
  let '(i', cp') := vt_inner K naf i cp in
  (i' <= i)%nat /\ (at_ naf i' = 0 -> i' = 0%nat) /\ rct L cp' (Emul (2 * dval 2 (skipn (S i') naf)) A).
Proof.
  intro hl. revert cp. induction i as [|i IH]; intros cp hi h; cbn [vt_inner].
  - split; [lia|]. split; [reflexivity|exact h].
  - destruct (at_ naf (S i) =? 0) eqn:E; cbn [negb].
    + apply Z.eqb_eq in E.
      specialize (IH (cp_DoubleProjective K (pp_SetCompleted K cp)) ltac:(lia)).
      destruct (vt_inner K naf i _) as [i' cp']. destruct IH as (a & b & c).
      * rewrite dval_skipn by lia. rewrite E. replace (2 * (0 + 2 * dval 2 (skipn (S (S i)) naf))) with (2 * (2 * dval 2 (skipn (S (S i)) naf))) by lia.
        rewrite <- (Emul_dbl (2 * _)). apply cp_DoubleProjective_ok, rct_proj, h.
      * split; [lia|]. split; [exact b|exact c].
    + apply Z.eqb_neq in E. split; [lia|]. split; [intro; contradiction|exact h].
Qed.

Lemma vt_loop_ok lut naf A fuel i p : length lut = 8%nat ->
  (forall j, (j < 8)%nat -> rf L (nth j lut zv) (Emul (2 * Z.of_nat j + 1) A)) ->
  length naf = 256%nat -> Forall naf_digit naf -> (i < fuel)%nat -> (i < 256)%nat -> at_ naf i <> 0 ->
  rf L p (Emul (2 * dval 2 (skipn (S i) naf)) A) ->
  exists r, vt_loop K fuel lut naf i p = Some r /\ rpt L 1 r (Emul (dval 2 naf) A).
Proof.
  intros hll hlut hl hd. revert i p. induction fuel as [|fuel IH]; intros i p hf hi hn hp; [lia|].
  cbn [vt_loop]. cbv zeta. set (d := at_ naf i) in *.
  assert (hdd : -15 <= d <= 15 /\ Z.odd d = true).
  { rewrite Forall_forall in hd. destruct (hd d) as [h|h]; [apply nth_In; lia|contradiction|exact h]. }
  destruct hdd as [hdr hdo].
  assert (ho : d = 2 * (d / 2) + 1) by (pose proof (Z.div_mod d 2 ltac:(lia)); rewrite Zmod_odd, hdo in *; lia).
  assert (CP : exists cp, (if 0 <? d then
         match nth_error lut (Z.to_nat (i8 (Z.quot (i8 (d + 1)) 2 - 1))) with
         | Some r => Some (cp_AddExtended K p r) | None => None end
       else
         match nth_error lut (Z.to_nat (i8 (Z.quot (i8 (1 - d)) 2 - 1))) with
         | Some r => Some (cp_SubExtended K p r) | None => None end) = Some cp /\ rct L cp (Emul (dval 2 (skipn i naf)) A)).
  { rewrite dval_skipn by lia. fold d. destruct (0 <? d) eqn:E.
    - apply Z.ltb_lt in E. set (e := d / 2) in *.
      rewrite (i8_sm (d + 1)) by lia. rewrite Z.quot_div_nonneg by lia.
      replace ((d + 1) / 2) with (e + 1) by (rewrite ho; replace (2 * e + 1 + 1) with ((e + 1) * 2) by lia; rewrite Z.div_mul; lia).
      rewrite i8_sm by lia. replace (e + 1 - 1) with e by lia.
      rewrite (nth_error_nth' lut zv) by lia.
      eexists. split; [reflexivity|]. rewrite Z.add_comm, Emul_add. apply cp_AddExtended_rf; [exact hp|].
      pose proof (hlut (Z.to_nat e) ltac:(lia)) as h. rewrite Z2Nat.id, <- ho in h by lia. exact h.
    - apply Z.ltb_ge in E. set (e := - (d / 2) - 1). assert (hd' : d = - (2 * e + 1)) by lia.
      rewrite (i8_sm (1 - d)) by lia. rewrite Z.quot_div_nonneg by lia.
      replace ((1 - d) / 2) with (e + 1) by (rewrite hd'; replace (1 - - (2 * e + 1)) with ((e + 1) * 2) by lia; rewrite Z.div_mul; lia).
      rewrite i8_sm by lia. replace (e + 1 - 1) with e by lia.
      rewrite (nth_error_nth' lut zv) by lia.
      eexists. split; [reflexivity|].
      replace (d + 2 * dval 2 (skipn (S i) naf)) with (2 * dval 2 (skipn (S i) naf) - (2 * e + 1)) by lia.
      rewrite Emul_sub. apply cp_SubExtended_rf; [exact hp|].
      pose proof (hlut (Z.to_nat e) ltac:(lia)) as h. rewrite Z2Nat.id in h by lia. exact h. }
  destruct CP as [cp [-> hcp]]. destruct i as [|i].
  - eexists. split; [reflexivity|]. apply rct_ext. exact hcp.
  - pose proof (vt_inner_ok naf A i (cp_DoubleProjective K (pp_SetCompleted K cp)) hl ltac:(lia)) as h.
    destruct (vt_inner K naf i _) as [i' cp'].
    destruct h as (a & b & c); [rewrite <- Emul_dbl; apply cp_DoubleProjective_ok, rct_proj, hcp|].
    destruct (at_ naf i' =? 0) eqn:E.
    + apply Z.eqb_eq in E. pose proof (b E) as E'. subst i'. eexists. split; [reflexivity|].
      apply rct_ext. replace (dval 2 naf) with (dval 2 (skipn 0 naf)) by reflexivity. rewrite dval_skipn by lia. rewrite E.
      replace (0 + 2 * dval 2 (skipn 1 naf)) with (2 * dval 2 (skipn 1 naf)) by lia. exact c.
    + apply Z.eqb_neq in E. apply IH; try assumption; try lia. apply rpt_1, rct_ext, c.
Qed.

Lemma vt_skip_ok naf n : length naf = 256%nat -> (n <= 256)%nat -> dval 2 (skipn n naf) = 0 ->
  match vt_skip naf n with
  | O => dval 2 naf = 0
  | S i => (i < n)%nat /\ at_ naf i <> 0 /\ dval 2 (skipn (S i) naf) = 0
  end.
Proof.
  intros hl. induction n as [|n IH]; intros hn h; cbn [vt_skip].
  - exact h.
  - destruct (at_ naf n =? 0) eqn:E.
    + apply Z.eqb_eq in E. specialize (IH ltac:(lia)). rewrite dval_skipn, E, h in IH by lia. specialize (IH eq_refl).
      destruct (vt_skip naf n); [exact IH|]. destruct IH as (a & b & c). split; [lia|]. split; assumption.
    + apply Z.eqb_neq in E. split; [lia|]. split; assumption.
Qed.

Theorem ep_VarTimeScalarMult_ok q A s : rf L q A -> bytes 32 s -> le_val s < 2 ^ 255 ->
  exists r, ep_VarTimeScalarMult K q s = Some r /\ rf L r (Emul (le_val s) A).
Proof.
  intros hq hs hv. destruct (computeScalar5NAF_ok s hs hv) as (naf & E & nl & nd & nv).
  destruct (vt_lut_ok q A hq) as [ll hl]. unfold ep_VarTimeScalarMult. cbv zeta. rewrite E.
  pose proof (vt_skip_ok naf 256 nl ltac:(lia)) as h. rewrite skipn_all2 in h by lia. specialize (h eq_refl).
  destruct (vt_skip naf 256) as [|i].
  - eexists. split; [reflexivity|]. rewrite <- nv, h, Emul_0. apply rpt_1, ep_Zero_ok.
  - destruct h as (h1 & h2 & h3).
    destruct (vt_loop_ok (vt_lut K q) naf A 257 i (ep_SetZero K) ll hl nl nd ltac:(lia) h1 h2) as [r [e hr]].
    + rewrite h3. change (2 * 0) with 0. rewrite Emul_0. apply rpt_1, ep_Zero_ok.
    + exists r. split; [exact e|]. rewrite <- nv. apply rpt_1, hr.
Qed.

(** ** tables *)
Definition tbl_ok (n : Z) (t : list (list (niels FE))) (A : E) : Prop :=
  length t = 32%nat /\ forall i, (i < 32)%nat -> length (nth i t []) = 8%nat /\
    forall j, (j < 8)%nat -> rnp L n (tbl_at K t i j) (Emul ((Z.of_nat j + 1) * 256 ^ Z.of_nat i) A).

Lemma tbl_row_ok cp B : rf L cp B ->
  let '(row, c) := tbl_row K cp in
  length row = 8%nat /\ (forall j, (j < 8)%nat -> rnp L 1 (nth j row (np_zerovalue K)) (Emul (Z.of_nat j + 1) B)) /\
  rf L c (Emul 8 B).
Proof.
  intro hq. unfold tbl_row. set (step := fun (_ : nat) (st : list (niels FE) * ext FE) => _).
  assert (INV : forall k, let '(row, c) := for_up k step ([], ep_SetZero K) in
    length row = k /\ (forall j, (j < k)%nat -> rnp L 1 (nth j row (np_zerovalue K)) (Emul (Z.of_nat j + 1) B)) /\
    rf L c (Emul (Z.of_nat k) B)).
  { induction k as [|k IH].
    - cbn [for_up]. split; [reflexivity|]. split; [intros; lia|]. apply rpt_1, ep_Zero_ok.
    - cbn [for_up]. destruct (for_up k step _) as [row c]. destruct IH as (a & b & h). unfold step.
      assert (hc : rf L (ep_Add K c cp) (Emul (Z.of_nat k + 1) B)) by (rewrite <- Emul_S; apply rpt_1, ep_Add_rf; assumption).
      split; [rewrite app_length, a; cbn; lia|]. split.
      + intros j hj. destruct (Nat.eq_dec j k) as [->|n].
        * rewrite app_nth2 by lia. rewrite a, Nat.sub_diag. cbn [nth]. apply np_SetExtended_rf, hc.
        * rewrite app_nth1 by lia. apply b. lia.
      + replace (Z.of_nat (S k)) with (Z.of_nat k + 1) by lia. exact hc. }
  exact (INV 8%nat).
Qed.

Theorem tbl_Compute_ok p A : rf L p A -> tbl_ok 1 (tbl_Compute K p) A.
Proof.
  intro hp. unfold tbl_Compute. set (step := fun (_ : nat) (st : list (list (niels FE)) * ext FE) => _).
  assert (INV : forall k, let '(t, cp) := for_up k step ([], p) in
    length t = k /\ (forall i, (i < k)%nat -> length (nth i t []) = 8%nat /\
      forall j, (j < 8)%nat -> rnp L 1 (tbl_at K t i j) (Emul ((Z.of_nat j + 1) * 256 ^ Z.of_nat i) A)) /\
    rf L cp (Emul (256 ^ Z.of_nat k) A)).
  { induction k as [|k IH].
    - cbn [for_up]. split; [reflexivity|]. split; [intros; lia|]. exact hp.
    - cbn [for_up]. destruct (for_up k step _) as [t cp]. destruct IH as (a & b & h). unfold step.
      pose proof (tbl_row_ok cp _ h) as hr. destruct (tbl_row K cp) as [row c]. destruct hr as (r1 & r2 & r3). cbv zeta.
      split; [rewrite app_length, a; cbn; lia|]. split.
      + intros i hi. unfold tbl_at. destruct (Nat.eq_dec i k) as [->|n].
        * rewrite app_nth2 by lia. rewrite a, Nat.sub_diag. cbn [nth]. split; [exact r1|]. intros j hj.
          rewrite Emul_mul. apply r2, hj.
        * rewrite app_nth1 by lia. apply b. lia.
      + replace (256 ^ Z.of_nat (S k)) with (2 * (2 * (2 * (2 * (2 * (8 * 256 ^ Z.of_nat k)))))).
        2: { replace (Z.of_nat (S k)) with (Z.succ (Z.of_nat k)) by lia. rewrite Z.pow_succ_r by lia. lia. }
        rewrite <- !Emul_dbl. rewrite Emul_mul. apply rpt_1, rct_ext.
        do 4 (apply cp_DoubleProjective_ok, rct_proj). apply cp_DoubleExtended_rf, r3. }
  specialize (INV 32%nat). destruct (for_up 32 step _) as [t cp]. destruct INV as (a & b & _). split; [exact a|exact b].
Qed.

Lemma rnp_ext n N A B : A = B -> rnp L n N A -> rnp L n N B.
Proof. intros ->. auto. Qed.

Lemma tbl_select_ok t A i b : tbl_ok (cN L) t A -> (i < 32)%nat -> -8 <= b <= 8 ->
  rnp L (cN L) (tbl_select K t i b) (Emul (b * 256 ^ Z.of_nat i) A).
Proof.
  intros [_ ht] hi hb. destruct (ht i hi) as [_ h]. unfold tbl_select. cbv zeta. rewrite negative_ok by lia.
  assert (Eb : i32 (b - i32 (Z.shiftl (Z.land (i32 (- Z.b2z (b <? 0))) b) 1)) = Z.abs b).
  { destruct (b <? 0) eqn:E; cbn [Z.b2z].
    - apply Z.ltb_lt in E. change (i32 (-(1))) with (-1). rewrite Z.land_m1_l, Z.shiftl_mul_pow2 by lia. change (2 ^ 1) with 2.
      rewrite !i32_sm by (rewrite ?i32_sm; lia). lia.
    - apply Z.ltb_ge in E. change (i32 (-(0))) with 0. rewrite Z.land_0_l. change (i32 (Z.shiftl 0 1)) with 0. rewrite i32_sm; lia. }
  rewrite Eb. set (step := fun k p => np_ConditionalSet K p _ _).
  set (B := Emul (256 ^ Z.of_nat i) A). pose proof cN_le_cL as [hc1 hc2].
  assert (INV : forall k, (k <= 8)%nat -> rnp L (cN L) (for_up k step (np_SetZero K)) (Emul (if Z.abs b <=? Z.of_nat k then Z.abs b else 0) B)).
  { induction k as [|k IH]; intro hk.
    - cbn [for_up]. apply rnp_ext with E0; [|eapply rnp_le; [exact hc2|apply np_SetZero_ok]].
      destruct (Z.abs b <=? Z.of_nat 0) eqn:E; [|reflexivity]. apply Z.leb_le in E. replace (Z.abs b) with 0 by lia. reflexivity.
    - cbn [for_up]. specialize (IH ltac:(lia)). specialize (h k ltac:(lia)). rewrite Emul_mul in h. fold B in h.
      unfold step at 1. rewrite i32_sm by lia. rewrite equal30_ok by lia.
      rewrite (np_ConditionalSet_ok L (cN L) (cN L) _ _ _ _ _ IH h hc1 hc1).
      destruct (Z.abs b =? Z.of_nat k + 1) eqn:E.
      + apply Z.eqb_eq in E. replace (Z.abs b <=? Z.of_nat (S k)) with true by (symmetry; apply Z.leb_le; lia). rewrite E. exact h.
      + apply Z.eqb_neq in E. replace (Z.abs b <=? Z.of_nat (S k)) with (Z.abs b <=? Z.of_nat k); [exact IH|].
        destruct (Z.abs b <=? Z.of_nat k) eqn:E1, (Z.abs b <=? Z.of_nat (S k)) eqn:E2; try reflexivity;
          rewrite ?Z.leb_le, ?Z.leb_gt in *; lia. }
  specialize (INV 8%nat ltac:(lia)). replace (Z.abs b <=? Z.of_nat 8) with true in INV by (symmetry; apply Z.leb_le; lia).
  set (P := for_up 8 step _) in *. clearbody P.
  pose proof (np_Neg_ok L (cN L) P _ INV hc1) as hn. rewrite Z.max_id in hn.
  rewrite (np_ConditionalSet_ok L (cN L) (cN L) _ _ _ _ _ INV hn hc1 hc1).
  rewrite Emul_mul. fold B. destruct (b <? 0) eqn:E.
  - apply Z.ltb_lt in E. rewrite <- Emul_opp in hn. replace (- Z.abs b) with b in hn by lia. exact hn.
  - apply Z.ltb_ge in E. replace (Z.abs b) with b in INV by lia. exact INV.
Qed.

(** the sum of the digits o, o+2, o+4, ... in base 256 *)
Fixpoint hsum (w : list Z) (o k : nat) : Z :=
  match k with
  | O => 0
  | S k => hsum w o k + at_ w (2 * k + o) * 256 ^ Z.of_nat k
  end.

Lemma firstn_S (w : list Z) n : (n < length w)%nat -> firstn (S n) w = firstn n w ++ [at_ w n].
Proof.
  revert n. induction w as [|d w IH]; intros [|n] h; cbn [length] in h; try lia; [reflexivity|].
  rewrite firstn_cons. rewrite IH by lia. reflexivity.
Qed.

Lemma hsum_dval w k : (2 * k <= length w)%nat -> dval 16 (firstn (2 * k) w) = 16 * hsum w 1 k + hsum w 0 k.
Proof.
  induction k as [|k IH]; intro h; [reflexivity|].
  replace (2 * S k)%nat with (S (S (2 * k))) by lia. rewrite firstn_S, firstn_S, !dval_app, !app_length by lia.
  rewrite firstn_length_le by lia. cbn [length dval hsum]. rewrite IH by lia.
  replace (S (2 * k)) with (2 * k + 1)%nat by lia. rewrite Nat.add_0_r.
  replace (16 ^ Z.of_nat (2 * k + 1)) with (16 * 256 ^ Z.of_nat k).
  replace (16 ^ Z.of_nat (2 * k)) with (256 ^ Z.of_nat k). ring.
  - replace (Z.of_nat (2 * k)) with (2 * Z.of_nat k) by lia. rewrite Z.pow_mul_r by lia. reflexivity.
  - replace (Z.of_nat (2 * k + 1)) with (1 + 2 * Z.of_nat k) by lia. rewrite Z.pow_add_r, Z.pow_mul_r by lia. reflexivity.
Qed.

Lemma tbl_dbl4_ok p V A : rf L p (Emul V A) -> rf L (tbl_dbl4 K p) (Emul (16 * V) A).
Proof.
  intro hp. unfold tbl_dbl4. cbv zeta. replace (16 * V) with (2 * (2 * (2 * (2 * V)))) by lia. rewrite <- !Emul_dbl.
  apply rpt_1, rct_ext. do 3 (apply cp_DoubleProjective_ok, rct_proj). apply cp_DoubleExtended_rf, hp.
Qed.

Lemma tbl_pass_ok t A w o p V k : tbl_ok (cN L) t A -> digits_in (-8) 8 w -> rf L p (Emul V A) -> (k <= 32)%nat ->
  rf L (for_up k (fun i p => ep_SetCompleted K (cp_AddExtendedNiels K p (tbl_select K t i (at_ w (2 * i + o))))) p) (Emul (V + hsum w o k) A).
Proof.
  intros ht hw hp. induction k as [|k IH]; intro hk; cbn [for_up hsum].
  - rewrite Z.add_0_r. exact hp.
  - rewrite Z.add_assoc, Emul_add. apply rpt_1, rct_ext, cp_AddExtendedNiels_rf; [apply IH; lia|].
    apply tbl_select_ok; [exact ht|lia|]. apply digits_at; [lia|exact hw].
Qed.

Theorem tbl_ScalarMult_ok t A s : tbl_ok (cN L) t A -> bytes 32 s -> le_val s < 2 ^ 255 ->
  rf L (tbl_ScalarMult K t s) (Emul (le_val s) A).
Proof.
  intros ht hs hv. destruct (computeScalarWindow4_ok s hs hv) as (wl & wd & wv). unfold tbl_ScalarMult. cbv zeta.
  set (w := computeScalarWindow4 s) in *. clearbody w.
  pose proof (tbl_pass_ok t A w 1 (ep_SetZero K) 0 32 ht wd (rpt_1 L _ _ (ep_Zero_ok L)) ltac:(lia)) as h1.
  rewrite Z.add_0_l in h1. apply tbl_dbl4_ok in h1.
  pose proof (tbl_pass_ok t A w 0 _ _ 32 ht wd h1 ltac:(lia)) as h2.
  rewrite <- hsum_dval, firstn_all2, wv in h2 by lia.
  assert (EX : forall p k, for_up k (fun i p => ep_SetCompleted K (cp_AddExtendedNiels K p (tbl_select K t i (at_ w (2 * i + 0))))) p =
     for_up k (fun i p => ep_SetCompleted K (cp_AddExtendedNiels K p (tbl_select K t i (at_ w (2 * i))))) p).
  { intros p k. induction k as [|k IH]; [reflexivity|]. cbn [for_up]. rewrite IH, Nat.add_0_r. reflexivity. }
  rewrite EX in h2. exact h2.
Qed.

Lemma tbl_vtStep_ok t A i b p V : tbl_ok (cN L) t A -> (i < 32)%nat -> -8 <= b <= 8 -> rf L p (Emul V A) ->
  exists r, tbl_vtStep K t i b (Some p) = Some r /\ rf L r (Emul (V + b * 256 ^ Z.of_nat i) A).
Proof.
  intros [_ ht] hi hb hp. destruct (ht i hi) as [hl h]. unfold tbl_vtStep, tbl_vtSelect. unfold tbl_at in h.
  pose proof cN_le_cL as [hc1 hc2].
  destruct (b =? 0) eqn:E0.
  - apply Z.eqb_eq in E0. subst b. eexists. split; [reflexivity|]. rewrite Z.mul_0_l, Z.add_0_r. exact hp.
  - apply Z.eqb_neq in E0. cbv zeta. destruct (b <? 0) eqn:E.
    + apply Z.ltb_lt in E. rewrite (i32_sm (- b)) by lia. rewrite i32_sm by lia.
      rewrite (nth_error_nth' _ (np_zerovalue K)) by lia. eexists. split; [reflexivity|].
      rewrite Emul_add. apply rpt_1, rct_ext, cp_AddExtendedNiels_rf; [exact hp|].
      pose proof (h (Z.to_nat (- b - 1)) ltac:(lia)) as hn. rewrite Z2Nat.id in hn by lia.
      apply (np_Neg_ok L (cN L)) in hn; [|exact hc1]. rewrite Z.max_id, <- Emul_opp in hn.
      replace (- ((- b - 1 + 1) * 256 ^ Z.of_nat i)) with (b * 256 ^ Z.of_nat i) in hn by ring. exact hn.
    + apply Z.ltb_ge in E. rewrite i32_sm by lia.
      rewrite (nth_error_nth' _ (np_zerovalue K)) by lia. eexists. split; [reflexivity|].
      rewrite Emul_add. apply rpt_1, rct_ext, cp_AddExtendedNiels_rf; [exact hp|].
      pose proof (h (Z.to_nat (b - 1)) ltac:(lia)) as hn. rewrite Z2Nat.id in hn by lia.
      replace (b - 1 + 1) with b in hn by ring. exact hn.
Qed.

Lemma tbl_vtpass_ok t A w o p V k : tbl_ok (cN L) t A -> digits_in (-8) 8 w -> rf L p (Emul V A) -> (k <= 32)%nat ->
  exists r, for_up k (fun i p => tbl_vtStep K t i (at_ w (2 * i + o)) p) (Some p) = Some r /\ rf L r (Emul (V + hsum w o k) A).
Proof.
  intros ht hw hp. induction k as [|k IH]; intro hk; cbn [for_up hsum].
  - rewrite Z.add_0_r. exists p. split; [reflexivity|exact hp].
  - destruct (IH ltac:(lia)) as [r [-> hr]]. rewrite Z.add_assoc. apply tbl_vtStep_ok; [exact ht|lia| |exact hr].
    apply digits_at; [lia|exact hw].
Qed.

Theorem tbl_VarTimeScalarMult_ok t A s : tbl_ok (cN L) t A -> bytes 32 s -> le_val s < 2 ^ 255 ->
  exists r, tbl_VarTimeScalarMult K t s = Some r /\ rf L r (Emul (le_val s) A).
Proof.
  intros ht hs hv. destruct (computeScalarWindow4_ok s hs hv) as (wl & wd & wv). unfold tbl_VarTimeScalarMult. cbv zeta.
  set (w := computeScalarWindow4 s) in *. clearbody w.
  destruct (tbl_vtpass_ok t A w 1 (ep_SetZero K) 0 32 ht wd (rpt_1 L _ _ (ep_Zero_ok L)) ltac:(lia)) as [r1 [-> h1]].
  rewrite Z.add_0_l in h1. apply tbl_dbl4_ok in h1. cbn [option_map].
  destruct (tbl_vtpass_ok t A w 0 _ _ 32 ht wd h1 ltac:(lia)) as [r2 [e2 h2]].
  rewrite <- hsum_dval, firstn_all2, wv in h2 by lia.
  exists r2. split; [|exact h2]. rewrite <- e2.
  assert (EX : forall p k, for_up k (fun i p => tbl_vtStep K t i (at_ w (2 * i + 0)) p) p =
     for_up k (fun i p => tbl_vtStep K t i (at_ w (2 * i)) p) p).
  { intros p k. induction k as [|k IH]; [reflexivity|]. cbn [for_up]. rewrite IH, Nat.add_0_r. reflexivity. }
  symmetry. apply EX.
Qed.

End SM.
