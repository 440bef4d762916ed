(** Scalar multiplication of a tuple (0 : 0 : Z : 0): the identity for the scalar 0, and such a tuple for every other scalar. *)
From Coq Require Import ZArith List Lia Bool.
From Verif Require Import Words WordsTac FieldModel CurveModel BitFold Fp Edwards FieldLaws CurveProofs WindowProofs ScalarMultProofs
  DegenerateFacts.
Import ListNotations.
Open Scope Z_scope.

Definition nzb (d : Z) : bool := negb (d =? 0).

Lemma nz_skipn w i : (i < length w)%nat -> nz (skipn i w) = nzb (at_ w i) || nz (skipn (S i) w).
Proof.
  revert i. induction w as [|d w IH]; intros [|i] h; cbn [length] in h; try lia; [reflexivity|].
  cbn [skipn]. rewrite IH by lia. reflexivity.
Qed.

Lemma d_window B lo hi v w : - B < lo <= 0 -> 0 <= hi < B -> digits_in lo hi w -> dval B w = v -> nz w = nzb v.
Proof.
  intros hlo hhi wd wv. apply (nz_dval B v w); [lia| |symmetry; exact wv].
  intros d hd. apply (In_nth _ _ 0) in hd. destruct hd as (i & hi' & <-).
  pose proof (digits_at lo hi w i ltac:(lia) wd) as hb. unfold at_ in hb. generalize dependent (nth i w 0). intros d hb.
  destruct (Z.eq_dec d 0) as [e|n]; [left; exact e|right]. intro e. apply Z.mod_divide in e; [|lia]. destruct e as [c e].
  assert (c = 0 \/ 1 <= c \/ c <= -1) as [ec|[ec|ec]] by lia; [subst c; lia | |]; nia.
Qed.

Section SM.
Context {K : FeOps} (L : FeLaws K).
Local Notation FE := (fe K).
Local Notation zv := (ep_zerovalue K).
Local Notation fl := (fl L).
Local Notation cfl := (cfl L).
Local Notation nfl := (nfl L).

(** ** ScalarMult *)
Lemma d_lut q : deg L q -> forall j, (j <= 16)%nat -> fl (nth j (sm_lut K q) zv) (negb (Nat.eqb j 0)).
Proof.
  intro hq. unfold sm_lut. cbv zeta.
  set (step := fun k lut => upd (upd lut (2 * k + 2) _) _ _).
  assert (INV : forall k, (k <= 7)%nat -> let lut := for_up k step (upd (upd (repeat zv 17) 0 (ep_SetZero K)) 1 q) in
    length lut = 17%nat /\ forall j, (j <= 2 * k + 1)%nat -> fl (nth j lut zv) (negb (Nat.eqb j 0))).
  { induction k as [|k IH]; intro hk; cbv zeta.
    - cbn [for_up]. split; [rewrite !upd_length; apply repeat_length|]. intros j hj.
      assert (j = 0 \/ j = 1)%nat as [->| ->] by lia.
      + apply fl_zero.
      + exact hq.
    - specialize (IH ltac:(lia)). cbv zeta in IH. cbn [for_up]. destruct IH as [hl IH].
      set (lut := for_up k step _) in *. clearbody lut. unfold step. split; [rewrite !upd_length; exact hl|].
      replace (Nat.div (2 * k + 2) 2) with (k + 1)%nat by (replace (2 * k + 2)%nat with ((k + 1) * 2)%nat by lia; rewrite Nat.div_mul; lia).
      assert (hE : fl (ep_Double K (nth (k + 1) lut zv)) true).
      { pose proof (IH (k + 1)%nat ltac:(lia)) as h. replace (Nat.eqb (k + 1) 0) with false in h by (symmetry; apply Nat.eqb_neq; lia).
        apply fl_double, h. }
      intros j hj. destruct (Nat.eq_dec j (2 * k + 2 + 1)) as [->|n1].
      + rewrite nth_upd_eq by (rewrite upd_length; lia). rewrite nth_upd_eq by lia.
        replace (Nat.eqb (2 * k + 2 + 1) 0) with false by (symmetry; apply Nat.eqb_neq; lia).
        exact (fl_add L _ _ true true hE hq).
      + rewrite nth_upd_neq by lia. destruct (Nat.eq_dec j (2 * k + 2)) as [->|n2].
        * rewrite nth_upd_eq by lia. replace (Nat.eqb (2 * k + 2) 0) with false by (symmetry; apply Nat.eqb_neq; lia). exact hE.
        * rewrite nth_upd_neq by lia. apply IH. lia. }
  specialize (INV 7%nat ltac:(lia)). cbv zeta in INV. destruct INV as [hl INV].
  set (lut := for_up 7 step _) in *. clearbody lut. intros j hj.
  destruct (Nat.eq_dec j 16) as [->|n].
  - rewrite nth_upd_eq by lia. exact (fl_double L _ true (INV 8%nat ltac:(lia))).
  - rewrite nth_upd_neq by lia. apply INV. lia.
Qed.

Lemma d_cond_neg t b c : fl t c ->
  let v := o_neg K (eX t) in
  let t := mkExt (o_condSet K (eX t) v (Z.b2z b)) (eY t) (eZ t) (eT t) in
  let v := o_neg K (eT t) in
  fl (mkExt (eX t) (eY t) (eZ t) (o_condSet K (eT t) v (Z.b2z b))) c.
Proof.
  intro h. pose proof (fl_bdf L t c h) as [(x & y & z & t' & h1 & h2 & h3 & h4) hf]. fe_facts L. cbv zeta. cbn [eX eY eZ eT].
  pose proof (law_neg K L 2 _ _ h1 ltac:(lia)) as n1. pose proof (law_neg K L 2 _ _ h4 ltac:(lia)) as n4.
  rewrite (law_condSet K L 2 (Z.max (cN L) 2) _ _ _ _ b h1 n1) by lia.
  rewrite (law_condSet K L 2 (Z.max (cN L) 2) _ _ _ _ b h4 n4) by lia.
  destruct b; [exact (fl_neg L t c h)|]. destruct t. exact h.
Qed.

Lemma d_select lut b : (forall j, (j <= 16)%nat -> fl (nth j lut zv) (negb (Nat.eqb j 0))) ->
  -16 <= b <= 16 -> fl (sm_select K lut b) (nzb b).
Proof.
  intros hl hb. unfold sm_select. cbv zeta.
  set (step := fun k t => ep_ConditionalSet K t _ _).
  assert (INV : forall k, (k <= 16)%nat -> for_up k step (nth 0 lut zv) = nth (if Z.abs b <=? Z.of_nat k then Z.to_nat (Z.abs b) else 0%nat) lut zv).
  { induction k as [|k IH]; intro hk.
    - cbn [for_up]. f_equal. destruct (Z.abs b <=? Z.of_nat 0) eqn:E; [apply Z.leb_le in E; lia|reflexivity].
    - cbn [for_up]. rewrite IH by lia. unfold step. rewrite !i32_sm by lia. rewrite !equal15_small by lia. rewrite lor_b2z.
      erewrite (fl_cond L); [|apply hl; destruct (_ <=? _) eqn:E; [apply Z.leb_le in E|]; lia|apply hl; lia].
      destruct ((b =? - Z.of_nat (k + 1)) || (b =? Z.of_nat (k + 1))) eqn:Eb.
      + assert (Z.abs b = Z.of_nat (k + 1)) as -> by (apply orb_true_iff in Eb; rewrite !Z.eqb_eq in Eb; lia).
        replace (Z.of_nat (k + 1) <=? Z.of_nat (S k)) with true by (symmetry; apply Z.leb_le; lia). rewrite Nat2Z.id. reflexivity.
      + apply orb_false_iff in Eb. rewrite !Z.eqb_neq in Eb. f_equal.
        destruct (Z.abs b <=? Z.of_nat k) eqn:E1, (Z.abs b <=? Z.of_nat (S k)) eqn:E2; try reflexivity;
          rewrite ?Z.leb_le, ?Z.leb_gt in *; lia. }
  rewrite INV by lia. replace (Z.abs b <=? Z.of_nat 16) with true by (symmetry; apply Z.leb_le; lia).
  rewrite negative_ok by lia.
  pose proof (hl (Z.to_nat (Z.abs b)) ltac:(lia)) as h0.
  replace (negb (Nat.eqb (Z.to_nat (Z.abs b)) 0)) with (nzb b) in h0.
  2: { unfold nzb. f_equal. apply eq_true_iff_eq. rewrite Z.eqb_eq, Nat.eqb_eq. lia. }
  exact (d_cond_neg _ (b <? 0) _ h0).
Qed.

Lemma d_step lut w i p v : (forall j, (j <= 16)%nat -> fl (nth j lut zv) (negb (Nat.eqb j 0))) ->
  -16 <= at_ w i <= 16 -> fl p v -> fl (sm_step K lut w i p) (nzb (at_ w i) || v).
Proof.
  intros hl hb hp. unfold sm_step. cbv zeta. unfold go_for. change (4 - 0)%nat with 4%nat. cbn [Nat.iter nat_rect].
  rewrite orb_comm. apply fl_add; [|apply d_select; assumption].
  apply cfl_ext. do 4 (apply pfl_double, cfl_proj). apply fl_cdouble, hp.
Qed.

Theorem d_ScalarMult q s : deg L q -> bytes 32 s -> le_val s < 2 ^ 254 ->
  fl (ep_ScalarMult K q s) (nzb (le_val s)).
Proof.
  intros hq hs hv. destruct (computeScalarWindow5_ok s hs hv) as (wl & wd & wv).
  pose proof (d_window 32 (-16) 16 (le_val s) _ ltac:(lia) ltac:(lia) wd wv) as E.
  pose proof (d_lut q hq) as hl. unfold ep_ScalarMult. cbv zeta.
  set (w := computeScalarWindow5 s) in *. set (lut := sm_lut K q) in *. clearbody w lut.
  assert (INV : forall k, (k <= 51)%nat -> fl (for_up k (fun k p => sm_step K lut w (50 - k) p) (ep_SetZero K)) (nz (skipn (51 - k) w))).
  { induction k as [|k IH]; intro hk.
    - cbn [for_up]. rewrite skipn_all2 by lia. cbn [nz existsb]. apply fl_zero.
    - cbn [for_up]. rewrite nz_skipn by lia. replace (51 - S k)%nat with (50 - k)%nat by lia.
      replace (S (50 - k)) with (51 - k)%nat by lia. apply d_step; [exact hl| |apply IH; lia].
      apply digits_at; [lia|exact wd]. }
  specialize (INV 51%nat (le_n 51)). rewrite (Nat.sub_diag 51), (skipn_O w) in INV.
  rewrite E in INV. exact INV.
Qed.

(** ** VarTimeScalarMult *)
Lemma d_vtlut q : deg L q -> length (vt_lut K q) = 8%nat /\ forall j, (j < 8)%nat -> fl (nth j (vt_lut K q) zv) true.
Proof.
  intro hq. unfold vt_lut. cbv zeta. set (step := fun k lut => upd lut _ _).
  assert (INV : forall k, (k <= 7)%nat -> let lut := for_up k step (upd (repeat zv 8) 0 q) in
    length lut = 8%nat /\ forall j, (j < k + 1)%nat -> fl (nth j lut zv) true).
  { induction k as [|k IH]; intro hk; cbv zeta.
    - cbn [for_up]. split; [rewrite upd_length; apply repeat_length|]. intros j hj. replace j with 0%nat by lia. exact hq.
    - specialize (IH ltac:(lia)). cbv zeta in IH. destruct IH as [hl IH]. cbn [for_up].
      set (lut := for_up k step _) in *. clearbody lut. unfold step. split; [rewrite upd_length; exact hl|].
      intros j hj. destruct (Nat.eq_dec j (k + 1)) as [->|n]; [|rewrite nth_upd_neq by lia; apply IH; lia].
      rewrite nth_upd_eq by lia. replace (k + 1 - 1)%nat with k by lia.
      exact (fl_add L _ _ true true (IH k ltac:(lia)) (fl_double L q true hq)). }
  specialize (INV 7%nat ltac:(lia)). cbv zeta in INV. destruct INV as [hl INV]. split; [exact hl|]. intros j hj. apply INV. lia.
Qed.

Lemma d_inner naf i cp : length naf = 256%nat -> (i < 256)%nat -> cfl cp true ->
  let '(i', cp') := vt_inner K naf i cp in (i' <= i)%nat /\ (at_ naf i' = 0 -> i' = 0%nat) /\ cfl cp' true.
Proof.
  intro hl. revert cp. induction i as [|i IH]; intros cp hi h; cbn [vt_inner].
  - split; [lia|]. split; [reflexivity|exact h].
  - destruct (at_ naf (S i) =? 0) eqn:E; cbn [negb].
    + apply Z.eqb_eq in E.
      specialize (IH (cp_DoubleProjective K (pp_SetCompleted K cp)) ltac:(lia) (pfl_double L _ true (cfl_proj L _ true h))).
      destruct (vt_inner K naf i _) as [i' cp']. destruct IH as (a & b & c).
      split; [lia|]. split; [exact b|exact c].
    + apply Z.eqb_neq in E. split; [lia|]. split; [intro; contradiction|exact h].
Qed.

Lemma d_loop lut naf fuel i p v : length lut = 8%nat ->
  (forall j, (j < 8)%nat -> fl (nth j lut zv) true) ->
  length naf = 256%nat -> Forall naf_digit naf -> (i < fuel)%nat -> (i < 256)%nat -> at_ naf i <> 0 ->
  fl p v -> exists r, vt_loop K fuel lut naf i p = Some r /\ fl r true.
Proof.
  intros hll hlut hl hd. revert i p v. induction fuel as [|fuel IH]; intros i p v hf hi hn hp; [lia|].
  cbn [vt_loop]. cbv zeta. set (d := at_ naf i) in *.
  assert (hdd : -15 <= d <= 15 /\ Z.odd d = true).
  { rewrite Forall_forall in hd. destruct (hd d) as [h|h]; [apply nth_In; lia|contradiction|exact h]. }
  destruct hdd as [hdr hdo].
  assert (ho : d = 2 * (d / 2) + 1) by (pose proof (Z.div_mod d 2 ltac:(lia)); rewrite Zmod_odd, hdo in *; lia).
  assert (CP : exists cp, (if 0 <? d then
         match nth_error lut (Z.to_nat (i8 (Z.quot (i8 (d + 1)) 2 - 1))) with
         | Some r => Some (cp_AddExtended K p r) | None => None end
       else
         match nth_error lut (Z.to_nat (i8 (Z.quot (i8 (1 - d)) 2 - 1))) with
         | Some r => Some (cp_SubExtended K p r) | None => None end) = Some cp /\ cfl cp true).
  { destruct (0 <? d) eqn:E.
    - apply Z.ltb_lt in E. set (e := d / 2) in *.
      rewrite (i8_sm (d + 1)) by lia. rewrite Z.quot_div_nonneg by lia.
      replace ((d + 1) / 2) with (e + 1) by (rewrite ho; replace (2 * e + 1 + 1) with ((e + 1) * 2) by lia; rewrite Z.div_mul; lia).
      rewrite i8_sm by lia. replace (e + 1 - 1) with e by lia.
      rewrite (nth_error_nth' lut zv) by lia.
      eexists. split; [reflexivity|]. rewrite <- (orb_true_r v). apply fl_cadd; [exact hp | apply hlut; lia].
    - apply Z.ltb_ge in E. set (e := - (d / 2) - 1). assert (hd' : d = - (2 * e + 1)) by lia.
      rewrite (i8_sm (1 - d)) by lia. rewrite Z.quot_div_nonneg by lia.
      replace ((1 - d) / 2) with (e + 1) by (rewrite hd'; replace (1 - - (2 * e + 1)) with ((e + 1) * 2) by lia; rewrite Z.div_mul; lia).
      rewrite i8_sm by lia. replace (e + 1 - 1) with e by lia.
      rewrite (nth_error_nth' lut zv) by lia.
      eexists. split; [reflexivity|]. rewrite <- (orb_true_r v). apply fl_csub; [exact hp | apply hlut; lia]. }
  destruct CP as [cp [-> hcp]]. destruct i as [|i].
  - eexists. split; [reflexivity|]. exact (cfl_ext L cp true hcp).
  - pose proof (d_inner naf i (cp_DoubleProjective K (pp_SetCompleted K cp)) hl ltac:(lia) (pfl_double L _ true (cfl_proj L _ true hcp))) as h.
    destruct (vt_inner K naf i _) as [i' cp']. destruct h as (a & b & c).
    destruct (at_ naf i' =? 0) eqn:E.
    + eexists. split; [reflexivity|]. exact (cfl_ext L cp' true c).
    + apply Z.eqb_neq in E. apply (IH i' _ true); try assumption; try lia. exact (cfl_ext L cp' true c).
Qed.

Lemma d_skip naf n : length naf = 256%nat -> (n <= 256)%nat -> nz (skipn n naf) = false ->
  match vt_skip naf n with
  | O => nz naf = false
  | S i => (i < n)%nat /\ at_ naf i <> 0 /\ nz naf = true
  end.
Proof.
  intros hl. induction n as [|n IH]; intros hn h; cbn [vt_skip].
  - exact h.
  - destruct (at_ naf n =? 0) eqn:E.
    + specialize (IH ltac:(lia)). rewrite nz_skipn, h in IH by lia. unfold nzb in IH. rewrite E in IH. specialize (IH eq_refl).
      destruct (vt_skip naf n); [exact IH|]. destruct IH as (a & b & c). split; [lia|]. split; assumption.
    + apply Z.eqb_neq in E. split; [lia|]. split; [exact E|]. unfold nz. apply existsb_exists. exists (at_ naf n).
      split; [apply nth_In; lia|]. apply negb_true_iff, Z.eqb_neq, E.
Qed.

Theorem d_VarTimeScalarMult q s : deg L q -> bytes 32 s -> le_val s < 2 ^ 255 ->
  exists r, ep_VarTimeScalarMult K q s = Some r /\ fl r (nzb (le_val s)).
Proof.
  intros hq hs hv. destruct (computeScalar5NAF_ok s hs hv) as (naf & E & nl & nd & nv).
  destruct (d_vtlut q hq) as [ll hl]. unfold ep_VarTimeScalarMult. cbv zeta. rewrite E.
  pose proof (d_skip naf 256 nl ltac:(lia)) as h. rewrite skipn_all2 in h by lia. specialize (h eq_refl).
  assert (e : nz naf = nzb (le_val s)).
  { apply (nz_dval 2 (le_val s) naf); [lia| |symmetry; exact nv]. intros d hd. rewrite Forall_forall in nd.
    destruct (nd d hd) as [->|[_ h']]; [left; reflexivity | right]. rewrite Zmod_odd, h'. discriminate. }
  destruct (vt_skip naf 256) as [|i].
  - eexists. split; [reflexivity|]. rewrite <- e, h. apply fl_zero.
  - destruct h as (h1 & h2 & h3).
    destruct (d_loop (vt_lut K q) naf 257 i (ep_SetZero K) false ll hl nl nd ltac:(lia) h1 h2 (fl_zero L)) as [r [er hr]].
    exists r. split; [exact er|]. rewrite <- e, h3. exact hr.
Qed.

(** ** tables *)
Definition tdeg (t : list (list (niels FE))) : Prop :=
  length t = 32%nat /\ forall i, (i < 32)%nat -> length (nth i t []) = 8%nat /\
    forall j, (j < 8)%nat -> ndeg L (tbl_at K t i j).

Lemma d_row cp : deg L cp ->
  let '(row, c) := tbl_row K cp in
  length row = 8%nat /\ (forall j, (j < 8)%nat -> ndeg L (nth j row (np_zerovalue K))) /\ deg L c.
Proof.
  intro hq. unfold tbl_row. set (step := fun (_ : nat) (st : list (niels FE) * ext FE) => _).
  assert (INV : forall k, let '(row, c) := for_up k step ([], ep_SetZero K) in
    length row = k /\ (forall j, (j < k)%nat -> ndeg L (nth j row (np_zerovalue K))) /\ fl c (negb (Nat.eqb k 0))).
  { induction k as [|k IH].
    - cbn [for_up]. split; [reflexivity|]. split; [intros; lia|]. apply fl_zero.
    - cbn [for_up]. destruct (for_up k step _) as [row c]. destruct IH as (a & b & h). unfold step.
      assert (hc : fl (ep_Add K c cp) true) by (rewrite <- (orb_true_r (negb (Nat.eqb k 0))); apply fl_add; assumption).
      split; [rewrite app_length, a; cbn; lia|]. split; [|exact hc].
      intros j hj. destruct (Nat.eq_dec j k) as [->|n].
        * rewrite app_nth2 by lia. rewrite a, Nat.sub_diag. cbn [nth]. exact (nfl_set L _ true hc).
        * rewrite app_nth1 by lia. apply b. lia. }
  exact (INV 8%nat).
Qed.

Theorem d_Compute p : deg L p -> tdeg (tbl_Compute K p).
Proof.
  intro hp. unfold tbl_Compute. set (step := fun (_ : nat) (st : list (list (niels FE)) * ext FE) => _).
  assert (INV : forall k, let '(t, cp) := for_up k step ([], p) in
    length t = k /\ (forall i, (i < k)%nat -> length (nth i t []) = 8%nat /\ forall j, (j < 8)%nat -> ndeg L (tbl_at K t i j)) /\
    deg L cp).
  { induction k as [|k IH].
    - cbn [for_up]. split; [reflexivity|]. split; [intros; lia|]. exact hp.
    - cbn [for_up]. destruct (for_up k step _) as [t cp]. destruct IH as (a & b & h). unfold step.
      pose proof (d_row cp h) as hr. destruct (tbl_row K cp) as [row c]. destruct hr as (r1 & r2 & r3). cbv zeta.
      split; [rewrite app_length, a; cbn; lia|]. split.
      + intros i hi. unfold tbl_at. destruct (Nat.eq_dec i k) as [->|n].
        * rewrite app_nth2 by lia. rewrite a, Nat.sub_diag. cbn [nth]. split; [exact r1|]. exact r2.
        * rewrite app_nth1 by lia. apply b. lia.
      + apply (cfl_ext L _ true). do 4 (apply pfl_double, cfl_proj). apply (fl_cdouble L _ true), r3. }
  specialize (INV 32%nat). destruct (for_up 32 step _) as [t cp]. destruct INV as (a & b & _). split; [exact a|exact b].
Qed.

Lemma d_tblselect t i b : tdeg t -> (i < 32)%nat -> -8 <= b <= 8 -> nfl (tbl_select K t i b) (nzb b).
Proof.
  intros [_ ht] hi hb. destruct (ht i hi) as [_ h]. unfold tbl_select. cbv zeta. rewrite negative_ok by lia.
  assert (Eb : i32 (b - i32 (Z.shiftl (Z.land (i32 (- Z.b2z (b <? 0))) b) 1)) = Z.abs b).
  { destruct (b <? 0) eqn:E; cbn [Z.b2z].
    - apply Z.ltb_lt in E. change (i32 (-(1))) with (-1). rewrite Z.land_m1_l, Z.shiftl_mul_pow2 by lia. change (2 ^ 1) with 2.
      rewrite !i32_sm by (rewrite ?i32_sm; lia). lia.
    - apply Z.ltb_ge in E. change (i32 (-(0))) with 0. rewrite Z.land_0_l. change (i32 (Z.shiftl 0 1)) with 0. rewrite i32_sm; lia. }
  rewrite Eb. set (step := fun k p => np_ConditionalSet K p _ _).
  assert (INV : forall k, (k <= 8)%nat -> nfl (for_up k step (np_SetZero K)) (nzb b && (Z.abs b <=? Z.of_nat k))).
  { induction k as [|k IH]; intro hk.
    - cbn [for_up]. replace (nzb b && (Z.abs b <=? Z.of_nat 0)) with false; [apply nfl_zero|].
      symmetry. unfold nzb. destruct (b =? 0) eqn:E; [reflexivity|]. apply Z.eqb_neq in E. cbn [negb andb]. apply Z.leb_gt. lia.
    - cbn [for_up]. specialize (IH ltac:(lia)). specialize (h k ltac:(lia)).
      unfold step at 1. rewrite i32_sm by lia. rewrite equal30_ok by lia.
      rewrite (nfl_cond L _ _ _ true _ IH h).
      destruct (Z.abs b =? Z.of_nat k + 1) eqn:E.
      + apply Z.eqb_eq in E. replace (nzb b && (Z.abs b <=? Z.of_nat (S k))) with true; [exact h|].
        symmetry. apply andb_true_iff. split; [unfold nzb; apply negb_true_iff, Z.eqb_neq; lia | apply Z.leb_le; lia].
      + apply Z.eqb_neq in E. replace (Z.abs b <=? Z.of_nat (S k)) with (Z.abs b <=? Z.of_nat k); [exact IH|].
        destruct (Z.abs b <=? Z.of_nat k) eqn:E1, (Z.abs b <=? Z.of_nat (S k)) eqn:E2; try reflexivity;
          rewrite ?Z.leb_le, ?Z.leb_gt in *; lia. }
  specialize (INV 8%nat ltac:(lia)). replace (Z.abs b <=? Z.of_nat 8) with true in INV by (symmetry; apply Z.leb_le; lia).
  rewrite andb_true_r in INV.
  set (P := for_up 8 step _) in *. clearbody P.
  pose proof (nfl_neg L P _ INV) as hn. rewrite (nfl_cond L _ _ _ _ _ INV hn). destruct (b <? 0); assumption.
Qed.

(** whether one of the digits o, o+2, o+4, ... is not zero *)
Fixpoint hnz (w : list Z) (o k : nat) : bool :=
  match k with
  | O => false
  | S k => hnz w o k || nzb (at_ w (2 * k + o))
  end.

Lemma nz_app w v : nz (w ++ v) = nz w || nz v.
Proof. unfold nz. apply existsb_app. Qed.
Lemma hnz_nz w k : (2 * k <= length w)%nat -> nz (firstn (2 * k) w) = hnz w 1 k || hnz w 0 k.
Proof.
  induction k as [|k IH]; intro h; [reflexivity|].
  replace (2 * S k)%nat with (S (S (2 * k))) by lia. rewrite firstn_S, firstn_S, !nz_app by lia.
  cbn [hnz]. rewrite IH by lia. replace (S (2 * k)) with (2 * k + 1)%nat by lia. rewrite Nat.add_0_r.
  cbn [nz existsb]. fold (nzb (at_ w (2 * k))). fold (nzb (at_ w (2 * k + 1))).
  destruct (hnz w 1 k), (hnz w 0 k), (nzb (at_ w (2 * k))), (nzb (at_ w (2 * k + 1))); reflexivity.
Qed.

Lemma d_dbl4 p v : fl p v -> fl (tbl_dbl4 K p) v.
Proof. intro hp. unfold tbl_dbl4. cbv zeta. apply cfl_ext. do 3 (apply pfl_double, cfl_proj). apply fl_cdouble, hp. Qed.

Lemma d_pass t w o p v k : tdeg t -> digits_in (-8) 8 w -> fl p v -> (k <= 32)%nat ->
  fl (for_up k (fun i p => ep_SetCompleted K (cp_AddExtendedNiels K p (tbl_select K t i (at_ w (2 * i + o))))) p) (v || hnz w o k).
Proof.
  intros ht hw hp. induction k as [|k IH]; intro hk; cbn [for_up hnz].
  - rewrite orb_false_r. exact hp.
  - rewrite orb_assoc. apply cfl_ext, fl_addn; [apply IH; lia|].
    apply d_tblselect; [exact ht|lia|]. apply digits_at; [lia|exact hw].
Qed.

Theorem d_tblScalarMult t s : tdeg t -> bytes 32 s -> le_val s < 2 ^ 255 -> fl (tbl_ScalarMult K t s) (nzb (le_val s)).
Proof.
  intros ht hs hv. destruct (computeScalarWindow4_ok s hs hv) as (wl & wd & wv). unfold tbl_ScalarMult. cbv zeta.
  pose proof (d_window 16 (-8) 8 (le_val s) _ ltac:(lia) ltac:(lia) wd wv) as E.
  set (w := computeScalarWindow4 s) in *. clearbody w.
  pose proof (d_pass t w 1 (ep_SetZero K) false 32 ht wd (fl_zero L) ltac:(lia)) as h1.
  rewrite orb_false_l in h1. apply d_dbl4 in h1.
  pose proof (d_pass t w 0 _ _ 32 ht wd h1 ltac:(lia)) as h2.
  rewrite <- hnz_nz, firstn_all2, E in h2 by lia.
  assert (EX : forall p k, for_up k (fun i p => ep_SetCompleted K (cp_AddExtendedNiels K p (tbl_select K t i (at_ w (2 * i + 0))))) p =
     for_up k (fun i p => ep_SetCompleted K (cp_AddExtendedNiels K p (tbl_select K t i (at_ w (2 * i))))) p).
  { intros p k. induction k as [|k IH]; [reflexivity|]. cbn [for_up]. rewrite IH, Nat.add_0_r. reflexivity. }
  rewrite EX in h2. exact h2.
Qed.

Lemma d_vtStep t i b p v : tdeg t -> (i < 32)%nat -> -8 <= b <= 8 -> fl p v ->
  exists r, tbl_vtStep K t i b (Some p) = Some r /\ fl r (v || nzb b).
Proof.
  intros [_ ht] hi hb hp. destruct (ht i hi) as [hl h]. unfold tbl_vtStep, tbl_vtSelect. unfold tbl_at in h.
  destruct (b =? 0) eqn:E0.
  - apply Z.eqb_eq in E0. subst b. eexists. split; [reflexivity|]. rewrite orb_false_r. exact hp.
  - replace (nzb b) with true by (unfold nzb; rewrite E0; reflexivity).
    apply Z.eqb_neq in E0. cbv zeta. destruct (b <? 0) eqn:E.
    + apply Z.ltb_lt in E. rewrite (i32_sm (- b)) by lia. rewrite i32_sm by lia.
      rewrite (nth_error_nth' _ (np_zerovalue K)) by lia. eexists. split; [reflexivity|].
      apply cfl_ext, fl_addn; [exact hp|]. apply (nfl_neg L _ true). apply h. lia.
    + apply Z.ltb_ge in E. rewrite i32_sm by lia.
      rewrite (nth_error_nth' _ (np_zerovalue K)) by lia. eexists. split; [reflexivity|].
      apply cfl_ext, fl_addn; [exact hp|]. apply h. lia.
Qed.

Lemma d_vtpass t w o p v k : tdeg t -> digits_in (-8) 8 w -> fl p v -> (k <= 32)%nat ->
  exists r, for_up k (fun i p => tbl_vtStep K t i (at_ w (2 * i + o)) p) (Some p) = Some r /\ fl r (v || hnz w o k).
Proof.
  intros ht hw hp. induction k as [|k IH]; intro hk; cbn [for_up hnz].
  - rewrite orb_false_r. exists p. split; [reflexivity|exact hp].
  - destruct (IH ltac:(lia)) as [r [-> hr]]. rewrite orb_assoc. apply d_vtStep; [exact ht|lia| |exact hr].
    apply digits_at; [lia|exact hw].
Qed.

Theorem d_tblVarTime t s : tdeg t -> bytes 32 s -> le_val s < 2 ^ 255 ->
  exists r, tbl_VarTimeScalarMult K t s = Some r /\ fl r (nzb (le_val s)).
Proof.
  intros ht hs hv. destruct (computeScalarWindow4_ok s hs hv) as (wl & wd & wv). unfold tbl_VarTimeScalarMult. cbv zeta.
  pose proof (d_window 16 (-8) 8 (le_val s) _ ltac:(lia) ltac:(lia) wd wv) as E.
  set (w := computeScalarWindow4 s) in *. clearbody w.
  destruct (d_vtpass t w 1 (ep_SetZero K) false 32 ht wd (fl_zero L) ltac:(lia)) as [r1 [-> h1]].
  rewrite orb_false_l in h1. apply d_dbl4 in h1. cbn [option_map].
  destruct (d_vtpass t w 0 _ _ 32 ht wd h1 ltac:(lia)) as [r2 [e2 h2]].
  rewrite <- hnz_nz, firstn_all2, E in h2 by lia.
  exists r2. split; [|exact h2]. rewrite <- e2.
  assert (EX : forall p k, for_up k (fun i p => tbl_vtStep K t i (at_ w (2 * i + 0)) p) p =
     for_up k (fun i p => tbl_vtStep K t i (at_ w (2 * i)) p) p).
  { intros p k. induction k as [|k IH]; [reflexivity|]. cbn [for_up]. rewrite IH, Nat.add_0_r. reflexivity. }
  rewrite EX. reflexivity.
Qed.
End SM.
