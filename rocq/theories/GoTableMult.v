(** Running the program of [ScalarMultTable.ScalarMult] gives [tbl_ScalarMult]. *)
From Coq Require Import ZArith List String Lia.
From Verif Require Import Words ScalarCode FieldModel CurveModel GoLang GoLangFacts GoCurveCode GoViews GoScalarMult.
Import ListNotations.
Open Scope Z_scope.
Strategy 2000 [final exec].

Ltac red_prog :=
  cbv beta iota delta [runk prog fold_right vals map fst snd ixval GoLang.upd setk Nat.eqb Nat.add Nat.mul Nat.div2 andb
    elt off lo fo0 fo1 fo2 foc foc0 ido io1 io2 iot fe_at int_at ext_at compl_at proj_at niels_at jac_at ints exts seq].

Section Facts.
Context (K : FeOps).
Notation V := (fe K * Z)%type.
Notation FIN := (final (E:=Empty_set) nosub (fun a => a)).
Notation P n := ((n%nat, C 0) : place V).

Ltac link v := rewrite <- (runk_ok (E:=Empty_set) nosub _ _ _ v); red_prog; reflexivity.

(** ** computeScalarWindow4 *)
Definition w4 : stmt V := g_computeScalarWindow4 K (P 2) (lo K 0 3) 9 2.

Lemma link_w4 rho m : ints K (FIN rho w4 m 3%nat) 64 = computeScalarWindow4 (ints K (m 2%nat) 32).
Proof.
  unfold w4, g_computeScalarWindow4. rewrite (final_split _ 2). cbn [firstn skipn].
  set (m1 := FIN rho _ m).
  assert (h1 : (ints K (m1 3%nat) 64, int_at K (m1 9%nat) 0) = (window4_raw (ints K (m 2%nat) 32), 0)).
  { unfold m1, window4_raw. rewrite <- (runk_ok (E:=Empty_set) nosub _ _ _ (fun m : mem V => (ints K (m 3%nat) 64, int_at K (m 9%nat) 0))).
    red_prog. reflexivity. }
  clearbody m1. rewrite final_cons, final_For. cbn [Nat.add].
  unfold computeScalarWindow4.
  match goal with |- context [for_up 63 ?f m1] => set (F := f) end.
  assert (h : (ints K (for_up 63 F m1 3%nat) 64, int_at K (for_up 63 F m1 9%nat) 0) = for_up 63 window4_step (window4_raw (ints K (m 2%nat) 32), 0)).
  { apply (for_up_rel (fun _ (m : mem V) st => (ints K (m 3%nat) 64, int_at K (m 9%nat) 0) = st)); [exact h1|].
    intros k x y hk <-. unfold F. clear - hk.
    do 63 (destruct k as [|k]; [rewrite <- (runk_ok (E:=Empty_set) nosub _ _ _ (fun m : mem V => (ints K (m 3%nat) 64, int_at K (m 9%nat) 0))); red_prog; reflexivity|]). lia. }
  destruct (for_up 63 window4_step (window4_raw (ints K (m 2%nat) 32), 0)) as [w c].
  set (m2 := for_up 63 F m1) in *. clearbody m2. apply pair_equal_spec in h as [<- <-].
  rewrite <- (runk_ok (E:=Empty_set) nosub _ _ _ (fun m : mem V => ints K (m 3%nat) 64)). red_prog. reflexivity.
Qed.

(** ** the entry of the table *)
Lemma tbl_at_table c i j : (i < 32)%nat -> (j < 8)%nat -> tbl_at K (table K c) i j = niels_at K c (24 * i + 3 * j).
Proof.
  intros hi hj. unfold tbl_at, table.
  rewrite (nth_indep _ [] (map (fun j => niels_at K c (24 * 0 + 3 * j)) (seq 0 8))) by (rewrite map_length, seq_length; exact hi).
  rewrite (map_nth (fun i => map (fun j => niels_at K c (24 * i + 3 * j)) (seq 0 8)) (seq 0 32) 0%nat i), seq_nth by exact hi.
  rewrite (nth_indep _ _ (niels_at K c (24 * (0 + i) + 3 * 0))) by (rewrite map_length, seq_length; exact hj).
  rewrite (map_nth (fun j => niels_at K c (24 * (0 + i) + 3 * j)) (seq 0 8) 0%nat j), seq_nth by exact hj. reflexivity.
Qed.

Definition select_at (c : nat -> V) (pos : nat) (b : Z) : niels (fe K) :=
  let bNegative := negative b in
  let bAbs := i32 (b - i32 (Z.shiftl (Z.land (i32 (- bNegative)) b) 1)) in
  let p := np_SetZero K in
  let p := for_up 8 (fun i p =>
    np_ConditionalSet K p (niels_at K c (24 * pos + 3 * i)) (equal30 bAbs (i32 (Z.of_nat i + 1)))) p in
  let negP := np_Neg K p in
  np_ConditionalSet K p negP bNegative.
Lemma select_at_ok c pos b : (pos < 32)%nat -> tbl_select K (table K c) pos b = select_at c pos b.
Proof. intro h. unfold tbl_select, select_at. cbn [for_up]. rewrite !tbl_at_table by (exact h || lia). reflexivity. Qed.
Lemma select_at_ext c c' pos b : (forall i, c i = c' i) -> select_at c pos b = select_at c' pos b.
Proof. intro h. unfold select_at. cbn [for_up]. unfold niels_at. rewrite !h. reflexivity. Qed.

Lemma select_1 rho m : niels_at K (FIN rho (prog [
    ido K (fun _ vs => match vs with [x0] => x0 | _ => 0 end) (lo K 4 3) [(elt (lo K 0 3) 1 (Plus (Times 2 (Ctr 0)) (C 1)))];
    g_tb_selectPoint K (P 1) (lo K 1 3) (Ctr 0) (lo K 4 3) 9 2]) m 4%nat) 0 =
  select_at (m 1%nat) (rho 0%nat) (int_at K (m 3%nat) (1 * (2 * rho 0%nat + 1))).
Proof.
  unfold g_tb_selectPoint, g_np_SetZero, g_np_ConditionalSet, g_np_Neg, select_at, np_SetZero, np_ConditionalSet, np_Neg.
  rewrite <- (runk_ok (E:=Empty_set) nosub _ _ _ (fun m : mem V => niels_at K (m 4%nat) 0)). red_prog. reflexivity.
Qed.
Lemma select_2 rho m : niels_at K (FIN rho (prog [
    ido K (fun _ vs => match vs with [x0] => x0 | _ => 0 end) (lo K 5 3) [(elt (lo K 0 3) 1 (Times 2 (Ctr 1)))];
    g_tb_selectPoint K (P 1) (lo K 1 3) (Ctr 1) (lo K 5 3) 9 2]) m 4%nat) 0 =
  select_at (m 1%nat) (rho 1%nat) (int_at K (m 3%nat) (1 * (2 * rho 1%nat))).
Proof.
  unfold g_tb_selectPoint, g_np_SetZero, g_np_ConditionalSet, g_np_Neg, select_at, np_SetZero, np_ConditionalSet, np_Neg.
  rewrite <- (runk_ok (E:=Empty_set) nosub _ _ _ (fun m : mem V => niels_at K (m 4%nat) 0)). red_prog. reflexivity.
Qed.
Lemma add_niels rho m : ext_at K (FIN rho (prog [
    g_cp_AddExtendedNiels K (lo K 2 3) (P 0) (lo K 1 3) 9 2;
    g_ep_SetCompleted K (P 0) (lo K 2 3) 9 2]) m 0%nat) 0 =
  ep_SetCompleted K (cp_AddExtendedNiels K (ext_at K (m 0%nat) 0) (niels_at K (m 4%nat) 0)).
Proof.
  unfold g_cp_AddExtendedNiels, g_ep_SetCompleted, ep_SetCompleted, cp_AddExtendedNiels. link (fun m : mem V => ext_at K (m 0%nat) 0).
Qed.
Lemma dbl_a rho m : compl_at K (FIN rho (g_cp_DoubleExtended K (lo K 2 3) (P 0) 9 2) m 5%nat) 0 = cp_DoubleExtended K (ext_at K (m 0%nat) 0).
Proof. unfold g_cp_DoubleExtended, cp_DoubleExtended. link (fun m : mem V => compl_at K (m 5%nat) 0). Qed.
Lemma dbl_b rho m : proj_at K (FIN rho (g_pp_SetCompleted K (lo K 3 3) (lo K 2 3) 9 2) m 6%nat) 0 = pp_SetCompleted K (compl_at K (m 5%nat) 0).
Proof. unfold g_pp_SetCompleted, pp_SetCompleted. link (fun m : mem V => proj_at K (m 6%nat) 0). Qed.
Lemma dbl_c rho m : compl_at K (FIN rho (g_cp_DoubleProjective K (lo K 2 3) (lo K 3 3) 9 2) m 5%nat) 0 = cp_DoubleProjective K (proj_at K (m 6%nat) 0).
Proof. unfold g_cp_DoubleProjective, cp_DoubleProjective. link (fun m : mem V => compl_at K (m 5%nat) 0). Qed.
Lemma dbl_d rho m : ext_at K (FIN rho (g_ep_SetCompleted K (P 0) (lo K 2 3) 9 2) m 0%nat) 0 = ep_SetCompleted K (compl_at K (m 5%nat) 0).
Proof. unfold g_ep_SetCompleted, ep_SetCompleted. link (fun m : mem V => ext_at K (m 0%nat) 0). Qed.
Lemma zero_t rho m : ext_at K (FIN rho (g_ep_SetZero K (P 0) 9 2) m 0%nat) 0 = ep_SetZero K.
Proof. unfold g_ep_SetZero, ep_SetZero. link (fun m : mem V => ext_at K (m 0%nat) 0). Qed.

Lemma pass_1 rho m : ext_at K (FIN rho (For 0 32 (prog [
    ido K (fun _ vs => match vs with [x0] => x0 | _ => 0 end) (lo K 4 3) [(elt (lo K 0 3) 1 (Plus (Times 2 (Ctr 0)) (C 1)))];
    g_tb_selectPoint K (P 1) (lo K 1 3) (Ctr 0) (lo K 4 3) 9 2;
    g_cp_AddExtendedNiels K (lo K 2 3) (P 0) (lo K 1 3) 9 2;
    g_ep_SetCompleted K (P 0) (lo K 2 3) 9 2])) m 0%nat) 0 =
  for_up 32 (fun i p => ep_SetCompleted K (cp_AddExtendedNiels K p (tbl_select K (table K (m 1%nat)) i (at_ (ints K (m 3%nat) 64) (2 * i + 1))))) (ext_at K (m 0%nat) 0).
Proof.
  rewrite final_For. match goal with |- context [for_up 32 ?f m] => set (F := f) end.
  enough (h : ext_at K (for_up 32 F m 0%nat) 0 = for_up 32 (fun i p => ep_SetCompleted K (cp_AddExtendedNiels K p (tbl_select K (table K (m 1%nat)) i (at_ (ints K (m 3%nat) 64) (2 * i + 1))))) (ext_at K (m 0%nat) 0) /\
      (forall i, for_up 32 F m 1%nat i = m 1%nat i) /\ (forall i, for_up 32 F m 3%nat i = m 3%nat i)) by exact (proj1 h).
  apply (for_up_rel (fun _ (x : mem V) p => ext_at K (x 0%nat) 0 = p /\ (forall i, x 1%nat i = m 1%nat i) /\ (forall i, x 3%nat i = m 3%nat i)));
    [refine (conj eq_refl (conj (fun _ => eq_refl) (fun _ => eq_refl)))|].
  intros k x y hk [<- [h1 h3]].
  refine (conj _ (conj _ _)); [|intro i; unfold F; rewrite keep by reflexivity; apply h1|intro i; unfold F; rewrite keep by reflexivity; apply h3].
  unfold F. clear F. rewrite (final_split _ 2). cbn [firstn skipn]. rewrite add_niels, select_1.
  match goal with |- context [FIN ?r ?s x] => rewrite (ext_at_ext K _ _ 0 (keep K s r x 0 eq_refl eq_refl)) end.
  rewrite select_at_ok, at_ints by lia. rewrite (select_at_ext _ _ _ _ h1). unfold int_at. rewrite h3, Nat.mul_1_l. reflexivity.
Qed.

Lemma pass_2 rho m : ext_at K (FIN rho (For 1 32 (prog [
    ido K (fun _ vs => match vs with [x0] => x0 | _ => 0 end) (lo K 5 3) [(elt (lo K 0 3) 1 (Times 2 (Ctr 1)))];
    g_tb_selectPoint K (P 1) (lo K 1 3) (Ctr 1) (lo K 5 3) 9 2;
    g_cp_AddExtendedNiels K (lo K 2 3) (P 0) (lo K 1 3) 9 2;
    g_ep_SetCompleted K (P 0) (lo K 2 3) 9 2])) m 0%nat) 0 =
  for_up 32 (fun i p => ep_SetCompleted K (cp_AddExtendedNiels K p (tbl_select K (table K (m 1%nat)) i (at_ (ints K (m 3%nat) 64) (2 * i))))) (ext_at K (m 0%nat) 0).
Proof.
  rewrite final_For. match goal with |- context [for_up 32 ?f m] => set (F := f) end.
  enough (h : ext_at K (for_up 32 F m 0%nat) 0 = for_up 32 (fun i p => ep_SetCompleted K (cp_AddExtendedNiels K p (tbl_select K (table K (m 1%nat)) i (at_ (ints K (m 3%nat) 64) (2 * i))))) (ext_at K (m 0%nat) 0) /\
      (forall i, for_up 32 F m 1%nat i = m 1%nat i) /\ (forall i, for_up 32 F m 3%nat i = m 3%nat i)) by exact (proj1 h).
  apply (for_up_rel (fun _ (x : mem V) p => ext_at K (x 0%nat) 0 = p /\ (forall i, x 1%nat i = m 1%nat i) /\ (forall i, x 3%nat i = m 3%nat i)));
    [refine (conj eq_refl (conj (fun _ => eq_refl) (fun _ => eq_refl)))|].
  intros k x y hk [<- [h1 h3]].
  refine (conj _ (conj _ _)); [|intro i; unfold F; rewrite keep by reflexivity; apply h1|intro i; unfold F; rewrite keep by reflexivity; apply h3].
  unfold F. clear F. rewrite (final_split _ 2). cbn [firstn skipn]. rewrite add_niels, select_2.
  match goal with |- context [FIN ?r ?s x] => rewrite (ext_at_ext K _ _ 0 (keep K s r x 0 eq_refl eq_refl)) end.
  rewrite select_at_ok, at_ints by lia. rewrite (select_at_ext _ _ _ _ h1). unfold int_at. rewrite h3, Nat.mul_1_l. reflexivity.
Qed.

Lemma four rho m : ext_at K (FIN rho (prog [
    g_cp_DoubleExtended K (lo K 2 3) (P 0) 9 2;
    g_pp_SetCompleted K (lo K 3 3) (lo K 2 3) 9 2;
    g_cp_DoubleProjective K (lo K 2 3) (lo K 3 3) 9 2;
    g_pp_SetCompleted K (lo K 3 3) (lo K 2 3) 9 2;
    g_cp_DoubleProjective K (lo K 2 3) (lo K 3 3) 9 2;
    g_pp_SetCompleted K (lo K 3 3) (lo K 2 3) 9 2;
    g_cp_DoubleProjective K (lo K 2 3) (lo K 3 3) 9 2;
    g_ep_SetCompleted K (P 0) (lo K 2 3) 9 2]) m 0%nat) 0 = tbl_dbl4 K (ext_at K (m 0%nat) 0).
Proof. rewrite !final_cons, final_nil, dbl_d, dbl_c, dbl_b, dbl_c, dbl_b, dbl_c, dbl_b, dbl_a. reflexivity. Qed.

Lemma table_ext c c' : (forall i, c i = c' i) -> table K c = table K c'.
Proof. intro h. apply map_ext. intro i. apply map_ext. intro j. unfold niels_at. rewrite !h. reflexivity. Qed.

Theorem link_tb_ScalarMult rho m :
  ext_at K (FIN rho (g_tb_ScalarMult K (P 1) (P 0) (P 2) 3 0) m 0%nat) 0 = tbl_ScalarMult K (table K (m 1%nat)) (ints K (m 2%nat) 32).
Proof.
  unfold g_tb_ScalarMult, tbl_ScalarMult. cbn [Nat.add].
  rewrite final_cons. change (g_computeScalarWindow4 K (P 2) (lo K 0 3) 9 2) with w4.
  rewrite <- (link_w4 rho m). rewrite <- (table_ext _ _ (keep K w4 rho m 1 eq_refl eq_refl)).
  set (m1 := FIN rho w4 m). clearbody m1.
  rewrite final_cons. rewrite <- (zero_t rho m1).
  match goal with |- context [FIN rho ?s m1] =>
    rewrite <- (table_ext _ _ (keep K s rho m1 1 eq_refl eq_refl)), <- (ints_ext K _ _ 64 (keep K s rho m1 3 eq_refl eq_refl)) end.
  set (m2 := FIN rho _ m1). clearbody m2.
  rewrite final_cons. rewrite <- (pass_1 rho m2).
  match goal with |- context [FIN rho ?s m2] =>
    rewrite <- (table_ext _ _ (keep K s rho m2 1 eq_refl eq_refl)), <- (ints_ext K _ _ 64 (keep K s rho m2 3 eq_refl eq_refl)) end.
  set (m3 := FIN rho _ m2). clearbody m3.
  rewrite (final_split _ 8). cbn [firstn skipn]. rewrite <- (four rho m3).
  match goal with |- context [FIN rho ?s m3] =>
    rewrite <- (table_ext _ _ (keep K s rho m3 1 eq_refl eq_refl)), <- (ints_ext K _ _ 64 (keep K s rho m3 3 eq_refl eq_refl)) end.
  set (m4 := FIN rho _ m3). clearbody m4.
  rewrite final_cons, final_nil. apply pass_2.
Qed.
End Facts.
