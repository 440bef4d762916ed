(** Running the program of [ExtendedPoint.ScalarMult] gives [ep_ScalarMult]. *)
From Coq Require Import ZArith List String Lia.
From Verif Require Import Words ScalarCode FieldModel CurveModel GoLang GoLangFacts GoCurveCode GoViews GoScalarMult.
Import ListNotations.
Open Scope Z_scope.
Strategy 2000 [final exec].

Ltac red_prog :=
  cbv beta iota delta [runk prog fold_right vals map fst snd ixval GoLang.upd setk Nat.eqb Nat.add Nat.mul Nat.div2 andb
    elt off lo fo0 fo1 fo2 foc foc0 ido io1 io2 iot fe_at int_at ext_at compl_at proj_at niels_at jac_at ints exts seq].

Section Facts.
Context (K : FeOps).
Notation V := (fe K * Z)%type.
Notation FIN := (final (E:=Empty_set) nosub (fun a => a)).
Notation P n := ((n%nat, C 0) : place V).

Theorem link_ep_ScalarMult rho m :
  ext_at K (FIN rho (g_ep_ScalarMult K (P 0) (P 1) (P 2) 3 0) m 0%nat) 0 = ep_ScalarMult K (ext_at K (m 1%nat) 0) (ints K (m 2%nat) 32).
Proof.
  unfold g_ep_ScalarMult, ep_ScalarMult. cbn [Nat.add].
  (* the digits *)
  rewrite final_cons. change (g_computeScalarWindow5 K (P 2) (lo K 2 3) 12 4) with (w5 K).
  pose proof (link_w5 K rho m) as hw. pose proof (keep K (w5 K) rho m 1 eq_refl eq_refl) as hq.
  set (m1 := FIN rho (w5 K) m) in *. clearbody m1.
  apply (ext_at_ext K _ _ 0) in hq. rewrite <- hw, <- hq. clear hw hq m.
  (* the table *)
  rewrite (final_split _ 2). cbn [firstn skipn].
  pose proof (lut_init K rho m1) as hl.
  match type of hl with context [FIN rho ?s m1] =>
    pose proof (keep K s rho m1 1 eq_refl eq_refl) as hq; pose proof (keep K s rho m1 5 eq_refl eq_refl) as hw end.
  set (m2 := FIN rho _ m1) in *. clearbody m2.
  apply (ext_at_ext K _ _ 0) in hq. apply (ints_ext K _ _ 51) in hw. rewrite <- hq, <- hw. rewrite <- hq in hl.
  rewrite final_cons, final_For.
  match goal with |- context [for_up 7 ?f m2] => set (F := f) end.
  assert (h : exts K (for_up 7 F m2 3%nat) 17 =
      for_up 7 (fun k lut => let i := (2 * k + 2)%nat in
        let lut := Words.upd lut i (ep_Double K (nth (Nat.div i 2) lut (ep_zerovalue K))) in
        Words.upd lut (i + 1) (ep_Add K (nth i lut (ep_zerovalue K)) (ext_at K (m2 1%nat) 0))) (exts K (m2 3%nat) 17) /\
      (forall i, for_up 7 F m2 1%nat i = m2 1%nat i) /\ (forall i, for_up 7 F m2 5%nat i = m2 5%nat i)).
  { apply (for_up_rel (fun _ (m : mem V) l => exts K (m 3%nat) 17 = l /\ (forall i, m 1%nat i = m2 1%nat i) /\ (forall i, m 5%nat i = m2 5%nat i)));
      [refine (conj eq_refl (conj (fun _ => eq_refl) (fun _ => eq_refl)))|].
    intros k x y hk [<- [h1 h5]]. unfold F. clear F hl hq hw. rewrite !final_cons, final_nil.
    pose proof (lut_double K k x hk rho) as ha.
    match type of ha with context [FIN ?r ?s x] =>
      pose proof (keep K s r x 1 eq_refl eq_refl) as hq; pose proof (keep K s r x 5 eq_refl eq_refl) as hw end.
    set (x1 := FIN _ _ x) in *. clearbody x1.
    pose proof (lut_add K k x1 hk rho) as hb.
    match type of hb with context [FIN ?r ?s x1] =>
      pose proof (keep K s r x1 1 eq_refl eq_refl) as hq'; pose proof (keep K s r x1 5 eq_refl eq_refl) as hw' end.
    set (x2 := FIN _ _ x1) in *. clearbody x2.
    refine (conj _ (conj (fun i => eq_trans (hq' i) (eq_trans (hq i) (h1 i))) (fun i => eq_trans (hw' i) (eq_trans (hw i) (h5 i))))).
    rewrite hb, ha. cbv zeta. rewrite (ext_at_ext K (x1 1%nat) (m2 1%nat) 0) by (intro i; rewrite hq; apply h1). reflexivity. }
  set (m3 := for_up 7 F m2) in *. clearbody m3. clear F. destruct h as [h3 [h3q h3w]].
  rewrite final_cons. pose proof (lut_last K rho m3) as hl4.
  match type of hl4 with context [FIN rho ?s m3] => pose proof (keep K s rho m3 5 eq_refl eq_refl) as hw4 end.
  set (m4 := FIN rho _ m3) in *. clearbody m4.
  assert (hlut : exts K (m4 3%nat) 17 = sm_lut K (ext_at K (m2 1%nat) 0)).
  { rewrite hl4, h3, hl. apply (lut_from_any K (exts K (m1 3%nat) 17)). reflexivity. }
  rewrite final_cons. pose proof (zero_p K rho m4) as hp.
  match type of hp with context [FIN rho ?s m4] =>
    pose proof (keep K s rho m4 3 eq_refl eq_refl) as hl5; pose proof (keep K s rho m4 5 eq_refl eq_refl) as hw5 end.
  set (m5 := FIN rho _ m4) in *. clearbody m5. apply (exts_ext K _ _ 17) in hl5.
  apply (ints_ext K _ _ 51) in hw5. apply (ints_ext K _ _ 51) in hw4. apply (ints_ext K _ _ 51) in h3w.
  rewrite <- h3w, <- hw4, <- hw5, <- hlut, <- hl5, <- hp.
  clear - K.
  (* the main loop *)
  rewrite final_cons, final_nil, final_For.
  match goal with |- context [for_up 51 ?f m5] => set (F := f) end.
  assert (h : ext_at K (for_up 51 F m5 0%nat) 0 = for_up 51 (fun k p => sm_step K (exts K (m5 3%nat) 17) (ints K (m5 5%nat) 51) (50 - k) p) (ext_at K (m5 0%nat) 0) /\
      (forall i, for_up 51 F m5 3%nat i = m5 3%nat i) /\ (forall i, for_up 51 F m5 5%nat i = m5 5%nat i)).
  { apply (for_up_rel (fun _ (m : mem V) p => ext_at K (m 0%nat) 0 = p /\ (forall i, m 3%nat i = m5 3%nat i) /\ (forall i, m 5%nat i = m5 5%nat i)));
      [refine (conj eq_refl (conj (fun _ => eq_refl) (fun _ => eq_refl)))|].
    intros k x y hk [<- [h3 h5]]. 
    refine (conj _ (conj _ _)); [|intro i; unfold F; rewrite keep by reflexivity; apply h3|intro i; unfold F; rewrite keep by reflexivity; apply h5].
    unfold F. clear F. rewrite final_cons.
    rewrite <- (exts_ext K _ _ 17 h3). unfold sm_step. rewrite at_ints by lia. rewrite <- (f_equal snd (h5 (50 - k)%nat) : int_at K _ _ = int_at K _ _).
    clear h3 h5 m5.
    rewrite <- dbl_first with (rho := setk rho 1 k).
    match goal with |- context [FIN ?r (g_cp_DoubleExtended ?a ?b ?c ?d ?e) x] =>
      pose proof (keep K (g_cp_DoubleExtended a b c d e) r x 3 eq_refl eq_refl) as h3; pose proof (keep K (g_cp_DoubleExtended a b c d e) r x 5 eq_refl eq_refl) as h5 end.
    set (x1 := FIN _ _ x) in *. clearbody x1.
    rewrite <- (exts_ext K _ _ 17 h3), <- (f_equal snd (h5 (50 - k)%nat) : int_at K _ _ = int_at K _ _). clear h3 h5 x.
    rewrite final_cons, final_For.
    match goal with |- context [for_up 4 ?f x1] => set (F := f) end.
    assert (h : compl_at K (for_up 4 F x1 7%nat) 0 = go_for 0 4 (fun cp => cp_DoubleProjective K (pp_SetCompleted K cp)) (compl_at K (x1 7%nat) 0) /\
      (forall i, for_up 4 F x1 3%nat i = x1 3%nat i) /\ (forall i, for_up 4 F x1 5%nat i = x1 5%nat i)).
    { change (go_for 0 4 (fun cp => cp_DoubleProjective K (pp_SetCompleted K cp)) (compl_at K (x1 7%nat) 0)) with
        (for_up 4 (fun _ cp => cp_DoubleProjective K (pp_SetCompleted K cp)) (compl_at K (x1 7%nat) 0)).
      apply (for_up_rel (fun _ (m : mem V) p => compl_at K (m 7%nat) 0 = p /\ (forall i, m 3%nat i = x1 3%nat i) /\ (forall i, m 5%nat i = x1 5%nat i)));
      [refine (conj eq_refl (conj (fun _ => eq_refl) (fun _ => eq_refl)))|].
      intros j x y hj [<- [h3 h5]]. unfold F. rewrite <- (dbl_next K (setk (setk rho 1 k) 2 j) x).
      refine (conj eq_refl (conj _ _)); [intro i; rewrite keep by reflexivity; apply h3|intro i; rewrite keep by reflexivity; apply h5]. }
    set (x2 := for_up 4 F x1) in *. clearbody x2. clear F. destruct h as [<- [h3 h5]].
    rewrite <- (exts_ext K _ _ 17 h3), <- (f_equal snd (h5 (50 - k)%nat) : int_at K _ _ = int_at K _ _). clear h3 h5 x1.
    rewrite final_cons. rewrite <- round_p with (rho := setk rho 1 k).
    match goal with |- context [FIN ?r (g_ep_SetCompleted ?a ?b ?c ?d ?e) x2] =>
      pose proof (keep K (g_ep_SetCompleted a b c d e) r x2 3 eq_refl eq_refl) as h3; pose proof (keep K (g_ep_SetCompleted a b c d e) r x2 5 eq_refl eq_refl) as h5 end.
    set (x3 := FIN _ _ x2) in *. clearbody x3.
    rewrite <- (exts_ext K _ _ 17 h3), <- (f_equal snd (h5 (50 - k)%nat) : int_at K _ _ = int_at K _ _). clear h3 h5 x2.
    rewrite (final_split _ 8). cbn [firstn skipn]. rewrite final_cons, final_nil.
    rewrite round_add.
    match goal with |- context [FIN ?r ?s x3] => pose proof (keep K s r x3 0 eq_refl eq_refl) as h0 end.
    rewrite (ext_at_ext K _ _ 0 h0). clear h0.
    rewrite round_select. rewrite Nat.mul_1_l. reflexivity. }
  exact (proj1 h).
Qed.
End Facts.
