(** The programs of GoCurveCode.v compute the functions of FieldModel.v and CurveModel.v. *)
From Coq Require Import ZArith List String Lia.
From Verif Require Import Words ScalarCode FieldModel CurveModel GoLang GoLangFacts GoCurveCode GoViews.
Import ListNotations.
Open Scope Z_scope.

Ltac red_prog :=
  cbv beta iota delta [runk prog fold_right vals map fst snd ixval GoLang.upd setk Nat.eqb Nat.add Nat.sub Nat.mul Nat.div2 andb rho0
    elt off lo fo0 fo1 fo2 foc foc0 ido io1 io2 iot fe_at int_at ext_at compl_at proj_at niels_at jac_at].

Strategy 2000 [final exec].

Section Facts.
Context (K : FeOps).
Notation V := (fe K * Z)%type.
Notation FIN := (final (E:=Empty_set) nosub (fun a => a)).
Notation P n := ((n%nat, C 0) : place V).

Ltac link v := rewrite <- (runk_ok (E:=Empty_set) nosub _ _ _ v); red_prog; reflexivity.

Lemma link_fe_double nu : fe_at K (FIN rho0 (g_fe_double K (P 0) (P 1) 2 0) nu 0%nat) 0 = fe_double K (fe_at K (nu 1%nat) 0).
Proof. unfold g_fe_double, fe_double. link (fun m : mem V => fe_at K (m 0%nat) 0). Qed.
Lemma link_fe_Add nu : fe_at K (FIN rho0 (g_fe_Add K (P 0) (P 1) (P 2) 3 0) nu 0%nat) 0 = fe_Add K (fe_at K (nu 1%nat) 0) (fe_at K (nu 2%nat) 0).
Proof. unfold g_fe_Add, fe_Add. link (fun m : mem V => fe_at K (m 0%nat) 0). Qed.
Lemma link_fe_Sub nu : fe_at K (FIN rho0 (g_fe_Sub K (P 0) (P 1) (P 2) 3 0) nu 0%nat) 0 = fe_Sub K (fe_at K (nu 1%nat) 0) (fe_at K (nu 2%nat) 0).
Proof. unfold g_fe_Sub, fe_Sub. link (fun m : mem V => fe_at K (m 0%nat) 0). Qed.
Lemma link_fe_Inverse nu : fe_at K (FIN rho0 (g_fe_Inverse K (P 0) (P 1) 2 0) nu 0%nat) 0 = fe_Inverse K (fe_at K (nu 1%nat) 0).
Proof. unfold g_fe_Inverse, fe_Inverse, go_for. link (fun m : mem V => fe_at K (m 0%nat) 0). Qed.
Lemma link_fe_Exp22523 nu : fe_at K (FIN rho0 (g_fe_Exp22523 K (P 0) (P 1) 2 0) nu 0%nat) 0 = fe_Exp22523 K (fe_at K (nu 1%nat) 0).
Proof. unfold g_fe_Exp22523, fe_Exp22523, go_for. link (fun m : mem V => fe_at K (m 0%nat) 0). Qed.
Lemma link_fe_InvSqrt nu : fe_at K (FIN rho0 (g_fe_InvSqrt K (P 0) (P 1) 2 0) nu 0%nat) 0 = fe_InvSqrt K (fe_at K (nu 1%nat) 0).
Proof. unfold g_fe_InvSqrt, fe_InvSqrt, g_fe_Exp22523, fe_Exp22523, go_for. link (fun m : mem V => fe_at K (m 0%nat) 0). Qed.
Lemma link_ep_Set nu : ext_at K (FIN rho0 (g_ep_Set K (P 0) (P 1) 2 0) nu 0%nat) 0 = (ext_at K (nu 1%nat) 0).
Proof. unfold g_ep_Set. link (fun m : mem V => ext_at K (m 0%nat) 0). Qed.
Lemma link_ep_ConditionalSet nu : ext_at K (FIN rho0 (g_ep_ConditionalSet K (P 0) (P 1) (P 2) 3 0) nu 0%nat) 0 = ep_ConditionalSet K (ext_at K (nu 0%nat) 0) (ext_at K (nu 1%nat) 0) (int_at K (nu 2%nat) 0).
Proof. unfold g_ep_ConditionalSet, ep_ConditionalSet. link (fun m : mem V => ext_at K (m 0%nat) 0). Qed.
Lemma link_ep_Double nu : ext_at K (FIN rho0 (g_ep_Double K (P 0) (P 1) 2 0) nu 0%nat) 0 = ep_Double K (ext_at K (nu 1%nat) 0).
Proof. unfold g_ep_Double, g_cp_DoubleExtended, g_ep_SetCompleted, ep_Double, cp_DoubleExtended, ep_SetCompleted. link (fun m : mem V => ext_at K (m 0%nat) 0). Qed.
Lemma link_ep_Add nu : ext_at K (FIN rho0 (g_ep_Add K (P 0) (P 1) (P 2) 3 0) nu 0%nat) 0 = ep_Add K (ext_at K (nu 1%nat) 0) (ext_at K (nu 2%nat) 0).
Proof. unfold g_ep_Add, g_cp_AddExtended, g_ep_SetCompleted, ep_Add, cp_AddExtended, ep_SetCompleted. link (fun m : mem V => ext_at K (m 0%nat) 0). Qed.
Lemma link_ep_Sub nu : ext_at K (FIN rho0 (g_ep_Sub K (P 0) (P 1) (P 2) 3 0) nu 0%nat) 0 = ep_Sub K (ext_at K (nu 1%nat) 0) (ext_at K (nu 2%nat) 0).
Proof. unfold g_ep_Sub, g_cp_SubExtended, g_ep_SetCompleted, ep_Sub, cp_SubExtended, ep_SetCompleted. link (fun m : mem V => ext_at K (m 0%nat) 0). Qed.
Lemma link_ep_Neg nu : ext_at K (FIN rho0 (g_ep_Neg K (P 0) (P 1) 2 0) nu 0%nat) 0 = ep_Neg K (ext_at K (nu 1%nat) 0).
Proof. unfold g_ep_Neg, ep_Neg. link (fun m : mem V => ext_at K (m 0%nat) 0). Qed.
Lemma link_np_Set nu : niels_at K (FIN rho0 (g_np_Set K (P 0) (P 1) 2 0) nu 0%nat) 0 = (niels_at K (nu 1%nat) 0).
Proof. unfold g_np_Set. link (fun m : mem V => niels_at K (m 0%nat) 0). Qed.
Lemma link_np_ConditionalSet nu : niels_at K (FIN rho0 (g_np_ConditionalSet K (P 0) (P 1) (P 2) 3 0) nu 0%nat) 0 = np_ConditionalSet K (niels_at K (nu 0%nat) 0) (niels_at K (nu 1%nat) 0) (int_at K (nu 2%nat) 0).
Proof. unfold g_np_ConditionalSet, np_ConditionalSet. link (fun m : mem V => niels_at K (m 0%nat) 0). Qed.
Lemma link_np_Neg nu : niels_at K (FIN rho0 (g_np_Neg K (P 0) (P 1) 2 0) nu 0%nat) 0 = np_Neg K (niels_at K (nu 1%nat) 0).
Proof. unfold g_np_Neg, np_Neg. link (fun m : mem V => niels_at K (m 0%nat) 0). Qed.
Lemma link_jc_Dual nu : jac_at K (FIN rho0 (g_jc_Dual K (P 0) (P 1) 2 0) nu 0%nat) 0 = jc_Dual K (jac_at K (nu 1%nat) 0).
Proof. unfold g_jc_Dual, jc_Dual. link (fun m : mem V => jac_at K (m 0%nat) 0). Qed.

Lemma link_fe_InvSqrt6 nu : fe_at K (FIN rho0 (g_fe_InvSqrt K (P 0) (P 1) 6 0) nu 0%nat) 0 = fe_InvSqrt K (fe_at K (nu 1%nat) 0).
Proof. unfold g_fe_InvSqrt, fe_InvSqrt, g_fe_Exp22523, fe_Exp22523, go_for. link (fun m : mem V => fe_at K (m 0%nat) 0). Qed.
Lemma sqrt_tail m : fe_at K (FIN rho0 (prog [
    fo2 K "Mul" (o_mul K) (P 0) (P 0) (lo K 0 2); fo1 K "Neg" (o_neg K) (lo K 1 2) (P 0);
    iot K "IsNegativeI" (fe_IsNegativeI K) (lo K 3 2) (P 0);
    ido K (fun _ vs => match vs with [r0] => r0 | _ => 0 end) (lo K 2 2) [lo K 3 2]; foc K (P 0) (lo K 1 2) (lo K 2 2)]) m 0%nat) 0 =
  let r := o_mul K (fe_at K (m 0%nat) 0) (fe_at K (m 2%nat) 0) in
  let feNeg := o_neg K r in
  let '(b, r) := fe_IsNegativeI K r in o_condSet K r feNeg b.
Proof.
  rewrite <- (runk_ok (E:=Empty_set) nosub _ _ _ (fun m : mem V => fe_at K (m 0%nat) 0)).
  cbv beta iota zeta delta [runk prog fold_right vals map fst snd ixval GoLang.upd Nat.eqb andb fo1 fo2 iot ido foc fe_at LetIn lo Nat.add].
  destruct (fe_IsNegativeI K _) as [b r]. reflexivity.
Qed.
Lemma link_fe_Sqrt nu : fe_at K (FIN rho0 (g_fe_Sqrt K (P 0) (P 1) 2 0) nu 0%nat) 0 = fe_Sqrt K (fe_at K (nu 1%nat) 0).
Proof.
  unfold g_fe_Sqrt. rewrite final_cons. set (m1 := FIN rho0 _ nu). rewrite final_cons.
  assert (h1 : fe_at K (m1 2%nat) 0 = fe_at K (nu 1%nat) 0 /\ m1 1%nat 0%nat = nu 1%nat 0%nat).
  { unfold m1. split; [link (fun m : mem V => fe_at K (m 2%nat) 0)|]. apply frame_name; reflexivity. }
  destruct h1 as [h1 h1']. clearbody m1.
  pose proof (link_fe_InvSqrt6 m1) as h2. change (4 + 2)%nat with 6%nat. change (0 + 0)%nat with 0%nat. set (m2 := FIN rho0 _ m1) in *.
  assert (h2' : m2 2%nat 0%nat = m1 2%nat 0%nat) by (unfold m2; apply frame_name; reflexivity).
  clearbody m2. rewrite (sqrt_tail m2). unfold fe_Sqrt. cbv zeta.
  unfold fe_at in h1, h2. unfold fe_at. rewrite h2, h2', h1, h1'. reflexivity.
Qed.

End Facts.
