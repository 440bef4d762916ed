(** For every aliasing of the variables of a method call the receiver gets the value for
    different variables, and no other variable changes. *)
From Coq Require Import ZArith List String Lia.
From Verif Require Import Words ScalarCode Fe51Code Fe25Code FieldModel CurveModel ScalarModel GoLang GoLangFacts GoViews
  GoLimbCode GoLimbFacts GoCurveCode GoCurveFacts GoScalarMult GoScalarMultRun GoTableMult.
Import ListNotations.
Open Scope Z_scope.
Strategy 2000 [final exec].
Lemma alias_free_Scalar_Add : forall sg m, fresh_locals 3 sg -> sc_of (m (sg 3%nat)) = scL -> 
  sc_of (final nosub sg rho0 (d_sc_add 0 1 2 3 4) m (sg 0%nat)) = sc_add (sc_of (m (sg 1%nat))) (sc_of (m (sg 2%nat))) /\
  others_same 3 sg m (final nosub sg rho0 (d_sc_add 0 1 2 3 4) m).
Proof.
  intros sg m fr h. destruct (alias_free (E:=Empty_set) nosub 3 sg ltac:(lia) fr _ rho0 m alias_sc_add) as [hr ho].
  split; [|exact ho]. rewrite (sc_of_ext _ _ hr). rewrite <- (runk_ok (E:=Empty_set) nosub _ _ _ (fun m => sc_of (m 0%nat))).
  apply (link_sc_add (fun a j => m (sg a) j) h).
Qed.

Lemma alias_free_Scalar_Sub : forall sg m, fresh_locals 3 sg -> 
  sc_of (final nosub sg rho0 (d_sc_sub 0 1 2 3) m (sg 0%nat)) = sc_sub (sc_of (m (sg 1%nat))) (sc_of (m (sg 2%nat))) /\
  others_same 3 sg m (final nosub sg rho0 (d_sc_sub 0 1 2 3) m).
Proof. exact (harmless_intro sc_of 3 _ (fun nu => sc_sub (sc_of (nu 1%nat)) (sc_of (nu 2%nat))) ltac:(lia) alias_sc_sub sc_of_ext link_sc_sub). Qed.

Lemma alias_free_Scalar_Neg : forall sg m, fresh_locals 2 sg -> sc_of (m (sg 2%nat)) = scZero -> 
  sc_of (final nosub sg rho0 (d_sc_neg 0 1 2 3) m (sg 0%nat)) = sc_neg (sc_of (m (sg 1%nat))) /\
  others_same 2 sg m (final nosub sg rho0 (d_sc_neg 0 1 2 3) m).
Proof.
  intros sg m fr h. destruct (alias_free (E:=Empty_set) nosub 2 sg ltac:(lia) fr _ rho0 m alias_sc_neg) as [hr ho].
  split; [|exact ho]. rewrite (sc_of_ext _ _ hr). rewrite <- (runk_ok (E:=Empty_set) nosub _ _ _ (fun m => sc_of (m 0%nat))).
  apply (link_sc_neg (fun a j => m (sg a) j) h).
Qed.

Lemma alias_free_Scalar_Mul : forall sg m, fresh_locals 3 sg -> 
  sc_of (final nosub sg rho0 (d_sc_mul 0 1 2 3) m (sg 0%nat)) = sc_mul (sc_of (m (sg 1%nat))) (sc_of (m (sg 2%nat))) /\
  others_same 3 sg m (final nosub sg rho0 (d_sc_mul 0 1 2 3) m).
Proof. exact (harmless_intro sc_of 3 _ (fun nu => sc_mul (sc_of (nu 1%nat)) (sc_of (nu 2%nat))) ltac:(lia) alias_sc_mul sc_of_ext link_sc_mul). Qed.

Lemma alias_free_Scalar_Square : forall sg m, fresh_locals 2 sg -> 
  sc_of (final nosub sg rho0 (d_sc_square 0 1 2) m (sg 0%nat)) = sc_square (sc_of (m (sg 1%nat))) /\
  others_same 2 sg m (final nosub sg rho0 (d_sc_square 0 1 2) m).
Proof. exact (harmless_intro sc_of 2 _ (fun nu => sc_square (sc_of (nu 1%nat))) ltac:(lia) alias_sc_square sc_of_ext link_sc_square). Qed.

Lemma alias_free_Scalar_MulAdd : forall sg m, fresh_locals 4 sg -> 
  sc_of (final nosub sg rho0 (d_sc_mulAdd 0 1 2 3 4) m (sg 0%nat)) = sc_mulAdd (sc_of (m (sg 1%nat))) (sc_of (m (sg 2%nat))) (sc_of (m (sg 3%nat))) /\
  others_same 4 sg m (final nosub sg rho0 (d_sc_mulAdd 0 1 2 3 4) m).
Proof. exact (harmless_intro sc_of 4 _ (fun nu => sc_mulAdd (sc_of (nu 1%nat)) (sc_of (nu 2%nat)) (sc_of (nu 3%nat))) ltac:(lia) alias_sc_mulAdd sc_of_ext link_sc_mulAdd). Qed.

Lemma alias_free_Scalar_MulSub : forall sg m, fresh_locals 4 sg -> 
  sc_of (final nosub sg rho0 (d_sc_mulSub 0 1 2 3 4) m (sg 0%nat)) = sc_mulSub (sc_of (m (sg 1%nat))) (sc_of (m (sg 2%nat))) (sc_of (m (sg 3%nat))) /\
  others_same 4 sg m (final nosub sg rho0 (d_sc_mulSub 0 1 2 3 4) m).
Proof. exact (harmless_intro sc_of 4 _ (fun nu => sc_mulSub (sc_of (nu 1%nat)) (sc_of (nu 2%nat)) (sc_of (nu 3%nat))) ltac:(lia) alias_sc_mulSub sc_of_ext link_sc_mulSub). Qed.

Lemma alias_free_Scalar_ConditionalSet : forall sg m, fresh_locals 2 sg -> 
  sc_of (final nosub sg rho0 (d_sc_condSet 0 1 2 3) m (sg 0%nat)) = sc_condSet (sc_of (m (sg 0%nat))) (sc_of (m (sg 1%nat))) (m (sg 2%nat) 0%nat) /\
  others_same 2 sg m (final nosub sg rho0 (d_sc_condSet 0 1 2 3) m).
Proof. exact (harmless_intro sc_of 2 _ (fun nu => sc_condSet (sc_of (nu 0%nat)) (sc_of (nu 1%nat)) (nu 2%nat 0%nat)) ltac:(lia) alias_sc_condSet sc_of_ext link_sc_condSet). Qed.

Lemma alias_free_r51_add : forall sg m, fresh_locals 3 sg -> 
  fe51_of (final nosub sg rho0 (d_r51_add 0 1 2 3) m (sg 0%nat)) = r51_add (fe51_of (m (sg 1%nat))) (fe51_of (m (sg 2%nat))) /\
  others_same 3 sg m (final nosub sg rho0 (d_r51_add 0 1 2 3) m).
Proof. exact (harmless_intro fe51_of 3 _ (fun nu => r51_add (fe51_of (nu 1%nat)) (fe51_of (nu 2%nat))) ltac:(lia) alias_r51_add fe51_of_ext link_r51_add). Qed.

Lemma alias_free_r51_sub : forall sg m, fresh_locals 3 sg -> 
  fe51_of (final nosub sg rho0 (d_r51_sub 0 1 2 3) m (sg 0%nat)) = r51_sub (fe51_of (m (sg 1%nat))) (fe51_of (m (sg 2%nat))) /\
  others_same 3 sg m (final nosub sg rho0 (d_r51_sub 0 1 2 3) m).
Proof. exact (harmless_intro fe51_of 3 _ (fun nu => r51_sub (fe51_of (nu 1%nat)) (fe51_of (nu 2%nat))) ltac:(lia) alias_r51_sub fe51_of_ext link_r51_sub). Qed.

Lemma alias_free_r51_Mul : forall sg m, fresh_locals 3 sg -> 
  fe51_of (final nosub sg rho0 (d_r51_mul 0 1 2 3) m (sg 0%nat)) = r51_mul (fe51_of (m (sg 1%nat))) (fe51_of (m (sg 2%nat))) /\
  others_same 3 sg m (final nosub sg rho0 (d_r51_mul 0 1 2 3) m).
Proof. exact (harmless_intro fe51_of 3 _ (fun nu => r51_mul (fe51_of (nu 1%nat)) (fe51_of (nu 2%nat))) ltac:(lia) alias_r51_mul fe51_of_ext link_r51_mul). Qed.

Lemma alias_free_r51_Neg : forall sg m, fresh_locals 2 sg -> 
  fe51_of (final nosub sg rho0 (d_r51_neg 0 1 2) m (sg 0%nat)) = r51_neg (fe51_of (m (sg 1%nat))) /\
  others_same 2 sg m (final nosub sg rho0 (d_r51_neg 0 1 2) m).
Proof. exact (harmless_intro fe51_of 2 _ (fun nu => r51_neg (fe51_of (nu 1%nat))) ltac:(lia) alias_r51_neg fe51_of_ext link_r51_neg). Qed.

Lemma alias_free_r51_Square : forall sg m, fresh_locals 2 sg -> 
  fe51_of (final nosub sg rho0 (d_r51_square 0 1 2) m (sg 0%nat)) = r51_square (fe51_of (m (sg 1%nat))) /\
  others_same 2 sg m (final nosub sg rho0 (d_r51_square 0 1 2) m).
Proof. exact (harmless_intro fe51_of 2 _ (fun nu => r51_square (fe51_of (nu 1%nat))) ltac:(lia) alias_r51_square fe51_of_ext link_r51_square). Qed.

Lemma alias_free_r51_DoubledSquare : forall sg m, fresh_locals 2 sg -> 
  fe51_of (final nosub sg rho0 (d_r51_doubledSquare 0 1 2) m (sg 0%nat)) = r51_doubledSquare (fe51_of (m (sg 1%nat))) /\
  others_same 2 sg m (final nosub sg rho0 (d_r51_doubledSquare 0 1 2) m).
Proof. exact (harmless_intro fe51_of 2 _ (fun nu => r51_doubledSquare (fe51_of (nu 1%nat))) ltac:(lia) alias_r51_doubledSquare fe51_of_ext link_r51_doubledSquare). Qed.

Lemma alias_free_r51_ConditionalSet : forall sg m, fresh_locals 2 sg -> 
  fe51_of (final nosub sg rho0 (d_r51_condSet 0 1 2 3) m (sg 0%nat)) = r51_condSet (fe51_of (m (sg 0%nat))) (fe51_of (m (sg 1%nat))) (m (sg 2%nat) 0%nat) /\
  others_same 2 sg m (final nosub sg rho0 (d_r51_condSet 0 1 2 3) m).
Proof. exact (harmless_intro fe51_of 2 _ (fun nu => r51_condSet (fe51_of (nu 0%nat)) (fe51_of (nu 1%nat)) (nu 2%nat 0%nat)) ltac:(lia) alias_r51_condSet fe51_of_ext link_r51_condSet). Qed.

Lemma alias_free_g25_add : forall sg m, fresh_locals 3 sg -> 
  fe25_of (final nosub sg rho0 (d_g25_add 0 1 2 3) m (sg 0%nat)) = g25_add (fe25_of (m (sg 1%nat))) (fe25_of (m (sg 2%nat))) /\
  others_same 3 sg m (final nosub sg rho0 (d_g25_add 0 1 2 3) m).
Proof. exact (harmless_intro fe25_of 3 _ (fun nu => g25_add (fe25_of (nu 1%nat)) (fe25_of (nu 2%nat))) ltac:(lia) alias_g25_add fe25_of_ext link_g25_add). Qed.

Lemma alias_free_g25_sub : forall sg m, fresh_locals 3 sg -> 
  fe25_of (final nosub sg rho0 (d_g25_sub 0 1 2 3) m (sg 0%nat)) = g25_sub (fe25_of (m (sg 1%nat))) (fe25_of (m (sg 2%nat))) /\
  others_same 3 sg m (final nosub sg rho0 (d_g25_sub 0 1 2 3) m).
Proof. exact (harmless_intro fe25_of 3 _ (fun nu => g25_sub (fe25_of (nu 1%nat)) (fe25_of (nu 2%nat))) ltac:(lia) alias_g25_sub fe25_of_ext link_g25_sub). Qed.

Lemma alias_free_g25_Mul : forall sg m, fresh_locals 3 sg -> 
  fe25_of (final nosub sg rho0 (d_g25_mul 0 1 2 3) m (sg 0%nat)) = g25_mul (fe25_of (m (sg 1%nat))) (fe25_of (m (sg 2%nat))) /\
  others_same 3 sg m (final nosub sg rho0 (d_g25_mul 0 1 2 3) m).
Proof. exact (harmless_intro fe25_of 3 _ (fun nu => g25_mul (fe25_of (nu 1%nat)) (fe25_of (nu 2%nat))) ltac:(lia) alias_g25_mul fe25_of_ext link_g25_mul). Qed.

Lemma alias_free_g25_Neg : forall sg m, fresh_locals 2 sg -> 
  fe25_of (final nosub sg rho0 (d_g25_neg 0 1 2) m (sg 0%nat)) = g25_neg (fe25_of (m (sg 1%nat))) /\
  others_same 2 sg m (final nosub sg rho0 (d_g25_neg 0 1 2) m).
Proof. exact (harmless_intro fe25_of 2 _ (fun nu => g25_neg (fe25_of (nu 1%nat))) ltac:(lia) alias_g25_neg fe25_of_ext link_g25_neg). Qed.

Lemma alias_free_g25_Square : forall sg m, fresh_locals 2 sg -> 
  fe25_of (final nosub sg rho0 (d_g25_square 0 1 2) m (sg 0%nat)) = g25_square (fe25_of (m (sg 1%nat))) /\
  others_same 2 sg m (final nosub sg rho0 (d_g25_square 0 1 2) m).
Proof. exact (harmless_intro fe25_of 2 _ (fun nu => g25_square (fe25_of (nu 1%nat))) ltac:(lia) alias_g25_square fe25_of_ext link_g25_square). Qed.

Lemma alias_free_g25_DoubledSquare : forall sg m, fresh_locals 2 sg -> 
  fe25_of (final nosub sg rho0 (d_g25_doubledSquare 0 1 2) m (sg 0%nat)) = g25_doubledSquare (fe25_of (m (sg 1%nat))) /\
  others_same 2 sg m (final nosub sg rho0 (d_g25_doubledSquare 0 1 2) m).
Proof. exact (harmless_intro fe25_of 2 _ (fun nu => g25_doubledSquare (fe25_of (nu 1%nat))) ltac:(lia) alias_g25_doubledSquare fe25_of_ext link_g25_doubledSquare). Qed.

Lemma alias_free_g25_ConditionalSet : forall sg m, fresh_locals 2 sg -> 
  fe25_of (final nosub sg rho0 (d_g25_condSet 0 1 2 3) m (sg 0%nat)) = g25_condSet (fe25_of (m (sg 0%nat))) (fe25_of (m (sg 1%nat))) (m (sg 2%nat) 0%nat) /\
  others_same 2 sg m (final nosub sg rho0 (d_g25_condSet 0 1 2 3) m).
Proof. exact (harmless_intro fe25_of 2 _ (fun nu => g25_condSet (fe25_of (nu 0%nat)) (fe25_of (nu 1%nat)) (nu 2%nat 0%nat)) ltac:(lia) alias_g25_condSet fe25_of_ext link_g25_condSet). Qed.

Lemma alias_free_r51_setReduced : forall sg m, fresh_locals 2 sg -> 
  fe51_of (final nosub sg rho0 (d_r51_setReduced 0 1 2) m (sg 0%nat)) = r51_setReduced (fe51_of (m (sg 1%nat))) /\
  others_same 2 sg m (final nosub sg rho0 (d_r51_setReduced 0 1 2) m).
Proof. exact (harmless_intro fe51_of 2 _ (fun nu => r51_setReduced (fe51_of (nu 1%nat))) ltac:(lia) alias_r51_setReduced fe51_of_ext link_r51_setReduced). Qed.

Section Curve.
Context (K : FeOps).
Notation V := (fe K * Z)%type.
Notation P n := ((n%nat, C 0) : place V).

Lemma fe_at_ext (c c' : nat -> V) : (forall i, c i = c' i) -> fe_at K c 0 = fe_at K c' 0.
Proof. intro h. unfold fe_at. rewrite h. reflexivity. Qed.
Lemma ext0_ext (c c' : nat -> V) : (forall i, c i = c' i) -> ext_at K c 0 = ext_at K c' 0.
Proof. intro h. unfold ext_at. rewrite !h. reflexivity. Qed.
Lemma niels_at_ext (c c' : nat -> V) : (forall i, c i = c' i) -> niels_at K c 0 = niels_at K c' 0.
Proof. intro h. unfold niels_at. rewrite !h. reflexivity. Qed.
Lemma jac_at_ext (c c' : nat -> V) : (forall i, c i = c' i) -> jac_at K c 0 = jac_at K c' 0.
Proof. intro h. unfold jac_at. rewrite !h. reflexivity. Qed.
Lemma alias_free_FieldElement_Add : forall sg m, fresh_locals 3 sg ->
  fe_at K (final nosub sg rho0 (g_fe_Add K (P 0) (P 1) (P 2) 3 0) m (sg 0%nat)) 0 = fe_Add K (fe_at K (m (sg 1%nat)) 0) (fe_at K (m (sg 2%nat)) 0) /\
  others_same 3 sg m (final nosub sg rho0 (g_fe_Add K (P 0) (P 1) (P 2) 3 0) m).
Proof.
  exact (harmless_final (fun c => (fe_at K (c) 0)) 3 (g_fe_Add K (P 0) (P 1) (P 2) 3 0) (fun nu => fe_Add K (fe_at K (nu 1%nat) 0) (fe_at K (nu 2%nat) 0)) ltac:(lia) ltac:(vm_compute; reflexivity) fe_at_ext (link_fe_Add K)).
Qed.

Lemma alias_free_FieldElement_Sub : forall sg m, fresh_locals 3 sg ->
  fe_at K (final nosub sg rho0 (g_fe_Sub K (P 0) (P 1) (P 2) 3 0) m (sg 0%nat)) 0 = fe_Sub K (fe_at K (m (sg 1%nat)) 0) (fe_at K (m (sg 2%nat)) 0) /\
  others_same 3 sg m (final nosub sg rho0 (g_fe_Sub K (P 0) (P 1) (P 2) 3 0) m).
Proof.
  exact (harmless_final (fun c => (fe_at K (c) 0)) 3 (g_fe_Sub K (P 0) (P 1) (P 2) 3 0) (fun nu => fe_Sub K (fe_at K (nu 1%nat) 0) (fe_at K (nu 2%nat) 0)) ltac:(lia) ltac:(vm_compute; reflexivity) fe_at_ext (link_fe_Sub K)).
Qed.

Lemma alias_free_FieldElement_double : forall sg m, fresh_locals 2 sg ->
  fe_at K (final nosub sg rho0 (g_fe_double K (P 0) (P 1) 2 0) m (sg 0%nat)) 0 = fe_double K (fe_at K (m (sg 1%nat)) 0) /\
  others_same 2 sg m (final nosub sg rho0 (g_fe_double K (P 0) (P 1) 2 0) m).
Proof.
  exact (harmless_final (fun c => (fe_at K (c) 0)) 2 (g_fe_double K (P 0) (P 1) 2 0) (fun nu => fe_double K (fe_at K (nu 1%nat) 0)) ltac:(lia) ltac:(vm_compute; reflexivity) fe_at_ext (link_fe_double K)).
Qed.

Lemma alias_free_FieldElement_Inverse : forall sg m, fresh_locals 2 sg ->
  fe_at K (final nosub sg rho0 (g_fe_Inverse K (P 0) (P 1) 2 0) m (sg 0%nat)) 0 = fe_Inverse K (fe_at K (m (sg 1%nat)) 0) /\
  others_same 2 sg m (final nosub sg rho0 (g_fe_Inverse K (P 0) (P 1) 2 0) m).
Proof.
  exact (harmless_final (fun c => (fe_at K (c) 0)) 2 (g_fe_Inverse K (P 0) (P 1) 2 0) (fun nu => fe_Inverse K (fe_at K (nu 1%nat) 0)) ltac:(lia) ltac:(vm_compute; reflexivity) fe_at_ext (link_fe_Inverse K)).
Qed.

Lemma alias_free_FieldElement_Exp22523 : forall sg m, fresh_locals 2 sg ->
  fe_at K (final nosub sg rho0 (g_fe_Exp22523 K (P 0) (P 1) 2 0) m (sg 0%nat)) 0 = fe_Exp22523 K (fe_at K (m (sg 1%nat)) 0) /\
  others_same 2 sg m (final nosub sg rho0 (g_fe_Exp22523 K (P 0) (P 1) 2 0) m).
Proof.
  exact (harmless_final (fun c => (fe_at K (c) 0)) 2 (g_fe_Exp22523 K (P 0) (P 1) 2 0) (fun nu => fe_Exp22523 K (fe_at K (nu 1%nat) 0)) ltac:(lia) ltac:(vm_compute; reflexivity) fe_at_ext (link_fe_Exp22523 K)).
Qed.

Lemma alias_free_FieldElement_InvSqrt : forall sg m, fresh_locals 2 sg ->
  fe_at K (final nosub sg rho0 (g_fe_InvSqrt K (P 0) (P 1) 2 0) m (sg 0%nat)) 0 = fe_InvSqrt K (fe_at K (m (sg 1%nat)) 0) /\
  others_same 2 sg m (final nosub sg rho0 (g_fe_InvSqrt K (P 0) (P 1) 2 0) m).
Proof.
  exact (harmless_final (fun c => (fe_at K (c) 0)) 2 (g_fe_InvSqrt K (P 0) (P 1) 2 0) (fun nu => fe_InvSqrt K (fe_at K (nu 1%nat) 0)) ltac:(lia) ltac:(vm_compute; reflexivity) fe_at_ext (link_fe_InvSqrt K)).
Qed.

Lemma alias_free_FieldElement_Sqrt : forall sg m, fresh_locals 2 sg ->
  fe_at K (final nosub sg rho0 (g_fe_Sqrt K (P 0) (P 1) 2 0) m (sg 0%nat)) 0 = fe_Sqrt K (fe_at K (m (sg 1%nat)) 0) /\
  others_same 2 sg m (final nosub sg rho0 (g_fe_Sqrt K (P 0) (P 1) 2 0) m).
Proof.
  exact (harmless_final (fun c => (fe_at K (c) 0)) 2 (g_fe_Sqrt K (P 0) (P 1) 2 0) (fun nu => fe_Sqrt K (fe_at K (nu 1%nat) 0)) ltac:(lia) ltac:(vm_compute; reflexivity) fe_at_ext (link_fe_Sqrt K)).
Qed.

Lemma alias_free_ExtendedPoint_Set : forall sg m, fresh_locals 2 sg ->
  ext_at K (final nosub sg rho0 (g_ep_Set K (P 0) (P 1) 2 0) m (sg 0%nat)) 0 = (ext_at K (m (sg 1%nat)) 0) /\
  others_same 2 sg m (final nosub sg rho0 (g_ep_Set K (P 0) (P 1) 2 0) m).
Proof.
  exact (harmless_final (fun c => (ext_at K (c) 0)) 2 (g_ep_Set K (P 0) (P 1) 2 0) (fun nu => (ext_at K (nu 1%nat) 0)) ltac:(lia) ltac:(vm_compute; reflexivity) ext0_ext (link_ep_Set K)).
Qed.

Lemma alias_free_ExtendedPoint_ConditionalSet : forall sg m, fresh_locals 2 sg ->
  ext_at K (final nosub sg rho0 (g_ep_ConditionalSet K (P 0) (P 1) (P 2) 3 0) m (sg 0%nat)) 0 = ep_ConditionalSet K (ext_at K (m (sg 0%nat)) 0) (ext_at K (m (sg 1%nat)) 0) (int_at K (m (sg 2%nat)) 0) /\
  others_same 2 sg m (final nosub sg rho0 (g_ep_ConditionalSet K (P 0) (P 1) (P 2) 3 0) m).
Proof.
  exact (harmless_final (fun c => (ext_at K (c) 0)) 2 (g_ep_ConditionalSet K (P 0) (P 1) (P 2) 3 0) (fun nu => ep_ConditionalSet K (ext_at K (nu 0%nat) 0) (ext_at K (nu 1%nat) 0) (int_at K (nu 2%nat) 0)) ltac:(lia) ltac:(vm_compute; reflexivity) ext0_ext (link_ep_ConditionalSet K)).
Qed.

Lemma alias_free_ExtendedPoint_Double : forall sg m, fresh_locals 2 sg ->
  ext_at K (final nosub sg rho0 (g_ep_Double K (P 0) (P 1) 2 0) m (sg 0%nat)) 0 = ep_Double K (ext_at K (m (sg 1%nat)) 0) /\
  others_same 2 sg m (final nosub sg rho0 (g_ep_Double K (P 0) (P 1) 2 0) m).
Proof.
  exact (harmless_final (fun c => (ext_at K (c) 0)) 2 (g_ep_Double K (P 0) (P 1) 2 0) (fun nu => ep_Double K (ext_at K (nu 1%nat) 0)) ltac:(lia) ltac:(vm_compute; reflexivity) ext0_ext (link_ep_Double K)).
Qed.

Lemma alias_free_ExtendedPoint_Add : forall sg m, fresh_locals 3 sg ->
  ext_at K (final nosub sg rho0 (g_ep_Add K (P 0) (P 1) (P 2) 3 0) m (sg 0%nat)) 0 = ep_Add K (ext_at K (m (sg 1%nat)) 0) (ext_at K (m (sg 2%nat)) 0) /\
  others_same 3 sg m (final nosub sg rho0 (g_ep_Add K (P 0) (P 1) (P 2) 3 0) m).
Proof.
  exact (harmless_final (fun c => (ext_at K (c) 0)) 3 (g_ep_Add K (P 0) (P 1) (P 2) 3 0) (fun nu => ep_Add K (ext_at K (nu 1%nat) 0) (ext_at K (nu 2%nat) 0)) ltac:(lia) ltac:(vm_compute; reflexivity) ext0_ext (link_ep_Add K)).
Qed.

Lemma alias_free_ExtendedPoint_Sub : forall sg m, fresh_locals 3 sg ->
  ext_at K (final nosub sg rho0 (g_ep_Sub K (P 0) (P 1) (P 2) 3 0) m (sg 0%nat)) 0 = ep_Sub K (ext_at K (m (sg 1%nat)) 0) (ext_at K (m (sg 2%nat)) 0) /\
  others_same 3 sg m (final nosub sg rho0 (g_ep_Sub K (P 0) (P 1) (P 2) 3 0) m).
Proof.
  exact (harmless_final (fun c => (ext_at K (c) 0)) 3 (g_ep_Sub K (P 0) (P 1) (P 2) 3 0) (fun nu => ep_Sub K (ext_at K (nu 1%nat) 0) (ext_at K (nu 2%nat) 0)) ltac:(lia) ltac:(vm_compute; reflexivity) ext0_ext (link_ep_Sub K)).
Qed.

Lemma alias_free_ExtendedPoint_Neg : forall sg m, fresh_locals 2 sg ->
  ext_at K (final nosub sg rho0 (g_ep_Neg K (P 0) (P 1) 2 0) m (sg 0%nat)) 0 = ep_Neg K (ext_at K (m (sg 1%nat)) 0) /\
  others_same 2 sg m (final nosub sg rho0 (g_ep_Neg K (P 0) (P 1) 2 0) m).
Proof.
  exact (harmless_final (fun c => (ext_at K (c) 0)) 2 (g_ep_Neg K (P 0) (P 1) 2 0) (fun nu => ep_Neg K (ext_at K (nu 1%nat) 0)) ltac:(lia) ltac:(vm_compute; reflexivity) ext0_ext (link_ep_Neg K)).
Qed.

Lemma alias_free_ExtendedPoint_ScalarMult : forall sg m, fresh_locals 3 sg ->
  ext_at K (final nosub sg rho0 (g_ep_ScalarMult K (P 0) (P 1) (P 2) 3 0) m (sg 0%nat)) 0 = ep_ScalarMult K (ext_at K (m (sg 1%nat)) 0) (ints K (m (sg 2%nat)) 32) /\
  others_same 3 sg m (final nosub sg rho0 (g_ep_ScalarMult K (P 0) (P 1) (P 2) 3 0) m).
Proof.
  exact (harmless_final (fun c => (ext_at K (c) 0)) 3 (g_ep_ScalarMult K (P 0) (P 1) (P 2) 3 0) (fun nu => ep_ScalarMult K (ext_at K (nu 1%nat) 0) (ints K (nu 2%nat) 32)) ltac:(lia) ltac:(vm_compute; reflexivity) ext0_ext (link_ep_ScalarMult K rho0)).
Qed.

Lemma alias_free_NielsPoint_Set : forall sg m, fresh_locals 2 sg ->
  niels_at K (final nosub sg rho0 (g_np_Set K (P 0) (P 1) 2 0) m (sg 0%nat)) 0 = (niels_at K (m (sg 1%nat)) 0) /\
  others_same 2 sg m (final nosub sg rho0 (g_np_Set K (P 0) (P 1) 2 0) m).
Proof.
  exact (harmless_final (fun c => (niels_at K (c) 0)) 2 (g_np_Set K (P 0) (P 1) 2 0) (fun nu => (niels_at K (nu 1%nat) 0)) ltac:(lia) ltac:(vm_compute; reflexivity) niels_at_ext (link_np_Set K)).
Qed.

Lemma alias_free_NielsPoint_ConditionalSet : forall sg m, fresh_locals 2 sg ->
  niels_at K (final nosub sg rho0 (g_np_ConditionalSet K (P 0) (P 1) (P 2) 3 0) m (sg 0%nat)) 0 = np_ConditionalSet K (niels_at K (m (sg 0%nat)) 0) (niels_at K (m (sg 1%nat)) 0) (int_at K (m (sg 2%nat)) 0) /\
  others_same 2 sg m (final nosub sg rho0 (g_np_ConditionalSet K (P 0) (P 1) (P 2) 3 0) m).
Proof.
  exact (harmless_final (fun c => (niels_at K (c) 0)) 2 (g_np_ConditionalSet K (P 0) (P 1) (P 2) 3 0) (fun nu => np_ConditionalSet K (niels_at K (nu 0%nat) 0) (niels_at K (nu 1%nat) 0) (int_at K (nu 2%nat) 0)) ltac:(lia) ltac:(vm_compute; reflexivity) niels_at_ext (link_np_ConditionalSet K)).
Qed.

Lemma alias_free_JacobiPoint_Dual : forall sg m, fresh_locals 2 sg ->
  jac_at K (final nosub sg rho0 (g_jc_Dual K (P 0) (P 1) 2 0) m (sg 0%nat)) 0 = jc_Dual K (jac_at K (m (sg 1%nat)) 0) /\
  others_same 2 sg m (final nosub sg rho0 (g_jc_Dual K (P 0) (P 1) 2 0) m).
Proof.
  exact (harmless_final (fun c => (jac_at K (c) 0)) 2 (g_jc_Dual K (P 0) (P 1) 2 0) (fun nu => jc_Dual K (jac_at K (nu 1%nat) 0)) ltac:(lia) ltac:(vm_compute; reflexivity) jac_at_ext (link_jc_Dual K)).
Qed.
End Curve.
