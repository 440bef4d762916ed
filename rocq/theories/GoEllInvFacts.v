(** The program of RistrettoElligator2Inverse (GoCodecCode.v) computes the function of CurveModel.v. *)
From Coq Require Import ZArith List String Lia.
From Verif Require Import Words ScalarCode FieldModel CurveModel GoLang GoLangFacts GoCurveCode GoViews GoCurveFacts GoCodecCode GoCodecFacts.
Import ListNotations.
Open Scope Z_scope.
Strategy 2000 [final exec].

Section Facts.
Context (K : FeOps).
Notation V := (fe K * Z)%type.
Notation FIN := (final (E:=Empty_set) nosub (fun a => a)).
Notation P n := ((n%nat, C 0) : place V).

Ltac link v := rewrite <- (runk_ok (E:=Empty_set) nosub _ _ _ v); red_codec; reflexivity.

Lemma invI_9_14_24 rho nu : let m := FIN rho (g_fe_InvSqrtI K (lo K 1 8) (lo K 6 8) (lo K 16 8) (20 + 8) (0 + 1)) nu in
  (int_at K (m 24%nat) 0, fe_at K (m 9%nat) 0) = fe_InvSqrtI K (fe_at K (nu 14%nat) 0).
Proof. cbv zeta. unfold g_fe_InvSqrtI, fe_InvSqrtI, g_fe_Exp22523, fe_Exp22523, go_for. link (fun m : mem V => (int_at K (m 24%nat) 0, fe_at K (m 9%nat) 0)). Qed.


(** the first 14 statements of elligator2Inverse: the receiver, out, ret, done, a, S2 and invSqiY *)
Definition first_half (p : jacobi (fe K)) :=
  let s := fe_IsNonZeroI K (jS p) in
  let a := o_mul K (o_add K (jT p) (k_one K)) (k_dp1OverDm1 K) in
  let S2 := o_square K (snd s) in
  (mkJac (snd s) (jT p), o_condSet K (k_zero K) (k_sqrtID K) (fe_EqualsI K (jT p) (k_one K)), i32 (1 - fst s), i32 (1 - fst s),
   a, S2, o_sub K (o_square K S2) (o_square K a)).

Lemma inv_at_0 nu : let m := FIN (setk rho0 0 0) (g_jc_elligator2Inverse K (elt (lo K 1 3) 2 (Ctr (0 + 0))) (elt (P 1) 1 (Times 2 (Ctr (0 + 0)))) (lo K 3 3) (5 + 3) (1 + 0)) nu in
  (int_at K (m 6%nat) 0, fe_at K (m 1%nat) 0, jac_at K (m 4%nat) 0) = jc_elligator2Inverse K (jac_at K (nu 4%nat) 0).
Proof.
  cbv zeta. unfold g_jc_elligator2Inverse. rewrite (final_split nosub 14). cbn [firstn skipn].
  set (m1 := FIN (setk rho0 0 0) (prog [ _; _; _; _; _; _; _; _; _; _; _; _; _; _]) nu).
  assert (h1 : (jac_at K (m1 4%nat) 0, fe_at K (m1 16%nat) 0, int_at K (m1 21%nat) 0, int_at K (m1 22%nat) 0,
                 fe_at K (m1 10%nat) 0, fe_at K (m1 12%nat) 0, fe_at K (m1 14%nat) 0) = first_half (jac_at K (nu 4%nat) 0)).
  { unfold m1, first_half. rewrite <- (runk_ok (E:=Empty_set) nosub _ _ _ (fun m1 : mem V => (jac_at K (m1 4%nat) 0, fe_at K (m1 16%nat) 0, int_at K (m1 21%nat) 0, int_at K (m1 22%nat) 0,
                 fe_at K (m1 10%nat) 0, fe_at K (m1 12%nat) 0, fe_at K (m1 14%nat) 0))).
    red_codec. cbv beta zeta delta [LetIn jS jT]. destruct (nu 4%nat 0%nat), (nu 4%nat 1%nat). cbv beta iota delta [fst snd].
    match goal with |- context [fe_IsNonZeroI K ?t] => destruct (fe_IsNonZeroI K t) end. reflexivity. }
  clearbody m1. remember (jac_at K (nu 4%nat) 0) as q eqn:eq. clear eq. rewrite final_cons. pose proof (invI_9_14_24 (setk rho0 0 0) m1) as h2. cbv zeta in h2.
  change (5 + 3)%nat with 8%nat. change (1 + 0)%nat with 1%nat.
  set (m2 := FIN (setk rho0 0 0) (g_fe_InvSqrtI K _ _ _ _ _) m1) in *.
  assert (h3 : m2 4%nat 0%nat = m1 4%nat 0%nat /\ m2 4%nat 1%nat = m1 4%nat 1%nat /\ m2 16%nat 0%nat = m1 16%nat 0%nat /\
    m2 21%nat 0%nat = m1 21%nat 0%nat /\ m2 22%nat 0%nat = m1 22%nat 0%nat /\ m2 10%nat 0%nat = m1 10%nat 0%nat /\ m2 12%nat 0%nat = m1 12%nat 0%nat).
  { unfold m2. refine (conj _ (conj _ (conj _ (conj _ (conj _ (conj _ _)))))); apply frame_name; reflexivity. }
  clearbody m2. destruct h3 as (ha & hb & hc & hd & he & hf & hg). unfold jac_at, fe_at, int_at in h1, h2. cbn [Nat.add] in h1.
  rewrite <- ha, <- hb, <- hc, <- hd, <- he, <- hf, <- hg in h1. clear ha hb hc hd he hf hg.
  rewrite <- (runk_ok (E:=Empty_set) nosub _ _ _ (fun m : mem V => (int_at K (m 6%nat) 0, fe_at K (m 1%nat) 0, jac_at K (m 4%nat) 0))).
  unfold g_fe_Abs. red_codec. cbv beta zeta delta [LetIn].
  unfold jc_elligator2Inverse. revert h1. unfold first_half. destruct q as [s t]. cbv zeta. cbn [jS jT].
  destruct (m1 14%nat 0%nat), (fe_IsNonZeroI K s) as [snz s']. cbv beta iota delta [fst snd] in h2 |- *.
  generalize (i32 (1 - snz)) (o_condSet K (k_zero K) (k_sqrtID K) (fe_EqualsI K t (k_one K))) (o_mul K (o_add K t (k_one K)) (k_dp1OverDm1 K)) (o_square K s').
  intros d out a S2. generalize (o_sub K (o_square K S2) (o_square K a)). intros w h1.
  injection h1 as e1 e2 e3 e4 e5 e6 e7 e8. revert h2 e1 e2 e3 e4 e5 e6 e7. rewrite e8. destruct (fe_InvSqrtI K w) as [sq y]. clear e8 m1. intro h2.
  injection h2 as e8 e9. revert e8 e9. 
  destruct (m2 4%nat 0%nat), (m2 4%nat 1%nat), (m2 16%nat 0%nat), (m2 21%nat 0%nat), (m2 22%nat 0%nat), (m2 10%nat 0%nat), (m2 12%nat 0%nat), (m2 24%nat 0%nat), (m2 9%nat 0%nat).
  cbv beta iota delta [fst snd]. intros -> -> -> -> -> -> -> -> ->. unfold fe_Abs_self.
  destruct (fe_IsNegativeI K s') as [sneg s''].
  match goal with |- context [fe_IsNegativeI K ?t] => destruct (fe_IsNegativeI K t) end. reflexivity.
Qed.

Lemma inv_dual_0 nu : let m := FIN (setk rho0 0 0) (g_jc_elligator2Inverse K (lo K 2 3) (elt (P 1) 1 (Plus (Times 2 (Ctr (0 + 0))) (C 1))) (lo K 4 3) (5 + 3) (1 + 0)) nu in
  (int_at K (m 7%nat) 0, fe_at K (m 1%nat) 1, jac_at K (m 5%nat) 0) = jc_elligator2Inverse K (jac_at K (nu 5%nat) 0).
Proof.
  cbv zeta. unfold g_jc_elligator2Inverse. rewrite (final_split nosub 14). cbn [firstn skipn].
  set (m1 := FIN (setk rho0 0 0) (prog [ _; _; _; _; _; _; _; _; _; _; _; _; _; _]) nu).
  assert (h1 : (jac_at K (m1 5%nat) 0, fe_at K (m1 16%nat) 0, int_at K (m1 21%nat) 0, int_at K (m1 22%nat) 0,
                 fe_at K (m1 10%nat) 0, fe_at K (m1 12%nat) 0, fe_at K (m1 14%nat) 0) = first_half (jac_at K (nu 5%nat) 0)).
  { unfold m1, first_half. rewrite <- (runk_ok (E:=Empty_set) nosub _ _ _ (fun m1 : mem V => (jac_at K (m1 5%nat) 0, fe_at K (m1 16%nat) 0, int_at K (m1 21%nat) 0, int_at K (m1 22%nat) 0,
                 fe_at K (m1 10%nat) 0, fe_at K (m1 12%nat) 0, fe_at K (m1 14%nat) 0))).
    red_codec. cbv beta zeta delta [LetIn jS jT]. destruct (nu 5%nat 0%nat), (nu 5%nat 1%nat). cbv beta iota delta [fst snd].
    match goal with |- context [fe_IsNonZeroI K ?t] => destruct (fe_IsNonZeroI K t) end. reflexivity. }
  clearbody m1. remember (jac_at K (nu 5%nat) 0) as q eqn:eq. clear eq. rewrite final_cons. pose proof (invI_9_14_24 (setk rho0 0 0) m1) as h2. cbv zeta in h2.
  change (5 + 3)%nat with 8%nat. change (1 + 0)%nat with 1%nat.
  set (m2 := FIN (setk rho0 0 0) (g_fe_InvSqrtI K _ _ _ _ _) m1) in *.
  assert (h3 : m2 5%nat 0%nat = m1 5%nat 0%nat /\ m2 5%nat 1%nat = m1 5%nat 1%nat /\ m2 16%nat 0%nat = m1 16%nat 0%nat /\
    m2 21%nat 0%nat = m1 21%nat 0%nat /\ m2 22%nat 0%nat = m1 22%nat 0%nat /\ m2 10%nat 0%nat = m1 10%nat 0%nat /\ m2 12%nat 0%nat = m1 12%nat 0%nat).
  { unfold m2. refine (conj _ (conj _ (conj _ (conj _ (conj _ (conj _ _)))))); apply frame_name; reflexivity. }
  clearbody m2. destruct h3 as (ha & hb & hc & hd & he & hf & hg). unfold jac_at, fe_at, int_at in h1, h2. cbn [Nat.add] in h1.
  rewrite <- ha, <- hb, <- hc, <- hd, <- he, <- hf, <- hg in h1. clear ha hb hc hd he hf hg.
  rewrite <- (runk_ok (E:=Empty_set) nosub _ _ _ (fun m : mem V => (int_at K (m 7%nat) 0, fe_at K (m 1%nat) 1, jac_at K (m 5%nat) 0))).
  unfold g_fe_Abs. red_codec. cbv beta zeta delta [LetIn].
  unfold jc_elligator2Inverse. revert h1. unfold first_half. destruct q as [s t]. cbv zeta. cbn [jS jT].
  destruct (m1 14%nat 0%nat), (fe_IsNonZeroI K s) as [snz s']. cbv beta iota delta [fst snd] in h2 |- *.
  generalize (i32 (1 - snz)) (o_condSet K (k_zero K) (k_sqrtID K) (fe_EqualsI K t (k_one K))) (o_mul K (o_add K t (k_one K)) (k_dp1OverDm1 K)) (o_square K s').
  intros d out a S2. generalize (o_sub K (o_square K S2) (o_square K a)). intros w h1.
  injection h1 as e1 e2 e3 e4 e5 e6 e7 e8. revert h2 e1 e2 e3 e4 e5 e6 e7. rewrite e8. destruct (fe_InvSqrtI K w) as [sq y]. clear e8 m1. intro h2.
  injection h2 as e8 e9. revert e8 e9. 
  destruct (m2 5%nat 0%nat), (m2 5%nat 1%nat), (m2 16%nat 0%nat), (m2 21%nat 0%nat), (m2 22%nat 0%nat), (m2 10%nat 0%nat), (m2 12%nat 0%nat), (m2 24%nat 0%nat), (m2 9%nat 0%nat).
  cbv beta iota delta [fst snd]. intros -> -> -> -> -> -> -> -> ->. unfold fe_Abs_self.
  destruct (fe_IsNegativeI K s') as [sneg s''].
  match goal with |- context [fe_IsNegativeI K ?t] => destruct (fe_IsNegativeI K t) end. reflexivity.
Qed.

Lemma inv_at_1 nu : let m := FIN (setk rho0 0 1) (g_jc_elligator2Inverse K (elt (lo K 1 3) 2 (Ctr (0 + 0))) (elt (P 1) 1 (Times 2 (Ctr (0 + 0)))) (lo K 3 3) (5 + 3) (1 + 0)) nu in
  (int_at K (m 6%nat) 0, fe_at K (m 1%nat) 2, jac_at K (m 4%nat) 2) = jc_elligator2Inverse K (jac_at K (nu 4%nat) 2).
Proof.
  cbv zeta. unfold g_jc_elligator2Inverse. rewrite (final_split nosub 14). cbn [firstn skipn].
  set (m1 := FIN (setk rho0 0 1) (prog [ _; _; _; _; _; _; _; _; _; _; _; _; _; _]) nu).
  assert (h1 : (jac_at K (m1 4%nat) 2, fe_at K (m1 16%nat) 0, int_at K (m1 21%nat) 0, int_at K (m1 22%nat) 0,
                 fe_at K (m1 10%nat) 0, fe_at K (m1 12%nat) 0, fe_at K (m1 14%nat) 0) = first_half (jac_at K (nu 4%nat) 2)).
  { unfold m1, first_half. rewrite <- (runk_ok (E:=Empty_set) nosub _ _ _ (fun m1 : mem V => (jac_at K (m1 4%nat) 2, fe_at K (m1 16%nat) 0, int_at K (m1 21%nat) 0, int_at K (m1 22%nat) 0,
                 fe_at K (m1 10%nat) 0, fe_at K (m1 12%nat) 0, fe_at K (m1 14%nat) 0))).
    red_codec. cbv beta zeta delta [LetIn jS jT]. destruct (nu 4%nat 2%nat), (nu 4%nat 3%nat). cbv beta iota delta [fst snd].
    match goal with |- context [fe_IsNonZeroI K ?t] => destruct (fe_IsNonZeroI K t) end. reflexivity. }
  clearbody m1. remember (jac_at K (nu 4%nat) 2) as q eqn:eq. clear eq. rewrite final_cons. pose proof (invI_9_14_24 (setk rho0 0 1) m1) as h2. cbv zeta in h2.
  change (5 + 3)%nat with 8%nat. change (1 + 0)%nat with 1%nat.
  set (m2 := FIN (setk rho0 0 1) (g_fe_InvSqrtI K _ _ _ _ _) m1) in *.
  assert (h3 : m2 4%nat 2%nat = m1 4%nat 2%nat /\ m2 4%nat 3%nat = m1 4%nat 3%nat /\ m2 16%nat 0%nat = m1 16%nat 0%nat /\
    m2 21%nat 0%nat = m1 21%nat 0%nat /\ m2 22%nat 0%nat = m1 22%nat 0%nat /\ m2 10%nat 0%nat = m1 10%nat 0%nat /\ m2 12%nat 0%nat = m1 12%nat 0%nat).
  { unfold m2. refine (conj _ (conj _ (conj _ (conj _ (conj _ (conj _ _)))))); apply frame_name; reflexivity. }
  clearbody m2. destruct h3 as (ha & hb & hc & hd & he & hf & hg). unfold jac_at, fe_at, int_at in h1, h2. cbn [Nat.add] in h1.
  rewrite <- ha, <- hb, <- hc, <- hd, <- he, <- hf, <- hg in h1. clear ha hb hc hd he hf hg.
  rewrite <- (runk_ok (E:=Empty_set) nosub _ _ _ (fun m : mem V => (int_at K (m 6%nat) 0, fe_at K (m 1%nat) 2, jac_at K (m 4%nat) 2))).
  unfold g_fe_Abs. red_codec. cbv beta zeta delta [LetIn].
  unfold jc_elligator2Inverse. revert h1. unfold first_half. destruct q as [s t]. cbv zeta. cbn [jS jT].
  destruct (m1 14%nat 0%nat), (fe_IsNonZeroI K s) as [snz s']. cbv beta iota delta [fst snd] in h2 |- *.
  generalize (i32 (1 - snz)) (o_condSet K (k_zero K) (k_sqrtID K) (fe_EqualsI K t (k_one K))) (o_mul K (o_add K t (k_one K)) (k_dp1OverDm1 K)) (o_square K s').
  intros d out a S2. generalize (o_sub K (o_square K S2) (o_square K a)). intros w h1.
  injection h1 as e1 e2 e3 e4 e5 e6 e7 e8. revert h2 e1 e2 e3 e4 e5 e6 e7. rewrite e8. destruct (fe_InvSqrtI K w) as [sq y]. clear e8 m1. intro h2.
  injection h2 as e8 e9. revert e8 e9. 
  destruct (m2 4%nat 2%nat), (m2 4%nat 3%nat), (m2 16%nat 0%nat), (m2 21%nat 0%nat), (m2 22%nat 0%nat), (m2 10%nat 0%nat), (m2 12%nat 0%nat), (m2 24%nat 0%nat), (m2 9%nat 0%nat).
  cbv beta iota delta [fst snd]. intros -> -> -> -> -> -> -> -> ->. unfold fe_Abs_self.
  destruct (fe_IsNegativeI K s') as [sneg s''].
  match goal with |- context [fe_IsNegativeI K ?t] => destruct (fe_IsNegativeI K t) end. reflexivity.
Qed.

Lemma inv_dual_1 nu : let m := FIN (setk rho0 0 1) (g_jc_elligator2Inverse K (lo K 2 3) (elt (P 1) 1 (Plus (Times 2 (Ctr (0 + 0))) (C 1))) (lo K 4 3) (5 + 3) (1 + 0)) nu in
  (int_at K (m 7%nat) 0, fe_at K (m 1%nat) 3, jac_at K (m 5%nat) 0) = jc_elligator2Inverse K (jac_at K (nu 5%nat) 0).
Proof.
  cbv zeta. unfold g_jc_elligator2Inverse. rewrite (final_split nosub 14). cbn [firstn skipn].
  set (m1 := FIN (setk rho0 0 1) (prog [ _; _; _; _; _; _; _; _; _; _; _; _; _; _]) nu).
  assert (h1 : (jac_at K (m1 5%nat) 0, fe_at K (m1 16%nat) 0, int_at K (m1 21%nat) 0, int_at K (m1 22%nat) 0,
                 fe_at K (m1 10%nat) 0, fe_at K (m1 12%nat) 0, fe_at K (m1 14%nat) 0) = first_half (jac_at K (nu 5%nat) 0)).
  { unfold m1, first_half. rewrite <- (runk_ok (E:=Empty_set) nosub _ _ _ (fun m1 : mem V => (jac_at K (m1 5%nat) 0, fe_at K (m1 16%nat) 0, int_at K (m1 21%nat) 0, int_at K (m1 22%nat) 0,
                 fe_at K (m1 10%nat) 0, fe_at K (m1 12%nat) 0, fe_at K (m1 14%nat) 0))).
    red_codec. cbv beta zeta delta [LetIn jS jT]. destruct (nu 5%nat 0%nat), (nu 5%nat 1%nat). cbv beta iota delta [fst snd].
    match goal with |- context [fe_IsNonZeroI K ?t] => destruct (fe_IsNonZeroI K t) end. reflexivity. }
  clearbody m1. remember (jac_at K (nu 5%nat) 0) as q eqn:eq. clear eq. rewrite final_cons. pose proof (invI_9_14_24 (setk rho0 0 1) m1) as h2. cbv zeta in h2.
  change (5 + 3)%nat with 8%nat. change (1 + 0)%nat with 1%nat.
  set (m2 := FIN (setk rho0 0 1) (g_fe_InvSqrtI K _ _ _ _ _) m1) in *.
  assert (h3 : m2 5%nat 0%nat = m1 5%nat 0%nat /\ m2 5%nat 1%nat = m1 5%nat 1%nat /\ m2 16%nat 0%nat = m1 16%nat 0%nat /\
    m2 21%nat 0%nat = m1 21%nat 0%nat /\ m2 22%nat 0%nat = m1 22%nat 0%nat /\ m2 10%nat 0%nat = m1 10%nat 0%nat /\ m2 12%nat 0%nat = m1 12%nat 0%nat).
  { unfold m2. refine (conj _ (conj _ (conj _ (conj _ (conj _ (conj _ _)))))); apply frame_name; reflexivity. }
  clearbody m2. destruct h3 as (ha & hb & hc & hd & he & hf & hg). unfold jac_at, fe_at, int_at in h1, h2. cbn [Nat.add] in h1.
  rewrite <- ha, <- hb, <- hc, <- hd, <- he, <- hf, <- hg in h1. clear ha hb hc hd he hf hg.
  rewrite <- (runk_ok (E:=Empty_set) nosub _ _ _ (fun m : mem V => (int_at K (m 7%nat) 0, fe_at K (m 1%nat) 3, jac_at K (m 5%nat) 0))).
  unfold g_fe_Abs. red_codec. cbv beta zeta delta [LetIn].
  unfold jc_elligator2Inverse. revert h1. unfold first_half. destruct q as [s t]. cbv zeta. cbn [jS jT].
  destruct (m1 14%nat 0%nat), (fe_IsNonZeroI K s) as [snz s']. cbv beta iota delta [fst snd] in h2 |- *.
  generalize (i32 (1 - snz)) (o_condSet K (k_zero K) (k_sqrtID K) (fe_EqualsI K t (k_one K))) (o_mul K (o_add K t (k_one K)) (k_dp1OverDm1 K)) (o_square K s').
  intros d out a S2. generalize (o_sub K (o_square K S2) (o_square K a)). intros w h1.
  injection h1 as e1 e2 e3 e4 e5 e6 e7 e8. revert h2 e1 e2 e3 e4 e5 e6 e7. rewrite e8. destruct (fe_InvSqrtI K w) as [sq y]. clear e8 m1. intro h2.
  injection h2 as e8 e9. revert e8 e9. 
  destruct (m2 5%nat 0%nat), (m2 5%nat 1%nat), (m2 16%nat 0%nat), (m2 21%nat 0%nat), (m2 22%nat 0%nat), (m2 10%nat 0%nat), (m2 12%nat 0%nat), (m2 24%nat 0%nat), (m2 9%nat 0%nat).
  cbv beta iota delta [fst snd]. intros -> -> -> -> -> -> -> -> ->. unfold fe_Abs_self.
  destruct (fe_IsNegativeI K s') as [sneg s''].
  match goal with |- context [fe_IsNegativeI K ?t] => destruct (fe_IsNegativeI K t) end. reflexivity.
Qed.

Lemma inv_at_2 nu : let m := FIN (setk rho0 0 2) (g_jc_elligator2Inverse K (elt (lo K 1 3) 2 (Ctr (0 + 0))) (elt (P 1) 1 (Times 2 (Ctr (0 + 0)))) (lo K 3 3) (5 + 3) (1 + 0)) nu in
  (int_at K (m 6%nat) 0, fe_at K (m 1%nat) 4, jac_at K (m 4%nat) 4) = jc_elligator2Inverse K (jac_at K (nu 4%nat) 4).
Proof.
  cbv zeta. unfold g_jc_elligator2Inverse. rewrite (final_split nosub 14). cbn [firstn skipn].
  set (m1 := FIN (setk rho0 0 2) (prog [ _; _; _; _; _; _; _; _; _; _; _; _; _; _]) nu).
  assert (h1 : (jac_at K (m1 4%nat) 4, fe_at K (m1 16%nat) 0, int_at K (m1 21%nat) 0, int_at K (m1 22%nat) 0,
                 fe_at K (m1 10%nat) 0, fe_at K (m1 12%nat) 0, fe_at K (m1 14%nat) 0) = first_half (jac_at K (nu 4%nat) 4)).
  { unfold m1, first_half. rewrite <- (runk_ok (E:=Empty_set) nosub _ _ _ (fun m1 : mem V => (jac_at K (m1 4%nat) 4, fe_at K (m1 16%nat) 0, int_at K (m1 21%nat) 0, int_at K (m1 22%nat) 0,
                 fe_at K (m1 10%nat) 0, fe_at K (m1 12%nat) 0, fe_at K (m1 14%nat) 0))).
    red_codec. cbv beta zeta delta [LetIn jS jT]. destruct (nu 4%nat 4%nat), (nu 4%nat 5%nat). cbv beta iota delta [fst snd].
    match goal with |- context [fe_IsNonZeroI K ?t] => destruct (fe_IsNonZeroI K t) end. reflexivity. }
  clearbody m1. remember (jac_at K (nu 4%nat) 4) as q eqn:eq. clear eq. rewrite final_cons. pose proof (invI_9_14_24 (setk rho0 0 2) m1) as h2. cbv zeta in h2.
  change (5 + 3)%nat with 8%nat. change (1 + 0)%nat with 1%nat.
  set (m2 := FIN (setk rho0 0 2) (g_fe_InvSqrtI K _ _ _ _ _) m1) in *.
  assert (h3 : m2 4%nat 4%nat = m1 4%nat 4%nat /\ m2 4%nat 5%nat = m1 4%nat 5%nat /\ m2 16%nat 0%nat = m1 16%nat 0%nat /\
    m2 21%nat 0%nat = m1 21%nat 0%nat /\ m2 22%nat 0%nat = m1 22%nat 0%nat /\ m2 10%nat 0%nat = m1 10%nat 0%nat /\ m2 12%nat 0%nat = m1 12%nat 0%nat).
  { unfold m2. refine (conj _ (conj _ (conj _ (conj _ (conj _ (conj _ _)))))); apply frame_name; reflexivity. }
  clearbody m2. destruct h3 as (ha & hb & hc & hd & he & hf & hg). unfold jac_at, fe_at, int_at in h1, h2. cbn [Nat.add] in h1.
  rewrite <- ha, <- hb, <- hc, <- hd, <- he, <- hf, <- hg in h1. clear ha hb hc hd he hf hg.
  rewrite <- (runk_ok (E:=Empty_set) nosub _ _ _ (fun m : mem V => (int_at K (m 6%nat) 0, fe_at K (m 1%nat) 4, jac_at K (m 4%nat) 4))).
  unfold g_fe_Abs. red_codec. cbv beta zeta delta [LetIn].
  unfold jc_elligator2Inverse. revert h1. unfold first_half. destruct q as [s t]. cbv zeta. cbn [jS jT].
  destruct (m1 14%nat 0%nat), (fe_IsNonZeroI K s) as [snz s']. cbv beta iota delta [fst snd] in h2 |- *.
  generalize (i32 (1 - snz)) (o_condSet K (k_zero K) (k_sqrtID K) (fe_EqualsI K t (k_one K))) (o_mul K (o_add K t (k_one K)) (k_dp1OverDm1 K)) (o_square K s').
  intros d out a S2. generalize (o_sub K (o_square K S2) (o_square K a)). intros w h1.
  injection h1 as e1 e2 e3 e4 e5 e6 e7 e8. revert h2 e1 e2 e3 e4 e5 e6 e7. rewrite e8. destruct (fe_InvSqrtI K w) as [sq y]. clear e8 m1. intro h2.
  injection h2 as e8 e9. revert e8 e9. 
  destruct (m2 4%nat 4%nat), (m2 4%nat 5%nat), (m2 16%nat 0%nat), (m2 21%nat 0%nat), (m2 22%nat 0%nat), (m2 10%nat 0%nat), (m2 12%nat 0%nat), (m2 24%nat 0%nat), (m2 9%nat 0%nat).
  cbv beta iota delta [fst snd]. intros -> -> -> -> -> -> -> -> ->. unfold fe_Abs_self.
  destruct (fe_IsNegativeI K s') as [sneg s''].
  match goal with |- context [fe_IsNegativeI K ?t] => destruct (fe_IsNegativeI K t) end. reflexivity.
Qed.

Lemma inv_dual_2 nu : let m := FIN (setk rho0 0 2) (g_jc_elligator2Inverse K (lo K 2 3) (elt (P 1) 1 (Plus (Times 2 (Ctr (0 + 0))) (C 1))) (lo K 4 3) (5 + 3) (1 + 0)) nu in
  (int_at K (m 7%nat) 0, fe_at K (m 1%nat) 5, jac_at K (m 5%nat) 0) = jc_elligator2Inverse K (jac_at K (nu 5%nat) 0).
Proof.
  cbv zeta. unfold g_jc_elligator2Inverse. rewrite (final_split nosub 14). cbn [firstn skipn].
  set (m1 := FIN (setk rho0 0 2) (prog [ _; _; _; _; _; _; _; _; _; _; _; _; _; _]) nu).
  assert (h1 : (jac_at K (m1 5%nat) 0, fe_at K (m1 16%nat) 0, int_at K (m1 21%nat) 0, int_at K (m1 22%nat) 0,
                 fe_at K (m1 10%nat) 0, fe_at K (m1 12%nat) 0, fe_at K (m1 14%nat) 0) = first_half (jac_at K (nu 5%nat) 0)).
  { unfold m1, first_half. rewrite <- (runk_ok (E:=Empty_set) nosub _ _ _ (fun m1 : mem V => (jac_at K (m1 5%nat) 0, fe_at K (m1 16%nat) 0, int_at K (m1 21%nat) 0, int_at K (m1 22%nat) 0,
                 fe_at K (m1 10%nat) 0, fe_at K (m1 12%nat) 0, fe_at K (m1 14%nat) 0))).
    red_codec. cbv beta zeta delta [LetIn jS jT]. destruct (nu 5%nat 0%nat), (nu 5%nat 1%nat). cbv beta iota delta [fst snd].
    match goal with |- context [fe_IsNonZeroI K ?t] => destruct (fe_IsNonZeroI K t) end. reflexivity. }
  clearbody m1. remember (jac_at K (nu 5%nat) 0) as q eqn:eq. clear eq. rewrite final_cons. pose proof (invI_9_14_24 (setk rho0 0 2) m1) as h2. cbv zeta in h2.
  change (5 + 3)%nat with 8%nat. change (1 + 0)%nat with 1%nat.
  set (m2 := FIN (setk rho0 0 2) (g_fe_InvSqrtI K _ _ _ _ _) m1) in *.
  assert (h3 : m2 5%nat 0%nat = m1 5%nat 0%nat /\ m2 5%nat 1%nat = m1 5%nat 1%nat /\ m2 16%nat 0%nat = m1 16%nat 0%nat /\
    m2 21%nat 0%nat = m1 21%nat 0%nat /\ m2 22%nat 0%nat = m1 22%nat 0%nat /\ m2 10%nat 0%nat = m1 10%nat 0%nat /\ m2 12%nat 0%nat = m1 12%nat 0%nat).
  { unfold m2. refine (conj _ (conj _ (conj _ (conj _ (conj _ (conj _ _)))))); apply frame_name; reflexivity. }
  clearbody m2. destruct h3 as (ha & hb & hc & hd & he & hf & hg). unfold jac_at, fe_at, int_at in h1, h2. cbn [Nat.add] in h1.
  rewrite <- ha, <- hb, <- hc, <- hd, <- he, <- hf, <- hg in h1. clear ha hb hc hd he hf hg.
  rewrite <- (runk_ok (E:=Empty_set) nosub _ _ _ (fun m : mem V => (int_at K (m 7%nat) 0, fe_at K (m 1%nat) 5, jac_at K (m 5%nat) 0))).
  unfold g_fe_Abs. red_codec. cbv beta zeta delta [LetIn].
  unfold jc_elligator2Inverse. revert h1. unfold first_half. destruct q as [s t]. cbv zeta. cbn [jS jT].
  destruct (m1 14%nat 0%nat), (fe_IsNonZeroI K s) as [snz s']. cbv beta iota delta [fst snd] in h2 |- *.
  generalize (i32 (1 - snz)) (o_condSet K (k_zero K) (k_sqrtID K) (fe_EqualsI K t (k_one K))) (o_mul K (o_add K t (k_one K)) (k_dp1OverDm1 K)) (o_square K s').
  intros d out a S2. generalize (o_sub K (o_square K S2) (o_square K a)). intros w h1.
  injection h1 as e1 e2 e3 e4 e5 e6 e7 e8. revert h2 e1 e2 e3 e4 e5 e6 e7. rewrite e8. destruct (fe_InvSqrtI K w) as [sq y]. clear e8 m1. intro h2.
  injection h2 as e8 e9. revert e8 e9. 
  destruct (m2 5%nat 0%nat), (m2 5%nat 1%nat), (m2 16%nat 0%nat), (m2 21%nat 0%nat), (m2 22%nat 0%nat), (m2 10%nat 0%nat), (m2 12%nat 0%nat), (m2 24%nat 0%nat), (m2 9%nat 0%nat).
  cbv beta iota delta [fst snd]. intros -> -> -> -> -> -> -> -> ->. unfold fe_Abs_self.
  destruct (fe_IsNegativeI K s') as [sneg s''].
  match goal with |- context [fe_IsNegativeI K ?t] => destruct (fe_IsNegativeI K t) end. reflexivity.
Qed.

Lemma inv_at_3 nu : let m := FIN (setk rho0 0 3) (g_jc_elligator2Inverse K (elt (lo K 1 3) 2 (Ctr (0 + 0))) (elt (P 1) 1 (Times 2 (Ctr (0 + 0)))) (lo K 3 3) (5 + 3) (1 + 0)) nu in
  (int_at K (m 6%nat) 0, fe_at K (m 1%nat) 6, jac_at K (m 4%nat) 6) = jc_elligator2Inverse K (jac_at K (nu 4%nat) 6).
Proof.
  cbv zeta. unfold g_jc_elligator2Inverse. rewrite (final_split nosub 14). cbn [firstn skipn].
  set (m1 := FIN (setk rho0 0 3) (prog [ _; _; _; _; _; _; _; _; _; _; _; _; _; _]) nu).
  assert (h1 : (jac_at K (m1 4%nat) 6, fe_at K (m1 16%nat) 0, int_at K (m1 21%nat) 0, int_at K (m1 22%nat) 0,
                 fe_at K (m1 10%nat) 0, fe_at K (m1 12%nat) 0, fe_at K (m1 14%nat) 0) = first_half (jac_at K (nu 4%nat) 6)).
  { unfold m1, first_half. rewrite <- (runk_ok (E:=Empty_set) nosub _ _ _ (fun m1 : mem V => (jac_at K (m1 4%nat) 6, fe_at K (m1 16%nat) 0, int_at K (m1 21%nat) 0, int_at K (m1 22%nat) 0,
                 fe_at K (m1 10%nat) 0, fe_at K (m1 12%nat) 0, fe_at K (m1 14%nat) 0))).
    red_codec. cbv beta zeta delta [LetIn jS jT]. destruct (nu 4%nat 6%nat), (nu 4%nat 7%nat). cbv beta iota delta [fst snd].
    match goal with |- context [fe_IsNonZeroI K ?t] => destruct (fe_IsNonZeroI K t) end. reflexivity. }
  clearbody m1. remember (jac_at K (nu 4%nat) 6) as q eqn:eq. clear eq. rewrite final_cons. pose proof (invI_9_14_24 (setk rho0 0 3) m1) as h2. cbv zeta in h2.
  change (5 + 3)%nat with 8%nat. change (1 + 0)%nat with 1%nat.
  set (m2 := FIN (setk rho0 0 3) (g_fe_InvSqrtI K _ _ _ _ _) m1) in *.
  assert (h3 : m2 4%nat 6%nat = m1 4%nat 6%nat /\ m2 4%nat 7%nat = m1 4%nat 7%nat /\ m2 16%nat 0%nat = m1 16%nat 0%nat /\
    m2 21%nat 0%nat = m1 21%nat 0%nat /\ m2 22%nat 0%nat = m1 22%nat 0%nat /\ m2 10%nat 0%nat = m1 10%nat 0%nat /\ m2 12%nat 0%nat = m1 12%nat 0%nat).
  { unfold m2. refine (conj _ (conj _ (conj _ (conj _ (conj _ (conj _ _)))))); apply frame_name; reflexivity. }
  clearbody m2. destruct h3 as (ha & hb & hc & hd & he & hf & hg). unfold jac_at, fe_at, int_at in h1, h2. cbn [Nat.add] in h1.
  rewrite <- ha, <- hb, <- hc, <- hd, <- he, <- hf, <- hg in h1. clear ha hb hc hd he hf hg.
  rewrite <- (runk_ok (E:=Empty_set) nosub _ _ _ (fun m : mem V => (int_at K (m 6%nat) 0, fe_at K (m 1%nat) 6, jac_at K (m 4%nat) 6))).
  unfold g_fe_Abs. red_codec. cbv beta zeta delta [LetIn].
  unfold jc_elligator2Inverse. revert h1. unfold first_half. destruct q as [s t]. cbv zeta. cbn [jS jT].
  destruct (m1 14%nat 0%nat), (fe_IsNonZeroI K s) as [snz s']. cbv beta iota delta [fst snd] in h2 |- *.
  generalize (i32 (1 - snz)) (o_condSet K (k_zero K) (k_sqrtID K) (fe_EqualsI K t (k_one K))) (o_mul K (o_add K t (k_one K)) (k_dp1OverDm1 K)) (o_square K s').
  intros d out a S2. generalize (o_sub K (o_square K S2) (o_square K a)). intros w h1.
  injection h1 as e1 e2 e3 e4 e5 e6 e7 e8. revert h2 e1 e2 e3 e4 e5 e6 e7. rewrite e8. destruct (fe_InvSqrtI K w) as [sq y]. clear e8 m1. intro h2.
  injection h2 as e8 e9. revert e8 e9. 
  destruct (m2 4%nat 6%nat), (m2 4%nat 7%nat), (m2 16%nat 0%nat), (m2 21%nat 0%nat), (m2 22%nat 0%nat), (m2 10%nat 0%nat), (m2 12%nat 0%nat), (m2 24%nat 0%nat), (m2 9%nat 0%nat).
  cbv beta iota delta [fst snd]. intros -> -> -> -> -> -> -> -> ->. unfold fe_Abs_self.
  destruct (fe_IsNegativeI K s') as [sneg s''].
  match goal with |- context [fe_IsNegativeI K ?t] => destruct (fe_IsNegativeI K t) end. reflexivity.
Qed.

Lemma inv_dual_3 nu : let m := FIN (setk rho0 0 3) (g_jc_elligator2Inverse K (lo K 2 3) (elt (P 1) 1 (Plus (Times 2 (Ctr (0 + 0))) (C 1))) (lo K 4 3) (5 + 3) (1 + 0)) nu in
  (int_at K (m 7%nat) 0, fe_at K (m 1%nat) 7, jac_at K (m 5%nat) 0) = jc_elligator2Inverse K (jac_at K (nu 5%nat) 0).
Proof.
  cbv zeta. unfold g_jc_elligator2Inverse. rewrite (final_split nosub 14). cbn [firstn skipn].
  set (m1 := FIN (setk rho0 0 3) (prog [ _; _; _; _; _; _; _; _; _; _; _; _; _; _]) nu).
  assert (h1 : (jac_at K (m1 5%nat) 0, fe_at K (m1 16%nat) 0, int_at K (m1 21%nat) 0, int_at K (m1 22%nat) 0,
                 fe_at K (m1 10%nat) 0, fe_at K (m1 12%nat) 0, fe_at K (m1 14%nat) 0) = first_half (jac_at K (nu 5%nat) 0)).
  { unfold m1, first_half. rewrite <- (runk_ok (E:=Empty_set) nosub _ _ _ (fun m1 : mem V => (jac_at K (m1 5%nat) 0, fe_at K (m1 16%nat) 0, int_at K (m1 21%nat) 0, int_at K (m1 22%nat) 0,
                 fe_at K (m1 10%nat) 0, fe_at K (m1 12%nat) 0, fe_at K (m1 14%nat) 0))).
    red_codec. cbv beta zeta delta [LetIn jS jT]. destruct (nu 5%nat 0%nat), (nu 5%nat 1%nat). cbv beta iota delta [fst snd].
    match goal with |- context [fe_IsNonZeroI K ?t] => destruct (fe_IsNonZeroI K t) end. reflexivity. }
  clearbody m1. remember (jac_at K (nu 5%nat) 0) as q eqn:eq. clear eq. rewrite final_cons. pose proof (invI_9_14_24 (setk rho0 0 3) m1) as h2. cbv zeta in h2.
  change (5 + 3)%nat with 8%nat. change (1 + 0)%nat with 1%nat.
  set (m2 := FIN (setk rho0 0 3) (g_fe_InvSqrtI K _ _ _ _ _) m1) in *.
  assert (h3 : m2 5%nat 0%nat = m1 5%nat 0%nat /\ m2 5%nat 1%nat = m1 5%nat 1%nat /\ m2 16%nat 0%nat = m1 16%nat 0%nat /\
    m2 21%nat 0%nat = m1 21%nat 0%nat /\ m2 22%nat 0%nat = m1 22%nat 0%nat /\ m2 10%nat 0%nat = m1 10%nat 0%nat /\ m2 12%nat 0%nat = m1 12%nat 0%nat).
  { unfold m2. refine (conj _ (conj _ (conj _ (conj _ (conj _ (conj _ _)))))); apply frame_name; reflexivity. }
  clearbody m2. destruct h3 as (ha & hb & hc & hd & he & hf & hg). unfold jac_at, fe_at, int_at in h1, h2. cbn [Nat.add] in h1.
  rewrite <- ha, <- hb, <- hc, <- hd, <- he, <- hf, <- hg in h1. clear ha hb hc hd he hf hg.
  rewrite <- (runk_ok (E:=Empty_set) nosub _ _ _ (fun m : mem V => (int_at K (m 7%nat) 0, fe_at K (m 1%nat) 7, jac_at K (m 5%nat) 0))).
  unfold g_fe_Abs. red_codec. cbv beta zeta delta [LetIn].
  unfold jc_elligator2Inverse. revert h1. unfold first_half. destruct q as [s t]. cbv zeta. cbn [jS jT].
  destruct (m1 14%nat 0%nat), (fe_IsNonZeroI K s) as [snz s']. cbv beta iota delta [fst snd] in h2 |- *.
  generalize (i32 (1 - snz)) (o_condSet K (k_zero K) (k_sqrtID K) (fe_EqualsI K t (k_one K))) (o_mul K (o_add K t (k_one K)) (k_dp1OverDm1 K)) (o_square K s').
  intros d out a S2. generalize (o_sub K (o_square K S2) (o_square K a)). intros w h1.
  injection h1 as e1 e2 e3 e4 e5 e6 e7 e8. revert h2 e1 e2 e3 e4 e5 e6 e7. rewrite e8. destruct (fe_InvSqrtI K w) as [sq y]. clear e8 m1. intro h2.
  injection h2 as e8 e9. revert e8 e9. 
  destruct (m2 5%nat 0%nat), (m2 5%nat 1%nat), (m2 16%nat 0%nat), (m2 21%nat 0%nat), (m2 22%nat 0%nat), (m2 10%nat 0%nat), (m2 12%nat 0%nat), (m2 24%nat 0%nat), (m2 9%nat 0%nat).
  cbv beta iota delta [fst snd]. intros -> -> -> -> -> -> -> -> ->. unfold fe_Abs_self.
  destruct (fe_IsNegativeI K s') as [sneg s''].
  match goal with |- context [fe_IsNegativeI K ?t] => destruct (fe_IsNegativeI K t) end. reflexivity.
Qed.

Lemma inv_15_15_28 nu : fe_at K (FIN rho0 (g_fe_InvSqrt K (lo K 7 8) (lo K 7 8) (20 + 8) (0 + 1)) nu 15%nat) 0 = fe_InvSqrt K (fe_at K (nu 15%nat) 0).
Proof. unfold g_fe_InvSqrt, fe_InvSqrt, g_fe_Exp22523, fe_Exp22523, go_for. link (fun m : mem V => fe_at K (m 15%nat) 0). Qed.

Lemma toJac nu : let m := FIN rho0 (g_ep_ToJacobiQuarticRistretto K (P 0) (lo K 1 3) (5 + 3) (1 + 0)) nu in
  ([jac_at K (m 4%nat) 0; jac_at K (m 4%nat) 2; jac_at K (m 4%nat) 4; jac_at K (m 4%nat) 6], ext_at K (m 0%nat) 0) =
  ep_ToJacobiQuarticRistretto K (ext_at K (nu 0%nat) 0).
Proof.
  cbv zeta. unfold g_ep_ToJacobiQuarticRistretto. rewrite (final_split nosub 9). cbn [firstn skipn].
  set (m1 := FIN rho0 (prog [ _; _; _; _; _; _; _; _; _]) nu).
  assert (h1 : (fe_at K (m1 9%nat) 0, fe_at K (m1 12%nat) 0, fe_at K (m1 13%nat) 0, fe_at K (m1 14%nat) 0, fe_at K (m1 15%nat) 0, ext_at K (m1 0%nat) 0) =
    (let p := ext_at K (nu 0%nat) 0 in
     let Y2 := o_square K (eY p) in
     let d := o_sub K (o_square K (eZ p)) Y2 in
     (Y2, o_sub K (eZ p) (eY p), o_add K (eZ p) (eY p), d, o_mul K (o_mul K (o_square K Y2) (o_square K (eX p))) d, p))).
  { unfold m1. link (fun m1 : mem V => (fe_at K (m1 9%nat) 0, fe_at K (m1 12%nat) 0, fe_at K (m1 13%nat) 0, fe_at K (m1 14%nat) 0, fe_at K (m1 15%nat) 0, ext_at K (m1 0%nat) 0)). }
  clearbody m1. cbv zeta in h1. rewrite final_cons. change (5 + 3)%nat with 8%nat. change (1 + 0)%nat with 1%nat. pose proof (inv_15_15_28 m1) as h2. set (m2 := FIN rho0 (g_fe_InvSqrt K _ _ _ _) m1) in *.
  assert (h3 : m2 9%nat 0%nat = m1 9%nat 0%nat /\ m2 12%nat 0%nat = m1 12%nat 0%nat /\ m2 13%nat 0%nat = m1 13%nat 0%nat /\ m2 14%nat 0%nat = m1 14%nat 0%nat /\ forall i, m2 0%nat i = m1 0%nat i).
  { unfold m2. refine (conj _ (conj _ (conj _ (conj _ _)))); [| | | |intro i]; apply frame_name; reflexivity. }
  clearbody m2. destruct h3 as (ha & hb & hc & hd & he).
  remember (ext_at K (nu 0%nat) 0) as q eqn:eq. clear eq. destruct q as [X Y Z T]. unfold fe_at, ext_at in h1, h2. rewrite <- ha, <- hb, <- hc, <- hd, <- !he in h1. clear ha hb hc hd he.
  unfold ep_ToJacobiQuarticRistretto. cbn [eX eY eZ eT Nat.add] in *. cbv zeta.
  revert h1. match goal with |- context [o_square K Y] => generalize (o_square K Y) end. intro Y2.
  match goal with |- context [o_sub K ?a Y2] => generalize (o_sub K a Y2) end. intro d.
  match goal with |- context [o_mul K ?a d] => generalize (o_mul K a d) end. intro g.
  generalize (o_sub K Z Y) (o_add K Z Y). intros zm zp h1. injection h1 as e1 e2 e3 e4 e5 e6 e7 e8 e9.
  rewrite e5 in h2. revert h2. generalize (fe_InvSqrt K g). intros gam h2. clear e5 m1 g.
  match goal with |- context [FIN rho0 ?P m2] => rewrite <- (runk_ok (E:=Empty_set) nosub P rho0 m2 (fun m : mem V => ([jac_at K (m 4%nat) 0; jac_at K (m 4%nat) 2; jac_at K (m 4%nat) 4; jac_at K (m 4%nat) 6], ext_at K (m 0%nat) 0))) end.
  red_codec. cbv beta zeta delta [LetIn]. revert h2 e1 e2 e3 e4 e6 e7 e8 e9.
  destruct (m2 0%nat 0%nat), (m2 0%nat 1%nat), (m2 0%nat 2%nat), (m2 0%nat 3%nat), (m2 9%nat 0%nat), (m2 12%nat 0%nat), (m2 13%nat 0%nat), (m2 14%nat 0%nat), (m2 15%nat 0%nat).
  cbv beta iota delta [fst snd]. intros -> -> -> -> -> -> -> -> ->.
  destruct (fe_IsNonZeroI K X), (fe_IsNonZeroI K Y). reflexivity.
Qed.

(** the body of the loop *)
Let body : stmt V := prog [
    g_jc_elligator2Inverse K (elt (lo K 1 3) 2 (Ctr (0 + 0))) (elt (P 1) 1 (Times 2 (Ctr (0 + 0)))) (lo K 3 3) (5 + 3)%nat (1 + 0)%nat;
    ido K (fun rho vs => match vs with [setMask; r1] => Z.lor setMask (u8 (Z.shiftl r1 (Z.of_nat (2 * rho (0 + 0)%nat)%nat))) | _ => 0 end) (lo K 0 3) [(lo K 0 3); (lo K 3 3)];
    g_jc_Dual K (lo K 2 3) (elt (lo K 1 3) 2 (Ctr (0 + 0))) (5 + 3)%nat (1 + 0)%nat;
    g_jc_elligator2Inverse K (lo K 2 3) (elt (P 1) 1 (Plus (Times 2 (Ctr (0 + 0))) (C 1))) (lo K 4 3) (5 + 3)%nat (1 + 0)%nat;
    ido K (fun rho vs => match vs with [setMask; r1] => Z.lor setMask (u8 (Z.shiftl r1 (Z.of_nat ((2 * rho (0 + 0)%nat) + 1)%nat))) | _ => 0 end) (lo K 0 3) [(lo K 0 3); (lo K 4 3)]].

Lemma step_0 m : let m' := FIN (setk rho0 0 0) body m in
  (int_at K (m' 3%nat) 0, fe_at K (m' 1%nat) 0, fe_at K (m' 1%nat) 1) =
  (let '(r, f, q) := jc_elligator2Inverse K (jac_at K (m 4%nat) 0) in
   let '(r', f', _) := jc_elligator2Inverse K (jc_Dual K q) in
   (Z.lor (Z.lor (int_at K (m 3%nat) 0) (u8 (Z.shiftl r (Z.of_nat (2 * 0))))) (u8 (Z.shiftl r' (Z.of_nat (2 * 0 + 1)))), f, f')).
Proof.
  cbv zeta. unfold body. rewrite final_cons. pose proof (inv_at_0 m) as h1. cbv zeta in h1.
  match type of h1 with context [FIN ?r ?s m] => assert (h0 : forall i, FIN r s m 3%nat i = m 3%nat i) by (intro i; apply frame_name; reflexivity); set (m1 := FIN r s m) in * end.
  clearbody m1. destruct (jc_elligator2Inverse K (jac_at K (m 4%nat) 0)) as [[r f] q]. injection h1 as e1 e2 e3.
  rewrite (final_split nosub 2). cbn [firstn skipn].
  set (m2 := FIN (setk rho0 0 0) (prog [ _; _]) m1).
  assert (h2 : (int_at K (m2 3%nat) 0, jac_at K (m2 5%nat) 0, fe_at K (m2 1%nat) 0) =
     (Z.lor (int_at K (m1 3%nat) 0) (u8 (Z.shiftl (int_at K (m1 6%nat) 0) (Z.of_nat (2 * 0)))), jc_Dual K (jac_at K (m1 4%nat) 0), fe_at K (m1 1%nat) 0)).
  { unfold m2, g_jc_Dual, jc_Dual. link (fun m2 : mem V => (int_at K (m2 3%nat) 0, jac_at K (m2 5%nat) 0, fe_at K (m2 1%nat) 0)). }
  clearbody m2. rewrite e1, e2, e3 in h2. unfold int_at at 2 in h2. rewrite (h0 0%nat) in h2. fold (int_at K (m 3%nat) 0) in h2.
  rewrite final_cons. pose proof (inv_dual_0 m2) as h3. cbv zeta in h3.
  match type of h3 with context [FIN ?r ?s m2] => assert (ha : FIN r s m2 3%nat 0%nat = m2 3%nat 0%nat) by (apply frame_name; reflexivity);
    assert (hb : FIN r s m2 1%nat 0%nat = m2 1%nat 0%nat) by (apply frame_b; vm_compute; reflexivity); set (m3 := FIN r s m2) in * end.
  clearbody m3. injection h2 as f1 f2 f3 f4. 
  assert (f5 : jac_at K (m2 5%nat) 0 = jc_Dual K q) by (unfold jac_at, jc_Dual; cbn [Nat.add]; rewrite f2, f3; reflexivity).
  rewrite f5 in h3. destruct (jc_elligator2Inverse K (jc_Dual K q)) as [[r' f'] q']. injection h3 as g1 g2 g3.
  rewrite <- (runk_ok (E:=Empty_set) nosub _ _ _ (fun m' : mem V => (int_at K (m' 3%nat) 0, fe_at K (m' 1%nat) 0, fe_at K (m' 1%nat) 1))).
  revert f1 f4 g1 g2. red_codec. cbv beta zeta delta [LetIn]. rewrite ha, hb.
  destruct (m2 3%nat 0%nat), (m2 1%nat 0%nat), (m3 7%nat 0%nat), (m3 1%nat 1%nat). cbv beta iota. intros -> -> -> ->. reflexivity.
Qed.

Lemma step_0_frame m a i : (a = 0 \/ a = 1 /\ (i < 0 \/ 1 < i) \/ a = 4 /\ (i < 0 \/ 1 < i))%nat ->
  FIN (setk rho0 0 0) body m a i = m a i.
Proof.
  intro h. apply frame; [vm_compute; reflexivity|].
  assert (hc : forallb (fun c => negb (Nat.eqb (fst c) 0) && (negb (Nat.eqb (fst c) 1) || Nat.eqb (snd c) 0 || Nat.eqb (snd c) 1)
     && (negb (Nat.eqb (fst c) 4) || Nat.eqb (snd c) 0 || Nat.eqb (snd c) 1))%bool (wcells (setk rho0 0 0) body) = true) by (vm_compute; reflexivity).
  intro hin. rewrite forallb_forall in hc. specialize (hc _ hin). cbn [fst snd] in hc.
  destruct (Nat.eqb_spec a 0), (Nat.eqb_spec a 1), (Nat.eqb_spec a 4), (Nat.eqb_spec i 0), (Nat.eqb_spec i 1); cbn in hc; try discriminate; lia.
Qed.

Lemma step_1 m : let m' := FIN (setk rho0 0 1) body m in
  (int_at K (m' 3%nat) 0, fe_at K (m' 1%nat) 2, fe_at K (m' 1%nat) 3) =
  (let '(r, f, q) := jc_elligator2Inverse K (jac_at K (m 4%nat) 2) in
   let '(r', f', _) := jc_elligator2Inverse K (jc_Dual K q) in
   (Z.lor (Z.lor (int_at K (m 3%nat) 0) (u8 (Z.shiftl r (Z.of_nat (2 * 1))))) (u8 (Z.shiftl r' (Z.of_nat (2 * 1 + 1)))), f, f')).
Proof.
  cbv zeta. unfold body. rewrite final_cons. pose proof (inv_at_1 m) as h1. cbv zeta in h1.
  match type of h1 with context [FIN ?r ?s m] => assert (h0 : forall i, FIN r s m 3%nat i = m 3%nat i) by (intro i; apply frame_name; reflexivity); set (m1 := FIN r s m) in * end.
  clearbody m1. destruct (jc_elligator2Inverse K (jac_at K (m 4%nat) 2)) as [[r f] q]. injection h1 as e1 e2 e3.
  rewrite (final_split nosub 2). cbn [firstn skipn].
  set (m2 := FIN (setk rho0 0 1) (prog [ _; _]) m1).
  assert (h2 : (int_at K (m2 3%nat) 0, jac_at K (m2 5%nat) 0, fe_at K (m2 1%nat) 2) =
     (Z.lor (int_at K (m1 3%nat) 0) (u8 (Z.shiftl (int_at K (m1 6%nat) 0) (Z.of_nat (2 * 1)))), jc_Dual K (jac_at K (m1 4%nat) 2), fe_at K (m1 1%nat) 2)).
  { unfold m2, g_jc_Dual, jc_Dual. link (fun m2 : mem V => (int_at K (m2 3%nat) 0, jac_at K (m2 5%nat) 0, fe_at K (m2 1%nat) 2)). }
  clearbody m2. rewrite e1, e2, e3 in h2. unfold int_at at 2 in h2. rewrite (h0 0%nat) in h2. fold (int_at K (m 3%nat) 0) in h2.
  rewrite final_cons. pose proof (inv_dual_1 m2) as h3. cbv zeta in h3.
  match type of h3 with context [FIN ?r ?s m2] => assert (ha : FIN r s m2 3%nat 0%nat = m2 3%nat 0%nat) by (apply frame_name; reflexivity);
    assert (hb : FIN r s m2 1%nat 2%nat = m2 1%nat 2%nat) by (apply frame_b; vm_compute; reflexivity); set (m3 := FIN r s m2) in * end.
  clearbody m3. injection h2 as f1 f2 f3 f4. 
  assert (f5 : jac_at K (m2 5%nat) 0 = jc_Dual K q) by (unfold jac_at, jc_Dual; cbn [Nat.add]; rewrite f2, f3; reflexivity).
  rewrite f5 in h3. destruct (jc_elligator2Inverse K (jc_Dual K q)) as [[r' f'] q']. injection h3 as g1 g2 g3.
  rewrite <- (runk_ok (E:=Empty_set) nosub _ _ _ (fun m' : mem V => (int_at K (m' 3%nat) 0, fe_at K (m' 1%nat) 2, fe_at K (m' 1%nat) 3))).
  revert f1 f4 g1 g2. red_codec. cbv beta zeta delta [LetIn]. rewrite ha, hb.
  destruct (m2 3%nat 0%nat), (m2 1%nat 2%nat), (m3 7%nat 0%nat), (m3 1%nat 3%nat). cbv beta iota. intros -> -> -> ->. reflexivity.
Qed.

Lemma step_1_frame m a i : (a = 0 \/ a = 1 /\ (i < 2 \/ 3 < i) \/ a = 4 /\ (i < 2 \/ 3 < i))%nat ->
  FIN (setk rho0 0 1) body m a i = m a i.
Proof.
  intro h. apply frame; [vm_compute; reflexivity|].
  assert (hc : forallb (fun c => negb (Nat.eqb (fst c) 0) && (negb (Nat.eqb (fst c) 1) || Nat.eqb (snd c) 2 || Nat.eqb (snd c) 3)
     && (negb (Nat.eqb (fst c) 4) || Nat.eqb (snd c) 2 || Nat.eqb (snd c) 3))%bool (wcells (setk rho0 0 1) body) = true) by (vm_compute; reflexivity).
  intro hin. rewrite forallb_forall in hc. specialize (hc _ hin). cbn [fst snd] in hc.
  destruct (Nat.eqb_spec a 0), (Nat.eqb_spec a 1), (Nat.eqb_spec a 4), (Nat.eqb_spec i 2), (Nat.eqb_spec i 3); cbn in hc; try discriminate; lia.
Qed.

Lemma step_2 m : let m' := FIN (setk rho0 0 2) body m in
  (int_at K (m' 3%nat) 0, fe_at K (m' 1%nat) 4, fe_at K (m' 1%nat) 5) =
  (let '(r, f, q) := jc_elligator2Inverse K (jac_at K (m 4%nat) 4) in
   let '(r', f', _) := jc_elligator2Inverse K (jc_Dual K q) in
   (Z.lor (Z.lor (int_at K (m 3%nat) 0) (u8 (Z.shiftl r (Z.of_nat (2 * 2))))) (u8 (Z.shiftl r' (Z.of_nat (2 * 2 + 1)))), f, f')).
Proof.
  cbv zeta. unfold body. rewrite final_cons. pose proof (inv_at_2 m) as h1. cbv zeta in h1.
  match type of h1 with context [FIN ?r ?s m] => assert (h0 : forall i, FIN r s m 3%nat i = m 3%nat i) by (intro i; apply frame_name; reflexivity); set (m1 := FIN r s m) in * end.
  clearbody m1. destruct (jc_elligator2Inverse K (jac_at K (m 4%nat) 4)) as [[r f] q]. injection h1 as e1 e2 e3.
  rewrite (final_split nosub 2). cbn [firstn skipn].
  set (m2 := FIN (setk rho0 0 2) (prog [ _; _]) m1).
  assert (h2 : (int_at K (m2 3%nat) 0, jac_at K (m2 5%nat) 0, fe_at K (m2 1%nat) 4) =
     (Z.lor (int_at K (m1 3%nat) 0) (u8 (Z.shiftl (int_at K (m1 6%nat) 0) (Z.of_nat (2 * 2)))), jc_Dual K (jac_at K (m1 4%nat) 4), fe_at K (m1 1%nat) 4)).
  { unfold m2, g_jc_Dual, jc_Dual. link (fun m2 : mem V => (int_at K (m2 3%nat) 0, jac_at K (m2 5%nat) 0, fe_at K (m2 1%nat) 4)). }
  clearbody m2. rewrite e1, e2, e3 in h2. unfold int_at at 2 in h2. rewrite (h0 0%nat) in h2. fold (int_at K (m 3%nat) 0) in h2.
  rewrite final_cons. pose proof (inv_dual_2 m2) as h3. cbv zeta in h3.
  match type of h3 with context [FIN ?r ?s m2] => assert (ha : FIN r s m2 3%nat 0%nat = m2 3%nat 0%nat) by (apply frame_name; reflexivity);
    assert (hb : FIN r s m2 1%nat 4%nat = m2 1%nat 4%nat) by (apply frame_b; vm_compute; reflexivity); set (m3 := FIN r s m2) in * end.
  clearbody m3. injection h2 as f1 f2 f3 f4. 
  assert (f5 : jac_at K (m2 5%nat) 0 = jc_Dual K q) by (unfold jac_at, jc_Dual; cbn [Nat.add]; rewrite f2, f3; reflexivity).
  rewrite f5 in h3. destruct (jc_elligator2Inverse K (jc_Dual K q)) as [[r' f'] q']. injection h3 as g1 g2 g3.
  rewrite <- (runk_ok (E:=Empty_set) nosub _ _ _ (fun m' : mem V => (int_at K (m' 3%nat) 0, fe_at K (m' 1%nat) 4, fe_at K (m' 1%nat) 5))).
  revert f1 f4 g1 g2. red_codec. cbv beta zeta delta [LetIn]. rewrite ha, hb.
  destruct (m2 3%nat 0%nat), (m2 1%nat 4%nat), (m3 7%nat 0%nat), (m3 1%nat 5%nat). cbv beta iota. intros -> -> -> ->. reflexivity.
Qed.

Lemma step_2_frame m a i : (a = 0 \/ a = 1 /\ (i < 4 \/ 5 < i) \/ a = 4 /\ (i < 4 \/ 5 < i))%nat ->
  FIN (setk rho0 0 2) body m a i = m a i.
Proof.
  intro h. apply frame; [vm_compute; reflexivity|].
  assert (hc : forallb (fun c => negb (Nat.eqb (fst c) 0) && (negb (Nat.eqb (fst c) 1) || Nat.eqb (snd c) 4 || Nat.eqb (snd c) 5)
     && (negb (Nat.eqb (fst c) 4) || Nat.eqb (snd c) 4 || Nat.eqb (snd c) 5))%bool (wcells (setk rho0 0 2) body) = true) by (vm_compute; reflexivity).
  intro hin. rewrite forallb_forall in hc. specialize (hc _ hin). cbn [fst snd] in hc.
  destruct (Nat.eqb_spec a 0), (Nat.eqb_spec a 1), (Nat.eqb_spec a 4), (Nat.eqb_spec i 4), (Nat.eqb_spec i 5); cbn in hc; try discriminate; lia.
Qed.

Lemma step_3 m : let m' := FIN (setk rho0 0 3) body m in
  (int_at K (m' 3%nat) 0, fe_at K (m' 1%nat) 6, fe_at K (m' 1%nat) 7) =
  (let '(r, f, q) := jc_elligator2Inverse K (jac_at K (m 4%nat) 6) in
   let '(r', f', _) := jc_elligator2Inverse K (jc_Dual K q) in
   (Z.lor (Z.lor (int_at K (m 3%nat) 0) (u8 (Z.shiftl r (Z.of_nat (2 * 3))))) (u8 (Z.shiftl r' (Z.of_nat (2 * 3 + 1)))), f, f')).
Proof.
  cbv zeta. unfold body. rewrite final_cons. pose proof (inv_at_3 m) as h1. cbv zeta in h1.
  match type of h1 with context [FIN ?r ?s m] => assert (h0 : forall i, FIN r s m 3%nat i = m 3%nat i) by (intro i; apply frame_name; reflexivity); set (m1 := FIN r s m) in * end.
  clearbody m1. destruct (jc_elligator2Inverse K (jac_at K (m 4%nat) 6)) as [[r f] q]. injection h1 as e1 e2 e3.
  rewrite (final_split nosub 2). cbn [firstn skipn].
  set (m2 := FIN (setk rho0 0 3) (prog [ _; _]) m1).
  assert (h2 : (int_at K (m2 3%nat) 0, jac_at K (m2 5%nat) 0, fe_at K (m2 1%nat) 6) =
     (Z.lor (int_at K (m1 3%nat) 0) (u8 (Z.shiftl (int_at K (m1 6%nat) 0) (Z.of_nat (2 * 3)))), jc_Dual K (jac_at K (m1 4%nat) 6), fe_at K (m1 1%nat) 6)).
  { unfold m2, g_jc_Dual, jc_Dual. link (fun m2 : mem V => (int_at K (m2 3%nat) 0, jac_at K (m2 5%nat) 0, fe_at K (m2 1%nat) 6)). }
  clearbody m2. rewrite e1, e2, e3 in h2. unfold int_at at 2 in h2. rewrite (h0 0%nat) in h2. fold (int_at K (m 3%nat) 0) in h2.
  rewrite final_cons. pose proof (inv_dual_3 m2) as h3. cbv zeta in h3.
  match type of h3 with context [FIN ?r ?s m2] => assert (ha : FIN r s m2 3%nat 0%nat = m2 3%nat 0%nat) by (apply frame_name; reflexivity);
    assert (hb : FIN r s m2 1%nat 6%nat = m2 1%nat 6%nat) by (apply frame_b; vm_compute; reflexivity); set (m3 := FIN r s m2) in * end.
  clearbody m3. injection h2 as f1 f2 f3 f4. 
  assert (f5 : jac_at K (m2 5%nat) 0 = jc_Dual K q) by (unfold jac_at, jc_Dual; cbn [Nat.add]; rewrite f2, f3; reflexivity).
  rewrite f5 in h3. destruct (jc_elligator2Inverse K (jc_Dual K q)) as [[r' f'] q']. injection h3 as g1 g2 g3.
  rewrite <- (runk_ok (E:=Empty_set) nosub _ _ _ (fun m' : mem V => (int_at K (m' 3%nat) 0, fe_at K (m' 1%nat) 6, fe_at K (m' 1%nat) 7))).
  revert f1 f4 g1 g2. red_codec. cbv beta zeta delta [LetIn]. rewrite ha, hb.
  destruct (m2 3%nat 0%nat), (m2 1%nat 6%nat), (m3 7%nat 0%nat), (m3 1%nat 7%nat). cbv beta iota. intros -> -> -> ->. reflexivity.
Qed.

Lemma step_3_frame m a i : (a = 0 \/ a = 1 /\ (i < 6 \/ 7 < i) \/ a = 4 /\ (i < 6 \/ 7 < i))%nat ->
  FIN (setk rho0 0 3) body m a i = m a i.
Proof.
  intro h. apply frame; [vm_compute; reflexivity|].
  assert (hc : forallb (fun c => negb (Nat.eqb (fst c) 0) && (negb (Nat.eqb (fst c) 1) || Nat.eqb (snd c) 6 || Nat.eqb (snd c) 7)
     && (negb (Nat.eqb (fst c) 4) || Nat.eqb (snd c) 6 || Nat.eqb (snd c) 7))%bool (wcells (setk rho0 0 3) body) = true) by (vm_compute; reflexivity).
  intro hin. rewrite forallb_forall in hc. specialize (hc _ hin). cbn [fst snd] in hc.
  destruct (Nat.eqb_spec a 0), (Nat.eqb_spec a 1), (Nat.eqb_spec a 4), (Nat.eqb_spec i 6), (Nat.eqb_spec i 7); cbn in hc; try discriminate; lia.
Qed.

Lemma link_ep_RistrettoElligator2Inverse nu : let m := FIN rho0 (g_ep_RistrettoElligator2Inverse K (P 0) (P 1) (P 2) 3 0) nu in
  (int_at K (m 2%nat) 0, map (fe_at K (m 1%nat)) (seq 0 8), ext_at K (m 0%nat) 0) = ep_RistrettoElligator2Inverse K (ext_at K (nu 0%nat) 0).
Proof.
  cbv zeta. unfold g_ep_RistrettoElligator2Inverse. fold body. rewrite final_cons.
  set (m0 := FIN rho0 (ido K _ _ _) nu).
  assert (h0 : (int_at K (m0 3%nat) 0, ext_at K (m0 0%nat) 0) = (0, ext_at K (nu 0%nat) 0)).
  { unfold m0. link (fun m : mem V => (int_at K (m 3%nat) 0, ext_at K (m 0%nat) 0)). }
  clearbody m0. rewrite final_cons. pose proof (toJac m0) as h1. cbv zeta in h1.
  match type of h1 with context [FIN ?r ?s m0] => assert (ha : FIN r s m0 3%nat 0%nat = m0 3%nat 0%nat) by (apply frame_name; reflexivity); set (m1 := FIN r s m0) in * end.
  clearbody m1. unfold ep_RistrettoElligator2Inverse. assert (hm := f_equal fst h0). assert (hp := f_equal snd h0). cbn [fst snd] in hm, hp. clear h0.
  rewrite hp in h1. clear hp. destruct (ep_ToJacobiQuarticRistretto K (ext_at K (nu 0%nat) 0)) as [jcs p'].
  assert (hj := f_equal fst h1). assert (hq := f_equal snd h1). cbn [fst snd] in hj, hq. subst jcs p'. clear h1.
  assert (hn : int_at K (m1 3%nat) 0 = 0) by (unfold int_at; rewrite ha; exact hm). clear ha hm m0.
  rewrite final_cons, final_For. cbn [for_up]. change (0 + 0)%nat with 0%nat.
  pose proof (step_0 m1) as s0. pose proof (step_0_frame m1) as f0. cbv zeta in s0. set (m2 := FIN (setk rho0 0 0) body m1) in *. clearbody m2.
  pose proof (step_1 m2) as s1. pose proof (step_1_frame m2) as f1. cbv zeta in s1. set (m3 := FIN (setk rho0 0 1) body m2) in *. clearbody m3.
  pose proof (step_2 m3) as s2. pose proof (step_2_frame m3) as f2. cbv zeta in s2. set (m4 := FIN (setk rho0 0 2) body m3) in *. clearbody m4.
  pose proof (step_3 m4) as s3. pose proof (step_3_frame m4) as f3. cbv zeta in s3. set (m5 := FIN (setk rho0 0 3) body m4) in *. clearbody m5.
  assert (j1 : jac_at K (m2 4%nat) 2 = jac_at K (m1 4%nat) 2) by (unfold jac_at; rewrite !f0 by lia; reflexivity).
  assert (j2 : jac_at K (m3 4%nat) 4 = jac_at K (m1 4%nat) 4) by (unfold jac_at; rewrite !f1, !f0 by lia; reflexivity).
  assert (j3 : jac_at K (m4 4%nat) 6 = jac_at K (m1 4%nat) 6) by (unfold jac_at; rewrite !f2, !f1, !f0 by lia; reflexivity).
  rewrite j1 in s1. rewrite j2 in s2. rewrite j3 in s3. clear j1 j2 j3. rewrite hn in s0. clear hn.
  set (m6 := FIN rho0 (prog [ _]) m5).
  assert (h6 : (int_at K (m6 2%nat) 0, map (fe_at K (m6 1%nat)) (seq 0 8), ext_at K (m6 0%nat) 0) = (int_at K (m5 3%nat) 0, map (fe_at K (m5 1%nat)) (seq 0 8), ext_at K (m5 0%nat) 0)).
  { unfold m6. link (fun m6 : mem V => (int_at K (m6 2%nat) 0, map (fe_at K (m6 1%nat)) (seq 0 8), ext_at K (m6 0%nat) 0)). }
  rewrite h6. clear h6. clearbody m6.
  assert (hp : ext_at K (m5 0%nat) 0 = ext_at K (m1 0%nat) 0) by (unfold ext_at; rewrite !f3, !f2, !f1, !f0 by lia; reflexivity).
  assert (hl : map (fe_at K (m5 1%nat)) (seq 0 8) = [fe_at K (m2 1%nat) 0; fe_at K (m2 1%nat) 1; fe_at K (m3 1%nat) 2; fe_at K (m3 1%nat) 3;
    fe_at K (m4 1%nat) 4; fe_at K (m4 1%nat) 5; fe_at K (m5 1%nat) 6; fe_at K (m5 1%nat) 7]).
  { cbn [map seq]. unfold fe_at. rewrite (f3 1%nat 0%nat), (f3 1%nat 1%nat), (f3 1%nat 2%nat), (f3 1%nat 3%nat), (f3 1%nat 4%nat), (f3 1%nat 5%nat) by lia.
    rewrite (f2 1%nat 0%nat), (f2 1%nat 1%nat), (f2 1%nat 2%nat), (f2 1%nat 3%nat), (f1 1%nat 0%nat), (f1 1%nat 1%nat) by lia. reflexivity. }
  rewrite hp, hl. clear hp hl f0 f1 f2 f3.
  generalize dependent (ext_at K (m1 0%nat) 0). intro p.
  generalize dependent (jac_at K (m1 4%nat) 0). intro q0. generalize dependent (jac_at K (m1 4%nat) 2). intro q1.
  generalize dependent (jac_at K (m1 4%nat) 4). intro q2. generalize dependent (jac_at K (m1 4%nat) 6). intro q3.
  intros s3 s2 s1 s0. cbn [for_up]. unfold ell_inv_step. cbn [nth].
  destruct (jc_elligator2Inverse K q0) as [[r0 e0] q0']. destruct (jc_elligator2Inverse K (jc_Dual K q0')) as [[r0' e0'] q0''].
  destruct (jc_elligator2Inverse K q1) as [[r1 e1] q1']. destruct (jc_elligator2Inverse K (jc_Dual K q1')) as [[r1' e1'] q1''].
  destruct (jc_elligator2Inverse K q2) as [[r2 e2] q2']. destruct (jc_elligator2Inverse K (jc_Dual K q2')) as [[r2' e2'] q2''].
  destruct (jc_elligator2Inverse K q3) as [[r3 e3] q3']. destruct (jc_elligator2Inverse K (jc_Dual K q3')) as [[r3' e3'] q3''].
  assert (a0 := f_equal fst s0). assert (b0 := f_equal snd s0). assert (c0 := f_equal fst a0). assert (d0 := f_equal snd a0).
  assert (a1 := f_equal fst s1). assert (b1 := f_equal snd s1). assert (c1 := f_equal fst a1). assert (d1 := f_equal snd a1).
  assert (a2 := f_equal fst s2). assert (b2 := f_equal snd s2). assert (c2 := f_equal fst a2). assert (d2 := f_equal snd a2).
  assert (a3 := f_equal fst s3). assert (b3 := f_equal snd s3). assert (c3 := f_equal fst a3). assert (d3 := f_equal snd a3).
  cbn [fst snd] in b0, b1, b2, b3, c0, c1, c2, c3, d0, d1, d2, d3. rewrite c3, c2, c1, c0, b0, b1, b2, b3, d0, d1, d2, d3. reflexivity.
Qed.
End Facts.
