(** The prime field GF(p), p = 2^255-19, with Leibniz equality (specification level). *)
From Coq Require Import ZArith Znumtheory Zpow_facts Lia Bool Eqdep_dec Field.
From Verif Require Import NumTheory Primes.
Local Open Scope Z_scope.

Definition canon (x : Z) : bool := (0 <=? x) && (x <? p).

Record F := mkF { fval : Z; fok : canon fval = true }.

Lemma F_eq (x y : F) : fval x = fval y -> x = y.
Proof.
  destruct x as [x Hx], y as [y Hy]; cbn; intros ->.
  f_equal. apply UIP_dec. apply bool_dec.
Qed.

Lemma p_pos : 0 < p. Proof. vm_compute. reflexivity. Qed.
Lemma p_big : 1000 < p. Proof. vm_compute. reflexivity. Qed.

Lemma canon_mod x : canon (x mod p) = true.
Proof.
  unfold canon. pose proof (Z.mod_pos_bound x p p_pos).
  apply andb_true_iff. split; [apply Z.leb_le|apply Z.ltb_lt]; lia.
Qed.

Lemma fval_range x : 0 <= fval x < p.
Proof.
  destruct x as [x H]; cbn. unfold canon in H. apply andb_true_iff in H. destruct H as [A B].
  apply Z.leb_le in A. apply Z.ltb_lt in B. lia.
Qed.

Definition of_Z (x : Z) : F := mkF (x mod p) (canon_mod x).

Lemma fval_of_Z x : fval (of_Z x) = x mod p.
Proof. reflexivity. Qed.

Lemma of_Z_fval x : of_Z (fval x) = x.
Proof. apply F_eq. cbn. apply Z.mod_small, fval_range. Qed.

Lemma of_Z_eq x y : of_Z x = of_Z y <-> x mod p = y mod p.
Proof.
  split; [|intros H; apply F_eq; exact H].
  intros H. apply (f_equal fval) in H. exact H.
Qed.

Declare Scope F_scope.
Delimit Scope F_scope with F.
Bind Scope F_scope with F.

Definition F0 : F := of_Z 0.
Definition F1 : F := of_Z 1.
Definition Fadd (x y : F) : F := of_Z (fval x + fval y).
Definition Fsub (x y : F) : F := of_Z (fval x - fval y).
Definition Fmul (x y : F) : F := of_Z (fval x * fval y).
Definition Fopp (x : F) : F := of_Z (- fval x).
Definition Fpow (x : F) (e : Z) : F := of_Z (fval x ^ e).
Definition Finv (x : F) : F := Fpow x (p - 2).
Definition Fdiv (x y : F) : F := Fmul x (Finv y).
Definition Feqb (x y : F) : bool := fval x =? fval y.

Notation "x + y" := (Fadd x y) : F_scope.
Notation "x - y" := (Fsub x y) : F_scope.
Notation "x * y" := (Fmul x y) : F_scope.
Notation "- x" := (Fopp x) : F_scope.
Notation "x / y" := (Fdiv x y) : F_scope.
Notation "# z" := (of_Z z) (at level 1, format "# z") : F_scope.

Lemma Feqb_eq x y : Feqb x y = true <-> x = y.
Proof.
  unfold Feqb. rewrite Z.eqb_eq. split; [apply F_eq|congruence].
Qed.

Lemma F_dec (x y : F) : {x = y} + {x <> y}.
Proof.
  destruct (Feqb x y) eqn:E.
  - left. apply Feqb_eq; auto.
  - right. intros H. apply Feqb_eq in H. congruence.
Qed.

Lemma of_Z_add x y : of_Z (x + y) = Fadd (of_Z x) (of_Z y).
Proof. apply F_eq; cbn. apply Zplus_mod. Qed.
Lemma of_Z_sub x y : of_Z (x - y) = Fsub (of_Z x) (of_Z y).
Proof. apply F_eq; cbn. apply Zminus_mod. Qed.
Lemma of_Z_mul x y : of_Z (x * y) = Fmul (of_Z x) (of_Z y).
Proof. apply F_eq; cbn. apply Zmult_mod. Qed.
Lemma of_Z_opp x : of_Z (- x) = Fopp (of_Z x).
Proof.
  apply F_eq; cbn. rewrite <- (Z.sub_0_l x), <- (Z.sub_0_l (x mod p)).
  symmetry. apply Zminus_mod_idemp_r.
Qed.
Lemma of_Z_pow x e : 0 <= e -> of_Z (x ^ e) = Fpow (of_Z x) e.
Proof. intros He. apply F_eq; cbn. apply Zpower_mod. reflexivity. Qed.

Lemma of_Z_mod x : of_Z (x mod p) = of_Z x.
Proof. apply F_eq; cbn. apply Z.mod_mod. vm_compute; discriminate. Qed.

Lemma of_Z_p : of_Z p = F0.
Proof. apply F_eq. vm_compute. reflexivity. Qed.

(** Lifting identities from Z *)
Lemma F_ind_Z (P : F -> Prop) : (forall z, P (of_Z z)) -> forall x, P x.
Proof. intros H x. rewrite <- (of_Z_fval x). apply H. Qed.

Ltac liftZ := repeat (match goal with x : F |- _ => revert x; refine (F_ind_Z _ _); intros x end);
  unfold F0, F1; rewrite <- ?of_Z_opp, <- ?of_Z_mul, <- ?of_Z_sub, <- ?of_Z_add, <- ?of_Z_mul, <- ?of_Z_add, <- ?of_Z_opp;
  rewrite <- ?of_Z_opp, <- ?of_Z_mul, <- ?of_Z_sub, <- ?of_Z_add, <- ?of_Z_mul, <- ?of_Z_add, <- ?of_Z_opp;
  f_equal; ring.

Lemma F_ring : ring_theory F0 F1 Fadd Fmul Fsub Fopp (@eq F).
Proof.
  constructor; intros; liftZ.
Qed.

Lemma F1_neq_0 : F1 <> F0.
Proof. intros H. apply (f_equal fval) in H. vm_compute in H. discriminate. Qed.

Lemma fval_0 x : fval x = 0 -> x = F0.
Proof. intros H. apply F_eq. rewrite H. vm_compute. reflexivity. Qed.

Lemma F_nz_ndiv x : x <> F0 -> ~ (p | fval x).
Proof.
  intros Hx [k Hk]. pose proof (fval_range x). pose proof p_pos.
  assert (k = 0) by nia. subst k. apply Hx, fval_0. lia.
Qed.

Lemma Fpow_fermat x : x <> F0 -> Fpow x (p - 1) = F1.
Proof.
  intros Hx. apply F_eq. unfold Fpow. rewrite fval_of_Z. rewrite fermat; [vm_compute; reflexivity|exact prime_p|apply F_nz_ndiv, Hx].
Qed.

Lemma Fpow_add x a b : 0 <= a -> 0 <= b -> Fpow x (a + b) = Fmul (Fpow x a) (Fpow x b).
Proof. intros. unfold Fpow. rewrite Z.pow_add_r by assumption. apply of_Z_mul. Qed.

Lemma Fpow_mul x a b : 0 <= a -> 0 <= b -> Fpow x (a * b) = Fpow (Fpow x a) b.
Proof.
  intros. unfold Fpow at 1 3. rewrite Z.pow_mul_r by assumption.
  rewrite of_Z_pow by assumption. reflexivity.
Qed.

Lemma Fpow_1 x : Fpow x 1 = x.
Proof. unfold Fpow. rewrite Z.pow_1_r. apply of_Z_fval. Qed.
Lemma Fpow_0 x : Fpow x 0 = F1.
Proof. reflexivity. Qed.
Lemma Fpow_2 x : Fpow x 2 = Fmul x x.
Proof. change 2 with (1 + 1). rewrite Fpow_add, Fpow_1 by lia. reflexivity. Qed.
Lemma Fpow_mul_base x y a : 0 <= a -> Fpow (Fmul x y) a = Fmul (Fpow x a) (Fpow y a).
Proof.
  intros. unfold Fpow at 2 3. rewrite <- of_Z_mul, <- Z.pow_mul_l.
  rewrite of_Z_pow by assumption. reflexivity.
Qed.
Lemma Fpow_F1 a : 0 <= a -> Fpow F1 a = F1.
Proof. intros. unfold Fpow. replace (fval F1) with 1 by (vm_compute; reflexivity). rewrite Z.pow_1_l by lia. reflexivity. Qed.
Lemma Fpow_F0 a : 0 < a -> Fpow F0 a = F0.
Proof. intros. unfold Fpow. replace (fval F0) with 0 by (vm_compute; reflexivity). rewrite Z.pow_0_l by lia. reflexivity. Qed.

Lemma Finv_l x : x <> F0 -> Fmul (Finv x) x = F1.
Proof.
  intros Hx. rewrite <- (Fpow_1 x) at 2. unfold Finv. rewrite <- Fpow_add by (pose proof p_big; lia).
  replace (p - 2 + 1) with (p - 1) by ring. apply Fpow_fermat, Hx.
Qed.

Lemma F_field : field_theory F0 F1 Fadd Fmul Fsub Fopp Fdiv Finv (@eq F).
Proof.
  constructor.
  - exact F_ring.
  - exact F1_neq_0.
  - reflexivity.
  - exact Finv_l.
Qed.

Lemma F_morph : ring_morph F0 F1 Fadd Fmul Fsub Fopp (@eq F) 0 1 Z.add Z.mul Z.sub Z.opp Z.eqb of_Z.
Proof.
  constructor; intros; try reflexivity.
  - apply of_Z_add.
  - apply of_Z_sub.
  - apply of_Z_mul.
  - apply of_Z_opp.
  - apply Z.eqb_eq in H. congruence.
Qed.

Ltac isZcstF t := match isZcst t with true => t | _ => constr:(InitialRing.NotConstant) end.
Ltac Fcst t :=
  match t with
  | of_Z ?z => isZcstF z
  | F0 => constr:(0%Z)
  | F1 => constr:(1%Z)
  | _ => constr:(InitialRing.NotConstant)
  end.

Add Field F_field_inst : F_field (morphism F_morph, constants [Fcst]).

Lemma Fmul_0 x y : Fmul x y = F0 -> x = F0 \/ y = F0.
Proof.
  intros H. destruct (F_dec x F0) as [|Hx]; [left; assumption|right].
  transitivity (Finv x * x * y)%F; [rewrite Finv_l by assumption; ring|].
  transitivity (Finv x * (x * y))%F; [ring|]. rewrite H. ring.
Qed.

Lemma Fmul_nz x y : x <> F0 -> y <> F0 -> Fmul x y <> F0.
Proof. intros Hx Hy H. apply Fmul_0 in H. tauto. Qed.

Lemma Finv_0 : Finv F0 = F0.
Proof. unfold Finv. apply Fpow_F0. vm_compute. reflexivity. Qed.

Lemma Finv_nz x : x <> F0 -> Finv x <> F0.
Proof. intros Hx H. pose proof (Finv_l x Hx). rewrite H in H0. apply F1_neq_0. rewrite <- H0. ring. Qed.

Lemma Fmul_cancel_l a x y : a <> F0 -> Fmul a x = Fmul a y -> x = y.
Proof.
  intros Ha H. transitivity (Finv a * a * x)%F; [rewrite Finv_l by assumption; ring|].
  transitivity (Finv a * (a * x))%F; [ring|]. rewrite H.
  transitivity (Finv a * a * y)%F; [ring|]. rewrite Finv_l by assumption; ring.
Qed.

Lemma Fsub_0 x y : Fsub x y = F0 <-> x = y.
Proof.
  split; intros H.
  - transitivity (x - y + y)%F; [ring|]. rewrite H. ring.
  - rewrite H. ring.
Qed.

Lemma Fsq_eq x y : Fmul x x = Fmul y y -> x = y \/ x = Fopp y.
Proof.
  intros H. assert (E : ((x - y) * (x + y) = F0)%F).
  { transitivity (x * x - y * y)%F; [ring|]. rewrite H. ring. }
  apply Fmul_0 in E. destruct E as [E|E].
  - left. apply Fsub_0, E.
  - right. apply Fsub_0. rewrite <- E. ring.
Qed.

Lemma Fopp_0_iff x : Fopp x = F0 <-> x = F0.
Proof. split; intros H; [|rewrite H; ring]. transitivity (- - x)%F; [ring|]. rewrite H; ring. Qed.

(** Deciding (in)equalities between constants by computation on Z. *)
Lemma of_Z_neq x y : (x mod p =? y mod p) = false -> of_Z x <> of_Z y.
Proof. intros H E. apply of_Z_eq in E. apply Z.eqb_neq in H. auto. Qed.

Lemma F2_nz : of_Z 2 <> F0.
Proof. apply of_Z_neq. vm_compute. reflexivity. Qed.

Lemma Fdouble_0 x : Fadd x x = F0 -> x = F0.
Proof.
  intros H. apply (Fmul_cancel_l (of_Z 2)); [apply F2_nz|].
  transitivity (x + x)%F; [ring|]. rewrite H. ring.
Qed.

Lemma Fopp_eq x : x = Fopp x -> x = F0.
Proof. intros H. apply Fdouble_0. rewrite H at 1. ring. Qed.

(** ** Squares *)
Definition is_sq (x : F) : Prop := exists y, (y * y = x)%F.

(** sqrt(-1), field.go:21-24 (value only) *)
Definition Fi : F := of_Z 19681161376707505956807079304988542015446066515923890162744021073123829784752.

Lemma Fi_sq : (Fi * Fi = - F1)%F.
Proof. apply F_eq. vm_compute. reflexivity. Qed.

Definition chi (x : F) : F := Fpow x ((p - 1) / 2).

Lemma half_p : 2 * ((p - 1) / 2) = p - 1. Proof. vm_compute. reflexivity. Qed.

Lemma chi_cases x : x <> F0 -> chi x = F1 \/ chi x = Fopp F1.
Proof.
  intros Hx. apply Fsq_eq. unfold chi.
  rewrite <- Fpow_add by (vm_compute; discriminate).
  replace ((p - 1) / 2 + (p - 1) / 2) with (p - 1) by (vm_compute; reflexivity).
  rewrite Fpow_fermat by assumption. ring.
Qed.

Lemma chi_mul x y : chi (x * y)%F = (chi x * chi y)%F.
Proof. unfold chi. apply Fpow_mul_base. vm_compute; discriminate. Qed.

Lemma chi_sq x : x <> F0 -> chi (x * x)%F = F1.
Proof.
  intros Hx. rewrite chi_mul. destruct (chi_cases x Hx) as [-> | ->]; ring.
Qed.

Definition sqrt_cand (x : F) : F := Fpow x ((p + 3) / 8).

Lemma sqrt_cand_sq x : (sqrt_cand x * sqrt_cand x = x * Fpow x ((p - 1) / 4))%F.
Proof.
  unfold sqrt_cand. rewrite <- Fpow_add by (vm_compute; discriminate).
  replace ((p + 3) / 8 + (p + 3) / 8) with (1 + (p - 1) / 4) by (vm_compute; reflexivity).
  rewrite Fpow_add by (vm_compute; discriminate). rewrite Fpow_1. reflexivity.
Qed.

Lemma chi_1_sq x : chi x = F1 -> is_sq x.
Proof.
  intros H. assert (E : Fpow x ((p-1)/4) = F1 \/ Fpow x ((p-1)/4) = Fopp F1).
  { apply Fsq_eq. rewrite <- Fpow_add by (vm_compute; discriminate).
    replace ((p - 1) / 4 + (p - 1) / 4) with ((p - 1) / 2) by (vm_compute; reflexivity).
    fold (chi x). rewrite H. ring. }
  pose proof (sqrt_cand_sq x) as S. destruct E as [E|E]; rewrite E in S.
  - exists (sqrt_cand x). rewrite S. ring.
  - exists (Fi * sqrt_cand x)%F.
    transitivity ((Fi * Fi) * (sqrt_cand x * sqrt_cand x))%F; [ring|].
    rewrite Fi_sq, S. ring.
Qed.

Lemma is_sq_chi x : x <> F0 -> (is_sq x <-> chi x = F1).
Proof.
  intros Hx. split; [|apply chi_1_sq]. intros [y <-]. apply chi_sq.
  intros ->. apply Hx. ring.
Qed.

Lemma F1_neq_opp : F1 <> Fopp F1.
Proof. intros H. apply (f_equal fval) in H. vm_compute in H. discriminate. Qed.

Lemma not_sq_chi x : x <> F0 -> (~ is_sq x <-> chi x = Fopp F1).
Proof.
  intros Hx. rewrite (is_sq_chi x Hx).
  destruct (chi_cases x Hx) as [E|E]; rewrite E; split; try tauto.
  - intros H. destruct (F1_neq_opp H).
  - intros _ H. symmetry in H. destruct (F1_neq_opp H).
Qed.

Lemma is_sq_dec x : is_sq x \/ ~ is_sq x.
Proof.
  destruct (F_dec x F0) as [->|Hx]; [left; exists F0; ring|].
  rewrite (is_sq_chi x Hx). destruct (F_dec (chi x) F1); auto.
Qed.

Lemma is_sq_mul x y : is_sq x -> is_sq y -> is_sq (x * y)%F.
Proof. intros [a <-] [b <-]. exists (a * b)%F. ring. Qed.

Lemma nsq_nz x : ~ is_sq x -> x <> F0.
Proof. intros H ->. apply H. exists F0. ring. Qed.

Lemma nsq_mul_nsq x y : ~ is_sq x -> ~ is_sq y -> is_sq (x * y)%F.
Proof.
  intros Hx Hy. pose proof (nsq_nz _ Hx). pose proof (nsq_nz _ Hy).
  apply not_sq_chi in Hx; auto. apply not_sq_chi in Hy; auto.
  apply chi_1_sq. rewrite chi_mul, Hx, Hy. ring.
Qed.

Lemma is_sq_cancel x y : x <> F0 -> is_sq x -> is_sq (x * y)%F -> is_sq y.
Proof.
  intros Hx [a <-] [b Hb].
  assert (a <> F0) by (intros ->; apply Hx; ring).
  exists (b / a)%F. transitivity (b * b / (a * a))%F; [field; assumption|].
  rewrite Hb. field; assumption.
Qed.

Lemma is_sq_inv x : is_sq x -> is_sq (Finv x).
Proof.
  intros [a <-]. destruct (F_dec a F0) as [->|Ha].
  - exists F0. replace (F0 * F0)%F with F0 by ring. rewrite Finv_0. ring.
  - exists (Finv a). field; assumption.
Qed.

Lemma is_sq_opp x : is_sq x <-> is_sq (Fopp x).
Proof.
  split; intros [a H].
  - exists (Fi * a)%F. transitivity ((Fi * Fi) * (a * a))%F; [ring|]. rewrite H, Fi_sq. ring.
  - exists (Fi * a)%F. transitivity ((Fi * Fi) * (a * a))%F; [ring|]. rewrite H, Fi_sq. ring.
Qed.

Lemma Fi_nsq : ~ is_sq Fi.
Proof.
  assert (NZ : Fi <> F0).
  { intros E. pose proof Fi_sq as H. rewrite E in H. apply F1_neq_0. transitivity (- - F1)%F; [ring|]. rewrite <- H. ring. }
  apply not_sq_chi; [exact NZ|]. unfold chi.
  replace ((p - 1) / 2) with (2 * ((p - 1) / 4)) by (vm_compute; reflexivity).
  rewrite Fpow_mul by (vm_compute; discriminate). rewrite Fpow_2, Fi_sq.
  replace ((p - 1) / 4) with (2 * ((p - 1) / 8) + 1) by (vm_compute; reflexivity).
  rewrite Fpow_add, Fpow_mul, Fpow_2, Fpow_1 by (vm_compute; discriminate).
  replace (- F1 * - F1)%F with F1 by ring. rewrite Fpow_F1 by (vm_compute; discriminate). ring.
Qed.

(** x is a non-square as soon as i*x is a (non-zero) square *)
Lemma nsq_by_root x y : x <> F0 -> (y * y = Fi * x)%F -> ~ is_sq x.
Proof.
  intros Hx E S. apply Fi_nsq. apply (is_sq_cancel x _ Hx S). exists y. rewrite E. ring.
Qed.

Lemma Fi_nz : Fi <> F0.
Proof. apply nsq_nz, Fi_nsq. Qed.

(** ** "Negative" = odd canonical representative *)
Definition Fneg (x : F) : bool := Z.odd (fval x).

Lemma fval_opp x : x <> F0 -> fval (Fopp x) = p - fval x.
Proof.
  intros Hx. cbn. pose proof (fval_range x) as R.
  assert (fval x <> 0) by (intros E; apply Hx, fval_0, E).
  symmetry. apply (Z.mod_unique_pos _ _ (-1)); lia.
Qed.

Lemma Fneg_opp x : x <> F0 -> Fneg (Fopp x) = negb (Fneg x).
Proof.
  intros Hx. unfold Fneg. rewrite fval_opp by assumption.
  rewrite Z.odd_sub. replace (Z.odd p) with true by (vm_compute; reflexivity).
  destruct (Z.odd (fval x)); reflexivity.
Qed.

Lemma Fneg_0 : Fneg F0 = false. Proof. vm_compute; reflexivity. Qed.
Lemma Fneg_1 : Fneg F1 = true. Proof. vm_compute; reflexivity. Qed.

Definition Fabs (x : F) : F := if Fneg x then Fopp x else x.

Lemma Fabs_cases x : Fabs x = x \/ Fabs x = Fopp x.
Proof. unfold Fabs. destruct (Fneg x); auto. Qed.

Lemma Fabs_nonneg x : Fneg (Fabs x) = false.
Proof.
  unfold Fabs. destruct (Fneg x) eqn:E; auto.
  rewrite Fneg_opp, E; [reflexivity|]. intros ->. rewrite Fneg_0 in E. discriminate.
Qed.

Lemma Fnonneg_sq_unique x y : Fneg x = false -> Fneg y = false -> (x * x = y * y)%F -> x = y.
Proof.
  intros Hx Hy E. apply Fsq_eq in E. destruct E as [E|E]; auto.
  destruct (F_dec y F0) as [->|Hn].
  - rewrite E. ring.
  - rewrite E, Fneg_opp, Hy in Hx by assumption. discriminate.
Qed.

Lemma Fabs_sq x : (Fabs x * Fabs x = x * x)%F.
Proof. destruct (Fabs_cases x) as [-> | ->]; ring. Qed.

Lemma Fabs_opp x : Fabs (Fopp x) = Fabs x.
Proof.
  apply Fnonneg_sq_unique; try apply Fabs_nonneg. rewrite !Fabs_sq. ring.
Qed.

Lemma Fabs_id x : Fneg x = false -> Fabs x = x.
Proof. unfold Fabs. intros ->. reflexivity. Qed.


Global Opaque Fadd Fsub Fmul Fopp.
