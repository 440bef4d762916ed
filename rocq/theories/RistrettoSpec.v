(** Specification of the ristretto255 encoding and equality, with its basic theory
    (pure mathematics on the curve; no code). *)
From Coq Require Import ZArith Znumtheory Lia Bool List Field.
From Verif Require Import NumTheory Primes Fp AbGroup Edwards GroupOrder.
Import ListNotations.
Local Open Scope F_scope.

(** ** Constants *)
Lemma mdp1_sq : is_sq (- (Fd + F1)).
Proof.
  exists (of_Z 32832975665273474237674078345641801225390460830327625559649581521346134069714).
  apply F_eq. vm_compute. reflexivity.
Qed.

Lemma dp1_nz : Fd + F1 <> F0.
Proof. intros H. apply (f_equal fval) in H. vm_compute in H. discriminate. Qed.

(** ** E[4] *)
Lemma on_m1 : on_curve F0 (- F1).
Proof. unfold on_curve. ring. Qed.
Lemma on_i : on_curve Fi F0.
Proof. unfold on_curve. rewrite Fi_sq. ring. Qed.
Lemma on_mi : on_curve (- Fi) F0.
Proof. apply on_curve_opp, on_i. Qed.
Definition T2 : E := mkE' F0 (- F1) on_m1.
Definition T4 : E := mkE' Fi F0 on_i.
Definition T4' : E := mkE' (- Fi) F0 on_mi.

(** A point with x = 0 or y = 0. *)
Lemma x_0_cases P : ex P = F0 -> P = E0 \/ P = T2.
Proof.
  intros Hx. pose proof (E_on P) as H. unfold on_curve in H. rewrite Hx in H.
  assert (S : ey P * ey P = F1 * F1).
  { transitivity (ey P * ey P - F0 * F0); [ring|]. rewrite H. ring. }
  apply Fsq_eq in S. destruct S as [S|S]; [left|right]; apply E_eq; cbn; auto.
Qed.

Lemma y_0_cases P : ey P = F0 -> P = T4 \/ P = T4'.
Proof.
  intros Hy. pose proof (E_on P) as H. unfold on_curve in H. rewrite Hy in H.
  assert (S : ex P * ex P = Fi * Fi).
  { rewrite Fi_sq. transitivity (- (F0 * F0 - ex P * ex P)); [ring|]. rewrite H. ring. }
  apply Fsq_eq in S. destruct S as [S|S]; [left|right]; apply E_eq; cbn; auto.
Qed.

Lemma double_x P : ex (Eadd P P) * (F1 + Fd * (ex P * ex P) * (ey P * ey P)) = #2 * ex P * ey P.
Proof.
  pose proof (complete_p _ _ _ _ (E_on P) (E_on P)) as D.
  cbn [Eadd ex mkE']. unfold addx.
  replace (F1 + Fd * (ex P * ex P) * (ey P * ey P)) with (F1 + Fd * ex P * ex P * ey P * ey P) by ring.
  field. exact D.
Qed.
Lemma double_y P : ey (Eadd P P) * (F1 - Fd * (ex P * ex P) * (ey P * ey P)) = ey P * ey P + ex P * ex P.
Proof.
  pose proof (complete_m _ _ _ _ (E_on P) (E_on P)) as D.
  cbn [Eadd ey mkE']. unfold addy.
  replace (F1 - Fd * (ex P * ex P) * (ey P * ey P)) with (F1 - Fd * ex P * ex P * ey P * ey P) by ring.
  field. exact D.
Qed.

Lemma Fdiv_by_1 a b c : a = c -> b = F1 -> a / b = c.
Proof. intros -> ->. apply Fdiv_1. Qed.

Lemma T2_double : Eadd T2 T2 = E0.
Proof.
  apply E_eq; cbn [Eadd mkE' ex ey T2 E0]; unfold addx, addy; apply Fdiv_by_1; ring.
Qed.

Lemma T4_double : Eadd T4 T4 = T2.
Proof.
  apply E_eq; cbn [Eadd mkE' ex ey T4 T2]; unfold addx, addy; apply Fdiv_by_1; try ring.
  rewrite Fi_sq. ring.
Qed.
Lemma T4'_double : Eadd T4' T4' = T2.
Proof.
  apply E_eq; cbn [Eadd mkE' ex ey T4' T2]; unfold addx, addy; apply Fdiv_by_1; try ring.
  transitivity (Fi * Fi); [ring|]. rewrite Fi_sq. ring.
Qed.

Lemma Emul_4 P : Emul 4 P = Eadd (Eadd P P) (Eadd P P).
Proof. change 4%Z with (2 * 2)%Z. rewrite Emul_mul, !Emul_2. reflexivity. Qed.

Lemma double_0 P : Eadd P P = E0 -> ex P = F0.
Proof.
  intros H. pose proof (double_x P) as A. pose proof (double_y P) as B. rewrite H in A, B. cbn [ex ey E0 mkE'] in A, B.
  assert (C : #2 * ex P * ey P = F0) by (rewrite <- A; ring).
  apply Fmul_0 in C. destruct C as [C|C].
  - apply Fmul_0 in C. destruct C as [C|C]; [destruct (F2_nz C)|exact C].
  - destruct (y_0_cases P C) as [->| ->].
    + rewrite T4_double in H. apply (f_equal ey) in H. symmetry in H. destruct (F1_neq_opp H).
    + rewrite T4'_double in H. apply (f_equal ey) in H. symmetry in H. destruct (F1_neq_opp H).
Qed.

Theorem E4_iff P : Emul 4 P = E0 <-> ex P = F0 \/ ey P = F0.
Proof.
  rewrite Emul_4. split.
  - intros H. apply double_0 in H. pose proof (double_x P) as A. rewrite H in A.
    assert (C : #2 * ex P * ey P = F0) by (rewrite <- A; ring).
    apply Fmul_0 in C. destruct C as [C|C]; [|auto].
    apply Fmul_0 in C. destruct C as [C|C]; [destruct (F2_nz C)|auto].
  - intros [H|H].
    + destruct (x_0_cases P H) as [->| ->]; [rewrite !Eadd_0_l; reflexivity|].
      rewrite T2_double. apply Eadd_0_l.
    + destruct (y_0_cases P H) as [->| ->]; [rewrite T4_double|rewrite T4'_double]; apply T2_double.
Qed.

Lemma E4_list P : Emul 4 P = E0 <-> P = E0 \/ P = T2 \/ P = T4 \/ P = T4'.
Proof.
  rewrite E4_iff. split.
  - intros [H|H]; [destruct (x_0_cases P H)|destruct (y_0_cases P H)]; tauto.
  - intros [->|[->|[->| ->]]]; cbn; auto.
Qed.

(** ** Equality of classes in coordinates *)
Lemma frac_0 a b : b <> F0 -> (a / b = F0 <-> a = F0).
Proof.
  intros Hb. split; intros H.
  - transitivity (a / b * b); [field; exact Hb|]. rewrite H. ring.
  - rewrite H. unfold Fdiv. ring.
Qed.

Theorem Req_coords P Q :
  Req P Q <-> ex P * ey Q = ex Q * ey P \/ ex P * ex Q = ey P * ey Q.
Proof.
  unfold Req. rewrite E4_iff. unfold Esub.
  pose proof (complete_p _ _ _ _ (E_on P) (E_on (Eopp Q))) as Dp.
  pose proof (complete_m _ _ _ _ (E_on P) (E_on (Eopp Q))) as Dm.
  cbn [Eadd Eopp ex ey mkE'] in *. unfold addx, addy.
  rewrite (frac_0 _ _ Dp), (frac_0 _ _ Dm).
  split; (intros [H|H]; [left|right]).
  - apply Fsub_0. rewrite <- H. ring.
  - symmetry. apply Fsub_0. rewrite <- H. ring.
  - rewrite H at 1. ring || (apply Fsub_0 in H; rewrite <- H; ring).
  - rewrite <- H. ring.
Qed.

(** The coset P + E[4] in coordinates *)
Lemma add_T2 P : ex (Eadd P T2) = - ex P /\ ey (Eadd P T2) = - ey P.
Proof. split; cbn [Eadd T2 ex ey mkE']; unfold addx, addy; apply Fdiv_by_1; ring. Qed.
Lemma add_T4 P : ex (Eadd P T4) = Fi * ey P /\ ey (Eadd P T4) = Fi * ex P.
Proof. split; cbn [Eadd T4 ex ey mkE']; unfold addx, addy; apply Fdiv_by_1; ring. Qed.
Lemma add_T4' P : ex (Eadd P T4') = - (Fi * ey P) /\ ey (Eadd P T4') = - (Fi * ex P).
Proof. split; cbn [Eadd T4' ex ey mkE']; unfold addx, addy; apply Fdiv_by_1; ring. Qed.

Lemma Req_coset P Q : Req P Q <-> P = Q \/ P = Eadd Q T2 \/ P = Eadd Q T4 \/ P = Eadd Q T4'.
Proof.
  unfold Req. rewrite E4_list. unfold Esub.
  assert (A : forall T, Eadd P (Eopp Q) = T <-> P = Eadd Q T).
  { intros T. split.
    - intros <-. rewrite Eadd_comm, <- Eadd_assoc, (Eadd_comm (Eopp Q)), Eadd_opp, Eadd_0_r. reflexivity.
    - intros ->. rewrite (Eadd_comm Q), <- Eadd_assoc, Eadd_opp, Eadd_0_r. reflexivity. }
  rewrite !A, Eadd_0_r. reflexivity.
Qed.

(** ** Even points are those for which 1 - y^2 is a square *)
Lemma curve_fact P : (F1 - ey P * ey P) * (F1 + ex P * ex P) = - (Fd + F1) * (ex P * ex P) * (ey P * ey P).
Proof.
  pose proof (E_on P) as H. unfold on_curve in H.
  transitivity (F1 - (ey P * ey P - ex P * ex P) - (ex P * ex P) * (ey P * ey P)); [ring|]. rewrite H. ring.
Qed.

Lemma even_sq P : even P -> is_sq (F1 - ey P * ey P).
Proof.
  intros [R ->]. pose proof (double_y R) as A. pose proof (E_on R) as H. unfold on_curve in H.
  pose proof (complete_m _ _ _ _ (E_on R) (E_on R)) as D.
  destruct mdp1_sq as [c Hc].
  set (y := ey (Eadd R R)) in *. clearbody y.
  set (u := ex R) in *. set (v := ey R) in *.
  assert (D' : F1 - Fd * (u * u) * (v * v) <> F0) by (intros Z; apply D; rewrite <- Z; ring).
  set (M := F1 - Fd * (u * u) * (v * v)) in *.
  assert (EM : M = #2 - v * v + u * u).
  { unfold M. transitivity (#2 - (F1 + Fd * (u * u) * (v * v))); [ring|]. rewrite <- H. ring. }
  exists (#2 * c * u * v / M).
  assert (K : (F1 - y * y) * (M * M) = #4 * (- (Fd + F1)) * (u * u) * (v * v)).
  { transitivity (M * M - (y * M) * (y * M)); [ring|]. rewrite A, EM.
    pose proof (curve_fact R) as C. fold u v in C.
    transitivity (#4 * ((F1 - v * v) * (F1 + u * u))); [ring|]. rewrite C. ring. }
  transitivity ((#4 * (c * c) * (u * u) * (v * v)) / (M * M)); [field; assumption|].
  rewrite Hc, <- K. field; assumption.
Qed.

Lemma E4_even P : ex P = F0 \/ ey P = F0 -> even P.
Proof.
  intros H. apply E4_iff in H.
  destruct (EG_generates P) as (k & _ & ->). rewrite <- Emul_mul in H. apply EG_mul_0 in H.
  apply even_index. destruct H as [c H]. apply Z.even_spec. exists (c * l)%Z. lia.
Qed.

Lemma ET8_odd : ~ even ET8.
Proof.
  intros [R H]. pose proof (E_exponent R) as X.
  assert (Y : Emul (4 * l) ET8 = E0).
  { rewrite H, <- Emul_2, <- Emul_mul. replace (4 * l * 2)%Z with (8 * l)%Z by ring. exact X. }
  apply ET8_mul_0 in Y. destruct Y as [c Y].
  assert (Z.odd l = true) by (vm_compute; reflexivity).
  assert (l = 2 * c)%Z by lia. rewrite H1, Z.odd_mul in H0. discriminate.
Qed.

(** index arithmetic: odd = T8 + even *)
Lemma odd_minus_T8 P : ~ even P -> even (Esub P ET8).
Proof.
  pose proof ET8_odd as O. intros HP.
  destruct (EG_generates P) as (k & _ & ->). destruct (EG_generates ET8) as (j & _ & Ej). rewrite Ej in *.
  rewrite even_index in *. rewrite <- Emul_sub, even_index.
  rewrite Z.even_sub. destruct (Z.even k), (Z.even j); tauto || reflexivity.
Qed.

(** dual addition law *)
Lemma dual_x_cert x1 y1 x2 y2 d :
  let e1 := d * x1 * x1 * y1 * y1 - (y1 * y1 - x1 * x1 - F1) in
  let e2 := d * x2 * x2 * y2 * y2 - (y2 * y2 - x2 * x2 - F1) in
  (x1 * y2 + x2 * y1) * (y1 * y2 - x1 * x2) - (x1 * y1 + x2 * y2) * (F1 + d * x1 * x2 * y1 * y2)
   = - (x2 * y2) * e1 - (x1 * y1) * e2.
Proof. cbv zeta. ring. Qed.

Lemma dual_x P Q :
  ex (Eadd P Q) * (ey P * ey Q - ex P * ex Q) = ex P * ey P + ex Q * ey Q.
Proof.
  pose proof (complete_p _ _ _ _ (E_on P) (E_on Q)) as D.
  pose proof (dual_x_cert (ex P) (ey P) (ex Q) (ey Q) Fd) as C. cbv zeta in C.
  rewrite (curve_e _ _ (E_on P)), (curve_e _ _ (E_on Q)) in C.
  cbn [Eadd ex mkE']. unfold addx.
  set (K := F1 + Fd * ex P * ex Q * ey P * ey Q) in *.
  transitivity (((ex P * ey Q + ex Q * ey P) * (ey P * ey Q - ex P * ex Q)) / K); [field; exact D|].
  replace ((ex P * ey Q + ex Q * ey P) * (ey P * ey Q - ex P * ex Q)) with ((ex P * ey P + ex Q * ey Q) * K).
  - field; exact D.
  - symmetry. apply Fsub_0. rewrite C. ring.
Qed.

Lemma y_sq_x P : ey P * ey P * (F1 - Fd * (ex P * ex P)) = F1 + ex P * ex P.
Proof.
  pose proof (E_on P) as H. unfold on_curve in H.
  transitivity (ey P * ey P - ex P * ex P - Fd * (ex P * ex P) * (ey P * ey P) + ex P * ex P); [ring|].
  rewrite H. ring.
Qed.

Lemma descent P Q : exists S,
  (F1 + ex (Eadd P Q) * ex (Eadd P Q)) * ((ey P * ey Q - ex P * ex Q) * (ey P * ey Q - ex P * ex Q))
   * ((F1 - Fd * (ex P * ex P)) * (F1 - Fd * (ex Q * ex Q))) = S * S.
Proof.
  pose proof (dual_x P Q) as D. pose proof (y_sq_x P) as HP. pose proof (y_sq_x Q) as HQ.
  set (x := ex (Eadd P Q)) in *. clearbody x.
  set (x1 := ex P) in *. set (y1 := ey P) in *. set (x2 := ex Q) in *. set (y2 := ey Q) in *.
  clearbody x1 y1 x2 y2.
  exists (F1 + x1 * x1 + x2 * x2 - Fd * (x1 * x1) * (x2 * x2)).
  set (W := y1 * y2 - x1 * x2) in *.
  transitivity ((W * W + (x * W) * (x * W)) * ((F1 - Fd * (x1 * x1)) * (F1 - Fd * (x2 * x2)))); [ring|].
  rewrite D. unfold W.
  transitivity ((y1 * y1 * (F1 - Fd * (x1 * x1)) + x2 * x2 * (F1 - Fd * (x1 * x1)))
              * (y2 * y2 * (F1 - Fd * (x2 * x2)) + x1 * x1 * (F1 - Fd * (x2 * x2)))); [ring|].
  rewrite HP, HQ. ring.
Qed.

Lemma one_m_dx2_nz x : F1 - Fd * (x * x) <> F0.
Proof.
  intros H. apply Fd_nsq. destruct (F_dec x F0) as [->|Hx].
  - exfalso. apply F1_neq_0. rewrite <- H. ring.
  - exists (F1 / x). transitivity ((F1 - Fd * (x * x) + Fd * (x * x)) / (x * x)); [field; exact Hx|].
    rewrite H. field; exact Hx.
Qed.

Lemma ET8_desc : ~ is_sq (F1 - Fd * (ex ET8 * ex ET8)).
Proof.
  apply (nsq_by_root _ (of_Z 32355426425654318728073056535674083271839809113093589161945845095531852122494)).
  - apply one_m_dx2_nz.
  - apply F_eq. vm_compute. reflexivity.
Qed.

Lemma dp1_sq : is_sq (F1 + Fd).
Proof. apply is_sq_opp. replace (- (F1 + Fd)) with (- (Fd + F1)) by ring. apply mdp1_sq. Qed.

(** 1 - y^2, 1 + x^2 and 1 - d x^2 are in the same square class (generic points) *)
Lemma same_class P : ex P <> F0 -> ey P <> F0 ->
  (is_sq (F1 - ey P * ey P) <-> is_sq (F1 + ex P * ex P)) /\
  (is_sq (F1 + ex P * ex P) <-> is_sq (F1 - Fd * (ex P * ex P))).
Proof.
  intros Hx Hy. pose proof (curve_fact P) as C. pose proof (y_sq_x P) as Y.
  assert (S : is_sq ((F1 - ey P * ey P) * (F1 + ex P * ex P))).
  { rewrite C. destruct mdp1_sq as [c <-]. exists (c * ex P * ey P). ring. }
  assert (NZ : (F1 - ey P * ey P) * (F1 + ex P * ex P) <> F0).
  { rewrite C. repeat apply Fmul_nz; auto. intros H. apply dp1_nz. apply Fopp_0_iff. exact H. }
  assert (N1 : F1 - ey P * ey P <> F0) by (intros Z; apply NZ; rewrite Z; ring).
  assert (N2 : F1 + ex P * ex P <> F0) by (intros Z; apply NZ; rewrite Z; ring).
  split; split; intros H.
  - apply (is_sq_cancel _ _ N1 H S).
  - apply (is_sq_cancel _ _ N2 H). replace ((F1 + ex P * ex P) * (F1 - ey P * ey P)) with ((F1 - ey P * ey P) * (F1 + ex P * ex P)) by ring. exact S.
  - apply (is_sq_cancel (ey P * ey P)); [apply Fmul_nz; auto|eexists; reflexivity|]. rewrite Y. exact H.
  - rewrite <- Y. apply is_sq_mul; [eexists; reflexivity|exact H].
Qed.

Theorem even_iff P : even P <-> is_sq (F1 - ey P * ey P).
Proof.
  split; [apply even_sq|]. intros H.
  destruct (F_dec (ex P) F0) as [X|X]; [apply E4_even; auto|].
  destruct (F_dec (ey P) F0) as [Y|Y]; [apply E4_even; auto|].
  assert (DEC : even P \/ ~ even P).
  { destruct (EG_generates P) as (k & _ & ->). rewrite even_index. destruct (Z.even k); auto. }
  destruct DEC as [D|D]; [exact D|exfalso].
  pose proof (odd_minus_T8 P D) as HQ. set (Q := Esub P ET8) in *.
  assert (EP : P = Eadd ET8 Q).
  { unfold Q, Esub. rewrite Eadd_comm, <- Eadd_assoc, (Eadd_comm (Eopp ET8)), Eadd_opp, Eadd_0_r. reflexivity. }
  destruct (descent ET8 Q) as [S HS]. rewrite <- EP in HS.
  destruct (same_class P X Y) as [C1 C2].
  (* W <> 0 *)
  assert (W : ey ET8 * ey Q - ex ET8 * ex Q <> F0).
  { intros Z. apply ET8_odd. assert (R : Req ET8 Q).
    { apply Req_coords. right. symmetry. apply Fsub_0. exact Z. }
    apply Req_coset in R. destruct HQ as [q HQ].
    assert (forall T, Emul 4 T = E0 -> even (Eadd Q T)).
    { intros T HT. apply even_add; [exists q; exact HQ|]. apply E4_even, E4_iff, HT. }
    destruct R as [->|[->|[->| ->]]].
    - exists q; exact HQ.
    - apply H0, E4_list; auto.
    - apply H0, E4_list; auto.
    - apply H0, E4_list; auto. }
  (* 1 - d xQ^2 is a square *)
  assert (SQ : is_sq (F1 - Fd * (ex Q * ex Q))).
  { destruct (F_dec (ex Q) F0) as [Z|Z].
    - exists F1. rewrite Z. ring.
    - destruct (F_dec (ey Q) F0) as [Z'|Z'].
      + assert (Sx : ex Q * ex Q = - F1).
        { destruct (y_0_cases Q Z') as [-> | ->]; cbn [T4 T4' ex mkE']; [apply Fi_sq|].
          transitivity (Fi * Fi); [ring|apply Fi_sq]. }
        rewrite Sx. replace (F1 - Fd * - F1) with (F1 + Fd) by ring. apply dp1_sq.
      + destruct (same_class Q Z Z') as [S1 S2]. apply S2, S1, even_sq, HQ. }
  apply ET8_desc.
  apply (is_sq_cancel (F1 - Fd * (ex Q * ex Q))); [apply one_m_dx2_nz|exact SQ|].
  apply (is_sq_cancel ((F1 + ex P * ex P) * ((ey ET8 * ey Q - ex ET8 * ex Q) * (ey ET8 * ey Q - ex ET8 * ex Q)))).
  - apply Fmul_nz; [|apply Fmul_nz; exact W]. intros Z.
    pose proof (curve_fact P) as C. rewrite Z in C.
    assert (N : - (Fd + F1) * (ex P * ex P) * (ey P * ey P) <> F0).
    { repeat apply Fmul_nz; auto. intros H0. apply dp1_nz. apply Fopp_0_iff. exact H0. }
    apply N. rewrite <- C. ring.
  - apply is_sq_mul; [apply C1; exact H|eexists; reflexivity].
  - exists S. rewrite <- HS. ring.
Qed.

(** ** The canonical encoding *)

(** [s] encodes the representative [P]. *)
Definition canonical_rep (s : F) (P : E) : Prop :=
  Fneg s = false /\ ey P * (F1 + s * s) = F1 - s * s /\
  Fneg (ex P) = false /\ Fneg (ex P * ey P) = false /\ ey P <> F0.

(** [s] is the encoding of the class of [Q]. *)
Definition encodes (s : F) (Q : E) : Prop := exists P, Req P Q /\ canonical_rep s P.

Lemma s_denom P s : ey P * (F1 + s * s) = F1 - s * s -> F1 + s * s <> F0.
Proof.
  intros H Z. rewrite Z in H. apply F2_nz.
  transitivity ((F1 - s * s) + (F1 + s * s)); [ring|]. rewrite <- H, Z. ring.
Qed.

Lemma s_y P s : ey P * (F1 + s * s) = F1 - s * s -> ey P + F1 <> F0 /\ s * s * (ey P + F1) = F1 - ey P.
Proof.
  intros H. split.
  - intros Z. apply F2_nz. transitivity ((F1 - s * s) + (F1 + s * s)); [ring|]. rewrite <- H.
    transitivity ((ey P + F1) * (F1 + s * s)); [ring|]. rewrite Z. ring.
  - apply Fsub_0. transitivity (ey P * (F1 + s * s) - (F1 - s * s)); [ring|]. rewrite H. ring.
Qed.

Lemma canonical_rep_s_unique s s' P : canonical_rep s P -> canonical_rep s' P -> s = s'.
Proof.
  intros (A & B & _) (A' & B' & _). apply Fnonneg_sq_unique; auto.
  destruct (s_y P s B) as [N S]. destruct (s_y P s' B') as [_ S'].
  apply (Fmul_cancel_l (ey P + F1) _ _ N). transitivity (s * s * (ey P + F1)); [ring|]. rewrite S, <- S'. ring.
Qed.

Lemma canonical_rep_P_unique s P P' : canonical_rep s P -> canonical_rep s P' -> P = P'.
Proof.
  intros (_ & B & C & _) (_ & B' & C' & _).
  assert (Hy : ey P = ey P').
  { apply (Fmul_cancel_l (F1 + s * s)); [apply (s_denom P s B)|].
    transitivity (ey P * (F1 + s * s)); [ring|]. rewrite B, <- B'. ring. }
  apply eindex_inj. unfold eindex. rewrite Hy, C, C'. reflexivity.
Qed.

Lemma canonical_rep_coset_unique P P' : Req P P' ->
  Fneg (ex P) = false -> Fneg (ex P * ey P) = false -> ey P <> F0 -> ey P + F1 <> F0 ->
  Fneg (ex P') = false -> Fneg (ex P' * ey P') = false -> ey P' <> F0 -> ey P' + F1 <> F0 -> P = P'.
Proof.
  intros R A B C D A' B' C' D'. apply Req_coset in R.
  assert (X0 : ex P' = F0 -> P' = E0).
  { intros X. destruct (x_0_cases P' X) as [|E1]; auto. exfalso. apply D'. rewrite E1. cbn. ring. }
  destruct (F_dec (ex P') F0) as [X|X].
  - apply X0 in X. subst P'. destruct R as [R|[R|[R|R]]]; [exact R| | |]; rewrite Eadd_0_l in R; exfalso.
    + apply D. rewrite R. cbn. ring.
    + apply C. rewrite R. reflexivity.
    + apply C. rewrite R. reflexivity.
  - destruct R as [R|[R|[R|R]]]; [exact R| | |]; exfalso.
    + destruct (add_T2 P') as [E1 E2]. rewrite <- R in E1, E2. rewrite E1, Fneg_opp, A' in A by assumption. discriminate.
    + destruct (add_T4 P') as [E1 E2]. rewrite <- R in E1, E2. rewrite E1, E2 in B.
      replace (Fi * ey P' * (Fi * ex P')) with (- (ex P' * ey P')) in B.
      * rewrite Fneg_opp, B' in B by (apply Fmul_nz; assumption). discriminate.
      * transitivity ((Fi * Fi) * (ex P' * ey P')); [rewrite Fi_sq; ring|ring].
    + destruct (add_T4' P') as [E1 E2]. rewrite <- R in E1, E2. rewrite E1, E2 in B.
      replace (- (Fi * ey P') * - (Fi * ex P')) with (- (ex P' * ey P')) in B.
      * rewrite Fneg_opp, B' in B by (apply Fmul_nz; assumption). discriminate.
      * transitivity ((Fi * Fi) * (ex P' * ey P')); [rewrite Fi_sq; ring|ring].
Qed.

Theorem encodes_unique s s' Q Q' : encodes s Q -> encodes s' Q' -> Req Q Q' -> s = s'.
Proof.
  intros (P & RP & HP) (P' & RP' & HP') R.
  assert (P = P').
  { destruct HP as (_ & B & C & D & F). destruct HP' as (_ & B' & C' & D' & F').
    destruct (s_y P s B) as [G _]. destruct (s_y P' s' B') as [G' _].
    apply canonical_rep_coset_unique; auto.
    apply (Req_trans _ Q); [exact RP|]. apply (Req_trans _ Q'); [exact R|apply Req_sym, RP']. }
  subst P'. eapply canonical_rep_s_unique; eassumption.
Qed.

Theorem encodes_inj s Q Q' : encodes s Q -> encodes s Q' -> Req Q Q'.
Proof.
  intros (P & RP & HP) (P' & RP' & HP').
  rewrite <- (canonical_rep_P_unique s P P' HP HP') in RP'.
  apply (Req_trans _ P); [apply Req_sym, RP|exact RP'].
Qed.

Theorem encodes_compat s Q Q' : encodes s Q -> Req Q Q' -> encodes s Q'.
Proof. intros (P & RP & HP) R. exists P. split; [apply (Req_trans _ Q); assumption|exact HP]. Qed.

Lemma even_Req P Q : even Q -> Req P Q -> even P.
Proof.
  intros H R. apply Req_coset in R.
  assert (K : forall T, Emul 4 T = E0 -> even (Eadd Q T)).
  { intros T HT. apply even_add; [exact H|]. apply E4_even, E4_iff, HT. }
  destruct R as [->|[->|[->| ->]]]; [exact H| | |]; apply K, E4_list; auto.
Qed.

Theorem encodes_even s Q : encodes s Q -> even Q.
Proof.
  intros (P & RP & (_ & B & _)). apply (even_Req Q P); [|apply Req_sym, RP].
  apply even_iff. destruct (s_y P s B) as [N S].
  exists (s * (ey P + F1)). transitivity ((s * s * (ey P + F1)) * (ey P + F1)); [ring|]. rewrite S. ring.
Qed.

Theorem encodes_exists Q : even Q -> exists s, encodes s Q.
Proof.
  intros HQ.
  (* a representative with the right signs *)
  assert (X : exists P, Req P Q /\ Fneg (ex P) = false /\ Fneg (ex P * ey P) = false /\ ey P <> F0 /\ ey P + F1 <> F0).
  { assert (Deg : ex Q = F0 \/ ey Q = F0 -> Req E0 Q).
    { intros H. apply E4_iff in H. apply Req_4. rewrite H. apply Emul_E0. }
    destruct (F_dec (ex Q) F0) as [X|X]; [exists E0|destruct (F_dec (ey Q) F0) as [Y|Y]; [exists E0|]].
    1,2: split; [apply Deg; auto|]; cbn [ex ey E0 mkE']; refine (conj _ (conj _ (conj _ _)));
      [vm_compute; reflexivity|vm_compute; reflexivity|exact F1_neq_0|
       intros Z; apply F2_nz; rewrite <- Z; ring].
    (* first make xy nonneg, then x nonneg *)
    assert (G : forall P, Req P Q -> ex P <> F0 -> ey P <> F0 -> Fneg (ex P * ey P) = false ->
       exists P, Req P Q /\ Fneg (ex P) = false /\ Fneg (ex P * ey P) = false /\ ey P <> F0 /\ ey P + F1 <> F0).
    { intros P R HX HY HS.
      assert (H1 : forall P, ex P <> F0 -> ey P + F1 <> F0).
      { intros P' Hx Z. apply Hx. assert (Hs : ey P' = - F1) by (apply Fsub_0; rewrite <- Z; ring).
        pose proof (curve_x_sq P') as C. rewrite Hs in C.
        assert (E0' : ex P' * ex P' = F0). { rewrite C. unfold Fdiv. replace (- F1 * - F1 - F1) with F0 by ring. ring. }
        apply Fmul_0 in E0'. destruct E0'; assumption. }
      destruct (Fneg (ex P)) eqn:N.
      - exists (Eadd P T2). destruct (add_T2 P) as [E1 E2]. rewrite E1, E2. repeat split.
        + apply (Req_trans _ P); [|exact R]. apply Req_coset. auto.
        + rewrite Fneg_opp, N by exact HX. reflexivity.
        + replace (- ex P * - ey P) with (ex P * ey P) by ring. exact HS.
        + intros Z. apply HY, Fopp_0_iff, Z.
        + rewrite <- E2. apply H1. rewrite E1. intros Z. apply HX, Fopp_0_iff, Z.
      - exists P. repeat split; auto. }
    destruct (Fneg (ex Q * ey Q)) eqn:N.
    - destruct (add_T4 Q) as [E1 E2]. apply (G (Eadd Q T4)).
      + apply Req_coset. auto.
      + rewrite E1. apply Fmul_nz; [apply Fi_nz|exact Y].
      + rewrite E2. apply Fmul_nz; [apply Fi_nz|exact X].
      + rewrite E1, E2. replace (Fi * ey Q * (Fi * ex Q)) with (- (ex Q * ey Q)).
        * rewrite Fneg_opp, N by (apply Fmul_nz; assumption). reflexivity.
        * transitivity ((Fi * Fi) * (ex Q * ey Q)); [rewrite Fi_sq; ring|ring].
    - apply (G Q); auto. apply Req_refl. }
  destruct X as (P & R & A & B & C & D).
  assert (EP : even P) by (apply (even_Req P Q HQ R)). apply even_iff in EP. destruct EP as [w Hw].
  assert (D' : ey P + F1 <> F0) by exact D.
  exists (Fabs (w / (ey P + F1))), P. split; [exact R|]. unfold canonical_rep. rewrite Fabs_nonneg. repeat split; auto.
  rewrite Fabs_sq.
  assert (S : w / (ey P + F1) * (w / (ey P + F1)) = (F1 - ey P) / (ey P + F1)).
  { transitivity ((w * w) / ((ey P + F1) * (ey P + F1))); [field; exact D|]. rewrite Hw. field; exact D. }
  rewrite S. field. exact D.
Qed.
