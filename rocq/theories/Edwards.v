(** The twisted Edwards curve  -x^2 + y^2 = 1 + d x^2 y^2  over GF(p) and its group
    law (specification; independent of the code). *)
From Coq Require Import ZArith Lia Bool Eqdep_dec Field.
From Verif Require Import NumTheory Primes Fp AbGroup.
Local Open Scope Z_scope.

(** d = -121665/121666 (edwards25519/field_radix51.go, feD) *)
Definition Fd : F := of_Z 37095705934669439343138083508754565189542113879843219016388785533085940283555.

Lemma Fd_def : (Fd * #121666 = - #121665)%F.
Proof. apply F_eq. vm_compute. reflexivity. Qed.

Lemma Fd_nsq : ~ is_sq Fd.
Proof.
  apply (nsq_by_root _ (of_Z 55317625704484474054323040104211100889138369048739196775942058122275509756997)).
  - intros H. apply (f_equal fval) in H. vm_compute in H. discriminate.
  - apply F_eq. vm_compute. reflexivity.
Qed.

Lemma Fd_nz : Fd <> F0.
Proof. apply nsq_nz, Fd_nsq. Qed.

Local Open Scope F_scope.

Definition on_curve (x y : F) : Prop := y * y - x * x = F1 + Fd * (x * x) * (y * y).
Definition on_curveb (x y : F) : bool := Feqb (y * y - x * x) (F1 + Fd * (x * x) * (y * y)).

Lemma on_curveb_ok x y : on_curveb x y = true <-> on_curve x y.
Proof. apply Feqb_eq. Qed.

(** ** Completeness: the denominators of the addition law never vanish. *)
Lemma complete_aux e x1 y1 x2 y2 :
  on_curve x1 y1 -> on_curve x2 y2 -> e * e = F1 -> Fd * x1 * x2 * y1 * y2 = e -> False.
Proof.
  unfold on_curve. intros H1 H2 He Hk.
  assert (Hnz : e <> F0). { intros ->. apply F1_neq_0. rewrite <- He. ring. }
  assert (Hx1 : x1 <> F0). { intros ->. apply Hnz. rewrite <- Hk. ring. }
  assert (Hy1 : y1 <> F0). { intros ->. apply Hnz. rewrite <- Hk. ring. }
  assert (Hx2 : x2 <> F0). { intros ->. apply Hnz. rewrite <- Hk. ring. }
  assert (Hxy : x1 * y1 <> F0) by (apply Fmul_nz; assumption).
  assert (K : Fd * (x1 * x1) * (y1 * y1) * (y2 * y2 - x2 * x2) = y1 * y1 - x1 * x1).
  { rewrite H2, H1.
    transitivity (Fd * (x1 * x1) * (y1 * y1) + (Fd * x1 * x2 * y1 * y2) * (Fd * x1 * x2 * y1 * y2)); [ring|].
    rewrite Hk, He. ring. }
  assert (A : (y1 + e * Fi * x1) * (y1 + e * Fi * x1)
              = Fd * ((x1 * y1) * (y2 + Fi * x2)) * ((x1 * y1) * (y2 + Fi * x2))).
  { transitivity ((y1 * y1 + (e * e) * (Fi * Fi) * (x1 * x1)) + #2 * Fi * x1 * y1 * e); [ring|].
    transitivity ((Fd * (x1 * x1) * (y1 * y1) * (y2 * y2 + (Fi * Fi) * (x2 * x2))) + #2 * Fi * x1 * y1 * (Fd * x1 * x2 * y1 * y2)); [|ring].
    rewrite He, Hk, Fi_sq.
    transitivity ((y1 * y1 - x1 * x1) + #2 * Fi * x1 * y1 * e); [ring|]. rewrite <- K. ring. }
  assert (B : (y1 - e * Fi * x1) * (y1 - e * Fi * x1)
              = Fd * ((x1 * y1) * (y2 - Fi * x2)) * ((x1 * y1) * (y2 - Fi * x2))).
  { transitivity ((y1 * y1 + (e * e) * (Fi * Fi) * (x1 * x1)) - #2 * Fi * x1 * y1 * e); [ring|].
    transitivity ((Fd * (x1 * x1) * (y1 * y1) * (y2 * y2 + (Fi * Fi) * (x2 * x2))) - #2 * Fi * x1 * y1 * (Fd * x1 * x2 * y1 * y2)); [|ring].
    rewrite He, Hk, Fi_sq.
    transitivity ((y1 * y1 - x1 * x1) - #2 * Fi * x1 * y1 * e); [ring|]. rewrite <- K. ring. }
  assert (Q : forall u v, v <> F0 -> u * u = Fd * v * v -> False).
  { intros u v Hv E. apply Fd_nsq. exists (u / v).
    transitivity (u * u / (v * v)); [field; assumption|]. rewrite E. field; assumption. }
  destruct (F_dec (y2 + Fi * x2) F0) as [Z1|Z1].
  - destruct (F_dec (y2 - Fi * x2) F0) as [Z2|Z2].
    + apply Hx2. assert (E : #2 * Fi * x2 = F0).
      { transitivity ((y2 + Fi * x2) - (y2 - Fi * x2)); [ring|]. rewrite Z1, Z2. ring. }
      apply Fmul_0 in E. destruct E as [E|E]; [|exact E].
      apply Fmul_0 in E. destruct E as [E|E]; [destruct (F2_nz E)|destruct (Fi_nz E)].
    + apply (Q _ _ (Fmul_nz _ _ Hxy Z2) B).
  - apply (Q _ _ (Fmul_nz _ _ Hxy Z1) A).
Qed.

Lemma complete_p x1 y1 x2 y2 : on_curve x1 y1 -> on_curve x2 y2 -> F1 + Fd * x1 * x2 * y1 * y2 <> F0.
Proof.
  intros H1 H2 E. apply (complete_aux (- F1) x1 y1 x2 y2 H1 H2); [ring|].
  transitivity ((F1 + Fd * x1 * x2 * y1 * y2) - F1); [ring|]. rewrite E. ring.
Qed.

Lemma complete_m x1 y1 x2 y2 : on_curve x1 y1 -> on_curve x2 y2 -> F1 - Fd * x1 * x2 * y1 * y2 <> F0.
Proof.
  intros H1 H2 E. apply (complete_aux F1 x1 y1 x2 y2 H1 H2); [ring|].
  transitivity (F1 - (F1 - Fd * x1 * x2 * y1 * y2)); [ring|]. rewrite E. ring.
Qed.

(** ** The group law *)
Definition addx (x1 y1 x2 y2 : F) : F := (x1 * y2 + x2 * y1) / (F1 + Fd * x1 * x2 * y1 * y2).
Definition addy (x1 y1 x2 y2 : F) : F := (y1 * y2 + x1 * x2) / (F1 - Fd * x1 * x2 * y1 * y2).

Lemma on_curve_add_cert x1 y1 x2 y2 d :
  let k := d * x1 * x2 * y1 * y2 in
  let e1 := d * x1 * x1 * y1 * y1 - (y1 * y1 - x1 * x1 - F1) in
  let e2 := d * x2 * x2 * y2 * y2 - (y2 * y2 - x2 * x2 - F1) in
  let P := F1 + k in let M := F1 - k in
  let X := x1 * y2 + x2 * y1 in let Y := y1 * y2 + x1 * x2 in
  Y * Y * P * P - X * X * M * M - P * P * M * M - d * X * X * Y * Y
   = (d*y1*y1*x2*x2*y2*y2*y2*y2 + #4*x2*x2*y2*y2 + d*x1*x1*x2*x2*x2*x2*y2*y2 - d*x1*x1*x2*x2*y2*y2*y2*y2 - d*y1*y1*x2*x2*x2*x2*y2*y2 + #2*d*x2*x2*y2*y2 - d*d*d*x1*x1*y1*y1*x2*x2*x2*x2*y2*y2*y2*y2 - y2*y2*y2*y2 - x2*x2*x2*x2 - #2*x2*x2*y2*y2*y2*y2 + #2*x2*x2*x2*x2*y2*y2 - d*d*y1*y1*x2*x2*x2*x2*y2*y2*y2*y2 + d*d*x1*x1*x2*x2*x2*x2*y2*y2*y2*y2 + d*d*x2*x2*x2*x2*y2*y2*y2*y2 + #2*d*x2*x2*x2*x2*y2*y2*y2*y2) * e1 + (y1*y1*y2*y2 + x1*x1*x2*x2 - x1*x1*y2*y2 - y1*y1*x2*x2 - F1 - d*y1*y1*y1*y1*x2*x2*y2*y2 + #2*d*y1*y1*x2*x2*y2*y2 - d*x1*x1*x1*x1*x2*x2*y2*y2 - #2*d*x1*x1*x2*x2*y2*y2 - d*x2*x2*y2*y2 + #2*y1*y1*x2*x2*y2*y2 - #2*x1*x1*x2*x2*y2*y2 - #2*x2*x2*y2*y2 - y2*y2 + x2*x2) * e2.
Proof. cbv zeta. ring. Qed.

Lemma assoc_x_cert x1 y1 x2 y2 x3 y3 d :
  let e1 := d * x1 * x1 * y1 * y1 - (y1 * y1 - x1 * x1 - F1) in
  let e2 := d * x2 * x2 * y2 * y2 - (y2 * y2 - x2 * x2 - F1) in
  let e3 := d * x3 * x3 * y3 * y3 - (y3 * y3 - x3 * x3 - F1) in
  let n1 := x1 * y2 + x2 * y1 in let m1 := y1 * y2 + x1 * x2 in
  let dA := F1 + d * x1 * x2 * y1 * y2 in let dB := F1 - d * x1 * x2 * y1 * y2 in
  let n2 := x2 * y3 + x3 * y2 in let m2 := y2 * y3 + x2 * x3 in
  let dC := F1 + d * x2 * x3 * y2 * y3 in let dD := F1 - d * x2 * x3 * y2 * y3 in
  (n1 * dB * y3 + x3 * m1 * dA) * (dC * dD + d * n2 * m2 * x1 * y1) - (x1 * m2 * dC + n2 * dD * y1) * (dA * dB + d * n1 * m1 * x3 * y3)
  = (- x1*y2*y2*y2*y3*y3*y3 + x1*x2*x2*y2*y3*y3*y3 + x1*y2*y3*y3*y3 - y1*x2*y2*y2*y3*y3*y3 + y1*x2*x2*x2*y3*y3*y3 + y1*x2*y3*y3*y3 + y1*y2*y2*y2*x3*x3*x3 - y1*x2*x2*y2*x3*x3*x3 - y1*y2*x3*x3*x3 + x1*x2*y2*y2*x3*x3*x3 - x1*x2*x2*x2*x3*x3*x3 - x1*x2*x3*x3*x3 + x1*y2*y2*y2*y3 - x1*x2*x2*y2*y3 - x1*y2*y3 - d*x1*x2*y2*y2*x3*y3*y3 + x1*x2*y2*y2*x3 - x1*x2*x2*x2*x3 - x1*x2*x3 - d*x1*x2*x2*y2*x3*x3*y3 + y1*x2*y2*y2*y3 - y1*x2*x2*x2*y3 - y1*x2*y3 + d*y1*x2*x2*y2*x3*y3*y3 + y1*y2*y2*y2*x3 - y1*x2*x2*y2*x3 - y1*y2*x3 + d*y1*x2*y2*y2*x3*x3*y3 - x1*x2*y2*y2*x3*y3*y3 + x1*x2*x2*x2*x3*y3*y3 + x1*x2*x3*y3*y3 + x1*y2*y2*y2*x3*x3*y3 - x1*x2*x2*y2*x3*x3*y3 - x1*y2*x3*x3*y3 - y1*y2*y2*y2*x3*y3*y3 + y1*x2*x2*y2*x3*y3*y3 + y1*y2*x3*y3*y3 + y1*x2*y2*y2*x3*x3*y3 - y1*x2*x2*x2*x3*x3*y3 - y1*x2*x3*x3*y3) * e1
  + (- d*x1*y2*x3*x3*y3*y3*y3 + d*d*x1*x1*y1*x2*y2*y2*x3*x3*y3*y3*y3 - d*x1*x1*x1*y1*y1*y2*y3*y3*y3 - d*y1*x2*x3*x3*y3*y3*y3 + d*d*x1*y1*y1*x2*x2*y2*x3*x3*y3*y3*y3 - d*x1*x1*y1*y1*y1*x2*y3*y3*y3 - d*y1*y2*x3*x3*x3*y3*y3 - d*d*x1*y1*y1*x2*y2*y2*x3*x3*x3*y3*y3 + d*x1*x1*y1*y1*y1*y2*x3*x3*x3 - d*x1*x2*x3*x3*x3*y3*y3 - d*d*x1*x1*y1*x2*x2*y2*x3*x3*x3*y3*y3 + d*x1*x1*x1*y1*y1*x2*x3*x3*x3 + d*x1*x1*x1*y1*y1*y2*y3 + d*d*x1*x1*x1*y1*y1*x2*y2*y2*x3*y3*y3 - d*x1*x1*x1*y2*x3*x3*y3*y3*y3 + d*x1*x1*x1*y1*y1*x2*x3 + d*d*x1*x1*x1*y1*y1*x2*x2*y2*x3*x3*y3 - d*x1*x1*x1*x2*x3*x3*x3*y3*y3 + d*x1*x1*y1*y1*y1*x2*y3 - d*d*x1*x1*y1*y1*y1*x2*x2*y2*x3*y3*y3 + d*y1*y1*y1*x2*x3*x3*y3*y3*y3 + d*x1*x1*y1*y1*y1*y2*x3 - d*d*x1*x1*y1*y1*y1*x2*y2*y2*x3*x3*y3 + d*y1*y1*y1*y2*x3*x3*x3*y3*y3 - d*x1*x1*y1*x2*x3*x3*y3*y3*y3 + d*x1*y1*y1*y2*x3*x3*y3*y3*y3 + d*x1*y1*y1*x2*x3*x3*x3*y3*y3 - d*x1*x1*y1*y2*x3*x3*x3*y3*y3 - d*x1*x1*x1*y1*y1*x2*x3*y3*y3 + d*x1*x1*x1*y1*y1*y2*x3*x3*y3 - d*x1*x1*y1*y1*y1*y2*x3*y3*y3 + d*x1*x1*y1*y1*y1*x2*x3*x3*y3) * e2
  + (- x1*y2*y2*y2*y3 + x1*x2*x2*y2*y3 + x1*y2*y3 - d*x1*x1*y1*x2*y2*y2*y3 - y1*x2*y2*y2*y3 + y1*x2*x2*x2*y3 + y1*x2*y3 - d*x1*y1*y1*x2*x2*y2*y3 - y1*y2*y2*y2*x3 + y1*x2*x2*y2*x3 + y1*y2*x3 + d*x1*y1*y1*x2*y2*y2*x3 - x1*x2*y2*y2*x3 + x1*x2*x2*x2*x3 + x1*x2*x3 + d*x1*x1*y1*x2*x2*y2*x3 - x1*x1*x1*y2*y2*y2*y3 + x1*x1*x1*x2*x2*y2*y3 + x1*x1*x1*y2*y3 - x1*x1*x1*x2*y2*y2*x3 + x1*x1*x1*x2*x2*x2*x3 + x1*x1*x1*x2*x3 + y1*y1*y1*x2*y2*y2*y3 - y1*y1*y1*x2*x2*x2*y3 - y1*y1*y1*x2*y3 + y1*y1*y1*y2*y2*y2*x3 - y1*y1*y1*x2*x2*y2*x3 - y1*y1*y1*y2*x3 - x1*x1*y1*x2*y2*y2*y3 + x1*x1*y1*x2*x2*x2*y3 + x1*x1*y1*x2*y3 + x1*y1*y1*y2*y2*y2*y3 - x1*y1*y1*x2*x2*y2*y3 - x1*y1*y1*y2*y3 + x1*y1*y1*x2*y2*y2*x3 - x1*y1*y1*x2*x2*x2*x3 - x1*y1*y1*x2*x3 - x1*x1*y1*y2*y2*y2*x3 + x1*x1*y1*x2*x2*y2*x3 + x1*x1*y1*y2*x3) * e3.
Proof. cbv zeta. ring. Qed.

Lemma assoc_y_cert x1 y1 x2 y2 x3 y3 d :
  let e1 := d * x1 * x1 * y1 * y1 - (y1 * y1 - x1 * x1 - F1) in
  let e2 := d * x2 * x2 * y2 * y2 - (y2 * y2 - x2 * x2 - F1) in
  let e3 := d * x3 * x3 * y3 * y3 - (y3 * y3 - x3 * x3 - F1) in
  let n1 := x1 * y2 + x2 * y1 in let m1 := y1 * y2 + x1 * x2 in
  let dA := F1 + d * x1 * x2 * y1 * y2 in let dB := F1 - d * x1 * x2 * y1 * y2 in
  let n2 := x2 * y3 + x3 * y2 in let m2 := y2 * y3 + x2 * x3 in
  let dC := F1 + d * x2 * x3 * y2 * y3 in let dD := F1 - d * x2 * x3 * y2 * y3 in
  (m1 * dA * y3 + n1 * dB * x3) * (dC * dD - d * n2 * m2 * x1 * y1) - (y1 * m2 * dC + x1 * n2 * dD) * (dA * dB - d * n1 * m1 * x3 * y3)
  = (- y1*y2*y2*y2*y3*y3*y3 + y1*x2*x2*y2*y3*y3*y3 + y1*y2*y3*y3*y3 - x1*x2*y2*y2*y3*y3*y3 + x1*x2*x2*x2*y3*y3*y3 + x1*x2*y3*y3*y3 + x1*y2*y2*y2*x3*x3*x3 - x1*x2*x2*y2*x3*x3*x3 - x1*y2*x3*x3*x3 + y1*x2*y2*y2*x3*x3*x3 - y1*x2*x2*x2*x3*x3*x3 - y1*x2*x3*x3*x3 + y1*y2*y2*y2*y3 - y1*x2*x2*y2*y3 - y1*y2*y3 - d*y1*x2*y2*y2*x3*y3*y3 + y1*x2*y2*y2*x3 - y1*x2*x2*x2*x3 - y1*x2*x3 - d*y1*x2*x2*y2*x3*x3*y3 + x1*x2*y2*y2*y3 - x1*x2*x2*x2*y3 - x1*x2*y3 + d*x1*x2*x2*y2*x3*y3*y3 + x1*y2*y2*y2*x3 - x1*x2*x2*y2*x3 - x1*y2*x3 + d*x1*x2*y2*y2*x3*x3*y3 - y1*x2*y2*y2*x3*y3*y3 + y1*x2*x2*x2*x3*y3*y3 + y1*x2*x3*y3*y3 + y1*y2*y2*y2*x3*x3*y3 - y1*x2*x2*y2*x3*x3*y3 - y1*y2*x3*x3*y3 - x1*y2*y2*y2*x3*y3*y3 + x1*x2*x2*y2*x3*y3*y3 + x1*y2*x3*y3*y3 + x1*x2*y2*y2*x3*x3*y3 - x1*x2*x2*x2*x3*x3*y3 - x1*x2*x3*x3*y3) * e1
  + (- d*y1*y2*x3*x3*y3*y3*y3 - d*d*x1*y1*y1*x2*y2*y2*x3*x3*y3*y3*y3 - d*x1*x1*y1*y1*y1*y2*y3*y3*y3 - d*x1*x2*x3*x3*y3*y3*y3 - d*d*x1*x1*y1*x2*x2*y2*x3*x3*y3*y3*y3 - d*x1*x1*x1*y1*y1*x2*y3*y3*y3 - d*x1*y2*x3*x3*x3*y3*y3 + d*d*x1*x1*y1*x2*y2*y2*x3*x3*x3*y3*y3 + d*x1*x1*x1*y1*y1*y2*x3*x3*x3 - d*y1*x2*x3*x3*x3*y3*y3 + d*d*x1*y1*y1*x2*x2*y2*x3*x3*x3*y3*y3 + d*x1*x1*y1*y1*y1*x2*x3*x3*x3 + d*x1*x1*y1*y1*y1*y2*y3 + d*d*x1*x1*y1*y1*y1*x2*y2*y2*x3*y3*y3 + d*y1*y1*y1*y2*x3*x3*y3*y3*y3 + d*x1*x1*y1*y1*y1*x2*x3 + d*d*x1*x1*y1*y1*y1*x2*x2*y2*x3*x3*y3 + d*y1*y1*y1*x2*x3*x3*x3*y3*y3 + d*x1*x1*x1*y1*y1*x2*y3 - d*d*x1*x1*x1*y1*y1*x2*x2*y2*x3*y3*y3 - d*x1*x1*x1*x2*x3*x3*y3*y3*y3 + d*x1*x1*x1*y1*y1*y2*x3 - d*d*x1*x1*x1*y1*y1*x2*y2*y2*x3*x3*y3 - d*x1*x1*x1*y2*x3*x3*x3*y3*y3 + d*x1*y1*y1*x2*x3*x3*y3*y3*y3 - d*x1*x1*y1*y2*x3*x3*y3*y3*y3 - d*x1*x1*y1*x2*x3*x3*x3*y3*y3 + d*x1*y1*y1*y2*x3*x3*x3*y3*y3 - d*x1*x1*y1*y1*y1*x2*x3*y3*y3 + d*x1*x1*y1*y1*y1*y2*x3*x3*y3 - d*x1*x1*x1*y1*y1*y2*x3*y3*y3 + d*x1*x1*x1*y1*y1*x2*x3*x3*y3) * e2
  + (- y1*y2*y2*y2*y3 + y1*x2*x2*y2*y3 + y1*y2*y3 + d*x1*y1*y1*x2*y2*y2*y3 - x1*x2*y2*y2*y3 + x1*x2*x2*x2*y3 + x1*x2*y3 + d*x1*x1*y1*x2*x2*y2*y3 - x1*y2*y2*y2*x3 + x1*x2*x2*y2*x3 + x1*y2*x3 - d*x1*x1*y1*x2*y2*y2*x3 - y1*x2*y2*y2*x3 + y1*x2*x2*x2*x3 + y1*x2*x3 - d*x1*y1*y1*x2*x2*y2*x3 + y1*y1*y1*y2*y2*y2*y3 - y1*y1*y1*x2*x2*y2*y3 - y1*y1*y1*y2*y3 + y1*y1*y1*x2*y2*y2*x3 - y1*y1*y1*x2*x2*x2*x3 - y1*y1*y1*x2*x3 - x1*x1*x1*x2*y2*y2*y3 + x1*x1*x1*x2*x2*x2*y3 + x1*x1*x1*x2*y3 - x1*x1*x1*y2*y2*y2*x3 + x1*x1*x1*x2*x2*y2*x3 + x1*x1*x1*y2*x3 + x1*y1*y1*x2*y2*y2*y3 - x1*y1*y1*x2*x2*x2*y3 - x1*y1*y1*x2*y3 - x1*x1*y1*y2*y2*y2*y3 + x1*x1*y1*x2*x2*y2*y3 + x1*x1*y1*y2*y3 - x1*x1*y1*x2*y2*y2*x3 + x1*x1*y1*x2*x2*x2*x3 + x1*x1*y1*x2*x3 + x1*y1*y1*y2*y2*y2*x3 - x1*y1*y1*x2*x2*y2*x3 - x1*y1*y1*y2*x3) * e3.
Proof. cbv zeta. ring. Qed.

Lemma curve_e x y : on_curve x y -> Fd * x * x * y * y - (y * y - x * x - F1) = F0.
Proof. intros H. unfold on_curve in H. rewrite H. ring. Qed.

Lemma on_curve_add x1 y1 x2 y2 : on_curve x1 y1 -> on_curve x2 y2 ->
  on_curve (addx x1 y1 x2 y2) (addy x1 y1 x2 y2).
Proof.
  intros H1 H2. pose proof (complete_p _ _ _ _ H1 H2) as Dp. pose proof (complete_m _ _ _ _ H1 H2) as Dm.
  pose proof (on_curve_add_cert x1 y1 x2 y2 Fd) as C. cbv zeta in C.
  rewrite (curve_e _ _ H1), (curve_e _ _ H2) in C.
  unfold on_curve, addx, addy.
  set (P := F1 + Fd * x1 * x2 * y1 * y2) in *. set (M := F1 - Fd * x1 * x2 * y1 * y2) in *.
  set (X := x1 * y2 + x2 * y1) in *. set (Y := y1 * y2 + x1 * x2) in *.
  apply Fsub_0.
  transitivity ((Y * Y * P * P - X * X * M * M - P * P * M * M - Fd * X * X * Y * Y) / (P * P * M * M)).
  - clearbody P M X Y. field; auto.
  - rewrite C. field; auto.
Qed.

Record E := mkE { ex : F; ey : F; eok : on_curveb ex ey = true }.

Lemma E_eq (P Q : E) : ex P = ex Q -> ey P = ey Q -> P = Q.
Proof.
  destruct P as [x y H], Q as [x' y' H']; cbn; intros -> ->.
  f_equal. apply UIP_dec. apply bool_dec.
Qed.

Lemma E_on (P : E) : on_curve (ex P) (ey P).
Proof. apply on_curveb_ok, eok. Qed.

Lemma E_dec (P Q : E) : {P = Q} + {P <> Q}.
Proof.
  destruct (F_dec (ex P) (ex Q)) as [A|A]; [destruct (F_dec (ey P) (ey Q)) as [B|B]|].
  - left. apply E_eq; assumption.
  - right. congruence.
  - right. congruence.
Qed.

Definition mkE' (x y : F) (H : on_curve x y) : E := mkE x y (proj2 (on_curveb_ok x y) H).

Lemma on_curve_0 : on_curve F0 F1.
Proof. unfold on_curve. ring. Qed.
Lemma on_curve_opp x y : on_curve x y -> on_curve (- x) y.
Proof. unfold on_curve. intros H. transitivity (y * y - x * x); [ring|]. rewrite H. ring. Qed.

Definition E0 : E := mkE' F0 F1 on_curve_0.
Definition Eopp (P : E) : E := mkE' (- ex P) (ey P) (on_curve_opp _ _ (E_on P)).
Definition Eadd (P Q : E) : E :=
  mkE' (addx (ex P) (ey P) (ex Q) (ey Q)) (addy (ex P) (ey P) (ex Q) (ey Q))
       (on_curve_add _ _ _ _ (E_on P) (E_on Q)).

Lemma Eadd_comm P Q : Eadd P Q = Eadd Q P.
Proof.
  apply E_eq; cbn; unfold addx, addy.
  - f_equal; [ring|f_equal; ring].
  - f_equal; [ring|f_equal; ring].
Qed.

Lemma Fdiv_1 x : x / F1 = x.
Proof. field. exact F1_neq_0. Qed.

Lemma Eadd_0_l P : Eadd E0 P = P.
Proof.
  apply E_eq; cbn; unfold addx, addy.
  - transitivity (ex P / F1); [f_equal; ring|apply Fdiv_1].
  - transitivity (ey P / F1); [f_equal; ring|apply Fdiv_1].
Qed.

Lemma Eadd_opp P : Eadd P (Eopp P) = E0.
Proof.
  pose proof (complete_m _ _ _ _ (E_on P) (E_on (Eopp P))) as D. cbn in D.
  pose proof (E_on P) as H. unfold on_curve in H.
  apply E_eq; cbn; unfold addx, addy.
  - unfold Fdiv. replace (ex P * ey P + - ex P * ey P) with F0 by ring. ring.
  - replace (ey P * ey P + ex P * - ex P) with (F1 - Fd * ex P * - ex P * ey P * ey P).
    + field. exact D.
    + transitivity (F1 + Fd * (ex P * ex P) * (ey P * ey P)); [ring|]. rewrite <- H. ring.
Qed.

Lemma frac_eq a b c d : b <> F0 -> d <> F0 -> a * d - c * b = F0 -> a / b = c / d.
Proof.
  intros Hb Hd H. apply Fsub_0. transitivity ((a * d - c * b) / (b * d)); [field; auto|].
  rewrite H. field; auto.
Qed.

(** Addition with homogeneous denominators *)
Lemma addx_frac nx dx ny dy x y : dx <> F0 -> dy <> F0 ->
  dx * dy + Fd * nx * ny * x * y <> F0 ->
  addx (nx / dx) (ny / dy) x y = (nx * dy * y + x * ny * dx) / (dx * dy + Fd * nx * ny * x * y).
Proof. intros Hx Hy H. unfold addx. field. repeat split; auto. Qed.

Lemma addy_frac nx dx ny dy x y : dx <> F0 -> dy <> F0 ->
  dx * dy - Fd * nx * ny * x * y <> F0 ->
  addy (nx / dx) (ny / dy) x y = (ny * dx * y + nx * dy * x) / (dx * dy - Fd * nx * ny * x * y).
Proof. intros Hx Hy H. unfold addy. field. repeat split; auto. Qed.

Lemma denom_nz_p nx dx ny dy x y : dx <> F0 -> dy <> F0 ->
  F1 + Fd * (nx / dx) * x * (ny / dy) * y <> F0 ->
  dx * dy + Fd * nx * ny * x * y <> F0.
Proof.
  intros Hx Hy H E. apply H. transitivity ((dx * dy + Fd * nx * ny * x * y) / (dx * dy)); [field; auto|].
  rewrite E. field; auto.
Qed.
Lemma denom_nz_m nx dx ny dy x y : dx <> F0 -> dy <> F0 ->
  F1 - Fd * (nx / dx) * x * (ny / dy) * y <> F0 ->
  dx * dy - Fd * nx * ny * x * y <> F0.
Proof.
  intros Hx Hy H E. apply H. transitivity ((dx * dy - Fd * nx * ny * x * y) / (dx * dy)); [field; auto|].
  rewrite E. field; auto.
Qed.

Lemma assoc_xy x1 y1 x2 y2 x3 y3 :
  on_curve x1 y1 -> on_curve x2 y2 -> on_curve x3 y3 ->
  addx (addx x1 y1 x2 y2) (addy x1 y1 x2 y2) x3 y3 = addx (addx x2 y2 x3 y3) (addy x2 y2 x3 y3) x1 y1
  /\ addy (addx x1 y1 x2 y2) (addy x1 y1 x2 y2) x3 y3 = addy (addx x2 y2 x3 y3) (addy x2 y2 x3 y3) x1 y1.
Proof.
  intros H1 H2 H3.
  pose proof (assoc_x_cert x1 y1 x2 y2 x3 y3 Fd) as Cx. pose proof (assoc_y_cert x1 y1 x2 y2 x3 y3 Fd) as Cy.
  cbv zeta in Cx, Cy.
  rewrite (curve_e _ _ H1), (curve_e _ _ H2), (curve_e _ _ H3) in Cx, Cy.
  match type of Cx with _ = ?r => assert (R : r = F0) by ring; rewrite R in Cx; clear R end.
  match type of Cy with _ = ?r => assert (R : r = F0) by ring; rewrite R in Cy; clear R end.
  pose proof (complete_p _ _ _ _ H1 H2) as DA. pose proof (complete_m _ _ _ _ H1 H2) as DB.
  pose proof (complete_p _ _ _ _ H2 H3) as DC. pose proof (complete_m _ _ _ _ H2 H3) as DD.
  pose proof (on_curve_add _ _ _ _ H1 H2) as H12. pose proof (on_curve_add _ _ _ _ H2 H3) as H23.
  pose proof (complete_p _ _ _ _ H12 H3) as P1. pose proof (complete_m _ _ _ _ H12 H3) as P2.
  pose proof (complete_p _ _ _ _ H23 H1) as P3. pose proof (complete_m _ _ _ _ H23 H1) as P4.
  unfold addx, addy in P1, P2, P3, P4.
  apply denom_nz_p in P1; auto. apply denom_nz_m in P2; auto.
  apply denom_nz_p in P3; auto. apply denom_nz_m in P4; auto.
  change (addx x1 y1 x2 y2) with ((x1 * y2 + x2 * y1) / (F1 + Fd * x1 * x2 * y1 * y2)).
  change (addy x1 y1 x2 y2) with ((y1 * y2 + x1 * x2) / (F1 - Fd * x1 * x2 * y1 * y2)).
  change (addx x2 y2 x3 y3) with ((x2 * y3 + x3 * y2) / (F1 + Fd * x2 * x3 * y2 * y3)).
  change (addy x2 y2 x3 y3) with ((y2 * y3 + x2 * x3) / (F1 - Fd * x2 * x3 * y2 * y3)).
  split.
  - rewrite !addx_frac by assumption. apply frac_eq; auto.
    rewrite <- Cx. ring.
  - rewrite !addy_frac by assumption. apply frac_eq; auto.
    rewrite <- Cy. ring.
Qed.

Lemma Eadd_assoc P Q R : Eadd P (Eadd Q R) = Eadd (Eadd P Q) R.
Proof.
  symmetry. rewrite (Eadd_comm P (Eadd Q R)).
  pose proof (assoc_xy _ _ _ _ _ _ (E_on P) (E_on Q) (E_on R)) as [A B].
  apply E_eq; cbn; assumption.
Qed.

Definition Emul : Z -> E -> E := gmul E0 Eadd Eopp.

Definition Esub (P Q : E) : E := Eadd P (Eopp Q).

Lemma Eadd_0_r P : Eadd P E0 = P.
Proof. rewrite Eadd_comm. apply Eadd_0_l. Qed.

Lemma Eadd_cancel_l a b c : Eadd a b = Eadd a c -> b = c.
Proof. apply (add_cancel_l E0 Eadd Eopp); auto using Eadd_comm, Eadd_assoc, Eadd_0_l, Eadd_opp. Qed.
Lemma Eadd_cancel_r a b c : Eadd b a = Eadd c a -> b = c.
Proof. apply (add_cancel_r E0 Eadd Eopp); auto using Eadd_comm, Eadd_assoc, Eadd_0_l, Eadd_opp. Qed.
Lemma Eopp_unique a b : Eadd a b = E0 -> b = Eopp a.
Proof. apply (opp_unique E0 Eadd Eopp); auto using Eadd_comm, Eadd_assoc, Eadd_0_l, Eadd_opp. Qed.
Lemma Eopp_0 : Eopp E0 = E0.
Proof. apply (opp_0 E0 Eadd Eopp); auto using Eadd_comm, Eadd_assoc, Eadd_0_l, Eadd_opp. Qed.
Lemma Eopp_opp a : Eopp (Eopp a) = a.
Proof. apply (opp_opp E0 Eadd Eopp); auto using Eadd_comm, Eadd_assoc, Eadd_0_l, Eadd_opp. Qed.
Lemma Eadd_swap a b c d : Eadd (Eadd a b) (Eadd c d) = Eadd (Eadd a c) (Eadd b d).
Proof. apply add_swap; auto using Eadd_comm, Eadd_assoc. Qed.
Lemma Eopp_add a b : Eopp (Eadd a b) = Eadd (Eopp a) (Eopp b).
Proof. apply (opp_add E0 Eadd Eopp); auto using Eadd_comm, Eadd_assoc, Eadd_0_l, Eadd_opp. Qed.
Lemma Emul_0 a : Emul 0 a = E0. Proof. reflexivity. Qed.
Lemma Emul_1 a : Emul 1 a = a. Proof. reflexivity. Qed.
Lemma Emul_2 a : Emul 2 a = Eadd a a. Proof. reflexivity. Qed.
Lemma Emul_m1 a : Emul (-1) a = Eopp a. Proof. reflexivity. Qed.
Lemma Emul_add m n a : Emul (m + n) a = Eadd (Emul m a) (Emul n a).
Proof. apply gmul_add; auto using Eadd_comm, Eadd_assoc, Eadd_0_l, Eadd_opp. Qed.
Lemma Emul_opp n a : Emul (- n) a = Eopp (Emul n a).
Proof. apply gmul_opp; auto using Eadd_comm, Eadd_assoc, Eadd_0_l, Eadd_opp. Qed.
Lemma Emul_sub m n a : Emul (m - n) a = Esub (Emul m a) (Emul n a).
Proof. apply gmul_sub; auto using Eadd_comm, Eadd_assoc, Eadd_0_l, Eadd_opp. Qed.
Lemma Emul_mul m n a : Emul (m * n) a = Emul m (Emul n a).
Proof. apply gmul_mul; auto using Eadd_comm, Eadd_assoc, Eadd_0_l, Eadd_opp. Qed.
Lemma Emul_E0 n : Emul n E0 = E0.
Proof. apply gmul_zero; auto using Eadd_comm, Eadd_assoc, Eadd_0_l, Eadd_opp. Qed.
Lemma Emul_add_r n a b : Emul n (Eadd a b) = Eadd (Emul n a) (Emul n b).
Proof. apply gmul_add_r; auto using Eadd_comm, Eadd_assoc, Eadd_0_l, Eadd_opp. Qed.
Lemma Emul_opp_r n a : Emul n (Eopp a) = Eopp (Emul n a).
Proof. apply gmul_opp_r; auto using Eadd_comm, Eadd_assoc, Eadd_0_l, Eadd_opp. Qed.
Lemma Emul_mod n m a : m <> 0%Z -> Emul m a = E0 -> Emul (n mod m) a = Emul n a.
Proof. apply gmul_mod; auto using Eadd_comm, Eadd_assoc, Eadd_0_l, Eadd_opp. Qed.
Lemma Emul_succ n a : Emul (n + 1) a = Eadd (Emul n a) a.
Proof. apply gmul_succ; auto using Eadd_comm, Eadd_assoc, Eadd_0_l, Eadd_opp. Qed.

Lemma Esub_0 a b : Esub a b = E0 <-> a = b.
Proof.
  unfold Esub. split; intros H; [|rewrite H; apply Eadd_opp].
  apply (Eadd_cancel_r (Eopp b)). rewrite H, Eadd_opp. reflexivity.
Qed.
Global Opaque Emul.
