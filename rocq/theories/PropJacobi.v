(** Property C70: the Jacobi quartic of package edwards25519.

    [on_J s t] (ElligatorSpec.v): (s, t) lies on the quartic, (d+1) t^2 = (d+1) s^4 - 2 (d-1) s^2 + (d+1).  [below s t A]: it does, and the curve
    point [A] has x = 2 s / (sqrt(-d-1) t) and y = (1 - s^2)/(1 + s^2).  [ell f s t]: the first half of Elligator maps the field element
    [f] to (s, t).  [jacobi_of] (JacobiFacts.v), [point], [represents] (Backends.v), [completed] (EdwardsFacts.v): the limbs are in bounds,
    and the coordinates are those of the point.  T2, T4, T4' are the points of order 2 and 4 (RistrettoSpec.v). *)
From Coq Require Import ZArith List Bool.
From Verif Require Import Words Primes Fp Edwards GroupOrder RistrettoSpec FieldModel CurveModel ElligatorSpec Backends EdwardsFacts JacobiFacts.
Import ListNotations.
Open Scope Z_scope.

(** SetJacobiQuartic is total on the quartic, and computes the point below, which is always the double of another. *)
Theorem C70_set : forall b q s t, jacobi_of b q s t -> on_J s t ->
  exists A, below s t A /\ even A /\ completed b (cp_SetJacobiQuartic (ops b) q) A.
Proof. exact j_set. Qed.
Print Assumptions C70_set.

(** Dual negates both coordinates, and does not change the point below. *)
Theorem C70_dual : forall b q s t, jacobi_of b q s t ->
  jacobi_of b (jc_Dual (ops b) q) (Fopp s) (Fopp t) /\ forall A, below s t A -> below (Fopp s) (Fopp t) A.
Proof. exact j_dual. Qed.
Print Assumptions C70_dual.

(** Above every double other than (0, -1) there are exactly two points, dual to each other; above (0, -1) there is none. *)
Theorem C70_cover : forall A, even A ->
  (A = T2 /\ forall s t, ~ below s t A) \/
  (A <> T2 /\ exists s t, (forall s' t', below s' t' A <-> (s', t') = (s, t) \/ (s', t') = (Fopp s, Fopp t)) /\ (s, t) <> (Fopp s, Fopp t)).
Proof. exact j_cover. Qed.
Print Assumptions C70_cover.

(** ToJacobiQuarticRistretto returns one point above each of the four representatives; above the identity twice, in place of (0, -1). *)
Theorem C70_points : forall b P A, point b P A -> exists js P' Bs, ep_ToJacobiQuarticRistretto (ops b) P = (js, P') /\ represents b P' A /\
  Forall2 (fun q B => exists s t, jacobi_of b q s t /\ below s t B) js Bs /\
  (In A [E0; T2; T4; T4'] -> Bs = [E0; E0; T4'; T4]) /\ (~ In A [E0; T2; T4; T4'] -> Bs = [A; Eadd A T2; Eadd A T4'; Eadd A T4]).
Proof. exact j_points. Qed.
Print Assumptions C70_points.

(** elligator2Inverse, off s = 0: it returns 1 with the one non-negative preimage, or 0 if there is none.  For s = 0 it always returns 1, with
    a preimage of (0, -1). *)
Theorem C70_inverse : forall b q s t, jacobi_of b q s t -> on_J s t -> exists ret out q',
  jc_elligator2Inverse (ops b) q = (ret, out, q') /\ limbs b 2 out /\ jacobi_of b q' s t /\ Fneg (elt b out) = false /\
  (s <> F0 -> (ret = 1 /\ ell (elt b out) s t /\ forall f, ell f s t -> Fneg f = false -> f = elt b out) \/
              (ret = 0 /\ forall f, ~ ell f s t)) /\
  (s = F0 -> ret = 1 /\ ell (elt b out) F0 (Fopp F1)).
Proof. exact j_inverse. Qed.
Print Assumptions C70_inverse.

(** "Returns 1 if a preimage is found and 0 if none exists" fails for (0, 1). *)
Theorem C70_inverse_refuted : forall b, exists q s t out q',
  jacobi_of b q s t /\ on_J s t /\ jc_elligator2Inverse (ops b) q = (1, out, q') /\ forall f, ~ ell f s t.
Proof. exact j_inverse_refuted. Qed.
Print Assumptions C70_inverse_refuted.

Example C70_case : forall b, jacobi_of b (mkJac (k_zero (ops b)) (k_one (ops b))) F0 F1 /\ on_J F0 F1.
Proof. exact jac01. Qed.
(** points off s = 0, above both kinds of points *)
Example C70_case_base : point PureGo64 (ep_SetBase (ops PureGo64)) (Eadd EB T4') /\ ~ In (Eadd EB T4') [E0; T2; T4; T4'] /\
  exists s t, below s t (Eadd EB T4').
Proof. exact base_case. Qed.
