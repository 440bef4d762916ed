(** The Jacobi quartic, its map to the Edwards curve, the Elligator 2 map of ristretto255 and its
    inverse (pure mathematics; models no code). *)
From Coq Require Import ZArith Lia Bool List Field.
From Verif Require Import NumTheory Primes Fp AbGroup Edwards GroupOrder RistrettoSpec FieldModel FieldLaws.
Import ListNotations.
Local Open Scope F_scope.

(** ** Constants *)
Lemma four_nz : #4 <> F0.
Proof. apply of_Z_neq. vm_compute. reflexivity. Qed.
Lemma dm1_nz : Fd - F1 <> F0.
Proof. intro h. apply (f_equal fval) in h. vm_compute in h. discriminate. Qed.
Lemma omd2_nz : F1 - Fd * Fd <> F0.
Proof. intro h. apply (f_equal fval) in h. vm_compute in h. discriminate. Qed.
Lemma Fisdm1_nz : Fisdm1 <> F0.
Proof. intro h. apply (f_equal fval) in h. vm_compute in h. discriminate. Qed.
(** (d^2 - 1)/d is not a square *)
Lemma d2m1_d_nsq s : s * s * Fd <> Fd * Fd - F1 \/ s = F0.
Proof.
  left. intro h.
  assert (q : is_sq ((Fd * Fd - F1) * Fd)) by (exists (s * Fd); rewrite <- h; ring).
  apply (is_sq_cancel (Fd * Fd - F1)) in q; [exact (Fd_nsq q)| |].
  - intro h0. apply omd2_nz. transitivity (- (Fd * Fd - F1)); [ring|]. rewrite h0. ring.
  - exists (of_Z 11253059922845329463563596128811157980587944252303121849557340183880361934552). apply F_eq. vm_compute. reflexivity.
Qed.

(** ** The quartic *)

(** t^2 = s^4 - 2 (d-1)/(d+1) s^2 + 1 *)
Definition on_J (s t : F) : Prop :=
  (Fd + F1) * (t * t) = (Fd + F1) * (s * s * (s * s)) - #2 * (Fd - F1) * (s * s) + (Fd + F1).

Lemma J_t_nz s t : on_J s t -> t <> F0.
Proof.
  unfold on_J. intros h ->. apply Fd_nsq. apply (is_sq_cancel (- #4)).
  - intro h0. apply four_nz. transitivity (- - #4); [ring|]. rewrite h0. ring.
  - apply is_sq_opp. exists (#2). apply F_eq. vm_compute. reflexivity.
  - exists ((Fd + F1) * (s * s) - (Fd - F1)).
    transitivity ((Fd + F1) * ((Fd + F1) * (s * s * (s * s)) - #2 * (Fd - F1) * (s * s) + (Fd + F1)) - #4 * Fd).
    + replace (#4) with (#2 * #2) by (apply F_eq; vm_compute; reflexivity).
      replace (#2) with (F1 + F1) by (apply F_eq; vm_compute; reflexivity). ring.
    + rewrite <- h. ring.
Qed.
Lemma J_den_nz s t : on_J s t -> F1 + s * s <> F0.
Proof.
  unfold on_J. intros h h0. apply Fd_nsq.
  assert (e : s * s = - F1) by (transitivity (F1 + s * s - F1); [ring|]; rewrite h0; ring).
  apply (is_sq_cancel (#4)); [exact four_nz | exists (#2); apply F_eq; vm_compute; reflexivity|].
  destruct dp1_sq as [w hw]. exists (w * t). transitivity ((w * w) * (t * t)); [ring|]. rewrite hw.
  transitivity ((Fd + F1) * (t * t)); [ring|]. rewrite h, e.
  replace (#4) with (#2 * #2) by (apply F_eq; vm_compute; reflexivity).
  replace (#2) with (F1 + F1) by (apply F_eq; vm_compute; reflexivity). ring.
Qed.

(** the point (x, y) below (s, t): x = 2 s / (sqrt(-d-1) t), y = (1 - s^2)/(1 + s^2) *)
Definition below (s t : F) (A : E) : Prop :=
  on_J s t /\ ex A * t = #2 * Fisdm1 * s /\ ey A * (F1 + s * s) = F1 - s * s.

Lemma two_two : #2 = F1 + F1.
Proof. apply F_eq; vm_compute; reflexivity. Qed.

Lemma below_exists s t : on_J s t -> exists A, below s t A.
Proof.
  intro h. pose proof (J_t_nz s t h) as ht. pose proof (J_den_nz s t h) as hd.
  assert (on : on_curve (#2 * Fisdm1 * s / t) ((F1 - s * s) / (F1 + s * s))).
  { unfold on_curve. pose proof Fisdm1_sq as I. unfold on_J in h. apply Fsub_0.
    set (c := Fisdm1) in *.
    assert (E1 : (t * t) = (F1 - s * s) * (F1 - s * s) - #4 * (c * c) * (s * s)).
    { apply (Fmul_cancel_l (Fd + F1)); [exact dp1_nz|]. rewrite h.
      transitivity ((Fd + F1) * ((F1 - s * s) * (F1 - s * s)) + #4 * (c * c * - (Fd + F1)) * (s * s)); [|ring].
      rewrite I. replace (#4) with (#2 * #2) by (apply F_eq; vm_compute; reflexivity). rewrite two_two. ring. }
    apply (Fmul_cancel_l (t * t * ((F1 + s * s) * (F1 + s * s)))).
    { apply Fmul_nz; apply Fmul_nz; assumption. }
    transitivity (((F1 - s * s) * (F1 - s * s) - (F1 + s * s) * (F1 + s * s)) * (t * t)
       - #2 * #2 * (c * c) * (s * s) * ((F1 + s * s) * (F1 + s * s)) - Fd * (#2 * #2 * (c * c) * (s * s)) * ((F1 - s * s) * (F1 - s * s))).
    { field. auto. }
    rewrite E1. replace (#4) with (#2 * #2) by (apply F_eq; vm_compute; reflexivity). rewrite two_two.
    transitivity ((F1 - s * s) * (F1 - s * s) * (s * s) * (F1 + F1) * (F1 + F1) * (c * c * - (Fd + F1) - F1)); [ring|].
    rewrite I. ring. }
  exists (mkE' _ _ on). split; [exact h|]. cbn [mkE' ex ey]. split; field; assumption.
Qed.
Lemma below_unique s t A B : below s t A -> below s t B -> A = B.
Proof.
  intros (h & h1 & h2) (_ & g1 & g2). pose proof (J_t_nz s t h) as ht. pose proof (J_den_nz s t h) as hd. apply E_eq.
  - apply (Fmul_cancel_l t); [exact ht|]. transitivity (ex A * t); [ring|]. rewrite h1, <- g1. ring.
  - apply (Fmul_cancel_l (F1 + s * s)); [exact hd|]. transitivity (ey A * (F1 + s * s)); [ring|]. rewrite h2, <- g2. ring.
Qed.
Lemma below_even s t A : below s t A -> even A.
Proof.
  intros (h & h1 & h2). pose proof (J_den_nz s t h) as hd. apply even_iff.
  exists (#2 * s / (F1 + s * s)). apply (Fmul_cancel_l ((F1 + s * s) * (F1 + s * s))); [apply Fmul_nz; exact hd|].
  transitivity ((#2 * s) * (#2 * s)); [field; exact hd|].
  transitivity ((F1 + s * s) * (F1 + s * s) - (ey A * (F1 + s * s)) * (ey A * (F1 + s * s))); [|ring].
  rewrite h2, two_two. ring.
Qed.
Lemma below_neg s t A : below s t A -> below (- s) (- t) A.
Proof.
  intros (h & h1 & h2). split; [|split].
  - unfold on_J in *. transitivity ((Fd + F1) * (t * t)); [ring|]. rewrite h. ring.
  - transitivity (- (ex A * t)); [ring|]. rewrite h1. ring.
  - transitivity (ey A * (F1 + s * s)); [ring|]. rewrite h2. ring.
Qed.
Lemma below_s0 t A : below F0 t A -> A = E0 /\ (t = F1 \/ t = - F1).
Proof.
  intros (h & h1 & h2). split.
  - apply E_eq; cbn [E0 mkE' ex ey].
    + apply (Fmul_cancel_l t); [exact (J_t_nz _ _ h)|]. transitivity (ex A * t); [ring|]. rewrite h1. ring.
    + transitivity (ey A * (F1 + F0 * F0)); [ring|]. rewrite h2. ring.
  - apply Fsq_eq. apply (Fmul_cancel_l (Fd + F1)); [exact dp1_nz|]. rewrite h. ring.
Qed.
Lemma below_x0 s t A : below s t A -> ex A = F0 -> s = F0.
Proof.
  intros (h & h1 & h2) h0. rewrite h0 in h1. assert (e : #2 * Fisdm1 * s = F0) by (rewrite <- h1; ring).
  apply Fmul_0 in e. destruct e as [e|e]; [|exact e]. apply Fmul_0 in e. destruct e as [e|e]; [destruct (F2_nz e) | destruct (Fisdm1_nz e)].
Qed.
(** the points of the quartic above a point are (s, t) and (-s, -t) *)
Lemma below_same s t s' t' A : below s t A -> below s' t' A -> s <> F0 -> (s' = s /\ t' = t) \/ (s' = - s /\ t' = - t).
Proof.
  intros (h & h1 & h2) (g & g1 & g2) hs.
  assert (h1y : ey A + F1 <> F0).
  { intro e. assert (e' : ey A = - F1) by (transitivity (ey A + F1 - F1); [ring|]; rewrite e; ring).
    rewrite e' in h2. apply F2_nz. rewrite two_two. transitivity ((F1 - s * s) + (F1 + s * s)); [ring|]. rewrite <- h2. ring. }
  assert (e : s' * s' = s * s).
  { apply (Fmul_cancel_l (ey A + F1)); [exact h1y|].
    transitivity (ey A * (F1 + s' * s') - ey A + s' * s'); [ring|]. rewrite g2.
    transitivity (ey A * (F1 + s * s) - ey A + s * s); [|ring]. rewrite h2. ring. }
  apply Fsq_eq in e. 
  assert (hx : ex A <> F0).
  { intro h0. apply hs. apply (below_x0 s t A (conj h (conj h1 h2)) h0). }
  destruct e as [e|e]; [left | right]; (split; [exact e|]); apply (Fmul_cancel_l (ex A)); try exact hx; rewrite g1, e.
  - rewrite h1. reflexivity.
  - transitivity (- (#2 * Fisdm1 * s)); [ring|]. rewrite <- h1. ring.
Qed.

(** ** The map *)
Definition ell_r (f : F) : F := Fi * (f * f).
Definition ell_D (r : F) : F := - ((Fd * r + F1) * (r + Fd)).
Definition ell_N (r : F) : F := (F1 - Fd * Fd) * (r + F1).
(** [ell f s t]: Elligator maps [f] to the point (s, t) of the quartic *)
Definition ell (f s t : F) : Prop :=
  let r := ell_r f in let N := ell_N r in let D := ell_D r in
  (D = F0 /\ s = F0 /\ t = - F1) \/
  (D <> F0 /\ is_sq (N * D) /\ Fneg s = false /\ s * s * D = N /\ (t + F1) * D = - ((r - F1) * ((Fd - F1) * (Fd - F1)))) \/
  (D <> F0 /\ ~ is_sq (N * D) /\ (s = F0 \/ Fneg s = true) /\ s * s * D = r * N /\ (t + F1) * D = r * (r - F1) * ((Fd - F1) * (Fd - F1))).

Lemma ell_N_nz f : ell_N (ell_r f) <> F0.
Proof.
  unfold ell_N, ell_r. apply Fmul_nz; [exact omd2_nz|]. intro h. apply Fi_nsq. 
  destruct (F_dec f F0) as [->|hf].
  - exfalso. apply F1_neq_0. transitivity (Fi * (F0 * F0) + F1); [ring | exact h].
  - apply (is_sq_cancel (f * f)); [apply Fmul_nz; exact hf | exists f; reflexivity|]. exists Fi. rewrite Fi_sq.
    transitivity (Fi * (f * f) + F1 - F1 - (Fi * (f * f) + F1)); [rewrite h; ring|]. rewrite h.
    transitivity (Fi * (f * f) + F1 - F1); [rewrite h; ring | ring].
Qed.

Lemma ell_on_J f s t : ell f s t -> on_J s t.
Proof.
  unfold ell. cbv zeta. set (r := ell_r f). set (D := ell_D r). set (N := ell_N r). unfold on_J.
  intros [(_ & -> & ->) | [(hD & _ & _ & h1 & h2) | (hD & _ & _ & h1 & h2)]].
  - ring.
  - assert (e1 : D = - ((Fd * r + F1) * (r + Fd))) by reflexivity. assert (e2 : N = (F1 - Fd * Fd) * (r + F1)) by reflexivity.
    clearbody D N. apply (Fmul_cancel_l (D * D)); [apply Fmul_nz; exact hD|].
    assert (h3 : t * D = - ((r - F1) * ((Fd - F1) * (Fd - F1))) - D) by (rewrite <- h2; ring).
    transitivity ((Fd + F1) * ((t * D) * (t * D))); [ring|].
    transitivity ((Fd + F1) * ((s * s * D) * (s * s * D)) - #2 * (Fd - F1) * (s * s * D) * D + (Fd + F1) * (D * D)); [|ring].
    rewrite h1, h3, e1, e2, two_two. ring.
  - assert (e1 : D = - ((Fd * r + F1) * (r + Fd))) by reflexivity. assert (e2 : N = (F1 - Fd * Fd) * (r + F1)) by reflexivity.
    clearbody D N. apply (Fmul_cancel_l (D * D)); [apply Fmul_nz; exact hD|].
    assert (h3 : t * D = r * (r - F1) * ((Fd - F1) * (Fd - F1)) - D) by (rewrite <- h2; ring).
    transitivity ((Fd + F1) * ((t * D) * (t * D))); [ring|].
    transitivity ((Fd + F1) * ((s * s * D) * (s * s * D)) - #2 * (Fd - F1) * (s * s * D) * D + (Fd + F1) * (D * D)); [|ring].
    rewrite h1, h3, e1, e2, two_two. ring.
Qed.

Lemma Fneg_true_nz x : Fneg x = true -> x <> F0.
Proof. intros h ->. rewrite Fneg_0 in h. discriminate h. Qed.
Lemma nonpos_sq_unique x y : (x = F0 \/ Fneg x = true) -> (y = F0 \/ Fneg y = true) -> x * x = y * y -> x = y.
Proof.
  intros hx hy h. apply Fsq_eq in h. destruct h as [h|h]; [exact h|]. destruct (F_dec y F0) as [->|n].
  - rewrite h. ring.
  - destruct hy as [hy|hy]; [contradiction|]. destruct hx as [hx|hx].
    + exfalso. apply n. transitivity (- - y); [ring|]. rewrite <- h, hx. ring.
    + rewrite h, (Fneg_opp y n), hy in hx. discriminate hx.
Qed.
Lemma ell_unique f s t s' t' : ell f s t -> ell f s' t' -> s' = s /\ t' = t.
Proof.
  unfold ell. cbv zeta. set (r := ell_r f). set (D := ell_D r). set (N := ell_N r).
  assert (T : forall t t', D <> F0 -> (t + F1) * D = (t' + F1) * D -> t' = t).
  { intros a b hD e. transitivity (b + F1 - F1); [ring|]. transitivity (a + F1 - F1); [|ring]. f_equal.
    apply (Fmul_cancel_l D); [exact hD|]. transitivity ((b + F1) * D); [ring|]. rewrite <- e. ring. }
  assert (S : forall s s', D <> F0 -> s * s * D = s' * s' * D -> s' * s' = s * s).
  { intros a b hD e. apply (Fmul_cancel_l D); [exact hD|]. transitivity (b * b * D); [ring|]. rewrite <- e. ring. }
  clearbody D N r.
  intros [(h0 & h1 & h2) | [(hD & q & n & h1 & h2) | (hD & q & n & h1 & h2)]] [(g0 & g1 & g2) | [(gD & q' & n' & g1 & g2) | (gD & q' & n' & g1 & g2)]].
  - rewrite h1, h2, g1, g2. split; reflexivity.
  - destruct (gD h0).
  - destruct (gD h0).
  - destruct (hD g0).
  - split; [|apply T; [exact hD | rewrite h2, g2; reflexivity]].
    apply Fnonneg_sq_unique; [exact n' | exact n|]. apply S; [exact hD | rewrite h1, g1; reflexivity].
  - destruct (q' q).
  - destruct (hD g0).
  - destruct (q q').
  - split; [|apply T; [exact hD | rewrite h2, g2; reflexivity]].
    apply nonpos_sq_unique; [exact n' | exact n|]. apply S; [exact hD | rewrite h1, g1; reflexivity].
Qed.
Lemma ell_neg f s t : ell f s t -> ell (- f) s t.
Proof. unfold ell. replace (ell_r (- f)) with (ell_r f) by (unfold ell_r; ring). auto. Qed.

(** s = 0 for exactly 0, +-sqrt(i d) and +-sqrt(i/d) *)
Lemma ell_s0 f s t : ell f s t -> (s = F0 <-> f = F0 \/ f * f = Fi * Fd \/ Fd * (f * f) = Fi).
Proof.
  intro h. assert (Z : ell_D (ell_r f) = F0 <-> f * f = Fi * Fd \/ Fd * (f * f) = Fi).
  { unfold ell_D, ell_r. split; intro e.
    - apply (f_equal Fopp) in e. assert (e' : (Fd * (Fi * (f * f)) + F1) * (Fi * (f * f) + Fd) = F0) by (transitivity (- F0); [rewrite <- e; ring | ring]).
      apply Fmul_0 in e'. destruct e' as [e'|e']; [right | left].
      + transitivity (- Fi * (Fd * (Fi * (f * f)) + F1) + (Fi * Fi + F1) * (Fd * (f * f)) + Fi); [ring|]. rewrite e', Fi_sq. ring.
      + transitivity (- Fi * (Fi * (f * f) + Fd) + (Fi * Fi + F1) * (f * f) + Fi * Fd); [ring|]. rewrite e', Fi_sq. ring.
    - destruct e as [e|e].
      + rewrite e. transitivity (- ((Fd * (Fi * (Fi * Fd)) + F1) * ((Fi * Fi + F1) * Fd))); [ring|]. rewrite Fi_sq. ring.
      + transitivity (- ((Fi * (Fd * (f * f)) + F1) * (Fi * (f * f) + Fd))); [ring|]. rewrite e, Fi_sq. ring. }
  pose proof (ell_N_nz f) as hN. unfold ell in h. cbv zeta in h. set (r := ell_r f) in *. set (N := ell_N r) in *. set (D := ell_D r) in *.
  destruct h as [(h0 & -> & ->) | [(hD & q & n & h1 & h2) | (hD & q & n & h1 & h2)]].
  - split; [intros _; right; apply Z; exact h0 | reflexivity].
  - split.
    + intros ->. exfalso. apply hN. rewrite <- h1. ring.
    + intros [-> | e]; [|destruct (hD (proj2 Z e))]. exfalso.
      (* f = 0: N D = -d (1 - d^2) is not a square *)
      assert (E : N * D = (Fd * Fd - F1) * Fd) by (subst D N r; unfold ell_N, ell_D, ell_r; ring).
      destruct q as [w hw]. rewrite E in hw.
      destruct (d2m1_d_nsq (w / Fd)) as [g|g].
      * apply g. apply (Fmul_cancel_l Fd); [exact Fd_nz|]. transitivity (w * w); [field; exact Fd_nz|]. rewrite hw. ring.
      * assert (w0 : w = F0) by (transitivity ((w / Fd) * Fd); [field; exact Fd_nz | rewrite g; ring]).
        rewrite w0 in hw. assert (hz : (Fd * Fd - F1) * Fd = F0) by (rewrite <- hw; ring).
        apply Fmul_0 in hz. destruct hz as [hz|hz]; [|exact (Fd_nz hz)].
        apply omd2_nz. transitivity (- (Fd * Fd - F1)); [ring|]. rewrite hz. ring.
  - split.
    + intros ->. left. assert (e : r * N = F0) by (rewrite <- h1; ring). apply Fmul_0 in e. destruct e as [e|e]; [|exfalso; revert e; assumption].
      unfold r, ell_r in e. apply Fmul_0 in e. destruct e as [e|e]; [destruct (Fi_nz e)|]. apply Fmul_0 in e. destruct e; assumption.
    + intros [-> | e]; [|destruct (hD (proj2 Z e))].
      assert (e : s * s * D = F0) by (rewrite h1; unfold r, ell_r; ring). apply Fmul_0 in e. destruct e as [e|e]; [|exfalso; revert e; assumption].
      apply Fmul_0 in e. destruct e; assumption.
Qed.

(** ** The inverse *)

(** a = (t + 1)(d + 1)/(d - 1); it differs from s^2 and -s^2 *)
Lemma inv_a_ne s t a : on_J s t -> s <> F0 -> a * (Fd - F1) = (t + F1) * (Fd + F1) -> s * s - a <> F0 /\ s * s + a <> F0.
Proof.
  intros h hs ha. assert (K : (s * s - a) * (Fd - F1) * (#2 * (Fd + F1)) = (Fd + F1) * (Fd + F1) * (s * s * (s * s)) - a * a * ((Fd - F1) * (Fd - F1))).
  { transitivity ((Fd + F1) * (#2 * (Fd - F1) * (s * s)) - #2 * (Fd + F1) * (a * (Fd - F1))); [ring|].
    transitivity ((Fd + F1) * (Fd + F1) * (s * s * (s * s)) - (a * (Fd - F1)) * (a * (Fd - F1))); [|ring]. rewrite ha.
    unfold on_J in h.
    transitivity ((Fd + F1) * ((Fd + F1) * (s * s * (s * s)) + (Fd + F1) - (Fd + F1) * (t * t)) - #2 * (Fd + F1) * ((t + F1) * (Fd + F1)));
      [rewrite h; ring|]. rewrite two_two. ring. }
  assert (s2 : s * s <> F0) by (apply Fmul_nz; exact hs).
  split; intro e.
  - assert (e' : a = s * s) by (transitivity (s * s - (s * s - a)); [ring|]; rewrite e; ring).
    rewrite e' in K. assert (z : (#4 * Fd) * ((s * s) * (s * s)) = F0).
    { transitivity ((Fd + F1) * (Fd + F1) * (s * s * (s * s)) - s * s * (s * s) * ((Fd - F1) * (Fd - F1))).
      - replace (#4) with (#2 * #2) by (apply F_eq; vm_compute; reflexivity). rewrite two_two. ring.
      - rewrite <- K. ring. }
    apply Fmul_0 in z. destruct z as [z|z]; [|apply Fmul_0 in z; destruct z; contradiction].
    apply Fmul_0 in z. destruct z as [z|z]; [exact (four_nz z) | exact (Fd_nz z)].
  - assert (e' : a = - (s * s)) by (transitivity (s * s + a - s * s); [ring|]; rewrite e; ring).
    rewrite e' in K. destruct (d2m1_d_nsq s) as [g|g]; [|contradiction]. apply g.
    apply (Fmul_cancel_l (#4 * (s * s))); [apply Fmul_nz; [exact four_nz | exact s2]|].
    transitivity ((Fd + F1) * (Fd + F1) * (s * s * (s * s)) - - (s * s) * - (s * s) * ((Fd - F1) * (Fd - F1))).
    + replace (#4) with (#2 * #2) by (apply F_eq; vm_compute; reflexivity). rewrite two_two. ring.
    + rewrite <- K. replace (#4) with (#2 * #2) by (apply F_eq; vm_compute; reflexivity). rewrite two_two. ring.
Qed.

(** the equation that the preimage [f] satisfies *)
Definition inv_eq (s a f : F) : Prop :=
  if Fneg s then ell_r f * (s * s + a) = s * s - a else ell_r f * (s * s - a) = s * s + a.

Lemma inv_D s t a : on_J s t -> a * (Fd - F1) = (t + F1) * (Fd + F1) ->
  ((Fd + F1) * (s * s) + (Fd - F1) * a) * ((Fd + F1) * (s * s) - (Fd - F1) * a) = #2 * ((Fd + F1) * (Fd - F1)) * (s * s - a).
Proof.
  intros h ha. unfold on_J in h. transitivity ((Fd + F1) * ((Fd + F1) * (s * s * (s * s))) - (a * (Fd - F1)) * (a * (Fd - F1))); [ring|].
  transitivity (#2 * (Fd + F1) * ((Fd - F1) * (s * s)) - #2 * (Fd + F1) * (a * (Fd - F1))); [|ring]. rewrite ha.
  transitivity ((Fd + F1) * ((Fd + F1) * (s * s * (s * s)) - #2 * (Fd - F1) * (s * s) + (Fd + F1)) + (Fd + F1) * (#2 * (Fd - F1) * (s * s)) - (Fd + F1) * (Fd + F1)
     - (t + F1) * (Fd + F1) * ((t + F1) * (Fd + F1))); [ring|]. rewrite <- h. rewrite two_two. ring.
Qed.

Lemma inv_sound s t a f : on_J s t -> s <> F0 -> a * (Fd - F1) = (t + F1) * (Fd + F1) -> inv_eq s a f -> ell f s t.
Proof.
  intros h hs ha hf. destruct (inv_a_ne s t a h hs ha) as [n1 n2]. pose proof (inv_D s t a h ha) as K.
  pose proof dm1_nz as nd. pose proof dp1_nz as nd'. pose proof F2_nz as nt.
  assert (ht : t + F1 = a * (Fd - F1) / (Fd + F1)) by (rewrite ha; field; exact nd').
  unfold ell, inv_eq in *. cbv zeta. set (r := ell_r f) in *. destruct (Fneg s) eqn:es.
  - (* s negative: r = (s^2 - a)/(s^2 + a) *)
    assert (er : r = (s * s - a) / (s * s + a)) by (rewrite <- hf; field; exact n2).
    assert (eD : ell_D r = - (#2 * ((Fd + F1) * (Fd - F1)) * (s * s - a)) / ((s * s + a) * (s * s + a))).
    { rewrite <- K, er. unfold ell_D. field. exact n2. }
    assert (eN : ell_N r = (F1 - Fd * Fd) * (#2 * (s * s)) / (s * s + a)).
    { rewrite er, two_two. unfold ell_N. field. exact n2. }
    assert (hD : ell_D r <> F0).
    { rewrite eD. intro z. apply (f_equal (fun v => v * - ((s * s + a) * (s * s + a)))) in z.
      assert (z' : #2 * ((Fd + F1) * (Fd - F1)) * (s * s - a) = F0).
      { transitivity (- (#2 * ((Fd + F1) * (Fd - F1)) * (s * s - a)) / ((s * s + a) * (s * s + a)) * - ((s * s + a) * (s * s + a))); [field; exact n2|].
        rewrite z. ring. }
      revert z'. apply Fmul_nz; [|exact n1]. apply Fmul_nz; [exact nt|]. apply Fmul_nz; assumption. }
    assert (e1 : s * s * ell_D r = r * ell_N r) by (rewrite eD, eN, er; field; exact n2).
    right. right. refine (conj hD (conj _ (conj (or_intror eq_refl) (conj e1 _)))).
    + intro q. assert (hfz : f <> F0).
      { intros ->. apply n1. rewrite <- hf. unfold r, ell_r. ring. }
      apply Fi_nsq. apply (is_sq_cancel (f * f)); [apply Fmul_nz; exact hfz | exists f; reflexivity|].
      apply (is_sq_cancel (ell_N r * ell_D r)); [apply Fmul_nz; [apply ell_N_nz | exact hD] | exact q|].
      exists (s * ell_D r). transitivity (s * s * ell_D r * ell_D r); [ring|]. rewrite e1. unfold r at 1, ell_r at 1. ring.
    + rewrite ht, eD, er, two_two. field. auto.
  - assert (er : r = (s * s + a) / (s * s - a)) by (rewrite <- hf; field; exact n1).
    assert (eD : ell_D r = - (#2 * ((Fd + F1) * (Fd - F1))) / (s * s - a)).
    { transitivity (- (#2 * ((Fd + F1) * (Fd - F1)) * (s * s - a)) / ((s * s - a) * (s * s - a))); [|field; exact n1].
      rewrite <- K, er. unfold ell_D. field. exact n1. }
    assert (eN : ell_N r = (F1 - Fd * Fd) * (#2 * (s * s)) / (s * s - a)).
    { rewrite er, two_two. unfold ell_N. field. exact n1. }
    assert (hD : ell_D r <> F0).
    { rewrite eD. intro z. assert (z' : #2 * ((Fd + F1) * (Fd - F1)) = F0).
      { transitivity (- (#2 * ((Fd + F1) * (Fd - F1))) / (s * s - a) * - (s * s - a)); [field; exact n1|]. rewrite z. ring. }
      revert z'. apply Fmul_nz; [exact nt|]. apply Fmul_nz; assumption. }
    assert (e1 : s * s * ell_D r = ell_N r) by (rewrite eD, eN; field; exact n1).
    right. left. refine (conj hD (conj _ (conj eq_refl (conj e1 _)))).
    + exists (s * ell_D r). rewrite <- e1. ring.
    + rewrite ht, eD, er, two_two. field. auto.
Qed.

Lemma inv_complete s t a f : ell f s t -> s <> F0 -> a * (Fd - F1) = (t + F1) * (Fd + F1) ->
  inv_eq s a f /\ ~ is_sq (s * s * (s * s) - a * a).
Proof.
  intros h hs ha. pose proof (ell_on_J f s t h) as hJ. destruct (inv_a_ne s t a hJ hs ha) as [n1 n2].
  pose proof dm1_nz as nd. assert (hfz : f <> F0).
  { intros ->. apply hs. apply (ell_s0 F0 s t h). left. reflexivity. }
  assert (hnr : ~ is_sq (ell_r f)).
  { intro q. apply Fi_nsq. apply (is_sq_cancel (f * f)); [apply Fmul_nz; exact hfz | exists f; reflexivity|].
    unfold ell_r in q. destruct q as [w hw]. exists w. rewrite hw. ring. }
  assert (I : inv_eq s a f).
  { unfold ell in h. cbv zeta in h. unfold inv_eq. set (r := ell_r f) in *.
    destruct h as [(h0 & -> & ->) | [(hD & q & n & h1 & h2) | (hD & q & n & h1 & h2)]]; [contradiction| |].
    - rewrite n. apply (Fmul_cancel_l (ell_D r * (Fd - F1))); [apply Fmul_nz; assumption|].
      transitivity (r * ((Fd - F1) * (s * s * ell_D r) - (a * (Fd - F1)) * ell_D r)); [ring|].
      transitivity ((Fd - F1) * (s * s * ell_D r) + (a * (Fd - F1)) * ell_D r); [|ring]. rewrite ha, h1.
      transitivity (r * ((Fd - F1) * ell_N r - (Fd + F1) * ((t + F1) * ell_D r))); [ring|].
      transitivity ((Fd - F1) * ell_N r + (Fd + F1) * ((t + F1) * ell_D r)); [|ring]. rewrite h2. unfold ell_N. ring.
    - destruct n as [n|n]; [contradiction|]. rewrite n. apply (Fmul_cancel_l (ell_D r * (Fd - F1))); [apply Fmul_nz; assumption|].
      transitivity (r * ((Fd - F1) * (s * s * ell_D r) + (a * (Fd - F1)) * ell_D r)); [ring|].
      transitivity ((Fd - F1) * (s * s * ell_D r) - (a * (Fd - F1)) * ell_D r); [|ring]. rewrite ha, h1.
      transitivity (r * ((Fd - F1) * (r * ell_N r) + (Fd + F1) * ((t + F1) * ell_D r))); [ring|].
      transitivity ((Fd - F1) * (r * ell_N r) - (Fd + F1) * ((t + F1) * ell_D r)); [|ring]. rewrite h2. unfold ell_N. ring. }
  split; [exact I|]. intro q. unfold inv_eq in I. apply hnr. destruct (Fneg s).
  - apply (is_sq_cancel ((s * s + a) * (s * s + a))); [apply Fmul_nz; exact n2 | eexists; reflexivity|].
    destruct q as [w hw]. exists w. rewrite hw. transitivity ((s * s + a) * (ell_r f * (s * s + a))); [rewrite I|]; ring.
  - apply (is_sq_cancel ((s * s - a) * (s * s - a))); [apply Fmul_nz; exact n1 | eexists; reflexivity|].
    destruct q as [w hw]. exists w. rewrite hw. transitivity ((s * s - a) * (ell_r f * (s * s - a))); [rewrite I|]; ring.
Qed.
Lemma inv_eq_unique s a f g : s * s - a <> F0 -> s * s + a <> F0 -> inv_eq s a f -> inv_eq s a g -> f * f = g * g.
Proof.
  intros n1 n2. unfold inv_eq, ell_r. destruct (Fneg s); intros h1 h2.
  - apply (Fmul_cancel_l (Fi * (s * s + a))); [apply Fmul_nz; [exact Fi_nz | exact n2]|].
    transitivity (Fi * (f * f) * (s * s + a)); [ring|]. rewrite h1, <- h2. ring.
  - apply (Fmul_cancel_l (Fi * (s * s - a))); [apply Fmul_nz; [exact Fi_nz | exact n1]|].
    transitivity (Fi * (f * f) * (s * s - a)); [ring|]. rewrite h1, <- h2. ring.
Qed.
(** the value computed by the code *)
Lemma inv_value s a y : s * s - a <> F0 -> s * s + a <> F0 -> y * y * (Fi * (s * s * (s * s) - a * a)) = F1 ->
  inv_eq s a ((a + (if Fneg s then - (s * s) else s * s)) * y).
Proof.
  intros n1 n2 h. unfold inv_eq, ell_r. destruct (Fneg s).
  - transitivity (y * y * (Fi * (s * s * (s * s) - a * a)) * (s * s - a)); [ring|]. rewrite h. ring.
  - transitivity (y * y * (Fi * (s * s * (s * s) - a * a)) * (s * s + a)); [ring|]. rewrite h. ring.
Qed.
