(** The values that the Elligator code computes satisfy the relations of ElligatorSpec.v, and the
    relation agrees with MAP of RFC 9496 (pure mathematics; models no code). *)
From Coq Require Import ZArith Lia Bool List Field.
From Verif Require Import NumTheory Primes Fp AbGroup Edwards GroupOrder RistrettoSpec FieldModel FieldLaws ElligatorSpec.
Import ListNotations.
Local Open Scope F_scope.

(** ** The map *)
Lemma ell_value f :
  let r := ell_r f in let N := ell_N r in let D := ell_D r in
  let b := isri_flag (N * D) in
  let w := Fabs (isri_val (N * D)) * (if b then F1 else f * Fi) in
  let s0 := w * N in
  ell f (if Bool.eqb (Fneg s0) b then - s0 else s0)
        ((r - F1) * ((Fd - F1) * (Fd - F1) * (s0 * (w * - (if b then F1 else - F1)))) - F1).
Proof.
  intros r N D b w s0. unfold ell. cbv zeta. fold r. fold N. fold D.
  pose proof (ell_N_nz f) as hN. fold r in hN. fold N in hN.
  destruct (isri_val_spec (N * D)) as (i0 & i1 & i2). fold b in i0, i1, i2.
  assert (dw : w = Fabs (isri_val (N * D)) * (if b then F1 else f * Fi)) by reflexivity.
  assert (ds : s0 = w * N) by reflexivity. clearbody s0 w b.
  destruct (F_dec D F0) as [hD|hD].
  - left. assert (e : N * D = F0) by (rewrite hD; ring). destruct (i0 e) as [eb ev].
    assert (ew : w = F0). { rewrite dw, ev, Fabs_id; [ring | exact Fneg_0]. }
    refine (conj hD _). rewrite ds, ew. destruct (Bool.eqb _ b); split; ring.
  - assert (nz : N * D <> F0) by (apply Fmul_nz; assumption). right.
    destruct (is_sq_dec (N * D)) as [q|q]; [left | right].
    + destruct (i1 nz q) as [eb ev]. subst b.
      assert (ew : w * w * (N * D) = F1).
      { transitivity (Fabs (isri_val (N * D)) * Fabs (isri_val (N * D)) * (N * D)); [rewrite dw; ring|]. rewrite Fabs_sq. exact ev. }
      assert (es : s0 * s0 * D = N). { transitivity (w * w * (N * D) * N); [rewrite ds; ring|]. rewrite ew. ring. }
      assert (ns : s0 <> F0). { intro z. apply hN. rewrite <- es, z. ring. }
      refine (conj hD (conj q (conj _ (conj _ _)))).
      * destruct (Fneg s0) eqn:en; cbn [Bool.eqb]; [rewrite (Fneg_opp s0 ns), en; reflexivity | exact en].
      * destruct (Bool.eqb _ true); [transitivity (s0 * s0 * D); [ring | exact es] | exact es].
      * transitivity (- ((r - F1) * ((Fd - F1) * (Fd - F1)) * (w * w * (N * D)))); [rewrite ds; ring|]. rewrite ew. ring.
    + destruct (i2 nz q) as [eb ev]. subst b.
      assert (ew : w * w * (N * D) = r).
      { transitivity (Fabs (isri_val (N * D)) * Fabs (isri_val (N * D)) * (Fi * (N * D)) * (Fi * (f * f))); [rewrite dw; ring|].
        rewrite Fabs_sq, ev. unfold r, ell_r. ring. }
      assert (es : s0 * s0 * D = r * N). { transitivity (w * w * (N * D) * N); [rewrite ds; ring|]. rewrite ew. ring. }
      refine (conj hD (conj q (conj _ (conj _ _)))).
      * destruct (F_dec s0 F0) as [z|z]; [left|right]; destruct (Fneg s0) eqn:en; cbn [Bool.eqb].
        -- exact z.
        -- rewrite z. ring.
        -- exact en.
        -- rewrite (Fneg_opp s0 z), en. reflexivity.
      * destruct (Bool.eqb _ false); [transitivity (s0 * s0 * D); [ring | exact es] | exact es].
      * transitivity ((r - F1) * ((Fd - F1) * (Fd - F1)) * (w * w * (N * D))); [rewrite ds; ring|]. rewrite ew. ring.
Qed.
Lemma ell_exists f : exists s t, ell f s t.
Proof. eexists. eexists. apply ell_value. Qed.

(** ** RFC 9496, section 4.2: SQRT_RATIO_M1 *)
Definition sqrt_ratio (u v : F) (was_square : bool) (r : F) : Prop :=
  Fneg r = false /\
  ((u = F0 /\ was_square = true /\ r = F0) \/
   (u <> F0 /\ v = F0 /\ was_square = false /\ r = F0) \/
   (u <> F0 /\ v <> F0 /\ was_square = true /\ r * r = u / v) \/
   (u <> F0 /\ v <> F0 /\ ~ is_sq (u / v) /\ was_square = false /\ r * r = Fi * (u / v))).
(** SQRT_AD_MINUS_ONE of RFC 9496, section 4.1 *)
Definition Fsadm1 : F := #25063068953384623474111414158702152701244531502492656460079210482610430750235.
Lemma Fsadm1_sq : Fsadm1 * Fsadm1 = - Fd - F1.
Proof. apply F_eq. vm_compute. reflexivity. Qed.
Lemma Fsadm1_inv : Fisdm1 * Fsadm1 = F1.
Proof. apply F_eq. vm_compute. reflexivity. Qed.

(** RFC 9496, section 4.3.4: MAP(f) is the point [A].  The result (w0 w3 : w2 w1 : w1 w3 : w0 w2) is
    in extended coordinates *)
Definition rfc_map (f : F) (A : E) : Prop :=
  exists (was_square : bool) (s1 : F),
  let r := Fi * (f * f) in
  let u := (r + F1) * (F1 - Fd * Fd) in
  let v := (- F1 - r * Fd) * (r + Fd) in
  sqrt_ratio u v was_square s1 /\
  let s' := - Fabs (s1 * f) in
  let s := if was_square then s1 else s' in
  let c := if was_square then - F1 else r in
  let N := c * (r - F1) * ((Fd - F1) * (Fd - F1)) - v in
  let w0 := #2 * s * v in
  let w1 := N * Fsadm1 in
  let w2 := F1 - s * s in
  let w3 := F1 + s * s in
  w1 * w3 <> F0 /\ ex A * (w1 * w3) = w0 * w3 /\ ey A * (w1 * w3) = w2 * w1 /\ ex A * ey A * (w1 * w3) = w0 * w2.

Lemma sqrt_ratio_unique u v b r b' r' : sqrt_ratio u v b r -> sqrt_ratio u v b' r' -> b' = b /\ r' = r.
Proof.
  intros (n & h) (n' & h').
  assert (S : forall x, v <> F0 -> x * x = u / v -> is_sq (u / v)) by (intros x _ hx; exists x; exact hx).
  destruct h as [(h0 & -> & h1) | [(h0 & h1 & -> & h2) | [(h0 & h1 & -> & h2) | (h0 & h1 & h2 & -> & h3)]]];
  destruct h' as [(g0 & -> & g1) | [(g0 & g1 & -> & g2) | [(g0 & g1 & -> & g2) | (g0 & g1 & g2 & -> & g3)]]];
  try (exfalso; (exact (g0 h0) || exact (h0 g0) || exact (g1 h1) || exact (h1 g1))).
  - split; [reflexivity | rewrite h1, g1; reflexivity].
  - split; [reflexivity | rewrite h2, g2; reflexivity].
  - split; [reflexivity|]. apply Fnonneg_sq_unique; [assumption | assumption | rewrite h2, g2; reflexivity].
  - exfalso. exact (g2 (S _ h1 h2)).
  - exfalso. exact (h2 (S _ h1 g2)).
  - split; [reflexivity|]. apply Fnonneg_sq_unique; [assumption | assumption | rewrite h3, g3; reflexivity].
Qed.

Lemma rfc_map_unique f A B : rfc_map f A -> rfc_map f B -> A = B.
Proof.
  intros (b & s & h & hA) (b' & s' & g & hB). destruct (sqrt_ratio_unique _ _ _ _ _ _ h g) as [-> ->]. cbv zeta in hA, hB.
  destruct hA as (nz & a1 & a2 & _), hB as (_ & b1 & b2 & _).
  set (W := (_ * Fsadm1 * _)) in nz, a1, a2, b1, b2. clearbody W.
  apply E_eq; apply (Fmul_cancel_l W); try exact nz.
  - transitivity (ex A * W); [ring|]. rewrite a1, <- b1. ring.
  - transitivity (ey A * W); [ring|]. rewrite a2, <- b2. ring.
Qed.

Lemma u_over_v_sq N D : D <> F0 -> (is_sq (N / D) <-> is_sq (N * D)).
Proof.
  intro h. split; intros [y hy].
  - exists (y * D). transitivity (y * y * (D * D)); [ring|]. rewrite hy. field. exact h.
  - exists (y / D). transitivity (y * y / (D * D)); [field; exact h|]. rewrite hy. field. exact h.
Qed.

Lemma rfc_pt (s t v A_x A_y c2 : F) : v <> F0 -> t <> F0 -> F1 + s * s <> F0 -> c2 <> F0 ->
  A_x * t = #2 * c2 * s -> A_y * (F1 + s * s) = F1 - s * s -> forall g, c2 * g = F1 ->
  let w1 := t * v * g in
  w1 * (F1 + s * s) <> F0 /\ A_x * (w1 * (F1 + s * s)) = #2 * s * v * (F1 + s * s) /\
  A_y * (w1 * (F1 + s * s)) = (F1 - s * s) * w1 /\ A_x * A_y * (w1 * (F1 + s * s)) = #2 * s * v * (F1 - s * s).
Proof.
  intros hv ht h1 hc hx hy g hg w1.
  assert (ng : g <> F0) by (intros ->; apply F1_neq_0; rewrite <- hg; ring).
  refine (conj _ (conj _ (conj _ _))).
  - unfold w1. repeat apply Fmul_nz; assumption.
  - transitivity (A_x * t * v * g * (F1 + s * s)); [unfold w1; ring|]. rewrite hx.
    transitivity (c2 * g * (#2 * s * v * (F1 + s * s))); [ring|]. rewrite hg. ring.
  - transitivity (A_y * (F1 + s * s) * w1); [ring|]. rewrite hy. ring.
  - transitivity ((A_x * t) * (A_y * (F1 + s * s)) * v * g); [unfold w1; ring|]. rewrite hx, hy.
    transitivity (c2 * g * (#2 * s * v * (F1 - s * s))); [ring|]. rewrite hg. ring.
Qed.

(** the relation of ElligatorSpec.v is MAP *)
Theorem ell_rfc f s t A : ell f s t -> below s t A -> rfc_map f A.
Proof.
  intros h (hJ & hx & hy). pose proof (J_t_nz s t hJ) as ht. pose proof (J_den_nz s t hJ) as h1.
  pose proof (ell_N_nz f) as hN. pose proof Fisdm1_nz as hc. pose proof Fsadm1_inv as hg.
  unfold ell in h. cbv zeta in h. fold (ell_r f) in *. 
  assert (eu : (ell_r f + F1) * (F1 - Fd * Fd) = ell_N (ell_r f)) by (unfold ell_N; ring).
  assert (ev : (- F1 - ell_r f * Fd) * (ell_r f + Fd) = ell_D (ell_r f)) by (unfold ell_D; ring).
  unfold rfc_map. fold (ell_r f). rewrite eu, ev. set (r := ell_r f) in *. set (N := ell_N r) in *. set (D := ell_D r) in *.
  destruct h as [(hD & -> & ->) | [(hD & q & n & e1 & e2) | (hD & q & n & e1 & e2)]].
  - exists false, F0. cbv zeta. split.
    + split; [exact Fneg_0|]. right. left. auto.
    + replace (F0 * f) with F0 by ring. rewrite (Fabs_id F0 Fneg_0). replace (- F0) with F0 by ring. rewrite hD.
      (* r <> 0, 1 *)
      assert (hr : r * (r - F1) <> F0).
      { intro z. apply Fmul_0 in z. destruct z as [z|z].
        - unfold D, ell_D in hD. rewrite z in hD. apply Fd_nz. transitivity (- - ((Fd * F0 + F1) * (F0 + Fd))); [ring|]. rewrite hD. ring.
        - assert (z' : r = F1) by (transitivity (r - F1 + F1); [ring|]; rewrite z; ring).
          unfold D, ell_D in hD. rewrite z' in hD. assert (z2 : (Fd + F1) * (Fd + F1) = F0).
          { transitivity (- - ((Fd * F1 + F1) * (F1 + Fd))); [ring|]. rewrite hD. ring. }
          apply Fmul_0 in z2. destruct z2 as [z2|z2]; exact (dp1_nz z2). }
      assert (g0 : Fsadm1 <> F0) by (intro z; apply F1_neq_0; rewrite <- hg, z; ring).
      assert (eA : ex A = F0).
      { apply (Fmul_cancel_l (- F1)); [exact ht|]. transitivity (ex A * - F1); [ring|]. rewrite hx. ring. }
      assert (eA' : ey A = F1). { transitivity (ey A * (F1 + F0 * F0)); [ring|]. rewrite hy. ring. }
      rewrite eA, eA'. refine (conj _ (conj _ (conj _ _))); try ring.
      apply Fmul_nz; [|exact h1]. apply Fmul_nz; [|exact g0]. intro z.
      assert (z' : r * (r - F1) * ((Fd - F1) * (Fd - F1)) = F0) by (rewrite <- z; ring).
      revert z'. apply Fmul_nz; [exact hr|]. apply Fmul_nz; exact dm1_nz.
  - exists true, s. cbv zeta. split.
    + split; [exact n|]. right. right. left. refine (conj hN (conj hD (conj eq_refl _))). rewrite <- e1. field. exact hD.
    + replace (- F1 * (r - F1) * ((Fd - F1) * (Fd - F1)) - D) with (t * D)
        by (transitivity ((t + F1) * D - D); [ring|]; rewrite e2; ring).
      exact (rfc_pt s t D (ex A) (ey A) Fisdm1 hD ht h1 hc hx hy Fsadm1 hg).
  - assert (X : exists s1, Fneg s1 = false /\ s1 * s1 = Fi * (N / D)).
    { assert (q' : ~ is_sq (N / D)) by (intro z; apply q; apply u_over_v_sq; assumption).
      destruct (nsq_mul_nsq Fi (N / D) Fi_nsq q') as [y hy']. exists (Fabs y). split; [apply Fabs_nonneg|].
      rewrite Fabs_sq. exact hy'. }
    destruct X as (s1 & n1 & hs1). exists false, s1. cbv zeta. split.
    + split; [exact n1|]. right. right. right. refine (conj hN (conj hD (conj _ (conj eq_refl hs1)))).
      intro z. apply q. apply u_over_v_sq; assumption.
    + assert (es : - Fabs (s1 * f) = s).
      { symmetry. apply nonpos_sq_unique; [exact n| |].
        - destruct (F_dec (Fabs (s1 * f)) F0) as [z|z]; [left; rewrite z; ring | right].
          rewrite (Fneg_opp _ z), Fabs_nonneg. reflexivity.
        - apply (Fmul_cancel_l D); [exact hD|]. transitivity (s * s * D); [ring|]. rewrite e1.
          transitivity (D * (Fabs (s1 * f) * Fabs (s1 * f))); [|ring]. rewrite Fabs_sq.
          transitivity (D * (s1 * s1) * (f * f)); [rewrite hs1; unfold r, ell_r; field; exact hD | ring]. }
      rewrite es.
      replace (r * (r - F1) * ((Fd - F1) * (Fd - F1)) - D) with (t * D)
        by (transitivity ((t + F1) * D - D); [ring|]; rewrite e2; ring).
      exact (rfc_pt s t D (ex A) (ey A) Fisdm1 hD ht h1 hc hx hy Fsadm1 hg).
Qed.
Corollary rfc_ell f A : rfc_map f A -> exists s t, ell f s t /\ below s t A.
Proof.
  intro h. destruct (ell_exists f) as (s & t & e). destruct (below_exists s t (ell_on_J f s t e)) as [B hB].
  exists s, t. split; [exact e|]. rewrite (rfc_map_unique f A B h (ell_rfc f s t B e hB)). exact hB.
Qed.
Lemma rfc_map_exists f : exists A, rfc_map f A.
Proof.
  destruct (ell_exists f) as (s & t & e). destruct (below_exists s t (ell_on_J f s t e)) as [B hB].
  exists B. exact (ell_rfc f s t B e hB).
Qed.
Lemma rfc_map_even f A : rfc_map f A -> even A.
Proof. intro h. destruct (rfc_ell f A h) as (s & t & _ & hB). exact (below_even s t A hB). Qed.
Lemma rfc_map_opp f A : rfc_map f A -> rfc_map (- f) A.
Proof. intro h. destruct (rfc_ell f A h) as (s & t & he & hB). exact (ell_rfc _ s t A (ell_neg f s t he) hB). Qed.

(** ** The inverse on the quartic *)
Definition Fsqrt_iod : F := #347587707554176910664335222571809819192038173877021618066561357284830225728.
Lemma Fsqrt_iod_sq : Fd * (Fsqrt_iod * Fsqrt_iod) = Fi.
Proof. apply F_eq. vm_compute. reflexivity. Qed.
Lemma Fsqrt_iod_nonneg : Fneg Fsqrt_iod = false.
Proof. vm_compute. reflexivity. Qed.

Definition inv_a (t : F) : F := (t + F1) * Fdp1dm1.
Definition inv_arg (s t : F) : F := s * s * (s * s) - inv_a t * inv_a t.
Definition inv_ret (s t : F) : bool := (Feqb s F0 || negb (isri_flag (inv_arg s t)))%bool.
Definition inv_out (s t : F) : F :=
  if (Feqb s F0 || isri_flag (inv_arg s t))%bool then (if Feqb t F1 then Fsqrt_id else F0)
  else Fabs ((inv_a t + (if Fneg s then - (s * s) else s * s)) * isri_val (inv_arg s t)).

Lemma inv_out_nonneg s t : Fneg (inv_out s t) = false.
Proof.
  unfold inv_out. destruct (_ || _)%bool; [|apply Fabs_nonneg].
  destruct (Feqb t F1); [exact Fsqrt_id_nonneg | exact Fneg_0].
Qed.
Lemma inv_a_eq t : inv_a t * (Fd - F1) = (t + F1) * (Fd + F1).
Proof. unfold inv_a. transitivity ((t + F1) * (Fdp1dm1 * (Fd - F1))); [ring|]. rewrite Fdp1dm1_eq. ring. Qed.
Lemma inv_s0 t : inv_ret F0 t = true /\ inv_out F0 t = if Feqb t F1 then Fsqrt_id else F0.
Proof. unfold inv_ret, inv_out. rewrite (Feqb_refl' F0). cbn [orb]. split; reflexivity. Qed.
Lemma inv_arg_nz s t : on_J s t -> s <> F0 -> inv_arg s t <> F0.
Proof.
  intros h hs. destruct (inv_a_ne s t (inv_a t) h hs (inv_a_eq t)) as [n1 n2]. unfold inv_arg. intro z.
  assert (z' : (s * s - inv_a t) * (s * s + inv_a t) = F0) by (rewrite <- z; ring). revert z'. apply Fmul_nz; assumption.
Qed.
Lemma ell_abs f s t : ell f s t -> ell (Fabs f) s t.
Proof. intro h. destruct (Fabs_cases f) as [e|e]; rewrite e; [exact h | apply ell_neg; exact h]. Qed.
Lemma inv_ok s t : on_J s t -> s <> F0 -> inv_ret s t = true -> ell (inv_out s t) s t.
Proof.
  intros h hs. pose proof (inv_arg_nz s t h hs) as hz. destruct (inv_a_ne s t (inv_a t) h hs (inv_a_eq t)) as [n1 n2].
  unfold inv_ret, inv_out. rewrite (Feqb_neq s F0 hs). cbn [orb].
  destruct (isri_val_spec (inv_arg s t)) as (_ & i1 & i2).
  destruct (isri_flag (inv_arg s t)) eqn:ef; [discriminate|]. intros _.
  destruct (is_sq_dec (inv_arg s t)) as [q|q]; [destruct (i1 hz q) as [i _]; discriminate i|].
  destruct (i2 hz q) as [_ i]. apply ell_abs. apply (inv_sound s t (inv_a t)); [exact h | exact hs | exact (inv_a_eq t)|].
  apply inv_value; assumption.
Qed.
Lemma inv_all s t f : s <> F0 -> ell f s t -> Fneg f = false -> inv_ret s t = true /\ inv_out s t = f.
Proof.
  intros hs he hf. pose proof (ell_on_J f s t he) as h. pose proof (inv_arg_nz s t h hs) as hz.
  destruct (inv_a_ne s t (inv_a t) h hs (inv_a_eq t)) as [n1 n2].
  destruct (inv_complete s t (inv_a t) f he hs (inv_a_eq t)) as [I q]. fold (inv_arg s t) in q.
  destruct (isri_val_spec (inv_arg s t)) as (_ & _ & i2). destruct (i2 hz q) as [ef _].
  assert (R : inv_ret s t = true) by (unfold inv_ret; rewrite ef; apply orb_true_r).
  split; [exact R|]. pose proof (inv_ok s t h hs R) as ho.
  destruct (inv_complete s t (inv_a t) _ ho hs (inv_a_eq t)) as [I' _].
  apply Fnonneg_sq_unique; [apply inv_out_nonneg | exact hf|]. exact (inv_eq_unique s (inv_a t) _ _ n1 n2 I' I).
Qed.

(** ** The quartic points above a coset *)
Lemma below_intro A s t : ex A <> F0 -> ex A * t = #2 * Fisdm1 * s -> ey A * (F1 + s * s) = F1 - s * s -> below s t A.
Proof.
  intros hx h1 h2. refine (conj _ (conj h1 h2)). pose proof (s_denom A s h2) as hd. pose proof Fisdm1_sq as I.
  pose proof (E_on A) as hA. unfold on_curve in hA. unfold on_J.
  apply (Fmul_cancel_l (ex A * ex A * ((F1 + s * s) * (F1 + s * s)))); [apply Fmul_nz; apply Fmul_nz; assumption|].
  transitivity ((Fd + F1) * ((ex A * t) * (ex A * t)) * ((F1 + s * s) * (F1 + s * s))); [ring|]. rewrite h1.
  transitivity (- #4 * (Fisdm1 * Fisdm1 * - (Fd + F1)) * (s * s) * ((F1 + s * s) * (F1 + s * s))).
  { replace (#4) with (#2 * #2) by (apply F_eq; vm_compute; reflexivity). ring. }
  rewrite I.
  assert (C : ex A * ex A * ((F1 + s * s) * (F1 + s * s) + Fd * ((F1 - s * s) * (F1 - s * s))) = - #4 * (s * s)).
  { rewrite <- h2. transitivity ((F1 + s * s) * (F1 + s * s) * (ex A * ex A + Fd * (ex A * ex A) * (ey A * ey A))); [ring|].
    replace (ex A * ex A + Fd * (ex A * ex A) * (ey A * ey A)) with (ey A * ey A - F1).
    - transitivity ((ey A * (F1 + s * s)) * (ey A * (F1 + s * s)) - (F1 + s * s) * (F1 + s * s)); [ring|]. rewrite h2.
      replace (#4) with (#2 * #2) by (apply F_eq; vm_compute; reflexivity). rewrite two_two. ring.
    - transitivity (ey A * ey A - ex A * ex A + ex A * ex A - F1); [ring|]. rewrite hA. ring. }
  transitivity (- #4 * (s * s) * ((F1 + s * s) * (F1 + s * s))); [ring|]. rewrite <- C, two_two. ring.
Qed.

Lemma i_cancel x : Fi * (Fi * x) = - x.
Proof. transitivity (Fi * Fi * x); [ring|]. rewrite Fi_sq. ring. Qed.

Lemma pair_eq (a b c d : F) : (a, b) = (c, d) -> a = c /\ b = d.
Proof. intro h. split; [exact (f_equal fst h) | exact (f_equal snd h)]. Qed.

Section Quartic.
Variables (A : E) (z : F).
Let X := ex A * z. Let Y := ey A * z.
Definition jq_gamma : F := isr_val (Y * Y * (Y * Y) * (X * X) * (z * z - Y * Y)).
Definition jq_den : F := jq_gamma * (Y * Y).
Definition jq_den2 : F := - (z * z - Y * Y) * - (Fi * Fisdm1) * jq_gamma.
Definition jq_z : bool := (Feqb X F0 || Feqb Y F0)%bool.
Definition jq : list (F * F) :=
  [ (jq_den * (z - Y) * X, if jq_z then F1 else #2 * Fisdm1 * z * (jq_den * (z - Y)));
    (- (jq_den * (z + Y) * X), if jq_z then F1 else #2 * Fisdm1 * z * (jq_den * (z + Y)));
    (if jq_z then F1 else jq_den2 * (Fi * z - X) * Y,
     if jq_z then Fi * (#2 * Fisdm1) else #2 * Fisdm1 * (Fi * z) * (jq_den2 * (Fi * z - X)));
    (if jq_z then - F1 else - (jq_den2 * (Fi * z + X) * Y),
     if jq_z then Fi * (#2 * Fisdm1) else #2 * Fisdm1 * (Fi * z) * (jq_den2 * (Fi * z + X))) ].

Hypothesis (HA : even A) (Hz : z <> F0).

Lemma jq_zero : ex A = F0 \/ ey A = F0 -> jq = [(F0, F1); (F0, F1); (F1, Fi * (#2 * Fisdm1)); (- F1, Fi * (#2 * Fisdm1))].
Proof.
  intro h. assert (e : jq_z = true).
  { unfold jq_z. apply orb_true_iff. destruct h as [h|h]; [left | right]; apply Feqb_eq; unfold X, Y; rewrite h; ring. }
  assert (g : jq_gamma = F0).
  { unfold jq_gamma. destruct (isr_val_spec (Y * Y * (Y * Y) * (X * X) * (z * z - Y * Y))) as (i0 & _). apply i0.
    destruct h as [h|h]; unfold X, Y; rewrite h; ring. }
  unfold jq, jq_den. rewrite e, g. 
  replace (F0 * (Y * Y) * (z - Y) * X) with F0 by ring. replace (- (F0 * (Y * Y) * (z + Y) * X)) with F0 by ring. reflexivity.
Qed.

Lemma jq_main : ex A <> F0 -> ey A <> F0 ->
  exists s0 t0 s1 t1 s2 t2 s3 t3, jq = [(s0, t0); (s1, t1); (s2, t2); (s3, t3)] /\
  below s0 t0 A /\ below s1 t1 (Eadd A T2) /\ below s2 t2 (Eadd A T4') /\ below s3 t3 (Eadd A T4).
Proof.
  intros hx hy.
  assert (nX : X <> F0) by (apply Fmul_nz; assumption). assert (nY : Y <> F0) by (apply Fmul_nz; assumption).
  assert (e : jq_z = false) by (unfold jq_z; rewrite (Feqb_neq X F0 nX), (Feqb_neq Y F0 nY); reflexivity).
  pose proof (curve_fact A) as C. pose proof Fisdm1_sq as I. pose proof dp1_nz as nd.
  assert (ny : F1 - ey A * ey A <> F0).
  { intro h. rewrite h in C. assert (D : - (Fd + F1) * (ex A * ex A) * (ey A * ey A) = F0) by (rewrite <- C; ring).
    revert D. repeat apply Fmul_nz; auto. intro q. apply nd. apply (proj1 (Fopp_0_iff _)). exact q. }
  assert (nx : F1 + ex A * ex A <> F0).
  { intro h. rewrite h in C. assert (D : - (Fd + F1) * (ex A * ex A) * (ey A * ey A) = F0) by (rewrite <- C; ring).
    revert D. repeat apply Fmul_nz; auto. intro q. apply nd. apply (proj1 (Fopp_0_iff _)). exact q. }
  assert (G : jq_gamma * jq_gamma * (Y * Y * (Y * Y) * (X * X) * (z * z - Y * Y)) = F1).
  { unfold jq_gamma. destruct (isr_val_spec (Y * Y * (Y * Y) * (X * X) * (z * z - Y * Y))) as (_ & i1 & _). apply i1.
    - repeat apply Fmul_nz; auto. intro h. apply ny. apply (Fmul_cancel_l (z * z)); [apply Fmul_nz; exact Hz|].
      transitivity (z * z - Y * Y); [unfold Y; ring|]. rewrite h. ring.
    - apply even_sq in HA. destruct HA as [u hu]. exists (Y * Y * X * (z * u)).
      transitivity (Y * Y * (Y * Y) * (X * X) * (z * z * (u * u))); [ring|]. rewrite hu. unfold Y. ring. }
  unfold jq. rewrite e.
  do 8 eexists. refine (conj eq_refl _).
  set (x := ex A) in *. set (y := ey A) in *. set (g := jq_gamma) in *. set (c := Fisdm1) in *.
  assert (G' : g * g * (z * z * (z * z) * (z * z * (z * z)) * (y * y * (y * y)) * (x * x)) * (F1 - y * y) = F1)
    by (transitivity (g * g * (Y * Y * (Y * Y) * (X * X) * (z * z - Y * Y))); [unfold X, Y; fold x; fold y; ring | exact G]).
  assert (my : F1 - y <> F0) by (intro h; apply ny; transitivity ((F1 - y) * (F1 + y)); [ring|]; rewrite h; ring).
  assert (py : F1 + y <> F0) by (intro h; apply ny; transitivity ((F1 - y) * (F1 + y)); [ring|]; rewrite h; ring).
  (* i - x, i + x *)
  assert (K : (Fi - x) * (Fi + x) = - (F1 + x * x)) by (transitivity (Fi * Fi - x * x); [ring|]; rewrite Fi_sq; ring).
  assert (mi : Fi - x <> F0).
  { intro h. apply nx. transitivity (- - (F1 + x * x)); [ring|]. rewrite <- K, h. ring. }
  assert (pi : Fi + x <> F0).
  { intro h. apply nx. transitivity (- - (F1 + x * x)); [ring|]. rewrite <- K, h. ring. }
  (* squares *)
  assert (S0 : forall u, (g * (Y * Y) * u * X) * (g * (Y * Y) * u * X) * ((F1 - y * y) * (z * z)) = u * u).
  { intro u. transitivity (g * g * (z * z * (z * z) * (z * z * (z * z)) * (y * y * (y * y)) * (x * x)) * (F1 - y * y) * (u * u)); [unfold X, Y; fold x; fold y; ring|].
    rewrite G'. ring. }
  assert (S2 : forall u, (jq_den2 * u * Y) * (jq_den2 * u * Y) * (- (F1 + x * x) * (z * z)) = u * u).
  { intro u. unfold jq_den2. fold g. fold c.
    apply (Fmul_cancel_l (x * x * (y * y) * (- (Fd + F1)))).
    { apply Fmul_nz; [apply Fmul_nz; apply Fmul_nz; assumption|]. intro q. apply nd. apply (proj1 (Fopp_0_iff _)). exact q. }
    transitivity ((g * g * (z * z * (z * z) * (z * z * (z * z)) * (y * y * (y * y)) * (x * x)) * (F1 - y * y))
                  * (- (Fi * Fi)) * (c * c * - (Fd + F1)) * (u * u) * ((F1 - y * y) * (F1 + x * x))).
    { unfold Y. fold y. ring. }
    rewrite G', Fi_sq, I, C. ring. }
  refine (conj _ (conj _ (conj _ _))).
  - apply below_intro; fold x; fold y; fold c; [exact hx| |].
    + unfold jq_den. fold g. unfold X. fold x. ring.
    + unfold jq_den. fold g. set (s := g * (Y * Y) * (z - Y) * X).
      assert (E : s * s * (F1 + y) = F1 - y).
      { apply (Fmul_cancel_l ((F1 - y) * (z * z))); [apply Fmul_nz; [exact my | apply Fmul_nz; exact Hz]|].
        transitivity (s * s * ((F1 - y * y) * (z * z))); [ring|]. unfold s. rewrite S0. unfold Y. fold y. ring. }
      apply Fsub_0. transitivity (s * s * (F1 + y) - (F1 - y)); [ring|]. rewrite E. ring.
  - destruct (add_T2 A) as [ax ay]. apply below_intro; rewrite ?ax, ?ay; fold x; fold y; fold c.
    + intro h. apply hx. transitivity (- - x); [ring|]. rewrite h. ring.
    + unfold jq_den. fold g. unfold X. fold x. ring.
    + unfold jq_den. fold g. set (s := g * (Y * Y) * (z + Y) * X).
      assert (E : s * s * (F1 - y) = F1 + y).
      { apply (Fmul_cancel_l ((F1 + y) * (z * z))); [apply Fmul_nz; [exact py | apply Fmul_nz; exact Hz]|].
        transitivity (s * s * ((F1 - y * y) * (z * z))); [ring|]. unfold s. rewrite S0. unfold Y. fold y. ring. }
      apply Fsub_0. transitivity (s * s * (F1 - y) - (F1 + y)); [ring|]. rewrite E. ring.
  - destruct (add_T4' A) as [ax ay]. apply below_intro; rewrite ?ax, ?ay; fold x; fold y; fold c.
    + intro h. apply (Fmul_nz Fi y Fi_nz hy). transitivity (- - (Fi * y)); [ring|]. rewrite h. ring.
    + transitivity (- (Fi * (Fi * (y * (#2 * c * z * (jq_den2 * (Fi * z - X))))))); [ring|]. rewrite i_cancel. unfold Y. fold y. ring.
    + set (s := jq_den2 * (Fi * z - X) * Y).
      assert (E : s * s * (Fi + x) = Fi - x).
      { apply (Fmul_cancel_l ((Fi - x) * (z * z))); [apply Fmul_nz; [exact mi | apply Fmul_nz; exact Hz]|].
        transitivity (s * s * ((Fi - x) * (Fi + x) * (z * z))); [ring|]. rewrite K. unfold s. rewrite S2. unfold X. fold x. ring. }
      apply (Fmul_cancel_l Fi); [exact Fi_nz|].
      transitivity (- (Fi * Fi) * x * (F1 + s * s)); [ring|]. rewrite Fi_sq.
      transitivity (s * s * (Fi + x) - Fi * (s * s) + x); [ring|]. rewrite E. ring.
  - destruct (add_T4 A) as [ax ay]. apply below_intro; rewrite ?ax, ?ay; fold x; fold y; fold c.
    + apply Fmul_nz; [exact Fi_nz | exact hy].
    + transitivity (Fi * (Fi * (y * (#2 * c * z * (jq_den2 * (Fi * z + X)))))); [ring|]. rewrite i_cancel. unfold Y. fold y. ring.
    + set (s := jq_den2 * (Fi * z + X) * Y).
      assert (E : s * s * (Fi - x) = Fi + x).
      { apply (Fmul_cancel_l ((Fi + x) * (z * z))); [apply Fmul_nz; [exact pi | apply Fmul_nz; exact Hz]|].
        transitivity (s * s * ((Fi - x) * (Fi + x) * (z * z))); [ring|]. rewrite K. unfold s. rewrite S2. unfold X. fold x. ring. }
      apply (Fmul_cancel_l Fi); [exact Fi_nz|].
      transitivity ((Fi * Fi) * x * (F1 + - s * - s)); [ring|]. rewrite Fi_sq.
      transitivity (s * s * (Fi - x) - Fi * (s * s) - x); [ring|]. rewrite E. ring.
Qed.

Lemma Req_E0_coords : Req A E0 <-> ex A = F0 \/ ey A = F0.
Proof.
  unfold Req. rewrite <- E4_iff. replace (Esub A E0) with A; [reflexivity|].
  unfold Esub. rewrite Eopp_0, Eadd_0_r. reflexivity.
Qed.

Lemma below_zeros : below F0 F1 E0 /\ below F1 (Fi * (#2 * Fisdm1)) T4' /\ below (- F1) (Fi * (#2 * Fisdm1)) T4.
Proof.
  refine (conj _ (conj _ _)).
  - unfold below, on_J. cbn [E0 mkE' ex ey]. refine (conj _ (conj _ _)); ring.
  - apply below_intro; cbn [T4' mkE' ex ey].
    + intro h. apply Fi_nz. transitivity (- - Fi); [ring|]. rewrite h. ring.
    + transitivity (- (Fi * (Fi * (#2 * Fisdm1)))); [ring|]. rewrite i_cancel. ring.
    + ring.
  - apply below_intro; cbn [T4 mkE' ex ey].
    + exact Fi_nz.
    + rewrite i_cancel. ring.
    + ring.
Qed.
Lemma below_zero_list s t : In (s, t) [(F0, F1); (F0, F1); (F1, Fi * (#2 * Fisdm1)); (- F1, Fi * (#2 * Fisdm1))] ->
  exists B, below s t B /\ (B = E0 \/ B = T4' \/ B = T4).
Proof.
  destruct below_zeros as (h0 & h1 & h2).
  intros [e|[e|[e|[e|[]]]]]; apply pair_eq in e; destruct e as [<- <-].
  - exists E0. split; [exact h0 | left; reflexivity].
  - exists E0. split; [exact h0 | left; reflexivity].
  - exists T4'. split; [exact h1 | right; left; reflexivity].
  - exists T4. split; [exact h2 | right; right; reflexivity].
Qed.

Lemma jq_sound s t : In (s, t) jq -> exists B, below s t B /\ Req B A.
Proof.
  intro h. destruct (F_dec (ex A) F0) as [hx|hx]; [|destruct (F_dec (ey A) F0) as [hy|hy]].
  1,2: assert (hz : ex A = F0 \/ ey A = F0) by auto; rewrite (jq_zero hz) in h;
    destruct (below_zero_list s t h) as (B & hB & hc); exists B; (split; [exact hB|]);
    apply Req_E0_coords in hz; apply Req_sym in hz; apply (Req_trans B E0 A); [|exact hz];
    apply Req_coset; destruct hc as [->|[->| ->]]; [left; reflexivity | right; right; right | right; right; left]; rewrite Eadd_0_l; reflexivity.
  destruct (jq_main hx hy) as (s0 & t0 & s1 & t1 & s2 & t2 & s3 & t3 & e & b0 & b1 & b2 & b3). rewrite e in h.
  destruct h as [h|[h|[h|[h|[]]]]]; apply pair_eq in h; destruct h as [<- <-].
  - exists A. split; [exact b0 | apply Req_coset; left; reflexivity].
  - exists (Eadd A T2). split; [exact b1 | apply Req_coset; right; left; reflexivity].
  - exists (Eadd A T4'). split; [exact b2 | apply Req_coset; right; right; right; reflexivity].
  - exists (Eadd A T4). split; [exact b3 | apply Req_coset; right; right; left; reflexivity].
Qed.
Lemma jq_complete s t B : below s t B -> Req B A -> s <> F0 -> In (s, t) jq \/ In (- s, - t) jq.
Proof.
  intros hB hR hs.
  assert (fin : forall s' t' : F, below s' t' B -> In (s', t') jq -> In (s, t) jq \/ In (- s, - t) jq).
  { intros s' t' hb hin. destruct (below_same s t s' t' B hB hb hs) as [[-> ->]|[-> ->]]; [left | right]; exact hin. }
  destruct (F_dec (ex A) F0) as [hx|hx]; [|destruct (F_dec (ey A) F0) as [hy|hy]].
  1,2: assert (hz : ex A = F0 \/ ey A = F0) by auto; rewrite (jq_zero hz) in fin |- *; apply Req_E0_coords in hz;
    pose proof (Req_trans _ _ _ hR hz) as hR'; apply Req_coset in hR'; rewrite !Eadd_0_l in hR';
    destruct below_zeros as (h0 & h1 & h2);
    destruct hR' as [e|[e|[e|e]]];
    [ exfalso; apply hs; apply (below_x0 s t B hB); rewrite e; reflexivity
    | exfalso; apply hs; apply (below_x0 s t B hB); rewrite e; reflexivity
    | rewrite <- e in h2; apply (fin _ _ h2); right; right; right; left; reflexivity
    | rewrite <- e in h1; apply (fin _ _ h1); right; right; left; reflexivity ].
  destruct (jq_main hx hy) as (s0 & t0 & s1 & t1 & s2 & t2 & s3 & t3 & e & b0 & b1 & b2 & b3). rewrite e in *.
  apply Req_coset in hR. destruct hR as [h|[h|[h|h]]].
  - rewrite <- h in b0. apply (fin _ _ b0). left. reflexivity.
  - rewrite <- h in b1. apply (fin _ _ b1). right. left. reflexivity.
  - rewrite <- h in b3. apply (fin _ _ b3). right. right. right. left. reflexivity.
  - rewrite <- h in b2. apply (fin _ _ b2). right. right. left. reflexivity.
Qed.

(** ** The inverse on cosets *)
Definition jq8 : list (F * F) := flat_map (fun q => [q; (- fst q, - snd q)]) jq.
Definition reported (f : F) : Prop := exists s t, In (s, t) jq8 /\ inv_ret s t = true /\ inv_out s t = f.

Lemma jq8_in s t : In (s, t) jq8 <-> In (s, t) jq \/ In (- s, - t) jq.
Proof.
  unfold jq8. rewrite in_flat_map. split.
  - intros ((s' & t') & h & [e|[e|[]]]); cbn [fst snd] in e; apply pair_eq in e; destruct e as [e1 e2].
    + left. rewrite <- e1, <- e2. exact h.
    + right. rewrite <- e1, <- e2. replace (- - s') with s' by ring. replace (- - t') with t' by ring. exact h.
  - intros [h|h]; eexists; (split; [exact h|]); [left; reflexivity | right; left; cbn [fst snd]].
    replace (- - s) with s by ring. replace (- - t) with t by ring. reflexivity.
Qed.
Lemma jq8_sound s t : In (s, t) jq8 -> exists B, below s t B /\ Req B A.
Proof.
  intro h. apply jq8_in in h. destruct h as [h|h]; [exact (jq_sound s t h)|].
  destruct (jq_sound _ _ h) as (B & hB & hR). exists B. split; [|exact hR]. apply below_neg in hB.
  replace (- - s) with s in hB by ring. replace (- - t) with t in hB by ring. exact hB.
Qed.

Lemma ell_E0 f s t : ell f s t -> s = F0 -> rfc_map f E0.
Proof.
  intros h ->. destruct (below_exists F0 t (ell_on_J _ _ _ h)) as [B hB]. destruct (below_s0 t B hB) as [e _].
  rewrite <- e. exact (ell_rfc f F0 t B h hB).
Qed.
Lemma rfc_E0 f : f = F0 \/ f * f = Fi * Fd \/ Fd * (f * f) = Fi -> rfc_map f E0.
Proof. intro h. destruct (ell_exists f) as (s & t & e). apply (ell_E0 f s t e). apply (ell_s0 f s t e). exact h. Qed.

Theorem reported_sound f : reported f -> Fneg f = false /\ exists B, rfc_map f B /\ Req B A.
Proof.
  intros (s & t & hin & hr & <-). split; [apply inv_out_nonneg|]. destruct (jq8_sound s t hin) as (B & hB & hR).
  destruct (F_dec s F0) as [e|hs].
  - rewrite e in *. destruct (below_s0 t B hB) as [-> _]. destruct (inv_s0 t) as [_ ->]. exists E0. split; [|exact hR].
    apply rfc_E0. destruct (Feqb t F1); [right; left; exact Fsqrt_id_sq | left; reflexivity].
  - exists B. split; [|exact hR]. apply (ell_rfc _ s t); [|exact hB]. apply inv_ok; [exact (proj1 hB) | exact hs | exact hr].
Qed.
Theorem reported_complete f B : Fneg f = false -> rfc_map f B -> Req B A -> f <> Fsqrt_iod -> reported f.
Proof.
  intros hf hm hR hne. destruct (rfc_ell f B hm) as (s & t & he & hB). destruct (F_dec s F0) as [e|hs].
  - (* the identity *)
    rewrite e in hB. destruct (below_s0 t B hB) as [eB _]. rewrite eB in hR. apply Req_sym, Req_E0_coords in hR.
    assert (in1 : In (F0, F1) jq8) by (apply jq8_in; left; rewrite (jq_zero hR); left; reflexivity).
    assert (in2 : In (F0, - F1) jq8).
    { apply jq8_in. right. rewrite (jq_zero hR). left. f_equal; ring. }
    apply (ell_s0 f s t he) in e. destruct e as [e|[e|e]].
    + exists F0, (- F1). refine (conj in2 _). destruct (inv_s0 (- F1)) as [e1 e2].
      rewrite (Feqb_neq (- F1) F1) in e2 by (intro h; exact (F1_neq_opp (eq_sym h))). rewrite e. split; assumption.
    + exists F0, F1. refine (conj in1 _). destruct (inv_s0 F1) as [e1 e2]. rewrite (Feqb_refl' F1) in e2.
      split; [exact e1|]. rewrite e2. apply Fnonneg_sq_unique; [exact Fsqrt_id_nonneg | exact hf|]. rewrite Fsqrt_id_sq. symmetry. exact e.
    + exfalso. apply hne. apply Fnonneg_sq_unique; [exact hf | exact Fsqrt_iod_nonneg|].
      apply (Fmul_cancel_l Fd); [exact Fd_nz|]. rewrite e. symmetry. exact Fsqrt_iod_sq.
  - destruct (inv_all s t f hs he hf) as [e1 e2]. exists s, t. refine (conj _ (conj e1 e2)). apply jq8_in.
    exact (jq_complete s t B hB hR hs).
Qed.
Lemma iod_not_reported : ~ reported Fsqrt_iod.
Proof.
  intros (s & t & hin & hr & he). destruct (F_dec s F0) as [e|hs].
  - rewrite e in he. destruct (inv_s0 t) as [_ e2]. rewrite e2 in he. destruct (Feqb t F1); apply (f_equal fval) in he; vm_compute in he; discriminate.
  - destruct (jq8_sound s t hin) as (B & hB & _). pose proof (inv_ok s t (proj1 hB) hs hr) as h. rewrite he in h.
    apply hs. apply (ell_s0 _ _ _ h). right. right. exact Fsqrt_iod_sq.
Qed.
Lemma rfc_iod B : rfc_map Fsqrt_iod B -> B = E0.
Proof. intro h. apply (rfc_map_unique Fsqrt_iod); [exact h|]. apply rfc_E0. right. right. exact Fsqrt_iod_sq. Qed.


(** entries of [jq8] with s <> 0 are pairwise different *)
Lemma self_opp s : s = - s -> s = F0.
Proof.
  intro h. assert (e : #2 * s = F0) by (rewrite two_two; transitivity (s + s); [ring|]; rewrite h at 1; ring).
  apply Fmul_0 in e. destruct e as [e|e]; [destruct (F2_nz e) | exact e].
Qed.
Lemma coset_distinct : A <> Eadd A T2 /\ A <> Eadd A T4 /\ A <> Eadd A T4' /\ Eadd A T2 <> Eadd A T4 /\ Eadd A T2 <> Eadd A T4' /\ Eadd A T4 <> Eadd A T4'.
Proof.
  assert (N : F0 <> F1 /\ F1 <> - F1 /\ F0 <> Fi /\ F0 <> - Fi /\ Fi <> - Fi).
  { refine (conj _ (conj _ (conj _ (conj _ _)))); intro h; apply (f_equal fval) in h; vm_compute in h; discriminate h. }
  destruct N as (n1 & n2 & n3 & n4 & n5).
  assert (C : forall P Q, Eadd A P = Eadd A Q -> P = Q) by (intros P Q h; exact (Eadd_cancel_l A P Q h)).
  assert (Z0 : A = Eadd A E0) by (symmetry; apply Eadd_0_r).
  refine (conj _ (conj _ (conj _ (conj _ (conj _ _))))); intro h;
    [apply (eq_trans (eq_sym Z0)) in h | apply (eq_trans (eq_sym Z0)) in h | apply (eq_trans (eq_sym Z0)) in h | | |]; apply C in h.
  - apply (f_equal ey) in h. exact (n2 h).
  - apply (f_equal ex) in h. exact (n3 h).
  - apply (f_equal ex) in h. exact (n4 h).
  - apply (f_equal ex) in h. exact (n3 h).
  - apply (f_equal ex) in h. exact (n4 h).
  - apply (f_equal ex) in h. exact (n5 h).
Qed.
Lemma pair_neg (s t s' t' : F) B : below s t B -> (s', t') = (s, t) \/ (s', t') = (- s, - t) -> below s' t' B.
Proof. intros h [e|e]; apply pair_eq in e; destruct e as [-> ->]; [exact h | apply below_neg; exact h]. Qed.

Lemma jq8_distinct j k : (j < k < 8)%nat -> nth j jq8 (F0, F0) = nth k jq8 (F0, F0) -> fst (nth j jq8 (F0, F0)) = F0.
Proof.
  intros hjk h. 
  assert (G : exists s0 t0 s1 t1 s2 t2 s3 t3 B0 B1 B2 B3, jq = [(s0, t0); (s1, t1); (s2, t2); (s3, t3)] /\
    below s0 t0 B0 /\ below s1 t1 B1 /\ below s2 t2 B2 /\ below s3 t3 B3 /\
    (B0 = B1 -> s0 = F0) /\ B0 <> B2 /\ B0 <> B3 /\ B1 <> B2 /\ B1 <> B3 /\ B2 <> B3).
  { destruct coset_distinct as (c1 & c2 & c3 & c4 & c5 & c6).
    destruct (F_dec (ex A) F0) as [hx|hx]; [|destruct (F_dec (ey A) F0) as [hy|hy]].
    1,2: assert (hz : ex A = F0 \/ ey A = F0) by auto; exists F0, F1, F0, F1, F1, (Fi * (#2 * Fisdm1)), (- F1), (Fi * (#2 * Fisdm1)), E0, E0, T4', T4;
      destruct below_zeros as (b0 & b1 & b2); refine (conj (jq_zero hz) (conj b0 (conj b0 (conj b1 (conj b2 (conj (fun _ => eq_refl) _))))));
      assert (N : F0 <> Fi /\ F0 <> - Fi /\ - Fi <> Fi)
        by (refine (conj _ (conj _ _)); intro e; apply (f_equal fval) in e; vm_compute in e; discriminate e);
      destruct N as (n1 & n2 & n3); refine (conj _ (conj _ (conj _ (conj _ _)))); intro e; apply (f_equal ex) in e;
      [exact (n2 e) | exact (n1 e) | exact (n2 e) | exact (n1 e) | exact (n3 e)].
    destruct (jq_main hx hy) as (s0 & t0 & s1 & t1 & s2 & t2 & s3 & t3 & e & b0 & b1 & b2 & b3).
    exists s0, t0, s1, t1, s2, t2, s3, t3, A, (Eadd A T2), (Eadd A T4'), (Eadd A T4).
    refine (conj e (conj b0 (conj b1 (conj b2 (conj b3 (conj (fun x => False_ind _ (c1 x)) (conj c3 (conj c2 (conj c5 (conj c4 _)))))))))).
    intro x. exact (c6 (eq_sym x)). }
  destruct G as (s0 & t0 & s1 & t1 & s2 & t2 & s3 & t3 & B0 & B1 & B2 & B3 & e & b0 & b1 & b2 & b3 & d01 & d02 & d03 & d12 & d13 & d23).
  unfold jq8 in *. rewrite e in *. cbn [flat_map app fst snd] in *. clear e.
  assert (D01 : B0 = B1 -> - s0 = F0) by (intro x; rewrite (d01 x); ring).
  pose proof (below_neg _ _ _ b0) as b0'. pose proof (below_neg _ _ _ b1) as b1'. pose proof (below_neg _ _ _ b2) as b2'. pose proof (below_neg _ _ _ b3) as b3'.
  destruct j as [|[|[|[|[|[|[|j]]]]]]]; try lia; destruct k as [|[|[|[|[|[|[|[|k]]]]]]]]; try lia; cbn [nth fst] in *;
    apply pair_eq in h; destruct h as [h1 h2];
    lazymatch type of h1 with
    | ?a = - ?a => exact (self_opp a h1)
    | ?a = ?c => lazymatch type of h2 with ?b = ?d =>
      lazymatch goal with Ha : below a b ?X, Hc : below c d ?Y |- _ =>
        assert (EE : X = Y) by (apply (below_unique a b X Y Ha); rewrite h1, h2; exact Hc);
        lazymatch goal with
        | n : X <> Y |- _ => destruct (n EE)
        | n : X = Y -> a = F0 |- _ => exact (n EE)
        end end end
    end.
Qed.

Lemma out_distinct j k : (j < k < 8)%nat ->
  let qj := nth j jq8 (F0, F0) in let qk := nth k jq8 (F0, F0) in
  inv_ret (fst qj) (snd qj) = true -> inv_ret (fst qk) (snd qk) = true -> inv_out (fst qj) (snd qj) = inv_out (fst qk) (snd qk) ->
  inv_out (fst qj) (snd qj) = F0 \/ inv_out (fst qj) (snd qj) = Fsqrt_id.
Proof.
  intros hjk qj qk rj rk e.
  assert (len : length jq8 = 8%nat) by reflexivity.
  assert (Z0 : forall q : F * F, fst q = F0 -> inv_out (fst q) (snd q) = F0 \/ inv_out (fst q) (snd q) = Fsqrt_id).
  { intros q hq. rewrite hq. destruct (inv_s0 (snd q)) as [_ ->]. destruct (Feqb (snd q) F1); [right | left]; reflexivity. }
  destruct (F_dec (fst qj) F0) as [zz|nj]; [exact (Z0 qj zz)|]. destruct (F_dec (fst qk) F0) as [zz|nk]; [rewrite e; exact (Z0 qk zz)|].
  assert (J : forall q, In q jq8 -> on_J (fst q) (snd q)).
  { intros [s t] hq. destruct (jq8_sound s t hq) as (B & hB & _). exact (proj1 hB). }
  assert (ij : In qj jq8) by (apply nth_In; rewrite len; lia). assert (ik : In qk jq8) by (apply nth_In; rewrite len; lia).
  pose proof (inv_ok _ _ (J qj ij) nj rj) as e1. pose proof (inv_ok _ _ (J qk ik) nk rk) as e2. rewrite <- e in e2.
  destruct (ell_unique _ _ _ _ _ e1 e2) as [g1 g2]. exfalso. apply nj. apply (jq8_distinct j k hjk).
  fold qj. fold qk. destruct qj as [a b], qk as [c d]. cbn [fst snd] in g1, g2. rewrite g1, g2. reflexivity.
Qed.
End Quartic.
