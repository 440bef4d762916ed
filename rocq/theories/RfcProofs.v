(** The functions of RFC 9496 (Rfc9496.v) on the curve: decoding, encoding, equality, the map and the group
    operations in terms of the points they represent. *)
From Coq Require Import ZArith Znumtheory List Lia Bool Ring Field.
From Verif Require Import Words Primes NumTheory Fp AbGroup Edwards GroupOrder RistrettoSpec FieldModel FieldLaws CurveModel CurveProofs EncodeProofs
  ScalarMultProofs ElligatorSpec ElligatorMath.
From Verif Require Rfc9496.
Import ListNotations.
Open Scope Z_scope.

(** ** Field arithmetic *)
Lemma P_p : Rfc9496.P = p. Proof. vm_compute. reflexivity. Qed.
Lemma z_add a b : of_Z (Rfc9496.fadd a b) = (of_Z a + of_Z b)%F.
Proof. unfold Rfc9496.fadd. rewrite P_p, of_Z_mod. apply of_Z_add. Qed.
Lemma z_sub a b : of_Z (Rfc9496.fsub a b) = (of_Z a - of_Z b)%F.
Proof. unfold Rfc9496.fsub. rewrite P_p, of_Z_mod. apply of_Z_sub. Qed.
Lemma z_mul a b : of_Z (Rfc9496.fmul a b) = (of_Z a * of_Z b)%F.
Proof. unfold Rfc9496.fmul. rewrite P_p, of_Z_mod. apply of_Z_mul. Qed.
Lemma z_neg a : of_Z (Rfc9496.fneg a) = (- of_Z a)%F.
Proof. unfold Rfc9496.fneg. rewrite P_p, of_Z_mod. apply of_Z_opp. Qed.
Lemma z_sq a : of_Z (Rfc9496.fsq a) = (of_Z a * of_Z a)%F.
Proof. apply z_mul. Qed.
Lemma z_pow_pos a e : of_Z (Rfc9496.fpow_pos a e) = Fpow (of_Z a) (Zpos e).
Proof.
  induction e as [e ih|e ih|]; cbn [Rfc9496.fpow_pos].
  - rewrite z_mul, z_sq, ih. replace (Zpos e~1) with (Zpos e + Zpos e + 1) by lia. rewrite !Fpow_add, Fpow_1 by lia. reflexivity.
  - rewrite z_sq, ih. replace (Zpos e~0) with (Zpos e + Zpos e) by lia. rewrite Fpow_add by lia. reflexivity.
  - rewrite P_p, of_Z_mod, Fpow_1. reflexivity.
Qed.
Lemma z_pow a e : 0 <= e -> of_Z (Rfc9496.fpow a e) = Fpow (of_Z a) e.
Proof. intro h. destruct e as [|e|e]; cbn [Rfc9496.fpow]; [reflexivity | apply z_pow_pos | lia]. Qed.
Lemma z_isneg a : Rfc9496.IS_NEGATIVE a = Fneg (of_Z a).
Proof. unfold Rfc9496.IS_NEGATIVE. rewrite P_p. reflexivity. Qed.
Lemma z_eq a b : Rfc9496.CT_EQ a b = Feqb (of_Z a) (of_Z b).
Proof. unfold Rfc9496.CT_EQ. rewrite P_p. reflexivity. Qed.
Lemma z_abs a : of_Z (Rfc9496.CT_ABS a) = Fabs (of_Z a).
Proof. unfold Rfc9496.CT_ABS, Fabs. rewrite z_isneg. destruct (Fneg (of_Z a)); [apply z_neg | rewrite P_p; apply of_Z_mod]. Qed.
Lemma z_if (c : bool) a b : of_Z (if c then a else b) = if c then of_Z a else of_Z b.
Proof. destruct c; reflexivity. Qed.
Lemma z_D : of_Z Rfc9496.D = Fd. Proof. reflexivity. Qed.
Lemma z_i : of_Z Rfc9496.SQRT_M1 = Fi. Proof. reflexivity. Qed.
Lemma z_sad : of_Z Rfc9496.SQRT_AD_MINUS_ONE = Fsadm1. Proof. reflexivity. Qed.
Lemma z_isd : of_Z Rfc9496.INVSQRT_A_MINUS_D = (- Fisdm1)%F. Proof. apply F_eq. vm_compute. reflexivity. Qed.
Lemma z_omd : of_Z Rfc9496.ONE_MINUS_D_SQ = (F1 - Fd * Fd)%F. Proof. apply F_eq. vm_compute. reflexivity. Qed.
Lemma z_dmo : of_Z Rfc9496.D_MINUS_ONE_SQ = ((Fd - F1) * (Fd - F1))%F. Proof. apply F_eq. vm_compute. reflexivity. Qed.
Lemma canon_red x : 0 <= x mod p < p. Proof. apply Z.mod_pos_bound, p_pos. Qed.
Lemma abs_range a : 0 <= Rfc9496.CT_ABS a < p.
Proof. unfold Rfc9496.CT_ABS, Rfc9496.fneg. rewrite P_p. destruct (Rfc9496.IS_NEGATIVE a); apply canon_red. Qed.
Lemma fval_small x : 0 <= x < p -> fval (of_Z x) = x.
Proof. intro h. cbn. apply Z.mod_small, h. Qed.
#[export] Hint Rewrite z_add z_sub z_mul z_neg z_sq z_isneg z_eq z_abs z_if z_D z_i z_sad z_isd z_omd z_dmo : rfc.

(** ** SQRT_RATIO_M1 *)
Section Ratio.
Open Scope F_scope.
Lemma pow_cube x : Fpow x 3 = x * x * x.
Proof. change 3%Z with (2 + 1)%Z. rewrite Fpow_add, Fpow_2, Fpow_1 by lia. reflexivity. Qed.
(** v r^2 = u w with w = (u v^7)^((p-1)/4), and w^2 = chi (u v) *)
Lemma ratio_check u v :
  let r := u * (v * v * v) * Fpow (u * (v * v * v * (v * v * v) * v)) ((p - 5) / 8) in
  v * (r * r) = u * Fpow (u * (v * v * v * (v * v * v) * v)) ((p - 1) / 4).
Proof.
  cbv zeta. set (a := u * (v * v * v * (v * v * v) * v)). set (q := Fpow a ((p - 5) / 8)).
  assert (e : Fpow a ((p - 1) / 4) = q * q * a).
  { unfold q. replace ((p - 1) / 4)%Z with ((p - 5) / 8 + (p - 5) / 8 + 1)%Z by (vm_compute; reflexivity).
    rewrite !Fpow_add, Fpow_1 by (vm_compute; discriminate). reflexivity. }
  rewrite e. clearbody q. unfold a. ring.
Qed.
Lemma quarter a : a <> F0 -> let w := Fpow a ((p - 1) / 4) in
  (is_sq a /\ (w = F1 \/ w = - F1)) \/ (~ is_sq a /\ (w = Fi \/ w = - Fi)).
Proof.
  intros ha w.
  assert (e : w * w = chi a).
  { unfold w, chi. rewrite <- Fpow_add by (vm_compute; discriminate).
    replace ((p - 1) / 4 + (p - 1) / 4)%Z with ((p - 1) / 2)%Z by (vm_compute; reflexivity). reflexivity. }
  destruct (is_sq_dec a) as [h|h].
  - left. split; [exact h|]. apply Fsq_eq. rewrite e. rewrite (proj1 (is_sq_chi a ha) h). ring.
  - right. split; [exact h|]. apply Fsq_eq. rewrite e. rewrite (proj1 (not_sq_chi a ha) h), Fi_sq. reflexivity.
Qed.
Lemma m1_1 : - F1 <> F1. Proof. intro h. exact (F1_neq_opp (eq_sym h)). Qed.
Lemma i_1 : Fi <> F1. Proof. intro h. apply Fi_nsq. rewrite h. exists F1. ring. Qed.
Lemma i_m1 : Fi <> - F1. Proof. intro h. apply Fi_nsq. rewrite h. apply is_sq_opp. exists F1. ring. Qed.
Lemma mi_1 : - Fi <> F1. Proof. intro h. apply i_m1. rewrite <- h. ring. Qed.
Lemma mi_m1 : - Fi <> - F1. Proof. intro h. apply i_1. transitivity (- - Fi); [ring|]. rewrite h. ring. Qed.
Lemma i_mi : Fi <> - Fi. Proof. intro h. apply Fi_nz. apply Fopp_eq, h. Qed.
Lemma feq_scale u a b : u <> F0 -> Feqb (u * a) (u * b) = Feqb a b.
Proof.
  intro h. apply eq_true_iff_eq. rewrite !Feqb_eq. split; [apply Fmul_cancel_l, h | intros ->; reflexivity].
Qed.
Lemma feq_no a b : a <> b -> Feqb a b = false.
Proof. intro h. destruct (Feqb a b) eqn:e; [|reflexivity]. apply Feqb_eq in e. destruct (h e). Qed.
Lemma feq_yes a : Feqb a a = true. Proof. apply Feqb_eq. reflexivity. Qed.

Lemma sqrt_ratio_m1_ok u v : sqrt_ratio (of_Z u) (of_Z v) (fst (Rfc9496.SQRT_RATIO_M1 u v)) (of_Z (snd (Rfc9496.SQRT_RATIO_M1 u v))).
Proof.
  unfold Rfc9496.SQRT_RATIO_M1. cbv zeta. cbn [fst snd].
  set (r := Rfc9496.fmul (Rfc9496.fmul u _) _). set (check := Rfc9496.fmul v (Rfc9496.fsq r)).
  assert (er : of_Z r = of_Z u * (of_Z v * of_Z v * of_Z v) * Fpow (of_Z u * (of_Z v * of_Z v * of_Z v * (of_Z v * of_Z v * of_Z v) * of_Z v)) ((p - 5) / 8)).
  { unfold r. rewrite z_mul, z_pow by (vm_compute; discriminate). rewrite P_p. autorewrite with rfc. reflexivity. }
  assert (ec : of_Z check = of_Z u * Fpow (of_Z u * (of_Z v * of_Z v * of_Z v * (of_Z v * of_Z v * of_Z v) * of_Z v)) ((p - 1) / 4)).
  { unfold check. rewrite z_mul, z_sq, er. exact (ratio_check (of_Z u) (of_Z v)). }
  assert (ev : of_Z check = of_Z v * (of_Z r * of_Z r)) by (unfold check; rewrite z_mul, z_sq; reflexivity).
  autorewrite with rfc. clearbody check.
  set (U := of_Z u) in *. set (V := of_Z v) in *. set (rr := of_Z r) in *. set (c := of_Z check) in *. clearbody U V rr c.
  split; [apply Fabs_nonneg|].
  destruct (F_dec U F0) as [u0|u0].
  { left. refine (conj u0 _). rewrite ec, u0.
    replace (F0 * _) with F0 by ring. rewrite feq_yes. refine (conj eq_refl _).
    assert (rr = F0) as -> by (rewrite er, u0; ring). rewrite orb_comm.
    destruct (_ || _)%bool; [replace (Fi * F0) with F0 by ring|]; apply Fabs_id, Fneg_0. }
  right. destruct (F_dec V F0) as [v0|v0].
  { left. assert (r0 : rr = F0) by (rewrite er, v0; ring). assert (c0 : c = F0) by (rewrite ev, r0; ring).
    refine (conj u0 (conj v0 _)). rewrite c0, !feq_no; cbn [orb].
    - split; [reflexivity|]. rewrite r0. apply Fabs_id, Fneg_0.
    - intro h. apply u0. apply (proj1 (Fopp_0_iff U)). symmetry in h. apply Fmul_0 in h. destruct h as [h|h]; [exact h | destruct (Fi_nz h)].
    - intro h. apply u0. apply (proj1 (Fopp_0_iff U)). symmetry. exact h.
    - intro h. apply u0. symmetry. exact h. }
  right.
  assert (a0 : U * (V * V * V * (V * V * V) * V) <> F0) by (repeat apply Fmul_nz; assumption).
  assert (sq : is_sq (U * (V * V * V * (V * V * V) * V)) <-> is_sq (U / V)).
  { split; intro h.
    - apply (is_sq_cancel (V * V * (V * V) * (V * V) * (V * V))); [repeat apply Fmul_nz; assumption | |].
      + exists (V * V * (V * V)). ring.
      + replace (V * V * (V * V) * (V * V) * (V * V) * (U / V)) with (U * (V * V * V * (V * V * V) * V)) by (field; exact v0). exact h.
    - replace (U * (V * V * V * (V * V * V) * V)) with (V * V * (V * V) * (V * V) * (V * V) * (U / V)) by (field; exact v0).
      apply is_sq_mul; [|exact h]. exists (V * V * (V * V)). ring. }
  pose proof (quarter _ a0) as hq. cbv zeta in hq. set (w := Fpow _ ((p - 1) / 4)) in *. clearbody w.
  assert (e1 : Feqb c U = Feqb w F1).
  { rewrite ec. replace U with (U * F1) at 2 by ring. apply feq_scale, u0. }
  assert (e2 : Feqb c (- U) = Feqb w (- F1)).
  { rewrite ec. replace (- U) with (U * - F1) by ring. apply feq_scale, u0. }
  assert (e3 : Feqb c (- U * Fi) = Feqb w (- Fi)).
  { rewrite ec. replace (- U * Fi) with (U * - Fi) by ring. apply feq_scale, u0. }
  rewrite e1, e2, e3. rewrite Fabs_sq.
  assert (hr : rr * rr = U / V * w).
  { apply (Fmul_cancel_l V); [exact v0|]. rewrite <- ev, ec. field. exact v0. }
  rewrite !sq in hq. clear e1 e2 e3 ec ev er a0 sq.
  destruct hq as [[hs [-> | ->]] | [hs [-> | ->]]].
  - left. refine (conj u0 (conj v0 _)). rewrite feq_yes, (feq_no F1 (- F1)), (feq_no F1 (- Fi));
      [|exact (fun h => mi_1 (eq_sym h)) | exact F1_neq_opp]. cbn [orb]. split; [reflexivity|]. rewrite hr. ring.
  - left. refine (conj u0 (conj v0 _)). rewrite feq_yes, (feq_no (- F1) F1) by exact m1_1. cbn [orb]. split; [reflexivity|].
    transitivity ((Fi * Fi) * (rr * rr)); [ring|]. rewrite hr, Fi_sq. ring.
  - right. refine (conj u0 (conj v0 (conj hs _))). rewrite (feq_no Fi F1), (feq_no Fi (- F1)), (feq_no Fi (- Fi));
      [| exact i_mi | exact i_m1 | exact i_1]. cbn [orb]. split; [reflexivity|]. rewrite hr. ring.
  - right. refine (conj u0 (conj v0 (conj hs _))). rewrite (feq_no (- Fi) F1), (feq_no (- Fi) (- F1)), feq_yes;
      [| exact mi_m1 | exact mi_1]. cbn [orb]. split; [reflexivity|].
    transitivity ((Fi * Fi) * (rr * rr)); [ring|]. rewrite hr, Fi_sq. ring.
Qed.

(** 1/sqrt *)
Lemma ratio_1 t ws r : sqrt_ratio F1 t ws r ->
  (ws = true <-> t <> F0 /\ is_sq t) /\ (ws = true -> r * r * t = F1) /\ (t = F0 -> r = F0).
Proof.
  intros (hn & h).
  destruct h as [(h0 & -> & h1) | [(h0 & h1 & -> & h2) | [(h0 & h1 & -> & h2) | (h0 & h1 & h2 & -> & h3)]]].
  - destruct (F1_neq_0 h0).
  - refine (conj _ (conj _ _)); [|discriminate | intros _; exact h2]. split; [discriminate|]. intros [h _]. destruct (h h1).
  - refine (conj _ (conj _ _)).
    + split; [|reflexivity]. intros _. split; [exact h1|]. exists (r * t). transitivity ((r * r) * t * t); [ring|]. rewrite h2. field. exact h1.
    + intros _. rewrite h2. field. exact h1.
    + intro h. destruct (h1 h).
  - refine (conj _ (conj _ _)); [|discriminate | intro h; destruct (h1 h)]. split; [discriminate|]. intros [_ [a ha]]. exfalso. apply h2.
    exists (a / t). transitivity (a * a / (t * t)); [field; exact h1|]. rewrite ha. field. exact h1.
Qed.
End Ratio.

(** ** Representations *)
Definition stands (q : Rfc9496.rep) (A : E) : Prop :=
  let '(x, y, z, t) := q in
  of_Z z <> F0 /\ of_Z x = (ex A * of_Z z)%F /\ of_Z y = (ey A * of_Z z)%F /\ of_Z t = (ex A * ey A * of_Z z)%F.

Lemma stands_unique q A B : stands q A -> stands q B -> A = B.
Proof.
  destruct q as [[[x y] z] t]. intros (hz & h1 & h2 & _) (_ & g1 & g2 & _). apply E_eq; apply (Fmul_cancel_l (of_Z z) _ _ hz).
  - transitivity (of_Z x); [rewrite h1; ring | rewrite g1; ring].
  - transitivity (of_Z y); [rewrite h2; ring | rewrite g2; ring].
Qed.

Lemma of_bytes_eq b : Rfc9496.of_bytes b = le_val b.
Proof. induction b as [|x b ih]; [reflexivity|]. cbn [Rfc9496.of_bytes fold_right le_val]. unfold Rfc9496.of_bytes in ih. rewrite ih. reflexivity. Qed.
Lemma to_bytes_eq n x : Rfc9496.to_bytes n x = le_bytes n x.
Proof. revert x. induction n as [|n ih]; intro x; [reflexivity|]. cbn [Rfc9496.to_bytes le_bytes]. rewrite ih. reflexivity. Qed.

(** ** ENCODE *)
Section Encode.
Open Scope F_scope.
Lemma Fabs_scale a b e : e = b \/ e = - b -> Fabs (e * a) = Fabs (b * a).
Proof. intros [->| ->]; [reflexivity|]. replace (- b * a) with (- (b * a)) by ring. apply Fabs_opp. Qed.

Lemma encode_ok q A : stands q A -> even A -> exists s, Rfc9496.ENCODE q = le_bytes 32 (fval s) /\ encodes s A.
Proof.
  destruct q as [[[x0 y0] z0] t0]. intros (hz & hx & hy & ht) hA.
  pose proof (enc_encodes A (of_Z z0) hA hz) as HE. cbv zeta in HE.
  pose proof (enc_isr A (of_Z z0) hA hz) as [I0 I1].
  unfold Rfc9496.ENCODE.
  pose proof (sqrt_ratio_m1_ok 1 (Rfc9496.fmul (Rfc9496.fmul (Rfc9496.fadd z0 y0) (Rfc9496.fsub z0 y0)) (Rfc9496.fsq (Rfc9496.fmul x0 y0)))) as hr.
  destruct (Rfc9496.SQRT_RATIO_M1 1 _) as [ws isr]. cbn [fst snd] in hr. cbv zeta.
  eexists. split.
  { rewrite to_bytes_eq. rewrite <- (fval_small (Rfc9496.CT_ABS _)) by apply abs_range. reflexivity. }
  autorewrite with rfc. autorewrite with rfc in hr. change (of_Z 1) with F1 in hr. rewrite ht.
  rewrite hx, hy in hr |- *. set (z := of_Z z0) in *. clearbody z.
  set (u1 := z * z * (F1 - ey A * ey A)) in *. set (u2 := z * z * (ex A * ey A)) in *.
  replace ((z + ey A * z) * (z - ey A * z)) with u1 in hr |- * by (unfold u1; ring).
  replace (ex A * z * (ey A * z)) with u2 in hr |- * by (unfold u2; ring).
  set (i0 := of_Z isr) in *. clearbody i0. set (j := isr_val (u2 * u2 * u1)) in *.
  replace (u1 * (u2 * u2)) with (u2 * u2 * u1) in hr by ring.
  assert (hj : i0 = j \/ i0 = - j).
  { destruct (ratio_1 _ _ _ hr) as (r1 & r2 & r3). destruct (F_dec (ex A * ey A) F0) as [D|D].
    - left. rewrite (I0 D). apply r3. unfold u2. rewrite D. ring.
    - specialize (I1 D). cbv zeta in I1. fold u1 u2 in I1. fold j in I1.
      assert (t0' : u2 * u2 * u1 <> F0) by (intro h; apply F1_neq_0; rewrite <- I1, h; ring).
      assert (ws = true) as W.
      { apply r1. split; [exact t0'|]. exists (j * (u2 * u2 * u1)). transitivity ((j * j * (u2 * u2 * u1)) * (u2 * u2 * u1)); [ring|]. rewrite I1. ring. }
      specialize (r2 W). apply Fsq_eq. apply (Fmul_cancel_l (u2 * u2 * u1) _ _ t0').
      transitivity (i0 * i0 * (u2 * u2 * u1)); [ring|]. rewrite r2, <- I1. ring. }
  assert (hzi : i0 * u1 * (i0 * u2) * (ex A * ey A * z) = j * u1 * (j * u2) * (ex A * ey A * z)) by (destruct hj as [->| ->]; ring).
  rewrite hzi. set (zi := j * u1 * (j * u2) * (ex A * ey A * z)) in *. clearbody zi.
  replace (ex A * ey A * z * zi) with (zi * (ex A * ey A * z)) by ring.
  match goal with |- encodes ?a _ => match type of HE with encodes ?b _ => replace a with b; [exact HE|] end end.
  set (rot := Fneg (zi * (ex A * ey A * z))). clearbody rot.
  replace (ey A * z * Fi) with (Fi * (ey A * z)) by ring. replace (ex A * z * Fi) with (Fi * (ex A * z)) by ring.
  set (ny := if Fneg _ then _ else _). clearbody ny. symmetry.
  transitivity (Fabs ((if rot then Fisdm1 * (j * u1) else j * u2) * (z - ny))).
  - apply Fabs_scale. destruct rot; destruct hj as [->| ->]; ((left; ring) || (right; ring)).
  - f_equal. ring.
Qed.
End Encode.

(** ** DECODE *)
Section Decode.
Open Scope F_scope.
Lemma decode_ok b : length b = 32%nat ->
  let s := of_Z (le_val b) in
  match Rfc9496.DECODE b with
  | Some q => exists A, stands q A /\ snd (fst q) = 1%Z /\ canonical_rep s A /\ (le_val b < p)%Z
  | None => forall A, canonical_rep s A -> (p <= le_val b)%Z
  end.
Proof.
  intros hl s. unfold Rfc9496.DECODE. rewrite hl, of_bytes_eq, P_p. cbn [Nat.eqb negb orb]. cbv zeta.
  destruct (Z.leb_spec p (le_val b)) as [hp|hp]; [intros A _; exact hp|].
  rewrite z_isneg. fold s. destruct (Fneg s) eqn:hs; [intros A (h & _); rewrite hs in h; discriminate h|].
  match goal with |- context [Rfc9496.SQRT_RATIO_M1 1 ?t] => pose proof (sqrt_ratio_m1_ok 1 t) as hr end.
  destruct (Rfc9496.SQRT_RATIO_M1 1 _) as [ws isr]. cbn [fst snd] in hr.
  autorewrite with rfc in hr. change (of_Z 1) with F1 in hr. fold s in hr.
  match goal with |- context [if ?c then _ else _] => set (bad := c) end.
  match goal with |- context [Some (?x, ?y, 1%Z, ?t)] => set (x0 := x) in *; set (y0 := y) in *; set (t0 := t) in * end.
  set (tt := dec_v s * ((F1 + s * s) * (F1 + s * s))).
  assert (et : (- (Fd * ((F1 - s * s) * (F1 - s * s))) - (F1 + s * s) * (F1 + s * s)) * ((F1 + s * s) * (F1 + s * s)) = tt)
    by (unfold tt, dec_v; ring).
  rewrite et in hr. destruct (ratio_1 _ _ _ hr) as (r1 & r2 & _).
  assert (EX : of_Z x0 = Fabs (s * (of_Z isr * (F1 + s * s)) + s * (of_Z isr * (F1 + s * s)))).
  { unfold x0. autorewrite with rfc. fold s. change (of_Z 1) with F1. f_equal. ring. }
  assert (EY : of_Z y0 = (F1 - s * s) * (of_Z isr * (F1 + s * s) * of_Z isr * dec_v s)).
  { unfold y0. autorewrite with rfc. fold s. change (of_Z 1) with F1. unfold dec_v. ring. }
  assert (ET : of_Z t0 = of_Z x0 * of_Z y0) by (unfold t0; rewrite z_mul; reflexivity).
  assert (EB : bad = (negb ws || Fneg (of_Z t0) || Feqb (of_Z y0) F0)%bool).
  { unfold bad. rewrite z_isneg, z_eq. reflexivity. }
  clearbody bad x0 y0 t0. set (i0 := of_Z isr) in *. clearbody i0.
  destruct bad; symmetry in EB.
  - intros A hA. exfalso. pose proof hA as (c1 & c2 & c3 & c4 & c5).
    destruct (dec_complete s A c2) as [tn tsq]. assert (W : ws = true) by (apply r1; split; assumption).
    specialize (r2 W). rewrite W in EB. cbn [negb orb] in EB.
    destruct (dec_sound s i0 (dec_v s) eq_refl r2) as [on yeq].
    rewrite <- EY in yeq. rewrite <- EY, <- EX in on.
    assert (ey A = of_Z y0) as hY.
    { apply (Fmul_cancel_l (F1 + s * s)); [exact (s_denom A s c2)|].
      transitivity (ey A * (F1 + s * s)); [ring|]. rewrite c2, <- yeq. ring. }
    assert (ex A = of_Z x0) as hX.
    { apply Fnonneg_sq_unique; [exact c3 | rewrite EX; apply Fabs_nonneg |].
      pose proof (dec_x s A c2) as x1.
      pose proof (dec_x s (mkE' (of_Z x0) (of_Z y0) on) yeq) as x2. cbn [mkE' ex] in x2.
      apply (Fmul_cancel_l (dec_v s)).
      - intro h0. apply tn. rewrite h0. ring.
      - transitivity (ex A * ex A * dec_v s); [ring|]. rewrite x1, <- x2. ring. }
    rewrite ET, <- hX, <- hY, c4 in EB. cbn [orb] in EB. apply Feqb_eq in EB. exact (c5 EB).
  - apply orb_false_iff in EB. destruct EB as [EB b3]. apply orb_false_iff in EB. destruct EB as [b1 b2].
    apply negb_false_iff in b1. specialize (r2 b1).
    destruct (dec_sound s i0 (dec_v s) eq_refl r2) as [on yeq].
    rewrite <- EY in yeq. rewrite <- EY, <- EX in on.
    exists (mkE' (of_Z x0) (of_Z y0) on). refine (conj _ (conj eq_refl (conj _ hp))).
    + cbn [stands mkE' ex ey]. change (of_Z 1) with F1. refine (conj F1_neq_0 (conj _ (conj _ _))); [ring | ring | rewrite z_mul; ring].
    + unfold canonical_rep. cbn [mkE' ex ey]. refine (conj hs (conj yeq (conj _ (conj _ _)))).
      * rewrite EX. apply Fabs_nonneg.
      * rewrite <- ET. exact b2.
      * apply Feqb_false, b3.
Qed.
Lemma decode_length b : length b <> 32%nat -> Rfc9496.DECODE b = None.
Proof. intro h. unfold Rfc9496.DECODE. destruct (Nat.eqb_spec (length b) 32) as [e|_]; [destruct (h e)|reflexivity]. Qed.

(** ** EQUALS *)
Lemma equals_ok a b A B : stands a A -> stands b B -> (Rfc9496.EQUALS a b = true <-> Req A B).
Proof.
  destruct a as [[[x1 y1] z1] t1], b as [[[x2 y2] z2] t2]. intros (n1 & h1 & h2 & _) (n2 & g1 & g2 & _).
  unfold Rfc9496.EQUALS. rewrite !z_eq, !z_mul, h1, h2, g1, g2, Req_coords.
  set (z := of_Z z1) in *. set (w := of_Z z2) in *. clearbody z w.
  assert (hzw : z * w <> F0) by (apply Fmul_nz; assumption).
  assert (C : forall a b, Feqb (z * w * a) (z * w * b) = Feqb a b) by (intros; apply feq_scale, hzw).
  replace (ex A * z * (ey B * w)) with (z * w * (ex A * ey B)) by ring.
  replace (ey A * z * (ex B * w)) with (z * w * (ex B * ey A)) by ring.
  replace (ex A * z * (ex B * w)) with (z * w * (ex A * ex B)) by ring.
  replace (ey A * z * (ey B * w)) with (z * w * (ey A * ey B)) by ring.
  rewrite !C, orb_true_iff, !Feqb_eq. split; (intros [h|h]; [left; exact h | right; symmetry; exact h]).
Qed.

(** ** MAP *)
Lemma map_ok t : exists A, stands (Rfc9496.MAP t) A /\ rfc_map (of_Z t) A.
Proof.
  destruct (rfc_map_exists (of_Z t)) as [A hA]. exists A. refine (conj _ hA).
  destruct hA as (ws' & s1 & hs & hA). cbv zeta in hs, hA.
  unfold Rfc9496.MAP.
  match goal with |- context [Rfc9496.SQRT_RATIO_M1 ?u ?v] => pose proof (sqrt_ratio_m1_ok u v) as hr; set (u0 := u) in *; set (v0 := v) in * end.
  destruct (Rfc9496.SQRT_RATIO_M1 u0 v0) as [ws s]. cbn [fst snd] in hr.
  set (r := Fi * (of_Z t * of_Z t)) in *.
  assert (eu : of_Z u0 = (r + F1) * (F1 - Fd * Fd)) by (unfold u0; autorewrite with rfc; reflexivity).
  assert (ev : of_Z v0 = (- F1 - r * Fd) * (r + Fd)) by (unfold v0; autorewrite with rfc; reflexivity).
  rewrite eu, ev in hr. destruct (sqrt_ratio_unique _ _ _ _ _ _ hs hr) as [-> e2].
  cbv zeta. cbn [stands]. autorewrite with rfc. rewrite ev, e2. fold r. change (of_Z 1) with F1.
  clear - hA. clearbody r.
  set (v := (- F1 - r * Fd) * (r + Fd)) in *. clearbody v.
  set (s := if ws' then s1 else - Fabs (s1 * of_Z t)) in *. clearbody s.
  set (c := if ws' then - F1 else r) in *. clearbody c.
  set (W := (c * (r - F1) * ((Fd - F1) * (Fd - F1)) - v) * Fsadm1) in *. clearbody W.
  destruct hA as (nz & a1 & a2 & a3).
  refine (conj nz (conj (eq_sym a1) (conj (eq_sym a2) (eq_sym a3)))).
Qed.

(** ** The group operations *)
Lemma add_ok a b A B : stands a A -> stands b B -> stands (Rfc9496.ADD a b) (Eadd A B).
Proof.
  destruct a as [[[x1 y1] z1] t1], b as [[[x2 y2] z2] t2]. intros (n1 & h1 & h2 & h3) (n2 & g1 & g2 & g3).
  unfold Rfc9496.ADD. cbv zeta. cbn [stands]. autorewrite with rfc. rewrite h1, h2, h3, g1, g2, g3.
  set (z := of_Z z1) in *. set (w := of_Z z2) in *. clearbody z w.
  pose proof (ex_add A B) as EX. pose proof (ey_add A B) as EY.
  pose proof (add_nzp A B) as np. pose proof (add_nzm A B) as nm. pose proof (F2z z w n1 n2) as n0.
  set (X := ex (Eadd A B)) in *. set (Y := ey (Eadd A B)) in *. clearbody X Y. unfold prodxy in *.
  set (x := ex A) in *. set (y := ey A) in *. set (x' := ex B) in *. set (y' := ey B) in *. clearbody x y x' y'.
  set (k := #2 * z * w) in *. set (P1 := F1 + Fd * (x * x' * (y * y'))) in *. set (M1 := F1 - Fd * (x * x' * (y * y'))) in *.
  replace ((y * z + x * z) * (y' * w + x' * w) - (y * z - x * z) * (y' * w - x' * w)) with (k * (x * y' + x' * y)) by (unfold k; ring).
  replace ((y * z + x * z) * (y' * w + x' * w) + (y * z - x * z) * (y' * w - x' * w)) with (k * (y * y' + x * x')) by (unfold k; ring).
  replace (z * #2 * w - x * y * z * #2 * Fd * (x' * y' * w)) with (k * M1) by (unfold k, M1; ring).
  replace (z * #2 * w + x * y * z * #2 * Fd * (x' * y' * w)) with (k * P1) by (unfold k, P1; ring).
  rewrite <- EX, <- EY. clearbody k P1 M1.
  refine (conj _ (conj _ (conj _ _))); [repeat apply Fmul_nz; assumption | ring | ring | ring].
Qed.
Lemma neg_ok a A : stands a A -> stands (Rfc9496.NEG a) (Eopp A).
Proof.
  destruct a as [[[x y] z] t]. intros (n & h1 & h2 & h3). unfold Rfc9496.NEG. cbn [stands]. rewrite !z_neg, ex_opp, ey_opp, h1, h2, h3.
  refine (conj n (conj _ (conj _ _))); ring.
Qed.
Lemma identity_ok : stands Rfc9496.IDENTITY E0.
Proof.
  cbn [stands Rfc9496.IDENTITY]. change (ex E0) with F0. change (ey E0) with F1. change (of_Z 1) with F1. change (of_Z 0) with F0.
  refine (conj F1_neq_0 (conj _ (conj _ _))); ring.
Qed.
Lemma generator_ok : stands Rfc9496.GENERATOR EB.
Proof.
  unfold Rfc9496.GENERATOR. cbn [stands]. rewrite z_mul. change (of_Z 1) with F1.
  change (of_Z 15112221349535400772501151409588531511454012693041857206046113283949847762202) with (ex EB).
  change (of_Z 46316835694926478169428394003475163141307993866256225615783033603165251855960) with (ey EB).
  refine (conj F1_neq_0 (conj _ (conj _ _))); ring.
Qed.
Lemma mult_pos_ok n a A : stands a A -> stands (Rfc9496.MULT_pos n a) (Emul (Zpos n) A).
Proof.
  intro h. induction n as [n ih|n ih|]; cbn [Rfc9496.MULT_pos].
  - replace (Zpos n~1) with (2 * Zpos n + 1)%Z by lia. rewrite Emul_succ, <- Emul_dbl. apply add_ok; [apply add_ok; exact ih | exact h].
  - replace (Zpos n~0) with (2 * Zpos n)%Z by lia. rewrite <- Emul_dbl. apply add_ok; exact ih.
  - rewrite Emul_1. exact h.
Qed.
Lemma mult_ok n a A : stands a A -> stands (Rfc9496.MULT n a) (Emul n A).
Proof.
  intro h. destruct n as [|n|n]; cbn [Rfc9496.MULT]; [exact identity_ok | apply mult_pos_ok, h |].
  change (Zneg n) with (- Zpos n)%Z. rewrite Emul_opp. apply neg_ok, mult_pos_ok, h.
Qed.
Lemma derive_ok b : exists A B, stands (Rfc9496.DERIVE b) (Eadd A B) /\
  rfc_map (of_Z (le_val (firstn 32 b) mod 2 ^ 255)) A /\ rfc_map (of_Z (le_val (skipn 32 b) mod 2 ^ 255)) B.
Proof.
  destruct (map_ok (le_val (firstn 32 b) mod 2 ^ 255)) as (A & h1 & h2). destruct (map_ok (le_val (skipn 32 b) mod 2 ^ 255)) as (B & g1 & g2).
  exists A, B. refine (conj _ (conj h2 g2)). unfold Rfc9496.DERIVE, Rfc9496.mask255. rewrite !of_bytes_eq. exact (add_ok _ _ A B h1 g1).
Qed.
End Decode.
