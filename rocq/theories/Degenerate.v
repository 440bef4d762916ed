(** The tuples (0 : 0 : Z : 0) on every build. *)
From Coq Require Import ZArith Znumtheory List Lia Bool Ring Field.
From Verif Require Import Words Primes Fp Edwards GroupOrder RistrettoSpec FieldModel CurveModel FieldLaws CurveProofs ScalarCode ScalarModel
  ScalarReduce ScalarSub ScalarFacts RistrettoModel RistrettoFacts Backends DegenerateFacts DegenerateMult.
From Verif Require ApiModel.
Import ListNotations.
Open Scope Z_scope.

(** X, Y and T are zero modulo p, and the limbs of the four coordinates are within the bounds of a Point *)
Definition blank (b : build) (P : ext (fe (ops b))) : Prop :=
  (limbs b 2 (eX P) /\ limbs b 2 (eY P) /\ limbs b (match b with PureGo64 => 2 | _ => 1 end) (eZ P) /\ limbs b 2 (eT P)) /\
  addable b P /\ value b (eX P) mod p = 0 /\ value b (eY P) mod p = 0 /\ value b (eT P) mod p = 0.
(** blank, or a point that may be the second operand of an addition *)
Definition tuple (b : build) (P : ext (fe (ops b))) : Prop := blank b P \/ exists A, summand b P A.

Lemma mod0 x : x mod p = 0 <-> of_Z x = F0.
Proof. rewrite <- (of_Z_mod x). split; [intros ->; reflexivity|]. intro h. apply (f_equal fval) in h. rewrite fval_of_Z, Z.mod_mod in h by (rewrite p_eq; lia). exact h. Qed.

Lemma blank_deg b P : blank b P <-> deg (laws b) P.
Proof.
  unfold blank, deg. rewrite cN_b, addable_iff, !mod0. split.
  - intros ((b1 & b2 & b3 & b4) & hf & h1 & h2 & h4). exists (of_Z (value b (eZ P))). rewrite !rel_iff.
    exact (conj (conj b1 h1) (conj (conj b2 h2) (conj (conj b3 eq_refl) (conj (conj b4 h4) hf)))).
  - intros (z & h1 & h2 & h3 & h4 & hf). rewrite rel_iff in h1, h2, h3, h4.
    exact (conj (conj (proj1 h1) (conj (proj1 h2) (conj (proj1 h3) (proj1 h4)))) (conj hf (conj (proj2 h1) (conj (proj2 h2) (proj2 h4))))).
Qed.
Lemma tuple_bdf b P : tuple b P -> bdf (laws b) P.
Proof.
  intros [h|[A h]]; [apply deg_bdf, blank_deg, h|]. apply sm_point in h. exact (rf_bdf (laws b) P A (proj1 h)).
Qed.
Lemma point_bd b P A : point b P A -> bd (laws b) P.
Proof. intro h. apply pt_dpoint in h. exact (rd_bd (laws b) P A (proj1 h)). Qed.

Lemma blank_zero b : blank b (ep_zerovalue (ops b)).
Proof. apply blank_deg, deg_zv. Qed.
Lemma blank_undecoded b buf : bytes 32 buf -> fst (pt_SetBytes (ops b) buf) = false -> blank b (snd (pt_SetBytes (ops b) buf)).
Proof.
  intros hb h. destruct (b_decode b buf hb) as [(P & A & e & _)|[e _]].
  - rewrite e in h. discriminate h.
  - rewrite e. exact (blank_zero b).
Qed.
Lemma blank_invalid b P : blank b P -> forall A, ~ point b P A.
Proof.
  intros (_ & _ & h1 & h2 & _) A [(_ & hz & e1 & e2 & _) _]. apply mod0 in h1, h2. rewrite h1 in e1. rewrite h2 in e2.
  assert (x0 : ex A = F0) by (destruct (Fmul_0 _ _ (eq_sym e1)) as [h|h]; [exact h | destruct (hz h)]).
  assert (y0 : ey A = F0) by (destruct (Fmul_0 _ _ (eq_sym e2)) as [h|h]; [exact h | destruct (hz h)]).
  pose proof (proj1 (on_curveb_ok _ _) (eok A)) as h. unfold on_curve in h. rewrite x0, y0 in h. revert h. clear. intro h.
  apply F1_neq_0. transitivity (F1 + Fd * (F0 * F0) * (F0 * F0))%F; [ring|]. rewrite <- h. ring.
Qed.

Lemma b0 b P Q : (exists A, point b P A) \/ blank b P -> tuple b Q -> blank b P \/ blank b Q ->
  blank b (pt_Add (ops b) P Q) /\ blank b (pt_Sub (ops b) P Q).
Proof.
  intros hP hQ h. rewrite !blank_deg in *. apply (deg_add (laws b)).
  - destruct hP as [[A hA]|hP]; [exact (point_bd b P A hA) | exact (proj1 (deg_bdf _ P hP))].
  - exact (tuple_bdf b Q hQ).
  - exact h.
Qed.
Lemma b1 b P : blank b P -> blank b (pt_Double (ops b) P) /\ blank b (pt_Neg (ops b) P) /\ blank b (pt_Set (ops b) P).
Proof.
  intro h. split; [|split].
  - apply blank_deg. apply blank_deg in h. exact (deg_double _ P h).
  - apply blank_deg. apply blank_deg in h. exact (neg_deg _ P h).
  - destruct P. exact h.
Qed.
Lemma b2 b P Q c : tuple b P -> tuple b Q -> pt_ConditionalSet (ops b) P Q (Z.b2z c) = if c then Q else P.
Proof. intros h g. exact (bd_cond (laws b) P Q c (proj1 (tuple_bdf b P h)) (proj1 (tuple_bdf b Q g))). Qed.

Lemma fl_out b R s : fl (laws b) R (nzb s) -> (s <> 0 -> blank b R) /\ (s = 0 -> summand b R E0).
Proof.
  unfold nzb. destruct (Z.eqb_spec s 0) as [e|e]; cbn [negb fl]; intro h; split; intro g; try contradiction; try (destruct (e g)).
  - apply sm_point. refine (conj h _). exists E0. symmetry. apply Eadd_0_l.
  - apply blank_deg. exact h.
Qed.
Lemma b3 b P s : blank b P -> reduced s ->
  ((scv s <> 0 -> blank b (pt_ScalarMult (ops b) P s)) /\ (scv s = 0 -> summand b (pt_ScalarMult (ops b) P s) E0)) /\
  exists R, pt_PublicScalarMult (ops b) P s = Some R /\ (scv s <> 0 -> blank b R) /\ (scv s = 0 -> summand b R E0).
Proof.
  intros h hs. apply blank_deg in h. destruct (reduced_bytes s hs) as (hb & <- & hv & hv'). split.
  - apply fl_out, (d_ScalarMult (laws b)); assumption.
  - destruct (d_VarTimeScalarMult (laws b) P (sc_bytes s) h hb ltac:(assumption)) as (R & e & hR). exists R. split; [exact e|].
    apply fl_out, hR.
Qed.
Lemma b4 b P s : blank b P -> reduced s -> let t := pt_Compute (ops b) P in
  ((scv s <> 0 -> blank b (pt_ScalarMultTable (ops b) t s)) /\ (scv s = 0 -> summand b (pt_ScalarMultTable (ops b) t s) E0)) /\
  exists R, pt_PublicScalarMultTable (ops b) t s = Some R /\ (scv s <> 0 -> blank b R) /\ (scv s = 0 -> summand b R E0).
Proof.
  intros h hs. cbv zeta. apply blank_deg in h. pose proof (d_Compute (laws b) P h) as ht. destruct (reduced_bytes s hs) as (hb & <- & hv & hv'). split.
  - apply fl_out, (d_tblScalarMult (laws b)); assumption.
  - destruct (d_tblVarTime (laws b) (pt_Compute (ops b) P) (sc_bytes s) ht hb ltac:(assumption)) as (R & e & hR). exists R. split; [exact e|].
    apply fl_out, hR.
Qed.
Lemma nth_repeat_lt {A} (x d : A) n i : (i < n)%nat -> nth i (repeat x n) d = x.
Proof. revert i. induction n as [|n IH]; intros [|i] h; cbn; try lia; [reflexivity | apply IH; lia]. Qed.
Lemma zero_tdeg b : tdeg (laws b) (repeat (repeat (np_zerovalue (ops b)) 8) 32).
Proof.
  split; [reflexivity|]. intros i hi. split.
  - rewrite nth_repeat_lt by exact hi. reflexivity.
  - intros j hj. unfold tbl_at. rewrite nth_repeat_lt, nth_repeat_lt by assumption. unfold ndeg, np_zerovalue. cbn [nYpX nYmX nXY2D].
    pose proof (rel_le _ (laws b) 1 (cN (laws b)) _ _ (proj1 (cN_rng _ (laws b))) (law_zero _ (laws b))). auto.
Qed.
Lemma b10 b n s : reduced s -> let t := ApiModel.tbs (ops b) (ApiModel.init (ops b)) n in
  ((scv s <> 0 -> blank b (pt_ScalarMultTable (ops b) t s)) /\ (scv s = 0 -> summand b (pt_ScalarMultTable (ops b) t s) E0)) /\
  exists R, pt_PublicScalarMultTable (ops b) t s = Some R /\ (scv s <> 0 -> blank b R) /\ (scv s = 0 -> summand b R E0).
Proof.
  intro hs. cbv zeta. change (ApiModel.tbs (ops b) (ApiModel.init (ops b)) n) with (repeat (repeat (np_zerovalue (ops b)) 8) 32).
  pose proof (zero_tdeg b) as ht. destruct (reduced_bytes s hs) as (hb & <- & hv & hv'). split.
  - apply fl_out, (d_tblScalarMult (laws b)); assumption.
  - destruct (d_tblVarTime (laws b) _ (sc_bytes s) ht hb ltac:(assumption)) as (R & e & hR). exists R. split; [exact e|].
    apply fl_out, hR.
Qed.
Lemma b5 b P Q : blank b P -> (exists A, point b Q A) \/ blank b Q ->
  pt_Equals (ops b) P Q = true /\ pt_Equals (ops b) Q P = true /\ pt_EqualsI (ops b) P Q = 1 /\ pt_EqualsI (ops b) Q P = 1.
Proof.
  intros h g. apply blank_deg in h.
  assert (hQ : bd (laws b) Q).
  { destruct g as [[A g]|g]; [exact (point_bd b Q A g)|]. apply blank_deg in g. exact (proj1 (deg_bdf _ Q g)). }
  pose proof (proj1 (deg_bdf _ P h)) as hP.
  pose proof (deg_equals (laws b) P Q hP hQ (or_introl h)) as e1. pose proof (deg_equals (laws b) Q P hQ hP (or_intror h)) as e2.
  unfold pt_Equals, pt_EqualsI. rewrite e1, e2. repeat split; reflexivity.
Qed.
Lemma b6 b P : blank b P -> pt_Bytes (ops b) P = repeat 0 32.
Proof. intro h. apply blank_deg in h. exact (deg_bytes _ P h). Qed.
Lemma b7 b P : point b P E0 -> pt_Bytes (ops b) P = repeat 0 32.
Proof. intro h. apply pt_dpoint in h. exact (E0_bytes _ P (proj1 h)). Qed.

Lemma b8 b P s : blank b P -> reduced s -> pt_Bytes (ops b) (pt_ScalarMult (ops b) P s) = repeat 0 32.
Proof.
  intros h hs. destruct (b3 b P s h hs) as [[h1 h2] _]. destruct (Z.eq_dec (scv s) 0) as [e|e].
  - exact (b7 b _ (proj1 (h2 e))).
  - exact (b6 b _ (h1 e)).
Qed.
Lemma b9 b buf R A s c : bytes 32 buf -> fst (pt_SetBytes (ops b) buf) = false -> point b R A -> reduced s -> reduced c -> scv c <> 0 ->
  pt_Equals (ops b) (pt_ScalarMultBase (ops b) (baseTable b) s)
    (pt_Add (ops b) R (pt_ScalarMult (ops b) (snd (pt_SetBytes (ops b) buf)) c)) = true.
Proof.
  intros hb hf hR hs hc hn. pose proof (blank_undecoded b buf hb hf) as h.
  destruct (b3 b _ c h hc) as [[h1 _] _]. specialize (h1 hn).
  destruct (b0 b R _ (or_introl (ex_intro _ A hR)) (or_introl h1) (or_intror h1)) as [h2 _].
  destruct (b_baseMult b s hs) as [h3 _].
  exact (proj1 (proj2 (b5 b _ _ h2 (or_introl (ex_intro _ _ (proj1 h3)))))).
Qed.
