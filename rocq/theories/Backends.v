(** The three builds of the library, and what it means for a Point of one of them to represent a curve point. *)
From Coq Require Import ZArith Znumtheory List Lia Bool.
From Verif Require Import Words Primes Fp Edwards GroupOrder RistrettoSpec Fe51Code Fe51Proofs Fe25Code Fe25Proofs FieldModel CurveModel FieldLaws
  CurveProofs EncodeProofs ScalarMultProofs ScalarCode ScalarModel ScalarReduce ScalarSub ScalarFacts TextCodec RistrettoModel
  RistrettoFacts Fe51Laws Fe25Laws Amd64Field Amd64Laws BaseTable51 BaseTable25 BaseTableProofs Generic25
  ElligatorSpec ElligatorMath ElligatorProofs LizardProofs Sha256.
From Verif Require Elligator51 EllGen Points51.
Import ListNotations.
Open Scope Z_scope.

(** Which file the multiplication comes from: /repo/edwards25519/field_mul64.go:1-5 (pure Go on 64-bit
    machines), field_amd64.go:1-5 with field_amd64.s, and field_generic.go:1-5. *)
Inductive build := PureGo64 | Amd64 | Generic.
Definition ops (b : build) : FeOps := match b with PureGo64 => R51 | Amd64 => RAmd64 | Generic => R25 end.
(** /repo/edwards25519/table_radix51.go:5, table_generic.go:5 *)
Definition baseTable (b : build) : list (list (niels (fe (ops b)))) :=
  match b with PureGo64 => r51_baseTable | Amd64 => r51_baseTable | Generic => r25_baseTable end.
(** the number stored in the limbs *)
Definition value (b : build) : fe (ops b) -> Z := match b with PureGo64 => v51 | Amd64 => v51 | Generic => v25 end.
(** limbs at most [n] times as large as those of a product *)
Definition limbs (b : build) (n : Z) : fe (ops b) -> Prop :=
  match b with
  | PureGo64 => bnd51 (n * U51) | Amd64 => bnd51 (n * UA) | Generic => bnd25 (n * UE) (n * UO)
  end.

(** the element of GF(p) *)
Definition elt (b : build) (x : fe (ops b)) : F := of_Z (value b x).

(** (X : Y : Z : T) are extended coordinates of the affine point [A]. *)
Definition represents (b : build) (P : ext (fe (ops b))) (A : E) : Prop :=
  (limbs b 2 (eX P) /\ limbs b 2 (eY P) /\ limbs b (match b with PureGo64 => 2 | _ => 1 end) (eZ P) /\ limbs b 2 (eT P)) /\
  let f := fun x => of_Z (value b x) in
  f (eZ P) <> F0 /\ f (eX P) = (ex A * f (eZ P))%F /\ f (eY P) = (ey A * f (eZ P))%F /\ f (eT P) = (ex A * ey A * f (eZ P))%F.
(** In the generic build the second operand of an addition has to be smaller (C37): [|X_i| + |Y_i| <= 113025455]. *)
Definition addable (b : build) : ext (fe (ops b)) -> Prop :=
  match b with Generic => fun P => fits25 (eX P) (eY P) | _ => fun _ => True end.

(** [point b P A]: the Point [P] represents the double [A] of a curve point.  [summand b P A]: and it may be the
    second operand of an addition. *)
Definition point (b : build) (P : ext (fe (ops b))) (A : E) : Prop := represents b P A /\ even A.
Definition summand (b : build) (P : ext (fe (ops b))) (A : E) : Prop := point b P A /\ addable b P.

(** 32 rows of 8 Niels points, (y + x, y - x, 2dxy) for the multiples [(j + 1) * 256^i] of [A]. *)
Definition niels_of (b : build) (N : niels (fe (ops b))) (A : E) : Prop :=
  let f := fun x => of_Z (value b x) in
  let n := match b with PureGo64 => 2 | _ => 1 end in
  (limbs b n (nYpX N) /\ limbs b n (nYmX N) /\ limbs b n (nXY2D N)) /\
  f (nYpX N) = (ey A + ex A)%F /\ f (nYmX N) = (ey A - ex A)%F /\ f (nXY2D N) = (of_Z 2 * Fd * (ex A * ey A))%F.
Definition table_of (b : build) (t : list (list (niels (fe (ops b))))) (A : E) : Prop :=
  even A /\ length t = 32%nat /\ forall i, (i < 32)%nat -> length (nth i t []) = 8%nat /\
  forall j, (j < 8)%nat -> niels_of b (nth j (nth i t []) (np_zerovalue (ops b))) (Emul ((Z.of_nat j + 1) * 256 ^ Z.of_nat i) A).

(** [b'] is in the mask returned by RistrettoElligator2Inverse(P): see PropElligator.v *)
Definition reports (b : build) (P : ext (fe (ops b))) (s : list Z) : Prop :=
  let '(mask, fes, _) := ep_RistrettoElligator2Inverse (ops b) P in
  exists j, (j < 8)%nat /\ Z.testbit mask (Z.of_nat j) = true /\ s = fst (o_bytes (ops b) (nth j fes (k_zero (ops b)))).

(** ** Proofs *)
Definition laws (b : build) : FeLaws (ops b) := match b with PureGo64 => L51 | Amd64 => LA | Generic => L25 end.

Lemma rel_iff b n x f : rel (laws b) n x f <-> limbs b n x /\ of_Z (value b x) = f.
Proof. destruct b; reflexivity. Qed.
Lemma cN_b b : cN (laws b) = match b with PureGo64 => 2 | _ => 1 end.
Proof. destruct b; reflexivity. Qed.

Lemma rep_rd b P A : represents b P A <-> rd (laws b) P A.
Proof.
  unfold represents, rd. rewrite cN_b. split.
  - intros ((b1 & b2 & b3 & b4) & hz & h1 & h2 & h3). exists (of_Z (value b (eZ P))).
    refine (conj hz _). rewrite !rel_iff. exact (conj (conj b1 h1) (conj (conj b2 h2) (conj (conj b3 eq_refl) (conj b4 h3)))).
  - intros (z & hz & h1 & h2 & h3 & h4). rewrite rel_iff in h1, h2, h3, h4.
    destruct h1 as [b1 h1], h2 as [b2 h2], h3 as [b3 h3], h4 as [b4 h4]. rewrite <- h3 in h1, h2, h4. rewrite <- h3 in hz.
    exact (conj (conj b1 (conj b2 (conj b3 b4))) (conj hz (conj h1 (conj h2 h4)))).
Qed.
Lemma pt_dpoint b P A : point b P A <-> dpoint (laws b) P A.
Proof. unfold point, dpoint. rewrite rep_rd. reflexivity. Qed.
Lemma addable_iff b P : addable b P <-> fits (laws b) (eX P) (eY P).
Proof. destruct b; reflexivity. Qed.
Lemma sm_point b P A : summand b P A <-> RistrettoFacts.point (laws b) P A.
Proof.
  unfold summand, RistrettoFacts.point, rf, point. rewrite rep_rd, addable_iff. split.
  - intros [[h1 h2] h3]. exact (conj (conj h1 h3) h2).
  - intros [[h1 h3] h2]. exact (conj (conj h1 h2) h3).
Qed.
Lemma tbl_table b t A : table_of b t A <-> RistrettoFacts.table (laws b) t A.
Proof.
  unfold table_of, RistrettoFacts.table, tbl_ok, tbl_at, niels_of, rnp. rewrite cN_b. split.
  - intros (he & hl & h). refine (conj (conj hl _) he). intros i hi. destruct (h i hi) as [h1 h2]. refine (conj h1 _).
    intros j hj. destruct (h2 j hj) as ((b1 & b2 & b3) & e1 & e2 & e3). rewrite !rel_iff.
    exact (conj (conj b1 e1) (conj (conj b2 e2) (conj b3 e3))).
  - intros ((hl & h) & he). refine (conj he (conj hl _)). intros i hi. destruct (h i hi) as [h1 h2]. refine (conj h1 _).
    intros j hj. destruct (h2 j hj) as (g1 & g2 & g3). rewrite rel_iff in g1, g2, g3.
    destruct g1 as [b1 e1], g2 as [b2 e2], g3 as [b3 e3]. exact (conj (conj b1 (conj b2 b3)) (conj e1 (conj e2 e3))).
Qed.

Lemma b_add b P Q A B : point b P A -> summand b Q B ->
  summand b (pt_Add (ops b) P Q) (Eadd A B) /\ summand b (pt_Sub (ops b) P Q) (Eadd A (Eopp B)).
Proof.
  intros h g. apply pt_dpoint in h. apply sm_point in g. split; apply sm_point.
  - exact (dpoint_Add (laws b) P Q A B h g).
  - exact (dpoint_Sub (laws b) P Q A B h g).
Qed.
Lemma b_double b P A : point b P A -> summand b (pt_Double (ops b) P) (Eadd A A).
Proof. intro h. apply pt_dpoint in h. apply sm_point. exact (dpoint_Double (laws b) P A h). Qed.
Lemma b_neg b P A : (point b P A -> point b (pt_Neg (ops b) P) (Eopp A)) /\ (summand b P A -> summand b (pt_Neg (ops b) P) (Eopp A)).
Proof.
  split; intro h.
  - apply pt_dpoint in h. apply pt_dpoint. exact (dpoint_Neg (laws b) P A h).
  - apply sm_point in h. apply sm_point. exact (point_Neg (laws b) P A h).
Qed.
Lemma b_const b : summand b (pt_SetZero (ops b)) E0 /\ summand b (pt_SetBase (ops b)) (Eadd EB T4').
Proof.
  split; apply sm_point; [exact (point_Zero (laws b))|]. rewrite <- EBc_eq. exact (point_Base (laws b)).
Qed.
Lemma b_condset b P Q A B c : point b P A -> point b Q B -> pt_ConditionalSet (ops b) P Q (Z.b2z c) = if c then Q else P.
Proof. intros h g. apply pt_dpoint in h, g. exact (dpoint_ConditionalSet (laws b) P Q A B c h g). Qed.

Lemma b_scalarMult b P A s : summand b P A -> reduced s -> summand b (pt_ScalarMult (ops b) P s) (Emul (scv s) A) /\
  exists R, pt_PublicScalarMult (ops b) P s = Some R /\ summand b R (Emul (scv s) A).
Proof.
  intros h hs. apply sm_point in h. split; [apply sm_point; exact (point_ScalarMult (laws b) P A s h hs)|].
  destruct (point_PublicScalarMult (laws b) P A s h hs) as (R & e & hR). exists R. split; [exact e | apply sm_point; exact hR].
Qed.
Lemma base_ok b : tbl_ok (laws b) 1 (baseTable b) EBc.
Proof. destruct b; [exact base51_ok | exact baseA_ok | exact base25_ok]. Qed.
Lemma b_tables b : (forall P A, summand b P A -> table_of b (pt_Compute (ops b) P) A) /\ table_of b (baseTable b) (Eadd EB T4').
Proof.
  split.
  - intros P A h. apply sm_point in h. apply tbl_table. exact (table_Compute (laws b) P A h).
  - rewrite <- EBc_eq. apply tbl_table. exact (table_base (laws b) _ (base_ok b)).
Qed.
Lemma b_tableMult b t A s : table_of b t A -> reduced s -> summand b (pt_ScalarMultTable (ops b) t s) (Emul (scv s) A) /\
  exists R, pt_PublicScalarMultTable (ops b) t s = Some R /\ summand b R (Emul (scv s) A).
Proof.
  intros h hs. apply tbl_table in h. split; [apply sm_point; exact (point_ScalarMultTable (laws b) t A s h hs)|].
  destruct (point_PublicScalarMultTable (laws b) t A s h hs) as (R & e & hR). exists R. split; [exact e | apply sm_point; exact hR].
Qed.
Lemma b_baseMult b s : reduced s -> summand b (pt_ScalarMultBase (ops b) (baseTable b) s) (Emul (scv s) (Eadd EB T4')) /\
  exists R, pt_PublicScalarMultBase (ops b) (baseTable b) s = Some R /\ summand b R (Emul (scv s) (Eadd EB T4')).
Proof.
  intros hs. rewrite <- EBc_eq. split; [apply sm_point; exact (point_ScalarMultBase (laws b) _ s (base_ok b) hs)|].
  destruct (point_PublicScalarMultBase (laws b) _ s (base_ok b) hs) as (R & e & hR). exists R. split; [exact e | apply sm_point; exact hR].
Qed.

Lemma b_equals b P Q A B : point b P A -> point b Q B ->
  (pt_Equals (ops b) P Q = true <-> In (Eadd A (Eopp B)) [E0; T2; T4; T4']) /\ pt_EqualsI (ops b) P Q = Z.b2z (pt_Equals (ops b) P Q).
Proof.
  intros h g. apply pt_dpoint in h, g. rewrite <- Points51.Req_torsion. split; [exact (Equals_dpoint (laws b) P Q A B h g)|].
  destruct (EqualsI_dpoint (laws b) P Q A B h g) as [h1 h0]. unfold pt_Equals.
  destruct (Z.eqb_spec (pt_EqualsI (ops b) P Q) 1) as [e|e]; [exact e|]. apply h0. intro h2. apply e. apply h1. exact h2.
Qed.
Lemma b_bytes b c P Q A B : point b P A -> point c Q B ->
  bytes 32 (pt_Bytes (ops b) P) /\ (pt_Bytes (ops b) P = pt_Bytes (ops c) Q <-> In (Eadd A (Eopp B)) [E0; T2; T4; T4']).
Proof.
  intros h1 h2. apply pt_dpoint in h1, h2. rewrite <- Points51.Req_torsion. split; [exact (Bytes_bytes (laws b) P A h1)|].
  destruct (Bytes_dpoint (laws b) P A h1) as (s & -> & es). destruct (Bytes_dpoint (laws c) Q B h2) as (t & -> & et). split; intro h.
  - apply le_bytes_fval_inj in h. subst t. apply (encodes_inj s); assumption.
  - rewrite (encodes_unique s t A B es et h). reflexivity.
Qed.
Lemma b_encodes b P A : point b P A -> exists s, pt_Bytes (ops b) P = le_bytes 32 (fval s) /\ encodes s A.
Proof. intro h. apply pt_dpoint in h. exact (Bytes_dpoint (laws b) P A h). Qed.
Lemma b_decode b buf : bytes 32 buf ->
  (exists P A, pt_SetBytes (ops b) buf = (true, P) /\ point b P A /\ pt_Bytes (ops b) P = buf) \/
  (pt_SetBytes (ops b) buf = (false, ep_zerovalue (ops b)) /\ forall c Q B, point c Q B -> pt_Bytes (ops c) Q <> buf).
Proof.
  intro hb. destruct (SetBytes_dcases (laws b) buf hb) as [(P & A & e & hP & h)|[e h]].
  - left. exists P, A. apply pt_dpoint in hP. exact (conj e (conj hP h)).
  - right. refine (conj e _). intros c Q B hQ eq.
    destruct (b_encodes c Q B hQ) as (s & es & hs).
    destruct (ep_SetRistretto_ok (laws b) buf hb) as [(A & P & e' & _)|[_ hn]].
    + unfold pt_SetBytes in e. rewrite e' in e. discriminate e.
    + destruct hs as (P' & _ & hc). rewrite eq in es. rewrite es, fval_le_bytes in hn. exact (hn P' hc eq_refl).
Qed.
Lemma b_decode_same b c buf : bytes 32 buf -> fst (pt_SetBytes (ops b) buf) = fst (pt_SetBytes (ops c) buf).
Proof.
  intro hb. destruct (b_decode b buf hb) as [(P & A & e & hP & h)|[e h]]; destruct (b_decode c buf hb) as [(Q & B & e' & hQ & g)|[e' g]];
    rewrite e, e'; cbn [fst]; [reflexivity | destruct (g b P A hP h) | destruct (h c Q B hQ g) | reflexivity].
Qed.
Lemma b_roundtrip b c P A : point b P A -> exists Q B, pt_SetBytes (ops c) (pt_Bytes (ops b) P) = (true, Q) /\ point c Q B /\
  In (Eadd B (Eopp A)) [E0; T2; T4; T4'].
Proof.
  intro h. destruct (b_bytes b b P P A A h h) as [hb _]. destruct (b_decode c _ hb) as [(Q & B & e & hQ & g)|[_ g]].
  - exists Q, B. refine (conj e (conj hQ _)). apply (b_bytes c b Q P B A hQ h). exact g.
  - destruct (g b P A h eq_refl).
Qed.

Lemma b_elligator b buf : bytes 32 buf -> exists A, summand b (pt_SetElligator (ops b) buf) A /\ rfc_map (fe_of buf) A.
Proof. intro hb. destruct (valid_SetElligator (laws b) buf hb) as (A & h1 & h2). exists A. split; [apply sm_point; exact h2 | exact h1]. Qed.
Lemma b_reports b P A s : point b P A ->
  (reports b P s <-> Elligator51.nonneg_bytes s /\ s <> Elligator51.missed /\ pt_Equals (ops b) (pt_SetElligator (ops b) s) P = true).
Proof. intro h. apply pt_dpoint in h. apply (EllGen.reported_exact (laws b) P s). exists A. exact h. Qed.
Lemma b_lizard b buf data : bytes 16 data -> exists A, summand b (pt_SetLizard (ops b) sha256 data) A /\
  exists P', pt_LizardInto (ops b) sha256 (pt_SetLizard (ops b) sha256 data) buf = (lizard_nil, data, P') \/
  exists d other, pt_LizardInto (ops b) sha256 (pt_SetLizard (ops b) sha256 data) buf = (lizard_multiple, d, P') /\ bytes 16 other /\ other <> data /\
    pt_Equals (ops b) (pt_SetLizard (ops b) sha256 other) (pt_SetLizard (ops b) sha256 data) = true.
Proof.
  intro hd. destruct (rfc_map_exists (lz sha256 data)) as [A hA]. exists A. split.
  - apply sm_point. exact (point_SetLizard (laws b) sha256 sha256_bytes data A hd hA).
  - exact (EllGen.sha_roundtrip (laws b) buf data hd).
Qed.
Lemma b_lizard_sound b H P A buf d P' : Elligator51.hash32 H -> point b P A -> pt_LizardInto (ops b) H P buf = (lizard_nil, d, P') ->
  bytes 16 d /\ pt_Equals (ops b) (pt_SetLizard (ops b) H d) P = true.
Proof. intros hH h. apply pt_dpoint in h. apply (EllGen.lizard_sound (laws b) H P buf d P' hH). exists A. exact h. Qed.
Lemma b_elgamal b sk r P A : reduced sk -> reduced r -> summand b P A ->
  exists c, eg_encrypt (ops b) (baseTable b) (eg_publicKey (ops b) (baseTable b) sk) P r = Some c /\
    pt_Equals (ops b) (eg_decrypt (ops b) sk c) P = true.
Proof.
  intros h1 h2 h. apply sm_point in h. destruct (elgamal_ok (laws b) (baseTable b) sk r P A (base_ok b) h1 h2 h) as (c & D & e & hD & hR).
  exists c. split; [exact e|]. exact (proj2 (Equals_point (laws b) _ _ D A hD h) hR).
Qed.
Lemma b_summand64 b P A : b <> Generic -> point b P A -> summand b P A.
Proof. intros hb h. split; [exact h|]. destruct b; [exact I | exact I | destruct (hb eq_refl)]. Qed.
(** ** Field elements *)
Lemma cL3 b : 3 <= cL (laws b).
Proof. destruct b; cbn; lia. Qed.
Lemma rel_elt b n x : limbs b n x -> rel (laws b) n x (elt b x).
Proof. intro h. apply rel_iff. exact (conj h eq_refl). Qed.
Lemma b_mul b x y : limbs b 3 x -> limbs b 3 y ->
  (limbs b 1 (o_mul (ops b) x y) /\ elt b (o_mul (ops b) x y) = (elt b x * elt b y)%F) /\
  (limbs b 1 (o_square (ops b) x) /\ elt b (o_square (ops b) x) = (elt b x * elt b x)%F).
Proof.
  intros hx hy. pose proof (cL3 b) as h3.
  pose proof (rel_le _ (laws b) 3 (Z.max 4 (cL (laws b))) _ _ ltac:(lia) (rel_elt b 3 x hx)) as rx.
  pose proof (rel_le _ (laws b) 3 (cL (laws b)) _ _ ltac:(lia) (rel_elt b 3 y hy)) as ry.
  pose proof (law_mul _ (laws b) _ _ _ _ rx ry) as h1. pose proof (law_square _ (laws b) _ _ rx) as h2.
  apply rel_iff in h1, h2. exact (conj h1 h2).
Qed.
Lemma b_addfe b x y : limbs b 1 x -> limbs b 1 y ->
  (limbs b 2 (o_add (ops b) x y) /\ elt b (o_add (ops b) x y) = (elt b x + elt b y)%F) /\
  (limbs b 3 (o_sub (ops b) x y) /\ elt b (o_sub (ops b) x y) = (elt b x - elt b y)%F) /\
  (limbs b 2 (o_neg (ops b) x) /\ elt b (o_neg (ops b) x) = (- elt b x)%F).
Proof.
  intros hx hy. pose proof (cL3 b) as h3. pose proof (cN_rng _ (laws b)) as hN.
  pose proof (law_add _ (laws b) 1 1 _ _ _ _ (rel_elt b 1 x hx) (rel_elt b 1 y hy) ltac:(lia) ltac:(lia)) as h1.
  pose proof (law_sub _ (laws b) 1 1 _ _ _ _ (rel_elt b 1 x hx) (rel_elt b 1 y hy) ltac:(lia) ltac:(lia)) as h2.
  pose proof (law_neg _ (laws b) 1 _ _ (rel_elt b 1 x hx) ltac:(lia)) as h4.
  apply (rel_le _ (laws b) _ 3) in h2; [|lia]. apply (rel_le _ (laws b) _ 2) in h4; [|lia].
  apply rel_iff in h1, h2, h4. exact (conj h1 (conj h2 h4)).
Qed.
Lemma b_codec b x s : limbs b 3 x -> bytes 32 s ->
  fst (o_bytes (ops b) x) = le_bytes 32 (value b x mod p) /\ elt b (snd (o_bytes (ops b) x)) = elt b x /\
  limbs b 1 (o_setBytes (ops b) s) /\ elt b (o_setBytes (ops b) s) = of_Z (le_val s mod 2 ^ 255).
Proof.
  intros hx hs. pose proof (cL3 b) as h3. destruct (law_bytes _ (laws b) 3 x _ (rel_elt b 3 x hx) h3) as (x' & e & h').
  pose proof (law_setBytes _ (laws b) s hs) as h2. rewrite e. cbn [fst snd]. apply rel_iff in h', h2.
  exact (conj eq_refl (conj (proj2 h') h2)).
Qed.
Lemma b_inverse b a : limbs b 3 a -> limbs b 1 (fe_Inverse (ops b) a) /\
  (elt b a <> F0 -> (elt b (fe_Inverse (ops b) a) * elt b a)%F = F1) /\ (elt b a = F0 -> elt b (fe_Inverse (ops b) a) = F0).
Proof.
  intro h. pose proof (fe_Inverse_ok (laws b) 3 a _ (rel_elt b 3 a h) (cL3 b)) as hb. apply rel_iff in hb. destruct hb as [hb e].
  split; [exact hb|]. unfold elt in *. rewrite e. split; intro hz.
  - apply Finv_l. exact hz.
  - rewrite hz. unfold Finv. apply Fpow_F0. vm_compute. reflexivity.
Qed.
Lemma b_invSqrt b a : limbs b 3 a -> let f := elt b a in
  (let g := elt b (fe_InvSqrt (ops b) a) in
   limbs b 1 (fe_InvSqrt (ops b) a) /\ (f = F0 -> g = F0) /\
   (f <> F0 -> is_sq f -> (g * g * f)%F = F1) /\ (f <> F0 -> ~ is_sq f -> (g * g * f)%F <> F1)) /\
  (let g := elt b (snd (fe_InvSqrtI (ops b) a)) in let c := fst (fe_InvSqrtI (ops b) a) in
   limbs b 1 (snd (fe_InvSqrtI (ops b) a)) /\ (f = F0 -> c = 0 /\ g = F0) /\
   (f <> F0 -> is_sq f -> c = 1 /\ (g * g * f)%F = F1) /\ (f <> F0 -> ~ is_sq f -> c = 0 /\ (g * g * (Fi * f))%F = F1)) /\
  (is_sq f -> let g := elt b (fe_Sqrt (ops b) a) in limbs b 2 (fe_Sqrt (ops b) a) /\ (g * g)%F = f /\ Fneg g = false).
Proof.
  intros h f. refine (conj _ (conj _ _)).
  - pose proof (fe_InvSqrt_ok (laws b) 3 a f (rel_elt b 3 a h) (cL3 b)) as hb. apply rel_iff in hb. destruct hb as [hb e].
    cbv zeta. split; [exact hb|]. unfold elt at 1 2 3 4 5. rewrite e. apply isr_val_spec.
  - destruct (fe_InvSqrtI_ok (laws b) 3 a f (rel_elt b 3 a h) (cL3 b)) as (x & e & hb). apply rel_iff in hb. destruct hb as [hb hv].
    cbv zeta. rewrite e. cbn [fst snd]. split; [exact hb|].
    unfold elt. rewrite hv. destruct (isri_val_spec f) as (s1 & s2 & s3).
    split; [|split].
    + intro h0. destruct (s1 h0) as [-> s4]. split; [reflexivity | exact s4].
    + intros h0 h1. destruct (s2 h0 h1) as [-> s4]. split; [reflexivity | exact s4].
    + intros h0 h1. destruct (s3 h0 h1) as [-> s4]. split; [reflexivity | exact s4].
  - intros hs g. pose proof (fe_Sqrt_ok (laws b) 3 a f (rel_elt b 3 a h) (cL3 b)) as hb. apply rel_iff in hb. destruct hb as [hb e].
    split; [exact hb|]. change (of_Z (value b (fe_Sqrt (ops b) a))) with g in e. rewrite e. split; [|apply Fabs_nonneg].
    rewrite Fabs_sq. destruct (isr_val_spec f) as (s1 & s2 & _).
    destruct (F_dec f F0) as [z|z].
    + rewrite z. ring.
    + specialize (s2 z hs). set (r := isr_val f) in *. transitivity ((r * r * f) * f)%F; [ring|].
      rewrite s2. ring.
Qed.
Lemma b_tests b x y : limbs b 2 x -> limbs b 1 y ->
  fst (fe_IsNegativeI (ops b) x) = Z.b2z (Z.odd (value b x mod p)) /\
  fst (fe_IsNonZeroI (ops b) x) = Z.b2z (negb (value b x mod p =? 0)) /\
  (forall w, limbs b 1 w -> fe_EqualsI (ops b) w y = Z.b2z (value b w mod p =? value b y mod p)) /\
  fe_IsOneI (ops b) y = Z.b2z (value b y mod p =? 1) /\
  elt b (fst (fe_Abs (ops b) x)) = Fabs (elt b x).
Proof.
  intros hx hy. pose proof (cL3 b) as h3. pose proof (cN_rng _ (laws b)) as hN.
  assert (E : forall w, limbs b 1 w -> fe_EqualsI (ops b) w y = Z.b2z (value b w mod p =? value b y mod p)).
  { intros w hw. rewrite (fe_EqualsI_ok (laws b) 1 1 w y _ _ (rel_elt b 1 w hw) (rel_elt b 1 y hy)) by lia. reflexivity. }
  refine (conj _ (conj _ (conj E (conj _ _)))).
  - destruct (fe_IsNegativeI_ok (laws b) 2 x _ (rel_elt b 2 x hx) ltac:(lia)) as (x' & -> & _). reflexivity.
  - destruct (fe_IsNonZeroI_ok (laws b) 2 x _ (rel_elt b 2 x hx) ltac:(lia)) as (x' & -> & _). reflexivity.
  - rewrite (fe_IsOneI_ok (laws b) 1 y _ (rel_elt b 1 y hy)) by lia. reflexivity.
  - destruct (fe_Abs_ok (laws b) 2 x _ (rel_elt b 2 x hx) ltac:(lia)) as (x' & _ & _ & h). apply rel_iff in h. exact (proj2 h).
Qed.
Lemma b_example b : exists P Q A B s, summand b P A /\ point b Q B /\ pt_Equals (ops b) P Q = false /\ reduced s /\ scv s = 5 /\
  bytes 32 (pt_Bytes (ops b) P) /\ table_of b (baseTable b) (Eadd EB T4').
Proof.
  destruct (b_const b) as [h0 hB]. exists (pt_SetZero (ops b)), (pt_SetBase (ops b)), E0, (Eadd EB T4'), (Sc 5 0 0 0 0 0 0 0).
  refine (conj h0 (conj (proj1 hB) (conj _ (conj _ (conj _ (conj _ (proj2 (b_tables b)))))))).
  - destruct b; vm_compute; reflexivity.
  - split; [cbn; lia|]. vm_compute. intuition discriminate.
  - vm_compute. reflexivity.
  - exact (proj1 (b_bytes b b _ _ _ _ (proj1 h0) (proj1 h0))).
Qed.
