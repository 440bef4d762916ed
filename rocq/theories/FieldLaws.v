(** What a field backend must satisfy ([FeLaws]), and the correctness of field.go over any
    such backend.  [rel n x f]: the limbs of [x] are within [n] units and represent [f]. *)
From Coq Require Import ZArith Znumtheory List Lia Bool Ring Field.
From Verif Require Import Words FieldModel CurveModel BitFold Primes Fp Edwards GroupOrder RistrettoSpec.
Import ListNotations.
Open Scope Z_scope.

(** 1/sqrt(-d-1), (d+1)/(d-1) and sqrt(i d): the values of constants in the code *)
Definition Fisdm1 : F := of_Z 3426737609748780790789678635598812321241395039892825098523479107644843802371.
Definition Fdp1dm1 : F := of_Z 6515746788867641220548330102746707892873901249878903317334301708489056172844.
Definition Fsqrt_id : F := of_Z 2578418914173623657462452400132853037496623284081085243786733881681055062952.

Lemma Fisdm1_sq : (Fisdm1 * Fisdm1 * - (Fd + F1) = F1)%F.
Proof. apply F_eq. vm_compute. reflexivity. Qed.
Lemma Fdp1dm1_eq : (Fdp1dm1 * (Fd - F1) = Fd + F1)%F.
Proof. apply F_eq. vm_compute. reflexivity. Qed.
Lemma Fsqrt_id_sq : (Fsqrt_id * Fsqrt_id = Fi * Fd)%F.
Proof. apply F_eq. vm_compute. reflexivity. Qed.
Lemma Fsqrt_id_nonneg : Fneg Fsqrt_id = false.
Proof. vm_compute. reflexivity. Qed.

(** The code's [epBase] is not the Ed25519 base point B itself but B + (-i, 0), another
    representative of the same ristretto element. *)
Definition bcx : Z := 7413488746097234319268533557746747958297143720389000677696299943083562100178.
Definition bcy : Z := 9771384041963202563870679428059935816164187996444183106833894008023910952347.
Lemma bc_on : on_curveb (of_Z bcx) (of_Z bcy) = true. Proof. vm_compute. reflexivity. Qed.
Definition EBc : E := mkE (of_Z bcx) (of_Z bcy) bc_on.
Lemma EBc_eq : EBc = Eadd EB T4'.
Proof.
  destruct (add_T4' EB) as [h1 h2]. apply E_eq; [rewrite h1 | rewrite h2]; apply F_eq; vm_compute; reflexivity.
Qed.
Lemma EBc_Req : Req EBc EB.
Proof. apply Req_coset. right; right; right. exact EBc_eq. Qed.

Record FeLaws (K : FeOps) : Type := mkFeLaws {
  rel : Z -> fe K -> F -> Prop;
  (** units of a negation / of the subtrahend in a difference; input limit of
      multiplications and serialisation; units after an in-place normalisation *)
  cN : Z; cL : Z; cB : Z;
  cN_rng : 1 <= cN <= 2; cB_rng : 1 <= cB <= 2; cL_ge : 3 * cN <= cL; cL_le : cL <= 100;
  rel_le : forall n m x f, n <= m -> rel n x f -> rel m x f;
  law_mul : forall x y f g, rel (Z.max 4 cL) x f -> rel cL y g -> rel 1 (o_mul K x y) (Fmul f g);
  law_square : forall x f, rel (Z.max 4 cL) x f -> rel 1 (o_square K x) (Fmul f f);
  law_dsquare : forall x f, rel 2 x f -> rel 1 (o_doubledSquare K x) (Fmul (of_Z 2) (Fmul f f));
  law_add : forall n m x y f g, rel n x f -> rel m y g -> n <= cL -> m <= cL ->
    rel (n + m) (o_add K x y) (Fadd f g);
  law_sub : forall n m x y f g, rel n x f -> rel m y g -> n <= cL -> m <= cL ->
    rel (n + Z.max cN m) (o_sub K x y) (Fsub f g);
  law_neg : forall n x f, rel n x f -> n <= cL -> rel (Z.max cN n) (o_neg K x) (Fopp f);
  law_normalize : forall x f, rel cL x f -> rel 1 (o_normalize K x) f;
  law_condSet : forall n m x y f g b, rel n x f -> rel m y g -> n <= cL -> m <= cL ->
    o_condSet K x y (Z.b2z b) = if b then y else x;
  law_bytes : forall n x f, rel n x f -> n <= cL -> exists x',
    o_bytes K x = (le_bytes 32 (fval f), x') /\ rel (Z.max n cB) x' f;
  law_setBytes : forall s, bytes 32 s -> rel 1 (o_setBytes K s) (of_Z (le_val s mod 2 ^ 255));
  law_zero : rel 1 (k_zero K) F0;
  law_one : rel 1 (k_one K) F1;
  law_minusOne : rel 1 (k_minusOne K) (Fopp F1);
  law_I : rel 1 (k_I K) Fi;
  law_minusI : rel 1 (k_minusI K) (Fopp Fi);
  law_D : rel 1 (k_D K) Fd;
  law_2D : rel 1 (k_2D K) (Fmul (of_Z 2) Fd);
  law_isdm1 : rel 1 (k_invSqrtMinusDMinusOne K) Fisdm1;
  law_disdm1 : rel 1 (k_doubleInvSqrtMinusDMinusOne K) (Fmul (of_Z 2) Fisdm1);
  law_diisdm1 : rel 1 (k_doubleIInvSqrtMinusDMinusOne K) (Fmul Fi (Fmul (of_Z 2) Fisdm1));
  law_dm1s : rel 1 (k_dMinusOneSquared K) (Fmul (Fsub Fd F1) (Fsub Fd F1));
  law_omds : rel 1 (k_oneMinusDSquared K) (Fsub F1 (Fmul Fd Fd));
  law_dp1dm1 : rel 1 (k_dp1OverDm1 K) Fdp1dm1;
  law_sqrtID : rel 2 (k_sqrtID K) Fsqrt_id;
  law_is1pd : rel 1 (k_invSqrt1pD K) (Fopp (Fmul Fi Fisdm1));
  law_baseX : rel 2 (k_baseX K) (ex EBc);
  law_baseY : rel 2 (k_baseY K) (ey EBc);
  law_baseT : rel 2 (k_baseT K) (Fmul (ex EBc) (ey EBc));
  (** [fits x y]: y - x and y + x may be the second factor of a product, also when they
      exceed [cL] units *)
  fits : fe K -> fe K -> Prop;
  fits_small : forall x y f g, rel cN x f -> rel cN y g -> fits x y;
  fits_neg : forall x y f, rel 2 x f -> fits x y -> fits (o_neg K x) y;
  fits_base : fits (k_baseX K) (k_baseY K);
  fits_sub : forall a x y h f g, rel 4 a h -> rel 2 x f -> rel 2 y g -> fits x y ->
    rel 1 (o_mul K a (o_sub K y x)) (Fmul h (Fsub g f));
  fits_add : forall a x y h f g, rel 4 a h -> rel 2 x f -> rel 2 y g -> fits x y ->
    rel 1 (o_mul K a (o_add K x y)) (Fmul h (Fadd f g));
  fits_add' : forall a x y h f g, rel 4 a h -> rel 2 x f -> rel 2 y g -> fits x y ->
    rel 1 (o_mul K a (o_add K y x)) (Fmul h (Fadd g f))
}.

Arguments rel {K} _. Arguments fits {K} _. Arguments cN {K} _. Arguments cL {K} _. Arguments cB {K} _.

(** ** Numbers modulo p as bytes *)

Lemma fval_256 f : 0 <= fval f < 256 ^ Z.of_nat 32.
Proof.
  pose proof (fval_range f). split; [lia|]. refine (Z.lt_trans _ p _ _ _); [lia|]. vm_compute. reflexivity.
Qed.

Lemma le_bytes_fval_odd f : Z.land (at_ (le_bytes 32 (fval f)) 0) 1 = Z.b2z (Fneg f).
Proof.
  change (at_ (le_bytes 32 (fval f)) 0) with (fval f mod 256). change 1 with (Z.ones 1) at 1. rewrite Z.land_ones by lia.
  change (2 ^ 1) with 2. unfold Fneg. rewrite <- Zmod_div_mod; [|lia|lia|exists 128; reflexivity].
  rewrite Zmod_odd. destruct (Z.odd (fval f)); reflexivity.
Qed.

Lemma slices_32 s : length s = 32%nat ->
  s = slice s 0 8 ++ slice s 8 16 ++ slice s 16 24 ++ slice s 24 32.
Proof. intro h. do 32 (destruct s as [|? s]; [discriminate|]). destruct s; [reflexivity | discriminate]. Qed.

Lemma slice_bytes s i j : Forall is_byte s -> Forall is_byte (slice s i j).
Proof.
  intro h. unfold slice. rewrite Forall_forall in *. intros x hx. apply h.
  rewrite <- (firstn_skipn i s). apply in_or_app. right.
  rewrite <- (firstn_skipn (j - i) (skipn i s)). apply in_or_app. left. exact hx.
Qed.

Lemma slice_len s i j : (i <= j)%nat -> (j <= length s)%nat -> length (slice s i j) = (j - i)%nat.
Proof. intros h1 h2. unfold slice. rewrite firstn_length, skipn_length. lia. Qed.

Lemma words_nonzero s : bytes 32 s ->
  let w := Z.lor (Z.lor (Z.lor (le_val (slice s 0 8)) (le_val (slice s 8 16)))
                          (le_val (slice s 16 24))) (le_val (slice s 24 32)) in
  0 <= w < 2 ^ 64 /\ (w =? 0) = (le_val s =? 0).
Proof.
  intros [hl hb]. cbv zeta.
  assert (R : forall i j, (i + 8)%nat = j -> (j <= 32)%nat -> 0 <= le_val (slice s i j) < 2 ^ 64).
  { intros i j <- hj. pose proof (le_val_range _ (slice_bytes s i (i + 8) hb)) as h.
    rewrite slice_len in h by lia. replace (i + 8 - i)%nat with 8%nat in h by lia. exact h. }
  assert (E : le_val s = le_val (slice s 0 8) + 2 ^ 64 * (le_val (slice s 8 16) + 2 ^ 64 * (le_val (slice s 16 24) + 2 ^ 64 * le_val (slice s 24 32)))).
  { rewrite (slices_32 s hl) at 1. rewrite !le_val_app, !slice_len by lia. cbn [Nat.sub].
    change (256 ^ Z.of_nat 8) with (2 ^ 64). reflexivity. }
  pose proof (R 0 8 eq_refl ltac:(lia))%nat as R0. pose proof (R 8 16 eq_refl ltac:(lia))%nat as R1.
  pose proof (R 16 24 eq_refl ltac:(lia))%nat as R2. pose proof (R 24 32 eq_refl ltac:(lia))%nat as R3.
  split; [repeat (apply lor_range; [lia| |]); assumption|].
  apply eq_true_iff_eq. rewrite !Z.eqb_eq, !Z.lor_eq_0_iff, E. lia.
Qed.

Lemma isNonZero_word s : bytes 32 s ->
  i32 (Z.land (foldk 1 (foldk 2 (foldk 4 (foldk 8 (foldk 16 (foldk 32 
    (Z.lor (Z.lor (Z.lor (le_val (slice s 0 8)) (le_val (slice s 8 16)))
                          (le_val (slice s 16 24))) (le_val (slice s 24 32))))))))) 1) = Z.b2z (negb (le_val s =? 0)).
Proof.
  intro h. destruct (words_nonzero s h) as [hr he]. rewrite fold64 by exact hr.
  rewrite i32_b2z, he. reflexivity.
Qed.

Lemma fval_eqb_0 f : (fval f =? 0) = Feqb f F0.
Proof. unfold Feqb. replace (fval F0) with 0 by (vm_compute; reflexivity). reflexivity. Qed.

Lemma Feqb_sub_0 f g : Feqb (Fsub f g) F0 = Feqb f g.
Proof. apply eq_true_iff_eq. rewrite !Feqb_eq. apply Fsub_0. Qed.

(** ** Stepping through code over a backend *)

Section Steps.
Context {K : FeOps} (L : FeLaws K).

Lemma fe_mul_r n m x y f g : rel L n x f -> rel L m y g -> n <= Z.max 4 (cL L) -> m <= cL L ->
  rel L 1 (o_mul K x y) (Fmul f g).
Proof. intros hx hy hn hm. apply law_mul; [apply (rel_le K L n) | apply (rel_le K L m)]; assumption. Qed.

Lemma fe_square_r n x f : rel L n x f -> n <= Z.max 4 (cL L) -> rel L 1 (o_square K x) (Fmul f f).
Proof. intros hx hn. apply law_square, (rel_le K L n); assumption. Qed.

Lemma fe_dsquare_r n x f : rel L n x f -> n <= 2 -> rel L 1 (o_doubledSquare K x) (Fmul (of_Z 2) (Fmul f f)).
Proof. intros hx hn. apply law_dsquare, (rel_le K L n); assumption. Qed.

Lemma fe_normalize_r n x f : rel L n x f -> n <= cL L -> rel L 1 (o_normalize K x) f.
Proof. intros hx hn. apply law_normalize, (rel_le K L n); assumption. Qed.

Lemma fe_condSet_r n m x y f g c b : rel L n x f -> rel L m y g -> c = Z.b2z b -> n <= cL L -> m <= cL L ->
  rel L (Z.max n m) (o_condSet K x y c) (if b then g else f).
Proof.
  intros hx hy -> hn hm. rewrite (law_condSet K L n m x y f g b hx hy hn hm).
  destruct b; [apply (rel_le K L m) | apply (rel_le K L n)]; try assumption; lia.
Qed.

Lemma fe_Add_r n m x y f g : rel L n x f -> rel L m y g -> n + m <= cL L -> 0 <= n -> 0 <= m ->
  rel L 1 (fe_Add K x y) (Fadd f g).
Proof.
  intros hx hy h hn hm. apply (fe_normalize_r (n + m)); [|exact h]. apply law_add; auto; lia.
Qed.

Lemma fe_Sub_r n m x y f g : rel L n x f -> rel L m y g -> n + Z.max (cN L) m <= cL L -> 0 <= n -> 0 <= m ->
  rel L 1 (fe_Sub K x y) (Fsub f g).
Proof.
  intros hx hy h hn hm. apply (fe_normalize_r (n + Z.max (cN L) m)); [|exact h].
  pose proof (cN_rng K L). apply law_sub; auto; lia.
Qed.

Lemma step_fe {B : Type} (P : B -> Prop) (body : fe K -> B) e n f :
  rel L n e f -> (forall x g, g = f -> rel L n x g -> P (body x)) -> P (let x := e in body x).
Proof. intros h H. exact (H e f eq_refl h). Qed.

Lemma step_b {B : Type} (P : B -> Prop) (body : Z -> B) e b :
  e = Z.b2z b -> (forall x, x = Z.b2z b -> P (body x)) -> P (let x := e in body x).
Proof. intros h H. exact (H e h). Qed.

Lemma fe_IsNegativeI_ok n x f : rel L n x f -> n <= cL L ->
  exists x', fe_IsNegativeI K x = (Z.b2z (Fneg f), x') /\ rel L (Z.max n (cB L)) x' f.
Proof.
  intros h hn. destruct (law_bytes K L n x f h hn) as (x' & e & h'). exists x'.
  unfold fe_IsNegativeI. rewrite e, le_bytes_fval_odd. auto.
Qed.

Lemma fe_IsNonZeroI_ok n x f : rel L n x f -> n <= cL L ->
  exists x', fe_IsNonZeroI K x = (Z.b2z (negb (Feqb f F0)), x') /\ rel L (Z.max n (cB L)) x' f.
Proof.
  intros h hn. destruct (law_bytes K L n x f h hn) as (x' & e & h'). exists x'.
  split; [|exact h']. unfold fe_IsNonZeroI. rewrite e.
  pose proof (isNonZero_word _ (le_bytes_bytes 32 (fval f))) as E. rewrite (le_val_le_bytes 32) in E by apply fval_256.
  rewrite fval_eqb_0 in E. rewrite <- E. clear E. generalize (le_bytes 32 (fval f)). intro s.
  match goal with |- context [Z.lor ?a (le_val (slice s 24 32))] => generalize (Z.lor a (le_val (slice s 24 32))) end.
  intro w. cbv zeta.
  rewrite (foldk_def 32), (foldk_def 16), (foldk_def 8), (foldk_def 4), (foldk_def 2), (foldk_def 1). reflexivity.
Qed.

Lemma step_isneg {B : Type} (P : B -> Prop) (body : Z -> fe K -> B) e n f :
  rel L n e f -> n <= cL L ->
  (forall b x, b = Z.b2z (Fneg f) -> rel L (Z.max n (cB L)) x f -> P (body b x)) ->
  P (let (b, x) := fe_IsNegativeI K e in body b x).
Proof. intros h hn H. destruct (fe_IsNegativeI_ok n e f h hn) as (x' & -> & h'). apply H; auto. Qed.

Lemma step_isnz {B : Type} (P : B -> Prop) (body : Z -> fe K -> B) e n f :
  rel L n e f -> n <= cL L ->
  (forall b x, b = Z.b2z (negb (Feqb f F0)) -> rel L (Z.max n (cB L)) x f -> P (body b x)) ->
  P (let (b, x) := fe_IsNonZeroI K e in body b x).
Proof. intros h hn H. destruct (fe_IsNonZeroI_ok n e f h hn) as (x' & -> & h'). apply H; auto. Qed.

Lemma fe_EqualsI_ok n m x y f g : rel L n x f -> rel L m y g -> 0 <= n -> 0 <= m -> n + Z.max (cN L) m <= cL L ->
  fe_EqualsI K x y = Z.b2z (Feqb f g).
Proof.
  intros hx hy hn hm h. unfold fe_EqualsI. pose proof (cN_rng K L).
  pose proof (law_sub K L n m x y f g hx hy ltac:(lia) ltac:(lia)) as hs.
  destruct (fe_IsNonZeroI_ok _ _ _ hs h) as (x' & e & _). rewrite e. cbn [fst].
  rewrite i32_1_sub_b2z, negb_involutive, Feqb_sub_0. reflexivity.
Qed.

Lemma fe_IsOneI_ok n x f : rel L n x f -> 0 <= n -> n + cN L <= cL L ->
  fe_IsOneI K x = Z.b2z (Feqb f F1).
Proof.
  intros hx hn h. pose proof (cN_rng K L). apply (fe_EqualsI_ok n 1 x (k_one K)); auto; try lia.
  apply law_one.
Qed.

Lemma fe_Equals_ok n m x y f g : rel L n x f -> rel L m y g -> 0 <= n -> 0 <= m -> n + Z.max (cN L) m <= cL L ->
  fe_Equals K x y = Feqb f g.
Proof.
  intros hx hy hn hm h. unfold fe_Equals. pose proof (cN_rng K L).
  pose proof (law_sub K L n m x y f g hx hy ltac:(lia) ltac:(lia)) as hs.
  destruct (fe_IsNonZeroI_ok _ _ _ hs h) as (x' & e & _). rewrite e. cbn [fst].
  rewrite Feqb_sub_0. destruct (Feqb f g); reflexivity.
Qed.

Lemma fe_Abs_self_ok n x f : rel L n x f -> n <= cL L -> n <= 2 ->
  rel L 2 (fe_Abs_self K x) (Fabs f).
Proof.
  intros hx hn h2. unfold fe_Abs_self. pose proof (cN_rng K L). pose proof (cB_rng K L). pose proof (cL_ge K L).
  pose proof (law_neg K L n x f hx hn) as hneg.
  destruct (fe_IsNegativeI_ok n x f hx hn) as (x' & -> & h').
  apply (rel_le K L (Z.max (Z.max n (cB L)) (Z.max (cN L) n))); [lia|].
  unfold Fabs. apply fe_condSet_r; auto; lia.
Qed.

Lemma fe_Abs_ok n x f : rel L n x f -> n <= cL L ->
  exists x', fe_Abs K x = (fst (fe_Abs K x), x') /\ rel L (Z.max n (cB L)) x' f /\
  rel L (Z.max n (cN L)) (fst (fe_Abs K x)) (Fabs f).
Proof.
  intros hx hn. unfold fe_Abs. pose proof (cN_rng K L). pose proof (cB_rng K L). pose proof (cL_ge K L).
  pose proof (law_neg K L n x f hx hn) as hneg.
  destruct (fe_IsNegativeI_ok n x f hx hn) as (x' & -> & h'). exists x'. cbn [fst].
  split; [reflexivity|]. split; [exact h'|].
  apply (rel_le K L (Z.max n (Z.max (cN L) n))); [lia|].
  unfold Fabs. apply fe_condSet_r; auto; lia.
Qed.

(** ** Powers *)

Lemma pow_mul n m x y f a b c : rel L n x (Fpow f a) -> rel L m y (Fpow f b) -> n <= cL L -> m <= cL L -> 0 <= a -> 0 <= b -> a + b = c ->
  rel L 1 (o_mul K x y) (Fpow f c).
Proof.
  intros hx hy hn hm ha hb <-. rewrite Fpow_add by assumption.
  apply (fe_mul_r n m); auto; lia.
Qed.

Lemma pow_square n x f a c : rel L n x (Fpow f a) -> n <= cL L -> 0 <= a -> 2 * a = c -> rel L 1 (o_square K x) (Fpow f c).
Proof.
  intros hx hn ha <-. replace (2 * a) with (a + a) by ring. rewrite Fpow_add by assumption.
  apply (fe_square_r n); auto; lia.
Qed.

Lemma pow_for x f a lo hi c : rel L 1 x (Fpow f a) -> 0 <= a -> a * 2 ^ Z.of_nat (hi - lo) = c ->
  rel L 1 (go_for lo hi (o_square K) x) (Fpow f c).
Proof.
  intros hx ha <-. unfold go_for. induction (hi - lo)%nat as [|n IH].
  - change (2 ^ Z.of_nat 0) with 1. rewrite Z.mul_1_r. exact hx.
  - cbn [Nat.iter]. pose proof (cL_ge K L). pose proof (cN_rng K L). apply (pow_square 1 _ f (a * 2 ^ Z.of_nat n)); [exact IH | lia | |].
    + pose proof (Z.pow_pos_nonneg 2 (Z.of_nat n)). nia.
    + rewrite Nat2Z.inj_succ, Z.pow_succ_r by lia. ring.
Qed.

End Steps.

(** goal [rel L _ e _] where [e] is built from [o_mul], [o_square], [go_for] *)
Ltac znum := lazymatch goal with
  | |- ?e = ?c => first [is_evar c; let v := eval vm_compute in e in unify c v | idtac]; vm_compute; reflexivity end.
Ltac pow_go :=
  lazymatch goal with
  | |- rel _ _ (o_mul _ _ _) _ => eapply pow_mul; [pow_go | pow_go | lia | lia | vm_compute; discriminate | vm_compute; discriminate | znum]
  | |- rel _ _ (o_square _ _) _ => eapply pow_square; [pow_go | lia | vm_compute; discriminate | znum]
  | |- rel _ _ (go_for _ _ _ _) _ => eapply pow_for; [pow_go | vm_compute; discriminate | znum]
  | H : rel _ _ ?x _ |- rel _ _ ?x _ => exact H
  end.

Lemma step_pow {K : FeOps} (L : FeLaws K) {B : Type} (P : B -> Prop) (body : fe K -> B) e f a :
  rel L 1 e (Fpow f a) -> (forall x, rel L 1 x (Fpow f a) -> P (body x)) -> P (let x := e in body x).
Proof. intros h H. exact (H e h). Qed.

(** expose the body of [f] in the term [t = f args]; the rest of the goal becomes [PP] *)
Ltac fe_open f t :=
  pattern t;
  match goal with |- ?P ?x =>
    let y := eval cbv beta iota delta [f] in x in
    let Q := fresh "PP" in set (Q := P); change (Q y) end.

Ltac pow_step L f :=
  lazymatch goal with
  | |- ?P (let x := ?e in @?body x) => refine (step_pow L P body e f _ _ _); [pow_go | intros ? ?; cbv beta]
  end.

(** take one [let] whose value is related by [lem : rel L n e f] *)
Ltac step_by L lem :=
  lazymatch goal with
  | |- ?P (let x := ?e in @?body x) => refine (step_fe L P body e _ _ lem _); cbv beta
  end.

Section FieldGo.
Context {K : FeOps} (L : FeLaws K).

Lemma small_le : 1 <= cL L /\ 2 <= cL L /\ 3 <= cL L /\ cN L + 2 <= cL L.
Proof. pose proof (cL_ge K L). pose proof (cN_rng K L). lia. Qed.

Lemma fe_Inverse_ok n a f : rel L n a f -> n <= cL L -> rel L 1 (fe_Inverse K a) (Finv f).
Proof.
  intros ha hn. rewrite <- (Fpow_1 f) in ha. unfold Finv. pose proof small_le.
  fe_open fe_Inverse (fe_Inverse K a).
  do 30 pow_step L f. subst PP. cbv beta. pow_go.
Qed.

Lemma fe_Exp22523_ok n a f : rel L n a f -> n <= cL L -> rel L 1 (fe_Exp22523 K a) (Fpow f (2 ^ 252 - 3)).
Proof.
  intros ha hn. rewrite <- (Fpow_1 f) in ha. pose proof small_le.
  fe_open fe_Exp22523 (fe_Exp22523 K a).
  repeat pow_step L f. subst PP. cbv beta. pow_go.
Qed.

(** the candidate t of InvSqrt and InvSqrtI *)
Definition isr_exp : Z := 7 * (2 ^ 252 - 3) + 3.
Definition Ft (f : F) : F := Fpow f isr_exp.

Lemma Ft_chk f : (Ft f * Ft f * f = Fpow (Fpow f ((p - 1) / 4)) 7)%F.
Proof.
  unfold Ft. rewrite <- (Fpow_1 f) at 3. rewrite <- !Fpow_add, <- Fpow_mul by (vm_compute; discriminate).
  f_equal.
Qed.

(** ** InvSqrt, Sqrt, InvSqrtI *)

(** r = f^((p-1)/4) is a fourth root of unity; r^2 tells whether f is a square *)
Lemma quart_cases f : f <> F0 -> let r := Fpow f ((p - 1) / 4) in
  (is_sq f /\ (r = F1 \/ r = Fopp F1)) \/ (~ is_sq f /\ (r = Fi \/ r = Fopp Fi)).
Proof.
  intros hf r.
  assert (E : (r * r = chi f)%F).
  { unfold r, chi. rewrite <- Fpow_add by (vm_compute; discriminate). f_equal. }
  destruct (is_sq_dec f) as [hs|hs].
  - left. split; [exact hs|]. apply (is_sq_chi f hf) in hs. rewrite hs in E.
    apply (Fsq_eq r F1). rewrite E. ring.
  - right. split; [exact hs|]. apply (not_sq_chi f hf) in hs. rewrite hs in E.
    apply Fsq_eq. rewrite E, Fi_sq. reflexivity.
Qed.

Lemma pow7 r : Fpow r 7 = (r * r * r * r * r * r * r)%F.
Proof.
  replace 7 with (1 + (1 + (1 + (1 + (1 + (1 + 1)))))) by reflexivity.
  rewrite !Fpow_add by (vm_compute; discriminate). rewrite Fpow_1. ring.
Qed.

Lemma Fi4 : (Fi * Fi * Fi * Fi = F1)%F.
Proof. transitivity ((Fi * Fi) * (Fi * Fi))%F; [ring|]. rewrite Fi_sq. ring. Qed.

Lemma chk_cases f : f <> F0 -> let c := (Ft f * Ft f * f)%F in
  (is_sq f /\ (c = F1 \/ c = Fopp F1)) \/ (~ is_sq f /\ (c = Fi \/ c = Fopp Fi)).
Proof.
  intros hf. cbv zeta. rewrite Ft_chk, pow7. pose proof Fi4 as H4.
  destruct (quart_cases f hf) as [[hs [-> | ->]]|[hs [-> | ->]]]; [left|left|right|right]; (split; [exact hs|]).
  - left. ring.
  - right. ring.
  - right. transitivity ((Fi * Fi * Fi * Fi) * ((Fi * Fi) * Fi))%F; [ring|]. rewrite H4, Fi_sq. ring.
  - left. transitivity (- ((Fi * Fi * Fi * Fi) * ((Fi * Fi) * Fi)))%F; [ring|]. rewrite H4, Fi_sq. ring.
Qed.

Lemma Ft_0 : Ft F0 = F0.
Proof. unfold Ft. apply Fpow_F0. vm_compute. reflexivity. Qed.

(** what [InvSqrt] guarantees: g = 1/sqrt f for a non-zero square f, and 0 for 0 *)
Definition isr_spec (f g : F) : Prop := (f = F0 -> g = F0) /\ (f <> F0 -> is_sq f -> (g * g * f = F1)%F) /\
  (f <> F0 -> ~ is_sq f -> (g * g * f <> F1)%F).

(** what [InvSqrtI] guarantees *)
Definition isri_spec (f g : F) (b : bool) : Prop :=
  (f = F0 -> b = false /\ g = F0) /\
  (f <> F0 -> is_sq f -> b = true /\ (g * g * f = F1)%F) /\
  (f <> F0 -> ~ is_sq f -> b = false /\ (g * g * (Fi * f) = F1)%F).

Lemma Feqb_refl' x : Feqb x x = true.
Proof. apply Feqb_eq. reflexivity. Qed.
Lemma Feqb_neq x y : x <> y -> Feqb x y = false.
Proof. intro h. destruct (Feqb x y) eqn:E; [|reflexivity]. apply Feqb_eq in E. contradiction. Qed.

Lemma F1_neq_Fi : F1 <> Fi. Proof. apply of_Z_neq. vm_compute; reflexivity. Qed.
Lemma Fi_neq_oppFi : Fi <> Fopp Fi.
Proof. intro h. apply Fi_nz. apply Fopp_eq. exact h. Qed.
Lemma Fopp_inv x : Fopp (Fopp x) = x. Proof. ring. Qed.

Definition isr_val (f : F) : F := if negb (Feqb (Ft f * Ft f * f)%F F1) then (Ft f * Fi)%F else Ft f.

Lemma isr_val_spec f : isr_spec f (isr_val f).
Proof.
  unfold isr_val. split; [|split].
  - intros ->. rewrite Ft_0. destruct (negb _); ring.
  - intros hf hs. destruct (chk_cases f hf) as [[_ [E|E]]|[h _]]; [| |contradiction].
    + rewrite E, Feqb_refl'. cbn [negb]. exact E.
    + rewrite E, Feqb_neq by (intro h; exact (F1_neq_opp (eq_sym h))). cbn [negb].
      transitivity ((Fi * Fi) * (Ft f * Ft f * f))%F; [ring|]. rewrite E, Fi_sq. ring.
  - intros hf hs. destruct (chk_cases f hf) as [[h _]|[_ [E|E]]]; [contradiction| |];
      rewrite E, Feqb_neq.
    + cbn [negb]. intro h. assert (h' : ((Fi * Fi) * (Ft f * Ft f * f) = F1)%F) by (rewrite <- h; ring).
      rewrite E, Fi_sq in h'. apply F1_neq_Fi. assert (h2 : (Fi = Fopp F1)%F) by (rewrite <- h'; ring).
      exfalso. apply Fi_nsq. rewrite h2. apply is_sq_opp. rewrite Fopp_inv. exists F1. ring.
    + intro h. exact (F1_neq_Fi (eq_sym h)).
    + cbn [negb]. intro h. assert (h' : ((Fi * Fi) * (Ft f * Ft f * f) = F1)%F) by (rewrite <- h; ring).
      rewrite E, Fi_sq in h'. apply F1_neq_Fi. rewrite <- h'. ring.
    + intro h. apply Fi_nsq. replace Fi with (Fopp F1) by (rewrite <- h; ring).
      apply is_sq_opp. rewrite Fopp_inv. exists F1. ring.
Qed.

Ltac rpow := eapply eq_trans; [| symmetry; apply Fpow_1].

Lemma fe_cand_ok n a f (hn : n <= cL L) : rel L n a f ->
  forall B (P : B -> Prop) (body : fe K -> B),
  (forall t, rel L 1 t (Ft f) -> P (body t)) ->
  P (let den2 := o_square K a in let den3 := o_mul K den2 a in let den4 := o_square K den2 in
     let den6 := o_mul K den2 den4 in let t := o_mul K den6 a in let t := fe_Exp22523 K t in
     let t := o_mul K t den3 in body t).
Proof.
  intros ha B P body H. pose proof small_le as (h1 & _).
  rewrite <- (Fpow_1 f) in ha.
  do 5 pow_step L f.
  lazymatch goal with |- ?P (let x := ?e in @?body x) => refine (step_pow L P body e f (7 * (2 ^ 252 - 3)) _ _) end.
  { rewrite Fpow_mul by (vm_compute; discriminate). apply (fe_Exp22523_ok 1); [assumption | exact h1]. }
  intros t ht. cbv beta.
  refine (step_pow L P body _ f isr_exp _ _); [|exact H].
  eapply pow_mul; [exact ht | eassumption | lia | lia | vm_compute; discriminate | vm_compute; discriminate |].
  reflexivity.
Qed.

Lemma fe_InvSqrt_ok n a f : rel L n a f -> n <= cL L -> rel L 1 (fe_InvSqrt K a) (isr_val f).
Proof.
  intros ha hn. pose proof small_le as (h1 & h2 & h3 & h4).
  fe_open fe_InvSqrt (fe_InvSqrt K a).
  lazymatch goal with |- ?P (let x1 := _ in let x2 := _ in let x3 := _ in let x4 := _ in let x5 := _ in
    let x6 := _ in let x7 := _ in @?body x7) => refine (fe_cand_ok n a f hn ha _ P body _) end.
  intros t ht. cbv beta.
  step_by L (fe_mul_r L 1 1 _ _ _ _ ht (law_I K L) ltac:(lia) h1). intros t2 g2 e2 h_2.
  step_by L (fe_square_r L 1 _ _ ht ltac:(lia)). intros c1 gc ec hc.
  step_by L (fe_mul_r L 1 n _ _ _ _ hc ha ltac:(lia) hn). intros c2 gc2 ec2 hc2.
  cbv zeta. subst PP. cbv beta.
  rewrite (fe_IsOneI_ok L 1 c2 _ hc2 ltac:(lia) ltac:(lia)), i32_1_sub_b2z.
  change 1 with (Z.max 1 1). unfold isr_val. subst gc2 gc g2.
  apply (fe_condSet_r L 1 1); auto.
Qed.

Lemma fe_Sqrt_ok n a f : rel L n a f -> n <= cL L -> rel L 2 (fe_Sqrt K a) (Fabs (isr_val f * f)%F).
Proof.
  intros ha hn. pose proof small_le as (h1 & h2 & h3 & h4). pose proof (cN_rng K L). pose proof (cB_rng K L).
  unfold fe_Sqrt. cbv zeta.
  pose proof (fe_mul_r L 1 n _ _ _ _ (fe_InvSqrt_ok n a f ha hn) ha ltac:(lia) hn) as hr.
  destruct (fe_IsNegativeI_ok L 1 _ _ hr h1) as (x' & -> & h').
  pose proof (law_neg K L 1 _ _ hr h1) as hneg.
  apply (rel_le K L (Z.max (Z.max 1 (cB L)) (Z.max (cN L) 1))); [lia|].
  unfold Fabs. apply fe_condSet_r; auto; lia.
Qed.

Definition isri_val (f : F) : F :=
  let c := (Ft f * Ft f * f)%F in
  (Ft f * (if (Feqb (Fopp c) F1 || Feqb c Fi)%bool then Fi else F1))%F.
Definition isri_flag (f : F) : bool :=
  let c := (Ft f * Ft f * f)%F in (Feqb c F1 || Feqb (Fopp c) F1)%bool.

Lemma isri_val_spec f : isri_spec f (isri_val f) (isri_flag f).
Proof.
  assert (n1 : Fopp F1 <> F1) by (intro h; exact (F1_neq_opp (eq_sym h))).
  assert (n2 : Fi <> F1) by (intro h; exact (F1_neq_Fi (eq_sym h))).
  assert (n3 : Fi <> Fopp F1).
  { intro h. apply Fi_nsq. rewrite h. apply is_sq_opp. rewrite Fopp_inv. exists F1. ring. }
  assert (n4 : Fopp Fi <> F1). { intro h. apply n3. rewrite <- h. ring. }
  assert (n5 : Fopp Fi <> Fi) by (intro h; exact (Fi_neq_oppFi (eq_sym h))).
  unfold isri_val, isri_flag. cbv zeta. split; [|split].
  - intros ->. rewrite Ft_0. split; [|ring].
    replace (F0 * F0 * F0)%F with F0 by ring. replace (Fopp F0) with F0 by ring.
    rewrite Feqb_neq; [reflexivity|]. intro h. exact (F1_neq_0 (eq_sym h)).
  - intros hf hs. destruct (chk_cases f hf) as [[_ [E|E]]|[h _]]; [| |contradiction]; rewrite E.
    + rewrite Feqb_refl', (Feqb_neq (Fopp F1)), (Feqb_neq F1 Fi) by (assumption || exact F1_neq_Fi). cbn [orb].
      split; [reflexivity|]. transitivity (Ft f * Ft f * f)%F; [ring | exact E].
    + rewrite Fopp_inv, Feqb_refl'. rewrite Bool.orb_true_r. cbn [orb]. split; [reflexivity|].
      transitivity ((Fi * Fi) * (Ft f * Ft f * f))%F; [ring|]. rewrite E, Fi_sq. ring.
  - intros hf hs. destruct (chk_cases f hf) as [[h _]|[_ [E|E]]]; [contradiction| |]; rewrite E.
    + rewrite Feqb_refl', (Feqb_neq Fi F1), (Feqb_neq (Fopp Fi) F1) by assumption. cbn [orb].
      split; [reflexivity|].
      transitivity ((Fi * Fi) * Fi * (Ft f * Ft f * f))%F; [ring|]. rewrite E, Fi_sq.
      transitivity (- (Fi * Fi))%F; [ring|]. rewrite Fi_sq. ring.
    + rewrite Fopp_inv, (Feqb_neq (Fopp Fi) F1), (Feqb_neq Fi F1), (Feqb_neq (Fopp Fi) Fi) by assumption. cbn [orb].
      split; [reflexivity|].
      transitivity (Fi * (Ft f * Ft f * f))%F; [ring|]. rewrite E.
      transitivity (- (Fi * Fi))%F; [ring|]. rewrite Fi_sq. ring.
Qed.

Lemma b2z_add_excl a b : (a && b)%bool = false -> i32 (Z.b2z a + Z.b2z b) = Z.b2z (a || b).
Proof. destruct a, b; intro h; try discriminate h; reflexivity. Qed.

Lemma fe_InvSqrtI_ok n a f : rel L n a f -> n <= cL L ->
  exists x, fe_InvSqrtI K a = (Z.b2z (isri_flag f), x) /\ rel L 1 x (isri_val f).
Proof.
  intros ha hn. pose proof small_le as (h1 & h2 & h3 & h4). pose proof (cN_rng K L).
  fe_open fe_InvSqrtI (fe_InvSqrtI K a).
  lazymatch goal with |- ?P (let x1 := _ in let x2 := _ in let x3 := _ in let x4 := _ in let x5 := _ in
    let x6 := _ in let x7 := _ in @?body x7) => refine (fe_cand_ok n a f hn ha _ P body _) end.
  intros t ht. cbv beta.
  step_by L (fe_square_r L 1 _ _ ht ltac:(lia)). intros c1 gc ec hc.
  step_by L (fe_mul_r L 1 n _ _ _ _ hc ha ltac:(lia) hn). intros c2 gc2 ec2 hc2. subst gc.
  pose proof (law_neg K L 1 _ _ hc2 h1) as hneg.
  cbv zeta. subst PP. cbv beta.
  rewrite (fe_IsOneI_ok L 1 c2 _ hc2 ltac:(lia) ltac:(lia)).
  rewrite (fe_EqualsI_ok L 1 1 c2 _ _ Fi hc2 (law_I K L)) by lia.
  rewrite (fe_IsOneI_ok L (Z.max (cN L) 1) (o_neg K c2) _ hneg) by lia.
  rewrite (b2z_add_excl (Feqb (Fopp gc2) F1)), (b2z_add_excl (Feqb gc2 F1)).
  - eexists. split; [unfold isri_flag; cbv zeta; subst gc2; reflexivity|].
    unfold isri_val. cbv zeta. apply (fe_mul_r L 1 1); auto; [|lia].
    change 1 with (Z.max 1 1). subst gc2. apply (fe_condSet_r L 1 1); auto. apply law_one. apply law_I.
  - destruct (Feqb gc2 F1) eqn:E1, (Feqb (Fopp gc2) F1) eqn:E2; try reflexivity.
    apply Feqb_eq in E1, E2. rewrite E1 in E2. exfalso. exact (F1_neq_opp (eq_sym E2)).
  - destruct (Feqb gc2 Fi) eqn:E1, (Feqb (Fopp gc2) F1) eqn:E2; try reflexivity.
    apply Feqb_eq in E1, E2. rewrite E1 in E2. exfalso.
    apply Fi_nsq. apply is_sq_opp. rewrite E2. exists F1. ring.
Qed.

End FieldGo.
