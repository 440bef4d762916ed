(** Programs over FieldElement compute modulo p, on each build: every variable stays within two units. *)
From Coq Require Import ZArith List Lia Bool.
From Verif Require Import Words WordsTac Primes Fp Fe51Code Fe51Proofs Fe25Code Fe25Proofs Fe25Wide FieldModel BitFold FieldLaws FieldFacts Fe51Laws Fe25Laws
  Amd64Field Amd64Proofs Amd64Laws StringModel StringFacts Backends FieldApiModel FieldApiSpec.
Import ListNotations.
Open Scope Z_scope.

(** ** Sums and differences of two units each *)
Record Room (K : FeOps) (L : FeLaws K) : Prop := mkRoom {
  room_add : forall x y f g, rel L 2 x f -> rel L 2 y g -> rel L 1 (fe_Add K x y) (Fadd f g);
  room_sub : forall x y f g, rel L 2 x f -> rel L 2 y g -> rel L 1 (fe_Sub K x y) (Fsub f g);
  room_bytes : forall x y f g, rel L 2 x f -> rel L 2 y g -> fst (o_bytes K (o_sub K x y)) = le_bytes 32 (fval (Fsub f g)) }.

Lemma room51 : Room R51 L51.
Proof.
  constructor; intros x y f g hx hy.
  - apply (fe_Add_r L51 2 2); [exact hx | exact hy | cbn; lia | lia | lia].
  - apply (fe_Sub_r L51 2 2); [exact hx | exact hy | cbn; lia | lia | lia].
  - pose proof (law_sub R51 L51 2 2 x y f g hx hy ltac:(cbn; lia) ltac:(cbn; lia)) as h.
    destruct (law_bytes R51 L51 _ _ _ h ltac:(cbn; lia)) as (x' & e & _). rewrite e. reflexivity.
Qed.

Lemma roomA : Room RAmd64 LA.
Proof.
  constructor; intros x y f g hx hy.
  - pose proof (relA_add 2 2 x y f g hx hy ltac:(lia) ltac:(lia)) as [hb hv].
    destruct (r51_setReduced_ok (r51_add x y)) as [hb2 hv2]; [apply (bndA' (2 + 2)); [exact hb | lia]|].
    split; unfold fe_Add; cbn [RAmd64 o_normalize o_add].
    + apply (bnd51_le 2251799813685247); [unfold UA; lia | exact hb2].
    + rewrite hv2, P25519_p, of_Z_mod. exact hv.
  - pose proof (relA_sub 2 2 x y f g hx hy ltac:(lia) ltac:(lia)) as [hb hv].
    destruct (r51_setReduced_ok (r51_sub x y)) as [hb2 hv2]; [apply (bndA' (2 + Z.max 1 2)); [exact hb | lia]|].
    split; unfold fe_Sub; cbn [RAmd64 o_normalize o_sub].
    + apply (bnd51_le 2251799813685247); [unfold UA; lia | exact hb2].
    + rewrite hv2, P25519_p, of_Z_mod. exact hv.
  - pose proof (relA_sub 2 2 x y f g hx hy ltac:(lia) ltac:(lia)) as [hb hv]. cbn [RAmd64 o_bytes o_sub fst].
    rewrite r51_bytes_ok by (apply (bndA' (2 + Z.max 1 2)); [exact hb | lia]). rewrite P25519_p, <- hv, fval_of_Z. reflexivity.
Qed.

Lemma rel25_add4 x y f g : rel25 2 x f -> rel25 2 y g -> bnd25 (2 * UE + 2 * UE) (2 * UO + 2 * UO) (g25_add x y) /\ of_Z (v25 (g25_add x y)) = Fadd f g.
Proof.
  intros [hx ex] [hy ey]. destruct (g25_add_ok _ _ _ _ x y hx hy) as [hb hv]; [unfold UE; lia | unfold UO; lia |].
  split; [exact hb|]. rewrite hv, of_Z_add, ex, ey. reflexivity.
Qed.
Lemma rel25_sub4 x y f g : rel25 2 x f -> rel25 2 y g -> bnd25 (2 * UE + 2 * UE) (2 * UO + 2 * UO) (g25_sub x y) /\ of_Z (v25 (g25_sub x y)) = Fsub f g.
Proof.
  intros [hx ex] [hy ey]. destruct (g25_sub_ok _ _ _ _ x y hx hy) as [hb hv]; [unfold UE; lia | unfold UO; lia |].
  split; [exact hb|]. rewrite hv, of_Z_sub, ex, ey. reflexivity.
Qed.
Lemma norm25_4 x f : bnd25 (2 * UE + 2 * UE) (2 * UO + 2 * UO) x -> of_Z (v25 x) = f -> rel25 1 (g25_normalize x) f.
Proof.
  intros hb hv. destruct (g25_normalize_ok x) as [hb2 [k hk]].
  { apply (fun h1 h2 => bnd25_le _ _ _ _ _ h1 h2 hb); unfold UE, UO; lia. }
  split; [exact hb2|]. rewrite hk, of_Z_plus_pk. exact hv.
Qed.

Lemma room25 : Room R25 L25.
Proof.
  constructor; intros x y f g hx hy.
  - destruct (rel25_add4 x y f g hx hy) as [hb hv]. exact (norm25_4 _ _ hb hv).
  - destruct (rel25_sub4 x y f g hx hy) as [hb hv]. exact (norm25_4 _ _ hb hv).
  - destruct (rel25_sub4 x y f g hx hy) as [hb hv]. cbn [R25 o_bytes o_sub].
    destruct (g25_bytes_ok4 (g25_sub x y)) as [e _].
    { apply (fun h1 h2 => bnd25_le _ _ _ _ _ h1 h2 hb); unfold UE, UO; lia. }
    etransitivity; [exact e|]. rewrite P25519_p, <- fval_of_Z, hv. reflexivity.
Qed.

Lemma room b : Room (ops b) (laws b).
Proof. destruct b; [exact room51 | exact roomA | exact room25]. Qed.

(** ** Integers modulo p *)
Lemma fv_add f g : fval (Fadd f g) = (fval f + fval g) mod p. Proof. reflexivity. Qed.
Lemma fv_sub f g : fval (Fsub f g) = (fval f - fval g) mod p.
Proof. rewrite <- (of_Z_fval f), <- (of_Z_fval g) at 1. rewrite <- of_Z_sub. apply fval_of_Z. Qed.
Lemma fv_mul f g : fval (Fmul f g) = (fval f * fval g) mod p.
Proof. rewrite <- (of_Z_fval f), <- (of_Z_fval g) at 1. rewrite <- of_Z_mul. apply fval_of_Z. Qed.
Lemma fv_opp f : fval (Fopp f) = (- fval f) mod p.
Proof. rewrite <- (of_Z_fval f) at 1. rewrite <- of_Z_opp. apply fval_of_Z. Qed.
Lemma fv_pow f e : 0 <= e -> fval (Fpow f e) = (fval f ^ e) mod p.
Proof. intro h. rewrite <- (of_Z_fval f) at 1. rewrite <- of_Z_pow by exact h. apply fval_of_Z. Qed.
Lemma fv_abs f : fval (Fabs f) = z_abs (fval f).
Proof.
  unfold Fabs, z_abs, Fneg. destruct (Z.odd (fval f)) eqn:E; [|reflexivity]. apply fval_opp. intros ->. 
  change (Fneg F0 = true) in E. rewrite Fneg_0 in E. discriminate E.
Qed.
Lemma fv_F1 : fval F1 = 1. Proof. vm_compute. reflexivity. Qed.
Lemma fv_F0 : fval F0 = 0. Proof. vm_compute. reflexivity. Qed.
Lemma nz_b f : Feqb f F0 = (fval f =? 0). Proof. unfold Feqb. rewrite fv_F0. reflexivity. Qed.
Lemma one_b f : Feqb f F1 = (fval f =? 1). Proof. unfold Feqb. rewrite fv_F1. reflexivity. Qed.

Definition z_inv (a : Z) : Z := fval (Finv (of_Z a)).
Definition z_isr (a : Z) : Z := fval (isr_val (of_Z a)).
Definition z_isri (a : Z) : Z := fval (isri_val (of_Z a)).
Definition z_flag (a : Z) : bool := isri_flag (of_Z a).

(** ** One call *)
Section Step.
Context {K : FeOps} (L : FeLaws K) (R : Room K L).

Definition holds2 (x : fe K) (z : Z) : Prop := exists f, rel L 2 x f /\ z = fval f.
Definition agree (st : nat -> fe K) (zs : nat -> Z) : Prop := forall i, holds2 (st i) (zs i).

Lemma h2 n x f z : rel L n x f -> n <= 2 -> z = fval f -> holds2 x z.
Proof. intros h hn e. exists f. split; [apply (rel_le K L n); assumption | exact e]. Qed.
Lemma agree_set st zs d x z : agree st zs -> holds2 x z -> agree (qset st d x) (qset zs d z).
Proof. intros h hx i. unfold qset. destruct (Nat.eqb i d); [exact hx | apply h]. Qed.
Lemma agree_same st zs a x : agree st zs -> holds2 x (zs a) -> agree (qset st a x) zs.
Proof. intros h hx i. unfold qset. destruct (Nat.eqb_spec i a) as [->|_]; [exact hx | apply h]. Qed.

Lemma nz_diff x y f g : rel L 2 x f -> rel L 2 y g -> fst (fe_IsNonZeroI K (o_sub K x y)) = Z.b2z (negb (Feqb f g)).
Proof.
  intros hx hy. pose proof (room_bytes K L R x y f g hx hy) as e. unfold fe_IsNonZeroI. destruct (o_bytes K (o_sub K x y)) as [buf x'].
  cbn [fst] in *. subst buf. rewrite <- (Feqb_sub_0 f g). generalize (Fsub f g). clear - K. intro h.
  pose proof (isNonZero_word _ (le_bytes_bytes 32 (fval h))) as E. rewrite (le_val_le_bytes 32) in E by apply fval_256.
  rewrite fval_eqb_0 in E. rewrite <- E. clear E. generalize (le_bytes 32 (fval h)). intro s.
  match goal with |- context [Z.lor ?a (le_val (slice s 24 32))] => generalize (Z.lor a (le_val (slice s 24 32))) end.
  intro w. cbv zeta.
  rewrite (foldk_def 32), (foldk_def 16), (foldk_def 8), (foldk_def 4), (foldk_def 2), (foldk_def 1). reflexivity.
Qed.

Local Notation zstep := (z_step (fval Fi) z_inv z_isr z_isri z_flag decimal).
Local Notation zrun := (z_run (fval Fi) z_inv z_isr z_isri z_flag decimal).

Lemma two_le : 2 <= cL L. Proof. pose proof (cL_ge K L). pose proof (cN_rng K L). lia. Qed.

Lemma step_ok i st zs : q_typed i -> agree st zs ->
  fst (q_step K i st) = fst (zstep i zs) /\ agree (snd (q_step K i st)) (snd (zstep i zs)).
Proof.
  intros ht H. pose proof two_le as L2. pose proof (cN_rng K L) as LN. pose proof (cB_rng K L) as LB.
  assert (L1 : 1 <= cL L) by lia.
  assert (S : forall d x f z, rel L 1 x f -> z = fval f -> QNone = QNone /\ agree (qset st d x) (qset zs d z)).
  { intros d x f z h e. split; [reflexivity|]. apply agree_set; [exact H|]. apply (h2 1 x f); [exact h | lia | exact e]. }
  destruct i; cbn [q_step z_step q_typed] in *;
    try (destruct (H a) as (f & hf & ef); rewrite ef); try (destruct (H b) as (g & hg & eg); rewrite eg).
  - apply (S d _ Fi); [apply law_I | reflexivity].
  - apply (S d _ F0); [apply law_zero | symmetry; exact fv_F0].
  - apply (S d _ F1); [apply law_one | symmetry; exact fv_F1].
  - split; [reflexivity|]. apply agree_set; [exact H|]. exists f. exact (conj hf eq_refl).
  - apply (S d _ _ _ (law_setBytes K L buf ht)). symmetry. apply fval_of_Z.
  - apply (S d _ _ _ (fe_SetBigInt_ok L x)). symmetry. apply fval_of_Z.
  - apply (S d _ _ _ (room_add K L R _ _ _ _ hf hg)). symmetry. apply fv_add.
  - apply (S d _ _ _ (room_sub K L R _ _ _ _ hf hg)). symmetry. apply fv_sub.
  - apply (S d _ _ _ (fe_mul_r L 2 2 _ _ _ _ hf hg ltac:(lia) L2)). symmetry. apply fv_mul.
  - split; [reflexivity|]. apply agree_set; [exact H|].
    apply (h2 _ _ _ _ (law_neg K L 2 _ _ hf L2)); [lia | symmetry; apply fv_opp].
  - apply (S d _ _ _ (fe_square_r L 2 _ _ hf ltac:(lia))). symmetry. apply fv_mul.
  - apply (S d _ _ _ (law_dsquare K L _ _ hf)). rewrite fv_mul, fv_mul, fval_of_Z, <- Zmult_mod. reflexivity.
  - apply (S d _ _ _ (fe_Inverse_ok L 2 _ _ hf L2)). unfold z_inv. rewrite of_Z_fval. reflexivity.
  - apply (S d _ _ _ (fe_Exp22523_ok L 2 _ _ hf L2)). symmetry. apply fv_pow. apply Z.leb_le. reflexivity.
  - destruct (Nat.eqb_spec d a) as [->|_].
    + split; [reflexivity|]. apply agree_set; [exact H|].
      apply (h2 2 _ _ _ (fe_Abs_self_ok L 2 _ _ hf L2 ltac:(lia))); [lia | symmetry; apply fv_abs].
    + destruct (fe_Abs_ok L 2 _ _ hf L2) as (x' & -> & hx' & hr). split; [reflexivity|]. cbn [snd].
      apply agree_set; [apply agree_same; [exact H|]|].
      * rewrite ef. apply (h2 _ _ _ _ hx'); [lia | reflexivity].
      * apply (h2 _ _ _ _ hr); [lia | symmetry; apply fv_abs].
  - apply (S d _ _ _ (fe_InvSqrt_ok L 2 _ _ hf L2)). unfold z_isr. rewrite of_Z_fval. reflexivity.
  - split; [reflexivity|]. apply agree_set; [exact H|].
    apply (h2 2 _ _ _ (fe_Sqrt_ok L 2 _ _ hf L2)); [lia|]. unfold z_isr. rewrite of_Z_fval, fv_abs, fv_mul. reflexivity.
  - destruct (fe_InvSqrtI_ok L 2 _ _ hf L2) as (x & -> & hx). unfold z_flag, z_isri. rewrite of_Z_fval. split; [reflexivity|].
    apply agree_set; [exact H|]. apply (h2 1 _ _ _ hx); [lia | reflexivity].
  - destruct (H d) as (g & hg & eg). rewrite eg. split; [reflexivity|]. apply agree_set; [exact H|].
    rewrite (law_condSet K L 2 2 _ _ _ _ c hg hf L2 L2). destruct c; [exists f | exists g]; split; (assumption || reflexivity).
  - destruct (law_bytes K L 2 _ _ hf L2) as (x' & e & hx'). unfold fe_Bytes. rewrite e. split; [reflexivity|].
    cbn [snd]. apply agree_same; [exact H|]. rewrite ef. apply (h2 _ _ _ _ hx'); [lia | reflexivity].
  - destruct (law_bytes K L 2 _ _ hf L2) as (x' & e & hx'). rewrite e. split; [reflexivity|].
    cbn [snd]. apply agree_same; [exact H|]. rewrite ef. apply (h2 _ _ _ _ hx'); [lia | reflexivity].
  - destruct (fe_BigInt_ok L 2 _ _ hf L2) as (x' & e & hx'). rewrite e. split; [reflexivity|].
    cbn [snd]. apply agree_same; [exact H|]. rewrite ef. apply (h2 _ _ _ _ hx'); [lia | reflexivity].
  - destruct (fe_BigInt_ok L 2 _ _ hf L2) as (x' & e & hx'). unfold fe_String. rewrite e. split; [reflexivity | exact H].
  - destruct (fe_IsNegativeI_ok L 2 _ _ hf L2) as (x' & e & hx'). rewrite e. split; [reflexivity|].
    cbn [snd]. apply agree_same; [exact H|]. rewrite ef. apply (h2 _ _ _ _ hx'); [lia | reflexivity].
  - destruct (fe_IsNonZeroI_ok L 2 _ _ hf L2) as (x' & e & hx'). rewrite e, <- nz_b. split; [reflexivity|].
    cbn [snd]. apply agree_same; [exact H|]. rewrite ef. apply (h2 _ _ _ _ hx'); [lia | reflexivity].
  - split; [|exact H]. cbn [fst]. unfold fe_IsOneI. cbv zeta. 
    rewrite (nz_diff _ _ f F1 hf (rel_le K L 1 2 _ _ ltac:(lia) (law_one K L))), i32_1_sub_b2z, negb_involutive, one_b. reflexivity.
  - split; [|exact H]. cbn [fst]. unfold fe_EqualsI. cbv zeta.
    rewrite (nz_diff _ _ f g hf hg), i32_1_sub_b2z, negb_involutive. reflexivity.
  - split; [|exact H]. cbn [fst]. unfold fe_Equals. cbv zeta.
    rewrite (nz_diff _ _ f g hf hg). unfold Feqb. destruct (fval f =? fval g); reflexivity.
Qed.

Lemma run_ok prog : forall st zs, Forall q_typed prog -> agree st zs ->
  fst (q_run K prog st) = fst (zrun prog zs) /\ agree (snd (q_run K prog st)) (snd (zrun prog zs)).
Proof.
  induction prog as [|i r IH]; intros st zs ht H; cbn [q_run z_run].
  - split; [reflexivity | exact H].
  - inversion ht as [|i' r' h1 h2' e]; subst. destruct (step_ok i st zs h1 H) as [e1 e2].
    destruct (q_step K i st) as [o st1], (zstep i zs) as [o' zs1]. cbn [fst snd] in e1, e2. subst o'.
    destruct (IH st1 zs1 h2' e2) as [e3 e4].
    destruct (q_run K r st1) as [os st2], (zrun r zs1) as [os' zs2]. cbn [fst snd] in *. subst os'. split; [reflexivity | exact e4].
Qed.

Lemma init_ok : agree (q_init K) (fun _ => 0).
Proof. intro i. apply (h2 1 _ F0); [apply law_zero | lia | symmetry; exact fv_F0]. Qed.
End Step.

(** ** The theorems *)
Lemma zval f a : 0 <= a < p -> (f = of_Z a -> fval f = a).
Proof. intros h ->. rewrite fval_of_Z. apply Z.mod_small, h. Qed.

Lemma q_inv a : 0 <= a < p -> 0 <= z_inv a < p /\ (a <> 0 -> (z_inv a * a) mod p = 1) /\ (a = 0 -> z_inv a = 0).
Proof.
  intro h. unfold z_inv. refine (conj (fval_range _) (conj _ _)).
  - intro hn. assert (hz : of_Z a <> F0) by (intro e; apply hn; rewrite <- fv_F0, <- e; symmetry; apply zval; [exact h | reflexivity]).
    pose proof (Finv_l _ hz) as e. rewrite <- fv_F1, <- e, fv_mul, (zval _ a h eq_refl). reflexivity.
  - intros ->. change (of_Z 0) with F0. rewrite Finv_0. exact fv_F0.
Qed.

Definition z_square (a : Z) : Prop := exists r, (r * r) mod p = a.
Lemma z_square_ok a : 0 <= a < p -> (z_square a <-> is_sq (of_Z a)).
Proof.
  intro h. split.
  - intros [r e]. exists (of_Z r). rewrite <- of_Z_mul. rewrite <- e, of_Z_mod. reflexivity.
  - intros [y e]. exists (fval y). rewrite <- fv_mul, e. apply zval; [exact h | reflexivity].
Qed.

Lemma of_Z_0 a : 0 <= a < p -> (of_Z a = F0 <-> a = 0).
Proof. intro h. split; [|intros ->; reflexivity]. intro e. rewrite <- fv_F0, <- e. symmetry. apply zval; [exact h | reflexivity]. Qed.

Lemma sq_val f a : 0 <= a < p -> fval (f * f * of_Z a)%F = (fval f * fval f * a) mod p.
Proof. intro h. rewrite !fv_mul, (zval _ a h eq_refl), Zmult_mod_idemp_l. reflexivity. Qed.

Lemma q_isr a : 0 <= a < p -> 0 <= z_isr a < p /\ (a = 0 -> z_isr a = 0) /\
  (a <> 0 -> ((z_isr a * z_isr a * a) mod p = 1 <-> z_square a)).
Proof.
  intro h. destruct (isr_val_spec (of_Z a)) as (s1 & s2 & s3). unfold z_isr. rewrite (z_square_ok a h), (of_Z_0 a h) in *.
  refine (conj (fval_range _) (conj _ _)).
  - intro e. rewrite (s1 e). exact fv_F0.
  - intro e. rewrite <- (sq_val _ a h). split.
    + intro e1. destruct (is_sq_dec (of_Z a)) as [q|q]; [exact q|]. exfalso. apply (s3 e q). apply F_eq. rewrite e1. symmetry. exact fv_F1.
    + intro q. rewrite (s2 e q). exact fv_F1.
Qed.
