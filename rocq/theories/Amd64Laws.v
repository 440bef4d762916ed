(** The amd64 assembly backend satisfies [FeLaws], so that all proofs over [FeLaws] apply to it. *)
From Coq Require Import ZArith List Lia Bool Ring.
From Verif Require Import Words WordsTac NumTheory Primes Fp Edwards GroupOrder Fe51Code Fe51Proofs FieldModel CurveModel BitFold FieldLaws
  CurveProofs ScalarMultProofs Fe51Laws Amd64Model Amd64Code Amd64Field Amd64Proofs BaseTable51 BaseTableProofs
  RistrettoModel Sha256 ApiModel ApiSpec ApiProofs ApiIdeal Generic25.
Import ListNotations.
Open Scope Z_scope.

(** one unit: twice the bound of a product, since DoubledSquare adds a square to itself *)
Definition UA : Z := 4503599627436032.
Definition relA (n : Z) (x : fe51) (f : F) : Prop := bnd51 (n * UA) x /\ of_Z (v51 x) = f.

Lemma relA_51 n x f : 0 <= n -> rel51 n x f -> relA n x f.
Proof. intros hn [hb hv]. split; [|exact hv]. apply (bnd51_le (n * U51)); [unfold U51, UA; lia | exact hb]. Qed.
Lemma relA_51' n x f : 1 <= n -> rel51 (2 * n) x f -> relA n x f.
Proof. intros hn [hb hv]. split; [|exact hv]. apply (bnd51_le (2 * n * U51)); [unfold U51, UA; lia | exact hb]. Qed.

Lemma bndA n x : bnd51 (n * UA) x -> n <= 4 -> bnd51 B4 x.
Proof. intros h hn. apply (bnd51_le (n * UA)); [unfold UA, B4; lia | exact h]. Qed.
Lemma bndA' n x : bnd51 (n * UA) x -> n <= 4 -> bnd51 9223372036854775807 x.
Proof. intros h hn. apply (bnd51_le (n * UA)); [unfold UA; lia | exact h]. Qed.

Lemma relA_mul x y f g : relA 4 x f -> relA 4 y g -> relA 1 (amd64_mul x y) (Fmul f g).
Proof.
  intros [hx ex] [hy ey]. destruct (amd64_mul_ok x y) as [hb [k hk]]; try (apply (bndA 4); [assumption | lia]).
  split; [apply (bnd51_le 2251799813718016); [unfold UA; lia | exact hb]|].
  rewrite <- ex, <- ey, <- of_Z_mul, hk, of_Z_plus_pk. reflexivity.
Qed.

Lemma relA_add n m x y f g : relA n x f -> relA m y g -> n <= 4 -> m <= 4 -> relA (n + m) (r51_add x y) (Fadd f g).
Proof.
  intros [hx ex] [hy ey] hn hm. destruct (r51_add_ok _ _ x y hx hy) as [hb hv]; [unfold UA; lia|].
  split.
  - replace ((n + m) * UA) with (n * UA + m * UA) by ring. exact hb.
  - rewrite hv, of_Z_add, ex, ey. reflexivity.
Qed.

Lemma relA_sub n m x y f g : relA n x f -> relA m y g -> n <= 4 -> m <= 4 ->
  relA (n + Z.max 1 m) (r51_sub x y) (Fsub f g).
Proof.
  intros [hx ex] [hy ey] hn hm.
  destruct (r51_sub_ok _ x y hx) as [hb [k hv]]; [unfold UA; lia | apply (bndA' m); assumption |].
  split.
  - apply (bnd51_le (n * UA + 4503599627370494)); [unfold UA; lia | exact hb].
  - rewrite hv, of_Z_plus_pk, of_Z_sub, ex, ey. reflexivity.
Qed.

Lemma relA_le n m x f : n <= m -> relA n x f -> relA m x f.
Proof. intros hnm [hb hv]. split; [|exact hv]. apply (bnd51_le (n * UA)); [unfold UA; lia | exact hb]. Qed.

Ltac rconstA := apply relA_51; [lia | apply rel51_const; [unfold bnd51, U51, r51_feZero; refine (conj _ (conj _ (conj _ (conj _ _)))); lia
  | vm_compute; reflexivity]].

Definition LA : FeLaws RAmd64.
Proof.
  refine (mkFeLaws RAmd64 relA 1 3 1 _ _ _ _ _ _ _ _ _ _ _ _ _ _ _ _ _ _ _ _ _ _ _ _ _ _ _ _ _ _ _ _ _ (fun _ _ => True) _ _ _ _ _ _); try lia.
  - exact relA_le.
  - change (Z.max 4 3) with 4. intros x y f g hx hy. apply relA_mul; [exact hx | apply (relA_le 3); [lia | exact hy]].
  - change (Z.max 4 3) with 4. intros x f [hx ex]. destruct (amd64_square_ok x) as [hb [k hk]]; try (apply (bndA 4); [assumption | lia]).
    split; cbn [RAmd64 o_square]; [apply (bnd51_le 2251799813718016); [unfold UA; lia | exact hb]|].
    rewrite <- ex, <- of_Z_mul, hk, of_Z_plus_pk. reflexivity.
  - intros x f [hx ex]. destruct (amd64_doubledSquare_ok x) as [hb [k hk]].
    { apply (bndA 2); [exact hx | lia]. }
    split; cbn [RAmd64 o_doubledSquare]; [exact hb|]. rewrite <- ex, <- !of_Z_mul, hk, of_Z_plus_pk. reflexivity.
  - intros n m x y f g hx hy hn hm. apply relA_add; (assumption || lia).
  - intros n m x y f g hx hy hn hm. apply relA_sub; (assumption || lia).
  - intros n x f [hx ex] hn.
    destruct (r51_neg_ok x) as [hb [k hv]]; [apply (bndA' n); [assumption | lia] |].
    split; cbn [RAmd64 o_neg].
    + apply (bnd51_le 4503599627370494); [unfold UA; lia | exact hb].
    + rewrite hv, of_Z_plus_pk, of_Z_opp, ex. reflexivity.
  - intros x f [hx ex]. destruct (r51_setReduced_ok x) as [hb hv]; [apply (bndA' 3); [assumption | lia]|].
    split; cbn [RAmd64 o_normalize].
    + apply (bnd51_le 2251799813685247); [unfold UA; lia | exact hb].
    + rewrite hv, P25519_p, of_Z_mod, ex. reflexivity.
  - intros n m x y f g b [hx ex] [hy ey] hn hm. cbn [RAmd64 o_condSet].
    apply (r51_condSet_ok B4); [apply (bndA n); [assumption | lia] | apply (bndA m); [assumption | lia] | reflexivity].
  - intros n x f h hn. pose proof h as [hx ex]. exists x. cbn [RAmd64 o_bytes]. refine (conj _ _).
    + rewrite r51_bytes_ok by (apply (bndA' n); [assumption | lia]). rewrite P25519_p, <- ex, fval_of_Z. reflexivity.
    + apply (relA_le n); [lia | exact h].
  - intros s hs. destruct (r51_setBytes_ok s hs) as [hb hv]. split; cbn [RAmd64 o_setBytes].
    + apply (bnd51_le 2251799813685247); [unfold UA; lia | exact hb].
    + rewrite hv. reflexivity.
  - rconstA.
  - rconstA.
  - rconstA.
  - rconstA.
  - rconstA.
  - rconstA.
  - rconstA.
  - rconstA.
  - rconstA.
  - rconstA.
  - rconstA.
  - rconstA.
  - rconstA.
  - rconstA.
  - rconstA.
  - rconstA.
  - rconstA.
  - rconstA.
  - intros a x y h f g ha hx hy _. apply relA_mul; [exact ha|].
    apply (relA_le (2 + Z.max 1 2)); [lia|]. apply relA_sub; [exact hy | exact hx | lia | lia].
  - intros a x y h f g ha hx hy _. apply relA_mul; [exact ha|].
    apply (relA_le (2 + 2)); [lia|]. apply relA_add; [exact hx | exact hy | lia | lia].
  - intros a x y h f g ha hx hy _. apply relA_mul; [exact ha|].
    apply (relA_le (2 + 2)); [lia|]. apply relA_add; [exact hy | exact hx | lia | lia].
Defined.

Theorem baseA_ok : tbl_ok LA 1 (r51_baseTable : list (list (niels (fe RAmd64)))) EBc.
Proof.
  destruct base51_ok as [hl h]. split; [exact hl|]. intros i hi. destruct (h i hi) as [hr hj]. split; [exact hr|].
  intros j hjj. destruct (hj j hjj) as (h1 & h2 & h3).
  refine (conj _ (conj _ _)); apply relA_51; (lia || assumption).
Qed.

Lemma safeA prog : forall st, safe LA r51_baseTable prog st.
Proof.
  induction prog as [|i prog IH]; intro st; [exact Logic.I|]. split; [destruct i; exact Logic.I|]. intros o st' _. apply IH.
Qed.

Theorem runA prog st s os s' : corr LA st s -> Forall well_typed prog ->
  irun enc dec ell lizenc lizdec inv prog s = Some (os, s') ->
  exists st', run RAmd64 r51_baseTable prog st = Some (os, st') /\ corr LA st' s'.
Proof. intros hc hw h. exact (run_ok _ _ _ _ _ _ ideal LA r51_baseTable baseA_ok prog st s os s' hc hw (safeA prog st) h). Qed.

Theorem agreeA prog : Forall well_typed prog -> irun enc dec ell lizenc lizdec inv prog iinit <> None ->
  exists os, option_map fst (run RAmd64 r51_baseTable prog (init RAmd64)) = Some os /\
             option_map fst (run R51 r51_baseTable prog (init R51)) = Some os.
Proof.
  intros hw hi. destruct (irun enc dec ell lizenc lizdec inv prog iinit) as [[os s']|] eqn:e; [|destruct (hi eq_refl)]. exists os.
  destruct (runA prog _ _ os s' (corr_init LA) hw e) as (st1 & -> & _), (init51 prog os s' hw e) as [st2 ->]. split; reflexivity.
Qed.

(** ** the multiplications as in the property *)
Lemma fA_mul x y : bnd51 B4 x -> bnd51 B4 y -> bnd51 2251799813718016 (amd64_mul x y) /\
  v51 (amd64_mul x y) mod p = (v51 x * v51 y) mod p.
Proof. intros hx hy. destruct (amd64_mul_ok x y hx hy) as [h [k e]]. exact (conj h (modp _ _ k e)). Qed.
Lemma fA_square x : bnd51 B4 x -> bnd51 2251799813718016 (amd64_square x) /\
  v51 (amd64_square x) mod p = (v51 x * v51 x) mod p.
Proof. intros hx. destruct (amd64_square_ok x hx) as [h [k e]]. exact (conj h (modp _ _ k e)). Qed.
Lemma fA_doubledSquare x : bnd51 B4 x -> bnd51 4503599627436032 (amd64_doubledSquare x) /\
  v51 (amd64_doubledSquare x) mod p = (2 * (v51 x * v51 x)) mod p.
Proof. intros hx. destruct (amd64_doubledSquare_ok x hx) as [h [k e]]. exact (conj h (modp _ _ k e)). Qed.

Lemma agree_mul x y : bnd51 (2 ^ 54 - 1) x -> bnd51 (2 ^ 54 - 1) y ->
  v51 (amd64_mul x y) mod p = v51 (r51_mul x y) mod p /\ v51 (amd64_square x) mod p = v51 (r51_square x) mod p.
Proof.
  change (2 ^ 54 - 1) with 18014398509481983. intros hx hy.
  assert (hx' : bnd51 B4 x) by (apply (bnd51_le 18014398509481983); [unfold B4; lia | exact hx]).
  assert (hy' : bnd51 B4 y) by (apply (bnd51_le 18014398509481983); [unfold B4; lia | exact hy]).
  destruct (fA_mul x y hx' hy') as [_ e1], (fA_square x hx') as [_ e2].
  destruct (r51_mul_ok x y hx hy) as [_ [k1 e3]], (r51_square_ok x hx) as [_ [k2 e4]].
  rewrite e1, e2, (modp _ _ _ e3), (modp _ _ _ e4). split; reflexivity.
Qed.

Lemma agree_doubledSquare x : bnd51 (2 ^ 53) x ->
  v51 (amd64_doubledSquare x) mod p = v51 (r51_doubledSquare x) mod p.
Proof.
  change (2 ^ 53) with 9007199254740992. intros hx.
  assert (hx' : bnd51 B4 x) by (apply (bnd51_le 9007199254740992); [unfold B4; lia | exact hx]).
  assert (hx2 : bnd51 9007199254773760 x) by (apply (bnd51_le 9007199254740992); [lia | exact hx]).
  destruct (fA_doubledSquare x hx') as [_ e1], (r51_doubledSquare_ok x hx2) as [_ [k e2]].
  rewrite e1, (modp _ _ _ e2). reflexivity.
Qed.
