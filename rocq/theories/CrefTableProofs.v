(** The literal table of base point multiples of cref.c (proof by a checker on digits; models no code). *)
From Coq Require Import ZArith List Lia Bool Ring Field.
From Verif Require Import NumTheory DigitTables Digits Primes Fp DigitsP AbGroup Edwards GroupOrder Words WordsTac
  FieldModel CurveModel Fe25Code Fe25Proofs FieldLaws Fe25Laws CurveProofs ScalarMultProofs BaseTableProofs CrefFe CrefFeProofs CrefSeqProofs CrefGroupProofs CrefTable.
Import ListNotations.
Open Scope Z_scope.

Definition pt2 : Type := (Z * Z)%type.
Definition repA (q : pt2) (A : E) : Prop := of_Z (fst q) = ex A /\ of_Z (snd q) = ey A.
Definition inr2 (q : pt2) : bool := inr (fst q) && inr (snd q).
Definition dd : list dg := dig 37095705934669439343138083508754565189542113879843219016388785533085940283555.
Definition eq2 (x y : list dg) : bool := let d := val x - val y in let k := Z.shiftr d 255 in (d =? k * Pc) || (d =? (k + 1) * Pc).

Definition addchk2 (q1 q2 q3 : pt2) : bool :=
  let x1 := dig (fst q1) in let y1 := dig (snd q1) in let x2 := dig (fst q2) in let y2 := dig (snd q2) in
  let x3 := dig (fst q3) in let y3 := dig (snd q3) in
  let X := mulp x1 x2 in let Y := mulp y1 y2 in let C := mulp dd (mulp X Y) in
  inr2 q3 && eq2 (addp x3 (mulp x3 C)) (addp (mulp x1 y2) (mulp x2 y1)) && eq2 (addp (mulp y3 C) (addp Y X)) y3.

Lemma eq2_ok x y : eq2 x y = true -> fv x = fv y.
Proof.
  unfold eq2. cbv zeta. rewrite orb_true_iff, !Z.eqb_eq. unfold fv. generalize (Z.shiftr (val x - val y) 255). intros k [h|h].
  - replace (val x) with (val y + k * Pc) by lia. apply of_Z_Pc.
  - replace (val x) with (val y + (k + 1) * Pc) by lia. apply of_Z_Pc.
Qed.
Lemma fv_dd : fv dd = Fd.
Proof. unfold fv, dd. rewrite dig_ok by (split; [discriminate|reflexivity]). apply F_eq. vm_compute. reflexivity. Qed.

Lemma addchk2_ok q1 q2 q3 A B : inr2 q1 = true -> inr2 q2 = true -> repA q1 A -> repA q2 B ->
  addchk2 q1 q2 q3 = true -> inr2 q3 = true /\ repA q3 (Eadd A B).
Proof.
  destruct q1 as [x1 y1], q2 as [x2 y2], q3 as [x3 y3]. unfold addchk2, repA, inr2. cbn [fst snd]. cbv zeta.
  intros r1 r2 (h1 & h2) (g1 & g2) h. rewrite !andb_true_iff in *. destruct r1 as [r1 r1'], r2 as [r2 r2'].
  destruct h as [[[r3 r3'] c1] c2]. refine (conj (conj r3 r3') _). apply inr_ok in r1, r1', r2, r2', r3, r3'.
  apply eq2_ok in c1. apply eq2_ok in c2. rewrite !fv_add in c1. rewrite !fv_mul in c1. rewrite fv_dd in c1. rewrite !fv_add in c2. rewrite !fv_mul in c2. rewrite fv_dd in c2.
  rewrite (fv_dig x1), (fv_dig x2), (fv_dig x3), (fv_dig y1), (fv_dig y2) in c1 by lia.
  rewrite (fv_dig x1), (fv_dig x2), (fv_dig y3), (fv_dig y1), (fv_dig y2) in c2 by lia.
  rewrite h1, h2, g1, g2 in c1, c2.
  set (C := (Fd * prodxy A B)%F).
  pose proof (add_nzp A B) as np. pose proof (add_nzm A B) as nm. fold C in np, nm.
  pose proof (ex_add A B) as eX. pose proof (ey_add A B) as eY. fold C in eX, eY.
  assert (EC : (Fd * (ex A * ex B * (ey A * ey B)) = C)%F) by (unfold C, prodxy; ring). rewrite EC in c1, c2.
  set (X := ex (Eadd A B)) in *. set (Y := ey (Eadd A B)) in *. split.
  - apply (Fmul_cancel_l _ _ _ np). transitivity (X * (F1 + C))%F; [|ring]. rewrite eX, <- c1. ring.
  - apply (Fmul_cancel_l _ _ _ nm). transitivity (Y * (F1 - C))%F; [|ring]. rewrite eY.
    transitivity (of_Z y3 - of_Z y3 * C)%F; [ring|]. rewrite <- c2 at 1. ring.
Qed.

Definition inb (x : fe25) : bool :=
  let '(Fe25 a b c d e f g h i j) := x in
  forallb (fun z => (- UE <=? z) && (z <=? UE)) [a; c; e; g; i] && forallb (fun z => (- UO <=? z) && (z <=? UO)) [b; d; f; h; j].
Definition pos25 (x : fe25) : Z := let v := v25 x in if v <? 0 then v + Pc else v.
Definition cv (e : aff) : pt2 := let '(Aff x y) := e in (pos25 x, pos25 y).
Definition inb2 (e : aff) : bool := let '(Aff x y) := e in inb x && inb y.

Fixpoint tchk (a b : pt2) (t : list aff) : bool :=
  match t with
  | [] => true
  | e0 :: e1 :: e2 :: e3 :: e4 :: t' =>
    inb2 e0 && inb2 e1 && inb2 e2 && inb2 e3 && inb2 e4 &&
    let q0 := cv e0 in let q1 := cv e1 in let q2 := cv e2 in let q3 := cv e3 in let q4 := cv e4 in
    (fst q0 =? 0) && (snd q0 =? 1) && addchk2 a b q1 && addchk2 q1 q1 q2 && addchk2 q2 q1 q3 && addchk2 q3 q1 q4 && tchk q4 q4 t'
  | _ => false
  end.

Lemma tchk_true : tchk (0, 1) (Bx, By) base_multiples = true.
Proof. vm_compute. reflexivity. Qed.

Lemma inb_ok x : inb x = true -> bnd25 (1 * UE) (1 * UO) x.
Proof.
  destruct x. cbn [inb forallb]. rewrite !andb_true_iff, !Z.leb_le. unfold bnd25, UE, UO. lia.
Qed.
Lemma pos25_ok x : of_Z (pos25 x) = of_Z (v25 x).
Proof.
  unfold pos25. cbv zeta. destruct (v25 x <? 0); [|reflexivity]. rewrite <- (of_Z_Pc (v25 x) 1). now rewrite Z.mul_1_l.
Qed.
Lemma cv_ok e A : inb2 e = true -> repA (cv e) A -> caff e A.
Proof.
  destruct e as [x y]. unfold inb2, cv, repA. cbn [fst snd]. rewrite andb_true_iff, !pos25_ok. intros [h1 h2] [h3 h4].
  exact (conj (conj (inb_ok x h1) h3) (conj (inb_ok y h2) h4)).
Qed.
Lemma rep_E0 q : (fst q =? 0) = true -> (snd q =? 1) = true -> repA q E0.
Proof. rewrite !Z.eqb_eq. intros h1 h2. unfold repA. rewrite h1, h2. split; apply F_eq; vm_compute; reflexivity. Qed.

Lemma tchk_ok P n : forall t a b A B m, length t = (5 * n)%nat -> inr2 a = true -> inr2 b = true -> repA a A -> repA b B ->
  Eadd A B = Emul m P -> tchk a b t = true ->
  forall i j, (i < n)%nat -> (j < 5)%nat -> exists e, nth_error t (5 * i + j) = Some e /\ caff e (Emul (Z.of_nat j * (8 ^ Z.of_nat i * m)) P).
Proof.
  induction n as [|n IH]; intros t a b A B m hl ra rb ha hb hm h i j hi hj; [lia|].
  do 5 (destruct t as [|? t]; [cbn in hl; lia|]). rename a0 into e0, a1 into e1, a2 into e2, a3 into e3, a4 into e4.
  cbn [tchk] in h. cbv zeta in h. rewrite !andb_true_iff in h.
  destruct h as [[[[[b0 b1] b2] b3] b4] [[[[[[z0 z1] c1] c2] c3] c4] h]].
  destruct (addchk2_ok _ _ _ _ _ ra rb ha hb c1) as [r1 h1]. rewrite hm in h1.
  destruct (addchk2_ok _ _ _ _ _ r1 r1 h1 h1 c2) as [r2 h2]. rewrite Emul_dbl in h2.
  destruct (addchk2_ok _ _ _ _ _ r2 r1 h2 h1 c3) as [r3 h3]. rewrite <- Emul_add in h3.
  destruct (addchk2_ok _ _ _ _ _ r3 r1 h3 h1 c4) as [r4 h4]. rewrite <- Emul_add in h4.
  destruct i as [|i].
  - change (8 ^ Z.of_nat 0) with 1. rewrite Z.mul_1_l.
    assert (j = 0 \/ j = 1 \/ j = 2 \/ j = 3 \/ j = 4)%nat as [-> | [-> | [-> | [-> | ->]]]] by lia; cbn [nth_error Nat.add Nat.mul]; eexists; (split; [reflexivity|]).
    + rewrite Z.mul_0_l, Emul_0. exact (cv_ok _ _ b0 (rep_E0 _ z0 z1)).
    + rewrite Z.mul_1_l. exact (cv_ok _ _ b1 h1).
    + exact (cv_ok _ _ b2 h2).
    + replace (Z.of_nat 3 * m) with (2 * m + m) by lia. exact (cv_ok _ _ b3 h3).
    + replace (Z.of_nat 4 * m) with (2 * m + m + m) by lia. exact (cv_ok _ _ b4 h4).
  - replace (5 * S i + j)%nat with (5 + (5 * i + j))%nat by lia. cbn [nth_error Nat.add].
    replace (8 ^ Z.of_nat (S i) * m) with (8 ^ Z.of_nat i * (8 * m)) by (rewrite Nat2Z.inj_succ, Z.pow_succ_r by lia; ring).
    refine (IH t (cv e4) (cv e4) _ _ (8 * m) _ r4 r4 h4 h4 _ h i j _ hj); [cbn [length] in hl; lia | | lia].
    rewrite Emul_dbl. f_equal. ring.
Qed.

Theorem base_table_ok i j : (i < 85)%nat -> (j < 5)%nat ->
  exists e, nth_error base_multiples (5 * i + j) = Some e /\ caff e (Emul (Z.of_nat j * 8 ^ Z.of_nat i) EB).
Proof.
  intros hi hj. destruct (tchk_ok EB 85 base_multiples (0, 1) (Bx, By) E0 EB 1) with (i := i) (j := j) as (e & he & h); try assumption.
  - vm_compute. reflexivity.
  - vm_compute. reflexivity.
  - vm_compute. reflexivity.
  - exact (rep_E0 (0, 1) eq_refl eq_refl).
  - split; reflexivity.
  - rewrite Emul_1. apply Eadd_0_l.
  - exact tchk_true.
  - exists e. split; [exact he|]. rewrite Z.mul_1_r in h. exact h.
Qed.

Lemma g_neutral_ok : cge g_neutral E0.
Proof. exists F1. refine (conj F1_neq_0 (conj _ (conj _ (conj _ _)))); rconst25. Qed.
Lemma g_base_ok : cge g_base EB.
Proof. exists F1. refine (conj F1_neq_0 (conj _ (conj _ (conj _ _)))); rconst25. Qed.
