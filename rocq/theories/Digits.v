(** Natural numbers as little-endian lists of base-64 digits: a small verified bignum
    library used to check large constants.  Models no code. *)
From Coq Require Import ZArith Znumtheory Lia Bool List.
From Verif Require Import DigitTables.
Import ListNotations.
Local Open Scope Z_scope.

Definition b2z (b : bool) : Z := if b then 1 else 0.

Lemma forall_dg (f : dg -> bool) : forallb f all_dg = true -> forall a, f a = true.
Proof. intros H a. rewrite forallb_forall in H. apply H, all_dg_in. Qed.

Lemma dv_range a : 0 <= dv a < 64.
Proof. destruct a; cbn; lia. Qed.

Lemma dmul_ok a b : let '(h, l) := dmul a b in dv a * dv b = 64 * dv h + dv l /\ dv h <= 62.
Proof.
  assert (H : (let '(h, l) := dmul a b in (dv a * dv b =? 64 * dv h + dv l) && (dv h <=? 62)) = true).
  { revert b. apply forall_dg. revert a.
    apply (forall_dg (fun a => forallb (fun b => let '(h, l) := dmul a b in (dv a * dv b =? 64 * dv h + dv l) && (dv h <=? 62)) all_dg)).
    vm_compute. reflexivity. }
  destruct (dmul a b) as [h x]. apply andb_true_iff in H. destruct H as [H1 H2].
  apply Z.eqb_eq in H1. apply Z.leb_le in H2. split; assumption.
Qed.

Lemma dadd_ok a b : let '(c, l) := dadd a b in dv a + dv b = 64 * b2z c + dv l.
Proof.
  assert (H : (let '(h, l) := dadd a b in dv a + dv b =? 64 * b2z h + dv l) = true).
  { revert b. apply forall_dg. revert a.
    apply (forall_dg (fun a => forallb (fun b => let '(h, l) := dadd a b in dv a + dv b =? 64 * b2z h + dv l) all_dg)).
    vm_compute. reflexivity. }
  destruct (dadd a b) as [h x]. apply Z.eqb_eq in H. exact H.
Qed.

Lemma dinc_ok c a : dv a < 63 -> dv (dinc c a) = dv a + b2z c.
Proof. destruct c; cbn [dinc b2z]; [|lia]. destruct a; cbn; lia. Qed.

Fixpoint val (x : list dg) : Z :=
  match x with [] => 0 | a :: x => dv a + 64 * val x end.

Lemma val_nonneg x : 0 <= val x.
Proof. induction x as [|a x IH]; cbn [val]; [lia|]. pose proof (dv_range a). lia. Qed.

Fixpoint inc1 (c : bool) (t : list dg) : list dg :=
  match c with
  | false => t
  | true => match t with [] => [d1] | t0 :: t' => let '(c, s) := dadd t0 d1 in s :: inc1 c t' end
  end.

Lemma inc1_ok t : forall c, val (inc1 c t) = val t + b2z c.
Proof.
  induction t as [|t0 t IH]; intros [|]; cbn [inc1 val b2z]; try lia.
  - reflexivity.
  - pose proof (dadd_ok t0 d1) as H. destruct (dadd t0 d1) as [c s]. cbn [val]. rewrite IH.
    change (dv d1) with 1 in H. lia.
Qed.

(** t + a * x + c *)
Fixpoint mac (a : dg) (x t : list dg) (c : dg) {struct x} : list dg :=
  match x with
  | [] => match t with [] => [c] | t0 :: t' => let '(cb, s) := dadd t0 c in s :: inc1 cb t' end
  | x0 :: x' =>
    let t0 := match t with [] => d0 | t0 :: _ => t0 end in
    let t' := match t with [] => [] | _ :: t' => t' end in
    let '(h, l) := dmul a x0 in
    let '(c1, l1) := dadd l c in
    let '(c2, l2) := dadd l1 t0 in
    l2 :: mac a x' t' (dinc c1 (dinc c2 h))
  end.

Lemma mac_ok a x : forall t c, val (mac a x t c) = val t + dv a * val x + dv c.
Proof.
  induction x as [|x0 x IH]; intros t c.
  - cbn [mac val]. destruct t as [|t0 t]; cbn [val]; [lia|].
    pose proof (dadd_ok t0 c) as H. destruct (dadd t0 c) as [cb s]. cbn [val]. rewrite inc1_ok. lia.
  - cbn [mac].
    set (t0 := match t with [] => d0 | t0 :: _ => t0 end).
    set (t' := match t with [] => [] | _ :: t' => t' end).
    assert (Ht : val t = dv t0 + 64 * val t') by (subst t0 t'; destruct t; reflexivity).
    pose proof (dmul_ok a x0) as H. destruct (dmul a x0) as [h l0]. destruct H as [H Hh].
    pose proof (dadd_ok l0 c) as H1. destruct (dadd l0 c) as [c1 l1].
    pose proof (dadd_ok l1 t0) as H2. destruct (dadd l1 t0) as [c2 l2].
    cbn [val]. rewrite IH, Ht.
    assert (I2 : dv (dinc c2 h) = dv h + b2z c2) by (apply dinc_ok; lia).
    pose proof (dv_range a). pose proof (dv_range x0). pose proof (dv_range c). pose proof (dv_range t0).
    pose proof (dv_range l2). pose proof (dv_range l1).
    assert (I1 : dv (dinc c1 (dinc c2 h)) = dv h + b2z c2 + b2z c1).
    { rewrite <- I2. destruct c1; [|cbn; lia]. apply dinc_ok. rewrite I2. cbn [b2z] in *.
      destruct c2; cbn [b2z] in *; nia. }
    rewrite I1. nia.
Qed.

Fixpoint mul (x y : list dg) : list dg :=
  match x with [] => [] | a :: x' => mac a y (d0 :: mul x' y) d0 end.

Lemma mul_ok x y : val (mul x y) = val x * val y.
Proof.
  induction x as [|a x IH]; cbn [mul val]; [lia|].
  rewrite mac_ok. cbn [val]. rewrite IH. change (dv d0) with 0. lia.
Qed.

Fixpoint add (x y : list dg) (c : bool) : list dg :=
  match x, y with
  | [], _ => inc1 c y
  | _, [] => inc1 c x
  | a :: x', b :: y' =>
    let '(c1, s) := dadd a b in
    match c with
    | false => s :: add x' y' c1
    | true => let '(c2, s2) := dadd s d1 in s2 :: add x' y' (c1 || c2)
    end
  end.

Lemma add_ok x : forall y c, val (add x y c) = val x + val y + b2z c.
Proof.
  induction x as [|a x IH]; intros y c.
  - destruct y; cbn [add]; rewrite inc1_ok; cbn [val]; lia.
  - destruct y as [|b y]; [cbn [add]; rewrite inc1_ok; cbn [val]; lia|].
    cbn [add]. pose proof (dadd_ok a b) as H. destruct (dadd a b) as [c1 s].
    pose proof (dv_range a). pose proof (dv_range b). pose proof (dv_range s).
    destruct c.
    + pose proof (dadd_ok s d1) as Hs2. destruct (dadd s d1) as [c2 s2]. change (dv d1) with 1 in Hs2.
      pose proof (dv_range s2).
      cbn [val]. rewrite IH. destruct c1, c2; cbn [orb b2z] in *; lia.
    + cbn [val]. rewrite IH. cbn [b2z]. lia.
Qed.

(** Remove leading (most significant) zeros. *)
Fixpoint trim (x : list dg) : list dg :=
  match x with
  | [] => []
  | a :: x' => match trim x', a with [], d0 => [] | t, _ => a :: t end
  end.

Lemma trim_ok x : val (trim x) = val x.
Proof.
  induction x as [|a x IH]; [reflexivity|]. cbn [trim val]. rewrite <- IH.
  destruct (trim x) as [|b t]; [|reflexivity]. destruct a; reflexivity.
Qed.

(** Conversion from Z (executable; the result is re-checked through [val]). *)
Definition dg_of_Z (z : Z) : dg := nth (Z.to_nat z) all_dg d0.
Fixpoint of_Zfuel (n : nat) (z : Z) : list dg :=
  match n with
  | O => []
  | S n => if z =? 0 then [] else dg_of_Z (Z.land z 63) :: of_Zfuel n (Z.shiftr z 6)
  end.

Lemma dg_of_Z_ok z : 0 <= z < 64 -> dv (dg_of_Z z) = z.
Proof.
  intros H. unfold dg_of_Z.
  assert (K : forallb (fun n => dv (nth n all_dg d0) =? Z.of_nat n) (seq 0 64) = true) by (vm_compute; reflexivity).
  rewrite forallb_forall in K. specialize (K (Z.to_nat z)). rewrite Z.eqb_eq in K.
  rewrite K; [lia|]. apply in_seq. lia.
Qed.

Lemma of_Zfuel_ok n : forall z, 0 <= z < 64 ^ Z.of_nat n -> val (of_Zfuel n z) = z.
Proof.
  induction n as [|n IH]; intros z Hz.
  - cbn in *. lia.
  - cbn [of_Zfuel]. destruct (Z.eqb_spec z 0) as [->|Hn]; [reflexivity|].
    rewrite Nat2Z.inj_succ, Z.pow_succ_r in Hz by lia.
    cbn [val]. change 63 with (Z.ones 6). rewrite Z.land_ones by lia. rewrite Z.shiftr_div_pow2 by lia.
    change (2 ^ 6) with 64. pose proof (Z.mod_pos_bound z 64 ltac:(lia)).
    rewrite dg_of_Z_ok by lia. rewrite IH.
    + pose proof (Z.div_mod z 64 ltac:(lia)). lia.
    + split; [apply Z.div_pos; lia|apply Z.div_lt_upper_bound; lia].
Qed.
