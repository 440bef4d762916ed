(** Integer multiples in an abelian group (pure mathematics, no code). *)
From Coq Require Import ZArith Lia.
Local Open Scope Z_scope.

Section AbGroup.
Context {G : Type} (zero : G) (add : G -> G -> G) (opp : G -> G).
Hypothesis add_comm : forall a b, add a b = add b a.
Hypothesis add_assoc : forall a b c, add a (add b c) = add (add a b) c.
Hypothesis add_0_l : forall a, add zero a = a.
Hypothesis add_opp : forall a, add a (opp a) = zero.

Definition gmul (n : Z) (a : G) : G :=
  match n with
  | Z0 => zero
  | Zpos q => Pos.iter_op add q a
  | Zneg q => opp (Pos.iter_op add q a)
  end.

Lemma add_0_r a : add a zero = a.
Proof. rewrite add_comm. apply add_0_l. Qed.

Lemma add_cancel_l a b c : add a b = add a c -> b = c.
Proof.
  intros H. rewrite <- (add_0_l b), <- (add_0_l c), <- (add_opp a), (add_comm a).
  rewrite <- !add_assoc, H. reflexivity.
Qed.

Lemma add_cancel_r a b c : add b a = add c a -> b = c.
Proof. rewrite (add_comm b), (add_comm c). apply add_cancel_l. Qed.

Lemma opp_unique a b : add a b = zero -> b = opp a.
Proof. intros H. apply (add_cancel_l a). rewrite H, add_opp. reflexivity. Qed.

Lemma opp_0 : opp zero = zero.
Proof. symmetry. apply opp_unique. apply add_0_l. Qed.

Lemma opp_opp a : opp (opp a) = a.
Proof. symmetry. apply opp_unique. rewrite add_comm. apply add_opp. Qed.

Lemma add_swap a b c d : add (add a b) (add c d) = add (add a c) (add b d).
Proof.
  rewrite <- !add_assoc. f_equal. rewrite !add_assoc. f_equal. apply add_comm.
Qed.

Lemma opp_add a b : opp (add a b) = add (opp a) (opp b).
Proof. symmetry. apply opp_unique. rewrite add_swap, !add_opp. apply add_0_l. Qed.

Lemma gmul_0 a : gmul 0 a = zero. Proof. reflexivity. Qed.
Lemma gmul_1 a : gmul 1 a = a. Proof. reflexivity. Qed.

Lemma gmul_succ n a : gmul (n + 1) a = add (gmul n a) a.
Proof.
  destruct n as [|q|q].
  - cbn. symmetry. apply add_0_l.
  - replace (Zpos q + 1) with (Zpos (Pos.succ q)) by lia. cbn [gmul].
    rewrite Pos.iter_op_succ by (intros; apply add_assoc). apply add_comm.
  - destruct (Pos.eq_dec q 1) as [->|Hq].
    + cbn. rewrite add_comm, add_opp. reflexivity.
    + replace (Zneg q + 1) with (Zneg (Pos.pred q)) by lia. cbn [gmul].
      assert (E : q = Pos.succ (Pos.pred q)) by lia. rewrite E at 2.
      rewrite Pos.iter_op_succ by (intros; apply add_assoc).
      rewrite opp_add. rewrite (add_comm (opp a)), <- add_assoc, (add_comm (opp a)), add_opp.
      symmetry; apply add_0_r.
Qed.

Lemma gmul_pred n a : gmul (n - 1) a = add (gmul n a) (opp a).
Proof.
  apply (add_cancel_r a). rewrite <- gmul_succ, <- add_assoc, (add_comm (opp a)), add_opp, add_0_r.
  f_equal. lia.
Qed.

Lemma gmul_add m n a : gmul (m + n) a = add (gmul m a) (gmul n a).
Proof.
  revert m. apply (Z.bi_induction (fun m => gmul (m + n) a = add (gmul m a) (gmul n a))).
  - intros x y ->. reflexivity.
  - cbn. symmetry. apply add_0_l.
  - intros m. unfold Z.succ. replace (m + 1 + n) with (m + n + 1) by lia. rewrite !gmul_succ.
    split; intros H.
    + rewrite H. rewrite <- !add_assoc. f_equal. apply add_comm.
    + apply (add_cancel_r a). rewrite H. rewrite <- !add_assoc. f_equal. apply add_comm.
Qed.

Lemma gmul_opp n a : gmul (- n) a = opp (gmul n a).
Proof. apply opp_unique. rewrite <- gmul_add, Z.add_opp_diag_r. reflexivity. Qed.

Lemma gmul_m1 a : gmul (-1) a = opp a.
Proof. reflexivity. Qed.

Lemma gmul_sub m n a : gmul (m - n) a = add (gmul m a) (opp (gmul n a)).
Proof. rewrite <- Z.add_opp_r, gmul_add, gmul_opp. reflexivity. Qed.

Lemma gmul_mul m n a : gmul (m * n) a = gmul m (gmul n a).
Proof.
  revert m. apply (Z.bi_induction (fun m => gmul (m * n) a = gmul m (gmul n a))).
  - intros x y ->. reflexivity.
  - reflexivity.
  - intros m. unfold Z.succ. rewrite gmul_succ. replace ((m + 1) * n) with (m * n + n) by lia. rewrite gmul_add.
    split; intros H; [congruence|]. apply add_cancel_r in H. exact H.
Qed.

Lemma gmul_zero n : gmul n zero = zero.
Proof.
  apply (Z.bi_induction (fun m => gmul m zero = zero)).
  - intros x y ->. reflexivity.
  - reflexivity.
  - intros m. unfold Z.succ. rewrite gmul_succ, add_0_r. tauto.
Qed.

Lemma gmul_add_r n a b : gmul n (add a b) = add (gmul n a) (gmul n b).
Proof.
  apply (Z.bi_induction (fun n => gmul n (add a b) = add (gmul n a) (gmul n b))).
  - intros x y ->. reflexivity.
  - cbn. symmetry. apply add_0_l.
  - intros m. unfold Z.succ. rewrite !gmul_succ. rewrite add_swap.
    split; intros H; [congruence|].
    rewrite (add_swap (gmul m a)) in H. rewrite add_swap in H. apply add_cancel_r in H. exact H.
Qed.

Lemma gmul_opp_r n a : gmul n (opp a) = opp (gmul n a).
Proof. apply opp_unique. rewrite <- gmul_add_r, add_opp. apply gmul_zero. Qed.

Lemma gmul_2 a : gmul 2 a = add a a.
Proof. reflexivity. Qed.

(** If n kills a then only n mod matters. *)
Lemma gmul_mod n m a : m <> 0 -> gmul m a = zero -> gmul (n mod m) a = gmul n a.
Proof.
  intros Hm H. rewrite (Z.div_mod n m Hm) at 2. rewrite gmul_add, Z.mul_comm, gmul_mul, H, gmul_zero.
  symmetry; apply add_0_l.
Qed.

End AbGroup.
