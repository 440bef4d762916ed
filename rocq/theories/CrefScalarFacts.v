(** The scalars of cref.c and of the Go code agree. *)
From Coq Require Import ZArith List Lia Bool.
From Verif Require Import Words NumTheory Primes ScalarCode ScalarModel ScalarReduce ScalarSub ScalarFacts CrefScalar CrefInvert CrefScalarProofs CrefScalarOps CrefWindow.
Import ListNotations.
Open Scope Z_scope.

Lemma go_csc a : reduced a -> csc (sc_Bytes a) /\ le_val (sc_Bytes a) = scv a.
Proof.
  intros [ha hv]. destruct (sc_bytes_ok a ha) as [h1 h2]. unfold sc_Bytes. refine (conj (conj h1 _) h2). rewrite h2. lia.
Qed.
Lemma bytes32_inj x y : bytes 32 x -> bytes 32 y -> le_val x = le_val y -> x = y.
Proof. intros [h1 h2] [h3 h4] e. apply le_val_inj; [exact h2 | exact h4 | congruence | exact e]. Qed.
Lemma agree x c : csc x -> reduced c -> le_val x = scv c -> x = sc_Bytes c.
Proof. intros [h _] hc e. destruct (go_csc c hc) as [[h1 _] h2]. apply bytes32_inj; [exact h | exact h1 | congruence]. Qed.

Lemma inv_uniq T a b : 0 <= a < l -> 0 <= b < l -> (a * T) mod l = 1 -> (b * T) mod l = 1 -> a = b.
Proof.
  intros ha hb h1 h2. assert (e : (a * T * b) mod l = (b * T * a) mod l) by (f_equal; ring).
  rewrite <- (Zmult_mod_idemp_l (a * T)), h1, <- (Zmult_mod_idemp_l (b * T)), h2, !Z.mul_1_l in e.
  rewrite !Z.mod_small in e by lia. lia.
Qed.

Lemma cs_go : (forall a b, reduced a -> reduced b ->
    cs_add (sc_Bytes a) (sc_Bytes b) = sc_Bytes (sc_add a b) /\ cs_sub (sc_Bytes a) (sc_Bytes b) = sc_Bytes (sc_sub a b) /\
    cs_mul (sc_Bytes a) (sc_Bytes b) = sc_Bytes (sc_mul a b)) /\
  (forall a, reduced a -> cs_negate (sc_Bytes a) = sc_Bytes (sc_neg a) /\ cs_square (sc_Bytes a) = sc_Bytes (sc_square a) /\
    cs_invert (sc_Bytes a) = sc_Bytes (sc_inverse a)) /\
  (forall x, bytes 32 x -> cs_unpack x = sc_Bytes (sc_setBytes x)) /\
  (forall x, bytes 64 x -> cs_from64bytes x = sc_Bytes (sc_setReduced x)).
Proof.
  refine (conj _ (conj _ (conj _ _))).
  - intros a b ha hb. destruct (go_csc a ha) as [ca va]. destruct (go_csc b hb) as [cb vb]. refine (conj _ (conj _ _)).
    + destruct (cs_add_ok _ _ ca cb) as [h1 h2]. destruct (add_spec a b ha hb) as [h3 h4]. apply agree; [exact h1 | exact h3 |]. rewrite h2, h4, va, vb. reflexivity.
    + destruct (cs_sub_ok _ _ ca cb) as [h1 h2]. destruct (sub_spec a b ha hb) as [h3 h4]. apply agree; [exact h1 | exact h3 |]. rewrite h2, h4, va, vb. reflexivity.
    + destruct (cs_mul_ok _ _ (proj1 ca) (proj1 cb)) as [h1 h2]. destruct (mul_spec a b (proj1 ha) (proj1 hb)) as [h3 h4]. apply agree; [exact h1 | exact h3 |].
      rewrite h2, h4, va, vb. reflexivity.
  - intros a ha. destruct (go_csc a ha) as [ca va]. refine (conj _ (conj _ _)).
    + destruct (cs_negate_ok _ ca) as [h1 h2]. destruct (neg_spec a ha) as [h3 h4]. apply agree; [exact h1 | exact h3 |]. rewrite h2, h4, va. reflexivity.
    + destruct (cs_square_ok _ (proj1 ca)) as [h1 h2]. destruct (square_spec a (proj1 ha)) as [h3 h4]. apply agree; [exact h1 | exact h3 |]. rewrite h2, h4, va. reflexivity.
    + destruct (cs_invert_ok _ ca) as (h1 & h2 & h2'). destruct (inverse_spec a (proj1 ha)) as (h3 & h4 & h4'). apply agree; [exact h1 | exact h3 |].
      rewrite va in h2, h2'. destruct ha as [hw hr]. rewrite (Z.mod_small (scv a)) in h4, h4' by lia.
      destruct (Z.eq_dec (scv a) 0) as [e|e]; [rewrite (h2' e), (h4' e); reflexivity|].
      refine (inv_uniq (scv a) _ _ _ _ (h2 e) (h4 e)).
      * destruct h1 as [h1 h1']. pose proof (le_nonneg _ _ h1). lia.
      * destruct h3 as [_ h3]. lia.
  - intros x hx. destruct (cs_unpack_ok x hx) as [h1 h2]. destruct (setBytes_spec x hx) as [h3 h4]. apply agree; [exact h1 | exact h3 |]. rewrite h2, h4. reflexivity.
  - intros x hx. destruct (cs_from64bytes_ok x hx) as [h1 h2]. destruct (setReduced_spec x hx) as [h3 h4]. apply agree; [exact h1 | exact h3 |]. rewrite h2, h4. reflexivity.
Qed.

Lemma cs_bitlen_spec x : bytes 32 x -> le_val x < 2 ^ cs_bitlen x /\ (0 < le_val x -> 2 ^ (cs_bitlen x - 1) <= le_val x) /\ 0 <= cs_bitlen x.
Proof. intro hx. rewrite (cs_bitlen_ok x hx). apply nbits_spec, (le_nonneg _ _ hx). Qed.
