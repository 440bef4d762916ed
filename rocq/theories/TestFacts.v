(** The tests of the repository: the loops of scalar_test.go *)
From Coq Require Import ZArith Znumtheory List Lia Bool.
From Verif Require Import Words Primes ScalarCode ScalarModel TextCodec ScalarReduce ScalarSub ScalarFacts Text51 TestModel.
Import ListNotations.
Open Scope Z_scope.

Lemma biL_l : biL = l.
Proof. vm_compute. reflexivity. Qed.
Lemma bytes_Equal_iff a b : bytes_Equal a b = true <-> a = b.
Proof. unfold bytes_Equal. destruct (list_eq_dec Z.eq_dec a b); split; intro h; try assumption; try reflexivity; try discriminate; contradiction. Qed.

(** the bytes of a number, least significant first *)
Lemma big_Bytes_rev v n : 0 <= v < 256 ^ Z.of_nat n -> exists k, (k <= n)%nat /\ rev (big_Bytes v) = le_bytes k v /\ 0 <= v < 256 ^ Z.of_nat k.
Proof.
  intro hv. unfold big_Bytes. rewrite Z.abs_eq by lia. rewrite rev_involutive. eexists. refine (conj _ (conj eq_refl _)).
  - destruct (Z.eqb_spec v 0) as [->|h0]; [lia|]. pose proof (Z.log2_nonneg v).
    assert (h8 : Z.log2 v < 8 * Z.of_nat n).
    { apply Z.log2_lt_pow2; [lia|]. rewrite Z.pow_mul_r by lia. exact (proj2 hv). }
    pose proof (Z.div_mod (Z.log2 v) 8 ltac:(lia)). pose proof (Z.mod_pos_bound (Z.log2 v) 8 ltac:(lia)). lia.
  - split; [lia|]. destruct (Z.eqb_spec v 0) as [->|h0]; [cbn; lia|].
    pose proof (Z.log2_spec v ltac:(lia)) as hl. pose proof (Z.log2_nonneg v).
    pose proof (Z.div_mod (Z.log2 v) 8 ltac:(lia)). pose proof (Z.mod_pos_bound (Z.log2 v) 8 ltac:(lia)).
    assert (0 <= Z.log2 v / 8) by (apply Z.div_pos; lia).
    rewrite Nat2Z.inj_succ, Z2Nat.id by lia. apply Z.lt_le_trans with (2 ^ Z.succ (Z.log2 v)); [apply hl|].
    change 256 with (2 ^ 8). rewrite <- Z.pow_mul_r by lia. apply Z.pow_le_mono_r; lia.
Qed.
Lemma le_val_repeat0 n : le_val (repeat 0 n) = 0.
Proof. induction n as [|n IH]; [reflexivity|]. cbn [repeat le_val]. rewrite IH. lia. Qed.
Lemma Forall_skipn {A} (Q : A -> Prop) n (s : list A) : Forall Q s -> Forall Q (skipn n s).
Proof. intro h. rewrite <- (firstn_skipn n s) in h. apply Forall_app in h. apply h. Qed.
Lemma write_le_bytes n old v : bytes n old -> 0 <= v < 256 ^ Z.of_nat n -> bytes n (write_le old v).
Proof.
  intros [hl hf] hv. destruct (big_Bytes_rev v n hv) as (k & hk & e & hv'). unfold write_le. rewrite e. cbv zeta.
  rewrite firstn_all2 by (rewrite le_bytes_length; lia). rewrite le_bytes_length. split.
  - rewrite app_length, skipn_length, le_bytes_length. lia.
  - apply Forall_app. split; [apply le_bytes_bytes | apply Forall_skipn; exact hf].
Qed.
Lemma write_le_zero n v : 0 <= v < 256 ^ Z.of_nat n -> bytes n (write_le (repeat 0 n) v) /\ le_val (write_le (repeat 0 n) v) = v.
Proof.
  intro hv. assert (h0 : bytes n (repeat 0 n)).
  { split; [apply repeat_length|]. apply Forall_forall. intros x hx. apply repeat_spec in hx. subst x. unfold is_byte. lia. }
  split; [apply write_le_bytes; assumption|].
  destruct (big_Bytes_rev v n hv) as (k & hk & e & hv'). unfold write_le. rewrite e. cbv zeta. rewrite repeat_length.
  rewrite firstn_all2 by (rewrite le_bytes_length; lia). rewrite le_bytes_length, le_val_app, le_bytes_length, le_val_le_bytes by exact hv'.
  replace (skipn k (repeat 0 n)) with (repeat 0 (n - k)); [rewrite le_val_repeat0; lia|].
  replace n with (k + (n - k))%nat at 2 by lia. rewrite repeat_app, skipn_app, repeat_length, Nat.sub_diag, skipn_all2 by (rewrite repeat_length; lia). reflexivity.
Qed.

Lemma small x : 0 <= x < l -> reduced (sc_setBigInt x) /\ scv (sc_setBigInt x) = x.
Proof. intro h. destruct (setBigInt_spec x) as [h1 h2]. rewrite Z.mod_small in h2 by exact h. split; assumption. Qed.

Lemma test_ScPacking bi : t_ScPacking bi = true.
Proof. unfold t_ScPacking. cbv zeta. rewrite (setBytes_bytes _ (proj1 (setBigInt_spec bi))). apply Z.eqb_refl. Qed.
Lemma test_ScBigIntPacking bi : 0 <= bi < l -> t_ScBigIntPacking bi = true.
Proof. intro h. destruct (small bi h) as [[h1 _] h2]. unfold t_ScBigIntPacking. rewrite (bigInt_ok _ h1), h2. apply Z.eqb_refl. Qed.
Ltac done2 := rewrite biL_l; cbv zeta; apply Z.eqb_eq.
Lemma test_ScSub a b : 0 <= a < l -> 0 <= b < l -> t_ScSub a b = true.
Proof.
  intros ha hb. destruct (small a ha) as [ra ea], (small b hb) as [rb eb]. unfold t_ScSub. done2.
  destruct (sub_spec _ _ ra rb) as [[h1 _] h2]. rewrite (bigInt_ok _ h1), h2, ea, eb. reflexivity.
Qed.
Lemma test_ScAdd a b : 0 <= a < l -> 0 <= b < l -> t_ScAdd a b = true.
Proof.
  intros ha hb. destruct (small a ha) as [ra ea], (small b hb) as [rb eb]. unfold t_ScAdd. done2.
  destruct (add_spec _ _ ra rb) as [[h1 _] h2]. rewrite (bigInt_ok _ h1), h2, ea, eb. reflexivity.
Qed.
Lemma test_ScMul a b : 0 <= a < l -> 0 <= b < l -> t_ScMul a b = true.
Proof.
  intros ha hb. destruct (small a ha) as [[ra _] ea], (small b hb) as [[rb _] eb]. unfold t_ScMul. done2.
  destruct (mul_spec _ _ ra rb) as [[h1 _] h2]. rewrite (bigInt_ok _ h1), h2, ea, eb. reflexivity.
Qed.
Lemma test_ScSquare a : 0 <= a < l -> t_ScSquare a = true.
Proof.
  intros ha. destruct (small a ha) as [[ra _] ea]. unfold t_ScSquare. done2.
  destruct (square_spec _ ra) as [[h1 _] h2]. rewrite (bigInt_ok _ h1), h2, ea. reflexivity.
Qed.
Lemma test_ScMulSub a b c : 0 <= a < l -> 0 <= b < l -> 0 <= c < l -> t_ScMulSub a b c = true.
Proof.
  intros ha hb hc. destruct (small a ha) as [[ra _] ea], (small b hb) as [[rb _] eb], (small c hc) as [[rc _] ec]. unfold t_ScMulSub. done2.
  destruct (mulSub_spec _ _ _ ra rb rc) as [[h1 _] h2]. rewrite (bigInt_ok _ h1), h2, ea, eb, ec. reflexivity.
Qed.
Lemma test_ScMulAdd a b c : 0 <= a < l -> 0 <= b < l -> 0 <= c < l -> t_ScMulAdd a b c = true.
Proof.
  intros ha hb hc. destruct (small a ha) as [[ra _] ea], (small b hb) as [[rb _] eb], (small c hc) as [[rc _] ec]. unfold t_ScMulAdd. done2.
  destruct (mulAdd_spec _ _ _ ra rb rc) as [[h1 _] h2]. rewrite (bigInt_ok _ h1), h2, ea, eb, ec. reflexivity.
Qed.
Lemma test_ScInverse a b : 0 <= a < l -> 0 <= b < l ->
  (t_ScInverse a b = true <-> (a * b) mod l = 1 \/ a = 0 /\ b = 0).
Proof.
  intros ha hb. destruct (small a ha) as [[ra _] ea]. unfold t_ScInverse.
  destruct (inverse_spec _ ra) as ([h1 h1'] & h2 & h3). rewrite (bigInt_ok _ h1), Z.eqb_eq. rewrite ea in h2, h3.
  rewrite (Z.mod_small a) in h2, h3 by exact ha. set (v := scv (sc_inverse (sc_setBigInt a))) in *. clearbody v.
  pose proof l_pos as hl0. split.
  - intros <-. destruct (Z.eq_dec a 0) as [e|e]; [right; split; [exact e | exact (h3 e)]|left]. rewrite Z.mul_comm. exact (h2 e).
  - intros [h|[h ->]]; [|exact (h3 h)].
    assert (na : a <> 0) by (intros ->; rewrite Z.mul_0_l, Z.mod_0_l in h by lia; discriminate h). specialize (h2 na).
    assert (e : (v * (a * b)) mod l = (v * a * b) mod l) by (rewrite Z.mul_assoc; reflexivity).
    rewrite <- Z.mul_mod_idemp_r, h, Z.mul_1_r, <- (Z.mul_mod_idemp_l (v * a)), h2, Z.mul_1_l, !Z.mod_small in e by lia. exact e.
Qed.
Lemma test_ScNeg a : 0 <= a < l -> t_ScNeg a = true.
Proof.
  intros ha. destruct (small a ha) as [ra ea]. unfold t_ScNeg. done2.
  destruct (neg_spec _ ra) as [[h1 _] h2]. rewrite (bigInt_ok _ h1), h2, ea. reflexivity.
Qed.
Lemma test_ScReduced a : 0 <= a < 2 ^ 512 -> t_ScReduced a = true.
Proof.
  intro ha. unfold t_ScReduced. done2. destruct (write_le_zero 64 a ha) as [h1 h2].
  destruct (setReduced_spec _ h1) as [[h3 _] h4]. rewrite (bigInt_ok _ h3), h4, h2. reflexivity.
Qed.
Lemma l_256 : l < 256 ^ Z.of_nat 32.
Proof. vm_compute. reflexivity. Qed.
Lemma test_ScSetBytesStrict_canonical s bi : 0 <= bi < l -> t_ScSetBytesStrict_canonical s bi = true.
Proof.
  intro hb. unfold t_ScSetBytesStrict_canonical. cbv zeta. pose proof l_256.
  destruct (write_le_zero 32 bi ltac:(lia)) as [h1 h2]. rewrite (setBytesStrict_ok s _ h1), h2.
  replace (bi <? l) with true by (symmetry; apply Z.ltb_lt; lia). cbv iota beta. rewrite andb_true_l.
  destruct (load_words_ok _ h1) as [w1 w2]. destruct (small bi hb) as [ra ea]. apply equals_spec; [|exact ra|].
  - split; [exact w1|]. rewrite w2, h2. exact hb.
  - rewrite w2, h2, ea. reflexivity.
Qed.
Lemma test_ScSetBytesStrict_large before bi : reduced before -> 0 <= bi < 2 ^ 256 - l -> t_ScSetBytesStrict_large before bi = true.
Proof.
  intros hr hb. unfold t_ScSetBytesStrict_large. rewrite biL_l. cbv zeta. pose proof l_pos.
  assert (hv : 0 <= bi + l < 256 ^ Z.of_nat 32) by (change (256 ^ Z.of_nat 32) with (2 ^ 256); lia).
  destruct (write_le_zero 32 (bi + l) hv) as [h1 h2]. rewrite (setBytesStrict_ok before _ h1), h2.
  replace (bi + l <? l) with false by (symmetry; apply Z.ltb_ge; lia). cbv iota beta. rewrite (proj2 (equals_spec _ _ hr hr) eq_refl). reflexivity.
Qed.
Lemma rand_reduced t : bytes 64 t -> reduced (sc_rand t) /\ scv (sc_rand t) = le_val t mod l.
Proof. apply setReduced_spec. Qed.
Lemma test_ScTextMarshaling t s2 : bytes 64 t -> t_ScTextMarshaling t s2 = Some true.
Proof.
  intro ht. unfold t_ScTextMarshaling. cbv zeta. rewrite (proj1 (scalar_text_roundtrip _ s2 (proj1 (rand_reduced t ht)))), Z.eqb_refl. reflexivity.
Qed.
Lemma test_ScSetUint64 v : 0 <= v < 2 ^ 64 -> t_ScSetUint64 v = true.
Proof.
  intro hv. assert (2 ^ 64 < l) by (vm_compute; reflexivity). destruct (setUint64_spec v hv) as [h1 h2]. destruct (small v ltac:(lia)) as [h3 h4].
  unfold t_ScSetUint64. apply (equals_spec _ _ h1 h3). rewrite h2, h4. reflexivity.
Qed.
Lemma test_ScConditionalSet t u : bytes 64 t -> bytes 64 u -> (t_ScConditionalSet t u = true <-> le_val t mod l <> le_val u mod l).
Proof.
  intros ht hu. destruct (rand_reduced t ht) as [r1 e1]. destruct (rand_reduced u hu) as [r2 e2]. unfold t_ScConditionalSet. cbv zeta.
  rewrite (condSet_ok _ _ false (proj1 r1) (proj1 r2) : sc_condSet (sc_rand t) (sc_rand u) 0 = sc_rand t).
  rewrite (condSet_ok _ _ true (proj1 r1) (proj1 r2) : sc_condSet (sc_rand t) (sc_rand u) 1 = sc_rand u).
  pose proof (equals_spec _ _ r1 r2) as h. rewrite e1, e2 in h.
  rewrite (proj2 (equals_spec _ _ r2 r2) eq_refl). clear e1 e2 r1 r2. revert h. generalize (sc_equals (sc_rand t) (sc_rand u)) as c.
  generalize (le_val t mod l) as x, (le_val u mod l) as y. intros x y c h. destruct c; split; intro g; try discriminate; try reflexivity.
  - destruct (g (proj1 h eq_refl)).
  - intro e. discriminate (proj2 h e).
Qed.
