(** Facts about the word tricks used for branch-free comparisons: folding a word onto its
    lowest bit, equal30, equal15, negative, ConstantTimeCompare and ConditionalSet masks. *)
From Coq Require Import ZArith List Lia Bool.
From Verif Require Import Words FieldModel CurveModel.
Import ListNotations.
Open Scope Z_scope.

(** if [r] is non-zero then one of its [k] low bits is set *)
Definition low_nz (k r : Z) : Prop :=
  0 <= r /\ (r <> 0 -> exists i, 0 <= i < k /\ Z.testbit r i = true).

Definition foldk (k r : Z) : Z := Z.lor r (Z.shiftr r k).

Lemma foldk_def k r : Z.lor r (Z.shiftr r k) = foldk k r.
Proof. reflexivity. Qed.

Lemma low_nz_start k r : 0 <= r < 2 ^ k -> low_nz k r.
Proof.
  intro h. split; [lia|]. intro hr. exists (Z.log2 r).
  assert (0 < r) by lia.
  split; [split; [apply Z.log2_nonneg | apply Z.log2_lt_pow2; lia] | apply Z.bit_log2; lia].
Qed.

Lemma foldk_0 k r : 0 <= k -> 0 <= r -> (foldk k r = 0 <-> r = 0).
Proof.
  intros hk hr. unfold foldk. split.
  - intro h. apply Z.lor_eq_0_l in h. exact h.
  - intros ->. rewrite Z.shiftr_0_l. reflexivity.
Qed.

Lemma low_nz_fold k r : 0 <= k -> low_nz (k + k) r -> low_nz k (foldk k r).
Proof.
  intros hk [h0 h]. assert (hn : 0 <= foldk k r).
  { unfold foldk. apply Z.lor_nonneg. split; [lia | apply Z.shiftr_nonneg; lia]. }
  split; [exact hn|]. intro hr.
  destruct h as (i & hi & hb). { intro e. apply hr. apply foldk_0; auto. }
  destruct (Z_lt_ge_dec i k).
  - exists i. split; [lia|]. unfold foldk. rewrite Z.lor_spec, hb. reflexivity.
  - exists (i - k). split; [lia|]. unfold foldk. rewrite Z.lor_spec, Z.shiftr_spec by lia.
    replace (i - k + k) with i by ring. rewrite hb. apply orb_true_r.
Qed.

Lemma low_nz_1 r : low_nz 1 r -> Z.land r 1 = Z.b2z (negb (r =? 0)).
Proof.
  intros [h0 h]. destruct (Z.eqb_spec r 0) as [->|hr]; [reflexivity|].
  destruct (h hr) as (i & hi & hb). assert (i = 0) by lia; subst.
  change 1 with (Z.ones 1). rewrite Z.land_ones by lia. change (2 ^ 1) with 2.
  rewrite <- Z.bit0_mod, hb. reflexivity.
Qed.

Lemma foldk_nneg k r : 0 <= r -> 0 <= foldk k r.
Proof. intro h. unfold foldk. apply Z.lor_nonneg. split; [lia | apply Z.shiftr_nonneg; lia]. Qed.

Lemma fold64 r : 0 <= r < 2 ^ 64 ->
  Z.land (foldk 1 (foldk 2 (foldk 4 (foldk 8 (foldk 16 (foldk 32 r)))))) 1 = Z.b2z (negb (r =? 0)).
Proof.
  intro h.
  rewrite low_nz_1 by (repeat (refine (low_nz_fold _ _ _ _); [lia|]); exact (low_nz_start 64 r h)).
  f_equal. f_equal.
  assert (E : forall k x, 0 <= k -> 0 <= x -> (foldk k x =? 0) = (x =? 0)).
  { intros k x hk hx. apply eq_true_iff_eq. rewrite !Z.eqb_eq. apply foldk_0; auto. }
  rewrite !E by (try lia; repeat apply foldk_nneg; lia). reflexivity.
Qed.

Lemma fold32 r : 0 <= r < 2 ^ 32 ->
  Z.land (foldk 1 (foldk 2 (foldk 4 (foldk 8 (foldk 16 r))))) 1 = Z.b2z (negb (r =? 0)).
Proof.
  intro h.
  rewrite low_nz_1 by (repeat (refine (low_nz_fold _ _ _ _); [lia|]); exact (low_nz_start 32 r h)).
  f_equal. f_equal.
  assert (E : forall k x, 0 <= k -> 0 <= x -> (foldk k x =? 0) = (x =? 0)).
  { intros k x hk hx. apply eq_true_iff_eq. rewrite !Z.eqb_eq. apply foldk_0; auto. }
  rewrite !E by (try lia; repeat apply foldk_nneg; lia). reflexivity.
Qed.

Lemma lor_range k a b : 0 <= k -> 0 <= a < 2 ^ k -> 0 <= b < 2 ^ k -> 0 <= Z.lor a b < 2 ^ k.
Proof.
  intros hk ha hb. assert (0 <= Z.lor a b) by (apply Z.lor_nonneg; lia).
  split; [lia|]. destruct (Z.eqb_spec (Z.lor a b) 0) as [->|]; [lia|].
  apply Z.log2_lt_pow2; [lia|]. rewrite Z.log2_lor by lia.
  apply Z.max_lub_lt.
  - destruct (Z.eqb_spec a 0) as [->|]; [destruct (Z.eqb_spec k 0); [subst; change (2^0) with 1 in *; cbn; exfalso; assert (b = 0) by lia; subst; cbn in n; lia | cbn; lia] | apply Z.log2_lt_pow2; lia].
  - destruct (Z.eqb_spec b 0) as [->|]; [destruct (Z.eqb_spec k 0); [subst; change (2^0) with 1 in *; exfalso; assert (a = 0) by lia; subst; cbn in n; lia | cbn; lia] | apply Z.log2_lt_pow2; lia].
Qed.

Lemma lxor_range k a b : 0 <= k -> 0 <= a < 2 ^ k -> 0 <= b < 2 ^ k -> 0 <= Z.lxor a b < 2 ^ k.
Proof.
  intros hk ha hb. 
  assert (e : Z.lxor a b = Z.lxor a b mod 2 ^ k).
  { apply Z.bits_inj'. intros n hn. destruct (Z_lt_ge_dec n k).
    - rewrite Z.mod_pow2_bits_low by lia. reflexivity.
    - rewrite Z.mod_pow2_bits_high by lia. rewrite Z.lxor_spec.
      rewrite <- (Z.mod_small a (2 ^ k)), <- (Z.mod_small b (2 ^ k)) by lia.
      rewrite !Z.mod_pow2_bits_high by lia. reflexivity. }
  rewrite e. apply Z.mod_pos_bound. apply Z.pow_pos_nonneg; lia.
Qed.

(** [(x - 1) >> 31] on 32-bit words detects zero below 2^31 *)
Lemma dec_shift31 x : 0 <= x <= 2147483648 -> Z.shiftr (u32 (x - 1)) 31 = Z.b2z (x =? 0).
Proof.
  intro h. rewrite Z.shiftr_div_pow2 by lia. change (2 ^ 31) with 2147483648.
  destruct (Z.eqb_spec x 0) as [->|hx]; [reflexivity|].
  rewrite u32_small by lia. apply Z.div_small. lia.
Qed.

Lemma lxor_0_iff a b : Z.lxor a b = 0 <-> a = b.
Proof. apply Z.lxor_eq_0_iff. Qed.

Lemma b2z_range b : 0 <= Z.b2z b <= 1.
Proof. destruct b; cbn; lia. Qed.

Lemma i32_b2z b : i32 (Z.b2z b) = Z.b2z b.
Proof. destruct b; reflexivity. Qed.
Lemma i32_1_sub_b2z b : i32 (1 - Z.b2z b) = Z.b2z (negb b).
Proof. destruct b; reflexivity. Qed.
Lemma lor_b2z a b : Z.lor (Z.b2z a) (Z.b2z b) = Z.b2z (a || b).
Proof. destruct a, b; reflexivity. Qed.
Lemma land_b2z a b : Z.land (Z.b2z a) (Z.b2z b) = Z.b2z (a && b).
Proof. destruct a, b; reflexivity. Qed.

Lemma equal30_ok b c : 0 <= b < 1073741824 -> 0 <= c < 1073741824 -> equal30 b c = Z.b2z (b =? c).
Proof.
  intros hb hc. unfold equal30. pose proof (lxor_range 30 b c ltac:(lia) hb hc) as h.
  change (2 ^ 30) with 1073741824 in h. rewrite (u32_small (Z.lxor _ _)) by lia.
  rewrite dec_shift31 by lia. rewrite i32_b2z. f_equal.
  apply eq_true_iff_eq. rewrite !Z.eqb_eq. apply lxor_0_iff.
Qed.

Lemma equal15_ok b c : equal15 b c = Z.b2z (u16 b =? u16 c).
Proof.
  unfold equal15.
  assert (hr : forall x, 0 <= u16 x < 65536) by (intro; apply Z.mod_pos_bound; lia).
  pose proof (lxor_range 16 (u16 b) (u16 c) ltac:(lia) (hr b) (hr c)) as h.
  change (2 ^ 16) with 65536 in h. rewrite (u32_small (Z.lxor _ _)) by lia.
  rewrite dec_shift31 by lia. rewrite i32_b2z. f_equal.
  apply eq_true_iff_eq. rewrite !Z.eqb_eq. apply lxor_0_iff.
Qed.

Lemma equal15_small b c : -1000 <= b <= 1000 -> -1000 <= c <= 1000 -> equal15 b c = Z.b2z (b =? c).
Proof.
  intros hb hc. rewrite equal15_ok. f_equal. apply eq_true_iff_eq. rewrite !Z.eqb_eq.
  unfold u16. split; [|congruence]. intro h.
  pose proof (Z.div_mod b 65536 ltac:(lia)). pose proof (Z.div_mod c 65536 ltac:(lia)).
  assert (b / 65536 = -1 \/ b / 65536 = 0) by (pose proof (Z.mod_pos_bound b 65536); lia).
  assert (c / 65536 = -1 \/ c / 65536 = 0) by (pose proof (Z.mod_pos_bound c 65536); lia).
  lia.
Qed.

Lemma negative_ok b : -2147483648 <= b < 2147483648 -> negative b = Z.b2z (b <? 0).
Proof.
  intro h. unfold negative. rewrite Z.shiftr_div_pow2 by lia. change (2 ^ 31) with 2147483648.
  destruct (Z.ltb_spec b 0).
  - replace (b / 2147483648) with (-1); [reflexivity|].
    apply (Z.div_unique_pos b 2147483648 (-1) (b + 2147483648)); lia.
  - rewrite Z.div_small by lia. reflexivity.
Qed.

Lemma ct_byte_eq_0 v : 0 <= v < 256 -> ct_byte_eq v 0 = Z.b2z (v =? 0).
Proof.
  intro h. unfold ct_byte_eq. rewrite Z.lxor_0_r. rewrite (u32_small v) by lia. apply dec_shift31; lia.
Qed.

Lemma ct_fold x y v : length x = length y -> Forall is_byte x -> Forall is_byte y -> 0 <= v < 256 ->
  let r := fold_left (fun v xy => Z.lor v (Z.lxor (fst xy) (snd xy))) (combine x y) v in
  0 <= r < 256 /\ (r = 0 <-> v = 0 /\ x = y).
Proof.
  intros hl hx. revert y v hl. induction hx as [|a x ha hx IH]; intros y v hl hy hv.
  - destruct y; [|discriminate]. cbn. split; [lia|]. tauto.
  - destruct y as [|b y]; [discriminate|]. injection hl as hl. inversion hy as [|? ? hb hy']; subst.
    cbn [combine fold_left fst snd].
    assert (h2 : 0 <= Z.lor v (Z.lxor a b) < 256).
    { apply (lor_range 8); [lia | exact hv | apply (lxor_range 8); [lia | exact ha | exact hb]]. }
    destruct (IH y _ hl hy' h2) as [h3 h4]. split; [exact h3|]. rewrite h4.
    rewrite Z.lor_eq_0_iff, lxor_0_iff. split.
    + intros ((-> & ->) & ->); auto.
    + intros (-> & e). injection e as -> ->. auto.
Qed.

Lemma list_eqb_spec (x y : list Z) : {x = y} + {x <> y}.
Proof. apply (list_eq_dec Z.eq_dec). Defined.

Lemma ct_compare_ok x y : Forall is_byte x -> Forall is_byte y -> length x = length y ->
  ct_compare x y = Z.b2z (if list_eqb_spec x y then true else false).
Proof.
  intros hx hy hl. unfold ct_compare. rewrite hl, Nat.eqb_refl.
  destruct (ct_fold x y 0 hl hx hy ltac:(lia)) as [hr h0]. rewrite ct_byte_eq_0 by exact hr. f_equal.
  destruct (list_eqb_spec x y) as [e|e].
  - apply Z.eqb_eq. apply h0. auto.
  - apply Z.eqb_neq. intro h. apply e. apply h0, h.
Qed.

(** masks of ConditionalSet *)
Lemma condset_word0 (x a : Z) m : m = 0 -> Z.lxor x (Z.land m (Z.lxor x a)) = x.
Proof. intros ->. rewrite Z.land_0_l, Z.lxor_0_r. reflexivity. Qed.

Lemma condset_word1 (x a m k : Z) : 0 <= k -> m = Z.ones k -> 0 <= x < 2 ^ k -> 0 <= a < 2 ^ k ->
  Z.lxor x (Z.land m (Z.lxor x a)) = a.
Proof.
  intros hk -> hx ha. rewrite Z.land_comm, Z.land_ones by lia.
  rewrite Z.mod_small by (apply lxor_range; auto).
  rewrite <- Z.lxor_assoc, Z.lxor_nilpotent, Z.lxor_0_l. reflexivity.
Qed.

Lemma condset_wordm1 (x a : Z) m : m = -1 -> Z.lxor x (Z.land m (Z.lxor x a)) = a.
Proof.
  intros ->. rewrite Z.land_m1_l.
  rewrite <- Z.lxor_assoc, Z.lxor_nilpotent, Z.lxor_0_l. reflexivity.
Qed.
