(** [scalar_slide] computes the non-adjacent form of width w. *)
From Coq Require Import ZArith List Lia Bool.
From Verif Require Import Words FieldModel ScalarCode WindowProofs CrefScalar CrefSlide.
Import ListNotations.
Open Scope Z_scope.

Definition bit (x : Z) : Prop := x = 0 \/ x = 1.

Fixpoint inc (t : list Z) : list Z :=
  match t with [] => [] | x :: t' => if x =? 0 then 1 :: t' else 0 :: inc t' end.

Lemma inc_len t : length (inc t) = length t.
Proof. induction t as [|x t IH]; cbn [inc]; [reflexivity|]. destruct (x =? 0); cbn [length]; congruence. Qed.
Lemma inc_bits t : Forall bit t -> Forall bit (inc t).
Proof.
  induction 1 as [|x t hx ht IH]; cbn [inc]; [constructor|]. destruct (x =? 0); constructor; auto; [now right|now left].
Qed.
Lemma bits_range t : Forall bit t -> 0 <= dval 2 t < 2 ^ Z.of_nat (length t).
Proof.
  induction 1 as [|x t hx ht IH]; cbn [dval length]; [change (2 ^ Z.of_nat 0) with 1; lia|].
  rewrite Nat2Z.inj_succ, Z.pow_succ_r by lia. destruct hx; lia.
Qed.
(** adding 1 loses the carry when all bits are 1 *)
Lemma inc_val t : Forall bit t ->
  dval 2 (inc t) = dval 2 t + 1 \/ (dval 2 (inc t) = 0 /\ dval 2 t + 1 = 2 ^ Z.of_nat (length t)).
Proof.
  induction 1 as [|x t hx ht IH]; cbn [inc dval length]; [right; split; reflexivity|].
  rewrite Nat2Z.inj_succ, Z.pow_succ_r by lia.
  destruct (Z.eqb_spec x 0) as [->|n]; cbn [dval]; [left; lia|]. destruct hx as [hx|hx]; [lia|]. destruct IH as [IH|[IH1 IH2]]; lia.
Qed.

Lemma at_app (a b : list Z) i : at_ (a ++ b) (length a + i) = at_ b i.
Proof. unfold at_. rewrite app_nth2 by lia. f_equal. lia. Qed.
Lemma upd_app (a b : list Z) i x : upd (a ++ b) (length a + i) x = a ++ upd b i x.
Proof. induction a as [|y a IH]; cbn [app length Nat.add upd]; [reflexivity|now rewrite IH]. Qed.

Lemma at_app0 (a b : list Z) x n : length a = n -> at_ (a ++ x :: b) n = x.
Proof. intros <-. rewrite <- (Nat.add_0_r (length a)), at_app. reflexivity. Qed.
Lemma upd_app0 (a b : list Z) x y n : length a = n -> upd (a ++ x :: b) n y = a ++ y :: b.
Proof. intros <-. rewrite <- (Nat.add_0_r (length a)), upd_app. reflexivity. Qed.

Lemma slide_carry_app a t : slide_carry (length t) (length a) (a ++ t) = a ++ inc t.
Proof.
  revert a. induction t as [|x t IH]; intro a; cbn [length slide_carry inc]; [reflexivity|].
  replace (length a) with (length a + 0)%nat by lia. rewrite at_app, !upd_app. change (at_ (x :: t) 0) with x. cbn [upd].
  destruct (x =? 0); [reflexivity|].
  replace (a ++ 0 :: t) with ((a ++ [0]) ++ t) by (rewrite <- app_assoc; reflexivity).
  replace (length a + 0 + 1)%nat with (length (a ++ [0])) by (rewrite app_length; cbn [length]; lia).
  rewrite IH, <- app_assoc. reflexivity.
Qed.

(** The loop on [b]: [b - 1] zeros follow the digit [d]. *)
Fixpoint sl (m : Z) (n b : nat) (d : Z) (t : list Z) : list Z :=
  match n with
  | O => d :: repeat 0 (b - 1) ++ t
  | S n' =>
    if (b <=? 6)%nat then
      match t with
      | [] => d :: repeat 0 (b - 1)
      | x :: t' =>
        if d + x * 2 ^ Z.of_nat b <=? m then sl m n' (b + 1) (i8 (d + x * 2 ^ Z.of_nat b)) t'
        else if - m <=? d - x * 2 ^ Z.of_nat b then sl m n' (b + 1) (i8 (d - x * 2 ^ Z.of_nat b)) (inc t')
        else d :: repeat 0 (b - 1) ++ t
      end
    else d :: repeat 0 (b - 1) ++ t
  end.

Lemma rep_snoc n (t : list Z) : repeat 0 n ++ 0 :: t = repeat 0 (n + 1) ++ t.
Proof. rewrite repeat_app. cbn [repeat]. rewrite <- app_assoc. reflexivity. Qed.


(** [d] before the step for [b]: the bits read so far, or a finished digit *)
Definition dst (w b d : Z) : Prop :=
  Z.odd d = true /\ ((b < w /\ 1 <= d < 2 ^ b) \/ (w <= b /\ Z.abs d < 2 ^ (w - 1))).

Lemma i8_small x : -128 <= x < 128 -> i8 x = x.
Proof. intro h. unfold i8. rewrite Z.mod_small by lia. lia. Qed.

Section width.
Variable w : Z.
Hypothesis hw : 2 <= w.
Let m := 2 ^ (w - 1) - 1.

Lemma pow_w : 2 ^ w = 2 * 2 ^ (w - 1).
Proof. rewrite <- Z.pow_succ_r by lia. f_equal. lia. Qed.
Lemma pow_mono a b : 0 <= a <= b -> 0 < 2 ^ a <= 2 ^ b.
Proof. intro h. split; [apply Z.pow_pos_nonneg; lia|apply Z.pow_le_mono_r; lia]. Qed.
Lemma pow_6 b : 0 <= b <= 6 -> 2 ^ b <= 64.
Proof. intro h. change 64 with (2 ^ 6). apply Z.pow_le_mono_r; lia. Qed.
Lemma odd_add d b : 1 <= b -> Z.odd d = true -> Z.odd (d + 2 ^ b) = true /\ Z.odd (d - 2 ^ b) = true.
Proof.
  intros hb h. rewrite Z.odd_add, Z.odd_sub, h. replace b with (Z.succ (b - 1)) by lia. rewrite Z.pow_succ_r by lia.
  rewrite Z.odd_mul. cbn. auto.
Qed.

(** What a step does. *)
Lemma dst_step b d x : 1 <= b <= 6 -> dst w b d -> bit x ->
  (d + x * 2 ^ b <= m /\ dst w (b + 1) (d + x * 2 ^ b) /\ -128 <= d + x * 2 ^ b < 128) \/
  (m < d + x * 2 ^ b /\ x = 1 /\ b = w - 1 /\ - m <= d - 2 ^ b /\ dst w (b + 1) (d - 2 ^ b) /\ -128 <= d - 2 ^ b < 128) \/
  (m < d + x * 2 ^ b /\ x = 1 /\ d - 2 ^ b < - m /\ w <= b).
Proof.
  intros hb [ho h] hx. pose proof (pow_6 b ltac:(lia)). pose proof pow_w as hp.
  assert (2 ^ (b + 1) = 2 * 2 ^ b) as hb1 by (rewrite <- Z.pow_succ_r by lia; reflexivity).
  pose proof (Z.pow_pos_nonneg 2 b ltac:(lia) ltac:(lia)).
  destruct (odd_add d b ltac:(lia) ho) as [o1 o2].
  destruct h as [[h1 h2]|[h1 h2]].
  - destruct (Z.eq_dec b (w - 1)) as [->|hn].
    + destruct hx as [->| ->].
      * left. rewrite Z.mul_0_l, Z.add_0_r. unfold m. split; [lia|]. split; [|lia]. split; [exact ho|]. right. lia.
      * right. left. rewrite Z.mul_1_l. unfold m. repeat split; try lia; auto.
    + left. pose proof (pow_mono (b + 1) (w - 1) ltac:(lia)).
      destruct hx as [->| ->]; rewrite ?Z.mul_0_l, ?Z.mul_1_l, ?Z.add_0_r; unfold m; (split; [lia|]); (split; [|lia]);
        (split; [assumption|]); left; lia.
  - pose proof (pow_mono w b ltac:(lia)).
    destruct hx as [->| ->]; rewrite ?Z.mul_0_l, ?Z.mul_1_l, ?Z.add_0_r; unfold m.
    + left. split; [lia|]. split; [|lia]. split; [exact ho|]. right. lia.
    + right. right. repeat split; lia.
Qed.

Lemma slide_digit_sl pre n : forall b d t, (1 <= b)%nat -> (n + b <= 8)%nat -> (length pre + b + length t = 256)%nat ->
  dst w (Z.of_nat b) d -> Forall bit t ->
  slide_digit m (length pre) n b (pre ++ d :: repeat 0 (b - 1) ++ t) = pre ++ sl m n b d t.
Proof.
  induction n as [|n IH]; intros b d t hb hnb hl hd ht; [reflexivity|].
  cbn [slide_digit sl].
  destruct (Nat.leb_spec b 6) as [hb6|hb6]; [|rewrite Bool.andb_false_r; reflexivity]. rewrite Bool.andb_true_r.
  destruct t as [|x t].
  { cbn [length] in hl. replace (b <? 256 - length pre)%nat with false by (symmetry; apply Nat.ltb_ge; lia). rewrite app_nil_r. reflexivity. }
  cbn [length] in hl. replace (b <? 256 - length pre)%nat with true by (symmetry; apply Nat.ltb_lt; lia).
  assert (at_ (pre ++ d :: repeat 0 (b - 1) ++ x :: t) (length pre) = d) as e1.
  { replace (length pre) with (length pre + 0)%nat by lia. rewrite at_app. reflexivity. }
  assert (forall y, (pre ++ y :: repeat 0 (b - 1) ++ x :: t) = (pre ++ y :: repeat 0 (b - 1)) ++ x :: t) as ea
    by (intro y; rewrite <- app_assoc; reflexivity).
  assert (forall y, length (pre ++ y :: repeat 0 (b - 1)) = (length pre + b)%nat) as el
    by (intro y; rewrite app_length; cbn [length]; rewrite repeat_length; lia).
  assert (at_ (pre ++ d :: repeat 0 (b - 1) ++ x :: t) (length pre + b) = x) as e2.
  { rewrite ea. apply at_app0, el. }
  rewrite e1, e2.
  assert (forall y, upd (pre ++ d :: repeat 0 (b - 1) ++ x :: t) (length pre) y = pre ++ y :: repeat 0 (b - 1) ++ x :: t) as e3.
  { intro y. replace (length pre) with (length pre + 0)%nat by lia. rewrite upd_app. reflexivity. }
  rewrite !e3.
  assert (forall y z, upd (pre ++ y :: repeat 0 (b - 1) ++ x :: t) (length pre + b) z = pre ++ y :: repeat 0 (b - 1) ++ z :: t) as e4.
  { intros y z. rewrite ea, (upd_app0 _ _ _ _ _ (el y)), <- app_assoc. reflexivity. }
  rewrite e4. rewrite Z.shiftl_mul_pow2 by lia.
  apply Forall_cons_iff in ht. destruct ht as [hx ht].
  destruct (dst_step (Z.of_nat b) d x ltac:(lia) hd hx) as [(h1 & h2 & h3)|[(h1 & hx1 & hbw & h2 & h3 & h4)|(h1 & hx1 & h2 & h3)]].
  - replace (d + x * 2 ^ Z.of_nat b <=? m) with true by (symmetry; apply Z.leb_le; exact h1).
    rewrite i8_small by exact h3. rewrite rep_snoc. replace (b - 1 + 1)%nat with (b + 1 - 1)%nat by lia.
    apply IH; try lia; [|exact ht]. rewrite Nat2Z.inj_add. exact h2.
  - replace (d + x * 2 ^ Z.of_nat b <=? m) with false by (symmetry; apply Z.leb_gt; exact h1).
    subst x. rewrite Z.mul_1_l. replace (- m <=? d - 2 ^ Z.of_nat b) with true by (symmetry; apply Z.leb_le; exact h2).
    rewrite i8_small by exact h4.
    rewrite ea. replace (256 - (length pre + b))%nat with (length (1 :: t)) by (cbn [length]; lia).
    rewrite <- (el (d - 2 ^ Z.of_nat b)), slide_carry_app. cbn [inc Z.eqb].
    rewrite <- app_assoc. cbn [app]. rewrite rep_snoc. replace (b - 1 + 1)%nat with (b + 1 - 1)%nat by lia.
    apply IH; try lia; [rewrite inc_len; lia| |apply inc_bits, ht]. rewrite Nat2Z.inj_add. exact h3.
  - replace (d + x * 2 ^ Z.of_nat b <=? m) with false by (symmetry; apply Z.leb_gt; exact h1).
    subst x. rewrite Z.mul_1_l. replace (- m <=? d - 2 ^ Z.of_nat b) with false by (symmetry; apply Z.leb_gt; exact h2).
    reflexivity.
Qed.

(** The digit and what remains. *)
Definition width : Z := Z.min w 7.
Definition digit (d : Z) : Prop := Z.odd d = true /\ Z.abs d < 2 ^ (w - 1) /\ -64 < d < 128.


Lemma sl_done n : forall b d t, (1 <= b)%nat -> (n + b <= 8)%nat -> w <= Z.of_nat b -> dst w (Z.of_nat b) d -> Forall bit t ->
  sl m n b d t = d :: repeat 0 (b - 1) ++ t.
Proof.
  induction n as [|n IH]; intros b d t hb hnb hwb hd ht; [reflexivity|]. cbn [sl].
  destruct (Nat.leb_spec b 6) as [hb6|hb6]; [|reflexivity]. destruct t as [|x t]; [rewrite app_nil_r; reflexivity|].
  apply Forall_cons_iff in ht. destruct ht as [hx ht].
  destruct (dst_step (Z.of_nat b) d x ltac:(lia) hd hx) as [(h1 & h2 & h3)|[(h1 & hx1 & hbw & h2 & h3 & h4)|(h1 & hx1 & h2 & h3)]].
  - replace (d + x * 2 ^ Z.of_nat b <=? m) with true by (symmetry; apply Z.leb_le; exact h1).
    assert (x = 0) as ->.
    { destruct hx as [->| ->]; [reflexivity|exfalso]. destruct hd as [_ [hd|hd]]; [lia|].
      pose proof (pow_mono w (Z.of_nat b) ltac:(lia)). pose proof pow_w. unfold m in h1. lia. }
    rewrite i8_small by exact h3. rewrite Z.mul_0_l, Z.add_0_r in *.
    rewrite IH; try lia; [|rewrite Nat2Z.inj_add; exact h2|exact ht].
    rewrite rep_snoc. do 3 f_equal. lia.
  - lia.
  - replace (d + x * 2 ^ Z.of_nat b <=? m) with false by (symmetry; apply Z.leb_gt; exact h1).
    subst x. rewrite Z.mul_1_l. replace (- m <=? d - 2 ^ Z.of_nat b) with false by (symmetry; apply Z.leb_gt; exact h2).
    reflexivity.
Qed.

Lemma dst_digit b d : 1 <= b <= 7 -> dst w b d -> digit d.
Proof.
  intros hb [ho h]. split; [exact ho|]. assert (2 ^ b <= 128) by (change 128 with (2 ^ 7); apply Z.pow_le_mono_r; lia).
  destruct h as [[h1 h2]|[h1 h2]].
  - pose proof (pow_mono b (w - 1) ltac:(lia)). lia.
  - assert (2 ^ (w - 1) <= 64) by (apply pow_6; lia). lia.
Qed.

Definition slv (c : nat) (d : Z) (t : list Z) : Z := d + 2 ^ (1 + Z.of_nat c) * dval 2 t.

Lemma slv_pow (b : nat) d t : (1 <= b)%nat -> slv (b - 1) d t = d + 2 ^ Z.of_nat b * dval 2 t.
Proof. intro h. unfold slv. do 3 f_equal. lia. Qed.

Lemma sl_spec n : forall b d t, (1 <= b <= 7)%nat -> (n + b = 8)%nat -> Z.of_nat b < w -> dst w (Z.of_nat b) d -> Forall bit t ->
  exists d' c t', sl m n b d t = d' :: repeat 0 c ++ t' /\ Forall bit t' /\ (1 + c + length t' = b + length t)%nat /\ digit d' /\
    (t' = [] \/ width <= Z.of_nat c + 1) /\
    (slv c d' t' = slv (b - 1) d t \/ (slv c d' t' = slv (b - 1) d t - 2 ^ Z.of_nat (b + length t) /\ dval 2 t' = 0)) /\
    (slv (b - 1) d t < 2 ^ (Z.of_nat (b + length t) - 1) -> slv c d' t' = slv (b - 1) d t).
Proof.
  induction n as [|n IH]; intros b d t hb hnb hwb hd ht; [lia|]. cbn [sl].
  destruct (Nat.leb_spec b 6) as [hb6|hb6].
  2: { exists d, (b - 1)%nat, t. split; [reflexivity|]. repeat split; auto; try lia; try (apply (dst_digit (Z.of_nat b)); [lia|exact hd]).
       right. unfold width. lia. }
  destruct t as [|x t].
  { exists d, (b - 1)%nat, []. rewrite app_nil_r. split; [reflexivity|]. repeat split; auto; try (cbn [length]; lia); apply (dst_digit (Z.of_nat b)); [lia|exact hd|lia|exact hd|lia|exact hd|lia|exact hd]. }
  pose proof (bits_range _ (proj2 (proj1 (Forall_cons_iff _ _ _) ht))) as hr.
  apply Forall_cons_iff in ht. destruct ht as [hx ht].
  assert (2 ^ Z.of_nat (b + 1) = 2 * 2 ^ Z.of_nat b) as hp by (rewrite Nat2Z.inj_add, Z.add_comm, Z.pow_add_r by lia; reflexivity).
  assert (b + length (x :: t) = b + 1 + length t)%nat as hlen by (cbn [length]; lia).
  pose proof (Z.pow_pos_nonneg 2 (Z.of_nat b) ltac:(lia) ltac:(lia)) as hpos.
  destruct (dst_step (Z.of_nat b) d x ltac:(lia) hd hx) as [(h1 & h2 & h3)|[(h1 & hx1 & hbw & h2 & h3 & h4)|(h1 & hx1 & h2 & h3)]]; [| |lia].
  - replace (d + x * 2 ^ Z.of_nat b <=? m) with true by (symmetry; apply Z.leb_le; exact h1).
    rewrite i8_small by exact h3.
    replace (Z.of_nat b + 1) with (Z.of_nat (b + 1)) in h2 by lia.
    assert (slv (b + 1 - 1) (d + x * 2 ^ Z.of_nat b) t = slv (b - 1) d (x :: t)) as hv.
    { rewrite !slv_pow by lia. cbn [dval]. rewrite hp. ring. }
    rewrite hlen, <- hv.
    destruct (Z.lt_ge_cases (Z.of_nat (b + 1)) w) as [hlt|hge].
    + apply IH; auto; lia.
    + rewrite sl_done by (auto; lia). eexists _, _, _. split; [reflexivity|].
      repeat split; auto; try lia; try (apply (dst_digit (Z.of_nat (b + 1))); [lia|exact h2]). right. unfold width. lia.
  - replace (d + x * 2 ^ Z.of_nat b <=? m) with false by (symmetry; apply Z.leb_gt; exact h1).
    subst x. rewrite Z.mul_1_l. replace (- m <=? d - 2 ^ Z.of_nat b) with true by (symmetry; apply Z.leb_le; exact h2).
    rewrite i8_small by exact h4. replace (Z.of_nat b + 1) with (Z.of_nat (b + 1)) in h3 by lia.
    rewrite sl_done by (auto using inc_bits; lia). eexists _, _, _. split; [reflexivity|].
    split; [apply inc_bits, ht|]. split; [rewrite inc_len; lia|]. split; [apply (dst_digit (Z.of_nat (b + 1))); [lia|exact h3]|].
    split; [right; unfold width; lia|].
    rewrite !slv_pow by lia. cbn [dval]. rewrite hp, hlen.
    assert (2 ^ Z.of_nat (b + 1 + length t) = 2 * 2 ^ Z.of_nat b * 2 ^ Z.of_nat (length t)) as hL
      by (rewrite Nat2Z.inj_add, Z.pow_add_r, hp by lia; ring).
    destruct (inc_val t ht) as [hi|[hi1 hi2]].
    + rewrite hi. split; [left; ring|intros _; ring].
    + rewrite hi1. split.
      * right. split; [|reflexivity]. rewrite hL, <- hi2. ring.
      * intro hlt. exfalso. replace (2 ^ Z.of_nat (b + 1 + length t)) with (2 * 2 ^ (Z.of_nat (b + 1 + length t) - 1)) in hL
          by (rewrite <- Z.pow_succ_r by lia; f_equal; lia).
        destruct hd as [_ hd]. destruct hd as [[_ hd]|[hd _]]; [|lia]. nia.
Qed.

Lemma dst_1 : dst w 1 1.
Proof. split; [reflexivity|]. left. change (2 ^ 1) with 2. lia. Qed.

Lemma slide_at pre t : (length pre + 1 + length t = 256)%nat -> Forall bit t ->
  exists d c t', slide_digit m (length pre) 7 1 (pre ++ 1 :: t) = pre ++ d :: repeat 0 c ++ t' /\ Forall bit t' /\
    (c + length t' = length t)%nat /\ digit d /\ (t' = [] \/ width <= Z.of_nat c + 1) /\
    (slv c d t' = 1 + 2 * dval 2 t \/ (slv c d t' = 1 + 2 * dval 2 t - 2 ^ Z.of_nat (1 + length t) /\ dval 2 t' = 0)) /\
    (t = [] \/ 1 + 2 * dval 2 t < 2 ^ Z.of_nat (length t) -> slv c d t' = 1 + 2 * dval 2 t).
Proof.
  intros hl ht.
  pose proof (slide_digit_sl pre 7 1 1 t ltac:(lia) ltac:(lia) ltac:(lia) dst_1 ht) as e. cbn [Nat.sub repeat app] in e. rewrite e. clear e.
  destruct t as [|x t].
  { exists 1, 0%nat, []. cbn [sl repeat Nat.sub app Nat.leb]. split; [reflexivity|]. split; [constructor|]. split; [reflexivity|].
    split; [apply (dst_digit 1); [lia|exact dst_1]|]. split; [now left|]. split; [left; reflexivity|reflexivity]. }
  destruct (sl_spec 7 1 1 (x :: t) ltac:(lia) eq_refl ltac:(lia) dst_1 ht) as (d & c & t' & h1 & h2 & h3 & h4 & h5 & h6 & h7).
  exists d, c, t'. rewrite h1. split; [reflexivity|]. split; [exact h2|]. split; [lia|]. split; [exact h4|]. split; [exact h5|].
  rewrite slv_pow in h6, h7 by lia. change (2 ^ Z.of_nat 1) with 2 in h6, h7. split; [exact h6|].
  intros [h|h]; [discriminate h|]. apply h7. replace (Z.of_nat (1 + length (x :: t)) - 1) with (Z.of_nat (length (x :: t))) by lia. exact h.
Qed.

Variable V : Z.
Definition inv (j : nat) (r : list Z) : Prop :=
  exists pre suf, r = pre ++ suf /\ length pre = j /\ (j + length suf = 256)%nat /\ Forall bit suf /\
    Forall (fun d => d = 0 \/ digit d) pre /\
    (forall i k, (i < j)%nat -> at_ r i <> 0 -> (i < k)%nat -> Z.of_nat k < Z.of_nat i + width -> at_ r k = 0) /\
    (dval 2 r = V \/ (dval 2 r = V - 2 ^ 256 /\ dval 2 suf = 0)) /\
    (V < 2 ^ 255 -> dval 2 r = V /\ ((j <= 255)%nat -> dval 2 suf <= 2 ^ (255 - Z.of_nat j))).

Lemma at_lt (a b : list Z) i : (i < length a)%nat -> at_ (a ++ b) i = at_ a i.
Proof. intro h. unfold at_. apply app_nth1, h. Qed.
Lemma at_rep c i : at_ (repeat 0 c) i = 0.
Proof. unfold at_. revert i. induction c as [|c IH]; intros [|i]; cbn [repeat nth]; auto. Qed.
Lemma at_rep_app c t i : (i < c)%nat -> at_ (repeat 0 c ++ t) i = 0.
Proof. intro h. rewrite at_lt by (rewrite repeat_length; exact h). apply at_rep. Qed.
Lemma dval_rep c t : dval 2 (repeat 0 c ++ t) = 2 ^ Z.of_nat c * dval 2 t.
Proof.
  rewrite dval_app, repeat_length. assert (dval 2 (repeat 0 c) = 0) as ->; [|ring]. induction c as [|c IH]; [reflexivity|].
  cbn [repeat dval]. rewrite IH. reflexivity.
Qed.

Lemma inv_step j r : (j < 256)%nat -> inv j r -> inv (j + 1) (if at_ r j =? 0 then r else slide_digit m j 7 1 r).
Proof.
  intros hj (pre & suf & -> & hp & hs & hb & hd & hsp & hv & hV).
  destruct suf as [|x t]; [cbn [length] in hs; lia|]. cbn [length] in hs.
  rewrite (at_app0 _ _ _ _ hp).
  assert (dval 2 (pre ++ x :: t) = dval 2 pre + 2 ^ Z.of_nat j * (x + 2 * dval 2 t)) as hval by (rewrite dval_app, hp; reflexivity).
  cbn [dval] in hv, hV. rewrite hval in hv, hV.
  apply Forall_cons_iff in hb. destruct hb as [hx hb]. pose proof (bits_range _ hb) as hr.
  pose proof (Z.pow_pos_nonneg 2 (Z.of_nat j) ltac:(lia) ltac:(lia)) as hpj.
  destruct hx as [->| ->].
  - rewrite Z.eqb_refl. exists (pre ++ [0]), t. rewrite <- app_assoc. split; [reflexivity|].
    split; [rewrite app_length; cbn [length]; lia|]. split; [lia|]. split; [exact hb|].
    split; [apply Forall_app; split; [exact hd|constructor; [now left|constructor]]|].
    split. { intros i k h1 h2. destruct (Nat.eq_dec i j) as [->|hn]; [|apply hsp; lia]. rewrite (at_app0 _ _ _ _ hp) in h2. lia. }
    rewrite hval. split; [destruct hv as [hv|[hv1 hv2]]; [now left|right; split; [exact hv1|lia]]|].
    intro hlt. destruct (hV hlt) as [hV1 hV2]. split; [exact hV1|]. intro h. specialize (hV2 ltac:(lia)).
    replace (255 - Z.of_nat j) with (Z.succ (255 - Z.of_nat (j + 1))) in hV2 by lia. rewrite Z.pow_succ_r in hV2 by lia. lia.
  - cbn [Z.eqb]. destruct (slide_at pre t ltac:(lia) hb) as (d & c & t' & h1 & h2 & h3 & h4 & h5 & h6 & h7). rewrite <- hp at 2. rewrite h1.
    pose proof (bits_range _ h2) as hr'.
    exists (pre ++ [d]), (repeat 0 c ++ t'). rewrite <- app_assoc. split; [reflexivity|].
    split; [rewrite app_length; cbn [length]; lia|]. split; [rewrite app_length, repeat_length; lia|].
    split. { apply Forall_app. split; [|exact h2]. apply Forall_forall. intros y hy. left. exact (repeat_spec _ _ _ hy). }
    split. { apply Forall_app. split; [exact hd|]. constructor; [now right|constructor]. }
    split.
    { intros i k hi hn hik hk. cbn [app] in *. destruct (Nat.eq_dec i j) as [->|hne].
      - replace k with (length (pre ++ [d]) + (k - j - 1))%nat by (rewrite app_length; cbn [length]; lia).
        replace (pre ++ d :: repeat 0 c ++ t') with ((pre ++ [d]) ++ repeat 0 c ++ t') by (rewrite <- app_assoc; reflexivity).
        rewrite at_app. destruct h5 as [->|h5]; [rewrite app_nil_r; apply at_rep|apply at_rep_app; lia].
      - rewrite at_lt in hn by lia. assert (k < j)%nat as hkj.
        { destruct (Nat.lt_ge_cases k j) as [h|h]; [exact h|exfalso].
          specialize (hsp i j ltac:(lia)). rewrite at_lt, (at_app0 _ _ _ _ hp) in hsp by lia. specialize (hsp hn ltac:(lia) ltac:(lia)). lia. }
        rewrite at_lt by lia. specialize (hsp i k ltac:(lia)). rewrite !at_lt in hsp by lia. apply hsp; auto; lia. }
    assert (dval 2 (pre ++ d :: repeat 0 c ++ t') = dval 2 pre + 2 ^ Z.of_nat j * slv c d t') as hval'.
    { rewrite dval_app, hp. cbn [dval]. rewrite dval_rep. unfold slv. rewrite Z.pow_add_r by lia. change (2 ^ 1) with 2. ring. }
    assert (2 ^ Z.of_nat j * 2 ^ Z.of_nat (1 + length t) = 2 ^ 256) as h256 by (rewrite <- Z.pow_add_r by lia; f_equal; lia).
    rewrite hval', dval_rep. split.
    + destruct hv as [hv|[hv1 hv2]]; [|lia]. destruct h6 as [h6|[h61 h62]].
      * left. rewrite h6. exact hv.
      * right. rewrite h61, h62. split; [nia|ring].
    + intro hlt. destruct (hV hlt) as [hV1 hV2]. specialize (hV2 ltac:(lia)).
      assert (slv c d t' = 1 + 2 * dval 2 t) as he.
      { apply h7. destruct (Nat.eq_dec j 255) as [hj5|hj5]; [left; apply length_zero_iff_nil; lia|right].
        replace (Z.of_nat (length t)) with (255 - Z.of_nat j) by lia.
        replace (255 - Z.of_nat j) with (Z.succ (254 - Z.of_nat j)) in * by lia. rewrite Z.pow_succ_r in * by lia. lia. }
      split; [rewrite he; exact hV1|]. intro hj'.
      destruct t' as [|y t']; [cbn [dval]; pose proof (Z.pow_pos_nonneg 2 (255 - Z.of_nat (j + 1)) ltac:(lia) ltac:(lia)); lia|].
      destruct h5 as [h5|h5]; [discriminate h5|]. cbn [length] in h3.
      set (q := dval 2 (y :: t')) in *. unfold slv in he. fold q in he.
      assert (- 2 ^ Z.of_nat c < d) as hdc.
      { destruct h4 as (_ & h41 & h42). unfold width in h5. destruct (Z.le_gt_cases w 7) as [h|h].
        - pose proof (pow_mono (w - 1) (Z.of_nat c) ltac:(lia)). lia.
        - pose proof (pow_mono 6 (Z.of_nat c) ltac:(lia)) as h6c. change (2 ^ 6) with 64 in h6c. lia. }
      replace (255 - Z.of_nat j) with (1 + Z.of_nat c + (254 - Z.of_nat j - Z.of_nat c)) in hV2 by lia.
      replace (255 - Z.of_nat (j + 1)) with (Z.of_nat c + (254 - Z.of_nat j - Z.of_nat c)) by lia.
      rewrite Z.pow_add_r in hV2 by lia. rewrite (Z.pow_add_r 2 (Z.of_nat c)) by lia.
      rewrite Z.pow_add_r in hV2, he by lia. change (2 ^ 1) with 2 in *.
      pose proof (Z.pow_pos_nonneg 2 (Z.of_nat c) ltac:(lia) ltac:(lia)).
      apply Z.mul_le_mono_nonneg_l; [lia|].
      set (C := 2 ^ Z.of_nat c) in *. set (Q := 2 ^ (254 - Z.of_nat j - Z.of_nat c)) in *. nia.
Qed.

End width.

Lemma for_up_inv {A} (P : nat -> A -> Prop) (f : nat -> A -> A) n x : P 0%nat x ->
  (forall j y, (j < n)%nat -> P j y -> P (j + 1)%nat (f j y)) -> P n (for_up n f x).
Proof.
  intros h0 hs. assert (forall k, (k <= n)%nat -> P k (for_up k f x)) as H; [|apply H; lia].
  induction k as [|k IH]; intro hk; [exact h0|]. cbn [for_up]. replace (S k) with (k + 1)%nat by lia. apply hs; [lia|]. apply IH. lia.
Qed.

(** The bits. *)
Lemma byte_bits b : 0 <= b < 256 -> let r := map (fun k => i8 (Z.land (Z.shiftr b k) 1)) [0; 1; 2; 3; 4; 5; 6; 7] in
  Forall bit r /\ dval 2 r = b.
Proof.
  intros h r. assert (forall k, 0 <= k -> Z.land (Z.shiftr b k) 1 = (b / 2 ^ k) mod 2) as e.
  { intros k hk. change 1 with (Z.ones 1). rewrite Z.land_ones, Z.shiftr_div_pow2 by lia. reflexivity. }
  assert (forall k, 0 <= k -> i8 (Z.land (Z.shiftr b k) 1) = (b / 2 ^ k) mod 2) as e'.
  { intros k hk. rewrite e by exact hk. apply i8_small. pose proof (Z.mod_pos_bound (b / 2 ^ k) 2 ltac:(lia)). lia. }
  subst r. cbn [map]. rewrite !e' by lia. split.
  - assert (forall x, bit (x mod 2)) as hb by (intro x; unfold bit; pose proof (Z.mod_pos_bound x 2 ltac:(lia)); lia).
    repeat (apply Forall_cons; [apply hb|]). constructor.
  - cbn [dval]. change (2 ^ 0) with 1. change (2 ^ 1) with 2. change (2 ^ 2) with 4. change (2 ^ 3) with 8. change (2 ^ 4) with 16.
    change (2 ^ 5) with 32. change (2 ^ 6) with 64. change (2 ^ 7) with 128. Z.to_euclidean_division_equations. lia.
Qed.

Lemma slide_bits_spec s : bytes 32 s -> Forall bit (slide_bits s) /\ length (slide_bits s) = 256%nat /\ dval 2 (slide_bits s) = le_val s.
Proof.
  intros [hl hs]. unfold slide_bits.
  assert (forall n k, (k + n <= 32)%nat -> let r := flat_map (fun i => map (fun k => i8 (Z.land (Z.shiftr (at_ s i) k) 1)) [0; 1; 2; 3; 4; 5; 6; 7]) (seq k n) in
    Forall bit r /\ length r = (8 * n)%nat /\ dval 2 r = le_val (map (at_ s) (seq k n))) as H.
  { induction n as [|n IH]; intros k hk; [repeat split; constructor|]. cbn [seq flat_map].
    change (map (at_ s) (k :: seq (S k) n)) with (at_ s k :: map (at_ s) (seq (S k) n)). cbn [le_val].
    assert (0 <= at_ s k < 256) as hb.
    { rewrite Forall_forall in hs. apply hs. unfold at_. apply nth_In. lia. }
    destruct (byte_bits (at_ s k) hb) as [h1 h2]. destruct (IH (S k) ltac:(lia)) as (h3 & h4 & h5). split; [apply Forall_app; split; assumption|].
    split; [rewrite app_length, h4, map_length; cbn [length]; lia|]. rewrite dval_app, h2, h5, map_length. cbn [length]. change (2 ^ Z.of_nat 8) with 256. ring. }
  destruct (H 32%nat 0%nat ltac:(lia)) as (h1 & h2 & h3). split; [exact h1|]. split; [exact h2|]. rewrite h3. f_equal.
  rewrite <- hl. unfold at_. clear. induction s as [|x s IH]; [reflexivity|]. cbn [length seq map nth]. f_equal.
  rewrite <- seq_shift, map_map. exact IH.
Qed.

Lemma cs_slide_spec s w : bytes 32 s -> 2 <= w ->
  let r := cs_slide s w in
  length r = 256%nat /\
  (forall i, at_ r i = 0 \/ (Z.odd (at_ r i) = true /\ Z.abs (at_ r i) < 2 ^ (w - 1) /\ -64 < at_ r i < 128)) /\
  (forall i k, at_ r i <> 0 -> (i < k)%nat -> Z.of_nat k < Z.of_nat i + Z.min w 7 -> at_ r k = 0) /\
  (dval 2 r = le_val s \/ dval 2 r = le_val s - 2 ^ 256) /\
  (le_val s < 2 ^ 255 -> dval 2 r = le_val s).
Proof.
  intros hs hw r. destruct (slide_bits_spec s hs) as (b1 & b2 & b3).
  assert (inv w (le_val s) 256 r) as (pre & suf & hr & hp & hl & _ & hd & hsp & hv & hV).
  { unfold r, cs_slide. rewrite Z.shiftl_1_l. apply (for_up_inv (inv w (le_val s))).
    - exists [], (slide_bits s). split; [reflexivity|]. split; [reflexivity|]. split; [rewrite b2; reflexivity|]. split; [exact b1|].
      split; [constructor|]. split; [intros; lia|]. split; [left; exact b3|]. intro h. split; [exact b3|]. intros _. rewrite b3. cbn [Z.of_nat]. lia.
    - intros j y hj hi. apply inv_step; assumption. }
  assert (suf = []) as -> by (apply length_zero_iff_nil; lia). rewrite app_nil_r in hr. rewrite hr in *.
  split; [exact hp|]. split.
  { intro i. destruct (Nat.lt_ge_cases i (length pre)) as [h|h].
    - rewrite Forall_forall in hd. apply hd. apply nth_In, h.
    - left. unfold at_. apply nth_overflow, h. }
  split.
  { intros i k hi hik hk. apply (hsp i k); auto. destruct (Nat.lt_ge_cases i 256) as [h|h]; [exact h|].
    exfalso. apply hi. unfold at_. apply nth_overflow. lia. }
  split; [destruct hv as [hv|[hv _]]; [left|right]; exact hv|]. intro h. exact (proj1 (hV h)).
Qed.
