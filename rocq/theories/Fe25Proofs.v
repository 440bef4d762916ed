(** Correctness of the 10-limb signed radix-2^25.5 code (Fe25Code.v) over the integers. *)
From Coq Require Import ZArith List Lia Bool Ring.
From Verif Require Import Words WordsTac BitFold Fe51Proofs Fe25Code.
Import ListNotations.
Open Scope Z_scope.

(** the value of ten coefficients: weights 2^0, 2^26, 2^51, 2^77, 2^102, 2^128, 2^153, 2^179, 2^204, 2^230 *)
Definition v10 (h0 h1 h2 h3 h4 h5 h6 h7 h8 h9 : Z) : Z :=
  h0 + 67108864 * h1 + 2251799813685248 * h2 + 151115727451828646838272 * h3
  + 5070602400912917605986812821504 * h4 + 340282366920938463463374607431768211456 * h5
  + 11417981541647679048466287755595961091061972992 * h6
  + 766247770432944429179173513575154591809369561091801088 * h7
  + 25711008708143844408671393477458601640355247900524685364822016 * h8
  + 1725436586697640946858688965569256363112777243042596638790631055949824 * h9.
Definition v25 (x : fe25) : Z :=
  match x with Fe25 h0 h1 h2 h3 h4 h5 h6 h7 h8 h9 => v10 h0 h1 h2 h3 h4 h5 h6 h7 h8 h9 end.

(** even coefficients at most [e] and odd ones at most [o] in absolute value *)
Definition bnd25 (e o : Z) (x : fe25) : Prop :=
  match x with Fe25 h0 h1 h2 h3 h4 h5 h6 h7 h8 h9 =>
    (- e <= h0 <= e) /\ (- o <= h1 <= o) /\ (- e <= h2 <= e) /\ (- o <= h3 <= o) /\ (- e <= h4 <= e) /\
    (- o <= h5 <= o) /\ (- e <= h6 <= e) /\ (- o <= h7 <= o) /\ (- e <= h8 <= e) /\ (- o <= h9 <= o) end.

Lemma bnd25_le e o e' o' x : e <= e' -> o <= o' -> bnd25 e o x -> bnd25 e' o' x.
Proof. destruct x; unfold bnd25; lia. Qed.

(** a carry rounded to nearest, int64 *)
Lemma step_round {B : Type} (P : B -> Prop) (body : Z -> Z -> Z -> B) x y k r l1 h1 l2 h2 cl ch yl yh :
  l1 <= x <= h1 -> l2 <= y <= h2 ->
  (0 <? k) && (r =? 2 ^ (k - 1)) && (-9223372036854775808 <=? l1 - r) && (h1 + r <? 9223372036854775808)
    && (-9223372036854775808 <=? yl) && (yh <? 9223372036854775808) = true ->
  (l1 + r) / 2 ^ k = cl -> (h1 + r) / 2 ^ k = ch -> l2 + cl = yl -> h2 + ch = yh ->
  (forall c y' x', cl <= c <= ch -> y' = y + c -> yl <= y' <= yh -> x' = x - 2 ^ k * c -> - r <= x' <= r - 1 -> P (body c y' x')) ->
  P (let c := Z.shiftr (i64 (x + r)) k in
     let y' := i64 (y + c) in
     let x' := i64 (x - i64 (Z.shiftl c k)) in body c y' x').
Proof.
  intros hx hy hb e1 e2 e3 e4 H. rewrite !andb_true_iff in hb. destruct hb as (((((h3 & h4) & h5) & h6) & h7) & h8).
  apply Z.ltb_lt in h3, h6, h8. apply Z.leb_le in h5, h7. apply Z.eqb_eq in h4.
  assert (hp : 2 ^ k = 2 * r) by (rewrite h4; replace k with (1 + (k - 1)) at 1 by lia; rewrite Z.pow_add_r by lia; reflexivity).
  assert (hr : 0 < r) by (rewrite h4; apply Z.pow_pos_nonneg; lia).
  rewrite (i64_small (x + r)) by lia. rewrite Z.shiftr_div_pow2 by lia. cbv zeta.
  set (c := (x + r) / 2 ^ k). assert (hc : cl <= c <= ch) by (subst cl ch; unfold c; split; apply Z.div_le_mono; lia).
  assert (hq : 2 ^ k * c <= x + r < 2 ^ k * c + 2 ^ k).
  { unfold c. pose proof (Z.div_mod (x + r) (2 ^ k) ltac:(lia)). pose proof (Z.mod_pos_bound (x + r) (2 ^ k) ltac:(lia)). lia. }
  rewrite Z.shiftl_mul_pow2 by lia. rewrite (i64_small (y + c)) by lia. rewrite (Z.mul_comm c).
  rewrite (i64_small (2 ^ k * c)) by lia. rewrite i64_small by lia.
  apply H; try reflexivity; lia.
Qed.

(** the carry from the top coefficient, times 19 to the bottom one *)
Lemma step_wrap {B : Type} (P : B -> Prop) (body : Z -> Z -> Z -> B) x y k r l1 h1 l2 h2 cl ch yl yh :
  l1 <= x <= h1 -> l2 <= y <= h2 ->
  (0 <? k) && (r =? 2 ^ (k - 1)) && (-9223372036854775808 <=? l1 - r) && (h1 + r <? 9223372036854775808)
    && (-9223372036854775808 <=? yl) && (yh <? 9223372036854775808)
    && (-9223372036854775808 <=? cl * 19) && (ch * 19 <? 9223372036854775808) = true ->
  (l1 + r) / 2 ^ k = cl -> (h1 + r) / 2 ^ k = ch -> l2 + cl * 19 = yl -> h2 + ch * 19 = yh ->
  (forall c y' x', cl <= c <= ch -> y' = y + c * 19 -> yl <= y' <= yh -> x' = x - 2 ^ k * c -> - r <= x' <= r - 1 -> P (body c y' x')) ->
  P (let c := Z.shiftr (i64 (x + r)) k in
     let y' := i64 (y + i64 (c * 19)) in
     let x' := i64 (x - i64 (Z.shiftl c k)) in body c y' x').
Proof.
  intros hx hy hb e1 e2 e3 e4 H. rewrite !andb_true_iff in hb. destruct hb as (((((((h3 & h4) & h5) & h6) & h7) & h8) & h9) & h10).
  apply Z.ltb_lt in h3, h6, h8, h10. apply Z.leb_le in h5, h7, h9. apply Z.eqb_eq in h4.
  assert (hp : 2 ^ k = 2 * r) by (rewrite h4; replace k with (1 + (k - 1)) at 1 by lia; rewrite Z.pow_add_r by lia; reflexivity).
  assert (hr : 0 < r) by (rewrite h4; apply Z.pow_pos_nonneg; lia).
  rewrite (i64_small (x + r)) by lia. rewrite Z.shiftr_div_pow2 by lia. cbv zeta.
  set (c := (x + r) / 2 ^ k). assert (hc : cl <= c <= ch) by (subst cl ch; unfold c; split; apply Z.div_le_mono; lia).
  assert (hq : 2 ^ k * c <= x + r < 2 ^ k * c + 2 ^ k).
  { unfold c. pose proof (Z.div_mod (x + r) (2 ^ k) ltac:(lia)). pose proof (Z.mod_pos_bound (x + r) (2 ^ k) ltac:(lia)). lia. }
  rewrite Z.shiftl_mul_pow2 by lia. rewrite (i64_small (c * 19)), (i64_small (y + _)) by lia. rewrite (Z.mul_comm c (2 ^ k)).
  rewrite (i64_small (2 ^ k * c)) by lia. rewrite i64_small by lia.
  apply H; try reflexivity; lia.
Qed.

Ltac round_step :=
  lazymatch goal with
  | |- ?P (let c := Z.shiftr (i64 (?x + ?r)) ?k in let y' := i64 (?y + c) in let x' := i64 (?x - i64 (Z.shiftl c ?k)) in @?body c y' x') =>
    match goal with hx : ?l1 <= x <= ?h1, hy : ?l2 <= y <= ?h2 |- _ =>
      simple refine (step_round P body x y k r l1 h1 l2 h2 _ _ _ _ hx hy _ _ _ _ _ _);
      [shelve | shelve | shelve | shelve | | ev_eq | ev_eq | ev_eq | ev_eq |]; [ev_chk | ];
      clear hx hy; intros ? ? ? ? ? ? ? ?; cbv beta
    end
  | |- ?P (let c := Z.shiftr (i64 (?x + ?r)) ?k in let y' := i64 (?y + i64 (c * 19)) in let x' := i64 (?x - i64 (Z.shiftl c ?k)) in @?body c y' x') =>
    match goal with hx : ?l1 <= x <= ?h1, hy : ?l2 <= y <= ?h2 |- _ =>
      simple refine (step_wrap P body x y k r l1 h1 l2 h2 _ _ _ _ hx hy _ _ _ _ _ _);
      [shelve | shelve | shelve | shelve | | ev_eq | ev_eq | ev_eq | ev_eq |]; [ev_chk | ];
      clear hx hy; intros ? ? ? ? ? ? ? ?; cbv beta
    end
  end.

Lemma g25_setReduced_ok h0 h1 h2 h3 h4 h5 h6 h7 h8 h9 : let M := 9000000000000000000 in
  - M <= h0 <= M -> - M <= h1 <= M -> - M <= h2 <= M -> - M <= h3 <= M -> - M <= h4 <= M ->
  - M <= h5 <= M -> - M <= h6 <= M -> - M <= h7 <= M -> - M <= h8 <= M -> - M <= h9 <= M ->
  bnd25 33554432 16944988 (g25_setReduced h0 h1 h2 h3 h4 h5 h6 h7 h8 h9) /\
  (exists k, v25 (g25_setReduced h0 h1 h2 h3 h4 h5 h6 h7 h8 h9) = v10 h0 h1 h2 h3 h4 h5 h6 h7 h8 h9 + P25519 * k).
Proof.
  cbv zeta. change (- (9000000000000000000)) with (-9000000000000000000). intros.
  ev_open g25_setReduced (g25_setReduced h0 h1 h2 h3 h4 h5 h6 h7 h8 h9).
  do 12 round_step.
  repeat ev_step. subst PP. cbv beta. refine (conj _ _).
  - unfold bnd25. change (- (33554432)) with (-33554432). change (- (16944988)) with (-16944988). refine (conj _ (conj _ (conj _ (conj _ (conj _ (conj _ (conj _ (conj _ (conj _ _))))))))); bnd.
  - match goal with H : _ = _ + ?c * 19 |- _ => exists (- c) end. unfold P25519, v25, v10. subst. ring.
Qed.

Ltac unb25 := repeat match goal with H : bnd25 _ _ (Fe25 _ _ _ _ _ _ _ _ _ _) |- _ => destruct H as (? & ? & ? & ? & ? & ? & ? & ? & ? & ?) end.
Ltac pack25 := refine (conj _ (conj _ (conj _ (conj _ (conj _ (conj _ (conj _ (conj _ (conj _ _))))))))).

(** apply the reduction to computed coefficients *)
Ltac reduce25 :=
  lazymatch goal with |- ?P (g25_setReduced ?h0 ?h1 ?h2 ?h3 ?h4 ?h5 ?h6 ?h7 ?h8 ?h9) =>
    let K := fresh "K" in
    assert (K : bnd25 33554432 16944988 (g25_setReduced h0 h1 h2 h3 h4 h5 h6 h7 h8 h9) /\
      (exists k, v25 (g25_setReduced h0 h1 h2 h3 h4 h5 h6 h7 h8 h9) = v10 h0 h1 h2 h3 h4 h5 h6 h7 h8 h9 + P25519 * k))
    by (apply g25_setReduced_ok; bnd)
  end.

Lemma g25_mul_ok a b : bnd25 268435456 268435456 a -> bnd25 113025455 113025455 b ->
  bnd25 33554432 16944988 (g25_mul a b) /\ (exists k, v25 a * v25 b = v25 (g25_mul a b) + P25519 * k).
Proof.
  destruct a as [a0 a1 a2 a3 a4 a5 a6 a7 a8 a9], b as [b0 b1 b2 b3 b4 b5 b6 b7 b8 b9]. intros ha hb. 
  unfold bnd25 in ha, hb. change (- (268435456)) with (-268435456) in ha. change (- (113025455)) with (-113025455) in hb.
  destruct ha as (? & ? & ? & ? & ? & ? & ? & ? & ? & ?), hb as (? & ? & ? & ? & ? & ? & ? & ? & ? & ?).
  ev_open g25_mul (g25_mul (Fe25 a0 a1 a2 a3 a4 a5 a6 a7 a8 a9) (Fe25 b0 b1 b2 b3 b4 b5 b6 b7 b8 b9)).
  repeat ev_step. reduce25. subst PP. cbv beta. destruct K as [h1 [k hk]]. refine (conj h1 _).
  exists ((1*(2*a1*b9+a2*b8+2*a3*b7+a4*b6+2*a5*b5+a6*b4+2*a7*b3+a8*b2+2*a9*b1)+67108864*(a2*b9+a3*b8+a4*b7+a5*b6+a6*b5+a7*b4+a8*b3+a9*b2)+2251799813685248*(2*a3*b9+a4*b8+2*a5*b7+a6*b6+2*a7*b5+a8*b4+2*a9*b3)+151115727451828646838272*(a4*b9+a5*b8+a6*b7+a7*b6+a8*b5+a9*b4)+5070602400912917605986812821504*(2*a5*b9+a6*b8+2*a7*b7+a8*b6+2*a9*b5)+340282366920938463463374607431768211456*(a6*b9+a7*b8+a8*b7+a9*b6)+11417981541647679048466287755595961091061972992*(2*a7*b9+a8*b8+2*a9*b7)+766247770432944429179173513575154591809369561091801088*(a8*b9+a9*b8)+25711008708143844408671393477458601640355247900524685364822016*(2*a9*b9)) - k). rewrite hk. clear hk h1. unfold v25, v10, P25519. subst. ring.
Qed.


Lemma g25_squareRaw_ok a : bnd25 134217728 134217728 a ->
  match g25_squareRaw a with H10 h0 h1 h2 h3 h4 h5 h6 h7 h8 h9 =>
    ((-9000000000000000000 <= h0 <= 9000000000000000000) /\ (-9000000000000000000 <= h1 <= 9000000000000000000) /\ (-9000000000000000000 <= h2 <= 9000000000000000000) /\ (-9000000000000000000 <= h3 <= 9000000000000000000) /\
     (-9000000000000000000 <= h4 <= 9000000000000000000) /\ (-9000000000000000000 <= h5 <= 9000000000000000000) /\ (-9000000000000000000 <= h6 <= 9000000000000000000) /\ (-9000000000000000000 <= h7 <= 9000000000000000000) /\
     (-9000000000000000000 <= h8 <= 9000000000000000000) /\ (-9000000000000000000 <= h9 <= 9000000000000000000)) /\
    (exists k, v25 a * v25 a = v10 h0 h1 h2 h3 h4 h5 h6 h7 h8 h9 + P25519 * k) end.
Proof.
  destruct a as [a0 a1 a2 a3 a4 a5 a6 a7 a8 a9]. intros ha. unfold bnd25 in ha. change (- (134217728)) with (-134217728) in ha.
  destruct ha as (? & ? & ? & ? & ? & ? & ? & ? & ? & ?).
  ev_open g25_squareRaw (g25_squareRaw (Fe25 a0 a1 a2 a3 a4 a5 a6 a7 a8 a9)).
  repeat ev_step. subst PP. cbv beta iota. refine (conj _ _).
  - pack25; bnd.
  - exists (1*(2*a1*a9+a2*a8+2*a3*a7+a4*a6+2*a5*a5+a6*a4+2*a7*a3+a8*a2+2*a9*a1)+67108864*(a2*a9+a3*a8+a4*a7+a5*a6+a6*a5+a7*a4+a8*a3+a9*a2)+2251799813685248*(2*a3*a9+a4*a8+2*a5*a7+a6*a6+2*a7*a5+a8*a4+2*a9*a3)+151115727451828646838272*(a4*a9+a5*a8+a6*a7+a7*a6+a8*a5+a9*a4)+5070602400912917605986812821504*(2*a5*a9+a6*a8+2*a7*a7+a8*a6+2*a9*a5)+340282366920938463463374607431768211456*(a6*a9+a7*a8+a8*a7+a9*a6)+11417981541647679048466287755595961091061972992*(2*a7*a9+a8*a8+2*a9*a7)+766247770432944429179173513575154591809369561091801088*(a8*a9+a9*a8)+25711008708143844408671393477458601640355247900524685364822016*(2*a9*a9)). unfold v25, v10, P25519. subst. ring.
Qed.

Lemma g25_squareRaw_ok2 a : bnd25 129000000 129000000 a ->
  match g25_squareRaw a with H10 h0 h1 h2 h3 h4 h5 h6 h7 h8 h9 =>
    ((-4500000000000000000 <= h0 <= 4500000000000000000) /\ (-4500000000000000000 <= h1 <= 4500000000000000000) /\ (-4500000000000000000 <= h2 <= 4500000000000000000) /\ (-4500000000000000000 <= h3 <= 4500000000000000000) /\
     (-4500000000000000000 <= h4 <= 4500000000000000000) /\ (-4500000000000000000 <= h5 <= 4500000000000000000) /\ (-4500000000000000000 <= h6 <= 4500000000000000000) /\ (-4500000000000000000 <= h7 <= 4500000000000000000) /\
     (-4500000000000000000 <= h8 <= 4500000000000000000) /\ (-4500000000000000000 <= h9 <= 4500000000000000000)) /\
    (exists k, v25 a * v25 a = v10 h0 h1 h2 h3 h4 h5 h6 h7 h8 h9 + P25519 * k) end.
Proof.
  destruct a as [a0 a1 a2 a3 a4 a5 a6 a7 a8 a9]. intros ha. unfold bnd25 in ha. change (- (129000000)) with (-129000000) in ha.
  destruct ha as (? & ? & ? & ? & ? & ? & ? & ? & ? & ?).
  ev_open g25_squareRaw (g25_squareRaw (Fe25 a0 a1 a2 a3 a4 a5 a6 a7 a8 a9)).
  repeat ev_step. subst PP. cbv beta iota. refine (conj _ _).
  - pack25; bnd.
  - exists (1*(2*a1*a9+a2*a8+2*a3*a7+a4*a6+2*a5*a5+a6*a4+2*a7*a3+a8*a2+2*a9*a1)+67108864*(a2*a9+a3*a8+a4*a7+a5*a6+a6*a5+a7*a4+a8*a3+a9*a2)+2251799813685248*(2*a3*a9+a4*a8+2*a5*a7+a6*a6+2*a7*a5+a8*a4+2*a9*a3)+151115727451828646838272*(a4*a9+a5*a8+a6*a7+a7*a6+a8*a5+a9*a4)+5070602400912917605986812821504*(2*a5*a9+a6*a8+2*a7*a7+a8*a6+2*a9*a5)+340282366920938463463374607431768211456*(a6*a9+a7*a8+a8*a7+a9*a6)+11417981541647679048466287755595961091061972992*(2*a7*a9+a8*a8+2*a9*a7)+766247770432944429179173513575154591809369561091801088*(a8*a9+a9*a8)+25711008708143844408671393477458601640355247900524685364822016*(2*a9*a9)). unfold v25, v10, P25519. subst. ring.
Qed.

Lemma g25_square_ok a : bnd25 134217728 134217728 a ->
  bnd25 33554432 16944988 (g25_square a) /\ (exists k, v25 a * v25 a = v25 (g25_square a) + P25519 * k).
Proof.
  intros ha. pose proof (g25_squareRaw_ok a ha) as hr. destruct a as [a0 a1 a2 a3 a4 a5 a6 a7 a8 a9].
  ev_open g25_square (g25_square (Fe25 a0 a1 a2 a3 a4 a5 a6 a7 a8 a9)).
  destruct (g25_squareRaw _) as [h0 h1 h2 h3 h4 h5 h6 h7 h8 h9].
  destruct hr as [(? & ? & ? & ? & ? & ? & ? & ? & ? & ?) [k hk]].
  repeat ev_step. reduce25. subst PP. cbv beta. destruct K as [h1' [k' hk']]. refine (conj h1' _).
  exists (k - k'). rewrite hk', hk. subst. unfold v10, P25519. ring.
Qed.

Lemma g25_doubledSquare_ok a : bnd25 129000000 129000000 a ->
  bnd25 33554432 16944988 (g25_doubledSquare a) /\
  (exists k, 2 * (v25 a * v25 a) = v25 (g25_doubledSquare a) + P25519 * k).
Proof.
  intros ha. pose proof (g25_squareRaw_ok2 a ha) as hr. destruct a as [a0 a1 a2 a3 a4 a5 a6 a7 a8 a9].
  ev_open g25_doubledSquare (g25_doubledSquare (Fe25 a0 a1 a2 a3 a4 a5 a6 a7 a8 a9)).
  destruct (g25_squareRaw _) as [h0 h1 h2 h3 h4 h5 h6 h7 h8 h9].
  destruct hr as [(? & ? & ? & ? & ? & ? & ? & ? & ? & ?) [k hk]].
  repeat ev_step. reduce25. subst PP. cbv beta. destruct K as [h1' [k' hk']]. refine (conj h1' _).
  exists (2 * k - k'). rewrite hk', hk. subst. unfold v10, P25519. ring.
Qed.

(** ** Negation, addition, subtraction, normalisation and conditional assignment *)

Lemma i32_range x : - 2147483648 <= x <= 2147483647 -> i32 x = x.
Proof. intro. apply i32_small. lia. Qed.

Lemma g25_neg_ok e o x : bnd25 e o x -> e <= 2147483647 -> o <= 2147483647 ->
  bnd25 e o (g25_neg x) /\ v25 (g25_neg x) = - v25 x.
Proof.
  destruct x as [x0 x1 x2 x3 x4 x5 x6 x7 x8 x9]. unfold bnd25, g25_neg, v25, v10. cbv zeta. intros h he ho.
  rewrite !i32_range by lia. split; lia.
Qed.

Lemma g25_add_ok e o e' o' x y : bnd25 e o x -> bnd25 e' o' y -> e + e' <= 2147483647 -> o + o' <= 2147483647 ->
  bnd25 (e + e') (o + o') (g25_add x y) /\ v25 (g25_add x y) = v25 x + v25 y.
Proof.
  destruct x as [x0 x1 x2 x3 x4 x5 x6 x7 x8 x9], y as [y0 y1 y2 y3 y4 y5 y6 y7 y8 y9].
  unfold bnd25, g25_add, v25, v10. cbv zeta. intros h h' he ho.
  rewrite !i32_range by lia. split; lia.
Qed.

Lemma g25_sub_ok e o e' o' x y : bnd25 e o x -> bnd25 e' o' y -> e + e' <= 2147483647 -> o + o' <= 2147483647 ->
  bnd25 (e + e') (o + o') (g25_sub x y) /\ v25 (g25_sub x y) = v25 x - v25 y.
Proof.
  destruct x as [x0 x1 x2 x3 x4 x5 x6 x7 x8 x9], y as [y0 y1 y2 y3 y4 y5 y6 y7 y8 y9].
  unfold bnd25, g25_sub, v25, v10. cbv zeta. intros h h' he ho.
  rewrite !i32_range by lia. split; lia.
Qed.

Lemma g25_normalize_ok x : bnd25 2147483648 2147483648 x ->
  bnd25 33554432 16944988 (g25_normalize x) /\ (exists k, v25 (g25_normalize x) = v25 x + P25519 * k).
Proof.
  destruct x as [x0 x1 x2 x3 x4 x5 x6 x7 x8 x9]. intros (? & ? & ? & ? & ? & ? & ? & ? & ? & ?).
  apply g25_setReduced_ok; lia.
Qed.

Lemma lxor_sel1 x y : Z.lxor x (Z.land (-1) (Z.lxor x y)) = y.
Proof. rewrite Z.land_m1_l, <- Z.lxor_assoc, Z.lxor_nilpotent, Z.lxor_0_l. reflexivity. Qed.
Lemma lxor_sel0 x y : Z.lxor x (Z.land 0 (Z.lxor x y)) = x.
Proof. rewrite Z.land_0_l, Z.lxor_0_r. reflexivity. Qed.

Lemma g25_condSet_ok x y b : g25_condSet x y (Z.b2z b) = if b then y else x.
Proof.
  destruct x as [x0 x1 x2 x3 x4 x5 x6 x7 x8 x9], y as [y0 y1 y2 y3 y4 y5 y6 y7 y8 y9].
  unfold g25_condSet. cbv zeta. destruct b.
  - change (i32 (- Z.b2z true)) with (-1). rewrite !lxor_sel1. reflexivity.
  - change (i32 (- Z.b2z false)) with 0. rewrite !lxor_sel0. reflexivity.
Qed.

(** ** SetBytes *)

Lemma g25_setBytes_ok s : bytes 32 s ->
  bnd25 33554432 16944988 (g25_setBytes s) /\
  (exists k, v25 (g25_setBytes s) = le_val s mod 2 ^ 255 + P25519 * k).
Proof.
  intro hs. split_bytes hs.
  match goal with |- context [g25_setBytes ?s] => set (x := s) at 1 2 end.
  match goal with |- context [g25_setBytes ?s] => pattern (g25_setBytes s) end.
  match goal with |- ?P _ => set (PP := P) end. subst x.
  match goal with |- _ ?t => let y := eval cbv beta iota zeta delta [g25_setBytes g_load3 g_load4 at_ nth skipn] in t in change (PP y) end.
  match goal with |- PP (g25_setReduced ?h0 ?h1 ?h2 ?h3 ?h4 ?h5 ?h6 ?h7 ?h8 ?h9) =>
    change (PP (let a0 := h0 in let a1 := h1 in let a2 := h2 in let a3 := h3 in let a4 := h4 in
     let a5 := h5 in let a6 := h6 in let a7 := h7 in let a8 := h8 in let a9 := h9 in g25_setReduced a0 a1 a2 a3 a4 a5 a6 a7 a8 a9)) end.
  repeat ev_step. reduce25. subst PP. cbv beta. destruct K as [h1' [k' hk']]. refine (conj h1' _). exists k'. rewrite hk'.
  f_equal. clear h1' hk'.
  match goal with |- ?v = _ => assert (0 <= v < 2 ^ 255) as hr by (unfold v10; change (2 ^ 255) with 57896044618658097711785492504343953926634992332820282019728792003956564819968; lia) end.
  rewrite <- (Z.mod_small _ _ hr). symmetry. clear hr.
  match goal with H : context [_ - 8388608 * ?q] |- _ => set (qq := q) in *; clearbody qq end.
  match goal with |- ?a mod _ = ?b mod _ => replace a with (b + qq * 2 ^ 255) end.
  - apply Z.mod_add. discriminate.
  - cbn [le_val]; unfold v10; subst. change (2 ^ 255) with 57896044618658097711785492504343953926634992332820282019728792003956564819968. ring.
Qed.

(** ** BytesInto *)

(** a carry rounded down, int32 *)
Lemma step_floor {B : Type} (P : B -> Prop) (body : Z -> Z -> Z -> B) x y k m l1 h1 l2 h2 cl ch yl yh :
  l1 <= x <= h1 -> l2 <= y <= h2 -> 2 ^ k = m ->
  (0 <? k) && (-2147483648 <=? l1 - m) && (h1 + m <? 2147483648)
    && (-2147483648 <=? yl) && (yh <? 2147483648) = true ->
  l1 / m = cl -> h1 / m = ch -> l2 + cl = yl -> h2 + ch = yh ->
  (forall c y' x', cl <= c <= ch -> y' = y + c -> yl <= y' <= yh -> x' = x - m * c -> 0 <= x' <= m - 1 -> P (body c y' x')) ->
  P (let c := Z.shiftr x k in
     let y' := i32 (y + c) in
     let x' := i32 (x - i32 (Z.shiftl c k)) in body c y' x').
Proof.
  intros hx hy em hb e1 e2 e3 e4 H. rewrite !andb_true_iff in hb. destruct hb as ((((h3 & h5) & h6) & h7) & h8).
  apply Z.ltb_lt in h3, h6, h8. apply Z.leb_le in h5, h7.
  assert (hr : 0 < m) by (rewrite <- em; apply Z.pow_pos_nonneg; lia).
  rewrite Z.shiftr_div_pow2 by lia. rewrite em. cbv zeta.
  set (c := x / m). assert (hc : cl <= c <= ch) by (subst cl ch; unfold c; split; apply Z.div_le_mono; lia).
  assert (hq : m * c <= x < m * c + m).
  { unfold c. pose proof (Z.div_mod x m ltac:(lia)). pose proof (Z.mod_pos_bound x m ltac:(lia)). lia. }
  rewrite Z.shiftl_mul_pow2 by lia. rewrite em. rewrite (i32_range (y + c)) by lia. rewrite (Z.mul_comm c).
  rewrite (i32_range (m * c)) by lia. rewrite i32_range by lia.
  apply H; try reflexivity; lia.
Qed.

(** the last carry, which is dropped *)
Lemma step_floor_last {B : Type} (P : B -> Prop) (body : Z -> Z -> B) x k m l1 h1 :
  l1 <= x <= h1 -> 2 ^ k = m ->
  (0 <? k) && (-2147483648 <=? l1 - m) && (h1 + m <? 2147483648) = true ->
  (forall c x', x' = x - m * c -> 0 <= x' <= m - 1 -> P (body c x')) ->
  P (let c := Z.shiftr x k in let x' := i32 (x - i32 (Z.shiftl c k)) in body c x').
Proof.
  intros hx em hb H. rewrite !andb_true_iff in hb. destruct hb as ((h3 & h5) & h6).
  apply Z.ltb_lt in h3, h6. apply Z.leb_le in h5.
  assert (hr : 0 < m) by (rewrite <- em; apply Z.pow_pos_nonneg; lia).
  rewrite Z.shiftr_div_pow2 by lia. rewrite em. cbv zeta. set (c := x / m).
  assert (hq : m * c <= x < m * c + m).
  { unfold c. pose proof (Z.div_mod x m ltac:(lia)). pose proof (Z.mod_pos_bound x m ltac:(lia)). lia. }
  rewrite Z.shiftl_mul_pow2 by lia. rewrite em. rewrite (Z.mul_comm c).
  rewrite (i32_range (m * c)) by lia. rewrite i32_range by lia.
  apply H; try reflexivity; lia.
Qed.

Ltac floor_step :=
  lazymatch goal with
  | |- ?P (let c := Z.shiftr ?x ?k in let y' := i32 (?y + c) in let x' := i32 (?x - i32 (Z.shiftl c ?k)) in @?body c y' x') =>
    match goal with hx : ?l1 <= x <= ?h1, hy : ?l2 <= y <= ?h2 |- _ =>
      let m := eval vm_compute in (2 ^ k) in
      simple refine (step_floor P body x y k m l1 h1 l2 h2 _ _ _ _ hx hy eq_refl _ _ _ _ _ _);
      [shelve | shelve | shelve | shelve | | ev_eq | ev_eq | ev_eq | ev_eq |]; [ev_chk | ];
      clear hx hy; intros ? ? ? ? ? ? ? ?; cbv beta
    end
  | |- ?P (let c := Z.shiftr ?x ?k in let x' := i32 (?x - i32 (Z.shiftl c ?k)) in @?body c x') =>
    match goal with hx : ?l1 <= x <= ?h1 |- _ =>
      let m := eval vm_compute in (2 ^ k) in
      refine (step_floor_last P body x k m l1 h1 hx eq_refl _ _); [ev_chk | clear hx; intros ? ? ? ?; cbv beta ]
    end
  end.

(** a whole byte of a limb *)
Lemma step_byte1 {B : Type} (P : B -> Prop) (body : Z -> B) a k c :
  2 ^ k = c -> (0 <=? k) = true ->
  (forall s, s = a / c - 256 * (a / c / 256) -> 0 <= s <= 255 -> P (body s)) ->
  P (let s := u8 (Z.shiftr a k) in body s).
Proof.
  intros <- hk H. apply Z.leb_le in hk. cbv zeta. rewrite Z.shiftr_div_pow2 by lia. apply H.
  - unfold u8. rewrite Z.mod_eq by lia. reflexivity.
  - pose proof (Z.mod_pos_bound (a / 2 ^ k) 256 ltac:(lia)). unfold u8. lia.
Qed.

Lemma i32_mod256 x : i32 x mod 256 = x mod 256.
Proof.
  unfold i32. rewrite (Z.mod_eq (x + 2147483648) 4294967296) by lia.
  replace (x + 2147483648 - 4294967296 * ((x + 2147483648) / 4294967296) - 2147483648)
    with (x + (- 16777216 * ((x + 2147483648) / 4294967296)) * 256) by ring.
  apply Z.mod_add. lia.
Qed.

Lemma lor_mod256 x y : Z.lor x y mod 256 = Z.lor (x mod 256) (y mod 256).
Proof.
  change 256 with (2 ^ 8). rewrite <- !Z.land_ones by lia. apply Z.land_lor_distr_l.
Qed.

(** a byte made of the top bits of one limb and the bottom bits of the next *)
Lemma step_byte2 {B : Type} (P : B -> Prop) (body : Z -> B) a b s k c d e h :
  0 <= a <= h -> 2 ^ s = c -> 2 ^ k = d -> 2 ^ (8 - k) = e ->
  (0 <=? s) && (0 <=? k) && (k <=? 8) && (h <? c * d) = true ->
  (forall x, x = a / c + d * b - 256 * (b / e) -> 0 <= x <= 255 -> P (body x)) ->
  P (let x := u8 (Z.lor (Z.shiftr a s) (i32 (Z.shiftl b k))) in body x).
Proof.
  intros ha ec ed ee hb H. rewrite !andb_true_iff in hb. destruct hb as (((h1 & h2) & h3) & h4).
  apply Z.leb_le in h1, h2, h3. apply Z.ltb_lt in h4.
  assert (0 < c) by (rewrite <- ec; apply Z.pow_pos_nonneg; lia).
  assert (0 < d) by (rewrite <- ed; apply Z.pow_pos_nonneg; lia).
  assert (0 < e) by (rewrite <- ee; apply Z.pow_pos_nonneg; lia).
  assert (hde : e * d = 256) by (rewrite <- ed, <- ee, <- Z.pow_add_r by lia; replace (8 - k + k) with 8 by lia; reflexivity).
  assert (hac : 0 <= a / c < d) by (split; [apply Z.div_pos; lia | apply Z.div_lt_upper_bound; lia]).
  assert (hdd : d <= 256) by nia.
  assert (hbe : 0 <= b mod e < e) by (apply Z.mod_pos_bound; lia).
  cbv zeta. rewrite Z.shiftr_div_pow2, ec by lia. rewrite Z.shiftl_mul_pow2, ed by lia.
  assert (E : u8 (Z.lor (a / c) (i32 (b * d))) = a / c + d * b - 256 * (b / e)).
  { unfold u8. rewrite lor_mod256, i32_mod256. rewrite (Z.mod_small (a / c)) by lia.
    rewrite <- hde at 1. rewrite Z.mul_mod_distr_r by lia. rewrite <- ed at 1. rewrite lor_disjoint by lia. rewrite ed.
    rewrite <- hde. rewrite (Z.mod_eq b e) by lia. ring. }
  rewrite E. apply H; [reflexivity|].
  replace (a / c + d * b - 256 * (b / e)) with (a / c + d * (b mod e)) by (rewrite (Z.mod_eq b e), <- hde by lia; ring). nia.
Qed.

Ltac byte_step :=
  lazymatch goal with
  | |- ?P (let s := u8 (Z.shiftr ?a ?k) in @?body s) =>
      let c := eval vm_compute in (2 ^ k) in
      refine (step_byte1 P body a k c eq_refl eq_refl _); intros ? ? ?; cbv beta
  | |- ?P (let x := u8 (Z.lor (Z.shiftr ?a ?s) (i32 (Z.shiftl ?b ?k))) in @?body x) =>
    match goal with ha : 0 <= a <= ?h |- _ =>
      let c := eval vm_compute in (2 ^ s) in
      let d := eval vm_compute in (2 ^ k) in
      let e := eval vm_compute in (2 ^ (8 - k)) in
      refine (step_byte2 P body a b s k c d e h ha eq_refl eq_refl eq_refl _ _); [ev_chk | intros ? ? ?; cbv beta]
    end
  end.

Definition T255 : Z := 57896044618658097711785492504343953926634992332820282019728792003956564819968.

(** the quotient by 2^255 - 19, estimated from the top coefficient *)
Lemma g25_quotient r x9 x q v : v = r + 1725436586697640946858688965569256363112777243042596638790631055949824 * x9 ->
  - 3450873173395281893717377931138512726225554486085193277581262111899648 <= r <= 3450873173395281893717377931138512726225554486085193277581262111899648 ->
  33554432 * x <= 19 * x9 + 16777216 < 33554432 * x + 33554432 ->
  T255 * q <= v + x < T255 * q + T255 -> -2 <= q <= 1 -> P25519 * q <= v < P25519 * q + P25519.
Proof.
  unfold T255, P25519. intros -> hr hx hq hq2.
  assert (q = -2 \/ q = -1 \/ q = 0 \/ q = 1) as [-> | [-> | [-> | ->]]] by lia; lia.
Qed.

Lemma g25_bytes_ok x : bnd25 101669928 50834964 x ->
  fst (g25_bytes x) = le_bytes 32 (v25 x mod P25519) /\
  v25 (snd (g25_bytes x)) = v25 x mod P25519 /\ bnd25 67108863 33554431 (snd (g25_bytes x)).
Proof.
  destruct x as [x0 x1 x2 x3 x4 x5 x6 x7 x8 x9]. intros ha.
  unfold bnd25 in ha. change (- (101669928)) with (-101669928) in ha. change (- (50834964)) with (-50834964) in ha.
  destruct ha as (? & ? & ? & ? & ? & ? & ? & ? & ? & ?).
  remember (v25 (Fe25 x0 x1 x2 x3 x4 x5 x6 x7 x8 x9)) as v eqn:ev_.
  ev_open g25_bytes (g25_bytes (Fe25 x0 x1 x2 x3 x4 x5 x6 x7 x8 x9)).
  do 11 ev_step.
  match goal with hx : ?x = (19 * x9 + 16777216) / 33554432, hq : ?q = (x9 + _) / 33554432 |- _ =>
    assert (hm : P25519 * q <= v < P25519 * q + P25519) end.
  { clear PP. subst v.
    match goal with hx : ?x = (19 * x9 + 16777216) / 33554432, hq : ?q = (x9 + _) / 33554432 |- _ =>
      apply (g25_quotient (v10 x0 x1 x2 x3 x4 x5 x6 x7 x8 0) x9 x q) end.
    - unfold v25, v10. ring.
    - unfold v10. clear - H H0 H1 H2 H3 H4 H5 H6 H7. lia.
    - match goal with hx : ?x = (19 * x9 + 16777216) / 33554432 |- 33554432 * ?x <= _ < _ => rewrite hx at 1 2 end.
      apply quot_bnd. reflexivity.
    - quot_facts. clear H H0 H1 H2 H3 H4 H5 H6 H7 H8 H10 H12 H14 H16 H18 H20 H22 H24 H26 H28 H30. subst. unfold v25, v10, T255. lia.
    - assumption. }
  match goal with hx : ?x = (19 * x9 + 16777216) / 33554432, hq : ?q = (x9 + _) / 33554432, hb : _ <= ?q <= _ |- _ =>
    revert hm; revert q hq hb end.
  intros q _ hq hm. clear H9 H10 x H11 H12 x10 H13 H14 x11 H15 H16 x12 H17 H18 x13 H19 H20 x14 H21 H22 x15 H23 H24 x16 H25 H26 x17 H27 H28 x18.
  ev_step. do 10 floor_step.
  assert (hv : v25 (Fe25 x' x'0 x'1 x'2 x'3 x'4 x'5 x'6 x'7 x'8) = v mod P25519).
  { clear PP.
    assert (E : v25 (Fe25 x' x'0 x'1 x'2 x'3 x'4 x'5 x'6 x'7 x'8) = v + 19 * q - T255 * c8) by (subst; unfold v25, v10, T255; ring).
    assert (R : 0 <= v25 (Fe25 x' x'0 x'1 x'2 x'3 x'4 x'5 x'6 x'7 x'8) < T255) by (clear ev_ E hm; unfold v25, v10, T255; lia).
    revert E R. generalize (v25 (Fe25 x' x'0 x'1 x'2 x'3 x'4 x'5 x'6 x'7 x'8)). intros w E R. clear -hm E R.
    assert (c8 = q) as -> by (unfold P25519, T255 in *; lia).
    apply (Z.mod_unique _ _ q); unfold P25519, T255 in *; lia. }
  do 32 byte_step. subst PP. cbv beta. cbn [fst snd]. rewrite <- hv. refine (conj _ (conj eq_refl _)).
  2: { unfold bnd25. clear ev_. pack25; lia. }
  clear hm hv.
  match goal with |- ?l = _ =>
    assert (hb : Forall is_byte l) by
      (repeat (constructor; [unfold is_byte; match goal with |- 0 <= ?x < 256 => assert (0 <= x <= 255) by bnd end; lia |]); constructor);
    change l with (id l); rewrite <- (le_bytes_le_val l hb : le_bytes 32 (le_val l) = l); unfold id
  end.
  f_equal. clear hb. merge_quots. rewrite !Z.div_1_r in *.
  rewrite (Z.div_small x'3 67108864) in * by lia. rewrite (Z.div_small x'8 67108864) in * by lia.
  clear_quots. cbn [le_val]. unfold v25, v10. subst. ring.
Qed.
