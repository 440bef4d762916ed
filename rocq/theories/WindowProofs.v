(** The signed digit recodings computeScalarWindow5, computeScalarWindow4 and
    computeScalar5NAF represent the scalar. *)
From Coq Require Import ZArith List Lia Bool.
From Verif Require Import Words WordsTac FieldModel CurveModel BitFold.
Import ListNotations.
Open Scope Z_scope.

(** value of a digit string, least significant digit first *)
Fixpoint dval (B : Z) (w : list Z) : Z :=
  match w with
  | [] => 0
  | d :: t => d + B * dval B t
  end.

Lemma dval_app B u v : dval B (u ++ v) = dval B u + B ^ Z.of_nat (length u) * dval B v.
Proof.
  induction u as [|d u IH]; [cbn [app dval length]; change (Z.of_nat 0) with 0; rewrite Z.pow_0_r; lia|].
  cbn [app dval length]. rewrite IH, Nat2Z.inj_succ, Z.pow_succ_r by lia. ring.
Qed.

Lemma upd_length {A} (w : list A) i x : length (upd w i x) = length w.
Proof. revert i. induction w as [|d w IH]; intros [|i]; cbn; auto. Qed.

Lemma nth_upd_eq {A} (w : list A) i x d : (i < length w)%nat -> nth i (upd w i x) d = x.
Proof. revert i. induction w as [|y w IH]; intros [|i] h; cbn in *; try lia; auto. apply IH. lia. Qed.

Lemma nth_upd_neq {A} (w : list A) i j x d : i <> j -> nth j (upd w i x) d = nth j w d.
Proof.
  revert i j. induction w as [|y w IH]; intros [|i] [|j] h; cbn; try reflexivity; try congruence.
  apply IH. congruence.
Qed.

Lemma dval_upd B w i x : (i < length w)%nat -> dval B (upd w i x) = dval B w + (x - at_ w i) * B ^ Z.of_nat i.
Proof.
  revert i. induction w as [|y w IH]; intros [|i] h; cbn [length] in h; try lia.
  - cbn. lia.
  - cbn [upd dval]. rewrite IH by lia. unfold at_. cbn [nth]. rewrite Nat2Z.inj_succ, Z.pow_succ_r by lia. ring.
Qed.

Lemma at_upd_eq w i x : (i < length w)%nat -> at_ (upd w i x) i = x.
Proof. apply nth_upd_eq. Qed.
Lemma at_upd_neq w i j x : i <> j -> at_ (upd w i x) j = at_ w j.
Proof. apply nth_upd_neq. Qed.

Lemma lxor_disj k x y : 0 <= k -> 0 <= x < 2 ^ k -> 0 <= y -> Z.lxor x (2 ^ k * y) = x + 2 ^ k * y.
Proof.
  intros hk hx hy. symmetry. apply Z.add_nocarry_lxor.
  apply Z.bits_inj'. intros n hn. rewrite Z.land_spec, Z.bits_0.
  destruct (Z.lt_ge_cases n k) as [h|h].
  - rewrite Z.mul_comm, Z.mul_pow2_bits_low by lia. apply andb_false_r.
  - replace (Z.testbit x n) with false; [reflexivity|]. symmetry.
    destruct (Z.eq_dec x 0) as [->|]; [apply Z.bits_0|]. apply Z.bits_above_log2; [lia|].
    apply Z.lt_le_trans with k; [|exact h]. apply Z.log2_lt_pow2; lia.
Qed.

Lemma land31 x : Z.land x 31 = x mod 32.
Proof. change 31 with (Z.ones 5). rewrite Z.land_ones by lia. reflexivity. Qed.
Lemma land15 x : Z.land x 15 = x mod 16.
Proof. change 15 with (Z.ones 4). rewrite Z.land_ones by lia. reflexivity. Qed.
Lemma shr x k : 0 <= k -> Z.shiftr x k = x / 2 ^ k.
Proof. apply Z.shiftr_div_pow2. Qed.

(** the part of byte [b] that goes into the upper bits of a digit *)
Lemma hi_part b k : 0 <= k <= 5 -> i8 (Z.land (u8 (Z.shiftl b k)) 31) = 2 ^ k * (b mod 2 ^ (5 - k)).
Proof.
  intro hk. rewrite land31, Z.shiftl_mul_pow2 by lia. unfold u8.
  assert (E : (b * 2 ^ k) mod 256 mod 32 = 2 ^ k * (b mod 2 ^ (5 - k))).
  { rewrite <- Znumtheory.Zmod_div_mod; [|lia|lia|exists 8; reflexivity].
    rewrite (Z.mul_comm b). replace 32 with (2 ^ k * 2 ^ (5 - k)) by (rewrite <- Z.pow_add_r by lia; replace (k + (5 - k)) with 5 by lia; reflexivity).
    rewrite Z.mul_mod_distr_l; [reflexivity| |]; pose proof (Z.pow_pos_nonneg 2 (5 - k)); pose proof (Z.pow_pos_nonneg 2 k); lia. }
  rewrite i8_small; [exact E|].
  pose proof (Z.mod_pos_bound ((b * 2 ^ k) mod 256) 32 ltac:(lia)). lia.
Qed.

Lemma lo_part b k : is_byte b -> 0 <= k <= 7 -> i8 (Z.land (Z.shiftr b k) 31) = (b / 2 ^ k) mod 32.
Proof.
  intros hb hk. rewrite land31, shr by lia. apply i8_small.
  pose proof (Z.mod_pos_bound (b / 2 ^ k) 32 ltac:(lia)). lia.
Qed.

Lemma mid_part a b k m : is_byte a -> is_byte b -> 4 <= k <= 7 -> m = 8 - k ->
  Z.lxor (i8 (Z.land (Z.shiftr a k) 31)) (i8 (Z.land (u8 (Z.shiftl b m)) 31))
  = a / 2 ^ k + 2 ^ (8 - k) * (b mod 2 ^ (k - 3)).
Proof.
  intros ha hb hk ->. rewrite lo_part, hi_part by (auto; lia).
  assert (hq : 0 <= a / 2 ^ k < 2 ^ (8 - k)).
  { pose proof (Z.pow_pos_nonneg 2 k ltac:(lia) ltac:(lia)). unfold is_byte in ha.
    split; [apply Z.div_pos; lia|]. apply Z.div_lt_upper_bound; [lia|]. rewrite <- Z.pow_add_r by lia.
    replace (k + (8 - k)) with 8 by lia. change (2 ^ 8) with 256. lia. }
  assert (2 ^ (8 - k) <= 16) by (change 16 with (2 ^ 4); apply Z.pow_le_mono_r; lia).
  rewrite (Z.mod_small (a / 2 ^ k)) by lia.
  replace (5 - (8 - k)) with (k - 3) by lia.
  apply lxor_disj; [lia | exact hq |]. apply Z.mod_pos_bound. apply Z.pow_pos_nonneg; lia.
Qed.

Definition grp5 (a b c d e : Z) : list Z :=
  let shl x k := u8 (Z.shiftl x k) in
  [ i8 (Z.land a 31);
    Z.lxor (i8 (Z.land (Z.shiftr a 5) 31)) (i8 (Z.land (shl b 3) 31));
    i8 (Z.land (Z.shiftr b 2) 31);
    Z.lxor (i8 (Z.land (Z.shiftr b 7) 31)) (i8 (Z.land (shl c 1) 31));
    Z.lxor (i8 (Z.land (Z.shiftr c 4) 31)) (i8 (Z.land (shl d 4) 31));
    i8 (Z.land (Z.shiftr d 1) 31);
    Z.lxor (i8 (Z.land (Z.shiftr d 6) 31)) (i8 (Z.land (shl e 2) 31));
    i8 (Z.land (Z.shiftr e 3) 31) ].

Definition tail5 (a b : Z) : list Z :=
  [ i8 (Z.land a 31);
    Z.lxor (i8 (Z.land (Z.shiftr a 5) 31)) (i8 (Z.land (u8 (Z.shiftl b 3)) 31));
    i8 (Z.land (Z.shiftr b 2) 31) ].

Definition digits_in (lo hi : Z) (w : list Z) : Prop := Forall (fun d => lo <= d <= hi) w.

Ltac divfacts :=
  repeat match goal with
  | |- context [?x / ?n] => lazymatch n with Zpos _ => idtac end;
      let q := fresh "q" in let Hq := fresh "Hq" in
      pose proof (Z.div_mod x n ltac:(lia)); pose proof (Z.mod_pos_bound x n ltac:(lia));
      set (q := x / n) in *; clearbody q
  | |- context [?x mod ?n] => lazymatch n with Zpos _ => idtac end;
      pose proof (Z.div_mod x n ltac:(lia)); pose proof (Z.mod_pos_bound x n ltac:(lia));
      let q := fresh "q" in set (q := x mod n) in *; clearbody q
  end.

Lemma byte_split b n : 0 < n -> is_byte b -> exists q r, b = n * q + r /\ 0 <= r < n /\ 0 <= q /\ n * q <= 255.
Proof.
  intros hn hb. exists (b / n), (b mod n). pose proof (Z.div_mod b n ltac:(lia)). pose proof (Z.mod_pos_bound b n hn).
  unfold is_byte in hb. assert (0 <= b / n) by (apply Z.div_pos; lia). lia.
Qed.

Lemma i8_land31 a : i8 (Z.land a 31) = a mod 32.
Proof. rewrite land31. apply i8_small. pose proof (Z.mod_pos_bound a 32 ltac:(lia)). lia. Qed.

Lemma grp5_ok a b c d e : is_byte a -> is_byte b -> is_byte c -> is_byte d -> is_byte e ->
  digits_in 0 31 (grp5 a b c d e) /\ dval 32 (grp5 a b c d e) = a + 256 * b + 65536 * c + 16777216 * d + 4294967296 * e.
Proof.
  intros ha hb hc hd he. unfold grp5. cbv zeta.
  rewrite (mid_part a b 5 3), (mid_part b c 7 1), (mid_part c d 4 4), (mid_part d e 6 2) by (auto; lia).
  rewrite !i8_land31, !shr by lia.
  change (2 ^ (5 - 3)) with 4. change (2 ^ (8 - 5)) with 8. change (2 ^ (7 - 3)) with 16. change (2 ^ (8 - 7)) with 2.
  change (2 ^ (4 - 3)) with 2. change (2 ^ (8 - 4)) with 16. change (2 ^ (6 - 3)) with 8. change (2 ^ (8 - 6)) with 4.
  change (2 ^ 5) with 32. change (2 ^ 2) with 4. change (2 ^ 7) with 128. change (2 ^ 4) with 16. change (2 ^ 1) with 2.
  change (2 ^ 6) with 64. change (2 ^ 3) with 8. unfold is_byte in *.
  split.
  - unfold digits_in. repeat (apply Forall_cons || apply Forall_nil); Z.to_euclidean_division_equations; lia.
  - cbn [dval]. Z.to_euclidean_division_equations. lia.
Qed.

Lemma tail5_ok a b : is_byte a -> is_byte b ->
  digits_in 0 31 (tail5 a b) /\ dval 32 (tail5 a b) = (a + 256 * b) mod 32768 /\ at_ (tail5 a b) 2 = (b / 4) mod 32.
Proof.
  intros ha hb. unfold tail5.
  rewrite (mid_part a b 5 3) by (auto; lia). rewrite !i8_land31, !shr by lia.
  change (2 ^ (5 - 3)) with 4. change (2 ^ (8 - 5)) with 8. change (2 ^ 5) with 32. change (2 ^ 2) with 4.
  unfold is_byte in *.
  split; [|split].
  - unfold digits_in. repeat (apply Forall_cons || apply Forall_nil); Z.to_euclidean_division_equations; lia.
  - cbn [dval]. Z.to_euclidean_division_equations. lia.
  - reflexivity.
Qed.

Lemma window5_raw_eq s : window5_raw s =
  grp5 (at_ s 0) (at_ s 1) (at_ s 2) (at_ s 3) (at_ s 4) ++
  grp5 (at_ s 5) (at_ s 6) (at_ s 7) (at_ s 8) (at_ s 9) ++
  grp5 (at_ s 10) (at_ s 11) (at_ s 12) (at_ s 13) (at_ s 14) ++
  grp5 (at_ s 15) (at_ s 16) (at_ s 17) (at_ s 18) (at_ s 19) ++
  grp5 (at_ s 20) (at_ s 21) (at_ s 22) (at_ s 23) (at_ s 24) ++
  grp5 (at_ s 25) (at_ s 26) (at_ s 27) (at_ s 28) (at_ s 29) ++
  tail5 (at_ s 30) (at_ s 31).
Proof. reflexivity. Qed.

Lemma at_byte n s i : bytes n s -> is_byte (at_ s i).
Proof.
  intros [hl hf]. unfold at_. destruct (Nat.lt_ge_cases i (length s)) as [h|h].
  - rewrite Forall_forall in hf. apply hf, nth_In, h.
  - rewrite nth_overflow by exact h. unfold is_byte. lia.
Qed.

Lemma digits_in_app lo hi u v : digits_in lo hi u -> digits_in lo hi v -> digits_in lo hi (u ++ v).
Proof. intros hu hv. apply Forall_app. auto. Qed.

Lemma window5_raw_ok s : bytes 32 s ->
  length (window5_raw s) = 51%nat /\ digits_in 0 31 (window5_raw s) /\
  dval 32 (window5_raw s) = le_val s mod 2 ^ 255 /\ at_ (window5_raw s) 50 = at_ s 31 / 4 mod 32.
Proof.
  intro hs. rewrite window5_raw_eq.
  assert (hb : forall i, is_byte (at_ s i)) by (intro; eapply at_byte; eassumption).
  destruct (grp5_ok (at_ s 0) (at_ s 1) (at_ s 2) (at_ s 3) (at_ s 4)) as [r0 v0]; try apply hb.
  destruct (grp5_ok (at_ s 5) (at_ s 6) (at_ s 7) (at_ s 8) (at_ s 9)) as [r1 v1]; try apply hb.
  destruct (grp5_ok (at_ s 10) (at_ s 11) (at_ s 12) (at_ s 13) (at_ s 14)) as [r2 v2]; try apply hb.
  destruct (grp5_ok (at_ s 15) (at_ s 16) (at_ s 17) (at_ s 18) (at_ s 19)) as [r3 v3]; try apply hb.
  destruct (grp5_ok (at_ s 20) (at_ s 21) (at_ s 22) (at_ s 23) (at_ s 24)) as [r4 v4]; try apply hb.
  destruct (grp5_ok (at_ s 25) (at_ s 26) (at_ s 27) (at_ s 28) (at_ s 29)) as [r5 v5]; try apply hb.
  destruct (tail5_ok (at_ s 30) (at_ s 31)) as [r6 [v6 w6]]; try apply hb.
  split; [reflexivity|]. split; [repeat (apply digits_in_app; [assumption|]); assumption|].
  split; [|exact w6].
  rewrite !dval_app, v0, v1, v2, v3, v4, v5, v6.
  change (length (grp5 _ _ _ _ _)) with 8%nat. change (32 ^ Z.of_nat 8) with 1099511627776.
  clear -hs. destruct hs as [hl hf].
  do 32 (destruct s as [|? s]; [discriminate hl|]). destruct s; [|discriminate hl]. clear hl.
  unfold at_. cbn [nth].
  match goal with |- _ = le_val [?a0;?a1;?a2;?a3;?a4;?a5;?a6;?a7;?a8;?a9;?a10;?a11;?a12;?a13;?a14;?a15;?a16;?a17;?a18;?a19;?a20;?a21;?a22;?a23;?a24;?a25;?a26;?a27;?a28;?a29;?a30;?a31] mod _ =>
    set (lo := [a0;a1;a2;a3;a4;a5;a6;a7;a8;a9;a10;a11;a12;a13;a14;a15;a16;a17;a18;a19;a20;a21;a22;a23;a24;a25;a26;a27;a28;a29]);
    assert (hlo : Forall is_byte lo) by (apply (Forall_app is_byte lo [a30; a31]); exact hf);
    change (le_val [a0;a1;a2;a3;a4;a5;a6;a7;a8;a9;a10;a11;a12;a13;a14;a15;a16;a17;a18;a19;a20;a21;a22;a23;a24;a25;a26;a27;a28;a29;a30;a31]) with (le_val (lo ++ [a30; a31]));
    rewrite le_val_app; pose proof (le_val_range lo hlo) as hr;
    transitivity (le_val lo + 256 ^ 30 * ((a30 + 256 * a31) mod 32768));
    [unfold lo; cbn [le_val]; change (256 ^ 30) with 1766847064778384329583297500742918515827483896875618958121606201292619776; lia|];
    change (Z.of_nat (length lo)) with 30 in *; replace (le_val [a30; a31]) with (a30 + 256 * a31) by (cbn [le_val]; ring);
    generalize (a30 + 256 * a31) end.
  intro t. change (2 ^ 255) with (256 ^ 30 * 32768). generalize dependent (le_val lo). intros w hw.
  rewrite Z.rem_mul_r by lia. rewrite Z.add_mod, (Z.mul_comm _ t), Z_mod_mult, Z.add_0_r, Z.mod_mod, (Z.mod_small w) by lia.
  rewrite Z.div_add, Z.div_small, Z.add_0_l by lia. reflexivity.
Qed.

Lemma digits_at lo hi w i : lo <= 0 <= hi -> digits_in lo hi w -> lo <= at_ w i <= hi.
Proof.
  intros h hw. unfold at_. destruct (Nat.lt_ge_cases i (length w)) as [hi'|hi'].
  - unfold digits_in in hw. rewrite Forall_forall in hw. apply hw, nth_In, hi'.
  - rewrite nth_overflow by exact hi'. lia.
Qed.

Lemma i8_sm x : -128 <= x < 128 -> i8 x = x.
Proof. intro h. unfold i8. rewrite Z.mod_small; lia. Qed.

Lemma digits_in_iff lo hi w : digits_in lo hi w <-> forall i, (i < length w)%nat -> lo <= at_ w i <= hi.
Proof.
  unfold digits_in, at_. rewrite Forall_forall. split.
  - intros h i hi'. apply h, nth_In, hi'.
  - intros h x hx. apply In_nth with (d := 0) in hx. destruct hx as [i [hi' <-]]. apply h, hi'.
Qed.

(** one step of the loop *)
Lemma window5_step_ok raw k w c : length w = 51%nat -> (k < 50)%nat -> digits_in 0 31 raw -> length raw = 51%nat ->
  0 <= c <= 1 -> 0 <= at_ w k -> at_ w k + c <= at_ raw k + 1 ->
  (forall i, (k < i)%nat -> at_ w i = at_ raw i) ->
  let '(w', c') := window5_step k (w, c) in
  length w' = 51%nat /\ 0 <= c' <= 1 /\ -16 <= at_ w' k <= 15 /\
  (forall i, (i < k)%nat -> at_ w' i = at_ w i) /\
  0 <= at_ w' (k + 1) /\ at_ w' (k + 1) + c' <= at_ raw (k + 1) + 1 /\
  (forall i, (k + 1 < i)%nat -> at_ w' i = at_ raw i) /\
  dval 32 w' + c' * 32 ^ Z.of_nat (k + 1) = dval 32 w + c * 32 ^ Z.of_nat k.
Proof.
  intros hl hk hr hlr hc h0 h1 hrest. unfold window5_step. cbv zeta.
  assert (rr : forall i, 0 <= at_ raw i <= 31) by (intro; apply digits_at; [lia|exact hr]).
  pose proof (rr k) as rk. pose proof (rr (k + 1)%nat) as rk1.
  rewrite (i8_sm (at_ w k + c)) by lia.
  set (a := at_ w k + c) in *. assert (ha : 0 <= a <= 32) by lia.
  set (w1 := upd w k a). assert (l1 : length w1 = 51%nat) by (unfold w1; rewrite upd_length; exact hl).
  assert (A1 : at_ w1 k = a) by (unfold w1; apply at_upd_eq; lia). rewrite !A1.
  assert (A2 : at_ w1 (k + 1) = at_ raw (k + 1)) by (unfold w1; rewrite at_upd_neq by lia; apply hrest; lia). rewrite A2.
  rewrite (shr a) by lia. change (2 ^ 5) with 32.
  assert (hq : 0 <= a / 32 <= 1) by (clear -ha; Z.to_euclidean_division_equations; lia).
  rewrite i8_sm by lia.
  set (n := at_ raw (k + 1) + a / 32).
  set (w2 := upd w1 (k + 1) n). assert (l2 : length w2 = 51%nat) by (unfold w2; rewrite upd_length; exact l1).
  assert (A3 : at_ w2 k = a) by (unfold w2; rewrite at_upd_neq by lia; exact A1).
  assert (A4 : at_ w2 (k + 1) = n) by (unfold w2; apply at_upd_eq; lia).
  rewrite A3, land31.
  set (b := a mod 32). assert (hb : 0 <= b <= 31) by (subst b; clear -ha; Z.to_euclidean_division_equations; lia).
  set (w3 := upd w2 k b). assert (l3 : length w3 = 51%nat) by (unfold w3; rewrite upd_length; exact l2).
  assert (A5 : at_ w3 k = b) by (unfold w3; apply at_upd_eq; lia). rewrite !A5.
  rewrite shr by lia. change (2 ^ 4) with 16.
  set (c' := b / 16). assert (hc' : 0 <= c' <= 1 /\ -16 <= b - 32 * c' <= 15) by (subst c'; clear -hb; Z.to_euclidean_division_equations; lia).
  rewrite Z.shiftl_mul_pow2 by lia. change (2 ^ 5) with 32.
  rewrite (i8_sm (c' * 32)) by lia. rewrite i8_sm by lia.
  set (w4 := upd w3 k (b - c' * 32)). assert (l4 : length w4 = 51%nat) by (unfold w4; rewrite upd_length; exact l3).
  assert (A6 : at_ w4 k = b - c' * 32) by (unfold w4; apply at_upd_eq; lia).
  assert (A7 : at_ w4 (k + 1) = n) by (unfold w4, w3; rewrite !at_upd_neq by lia; exact A4).
  assert (A8 : forall i, i <> k -> i <> (k + 1)%nat -> at_ w4 i = at_ w i).
  { intros i u v. unfold w4, w3, w2, w1. rewrite !at_upd_neq by lia. reflexivity. }
  split; [exact l4|]. split; [lia|]. split; [rewrite A6; lia|]. split; [intros; apply A8; lia|].
  rewrite A7. split; [unfold n; lia|]. split; [|split].
  - (* a carry out only if the digit kept room *)
    unfold n, c', b. clear -ha h1 rk. Z.to_euclidean_division_equations; lia.
  - intros i hi. rewrite A8 by lia. apply hrest. lia.
  - unfold w4. rewrite dval_upd by lia. unfold w3 at 1. rewrite dval_upd by lia. unfold w2 at 1. rewrite dval_upd by lia.
    unfold w1 at 1. rewrite dval_upd by lia. rewrite A5, A3, A2.
    replace (Z.of_nat (k + 1)) with (Z.succ (Z.of_nat k)) by lia. rewrite Z.pow_succ_r by lia.
    assert (E : b = a - 32 * (a / 32)) by (unfold b; pose proof (Z.div_mod a 32 ltac:(lia)); lia).
    assert (E' : at_ w k = a - c) by (unfold a; ring). assert (E'' : n = at_ raw (k + 1) + a / 32) by reflexivity.
    rewrite E', E''. clearbody b c'. rewrite E. ring.
Qed.

Definition w5inv raw k (st : list Z * Z) : Prop :=
  let '(w, c) := st in
  length w = 51%nat /\ 0 <= c <= 1 /\ (forall i, (i < k)%nat -> -16 <= at_ w i <= 15) /\
  0 <= at_ w k /\ at_ w k + c <= at_ raw k + 1 /\ (forall i, (k < i)%nat -> at_ w i = at_ raw i) /\
  dval 32 w + c * 32 ^ Z.of_nat k = dval 32 raw.

Lemma window5_loop_ok raw k : digits_in 0 31 raw -> length raw = 51%nat -> (k <= 50)%nat ->
  w5inv raw k (for_up k window5_step (raw, 0)).
Proof.
  intros hr hl. induction k as [|k IH]; intro hk.
  - cbn [for_up w5inv]. pose proof (digits_at 0 31 raw 0 ltac:(lia) hr).
    repeat split; try lia; try reflexivity; intros; try lia.
  - cbn [for_up]. specialize (IH ltac:(lia)). destruct (for_up k window5_step (raw, 0)) as [w c].
    cbn [w5inv] in IH. destruct IH as (a1 & a2 & a3 & a4 & a5 & a6 & a7).
    pose proof (window5_step_ok raw k w c a1 ltac:(lia) hr hl a2 a4 a5 a6) as h.
    destruct (window5_step k (w, c)) as [w' c']. destruct h as (b1 & b2 & b3 & b4 & b5 & b6 & b7 & b8).
    replace (k + 1)%nat with (S k) in * by lia. cbn [w5inv].
    split; [exact b1|]. split; [exact b2|]. split; [|split; [exact b5|split; [exact b6|split; [exact b7|congruence]]]].
    intros i hi. destruct (Nat.eq_dec i k) as [->|]; [exact b3|]. rewrite b4 by lia. apply a3. lia.
Qed.

(** computeScalarWindow5: for a scalar below 2^254 the 51 digits are in [-16, 16] and
    represent it in base 32 *)
Theorem computeScalarWindow5_ok s : bytes 32 s -> le_val s < 2 ^ 254 ->
  length (computeScalarWindow5 s) = 51%nat /\ digits_in (-16) 16 (computeScalarWindow5 s) /\
  dval 32 (computeScalarWindow5 s) = le_val s.
Proof.
  intros hs hv. destruct (window5_raw_ok s hs) as (l0 & r0 & v0 & t0).
  pose proof (window5_loop_ok (window5_raw s) 50 r0 l0 ltac:(lia)) as h.
  unfold computeScalarWindow5. destruct (for_up 50 window5_step (window5_raw s, 0)) as [w c].
  cbn [w5inv] in h. destruct h as (a1 & a2 & a3 & a4 & a5 & a6 & a7).
  assert (hv0 : 0 <= le_val s) by (apply le_val_range, hs).
  assert (ht : at_ (window5_raw s) 50 <= 15).
  { rewrite t0. assert (at_ s 31 < 64).
    { destruct hs as [hl hf]. clear -hl hf hv.
      assert (E : s = firstn 31 s ++ [at_ s 31]).
      { do 32 (destruct s as [|? s]; [discriminate hl|]). destruct s; [reflexivity|discriminate hl]. }
      assert (hf' : Forall is_byte (firstn 31 s)) by (rewrite E in hf; apply Forall_app in hf; apply hf).
      pose proof (le_val_range _ hf') as hr. rewrite E, le_val_app in hv. cbn [le_val] in hv.
      rewrite firstn_length, hl in hv. change (Z.of_nat (Nat.min 31 32)) with 31 in hv.
      change (2 ^ 254) with (256 ^ 31 * 64) in hv. nia. }
    pose proof (at_byte _ s 31 hs) as hb. unfold is_byte in hb. clear -H hb. Z.to_euclidean_division_equations; lia. }
  rewrite i8_sm by lia. split; [rewrite upd_length; exact a1|]. split.
  - apply digits_in_iff. intros i hi. rewrite upd_length, a1 in hi.
    destruct (Nat.eq_dec i 50) as [->|]; [rewrite at_upd_eq by lia; lia|].
    rewrite at_upd_neq by lia. specialize (a3 i ltac:(lia)). lia.
  - rewrite dval_upd by lia. rewrite Z.mod_small in v0 by lia. lia.
Qed.

(** * computeScalarWindow4 *)
Lemma window4_raw_ok s : bytes 32 s ->
  length (window4_raw s) = 64%nat /\ digits_in 0 15 (window4_raw s) /\
  dval 16 (window4_raw s) = le_val s /\ at_ (window4_raw s) 63 = at_ s 31 / 16.
Proof.
  intro hs.
  assert (E : forall i, [ i8 (Z.land (at_ s i) 15); i8 (Z.land (Z.shiftr (at_ s i) 4) 15) ] = [at_ s i mod 16; at_ s i / 16]
              /\ 0 <= at_ s i < 256).
  { intro i. pose proof (at_byte _ s i hs) as hb. unfold is_byte in hb. rewrite !land15, shr by lia. change (2 ^ 4) with 16.
    split; [|exact hb]. generalize dependent (at_ s i). intros b hb. f_equal; [|f_equal].
    - apply i8_sm. Z.to_euclidean_division_equations; lia.
    - rewrite i8_sm; Z.to_euclidean_division_equations; lia. }
  assert (E2 : window4_raw s = flat_map (fun i => [at_ s i mod 16; at_ s i / 16]) (seq 0 32)).
  { unfold window4_raw. apply flat_map_ext. intro i. apply E. }
  rewrite E2. split; [reflexivity|]. split.
  - unfold digits_in. apply Forall_forall. intros x hx. apply in_flat_map in hx. destruct hx as [i [_ hx]].
    destruct (E i) as [_ hb]. set (b := at_ s i) in *. clearbody b. clear -hx hb. cbn [In] in hx. destruct hx as [<-|[<-|[]]];
    Z.to_euclidean_division_equations; lia.
  - split; [|reflexivity].
    assert (G : forall n k, dval 16 (flat_map (fun i => [at_ s i mod 16; at_ s i / 16]) (seq k n)) = le_val (map (at_ s) (seq k n))).
    { induction n as [|n IH]; intro k; [reflexivity|]. cbn [seq flat_map app map dval le_val]. rewrite IH.
      pose proof (Z.div_mod (at_ s k) 16 ltac:(lia)). lia. }
    rewrite G. f_equal. destruct hs as [hl _].
    do 32 (destruct s as [|? s]; [discriminate hl|]). destruct s; [reflexivity|discriminate hl].
Qed.

Lemma window4_step_ok raw k w c : length w = 64%nat -> (k < 64)%nat -> digits_in 0 15 raw ->
  0 <= c <= 1 -> (forall i, (k <= i)%nat -> at_ w i = at_ raw i) ->
  let '(w', c') := window4_step k (w, c) in
  length w' = 64%nat /\ 0 <= c' <= 1 /\ -8 <= at_ w' k <= 7 /\
  (forall i, (i < k)%nat -> at_ w' i = at_ w i) /\
  (forall i, (k < i)%nat -> at_ w' i = at_ raw i) /\
  dval 16 w' + c' * 16 ^ Z.of_nat (k + 1) = dval 16 w + c * 16 ^ Z.of_nat k.
Proof.
  intros hl hk hr hc hrest. unfold window4_step. cbv zeta.
  pose proof (digits_at 0 15 raw k ltac:(lia) hr) as rk. rewrite (hrest k) by lia.
  rewrite (i8_sm (at_ raw k + c)) by lia.
  set (a := at_ raw k + c) in *. assert (ha : 0 <= a <= 16) by lia.
  set (w1 := upd w k a). assert (l1 : length w1 = 64%nat) by (unfold w1; rewrite upd_length; exact hl).
  assert (A1 : at_ w1 k = a) by (unfold w1; apply at_upd_eq; lia). rewrite !A1.
  rewrite (i8_sm (a + 8)) by lia. rewrite shr by lia. change (2 ^ 4) with 16.
  set (c' := (a + 8) / 16). assert (hc' : 0 <= c' <= 1 /\ -8 <= a - 16 * c' <= 7) by (subst c'; clear -ha; Z.to_euclidean_division_equations; lia).
  rewrite Z.shiftl_mul_pow2 by lia. change (2 ^ 4) with 16.
  rewrite (i8_sm (c' * 16)) by lia. rewrite i8_sm by lia.
  split; [rewrite upd_length; exact l1|]. split; [lia|]. split; [rewrite at_upd_eq by lia; lia|].
  split; [intros; unfold w1; rewrite !at_upd_neq by lia; reflexivity|].
  split; [intros; unfold w1; rewrite !at_upd_neq by lia; apply hrest; lia|].
  rewrite dval_upd by lia. rewrite A1. unfold w1. rewrite dval_upd by lia. rewrite (hrest k) by lia.
  replace (Z.of_nat (k + 1)) with (Z.succ (Z.of_nat k)) by lia. rewrite Z.pow_succ_r by lia. subst a. ring.
Qed.

Definition w4inv raw k (st : list Z * Z) : Prop :=
  let '(w, c) := st in
  length w = 64%nat /\ 0 <= c <= 1 /\ (forall i, (i < k)%nat -> -8 <= at_ w i <= 7) /\
  (forall i, (k <= i)%nat -> at_ w i = at_ raw i) /\
  dval 16 w + c * 16 ^ Z.of_nat k = dval 16 raw.

Lemma window4_loop_ok raw k : digits_in 0 15 raw -> length raw = 64%nat -> (k <= 63)%nat ->
  w4inv raw k (for_up k window4_step (raw, 0)).
Proof.
  intros hr hl. induction k as [|k IH]; intro hk.
  - cbn [for_up w4inv]. repeat split; try lia; try reflexivity; intros; try lia.
  - cbn [for_up]. specialize (IH ltac:(lia)). destruct (for_up k window4_step (raw, 0)) as [w c].
    cbn [w4inv] in IH. destruct IH as (a1 & a2 & a3 & a6 & a7).
    pose proof (window4_step_ok raw k w c a1 ltac:(lia) hr a2 a6) as h.
    destruct (window4_step k (w, c)) as [w' c']. destruct h as (b1 & b2 & b3 & b4 & b7 & b8).
    replace (k + 1)%nat with (S k) in * by lia. cbn [w4inv].
    split; [exact b1|]. split; [exact b2|]. split; [|split; [intros; apply b7; lia|congruence]].
    intros i hi. destruct (Nat.eq_dec i k) as [->|]; [exact b3|]. rewrite b4 by lia. apply a3. lia.
Qed.

Lemma top_byte s m : bytes 32 s -> le_val s < 256 ^ 31 * m -> at_ s 31 < m.
Proof.
  intros [hl hf] hv.
  assert (E : s = firstn 31 s ++ [at_ s 31]).
  { do 32 (destruct s as [|? s]; [discriminate hl|]). destruct s; [reflexivity|discriminate hl]. }
  assert (hf' : Forall is_byte (firstn 31 s)) by (rewrite E in hf; apply Forall_app in hf; apply hf).
  pose proof (le_val_range _ hf') as hr. rewrite E, le_val_app in hv. cbn [le_val] in hv.
  rewrite firstn_length, hl in hv. change (Z.of_nat (Nat.min 31 32)) with 31 in hv. nia.
Qed.

(** computeScalarWindow4: for a scalar below 2^255 the 64 digits are in [-8, 8] and
    represent it in base 16 *)
Theorem computeScalarWindow4_ok s : bytes 32 s -> le_val s < 2 ^ 255 ->
  length (computeScalarWindow4 s) = 64%nat /\ digits_in (-8) 8 (computeScalarWindow4 s) /\
  dval 16 (computeScalarWindow4 s) = le_val s.
Proof.
  intros hs hv. destruct (window4_raw_ok s hs) as (l0 & r0 & v0 & t0).
  pose proof (window4_loop_ok (window4_raw s) 63 r0 l0 ltac:(lia)) as h.
  unfold computeScalarWindow4. destruct (for_up 63 window4_step (window4_raw s, 0)) as [w c].
  cbn [w4inv] in h. destruct h as (a1 & a2 & a3 & a6 & a7).
  assert (ht : 0 <= at_ w 63 <= 7).
  { rewrite a6, t0 by lia. pose proof (top_byte s 128 hs) as hb. change (256 ^ 31 * 128) with (2 ^ 255) in hb.
    specialize (hb hv). pose proof (at_byte _ s 31 hs) as hb'. unfold is_byte in hb'. clear -hb hb'. Z.to_euclidean_division_equations; lia. }
  rewrite i8_sm by lia. split; [rewrite upd_length; exact a1|]. split.
  - apply digits_in_iff. intros i hi. rewrite upd_length, a1 in hi.
    destruct (Nat.eq_dec i 63) as [->|]; [rewrite at_upd_eq by lia; lia|].
    rewrite at_upd_neq by lia. specialize (a3 i ltac:(lia)). lia.
  - rewrite dval_upd by lia. lia.
Qed.

(** * computeScalar5NAF *)
Lemma load8u_ok s : bytes 8 s -> load8u s = le_val s.
Proof.
  intros [hl hf]. do 8 (destruct s as [|? s]; [discriminate hl|]). destruct s; [|discriminate hl]. clear hl.
  repeat match goal with h : Forall _ (_ :: _) |- _ => inversion_clear h as [|? ? h1 h2]; rename h2 into h; unfold is_byte in h1; move h1 at bottom; revert h1 end.
  clear hf. intros. unfold load8u, at_. cbn [nth le_val]. cbv zeta.
  assert (S : forall x k, 0 <= x < 256 -> 0 <= k <= 56 -> u64 (Z.shiftl x k) = x * 2 ^ k).
  { intros x k hx hk. rewrite Z.shiftl_mul_pow2 by lia. unfold u64. apply Z.mod_small.
    assert (0 < 2 ^ k <= 2 ^ 56) by (split; [apply Z.pow_pos_nonneg; lia|apply Z.pow_le_mono_r; lia]).
    change (2 ^ 56) with 72057594037927936 in *. nia. }
  rewrite !S by lia. clear S.
  change (2 ^ 56) with 72057594037927936. change (2 ^ 48) with 281474976710656. change (2 ^ 40) with 1099511627776.
  change (2 ^ 32) with 4294967296. change (2 ^ 24) with 16777216. change (2 ^ 16) with 65536. change (2 ^ 8) with 256.
  rewrite (lor_disjoint _ _ 8) by (change (2 ^ 8) with 256; lia). change (2 ^ 8) with 256.
  rewrite (lor_disjoint _ _ 16) by (change (2 ^ 16) with 65536; lia). change (2 ^ 16) with 65536.
  rewrite (lor_disjoint _ _ 24) by (change (2 ^ 24) with 16777216; lia). change (2 ^ 24) with 16777216.
  rewrite (lor_disjoint _ _ 32) by (change (2 ^ 32) with 4294967296; lia). change (2 ^ 32) with 4294967296.
  rewrite (lor_disjoint _ _ 40) by (change (2 ^ 40) with 1099511627776; lia). change (2 ^ 40) with 1099511627776.
  rewrite (lor_disjoint _ _ 48) by (change (2 ^ 48) with 281474976710656; lia). change (2 ^ 48) with 281474976710656.
  rewrite (lor_disjoint _ _ 56) by (change (2 ^ 56) with 72057594037927936; lia). change (2 ^ 56) with 72057594037927936.
  ring.
Qed.

Definition naf_words (s : list Z) : list Z := map (fun i => load8u (slice s (i * 8) ((i + 1) * 8))) (seq 0 4) ++ [0].

Lemma div_app b k t m : 0 <= b < k -> (b + k * t) / k = t /\ (b + k * t) mod (k * m) = b + k * (t mod m) \/ m <= 0.
Proof.
  intros hb. destruct (Z.lt_ge_cases 0 m) as [hm|hm]; [left|right; exact hm].
  rewrite (Z.mul_comm k t), Z.div_add, Z.div_small, Z.add_0_l by lia. split; [reflexivity|].
  rewrite Z.rem_mul_r by lia. rewrite Z.mod_add, Z.div_add, Z.mod_small, Z.div_small by lia. f_equal.
Qed.

Lemma naf_words_ok s i : bytes 32 s -> (i <= 4)%nat -> at_ (naf_words s) i = le_val s / 2 ^ (64 * Z.of_nat i) mod 2 ^ 64.
Proof.
  intros hs hi. destruct hs as [hl hf].
  assert (B : forall a, bytes 8 (firstn 8 (skipn a s)) \/ (24 < a)%nat).
  { intro a. destruct (Nat.le_gt_cases a 24); [left|right; lia]. split; [rewrite firstn_length, skipn_length; lia|].
    apply Forall_forall. intros x hx. rewrite Forall_forall in hf. apply hf.
    rewrite <- (firstn_skipn a s). apply in_or_app. right. rewrite <- (firstn_skipn 8 (skipn a s)). apply in_or_app. left. exact hx. }
  assert (V : le_val s = le_val (firstn 8 s) + 2 ^ 64 * (le_val (firstn 8 (skipn 8 s)) + 2 ^ 64 *
     (le_val (firstn 8 (skipn 16 s)) + 2 ^ 64 * le_val (firstn 8 (skipn 24 s))))).
  { clear -hl. do 32 (destruct s as [|? s]; [discriminate hl|]). destruct s; [|discriminate hl].
    cbn [firstn skipn le_val]. change (2 ^ 64) with 18446744073709551616. ring. }
  assert (R : forall a, (a <= 24)%nat -> 0 <= le_val (firstn 8 (skipn a s)) < 2 ^ 64).
  { intros a ha. destruct (B a) as [[h1 h2]|]; [|lia]. pose proof (le_val_range _ h2) as h. rewrite h1 in h. exact h. }
  pose proof (R 0%nat ltac:(lia)) as r0. pose proof (R 8%nat ltac:(lia)) as r1. pose proof (R 16%nat ltac:(lia)) as r2.
  pose proof (R 24%nat ltac:(lia)) as r3. cbn [skipn] in r0.
  assert (W : at_ (naf_words s) i = nth i [le_val (firstn 8 s); le_val (firstn 8 (skipn 8 s)); le_val (firstn 8 (skipn 16 s)); le_val (firstn 8 (skipn 24 s)); 0] 0).
  { unfold naf_words, at_. cbn [seq map app]. f_equal. unfold slice. cbn [Nat.mul Nat.add Nat.sub].
    rewrite !load8u_ok; [reflexivity|..].
    - destruct (B 24%nat) as [h|]; [exact h|lia].
    - destruct (B 16%nat) as [h|]; [exact h|lia].
    - destruct (B 8%nat) as [h|]; [exact h|lia].
    - destruct (B 0%nat) as [h|]; [exact h|lia]. }
  rewrite W, V. clear W V R B hf hl.
  set (a0 := le_val (firstn 8 s)) in *. set (a1 := le_val (firstn 8 (skipn 8 s))) in *.
  set (a2 := le_val (firstn 8 (skipn 16 s))) in *. set (a3 := le_val (firstn 8 (skipn 24 s))) in *.
  clearbody a0 a1 a2 a3. change (2 ^ 64) with 18446744073709551616 in *.
  assert (D : forall b t, 0 <= b < 18446744073709551616 -> (b + 18446744073709551616 * t) / 18446744073709551616 = t /\ (b + 18446744073709551616 * t) mod 18446744073709551616 = b).
  { clear. intros b t hb. rewrite (Z.mul_comm _ t). rewrite Z.div_add, Z.div_small, Z_mod_plus_full, Z.mod_small by lia. lia. }
  assert (P : forall x n, x / 2 ^ (64 * Z.of_nat (S n)) = x / 18446744073709551616 / 2 ^ (64 * Z.of_nat n)).
  { clear. intros x n. rewrite Z.div_div; [|lia|apply Z.pow_pos_nonneg; lia]. f_equal.
    replace (64 * Z.of_nat (S n)) with (64 + 64 * Z.of_nat n) by lia. rewrite Z.pow_add_r by lia. reflexivity. }
  assert (Z0 : forall x, x / 2 ^ (64 * Z.of_nat 0) = x) by (intro; apply Z.div_1_r).
  destruct i as [|[|[|[|[|i]]]]]; [..|lia]; cbn [nth]; rewrite ?P, Z0.
  - symmetry. apply D. exact r0.
  - rewrite (proj1 (D a0 _ r0)). symmetry. apply D. exact r1.
  - rewrite (proj1 (D a0 _ r0)), (proj1 (D a1 _ r1)). symmetry. apply D. exact r2.
  - rewrite (proj1 (D a0 _ r0)), (proj1 (D a1 _ r1)), (proj1 (D a2 _ r2)). symmetry. apply Z.mod_small. lia.
  - rewrite (proj1 (D a0 _ r0)), (proj1 (D a1 _ r1)), (proj1 (D a2 _ r2)). rewrite (Z.div_small a3) by lia. reflexivity.
Qed.

Definition naf_buf (x : list Z) (pos : nat) : Z :=
  let idx := Nat.div pos 64 in
  let bit_idx := Nat.modulo pos 64 in
  if Nat.ltb bit_idx 59 then Z.shiftr (at_ x idx) (Z.of_nat bit_idx)
  else Z.lor (Z.shiftr (at_ x idx) (Z.of_nat bit_idx))
             (u64 (Z.shiftl (at_ x (1 + idx)) (64 - Z.of_nat bit_idx))).

Lemma word_bit V i n : 0 <= n -> Z.testbit (V / 2 ^ (64 * Z.of_nat i) mod 2 ^ 64) n = (n <? 64) && Z.testbit V (64 * Z.of_nat i + n).
Proof.
  intro hn. destruct (n <? 64) eqn:E.
  - apply Z.ltb_lt in E. rewrite Z.mod_pow2_bits_low by lia. rewrite Z.div_pow2_bits by lia. cbn [andb]. f_equal. lia.
  - apply Z.ltb_ge in E. rewrite Z.mod_pow2_bits_high by lia. reflexivity.
Qed.

Lemma naf_buf_ok s pos : bytes 32 s -> (pos < 256)%nat ->
  Z.land (naf_buf (naf_words s) pos) 31 = le_val s / 2 ^ Z.of_nat pos mod 32.
Proof.
  intros hs hp. set (V := le_val s). rewrite land31.
  assert (hd : pos = (64 * (pos / 64) + pos mod 64)%nat) by (apply Nat.div_mod; lia).
  assert (hi : (pos / 64 < 4)%nat) by (apply Nat.div_lt_upper_bound; lia).
  assert (hm : (pos mod 64 < 64)%nat) by (apply Nat.mod_upper_bound; lia).
  assert (hpz : Z.of_nat pos = 64 * Z.of_nat (pos / 64) + Z.of_nat (pos mod 64)) by lia.
  change 32 with (2 ^ 5). apply Z.bits_inj'. intros n hn.
  destruct (Z.lt_ge_cases n 5) as [h5|h5]; [|rewrite !Z.mod_pow2_bits_high by lia; reflexivity].
  rewrite !Z.mod_pow2_bits_low by lia. rewrite Z.div_pow2_bits by lia.
  unfold naf_buf. cbv zeta. destruct (Nat.ltb (pos mod 64) 59) eqn:E.
  - apply Nat.ltb_lt in E. rewrite Z.shiftr_spec by lia. rewrite naf_words_ok by (assumption || lia). rewrite word_bit by lia.
    replace (n + Z.of_nat (pos mod 64) <? 64) with true by (symmetry; apply Z.ltb_lt; lia). cbn [andb]. unfold V. f_equal. lia.
  - apply Nat.ltb_ge in E. rewrite Z.lor_spec, Z.shiftr_spec by lia. unfold u64. change 18446744073709551616 with (2 ^ 64).
    rewrite Z.mod_pow2_bits_low by lia. rewrite Z.shiftl_spec by lia.
    rewrite !naf_words_ok by (assumption || lia). rewrite word_bit by lia.
    destruct (Z.lt_ge_cases (n + Z.of_nat (pos mod 64)) 64) as [h|h].
    + replace (n + Z.of_nat (pos mod 64) <? 64) with true by (symmetry; apply Z.ltb_lt; lia). cbn [andb].
      rewrite (Z.testbit_neg_r _ (n - (64 - _))) by lia. rewrite orb_false_r. unfold V. f_equal. lia.
    + replace (n + Z.of_nat (pos mod 64) <? 64) with false by (symmetry; apply Z.ltb_ge; lia). cbn [andb orb].
      rewrite word_bit by lia. replace (n - (64 - Z.of_nat (pos mod 64)) <? 64) with true by (symmetry; apply Z.ltb_lt; lia).
      cbn [andb]. unfold V. f_equal. lia.
Qed.

(** digits of the 5-NAF *)
Definition naf_digit (d : Z) : Prop := d = 0 \/ (-15 <= d <= 15 /\ Z.odd d = true).

Lemma naf_loop_ok s fuel pos c naf : bytes 32 s -> le_val s < 2 ^ 255 -> (256 - pos <= fuel)%nat ->
  length naf = 256%nat -> Forall naf_digit naf -> (forall i, (pos <= i)%nat -> at_ naf i = 0) ->
  0 <= c <= 1 -> (c = 1 -> (0 < pos)%nat /\ Z.testbit (le_val s) (Z.of_nat pos - 1) = true) ->
  dval 2 naf + c * 2 ^ Z.of_nat pos = le_val s mod 2 ^ Z.of_nat pos ->
  exists naf', naf_loop fuel (naf_words s) pos c naf = Some naf' /\
    length naf' = 256%nat /\ Forall naf_digit naf' /\ dval 2 naf' = le_val s.
Proof.
  intros hs hV. assert (hV0 : 0 <= le_val s) by (apply le_val_range, hs).
  assert (DONE : forall pos c naf, (256 <= pos)%nat -> length naf = 256%nat -> Forall naf_digit naf ->
    0 <= c <= 1 -> (c = 1 -> (0 < pos)%nat /\ Z.testbit (le_val s) (Z.of_nat pos - 1) = true) ->
    dval 2 naf + c * 2 ^ Z.of_nat pos = le_val s mod 2 ^ Z.of_nat pos ->
    exists naf', Some naf = Some naf' /\ length naf' = 256%nat /\ Forall naf_digit naf' /\ dval 2 naf' = le_val s).
  { clear pos c naf. intros pos c naf hp hl hd hc hc1 hv. exists naf. split; [reflexivity|]. split; [exact hl|]. split; [exact hd|].
    assert (lt : le_val s < 2 ^ (Z.of_nat pos - 1)).
    { apply Z.lt_le_trans with (2 ^ 255); [exact hV|]. apply Z.pow_le_mono_r; lia. }
    assert (lt' : le_val s < 2 ^ Z.of_nat pos).
    { apply Z.lt_le_trans with (2 ^ 255); [exact hV|]. apply Z.pow_le_mono_r; lia. }
    destruct (Z.eq_dec c 1) as [->|hc0].
    - exfalso. destruct (hc1 eq_refl) as [_ hb].
      destruct (Z.eq_dec (le_val s) 0) as [E|]; [rewrite E, Z.bits_0 in hb; discriminate|].
      rewrite Z.bits_above_log2 in hb; [discriminate|lia|]. apply Z.log2_lt_pow2; lia.
    - replace c with 0 in hv by lia. rewrite Z.mod_small in hv by lia. lia. }
  revert pos c naf. induction fuel as [|fuel IH]; intros pos c naf hf hl hd hz hc hc1 hv.
  - cbn [naf_loop]. replace (Nat.ltb pos 256) with false by (symmetry; apply Nat.ltb_ge; lia). apply (DONE pos c); try assumption; lia.
  - cbn [naf_loop]. destruct (Nat.ltb pos 256) eqn:Ep.
    2: { apply Nat.ltb_ge in Ep. apply (DONE pos c); assumption. }
    apply Nat.ltb_lt in Ep. cbv zeta. fold (naf_buf (naf_words s) pos). rewrite naf_buf_ok by assumption.
    set (V := le_val s) in *. set (P := 2 ^ Z.of_nat pos) in *.
    assert (hP : 0 < P) by (apply Z.pow_pos_nonneg; lia).
    set (u := V / P mod 32). assert (hu : 0 <= u < 32) by (apply Z.mod_pos_bound; lia).
    assert (M5 : V mod 2 ^ Z.of_nat (pos + 5) = V mod P + P * u).
    { replace (Z.of_nat (pos + 5)) with (Z.of_nat pos + 5) by lia. rewrite Z.pow_add_r by lia. fold P. apply Z.rem_mul_r; lia. }
    assert (M1 : V mod 2 ^ Z.of_nat (pos + 1) = V mod P + P * (u mod 2)).
    { replace (Z.of_nat (pos + 1)) with (Z.of_nat pos + 1) by lia. rewrite Z.pow_add_r by lia. fold P. change (2 ^ 1) with 2.
      rewrite Z.rem_mul_r by lia. f_equal. f_equal. unfold u. generalize (V / P). intro t. clear. Z.to_euclidean_division_equations; lia. }
    assert (Tb : forall n, 0 <= n < 5 -> Z.testbit V (Z.of_nat pos + n) = Z.testbit u n).
    { intros n hn. unfold u. change 32 with (2 ^ 5). rewrite Z.mod_pow2_bits_low by lia. unfold P. rewrite Z.div_pow2_bits by lia. f_equal. lia. }
    assert (Ew : u64 (c + u) = c + u) by (unfold u64; apply Z.mod_small; lia). rewrite Ew.
    assert (El : Z.land (c + u) 1 = (c + u) mod 2) by (change 1 with (Z.ones 1) at 1; apply Z.land_ones; lia). rewrite El.
    assert (P5 : 2 ^ Z.of_nat (pos + 5) = 32 * P).
    { replace (Z.of_nat (pos + 5)) with (5 + Z.of_nat pos) by lia. rewrite Z.pow_add_r by lia. reflexivity. }
    assert (P1 : 2 ^ Z.of_nat (pos + 1) = 2 * P).
    { replace (Z.of_nat (pos + 1)) with (1 + Z.of_nat pos) by lia. rewrite Z.pow_add_r by lia. reflexivity. }
    assert (DG : forall d, naf_digit d -> Forall naf_digit (upd naf pos d)).
    { intros d hdd. apply Forall_forall. intros x hx. apply In_nth with (d := 0) in hx. destruct hx as [i [hi <-]].
      rewrite upd_length in hi. destruct (Nat.eq_dec pos i) as [<-|n]; [rewrite nth_upd_eq by exact hi; exact hdd|].
      rewrite nth_upd_neq by exact n. rewrite Forall_forall in hd. apply hd, nth_In, hi. }
    destruct ((c + u) mod 2 =? 0) eqn:Ez.
    + apply Z.eqb_eq in Ez. assert (hb : c = u mod 2) by (clear -Ez hc; Z.to_euclidean_division_equations; lia).
      apply IH; try assumption; try (rewrite M1, P1, <- hb); try lia.
      * intros i hi. apply hz. lia.
      * intro hc'. split; [lia|]. replace (Z.of_nat (pos + 1) - 1) with (Z.of_nat pos + 0) by lia. rewrite Tb by lia.
        rewrite Z.bit0_odd. rewrite Zmod_odd in hb. destruct (Z.odd u); [reflexivity|lia].
    + apply Z.eqb_neq in Ez.
      assert (ho : Z.odd (c + u) = true) by (rewrite Zmod_odd in Ez; destruct (Z.odd (c + u)); [reflexivity|lia]).
      destruct (c + u <? 16) eqn:E16.
      * apply Z.ltb_lt in E16. rewrite i8_sm by lia. apply IH; try lia.
        -- rewrite upd_length. exact hl.
        -- apply DG. right. split; [lia|exact ho].
        -- intros i hi. rewrite at_upd_neq by lia. apply hz. lia.
        -- rewrite dval_upd by lia. rewrite hz by lia. fold P. rewrite M5. lia.
      * apply Z.ltb_ge in E16. assert (c + u <> 32) by (intro e; rewrite e in ho; discriminate).
        assert (c + u <> 16) by (intro e; rewrite e in ho; discriminate).
        rewrite (i8_sm (c + u)) by lia. rewrite i8_sm by lia. apply IH; try lia.
        -- rewrite upd_length. exact hl.
        -- apply DG. right. split; [lia|]. rewrite Z.odd_sub, ho. reflexivity.
        -- intros i hi. rewrite at_upd_neq by lia. apply hz. lia.
        -- intros _. split; [lia|]. replace (Z.of_nat (pos + 5) - 1) with (Z.of_nat pos + 4) by lia. rewrite Tb by lia.
           assert (16 <= u) by (destruct (Z.eq_dec (c + u) 16) as [e|]; [rewrite e in ho; discriminate|lia]).
           rewrite Z.testbit_odd, shr by lia. change (2 ^ 4) with 16. replace (u / 16) with 1 by (Z.to_euclidean_division_equations; lia). reflexivity.
        -- rewrite dval_upd by lia. rewrite hz by lia. fold P. rewrite M5, P5. lia.
Qed.

Lemma dval_repeat0 B n : dval B (repeat 0 n) = 0.
Proof. induction n; cbn [repeat dval]; [reflexivity|]. rewrite IHn. ring. Qed.

(** computeScalar5NAF terminates, without indexing out of range, with digits zero or odd in
    [-15, 15] that represent the scalar in base 2 *)
Theorem computeScalar5NAF_ok s : bytes 32 s -> le_val s < 2 ^ 255 ->
  exists naf, computeScalar5NAF s = Some naf /\ length naf = 256%nat /\ Forall naf_digit naf /\ dval 2 naf = le_val s.
Proof.
  intros hs hV. unfold computeScalar5NAF. fold (naf_words s). apply (naf_loop_ok s); try assumption; try lia.
  - apply repeat_length.
  - apply Forall_forall. intros x hx. apply repeat_spec in hx. left. exact hx.
  - intros i _. unfold at_. destruct (Nat.lt_ge_cases i 256) as [h|h]; [apply nth_repeat|].
    apply nth_overflow. rewrite repeat_length. exact h.
  - rewrite dval_repeat0, Z.mod_1_r. reflexivity.
Qed.
