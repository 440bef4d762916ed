(** Bits and signed digits of the scalars of /repo/cref/cref.c. *)
From Coq Require Import ZArith List Lia Bool.
From Verif Require Import Words FieldModel WindowProofs Primes ScalarFacts ScalarReduce CrefScalar CrefScalarProofs CrefScalarOps.
Import ListNotations.
Open Scope Z_scope.

(** ** Bits *)
Lemma psum_bit n x i k : (forall j, is_byte (at_ x j)) -> (i < n)%nat -> 0 <= k < 8 ->
  Z.testbit (psum n x) (8 * Z.of_nat i + k) = Z.testbit (at_ x i) k.
Proof.
  intros hb hi hk.
  assert (e : exists h, psum n x = psum i x + pw256 i * (at_ x i + 256 * h)).
  { clear hk. induction n as [|n IH]; [lia|]. destruct (Nat.eq_dec i n) as [->|hn].
    - exists 0. rewrite psum_S. ring.
    - destruct IH as [h e]; [lia|]. rewrite psum_S, e. exists (h + at_ x n * pw256 (n - S i)).
      replace (pw256 n) with (pw256 i * 256 * pw256 (n - S i)); [ring|].
      replace n with (S i + (n - S i))%nat at 2 by lia. rewrite pw256_add, pw256_S. ring. }
  destruct e as [h e]. rewrite e. pose proof (psum_range i x (fun j _ => hb j)) as r.
  assert (pe : pw256 i = 2 ^ (8 * Z.of_nat i)) by (unfold pw256; change 256 with (2 ^ 8); rewrite <- Z.pow_mul_r by lia; reflexivity).
  replace (8 * Z.of_nat i + k) with (k + 8 * Z.of_nat i) by ring. rewrite <- div_pow2_bit by lia. rewrite <- pe.
  rewrite Z.mul_comm, Z.div_add, Z.div_small by (pose proof (pw256_pos i); lia). rewrite Z.add_0_l.
  specialize (hb i). unfold is_byte in hb.
  assert (m : at_ x i = (at_ x i + 256 * h) mod 2 ^ 8).
  { change (2 ^ 8) with 256. rewrite Z.mul_comm, Z.mod_add by lia. symmetry. apply Z.mod_small. lia. }
  rewrite m at 2. rewrite mod_pow2_bit by lia. destruct (Z.ltb_spec k 8); [reflexivity | lia].
Qed.

Lemma land_bit a k : 0 <= k -> Z.shiftr (Z.land a (Z.shiftl 1 k)) k = Z.b2z (Z.testbit a k).
Proof.
  intro hk. rewrite Z.shiftr_land. rewrite Z.shiftr_shiftl_l by lia. rewrite Z.sub_diag, Z.shiftl_0_r.
  change 1 with (Z.ones 1). rewrite Z.land_ones by lia. change (2 ^ 1) with 2. rewrite <- Z.bit0_mod, Z.shiftr_spec by lia. reflexivity.
Qed.

Lemma cs_tstbit_ok x pos : bytes 32 x -> 0 <= pos < 256 -> cs_tstbit x pos = Z.b2z (Z.testbit (le_val x) pos).
Proof.
  intros hx hp. unfold cs_tstbit. change 7 with (Z.ones 3). rewrite !(Z.land_ones pos 3), (shr pos 3) by lia. change (2 ^ 3) with 8.
  pose proof (Z.mod_pos_bound pos 8 ltac:(lia)) as hm. pose proof (Z.div_mod pos 8 ltac:(lia)) as hd.
  rewrite land_bit by lia. f_equal. rewrite <- (psum_bytes 32 x hx). rewrite hd at 3.
  assert (hq : 0 <= pos / 8 < 32) by (split; [apply Z.div_pos; lia | apply Z.div_lt_upper_bound; lia]).
  rewrite <- (Z2Nat.id (pos / 8)) at 2 by lia.
  symmetry. apply psum_bit; [intro; apply (at_byte 32 x _ hx) | lia | exact hm].
Qed.

(** ** Bit length *)
Definition nbits (v : Z) : Z := if v =? 0 then 0 else Z.log2 v + 1.

Lemma bitlen_step1 v ctr m : bitlen_step v (ctr, 1) m = (ctr, 1).
Proof. unfold bitlen_step. change (negb (1 =? 0)) with true. cbv zeta iota. rewrite Z.mul_1_l, Z.sub_diag, Z.mul_0_l, Z.lxor_0_r. reflexivity. Qed.
Lemma bitlen_step0 v ctr m : bitlen_step v (ctr, 0) m = if Z.land m v =? 0 then (ctr - 1, 0) else (ctr, 1).
Proof.
  unfold bitlen_step. change (negb (0 =? 0)) with false. cbv zeta iota. destruct (Z.land m v =? 0); cbn [negb].
  - change (1 - 0) with 1. rewrite Z.mul_0_l, Z.mul_1_l, Z.lxor_0_l. reflexivity.
  - rewrite Z.mul_1_l, Z.sub_diag, Z.mul_0_l, Z.lxor_0_r. reflexivity.
Qed.

Lemma bitlen_inner1 v ctr l0 : fold_left (bitlen_step v) l0 (ctr, 1) = (ctr, 1).
Proof. induction l0 as [|m l0 IH]; [reflexivity|]. cbn [fold_left]. rewrite bitlen_step1. exact IH. Qed.

Lemma land_pow2_0 m v : 0 <= m -> Z.land (2 ^ m) v = 0 <-> Z.testbit v m = false.
Proof.
  intro hm. split; intro h.
  - assert (e : Z.testbit (Z.land (2 ^ m) v) m = false) by (rewrite h; apply Z.bits_0). rewrite Z.land_spec, Z.pow2_bits_true in e by exact hm. exact e.
  - apply Z.bits_inj_0. intro i. rewrite Z.land_spec. destruct (Z.eq_dec m i) as [<-|hn]; [rewrite h; apply andb_false_r|].
    rewrite Z.pow2_bits_false by exact hn. reflexivity.
Qed.

Lemma log2_top v k : 0 <= k -> 0 <= v < 2 ^ (k + 1) -> Z.testbit v k = true -> nbits v = k + 1.
Proof.
  intros hk hv hb. unfold nbits. destruct (Z.eqb_spec v 0) as [->|hn]; [rewrite Z.bits_0 in hb; discriminate|].
  f_equal. apply Z.log2_unique; [exact hk|]. rewrite Z.add_1_r in hv. split; [|apply hv].
  destruct (Z.lt_ge_cases v (2 ^ k)) as [h|h]; [|exact h]. rewrite Z.testbit_true in hb by exact hk. rewrite Z.div_small in hb by lia. discriminate.
Qed.

Lemma top_clear v k : 0 <= k -> 0 <= v < 2 ^ (k + 1) -> Z.testbit v k = false -> v < 2 ^ k.
Proof.
  intros hk hv hb. destruct (Z.lt_ge_cases v (2 ^ k)) as [h|h]; [exact h|]. exfalso.
  rewrite Z.pow_add_r in hv by lia. assert (e : v / 2 ^ k = 1) by (symmetry; apply Zdiv_unique with (v - 2 ^ k); lia).
  apply Z.testbit_false in hb; [|exact hk]. rewrite e in hb. discriminate.
Qed.

Lemma bitlen_inner0 v n : forall ctr, 0 <= v < 2 ^ Z.of_nat n ->
  fold_left (bitlen_step v) (map (fun i => 2 ^ Z.of_nat i) (rev (seq 0 n))) (ctr, 0) =
  (ctr - Z.of_nat n + nbits v, if v =? 0 then 0 else 1).
Proof.
  induction n as [|n IH]; intros ctr hv.
  - cbn in hv. replace v with 0 by lia. cbn. f_equal. ring.
  - rewrite seq_S, rev_app_distr. cbn [rev app map fold_left]. rewrite Nat.add_0_l, bitlen_step0.
    rewrite Nat2Z.inj_succ, <- Z.add_1_r in hv.
    destruct (Z.testbit v (Z.of_nat n)) eqn:eb.
    + destruct (Z.eqb_spec (Z.land (2 ^ Z.of_nat n) v) 0) as [e|e]; [apply land_pow2_0 in e; [congruence | lia]|].
      rewrite bitlen_inner1. rewrite (log2_top v (Z.of_nat n)) by (try lia; exact eb).
      destruct (Z.eqb_spec v 0) as [->|]; [rewrite Z.bits_0 in eb; discriminate|]. f_equal. lia.
    + destruct (Z.eqb_spec (Z.land (2 ^ Z.of_nat n) v) 0) as [e|e]; [|exfalso; apply e, land_pow2_0; [lia | exact eb]].
      rewrite IH by (split; [lia | apply top_clear; [lia | lia | exact eb]]). f_equal. lia.
Qed.

Lemma nbits_shift a b n : 0 <= a < 2 ^ n -> 0 < b -> 0 <= n -> nbits (a + 2 ^ n * b) = n + nbits b.
Proof.
  intros ha hb hn. unfold nbits. pose proof (Z.pow_pos_nonneg 2 n ltac:(lia) hn) as hp.
  destruct (Z.eqb_spec (a + 2 ^ n * b) 0) as [e|_]; [nia|]. destruct (Z.eqb_spec b 0) as [e|_]; [lia|].
  replace (n + (Z.log2 b + 1)) with (n + Z.log2 b + 1) by ring. f_equal.
  pose proof (Z.log2_spec b hb) as [l1 l2]. pose proof (Z.log2_nonneg b) as l3.
  apply Z.log2_unique; [lia|]. rewrite <- Z.add_succ_r. rewrite !Z.pow_add_r by lia. nia.
Qed.

Lemma bitlen_outer x n : (forall i, is_byte (at_ x i)) -> forall ctr,
  fold_left (fun st i => fold_left (bitlen_step (at_ x i)) [128; 64; 32; 16; 8; 4; 2; 1] st) (rev (seq 0 n)) (ctr, 0) =
  (ctr - 8 * Z.of_nat n + nbits (psum n x), if psum n x =? 0 then 0 else 1).
Proof.
  intro hb.
  assert (in0 : forall v ctr, 0 <= v < 256 -> fold_left (bitlen_step v) [128; 64; 32; 16; 8; 4; 2; 1] (ctr, 0) = (ctr - 8 + nbits v, if v =? 0 then 0 else 1))
    by (intros v ctr hv; exact (bitlen_inner0 v 8 ctr hv)).
  revert in0. generalize [128; 64; 32; 16; 8; 4; 2; 1]. intros ms in0.
  induction n as [|n IH]; intro ctr; [cbn; f_equal; ring|].
  rewrite seq_S, rev_app_distr. cbn [rev app]. rewrite Nat.add_0_l.
  cbn [fold_left]. pose proof (hb n) as hn. unfold is_byte in hn.
  rewrite in0 by exact hn. rewrite psum_S.
  pose proof (psum_range n x (fun i _ => hb i)) as r.
  assert (pe : pw256 n = 2 ^ (8 * Z.of_nat n)) by (unfold pw256; change 256 with (2 ^ 8); rewrite <- Z.pow_mul_r by lia; reflexivity).
  destruct (Z.eqb_spec (at_ x n) 0) as [e|e].
  - rewrite IH. rewrite e, Z.mul_0_l, (Z.add_0_r (psum n x)). f_equal. change (nbits 0) with 0. lia.
  - assert (st1 : forall ls, fold_left (fun st i => fold_left (bitlen_step (at_ x i)) ms st) ls (ctr - 8 + nbits (at_ x n), 1) = (ctr - 8 + nbits (at_ x n), 1)).
    { induction ls as [|i ls IHl]; [reflexivity|]. cbn [fold_left]. rewrite bitlen_inner1. exact IHl. }
    rewrite st1. rewrite (Z.mul_comm (at_ x n)), pe. rewrite nbits_shift by lia.
    destruct (Z.eqb_spec (psum n x + 2 ^ (8 * Z.of_nat n) * at_ x n) 0) as [e0|e0].
    + exfalso. rewrite <- pe in e0. pose proof (pw256_pos n). nia.
    + f_equal. lia.
Qed.

Lemma cs_bitlen_ok x : bytes 32 x -> cs_bitlen x = nbits (le_val x).
Proof.
  intro hx. unfold cs_bitlen. rewrite bitlen_outer by (intro; apply (at_byte 32 x _ hx)). cbn [fst].
  rewrite (psum_bytes 32 x hx). lia.
Qed.

(** [nbits v] is the number of bits of [v] *)
Lemma nbits_spec v : 0 <= v -> v < 2 ^ nbits v /\ (0 < v -> 2 ^ (nbits v - 1) <= v) /\ 0 <= nbits v.
Proof.
  intro hv. unfold nbits. destruct (Z.eqb_spec v 0) as [->|hn]; [cbn; lia|].
  pose proof (Z.log2_spec v ltac:(lia)) as [l1 l2]. pose proof (Z.log2_nonneg v). replace (Z.log2 v + 1 - 1) with (Z.log2 v) by ring.
  rewrite Z.add_1_r. lia.
Qed.

(** ** Signed digits in base 8 and 32 *)
Definition width (w B : Z) : Prop := (w = 3 /\ B = 8) \/ (w = 5 /\ B = 32).

Lemma width_facts w B : width w B -> 2 ^ w = B /\ 2 ^ (w - 1) = B / 2 /\ (forall x, Z.land x (B - 1) = x mod B) /\ 0 < w /\ 8 <= B <= 32.
Proof.
  intros [[-> ->]|[-> ->]]; (refine (conj eq_refl (conj eq_refl (conj _ _))); [|lia]); intro x.
  - change (8 - 1) with (Z.ones 3). apply Z.land_ones; lia.
  - change (32 - 1) with (Z.ones 5). apply Z.land_ones; lia.
Qed.

Lemma win_step_ok w B L raw k v c : width w B -> length v = L -> (k + 1 < L)%nat -> digits_in 0 (B - 1) raw ->
  0 <= c <= 1 -> 0 <= at_ v k -> at_ v k + c <= at_ raw k + 1 -> (forall i, (k < i)%nat -> at_ v i = at_ raw i) ->
  let '(v', c') := win_step w k (v, c) in
  length v' = L /\ 0 <= c' <= 1 /\ - (B / 2) <= at_ v' k <= B / 2 - 1 /\
  (forall i, (i < k)%nat -> at_ v' i = at_ v i) /\
  0 <= at_ v' (k + 1) /\ at_ v' (k + 1) + c' <= at_ raw (k + 1) + 1 /\
  (forall i, (k + 1 < i)%nat -> at_ v' i = at_ raw i) /\
  dval B v' + c' * B ^ Z.of_nat (k + 1) = dval B v + c * B ^ Z.of_nat k.
Proof.
  intros hw hl hk hr hc h0 h1 hrest. unfold win_step. cbv zeta.
  destruct (width_facts w B hw) as (e1 & e2 & e3 & e4 & e5).
  assert (rr : forall i, 0 <= at_ raw i <= B - 1) by (intro; apply digits_at; [lia|exact hr]).
  pose proof (rr k) as rk. pose proof (rr (k + 1)%nat) as rk1.
  rewrite (i8_sm (at_ v k + c)) by lia.
  set (a := at_ v k + c) in *. assert (ha : 0 <= a <= B) by lia.
  set (w1 := upd v k a). assert (l1 : length w1 = L) by (unfold w1; rewrite upd_length; exact hl).
  assert (A1 : at_ w1 k = a) by (unfold w1; apply at_upd_eq; lia). rewrite !A1.
  assert (A2 : at_ w1 (k + 1) = at_ raw (k + 1)) by (unfold w1; rewrite at_upd_neq by lia; apply hrest; lia). rewrite A2.
  rewrite (shr a) by lia. rewrite e1.
  assert (hq : 0 <= a / B <= 1) by (clear -ha hw; destruct hw as [[-> ->]|[-> ->]]; Z.to_euclidean_division_equations; lia).
  rewrite i8_sm by lia.
  set (n := at_ raw (k + 1) + a / B).
  set (w2 := upd w1 (k + 1) n). assert (l2 : length w2 = L) by (unfold w2; rewrite upd_length; exact l1).
  assert (A3 : at_ w2 k = a) by (unfold w2; rewrite at_upd_neq by lia; exact A1).
  assert (A4 : at_ w2 (k + 1) = n) by (unfold w2; apply at_upd_eq; lia).
  rewrite A3. rewrite e3.
  set (b := a mod B). assert (hb : 0 <= b <= B - 1) by (subst b; clear -ha hw; destruct hw as [[-> ->]|[-> ->]]; Z.to_euclidean_division_equations; lia).
  rewrite !(i8_sm b) by lia.
  set (w3 := upd w2 k b). assert (l3 : length w3 = L) by (unfold w3; rewrite upd_length; exact l2).
  assert (A5 : at_ w3 k = b) by (unfold w3; apply at_upd_eq; lia). rewrite !A5.
  rewrite shr by lia. rewrite e2.
  assert (hc' : 0 <= b / (B / 2) <= 1 /\ - (B / 2) <= b - B * (b / (B / 2)) <= B / 2 - 1).
  { clear -hb hw. destruct hw as [[-> ->]|[-> ->]]; [change (8 / 2) with 4 | change (32 / 2) with 16]; Z.to_euclidean_division_equations; lia. }
  assert (hroom : at_ raw (k + 1) + a / B + b / (B / 2) <= at_ raw (k + 1) + 1).
  { unfold b. clear -ha hw. destruct hw as [[-> ->]|[-> ->]]; [change (8 / 2) with 4 | change (32 / 2) with 16]; Z.to_euclidean_division_equations; lia. }
  rewrite (i8_sm (b / (B / 2))) by lia. set (c' := b / (B / 2)) in *. clearbody c'.
  rewrite Z.shiftl_mul_pow2 by lia. rewrite ?e1.
  assert (B2 : B / 2 <= 16) by (clear -hw; destruct hw as [[-> ->]|[-> ->]]; vm_compute; discriminate).
  rewrite i8_sm by lia.
  set (w4 := upd w3 k (b - c' * B)). assert (l4 : length w4 = L) by (unfold w4; rewrite upd_length; exact l3).
  assert (A6 : at_ w4 k = b - c' * B) by (unfold w4; apply at_upd_eq; lia).
  assert (A7 : at_ w4 (k + 1) = n) by (unfold w4, w3; rewrite !at_upd_neq by lia; exact A4).
  assert (A8 : forall i, i <> k -> i <> (k + 1)%nat -> at_ w4 i = at_ v i).
  { intros i u u'. unfold w4, w3, w2, w1. rewrite !at_upd_neq by lia. reflexivity. }
  split; [exact l4|]. split; [lia|]. split; [rewrite A6; lia|]. split; [intros; apply A8; lia|].
  rewrite A7. split; [unfold n; lia|]. split; [unfold n; lia|]. split.
  - intros i hi. rewrite A8 by lia. apply hrest. lia.
  - unfold w4. rewrite dval_upd by lia. unfold w3 at 1. rewrite dval_upd by lia. unfold w2 at 1. rewrite dval_upd by lia.
    unfold w1 at 1. rewrite dval_upd by lia. rewrite A5, A3, A2.
    replace (Z.of_nat (k + 1)) with (Z.succ (Z.of_nat k)) by lia. rewrite Z.pow_succ_r by lia.
    assert (E : b = a - B * (a / B)) by (unfold b; pose proof (Z.div_mod a B ltac:(lia)); lia).
    assert (E' : at_ v k = a - c) by (unfold a; ring). assert (E'' : n = at_ raw (k + 1) + a / B) by reflexivity.
    rewrite E', E''. clearbody b. rewrite E. ring.
Qed.

Definition winv B L raw k (st : list Z * Z) : Prop :=
  let '(v, c) := st in
  length v = L /\ 0 <= c <= 1 /\ (forall i, (i < k)%nat -> - (B / 2) <= at_ v i <= B / 2 - 1) /\
  0 <= at_ v k /\ at_ v k + c <= at_ raw k + 1 /\ (forall i, (k < i)%nat -> at_ v i = at_ raw i) /\
  dval B v + c * B ^ Z.of_nat k = dval B raw.

Lemma win_loop_ok w B L raw k : width w B -> digits_in 0 (B - 1) raw -> length raw = L -> (k < L)%nat ->
  winv B L raw k (for_up k (win_step w) (raw, 0)).
Proof.
  intros hw hr hl. induction k as [|k IH]; intro hk.
  - cbn [for_up winv]. destruct (width_facts w B hw) as (_ & _ & _ & _ & e5).
    pose proof (digits_at 0 (B - 1) raw 0 ltac:(lia) hr).
    refine (conj hl (conj _ (conj _ (conj _ (conj _ (conj _ _)))))); try lia; intros; try lia; reflexivity.
  - cbn [for_up]. specialize (IH ltac:(lia)). destruct (for_up k (win_step w) (raw, 0)) as [v c].
    cbn [winv] in IH. destruct IH as (a1 & a2 & a3 & a4 & a5 & a6 & a7).
    pose proof (win_step_ok w B L raw k v c hw a1 ltac:(lia) hr a2 a4 a5 a6) as h.
    destruct (win_step w k (v, c)) as [v' c']. destruct h as (b1 & b2 & b3 & b4 & b5 & b6 & b7 & b8).
    replace (k + 1)%nat with (S k) in * by lia. cbn [winv].
    split; [exact b1|]. split; [exact b2|]. split; [|split; [exact b5|split; [exact b6|split; [exact b7|congruence]]]].
    intros i hi. destruct (Nat.eq_dec i k) as [->|]; [exact b3|]. rewrite b4 by lia. apply a3. lia.
Qed.

Lemma win_finish w B n raw : width w B -> digits_in 0 (B - 1) raw -> length raw = S n -> at_ raw n < B / 2 ->
  let '(r, c) := for_up n (win_step w) (raw, 0) in
  let r := upd r n (i8 (at_ r n + c)) in
  length r = S n /\ digits_in (- (B / 2)) (B / 2) r /\ dval B r = dval B raw /\
  (forall i, (i < n)%nat -> - (B / 2) <= at_ r i <= B / 2 - 1) /\ 0 <= at_ r n <= at_ raw n + 1.
Proof.
  intros hw hr hl ht. pose proof (win_loop_ok w B (S n) raw n hw hr hl ltac:(lia)) as h.
  destruct (for_up n (win_step w) (raw, 0)) as [v c]. cbn [winv] in h. destruct h as (a1 & a2 & a3 & a4 & a5 & a6 & a7).
  assert (B2 : 4 <= B / 2 <= 16) by (clear -hw; destruct hw as [[-> ->]|[-> ->]]; vm_compute; split; discriminate).
  cbv zeta. rewrite i8_sm by lia. split; [rewrite upd_length; exact a1|]. split.
  - apply digits_in_iff. intros i hi. rewrite upd_length, a1 in hi.
    destruct (Nat.eq_dec i n) as [->|]; [rewrite at_upd_eq by lia; lia|].
    rewrite at_upd_neq by lia. specialize (a3 i ltac:(lia)). lia.
  - split; [rewrite dval_upd by lia; lia|]. split; [|rewrite at_upd_eq by lia; lia].
    intros i hi. rewrite at_upd_neq by lia. apply a3. exact hi.
Qed.

(** the unsigned digits *)
Lemma c_lo w b k : (w = 3 \/ w = 5) -> i8 (Z.land (Z.shiftr b k) (2 ^ w - 1)) = Z.shiftr b k mod 2 ^ w.
Proof.
  intro hw. replace (2 ^ w - 1) with (Z.ones w) by (rewrite Z.ones_equiv; lia). rewrite Z.land_ones by lia.
  apply i8_sm. assert (0 < 2 ^ w <= 32) by (destruct hw as [-> | ->]; vm_compute; split; congruence).
  pose proof (Z.mod_pos_bound (Z.shiftr b k) (2 ^ w)). lia.
Qed.

Lemma c_mid w a b k m : (w = 3 \/ w = 5) -> is_byte a -> is_byte b -> 0 < m < w -> k = 8 - m ->
  i8 (Z.lxor (u32 (i8 (Z.land (Z.shiftr a k) (2 ^ w - 1)))) (Z.land (u32 (Z.shiftl b m)) (2 ^ w - 1)))
  = a / 2 ^ k + 2 ^ m * (b mod 2 ^ (w - m)).
Proof.
  intros hw ha hb hm ->. rewrite c_lo by exact hw. rewrite shr by lia.
  assert (hw' : 0 < 2 ^ w <= 32) by (destruct hw as [-> | ->]; vm_compute; split; congruence).
  assert (hm' : 0 < 2 ^ m < 2 ^ w) by (split; [apply Z.pow_pos_nonneg; lia | apply Z.pow_lt_mono_r; lia]).
  assert (hq : 0 <= a / 2 ^ (8 - m) < 2 ^ m).
  { pose proof (Z.pow_pos_nonneg 2 (8 - m) ltac:(lia) ltac:(lia)). unfold is_byte in ha.
    split; [apply Z.div_pos; lia|]. apply Z.div_lt_upper_bound; [lia|]. rewrite <- Z.pow_add_r by lia.
    replace (8 - m + m) with 8 by lia. change (2 ^ 8) with 256. lia. }
  rewrite (Z.mod_small (a / _)) by lia. rewrite u32_small by lia.
  assert (e : Z.land (u32 (Z.shiftl b m)) (2 ^ w - 1) = 2 ^ m * (b mod 2 ^ (w - m))).
  { replace (2 ^ w - 1) with (Z.ones w) by (rewrite Z.ones_equiv; lia). rewrite Z.land_ones by lia.
    rewrite Z.shiftl_mul_pow2 by lia. unfold is_byte in hb. rewrite u32_small by nia.
    rewrite (Z.mul_comm b). replace (2 ^ w) with (2 ^ m * 2 ^ (w - m)) by (rewrite <- Z.pow_add_r by lia; f_equal; lia).
    apply Z.mul_mod_distr_l; [pose proof (Z.pow_pos_nonneg 2 (w - m)) |]; lia. }
  rewrite e. pose proof (Z.mod_pos_bound b (2 ^ (w - m)) ltac:(apply Z.pow_pos_nonneg; lia)) as hmb.
  assert (es : 2 ^ m * 2 ^ (w - m) = 2 ^ w) by (rewrite <- Z.pow_add_r by lia; f_equal; lia).
  rewrite lxor_disj by lia. apply i8_sm. nia.
Qed.

Definition cgrp3 (a b c : Z) : list Z :=
  [ a mod 8; a / 8 mod 8; a / 64 + 4 * (b mod 2); b / 2 mod 8; b / 16 mod 8; b / 128 + 2 * (c mod 4); c / 4 mod 8; c / 32 mod 8 ].
Definition ctail3 (a b : Z) : list Z := [ a mod 8; a / 8 mod 8; a / 64 + 4 * (b mod 2); b / 2 mod 8; b / 16 mod 8 ].
Definition cgrp5 (a b c d e : Z) : list Z :=
  [ a mod 32; a / 32 + 8 * (b mod 4); b / 4 mod 32; b / 128 + 2 * (c mod 16); c / 16 + 16 * (d mod 2); d / 2 mod 32;
    d / 64 + 4 * (e mod 8); e / 8 mod 32 ].
Definition ctail5 (a b : Z) : list Z := [ a mod 32; a / 32 + 8 * (b mod 4); b / 4 mod 32 ].

Ltac in_digits := unfold digits_in; repeat (apply Forall_cons || apply Forall_nil); Z.to_euclidean_division_equations; lia.
Lemma cgrp3_ok a b c : is_byte a -> is_byte b -> is_byte c ->
  digits_in 0 7 (cgrp3 a b c) /\ dval 8 (cgrp3 a b c) = a + 256 * b + 65536 * c.
Proof. unfold is_byte, cgrp3. intros. split; [in_digits|]. cbn [dval]. Z.to_euclidean_division_equations. lia. Qed.
Lemma ctail3_ok a b : is_byte a -> is_byte b -> digits_in 0 7 (ctail3 a b) /\ dval 8 (ctail3 a b) = (a + 256 * b) mod 32768.
Proof. unfold is_byte, ctail3. intros. split; [in_digits|]. cbn [dval]. Z.to_euclidean_division_equations. lia. Qed.
Lemma cgrp5_ok a b c d e : is_byte a -> is_byte b -> is_byte c -> is_byte d -> is_byte e ->
  digits_in 0 31 (cgrp5 a b c d e) /\ dval 32 (cgrp5 a b c d e) = a + 256 * b + 65536 * c + 16777216 * d + 4294967296 * e.
Proof. unfold is_byte, cgrp5. intros. split; [in_digits|]. cbn [dval]. Z.to_euclidean_division_equations. lia. Qed.
Lemma ctail5_ok a b : is_byte a -> is_byte b -> digits_in 0 31 (ctail5 a b) /\ dval 32 (ctail5 a b) = (a + 256 * b) mod 32768.
Proof. unfold is_byte, ctail5. intros. split; [in_digits|]. cbn [dval]. Z.to_euclidean_division_equations. lia. Qed.

Lemma shr_lit b k : 0 <= k -> Z.shiftr b k = b / 2 ^ k.
Proof. apply shr. Qed.

Lemma flat_map_dval {A} B (g : A -> list Z) ls len lo hi : (forall i, In i ls -> length (g i) = len /\ digits_in lo hi (g i)) ->
  digits_in lo hi (flat_map g ls) /\ length (flat_map g ls) = (length ls * len)%nat /\
  dval B (flat_map g ls) = fold_right (fun i acc => dval B (g i) + B ^ Z.of_nat len * acc) 0 ls.
Proof.
  induction ls as [|i ls IH]; intro h.
  - cbn. repeat split. constructor.
  - destruct (h i (or_introl eq_refl)) as [h1 h2]. destruct IH as (h3 & h4 & h5); [intros j hj; apply h; right; exact hj|].
    cbn [flat_map length fold_right]. refine (conj _ (conj _ _)).
    + apply digits_in_app; assumption.
    + rewrite app_length, h1, h4. lia.
    + rewrite dval_app, h1, h5. reflexivity.
Qed.

Lemma win3_raw_eq s : bytes 32 s -> win3_raw s =
  flat_map (fun i => cgrp3 (at_ s (3 * i + 0)) (at_ s (3 * i + 1)) (at_ s (3 * i + 2))) (seq 0 10) ++ ctail3 (at_ s 30) (at_ s 31).
Proof.
  intro hs. assert (hb : forall i, is_byte (at_ s i)) by (intro; eapply at_byte; eassumption).
  unfold win3_raw. cbv zeta. change 7 with (2 ^ 3 - 1).
  assert (l0 : forall b, i8 (Z.land b (2 ^ 3 - 1)) = b mod 8) by (intro b; rewrite <- (Z.shiftr_0_r b) at 1; rewrite c_lo by (left; reflexivity); rewrite Z.shiftr_0_r; reflexivity).
  f_equal.
  - apply flat_map_ext. intro i. unfold cgrp3. rewrite !(fun a b => c_mid 3 a b 6 2 (or_introl eq_refl)), !(fun a b => c_mid 3 a b 7 1 (or_introl eq_refl)) by (try apply hb; lia).
    rewrite !l0, !shr by lia. reflexivity.
  - unfold ctail3. rewrite !(fun a b => c_mid 3 a b 6 2 (or_introl eq_refl)) by (try apply hb; lia). rewrite !l0, !shr by lia. reflexivity.
Qed.
Lemma win5_raw_eq s : bytes 32 s -> win5_raw s =
  flat_map (fun i => cgrp5 (at_ s (5 * i + 0)) (at_ s (5 * i + 1)) (at_ s (5 * i + 2)) (at_ s (5 * i + 3)) (at_ s (5 * i + 4))) (seq 0 6) ++ ctail5 (at_ s 30) (at_ s 31).
Proof.
  intro hs. assert (hb : forall i, is_byte (at_ s i)) by (intro; eapply at_byte; eassumption).
  unfold win5_raw. cbv zeta. change 31 with (2 ^ 5 - 1).
  assert (l0 : forall b, i8 (Z.land b (2 ^ 5 - 1)) = b mod 32) by (intro b; rewrite <- (Z.shiftr_0_r b) at 1; rewrite c_lo by (right; reflexivity); rewrite Z.shiftr_0_r; reflexivity).
  f_equal.
  - apply flat_map_ext. intro i. unfold cgrp5.
    rewrite !(fun a b => c_mid 5 a b 5 3 (or_intror eq_refl)), !(fun a b => c_mid 5 a b 7 1 (or_intror eq_refl)), !(fun a b => c_mid 5 a b 4 4 (or_intror eq_refl)), !(fun a b => c_mid 5 a b 6 2 (or_intror eq_refl)) by (try apply hb; lia).
    rewrite !l0, !shr by lia. reflexivity.
  - unfold ctail5. rewrite !(fun a b => c_mid 5 a b 5 3 (or_intror eq_refl)) by (try apply hb; lia). rewrite !l0, !shr by lia. reflexivity.
Qed.

(** the value of the unsigned digits: bytes 0..29, then 15 bits of bytes 30 and 31 *)
Lemma split30 s : bytes 32 s -> le_val s mod 2 ^ 255 = psum 30 s + 256 ^ 30 * ((at_ s 30 + 256 * at_ s 31) mod 32768).
Proof.
  intro hs. rewrite <- (psum_bytes 32 s hs). rewrite (psum_S 31), (psum_S 30), (pw256_S 30).
  pose proof (psum_range 30 s (fun i _ => at_byte 32 s i hs)) as r. revert r. generalize (psum 30 s). intros z r.
  change (256 ^ 30) with (pw256 30). assert (e : 2 ^ 255 = pw256 30 * 32768) by (vm_compute; reflexivity). rewrite e.
  pose proof (pw256_pos 30) as hp. revert r hp. generalize (pw256 30). intros P r hp.
  set (t := at_ s 30 + 256 * at_ s 31). replace (z + at_ s 30 * P + at_ s 31 * (256 * P)) with (z + P * t) by (unfold t; ring).
  clearbody t. pose proof (Z.div_mod t 32768 ltac:(lia)) as d1. pose proof (Z.mod_pos_bound t 32768 ltac:(lia)) as d2.
  set (q := t / 32768) in *. set (m := t mod 32768) in *. clearbody q m. subst t.
  symmetry. apply Zmod_unique with q; [|ring].
  assert (P * m <= P * 32767) by (apply Z.mul_le_mono_nonneg_l; lia). assert (0 <= P * m) by (apply Z.mul_nonneg_nonneg; lia). lia.
Qed.

Ltac lit_pw := repeat match goal with |- context [pw256 ?n] => let v := eval vm_compute in (pw256 n) in replace (pw256 n) with v by (vm_compute; reflexivity) end.

Lemma win3_raw_ok s : bytes 32 s -> length (win3_raw s) = 85%nat /\ digits_in 0 7 (win3_raw s) /\
  dval 8 (win3_raw s) = le_val s mod 2 ^ 255 /\ at_ (win3_raw s) 84 = at_ s 31 / 16 mod 8.
Proof.
  intro hs. assert (hb : forall i, is_byte (at_ s i)) by (intro; eapply at_byte; eassumption).
  rewrite (win3_raw_eq s hs).
  set (g := fun i => cgrp3 (at_ s (3 * i + 0)) (at_ s (3 * i + 1)) (at_ s (3 * i + 2))).
  destruct (flat_map_dval 8 g (seq 0 10) 8 0 7) as (h1 & h2 & h3); [intros i _; split; [reflexivity | apply cgrp3_ok; apply hb]|].
  destruct (ctail3_ok (at_ s 30) (at_ s 31)) as [t1 t2]; try apply hb.
  refine (conj _ (conj _ (conj _ _))).
  - rewrite app_length, h2. reflexivity.
  - apply digits_in_app; assumption.
  - rewrite dval_app, h2, h3, t2, split30 by exact hs. rewrite seq_length. change (8 ^ Z.of_nat (10 * 8)) with (256 ^ 30). f_equal.
    assert (hg : forall i, dval 8 (g i) = at_ s (3 * i + 0) + 256 * at_ s (3 * i + 1) + 65536 * at_ s (3 * i + 2)) by (intro i; apply cgrp3_ok; apply hb).
    cbn [seq fold_right]. rewrite !hg. change (8 ^ Z.of_nat 8) with 16777216. unfold psum. cbn [sumz Nat.mul Nat.add]. lit_pw. lia.
  - unfold at_ at 1. rewrite app_nth2 by (rewrite h2, seq_length; lia). rewrite h2. reflexivity.
Qed.
Lemma win5_raw_ok s : bytes 32 s -> length (win5_raw s) = 51%nat /\ digits_in 0 31 (win5_raw s) /\
  dval 32 (win5_raw s) = le_val s mod 2 ^ 255 /\ at_ (win5_raw s) 50 = at_ s 31 / 4 mod 32.
Proof.
  intro hs. assert (hb : forall i, is_byte (at_ s i)) by (intro; eapply at_byte; eassumption).
  rewrite (win5_raw_eq s hs).
  set (g := fun i => cgrp5 (at_ s (5 * i + 0)) (at_ s (5 * i + 1)) (at_ s (5 * i + 2)) (at_ s (5 * i + 3)) (at_ s (5 * i + 4))).
  destruct (flat_map_dval 32 g (seq 0 6) 8 0 31) as (h1 & h2 & h3); [intros i _; split; [reflexivity | apply cgrp5_ok; apply hb]|].
  destruct (ctail5_ok (at_ s 30) (at_ s 31)) as [t1 t2]; try apply hb.
  refine (conj _ (conj _ (conj _ _))).
  - rewrite app_length, h2. reflexivity.
  - apply digits_in_app; assumption.
  - rewrite dval_app, h2, h3, t2, split30 by exact hs. rewrite seq_length. change (32 ^ Z.of_nat (6 * 8)) with (256 ^ 30). f_equal.
    assert (hg : forall i, dval 32 (g i) = at_ s (5 * i + 0) + 256 * at_ s (5 * i + 1) + 65536 * at_ s (5 * i + 2) + 16777216 * at_ s (5 * i + 3) + 4294967296 * at_ s (5 * i + 4)) by (intro i; apply cgrp5_ok; apply hb).
    cbn [seq fold_right]. rewrite !hg. change (32 ^ Z.of_nat 8) with 1099511627776. unfold psum. cbn [sumz Nat.mul Nat.add]. lit_pw. lia.
  - unfold at_ at 1. rewrite app_nth2 by (rewrite h2, seq_length; lia). rewrite h2. reflexivity.
Qed.

Lemma top_small s : bytes 32 s -> le_val s < 2 ^ 254 -> at_ s 31 < 64.
Proof. intros hs hv. apply top_byte; [exact hs|]. change (256 ^ 31 * 64) with (2 ^ 254). exact hv. Qed.

(** [scalar_window3]: 85 digits between -4 and 4 that represent the scalar in base 8 *)
Theorem cs_window3_ok s : bytes 32 s -> le_val s < 2 ^ 254 ->
  length (cs_window3 s) = 85%nat /\ digits_in (-4) 4 (cs_window3 s) /\ dval 8 (cs_window3 s) = le_val s /\
  (forall i, (i < 84)%nat -> -4 <= at_ (cs_window3 s) i <= 3) /\ 0 <= at_ (cs_window3 s) 84 <= at_ s 31 / 16 + 1.
Proof.
  intros hs hv. destruct (win3_raw_ok s hs) as (l0 & r0 & v0 & t0). pose proof (top_small s hs hv) as ht.
  pose proof (at_byte 32 s 31 hs) as hb. unfold is_byte in hb.
  rewrite Z.mod_small in v0 by (pose proof (le_nonneg _ s hs); lia).
  pose proof (win_finish 3 8 84 (win3_raw s) (or_introl (conj eq_refl eq_refl)) r0 l0) as h.
  specialize (h ltac:(rewrite t0; change (8 / 2) with 4; clear -ht hb; Z.to_euclidean_division_equations; lia)).
  unfold cs_window3. destruct (for_up 84 (win_step 3) (win3_raw s, 0)) as [r c]. cbv zeta in h. destruct h as (h1 & h2 & h3 & h4 & h5).
  rewrite v0 in h3. refine (conj h1 (conj h2 (conj h3 (conj h4 _)))). rewrite t0 in h5. rewrite Z.mod_small in h5; [exact h5|].
  clear -ht hb. Z.to_euclidean_division_equations; lia.
Qed.
(** [scalar_window5] *)
Theorem cs_window5_ok s : bytes 32 s -> le_val s < 2 ^ 254 ->
  length (cs_window5 s) = 51%nat /\ digits_in (-16) 16 (cs_window5 s) /\ dval 32 (cs_window5 s) = le_val s.
Proof.
  intros hs hv. destruct (win5_raw_ok s hs) as (l0 & r0 & v0 & t0). pose proof (top_small s hs hv) as ht.
  pose proof (at_byte 32 s 31 hs) as hb. unfold is_byte in hb.
  rewrite Z.mod_small in v0 by (pose proof (le_nonneg _ s hs); lia).
  pose proof (win_finish 5 32 50 (win5_raw s) (or_intror (conj eq_refl eq_refl)) r0 l0) as h.
  specialize (h ltac:(rewrite t0; change (32 / 2) with 16; clear -ht hb; Z.to_euclidean_division_equations; lia)).
  unfold cs_window5. destruct (for_up 50 (win_step 5) (win5_raw s, 0)) as [r c]. cbv zeta in h. destruct h as (h1 & h2 & h3 & _).
  rewrite v0 in h3. refine (conj h1 (conj h2 h3)).
Qed.
