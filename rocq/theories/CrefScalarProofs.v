(** Proofs about the scalar arithmetic of /repo/cref/cref.c: every operation is arithmetic modulo the group order. *)
From Coq Require Import ZArith List Lia Bool.
From Verif Require Import Words FieldModel WindowProofs Primes ScalarFacts ScalarCode CrefScalar.
Import ListNotations.
Open Scope Z_scope.

(** ** Finite sums *)
Fixpoint sumz (n : nat) (f : nat -> Z) : Z := match n with O => 0 | S m => sumz m f + f m end.

Lemma sumz_ext n f g : (forall i, (i < n)%nat -> f i = g i) -> sumz n f = sumz n g.
Proof. induction n; intro h; cbn; [reflexivity|]. rewrite IHn, h by (intros; try apply h; lia). reflexivity. Qed.
Lemma sumz_mul n f c : sumz n (fun i => c * f i) = c * sumz n f.
Proof. induction n; cbn; [ring | rewrite IHn; ring]. Qed.
Lemma sumz_mul_r n f c : sumz n (fun i => f i * c) = sumz n f * c.
Proof. induction n; cbn; [ring | rewrite IHn; ring]. Qed.
Lemma sumz_add n f g : sumz n (fun i => f i + g i) = sumz n f + sumz n g.
Proof. induction n; cbn; [ring | rewrite IHn; ring]. Qed.
Lemma sumz_sub n f g : sumz n (fun i => f i - g i) = sumz n f - sumz n g.
Proof. induction n; cbn; [ring | rewrite IHn; ring]. Qed.
Lemma sumz_le n f g : (forall i, (i < n)%nat -> f i <= g i) -> sumz n f <= sumz n g.
Proof. induction n; intro h; cbn; [lia|]. specialize (IHn ltac:(intros; apply h; lia)). specialize (h n ltac:(lia)). lia. Qed.
Lemma sumz_nonneg n f : (forall i, (i < n)%nat -> 0 <= f i) -> 0 <= sumz n f.
Proof. induction n; intro h; cbn; [lia|]. specialize (IHn ltac:(intros; apply h; lia)). specialize (h n ltac:(lia)). lia. Qed.
Lemma sumz_mono n m f : (n <= m)%nat -> (forall i, (i < m)%nat -> 0 <= f i) -> sumz n f <= sumz m f.
Proof.
  induction m; intros h hf; [replace n with 0%nat by lia; lia|].
  destruct (Nat.eq_dec n (S m)) as [->|]; [lia|]. cbn.
  specialize (IHm ltac:(lia) ltac:(intros; apply hf; lia)). specialize (hf m ltac:(lia)). lia.
Qed.
Lemma sumz_split n m f : sumz (n + m) f = sumz n f + sumz m (fun i => f (n + i)%nat).
Proof. induction m; [rewrite Nat.add_0_r; cbn; ring|]. rewrite Nat.add_succ_r. cbn. rewrite IHm. ring. Qed.
Lemma sumz_mod n f k : (forall i, (i < n)%nat -> f i mod k = 0) -> k <> 0 -> sumz n f mod k = 0.
Proof.
  intros h hk. induction n; cbn [sumz]; [apply Zmod_0_l|].
  rewrite Z.add_mod, IHn, h by (intros; try apply h; lia). apply Zmod_0_l.
Qed.

(** ** Values of digit lists *)
Definition pw256 (i : nat) : Z := 256 ^ Z.of_nat i.
Definition psum (k : nat) (w : list Z) : Z := sumz k (fun i => at_ w i * pw256 i).

Lemma psum_S k w : psum (S k) w = psum k w + at_ w k * pw256 k.
Proof. reflexivity. Qed.
Lemma pw256_S i : pw256 (S i) = 256 * pw256 i.
Proof. unfold pw256. rewrite Nat2Z.inj_succ, Z.pow_succ_r by lia. reflexivity. Qed.
Lemma pw256_pos i : 0 < pw256 i.
Proof. apply Z.pow_pos_nonneg; lia. Qed.
Lemma pw256_add i j : pw256 (i + j) = pw256 i * pw256 j.
Proof. unfold pw256. rewrite Nat2Z.inj_add, Z.pow_add_r by lia. reflexivity. Qed.

Lemma psum_le_val s : psum (length s) s = le_val s.
Proof.
  unfold psum. induction s as [|b s IH]; [reflexivity|].
  cbn [length le_val]. change (S (length s)) with (1 + length s)%nat. rewrite sumz_split.
  cbn [sumz]. replace (at_ (b :: s) 0) with b by reflexivity. change (pw256 0) with 1.
  rewrite <- IH, <- sumz_mul. rewrite Z.add_0_l, Z.mul_1_r. f_equal.
  apply sumz_ext. intros i _. change (1 + i)%nat with (S i). rewrite pw256_S. change (at_ (b :: s) (S i)) with (at_ s i). ring.
Qed.
Lemma psum_bytes n s : bytes n s -> psum n s = le_val s.
Proof. intros [<- _]. apply psum_le_val. Qed.

Lemma psum_ext k u v : (forall i, (i < k)%nat -> at_ u i = at_ v i) -> psum k u = psum k v.
Proof. intro h. apply sumz_ext. intros i hi. now rewrite h. Qed.
Lemma psum_upd_out k w i x : (k <= i)%nat -> psum k (upd w i x) = psum k w.
Proof. intro h. apply psum_ext. intros j hj. apply at_upd_neq. lia. Qed.
Lemma psum_upd_in k w i x : (i < k)%nat -> (i < length w)%nat -> psum k (upd w i x) = psum k w + (x - at_ w i) * pw256 i.
Proof.
  intros hi hl. induction k; [lia|]. unfold psum in *. cbn [sumz].
  destruct (Nat.eq_dec i k) as [->|hn].
  - rewrite at_upd_eq by assumption.
    rewrite (sumz_ext k _ (fun i => at_ w i * pw256 i)) by (intros j hj; rewrite at_upd_neq by lia; reflexivity). ring.
  - rewrite IHk by lia. rewrite at_upd_neq by lia. ring.
Qed.
Lemma psum_range k w : (forall i, (i < k)%nat -> is_byte (at_ w i)) -> 0 <= psum k w < pw256 k.
Proof.
  induction k; intro h; [unfold psum; cbn; lia|]. unfold psum in *. cbn [sumz].
  specialize (IHk ltac:(intros; apply h; lia)). specialize (h k ltac:(lia)). unfold is_byte in h.
  rewrite pw256_S. pose proof (pw256_pos k). nia.
Qed.
Lemma bytes_at n s : length s = n -> (forall i, (i < n)%nat -> is_byte (at_ s i)) -> bytes n s.
Proof.
  intros hl h. split; [exact hl|]. apply Forall_forall. intros x hx. apply (In_nth _ _ 0) in hx.
  destruct hx as [i [hi e]]. rewrite <- e. apply h. lia.
Qed.

(** ** The subtraction loop *)
Lemma c_lt_ok a b : is_byte a -> 0 <= b <= 256 -> c_lt a b = if a <? b then 1 else 0.
Proof.
  unfold is_byte, c_lt. intros ha hb. rewrite shr by lia. change (2 ^ 31) with 2147483648. unfold u32.
  destruct (Z.ltb_spec a b) as [h|h].
  - replace (a - b) with ((a - b + 4294967296) + (-1) * 4294967296) by ring. rewrite Z.mod_add, Z.mod_small by lia.
    symmetry. apply Z.div_unique with (a - b + 2147483648); lia.
  - rewrite Z.mod_small by lia. apply Z.div_small. lia.
Qed.

Lemma sub_loop_ok st n r s k : (forall v, is_byte v -> st v = v) -> (k <= n)%nat ->
  (forall i, (i < n)%nat -> is_byte (at_ r i)) -> (forall i, (i < n)%nat -> is_byte (at_ s i)) ->
  let '(t, b) := for_up k (sub_step st r s) (repeat 0 n, 0) in
  length t = n /\ (forall i, is_byte (at_ t i)) /\ (b = 0 \/ b = 1) /\ psum k t - pw256 k * b = psum k r - psum k s.
Proof.
  intros hst hk hr hs. induction k as [|k IH].
  - cbn. rewrite repeat_length. refine (conj eq_refl (conj _ (conj (or_introl eq_refl) eq_refl))).
    intro i. unfold at_, is_byte. assert (e : nth i (repeat 0 n) 0 = 0).
    { destruct (Nat.lt_ge_cases i n) as [hi|hi]; [apply nth_repeat | apply nth_overflow; rewrite repeat_length; exact hi]. }
    rewrite e. lia.
  - cbn [for_up]. specialize (IH ltac:(lia)). destruct (for_up k _ _) as [t b]. destruct IH as (hl & ht & hb & hv).
    cbn [sub_step]. cbv zeta. specialize (hr k ltac:(lia)). specialize (hs k ltac:(lia)).
    assert (hpb : u32 (b + at_ s k) = b + at_ s k) by (apply u32_small; unfold is_byte in hs; lia).
    rewrite hpb. rewrite c_lt_ok; [| assumption | unfold is_byte in hs; lia].
    set (pb := b + at_ s k) in *. assert (hpb' : 0 <= pb <= 256) by (unfold pb, is_byte in *; lia).
    assert (key : exists v c, st (u32 (at_ r k - pb + u32 (Z.shiftl (if at_ r k <? pb then 1 else 0) 8))) = v /\
       (if at_ r k <? pb then 1 else 0) = c /\ is_byte v /\ (c = 0 \/ c = 1) /\ v - 256 * c = at_ r k - pb).
    { eexists. eexists. split; [reflexivity|]. split; [reflexivity|].
      unfold is_byte in *. destruct (Z.ltb_spec (at_ r k) pb) as [h|h].
      - change (u32 (Z.shiftl 1 8)) with 256. rewrite u32_small by lia. rewrite hst by (unfold is_byte; lia). lia.
      - change (u32 (Z.shiftl 0 8)) with 0. rewrite u32_small by lia. rewrite hst by (unfold is_byte; lia). lia. }
    destruct key as (v & c & -> & -> & hv' & hc & hvc).
    refine (conj _ (conj _ (conj hc _))).
    + now rewrite upd_length.
    + intro i. destruct (Nat.eq_dec k i) as [<-|hn]; [rewrite at_upd_eq by lia; exact hv' | rewrite at_upd_neq by exact hn; apply ht].
    + rewrite pw256_S. unfold psum in *. cbn [sumz].
      fold (psum k (upd t k v)). rewrite psum_upd_out by lia. rewrite at_upd_eq by lia.
      unfold psum. unfold pb in hvc. pose proof (pw256_pos k). nia.
Qed.

(** ** [reduce_add_sub] *)
Lemma lit32 : pw256 32 = 115792089237316195423570985008687907853269984665640564039457584007913129639936.
Proof. vm_compute. reflexivity. Qed.
Lemma cm_val : psum 32 cm = l.
Proof. vm_compute. reflexivity. Qed.
Lemma cm_byte i : is_byte (at_ cm i).
Proof.
  assert (h : bytes 32 cm) by (split; [reflexivity | unfold cm; repeat constructor; cbv; easy]).
  exact (at_byte 32 cm i h).
Qed.
Lemma cmu_byte i : is_byte (at_ cmu i).
Proof.
  assert (h : bytes 33 cmu) by (split; [reflexivity | unfold cmu; repeat constructor; cbv; easy]).
  exact (at_byte 33 cmu i h).
Qed.

Lemma select_loop t mask r k : (k <= length r)%nat ->
  let r' := for_up k (fun i r => upd r i (Z.lxor (at_ r i) (Z.land mask (Z.lxor (at_ r i) (at_ t i))))) r in
  length r' = length r /\
  (forall i, (i < k)%nat -> at_ r' i = Z.lxor (at_ r i) (Z.land mask (Z.lxor (at_ r i) (at_ t i)))) /\
  (forall i, (k <= i)%nat -> at_ r' i = at_ r i).
Proof.
  induction k as [|k IH]; intro hk; cbn [for_up].
  - cbv zeta. refine (conj eq_refl (conj _ _)); intros; [lia | reflexivity].
  - specialize (IH ltac:(lia)). cbv zeta in *. destruct IH as (hl & h1 & h2).
    refine (conj _ (conj _ _)).
    + now rewrite upd_length.
    + intros i hi. destruct (Nat.eq_dec k i) as [<-|hn].
      * rewrite at_upd_eq by lia. rewrite h2 by lia. reflexivity.
      * rewrite at_upd_neq by exact hn. apply h1. lia.
    + intros i hi. rewrite at_upd_neq by lia. apply h2. lia.
Qed.

Lemma byte_land_mask a : is_byte a -> Z.land 4294967295 a = a.
Proof. intro h. change 4294967295 with (Z.ones 32). rewrite Z.land_comm, Z.land_ones by lia. apply Z.mod_small. unfold is_byte in h. lia. Qed.
Lemma lxor_byte a b : is_byte a -> is_byte b -> is_byte (Z.lxor a b).
Proof.
  unfold is_byte. intros ha hb. assert (0 <= Z.lxor a b) by (apply Z.lxor_nonneg; lia). split; [assumption|].
  destruct (Z.eq_dec (Z.lxor a b) 0) as [->|]; [lia|].
  apply Z.log2_lt_pow2 with (b := 8); [lia|].
  eapply Z.le_lt_trans; [apply Z.log2_lxor; lia|].
  assert (forall c, 0 <= c < 256 -> Z.log2 c < 8).
  { intros c hc. destruct (Z.eq_dec c 0) as [->|]; [cbn; lia|]. apply Z.log2_lt_pow2; lia. }
  apply Z.max_lub_lt; auto.
Qed.

Theorem reduce_add_sub_ok r : bytes 32 r ->
  bytes 32 (reduce_add_sub r) /\ le_val (reduce_add_sub r) = if le_val r <? l then le_val r else le_val r - l.
Proof.
  intro hr. unfold reduce_add_sub.
  pose proof (sub_loop_ok u8 32 r cm 32 u8_small ltac:(lia) (fun i _ => at_byte 32 r i hr) (fun i _ => cm_byte i)) as hs.
  destruct (for_up 32 (sub_step u8 r cm) (repeat 0 32, 0)) as [t b]. destruct hs as (hl & ht & hb & hv).
  cbv zeta. pose proof (select_loop t (u32 (b - 1)) r 32) as hsel.
  cbv zeta in hsel. destruct hr as [hrl hrb]. specialize (hsel ltac:(lia)).
  set (r' := for_up 32 _ r) in *. clearbody r'. destruct hsel as (hl' & he & _).
  assert (hr : bytes 32 r) by (split; assumption).
  assert (hrv : psum 32 r = le_val r) by (apply psum_bytes; exact hr).
  pose proof (psum_range 32 t (fun i _ => ht i)) as rt. pose proof (psum_range 32 r (fun i _ => at_byte 32 r i hr)) as rr.
  rewrite cm_val, hrv in hv. rewrite hrv in rr. rewrite lit32 in *. rewrite l_lit in *.
  assert (sel : forall i, (i < 32)%nat -> at_ r' i = if b =? 1 then at_ r i else at_ t i).
  { intros i hi. rewrite he by exact hi. destruct hb as [-> | ->].
    - change (u32 (0 - 1)) with 4294967295. change (0 =? 1) with false. cbv iota.
      rewrite byte_land_mask by (apply lxor_byte; [exact (at_byte 32 r i hr) | apply ht]).
      rewrite <- Z.lxor_assoc, Z.lxor_nilpotent. apply Z.lxor_0_l.
    - change (u32 (1 - 1)) with 0. change (1 =? 1) with true. cbv iota. rewrite Z.land_0_l. apply Z.lxor_0_r. }
  assert (hb' : bytes 32 r').
  { apply bytes_at; [lia|]. intros i hi. rewrite sel by exact hi. destruct (b =? 1); [exact (at_byte 32 r i hr) | apply ht]. }
  split; [exact hb'|]. rewrite <- (psum_bytes 32 r' hb').
  destruct hb as [-> | ->].
  - rewrite (psum_ext 32 r' t) by exact sel.
    destruct (Z.ltb_spec (le_val r) 7237005577332262213973186563042994240857116359379907606001950938285454250989); lia.
  - rewrite (psum_ext 32 r' r) by exact sel. rewrite hrv.
    destruct (Z.ltb_spec (le_val r) 7237005577332262213973186563042994240857116359379907606001950938285454250989); lia.
Qed.

(** ** Carry propagation *)
Lemma carry_loop_ok L M M' r k : length r = L -> (k < L)%nat ->
  (forall i, (i < L)%nat -> 0 <= at_ r i <= M) -> M + M' / 256 <= M' -> 0 <= M' < 4294967296 ->
  let w := for_up k carry_step r in
  length w = L /\ psum L w = psum L r /\ (forall i, (i < k)%nat -> is_byte (at_ w i)) /\
  0 <= at_ w k <= M' /\ (forall i, (k < i)%nat -> at_ w i = at_ r i).
Proof.
  intros hl hk hr hM hM'. induction k as [|k IH]; cbn [for_up]; cbv zeta.
  - refine (conj hl (conj eq_refl (conj _ (conj _ _)))); [intros; lia | | reflexivity].
    specialize (hr 0%nat hk). assert (0 <= M' / 256) by (apply Z.div_pos; lia). lia.
  - specialize (IH ltac:(lia)). cbv zeta in IH. set (w := for_up k carry_step r) in *. clearbody w.
    destruct IH as (h1 & h2 & h3 & h4 & h5). unfold carry_step. cbv zeta. rewrite shr by lia. change (2 ^ 8) with 256.
    rewrite Nat.add_1_r. pose proof (hr (S k) hk) as hS. rewrite <- (h5 (S k)) in hS by lia.
    pose proof (Z.div_mod (at_ w k) 256 ltac:(lia)) as dm. pose proof (Z.mod_pos_bound (at_ w k) 256 ltac:(lia)) as mb.
    assert (dl : at_ w k / 256 <= M' / 256) by (apply Z.div_le_mono; lia).
    assert (d0 : 0 <= at_ w k / 256) by (apply Z.div_pos; lia).
    rewrite u32_small by lia. rewrite (at_upd_neq w (S k) k) by lia.
    change 255 with (Z.ones 8). rewrite Z.land_ones by lia. change (2 ^ 8) with 256.
    refine (conj _ (conj _ (conj _ (conj _ _)))).
    + now rewrite !upd_length.
    + rewrite psum_upd_in by (rewrite ?upd_length; lia). rewrite psum_upd_in by (rewrite ?upd_length; lia).
      rewrite (at_upd_neq w (S k) k) by lia. rewrite pw256_S, h2. pose proof (pw256_pos k). nia.
    + intros i hi. destruct (Nat.eq_dec k i) as [<-|hn].
      * rewrite at_upd_eq by (rewrite upd_length; lia). exact mb.
      * rewrite at_upd_neq by exact hn. rewrite at_upd_neq by lia. apply h3. lia.
    + rewrite at_upd_neq by lia. rewrite at_upd_eq by lia. lia.
    + intros i hi. rewrite !at_upd_neq by lia. apply h5. lia.
Qed.

(** ** Accumulation of partial products *)
Definition accval (cond : nat -> nat -> bool) (a b : nat -> Z) (n1 n2 : nat) : Z :=
  sumz n1 (fun i => sumz n2 (fun j => if cond i j then a i * b j * pw256 (i + j) else 0)).

Lemma acc_loop_ok L n1 n2 cond a b lo Q A :
  (n1 + n2 <= L + 1)%nat \/ (forall i j, cond i j = true -> (i + j < L)%nat) ->
  (forall i j, cond i j = true -> (lo <= i + j)%nat) ->
  (forall i, (i < n1)%nat -> 0 <= a i) -> (forall j, (j < n2)%nat -> 0 <= b j <= Q) -> 0 <= Q -> sumz n1 a = A -> A * Q < 4294967296 ->
  let w := acc_loop n1 n2 cond a b (repeat 0 L) in
  length w = L /\ psum L w = accval cond a b n1 n2 /\ (forall k, 0 <= at_ w k <= A * Q) /\ (forall k, (k < lo)%nat -> at_ w k = 0).
Proof.
  intros hL hlo ha hb hQ hA hW. cbv zeta. unfold acc_loop.
  set (inner := fun (i : nat) (t : list Z) => for_up n2 _ t).
  assert (main : forall m, (m <= n1)%nat ->
    let w := for_up m inner (repeat 0 L) in
    length w = L /\ psum L w = accval cond a b m n2 /\ (forall k, 0 <= at_ w k <= sumz m a * Q) /\ (forall k, (k < lo)%nat -> at_ w k = 0)).
  { induction m as [|m IH]; intro hm; cbn [for_up]; cbv zeta.
    - assert (e0 : forall k, at_ (repeat 0 L) k = 0).
      { intro k. unfold at_. destruct (Nat.lt_ge_cases k L) as [hi|hi]; [apply nth_repeat | apply nth_overflow; rewrite repeat_length; exact hi]. }
      refine (conj (repeat_length 0 L) (conj _ (conj _ _))).
      + unfold psum. rewrite (sumz_ext L _ (fun _ => 0 * 0)) by (intros; rewrite e0; ring). rewrite sumz_mul. reflexivity.
      + intro k. rewrite e0. cbn. lia.
      + intros; apply e0.
    - specialize (IH ltac:(lia)). cbv zeta in IH. set (w := for_up m inner (repeat 0 L)) in *. clearbody w.
      destruct IH as (hl & hv & hbd & h0). unfold inner.
      assert (in_ : forall q, (q <= n2)%nat ->
        let u := for_up q (fun j t => if cond m j then upd t (m + j) (u32 (at_ t (m + j) + u32 (a m * b j))) else t) w in
        length u = L /\ psum L u = psum L w + sumz q (fun j => if cond m j then a m * b j * pw256 (m + j) else 0) /\
        (forall k, 0 <= at_ u k <= sumz m a * Q + (if (k <? m + q)%nat then a m * Q else 0)) /\ (forall k, (k < lo)%nat -> at_ u k = 0)).
      { induction q as [|q IHq]; intro hq; cbn [for_up]; cbv zeta.
        - refine (conj hl (conj _ (conj _ h0))); [cbn; ring|].
          intro k. specialize (hbd k). specialize (ha m ltac:(lia)). destruct (k <? m + 0)%nat; nia.
        - specialize (IHq ltac:(lia)). cbv zeta in IHq. set (u := for_up q _ w) in *. clearbody u.
          destruct IHq as (ul & uv & ub & u0).
          assert (am := ha m ltac:(lia)). assert (bq := hb q ltac:(lia)).
          assert (mon : forall k, (if (k <? m + q)%nat then a m * Q else 0) <= (if (k <? m + S q)%nat then a m * Q else 0)).
          { intro k. destruct (Nat.ltb_spec k (m + q)), (Nat.ltb_spec k (m + S q)); try lia; nia. }
          destruct (cond m q) eqn:ec; cbn [sumz]; rewrite ?ec.
          + assert (hin : (m + q < L)%nat) by (destruct hL as [hL|hL]; [lia | exact (hL _ _ ec)]).
            assert (hs : sumz m a + a m <= A).
            { rewrite <- hA. change (sumz m a + a m) with (sumz (S m) a). apply sumz_mono; [lia | exact ha]. }
            assert (sm : 0 <= sumz m a) by (apply sumz_nonneg; intros; apply ha; lia).
            assert (pq : 0 <= a m * b q <= a m * Q) by nia.
            pose proof (ub (m + q)%nat) as ubq. rewrite Nat.ltb_irrefl in ubq.
            assert (hAQ : sumz m a * Q + a m * Q <= A * Q) by nia.
            assert (0 <= sumz m a * Q) by nia.
            rewrite (u32_small (a m * b q)) by lia. rewrite u32_small by lia.
            refine (conj _ (conj _ (conj _ _))).
            * now rewrite upd_length.
            * rewrite psum_upd_in by lia. rewrite uv. ring.
            * intro k. destruct (Nat.eq_dec (m + q) k) as [<-|hn].
              -- rewrite at_upd_eq by lia. destruct (Nat.ltb_spec (m + q) (m + S q)); [lia | lia].
              -- rewrite at_upd_neq by exact hn. specialize (ub k). specialize (mon k). lia.
            * intros k hk. specialize (hlo _ _ ec). rewrite at_upd_neq by lia. apply u0; exact hk.
          + refine (conj ul (conj _ (conj _ u0))); [rewrite uv; ring|].
            intro k. specialize (ub k). specialize (mon k). lia. }
      specialize (in_ n2 ltac:(lia)). cbv zeta in in_. set (u := for_up n2 _ w) in *. clearbody u.
      destruct in_ as (ul & uv & ub & u0). refine (conj ul (conj _ (conj _ u0))).
      + rewrite uv, hv. reflexivity.
      + intro k. specialize (ub k). cbn [sumz]. specialize (ha m ltac:(lia)). destruct (k <? m + n2)%nat; nia. }
  specialize (main n1 ltac:(lia)). cbv zeta in main. rewrite hA in main. exact main.
Qed.

Lemma accval_full a b n1 n2 : accval (fun _ _ => true) a b n1 n2 = sumz n1 (fun i => a i * pw256 i) * sumz n2 (fun j => b j * pw256 j).
Proof.
  unfold accval. rewrite <- sumz_mul_r. apply sumz_ext. intros i _. rewrite <- sumz_mul. apply sumz_ext. intros j _.
  rewrite pw256_add. ring.
Qed.

Lemma accval_split cond a b n1 n2 :
  accval (fun _ _ => true) a b n1 n2 = accval cond a b n1 n2 + accval (fun i j => negb (cond i j)) a b n1 n2.
Proof.
  unfold accval. rewrite <- sumz_add. apply sumz_ext. intros i _. rewrite <- sumz_add. apply sumz_ext. intros j _.
  destruct (cond i j); cbn [negb]; ring.
Qed.

Lemma accval_ext cond cond' a b n1 n2 : (forall i j, cond i j = cond' i j) -> accval cond a b n1 n2 = accval cond' a b n1 n2.
Proof. intro h. unfold accval. apply sumz_ext. intros i _. apply sumz_ext. intros j _. now rewrite h. Qed.

Lemma pw256_le i j : (i <= j)%nat -> pw256 i <= pw256 j.
Proof. intro h. unfold pw256. apply Z.pow_le_mono_r; lia. Qed.

Lemma accval_low K a b n1 n2 : (forall i, (i < n1)%nat -> 0 <= a i) -> (forall j, (j < n2)%nat -> is_byte (b j)) ->
  0 <= accval (fun i j => Nat.ltb (i + j) K) a b n1 n2 <= sumz n1 a * pw256 K.
Proof.
  intros ha hb.
  assert (inner : forall i m, (m <= n2)%nat -> let S := sumz m (fun j => if Nat.ltb (i + j) K then b j * pw256 (i + j) else 0) in
     0 <= S /\ S < pw256 K /\ ((i + m <= K)%nat -> S < pw256 (i + m))).
  { intros i m. induction m as [|m IH]; intro hm; cbn [sumz]; cbv zeta.
    - pose proof (pw256_pos K). pose proof (pw256_pos (i + 0)). lia.
    - specialize (IH ltac:(lia)). cbv zeta in IH. set (S0 := sumz m _) in *. clearbody S0. destruct IH as (h1 & h2 & h3).
      specialize (hb m ltac:(lia)). unfold is_byte in hb. pose proof (pw256_pos (i + m)).
      destruct (Nat.ltb_spec (i + m) K) as [hk|hk].
      + specialize (h3 ltac:(lia)). assert (e : pw256 (i + S m) = 256 * pw256 (i + m)) by (rewrite Nat.add_succ_r; apply pw256_S).
        assert (S0 + b m * pw256 (i + m) < pw256 (i + S m)) by nia.
        pose proof (pw256_le (i + S m) K ltac:(lia)). split; [nia|]. lia.
      + split; [lia|]. split; [lia|]. intro; lia. }
  unfold accval. rewrite <- sumz_mul_r.
  assert (e : forall i, sumz n2 (fun j => if Nat.ltb (i + j) K then a i * b j * pw256 (i + j) else 0) =
    a i * sumz n2 (fun j => if Nat.ltb (i + j) K then b j * pw256 (i + j) else 0)).
  { intro i. rewrite <- sumz_mul. apply sumz_ext. intros j _. destruct (Nat.ltb _ _); ring. }
  split.
  - apply sumz_nonneg. intros i hi. rewrite e. specialize (inner i n2 ltac:(lia)). cbv zeta in inner. specialize (ha i hi).
    apply Z.mul_nonneg_nonneg; lia.
  - apply sumz_le. intros i hi. rewrite e. specialize (inner i n2 ltac:(lia)). cbv zeta in inner. specialize (ha i hi).
    apply Z.mul_le_mono_nonneg_l; lia.
Qed.

Lemma accval_high K a b n1 n2 : accval (fun i j => negb (Nat.ltb (i + j) K)) a b n1 n2 mod pw256 K = 0.
Proof.
  pose proof (pw256_pos K) as hp. unfold accval. apply sumz_mod; [|lia]. intros i _. apply sumz_mod; [|lia]. intros j _.
  destruct (Nat.ltb_spec (i + j) K) as [h|h]; cbn [negb]; [apply Zmod_0_l|].
  replace (i + j)%nat with (i + j - K + K)%nat by lia. rewrite pw256_add, Z.mul_assoc. apply Z.mod_mul. lia.
Qed.

(** ** [barrett_reduce] *)
Lemma sum_cmu : sumz 33 (at_ cmu) = 5440.
Proof. vm_compute. reflexivity. Qed.
Lemma sum_cm : sumz 32 (at_ cm) = 2524.
Proof. vm_compute. reflexivity. Qed.
Definition muz : Z := 1852673427797059126777135760139006525645217721299241702126143248052143860224795.
Lemma cmu_val : sumz 33 (fun i => at_ cmu i * pw256 i) = muz.
Proof. vm_compute. reflexivity. Qed.
Lemma lit31 : pw256 31 = 452312848583266388373324160190187140051835877600158453279131187530910662656.
Proof. vm_compute. reflexivity. Qed.
Lemma lit64 : pw256 64 = 13407807929942597099574024998205846127479365820592393377723561443721764030073546976801874298166903427690031858186486050853753882811946569946433649006084096.
Proof. vm_compute. reflexivity. Qed.

(** the estimate of the quotient *)
Lemma sumz_first n f : sumz (S n) f = f 0%nat + sumz n (fun i => f (S i)).
Proof. induction n; cbn [sumz] in *; [ring|]. rewrite IHn. ring. Qed.
Lemma q3_add q2 q2b c : at_ q2b 33 = at_ q2 33 + c -> (forall j, (1 <= j)%nat -> at_ q2b (33 + j) = at_ q2 (33 + j)) ->
  sumz 33 (fun j => at_ q2b (33 + j) * pw256 j) = sumz 33 (fun j => at_ q2 (33 + j) * pw256 j) + c.
Proof.
  intros h1 h2. rewrite !(sumz_first 32).
  rewrite (sumz_ext 32 (fun i => at_ q2b (33 + S i) * pw256 (S i)) (fun i => at_ q2 (33 + S i) * pw256 (S i)))
      by (intros i _; rewrite h2 by lia; reflexivity).
  generalize (sumz 32 (fun i => at_ q2 (33 + S i) * pw256 (S i))). intro z0.
  replace (33 + 0)%nat with 33%nat by reflexivity. rewrite h1.
  replace (pw256 0) with 1 by reflexivity. ring.
Qed.
Lemma q2_psum q2 : (forall k, (k < 31)%nat -> at_ q2 k = 0) ->
  psum 66 q2 = at_ q2 31 * pw256 31 + at_ q2 32 * pw256 32 + pw256 33 * sumz 33 (fun j => at_ q2 (33 + j) * pw256 j).
Proof.
  intro h0. unfold psum. rewrite (sumz_split 33 33). apply f_equal2.
  - cbn [sumz]. rewrite !h0 by lia. ring.
  - rewrite <- sumz_mul. apply sumz_ext. intros i _. rewrite pw256_add. ring.
Qed.
Lemma q3_arith a b P q : b * P + (a - b / 256) * (256 * P) + 256 * (256 * P) * q =
  P * (65536 * (q + a / 256) + (a mod 256 * 256 + b mod 256)).
Proof.
  pose proof (Z.div_mod a 256 ltac:(lia)) as d1. pose proof (Z.div_mod b 256 ltac:(lia)) as d2.
  set (da := a / 256) in *. set (ma := a mod 256) in *. set (db := b / 256) in *. set (mb := b mod 256) in *. clearbody da ma db mb. subst a b. ring.
Qed.
Lemma b_q_tail x q2 q2a q2b : bytes 64 x -> length q2 = 66%nat ->
  psum 66 q2 = accval (fun i j => Nat.leb 31 (i + j)) (at_ cmu) (fun j => at_ x (j + 31)) 33 33 ->
  (forall k, 0 <= at_ q2 k <= 5440 * 255) -> (forall k, (k < 31)%nat -> at_ q2 k = 0) ->
  q2a = upd q2 32 (u32 (at_ q2 32 + Z.shiftr (at_ q2 31) 8)) ->
  q2b = upd q2a 33 (u32 (at_ q2a 33 + Z.shiftr (at_ q2a 32) 8)) ->
  exists q3, sumz 33 (fun j => at_ q2b (33 + j) * pw256 j) = q3 /\
    (forall j, 0 <= at_ q2b (33 + j) <= 1393000) /\
    (exists d n0, 0 <= d <= 5440 * pw256 31 /\ 0 <= n0 < 65536 /\
       muz * sumz 33 (fun j => at_ x (j + 31) * pw256 j) = pw256 31 * (65536 * q3 + n0) + d).
Proof.
  intros hx hl hv hb h0 eqa eqb.
  assert (ha : at_ q2a 32 = at_ q2 32 + at_ q2 31 / 256).
  { rewrite eqa. rewrite at_upd_eq by lia. rewrite shr by lia. change (2 ^ 8) with 256.
    pose proof (hb 32%nat). pose proof (hb 31%nat).
    assert (0 <= at_ q2 31 / 256 <= at_ q2 31) by (split; [apply Z.div_pos; lia | apply Z.div_le_upper_bound; lia]).
    apply u32_small. lia. }
  assert (hc : 0 <= at_ q2a 32 / 256 <= 5440 /\ at_ q2b 33 = at_ q2 33 + at_ q2a 32 / 256).
  { pose proof (hb 32%nat). pose proof (hb 31%nat). pose proof (hb 33%nat).
    assert (0 <= at_ q2 31 / 256 <= 5419) by (split; [apply Z.div_pos; lia | apply Z.lt_succ_r, Z.div_lt_upper_bound; lia]).
    assert (h1 : 0 <= at_ q2a 32 / 256 <= 5440) by (split; [apply Z.div_pos; lia | apply Z.lt_succ_r, Z.div_lt_upper_bound; lia]).
    split; [exact h1|]. rewrite eqb at 1. rewrite at_upd_eq by (rewrite eqa; rewrite upd_length; lia).
    replace (at_ q2a 33) with (at_ q2 33) by (rewrite eqa; rewrite at_upd_neq by lia; reflexivity).
    rewrite shr by lia. change (2 ^ 8) with 256. apply u32_small. lia. }
  destruct hc as [hc hb33].
  assert (hoth : forall j, (1 <= j)%nat -> at_ q2b (33 + j) = at_ q2 (33 + j)).
  { intros j hj. rewrite eqb, eqa. rewrite !at_upd_neq by lia. reflexivity. }
  set (q3o := sumz 33 (fun j => at_ q2 (33 + j) * pw256 j)).
  assert (e3 : sumz 33 (fun j => at_ q2b (33 + j) * pw256 j) = q3o + at_ q2a 32 / 256).
  { unfold q3o. refine (q3_add q2 q2b _ hb33 hoth). }
  exists (q3o + at_ q2a 32 / 256). split; [exact e3|]. split.
  { intros [|j]; [change (33 + 0)%nat with 33%nat; rewrite hb33; pose proof (hb 33%nat); lia|].
    rewrite hoth by lia. pose proof (hb (33 + S j)%nat). lia. }
  exists (accval (fun i j => Nat.ltb (i + j) 31) (at_ cmu) (fun j => at_ x (j + 31)) 33 33).
  exists (at_ q2a 32 mod 256 * 256 + at_ q2 31 mod 256).
  split; [|split].
  - rewrite <- sum_cmu. apply accval_low; [exact (fun i _ => proj1 (cmu_byte i)) | intros j _; apply (at_byte 64 x (j + 31) hx)].
  - pose proof (Z.mod_pos_bound (at_ q2a 32) 256). pose proof (Z.mod_pos_bound (at_ q2 31) 256). lia.
  - rewrite <- cmu_val. rewrite <- accval_full. rewrite (accval_split (fun i j => Nat.leb 31 (i + j))). rewrite <- hv.
    rewrite (accval_ext (fun i j => negb (Nat.leb 31 (i + j))) (fun i j => Nat.ltb (i + j) 31)) by (intros; rewrite Nat.ltb_antisym; reflexivity).
    f_equal.
    assert (ps : psum 66 q2 = at_ q2 31 * pw256 31 + at_ q2 32 * pw256 32 + pw256 33 * q3o).
    { exact (q2_psum q2 h0). }
    rewrite ps. rewrite (pw256_S 32), (pw256_S 31).
    replace (at_ q2 32) with (at_ q2a 32 - at_ q2 31 / 256) by lia.
    exact (q3_arith (at_ q2a 32) (at_ q2 31) (pw256 31) q3o).
Qed.

Lemma b_q_ok x : bytes 64 x ->
  exists q3, sumz 33 (fun j => at_ (b_q x) (33 + j) * pw256 j) = q3 /\
    (forall j, 0 <= at_ (b_q x) (33 + j) <= 1393000) /\
    (exists d n0, 0 <= d <= 5440 * pw256 31 /\ 0 <= n0 < 65536 /\
       muz * sumz 33 (fun j => at_ x (j + 31) * pw256 j) = pw256 31 * (65536 * q3 + n0) + d).
Proof.
  intro hx. unfold b_q.
  pose proof (acc_loop_ok 66 33 33 (fun i j => Nat.leb 31 (i + j)) (at_ cmu) (fun j => at_ x (j + 31)) 31 255 5440) as h.
  specialize (h ltac:(left; lia) ltac:(intros i j e; apply Nat.leb_le in e; exact e)).
  specialize (h (fun i _ => proj1 (cmu_byte i))).
  specialize (h ltac:(intros j _; pose proof (at_byte 64 x (j + 31) hx) as hb; unfold is_byte in hb; lia) ltac:(lia) sum_cmu ltac:(lia)).
  cbv zeta in h. revert h. generalize (acc_loop 33 33 (fun i j => Nat.leb 31 (i + j)) (at_ cmu) (fun j => at_ x (j + 31)) (repeat 0 66)).
  intros q2 (hl & hv & hb & h0).
  exact (b_q_tail x q2 _ _ hx hl hv hb h0 eq_refl eq_refl).
Qed.

Lemma mod_drop A B P : P <> 0 -> B mod (256 * P) = 0 -> A mod P = (A + B) mod P.
Proof.
  intros hp hh. apply Z.mod_divide in hh; [|lia]. destruct hh as [c ->].
  replace (A + c * (256 * P)) with (A + (c * 256) * P) by ring. now rewrite Z.mod_add.
Qed.
Lemma r2_tail q q3 w v : sumz 33 (fun j => at_ q (33 + j) * pw256 j) = q3 ->
  psum 33 w = accval (fun i j => Nat.ltb (i + j) 33) (at_ cm) (fun j => at_ q (33 + j)) 32 33 ->
  psum 33 v = psum 33 w -> psum 32 v mod pw256 32 = (l * q3) mod pw256 32.
Proof.
  intros hq hv vv. pose proof (psum_S 32 v) as e.
  assert (p0 : pw256 32 <> 0) by (pose proof (pw256_pos 32); lia).
  replace (psum 32 v) with (psum 33 v + (- at_ v 32) * pw256 32) by lia. rewrite Z.mod_add by exact p0.
  rewrite vv, hv. rewrite <- cm_val, <- hq. unfold psum. rewrite <- accval_full.
  rewrite (accval_split (fun i j => Nat.ltb (i + j) 33)).
  apply mod_drop; [exact p0|]. rewrite <- (pw256_S 32). apply accval_high.
Qed.

Lemma b_r2_ok q q3 : sumz 33 (fun j => at_ q (33 + j) * pw256 j) = q3 -> (forall j, 0 <= at_ q (33 + j) <= 1393000) ->
  (forall i, (i < 32)%nat -> is_byte (at_ (b_r2 q) i)) /\ psum 32 (b_r2 q) mod pw256 32 = (l * q3) mod pw256 32.
Proof.
  intros hq hb. unfold b_r2.
  pose proof (acc_loop_ok 33 32 33 (fun i j => Nat.ltb (i + j) 33) (at_ cm) (fun j => at_ q (33 + j)) 0 1393000 2524) as h.
  specialize (h ltac:(right; intros i j e; apply Nat.ltb_lt in e; exact e) ltac:(lia)).
  specialize (h (fun i _ => proj1 (cm_byte i)) (fun j _ => hb j) ltac:(lia) sum_cm ltac:(lia)).
  cbv zeta in h. revert h. generalize (acc_loop 32 33 (fun i j => Nat.ltb (i + j) 33) (at_ cm) (fun j => at_ q (33 + j)) (repeat 0 33)).
  intros w (hl & hv & hbd & _).
  pose proof (carry_loop_ok 33 (2524 * 1393000) 4294967295 w 32 hl ltac:(lia) (fun i _ => hbd i) ltac:(vm_compute; discriminate) ltac:(lia)) as h.
  cbv zeta in h. revert h. generalize (for_up 32 carry_step w). intros v (vl & vv & vb & _ & _).
  refine (conj vb _). exact (r2_tail q q3 w v hq hv vv).
Qed.

Local Strategy 3000 [reduce_add_sub for_up sub_step b_r2 b_q acc_loop carry_step].
Lemma barrett_eq x : barrett_reduce x =
  reduce_add_sub (reduce_add_sub (fst (for_up 32 (sub_step (fun v => v) (firstn 33 x) (b_r2 (b_q x))) (repeat 0 32, 0)))).
Proof. cbv beta delta [barrett_reduce LetIn]. exact eq_refl. Qed.

Lemma tX_arith t a r b P h q X : t - P * b = a - r -> r mod P = q mod P -> X = a + P * h -> 0 <= t < P -> 0 <= X - q < P -> t = X - q.
Proof.
  intros tv rv xv rt rx.
  assert (e : t mod P = (X - q) mod P).
  { replace t with (a - r + b * P) by lia. rewrite Z.mod_add by lia. rewrite Zminus_mod, rv, <- Zminus_mod.
    replace (X - q) with (a - q + h * P) by lia. rewrite Z.mod_add by lia. reflexivity. }
  rewrite !Z.mod_small in e by assumption. exact e.
Qed.
Theorem barrett_ok x : bytes 64 x -> bytes 32 (barrett_reduce x) /\ le_val (barrett_reduce x) = le_val x mod l.
Proof.
  intro hx. rewrite barrett_eq.
  destruct (b_q_ok x hx) as (q3 & hq & hqb & d & n0 & hd & hn & hqv).
  destruct (b_r2_ok (b_q x) q3 hq hqb) as [r2b r2v]. revert r2b r2v. generalize (b_r2 (b_q x)). intros r2 r2b r2v. clear hq hqb.
  assert (h1 : forall i, (i < 32)%nat -> at_ (firstn 33 x) i = at_ x i).
  { intros i hi. unfold at_. rewrite <- (firstn_skipn 33 x) at 2. rewrite app_nth1; [reflexivity|].
    rewrite firstn_length, (proj1 hx). lia. }
  revert h1. generalize (firstn 33 x). intros r1 h1.
  pose proof (sub_loop_ok (fun v => v) 32 r1 r2 32 (fun _ _ => eq_refl) ltac:(lia)) as h.
  specialize (h ltac:(intros i hi; rewrite h1 by exact hi; apply (at_byte 64 x i hx)) r2b).
  destruct (for_up 32 (sub_step (fun v => v) r1 r2) (repeat 0 32, 0)) as [t b]. destruct h as (tl & tb & hb & tv).
  cbn [fst].
  assert (ht : bytes 32 t) by (apply bytes_at; [exact tl | intros; apply tb]).
  rewrite (psum_bytes 32 t ht) in tv. rewrite (psum_ext 32 r1 x) in tv by exact h1.
  assert (xv : le_val x = psum 32 x + pw256 32 * sumz 32 (fun i => at_ x (32 + i) * pw256 i)).
  { rewrite <- (psum_bytes 64 x hx). unfold psum. change 64%nat with (32 + 32)%nat. rewrite sumz_split. f_equal.
    rewrite <- sumz_mul. apply sumz_ext. intros i _. rewrite pw256_add. ring. }
  assert (xq : le_val x = psum 31 x + pw256 31 * sumz 33 (fun j => at_ x (j + 31) * pw256 j)).
  { rewrite <- (psum_bytes 64 x hx). unfold psum. change 64%nat with (31 + 33)%nat. rewrite sumz_split. f_equal.
    rewrite <- sumz_mul. apply sumz_ext. intros i _. rewrite pw256_add, (Nat.add_comm i 31). ring. }
  pose proof (psum_range 31 x (fun i _ => at_byte 64 x i hx)) as rx31.
  pose proof (psum_range 64 x (fun i _ => at_byte 64 x i hx)) as rx. rewrite (psum_bytes 64 x hx) in rx.
  pose proof (psum_range 32 t (fun i _ => tb i)) as rt. rewrite (psum_bytes 32 t ht) in rt.
  set (xh := sumz 32 _) in xv. set (q1 := sumz 33 _) in *. set (x31 := psum 31 x) in *. set (X := le_val x) in *. clearbody xh q1 x31 X.
  assert (bound : 0 <= X - l * q3 < 3 * l).
  { clear - xq hqv hd hn rx31 rx. rewrite lit31, lit64, l_lit in *. unfold muz in *. lia. }
  assert (tX : le_val t = X - l * q3).
  { refine (tX_arith (le_val t) (psum 32 x) (psum 32 r2) b (pw256 32) xh (l * q3) X tv r2v xv rt _).
    clear - bound. rewrite l_lit in *. rewrite lit32. lia. }
  destruct (reduce_add_sub_ok t ht) as [hb1 hv1]. set (t1 := reduce_add_sub t) in *. clearbody t1.
  destruct (reduce_add_sub_ok t1 hb1) as [hb2 hv2]. set (t2 := reduce_add_sub t1) in *. clearbody t2.
  split; [exact hb2|]. rewrite hv2, hv1, tX. clear - bound. pose proof l_pos as lp.
  destruct (Z.ltb_spec (X - l * q3) l) as [c1|c1].
  - destruct (Z.ltb_spec (X - l * q3) l); [|lia]. apply Zmod_unique with q3; lia.
  - destruct (Z.ltb_spec (X - l * q3 - l) l) as [c2|c2].
    + apply Zmod_unique with (q3 + 1); lia.
    + apply Zmod_unique with (q3 + 2); lia.
Qed.
