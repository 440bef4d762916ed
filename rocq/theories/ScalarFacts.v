(** What the methods of [Scalar] compute, in terms of integers modulo the group order. *)
From Coq Require Import ZArith List Lia Bool Znumtheory Zpow_facts.
From Verif Require Import Words WordsTac NumTheory Primes BitFold ScalarCode ScalarModel ScalarReduce ScalarProofs ScalarSub.
Import ListNotations.
Open Scope Z_scope.

Lemma l_lit : l = Lz.
Proof. vm_compute. reflexivity. Qed.

Lemma l_pos : 0 < l.
Proof. rewrite l_lit. lia. Qed.

(** A scalar as the exported operations produce it: words in range, value below l. *)
Definition reduced (s : sc) : Prop := sc_words s /\ 0 <= scv s < l.

Lemma reduced_of_ok V r : reduced_of V r -> reduced r /\ scv r = V mod l.
Proof.
  intros (h1 & h2 & K & e). unfold reduced. rewrite l_lit. split; [auto|].
  apply Zmod_unique with K; [exact h2|]. rewrite e. ring.
Qed.

Lemma reduced_words s : reduced s -> sc_words s.
Proof. intros [h _]; exact h. Qed.

Lemma reduced_mod s : reduced s -> scv s mod l = scv s.
Proof. intros [_ h]. apply Z.mod_small, h. Qed.

Lemma square_spec a : sc_words a -> reduced (sc_square a) /\ scv (sc_square a) = (scv a * scv a) mod l.
Proof. intro ha. apply reduced_of_ok, square_ok, ha. Qed.

Lemma mul_spec a b : sc_words a -> sc_words b -> reduced (sc_mul a b) /\ scv (sc_mul a b) = (scv a * scv b) mod l.
Proof. intros ha hb. apply reduced_of_ok, mul_ok; assumption. Qed.

Lemma mulAdd_spec a b c : sc_words a -> sc_words b -> sc_words c ->
  reduced (sc_mulAdd a b c) /\ scv (sc_mulAdd a b c) = (scv a * scv b + scv c) mod l.
Proof. intros ha hb hc. apply reduced_of_ok, mulAdd_ok; assumption. Qed.

Lemma mulSub_spec a b c : sc_words a -> sc_words b -> sc_words c ->
  reduced (sc_mulSub a b c) /\ scv (sc_mulSub a b c) = (scv a * scv b - scv c) mod l.
Proof. intros ha hb hc. apply reduced_of_ok, mulSub_ok; assumption. Qed.

Lemma setReduced_spec t : bytes 64 t -> reduced (sc_setReduced t) /\ scv (sc_setReduced t) = le_val t mod l.
Proof. intro ht. apply reduced_of_ok, setReduced_ok, ht. Qed.

Lemma sub_spec a b : reduced a -> reduced b -> reduced (sc_sub a b) /\ scv (sc_sub a b) = (scv a - scv b) mod l.
Proof.
  intros [ha ra] [hb rb]. destruct (sub_ok a b ha hb) as [h1 h2]. unfold reduced. rewrite l_lit in *.
  destruct (Z.ltb_spec (scv a) (scv b)).
  - rewrite Z.mod_small in h2 by lia. split; [split; [exact h1 | lia]|].
    rewrite h2. apply Zmod_unique with (-1); lia.
  - split; [split; [exact h1 | lia]|]. rewrite h2. symmetry. apply Z.mod_small. lia.
Qed.

Lemma add_spec a b : reduced a -> reduced b -> reduced (sc_add a b) /\ scv (sc_add a b) = (scv a + scv b) mod l.
Proof.
  intros [ha ra] [hb rb]. destruct (add_ok a b ha hb) as [h1 h2]. unfold reduced. rewrite l_lit in *.
  cbv zeta in h2. rewrite (Z.mod_small (scv a + scv b)) in h2 by lia.
  destruct (Z.ltb_spec (scv a + scv b) Lz).
  - split; [split; [exact h1 | lia]|]. rewrite h2. symmetry. apply Z.mod_small. lia.
  - split; [split; [exact h1 | lia]|]. rewrite h2. apply Zmod_unique with 1; lia.
Qed.

Lemma scZero_ok : reduced scZero /\ scv scZero = 0.
Proof. unfold reduced. rewrite l_lit. cbn [scZero sc_words scv]. lia. Qed.

Lemma scOne_ok : reduced scOne /\ scv scOne = 1.
Proof. unfold reduced. rewrite l_lit. cbn [scOne sc_words scv]. lia. Qed.

Lemma neg_spec a : reduced a -> reduced (sc_neg a) /\ scv (sc_neg a) = (- scv a) mod l.
Proof.
  intro ha. destruct (sub_spec scZero a (proj1 scZero_ok) ha) as [h1 h2].
  rewrite (proj2 scZero_ok), Z.sub_0_l in h2. auto.
Qed.

Lemma setBytes_spec x : bytes 32 x -> reduced (sc_setBytes x) /\ scv (sc_setBytes x) = (le_val x mod 2 ^ 253) mod l.
Proof.
  intro hx. destruct (setBytes_ok x hx) as [h1 h2]. rewrite <- l_lit in h2. split; [|exact h2].
  split; [exact h1|]. rewrite h2. apply Z.mod_pos_bound, l_pos.
Qed.

(** ** Equality of scalars *)

Lemma scv_inj a b : sc_words a -> sc_words b -> scv a = scv b -> a = b.
Proof.
  intros ha hb e. destruct a as [a0 a1 a2 a3 a4 a5 a6 a7], b as [b0 b1 b2 b3 b4 b5 b6 b7].
  destruct (sc_words_of _ _ _ _ _ _ _ _ ha) as (_ & e0 & e1 & e2 & e3 & e4 & e5 & e6 & e7).
  destruct (sc_words_of _ _ _ _ _ _ _ _ hb) as (_ & f0 & f1 & f2 & f3 & f4 & f5 & f6 & f7).
  cbv zeta in *. rewrite <- e in *. clear e ha hb.
  set (T := scv (Sc a0 a1 a2 a3 a4 a5 a6 a7)) in *. clearbody T.
  congruence.
Qed.

Lemma sc_eqb_ok a b : sc_eqb a b = true <-> a = b.
Proof.
  destruct a, b. cbn [sc_eqb]. rewrite !andb_true_iff, !Z.eqb_eq. split.
  - intros (((((((-> & ->) & ->) & ->) & ->) & ->) & ->) & ->). reflexivity.
  - intro e; inversion e; subst; repeat split; reflexivity.
Qed.

Lemma setBytesStrict_ok s x : bytes 32 x ->
  sc_setBytesStrict s x = if le_val x <? l then (load_words x, true) else (s, false).
Proof.
  intro hx. unfold sc_setBytesStrict. fold (load_words x). cbv zeta.
  destruct (load_words_ok x hx) as [hw hv].
  destruct (sub_scL_ok (load_words x) hw) as [h1 h2]. rewrite hv, <- l_lit in h2.
  destruct (Z.ltb_spec (le_val x) l).
  - assert (e : sc_sub (load_words x) scL = load_words x) by (apply scv_inj; auto; lia).
    rewrite e. rewrite (proj2 (sc_eqb_ok _ _) eq_refl). reflexivity.
  - destruct (sc_eqb (sc_sub (load_words x) scL) (load_words x)) eqn:E; [|reflexivity].
    apply sc_eqb_ok in E. rewrite E in h2. pose proof l_pos. lia.
Qed.

Lemma isNonZeroI_ok s : sc_words s -> sc_isNonZeroI s = Z.b2z (negb (scv s =? 0)).
Proof.
  destruct s as [w0 w1 w2 w3 w4 w5 w6 w7]. intro h. cbn [sc_words] in h.
  destruct h as (h0 & h1 & h2 & h3 & h4 & h5 & h6 & h7). unfold sc_isNonZeroI.
  set (r := Z.lor (Z.lor (Z.lor (Z.lor (Z.lor (Z.lor (Z.lor w0 w1) w2) w3) w4) w5) w6) w7).
  assert (hr : 0 <= r < 2 ^ 32). { unfold r. repeat (apply lor_range; [lia| |lia]). lia. }
  cbv zeta. rewrite !foldk_def, (fold32 r hr). rewrite i32_b2z. f_equal. f_equal.
  apply eq_true_iff_eq. rewrite !Z.eqb_eq. unfold r. rewrite !Z.lor_eq_0_iff. cbn [scv]. lia.
Qed.

(** [Equals] on arbitrary words: equal values, or the right one exceeds by exactly l. *)
Lemma equals_words a b : sc_words a -> sc_words b ->
  (sc_equals a b = true <-> scv a = scv b \/ scv b = scv a + l).
Proof.
  intros ha hb. unfold sc_equals. destruct (sub_ok a b ha hb) as [h1 h2].
  rewrite (isNonZeroI_ok _ h1), h2. rewrite <- l_lit.
  pose proof (scv_range a ha). pose proof (scv_range b hb). pose proof l_lit.
  destruct (Z.ltb_spec (scv a) (scv b)).
  - destruct (Z_lt_ge_dec (scv a - scv b + l) 0) as [hn|hn].
    + replace ((scv a - scv b + l) mod 2 ^ 256) with (scv a - scv b + l + 2 ^ 256)
        by (apply Zmod_unique with (-1); lia).
      destruct (Z.eqb_spec (scv a - scv b + l + 2 ^ 256) 0); cbn; [lia|]. split; [discriminate|lia].
    + rewrite Z.mod_small by lia. destruct (Z.eqb_spec (scv a - scv b + l) 0); cbn.
      * split; [right; lia | reflexivity].
      * split; [discriminate | lia].
  - destruct (Z.eqb_spec (scv a - scv b) 0); cbn; [split; [left; lia | reflexivity]|]. split; [discriminate | pose proof l_pos; lia].
Qed.

Lemma equals_spec a b : reduced a -> reduced b -> (sc_equals a b = true <-> scv a = scv b).
Proof. intros [ha ra] [hb rb]. rewrite equals_words by assumption. lia. Qed.

Lemma equalsI_b2z s a : sc_words s -> sc_words a -> sc_equalsI s a = Z.b2z (sc_equals s a).
Proof.
  intros hs ha. unfold sc_equalsI, sc_equals. rewrite isNonZeroI_ok by (apply sub_ok; assumption).
  rewrite i32_1_sub_b2z. destruct (scv _ =? 0); reflexivity.
Qed.

(** ** ConditionalSet *)
Lemma condSet_ok s t b : sc_words s -> sc_words t ->
  sc_condSet s t (Z.b2z b) = if b then t else s.
Proof.
  destruct s as [s0 s1 s2 s3 s4 s5 s6 s7], t as [t0 t1 t2 t3 t4 t5 t6 t7]. cbn [sc_words sc_condSet].
  intros (? & ? & ? & ? & ? & ? & ? & ?) (? & ? & ? & ? & ? & ? & ? & ?). destruct b.
  - assert (em : u32 (i32 (- Z.b2z true)) = Z.ones 32) by reflexivity.
    rewrite !(condset_word1 _ _ _ 32) by (try exact em; lia). reflexivity.
  - assert (em : u32 (i32 (- Z.b2z false)) = 0) by reflexivity.
    rewrite !condset_word0 by exact em. reflexivity.
Qed.

(** ** Inverse *)

Definition pw (T e : Z) (r : sc) : Prop := sc_words r /\ scv r mod l = (T ^ e) mod l.

Lemma pw_square T e e' r : pw T e r -> 0 <= e -> 2 * e = e' -> pw T e' (sc_square r).
Proof.
  intros [h1 h2] he <-. destruct (square_spec r h1) as [[h3 _] h4]. split; [exact h3|].
  rewrite h4, Z.mod_mod by (pose proof l_pos; lia).
  rewrite Zmult_mod, h2, <- Zmult_mod. rewrite <- Z.pow_add_r by lia. f_equal. f_equal. lia.
Qed.

Lemma pw_mul T e f g r s : pw T e r -> pw T f s -> 0 <= e -> 0 <= f -> e + f = g -> pw T g (sc_mul r s).
Proof.
  intros [h1 h2] [h3 h4] he hf <-. destruct (mul_spec r s h1 h3) as [[h5 _] h6]. split; [exact h5|].
  rewrite h6, Z.mod_mod by (pose proof l_pos; lia).
  rewrite Zmult_mod, h2, h4, <- Zmult_mod. rewrite <- Z.pow_add_r by lia. reflexivity.
Qed.

Lemma pw_iter T n : forall e r, pw T e r -> 0 <= e -> pw T (2 ^ Z.of_nat n * e) (Nat.iter n sc_square r).
Proof.
  induction n as [|n IH]; intros e r h he.
  - cbn [Nat.iter nat_rect Z.of_nat]. now rewrite Z.pow_0_r, Z.mul_1_l.
  - cbn [Nat.iter nat_rect]. apply pw_square with (2 ^ Z.of_nat n * e); [now apply IH | |].
    + pose proof (Z.pow_pos_nonneg 2 (Z.of_nat n)). nia.
    + rewrite Nat2Z.inj_succ, Z.pow_succ_r by lia. ring.
Qed.

Lemma step_pw {B : Type} (P : B -> Prop) (body : sc -> B) T e x :
  pw T e x -> (forall y, pw T e y -> P (body y)) -> P (dlet y := x in body y).
Proof. intros h H. exact (H x h). Qed.

Ltac pw_step :=
  lazymatch goal with
  | |- ?P (dlet y := sc_square ?x in @?body y) =>
      match goal with h : pw ?T ?e x |- _ =>
        let e' := eval vm_compute in (2 * e) in
        refine (step_pw P body T e' _ (pw_square T e e' x h _ _) _);
        [vm_compute; discriminate | vm_compute; reflexivity | intros ? ?; cbv beta] end
  | |- ?P (dlet y := sc_mul ?x ?z in @?body y) =>
      match goal with h : pw ?T ?e x, k : pw ?T ?f z |- _ =>
        let e' := eval vm_compute in (e + f) in
        refine (step_pw P body T e' _ (pw_mul T e f e' x z h k _ _ _) _);
        [vm_compute; discriminate | vm_compute; discriminate | vm_compute; reflexivity | intros ? ?; cbv beta] end
  end.

Lemma inverse_ok t : sc_words t -> pw (scv t) (l - 2) (sc_inverse t).
Proof.
  intro ht. remember (scv t) as T eqn:ET.
  assert (h1 : pw T 1 t) by (split; [exact ht | rewrite ET, Z.pow_1_r; reflexivity]). clear ht ET.
  ev_open sc_inverse (sc_inverse t).
  repeat pw_step.
  lazymatch goal with
  | h : pw ?T ?e ?x |- ?P (dlet y := Nat.iter 126 sc_square ?x in @?body y) =>
        refine (step_pw P body T _ _ (pw_iter T 126 e x h _) _); [vm_compute; discriminate | intros ? ?; cbv beta] end.
  subst PP. cbv beta.
  match goal with h : pw ?T ?e ?x, k : pw ?T ?f ?z |- pw ?T _ (sc_mul ?x ?z) =>
    apply (pw_mul T e f (l - 2) x z h k); vm_compute; [discriminate | discriminate | reflexivity] end.
Qed.

Lemma inverse_spec t : sc_words t -> reduced (sc_inverse t) /\
  (scv t mod l <> 0 -> (scv (sc_inverse t) * scv t) mod l = 1) /\
  (scv t mod l = 0 -> scv (sc_inverse t) = 0).
Proof.
  intro ht. pose proof l_lit as el. pose proof (inverse_ok t ht) as [hw hp].
  assert (hr : reduced (sc_inverse t)).
  { clear hp. ev_open sc_inverse (sc_inverse t).
    assert (H : forall x y, sc_words x -> sc_words y -> sc_words (sc_mul x y)) by (intros x y hx hy; apply mul_spec; assumption).
    assert (H1 : forall x, sc_words x -> sc_words (sc_square x)) by (intros x hx; apply square_spec; assumption).
    assert (H2 : forall n x, sc_words x -> sc_words (Nat.iter n sc_square x)).
    { induction n; intros x hx; [exact hx|]. cbn [Nat.iter nat_rect]. apply H1, IHn, hx. }
    assert (S : forall (B : Type) (P : B -> Prop) (body : sc -> B) x, sc_words x -> (forall y, sc_words y -> P (body y)) -> P (dlet y := x in body y))
      by (intros B P body x hx h; exact (h x hx)).
    repeat lazymatch goal with
    | |- ?P (dlet y := sc_square ?x in @?body y) => match goal with h : sc_words x |- _ => refine (S _ P body _ (H1 x h) _); intros ? ?; cbv beta end
    | |- ?P (dlet y := sc_mul ?x ?z in @?body y) => match goal with h : sc_words x, k : sc_words z |- _ => refine (S _ P body _ (H x z h k) _); intros ? ?; cbv beta end
    | |- ?P (dlet y := Nat.iter ?n sc_square ?x in @?body y) => match goal with h : sc_words x |- _ => refine (S _ P body _ (H2 n x h) _); intros ? ?; cbv beta end
    end.
    subst PP. cbv beta. apply mul_spec; assumption. }
  split; [exact hr|]. rewrite (reduced_mod _ hr) in hp. split; intro h0.
  - rewrite Zmult_mod, hp, Z.mod_mod, <- Zmult_mod by lia.
    replace (scv t ^ (l - 2) * scv t) with (scv t ^ (l - 1)).
    + apply fermat; [apply prime_l|]. intro hd. apply h0. apply Zdivide_mod, hd.
    + assert (e1 : l - 1 = l - 2 + 1) by ring. rewrite e1, Z.pow_add_r by lia. rewrite Z.pow_1_r. reflexivity.
  - rewrite hp. rewrite Zpower_mod, h0, Z.pow_0_l, Z.mod_0_l by lia. reflexivity.
Qed.

(** ** Conversions *)

Lemma setBytes_small x : bytes 32 x -> le_val x < l -> reduced (sc_setBytes x) /\ scv (sc_setBytes x) = le_val x.
Proof.
  intros hx hl. destruct (setBytes_spec x hx) as [h1 h2]. split; [exact h1|]. rewrite h2.
  destruct hx as [_ hf]. pose proof (le_val_range x hf). rewrite l_lit in *.
  rewrite (Z.mod_small (le_val x)) by lia. apply Z.mod_small. lia.
Qed.

Lemma setBytes_bytes s : reduced s -> sc_setBytes (sc_bytes s) = s.
Proof.
  intros [hw hr]. destruct (sc_bytes_ok s hw) as [h1 h2].
  destruct (setBytes_small (sc_bytes s) h1 ltac:(lia)) as [[h3 _] h4]. apply scv_inj; auto. lia.
Qed.

Lemma load_words_bytes s : sc_words s -> load_words (sc_bytes s) = s.
Proof.
  intro hw. destruct (sc_bytes_ok s hw) as [h1 h2]. destruct (load_words_ok _ h1) as [h3 h4].
  apply scv_inj; auto. lia.
Qed.

Lemma bytes_load_words x : bytes 32 x -> sc_bytes (load_words x) = x.
Proof.
  intro hx. destruct (load_words_ok x hx) as [h3 h4]. destruct (sc_bytes_ok _ h3) as [h1 h2].
  apply le_val_inj; [apply h1 | apply hx | rewrite (proj1 h1), (proj1 hx); reflexivity | lia].
Qed.

Lemma bytes_setBytes x : bytes 32 x -> le_val x < l -> sc_bytes (sc_setBytes x) = x.
Proof.
  intros hx hl. destruct (setBytes_small x hx hl) as [[h3 _] h4]. destruct (sc_bytes_ok _ h3) as [h1 h2].
  apply le_val_inj; [apply h1 | apply hx | rewrite (proj1 h1), (proj1 hx); reflexivity | lia].
Qed.

Lemma map_nth_seq (b : list Z) : map (at_ b) (seq 0 (length b)) = b.
Proof.
  induction b as [|x b IH]; [reflexivity|]. cbn [length seq map]. unfold at_ at 1. cbn [nth].
  f_equal. rewrite <- seq_shift, map_map. exact IH.
Qed.

Lemma bigInt_ok s : sc_words s -> sc_bigInt s = scv s.
Proof.
  intro hw. destruct (sc_bytes_ok s hw) as [[hl hf] hv]. unfold sc_bigInt, big_SetBytes. rewrite <- hv. f_equal.
  etransitivity; [|exact (map_nth_seq (sc_bytes s))]. rewrite hl. rewrite <- map_rev. reflexivity.
Qed.

Lemma at_le_bytes n : forall v i, 0 <= v -> at_ (le_bytes n v) i = if (i <? n)%nat then (v / 256 ^ Z.of_nat i) mod 256 else 0.
Proof.
  induction n as [|n IH]; intros v i hv.
  - destruct i; reflexivity.
  - destruct i as [|i]; cbn [le_bytes].
    + unfold at_; cbn [nth]. cbn [Nat.ltb Nat.leb Z.of_nat]. now rewrite Z.pow_0_r, Z.div_1_r.
    + change (at_ (v mod 256 :: le_bytes n (v / 256)) (S i)) with (at_ (le_bytes n (v / 256)) i).
      rewrite IH by (apply Z.div_pos; lia). change (S i <? S n)%nat with (i <? n)%nat.
      destruct (i <? n)%nat; [|reflexivity].
      rewrite Nat2Z.inj_succ, Z.pow_succ_r, Z.div_div by (try apply Z.pow_pos_nonneg; lia). reflexivity.
Qed.

Lemma map_at_le_bytes n m v : 0 <= v < 256 ^ Z.of_nat n -> (n <= m)%nat ->
  map (fun i => if (i <? n)%nat then at_ (le_bytes n v) i else 0) (seq 0 m) = le_bytes m v.
Proof.
  intros hv hm. rewrite <- (map_nth_seq (le_bytes m v)). rewrite le_bytes_length. apply map_ext_in.
  intros i hi. apply in_seq in hi. rewrite !at_le_bytes by lia.
  rewrite (proj2 (Nat.ltb_lt i m)) by lia. destruct (Nat.ltb_spec i n) as [h|h]; [reflexivity|].
  rewrite Z.div_small; [reflexivity|]. split; [lia|].
  apply Z.lt_le_trans with (256 ^ Z.of_nat n); [lia|]. apply Z.pow_le_mono_r; lia.
Qed.

Lemma setBigInt_list v : 0 <= v < 2 ^ 256 ->
  let buf := big_Bytes v in
  map (fun i => if (i <? length buf)%nat then at_ buf (length buf - i - 1) else 0) (seq 0 32) = le_bytes 32 v.
Proof.
  intro hv. cbv zeta. unfold big_Bytes. rewrite Z.abs_eq by lia.
  set (n := if v =? 0 then O else S (Z.to_nat (Z.log2 v / 8))).
  rewrite rev_length, le_bytes_length.
  assert (hn : v < 256 ^ Z.of_nat n /\ (n <= 32)%nat).
  { unfold n. destruct (Z.eqb_spec v 0) as [->|h0]; [cbn; lia|].
    pose proof (Z.log2_spec v ltac:(lia)) as hl. pose proof (Z.log2_nonneg v).
    assert (h8 : Z.log2 v < 256) by (apply Z.log2_lt_pow2; lia).
    pose proof (Z.div_mod (Z.log2 v) 8 ltac:(lia)). pose proof (Z.mod_pos_bound (Z.log2 v) 8 ltac:(lia)).
    split.
    - rewrite Nat2Z.inj_succ, Z2Nat.id by lia. apply Z.lt_le_trans with (2 ^ Z.succ (Z.log2 v)); [apply hl|].
      change 256 with (2 ^ 8). rewrite <- Z.pow_mul_r by lia. apply Z.pow_le_mono_r; lia.
    - lia. }
  clearbody n. destruct hn as [hn1 hn2]. rewrite <- (map_at_le_bytes n 32 v) by (exact hn2 || lia).
  apply map_ext_in. intros i hi. destruct (Nat.ltb_spec i n) as [h|h]; [|reflexivity].
  unfold at_. rewrite rev_nth by (rewrite le_bytes_length; lia). rewrite le_bytes_length. f_equal. lia.
Qed.

Lemma setBigInt_spec x : reduced (sc_setBigInt x) /\ scv (sc_setBigInt x) = x mod l.
Proof.
  unfold sc_setBigInt. assert (eb : biL = l) by (vm_compute; reflexivity). rewrite eb. clear eb.
  pose proof (Z.mod_pos_bound x l l_pos) as hm. pose proof l_lit as el.
  cbv zeta. rewrite setBigInt_list by lia.
  pose proof (le_val_le_bytes 32 (x mod l) ltac:(change (256 ^ Z.of_nat 32) with (2 ^ 256); lia)) as hv.
  destruct (setBytes_small (le_bytes 32 (x mod l)) (le_bytes_bytes _ _) ltac:(lia)) as [h1 h2].
  split; [exact h1 | lia].
Qed.

Lemma le_val_zeros n : le_val (repeat 0 n) = 0.
Proof. induction n; cbn [repeat le_val]; lia. Qed.

Lemma setUint64_spec x : 0 <= x < 2 ^ 64 -> reduced (sc_setUint64 x) /\ scv (sc_setUint64 x) = x.
Proof.
  intro hx. unfold sc_setUint64. pose proof l_lit as el.
  assert (hb : bytes 32 (le_bytes 8 x ++ repeat 0 24)).
  { split; [rewrite app_length, le_bytes_length; reflexivity|]. apply Forall_app. split; [apply le_bytes_bytes|].
    apply Forall_forall. intros b hb. apply repeat_spec in hb. subst. unfold is_byte. lia. }
  assert (hv : le_val (le_bytes 8 x ++ repeat 0 24) = x).
  { rewrite le_val_app, le_val_zeros, le_val_le_bytes; [lia|]. change (256 ^ Z.of_nat 8) with (2 ^ 64). lia. }
  destruct (setBytes_small _ hb ltac:(rewrite hv; lia)) as [h1 h2]. split; [exact h1 | lia].
Qed.

Lemma load4u32_firstn h k n : Forall is_byte h -> (k + 4 <= n)%nat -> (n <= length h)%nat ->
  load4u32 (skipn k h) = load4u32 (skipn k (firstn n h)).
Proof.
  intros hf hk hn. rewrite <- (firstn_skipn n h) at 1. rewrite skipn_app.
  unfold load4u32, at_. rewrite !app_nth1 by (rewrite skipn_length, firstn_length; lia). reflexivity.
Qed.

Lemma deriveShort_spec sha512 buf : bytes 64 (sha512 buf) ->
  reduced (sc_deriveShort sha512 buf) /\ scv (sc_deriveShort sha512 buf) = le_val (firstn 16 (sha512 buf)).
Proof.
  intros [hl hf]. unfold sc_deriveShort. set (h := sha512 buf) in *. clearbody h. cbv zeta.
  rewrite !(load4u32_firstn h _ 16) by (try assumption; lia).
  assert (hf' : Forall is_byte (firstn 16 h)).
  { rewrite <- (firstn_skipn 16 h) in hf. apply Forall_app in hf. apply hf. }
  assert (hl' : length (firstn 16 h) = 16%nat) by (rewrite firstn_length; lia).
  set (g := firstn 16 h) in *. clearbody g.
  rewrite !load4u32_ok by (try assumption; lia).
  pose proof (le_val_range g hf') as hr. rewrite hl' in hr. change (256 ^ Z.of_nat 16) with (2 ^ 128) in hr.
  assert (hv : le_val g = scv (Sc ((le_val g / 2 ^ (8 * Z.of_nat 0)) mod 2 ^ 32) ((le_val g / 2 ^ (8 * Z.of_nat 4)) mod 2 ^ 32)
      ((le_val g / 2 ^ (8 * Z.of_nat 8)) mod 2 ^ 32) ((le_val g / 2 ^ (8 * Z.of_nat 12)) mod 2 ^ 32) 0 0 0 0)).
  { rewrite (words_div (le_val g)) at 1 by lia. cbn [scv].
    rewrite (Z.div_small (le_val g) (2 ^ 128)), (Z.div_small (le_val g) (2 ^ 160)), (Z.div_small (le_val g) (2 ^ 192)), (Z.div_small (le_val g) (2 ^ 224)) by lia.
    rewrite !Z.mod_0_l by lia. reflexivity. }
  split; [|symmetry; exact hv]. split; [|rewrite <- hv, l_lit; lia].
  cbn [sc_words]. repeat (refine (conj _ _); [apply mod32_range|]). lia.
Qed.
