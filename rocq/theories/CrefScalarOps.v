(** The exported scalar operations of /repo/cref/cref.c and the digit expansions used by the scalar multiplications. *)
From Coq Require Import ZArith List Lia Bool Znumtheory Zpow_facts.
From Verif Require Import Words FieldModel WindowProofs NumTheory Primes ScalarFacts ScalarCode CrefScalar CrefInvert CrefScalarProofs.
Import ListNotations.
Open Scope Z_scope.

Local Strategy 3000 [reduce_add_sub for_up sub_step b_r2 b_q acc_loop carry_step barrett_reduce cs_mul cs_square sumz psum].

(** A reduced [group_scalar]: bytes, with value below the group order. *)
Definition csc (s : list Z) : Prop := bytes 32 s /\ le_val s < l.

Lemma le_nonneg n s : bytes n s -> 0 <= le_val s.
Proof. intros [_ h]. apply le_val_range, h. Qed.
Lemma le_lt32 s : bytes 32 s -> le_val s < pw256 32.
Proof. intros [e h]. pose proof (le_val_range s h) as r. rewrite e in r. apply r. Qed.

Lemma reduce_small r : bytes 32 r -> le_val r < 2 * l -> csc (reduce_add_sub r) /\ le_val (reduce_add_sub r) = le_val r mod l.
Proof.
  intros hr hv. destruct (reduce_add_sub_ok r hr) as [h1 h2]. pose proof (le_nonneg _ r hr) as h0. unfold csc. rewrite h2.
  destruct (Z.ltb_spec (le_val r) l) as [c|c].
  - split; [split; [exact h1 | exact c]|]. symmetry. apply Z.mod_small. lia.
  - split; [split; [exact h1 | lia]|]. apply Zmod_unique with 1; lia.
Qed.

Lemma csc_mod s V : bytes 32 s -> le_val s = V mod l -> csc s.
Proof. intros hs e. split; [exact hs|]. rewrite e. apply Z.mod_pos_bound, l_pos. Qed.

(** ** Packing *)
Lemma cs_unpack_ok x : bytes 32 x -> csc (cs_unpack x) /\ le_val (cs_unpack x) = (le_val x mod 2 ^ 253) mod l.
Proof.
  intro hx. unfold cs_unpack. set (y := upd x 31 _).
  pose proof (at_byte 32 x 31 hx) as b31. unfold is_byte in b31.
  assert (e31 : Z.land (at_ x 31) 31 = at_ x 31 mod 32) by apply land31.
  assert (hy : bytes 32 y).
  { apply bytes_at; [unfold y; rewrite upd_length; apply hx|]. intros i hi. unfold y. destruct (Nat.eq_dec 31 i) as [<-|hn].
    - rewrite at_upd_eq by (rewrite (proj1 hx); lia). rewrite e31. unfold is_byte. pose proof (Z.mod_pos_bound (at_ x 31) 32). lia.
    - rewrite at_upd_neq by exact hn. apply (at_byte 32 x i hx). }
  assert (hv : le_val y = le_val x mod 2 ^ 253).
  { rewrite <- (psum_bytes 32 y hy), <- (psum_bytes 32 x hx). rewrite !(psum_S 31). unfold y at 1. rewrite psum_upd_out by lia.
    unfold y. rewrite at_upd_eq by (rewrite (proj1 hx); lia). rewrite e31.
    pose proof (psum_range 31 x (fun i _ => at_byte 32 x i hx)) as r. revert r. generalize (psum 31 x). intros z r.
    change (2 ^ 253) with 14474011154664524427946373126085988481658748083205070504932198000989141204992. rewrite lit31 in *.
    pose proof (Z.div_mod (at_ x 31) 32 ltac:(lia)). pose proof (Z.mod_pos_bound (at_ x 31) 32 ltac:(lia)).
    apply Zmod_unique with (at_ x 31 / 32); lia. }
  rewrite <- hv. apply reduce_small; [exact hy|]. rewrite hv.
  pose proof (Z.mod_pos_bound (le_val x) (2 ^ 253) ltac:(lia)). rewrite l_lit. lia.
Qed.

Lemma cs_pack_ok x : bytes 32 x -> cs_pack x = x.
Proof.
  intros [_ h]. unfold cs_pack. clear -h. induction h as [|b t hb ht IH]; [reflexivity|]. cbn [map]. rewrite IH.
  f_equal. apply u8_small, hb.
Qed.

Lemma cs_zero_ok : csc cs_zero /\ le_val cs_zero = 0.
Proof. unfold csc. rewrite l_lit. split; [split; [split; [reflexivity | repeat constructor; unfold is_byte; lia]|]|]; vm_compute; reflexivity. Qed.
Lemma cs_one_ok : csc cs_one /\ le_val cs_one = 1.
Proof. unfold csc. rewrite l_lit. split; [split; [split; [reflexivity | repeat constructor; unfold is_byte; lia]|]|]; vm_compute; reflexivity. Qed.

(** ** Addition and subtraction *)
Lemma at_map_seq f n i : (i < n)%nat -> at_ (map f (seq 0 n)) i = f i.
Proof. intro h. unfold at_. rewrite (nth_indep _ 0 (f 0%nat)) by (rewrite map_length, seq_length; exact h). rewrite map_nth, seq_nth by exact h. reflexivity. Qed.

Lemma add_carry x y v : bytes 32 x -> bytes 32 y -> le_val x + le_val y < pw256 32 ->
  v = for_up 31 carry_step (map (fun i => u32 (at_ x i + at_ y i)) (seq 0 32)) -> bytes 32 v /\ le_val v = le_val x + le_val y.
Proof.
  intros hx hy hs ev. set (r := map _ _) in ev.
  assert (hr : forall i, (i < 32)%nat -> at_ r i = at_ x i + at_ y i).
  { intros i hi. unfold r. rewrite at_map_seq by exact hi. pose proof (at_byte 32 x i hx). pose proof (at_byte 32 y i hy).
    unfold is_byte in *. apply u32_small. lia. }
  assert (rl : length r = 32%nat) by (unfold r; rewrite map_length, seq_length; reflexivity).
  clearbody r.
  pose proof (carry_loop_ok 32 510 1000 r 31 rl ltac:(lia)) as h.
  specialize (h ltac:(intros i hi; rewrite hr by exact hi; pose proof (at_byte 32 x i hx); pose proof (at_byte 32 y i hy); unfold is_byte in *; lia)
    ltac:(vm_compute; discriminate) ltac:(lia)).
  cbv zeta in h. rewrite <- ev in h. clear ev. destruct h as (vl & vv & vb & vt & _).
  assert (e : psum 32 r = le_val x + le_val y).
  { rewrite <- (psum_bytes 32 x hx), <- (psum_bytes 32 y hy). unfold psum. rewrite <- sumz_add. apply sumz_ext. intros i hi. rewrite hr by exact hi. ring. }
  rewrite e in vv. pose proof (psum_S 31 v) as es. pose proof (psum_range 31 v vb) as pr.
  assert (t : at_ v 31 < 256).
  { clear -es vv hs pr. rewrite vv in es. revert es pr. generalize (psum 31 v). intros z es pr. rewrite (pw256_S 31) in hs.
    pose proof (pw256_pos 31). nia. }
  assert (hv : bytes 32 v).
  { apply bytes_at; [exact vl|]. intros i hi. destruct (Nat.eq_dec i 31) as [->|hn]; [unfold is_byte; lia | apply vb; lia]. }
  split; [exact hv|]. rewrite <- (psum_bytes 32 v hv). exact vv.
Qed.

Lemma cs_add_eq x y : cs_add x y = reduce_add_sub (for_up 31 carry_step (map (fun i => u32 (at_ x i + at_ y i)) (seq 0 32))).
Proof. cbv beta delta [cs_add LetIn]. exact eq_refl. Qed.

Lemma cs_add_gen x y : bytes 32 x -> bytes 32 y -> le_val x + le_val y < 2 * l ->
  csc (cs_add x y) /\ le_val (cs_add x y) = (le_val x + le_val y) mod l.
Proof.
  intros hx hy hs. rewrite cs_add_eq.
  destruct (add_carry x y _ hx hy ltac:(rewrite lit32; rewrite l_lit in hs; lia) eq_refl) as [h1 h2].
  revert h1 h2. generalize (for_up 31 carry_step (map (fun i => u32 (at_ x i + at_ y i)) (seq 0 32))). intros v h1 h2.
  rewrite <- h2. apply reduce_small; [exact h1 | lia].
Qed.
Lemma cs_add_ok x y : csc x -> csc y -> csc (cs_add x y) /\ le_val (cs_add x y) = (le_val x + le_val y) mod l.
Proof. intros [hx vx] [hy vy]. apply cs_add_gen; [exact hx | exact hy | lia]. Qed.

Lemma sub_neg_loop y k : bytes 32 y -> (k <= 32)%nat ->
  let '(d, b) := for_up k (cs_sub_step y) (repeat 0 32, 0) in
  length d = 32%nat /\ (forall i, is_byte (at_ d i)) /\ (b = 0 \/ b = 1) /\ psum k d - pw256 k * b = psum k cm - psum k y.
Proof.
  intros hy. induction k as [|k IH]; intro hk; cbn [for_up].
  - refine (conj eq_refl (conj _ (conj (or_introl eq_refl) eq_refl))).
    intro i. unfold at_, is_byte. assert (e : nth i (repeat 0 32) 0 = 0).
    { destruct (Nat.lt_ge_cases i 32) as [hi|hi]; [apply nth_repeat | apply nth_overflow; rewrite repeat_length; exact hi]. }
    rewrite e. lia.
  - specialize (IH ltac:(lia)). destruct (for_up k _ _) as [d b]. destruct IH as (hl & hd & hb & hv).
    cbn [cs_sub_step]. cbv zeta. pose proof (cm_byte k) as c1. pose proof (at_byte 32 y k hy) as c2. unfold is_byte in c1, c2.
    set (e := at_ cm k - at_ y k - b) in *.
    assert (key : exists v c, Z.land (u32 e) 255 = v /\ Z.land (Z.shiftr (u32 e) 8) 1 = c /\ is_byte v /\ (c = 0 \/ c = 1) /\ v - 256 * c = e).
    { eexists. eexists. split; [reflexivity|]. split; [reflexivity|].
      change 255 with (Z.ones 8). change 1 with (Z.ones 1) at 1 2 3 4. rewrite !Z.land_ones by lia. rewrite shr by lia.
      assert (he : -256 <= e <= 255) by lia. unfold u32, is_byte. change (2 ^ 8) with 256. change (2 ^ 1) with 2. change (Z.ones 1) with 1.
      destruct (Z.lt_ge_cases e 0) as [h|h].
      - assert (e1 : e mod 4294967296 = e + 4294967296) by (symmetry; apply Zmod_unique with (-1); lia). rewrite e1.
        assert (e2 : (e + 4294967296) mod 256 = e + 256) by (symmetry; apply Zmod_unique with 16777215; lia).
        assert (e3 : (e + 4294967296) / 256 = 16777215) by (symmetry; apply Zdiv_unique with (e + 256); lia).
        rewrite e2, e3. change (16777215 mod 2) with 1. lia.
      - rewrite (Z.mod_small e 4294967296) by lia. rewrite (Z.mod_small e) by lia. rewrite Z.div_small by lia. change (0 mod 2) with 0. lia. }
    destruct key as (v & c & -> & -> & hv' & hc & hvc).
    refine (conj _ (conj _ (conj hc _))).
    + now rewrite upd_length.
    + intro i. destruct (Nat.eq_dec k i) as [<-|hn]; [rewrite at_upd_eq by lia; exact hv' | rewrite at_upd_neq by exact hn; apply hd].
    + rewrite pw256_S, !psum_S. rewrite psum_upd_out by lia. rewrite at_upd_eq by lia. unfold e in hvc.
      pose proof (pw256_pos k). nia.
Qed.

Lemma cs_sub_eq x y : cs_sub x y = cs_add x (fst (for_up 32 (cs_sub_step y) (repeat 0 32, 0))).
Proof. cbv beta delta [cs_sub LetIn]. exact eq_refl. Qed.

Lemma cs_sub_ok x y : csc x -> csc y -> csc (cs_sub x y) /\ le_val (cs_sub x y) = (le_val x - le_val y) mod l.
Proof.
  intros [hx vx] [hy vy]. rewrite cs_sub_eq. pose proof (sub_neg_loop y 32 hy ltac:(lia)) as h.
  destruct (for_up 32 (cs_sub_step y) (repeat 0 32, 0)) as [d b]. destruct h as (hl & hd & hb & hv). cbn [fst].
  assert (bd : bytes 32 d) by (apply bytes_at; [exact hl | intros; apply hd]).
  rewrite (psum_bytes 32 d bd), (psum_bytes 32 y hy), cm_val in hv.
  pose proof (le_nonneg _ d bd) as d0. pose proof (le_lt32 d bd) as d1. pose proof (le_nonneg _ y hy) as y0.
  assert (e : le_val d = l - le_val y) by (destruct hb as [-> | ->]; [lia | rewrite lit32 in *; rewrite l_lit in *; lia]).
  destruct (cs_add_gen x d hx bd) as [h1 h2]; [lia|]. split; [exact h1|]. rewrite h2, e.
  replace (le_val x + (l - le_val y)) with (le_val x - le_val y + 1 * l) by ring. apply Z.mod_add. pose proof l_pos; lia.
Qed.

Lemma cs_negate_ok x : csc x -> csc (cs_negate x) /\ le_val (cs_negate x) = (- le_val x) mod l.
Proof.
  intro hx. unfold cs_negate. destruct cs_zero_ok as [z0 z1]. destruct (cs_sub_ok cs_zero x z0 hx) as [h1 h2].
  rewrite z1 in h2. auto.
Qed.

(** ** Multiplication: the operands need not be reduced *)
Lemma accval_psum x y n m : accval (fun _ _ => true) (at_ x) (at_ y) n m = psum n x * psum m y.
Proof. exact (accval_full (at_ x) (at_ y) n m). Qed.
Lemma mul_carry x y v : bytes 32 x -> bytes 32 y ->
  v = for_up 63 carry_step (acc_loop 32 32 (fun _ _ => true) (at_ x) (at_ y) (repeat 0 64)) -> bytes 64 v /\ le_val v = le_val x * le_val y.
Proof.
  intros hx hy ev.
  assert (A : 0 <= sumz 32 (at_ x) <= 8160).
  { split; [apply sumz_nonneg; intros i _; apply (at_byte 32 x i hx)|].
    replace 8160 with (sumz 32 (fun _ => 255)) by reflexivity. apply sumz_le. intros i _. pose proof (at_byte 32 x i hx) as b. unfold is_byte in b. lia. }
  pose proof (acc_loop_ok 64 32 32 (fun _ _ => true) (at_ x) (at_ y) 0 255 (sumz 32 (at_ x)) ltac:(left; lia) ltac:(intros; lia)
    (fun i _ => proj1 (at_byte 32 x i hx))) as h.
  specialize (h ltac:(intros j _; pose proof (at_byte 32 y j hy) as b; unfold is_byte in b; lia) ltac:(lia) eq_refl ltac:(lia)).
  cbv zeta in h. revert h ev. generalize (acc_loop 32 32 (fun _ _ => true) (at_ x) (at_ y) (repeat 0 64)).
  intros w (hl & hv & hb & _) ev.
  pose proof (carry_loop_ok 64 2080800 3000000 w 63 hl ltac:(lia)) as h.
  specialize (h ltac:(intros i _; specialize (hb i); lia) ltac:(vm_compute; discriminate) ltac:(lia)). cbv zeta in h.
  rewrite <- ev in h. clear ev. destruct h as (vl & vv & vb & vt & _).
  rewrite hv, accval_psum in vv. rewrite (psum_bytes 32 x hx), (psum_bytes 32 y hy) in vv.
  pose proof (psum_S 63 v) as es. pose proof (psum_range 63 v vb) as pr.
  assert (bound : le_val x * le_val y < pw256 64).
  { change 64%nat with (32 + 32)%nat. rewrite pw256_add. pose proof (le_nonneg _ x hx). pose proof (le_nonneg _ y hy).
    pose proof (le_lt32 x hx). pose proof (le_lt32 y hy). apply Z.mul_lt_mono_nonneg; assumption. }
  assert (t : at_ v 63 < 256).
  { clear -es vv bound pr. rewrite vv in es. revert es pr. generalize (psum 63 v). intros z es pr. rewrite (pw256_S 63) in bound.
    pose proof (pw256_pos 63). nia. }
  assert (hv' : bytes 64 v).
  { apply bytes_at; [exact vl|]. intros i hi. destruct (Nat.eq_dec i 63) as [->|hn]; [unfold is_byte; lia | apply vb; lia]. }
  split; [exact hv'|]. rewrite <- (psum_bytes 64 v hv'). exact vv.
Qed.

Lemma cs_mul_eq x y : cs_mul x y = barrett_reduce (for_up 63 carry_step (acc_loop 32 32 (fun _ _ => true) (at_ x) (at_ y) (repeat 0 64))).
Proof. cbv beta delta [cs_mul LetIn]. exact eq_refl. Qed.

Lemma cs_mul_ok x y : bytes 32 x -> bytes 32 y -> csc (cs_mul x y) /\ le_val (cs_mul x y) = (le_val x * le_val y) mod l.
Proof.
  intros hx hy. rewrite cs_mul_eq. destruct (mul_carry x y _ hx hy eq_refl) as [h1 h2]. revert h1 h2.
  generalize (for_up 63 carry_step (acc_loop 32 32 (fun _ _ => true) (at_ x) (at_ y) (repeat 0 64))). intros v h1 h2.
  destruct (barrett_ok v h1) as [h3 h4]. rewrite h2 in h4. split; [|exact h4]. exact (csc_mod _ _ h3 h4).
Qed.
Lemma cs_square_ok x : bytes 32 x -> csc (cs_square x) /\ le_val (cs_square x) = (le_val x * le_val x) mod l.
Proof. intro hx. exact (cs_mul_ok x x hx hx). Qed.

Lemma cs_from64bytes_ok h : bytes 64 h -> csc (cs_from64bytes h) /\ le_val (cs_from64bytes h) = le_val h mod l.
Proof. intro hh. destruct (barrett_ok h hh) as [h3 h4]. split; [exact (csc_mod _ _ h3 h4) | exact h4]. Qed.

(** ** Inversion *)
Definition cpw (T e : Z) (r : list Z) : Prop := csc r /\ le_val r = (T ^ e) mod l.

Lemma cpw_square T e e' r : cpw T e r -> 0 <= e -> 2 * e = e' -> cpw T e' (cs_square r).
Proof.
  intros [h1 h2] he <-. destruct (cs_square_ok r (proj1 h1)) as [h3 h4]. split; [exact h3|].
  rewrite h4, h2, <- Zmult_mod. rewrite <- Z.pow_add_r by lia. f_equal. f_equal. lia.
Qed.
Lemma cpw_mul T e f g r s : cpw T e r -> cpw T f s -> 0 <= e -> 0 <= f -> e + f = g -> cpw T g (cs_mul r s).
Proof.
  intros [h1 h2] [h3 h4] he hf <-. destruct (cs_mul_ok r s (proj1 h1) (proj1 h3)) as [h5 h6]. split; [exact h5|].
  rewrite h6, h2, h4, <- Zmult_mod. rewrite <- Z.pow_add_r by lia. reflexivity.
Qed.
Lemma cpw_iter T n : forall e r, cpw T e r -> 0 <= e -> cpw T (2 ^ Z.of_nat n * e) (Nat.iter n cs_square r).
Proof.
  induction n as [|n IH]; intros e r h he.
  - cbn [Nat.iter nat_rect Z.of_nat]. now rewrite Z.pow_0_r, Z.mul_1_l.
  - cbn [Nat.iter nat_rect]. apply cpw_square with (2 ^ Z.of_nat n * e); [now apply IH | |].
    + pose proof (Z.pow_pos_nonneg 2 (Z.of_nat n)). nia.
    + rewrite Nat2Z.inj_succ, Z.pow_succ_r by lia. ring.
Qed.
Lemma step_cpw {B : Type} (P : B -> Prop) (body : list Z -> B) T e x :
  cpw T e x -> (forall y, cpw T e y -> P (body y)) -> P (dlet y := x in body y).
Proof. intros h H. exact (H x h). Qed.

Ltac cpw_step :=
  lazymatch goal with
  | |- ?P (dlet y := cs_square ?x in @?body y) =>
      match goal with h : cpw ?T ?e x |- _ =>
        let e' := eval vm_compute in (2 * e) in
        refine (step_cpw P body T e' _ (cpw_square T e e' x h _ _) _);
        [vm_compute; discriminate | vm_compute; reflexivity | intros ? ?; cbv beta] end
  | |- ?P (dlet y := cs_mul ?x ?z in @?body y) =>
      match goal with h : cpw ?T ?e x, k : cpw ?T ?f z |- _ =>
        let e' := eval vm_compute in (e + f) in
        refine (step_cpw P body T e' _ (cpw_mul T e f e' x z h k _ _ _) _);
        [vm_compute; discriminate | vm_compute; discriminate | vm_compute; reflexivity | intros ? ?; cbv beta] end
  end.

Lemma cs_invert_pow t T : cpw T 1 t -> cpw T (l - 2) (cs_invert t).
Proof.
  intro h1. pose (PP := fun r => cpw T (l - 2) r). change (PP (cs_invert t)). unfold cs_invert.
  repeat cpw_step.
  lazymatch goal with
  | h : cpw ?T ?e ?x |- ?P (dlet y := Nat.iter 126 cs_square ?x in @?body y) =>
        refine (step_cpw P body T _ _ (cpw_iter T 126 e x h _) _); [vm_compute; discriminate | intros ? ?; cbv beta] end.
  subst PP. cbv beta.
  match goal with h : cpw ?T ?e ?x, k : cpw ?T ?f ?z |- cpw ?T _ (cs_mul ?x ?z) =>
    apply (cpw_mul T e f (l - 2) x z h k); vm_compute; [discriminate | discriminate | reflexivity] end.
Qed.

Lemma cs_invert_ok t : csc t -> csc (cs_invert t) /\ (le_val t <> 0 -> (le_val (cs_invert t) * le_val t) mod l = 1) /\
  (le_val t = 0 -> le_val (cs_invert t) = 0).
Proof.
  intro ht. assert (h1 : cpw (le_val t) 1 t).
  { split; [exact ht|]. rewrite Z.pow_1_r. symmetry. apply Z.mod_small. destruct ht as [hb hv]. pose proof (le_nonneg _ t hb). lia. }
  destruct (cs_invert_pow t _ h1) as [h2 h3]. split; [exact h2|]. pose proof l_lit as el. destruct ht as [hb hv].
  pose proof (le_nonneg _ t hb) as h0. split; intro hz.
  - rewrite h3, Zmult_mod, Z.mod_mod, <- Zmult_mod by lia.
    replace (le_val t ^ (l - 2) * le_val t) with (le_val t ^ (l - 1)).
    + apply fermat; [apply prime_l|]. intro hd. apply Z.divide_pos_le in hd; lia.
    + assert (e1 : l - 1 = l - 2 + 1) by ring. rewrite e1, Z.pow_add_r by lia. rewrite Z.pow_1_r. reflexivity.
  - rewrite h3, hz, Z.pow_0_l by lia. apply Z.mod_0_l. lia.
Qed.

(** ** Tests *)
Lemma is0_ull_ok r : 0 <= r < 2 ^ 63 -> is0_ull r = if r =? 0 then 1 else 0.
Proof.
  intro h. unfold is0_ull. destruct (Z.eqb_spec r 0) as [->|hn]; [reflexivity|].
  assert (e : u64 (- r) = 2 ^ 64 - r) by (unfold u64; symmetry; apply Zmod_unique with (-1); lia).
  rewrite e, shr by lia. assert (e2 : (2 ^ 64 - r) / 2 ^ 63 = 1) by (symmetry; apply Zdiv_unique with (2 ^ 63 - r); lia).
  rewrite e2. reflexivity.
Qed.

Lemma lor_lt a b n : 0 <= n -> 0 <= a < 2 ^ n -> 0 <= b < 2 ^ n -> 0 <= Z.lor a b < 2 ^ n.
Proof.
  intros hn ha hb. split; [apply Z.lor_nonneg; lia|]. destruct (Z.eq_dec (Z.lor a b) 0) as [->|hz]; [lia|].
  assert (0 <= Z.lor a b) by (apply Z.lor_nonneg; lia).
  apply Z.log2_lt_pow2; [lia|]. rewrite Z.log2_lor by lia.
  assert (L : forall c, 0 <= c < 2 ^ n -> c = 0 \/ Z.log2 c < n).
  { intros c hc. destruct (Z.eq_dec c 0); [left; assumption | right; apply Z.log2_lt_pow2; lia]. }
  destruct (Z.eq_dec n 0) as [->|n0].
  { change (2 ^ 0) with 1 in *. exfalso. apply hz. replace a with 0 by lia. replace b with 0 by lia. reflexivity. }
  assert (Z.log2 a < n) by (destruct (L a ha) as [->|]; [cbn; lia | assumption]).
  assert (Z.log2 b < n) by (destruct (L b hb) as [->|]; [cbn; lia | assumption]). lia.
Qed.

Lemma lor_fold f n : forall a r0, 0 <= r0 < 2 ^ 32 -> (forall i, (a <= i < a + n)%nat -> 0 <= f i < 2 ^ 32) ->
  let r := fold_left (fun r i => Z.lor r (f i)) (seq a n) r0 in
  0 <= r < 2 ^ 32 /\ (r = 0 <-> r0 = 0 /\ forall i, (a <= i < a + n)%nat -> f i = 0).
Proof.
  induction n as [|n IH]; intros a r0 h0 hf; cbn [seq fold_left]; cbv zeta.
  - split; [exact h0|]. split; [intro e; split; [exact e | intros; lia] | intros [e _]; exact e].
  - specialize (IH (S a) (Z.lor r0 (f a)) ltac:(apply lor_lt; [lia | exact h0 | apply hf; lia]) ltac:(intros i hi; apply hf; lia)).
    cbv zeta in IH. destruct IH as [h1 h2]. split; [exact h1|]. rewrite h2, Z.lor_eq_0_iff. split.
    + intros [[e1 e2] e3]. split; [exact e1|]. intros i hi. destruct (Nat.eq_dec i a) as [->|]; [exact e2 | apply e3; lia].
    + intros [e1 e2]. split; [split; [exact e1 | apply e2; lia] | intros i hi; apply e2; lia].
Qed.

Lemma at_inj n u v : length u = n -> length v = n -> (forall i, (i < n)%nat -> at_ u i = at_ v i) -> u = v.
Proof. intros hu hv h. apply (nth_ext u v 0 0); [lia|]. intros i hi. apply h. lia. Qed.

Lemma bool_dec01 (b : bool) (r : Z) : (r = 0 <-> b = true) -> (if r =? 0 then 1 else 0) = Z.b2z b.
Proof. intro h. destruct (Z.eqb_spec r 0) as [e|e]; destruct b; cbn; try reflexivity; [apply h in e; discriminate | exfalso; apply e, h; reflexivity]. Qed.

Lemma cs_equals_ok x y : bytes 32 x -> bytes 32 y -> cs_equals x y = Z.b2z (le_val x =? le_val y).
Proof.
  intros hx hy. unfold cs_equals.
  destruct (lor_fold (fun i => Z.lxor (at_ x i) (at_ y i)) 32 0 0 ltac:(lia)) as [h1 h2].
  { intros i _. pose proof (lxor_byte _ _ (at_byte 32 x i hx) (at_byte 32 y i hy)) as b. unfold is_byte in b. lia. }
  cbv zeta in *. rewrite is0_ull_ok by lia. apply bool_dec01. rewrite h2, Z.eqb_eq. split.
  - intros [_ h]. f_equal. apply (at_inj 32); [apply hx | apply hy|]. intros i hi. apply Z.lxor_eq, h. lia.
  - intro e. apply le_val_inj in e; [|apply hx|apply hy|rewrite (proj1 hx), (proj1 hy); reflexivity].
    subst y. split; [reflexivity|]. intros; apply Z.lxor_nilpotent.
Qed.

Lemma cs_iszero_ok x : bytes 32 x -> cs_iszero x = Z.b2z (le_val x =? 0).
Proof.
  intros hx. unfold cs_iszero. destruct (lor_fold (at_ x) 32 0 0 ltac:(lia)) as [h1 h2].
  { intros i _. pose proof (at_byte 32 x i hx) as b. unfold is_byte in b. lia. }
  cbv zeta in *. rewrite is0_ull_ok by lia. apply bool_dec01. rewrite h2, Z.eqb_eq. split.
  - intros [_ h]. rewrite <- (proj2 cs_zero_ok). f_equal. apply (at_inj 32); [apply hx | reflexivity|]. intros i hi. rewrite h by lia.
    symmetry. unfold at_, cs_zero. apply nth_repeat.
  - intro e. rewrite <- (proj2 cs_zero_ok) in e. destruct cs_zero_ok as [[hz _] _].
    apply le_val_inj in e; [|apply hx|apply hz|rewrite (proj1 hx), (proj1 hz); reflexivity].
    subst x. split; [reflexivity|]. intros i hi. unfold at_, cs_zero. apply nth_repeat.
Qed.

Lemma cs_isone_ok x : bytes 32 x -> cs_isone x = Z.b2z (le_val x =? 1).
Proof.
  intros hx. unfold cs_isone. pose proof (at_byte 32 x 0 hx) as b0. unfold is_byte in b0.
  destruct (lor_fold (at_ x) 31 1 (u32 (1 - at_ x 0))) as [h1 h2].
  { pose proof (u32_range (1 - at_ x 0)). lia. }
  { intros i _. pose proof (at_byte 32 x i hx) as b. unfold is_byte in b. lia. }
  cbv zeta in *. rewrite is0_ull_ok by lia. apply bool_dec01. rewrite h2, Z.eqb_eq.
  assert (e0 : u32 (1 - at_ x 0) = 0 <-> at_ x 0 = 1).
  { unfold u32. split; [|intros ->; reflexivity]. intro e. apply Z.mod_divide in e; [|lia]. destruct e as [q e]. lia. }
  rewrite e0. split.
  - intros [h0 h]. rewrite <- (proj2 cs_one_ok). f_equal. apply (at_inj 32); [apply hx | reflexivity|]. intros [|i] hi; [exact h0|]. rewrite h by lia.
    symmetry. unfold at_, cs_one. cbn [nth]. apply nth_repeat.
  - intro e. rewrite <- (proj2 cs_one_ok) in e. destruct cs_one_ok as [[hz _] _].
    apply le_val_inj in e; [|apply hx|apply hz|rewrite (proj1 hx), (proj1 hz); reflexivity].
    subst x. split; [reflexivity|]. intros [|i] hi; [lia|]. unfold at_, cs_one. cbn [nth]. apply nth_repeat.
Qed.
