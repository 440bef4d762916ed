(** Scalar subtraction and addition, and the byte codecs. *)
From Coq Require Import ZArith List Lia Bool Znumtheory.
From Verif Require Import Words WordsTac ScalarCode ScalarReduce ScalarProofs.
Import ListNotations.
Open Scope Z_scope.

(** ** Subtraction, addition *)

Lemma u64_wrap x : -18446744073709551616 <= x < 0 -> u64 x = x + 18446744073709551616.
Proof.
  intro h. unfold u64. rewrite <- (Z_mod_plus_full x 1). apply Z.mod_small. lia.
Qed.

Lemma u64_mod x y : u64 (u64 x - y) = u64 (x - y).
Proof. unfold u64. now rewrite Zminus_mod_idemp_l. Qed.

(** the borrow out of a 64-bit difference of 32-bit quantities *)
Lemma borrow_facts d : -9223372036854775808 <= d < 4294967296 ->
  Z.shiftr (u64 d) 63 = (if d <? 0 then 1 else 0) /\ u32 (u64 d) = d mod 4294967296.
Proof.
  intro h. assert (E : u32 (u64 d) = d mod 4294967296).
  { unfold u32, u64. symmetry. apply Zmod_div_mod; [lia | lia |]. exists 4294967296. reflexivity. }
  split; [|exact E]. rewrite Z.shiftr_div_pow2 by lia. change (2 ^ 63) with 9223372036854775808.
  destruct (Z.ltb_spec d 0).
  - rewrite u64_wrap by lia. symmetry. apply Zdiv_unique with (d + 9223372036854775808); lia.
  - rewrite u64_small by lia. apply Z.div_small; lia.
Qed.

Lemma step_borrow {B : Type} (P : B -> Prop) (body : Z -> Z -> B) a b bo c :
  0 <= a <= 4294967295 -> 0 <= b <= 4294967295 -> Z.shiftr bo 63 = c -> 0 <= c <= 1 ->
  (forall bo' s c', Z.shiftr bo' 63 = c' -> 0 <= c' <= 1 -> s = a - b - c + 4294967296 * c' ->
    0 <= s <= 4294967295 -> P (body bo' s)) ->
  P (dlet bo' := u64 (u64 (a - b) - Z.shiftr bo 63) in dlet s := u32 bo' in body bo' s).
Proof.
  intros ha hb hc hc1 H. rewrite hc, u64_mod. unfold LetIn.
  destruct (borrow_facts (a - b - c) ltac:(lia)) as [e1 e2]. rewrite e2.
  refine (H _ _ _ e1 _ _ _).
  - destruct (_ <? 0); lia.
  - destruct (Z.ltb_spec (a - b - c) 0).
    + symmetry. apply Zmod_unique with (-1); lia.
    + rewrite Z.mod_small; lia.
  - pose proof (Z.mod_pos_bound (a - b - c) 4294967296 ltac:(lia)); lia.
Qed.

Lemma step_borrow0 {B : Type} (P : B -> Prop) (body : Z -> Z -> B) a b :
  0 <= a <= 4294967295 -> 0 <= b <= 4294967295 ->
  (forall bo' s c', Z.shiftr bo' 63 = c' -> 0 <= c' <= 1 -> s = a - b + 4294967296 * c' ->
    0 <= s <= 4294967295 -> P (body bo' s)) ->
  P (dlet bo' := u64 (a - b) in dlet s := u32 bo' in body bo' s).
Proof.
  intros ha hb H.
  replace (u64 (a - b)) with (u64 (u64 (a - b) - Z.shiftr 0 63)).
  - refine (step_borrow P body a b 0 0 ha hb eq_refl ltac:(lia) _).
    intros bo' s c' h1 h2 h3 h4. apply (H bo' s c'); auto. lia.
  - rewrite u64_mod. f_equal. change (Z.shiftr 0 63) with 0. lia.
Qed.

Lemma evd_u32t {B : Type} (P : B -> Prop) (body : Z -> B) x lo hi :
  lo <= x <= hi -> (forall y, y = x - 4294967296 * (x / 4294967296) -> 0 <= y <= 4294967295 -> P (body y)) ->
  P (dlet y := u32 x in body y).
Proof.
  intros h H. destruct (ev_u32_trunc x x lo hi (ev_var _ _ _ h)) as [e1 e2].
  unfold LetIn. rewrite e1. apply H; auto.
Qed.

Ltac sub_step :=
  lazymatch goal with
  | |- ?P (dlet bo := u64 (u64 (?a - ?b) - Z.shiftr ?b0 63) in dlet s := u32 bo in @?body bo s) =>
      match goal with ha : 0 <= a <= 4294967295, hb : 0 <= b <= 4294967295, hc : Z.shiftr b0 63 = ?c, hr : 0 <= ?c <= 1 |- _ =>
        refine (step_borrow P body a b b0 c ha hb hc hr _); cbv beta; clear hc;
        let bo := fresh "bo" in let s := fresh "s" in let c := fresh "c" in
        intros bo s c ? ? ? ? end
  | |- ?P (dlet bo := u64 (?a - ?b) in dlet s := u32 bo in @?body bo s) =>
      match goal with ha : 0 <= a <= 4294967295, hb : 0 <= b <= 4294967295 |- _ =>
        refine (step_borrow0 P body a b ha hb _); cbv beta;
        let bo := fresh "bo" in let s := fresh "s" in let c := fresh "c" in
        intros bo s c ? ? ? ? end
  end.

Ltac add_step :=
  lazymatch goal with
  | |- ?P (dlet y := u32 ?x in @?body y) =>
      match goal with h : ?lo <= x <= ?hi |- _ => refine (evd_u32t P body x lo hi h _); intros ? ? ?; cbv beta end
  | |- _ => evd_step
  end.

Ltac evd_copy :=
  lazymatch goal with |- ?P (dlet x := ?e in @?body x) => refine (step_copyd P body e _); cbv beta end.

(** [Sub] on arbitrary words. *)
Lemma sub_ok a b : sc_words a -> sc_words b -> sc_words (sc_sub a b) /\
  scv (sc_sub a b) = if scv a <? scv b then (scv a - scv b + Lz) mod 2 ^ 256 else scv a - scv b.
Proof.
  destruct a as [a_0 a_1 a_2 a_3 a_4 a_5 a_6 a_7]. destruct b as [b_0 b_1 b_2 b_3 b_4 b_5 b_6 b_7].
  intros hA hB. pose proof (proj1 (sc_words_of _ _ _ _ _ _ _ _ hA)) as RA. pose proof (proj1 (sc_words_of _ _ _ _ _ _ _ _ hB)) as RB.
  cbv beta zeta in RA, RB.
  set (A := scv (Sc a_0 a_1 a_2 a_3 a_4 a_5 a_6 a_7)) in *. set (B := scv (Sc b_0 b_1 b_2 b_3 b_4 b_5 b_6 b_7)) in *.
  assert (EA : A = scv (Sc a_0 a_1 a_2 a_3 a_4 a_5 a_6 a_7)) by reflexivity.
  assert (EB : B = scv (Sc b_0 b_1 b_2 b_3 b_4 b_5 b_6 b_7)) by reflexivity. clearbody A B.
  cbn [sc_words scv] in hA, hB, EA, EB. destruct hA as (? & ? & ? & ? & ? & ? & ? & ?). destruct hB as (? & ? & ? & ? & ? & ? & ? & ?).
  ev_open sc_sub (sc_sub (Sc a_0 a_1 a_2 a_3 a_4 a_5 a_6 a_7) (Sc b_0 b_1 b_2 b_3 b_4 b_5 b_6 b_7)).
  do 8 sub_step.
  match goal with hc : Z.shiftr ?bo 63 = ?c, hr : 0 <= ?c <= 1 |- ?P (dlet x := u64 (Z.lxor (Z.shiftr ?bo 63) 1 - 1) in @?body x) =>
    rewrite hc; assert (hcc : c = 0 \/ c = 1) by lia; rename c into cc; clear hr hc end.
  destruct hcc as [-> | ->].
  - lazymatch goal with |- ?P (dlet x := ?e in @?body x) => let v := eval vm_compute in e in change e with v; refine (step_copyd P body v _); cbv beta end.
    repeat match goal with |- context [Z.land 0 ?k] => change (Z.land 0 k) with 0 end.
    do 24 add_step. subst PP. cbv beta iota delta [sc_words scv].
    assert (hlt : (A <? B) = false) by (apply Z.ltb_ge; subst; clear_quots; lia).
    rewrite hlt. refine (conj _ _); [repeat first [bnd | refine (conj _ _)]|].
    clear_quots. subst. lia.
  - lazymatch goal with |- ?P (dlet x := ?e in @?body x) => let v := eval vm_compute in e in change e with v; refine (step_copyd P body v _); cbv beta end.
    repeat match goal with |- context [Z.land 18446744073709551615 ?k] => let v := eval vm_compute in (Z.land 18446744073709551615 k) in change (Z.land 18446744073709551615 k) with v end.
    do 24 add_step. subst PP. cbv beta iota delta [sc_words scv].
    assert (hlt : (A <? B) = true) by (apply Z.ltb_lt; subst; clear_quots; lia).
    rewrite hlt. refine (conj _ _); [repeat first [bnd | refine (conj _ _)]|].
    match goal with |- ?e = _ mod _ => assert (hr : 0 <= e < 2 ^ 256) by lia end.
    rewrite <- (Z.mod_small _ _ hr). clear hr.
    match goal with H : _ = ?c - 4294967296 * (?c / 4294967296) |- ?e mod ?m = ?f mod ?m =>
      replace e with (f + (1 - c / 4294967296) * m); [apply Z_mod_plus_full|] end.
    clear_quots. subst. ring.
Qed.

(** [Add] on arbitrary words: addition modulo 2^256, then [Sub] of the order. *)
Lemma scL_ok : scv scL = Lz /\ sc_words scL.
Proof. split; [reflexivity|]. cbn [scL sc_words]. lia. Qed.

Lemma sub_scL_ok t : sc_words t -> sc_words (sc_sub t scL) /\
  scv (sc_sub t scL) = if scv t <? Lz then scv t else scv t - Lz.
Proof.
  intro ht. destruct (sub_ok t scL ht (proj2 scL_ok)) as [h1 h2]. split; [exact h1|].
  rewrite h2, (proj1 scL_ok). destruct (scv t <? Lz) eqn:E; [|reflexivity].
  replace (scv t - Lz + Lz) with (scv t) by ring. apply Z.mod_small.
  destruct t. apply (proj1 (sc_words_of _ _ _ _ _ _ _ _ ht)).
Qed.

Lemma scv_range s : sc_words s -> 0 <= scv s < 2 ^ 256.
Proof. destruct s. intro h. apply (proj1 (sc_words_of _ _ _ _ _ _ _ _ h)). Qed.

Lemma add_ok a b : sc_words a -> sc_words b -> sc_words (sc_add a b) /\
  scv (sc_add a b) = let t := (scv a + scv b) mod 2 ^ 256 in if t <? Lz then t else t - Lz.
Proof.
  destruct a as [a_0 a_1 a_2 a_3 a_4 a_5 a_6 a_7]. destruct b as [b_0 b_1 b_2 b_3 b_4 b_5 b_6 b_7].
  intros hA hB.
  remember (scv (Sc a_0 a_1 a_2 a_3 a_4 a_5 a_6 a_7)) as A eqn:EA. remember (scv (Sc b_0 b_1 b_2 b_3 b_4 b_5 b_6 b_7)) as B eqn:EB.
  cbn [sc_words scv] in hA, hB, EA, EB. destruct hA as (? & ? & ? & ? & ? & ? & ? & ?). destruct hB as (? & ? & ? & ? & ? & ? & ? & ?).
  ev_open sc_add (sc_add (Sc a_0 a_1 a_2 a_3 a_4 a_5 a_6 a_7) (Sc b_0 b_1 b_2 b_3 b_4 b_5 b_6 b_7)).
  do 16 add_step. subst PP. cbv beta.
  match goal with |- context [sc_sub ?t scL] =>
    assert (hw : sc_words t) by (cbv beta iota delta [sc_words]; repeat first [bnd | refine (conj _ _)]);
    assert (ht : scv t = (A + B) mod 2 ^ 256) end.
  { rewrite <- (Z.mod_small _ _ (scv_range _ hw)). cbn [scv].
    match goal with H : _ = ?c - 4294967296 * (?c / 4294967296) |- ?e mod ?m = ?f mod ?m =>
      replace e with (f + (- (c / 4294967296)) * m); [apply Z_mod_plus_full|] end.
    clear_quots. subst. ring. }
  cbv zeta. rewrite <- ht. apply sub_scL_ok. exact hw.
Qed.

(** ** Byte codecs *)

Lemma word_bytes w : 0 <= w <= 4294967295 ->
  le_val [u8 w; u8 (Z.shiftr w 8); u8 (Z.shiftr w 16); u8 (Z.shiftr w 24)] = w.
Proof.
  intro h. unfold u8. rewrite !Z.shiftr_div_pow2 by lia. cbn [le_val].
  change (2 ^ 8) with 256. change (2 ^ 16) with 65536. change (2 ^ 24) with 16777216.
  pose proof (Z.div_mod w 256 ltac:(lia)) as e0.
  pose proof (Z.div_mod (w / 256) 256 ltac:(lia)) as e1. rewrite Z.div_div in e1 by lia. change (256 * 256) with 65536 in e1.
  pose proof (Z.div_mod (w / 65536) 256 ltac:(lia)) as e2. rewrite Z.div_div in e2 by lia. change (65536 * 256) with 16777216 in e2.
  rewrite (Z.mod_small (w / 16777216)); cycle 1.
  { split; [apply Z.div_pos; lia | apply Z.div_lt_upper_bound; lia]. }
  lia.
Qed.

Lemma u8_byte x : is_byte (u8 x).
Proof. unfold is_byte, u8. apply Z.mod_pos_bound. lia. Qed.

Lemma sc_bytes_ok s : sc_words s -> bytes 32 (sc_bytes s) /\ le_val (sc_bytes s) = scv s.
Proof.
  destruct s as [w0 w1 w2 w3 w4 w5 w6 w7]. cbn [sc_words]. intros (h0 & h1 & h2 & h3 & h4 & h5 & h6 & h7).
  unfold sc_bytes, LetIn. split.
  - split; [reflexivity|]. repeat (apply Forall_cons; [apply u8_byte|]). apply Forall_nil.
  - match goal with |- le_val [?a0;?a1;?a2;?a3;?b0;?b1;?b2;?b3;?c0;?c1;?c2;?c3;?d0;?d1;?d2;?d3;
      ?e0;?e1;?e2;?e3;?f0;?f1;?f2;?f3;?g0;?g1;?g2;?g3;?i0;?i1;?i2;?i3] = _ =>
      change (le_val ([a0;a1;a2;a3]++[b0;b1;b2;b3]++[c0;c1;c2;c3]++[d0;d1;d2;d3]++
        [e0;e1;e2;e3]++[f0;f1;f2;f3]++[g0;g1;g2;g3]++[i0;i1;i2;i3]) = scv (Sc w0 w1 w2 w3 w4 w5 w6 w7)) end.
    rewrite !le_val_app, !word_bytes by assumption. cbn [length scv]. change (256 ^ Z.of_nat 4) with (2 ^ 32). ring.
Qed.

(** the eight little-endian words of 32 bytes *)
Definition load_words (x : list Z) : sc :=
  Sc (load4u32 (skipn 0 x)) (load4u32 (skipn 4 x)) (load4u32 (skipn 8 x)) (load4u32 (skipn 12 x))
     (load4u32 (skipn 16 x)) (load4u32 (skipn 20 x)) (load4u32 (skipn 24 x)) (load4u32 (skipn 28 x)).

Lemma words_div T : 0 <= T < 2 ^ 256 ->
  T = T / 2 ^ 0 mod 2 ^ 32 + 2 ^ 32 * (T / 2 ^ 32 mod 2 ^ 32) + 2 ^ 64 * (T / 2 ^ 64 mod 2 ^ 32) +
      2 ^ 96 * (T / 2 ^ 96 mod 2 ^ 32) + 2 ^ 128 * (T / 2 ^ 128 mod 2 ^ 32) + 2 ^ 160 * (T / 2 ^ 160 mod 2 ^ 32) +
      2 ^ 192 * (T / 2 ^ 192 mod 2 ^ 32) + 2 ^ 224 * (T / 2 ^ 224 mod 2 ^ 32).
Proof.
  intro hT.
  assert (H : forall a b, 0 <= a -> b = a + 32 -> T / 2 ^ a mod 2 ^ 32 = T / 2 ^ a - 2 ^ 32 * (T / 2 ^ b)).
  { intros a b ha ->. rewrite Z.mod_eq by lia. rewrite Z.div_div by (try lia; apply Z.pow_pos_nonneg; lia).
    rewrite <- Z.pow_add_r by lia. reflexivity. }
  rewrite (H 0 32), (H 32 64), (H 64 96), (H 96 128), (H 128 160), (H 160 192), (H 192 224), (H 224 256) by lia.
  rewrite (Z.div_small T (2 ^ 256)) by lia. rewrite Z.pow_0_r, Z.div_1_r. ring.
Qed.

Lemma mod32_range x : 0 <= x mod 2 ^ 32 <= 4294967295.
Proof. pose proof (Z.mod_pos_bound x (2 ^ 32) ltac:(lia)); lia. Qed.

Lemma load_words_ok x : bytes 32 x -> sc_words (load_words x) /\ scv (load_words x) = le_val x.
Proof.
  intros [hl hf]. unfold load_words.
  rewrite !load4u32_ok by (try assumption; lia). split.
  - cbn [sc_words]. repeat (refine (conj _ _); [apply mod32_range|]). apply mod32_range.
  - pose proof (le_val_range x hf) as hr. rewrite hl in hr. change (256 ^ Z.of_nat 32) with (2 ^ 256) in hr.
    symmetry. exact (words_div _ hr).
Qed.

(** [SetBytes] on any 32 bytes: the value of the low 253 bits modulo the order. *)
Lemma setBytes_ok x : bytes 32 x ->
  sc_words (sc_setBytes x) /\ scv (sc_setBytes x) = (le_val x mod 2 ^ 253) mod Lz.
Proof.
  intro hx. assert (E : exists t, sc_words t /\ scv t = le_val x mod 2 ^ 253 /\ sc_setBytes x = sc_sub t scL).
  { destruct hx as [hl hf]. pose proof (le_val_range x hf) as hr. rewrite hl in hr. change (256 ^ Z.of_nat 32) with (2 ^ 256) in hr.
    eexists; split; [|split; [|ev_open sc_setBytes (sc_setBytes x); do 8 evd_copy; subst PP; cbv beta; reflexivity]].
    - rewrite !load4u32_ok by (try assumption; lia). change 536870911 with (Z.ones 29). rewrite Z.land_ones by lia.
      cbn [sc_words]. repeat (refine (conj _ _); [apply mod32_range|]).
      pose proof (Z.mod_pos_bound ((le_val x / 2 ^ (8 * Z.of_nat 28)) mod 2 ^ 32) (2 ^ 29) ltac:(lia)); lia.
    - rewrite !load4u32_ok by (try assumption; lia). change 536870911 with (Z.ones 29). rewrite Z.land_ones by lia.
      cbn [scv]. set (T := le_val x) in *.
      pose proof (words_div T hr) as e.
      assert (h7 : (T / 2 ^ 224) mod 2 ^ 32 = T / 2 ^ 224).
      { apply Z.mod_small. split; [apply Z.div_pos; lia | apply Z.div_lt_upper_bound; lia]. }
      change (8 * Z.of_nat 28) with 224. rewrite h7 in *.
      pose proof (Z.div_mod (T / 2 ^ 224) (2 ^ 29) ltac:(lia)) as e29.
      apply Zmod_unique with (T / 2 ^ 224 / 2 ^ 29).
      + change (8 * Z.of_nat 0) with 0. change (8 * Z.of_nat 4) with 32. change (8 * Z.of_nat 8) with 64.
        change (8 * Z.of_nat 12) with 96. change (8 * Z.of_nat 16) with 128. change (8 * Z.of_nat 20) with 160. change (8 * Z.of_nat 24) with 192.
        pose proof (Z.mod_pos_bound (T / 2 ^ 224) (2 ^ 29) ltac:(lia)).
        pose proof (mod32_range (T / 2 ^ 0)). pose proof (mod32_range (T / 2 ^ 32)). pose proof (mod32_range (T / 2 ^ 64)).
        pose proof (mod32_range (T / 2 ^ 96)). pose proof (mod32_range (T / 2 ^ 128)). pose proof (mod32_range (T / 2 ^ 160)).
        pose proof (mod32_range (T / 2 ^ 192)). clear - H H0 H1 H2 H3 H4 H5 H6. lia.
      + rewrite e at 1. rewrite e29 at 1.
        change (8 * Z.of_nat 0) with 0. change (8 * Z.of_nat 4) with 32. change (8 * Z.of_nat 8) with 64.
        change (8 * Z.of_nat 12) with 96. change (8 * Z.of_nat 16) with 128. change (8 * Z.of_nat 20) with 160. change (8 * Z.of_nat 24) with 192.
        ring. }
  destruct E as (t & ht & ev & ->). destruct (sub_scL_ok t ht) as [h1 h2]. split; [exact h1|].
  rewrite h2, ev. pose proof (Z.mod_pos_bound (le_val x) (2 ^ 253) ltac:(lia)) as hm.
  destruct (Z.ltb_spec (le_val x mod 2 ^ 253) Lz).
  - symmetry. apply Z.mod_small; lia.
  - apply Zmod_unique with 1; lia.
Qed.
