(** Scalar arithmetic: Mul, Square, MulAdd, MulSub, Sub, Add and the byte codecs. *)
From Coq Require Import ZArith List Lia Bool.
From Verif Require Import Words WordsTac ScalarCode ScalarReduce.
Import ListNotations.
Open Scope Z_scope.

(** ** Words and limbs of a scalar *)

Lemma word_of lo w hi a : 0 <= a -> 0 <= lo < 2 ^ a -> 0 <= w <= 4294967295 ->
  w = ((lo + 2 ^ a * (w + 2 ^ 32 * hi)) / 2 ^ a) mod 2 ^ 32.
Proof.
  intros ha hlo hw. rewrite Z.mul_comm, Z.div_add by (pose proof (Z.pow_pos_nonneg 2 a); lia).
  rewrite Z.div_small, Z.add_0_l by lia. rewrite Z.mul_comm, Z.mod_add by lia. rewrite Z.mod_small by lia. reflexivity.
Qed.

Lemma w_limb0 T x : x = (T / 2 ^ 0) mod 2 ^ 32 ->
  ev (Z.land x 2097151) (T / 2 ^ 0 - 2097152 * (T / 2 ^ 21)) 0 2097151.
Proof.
  intros ->. rewrite <- (Z.shiftr_0_r ((T / 2 ^ 0) mod 2 ^ 32)). apply limb_ev; [|reflexivity].
  rewrite limb1 by lia. reflexivity.
Qed.

Lemma w_limb1 T x a s a' b : x = (T / 2 ^ a) mod 2 ^ 32 ->
  (0 <=? a) && (0 <=? s) && (s <=? 11) && (a + s =? a') && (b =? a' + 21) = true ->
  ev (Z.land (Z.shiftr x s) 2097151) (T / 2 ^ a' - 2097152 * (T / 2 ^ b)) 0 2097151.
Proof.
  intros -> h. rewrite !andb_true_iff in h. destruct h as ((((h0 & h1) & h2) & h3) & h4).
  apply Z.leb_le in h0, h1, h2. apply Z.eqb_eq in h3, h4. apply limb_ev.
  - rewrite limb1 by lia. now rewrite h3.
  - rewrite andb_true_iff. split; [apply Z.leb_le | apply Z.eqb_eq]; lia.
Qed.

Lemma w_limb2 T x y a s k a' b : x = (T / 2 ^ a) mod 2 ^ 32 -> y = (T / 2 ^ (a + 32)) mod 2 ^ 32 ->
  (0 <=? a) && (0 <=? s) && (s <? 32) && (k =? 32 - s) && (a + s =? a') && (b =? a' + 21) = true ->
  ev (Z.land (Z.lor (Z.shiftr x s) (u32 (Z.shiftl y k))) 2097151) (T / 2 ^ a' - 2097152 * (T / 2 ^ b)) 0 2097151.
Proof.
  intros -> -> h. rewrite !andb_true_iff in h. destruct h as (((((h0 & h1) & h2) & h3) & h4) & h5).
  apply Z.leb_le in h0, h1. apply Z.ltb_lt in h2. apply Z.eqb_eq in h3, h4, h5. apply limb_ev.
  - rewrite limb2 by lia. now rewrite h4.
  - rewrite andb_true_iff. split; [apply Z.leb_le | apply Z.eqb_eq]; lia.
Qed.

Lemma w_top T x : x = (T / 2 ^ 224) mod 2 ^ 32 -> 0 <= T < 2 ^ 256 ->
  ev (Z.shiftr x 7) (T / 2 ^ 231) 0 33554431.
Proof.
  intros -> hT. rewrite Z.mod_small; cycle 1.
  { split; [apply Z.div_pos; lia | apply Z.div_lt_upper_bound; lia]. }
  rewrite Z.shiftr_div_pow2 by lia. rewrite Z.div_div by lia. change (2 ^ 224 * 2 ^ 7) with (2 ^ 231).
  split; [reflexivity|]. split; [apply Z.div_pos; lia|].
  apply Z.lt_succ_r. apply Z.div_lt_upper_bound; lia.
Qed.

Lemma sc_words_of w0 w1 w2 w3 w4 w5 w6 w7 : sc_words (Sc w0 w1 w2 w3 w4 w5 w6 w7) ->
  let T := scv (Sc w0 w1 w2 w3 w4 w5 w6 w7) in 0 <= T < 2 ^ 256 /\
  w0 = (T / 2 ^ 0) mod 2 ^ 32 /\ w1 = (T / 2 ^ 32) mod 2 ^ 32 /\ w2 = (T / 2 ^ 64) mod 2 ^ 32 /\ w3 = (T / 2 ^ 96) mod 2 ^ 32 /\ w4 = (T / 2 ^ 128) mod 2 ^ 32 /\ w5 = (T / 2 ^ 160) mod 2 ^ 32 /\ w6 = (T / 2 ^ 192) mod 2 ^ 32 /\ w7 = (T / 2 ^ 224) mod 2 ^ 32.
Proof.
  cbv beta iota zeta delta [sc_words]. intros (h0 & h1 & h2 & h3 & h4 & h5 & h6 & h7).
  split; [cbn [scv]; lia|].
  refine (conj _ _); [replace (scv (Sc w0 w1 w2 w3 w4 w5 w6 w7)) with ((0) + 2 ^ 0 * (w0 + 2 ^ 32 * (0 + 2 ^ 0 * w1 + 2 ^ 32 * w2 + 2 ^ 64 * w3 + 2 ^ 96 * w4 + 2 ^ 128 * w5 + 2 ^ 160 * w6 + 2 ^ 192 * w7))) by (cbn [scv]; ring); apply word_of; lia|].
  refine (conj _ _); [replace (scv (Sc w0 w1 w2 w3 w4 w5 w6 w7)) with ((0 + 2 ^ 0 * w0) + 2 ^ 32 * (w1 + 2 ^ 32 * (0 + 2 ^ 0 * w2 + 2 ^ 32 * w3 + 2 ^ 64 * w4 + 2 ^ 96 * w5 + 2 ^ 128 * w6 + 2 ^ 160 * w7))) by (cbn [scv]; ring); apply word_of; lia|].
  refine (conj _ _); [replace (scv (Sc w0 w1 w2 w3 w4 w5 w6 w7)) with ((0 + 2 ^ 0 * w0 + 2 ^ 32 * w1) + 2 ^ 64 * (w2 + 2 ^ 32 * (0 + 2 ^ 0 * w3 + 2 ^ 32 * w4 + 2 ^ 64 * w5 + 2 ^ 96 * w6 + 2 ^ 128 * w7))) by (cbn [scv]; ring); apply word_of; lia|].
  refine (conj _ _); [replace (scv (Sc w0 w1 w2 w3 w4 w5 w6 w7)) with ((0 + 2 ^ 0 * w0 + 2 ^ 32 * w1 + 2 ^ 64 * w2) + 2 ^ 96 * (w3 + 2 ^ 32 * (0 + 2 ^ 0 * w4 + 2 ^ 32 * w5 + 2 ^ 64 * w6 + 2 ^ 96 * w7))) by (cbn [scv]; ring); apply word_of; lia|].
  refine (conj _ _); [replace (scv (Sc w0 w1 w2 w3 w4 w5 w6 w7)) with ((0 + 2 ^ 0 * w0 + 2 ^ 32 * w1 + 2 ^ 64 * w2 + 2 ^ 96 * w3) + 2 ^ 128 * (w4 + 2 ^ 32 * (0 + 2 ^ 0 * w5 + 2 ^ 32 * w6 + 2 ^ 64 * w7))) by (cbn [scv]; ring); apply word_of; lia|].
  refine (conj _ _); [replace (scv (Sc w0 w1 w2 w3 w4 w5 w6 w7)) with ((0 + 2 ^ 0 * w0 + 2 ^ 32 * w1 + 2 ^ 64 * w2 + 2 ^ 96 * w3 + 2 ^ 128 * w4) + 2 ^ 160 * (w5 + 2 ^ 32 * (0 + 2 ^ 0 * w6 + 2 ^ 32 * w7))) by (cbn [scv]; ring); apply word_of; lia|].
  refine (conj _ _); [replace (scv (Sc w0 w1 w2 w3 w4 w5 w6 w7)) with ((0 + 2 ^ 0 * w0 + 2 ^ 32 * w1 + 2 ^ 64 * w2 + 2 ^ 96 * w3 + 2 ^ 128 * w4 + 2 ^ 160 * w5) + 2 ^ 192 * (w6 + 2 ^ 32 * (0 + 2 ^ 0 * w7))) by (cbn [scv]; ring); apply word_of; lia|].
  replace (scv (Sc w0 w1 w2 w3 w4 w5 w6 w7)) with ((0 + 2 ^ 0 * w0 + 2 ^ 32 * w1 + 2 ^ 64 * w2 + 2 ^ 96 * w3 + 2 ^ 128 * w4 + 2 ^ 160 * w5 + 2 ^ 192 * w6) + 2 ^ 224 * (w7 + 2 ^ 32 * (0))) by (cbn [scv]; ring); apply word_of; lia.
Qed.

Lemma square_ok a : sc_words a ->
  reduced_of (scv a * scv a) (sc_square a).
Proof.
  destruct a as [a_0 a_1 a_2 a_3 a_4 a_5 a_6 a_7].
  intros ha.
  destruct (sc_words_of _ _ _ _ _ _ _ _ ha) as (Ra & Wa0 & Wa1 & Wa2 & Wa3 & Wa4 & Wa5 & Wa6 & Wa7). clear ha.
  set (Va := scv (Sc a_0 a_1 a_2 a_3 a_4 a_5 a_6 a_7)) in *. clearbody Va.
  ev_open sc_square (sc_square (Sc a_0 a_1 a_2 a_3 a_4 a_5 a_6 a_7)).
  lazymatch goal with |- ?P (dlet x := ?e in @?body x) => refine (step_evd P body e _ _ _ (w_limb0 Va _ Wa0) _) end; [intros a0 Ea0 Ha0; cbv beta].
  lazymatch goal with |- ?P (dlet x := ?e in @?body x) => refine (step_evd P body e _ _ _ (w_limb2 Va _ _ 0 21 11 21 42 Wa0 Wa1 eq_refl) _) end; [intros a1 Ea1 Ha1; cbv beta].
  lazymatch goal with |- ?P (dlet x := ?e in @?body x) => refine (step_evd P body e _ _ _ (w_limb1 Va _ 32 10 42 63 Wa1 eq_refl) _) end; [intros a2 Ea2 Ha2; cbv beta].
  lazymatch goal with |- ?P (dlet x := ?e in @?body x) => refine (step_evd P body e _ _ _ (w_limb2 Va _ _ 32 31 1 63 84 Wa1 Wa2 eq_refl) _) end; [intros a3 Ea3 Ha3; cbv beta].
  lazymatch goal with |- ?P (dlet x := ?e in @?body x) => refine (step_evd P body e _ _ _ (w_limb2 Va _ _ 64 20 12 84 105 Wa2 Wa3 eq_refl) _) end; [intros a4 Ea4 Ha4; cbv beta].
  lazymatch goal with |- ?P (dlet x := ?e in @?body x) => refine (step_evd P body e _ _ _ (w_limb1 Va _ 96 9 105 126 Wa3 eq_refl) _) end; [intros a5 Ea5 Ha5; cbv beta].
  lazymatch goal with |- ?P (dlet x := ?e in @?body x) => refine (step_evd P body e _ _ _ (w_limb2 Va _ _ 96 30 2 126 147 Wa3 Wa4 eq_refl) _) end; [intros a6 Ea6 Ha6; cbv beta].
  lazymatch goal with |- ?P (dlet x := ?e in @?body x) => refine (step_evd P body e _ _ _ (w_limb2 Va _ _ 128 19 13 147 168 Wa4 Wa5 eq_refl) _) end; [intros a7 Ea7 Ha7; cbv beta].
  lazymatch goal with |- ?P (dlet x := ?e in @?body x) => refine (step_evd P body e _ _ _ (w_limb1 Va _ 160 8 168 189 Wa5 eq_refl) _) end; [intros a8 Ea8 Ha8; cbv beta].
  lazymatch goal with |- ?P (dlet x := ?e in @?body x) => refine (step_evd P body e _ _ _ (w_limb2 Va _ _ 160 29 3 189 210 Wa5 Wa6 eq_refl) _) end; [intros a9 Ea9 Ha9; cbv beta].
  lazymatch goal with |- ?P (dlet x := ?e in @?body x) => refine (step_evd P body e _ _ _ (w_limb2 Va _ _ 192 18 14 210 231 Wa6 Wa7 eq_refl) _) end; [intros a10 Ea10 Ha10; cbv beta].
  lazymatch goal with |- ?P (dlet x := ?e in @?body x) => refine (step_evd P body e _ _ _ (w_top Va _ Wa7 Ra) _) end; [intros a11 Ea11 Ha11; cbv beta].
  assert (HVa : Va = pv [a0; a1; a2; a3; a4; a5; a6; a7; a8; a9; a10; a11]).
  { rewrite Ea0, Ea1, Ea2, Ea3, Ea4, Ea5, Ea6, Ea7, Ea8, Ea9, Ea10, Ea11. cbn [pv]. rewrite Z.pow_0_r, Z.div_1_r. ring. }
  clear Ea0 Ea1 Ea2 Ea3 Ea4 Ea5 Ea6 Ea7 Ea8 Ea9 Ea10 Ea11 Wa0 Wa1 Wa2 Wa3 Wa4 Wa5 Wa6 Wa7.
  do 23 evd_step. subst PP. cbv beta.
  match goal with |- reduced_of _ (sc_reduceAfterMul ?x0 ?x1 ?x2 ?x3 ?x4 ?x5 ?x6 ?x7 ?x8 ?x9 ?x10 ?x11 ?x12 ?x13 ?x14 ?x15 ?x16 ?x17 ?x18 ?x19 ?x20 ?x21 ?x22) =>
    assert (R : reduced_of (pv [x0; x1; x2; x3; x4; x5; x6; x7; x8; x9; x10; x11; x12; x13; x14; x15; x16; x17; x18; x19; x20; x21; x22]) (sc_reduceAfterMul x0 x1 x2 x3 x4 x5 x6 x7 x8 x9 x10 x11 x12 x13 x14 x15 x16 x17 x18 x19 x20 x21 x22))
      by (apply reduceAfterMul_ok; [unfold bnds; repeat (apply Forall_cons; [bnd|]); apply Forall_nil | bnd]);
    replace (Va * Va) with (pv [x0; x1; x2; x3; x4; x5; x6; x7; x8; x9; x10; x11; x12; x13; x14; x15; x16; x17; x18; x19; x20; x21; x22]); [exact R|] end.
  clear R. rewrite HVa. cbn [pv]. subst. ring.
Qed.

Lemma mul_ok a b : sc_words a -> sc_words b ->
  reduced_of (scv a * scv b) (sc_mul a b).
Proof.
  destruct a as [a_0 a_1 a_2 a_3 a_4 a_5 a_6 a_7].
  destruct b as [b_0 b_1 b_2 b_3 b_4 b_5 b_6 b_7].
  intros ha hb.
  destruct (sc_words_of _ _ _ _ _ _ _ _ ha) as (Ra & Wa0 & Wa1 & Wa2 & Wa3 & Wa4 & Wa5 & Wa6 & Wa7). clear ha.
  set (Va := scv (Sc a_0 a_1 a_2 a_3 a_4 a_5 a_6 a_7)) in *. clearbody Va.
  destruct (sc_words_of _ _ _ _ _ _ _ _ hb) as (Rb & Wb0 & Wb1 & Wb2 & Wb3 & Wb4 & Wb5 & Wb6 & Wb7). clear hb.
  set (Vb := scv (Sc b_0 b_1 b_2 b_3 b_4 b_5 b_6 b_7)) in *. clearbody Vb.
  ev_open sc_mul (sc_mul (Sc a_0 a_1 a_2 a_3 a_4 a_5 a_6 a_7) (Sc b_0 b_1 b_2 b_3 b_4 b_5 b_6 b_7)).
  lazymatch goal with |- ?P (dlet x := ?e in @?body x) => refine (step_evd P body e _ _ _ (w_limb0 Va _ Wa0) _) end; [intros a0 Ea0 Ha0; cbv beta].
  lazymatch goal with |- ?P (dlet x := ?e in @?body x) => refine (step_evd P body e _ _ _ (w_limb2 Va _ _ 0 21 11 21 42 Wa0 Wa1 eq_refl) _) end; [intros a1 Ea1 Ha1; cbv beta].
  lazymatch goal with |- ?P (dlet x := ?e in @?body x) => refine (step_evd P body e _ _ _ (w_limb1 Va _ 32 10 42 63 Wa1 eq_refl) _) end; [intros a2 Ea2 Ha2; cbv beta].
  lazymatch goal with |- ?P (dlet x := ?e in @?body x) => refine (step_evd P body e _ _ _ (w_limb2 Va _ _ 32 31 1 63 84 Wa1 Wa2 eq_refl) _) end; [intros a3 Ea3 Ha3; cbv beta].
  lazymatch goal with |- ?P (dlet x := ?e in @?body x) => refine (step_evd P body e _ _ _ (w_limb2 Va _ _ 64 20 12 84 105 Wa2 Wa3 eq_refl) _) end; [intros a4 Ea4 Ha4; cbv beta].
  lazymatch goal with |- ?P (dlet x := ?e in @?body x) => refine (step_evd P body e _ _ _ (w_limb1 Va _ 96 9 105 126 Wa3 eq_refl) _) end; [intros a5 Ea5 Ha5; cbv beta].
  lazymatch goal with |- ?P (dlet x := ?e in @?body x) => refine (step_evd P body e _ _ _ (w_limb2 Va _ _ 96 30 2 126 147 Wa3 Wa4 eq_refl) _) end; [intros a6 Ea6 Ha6; cbv beta].
  lazymatch goal with |- ?P (dlet x := ?e in @?body x) => refine (step_evd P body e _ _ _ (w_limb2 Va _ _ 128 19 13 147 168 Wa4 Wa5 eq_refl) _) end; [intros a7 Ea7 Ha7; cbv beta].
  lazymatch goal with |- ?P (dlet x := ?e in @?body x) => refine (step_evd P body e _ _ _ (w_limb1 Va _ 160 8 168 189 Wa5 eq_refl) _) end; [intros a8 Ea8 Ha8; cbv beta].
  lazymatch goal with |- ?P (dlet x := ?e in @?body x) => refine (step_evd P body e _ _ _ (w_limb2 Va _ _ 160 29 3 189 210 Wa5 Wa6 eq_refl) _) end; [intros a9 Ea9 Ha9; cbv beta].
  lazymatch goal with |- ?P (dlet x := ?e in @?body x) => refine (step_evd P body e _ _ _ (w_limb2 Va _ _ 192 18 14 210 231 Wa6 Wa7 eq_refl) _) end; [intros a10 Ea10 Ha10; cbv beta].
  lazymatch goal with |- ?P (dlet x := ?e in @?body x) => refine (step_evd P body e _ _ _ (w_top Va _ Wa7 Ra) _) end; [intros a11 Ea11 Ha11; cbv beta].
  assert (HVa : Va = pv [a0; a1; a2; a3; a4; a5; a6; a7; a8; a9; a10; a11]).
  { rewrite Ea0, Ea1, Ea2, Ea3, Ea4, Ea5, Ea6, Ea7, Ea8, Ea9, Ea10, Ea11. cbn [pv]. rewrite Z.pow_0_r, Z.div_1_r. ring. }
  clear Ea0 Ea1 Ea2 Ea3 Ea4 Ea5 Ea6 Ea7 Ea8 Ea9 Ea10 Ea11 Wa0 Wa1 Wa2 Wa3 Wa4 Wa5 Wa6 Wa7.
  lazymatch goal with |- ?P (dlet x := ?e in @?body x) => refine (step_evd P body e _ _ _ (w_limb0 Vb _ Wb0) _) end; [intros b0 Eb0 Hb0; cbv beta].
  lazymatch goal with |- ?P (dlet x := ?e in @?body x) => refine (step_evd P body e _ _ _ (w_limb2 Vb _ _ 0 21 11 21 42 Wb0 Wb1 eq_refl) _) end; [intros b1 Eb1 Hb1; cbv beta].
  lazymatch goal with |- ?P (dlet x := ?e in @?body x) => refine (step_evd P body e _ _ _ (w_limb1 Vb _ 32 10 42 63 Wb1 eq_refl) _) end; [intros b2 Eb2 Hb2; cbv beta].
  lazymatch goal with |- ?P (dlet x := ?e in @?body x) => refine (step_evd P body e _ _ _ (w_limb2 Vb _ _ 32 31 1 63 84 Wb1 Wb2 eq_refl) _) end; [intros b3 Eb3 Hb3; cbv beta].
  lazymatch goal with |- ?P (dlet x := ?e in @?body x) => refine (step_evd P body e _ _ _ (w_limb2 Vb _ _ 64 20 12 84 105 Wb2 Wb3 eq_refl) _) end; [intros b4 Eb4 Hb4; cbv beta].
  lazymatch goal with |- ?P (dlet x := ?e in @?body x) => refine (step_evd P body e _ _ _ (w_limb1 Vb _ 96 9 105 126 Wb3 eq_refl) _) end; [intros b5 Eb5 Hb5; cbv beta].
  lazymatch goal with |- ?P (dlet x := ?e in @?body x) => refine (step_evd P body e _ _ _ (w_limb2 Vb _ _ 96 30 2 126 147 Wb3 Wb4 eq_refl) _) end; [intros b6 Eb6 Hb6; cbv beta].
  lazymatch goal with |- ?P (dlet x := ?e in @?body x) => refine (step_evd P body e _ _ _ (w_limb2 Vb _ _ 128 19 13 147 168 Wb4 Wb5 eq_refl) _) end; [intros b7 Eb7 Hb7; cbv beta].
  lazymatch goal with |- ?P (dlet x := ?e in @?body x) => refine (step_evd P body e _ _ _ (w_limb1 Vb _ 160 8 168 189 Wb5 eq_refl) _) end; [intros b8 Eb8 Hb8; cbv beta].
  lazymatch goal with |- ?P (dlet x := ?e in @?body x) => refine (step_evd P body e _ _ _ (w_limb2 Vb _ _ 160 29 3 189 210 Wb5 Wb6 eq_refl) _) end; [intros b9 Eb9 Hb9; cbv beta].
  lazymatch goal with |- ?P (dlet x := ?e in @?body x) => refine (step_evd P body e _ _ _ (w_limb2 Vb _ _ 192 18 14 210 231 Wb6 Wb7 eq_refl) _) end; [intros b10 Eb10 Hb10; cbv beta].
  lazymatch goal with |- ?P (dlet x := ?e in @?body x) => refine (step_evd P body e _ _ _ (w_top Vb _ Wb7 Rb) _) end; [intros b11 Eb11 Hb11; cbv beta].
  assert (HVb : Vb = pv [b0; b1; b2; b3; b4; b5; b6; b7; b8; b9; b10; b11]).
  { rewrite Eb0, Eb1, Eb2, Eb3, Eb4, Eb5, Eb6, Eb7, Eb8, Eb9, Eb10, Eb11. cbn [pv]. rewrite Z.pow_0_r, Z.div_1_r. ring. }
  clear Eb0 Eb1 Eb2 Eb3 Eb4 Eb5 Eb6 Eb7 Eb8 Eb9 Eb10 Eb11 Wb0 Wb1 Wb2 Wb3 Wb4 Wb5 Wb6 Wb7.
  do 23 evd_step. subst PP. cbv beta.
  match goal with |- reduced_of _ (sc_reduceAfterMul ?x0 ?x1 ?x2 ?x3 ?x4 ?x5 ?x6 ?x7 ?x8 ?x9 ?x10 ?x11 ?x12 ?x13 ?x14 ?x15 ?x16 ?x17 ?x18 ?x19 ?x20 ?x21 ?x22) =>
    assert (R : reduced_of (pv [x0; x1; x2; x3; x4; x5; x6; x7; x8; x9; x10; x11; x12; x13; x14; x15; x16; x17; x18; x19; x20; x21; x22]) (sc_reduceAfterMul x0 x1 x2 x3 x4 x5 x6 x7 x8 x9 x10 x11 x12 x13 x14 x15 x16 x17 x18 x19 x20 x21 x22))
      by (apply reduceAfterMul_ok; [unfold bnds; repeat (apply Forall_cons; [bnd|]); apply Forall_nil | bnd]);
    replace (Va * Vb) with (pv [x0; x1; x2; x3; x4; x5; x6; x7; x8; x9; x10; x11; x12; x13; x14; x15; x16; x17; x18; x19; x20; x21; x22]); [exact R|] end.
  clear R. rewrite HVa, HVb. cbn [pv]. subst. ring.
Qed.

Lemma mulAdd_ok a b c : sc_words a -> sc_words b -> sc_words c ->
  reduced_of (scv a * scv b + scv c) (sc_mulAdd a b c).
Proof.
  destruct a as [a_0 a_1 a_2 a_3 a_4 a_5 a_6 a_7].
  destruct b as [b_0 b_1 b_2 b_3 b_4 b_5 b_6 b_7].
  destruct c as [c_0 c_1 c_2 c_3 c_4 c_5 c_6 c_7].
  intros ha hb hc.
  destruct (sc_words_of _ _ _ _ _ _ _ _ ha) as (Ra & Wa0 & Wa1 & Wa2 & Wa3 & Wa4 & Wa5 & Wa6 & Wa7). clear ha.
  set (Va := scv (Sc a_0 a_1 a_2 a_3 a_4 a_5 a_6 a_7)) in *. clearbody Va.
  destruct (sc_words_of _ _ _ _ _ _ _ _ hb) as (Rb & Wb0 & Wb1 & Wb2 & Wb3 & Wb4 & Wb5 & Wb6 & Wb7). clear hb.
  set (Vb := scv (Sc b_0 b_1 b_2 b_3 b_4 b_5 b_6 b_7)) in *. clearbody Vb.
  destruct (sc_words_of _ _ _ _ _ _ _ _ hc) as (Rc & Wc0 & Wc1 & Wc2 & Wc3 & Wc4 & Wc5 & Wc6 & Wc7). clear hc.
  set (Vc := scv (Sc c_0 c_1 c_2 c_3 c_4 c_5 c_6 c_7)) in *. clearbody Vc.
  ev_open sc_mulAdd (sc_mulAdd (Sc a_0 a_1 a_2 a_3 a_4 a_5 a_6 a_7) (Sc b_0 b_1 b_2 b_3 b_4 b_5 b_6 b_7) (Sc c_0 c_1 c_2 c_3 c_4 c_5 c_6 c_7)).
  lazymatch goal with |- ?P (dlet x := ?e in @?body x) => refine (step_evd P body e _ _ _ (w_limb0 Va _ Wa0) _) end; [intros a0 Ea0 Ha0; cbv beta].
  lazymatch goal with |- ?P (dlet x := ?e in @?body x) => refine (step_evd P body e _ _ _ (w_limb2 Va _ _ 0 21 11 21 42 Wa0 Wa1 eq_refl) _) end; [intros a1 Ea1 Ha1; cbv beta].
  lazymatch goal with |- ?P (dlet x := ?e in @?body x) => refine (step_evd P body e _ _ _ (w_limb1 Va _ 32 10 42 63 Wa1 eq_refl) _) end; [intros a2 Ea2 Ha2; cbv beta].
  lazymatch goal with |- ?P (dlet x := ?e in @?body x) => refine (step_evd P body e _ _ _ (w_limb2 Va _ _ 32 31 1 63 84 Wa1 Wa2 eq_refl) _) end; [intros a3 Ea3 Ha3; cbv beta].
  lazymatch goal with |- ?P (dlet x := ?e in @?body x) => refine (step_evd P body e _ _ _ (w_limb2 Va _ _ 64 20 12 84 105 Wa2 Wa3 eq_refl) _) end; [intros a4 Ea4 Ha4; cbv beta].
  lazymatch goal with |- ?P (dlet x := ?e in @?body x) => refine (step_evd P body e _ _ _ (w_limb1 Va _ 96 9 105 126 Wa3 eq_refl) _) end; [intros a5 Ea5 Ha5; cbv beta].
  lazymatch goal with |- ?P (dlet x := ?e in @?body x) => refine (step_evd P body e _ _ _ (w_limb2 Va _ _ 96 30 2 126 147 Wa3 Wa4 eq_refl) _) end; [intros a6 Ea6 Ha6; cbv beta].
  lazymatch goal with |- ?P (dlet x := ?e in @?body x) => refine (step_evd P body e _ _ _ (w_limb2 Va _ _ 128 19 13 147 168 Wa4 Wa5 eq_refl) _) end; [intros a7 Ea7 Ha7; cbv beta].
  lazymatch goal with |- ?P (dlet x := ?e in @?body x) => refine (step_evd P body e _ _ _ (w_limb1 Va _ 160 8 168 189 Wa5 eq_refl) _) end; [intros a8 Ea8 Ha8; cbv beta].
  lazymatch goal with |- ?P (dlet x := ?e in @?body x) => refine (step_evd P body e _ _ _ (w_limb2 Va _ _ 160 29 3 189 210 Wa5 Wa6 eq_refl) _) end; [intros a9 Ea9 Ha9; cbv beta].
  lazymatch goal with |- ?P (dlet x := ?e in @?body x) => refine (step_evd P body e _ _ _ (w_limb2 Va _ _ 192 18 14 210 231 Wa6 Wa7 eq_refl) _) end; [intros a10 Ea10 Ha10; cbv beta].
  lazymatch goal with |- ?P (dlet x := ?e in @?body x) => refine (step_evd P body e _ _ _ (w_top Va _ Wa7 Ra) _) end; [intros a11 Ea11 Ha11; cbv beta].
  assert (HVa : Va = pv [a0; a1; a2; a3; a4; a5; a6; a7; a8; a9; a10; a11]).
  { rewrite Ea0, Ea1, Ea2, Ea3, Ea4, Ea5, Ea6, Ea7, Ea8, Ea9, Ea10, Ea11. cbn [pv]. rewrite Z.pow_0_r, Z.div_1_r. ring. }
  clear Ea0 Ea1 Ea2 Ea3 Ea4 Ea5 Ea6 Ea7 Ea8 Ea9 Ea10 Ea11 Wa0 Wa1 Wa2 Wa3 Wa4 Wa5 Wa6 Wa7.
  lazymatch goal with |- ?P (dlet x := ?e in @?body x) => refine (step_evd P body e _ _ _ (w_limb0 Vb _ Wb0) _) end; [intros b0 Eb0 Hb0; cbv beta].
  lazymatch goal with |- ?P (dlet x := ?e in @?body x) => refine (step_evd P body e _ _ _ (w_limb2 Vb _ _ 0 21 11 21 42 Wb0 Wb1 eq_refl) _) end; [intros b1 Eb1 Hb1; cbv beta].
  lazymatch goal with |- ?P (dlet x := ?e in @?body x) => refine (step_evd P body e _ _ _ (w_limb1 Vb _ 32 10 42 63 Wb1 eq_refl) _) end; [intros b2 Eb2 Hb2; cbv beta].
  lazymatch goal with |- ?P (dlet x := ?e in @?body x) => refine (step_evd P body e _ _ _ (w_limb2 Vb _ _ 32 31 1 63 84 Wb1 Wb2 eq_refl) _) end; [intros b3 Eb3 Hb3; cbv beta].
  lazymatch goal with |- ?P (dlet x := ?e in @?body x) => refine (step_evd P body e _ _ _ (w_limb2 Vb _ _ 64 20 12 84 105 Wb2 Wb3 eq_refl) _) end; [intros b4 Eb4 Hb4; cbv beta].
  lazymatch goal with |- ?P (dlet x := ?e in @?body x) => refine (step_evd P body e _ _ _ (w_limb1 Vb _ 96 9 105 126 Wb3 eq_refl) _) end; [intros b5 Eb5 Hb5; cbv beta].
  lazymatch goal with |- ?P (dlet x := ?e in @?body x) => refine (step_evd P body e _ _ _ (w_limb2 Vb _ _ 96 30 2 126 147 Wb3 Wb4 eq_refl) _) end; [intros b6 Eb6 Hb6; cbv beta].
  lazymatch goal with |- ?P (dlet x := ?e in @?body x) => refine (step_evd P body e _ _ _ (w_limb2 Vb _ _ 128 19 13 147 168 Wb4 Wb5 eq_refl) _) end; [intros b7 Eb7 Hb7; cbv beta].
  lazymatch goal with |- ?P (dlet x := ?e in @?body x) => refine (step_evd P body e _ _ _ (w_limb1 Vb _ 160 8 168 189 Wb5 eq_refl) _) end; [intros b8 Eb8 Hb8; cbv beta].
  lazymatch goal with |- ?P (dlet x := ?e in @?body x) => refine (step_evd P body e _ _ _ (w_limb2 Vb _ _ 160 29 3 189 210 Wb5 Wb6 eq_refl) _) end; [intros b9 Eb9 Hb9; cbv beta].
  lazymatch goal with |- ?P (dlet x := ?e in @?body x) => refine (step_evd P body e _ _ _ (w_limb2 Vb _ _ 192 18 14 210 231 Wb6 Wb7 eq_refl) _) end; [intros b10 Eb10 Hb10; cbv beta].
  lazymatch goal with |- ?P (dlet x := ?e in @?body x) => refine (step_evd P body e _ _ _ (w_top Vb _ Wb7 Rb) _) end; [intros b11 Eb11 Hb11; cbv beta].
  assert (HVb : Vb = pv [b0; b1; b2; b3; b4; b5; b6; b7; b8; b9; b10; b11]).
  { rewrite Eb0, Eb1, Eb2, Eb3, Eb4, Eb5, Eb6, Eb7, Eb8, Eb9, Eb10, Eb11. cbn [pv]. rewrite Z.pow_0_r, Z.div_1_r. ring. }
  clear Eb0 Eb1 Eb2 Eb3 Eb4 Eb5 Eb6 Eb7 Eb8 Eb9 Eb10 Eb11 Wb0 Wb1 Wb2 Wb3 Wb4 Wb5 Wb6 Wb7.
  lazymatch goal with |- ?P (dlet x := ?e in @?body x) => refine (step_evd P body e _ _ _ (w_limb0 Vc _ Wc0) _) end; [intros c0 Ec0 Hc0; cbv beta].
  lazymatch goal with |- ?P (dlet x := ?e in @?body x) => refine (step_evd P body e _ _ _ (w_limb2 Vc _ _ 0 21 11 21 42 Wc0 Wc1 eq_refl) _) end; [intros c1 Ec1 Hc1; cbv beta].
  lazymatch goal with |- ?P (dlet x := ?e in @?body x) => refine (step_evd P body e _ _ _ (w_limb1 Vc _ 32 10 42 63 Wc1 eq_refl) _) end; [intros c2 Ec2 Hc2; cbv beta].
  lazymatch goal with |- ?P (dlet x := ?e in @?body x) => refine (step_evd P body e _ _ _ (w_limb2 Vc _ _ 32 31 1 63 84 Wc1 Wc2 eq_refl) _) end; [intros c3 Ec3 Hc3; cbv beta].
  lazymatch goal with |- ?P (dlet x := ?e in @?body x) => refine (step_evd P body e _ _ _ (w_limb2 Vc _ _ 64 20 12 84 105 Wc2 Wc3 eq_refl) _) end; [intros c4 Ec4 Hc4; cbv beta].
  lazymatch goal with |- ?P (dlet x := ?e in @?body x) => refine (step_evd P body e _ _ _ (w_limb1 Vc _ 96 9 105 126 Wc3 eq_refl) _) end; [intros c5 Ec5 Hc5; cbv beta].
  lazymatch goal with |- ?P (dlet x := ?e in @?body x) => refine (step_evd P body e _ _ _ (w_limb2 Vc _ _ 96 30 2 126 147 Wc3 Wc4 eq_refl) _) end; [intros c6 Ec6 Hc6; cbv beta].
  lazymatch goal with |- ?P (dlet x := ?e in @?body x) => refine (step_evd P body e _ _ _ (w_limb2 Vc _ _ 128 19 13 147 168 Wc4 Wc5 eq_refl) _) end; [intros c7 Ec7 Hc7; cbv beta].
  lazymatch goal with |- ?P (dlet x := ?e in @?body x) => refine (step_evd P body e _ _ _ (w_limb1 Vc _ 160 8 168 189 Wc5 eq_refl) _) end; [intros c8 Ec8 Hc8; cbv beta].
  lazymatch goal with |- ?P (dlet x := ?e in @?body x) => refine (step_evd P body e _ _ _ (w_limb2 Vc _ _ 160 29 3 189 210 Wc5 Wc6 eq_refl) _) end; [intros c9 Ec9 Hc9; cbv beta].
  lazymatch goal with |- ?P (dlet x := ?e in @?body x) => refine (step_evd P body e _ _ _ (w_limb2 Vc _ _ 192 18 14 210 231 Wc6 Wc7 eq_refl) _) end; [intros c10 Ec10 Hc10; cbv beta].
  lazymatch goal with |- ?P (dlet x := ?e in @?body x) => refine (step_evd P body e _ _ _ (w_top Vc _ Wc7 Rc) _) end; [intros c11 Ec11 Hc11; cbv beta].
  assert (HVc : Vc = pv [c0; c1; c2; c3; c4; c5; c6; c7; c8; c9; c10; c11]).
  { rewrite Ec0, Ec1, Ec2, Ec3, Ec4, Ec5, Ec6, Ec7, Ec8, Ec9, Ec10, Ec11. cbn [pv]. rewrite Z.pow_0_r, Z.div_1_r. ring. }
  clear Ec0 Ec1 Ec2 Ec3 Ec4 Ec5 Ec6 Ec7 Ec8 Ec9 Ec10 Ec11 Wc0 Wc1 Wc2 Wc3 Wc4 Wc5 Wc6 Wc7.
  do 23 evd_step. subst PP. cbv beta.
  match goal with |- reduced_of _ (sc_reduceAfterMul ?x0 ?x1 ?x2 ?x3 ?x4 ?x5 ?x6 ?x7 ?x8 ?x9 ?x10 ?x11 ?x12 ?x13 ?x14 ?x15 ?x16 ?x17 ?x18 ?x19 ?x20 ?x21 ?x22) =>
    assert (R : reduced_of (pv [x0; x1; x2; x3; x4; x5; x6; x7; x8; x9; x10; x11; x12; x13; x14; x15; x16; x17; x18; x19; x20; x21; x22]) (sc_reduceAfterMul x0 x1 x2 x3 x4 x5 x6 x7 x8 x9 x10 x11 x12 x13 x14 x15 x16 x17 x18 x19 x20 x21 x22))
      by (apply reduceAfterMul_ok; [unfold bnds; repeat (apply Forall_cons; [bnd|]); apply Forall_nil | bnd]);
    replace (Va * Vb + Vc) with (pv [x0; x1; x2; x3; x4; x5; x6; x7; x8; x9; x10; x11; x12; x13; x14; x15; x16; x17; x18; x19; x20; x21; x22]); [exact R|] end.
  clear R. rewrite HVa, HVb, HVc. cbn [pv]. subst. ring.
Qed.

Lemma mulSub_ok a b c : sc_words a -> sc_words b -> sc_words c ->
  reduced_of (scv a * scv b - scv c) (sc_mulSub a b c).
Proof.
  destruct a as [a_0 a_1 a_2 a_3 a_4 a_5 a_6 a_7].
  destruct b as [b_0 b_1 b_2 b_3 b_4 b_5 b_6 b_7].
  destruct c as [c_0 c_1 c_2 c_3 c_4 c_5 c_6 c_7].
  intros ha hb hc.
  destruct (sc_words_of _ _ _ _ _ _ _ _ ha) as (Ra & Wa0 & Wa1 & Wa2 & Wa3 & Wa4 & Wa5 & Wa6 & Wa7). clear ha.
  set (Va := scv (Sc a_0 a_1 a_2 a_3 a_4 a_5 a_6 a_7)) in *. clearbody Va.
  destruct (sc_words_of _ _ _ _ _ _ _ _ hb) as (Rb & Wb0 & Wb1 & Wb2 & Wb3 & Wb4 & Wb5 & Wb6 & Wb7). clear hb.
  set (Vb := scv (Sc b_0 b_1 b_2 b_3 b_4 b_5 b_6 b_7)) in *. clearbody Vb.
  destruct (sc_words_of _ _ _ _ _ _ _ _ hc) as (Rc & Wc0 & Wc1 & Wc2 & Wc3 & Wc4 & Wc5 & Wc6 & Wc7). clear hc.
  set (Vc := scv (Sc c_0 c_1 c_2 c_3 c_4 c_5 c_6 c_7)) in *. clearbody Vc.
  ev_open sc_mulSub (sc_mulSub (Sc a_0 a_1 a_2 a_3 a_4 a_5 a_6 a_7) (Sc b_0 b_1 b_2 b_3 b_4 b_5 b_6 b_7) (Sc c_0 c_1 c_2 c_3 c_4 c_5 c_6 c_7)).
  lazymatch goal with |- ?P (dlet x := ?e in @?body x) => refine (step_evd P body e _ _ _ (w_limb0 Va _ Wa0) _) end; [intros a0 Ea0 Ha0; cbv beta].
  lazymatch goal with |- ?P (dlet x := ?e in @?body x) => refine (step_evd P body e _ _ _ (w_limb2 Va _ _ 0 21 11 21 42 Wa0 Wa1 eq_refl) _) end; [intros a1 Ea1 Ha1; cbv beta].
  lazymatch goal with |- ?P (dlet x := ?e in @?body x) => refine (step_evd P body e _ _ _ (w_limb1 Va _ 32 10 42 63 Wa1 eq_refl) _) end; [intros a2 Ea2 Ha2; cbv beta].
  lazymatch goal with |- ?P (dlet x := ?e in @?body x) => refine (step_evd P body e _ _ _ (w_limb2 Va _ _ 32 31 1 63 84 Wa1 Wa2 eq_refl) _) end; [intros a3 Ea3 Ha3; cbv beta].
  lazymatch goal with |- ?P (dlet x := ?e in @?body x) => refine (step_evd P body e _ _ _ (w_limb2 Va _ _ 64 20 12 84 105 Wa2 Wa3 eq_refl) _) end; [intros a4 Ea4 Ha4; cbv beta].
  lazymatch goal with |- ?P (dlet x := ?e in @?body x) => refine (step_evd P body e _ _ _ (w_limb1 Va _ 96 9 105 126 Wa3 eq_refl) _) end; [intros a5 Ea5 Ha5; cbv beta].
  lazymatch goal with |- ?P (dlet x := ?e in @?body x) => refine (step_evd P body e _ _ _ (w_limb2 Va _ _ 96 30 2 126 147 Wa3 Wa4 eq_refl) _) end; [intros a6 Ea6 Ha6; cbv beta].
  lazymatch goal with |- ?P (dlet x := ?e in @?body x) => refine (step_evd P body e _ _ _ (w_limb2 Va _ _ 128 19 13 147 168 Wa4 Wa5 eq_refl) _) end; [intros a7 Ea7 Ha7; cbv beta].
  lazymatch goal with |- ?P (dlet x := ?e in @?body x) => refine (step_evd P body e _ _ _ (w_limb1 Va _ 160 8 168 189 Wa5 eq_refl) _) end; [intros a8 Ea8 Ha8; cbv beta].
  lazymatch goal with |- ?P (dlet x := ?e in @?body x) => refine (step_evd P body e _ _ _ (w_limb2 Va _ _ 160 29 3 189 210 Wa5 Wa6 eq_refl) _) end; [intros a9 Ea9 Ha9; cbv beta].
  lazymatch goal with |- ?P (dlet x := ?e in @?body x) => refine (step_evd P body e _ _ _ (w_limb2 Va _ _ 192 18 14 210 231 Wa6 Wa7 eq_refl) _) end; [intros a10 Ea10 Ha10; cbv beta].
  lazymatch goal with |- ?P (dlet x := ?e in @?body x) => refine (step_evd P body e _ _ _ (w_top Va _ Wa7 Ra) _) end; [intros a11 Ea11 Ha11; cbv beta].
  assert (HVa : Va = pv [a0; a1; a2; a3; a4; a5; a6; a7; a8; a9; a10; a11]).
  { rewrite Ea0, Ea1, Ea2, Ea3, Ea4, Ea5, Ea6, Ea7, Ea8, Ea9, Ea10, Ea11. cbn [pv]. rewrite Z.pow_0_r, Z.div_1_r. ring. }
  clear Ea0 Ea1 Ea2 Ea3 Ea4 Ea5 Ea6 Ea7 Ea8 Ea9 Ea10 Ea11 Wa0 Wa1 Wa2 Wa3 Wa4 Wa5 Wa6 Wa7.
  lazymatch goal with |- ?P (dlet x := ?e in @?body x) => refine (step_evd P body e _ _ _ (w_limb0 Vb _ Wb0) _) end; [intros b0 Eb0 Hb0; cbv beta].
  lazymatch goal with |- ?P (dlet x := ?e in @?body x) => refine (step_evd P body e _ _ _ (w_limb2 Vb _ _ 0 21 11 21 42 Wb0 Wb1 eq_refl) _) end; [intros b1 Eb1 Hb1; cbv beta].
  lazymatch goal with |- ?P (dlet x := ?e in @?body x) => refine (step_evd P body e _ _ _ (w_limb1 Vb _ 32 10 42 63 Wb1 eq_refl) _) end; [intros b2 Eb2 Hb2; cbv beta].
  lazymatch goal with |- ?P (dlet x := ?e in @?body x) => refine (step_evd P body e _ _ _ (w_limb2 Vb _ _ 32 31 1 63 84 Wb1 Wb2 eq_refl) _) end; [intros b3 Eb3 Hb3; cbv beta].
  lazymatch goal with |- ?P (dlet x := ?e in @?body x) => refine (step_evd P body e _ _ _ (w_limb2 Vb _ _ 64 20 12 84 105 Wb2 Wb3 eq_refl) _) end; [intros b4 Eb4 Hb4; cbv beta].
  lazymatch goal with |- ?P (dlet x := ?e in @?body x) => refine (step_evd P body e _ _ _ (w_limb1 Vb _ 96 9 105 126 Wb3 eq_refl) _) end; [intros b5 Eb5 Hb5; cbv beta].
  lazymatch goal with |- ?P (dlet x := ?e in @?body x) => refine (step_evd P body e _ _ _ (w_limb2 Vb _ _ 96 30 2 126 147 Wb3 Wb4 eq_refl) _) end; [intros b6 Eb6 Hb6; cbv beta].
  lazymatch goal with |- ?P (dlet x := ?e in @?body x) => refine (step_evd P body e _ _ _ (w_limb2 Vb _ _ 128 19 13 147 168 Wb4 Wb5 eq_refl) _) end; [intros b7 Eb7 Hb7; cbv beta].
  lazymatch goal with |- ?P (dlet x := ?e in @?body x) => refine (step_evd P body e _ _ _ (w_limb1 Vb _ 160 8 168 189 Wb5 eq_refl) _) end; [intros b8 Eb8 Hb8; cbv beta].
  lazymatch goal with |- ?P (dlet x := ?e in @?body x) => refine (step_evd P body e _ _ _ (w_limb2 Vb _ _ 160 29 3 189 210 Wb5 Wb6 eq_refl) _) end; [intros b9 Eb9 Hb9; cbv beta].
  lazymatch goal with |- ?P (dlet x := ?e in @?body x) => refine (step_evd P body e _ _ _ (w_limb2 Vb _ _ 192 18 14 210 231 Wb6 Wb7 eq_refl) _) end; [intros b10 Eb10 Hb10; cbv beta].
  lazymatch goal with |- ?P (dlet x := ?e in @?body x) => refine (step_evd P body e _ _ _ (w_top Vb _ Wb7 Rb) _) end; [intros b11 Eb11 Hb11; cbv beta].
  assert (HVb : Vb = pv [b0; b1; b2; b3; b4; b5; b6; b7; b8; b9; b10; b11]).
  { rewrite Eb0, Eb1, Eb2, Eb3, Eb4, Eb5, Eb6, Eb7, Eb8, Eb9, Eb10, Eb11. cbn [pv]. rewrite Z.pow_0_r, Z.div_1_r. ring. }
  clear Eb0 Eb1 Eb2 Eb3 Eb4 Eb5 Eb6 Eb7 Eb8 Eb9 Eb10 Eb11 Wb0 Wb1 Wb2 Wb3 Wb4 Wb5 Wb6 Wb7.
  lazymatch goal with |- ?P (dlet x := ?e in @?body x) => refine (step_evd P body e _ _ _ (w_limb0 Vc _ Wc0) _) end; [intros c0 Ec0 Hc0; cbv beta].
  lazymatch goal with |- ?P (dlet x := ?e in @?body x) => refine (step_evd P body e _ _ _ (w_limb2 Vc _ _ 0 21 11 21 42 Wc0 Wc1 eq_refl) _) end; [intros c1 Ec1 Hc1; cbv beta].
  lazymatch goal with |- ?P (dlet x := ?e in @?body x) => refine (step_evd P body e _ _ _ (w_limb1 Vc _ 32 10 42 63 Wc1 eq_refl) _) end; [intros c2 Ec2 Hc2; cbv beta].
  lazymatch goal with |- ?P (dlet x := ?e in @?body x) => refine (step_evd P body e _ _ _ (w_limb2 Vc _ _ 32 31 1 63 84 Wc1 Wc2 eq_refl) _) end; [intros c3 Ec3 Hc3; cbv beta].
  lazymatch goal with |- ?P (dlet x := ?e in @?body x) => refine (step_evd P body e _ _ _ (w_limb2 Vc _ _ 64 20 12 84 105 Wc2 Wc3 eq_refl) _) end; [intros c4 Ec4 Hc4; cbv beta].
  lazymatch goal with |- ?P (dlet x := ?e in @?body x) => refine (step_evd P body e _ _ _ (w_limb1 Vc _ 96 9 105 126 Wc3 eq_refl) _) end; [intros c5 Ec5 Hc5; cbv beta].
  lazymatch goal with |- ?P (dlet x := ?e in @?body x) => refine (step_evd P body e _ _ _ (w_limb2 Vc _ _ 96 30 2 126 147 Wc3 Wc4 eq_refl) _) end; [intros c6 Ec6 Hc6; cbv beta].
  lazymatch goal with |- ?P (dlet x := ?e in @?body x) => refine (step_evd P body e _ _ _ (w_limb2 Vc _ _ 128 19 13 147 168 Wc4 Wc5 eq_refl) _) end; [intros c7 Ec7 Hc7; cbv beta].
  lazymatch goal with |- ?P (dlet x := ?e in @?body x) => refine (step_evd P body e _ _ _ (w_limb1 Vc _ 160 8 168 189 Wc5 eq_refl) _) end; [intros c8 Ec8 Hc8; cbv beta].
  lazymatch goal with |- ?P (dlet x := ?e in @?body x) => refine (step_evd P body e _ _ _ (w_limb2 Vc _ _ 160 29 3 189 210 Wc5 Wc6 eq_refl) _) end; [intros c9 Ec9 Hc9; cbv beta].
  lazymatch goal with |- ?P (dlet x := ?e in @?body x) => refine (step_evd P body e _ _ _ (w_limb2 Vc _ _ 192 18 14 210 231 Wc6 Wc7 eq_refl) _) end; [intros c10 Ec10 Hc10; cbv beta].
  lazymatch goal with |- ?P (dlet x := ?e in @?body x) => refine (step_evd P body e _ _ _ (w_top Vc _ Wc7 Rc) _) end; [intros c11 Ec11 Hc11; cbv beta].
  assert (HVc : Vc = pv [c0; c1; c2; c3; c4; c5; c6; c7; c8; c9; c10; c11]).
  { rewrite Ec0, Ec1, Ec2, Ec3, Ec4, Ec5, Ec6, Ec7, Ec8, Ec9, Ec10, Ec11. cbn [pv]. rewrite Z.pow_0_r, Z.div_1_r. ring. }
  clear Ec0 Ec1 Ec2 Ec3 Ec4 Ec5 Ec6 Ec7 Ec8 Ec9 Ec10 Ec11 Wc0 Wc1 Wc2 Wc3 Wc4 Wc5 Wc6 Wc7.
  do 23 evd_step. subst PP. cbv beta.
  match goal with |- reduced_of _ (sc_reduceAfterMul ?x0 ?x1 ?x2 ?x3 ?x4 ?x5 ?x6 ?x7 ?x8 ?x9 ?x10 ?x11 ?x12 ?x13 ?x14 ?x15 ?x16 ?x17 ?x18 ?x19 ?x20 ?x21 ?x22) =>
    assert (R : reduced_of (pv [x0; x1; x2; x3; x4; x5; x6; x7; x8; x9; x10; x11; x12; x13; x14; x15; x16; x17; x18; x19; x20; x21; x22]) (sc_reduceAfterMul x0 x1 x2 x3 x4 x5 x6 x7 x8 x9 x10 x11 x12 x13 x14 x15 x16 x17 x18 x19 x20 x21 x22))
      by (apply reduceAfterMul_ok; [unfold bnds; repeat (apply Forall_cons; [bnd|]); apply Forall_nil | bnd]);
    replace (Va * Vb - Vc) with (pv [x0; x1; x2; x3; x4; x5; x6; x7; x8; x9; x10; x11; x12; x13; x14; x15; x16; x17; x18; x19; x20; x21; x22]); [exact R|] end.
  clear R. rewrite HVa, HVb, HVc. cbn [pv]. subst. ring.
Qed.

