(** Reduction modulo the group order: the carry chains of [reduceAfterMul] and
    [SetReduced]. *)
From Coq Require Import ZArith List Lia Bool.
From Verif Require Import Words WordsTac ScalarCode.
Import ListNotations.
Open Scope Z_scope.

(** Value of a list of 21-bit limbs. *)
Fixpoint pv (l : list Z) : Z := match l with nil => 0 | x :: r => x + 2097152 * pv r end.

Definition in_i64 (a b : Z) : bool := (-9223372036854775808 <=? a) && (b <? 9223372036854775808).

Lemma in_i64_ok a b x : in_i64 a b = true -> a <= x <= b -> i64 x = x.
Proof.
  unfold in_i64. intros h hx. apply andb_true_iff in h as [h1 h2].
  apply Z.leb_le in h1; apply Z.ltb_lt in h2. apply i64_small; lia.
Qed.

(** A rounding carry from limb [x] to limb [y]. *)
Lemma step_carryR {B : Type} (P : B -> Prop) (body : Z -> Z -> Z -> B) x y l1 h1 l2 h2 l3 h3 :
  l1 <= x <= h1 -> l2 <= y <= h2 ->
  l2 + (l1 + 1048576) / 2097152 = l3 -> h2 + (h1 + 1048576) / 2097152 = h3 ->
  in_i64 (l1 - 2097152) (h1 + 2097152) && in_i64 l3 h3 = true ->
  (forall q x' y', x = x' + 2097152 * q -> y = y' - q -> -1048576 <= x' <= 1048575 ->
     l3 <= y' <= h3 -> P (body q y' x')) ->
  P (dlet c := Z.shiftr (i64 (x + 1048576)) 21 in
     dlet y' := i64 (y + c) in dlet x' := i64 (x - i64 (Z.shiftl c 21)) in body c y' x').
Proof.
  intros hx hy <- <- hb H. apply andb_true_iff in hb as [hb1 hb2].
  unfold LetIn. rewrite (in_i64_ok _ _ (x + 1048576) hb1) by lia.
  rewrite Z.shiftr_div_pow2 by lia. change (2 ^ 21) with 2097152.
  set (q := (x + 1048576) / 2097152).
  assert (hq : 2097152 * q <= x + 1048576 < 2097152 * q + 2097152).
  { pose proof (Z.div_mod (x + 1048576) 2097152 ltac:(lia)).
    pose proof (Z.mod_pos_bound (x + 1048576) 2097152 ltac:(lia)). unfold q; lia. }
  assert (hq' : (l1 + 1048576) / 2097152 <= q <= (h1 + 1048576) / 2097152).
  { unfold q; split; apply Z.div_le_mono; lia. }
  clearbody q.
  rewrite (in_i64_ok _ _ (y + q) hb2) by lia.
  rewrite Z.shiftl_mul_pow2 by lia. change (2 ^ 21) with 2097152.
  rewrite (in_i64_ok _ _ (q * 2097152) hb1) by lia.
  rewrite (i64_small (x - q * 2097152)) by lia.
  apply H; lia.
Qed.

(** A floor carry from limb [x] to limb [y]. *)
Lemma step_carryF {B : Type} (P : B -> Prop) (body : Z -> Z -> Z -> B) x y l1 h1 l2 h2 l3 h3 :
  l1 <= x <= h1 -> l2 <= y <= h2 ->
  l2 + l1 / 2097152 = l3 -> h2 + h1 / 2097152 = h3 ->
  in_i64 (l1 - 2097152) (h1 + 2097152) && in_i64 l3 h3 = true ->
  (forall q x' y', x = x' + 2097152 * q -> y = y' - q -> 0 <= x' <= 2097151 ->
     l3 <= y' <= h3 -> P (body q y' x')) ->
  P (dlet c := Z.shiftr x 21 in
     dlet y' := i64 (y + c) in dlet x' := i64 (x - i64 (Z.shiftl c 21)) in body c y' x').
Proof.
  intros hx hy <- <- hb H. apply andb_true_iff in hb as [hb1 hb2].
  unfold LetIn.
  rewrite Z.shiftr_div_pow2 by lia. change (2 ^ 21) with 2097152.
  set (q := x / 2097152).
  assert (hq : 2097152 * q <= x < 2097152 * q + 2097152).
  { pose proof (Z.div_mod x 2097152 ltac:(lia)).
    pose proof (Z.mod_pos_bound x 2097152 ltac:(lia)). unfold q; lia. }
  assert (hq' : l1 / 2097152 <= q <= h1 / 2097152).
  { unfold q; split; apply Z.div_le_mono; lia. }
  clearbody q.
  rewrite (in_i64_ok _ _ (y + q) hb2) by lia.
  rewrite Z.shiftl_mul_pow2 by lia. change (2 ^ 21) with 2097152.
  rewrite (in_i64_ok _ _ (q * 2097152) hb1) by lia.
  rewrite (i64_small (x - q * 2097152)) by lia.
  apply H; lia.
Qed.

(** Adding a multiple of limb [z] to limb [x]. *)
Lemma step_redA {B : Type} (P : B -> Prop) (body : Z -> B) x z c l1 h1 l2 h2 l3 h3 :
  l1 <= x <= h1 -> l2 <= z <= h2 -> (0 <=? c) = true ->
  l1 + l2 * c = l3 -> h1 + h2 * c = h3 ->
  in_i64 (l2 * c) (h2 * c) && in_i64 l3 h3 = true ->
  (forall x', x = x' - z * c -> l3 <= x' <= h3 -> P (body x')) ->
  P (dlet x' := i64 (x + i64 (z * c)) in body x').
Proof.
  intros hx hz hc <- <- hb H. apply andb_true_iff in hb as [hb1 hb2]. apply Z.leb_le in hc.
  assert (hzc : l2 * c <= z * c <= h2 * c) by (split; apply Z.mul_le_mono_nonneg_r; lia).
  unfold LetIn. rewrite (in_i64_ok _ _ (z * c) hb1) by lia.
  rewrite (in_i64_ok _ _ (x + z * c) hb2) by lia. apply H; lia.
Qed.

Lemma step_redS {B : Type} (P : B -> Prop) (body : Z -> B) x z c l1 h1 l2 h2 l3 h3 :
  l1 <= x <= h1 -> l2 <= z <= h2 -> (0 <=? c) = true ->
  l1 - h2 * c = l3 -> h1 - l2 * c = h3 ->
  in_i64 (l2 * c) (h2 * c) && in_i64 l3 h3 = true ->
  (forall x', x = x' + z * c -> l3 <= x' <= h3 -> P (body x')) ->
  P (dlet x' := i64 (x - i64 (z * c)) in body x').
Proof.
  intros hx hz hc <- <- hb H. apply andb_true_iff in hb as [hb1 hb2]. apply Z.leb_le in hc.
  assert (hzc : l2 * c <= z * c <= h2 * c) by (split; apply Z.mul_le_mono_nonneg_r; lia).
  unfold LetIn. rewrite (in_i64_ok _ _ (z * c) hb1) by lia.
  rewrite (in_i64_ok _ _ (x - z * c) hb2) by lia. apply H; lia.
Qed.

Lemma step_zero {B : Type} (P : B -> Prop) (body : Z -> B) :
  (forall x, x = 0 -> 0 <= x <= 0 -> P (body x)) -> P (dlet x := 0 in body x).
Proof. intro H. apply H; lia. Qed.

(** The tactics keep the name of each limb: the old value is eliminated in favour
    of the new one. *)
Ltac sc_carry :=
  lazymatch goal with
  | |- ?P (dlet c := Z.shiftr (i64 (?x + 1048576)) 21 in
           dlet y' := i64 (?y + c) in dlet x' := i64 (?x - i64 (Z.shiftl c 21)) in @?body c y' x') =>
      match goal with hx : ?l1 <= x <= ?h1, hy : ?l2 <= y <= ?h2 |- _ =>
        let q := fresh "q" in let x1 := fresh "x1" in let y1 := fresh "y1" in
        let e1 := fresh "e1" in let e2 := fresh "e2" in let b1 := fresh "b" in let b2 := fresh "b" in
        refine (step_carryR P body x y l1 h1 l2 h2 _ _ hx hy _ _ _ _); [ev_eq | ev_eq | ev_chk |
          clear hx hy; intros q x1 y1 e1 e2 b1 b2; cbv beta; subst x y;
          rename x1 into x; rename y1 into y ] end
  | |- ?P (dlet c := Z.shiftr ?x 21 in
           dlet y' := i64 (?y + c) in dlet x' := i64 (?x - i64 (Z.shiftl c 21)) in @?body c y' x') =>
      match goal with hx : ?l1 <= x <= ?h1, hy : ?l2 <= y <= ?h2 |- _ =>
        let q := fresh "q" in let x1 := fresh "x1" in let y1 := fresh "y1" in
        let e1 := fresh "e1" in let e2 := fresh "e2" in let b1 := fresh "b" in let b2 := fresh "b" in
        refine (step_carryF P body x y l1 h1 l2 h2 _ _ hx hy _ _ _ _); [ev_eq | ev_eq | ev_chk |
          clear hx hy; intros q x1 y1 e1 e2 b1 b2; cbv beta; subst x y;
          rename x1 into x; rename y1 into y ] end
  end.

Ltac sc_red :=
  lazymatch goal with
  | |- ?P (dlet x' := i64 (?x + i64 (?z * ?c)) in @?body x') =>
      match goal with hx : ?l1 <= x <= ?h1, hz : ?l2 <= z <= ?h2 |- _ =>
        let x1 := fresh "x1" in let e1 := fresh "e1" in let b1 := fresh "b" in
        refine (step_redA P body x z c l1 h1 l2 h2 _ _ hx hz _ _ _ _ _); [ev_chk | ev_eq | ev_eq | ev_chk |
          clear hx; intros x1 e1 b1; cbv beta; subst x; rename x1 into x ] end
  | |- ?P (dlet x' := i64 (?x - i64 (?z * ?c)) in @?body x') =>
      match goal with hx : ?l1 <= x <= ?h1, hz : ?l2 <= z <= ?h2 |- _ =>
        let x1 := fresh "x1" in let e1 := fresh "e1" in let b1 := fresh "b" in
        refine (step_redS P body x z c l1 h1 l2 h2 _ _ hx hz _ _ _ _ _); [ev_chk | ev_eq | ev_eq | ev_chk |
          clear hx; intros x1 e1 b1; cbv beta; subst x; rename x1 into x ] end
  end.

Notation Lz := 7237005577332262213973186563042994240857116359379907606001950938285454250989.

Definition bnds (b : Z) (l : list Z) : Prop := Forall (fun x => - b <= x <= b) l.

(** Value of a scalar and the range of its words. *)
Definition scv (s : sc) : Z :=
  match s with Sc a b c d e f g h =>
    a + 2 ^ 32 * b + 2 ^ 64 * c + 2 ^ 96 * d + 2 ^ 128 * e + 2 ^ 160 * f + 2 ^ 192 * g + 2 ^ 224 * h end.

Definition sc_words (s : sc) : Prop :=
  match s with Sc a b c d e f g h =>
    0 <= a <= 4294967295 /\ 0 <= b <= 4294967295 /\ 0 <= c <= 4294967295 /\ 0 <= d <= 4294967295 /\
    0 <= e <= 4294967295 /\ 0 <= f <= 4294967295 /\ 0 <= g <= 4294967295 /\ 0 <= h <= 4294967295 end.

(** Truncating left shift. *)
Lemma ev_u32_shl a a' h k c d hi : ev a a' 0 h -> (0 <=? k) && (k <=? 32) = true -> 2 ^ k = c -> 2 ^ (32 - k) = d ->
  (h * c <? 9223372036854775808) = true -> 4294967296 - c = hi ->
  ev (u32 (i64 (Z.shiftl a k))) ((a' - d * (a' / d)) * c) 0 hi.
Proof.
  intros [-> ha] hk <- <- hb <-. apply andb_true_iff in hk as [hk1 hk2]. apply Z.leb_le in hk1, hk2. apply Z.ltb_lt in hb.
  rewrite Z.shiftl_mul_pow2 by lia.
  pose proof (Z.pow_pos_nonneg 2 k ltac:(lia) hk1) as hp.
  pose proof (Z.pow_pos_nonneg 2 (32 - k) ltac:(lia) ltac:(lia)) as hp'.
  assert (e32 : 4294967296 = 2 ^ (32 - k) * 2 ^ k). { rewrite <- Z.pow_add_r by lia. replace (32 - k + k) with 32 by lia. reflexivity. }
  rewrite i64_small by nia. unfold ev, u32. rewrite e32 at 1. rewrite Z.mul_mod_distr_r by lia.
  pose proof (Z.mod_pos_bound a' (2 ^ (32 - k)) hp') as hm. rewrite Z.mod_eq in * by lia.
  split; [reflexivity | nia].
Qed.

Lemma step_evd {B : Type} (P : B -> Prop) (body : Z -> B) e e' lo hi :
  ev e e' lo hi -> (forall x, x = e' -> lo <= x <= hi -> P (body x)) ->
  P (dlet x := e in body x).
Proof. intros [-> h] H. apply H; auto. Qed.

Lemma step_copyd {A B : Type} (P : B -> Prop) (body : A -> B) e :
  P (body e) -> P (dlet x := e in body x).
Proof. exact (fun h => h). Qed.

Ltac pk_go :=
  lazymatch goal with
  | |- ev (u32 (i64 (Z.shiftl _ _))) _ _ _ =>
      first [ ev_go | eapply ev_u32_shl; [ev_go | ev_chk | ev_eq | ev_eq | ev_chk | ev_eq] ]
  | |- ev (Z.lor _ _) _ _ _ => eapply ev_lor; [pk_go | pk_go | ev_eq | ev_eq | ev_chk | ev_eq | ev_eq]
  | |- _ => ev_go
  end.

Ltac pk_step :=
  lazymatch goal with
  | |- ?P (dlet x := ?e in @?body x) =>
      refine (step_evd P body e _ _ _ _ _); [pk_go | intros ? ? ?; cbv beta]
  end.

(** one [dlet] of straight-line code *)
Ltac evd_step :=
  lazymatch goal with
  | |- ?P (dlet x := ?e in @?body x) =>
      first [ is_var e; refine (step_copyd P body e _); cbv beta
            | ev_is_lit e; refine (step_copyd P body e _); cbv beta
            | refine (step_evd P body e _ _ _ _ _); [ev_go | intros ? ? ?; cbv beta] ]
  end.

Ltac sc_fold INV V K ls e :=
  let I2 := fresh "I2" in let K2 := fresh "K2" in
  assert (I2 : V = pv ls + Lz * (K + e)) by (rewrite INV; cbn [pv]; ring);
  clear INV; rename I2 into INV; set (K2 := K + e) in INV; clearbody K2; clear K; rename K2 into K.

Definition reduced_of (V : Z) (r : sc) : Prop :=
  sc_words r /\ 0 <= scv r < Lz /\ exists K, V = scv r + Lz * K.

Lemma reduceAfterMul_ok s0 s1 s2 s3 s4 s5 s6 s7 s8 s9 s10 s11 s12 s13 s14 s15 s16 s17 s18 s19 s20 s21 s22 :
  bnds 281474976710656 [s0; s1; s2; s3; s4; s5; s6; s7; s8; s9; s10; s11; s12; s13; s14; s15; s16; s17; s18; s19; s20; s21] ->
  -1125899906842624 <= s22 <= 1125899906842624 ->
  reduced_of (pv [s0; s1; s2; s3; s4; s5; s6; s7; s8; s9; s10; s11; s12; s13; s14; s15; s16; s17; s18; s19; s20; s21; s22]) (sc_reduceAfterMul s0 s1 s2 s3 s4 s5 s6 s7 s8 s9 s10 s11 s12 s13 s14 s15 s16 s17 s18 s19 s20 s21 s22).
Proof.
  intros hb h22.
  repeat match goal with h : bnds _ (_ :: _) |- _ => let h' := fresh "h" in inversion h as [|? ? h' ?]; clear h; subst | h : Forall _ (_ :: _) |- _ => let h' := fresh "h" in inversion h as [|? ? h' ?]; clear h; subst end.
  match goal with h : Forall _ [] |- _ => clear h end.
  remember (pv [s0; s1; s2; s3; s4; s5; s6; s7; s8; s9; s10; s11; s12; s13; s14; s15; s16; s17; s18; s19; s20; s21; s22]) as V eqn:INV.
  ev_open sc_reduceAfterMul (sc_reduceAfterMul s0 s1 s2 s3 s4 s5 s6 s7 s8 s9 s10 s11 s12 s13 s14 s15 s16 s17 s18 s19 s20 s21 s22).
  lazymatch goal with |- ?P (dlet x := 0 in @?body x) => refine (step_zero P body _); intros s23 E23 h23; cbv beta end.
  assert (I : exists K, V = pv [s0; s1; s2; s3; s4; s5; s6; s7; s8; s9; s10; s11; s12; s13; s14; s15; s16; s17; s18; s19; s20; s21; s22; s23] + Lz * K).
  { exists 0. rewrite INV, E23. cbn [pv]. ring. }
  clear INV E23. destruct I as (K & INV).
  do 23 sc_carry.
  do 6 sc_red. sc_fold INV V K [s0; s1; s2; s3; s4; s5; s6; s7; s8; s9; s10; s11; s12; s13; s14; s15; s16; s17; s18; s19; s20; s21; s22] (s23 * 2 ^ 231).
  match goal with h : _ <= s23 <= _ |- _ => clear h end. clear s23.
  lazymatch goal with |- ?P (dlet x := 0 in @?body x) => refine (step_copyd P body 0 _); cbv beta end.
  do 6 sc_red. sc_fold INV V K [s0; s1; s2; s3; s4; s5; s6; s7; s8; s9; s10; s11; s12; s13; s14; s15; s16; s17; s18; s19; s20; s21] (s22 * 2 ^ 210).
  match goal with h : _ <= s22 <= _ |- _ => clear h end. clear s22.
  lazymatch goal with |- ?P (dlet x := 0 in @?body x) => refine (step_copyd P body 0 _); cbv beta end.
  do 6 sc_red. sc_fold INV V K [s0; s1; s2; s3; s4; s5; s6; s7; s8; s9; s10; s11; s12; s13; s14; s15; s16; s17; s18; s19; s20] (s21 * 2 ^ 189).
  match goal with h : _ <= s21 <= _ |- _ => clear h end. clear s21.
  lazymatch goal with |- ?P (dlet x := 0 in @?body x) => refine (step_copyd P body 0 _); cbv beta end.
  do 6 sc_red. sc_fold INV V K [s0; s1; s2; s3; s4; s5; s6; s7; s8; s9; s10; s11; s12; s13; s14; s15; s16; s17; s18; s19] (s20 * 2 ^ 168).
  match goal with h : _ <= s20 <= _ |- _ => clear h end. clear s20.
  lazymatch goal with |- ?P (dlet x := 0 in @?body x) => refine (step_copyd P body 0 _); cbv beta end.
  do 6 sc_red. sc_fold INV V K [s0; s1; s2; s3; s4; s5; s6; s7; s8; s9; s10; s11; s12; s13; s14; s15; s16; s17; s18] (s19 * 2 ^ 147).
  match goal with h : _ <= s19 <= _ |- _ => clear h end. clear s19.
  lazymatch goal with |- ?P (dlet x := 0 in @?body x) => refine (step_copyd P body 0 _); cbv beta end.
  do 6 sc_red. sc_fold INV V K [s0; s1; s2; s3; s4; s5; s6; s7; s8; s9; s10; s11; s12; s13; s14; s15; s16; s17] (s18 * 2 ^ 126).
  match goal with h : _ <= s18 <= _ |- _ => clear h end. clear s18.
  lazymatch goal with |- ?P (dlet x := 0 in @?body x) => refine (step_copyd P body 0 _); cbv beta end.
  do 11 sc_carry.
  do 6 sc_red. sc_fold INV V K [s0; s1; s2; s3; s4; s5; s6; s7; s8; s9; s10; s11; s12; s13; s14; s15; s16] (s17 * 2 ^ 105).
  match goal with h : _ <= s17 <= _ |- _ => clear h end. clear s17.
  lazymatch goal with |- ?P (dlet x := 0 in @?body x) => refine (step_copyd P body 0 _); cbv beta end.
  do 6 sc_red. sc_fold INV V K [s0; s1; s2; s3; s4; s5; s6; s7; s8; s9; s10; s11; s12; s13; s14; s15] (s16 * 2 ^ 84).
  match goal with h : _ <= s16 <= _ |- _ => clear h end. clear s16.
  lazymatch goal with |- ?P (dlet x := 0 in @?body x) => refine (step_copyd P body 0 _); cbv beta end.
  do 6 sc_red. sc_fold INV V K [s0; s1; s2; s3; s4; s5; s6; s7; s8; s9; s10; s11; s12; s13; s14] (s15 * 2 ^ 63).
  match goal with h : _ <= s15 <= _ |- _ => clear h end. clear s15.
  lazymatch goal with |- ?P (dlet x := 0 in @?body x) => refine (step_copyd P body 0 _); cbv beta end.
  do 6 sc_red. sc_fold INV V K [s0; s1; s2; s3; s4; s5; s6; s7; s8; s9; s10; s11; s12; s13] (s14 * 2 ^ 42).
  match goal with h : _ <= s14 <= _ |- _ => clear h end. clear s14.
  lazymatch goal with |- ?P (dlet x := 0 in @?body x) => refine (step_copyd P body 0 _); cbv beta end.
  do 6 sc_red. sc_fold INV V K [s0; s1; s2; s3; s4; s5; s6; s7; s8; s9; s10; s11; s12] (s13 * 2 ^ 21).
  match goal with h : _ <= s13 <= _ |- _ => clear h end. clear s13.
  lazymatch goal with |- ?P (dlet x := 0 in @?body x) => refine (step_copyd P body 0 _); cbv beta end.
  do 6 sc_red. sc_fold INV V K [s0; s1; s2; s3; s4; s5; s6; s7; s8; s9; s10; s11] (s12 * 2 ^ 0).
  match goal with h : _ <= s12 <= _ |- _ => clear h end. clear s12.
  lazymatch goal with |- ?P (dlet x := 0 in @?body x) => refine (step_zero P body _); intros s12 E12 h12; cbv beta end.
  assert (I : V = pv [s0; s1; s2; s3; s4; s5; s6; s7; s8; s9; s10; s11; s12] + Lz * K) by (rewrite INV, E12; cbn [pv]; ring).
  clear INV E12; rename I into INV.
  do 12 sc_carry.
  do 6 sc_red. sc_fold INV V K [s0; s1; s2; s3; s4; s5; s6; s7; s8; s9; s10; s11] (s12 * 2 ^ 0).
  match goal with h : _ <= s12 <= _ |- _ => clear h end. clear s12.
  remember (pv [s0; s1; s2; s3; s4; s5; s6; s7; s8; s9; s10; s11]) as vA eqn:INVA.
  assert (hvA : - 2 ^ 252 < vA < 2 ^ 252) by (rewrite INVA; cbn [pv]; lia).
  lazymatch goal with |- ?P (dlet x := 0 in @?body x) => refine (step_zero P body _); intros s12 E12 h12; cbv beta end.
  assert (I : vA = pv [s0; s1; s2; s3; s4; s5; s6; s7; s8; s9; s10; s11; s12]) by (rewrite INVA, E12; cbn [pv]; ring).
  clear INVA E12; rename I into INVA.
  do 12 sc_carry.
  assert (I : vA = pv [s0; s1; s2; s3; s4; s5; s6; s7; s8; s9; s10; s11; s12]) by (rewrite INVA; cbn [pv]; ring).
  clear INVA; rename I into INVA.
  assert (hfl : 0 <= vA - s12 * 2 ^ 252 < 2 ^ 252) by (rewrite INVA; cbn [pv]; lia).
  assert (hk : -1 <= s12 <= 0) by bnd.
  do 6 sc_red.
  lazymatch goal with |- ?P (dlet x := 0 in @?body x) => refine (step_copyd P body 0 _); cbv beta end.
  do 11 sc_carry.
  assert (I : vA = pv [s0; s1; s2; s3; s4; s5; s6; s7; s8; s9; s10; s11] + Lz * s12) by (rewrite INVA; cbn [pv]; ring).
  clear INVA; rename I into INVA.
  assert (hfin : 0 <= pv [s0; s1; s2; s3; s4; s5; s6; s7; s8; s9; s10; s11] < Lz) by (clear - INVA hvA hfl hk; lia).
  match goal with h : ?lo <= s11 <= ?hi |- _ => assert (h11 : 0 <= s11 <= hi) by (cbn [pv] in hfin; lia); clear h end.
  clear hvA hfl hk.
  do 8 pk_step.
  clear_quots. subst PP. cbv beta iota delta [reduced_of sc_words].
  match goal with |- context [scv ?r] => assert (ev : scv r = pv [s0; s1; s2; s3; s4; s5; s6; s7; s8; s9; s10; s11]) by (cbn [scv pv]; subst; ring) end.
  rewrite ev. refine (conj _ (conj hfin _)).
  - repeat first [bnd | refine (conj _ _)].
  - exists (K + s12). rewrite INV, INVA. ring.
Qed.

(** ** Limbs of a number *)

Lemma mod_pow2_bit x n i : 0 <= n -> 0 <= i -> Z.testbit (x mod 2 ^ n) i = (i <? n) && Z.testbit x i.
Proof.
  intros hn hi. destruct (Z.ltb_spec i n).
  - rewrite Z.mod_pow2_bits_low by lia. reflexivity.
  - rewrite Z.mod_pow2_bits_high by lia. reflexivity.
Qed.

Lemma div_pow2_bit x n i : 0 <= n -> 0 <= i -> Z.testbit (x / 2 ^ n) i = Z.testbit x (i + n).
Proof. intros. apply Z.div_pow2_bits; lia. Qed.

(** bits [a+s, a+s+21) out of a word holding the bits [a, a+n) *)
Lemma limb1 T a n s : 0 <= a -> 0 <= s -> s + 21 <= n ->
  Z.land (Z.shiftr ((T / 2 ^ a) mod 2 ^ n) s) 2097151 = (T / 2 ^ (a + s)) mod 2 ^ 21.
Proof.
  intros ha hs hn. change 2097151 with (Z.ones 21). rewrite Z.land_ones by lia.
  rewrite Z.shiftr_div_pow2 by lia. apply Z.bits_inj'. intros i hi.
  rewrite !mod_pow2_bit, !div_pow2_bit, !mod_pow2_bit, ?div_pow2_bit by lia.
  destruct (Z.ltb_spec i 21); [|reflexivity].
  destruct (Z.ltb_spec (i + s) n); [|lia]. cbn [andb]. f_equal. lia.
Qed.

(** the same across two consecutive 32-bit words *)
Lemma limb2 T a s k : 0 <= a -> 0 <= s < 32 -> k = 32 - s ->
  Z.land (Z.lor (Z.shiftr ((T / 2 ^ a) mod 2 ^ 32) s) (u32 (Z.shiftl ((T / 2 ^ (a + 32)) mod 2 ^ 32) k))) 2097151
  = (T / 2 ^ (a + s)) mod 2 ^ 21.
Proof.
  intros ha hs ->. change 2097151 with (Z.ones 21). rewrite Z.land_ones by lia.
  unfold u32. change 4294967296 with (2 ^ 32).
  rewrite Z.shiftr_div_pow2 by lia. apply Z.bits_inj'. intros i hi.
  rewrite !mod_pow2_bit by lia. rewrite Z.lor_spec, !mod_pow2_bit, div_pow2_bit, mod_pow2_bit, div_pow2_bit by lia.
  rewrite Z.shiftl_spec by lia. rewrite (div_pow2_bit T (a + s)) by lia.
  destruct (Z.ltb_spec i 21); [|reflexivity]. cbn [andb].
  destruct (Z.ltb_spec i 32); [|lia]. cbn [andb].
  destruct (Z.ltb_spec (i + s) 32).
  - cbn [andb]. rewrite (Z.testbit_neg_r _ (i - (32 - s))) by lia. rewrite orb_false_r. f_equal. lia.
  - cbn [andb orb]. rewrite mod_pow2_bit, div_pow2_bit by lia.
    destruct (Z.ltb_spec (i - (32 - s)) 32); [|lia]. cbn [andb]. f_equal. lia.
Qed.

Lemma limb_next T a b : 0 <= a -> b = a + 21 -> (T / 2 ^ a) mod 2 ^ 21 = T / 2 ^ a - 2097152 * (T / 2 ^ b).
Proof.
  intros ha ->. rewrite Z.mod_eq by lia. rewrite Z.div_div by (try lia; apply Z.pow_pos_nonneg; lia).
  rewrite <- Z.pow_add_r by lia. reflexivity.
Qed.

Lemma skipn_split {A} (t : list A) k n : (k + n <= length t)%nat ->
  exists x y z, t = x ++ y ++ z /\ length x = k /\ length y = n /\ skipn k t = y ++ z.
Proof.
  intro h. exists (firstn k t), (firstn n (skipn k t)), (skipn n (skipn k t)).
  rewrite !firstn_skipn. rewrite firstn_length, firstn_length, skipn_length. repeat split; lia.
Qed.

Lemma bytes_digits t k n : Forall is_byte t -> (k + n <= length t)%nat ->
  exists y z, skipn k t = y ++ z /\ bytes n y /\
    le_val y = (le_val t / 2 ^ (8 * Z.of_nat k)) mod 2 ^ (8 * Z.of_nat n).
Proof.
  intros ht hl. destruct (skipn_split t k n hl) as (x & y & z & e & hx & hy & es).
  exists y, z. rewrite es. rewrite e in ht. apply Forall_app in ht as [h1 h2]. apply Forall_app in h2 as [h2 h3].
  repeat split; auto. rewrite e, !le_val_app, hx, hy.
  pose proof (le_val_range x h1) as r1. pose proof (le_val_range y h2) as r2. rewrite hx in r1. rewrite hy in r2.
  replace (2 ^ (8 * Z.of_nat k)) with (256 ^ Z.of_nat k) by (rewrite Z.pow_mul_r by lia; reflexivity).
  replace (2 ^ (8 * Z.of_nat n)) with (256 ^ Z.of_nat n) by (rewrite Z.pow_mul_r by lia; reflexivity).
  rewrite Z.mul_comm, Z.div_add by lia. rewrite Z.div_small, Z.add_0_l by lia.
  rewrite Z.mul_comm, Z.mod_add by lia. rewrite Z.mod_small by lia. reflexivity.
Qed.

Ltac byte_split n y h :=
  destruct y as [|? y]; [destruct h as [h _]; discriminate h|].

Lemma bytes_1 b t n : bytes (S n) (b :: t) -> 0 <= b <= 255 /\ bytes n t.
Proof. intros [h hf]. inversion hf; subst. unfold is_byte in *. repeat split; auto; lia. Qed.

Lemma load4_ok t k : Forall is_byte t -> (k + 4 <= length t)%nat ->
  load4 (skipn k t) = (le_val t / 2 ^ (8 * Z.of_nat k)) mod 2 ^ 32.
Proof.
  intros ht hl. destruct (bytes_digits t k 4 ht hl) as (y & z & -> & hy & hv).
  change (8 * Z.of_nat 4) with 32 in hv. rewrite <- hv. clear hv ht hl.
  destruct y as [|b0 [|b1 [|b2 [|b3 [|]]]]]; try (destruct hy as [h _]; discriminate h).
  apply bytes_1 in hy as [h0 hy]. apply bytes_1 in hy as [h1 hy]. apply bytes_1 in hy as [h2 hy]. apply bytes_1 in hy as [h3 _].
  unfold load4, at_. cbn [nth app le_val].
  match goal with |- ?e = _ => let f := eval cbv zeta in e in change e with f end.
  eassert (E : ev _ _ _ _); [| refine (eq_trans (proj1 E) _)]; [ev_go | ring].
Qed.

Lemma load3_ok t k : Forall is_byte t -> (k + 3 <= length t)%nat ->
  load3 (skipn k t) = (le_val t / 2 ^ (8 * Z.of_nat k)) mod 2 ^ 24.
Proof.
  intros ht hl. destruct (bytes_digits t k 3 ht hl) as (y & z & -> & hy & hv).
  change (8 * Z.of_nat 3) with 24 in hv. rewrite <- hv. clear hv ht hl.
  destruct y as [|b0 [|b1 [|b2 [|]]]]; try (destruct hy as [h _]; discriminate h).
  apply bytes_1 in hy as [h0 hy]. apply bytes_1 in hy as [h1 hy]. apply bytes_1 in hy as [h2 _].
  unfold load3, at_. cbn [nth app le_val].
  match goal with |- ?e = _ => let f := eval cbv zeta in e in change e with f end.
  eassert (E : ev _ _ _ _); [| refine (eq_trans (proj1 E) _)]; [ev_go | ring].
Qed.

Lemma load4u32_ok t k : Forall is_byte t -> (k + 4 <= length t)%nat ->
  load4u32 (skipn k t) = (le_val t / 2 ^ (8 * Z.of_nat k)) mod 2 ^ 32.
Proof.
  intros ht hl. destruct (bytes_digits t k 4 ht hl) as (y & z & -> & hy & hv).
  change (8 * Z.of_nat 4) with 32 in hv. rewrite <- hv. clear hv ht hl.
  destruct y as [|b0 [|b1 [|b2 [|b3 [|]]]]]; try (destruct hy as [h _]; discriminate h).
  apply bytes_1 in hy as [h0 hy]. apply bytes_1 in hy as [h1 hy]. apply bytes_1 in hy as [h2 hy]. apply bytes_1 in hy as [h3 _].
  unfold load4u32, at_. cbn [nth app le_val].
  eassert (E : ev _ _ _ _); [| refine (eq_trans (proj1 E) _)]; [ev_go | ring].
Qed.

(** one limb: [l] is the limb starting at bit [a] of [T], [b = a + 21] *)
Lemma limb_ev x T a b : x = (T / 2 ^ a) mod 2 ^ 21 -> (0 <=? a) && (b =? a + 21) = true ->
  ev x (T / 2 ^ a - 2097152 * (T / 2 ^ b)) 0 2097151.
Proof.
  intros -> h. apply andb_true_iff in h as [h1 h2]. apply Z.leb_le in h1. apply Z.eqb_eq in h2.
  unfold ev. rewrite <- (limb_next T a b h1 h2).
  pose proof (Z.mod_pos_bound (T / 2 ^ a) (2 ^ 21) ltac:(lia)). split; [reflexivity | lia].
Qed.

Lemma ld4_limb t k s a b : Forall is_byte t -> Nat.leb (k + 4) (length t) = true ->
  (0 <=? s) && (s <=? 11) && (8 * Z.of_nat k + s =? a) && (b =? a + 21) = true ->
  ev (Z.land (Z.shiftr (load4 (skipn k t)) s) 2097151) (le_val t / 2 ^ a - 2097152 * (le_val t / 2 ^ b)) 0 2097151.
Proof.
  intros ht hl h. apply Nat.leb_le in hl. rewrite !andb_true_iff in h. destruct h as (((h1 & h2) & h3) & h4).
  apply Z.leb_le in h1, h2. apply Z.eqb_eq in h3, h4. apply limb_ev.
  - rewrite (load4_ok t k ht hl). rewrite limb1 by lia. now rewrite h3.
  - rewrite andb_true_iff. split; [apply Z.leb_le | apply Z.eqb_eq]; lia.
Qed.

Lemma ld3_limb t k s a b : Forall is_byte t -> Nat.leb (k + 3) (length t) = true ->
  (0 <=? s) && (s <=? 3) && (8 * Z.of_nat k + s =? a) && (b =? a + 21) = true ->
  ev (Z.land (Z.shiftr (load3 (skipn k t)) s) 2097151) (le_val t / 2 ^ a - 2097152 * (le_val t / 2 ^ b)) 0 2097151.
Proof.
  intros ht hl h. apply Nat.leb_le in hl. rewrite !andb_true_iff in h. destruct h as (((h1 & h2) & h3) & h4).
  apply Z.leb_le in h1, h2. apply Z.eqb_eq in h3, h4. apply limb_ev.
  - rewrite (load3_ok t k ht hl). rewrite limb1 by lia. now rewrite h3.
  - rewrite andb_true_iff. split; [apply Z.leb_le | apply Z.eqb_eq]; lia.
Qed.

Lemma ld3_limb0 t k a b : Forall is_byte t -> Nat.leb (k + 3) (length t) = true ->
  (8 * Z.of_nat k =? a) && (b =? a + 21) = true ->
  ev (Z.land (load3 (skipn k t)) 2097151) (le_val t / 2 ^ a - 2097152 * (le_val t / 2 ^ b)) 0 2097151.
Proof.
  intros ht hl h. rewrite <- (Z.shiftr_0_r (load3 (skipn k t))). apply ld3_limb; auto.
  now rewrite Z.add_0_r.
Qed.

Lemma ld4_top t : length t = 64%nat -> Forall is_byte t ->
  ev (Z.shiftr (load4 (skipn 60 t)) 3) (le_val t / 2 ^ 483) 0 536870911.
Proof.
  intros hl hf. rewrite (load4_ok t 60 hf) by lia. change (8 * Z.of_nat 60) with 480.
  pose proof (le_val_range t hf) as hr. rewrite hl in hr. change (256 ^ Z.of_nat 64) with (2 ^ 512) in hr.
  rewrite Z.mod_small; cycle 1.
  { split; [apply Z.div_pos; lia | apply Z.div_lt_upper_bound; lia]. }
  rewrite Z.shiftr_div_pow2 by lia. rewrite Z.div_div by lia. change (2 ^ 480 * 2 ^ 3) with (2 ^ 483).
  split; [reflexivity|]. split; [apply Z.div_pos; lia|].
  apply Z.lt_succ_r. apply Z.div_lt_upper_bound; lia.
Qed.

(** [SetReduced] on any 64 bytes. *)
Lemma setReduced_ok t : bytes 64 t -> reduced_of (le_val t) (sc_setReduced t).
Proof.
  intros [hl hf]. ev_open sc_setReduced (sc_setReduced t).
  lazymatch goal with |- ?P (dlet x := ?e in @?body x) => refine (step_evd P body e _ _ _ (ld3_limb0 t 0 0 21 hf ltac:(rewrite hl; reflexivity) eq_refl) _) end; [intros s0 E0 h0; cbv beta].
  lazymatch goal with |- ?P (dlet x := ?e in @?body x) => refine (step_evd P body e _ _ _ (ld4_limb t 2 5 21 42 hf ltac:(rewrite hl; reflexivity) eq_refl) _) end; [intros s1 E1 h1; cbv beta].
  lazymatch goal with |- ?P (dlet x := ?e in @?body x) => refine (step_evd P body e _ _ _ (ld3_limb t 5 2 42 63 hf ltac:(rewrite hl; reflexivity) eq_refl) _) end; [intros s2 E2 h2; cbv beta].
  lazymatch goal with |- ?P (dlet x := ?e in @?body x) => refine (step_evd P body e _ _ _ (ld4_limb t 7 7 63 84 hf ltac:(rewrite hl; reflexivity) eq_refl) _) end; [intros s3 E3 h3; cbv beta].
  lazymatch goal with |- ?P (dlet x := ?e in @?body x) => refine (step_evd P body e _ _ _ (ld4_limb t 10 4 84 105 hf ltac:(rewrite hl; reflexivity) eq_refl) _) end; [intros s4 E4 h4; cbv beta].
  lazymatch goal with |- ?P (dlet x := ?e in @?body x) => refine (step_evd P body e _ _ _ (ld3_limb t 13 1 105 126 hf ltac:(rewrite hl; reflexivity) eq_refl) _) end; [intros s5 E5 h5; cbv beta].
  lazymatch goal with |- ?P (dlet x := ?e in @?body x) => refine (step_evd P body e _ _ _ (ld4_limb t 15 6 126 147 hf ltac:(rewrite hl; reflexivity) eq_refl) _) end; [intros s6 E6 h6; cbv beta].
  lazymatch goal with |- ?P (dlet x := ?e in @?body x) => refine (step_evd P body e _ _ _ (ld3_limb t 18 3 147 168 hf ltac:(rewrite hl; reflexivity) eq_refl) _) end; [intros s7 E7 h7; cbv beta].
  lazymatch goal with |- ?P (dlet x := ?e in @?body x) => refine (step_evd P body e _ _ _ (ld3_limb0 t 21 168 189 hf ltac:(rewrite hl; reflexivity) eq_refl) _) end; [intros s8 E8 h8; cbv beta].
  lazymatch goal with |- ?P (dlet x := ?e in @?body x) => refine (step_evd P body e _ _ _ (ld4_limb t 23 5 189 210 hf ltac:(rewrite hl; reflexivity) eq_refl) _) end; [intros s9 E9 h9; cbv beta].
  lazymatch goal with |- ?P (dlet x := ?e in @?body x) => refine (step_evd P body e _ _ _ (ld3_limb t 26 2 210 231 hf ltac:(rewrite hl; reflexivity) eq_refl) _) end; [intros s10 E10 h10; cbv beta].
  lazymatch goal with |- ?P (dlet x := ?e in @?body x) => refine (step_evd P body e _ _ _ (ld4_limb t 28 7 231 252 hf ltac:(rewrite hl; reflexivity) eq_refl) _) end; [intros s11 E11 h11; cbv beta].
  lazymatch goal with |- ?P (dlet x := ?e in @?body x) => refine (step_evd P body e _ _ _ (ld4_limb t 31 4 252 273 hf ltac:(rewrite hl; reflexivity) eq_refl) _) end; [intros s12 E12 h12; cbv beta].
  lazymatch goal with |- ?P (dlet x := ?e in @?body x) => refine (step_evd P body e _ _ _ (ld3_limb t 34 1 273 294 hf ltac:(rewrite hl; reflexivity) eq_refl) _) end; [intros s13 E13 h13; cbv beta].
  lazymatch goal with |- ?P (dlet x := ?e in @?body x) => refine (step_evd P body e _ _ _ (ld4_limb t 36 6 294 315 hf ltac:(rewrite hl; reflexivity) eq_refl) _) end; [intros s14 E14 h14; cbv beta].
  lazymatch goal with |- ?P (dlet x := ?e in @?body x) => refine (step_evd P body e _ _ _ (ld3_limb t 39 3 315 336 hf ltac:(rewrite hl; reflexivity) eq_refl) _) end; [intros s15 E15 h15; cbv beta].
  lazymatch goal with |- ?P (dlet x := ?e in @?body x) => refine (step_evd P body e _ _ _ (ld3_limb0 t 42 336 357 hf ltac:(rewrite hl; reflexivity) eq_refl) _) end; [intros s16 E16 h16; cbv beta].
  lazymatch goal with |- ?P (dlet x := ?e in @?body x) => refine (step_evd P body e _ _ _ (ld4_limb t 44 5 357 378 hf ltac:(rewrite hl; reflexivity) eq_refl) _) end; [intros s17 E17 h17; cbv beta].
  lazymatch goal with |- ?P (dlet x := ?e in @?body x) => refine (step_evd P body e _ _ _ (ld3_limb t 47 2 378 399 hf ltac:(rewrite hl; reflexivity) eq_refl) _) end; [intros s18 E18 h18; cbv beta].
  lazymatch goal with |- ?P (dlet x := ?e in @?body x) => refine (step_evd P body e _ _ _ (ld4_limb t 49 7 399 420 hf ltac:(rewrite hl; reflexivity) eq_refl) _) end; [intros s19 E19 h19; cbv beta].
  lazymatch goal with |- ?P (dlet x := ?e in @?body x) => refine (step_evd P body e _ _ _ (ld4_limb t 52 4 420 441 hf ltac:(rewrite hl; reflexivity) eq_refl) _) end; [intros s20 E20 h20; cbv beta].
  lazymatch goal with |- ?P (dlet x := ?e in @?body x) => refine (step_evd P body e _ _ _ (ld3_limb t 55 1 441 462 hf ltac:(rewrite hl; reflexivity) eq_refl) _) end; [intros s21 E21 h21; cbv beta].
  lazymatch goal with |- ?P (dlet x := ?e in @?body x) => refine (step_evd P body e _ _ _ (ld4_limb t 57 6 462 483 hf ltac:(rewrite hl; reflexivity) eq_refl) _) end; [intros s22 E22 h22; cbv beta].
  lazymatch goal with |- ?P (dlet x := ?e in @?body x) => refine (step_evd P body e _ _ _ (ld4_top t hl hf) _) end; [intros s23 E23 h23; cbv beta].
  remember (le_val t) as V eqn:EV.
  assert (I : exists K, V = pv [s0; s1; s2; s3; s4; s5; s6; s7; s8; s9; s10; s11; s12; s13; s14; s15; s16; s17; s18; s19; s20; s21; s22; s23] + Lz * K).
  { exists 0. rewrite E0, E1, E2, E3, E4, E5, E6, E7, E8, E9, E10, E11, E12, E13, E14, E15, E16, E17, E18, E19, E20, E21, E22, E23. cbn [pv]. rewrite Z.pow_0_r, Z.div_1_r. ring. }
  clear E0 E1 E2 E3 E4 E5 E6 E7 E8 E9 E10 E11 E12 E13 E14 E15 E16 E17 E18 E19 E20 E21 E22 E23 EV. destruct I as (K & INV).
  do 6 sc_red. sc_fold INV V K [s0; s1; s2; s3; s4; s5; s6; s7; s8; s9; s10; s11; s12; s13; s14; s15; s16; s17; s18; s19; s20; s21; s22] (s23 * 2 ^ 231).
  match goal with h : _ <= s23 <= _ |- _ => clear h end. clear s23.
  lazymatch goal with |- ?P (dlet x := 0 in @?body x) => refine (step_copyd P body 0 _); cbv beta end.
  do 6 sc_red. sc_fold INV V K [s0; s1; s2; s3; s4; s5; s6; s7; s8; s9; s10; s11; s12; s13; s14; s15; s16; s17; s18; s19; s20; s21] (s22 * 2 ^ 210).
  match goal with h : _ <= s22 <= _ |- _ => clear h end. clear s22.
  lazymatch goal with |- ?P (dlet x := 0 in @?body x) => refine (step_copyd P body 0 _); cbv beta end.
  do 6 sc_red. sc_fold INV V K [s0; s1; s2; s3; s4; s5; s6; s7; s8; s9; s10; s11; s12; s13; s14; s15; s16; s17; s18; s19; s20] (s21 * 2 ^ 189).
  match goal with h : _ <= s21 <= _ |- _ => clear h end. clear s21.
  lazymatch goal with |- ?P (dlet x := 0 in @?body x) => refine (step_copyd P body 0 _); cbv beta end.
  do 6 sc_red. sc_fold INV V K [s0; s1; s2; s3; s4; s5; s6; s7; s8; s9; s10; s11; s12; s13; s14; s15; s16; s17; s18; s19] (s20 * 2 ^ 168).
  match goal with h : _ <= s20 <= _ |- _ => clear h end. clear s20.
  lazymatch goal with |- ?P (dlet x := 0 in @?body x) => refine (step_copyd P body 0 _); cbv beta end.
  do 6 sc_red. sc_fold INV V K [s0; s1; s2; s3; s4; s5; s6; s7; s8; s9; s10; s11; s12; s13; s14; s15; s16; s17; s18] (s19 * 2 ^ 147).
  match goal with h : _ <= s19 <= _ |- _ => clear h end. clear s19.
  lazymatch goal with |- ?P (dlet x := 0 in @?body x) => refine (step_copyd P body 0 _); cbv beta end.
  do 6 sc_red. sc_fold INV V K [s0; s1; s2; s3; s4; s5; s6; s7; s8; s9; s10; s11; s12; s13; s14; s15; s16; s17] (s18 * 2 ^ 126).
  match goal with h : _ <= s18 <= _ |- _ => clear h end. clear s18.
  lazymatch goal with |- ?P (dlet x := 0 in @?body x) => refine (step_copyd P body 0 _); cbv beta end.
  do 11 sc_carry.
  do 6 sc_red. sc_fold INV V K [s0; s1; s2; s3; s4; s5; s6; s7; s8; s9; s10; s11; s12; s13; s14; s15; s16] (s17 * 2 ^ 105).
  match goal with h : _ <= s17 <= _ |- _ => clear h end. clear s17.
  lazymatch goal with |- ?P (dlet x := 0 in @?body x) => refine (step_copyd P body 0 _); cbv beta end.
  do 6 sc_red. sc_fold INV V K [s0; s1; s2; s3; s4; s5; s6; s7; s8; s9; s10; s11; s12; s13; s14; s15] (s16 * 2 ^ 84).
  match goal with h : _ <= s16 <= _ |- _ => clear h end. clear s16.
  lazymatch goal with |- ?P (dlet x := 0 in @?body x) => refine (step_copyd P body 0 _); cbv beta end.
  do 6 sc_red. sc_fold INV V K [s0; s1; s2; s3; s4; s5; s6; s7; s8; s9; s10; s11; s12; s13; s14] (s15 * 2 ^ 63).
  match goal with h : _ <= s15 <= _ |- _ => clear h end. clear s15.
  lazymatch goal with |- ?P (dlet x := 0 in @?body x) => refine (step_copyd P body 0 _); cbv beta end.
  do 6 sc_red. sc_fold INV V K [s0; s1; s2; s3; s4; s5; s6; s7; s8; s9; s10; s11; s12; s13] (s14 * 2 ^ 42).
  match goal with h : _ <= s14 <= _ |- _ => clear h end. clear s14.
  lazymatch goal with |- ?P (dlet x := 0 in @?body x) => refine (step_copyd P body 0 _); cbv beta end.
  do 6 sc_red. sc_fold INV V K [s0; s1; s2; s3; s4; s5; s6; s7; s8; s9; s10; s11; s12] (s13 * 2 ^ 21).
  match goal with h : _ <= s13 <= _ |- _ => clear h end. clear s13.
  lazymatch goal with |- ?P (dlet x := 0 in @?body x) => refine (step_copyd P body 0 _); cbv beta end.
  do 6 sc_red. sc_fold INV V K [s0; s1; s2; s3; s4; s5; s6; s7; s8; s9; s10; s11] (s12 * 2 ^ 0).
  match goal with h : _ <= s12 <= _ |- _ => clear h end. clear s12.
  lazymatch goal with |- ?P (dlet x := 0 in @?body x) => refine (step_zero P body _); intros s12 E12 h12; cbv beta end.
  assert (I : V = pv [s0; s1; s2; s3; s4; s5; s6; s7; s8; s9; s10; s11; s12] + Lz * K) by (rewrite INV, E12; cbn [pv]; ring).
  clear INV E12; rename I into INV.
  do 12 sc_carry.
  do 6 sc_red. sc_fold INV V K [s0; s1; s2; s3; s4; s5; s6; s7; s8; s9; s10; s11] (s12 * 2 ^ 0).
  match goal with h : _ <= s12 <= _ |- _ => clear h end. clear s12.
  remember (pv [s0; s1; s2; s3; s4; s5; s6; s7; s8; s9; s10; s11]) as vA eqn:INVA.
  assert (hvA : - 2 ^ 252 < vA < 2 ^ 252) by (rewrite INVA; cbn [pv]; lia).
  lazymatch goal with |- ?P (dlet x := 0 in @?body x) => refine (step_zero P body _); intros s12 E12 h12; cbv beta end.
  assert (I : vA = pv [s0; s1; s2; s3; s4; s5; s6; s7; s8; s9; s10; s11; s12]) by (rewrite INVA, E12; cbn [pv]; ring).
  clear INVA E12; rename I into INVA.
  do 12 sc_carry.
  assert (I : vA = pv [s0; s1; s2; s3; s4; s5; s6; s7; s8; s9; s10; s11; s12]) by (rewrite INVA; cbn [pv]; ring).
  clear INVA; rename I into INVA.
  assert (hfl : 0 <= vA - s12 * 2 ^ 252 < 2 ^ 252) by (rewrite INVA; cbn [pv]; lia).
  assert (hk : -1 <= s12 <= 0) by bnd.
  do 6 sc_red.
  lazymatch goal with |- ?P (dlet x := 0 in @?body x) => refine (step_copyd P body 0 _); cbv beta end.
  do 11 sc_carry.
  assert (I : vA = pv [s0; s1; s2; s3; s4; s5; s6; s7; s8; s9; s10; s11] + Lz * s12) by (rewrite INVA; cbn [pv]; ring).
  clear INVA; rename I into INVA.
  assert (hfin : 0 <= pv [s0; s1; s2; s3; s4; s5; s6; s7; s8; s9; s10; s11] < Lz) by (clear - INVA hvA hfl hk; lia).
  match goal with h : ?lo <= s11 <= ?hi |- _ => assert (h11 : 0 <= s11 <= hi) by (cbn [pv] in hfin; lia); clear h end.
  clear hvA hfl hk.
  do 8 pk_step.
  clear_quots. subst PP. cbv beta iota delta [reduced_of sc_words].
  match goal with |- context [scv ?r] => assert (ev : scv r = pv [s0; s1; s2; s3; s4; s5; s6; s7; s8; s9; s10; s11]) by (cbn [scv pv]; subst; ring) end.
  rewrite ev. refine (conj _ (conj hfin _)).
  - repeat first [bnd | refine (conj _ _)].
  - exists (K + s12). rewrite INV, INVA. ring.
Qed.
