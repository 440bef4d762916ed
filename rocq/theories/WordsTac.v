(** A small interval calculus used to discharge overflow conditions of straight-line
    word code, and tactics stepping through it. *)
From Coq Require Import ZArith List Lia Bool.
From Verif Require Import Words.
Import ListNotations.
Open Scope Z_scope.

(** ** Interval calculus: [ev e e' lo hi] says that the wrapped expression [e]
    equals the ideal integer expression [e'], which lies between [lo] and [hi]. *)

Definition ev (e e' lo hi : Z) : Prop := e = e' /\ lo <= e' <= hi.

Lemma ev_var x lo hi : lo <= x <= hi -> ev x x lo hi.
Proof. split; auto. Qed.

Lemma ev_const x : ev x x x x.
Proof. unfold ev; lia. Qed.

Lemma ev_u64 e e' lo hi : ev e e' lo hi ->
  (0 <=? lo) && (hi <? 18446744073709551616) = true -> ev (u64 e) e' lo hi.
Proof.
  intros [-> h] hb. apply andb_true_iff in hb as [h1 h2].
  apply Z.leb_le in h1; apply Z.ltb_lt in h2. split; [apply u64_small; lia | lia].
Qed.

Lemma ev_u32 e e' lo hi : ev e e' lo hi ->
  (0 <=? lo) && (hi <? 4294967296) = true -> ev (u32 e) e' lo hi.
Proof.
  intros [-> h] hb. apply andb_true_iff in hb as [h1 h2].
  apply Z.leb_le in h1; apply Z.ltb_lt in h2. split; [apply u32_small; lia | lia].
Qed.

Lemma ev_u16 e e' lo hi : ev e e' lo hi ->
  (0 <=? lo) && (hi <? 65536) = true -> ev (u16 e) e' lo hi.
Proof.
  intros [-> h] hb. apply andb_true_iff in hb as [h1 h2].
  apply Z.leb_le in h1; apply Z.ltb_lt in h2. split; [apply u16_small; lia | lia].
Qed.

Lemma ev_u8 e e' lo hi : ev e e' lo hi ->
  (0 <=? lo) && (hi <? 256) = true -> ev (u8 e) e' lo hi.
Proof.
  intros [-> h] hb. apply andb_true_iff in hb as [h1 h2].
  apply Z.leb_le in h1; apply Z.ltb_lt in h2. split; [apply u8_small; lia | lia].
Qed.

Lemma ev_i64 e e' lo hi : ev e e' lo hi ->
  (-9223372036854775808 <=? lo) && (hi <? 9223372036854775808) = true -> ev (i64 e) e' lo hi.
Proof.
  intros [-> h] hb. apply andb_true_iff in hb as [h1 h2].
  apply Z.leb_le in h1; apply Z.ltb_lt in h2. split; [apply i64_small; lia | lia].
Qed.

Lemma ev_i32 e e' lo hi : ev e e' lo hi ->
  (-2147483648 <=? lo) && (hi <? 2147483648) = true -> ev (i32 e) e' lo hi.
Proof.
  intros [-> h] hb. apply andb_true_iff in hb as [h1 h2].
  apply Z.leb_le in h1; apply Z.ltb_lt in h2. split; [apply i32_small; lia | lia].
Qed.

Lemma ev_i8 e e' lo hi : ev e e' lo hi ->
  (-128 <=? lo) && (hi <? 128) = true -> ev (i8 e) e' lo hi.
Proof.
  intros [-> h] hb. apply andb_true_iff in hb as [h1 h2].
  apply Z.leb_le in h1; apply Z.ltb_lt in h2. split; [apply i8_small; lia | lia].
Qed.

(** Truncating conversions without a range condition. *)
Lemma ev_u8_trunc e e' lo hi : ev e e' lo hi ->
  ev (u8 e) (e' - 256 * (e' / 256)) 0 255.
Proof.
  intros [-> h]. unfold ev, u8. rewrite Z.mod_eq by lia.
  pose proof (Z.mod_pos_bound e' 256 ltac:(lia)) as hm. rewrite Z.mod_eq in hm by lia. lia.
Qed.

Lemma ev_u64_trunc e e' lo hi : ev e e' lo hi ->
  ev (u64 e) (e' - 18446744073709551616 * (e' / 18446744073709551616)) 0 18446744073709551615.
Proof.
  intros [-> h]. unfold ev, u64. rewrite Z.mod_eq by lia.
  pose proof (Z.mod_pos_bound e' 18446744073709551616 ltac:(lia)) as hm. rewrite Z.mod_eq in hm by lia. lia.
Qed.

Lemma ev_u32_trunc e e' lo hi : ev e e' lo hi ->
  ev (u32 e) (e' - 4294967296 * (e' / 4294967296)) 0 4294967295.
Proof.
  intros [-> h]. unfold ev, u32. rewrite Z.mod_eq by lia.
  pose proof (Z.mod_pos_bound e' 4294967296 ltac:(lia)) as hm. rewrite Z.mod_eq in hm by lia. lia.
Qed.

Lemma ev_add a a' l1 h1 b b' l2 h2 lo hi : ev a a' l1 h1 -> ev b b' l2 h2 ->
  l1 + l2 = lo -> h1 + h2 = hi -> ev (a + b) (a' + b') lo hi.
Proof. intros [-> h] [-> k]; unfold ev; lia. Qed.

Lemma ev_sub a a' l1 h1 b b' l2 h2 lo hi : ev a a' l1 h1 -> ev b b' l2 h2 ->
  l1 - h2 = lo -> h1 - l2 = hi -> ev (a - b) (a' - b') lo hi.
Proof. intros [-> h] [-> k]; unfold ev; lia. Qed.

Lemma ev_opp a a' l1 h1 lo hi : ev a a' l1 h1 -> - h1 = lo -> - l1 = hi -> ev (- a) (- a') lo hi.
Proof. intros [-> h]; unfold ev; lia. Qed.

Definition mulhi (l1 h1 l2 h2 : Z) : Z :=
  Z.max (Z.max (l1 * l2) (l1 * h2)) (Z.max (h1 * l2) (h1 * h2)).
Definition mullo (l1 h1 l2 h2 : Z) : Z :=
  Z.min (Z.min (l1 * l2) (l1 * h2)) (Z.min (h1 * l2) (h1 * h2)).

Lemma ev_mul a a' l1 h1 b b' l2 h2 lo hi : ev a a' l1 h1 -> ev b b' l2 h2 ->
  mullo l1 h1 l2 h2 = lo -> mulhi l1 h1 l2 h2 = hi -> ev (a * b) (a' * b') lo hi.
Proof.
  intros [-> h] [-> k] <- <-. unfold ev, mullo, mulhi. split; [reflexivity|].
  assert (hx : (l1 * b' <= a' * b' <= h1 * b') \/ (h1 * b' <= a' * b' <= l1 * b')).
  { destruct (Z_le_gt_dec 0 b'); [left | right]; split; nia. }
  assert (hl : (l1 * l2 <= l1 * b' <= l1 * h2) \/ (l1 * h2 <= l1 * b' <= l1 * l2)).
  { destruct (Z_le_gt_dec 0 l1); [left | right]; split; nia. }
  assert (hh : (h1 * l2 <= h1 * b' <= h1 * h2) \/ (h1 * h2 <= h1 * b' <= h1 * l2)).
  { destruct (Z_le_gt_dec 0 h1); [left | right]; split; nia. }
  lia.
Qed.

Lemma ev_shiftl a a' l1 h1 k c lo hi : ev a a' l1 h1 -> (0 <=? k) = true -> 2 ^ k = c ->
  l1 * c = lo -> h1 * c = hi -> ev (Z.shiftl a k) (a' * c) lo hi.
Proof.
  intros [-> h] hk <- <- <-. apply Z.leb_le in hk.
  unfold ev. rewrite Z.shiftl_mul_pow2 by lia.
  pose proof (Z.pow_pos_nonneg 2 k). split; [reflexivity | nia].
Qed.

Lemma ev_shiftr a a' l1 h1 k c lo hi : ev a a' l1 h1 -> (0 <=? k) = true -> 2 ^ k = c ->
  l1 / c = lo -> h1 / c = hi -> ev (Z.shiftr a k) (a' / c) lo hi.
Proof.
  intros [-> h] hk <- <- <-. apply Z.leb_le in hk.
  unfold ev. rewrite Z.shiftr_div_pow2 by lia.
  pose proof (Z.pow_pos_nonneg 2 k). split; [reflexivity |].
  split; apply Z.div_le_mono; lia.
Qed.

(** Masking with 2^k - 1. *)
Lemma ev_mask a a' l1 h1 m k c : ev a a' l1 h1 -> Z.log2 (m + 1) = k -> 2 ^ k = c -> (m + 1 =? c) = true ->
  (0 <? k) = true -> ev (Z.land a m) (a' - c * (a' / c)) 0 m.
Proof.
  intros [-> h] _ <- hm hk. apply Z.eqb_eq in hm. apply Z.ltb_lt in hk.
  replace m with (Z.ones k) by (rewrite Z.ones_equiv; lia).
  unfold ev. rewrite Z.land_ones by lia. rewrite Z.ones_equiv.
  pose proof (Z.pow_pos_nonneg 2 k).
  pose proof (Z.mod_pos_bound a' (2 ^ k)) as hb.
  rewrite Z.mod_eq in * by lia. split; [reflexivity | lia].
Qed.

(** Masking with (2^j - 1) 2^k. *)
Lemma ev_mask_hi a a' l1 h1 m j k c d : ev a (a' * d) l1 h1 -> Z.land m (- m) = d -> Z.log2 d = k ->
  m / d + 1 = c -> Z.log2 c = j -> (2 ^ k =? d) && (2 ^ j =? c) && (m =? (c - 1) * d) && (0 <=? k) && (0 <=? j) = true ->
  ev (Z.land a m) ((a' - c * (a' / c)) * d) 0 m.
Proof.
  intros [-> h] _ _ _ _ hb. rewrite !andb_true_iff in hb. destruct hb as ((((h2 & h3) & h4) & h5) & h6).
  apply Z.eqb_eq in h2, h3, h4. apply Z.leb_le in h5, h6.
  assert (e : Z.land (a' * d) m = (a' mod c) * d).
  { rewrite h4, <- h2, <- h3. rewrite <- !Z.shiftl_mul_pow2 by lia.
    rewrite <- Z.shiftl_land. replace (2 ^ j - 1) with (Z.ones j) by (rewrite Z.ones_equiv; lia).
    rewrite Z.land_ones by lia. reflexivity. }
  unfold ev. rewrite e. pose proof (Z.pow_pos_nonneg 2 j ltac:(lia) h6). pose proof (Z.pow_pos_nonneg 2 k ltac:(lia) h5).
  pose proof (Z.mod_pos_bound a' c ltac:(lia)) as hm. rewrite Z.mod_eq in * by lia. split; [reflexivity | nia].
Qed.

Lemma lor_disjoint a b k : 0 <= k -> 0 <= a < 2 ^ k -> Z.lor a (b * 2 ^ k) = a + b * 2 ^ k.
Proof.
  intros hk ha. rewrite <- Z.shiftl_mul_pow2 by lia.
  assert (h0 : Z.land a (Z.shiftl b k) = 0).
  { apply Z.bits_inj'. intros n hn. rewrite Z.land_spec, Z.bits_0.
    destruct (Z_lt_ge_dec n k).
    - rewrite Z.shiftl_spec_low by lia. apply andb_false_r.
    - rewrite <- (Z.mod_small a (2 ^ k)) by lia.
      rewrite Z.mod_pow2_bits_high by lia. reflexivity. }
  rewrite Z.add_nocarry_lxor, Z.lxor_lor by exact h0. reflexivity.
Qed.

Lemma lxor_disjoint a b k : 0 <= k -> 0 <= a < 2 ^ k -> Z.lxor a (b * 2 ^ k) = a + b * 2 ^ k.
Proof.
  intros hk ha. rewrite <- Z.shiftl_mul_pow2 by lia.
  assert (h0 : Z.land a (Z.shiftl b k) = 0).
  { apply Z.bits_inj'. intros n hn. rewrite Z.land_spec, Z.bits_0.
    destruct (Z_lt_ge_dec n k).
    - rewrite Z.shiftl_spec_low by lia. apply andb_false_r.
    - rewrite <- (Z.mod_small a (2 ^ k)) by lia.
      rewrite Z.mod_pow2_bits_high by lia. reflexivity. }
  rewrite Z.add_nocarry_lxor by exact h0. reflexivity.
Qed.

(** [lor] and [lxor] of disjoint parts; the right part must be a multiple of [c]. *)
Lemma ev_lor a a' h1 b b' l2 h2 k c lo hi : ev a a' 0 h1 -> ev b (b' * c) l2 h2 ->
  Z.log2 c = k -> 2 ^ k = c -> (h1 <? c) = true -> l2 = lo -> h1 + h2 = hi ->
  ev (Z.lor a b) (a' + b' * c) lo hi.
Proof.
  intros [-> h] [-> h'] _ <- hc <- <-. apply Z.ltb_lt in hc.
  unfold ev. destruct (Z_lt_ge_dec k 0).
  - rewrite Z.pow_neg_r in * by lia. assert (a' = 0) by lia; subst.
    exfalso; lia.
  - rewrite lor_disjoint by lia. split; [reflexivity | lia].
Qed.

Lemma ev_lxor a a' h1 b b' l2 h2 k c lo hi : ev a a' 0 h1 -> ev b (b' * c) l2 h2 ->
  Z.log2 c = k -> 2 ^ k = c -> (h1 <? c) = true -> l2 = lo -> h1 + h2 = hi ->
  ev (Z.lxor a b) (a' + b' * c) lo hi.
Proof.
  intros [-> h] [-> h'] _ <- hc <- <-. apply Z.ltb_lt in hc.
  unfold ev. destruct (Z_lt_ge_dec k 0).
  - rewrite Z.pow_neg_r in * by lia. assert (a' = 0) by lia; subst.
    exfalso; lia.
  - rewrite lxor_disjoint by lia. split; [reflexivity | lia].
Qed.

(** Stepping through [let]s. *)
Lemma step_ev {B : Type} (P : B -> Prop) (body : Z -> B) e e' lo hi :
  ev e e' lo hi -> (forall x, x = e' -> lo <= x <= hi -> P (body x)) ->
  P (let x := e in body x).
Proof. intros [-> h] H. apply H; auto. Qed.

Lemma step_copy {B : Type} (P : B -> Prop) (body : Z -> B) e :
  P (body e) -> P (let x := e in body x).
Proof. exact (fun h => h). Qed.

Lemma step_mul64 {B : Type} (P : B -> Prop) (body : Z -> Z -> B) a a' h1 b b' h2 hi :
  ev a a' 0 h1 -> ev b b' 0 h2 -> (h1 * h2) / 18446744073709551616 = hi ->
  (forall h l, l = a' * b' - 18446744073709551616 * h ->
     0 <= h <= hi -> 0 <= l <= 18446744073709551615 -> P (body h l)) ->
  P (let (h, l) := bits_mul64 a b in body h l).
Proof.
  intros [-> ha] [-> hb] <- H. unfold bits_mul64. apply H.
  - rewrite Z.mod_eq by lia. reflexivity.
  - split; [apply Z.div_pos; nia | apply Z.div_le_mono; nia].
  - pose proof (Z.mod_pos_bound (a' * b') 18446744073709551616 ltac:(lia)). lia.
Qed.

(** low word of an addition: the carry out is kept as an unknown. *)
Lemma step_add64 {B : Type} (P : B -> Prop) (body : Z -> Z -> B) a a' h1 b b' h2 c c' h3 hi :
  ev a a' 0 h1 -> ev b b' 0 h2 -> ev c c' 0 h3 -> (h1 + h2 + h3) / 18446744073709551616 = hi ->
  (forall s k, s = a' + b' + c' - 18446744073709551616 * k ->
     0 <= s <= 18446744073709551615 -> 0 <= k <= hi -> P (body s k)) ->
  P (let (s, k) := bits_add64 a b c in body s k).
Proof.
  intros [-> ha] [-> hb] [-> hc] <- H. unfold bits_add64. apply H.
  - rewrite Z.mod_eq by lia. reflexivity.
  - pose proof (Z.mod_pos_bound (a' + b' + c') 18446744073709551616 ltac:(lia)). lia.
  - split; [apply Z.div_pos; lia | apply Z.div_le_mono; lia].
Qed.

(** addition that cannot overflow *)
Lemma step_add64_nc {B : Type} (P : B -> Prop) (body : Z -> B) a a' h1 b b' h2 c c' h3 hi :
  ev a a' 0 h1 -> ev b b' 0 h2 -> ev c c' 0 h3 -> h1 + h2 + h3 = hi ->
  (hi <? 18446744073709551616) = true ->
  (forall s, s = a' + b' + c' -> 0 <= s <= hi -> P (body s)) ->
  P (let (s, _) := bits_add64 a b c in body s).
Proof.
  intros [-> ha] [-> hb] [-> hc] <- hlt H. apply Z.ltb_lt in hlt. unfold bits_add64.
  rewrite Z.mod_small by lia. apply H; lia.
Qed.


Global Opaque bits_mul64 bits_add64.

(** ** Tactics *)

Ltac ev_eq := match goal with |- ?e = _ => let v := eval vm_compute in e in exact (eq_refl v <: e = v) end.
Ltac ev_chk := vm_compute; reflexivity.

Ltac ev_is_lit x :=
  match x with
  | Z0 => idtac
  | Zpos _ => idtac
  | Zneg _ => idtac
  end.

Ltac ev_go :=
  lazymatch goal with
  | |- ev (u64 _) _ _ _ => eapply ev_u64; [ev_go | ev_chk]
  | |- ev (u32 _) _ _ _ => eapply ev_u32; [ev_go | ev_chk]
  | |- ev (u16 _) _ _ _ => eapply ev_u16; [ev_go | ev_chk]
  | |- ev (u8 _) _ _ _ => eapply ev_u8; [ev_go | ev_chk]
  | |- ev (i64 _) _ _ _ => eapply ev_i64; [ev_go | ev_chk]
  | |- ev (i32 _) _ _ _ => eapply ev_i32; [ev_go | ev_chk]
  | |- ev (i8 _) _ _ _ => eapply ev_i8; [ev_go | ev_chk]
  | |- ev (_ + _) _ _ _ => eapply ev_add; [ev_go | ev_go | ev_eq | ev_eq]
  | |- ev (_ - _) _ _ _ => eapply ev_sub; [ev_go | ev_go | ev_eq | ev_eq]
  | |- ev (- _) _ _ _ => eapply ev_opp; [ev_go | ev_eq | ev_eq]
  | |- ev (_ * _) _ _ _ => eapply ev_mul; [ev_go | ev_go | ev_eq | ev_eq]
  | |- ev (Z.shiftl _ _) _ _ _ => eapply ev_shiftl; [ev_go | ev_chk | ev_eq | ev_eq | ev_eq]
  | |- ev (Z.shiftr _ _) _ _ _ => eapply ev_shiftr; [ev_go | ev_chk | ev_eq | ev_eq | ev_eq]
  | |- ev (Z.land _ _) _ _ _ => first [ eapply ev_mask; [ev_go | ev_eq | ev_eq | ev_chk | ev_chk] | eapply ev_mask_hi; [ev_go | ev_eq | ev_eq | ev_eq | ev_eq | ev_chk] ]
  | |- ev (Z.lor _ _) _ _ _ => eapply ev_lor; [ev_go | ev_go | ev_eq | ev_eq | ev_chk | ev_eq | ev_eq]
  | |- ev (Z.lxor _ _) _ _ _ => eapply ev_lxor; [ev_go | ev_go | ev_eq | ev_eq | ev_chk | ev_eq | ev_eq]
  | |- ev ?x _ _ _ =>
      first [ is_var x; match goal with H : _ <= x <= _ |- _ => exact (ev_var _ _ _ H) end
            | ev_is_lit x; exact (ev_const x) ]
  end.

Ltac ev_copy :=
  lazymatch goal with
  | |- ?P (let x := ?e in @?body x) => let b := eval cbv beta in (body e) in change (P b)
  end.

(** one [let] of a straight-line program; the goal must be [P (let ... in ...)] *)
Ltac ev_step :=
  lazymatch goal with
  | |- ?P (let x := ?e in @?body x) =>
      first [ is_var e; ev_copy
            | ev_is_lit e; ev_copy
            | refine (step_ev P body e _ _ _ _ _); [ev_go | intros ? ? ?; cbv beta] ]
  | |- ?P (let (h, l) := bits_mul64 ?a ?b in @?body h l) =>
      refine (step_mul64 P body a _ _ b _ _ _ _ _ _ _); [ev_go | ev_go | ev_eq | intros ? ? ? ? ?; cbv beta]
  | |- ?P (let (s, k) := bits_add64 ?a ?b ?c in @?body s k) =>
      first [ let body' := lazymatch body with fun s k => @?B s => B end in
              refine (step_add64_nc P body' a _ _ b _ _ c _ _ _ _ _ _ _ _ _); [ev_go | ev_go | ev_go | ev_eq | ev_chk | intros ? ? ?; cbv beta]
            | refine (step_add64 P body a _ _ b _ _ c _ _ _ _ _ _ _ _); [ev_go | ev_go | ev_go | ev_eq | intros ? ? ? ? ?; cbv beta] ]
  end.

(** forget the definition of every quotient *)
Ltac clear_quots :=
  repeat match goal with
  | H : context [?a / ?k] |- _ => is_var a; ev_is_lit k; let q := fresh "q" in set (q := a / k) in *; clearbody q
  | |- context [?a / ?k] => is_var a; ev_is_lit k; let q := fresh "q" in set (q := a / k) in *; clearbody q
  end.

(** expose the body of [f] in the term [t = f args]; the rest of the goal becomes [PP] *)
Ltac ev_open f t :=
  pattern t;
  match goal with |- ?P ?x =>
    let y := eval cbv beta iota delta [f] in x in
    let Q := fresh "PP" in set (Q := P); change (Q y) end.

Lemma bnd_weaken x lo hi lo' hi' : lo <= x <= hi -> (lo' <=? lo) && (hi <=? hi') = true -> lo' <= x <= hi'.
Proof.
  intros h hb. apply andb_true_iff in hb as [h1 h2]. apply Z.leb_le in h1; apply Z.leb_le in h2. lia.
Qed.

(** goal [lo' <= x <= hi'] for a variable with recorded bounds *)
Ltac bnd := match goal with H : _ <= ?x <= _ |- _ <= ?x <= _ => refine (bnd_weaken _ _ _ _ _ H _); vm_compute; reflexivity end.

Lemma quot_bnd a k : (0 <? k) = true -> k * (a / k) <= a < k * (a / k) + k.
Proof.
  intro h. apply Z.ltb_lt in h. pose proof (Z.div_mod a k ltac:(lia)). pose proof (Z.mod_pos_bound a k h). lia.
Qed.

(** replace quotients by fresh variables, keeping only their defining inequalities *)
Ltac quot_facts :=
  repeat match goal with
  | H : context [?a / ?k] |- _ =>
      ev_is_lit k;
      lazymatch a with context [_ / _] => fail | _ => idtac end;
      let q := fresh "q" in
      pose proof (quot_bnd a k eq_refl); set (q := a / k) in *; clearbody q
  end.

Lemma div_div_lit a k1 k2 k : (0 <? k1) && (0 <? k2) && (k1 * k2 =? k) = true -> a / k1 / k2 = a / k.
Proof.
  intro h. rewrite !andb_true_iff in h. destruct h as ((h1 & h2) & h3).
  apply Z.ltb_lt in h1, h2. apply Z.eqb_eq in h3. subst. apply Z.div_div; lia.
Qed.

(** merge nested quotients by literals *)
Ltac merge_quots :=
  repeat match goal with
  | H : context [?a / ?k1 / ?k2] |- _ =>
      ev_is_lit k1; ev_is_lit k2;
      let k := eval vm_compute in (k1 * k2) in rewrite (div_div_lit a k1 k2 k eq_refl) in H
  end.

Lemma bytes_cons n s : bytes (S n) s -> exists b t, s = b :: t /\ 0 <= b <= 255 /\ bytes n t.
Proof.
  intros [hl hf]. destruct s as [|b t]; [discriminate|]. exists b, t.
  inversion hf; subst. unfold is_byte in *. repeat split; auto; lia.
Qed.

Lemma bytes_nil s : bytes 0 s -> s = [].
Proof. intros [hl _]. destruct s; [reflexivity | discriminate]. Qed.

(** split a byte string of known length into its bytes *)
Ltac split_bytes H :=
  lazymatch type of H with
  | bytes (S _) _ => let b := fresh "b" in let t := fresh "t" in let h := fresh "hb" in
      apply bytes_cons in H; destruct H as (b & t & -> & h & H); split_bytes H
  | bytes O _ => apply bytes_nil in H; subst
  end.
