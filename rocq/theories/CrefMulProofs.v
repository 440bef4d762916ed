(** Scalar multiplication in cref.c gives the multiple of the point. *)
From Coq Require Import ZArith List Lia Bool Ring.
From Verif Require Import Words WordsTac NumTheory Primes Fp AbGroup Edwards GroupOrder Fe25Code Fe25Proofs FieldModel BitFold FieldLaws Fe25Laws CurveProofs WindowProofs ScalarMultProofs
  CLang CLangFacts CrefFeCode CrefFe CrefFeProofs CrefCode CrefSeqProofs CrefGroupProofs CrefScalar CrefScalarProofs CrefScalarOps CrefWindow CrefTable CrefTableProofs CrefMul.
From Verif Require Import ScalarFacts.
Import ListNotations.
Open Scope Z_scope.

(** ** Selection *)
Lemma g_static_equal_ok b c : -128 <= b < 128 -> -128 <= c < 128 -> g_static_equal b c = Z.b2z (b =? c).
Proof.
  intros hb hc. unfold g_static_equal.
  assert (hr : forall x, 0 <= u8 x < 256) by (intro; apply Z.mod_pos_bound; lia).
  pose proof (lxor_range 8 (u8 b) (u8 c) ltac:(lia) (hr b) (hr c)) as h. change (2 ^ 8) with 256 in h.
  rewrite dec_shift31 by lia. replace (Z.lxor (u8 b) (u8 c) =? 0) with (b =? c); [destruct (b =? c); reflexivity|].
  apply eq_true_iff_eq. rewrite !Z.eqb_eq, lxor_0_iff. split; [congruence|]. unfold u8. intro e.
  pose proof (Z.div_mod b 256 ltac:(lia)). pose proof (Z.div_mod c 256 ltac:(lia)).
  assert (b / 256 = -1 \/ b / 256 = 0) by (pose proof (Z.mod_pos_bound b 256); lia).
  assert (c / 256 = -1 \/ c / 256 = 0) by (pose proof (Z.mod_pos_bound c 256); lia). lia.
Qed.

Lemma g_negative_ok b : -128 <= b < 128 -> g_negative b = Z.b2z (b <? 0).
Proof.
  intro h. unfold g_negative. destruct (Z.ltb_spec b 0) as [c|c].
  - replace (u64 b) with (b + 2 ^ 64) by (unfold u64; apply Zmod_unique with (-1); lia).
    rewrite Z.shiftr_div_pow2 by lia. replace ((b + 2 ^ 64) / 2 ^ 63) with 1; [reflexivity|].
    apply Z.div_unique with (b + 2 ^ 63); lia.
  - unfold u64. rewrite Z.mod_small by lia. rewrite Z.shiftr_div_pow2 by lia. rewrite Z.div_small by lia. reflexivity.
Qed.

Lemma cmov_aff_ok r q A B c b : caff r A -> caff q B -> c = Z.b2z b -> caff (cmov_aff r q c) (if b then B else A).
Proof.
  destruct r as [rx ry], q as [qx qy]. intros [h1 h2] [h3 h4] hc. unfold cmov_aff. 
  pose proof (c_cmov_ok 1 rx qx _ _ c b h1 h3 hc ltac:(clit)) as k1. pose proof (c_cmov_ok 1 ry qy _ _ c b h2 h4 hc ltac:(clit)) as k2.
  destruct b; exact (conj k1 k2).
Qed.

Lemma cmov_ge_ok r q A B c b : cge r A -> cge q B -> c = Z.b2z b -> cge (cmov_ge r q c) (if b then B else A).
Proof.
  destruct r as [rx ry rz rt], q as [qx qy qz qt]. intros (z & hz & h1 & h2 & h3 & h4) (w & hw & k1 & k2 & k3 & k4) hc. unfold cmov_ge.
  pose proof (c_cmov_ok 2 rx qx _ _ c b h1 k1 hc ltac:(clit)) as u1. pose proof (c_cmov_ok 1 ry qy _ _ c b h2 k2 hc ltac:(clit)) as u2.
  pose proof (c_cmov_ok 1 rz qz _ _ c b h3 k3 hc ltac:(clit)) as u3. pose proof (c_cmov_ok 1 rt qt _ _ c b h4 k4 hc ltac:(clit)) as u4.
  destruct b; [exists w | exists z]; refine (conj _ (conj u1 (conj u2 (conj u3 u4)))); assumption.
Qed.

(** the digit that [choose_t_aff] uses: +4 is not handled *)
Definition dig4 (b : Z) : Z := if b =? 4 then 0 else b.

Lemma choose_case b A : -4 <= b <= 4 ->
  let V := if b =? -4 then A 4 else if (b =? 3) || (b =? -3) then A 3 else if (b =? 2) || (b =? -2) then A 2 else if (b =? 1) || (b =? -1) then A 1 else A 0 in
  (forall k, A (- k) = Eopp (A k)) ->
  (if b <? 0 then Eopp V else V) = A (dig4 b).
Proof.
  intros hb V hA. subst V. assert (b = -4 \/ b = -3 \/ b = -2 \/ b = -1 \/ b = 0 \/ b = 1 \/ b = 2 \/ b = 3 \/ b = 4) as h by lia.
  destruct h as [-> | [-> | [-> | [-> | [-> | [-> | [-> | [-> | ->]]]]]]]]; cbn [Z.eqb Pos.eqb orb Z.ltb Z.compare dig4]; try reflexivity; symmetry; first [exact (hA 1) | exact (hA 2) | exact (hA 3) | exact (hA 4)].
Qed.

Lemma neg_aff_ok tx ty A c b : caff (Aff tx ty) A -> c = Z.b2z b ->
  ok (let* v := c_neg tx in Some (Aff (c_cmov tx v c) ty)) (fun r => caff r (if b then Eopp A else A)).
Proof.
  intros [h1 h2] hc. apply (bind_ok _ _ _ _ (c_neg_ok 1 tx _ h1 ltac:(clit))). intros v hv. apply ok_ret.
  pose proof (c_cmov_ok 1 tx v _ _ c b h1 hv hc ltac:(clit)) as k.
  destruct b; [|exact (conj k h2)]. split; [rewrite ex_opp; exact k | rewrite ey_opp; exact h2].
Qed.

Lemma g_choose_aff_ok pos b : (pos < 85)%nat -> -4 <= b <= 4 -> ok (g_choose_aff pos b) (fun q => caff q (Emul (dig4 b * 8 ^ Z.of_nat pos) EB)).
Proof.
  intros hp hb. unfold g_choose_aff, aff_at. set (A := fun k => Emul (k * 8 ^ Z.of_nat pos) EB).
  destruct (base_table_ok pos 0 hp ltac:(lia)) as (e0 & -> & h0). destruct (base_table_ok pos 1 hp ltac:(lia)) as (e1 & -> & h1).
  destruct (base_table_ok pos 2 hp ltac:(lia)) as (e2 & -> & h2). destruct (base_table_ok pos 3 hp ltac:(lia)) as (e3 & -> & h3).
  destruct (base_table_ok pos 4 hp ltac:(lia)) as (e4 & -> & h4).
  change (Z.of_nat 0) with 0 in h0. change (Z.of_nat 1) with 1 in h1. change (Z.of_nat 2) with 2 in h2. change (Z.of_nat 3) with 3 in h3. change (Z.of_nat 4) with 4 in h4.
  cbv zeta. rewrite !g_static_equal_ok by lia. rewrite g_negative_ok by lia. rewrite !lor_b2z.
  pose proof (cmov_aff_ok _ _ _ _ _ _ h0 h1 eq_refl : caff (cmov_aff e0 e1 (Z.b2z ((b =? 1) || (b =? -1)))) _) as k1.
  pose proof (cmov_aff_ok _ _ _ _ _ _ k1 h2 eq_refl : caff (cmov_aff (cmov_aff e0 e1 (Z.b2z ((b =? 1) || (b =? -1)))) e2 (Z.b2z ((b =? 2) || (b =? -2)))) _) as k2.
  pose proof (cmov_aff_ok _ _ _ _ (Z.b2z ((b =? 3) || (b =? -3))) _ k2 h3 eq_refl) as k3.
  pose proof (cmov_aff_ok _ _ _ _ (Z.b2z (b =? -4)) _ k3 h4 eq_refl) as k4.
  revert k4. generalize (cmov_aff (cmov_aff (cmov_aff (cmov_aff e0 e1 (Z.b2z ((b =? 1) || (b =? -1)))) e2 (Z.b2z ((b =? 2) || (b =? -2)))) e3 (Z.b2z ((b =? 3) || (b =? -3)))) e4 (Z.b2z (b =? -4))).
  intros [tx ty] k4. refine (ok_weak _ _ _ (neg_aff_ok tx ty _ _ (b <? 0) k4 eq_refl) _).
  intros v hv. change (caff v (A (dig4 b))). rewrite <- (choose_case b A hb); [exact hv|].
  intro k. unfold A. rewrite <- Emul_opp. f_equal. ring.
Qed.

(** ** Loops *)
Lemma nth_firstn_lt {A} (d : A) : forall n i w, (i < n)%nat -> nth i (firstn n w) d = nth i w d.
Proof.
  induction n as [|n IH]; intros i w h; [lia|]. destruct w as [|x w]; [reflexivity|]. destruct i as [|i]; [reflexivity|]. cbn [firstn nth]. apply IH. lia.
Qed.
Lemma for_upo_ok {A : Type} (I : nat -> A -> Prop) f x n : I 0%nat x -> (forall k y, (k < n)%nat -> I k y -> ok (f k y) (I (S k))) -> ok (for_upo n f x) (I n).
Proof.
  intros h0 hs. assert (H : forall k, (k <= n)%nat -> ok (for_upo k f x) (I k)).
  { induction k as [|k IH]; intro hk; [apply ok_ret; exact h0|]. cbn [for_upo].
    apply (bind_ok _ _ _ _ (IH ltac:(lia))). intros v hv. apply hs; [lia | exact hv]. }
  apply H. lia.
Qed.

Lemma dval_firstn_S B w : forall n, (n < length w)%nat -> dval B (firstn (S n) w) = dval B (firstn n w) + B ^ Z.of_nat n * at_ w n.
Proof.
  induction w as [|d w IH]; intros n h; [cbn in h; lia|]. destruct n as [|n].
  - cbn [firstn dval]. change (at_ (d :: w) 0) with d. change (Z.of_nat 0) with 0. rewrite Z.pow_0_r. ring.
  - change (firstn (S (S n)) (d :: w)) with (d :: firstn (S n) w). change (firstn (S n) (d :: w)) with (d :: firstn n w).
    cbn [dval]. rewrite IH by (cbn [length] in h; lia). change (at_ (d :: w) (S n)) with (at_ w n).
    rewrite Nat2Z.inj_succ, Z.pow_succ_r by lia. ring.
Qed.

Lemma g_scalarmult_base_gen s : bytes 32 s -> le_val s < 2 ^ 254 ->
  ok (g_scalarmult_base s) (fun R => cge R (Emul (dval 8 (map dig4 (cs_window3 s))) EB)).
Proof.
  intros hs hv. destruct (cs_window3_ok s hs hv) as (hl & hd & _). unfold g_scalarmult_base. cbv zeta.
  set (b := cs_window3 s) in *. clearbody b.
  assert (hb : forall i, -4 <= at_ b i <= 4) by (intro; apply digits_at; [lia | exact hd]).
  apply (bind_ok _ _ _ _ (g_choose_aff_ok 0 (at_ b 0) ltac:(lia) (hb 0%nat))). intros [rx ry] [h1 h2].
  change (8 ^ Z.of_nat 0) with 1 in h1, h2. rewrite Z.mul_1_r in h1, h2.
  apply (bind_ok _ _ _ _ (c_mul_ok 1 1 rx ry _ _ h1 h2 ltac:(clit) ltac:(clit))). intros rt ht.
  set (I := fun (k : nat) (R : ge) => cge R (Emul (dval 8 (firstn (k + 1) (map dig4 b))) EB)).
  assert (hl' : length (map dig4 b) = 85%nat) by (rewrite map_length; exact hl).
  assert (hat : forall k, (k < 85)%nat -> at_ (map dig4 b) k = dig4 (at_ b k)).
  { intros k hk. unfold at_. change 0 with (dig4 0) at 1. apply map_nth. }
  refine (ok_weak _ _ _ (for_upo_ok I _ _ 84 _ _) _).
  - unfold I. change (0 + 1)%nat with 1%nat. rewrite dval_firstn_S by (rewrite hl'; lia). cbn [firstn dval].
    change (8 ^ Z.of_nat 0) with 1. rewrite Z.mul_1_l, Z.add_0_l, hat by lia.
    exists F1. refine (conj F1_neq_0 (conj _ (conj _ (conj r_one _)))).
    + apply (rel_feq 1 2 _ _ _ h1 ltac:(lia)). ring.
    + apply (rel_feq 1 1 _ _ _ h2 ltac:(lia)). ring.
    + apply (rel_feq 1 1 _ _ _ ht ltac:(lia)). ring.
  - intros k R hk hR. apply (bind_ok _ _ _ _ (g_choose_aff_ok (k + 1) (at_ b (k + 1)) ltac:(lia) (hb _))). intros t ht'.
    refine (ok_weak _ _ _ (g_mixadd2_ok _ _ _ _ hR ht') _). intros v hv'. unfold I. replace (S k + 1)%nat with (S (k + 1)) by lia.
    rewrite dval_firstn_S by (rewrite hl'; lia). rewrite hat by lia. rewrite Emul_add. rewrite (Z.mul_comm (8 ^ _)). exact hv'.
  - intros R hR. unfold I in hR. change (84 + 1)%nat with 85%nat in hR. rewrite firstn_all2 in hR by (rewrite hl'; lia). exact hR.
Qed.

Lemma dig4_map w : digits_in (-4) 3 w -> map dig4 w = w.
Proof.
  induction 1 as [|d w hd hw IH]; [reflexivity|]. cbn [map]. rewrite IH. f_equal. unfold dig4. destruct (Z.eqb_spec d 4); [lia|reflexivity].
Qed.

Theorem g_scalarmult_base_ok s : bytes 32 s -> le_val s < l -> ok (g_scalarmult_base s) (fun R => cge R (Emul (le_val s) EB)).
Proof.
  intros hs hv. assert (hv' : le_val s < 2 ^ 254) by (rewrite l_lit in hv; lia).
  refine (ok_weak _ _ _ (g_scalarmult_base_gen s hs hv') _). intros R hR.
  destruct (cs_window3_ok s hs hv') as (hl & hd & he & hf & hg).
  rewrite dig4_map, he in hR; [exact hR|]. apply digits_in_iff. rewrite hl. intros i hi.
  destruct (Nat.eq_dec i 84) as [->|n]; [|apply hf; lia].
  assert (at_ s 31 < 32).
  { apply top_byte; [exact hs|]. rewrite l_lit in hv. change (256 ^ 31 * 32) with (2 ^ 253). lia. }
  pose proof (at_byte 32 s 31 hs) as hb. unfold is_byte in hb. assert (at_ s 31 / 16 <= 1) by (Z.to_euclidean_division_equations; lia). lia.
Qed.

(** What happens without the bound on the scalar: the last digit can be 4, which the table lookup takes for 0. *)
Lemma dval8_range w : digits_in (-4) 3 w -> -4 * (8 ^ Z.of_nat (length w) - 1) <= 7 * dval 8 w <= 3 * (8 ^ Z.of_nat (length w) - 1).
Proof.
  induction 1 as [|d w hd hw IH]; [cbn; lia|]. cbn [dval length]. rewrite Nat2Z.inj_succ, Z.pow_succ_r by lia. lia.
Qed.
Lemma p84 : 8 ^ Z.of_nat 84 = 2 ^ 252. Proof. vm_compute. reflexivity. Qed.
Lemma p254 : 2 ^ 254 = 4 * 2 ^ 252. Proof. vm_compute. reflexivity. Qed.
Definition top4 (v : Z) : bool := 24 * 2 ^ 252 + 4 <=? 7 * v.

Lemma top4_case K a t : -4 * (K - 1) <= 7 * a <= 3 * (K - 1) -> -4 <= t <= 4 ->
  a + K * dig4 t = if 24 * K + 4 <=? 7 * (a + K * t) then a + K * t - 4 * K else a + K * t.
Proof.
  intros hr ht. unfold dig4. destruct (Z.eqb_spec t 4) as [c|c]; destruct (Z.leb_spec (24 * K + 4) (7 * (a + K * t))) as [c'|c']; try (subst t; lia).
  all: assert (t = -4 \/ t = -3 \/ t = -2 \/ t = -1 \/ t = 0 \/ t = 1 \/ t = 2 \/ t = 3) as h by lia; destruct h as [-> | [-> | [-> | [-> | [-> | [-> | [-> | ->]]]]]]]; lia.
Qed.

Lemma top4_ok w : length w = 85%nat -> digits_in (-4) 4 w -> (forall i, (i < 84)%nat -> -4 <= at_ w i <= 3) ->
  dval 8 (map dig4 w) = if top4 (dval 8 w) then dval 8 w - 2 ^ 254 else dval 8 w.
Proof.
  intros hl hd hf. pose proof (digits_at (-4) 4 w 84 ltac:(lia) hd) as ht.
  assert (hi : digits_in (-4) 3 (firstn 84 w)).
  { apply digits_in_iff. intros i hi. rewrite firstn_length, hl in hi. change (Nat.min 84 85) with 84%nat in hi.
    unfold at_. rewrite nth_firstn_lt by exact hi. apply hf. exact hi. }
  pose proof (dval8_range _ hi) as hr. rewrite firstn_length, hl in hr. change (Nat.min 84 85) with 84%nat in hr. rewrite p84 in hr.
  assert (e1 : dval 8 w = dval 8 (firstn 84 w) + 2 ^ 252 * at_ w 84).
  { rewrite <- (firstn_all2 (n := 85) w) at 1 by lia. rewrite dval_firstn_S by lia. rewrite p84. reflexivity. }
  assert (e2 : dval 8 (map dig4 w) = dval 8 (firstn 84 w) + 2 ^ 252 * dig4 (at_ w 84)).
  { rewrite <- (firstn_all2 (n := 85) (map dig4 w)) by (rewrite map_length; lia). rewrite dval_firstn_S by (rewrite map_length; lia).
    rewrite firstn_map, dig4_map by exact hi. rewrite p84. f_equal. f_equal. unfold at_. change 0 with (dig4 0) at 1. apply map_nth. }
  rewrite e2. unfold top4. rewrite e1. rewrite p254. exact (top4_case _ _ _ hr ht).
Qed.

Lemma g_scalarmult_base_all s : bytes 32 s -> le_val s < 2 ^ 254 ->
  ok (g_scalarmult_base s) (fun R => cge R (Emul (if top4 (le_val s) then le_val s - 2 ^ 254 else le_val s) EB)).
Proof.
  intros hs hv. pose proof (g_scalarmult_base_gen s hs hv) as h.
  destruct (cs_window3_ok s hs hv) as (hl & hd & he & hf & hg). rewrite (top4_ok _ hl hd hf), he in h. exact h.
Qed.

(** ** Variable base *)
Lemma nth_error_upd_eq {A} (w : list A) i x : (i < length w)%nat -> nth_error (upd w i x) i = Some x.
Proof. intro h. rewrite (nth_error_nth' _ x) by (rewrite upd_length; exact h). now rewrite nth_upd_eq. Qed.
Lemma nth_error_upd_neq {A} (w : list A) i j x : i <> j -> nth_error (upd w i x) j = nth_error w j.
Proof.
  intro h. destruct (Nat.lt_ge_cases j (length w)) as [c|c].
  - rewrite (nth_error_nth' _ x) by (rewrite upd_length; exact c). rewrite nth_upd_neq by exact h. symmetry. apply nth_error_nth'. exact c.
  - rewrite (proj2 (nth_error_None _ j)) by (rewrite upd_length; exact c). symmetry. apply nth_error_None. exact c.
Qed.

Definition holds (pre : list ge) (n : nat) (A : E) : Prop :=
  length pre = 17%nat /\ forall j, (j < n)%nat -> exists q, nth_error pre j = Some q /\ cge q (Emul (Z.of_nat j) A).

Lemma holds_upd pre n A q : holds pre n A -> (n < 17)%nat -> cge q (Emul (Z.of_nat n) A) -> holds (upd pre n q) (S n) A.
Proof.
  intros [hl h] hn hq. split; [rewrite upd_length; exact hl|]. intros j hj. destruct (Nat.eq_dec n j) as [<-|ne].
  - exists q. split; [apply nth_error_upd_eq; lia | exact hq].
  - rewrite nth_error_upd_neq by exact ne. apply h. lia.
Qed.

Lemma g_pre_ok x A : cge x A -> ok (g_pre x) (fun pre => holds pre 17 A).
Proof.
  intro hx. unfold g_pre.
  assert (h0 : holds (upd (repeat g_neutral 17) 1 x) 2 A).
  { apply holds_upd; [|lia|change (Z.of_nat 1) with 1; rewrite Emul_1; exact hx]. split; [apply repeat_length|].
    intros j hj. replace j with 0%nat by lia. exists g_neutral. split; [reflexivity|]. change (Z.of_nat 0) with 0. rewrite Emul_0. exact g_neutral_ok. }
  apply (bind_ok _ _ (fun pre => holds pre 16 A)).
  - refine (for_upo_ok (fun k pre => holds pre (2 * k + 2) A) g_pre_step _ 7 h0 _). intros k pre hk h. unfold g_pre_step.
    replace (Nat.div (2 * k + 2) 2) with (k + 1)%nat by (replace (2 * k + 2)%nat with ((k + 1) * 2)%nat by lia; rewrite Nat.div_mul; lia).
    destruct (proj2 h (k + 1)%nat ltac:(lia)) as (a & -> & ha).
    apply (bind_ok _ _ _ _ (g_double_ok _ _ ha)). intros d hd. rewrite Emul_dbl in hd. replace (2 * Z.of_nat (k + 1)) with (Z.of_nat (2 * k + 2)) in hd by lia.
    cbv zeta. pose proof (holds_upd pre (2 * k + 2) A d h ltac:(lia) hd) as h'.
    rewrite nth_error_upd_eq by (rewrite (proj1 h); lia).
    destruct (proj2 h' 1%nat ltac:(lia)) as (b & -> & hb). change (Z.of_nat 1) with 1 in hb.
    apply (bind_ok _ _ _ _ (g_add_ok _ _ _ _ hd hb)). intros e he. apply ok_ret. rewrite <- Emul_add in he.
    replace (2 * S k + 2)%nat with (S (S (2 * k + 2))) by lia. replace (2 * k + 2 + 1)%nat with (S (2 * k + 2)) by lia.
    apply holds_upd; [exact h' | lia |]. replace (Z.of_nat (S (2 * k + 2))) with (Z.of_nat (2 * k + 2) + 1) by lia. exact he.
  - intros pre h. destruct (proj2 h 8%nat ltac:(lia)) as (a & -> & ha).
    apply (bind_ok _ _ _ _ (g_double_ok _ _ ha)). intros d hd. apply ok_ret. rewrite Emul_dbl in hd. apply holds_upd; [exact h | lia | exact hd].
Qed.

Lemma neg_ge_ok tx ty tz tt_ A c b : cge (Ge tx ty tz tt_) A -> c = Z.b2z b ->
  ok (let* v := c_neg tx in let tx := c_cmov tx v c in let* v := c_neg tt_ in let tt_ := c_cmov tt_ v c in Some (Ge tx ty tz tt_))
     (fun r => cge r (if b then Eopp A else A)).
Proof.
  intros (z & hz & h1 & h2 & h3 & h4) hc. apply (bind_ok _ _ _ _ (c_neg_ok 2 tx _ h1 ltac:(clit))). intros v hv. cbv zeta.
  apply (bind_ok _ _ _ _ (c_neg_ok 1 tt_ _ h4 ltac:(clit))). intros w hw. apply ok_ret.
  pose proof (c_cmov_ok 2 tx v _ _ c b h1 hv hc ltac:(clit)) as k1. pose proof (c_cmov_ok 1 tt_ w _ _ c b h4 hw hc ltac:(clit)) as k2.
  exists z. destruct b; [|exact (conj hz (conj k1 (conj h2 (conj h3 k2))))]. refine (conj hz (conj _ (conj _ (conj h3 _)))).
  - apply (rel_feq 2 2 _ _ _ k1 ltac:(lia)). rewrite ex_opp. ring.
  - rewrite ey_opp. exact h2.
  - apply (rel_feq 1 1 _ _ _ k2 ltac:(lia)). rewrite ex_opp, ey_opp. ring.
Qed.

Lemma g_choose_ok pre A b : holds pre 17 A -> -16 <= b <= 16 -> ok (g_choose pre b) (fun q => cge q (Emul b A)).
Proof.
  intros h hb. unfold g_choose. destruct (proj2 h 0%nat ltac:(lia)) as (q0 & -> & h0).
  set (I := fun (k : nat) (q : ge) => cge q (Emul (if Z.abs b <=? Z.of_nat k then Z.abs b else 0) A)).
  apply (bind_ok _ _ (I 16%nat)).
  - apply for_upo_ok.
    + unfold I. replace (if Z.abs b <=? Z.of_nat 0 then Z.abs b else 0) with 0; [exact h0|].
      destruct (Z.leb_spec (Z.abs b) (Z.of_nat 0)); lia.
    + intros k q hk hq. unfold g_choose_step. destruct (proj2 h (k + 1)%nat ltac:(lia)) as (q' & -> & h').
      rewrite (i8_sm (- b)) by lia. rewrite !g_static_equal_ok by lia. rewrite lor_b2z. apply ok_ret.
      pose proof (cmov_ge_ok _ _ _ _ _ _ hq h' eq_refl : cge (cmov_ge q q' (Z.b2z ((b =? Z.of_nat (k + 1)) || (- b =? Z.of_nat (k + 1))))) _) as hc.
      unfold I. refine (eq_ind _ (fun X => cge _ X) hc _ _).
      destruct ((b =? Z.of_nat (k + 1)) || (- b =? Z.of_nat (k + 1))) eqn:Eb.
      * apply orb_true_iff in Eb. rewrite !Z.eqb_eq in Eb. f_equal. destruct (Z.leb_spec (Z.abs b) (Z.of_nat (S k))); lia.
      * apply orb_false_iff in Eb. rewrite !Z.eqb_neq in Eb. f_equal.
        destruct (Z.leb_spec (Z.abs b) (Z.of_nat k)), (Z.leb_spec (Z.abs b) (Z.of_nat (S k))); lia.
  - intros [tx ty tz tt_] ht. unfold I in ht. replace (Z.abs b <=? Z.of_nat 16) with true in ht by (symmetry; apply Z.leb_le; lia).
    refine (ok_weak _ _ _ (neg_ge_ok tx ty tz tt_ _ _ (b <? 0) ht (g_negative_ok b ltac:(lia))) _). intros v hv.
    destruct (Z.ltb_spec b 0).
    + rewrite <- Emul_opp in hv. replace (- Z.abs b) with b in hv by lia. exact hv.
    + replace (Z.abs b) with b in hv by lia. exact hv.
Qed.

Lemma g_sm_step_ok pre w A i r V : holds pre 17 A -> -16 <= at_ w i <= 16 -> cge r (Emul V A) ->
  ok (g_sm_step pre w i r) (fun q => cge q (Emul (at_ w i + 32 * V) A)).
Proof.
  intros h hw hr. unfold g_sm_step.
  apply (bind_ok _ _ (fun q => cge q (Emul (2 ^ Z.of_nat 5 * V) A))).
  - refine (for_upo_ok (fun k q => cge q (Emul (2 ^ Z.of_nat k * V) A)) _ _ 5 _ _).
    + change (2 ^ Z.of_nat 0) with 1. rewrite Z.mul_1_l. exact hr.
    + intros k q _ hq. refine (ok_weak _ _ _ (g_double_ok _ _ hq) _). intros v hv. rewrite Emul_dbl in hv.
      rewrite Nat2Z.inj_succ, Z.pow_succ_r, <- Z.mul_assoc by lia. exact hv.
  - change (2 ^ Z.of_nat 5) with 32. intros q hq. apply (bind_ok _ _ _ _ (g_choose_ok pre A _ h hw)). intros t ht.
    refine (ok_weak _ _ _ (g_add_ok _ _ _ _ hq ht) _). intros v hv. rewrite <- Emul_add in hv. rewrite Z.add_comm. exact hv.
Qed.

Theorem g_scalarmult_ok x A s : cge x A -> bytes 32 s -> le_val s < 2 ^ 254 -> ok (g_scalarmult x s) (fun R => cge R (Emul (le_val s) A)).
Proof.
  intros hx hs hv. destruct (cs_window5_ok s hs hv) as (hl & hd & he). unfold g_scalarmult.
  apply (bind_ok _ _ _ _ (g_pre_ok x A hx)). intros pre hp. set (w := cs_window5 s) in *. clearbody w.
  refine (ok_weak _ _ _ (for_upo_ok (fun k R => cge R (Emul (dval 32 (skipn (51 - k) w)) A)) _ _ 51 _ _) _).
  - rewrite skipn_all2 by lia. cbn [dval]. rewrite Emul_0. exact g_neutral_ok.
  - intros k R hk hR. rewrite dval_skipn by lia. replace (51 - S k)%nat with (50 - k)%nat by lia. replace (S (50 - k)) with (51 - k)%nat by lia.
    apply g_sm_step_ok; [exact hp | apply digits_at; [lia | exact hd] | exact hR].
  - intros R hR. rewrite (Nat.sub_diag 51), (skipn_O w), he in hR. exact hR.
Qed.

(** ** Sums of multiples *)
Fixpoint lincomb (ks : list Z) (As : list E) : E :=
  match ks, As with k :: ks, A :: As => Eadd (Emul k A) (lincomb ks As) | _, _ => E0 end.

Lemma msm_acc xs : forall o A, ok o (fun R => cge R A) ->
  forall As, Forall2 (fun x B => cge (fst x) B /\ bytes 32 (snd x) /\ le_val (snd x) < 2 ^ 254) xs As ->
  ok (fold_left (fun r xs => let* r := r in let* t := g_scalarmult (fst xs) (snd xs) in g_add r t) xs o)
     (fun R => cge R (Eadd A (lincomb (map (fun x => le_val (snd x)) xs) As))).
Proof.
  induction xs as [|x xs IH]; intros o A ho As h; inversion h as [|x' B xs' Bs (h1 & h2 & h3) h4]; subst.
  - cbn [fold_left map lincomb]. rewrite Eadd_0_r. exact ho.
  - cbn [fold_left map lincomb]. rewrite Eadd_assoc. apply IH; [|exact h4]. apply (bind_ok _ _ _ _ ho). intros R hR.
    apply (bind_ok _ _ _ _ (g_scalarmult_ok _ _ _ h1 h2 h3)). intros t ht. exact (g_add_ok _ _ _ _ hR ht).
Qed.
Theorem g_multiscalarmult_ok xs As : Forall2 (fun x B => cge (fst x) B /\ bytes 32 (snd x) /\ le_val (snd x) < 2 ^ 254) xs As ->
  ok (g_multiscalarmult xs) (fun R => cge R (lincomb (map (fun x => le_val (snd x)) xs) As)).
Proof.
  intro h. assert (h0 : ok (Some g_neutral) (fun R => cge R E0)) by (exists g_neutral; exact (conj eq_refl g_neutral_ok)).
  pose proof (msm_acc xs (Some g_neutral) E0 h0 As h) as k. rewrite Eadd_0_l in k. exact k.
Qed.
