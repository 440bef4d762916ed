(** Uniqueness of the non-adjacent form; [scalar_slide] and [computeScalar5NAF] compute the same digits. *)
From Coq Require Import ZArith List Lia Bool.
From Verif Require Import Words Primes Fp Edwards GroupOrder RistrettoSpec FieldModel CurveModel WindowProofs Fe25Code Fe25Proofs AllScalars
  CrefFe CrefCode CrefFacts CrefScalar CrefMul CrefMulProofs CrefMulFacts CrefSlide CrefSlideProofs.
Import ListNotations.
Open Scope Z_scope.

(** [r] is a non-adjacent form of width [w]: every digit is 0, or odd and below [2^(w-1)] in absolute value and followed by
    [w - 1] zeros. *)
Definition is_naf (w : Z) (r : list Z) : Prop :=
  (forall i, at_ r i = 0 \/ (Z.odd (at_ r i) = true /\ Z.abs (at_ r i) < 2 ^ (w - 1))) /\
  (forall i k, at_ r i <> 0 -> (i < k)%nat -> Z.of_nat k < Z.of_nat i + w -> at_ r k = 0).

Lemma naf_tail w x t : is_naf w (x :: t) -> is_naf w t.
Proof.
  intros [h1 h2]. split; [intro i; exact (h1 (S i))|]. intros i k hi hik hk. apply (h2 (S i) (S k)); [exact hi|lia|lia].
Qed.
Lemma dval_zeros n t : (forall k, (k < n)%nat -> at_ t k = 0) -> (2 ^ Z.of_nat n | dval 2 t).
Proof.
  revert t. induction n as [|n IH]; intros t h; [apply Z.divide_1_l|].
  destruct t as [|x t]; [apply Z.divide_0_r|]. cbn [dval]. assert (x = 0) as -> by exact (h 0%nat ltac:(lia)).
  rewrite Nat2Z.inj_succ, Z.pow_succ_r, Z.add_0_l by lia. apply Z.mul_divide_mono_l. apply IH. intros k hk. exact (h (S k) ltac:(lia)).
Qed.
Lemma naf_head w x t : 2 <= w -> is_naf w (x :: t) -> x <> 0 -> (2 ^ w | dval 2 (x :: t) - x).
Proof.
  intros hw [_ h2] hx. cbn [dval]. replace (x + 2 * dval 2 t - x) with (2 * dval 2 t) by ring.
  replace w with (Z.succ (w - 1)) by lia. rewrite Z.pow_succ_r by lia. apply Z.mul_divide_mono_l.
  replace (w - 1) with (Z.of_nat (Z.to_nat (w - 1))) by lia. apply dval_zeros. intros k hk. apply (h2 0%nat (S k)); [exact hx|lia|lia].
Qed.
Lemma naf_unique w : 2 <= w -> forall a b, length a = length b -> is_naf w a -> is_naf w b -> dval 2 a = dval 2 b -> a = b.
Proof.
  intro hw. induction a as [|x a IH]; intros [|y b] hl ha hb he; try discriminate hl; [reflexivity|].
  assert (x = y) as ->.
  { pose proof (proj1 ha 0%nat) as hx. pose proof (proj1 hb 0%nat) as hy. unfold at_ in hx, hy. cbn [nth] in hx, hy.
    assert (Z.odd x = Z.odd y) as ho.
    { apply (f_equal Z.odd) in he. cbn [dval] in he. rewrite !Z.odd_add, !Z.odd_mul in he. cbn [Z.odd andb] in he. rewrite !Bool.xorb_false_r in he. exact he. }
    destruct hx as [->|[hx1 hx2]], hy as [->|[hy1 hy2]]; [reflexivity|cbn in ho; congruence|cbn in ho; congruence|].
    assert (x <> 0) by (intros ->; discriminate hx1). assert (y <> 0) by (intros ->; discriminate hy1).
    pose proof (naf_head w x a hw ha ltac:(assumption)) as h1. pose proof (naf_head w y b hw hb ltac:(assumption)) as h2. rewrite <- he in h2.
    assert (2 ^ w | y - x) as [q hq].
    { replace (y - x) with ((dval 2 (x :: a) - x) - (dval 2 (x :: a) - y)) by ring. apply Z.divide_sub_r; assumption. }
    pose proof (pow_w w hw). pose proof (Z.pow_pos_nonneg 2 (w - 1) ltac:(lia) ltac:(lia)). assert (q = 0) by nia. subst q. lia. }
  f_equal. apply IH; [now injection hl|eapply naf_tail; exact ha|eapply naf_tail; exact hb|]. cbn [dval] in he. lia.
Qed.

Lemma slide_is_naf s w : bytes 32 s -> 2 <= w <= 7 -> is_naf w (cs_slide s w).
Proof.
  intros hs hw. destruct (cs_slide_spec s w hs ltac:(lia)) as (_ & h1 & h2 & _). rewrite Z.min_l in h2 by lia.
  split; [|exact h2]. intro i. destruct (h1 i) as [h|(h & h' & _)]; [now left|right; split; assumption].
Qed.

(** the digits that [computeScalar5NAF] writes are at least 5 apart *)
Lemma naf_loop_sparse x fuel : forall pos c naf r, (forall i, at_ naf i <> 0 -> (i + 5 <= pos)%nat) ->
  (forall i k, at_ naf i <> 0 -> (i < k < i + 5)%nat -> at_ naf k = 0) -> (pos < 256 -> length naf = 256)%nat -> 
  naf_loop fuel x pos c naf = Some r -> forall i k, at_ r i <> 0 -> (i < k < i + 5)%nat -> at_ r k = 0.
Proof.
  induction fuel as [|fuel IH]; intros pos c naf r h1 h2 h3 e.
  - cbn [naf_loop] in e. destruct (Nat.ltb pos 256); [discriminate e|]. injection e as <-. exact h2.
  - cbn [naf_loop] in e. destruct (Nat.ltb_spec pos 256) as [hp|hp]; [|injection e as <-; exact h2].
    assert (length naf = 256)%nat as hl by exact (h3 hp).
    assert (forall d, (forall i, at_ (upd naf pos d) i <> 0 -> (i + 5 <= pos + 5)%nat) /\
      (forall i k, at_ (upd naf pos d) i <> 0 -> (i < k < i + 5)%nat -> at_ (upd naf pos d) k = 0)) as hu.
    { intro d. split.
      - intros i hi. destruct (Nat.eq_dec i pos) as [->|n]; [lia|]. rewrite at_upd_neq in hi by lia. specialize (h1 i hi). lia.
      - intros i k hi hk. destruct (Nat.eq_dec i pos) as [->|n].
        + rewrite at_upd_neq by lia. destruct (Z.eq_dec (at_ naf k) 0) as [h|h]; [exact h|]. specialize (h1 k h). lia.
        + rewrite at_upd_neq in hi by lia. pose proof (h1 i hi). rewrite at_upd_neq by lia. exact (h2 i k hi hk). }
    cbv zeta in e.
    match type of e with (if ?b then _ else _) = _ => destruct b end.
    + refine (IH _ _ _ _ _ h2 _ e); [|intros _; exact hl]. intros i hi. specialize (h1 i hi). lia.
    + match type of e with (if ?b then _ else _) = _ => destruct b end;
        (refine (IH _ _ _ _ (proj1 (hu _)) (proj2 (hu _)) _ e); intros _; rewrite upd_length; exact hl).
Qed.
Lemma go_sparse s r : computeScalar5NAF s = Some r -> forall i k, at_ r i <> 0 -> (i < k < i + 5)%nat -> at_ r k = 0.
Proof.
  unfold computeScalar5NAF. cbv zeta. generalize (map (fun i => load8u (slice s (i * 8) ((i + 1) * 8))) (seq 0 4) ++ [0]). intro x.
  generalize 256%nat at 1. intros n e. refine (naf_loop_sparse x n 0 0 (repeat 0 256) r _ _ _ e).
  - intros j hj. exfalso. apply hj, at_rep.
  - intros. apply at_rep.
  - intros _. apply repeat_length.
Qed.
Lemma go_is_naf s r : bytes 32 s -> computeScalar5NAF s = Some r -> length r = 256%nat /\ is_naf 5 r.
Proof.
  intros hs e. destruct (computeScalar5NAF_all s hs) as (r' & c & e' & hl & hd & _). rewrite e in e'. injection e' as <-. split; [exact hl|]. split.
  - intro i. destruct (Nat.lt_ge_cases i (length r)) as [h|h].
    + rewrite Forall_forall in hd. destruct (hd (at_ r i)) as [h0|[h0 h1]]; [apply nth_In, h|left; exact h0|].
      right. split; [exact h1|]. change (2 ^ (5 - 1)) with 16. lia.
    + left. unfold at_. apply nth_overflow, h.
  - intros i k hi hik hk. apply (go_sparse s r e i k hi). lia.
Qed.

Lemma slide_unique s w r : bytes 32 s -> 2 <= w <= 7 -> le_val s < 2 ^ 255 -> length r = 256%nat -> is_naf w r -> dval 2 r = le_val s -> r = cs_slide s w.
Proof.
  intros hs hw hv hl hr he. destruct (cs_slide_spec s w hs ltac:(lia)) as (h0 & _ & _ & _ & h4).
  apply (naf_unique w); [lia|congruence|exact hr|apply slide_is_naf; assumption|]. rewrite (h4 hv). exact he.
Qed.
Lemma slide_go s : bytes 32 s -> le_val s < 2 ^ 255 -> computeScalar5NAF s = Some (cs_slide s 5).
Proof.
  intros hs hv. destruct (computeScalar5NAF_all s hs) as (r & c & e & hl & _ & hc & hc1 & he). rewrite e. f_equal.
  apply slide_unique; try assumption; [lia|apply (go_is_naf s r hs e)|].
  destruct (Z.eq_dec c 1) as [->|hn]; [|replace c with 0 in he by lia; lia].
  specialize (hc1 eq_refl). exfalso. rewrite Z.bits_above_log2 in hc1; [discriminate hc1| |].
  - apply le_val_range, hs.
  - destruct (Z.eq_dec (le_val s) 0) as [->|h0]; [cbn; lia|]. apply Z.log2_lt_pow2; [|exact hv]. pose proof (proj1 (le_val_range s (proj2 hs))). lia.
Qed.

(** for one bit the form makes no sense, and the value is wrong *)
Lemma slide_1_bad : exists s, bytes 32 s /\ le_val s = 1 /\ dval 2 (cs_slide s 1) = 2 ^ 256 - 1.
Proof.
  exists (le_bytes 32 1). split; [apply le_bytes_bytes|]. split; vm_compute; reflexivity.
Qed.
Lemma slide_lost : exists s, bytes 32 s /\ dval 2 (cs_slide s 5) = le_val s - 2 ^ 256.
Proof. exists (le_bytes 32 (17 * 2 ^ 251)). split; [apply le_bytes_bytes|]. vm_compute. reflexivity. Qed.

Lemma rest_fe : v25 c_setone = 1 /\ v25 c_setzero = 0 /\ forall x y, bnd25 33554432 16944988 x -> bnd25 67108864 33889976 y ->
  c_iseq_vartime x y = Some (Z.b2z (v25 x mod p =? v25 y mod p)) /\ c_getparity x = Some ((v25 x mod p) mod 2).
Proof.
  split; [reflexivity|]. split; [reflexivity|]. intros x y hx hy. destruct (cf_tests x y hx hy) as (_ & h2 & h3 & _).
  split; [exact h3|]. unfold c_getparity. rewrite h2. f_equal. unfold u8. apply Z.mod_small. pose proof (Z.mod_pos_bound (v25 x mod p) 2 ltac:(lia)). lia.
Qed.
Lemma rest_group : forall P Q A B s, cpoint P A -> cpoint Q B -> bytes 32 s -> le_val s < l ->
  (exists R, g_add_publicinputs P Q = Some R /\ cpoint R (Eadd A B)) /\
  (exists R, g_double_publicinputs P = Some R /\ cpoint R (Eadd A A)) /\
  (exists R, g_negate_publicinputs P = Some R /\ cpoint R (Eopp A)) /\
  (exists R, g_scalarmult_publicinputs P s = Some R /\ cpoint R (Emul (le_val s) A)) /\
  (exists R, g_scalarmult_base_publicinputs s = Some R /\ cpoint R (Emul (le_val s) EB)) /\
  (exists R, g_multiscalarmult_publicinputs [(P, s)] = Some R /\ cpoint R (Emul (le_val s) A)) /\
  (exists r, g_equals_publicinputs P Q = Some (Z.b2z r) /\ (r = true <-> In (Eadd A (Eopp B)) [E0; T2; T4; T4'])) /\
  (exists r, g_isneutral_publicinputs P = Some (Z.b2z r) /\ (r = true <-> Emul 8 A = E0)).
Proof.
  intros P Q A B s hP hQ hs hv. assert (le_val s < 2 ^ 254) as hv' by (rewrite ScalarFacts.l_lit in hv; lia).
  refine (conj (cp_add P Q A B hP hQ) (conj (cp_double P A hP) (conj (cp_negate P A hP) (conj (cp_scalarmult P A s hP hs hv')
    (conj (cp_scalarmult_base s hs hv) (conj _ (conj (cp_equals P Q A B hP hQ) (cp_isneutral P A hP)))))))).
  destruct (cp_multiscalarmult [(P, s)] [A]) as (R & e & h).
  { constructor; [|constructor]. exact (conj hP (conj hs hv')). }
  exists R. split; [exact e|]. cbn [map snd lincomb] in h. try rewrite Eadd_0_r in h. exact h.
Qed.
