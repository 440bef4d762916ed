(** The functions of /repo/cref/cref.c called with pointers, in terms of curve points, scalars and integers. *)
From Coq Require Import ZArith List Lia Bool.
From Verif Require Import Words Primes Fp Edwards GroupOrder RistrettoSpec Fe25Code Fe25Proofs FieldModel CurveModel RistrettoModel Backends ScalarCode ScalarModel
  CLang CLangFacts CrefFeCode CrefFe CrefCode CrefFacts ScalarReduce ScalarFacts CrefScalar CrefScalarProofs CrefScalarOps CrefTable CrefMul CrefMulProofs CrefMulFacts CrefScalarFacts CrefPtr CrefPtrCode CrefPtrProofs CrefPtrMul CrefPtrMulProofs
  CrefLimbs CrefLimbsProofs.
Import ListNotations.
Open Scope Z_scope.

(** ** Points *)
Lemma mp_add r x y n m A B : (r + 4 <= n)%nat -> (x + 4 <= n)%nat -> (y + 4 <= n)%nat -> cpoint (ge_at m x) A -> cpoint (ge_at m y) B ->
  exists m', m_g_add r x y n m = Some m' /\ cpoint (ge_at m' r) (Eadd A B) /\ forall a, (a < n)%nat -> (a < r)%nat \/ (r + 4 <= a)%nat -> m' a = m a.
Proof.
  intros h1 h2 h3 hA hB. destruct (cp_add _ _ _ _ hA hB) as (R & e & hR). destruct (m_g_add_ok r x y n m R h1 h2 h3 e) as (m' & e' & <- & ho).
  exists m'. exact (conj e' (conj hR ho)).
Qed.
Lemma mp_double r x n m A : (r + 4 <= n)%nat -> (x + 4 <= n)%nat -> cpoint (ge_at m x) A ->
  exists m', m_g_double r x n m = Some m' /\ cpoint (ge_at m' r) (Eadd A A) /\ forall a, (a < n)%nat -> (a < r)%nat \/ (r + 4 <= a)%nat -> m' a = m a.
Proof.
  intros h1 h2 hA. destruct (cp_double _ _ hA) as (R & e & hR). destruct (m_g_double_ok r x n m R h1 h2 e) as (m' & e' & <- & ho).
  exists m'. exact (conj e' (conj hR ho)).
Qed.
Lemma mp_negate r x n m A : r = x \/ (r + 4 <= x)%nat \/ (x + 4 <= r)%nat -> cpoint (ge_at m x) A ->
  exists m', m_g_negate r x n m = Some m' /\ cpoint (ge_at m' r) (Eopp A) /\ forall a, (a < r)%nat \/ (r + 4 <= a)%nat -> m' a = m a.
Proof.
  intros h1 hA. destruct (cp_negate _ _ hA) as (R & e & hR). destruct (m_g_negate_ok r x n m R h1 e) as (m' & e' & <- & ho).
  exists m'. exact (conj e' (conj hR ho)).
Qed.
Lemma mp_equals x y n m A B : (x + 4 <= n)%nat -> (y + 4 <= n)%nat -> cpoint (ge_at m x) A -> cpoint (ge_at m y) B ->
  exists b m', m_g_equals x y n m = Some (Z.b2z b, m') /\ (b = true <-> In (Eadd A (Eopp B)) [E0; T2; T4; T4']) /\ forall a, (a < n)%nat -> m' a = m a.
Proof.
  intros h1 h2 hA hB. destruct (cp_equals _ _ _ _ hA hB) as (b & e & hb). destruct (m_g_equals_ok x y n m _ h1 h2 e) as ([z m'] & e' & hz & ho).
  cbn [fst snd] in hz, ho. subst z. exists b, m'. refine (conj e' (conj hb _)). intros a ha. apply ho; lia.
Qed.
Lemma mp_isneutral x n m A : (x + 4 <= n)%nat -> cpoint (ge_at m x) A ->
  exists b m', m_g_isneutral x n m = Some (Z.b2z b, m') /\ (b = true <-> Emul 8 A = E0) /\ forall a, (a < n)%nat -> m' a = m a.
Proof.
  intros h1 hA. destruct (cp_isneutral _ _ hA) as (b & e & hb). destruct (m_g_isneutral_ok x n m _ h1 e) as ([z m'] & e' & hz & ho).
  cbn [fst snd] in hz, ho. subst z. exists b, m'. refine (conj e' (conj hb _)). intros a ha. apply ho; lia.
Qed.
Lemma mp_elligator b x r0 n m buf : (x + 4 <= n)%nat -> (r0 < n)%nat -> bytes 32 buf -> c_unpack buf = Some (m r0) ->
  exists m', m_g_elligator x r0 n m = Some m' /\ g_pack (ge_at m' x) = Some (pt_Bytes (ops b) (pt_SetElligator (ops b) buf)) /\
    forall a, (a < n)%nat -> (a < x)%nat \/ (x + 4 <= a)%nat -> m' a = m a.
Proof.
  intros h1 h2 hb hr. destruct (cp_elligator b buf hb) as (r & P & e1 & e2 & e3). rewrite hr in e1. apply some_inj in e1. subst r.
  destruct (m_g_elligator_ok x r0 n m P h1 h2 e2) as (m' & e' & <- & ho). exists m'. exact (conj e' (conj e3 ho)).
Qed.

Lemma mp_scalarmult r x s n m A : (r + 4 <= n)%nat -> (x + 4 <= n)%nat -> cpoint (ge_at m x) A -> bytes 32 s -> le_val s < 2 ^ 254 ->
  exists m', m_scalarmult r x s n m = Some m' /\ cpoint (ge_at m' r) (Emul (le_val s) A) /\
    forall a, (a < n)%nat -> (a < r)%nat \/ (r + 4 <= a)%nat -> m' a = m a.
Proof.
  intros h1 h2 hA hs hv. destruct (cp_scalarmult _ _ s hA hs hv) as (R & e & hR). destruct (m_scalarmult_ok r x s n m R h1 h2 e) as (m' & e' & h & ho).
  exists m'. rewrite h. exact (conj e' (conj hR ho)).
Qed.
Lemma mp_scalarmult_base r s n m : (r + 4 <= n)%nat -> bytes 32 s -> le_val s < l ->
  exists m', m_scalarmult_base r s n m = Some m' /\ cpoint (ge_at m' r) (Emul (le_val s) EB) /\
    forall a, (a < n)%nat -> (a < r)%nat \/ (r + 4 <= a)%nat -> m' a = m a.
Proof.
  intros h1 hs hv. destruct (cp_scalarmult_base s hs hv) as (R & e & hR). destruct (m_scalarmult_base_ok r s n m R h1 e) as (m' & e' & h & ho).
  exists m'. rewrite h. exact (conj e' (conj hR ho)).
Qed.

Lemma pairs_all (m : cmem) x : forall (ss : list (list Z)) As, length As = length ss ->
  (forall i, (i < length ss)%nat -> cpoint (ge_at m (x + 4 * i)) (nth i As E0) /\ bytes 32 (nth i ss []) /\ le_val (nth i ss []) < 2 ^ 254) ->
  Forall2 (fun y B => cpoint (fst y) B /\ bytes 32 (snd y) /\ le_val (snd y) < 2 ^ 254) (pairs m x ss) As.
Proof.
  intros ss As hl h. unfold pairs. assert (e : As = map (fun i => nth i As E0) (seq 0 (length ss))).
  { rewrite <- hl. clear. induction As as [|a As ih] using rev_ind; [reflexivity|]. rewrite app_length. cbn [length]. rewrite PeanoNat.Nat.add_1_r, seq_S, map_app.
    f_equal.
    - rewrite ih at 1. apply map_ext_in. intros i hi. apply in_seq in hi. rewrite app_nth1 by lia. reflexivity.
    - cbn [map Nat.add]. rewrite app_nth2, PeanoNat.Nat.sub_diag by lia. reflexivity. }
  rewrite e. assert (g : forall k, (forall i, In i k -> (i < length ss)%nat) ->
    Forall2 (fun y B => cpoint (fst y) B /\ bytes 32 (snd y) /\ le_val (snd y) < 2 ^ 254) (map (fun i => (ge_at m (x + 4 * i), nth i ss [])) k) (map (fun i => nth i As E0) k)).
  { induction k as [|i k ih]; intros hk; [constructor|]. cbn [map]. constructor; [cbn [fst snd]; apply h; apply hk; left; reflexivity|].
    apply ih. intros j hj. apply hk. right. exact hj. }
  apply g. intros i hi. apply in_seq in hi. lia.
Qed.
Lemma pairs_snd m x ss : map (fun y => le_val (snd y)) (pairs m x ss) = map le_val ss.
Proof.
  unfold pairs. rewrite map_map. cbn [snd]. induction ss as [|s ss ih] using rev_ind; [reflexivity|].
  rewrite app_length. cbn [length]. rewrite PeanoNat.Nat.add_1_r, seq_S, !map_app. cbn [map Nat.add]. rewrite app_nth2, PeanoNat.Nat.sub_diag by lia. cbn [nth].
  f_equal. rewrite <- ih. apply map_ext_in. intros i hi. apply in_seq in hi. rewrite app_nth1 by lia. reflexivity.
Qed.
Lemma mp_multiscalarmult r x ss n m As : (r + 4 <= n)%nat -> (x + 4 * length ss <= n)%nat -> (r + 4 <= x)%nat \/ (x + 4 * length ss <= r)%nat ->
  length As = length ss ->
  (forall i, (i < length ss)%nat -> cpoint (ge_at m (x + 4 * i)) (nth i As E0) /\ bytes 32 (nth i ss []) /\ le_val (nth i ss []) < 2 ^ 254) ->
  exists m', m_multiscalarmult r x ss n m = Some m' /\ cpoint (ge_at m' r) (lincomb (map le_val ss) As) /\
    forall a, (a < n)%nat -> (a < r)%nat \/ (r + 4 <= a)%nat -> m' a = m a.
Proof.
  intros h1 h2 h3 hl h. destruct (cp_multiscalarmult _ _ (pairs_all m x ss As hl h)) as (R & e & hR). rewrite pairs_snd in hR.
  destruct (m_multiscalarmult_ok r x ss n m R h1 h2 h3 e) as (m' & e' & h' & ho). exists m'. rewrite h'. exact (conj e' (conj hR ho)).
Qed.

(** with the result over the first point: it is overwritten before it is read *)
Lemma mp_multi_overlap x s n m : (x + 4 <= n)%nat -> bytes 32 s -> le_val s < 2 ^ 254 ->
  exists m', m_multiscalarmult x x [s] n m = Some m' /\ cpoint (ge_at m' x) E0.
Proof.
  intros h1 hs hv. unfold m_multiscalarmult. cbn [length for_upo]. unfold m_multi_step. cbv zeta. cbn [nth]. replace (x + 4 * 0)%nat with x by lia.
  assert (hz : cpoint (ge_at (st_ge m x g_neutral) x) E0) by (rewrite ge_at_st; exact (proj2 cp_base)).
  destruct (mp_scalarmult n x s (n + 4) (st_ge m x g_neutral) E0) as (m1 & e1 & hR & ho); [lia|lia|exact hz|exact hs|exact hv|].
  rewrite Emul_E0 in hR. rewrite e1.
  assert (hx : cpoint (ge_at m1 x) E0). { rewrite (ge_at_only _ _ _ _ _ x ho) by lia. exact hz. }
  destruct (mp_add x x n (n + 4) m1 E0 E0) as (m2 & e2 & h2 & _); [lia|lia|lia|exact hx|exact hR|].
  exists m2. split; [exact e2|]. rewrite Eadd_0_l in h2. exact h2.
Qed.
Lemma mp_multi_bad : exists x s n m m' A, cpoint (ge_at m x) EB /\ bytes 32 s /\ le_val s = 1 /\ (x + 4 <= n)%nat /\
  m_multiscalarmult x x [s] n m = Some m' /\ cpoint (ge_at m' x) A /\ ~ In (Eadd A (Eopp EB)) [E0; T2; T4; T4'].
Proof.
  set (s := 1 :: repeat 0 31). assert (hs : bytes 32 s).
  { refine (conj eq_refl _). cbv [s repeat]. repeat (apply Forall_cons; [unfold is_byte; lia|]). apply Forall_nil. }
  assert (hv : le_val s = 1) by (vm_compute; reflexivity).
  set (m := st_ge (fun _ => c_zero) 0 g_base).
  destruct (mp_multi_overlap 0 s 4 m (le_n 4) hs) as (m' & e & h); [rewrite hv; reflexivity|].
  exists 0%nat, s, 4%nat, m, m', E0. split; [unfold m; rewrite ge_at_st; exact (proj1 cp_base)|].
  split; [exact hs|]. split; [exact hv|]. split; [lia|]. split; [exact e|]. split; [exact h|].
  intro hr. apply Points51.Req_torsion in hr. rewrite <- (Emul_0 EB) in hr at 1. rewrite <- (Emul_1 EB) in hr at 2. apply R_order_B in hr.
  apply Z.mod_divide in hr; [|rewrite l_lit; discriminate]. revert hr. rewrite l_lit. vm_compute. discriminate.
Qed.

(** ** Field elements *)
Lemma mf_triple_overlap : exists x n m m', (x < n)%nat /\ m x = c_one /\ m_c_triple x x n m = Some m' /\ v25 (m' x) = 4.
Proof. exists 0%nat, 1%nat, (fun _ => c_one). eexists. split; [lia|]. split; [reflexivity|]. split; [reflexivity|]. vm_compute. reflexivity. Qed.

(** ** Scalars *)
Lemma store_loop (f : lmem -> nat -> Z) r (k : list nat) : NoDup k -> (forall i, In i k -> (i < 32)%nat) ->
  (forall m m' i, (i < 32)%nat -> (forall a, (forall j, (j < 32)%nat -> j <> i -> a <> (32 * r + j)%nat) -> m a = m' a) -> f m i = f m' i) ->
  forall m, (forall i, In i k -> fold_left (fun m i => lst m (32 * r + i) (f m i)) k m (32 * r + i)%nat = f m i) /\
  (forall a, (forall i, In i k -> a <> (32 * r + i)%nat) -> fold_left (fun m i => lst m (32 * r + i) (f m i)) k m a = m a).
Proof.
  intros hn hb hf. induction k as [|i k ih]; intros m; cbn [fold_left].
  - split; [intros i []|reflexivity].
  - inversion hn as [|? ? hi hn']. subst. destruct (ih hn' (fun j hj => hb j (or_intror hj)) (lst m (32 * r + i) (f m i))) as [h1 h2]. pose proof (hb i (or_introl eq_refl)) as hi32. split.
    + intros j [->|hj].
      * rewrite h2. { unfold lst. rewrite PeanoNat.Nat.eqb_refl. reflexivity. }
        intros c hc e. assert (j = c) by lia. subst c. exact (hi hc).
      * rewrite h1 by exact hj. apply hf; [apply hb; right; exact hj|]. intros a ha. unfold lst. destruct (Nat.eqb a (32 * r + i)) eqn:e; [|reflexivity].
        apply PeanoNat.Nat.eqb_eq in e. exfalso. apply (ha i); [exact hi32| |exact e]. intros ->. exact (hi hj).
    + intros a ha. rewrite h2 by (intros c hc; apply ha; right; exact hc). unfold lst. destruct (Nat.eqb a (32 * r + i)) eqn:e; [|reflexivity].
      apply PeanoNat.Nat.eqb_eq in e. exfalso. apply (ha i); [left; reflexivity|exact e].
Qed.

Lemma at_sc m a i : (i < 32)%nat -> at_ (sc_at m a) i = m (32 * a + i)%nat.
Proof.
  intros h. unfold at_, sc_at. rewrite (nth_indep _ 0 (m (32 * a + 0)%nat)) by (rewrite map_length, seq_length; exact h).
  rewrite (map_nth (fun i => m (32 * a + i)%nat)). rewrite seq_nth by exact h. reflexivity.
Qed.

Lemma map_at s : length s = 32%nat -> map (at_ s) (seq 0 32) = s.
Proof.
  intros h. apply (nth_ext _ _ 0 0); [rewrite map_length, seq_length; congruence|]. intros i hi. rewrite map_length, seq_length in hi.
  rewrite (nth_indep _ 0 (at_ s 0)) by (rewrite map_length, seq_length; exact hi). rewrite (map_nth (at_ s)), seq_nth by exact hi. reflexivity.
Qed.

Local Strategy 3000 [reduce_add_sub for_up sub_step carry_step].
Lemma cs_add_unf x y : cs_add x y = reduce_add_sub (for_up 31 carry_step (map (fun i => u32 (at_ x i + at_ y i)) (seq 0 32))).
Proof. unfold cs_add, LetIn. reflexivity. Qed.

Lemma ms_add r x y m : csc (sc_at m x) -> csc (sc_at m y) ->
  sc_at (l_scalar_add r x y m) r = cs_add (sc_at m x) (sc_at m y) /\
  forall a, (a < 32 * r)%nat \/ (32 * r + 32 <= a)%nat -> l_scalar_add r x y m a = m a.
Proof.
  intros hx hy. unfold l_scalar_add. cbv zeta.
  destruct (store_loop (fun m i => u32 (m (32 * x + i)%nat + m (32 * y + i)%nat)) r (seq 0 32) (seq_NoDup 32 0)) with (m := m) as [h1 h2].
  { intros i hi. apply in_seq in hi. lia. }
  { intros m1 m2 i h32 h. rewrite !h; [reflexivity|..]; intros j hj hn; lia. }
  set (m1 := fold_left _ (seq 0 32) m) in *.
  assert (e1 : sc_at m1 r = map (fun i => u32 (at_ (sc_at m x) i + at_ (sc_at m y) i)) (seq 0 32)).
  { unfold sc_at at 1. apply map_ext_in. intros i hi. rewrite h1 by exact hi. apply in_seq in hi. rewrite !at_sc by lia. reflexivity. }
  rewrite e1. rewrite <- cs_add_unf.
  destruct (cs_add_ok _ _ hx hy) as [hc _]. set (v := cs_add (sc_at m x) (sc_at m y)) in *. clearbody v.
  destruct (store_loop (fun _ i => at_ v i) r (seq 0 32) (seq_NoDup 32 0)) with (m := m1) as [h3 h4].
  { intros i hi. apply in_seq in hi. lia. }
  { reflexivity. }
  split.
  - unfold sc_at. transitivity (map (at_ v) (seq 0 32)).
    + apply map_ext_in. intros i hi. apply h3. exact hi.
    + apply map_at. exact (proj1 (proj1 hc)).
  - intros a ha. rewrite h4, h2; [reflexivity|..]; intros i hi; apply in_seq in hi; lia.
Qed.

Lemma ms_scalar_add r x y m : csc (sc_at m x) -> csc (sc_at m y) ->
  csc (sc_at (l_scalar_add r x y m) r) /\ le_val (sc_at (l_scalar_add r x y m) r) = (le_val (sc_at m x) + le_val (sc_at m y)) mod l /\
  forall a, a <> r -> sc_at (l_scalar_add r x y m) a = sc_at m a.
Proof.
  intros hx hy. destruct (ms_add r x y m hx hy) as [e ho]. destruct (cs_add_ok _ _ hx hy) as [h1 h2]. rewrite e. refine (conj h1 (conj h2 _)).
  intros a ha. unfold sc_at. apply map_ext_in. intros i hi. apply in_seq in hi. apply ho. lia.
Qed.

Lemma ms_case : exists m, csc (sc_at m 0) /\ le_val (sc_at m 0) = 5 /\ le_val (sc_at (l_scalar_add 0 0 0 m) 0) = 10.
Proof.
  exists (fun a => if Nat.eqb a 0 then 5 else 0). set (m := fun a => if Nat.eqb a 0 then 5 else 0).
  assert (h : csc (sc_at m 0)).
  { split; [|rewrite l_lit; vm_compute; reflexivity]. refine (conj eq_refl _). cbv [sc_at m map seq Nat.eqb Nat.add Nat.mul].
    repeat (apply Forall_cons; [unfold is_byte; lia|]). apply Forall_nil. }
  assert (h5 : le_val (sc_at m 0) = 5) by (vm_compute; reflexivity).
  refine (conj h (conj h5 _)). destruct (ms_scalar_add 0 0 0 m h h) as (_ & e & _). rewrite e, h5, l_lit. reflexivity.
Qed.

Lemma mp_case : exists m s, cpoint (ge_at m 0) EB /\ bytes 32 s /\ le_val s = 2 /\
  (exists m', m_g_add 0 0 0 4 m = Some m' /\ cpoint (ge_at m' 0) (Eadd EB EB)) /\
  (exists m', m_scalarmult 0 0 s 4 m = Some m' /\ cpoint (ge_at m' 0) (Emul 2 EB)) /\
  (exists m', m_g_negate 0 0 4 m = Some m' /\ cpoint (ge_at m' 0) (Eopp EB)).
Proof.
  set (s := 2 :: repeat 0 31). set (m := st_ge (fun _ => c_zero) 0 g_base). exists m, s.
  assert (hm : cpoint (ge_at m 0) EB) by (unfold m; rewrite ge_at_st; exact (proj1 cp_base)). clearbody m.
  assert (hs : bytes 32 s).
  { refine (conj eq_refl _). cbv [s repeat]. repeat (apply Forall_cons; [unfold is_byte; lia|]). apply Forall_nil. }
  assert (hv : le_val s = 2) by (vm_compute; reflexivity). clearbody s.
  refine (conj hm (conj hs (conj hv (conj _ (conj _ _))))).
  - destruct (mp_add 0 0 0 4 m EB EB (le_n 4) (le_n 4) (le_n 4) hm hm) as (m' & e & h & _). exists m'. exact (conj e h).
  - destruct (mp_scalarmult 0 0 s 4 m EB (le_n 4) (le_n 4) hm hs) as (m' & e & h & _); [rewrite hv; reflexivity|]. rewrite hv in h. exists m'. exact (conj e h).
  - destruct (mp_negate 0 0 4 m EB (or_introl eq_refl) hm) as (m' & e & h & _). exists m'. exact (conj e h).
Qed.

(** ** Field operations *)
Lemma cells_split m m' h v : (forall a, cells m' a = st (cells m) h v a) -> cells m' h = v /\ forall a, a <> h -> cells m' a = cells m a.
Proof. intros hs. split; [rewrite hs; apply st_eq|]. intros a ha. rewrite hs. unfold st. apply PeanoNat.Nat.eqb_neq in ha. rewrite ha. reflexivity. Qed.

Lemma lf_mul h f g m v : c_mul (cells m f) (cells m g) = Some v ->
  exists m', lcall2 p_mul h f g m = Some m' /\ cells m' h = v /\ forall a, a <> h -> cells m' a = cells m a.
Proof. intros e. destruct (l_mul h f g m v e) as (m' & e' & hs). exists m'. exact (conj e' (cells_split _ _ _ _ hs)). Qed.
Lemma lf_add h f g m v : c_add (cells m f) (cells m g) = Some v ->
  exists m', lcall2 p_add h f g m = Some m' /\ cells m' h = v /\ forall a, a <> h -> cells m' a = cells m a.
Proof. intros e. destruct (l_add h f g m v e) as (m' & e' & hs). exists m'. exact (conj e' (cells_split _ _ _ _ hs)). Qed.
Lemma lf_sub h f g m v : c_sub (cells m f) (cells m g) = Some v ->
  exists m', lcall2 p_sub h f g m = Some m' /\ cells m' h = v /\ forall a, a <> h -> cells m' a = cells m a.
Proof. intros e. destruct (l_sub h f g m v e) as (m' & e' & hs). exists m'. exact (conj e' (cells_split _ _ _ _ hs)). Qed.
Lemma lf_neg h f m v : c_neg (cells m f) = Some v ->
  exists m', lcall1 p_neg h f m = Some m' /\ cells m' h = v /\ forall a, a <> h -> cells m' a = cells m a.
Proof. intros e. destruct (l_neg h f m v e) as (m' & e' & hs). exists m'. exact (conj e' (cells_split _ _ _ _ hs)). Qed.
Lemma lf_square h f m v : c_square (cells m f) = Some v ->
  exists m', lcall1 p_square h f m = Some m' /\ cells m' h = v /\ forall a, a <> h -> cells m' a = cells m a.
Proof. intros e. destruct (l_square h f m v e) as (m' & e' & hs). exists m'. exact (conj e' (cells_split _ _ _ _ hs)). Qed.
Lemma lf_square_double h f m v : c_square_double (cells m f) = Some v ->
  exists m', lcall1 p_square_double h f m = Some m' /\ cells m' h = v /\ forall a, a <> h -> cells m' a = cells m a.
Proof. intros e. destruct (l_square_double h f m v e) as (m' & e' & hs). exists m'. exact (conj e' (cells_split _ _ _ _ hs)). Qed.
Lemma lf_cmov r x b m : cells (l_cmov r x b m) r = c_cmov (cells m r) (cells m x) b /\
  forall a, a <> r -> cells (l_cmov r x b m) a = cells m a.
Proof. apply cells_split. intro a. apply l_cmov_ok. Qed.

Lemma only1 n r m m' : only n r 1 m m' -> forall a, (a < n)%nat -> a <> r -> m' a = m a.
Proof. intros h a ha hn. apply h; lia. Qed.
Lemma mf_calls r x n (m : cmem) : (r < n)%nat -> (x < n)%nat ->
  let computes := fun (f : fe25 -> option fe25) (run : nat -> nat -> nat -> cmem -> option cmem) => forall w, f (m x) = Some w ->
    exists m', run r x n m = Some m' /\ m' r = w /\ forall a, (a < n)%nat -> a <> r -> m' a = m a in
  computes c_double m_c_double /\ computes c_invert m_c_invert /\ computes c_pow2523 m_c_pow2523 /\ computes c_invsqrt m_c_invsqrt /\
  computes c_sqrt m_c_sqrt /\ computes c_abs m_c_abs /\ (r <> x -> computes c_triple m_c_triple).
Proof.
  intros hr hx computes. refine (conj _ (conj _ (conj _ (conj _ (conj _ (conj _ _)))))); unfold computes; clear computes.
  - intros w e. destruct (m_c_double_ok r x n m w hr hx e) as (m' & e' & h & ho). exists m'. exact (conj e' (conj h (only1 _ _ _ _ ho))).
  - intros w e. destruct (m_c_invert_ok r x n m w hr hx e) as (m' & e' & h & ho). exists m'. exact (conj e' (conj h (only1 _ _ _ _ ho))).
  - intros w e. destruct (m_c_pow2523_ok r x n m w hr hx e) as (m' & e' & h & ho). exists m'. exact (conj e' (conj h (only1 _ _ _ _ ho))).
  - intros w e. destruct (m_c_invsqrt_ok r x n m w hr hx e) as (m' & e' & h & ho). exists m'. exact (conj e' (conj h (only1 _ _ _ _ ho))).
  - intros w e. destruct (m_c_sqrt_ok r x n m w hr hx e) as (m' & e' & h & ho). exists m'. exact (conj e' (conj h (only1 _ _ _ _ ho))).
  - intros w e. destruct (m_c_abs_ok r x n m w hr hx e) as (m' & e' & h & ho). exists m'. exact (conj e' (conj h (only1 _ _ _ _ ho))).
  - intros hd w e. destruct (m_c_triple_ok r x n m w hr hx hd e) as (m' & e' & h & ho). exists m'. exact (conj e' (conj h (only1 _ _ _ _ ho))).
Qed.
Lemma mf_calls_int r x n (m : cmem) : (r < n)%nat -> (x < n)%nat ->
  let computes := fun (f : fe25 -> option (Z * fe25)) (run : nat -> nat -> nat -> cmem -> option (Z * cmem)) => forall b w, f (m x) = Some (b, w) ->
    exists m', run r x n m = Some (b, m') /\ m' r = w /\ forall a, (a < n)%nat -> a <> r -> m' a = m a in
  computes c_invsqrti m_c_invsqrti /\ computes c_sqrti m_c_sqrti.
Proof.
  intros hr hx computes. refine (conj _ _); unfold computes; clear computes.
  - intros b w e. destruct (m_c_invsqrti_ok r x n m b w hr hx e) as ([c m'] & e' & hb & h & ho). cbn [fst snd] in *. subst c. exists m'. exact (conj e' (conj h (only1 _ _ _ _ ho))).
  - intros b w e. destruct (m_c_sqrti_ok r x n m b w hr hx e) as ([c m'] & e' & hb & h & ho). cbn [fst snd] in *. subst c. exists m'. exact (conj e' (conj h (only1 _ _ _ _ ho))).
Qed.
