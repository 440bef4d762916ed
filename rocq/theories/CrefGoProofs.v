(** Every sequence of calls of the package cref behaves like the ideal machine of CrefGoSpec.v. *)
From Coq Require Import ZArith Znumtheory List Lia Bool.
From Verif Require Import Words Primes Fp Edwards GroupOrder RistrettoSpec Fe25Code Fe25Proofs Fe25Laws FieldModel CurveModel RistrettoModel Backends
  FieldLaws CurveProofs EncodeProofs RistrettoFacts ScalarCode ScalarModel ScalarReduce ScalarFacts ElligatorSpec ElligatorMath LizardProofs CLang CrefFeCode CrefFe CrefCode CrefFeProofs CrefGroupProofs CLangFacts CrefFacts CLangFacts
  CrefScalar CrefScalarOps CrefScalarFacts CrefTable CrefMul CrefMulFacts CrefPtr CrefPtrCode CrefPtrProofs CrefPtrMul CrefPtrMulProofs CrefPtrFacts ApiModel ApiProofs BijFacts
  CrefGo CrefGoSpec.
From Verif Require Points51.
Import ListNotations.
Open Scope Z_scope.

(** ** Statements *)
(** [m] is the exponent of the curve point with extended coordinates (x : y : z : t) *)
Definition has_coords (x y z t m : Z) : Prop := exists A,
  (of_Z z <> F0 /\ of_Z x = (ex A * of_Z z)%F /\ of_Z y = (ey A * of_Z z)%F /\ of_Z t = (ex A * ey A * of_Z z)%F) /\
  0 <= m < l /\ In (Eadd A (Eopp (Emul m EB))) [E0; T2; T4; T4'].

(** [enc m] is what every build of the Go code gives for [m] times the base point, [dec] its inverse, [ell] what SetElligator does *)
Definition go_functions (enc : Z -> list Z) (dec : list Z -> option Z) (ell : list Z -> Z) : Prop :=
  (forall b s, reduced s -> enc (scv s) = pt_Bytes (ops b) (pt_ScalarMultBase (ops b) (baseTable b) s)) /\
  (forall buf m, dec buf = Some m <-> 0 <= m < l /\ enc m = buf) /\
  (forall b buf, bytes 32 buf -> 0 <= ell buf < l /\ enc (ell buf) = pt_Bytes (ops b) (pt_SetElligator (ops b) buf)).

(** ** Proofs *)
Lemma ex_scalar m : 0 <= m < l -> exists s, reduced s /\ scv s = m.
Proof.
  intro h. destruct (setBigInt_spec m) as [hs es]. exists (sc_setBigInt m). split; [exact hs|]. rewrite es. apply Z.mod_small. exact h.
Qed.
Lemma cge_even_dlog A : even A -> exists m, dlog A m.
Proof. intro h. destruct (R_cyclic A h) as (m & hm). exists m. exact hm. Qed.

Lemma rel_zero : rel25 1 c_zero (of_Z 0).
Proof. split; [vm_compute; intuition discriminate | apply f_equal; vm_compute; reflexivity]. Qed.
Lemma pair_tf {X : Type} (u : bool * X) a b : u = (true, a) -> u = (false, b) -> False.
Proof. intros -> h. discriminate h. Qed.
Lemma some2 {X Y : Type} (a c : X) (b d : Y) : Some (a, b) = Some (c, d) -> c = a /\ d = b.
Proof. intro h. injection h as -> ->. split; reflexivity. Qed.

Lemma fval_small v : 0 <= v < p -> fval (of_Z v) = v.
Proof. intro h. rewrite fval_of_Z. apply Z.mod_small. exact h. Qed.
Lemma fe_of_le v : 0 <= v < p -> fe_of (le_bytes 32 v) = of_Z v.
Proof. intro h. pose proof (fval_le_bytes (of_Z v)) as e. rewrite (fval_small v h) in e. exact e. Qed.
Lemma public_eq b s : pt_Bytes (ops b) (pt_ScalarMultBase (ops b) (baseTable b) s) = public b s.
Proof. unfold public. reflexivity. Qed.

Section Run.
Context (enc : Z -> list Z) (dec : list Z -> option Z) (ell : list Z -> Z) (coords : Z -> Z -> Z -> Z -> option Z).
Context (HG : go_functions enc dec ell) (HC : forall x y z t m, coords x y z t = Some m -> has_coords x y z t m).
Context (np nf : nat).
Local Notation kstep := (kstep enc dec ell coords).
Local Notation krun := (krun enc dec ell coords).
Local Notation kval := (k_val coords).
Local Notation addr := (fe_addr np).

Lemma enc_inj m n : 0 <= m < l -> 0 <= n < l -> enc m = enc n -> m = n.
Proof.
  intros h g e. destruct (proj1 (proj2 HG) (enc n) m) as [_ h1]. destruct (proj1 (proj2 HG) (enc n) n) as [_ g1].
  rewrite (h1 (conj h e)) in g1. specialize (g1 (conj g eq_refl)). congruence.
Qed.

Lemma pack_enc P A m : cpoint P A -> dlog A m -> g_pack P = Some (enc m).
Proof.
  intros h d. pose proof (dlog_even _ _ d) as he. destruct (ex_scalar m (proj1 d)) as (s & hs & es).
  pose proof (mult_point PureGo64 s hs) as hp. destruct (cp_pack PureGo64 P _ A _ h he hp) as (o & -> & _ & i).
  f_equal. rewrite <- es, (proj1 HG PureGo64 s hs). apply i. rewrite <- Points51.Req_torsion.
  apply (dlog_inj A (Emul (scv s) EBc) m m d); [|reflexivity]. rewrite es. exact (dlog_base m (proj1 d)).
Qed.

Definition corr (s : cstate) (k : kstate) : Prop :=
  (forall f v, fe_typed np nf f -> k_fe k f = Some v -> rel25 1 (c_mem s (addr f)) (of_Z v) /\ 0 <= v < p) /\
  (forall g m, (g < np)%nat -> k_pt k g = Some m -> exists A, cpoint (ge_at (c_mem s) (ge_addr g)) A /\ dlog A m) /\
  (forall i, csc (c_scs s i) /\ le_val (c_scs s i) = k_sc k i).

Lemma addr_free f : fe_typed np nf f -> (addr f < free np nf)%nat.
Proof. destruct f; unfold free; cbn [fe_typed fe_addr]; lia. Qed.
Lemma ge_free g : (g < np)%nat -> (ge_addr g + 4 <= free np nf)%nat.
Proof. unfold ge_addr, free. lia. Qed.
Lemma fptr_eqb_eq a b : fptr_eqb a b = true <-> a = b.
Proof.
  destruct a, b; cbn [fptr_eqb]; try (split; intro h; discriminate h);
  rewrite PeanoNat.Nat.eqb_eq; (split; intro h; [rewrite h; reflexivity | inversion h; reflexivity]).
Qed.
Lemma addr_inj a b : fe_typed np nf a -> fe_typed np nf b -> addr a = addr b -> a = b.
Proof. destruct a, b; cbn [fe_typed fe_addr]; intros; try (f_equal; lia); exfalso; lia. Qed.
Lemma addr_owner f : fe_typed np nf f -> match owner f with
  | Some g => (g < np)%nat /\ (ge_addr g <= addr f < ge_addr g + 4)%nat | None => (4 * np <= addr f)%nat end.
Proof. destruct f; cbn [fe_typed fe_addr owner]; unfold ge_addr; lia. Qed.

Lemma ge_at_ext (m m' : cmem) a : (forall i, (a <= i < a + 4)%nat -> m' i = m i) -> ge_at m' a = ge_at m a.
Proof. intro h. unfold ge_at. rewrite !h by lia. reflexivity. Qed.

Lemma val_ok s k g m : corr s k -> (g < np)%nat -> kval k g = Some m -> exists A, cpoint (ge_at (c_mem s) (ge_addr g)) A /\ dlog A m.
Proof.
  intros (hf & hp & _) hg. unfold k_val. destruct (k_pt k g) as [m'|] eqn:E.
  - intro e. assert (m' = m) by congruence. subst m'. exact (hp g m hg E).
  - destruct (k_fe k (FX g)) as [x|] eqn:Ex; [|discriminate]. destruct (k_fe k (FY g)) as [y|] eqn:Ey; [|discriminate].
    destruct (k_fe k (FZ g)) as [z|] eqn:Ez; [|discriminate]. destruct (k_fe k (FT g)) as [t|] eqn:Et; [|discriminate].
    intro e. destruct (HC x y z t m e) as (A & (h0 & h1 & h2 & h3) & hm & hA). exists A. split; [|split; [exact hm | apply Points51.Req_torsion; exact hA]].
    destruct (hf (FX g) x hg Ex) as [[bx ex'] _]. destruct (hf (FY g) y hg Ey) as [[by' ey'] _].
    destruct (hf (FZ g) z hg Ez) as [[bz ez] _]. destruct (hf (FT g) t hg Et) as [[bt et] _].
    cbn [fe_addr] in bx, ex', by', ey', bz, ez, bt, et. unfold cpoint, ge_at, ge_addr. rewrite ex', ey', ez, et.
    refine (conj (conj _ (conj by' (conj bz bt))) (conj h0 (conj h1 (conj h2 h3)))). apply (bnd25_le (1 * UE) (1 * UO)); [unfold UE; lia | unfold UO; lia | exact bx].
Qed.

(** a call that computes the point [g] *)
Lemma corr_kP s k m' g A n : corr s k -> (g < np)%nat -> cpoint (ge_at m' (ge_addr g)) A -> dlog A n ->
  (forall a, (a < free np nf)%nat -> (a < ge_addr g)%nat \/ (ge_addr g + 4 <= a)%nat -> m' a = c_mem s a) -> corr (mkCstate m' (c_scs s)) (kP k g n).
Proof.
  intros (hf & hp & hs) hg hA hd ho. split; [|split; [|exact hs]].
  - intros f v ht hv. cbn [kP k_fe] in hv. unfold set_coords in hv. pose proof (addr_owner f ht) as ha.
    assert (he : k_fe k f = Some v /\ ((addr f < ge_addr g)%nat \/ (ge_addr g + 4 <= addr f)%nat)).
    { destruct (owner f) as [h|]; [|split; [exact hv|unfold ge_addr; lia]]. destruct (Nat.eqb h g) eqn:E; [discriminate|].
      apply PeanoNat.Nat.eqb_neq in E. split; [exact hv|unfold ge_addr in *; lia]. }
    cbn [c_mem]. rewrite ho; [apply hf; [exact ht|apply he] | apply addr_free; exact ht | apply he].
  - intros h m hh hm. cbn [kP k_pt] in hm. unfold set_ in hm. cbn [c_mem]. destruct (Nat.eqb h g) eqn:E.
    + apply PeanoNat.Nat.eqb_eq in E. subst h. assert (n = m) by congruence. subst n. exists A. exact (conj hA hd).
    + apply PeanoNat.Nat.eqb_neq in E. destruct (hp h m hh hm) as (B & hB & db). exists B. split; [|exact db].
      rewrite (ge_at_ext (c_mem s) m'); [exact hB|]. intros i hi. apply ho; unfold free, ge_addr in *; lia.
Qed.

Lemma rel_num buf r : rel25 1 r (of_Z (le_val buf mod 2 ^ 255)) -> rel25 1 r (of_Z (num buf)).
Proof. intro h. unfold num. rewrite Fp.of_Z_mod. exact h. Qed.
Lemma num_range buf : 0 <= num buf < p.
Proof. apply Z.mod_pos_bound. exact p_pos. Qed.

Lemma corr_unpack s k f buf v : corr s k -> fe_typed np nf f -> rel25 1 v (of_Z (le_val buf mod 2 ^ 255)) ->
  corr (mkCstate (st (c_mem s) (addr f) v) (c_scs s))
    (mkKstate (fun f' => if fptr_eqb f' f then Some (num buf) else k_fe k f') (match owner f with Some g => set_ (k_pt k) g None | None => k_pt k end) (k_sc k)).
Proof.
  intros (hf & hp & hs) ht hv. split; [|split; [|exact hs]].
  - intros f' v' ht' e. cbn [k_fe] in e. cbn [c_mem]. destruct (fptr_eqb f' f) eqn:E.
    + apply fptr_eqb_eq in E. subst f'. assert (v' = num buf) by congruence. subst v'. rewrite st_eq. exact (conj (rel_num buf v hv) (num_range buf)).
    + rewrite st_ne; [exact (hf f' v' ht' e)|]. intro ea. apply addr_inj in ea; [|exact ht'|exact ht]. apply fptr_eqb_eq in ea. congruence.
  - intros g m hg e. cbn [k_pt] in e. cbn [c_mem]. pose proof (addr_owner f ht) as ha.
    assert (h : k_pt k g = Some m /\ (addr f < ge_addr g \/ ge_addr g + 4 <= addr f)%nat).
    { destruct (owner f) as [h|]; [|split; [exact e|unfold ge_addr; lia]]. unfold set_ in e. destruct (Nat.eqb g h) eqn:E; [discriminate|].
      apply PeanoNat.Nat.eqb_neq in E. split; [exact e|unfold ge_addr in *; lia]. }
    rewrite (ge_at_ext (c_mem s)); [apply hp; [exact hg|apply h]|]. intros i hi. apply st_ne. lia.
Qed.

Lemma num_bytes buf : bytes 32 buf -> le_bytes 32 (num buf) = canonical_bytes buf.
Proof. reflexivity. Qed.

Lemma st_ge_at m a P : ge_at (st_ge m a P) a = P.
Proof.
  destruct P as [X Y Zc T]. unfold st_ge, ge_at. rewrite !st_eq. rewrite !(st_ne _ (a + 3)) by lia. rewrite !st_eq.
  rewrite !(st_ne _ (a + 2)) by lia. rewrite !st_eq. rewrite !(st_ne _ (a + 1)) by lia. rewrite !st_eq. reflexivity.
Qed.
Lemma st_ge_other m a P i : (i < a)%nat \/ (a + 4 <= i)%nat -> st_ge m a P i = m i.
Proof. intro h. destruct P as [X Y Zc T]. unfold st_ge. rewrite !st_ne by lia. reflexivity. Qed.

Lemma dec_enc m buf : 0 <= m < l -> enc m = buf -> dec buf = Some m.
Proof. intros h e. exact (proj2 (proj1 (proj2 HG) buf m) (conj h e)). Qed.
Lemma dec_accepted buf m : dec buf = Some m -> exists R, pt_SetBytes (ops PureGo64) buf = (true, R).
Proof.
  intro E. destruct (proj1 (proj1 (proj2 HG) buf m) E) as [hm em]. destruct (ex_scalar m hm) as (t & ht & et). rewrite <- et in em.
  rewrite (proj1 HG PureGo64 t ht) in em. destruct (j_accepted PureGo64 PureGo64 t ht) as (R & C & e1 & _). exists R.
  rewrite <- public_eq, em in e1. exact e1.
Qed.
Lemma unpack_val buf : bytes 32 buf ->
  (exists P A m, g_unpack buf = Some (0, P) /\ cpoint P A /\ dlog A m /\ dec (canonical_bytes buf) = Some m) \/
  (g_unpack buf = Some (-1, Ge c_zero c_zero c_zero c_zero) /\ dec (canonical_bytes buf) = None).
Proof.
  intro hb. destruct (cp_unpack PureGo64 buf hb) as [(P & A & Q & B & e & hP & hev & ep & _)|[e eq_]].
  - left. destruct (cge_even_dlog A hev) as (m & hm). rewrite (pack_enc P A m hP hm) in ep. apply some_inj in ep.
    exists P, A, m. exact (conj e (conj hP (conj hm (dec_enc m _ (proj1 hm) ep)))).
  - right. refine (conj e _). destruct (dec (canonical_bytes buf)) as [m|] eqn:E; [|reflexivity].
    destruct (dec_accepted _ _ E) as (R & e1). destruct (pair_tf _ _ _ e1 eq_).
Qed.

Lemma corr_zero s k g : corr s k -> (g < np)%nat ->
  corr (mkCstate (st_ge (c_mem s) (ge_addr g) (Ge c_zero c_zero c_zero c_zero)) (c_scs s)) (mkKstate (set_coords (k_fe k) g (Some 0)) (set_ (k_pt k) g None) (k_sc k)).
Proof.
  intros (hf & hp & hs) hg. pose proof rel_zero as hr. revert hr. generalize c_zero. intros c0 hr. split; [|split; [|exact hs]].
  - intros f v ht hv. cbn [k_fe] in hv. unfold set_coords in hv. pose proof (addr_owner f ht) as ha. cbn [c_mem].
    assert (hx : k_fe k f = Some v /\ ((addr f < ge_addr g)%nat \/ (ge_addr g + 4 <= addr f)%nat) \/ v = 0 /\ owner f = Some g).
    { destruct (owner f) as [h|]; [|left; split; [exact hv|unfold ge_addr; lia]]. destruct (Nat.eqb h g) eqn:En.
      - right. apply PeanoNat.Nat.eqb_eq in En. split; congruence.
      - apply PeanoNat.Nat.eqb_neq in En. left. split; [exact hv|unfold ge_addr in *; lia]. }
    destruct hx as [[h1 h2]|[-> h2]]; [rewrite st_ge_other by exact h2; exact (hf f v ht h1)|].
    assert (ez : st_ge (c_mem s) (ge_addr g) (Ge c0 c0 c0 c0) (addr f) = c0).
    { pose proof (st_ge_at (c_mem s) (ge_addr g) (Ge c0 c0 c0 c0)) as h3. unfold ge_at in h3. injection h3 as e1 e2 e3 e4.
      destruct f as [j|j|j|j|j]; cbn [owner] in h2; try discriminate h2; injection h2 as ->; cbn [fe_addr]; assumption. }
    rewrite ez. exact (conj hr (conj (Z.le_refl 0) p_pos)).
  - intros h m hh hm. cbn [k_pt] in hm. unfold set_ in hm. cbn [c_mem]. destruct (Nat.eqb h g) eqn:En; [discriminate|].
    apply PeanoNat.Nat.eqb_neq in En. rewrite (ge_at_ext (c_mem s)); [exact (hp h m hh hm)|].
    intros i hi. apply st_ge_other. unfold ge_addr in *. lia.
Qed.

Lemma cstep_unpack g buf s r P : g_unpack buf = Some (r, P) ->
  cstep np nf (GeUnpack g buf) s = Some (OInt r, mkCstate (st_ge (c_mem s) (ge_addr g) P) (c_scs s)).
Proof. unfold cstep. generalize (g_unpack buf). intros u ->. reflexivity. Qed.
Lemma kstep_unpack g buf k : kstep (GeUnpack g buf) k = Some (match dec (canonical_bytes buf) with
  | Some m => (OInt 0, kP k g m)
  | None => (OInt (-1), mkKstate (set_coords (k_fe k) g (Some 0)) (set_ (k_pt k) g None) (k_sc k)) end).
Proof. reflexivity. Qed.

Lemma unpack_ok s k g buf : corr s k -> (g < np)%nat -> bytes 32 buf -> forall o k', kstep (GeUnpack g buf) k = Some (o, k') ->
  exists s', cstep np nf (GeUnpack g buf) s = Some (o, s') /\ corr s' k'.
Proof.
  intros hc hg hb o k' e. rewrite kstep_unpack in e. destruct (unpack_val buf hb) as [(P & A & m & e1 & hP & hd & e2)|[e1 e2]];
  rewrite e2 in e; apply some2 in e; destruct e as [-> ->]; eexists; (split; [exact (cstep_unpack g buf s _ _ e1)|]).
  - apply (corr_kP s k _ g A m hc hg); [rewrite st_ge_at; exact hP | exact hd|]. intros a _ ha. apply st_ge_other. exact ha.
  - exact (corr_zero s k g hc hg).
Qed.

Lemma elligator_ok s k g f v : corr s k -> (g < np)%nat -> fe_typed np nf f -> k_fe k f = Some v ->
  exists s', cstep np nf (GeElligator g f) s = Some (ONone, s') /\ corr s' (kP k g (ell (le_bytes 32 v))).
Proof.
  intros hc hg ht hv. destruct (proj1 hc f v ht hv) as [hr hv2]. set (buf := le_bytes 32 v).
  assert (hb : bytes 32 buf) by apply le_bytes_bytes.
  assert (ef : fe_of buf = of_Z v) by exact (fe_of_le v hv2).
  destruct (b_elligator PureGo64 buf hb) as (A & [hA _] & hm). rewrite ef in hm.
  destruct (g_elligator_ok _ _ A hr hm) as (P & eP & hP). apply cpoint_cge in hP.
  destruct (m_g_elligator_ok (ge_addr g) (addr f) (free np nf) (c_mem s) P (ge_free g hg) (addr_free f ht) eP) as (m' & e' & eR & ho).
  destruct (cge_even_dlog A (rfc_map_even _ _ hm)) as (n & hn).
  destruct (proj2 (proj2 HG) PureGo64 buf hb) as [hl el].
  assert (en : n = ell buf).
  { apply enc_inj; [exact (proj1 hn) | exact hl|]. rewrite el. pose proof (pack_enc P A n hP hn) as e1.
    destruct (cp_pack PureGo64 P _ A A hP (rfc_map_even _ _ hm) hA) as (o & e2 & _ & i). rewrite e1 in e2. assert (o = enc n) by congruence. subst o.
    apply i. rewrite <- Points51.Req_torsion. apply Req_refl. }
  cbn [cstep]. rewrite e'. cbv beta iota delta [ret_mem]. exists (mkCstate m' (c_scs s)). split; [reflexivity|].
  rewrite <- en. apply (corr_kP s k m' g A n hc hg); [rewrite eR; exact hP | exact hn | exact ho].
Qed.

Theorem kstep_ok i s k o k' : corr s k -> c_typed np nf i -> kstep i k = Some (o, k') ->
  exists s', cstep np nf i s = Some (o, s') /\ corr s' k'.
Proof.
  intros hc ht e. destruct i as [f buf|f|g|g buf|g f|g x|g x y|g x|g x j|j buf|j]; cbn [c_typed] in ht.
  - destruct ht as [ht hb]. destruct (c_unpack_ok buf hb) as (v & ev & hv). cbn [cstep]. rewrite ev.
    cbn [CrefGoSpec.kstep] in e. eexists. split; [|].
    + instantiate (1 := mkCstate (st (c_mem s) (addr f) v) (c_scs s)). congruence.
    + assert (ek : k' = mkKstate (fun f' => if fptr_eqb f' f then Some (num buf) else k_fe k f') (match owner f with Some g => set_ (k_pt k) g None | None => k_pt k end) (k_sc k)) by congruence.
      subst k'. apply corr_unpack; assumption.
  - cbn [CrefGoSpec.kstep] in e. destruct (k_fe k f) as [v|] eqn:E; [|discriminate e]. destruct (proj1 hc f v ht E) as [[b1 b2] hv].
    cbn [cstep]. rewrite (cf_pack (c_mem s (addr f))).
    + exists s. apply of_Z_mod in b2. rewrite b2, (fval_small v hv). split; [congruence|]. assert (k' = k) by congruence. subst k'. exact hc.
    + apply (bnd25_le (1 * UE) (1 * UO)); [unfold UE; lia | unfold UO; lia | exact b1].
  - cbn [CrefGoSpec.kstep] in e. destruct (kval k g) as [m|] eqn:E; [|discriminate e]. destruct (val_ok s k g m hc ht E) as (A & hA & hd).
    cbn [cstep]. rewrite (pack_enc _ A m hA hd). exists s. split; [congruence|]. assert (k' = k) by congruence. subst k'. exact hc.
  - destruct ht as [hg hb]. exact (unpack_ok s k g buf hc hg hb o k' e).
  - destruct ht as [hg hf]. cbn [CrefGoSpec.kstep] in e. destruct (k_fe k f) as [v|] eqn:E; [|discriminate e].
    destruct (elligator_ok s k g f v hc hg hf E) as (s' & e1 & h1). exists s'. assert (o = ONone /\ k' = kP k g (ell (le_bytes 32 v))) as [-> ->] by (split; congruence).
    exact (conj e1 h1).
  - destruct ht as [hg hx]. cbn [CrefGoSpec.kstep] in e. destruct (kval k x) as [m|] eqn:E; [|discriminate e]. destruct (val_ok s k x m hc hx E) as (A & hA & hd).
    assert (hr : ge_addr g = ge_addr x \/ (ge_addr g + 4 <= ge_addr x)%nat \/ (ge_addr x + 4 <= ge_addr g)%nat) by (unfold ge_addr; lia).
    destruct (mp_negate (ge_addr g) (ge_addr x) (free np nf) (c_mem s) A hr hA) as (m' & e' & hR & ho).
    cbn [cstep]. rewrite e'. cbv beta iota delta [ret_mem]. exists (mkCstate m' (c_scs s)).
    assert (o = ONone /\ k' = kP k g ((- m) mod l)) as [-> ->] by (split; congruence). split; [reflexivity|].
    apply (corr_kP s k m' g _ _ hc hg hR); [exact (dlog_opp A m hd)|]. intros a _ ha. exact (ho a ha).
  - destruct ht as (hg & hx & hy). cbn [CrefGoSpec.kstep] in e. destruct (kval k x) as [m|] eqn:E; [|discriminate e]. destruct (val_ok s k x m hc hx E) as (A & hA & hd).
    destruct (kval k y) as [n|] eqn:E2; [|discriminate e]. destruct (val_ok s k y n hc hy E2) as (B & hB & hd2).
    destruct (mp_add (ge_addr g) (ge_addr x) (ge_addr y) (free np nf) (c_mem s) A B (ge_free g hg) (ge_free x hx) (ge_free y hy) hA hB) as (m' & e' & hR & ho).
    cbn [cstep]. rewrite e'. cbv beta iota delta [ret_mem]. exists (mkCstate m' (c_scs s)).
    assert (o = ONone /\ k' = kP k g ((m + n) mod l)) as [-> ->] by (split; congruence). split; [reflexivity|].
    exact (corr_kP s k m' g _ _ hc hg hR (dlog_add A B m n hd hd2) ho).
  - destruct ht as [hg hx]. cbn [CrefGoSpec.kstep] in e. destruct (kval k x) as [m|] eqn:E; [|discriminate e]. destruct (val_ok s k x m hc hx E) as (A & hA & hd).
    destruct (mp_double (ge_addr g) (ge_addr x) (free np nf) (c_mem s) A (ge_free g hg) (ge_free x hx) hA) as (m' & e' & hR & ho).
    cbn [cstep]. rewrite e'. cbv beta iota delta [ret_mem]. exists (mkCstate m' (c_scs s)).
    assert (o = ONone /\ k' = kP k g ((2 * m) mod l)) as [-> ->] by (split; congruence). split; [reflexivity|].
    replace (2 * m) with (m + m) by lia. exact (corr_kP s k m' g _ _ hc hg hR (dlog_add A A m m hd hd) ho).
  - destruct ht as [hg hx]. cbn [CrefGoSpec.kstep] in e. destruct (kval k x) as [m|] eqn:E; [|discriminate e]. destruct (val_ok s k x m hc hx E) as (A & hA & hd).
    destruct (proj2 (proj2 hc) j) as [[hs1 hs2] es].
    assert (hs3 : le_val (c_scs s j) < 2 ^ 254) by (apply Z.lt_trans with (1 := hs2); rewrite l_lit; reflexivity).
    destruct (mp_scalarmult (ge_addr g) (ge_addr x) (c_scs s j) (free np nf) (c_mem s) A (ge_free g hg) (ge_free x hx) hA hs1 hs3) as (m' & e' & hR & ho).
    cbn [cstep]. rewrite e'. cbv beta iota delta [ret_mem]. exists (mkCstate m' (c_scs s)).
    assert (o = ONone /\ k' = kP k g ((k_sc k j * m) mod l)) as [-> ->] by (split; congruence). split; [reflexivity|].
    rewrite <- es. exact (corr_kP s k m' g _ _ hc hg hR (dlog_mul A m (le_val (c_scs s j)) hd) ho).
  - cbn [CrefGoSpec.kstep] in e. cbn [cstep]. exists (mkCstate (c_mem s) (set_ (c_scs s) j (cs_unpack buf))).
    assert (o = ONone /\ k' = mkKstate (k_fe k) (k_pt k) (set_ (k_sc k) j ((le_val buf mod 2 ^ 253) mod l))) as [-> ->] by (split; congruence).
    split; [reflexivity|]. destruct hc as (hf & hp & hs). refine (conj hf (conj hp _)). intro i. cbn [c_scs k_sc]. unfold set_. destruct (Nat.eqb i j); [|exact (hs i)].
    exact (cs_unpack_ok buf ht).
  - cbn [CrefGoSpec.kstep] in e. cbn [cstep]. destruct (proj2 (proj2 hc) j) as [[hs1 hs2] es]. exists s.
    assert (o = OBytes (le_bytes 32 (k_sc k j)) /\ k' = k) as [-> ->] by (split; congruence). split; [|exact hc].
    rewrite (cs_pack_ok _ hs1), <- es. destruct hs1 as [e1 e2]. rewrite <- e1. rewrite (le_bytes_le_val _ e2). reflexivity.
Qed.

Lemma krun_ok prog : forall s k os k', corr s k -> Forall (c_typed np nf) prog -> krun prog k = Some (os, k') ->
  exists s', crun np nf prog s = Some (os, s') /\ corr s' k'.
Proof.
  induction prog as [|i prog IH]; intros s k os k' hc ht e.
  - cbn [CrefGoSpec.krun] in e. cbn [crun]. exists s. assert (os = [] /\ k' = k) as [-> ->] by (split; congruence). exact (conj eq_refl hc).
  - cbn [CrefGoSpec.krun] in e. cbn [crun]. inversion ht as [|? ? h1 h2]; subst. destruct (kstep i k) as [[o k1]|] eqn:E; [|discriminate e].
    destruct (krun prog k1) as [[os1 k2]|] eqn:E2; [|discriminate e]. destruct (kstep_ok i s k o k1 hc h1 E) as (s1 & -> & hc1).
    destruct (IH s1 k1 os1 k2 hc1 h2 E2) as (s2 & -> & hc2). exists s2. split; [congruence|]. assert (k' = k2) by congruence. subst k'. exact hc2.
Qed.

Lemma corr_init : corr cinit kinit.
Proof.
  split; [|split].
  - intros f v _ e. cbn [kinit k_fe] in e. assert (v = 0) by congruence. subst v. cbn [cinit c_mem]. exact (conj rel_zero (conj (Z.le_refl 0) p_pos)).
  - intros g m _ e. discriminate e.
  - intro i. cbn [cinit c_scs kinit k_sc]. split; [split; [split; [reflexivity|]|]|reflexivity].
    + apply Forall_forall. intros x hx. apply repeat_spec in hx. subst x. unfold is_byte. lia.
    + rewrite l_lit. reflexivity.
Qed.
End Run.
