(** Every sequence of calls behaves like the machine of ApiTotalSpec.v, whether or not the Points have been set. *)
From Coq Require Import ZArith Znumtheory List Lia Bool.
From Verif Require Import Words Primes NumTheory Fp Edwards GroupOrder RistrettoSpec FieldModel CurveModel FieldLaws CurveProofs
  EncodeProofs ScalarMultProofs ScalarCode ScalarModel ScalarReduce ScalarSub ScalarFacts TextCodec RistrettoModel Sha256
  RistrettoFacts ElligatorMath ElligatorSpec ElligatorProofs LizardProofs Elligator51 ApiModel ApiSpec ApiProofs
  DegenerateFacts DegenerateMult DegenerateLizard ApiTotalSpec.
Import ListNotations.
Open Scope Z_scope.

Local Strategy 3000 [pt_Lizard pt_LizardInto sha256 pt_SetBytes pt_SetElligator pt_SetLizard pt_ScalarMult pt_PublicScalarMult pt_ScalarMultBase
  pt_PublicScalarMultBase pt_ScalarMultTable pt_PublicScalarMultTable pt_Compute pt_Add pt_Sub pt_Double pt_Neg pt_ConditionalSet pt_Bytes
  pt_EqualsI pt_Equals sc_inverse sc_mul sc_add sc_sub sc_mulAdd sc_mulSub sc_square sc_neg sc_setReduced sc_setBytes sc_setBigInt sc_setUint64
  sc_setBytesStrict sc_unmarshalBinary sc_condSet sc_bytes sc_Bytes sc_bigInt pt_SetZero pt_SetBase pt_UnmarshalBinary sc_isNonZeroI sc_equalsI sc_equals
  le_val le_bytes].

Section Ideal.
Context (enc : Z -> list Z) (dec : list Z -> option Z) (ell lizenc : list Z -> Z) (lizdec : Z -> option (list Z)) (inv : Z -> Z).
Context (I : ideal_ok enc dec ell lizenc lizdec inv).
Local Notation istep := (istep enc dec ell lizenc lizdec inv).
Local Notation jstep := (jstep enc dec ell lizenc lizdec inv).
Local Notation jrun := (jrun enc dec ell lizenc lizdec inv).

Section Machine.
Context {K : FeOps} (L : FeLaws K) (base : list (list (niels (fe K)))) (hbase : tbl_ok L 1 base EBc).
Local Notation corr := (corr L).
Local Notation fitsP := (fitsP L).
Local Notation need := (need L).
Local Notation hasP := (hasP L).

Definition corrT (st : state K) (s : istate) : Prop :=
  corr st s /\ (forall i, ipts s i = None -> deg0 L (pts K st i)) /\ (forall i, itbs s i = None -> tdeg L (tbs K st i)).
Definition cleanT (c : nat -> bool) (st : state K) : Prop := forall i, c i = true -> fitsP (pts K st i).

Lemma track_needT i c c' st : cleanT c st -> track i c = Some c' -> need i st.
Proof.
  intros hc ht. destruct i; try exact Logic.I; cbn [track ApiProofs.need] in *;
    match type of ht with (if ?x then _ else _) = _ => destruct x eqn:e; [|discriminate ht] end; apply hc; exact e.
Qed.
Lemma cleanT_clean c st s : cleanT c st -> clean L c st s.
Proof. intros h i hi _. exact (h i hi). Qed.

Lemma zv_fits : fitsP (ep_zerovalue K).
Proof. destruct (deg_zv L) as (z & _ & _ & _ & _ & h). exact h. Qed.
Lemma SetBytes_fails buf : bytes 32 buf -> dec buf = None -> pt_SetBytes K buf = (false, ep_zerovalue K).
Proof.
  intros hb hd. destruct (SetBytes_dlog _ _ _ _ _ _ I L base hbase buf hb) as (Q & e & _). rewrite hd in e.
  destruct (SetBytes_dcases L buf hb) as [(P & A & e' & _)|[e' _]]; [|exact e'].
  apply (f_equal fst) in e, e'. cbn [fst] in e, e'. rewrite e in e'. discriminate e'.
Qed.

(** what the calls of the ideal machine leave unset *)
Definition frP (i : call) (st st' : state K) (s s' : istate) : Prop :=
  forall j, ipts s' j = None -> (ipts s j = None /\ pts K st' j = pts K st j /\
     forall c c', track i c = Some c' -> c' j = true -> c j = true) \/ pts K st' j = ep_zerovalue K.
Definition frT (st st' : state K) (s s' : istate) : Prop := forall j, itbs s' j = None -> itbs s j = None /\ tbs K st' j = tbs K st j.

Lemma fr_P i st s d x v : (v = None -> x = ep_zerovalue K) ->
  (forall c c' j, track i c = Some c' -> j <> d -> c' j = true -> c j = true) ->
  frP i st (setP K st d x) s (iP s d v) /\ frT st (setP K st d x) s (iP s d v).
Proof.
  intros hv ht. split; [|intros j h; exact (conj h eq_refl)]. intros j. unfold iP, setP, set_. cbn [ipts pts].
  destruct (Nat.eqb_spec j d) as [->|n]; intro h; [right; exact (hv h)|]. left. refine (conj h (conj eq_refl _)).
  intros c c' e. exact (ht c c' j e n).
Qed.
Lemma fr_same i st st' s s' : pts K st' = pts K st -> tbs K st' = tbs K st -> ipts s' = ipts s -> itbs s' = itbs s ->
  (forall c c' j, track i c = Some c' -> c' j = true -> c j = true) -> frP i st st' s s' /\ frT st st' s s'.
Proof.
  intros e1 e2 e3 e4 ht. split; intro j.
  - rewrite e1, e3. intro h. left. refine (conj h (conj eq_refl _)). intros c c' e. exact (ht c c' j e).
  - rewrite e2, e4. intro h. exact (conj h eq_refl).
Qed.
Lemma set_other {X} (f : nat -> X) d x j : j <> d -> set_ f d x j = f j.
Proof. intro h. unfold set_. destruct (Nat.eqb_spec j d) as [e|_]; [destruct (h e) | reflexivity]. Qed.
Lemma track_set (c c' : nat -> bool) d x j : Some (set_ c d x) = Some c' -> j <> d -> c' j = true -> c j = true.
Proof. intros e h. injection e as <-. rewrite set_other by exact h. exact (fun x => x). Qed.
Lemma track_same (c c' : nat -> bool) j : Some c = Some c' -> c' j = true -> c j = true.
Proof. intro e. injection e as <-. exact (fun x => x). Qed.
Lemma track_false (c c' : nat -> bool) d j : Some (set_ c d false) = Some c' -> c' j = true -> c j = true.
Proof. intro e. injection e as <-. unfold set_. destruct (Nat.eqb j d); [discriminate | exact (fun x => x)]. Qed.

Ltac eqs hi hs := apply some_snd in hi; apply some_snd in hs; rewrite <- hi, <- hs.
Ltac tr := intros c' c'' j ht; cbn [track] in ht;
  lazymatch type of ht with
  | Some (set_ _ _ _) = _ => exact (track_set _ _ _ _ _ ht)
  | Some _ = _ => exact (track_same _ _ _ ht)
  | (if ?x then _ else _) = _ => destruct x; [exact (track_set _ _ _ _ _ ht) | discriminate ht]
  end.

Lemma frame i st s o s' o1 st' : well_typed i -> istep i s = Some (o, s') -> step K base i st = Some (o1, st') ->
  frP i st st' s s' /\ frT st st' s s'.
Proof.
  intros hw hi hs. destruct i; cbn [ApiSpec.istep step well_typed] in *; unfold i1, i2, okP, okS, opP in *;
  try (destruct (ipts s d) as [u|] eqn:ed in hi; [|discriminate hi]);
  try (destruct (ipts s a) as [x|] eqn:ea in hi; [|discriminate hi]);
  try (destruct (ipts s b) as [y|] eqn:eb in hi; [|discriminate hi]);
  try (destruct (itbs s t) as [z|] eqn:et in hi; [|discriminate hi]);
  try (eqs hi hs; apply fr_same; [reflexivity | reflexivity | reflexivity | reflexivity | tr]; fail);
  try (eqs hi hs; apply fr_P; [discriminate | tr]; fail).
  - destruct (sc_setBytesStrict (scs K st d) buf) as [r ok]. apply some_snd in hs. rewrite <- hs.
    destruct (le_val buf <? l); apply some_snd in hi; rewrite <- hi; apply fr_same; [reflexivity | reflexivity | reflexivity | reflexivity | tr | reflexivity | reflexivity | reflexivity | reflexivity | tr].
  - destruct (sc_unmarshalBinary (scs K st d) data) as [r ok]. apply some_snd in hs. rewrite <- hs.
    destruct (Nat.eqb (length data) 32); apply some_snd in hi; rewrite <- hi; apply fr_same; [reflexivity | reflexivity | reflexivity | reflexivity | tr | reflexivity | reflexivity | reflexivity | reflexivity | tr].
  - eqs hi hs. destruct b; apply fr_same; [reflexivity | reflexivity | reflexivity | reflexivity | tr | reflexivity | reflexivity | reflexivity | reflexivity | tr].
  - destruct (pt_PublicScalarMult K (pts K st a) (scs K st s0)); [|discriminate hs]. eqs hi hs. apply fr_P; [discriminate | tr].
  - destruct (pt_PublicScalarMultBase K base (scs K st s0)); [|discriminate hs]. eqs hi hs. apply fr_P; [discriminate | tr].
  - eqs hi hs. split.
    + intros j h. left. refine (conj h (conj eq_refl _)). intros c c' ht. cbn [track] in ht. destruct (c a); [|discriminate ht]. exact (track_same _ _ _ ht).
    + intro j. unfold iT, setT, set_. cbn [itbs tbs]. destruct (Nat.eqb j t); [discriminate|]. intro h. exact (conj h eq_refl).
  - destruct (pt_PublicScalarMultTable K (tbs K st t) (scs K st s0)); [|discriminate hs]. eqs hi hs. apply fr_P; [discriminate | tr].
  - pose proof (SetBytes_fails buf hw) as hf. destruct (pt_SetBytes K buf) as [ok r]. eqs hi hs. apply fr_P; [|tr].
    intro e. specialize (hf e). apply (f_equal snd) in hf. exact hf.
  - unfold pt_UnmarshalBinary in hs. destruct (Nat.eqb_spec (length data) 32) as [h|h]; cbn [negb] in hs.
    + pose proof (SetBytes_fails data (bytes_of _ hw h)) as hf. destruct (pt_SetBytes K data) as [ok r]. eqs hi hs. apply fr_P; [|tr].
      intro e. specialize (hf e). apply (f_equal snd) in hf. exact hf.
    + eqs hi hs. split; [|intros j g; exact (conj g eq_refl)]. intros j g. left. refine (conj g (conj _ _)).
      * unfold setP, set_. cbn [pts]. destruct (Nat.eqb_spec j d) as [->|]; reflexivity.
      * intros c c' ht. cbn [track] in ht. exact (track_false _ _ _ _ ht).
  - destruct (pt_Lizard K sha256 (pts K st a)) as [r q]. eqs hi hs. split; [|intros j g; exact (conj g eq_refl)]. intros j g.
    assert (n : j <> a) by (intros ->; rewrite ea in g; discriminate g). left. refine (conj g (conj _ _)).
    + unfold setP. cbn [pts]. apply set_other, n.
    + intros c c' ht. cbn [track] in ht. exact (track_false _ _ _ _ ht).
Qed.

Local Strategy transparent [pt_Lizard pt_LizardInto sha256 pt_SetBytes pt_SetElligator pt_SetLizard pt_ScalarMult pt_PublicScalarMult pt_ScalarMultBase
  pt_PublicScalarMultBase pt_ScalarMultTable pt_PublicScalarMultTable pt_Compute pt_Add pt_Sub pt_Double pt_Neg pt_ConditionalSet pt_Bytes
  pt_EqualsI pt_Equals sc_inverse sc_mul sc_add sc_sub sc_mulAdd sc_mulSub sc_square sc_neg sc_setReduced sc_setBytes sc_setBigInt sc_setUint64
  sc_setBytesStrict sc_unmarshalBinary sc_condSet sc_bytes sc_Bytes sc_bigInt pt_SetZero pt_SetBase pt_UnmarshalBinary sc_isNonZeroI sc_equalsI sc_equals
  le_val le_bytes].

(** ** one call *)
Definition tracked (i : call) (st st' : state K) : Prop := forall c c', track i c = Some c' -> cleanT c st -> cleanT c' st'.

Lemma set_step i st s o s' : corrT st s -> well_typed i -> need i st -> istep i s = Some (o, s') ->
  exists st', step K base i st = Some (o, st') /\ corrT st' s' /\ tracked i st st'.
Proof.
  intros (hc & hb & ht) hw hn hi. destruct (step_ok _ _ _ _ _ _ I L base hbase i st s o s' hc hw hn hi) as (st' & e & hc').
  destruct (frame i st s o s' o st' hw hi e) as [h1 h2]. exists st'. refine (conj e (conj (conj hc' (conj _ _)) _)).
  - intros j hj. destruct (h1 j hj) as [(g & -> & _)| ->]; [exact (hb j g)|]. apply deg_deg0, deg_zv.
  - intros j hj. destruct (h2 j hj) as [g ->]. exact (ht j g).
  - intros c c' hk hcl j hj. destruct (ipts s' j) as [m|] eqn:em.
    + destruct (track_step _ _ _ _ _ _ I L base hbase i c c' st s o s' hc (cleanT_clean c st s hcl) hw hk hi) as (o' & st2 & e2 & h).
      pose proof (some_snd _ _ _ _ (eq_trans (eq_sym e) e2)) as ee. rewrite ee. apply h; [exact hj|]. rewrite em. discriminate.
    + destruct (h1 j em) as [(g & -> & hk')| ->]; [|exact zv_fits]. apply hcl. exact (hk' c c' hk hj).
Qed.

Lemma corrT_P st s d x v : corrT st s -> (forall m, v = Some m -> hasP x m) -> (v = None -> deg0 L x) -> corrT (setP K st d x) (iP s d v).
Proof.
  intros (hc & hb & ht) h1 h2. refine (conj (corr_P L st s d x v hc h1) (conj _ ht)). intros j. unfold iP, setP, set_. cbn [ipts pts].
  destruct (Nat.eqb j d); [exact h2 | apply hb].
Qed.
Lemma cleanT_P c st d x b : cleanT c st -> (b = true -> fitsP x) -> cleanT (set_ c d b) (setP K st d x).
Proof. intros hc hx i. unfold set_, setP. cbn [pts]. unfold set_. destruct (Nat.eqb i d); [exact hx | apply hc]. Qed.

Lemma corrT_bd st s i : corrT st s -> bd L (pts K st i).
Proof.
  intros (hc & hb & _). destruct (ipts s i) as [m|] eqn:e; [|exact (deg0_bd L _ (hb i e))].
  destruct (proj1 hc i m e) as (A & [h _] & _). exact (rd_bd L _ A h).
Qed.
(** the result of a multiplication of an unset Point *)
Lemma fl_result st s d i R v : corrT st s -> fl L R (nzb v) -> (forall c c', track i c = Some c' -> c' = set_ c d true) ->
  corrT (setP K st d R) (iP s d (if v =? 0 then Some 0 else None)) /\ tracked i st (setP K st d R).
Proof.
  intros hc hR hk. assert (hf : fitsP R) by (exact (proj2 (fl_bdf L R _ hR))). split.
  - apply corrT_P; [exact hc | |]; unfold nzb in hR; destruct (v =? 0); cbn [negb fl] in hR.
    + intros m e. injection e as <-. apply (hasP_point L R 0 E0); [|exact dlog_0]. refine (conj hR _). exists E0. symmetry. apply Eadd_0_l.
    + discriminate.
    + discriminate.
    + intros _. exact (deg_deg0 L R hR).
  - intros c c' e hcl. rewrite (hk c c' e). apply cleanT_P; [exact hcl | intros _; exact hf].
Qed.
Lemma deg_result st s d i R : corrT st s -> deg L R -> (forall c c', track i c = Some c' -> c' = set_ c d true) ->
  corrT (setP K st d R) (iP s d None) /\ tracked i st (setP K st d R).
Proof.
  intros hc hR hk. split.
  - apply corrT_P; [exact hc | discriminate |]. intros _. exact (deg_deg0 L R hR).
  - intros c c' e hcl. rewrite (hk c c' e). apply cleanT_P; [exact hcl | intros _]. destruct hR as (z & _ & _ & _ & _ & h). exact h.
Qed.
Lemma unused st s i : corrT st s -> (forall c, track i c = Some c) -> corrT st s /\ tracked i st st.
Proof. intros h hk. refine (conj h _). intros c c' e. rewrite hk in e. injection e as <-. exact (fun x => x). Qed.

Ltac tk := intros c' c'' hk; cbn [track] in hk;
  lazymatch type of hk with
  | (if ?x then _ else _) = _ => destruct x; [injection hk as <-; reflexivity | discriminate hk]
  | _ => injection hk as <-; reflexivity
  end.
Ltac blank2 hi := match type of hi with
  match ?x with Some _ => match ?y with Some _ => _ | None => _ end | None => _ end = None =>
    assert (x = None \/ y = None) by (destruct x; [right; destruct y; [discriminate hi | reflexivity] | left; reflexivity]) end.
Ltac blank1 hi := match type of hi with
  match ?x with Some _ => _ | None => _ end = None => assert (x = None) by (destruct x; [discriminate hi | reflexivity]) end.
Ltac fin := eexists; split; [reflexivity|].

Lemma Lizard_blank P : deg0 L P -> exists Q, pt_Lizard K sha256 P = (lizdec 0, Q) /\ deg0 L Q.
Proof.
  intro h. destruct (deg_lizard L sha256 P _ E0 (repeat 0 16) h (point_d L _ _ (point_Zero L)) eq_refl) as (Q & hQ & e).
  exists Q. split; [|exact hQ]. destruct (Lizard_hasP _ _ _ _ _ _ I L (pt_SetZero K) 0 (hasP_point L _ _ _ (point_Zero L) dlog_0)) as (Q0 & e0 & _).
  apply (f_equal fst) in e0. cbn [fst] in e0. rewrite <- e0. clear e0. unfold pt_Lizard. rewrite e. clear e.
  destruct (pt_LizardInto K sha256 (pt_SetZero K) (repeat 0 16)) as [[er d] Q1]. cbn [fst]. destruct er; reflexivity.
Qed.

Lemma blank_step_ok i st s : corrT st s -> need i st -> istep i s = None ->
  exists st', step K base i st = Some (fst (blank_step lizdec i s), st') /\ corrT st' (snd (blank_step lizdec i s)) /\ tracked i st st'.
Proof.
  intros hc hn hi. pose proof hc as (hcc & hb & ht). pose proof hcc as (hP & hS & hT).
  destruct i; cbn [ApiSpec.istep step ApiProofs.need blank_step fst snd] in *; unfold i1, i2, okP, okS, opP in *; try discriminate hi.
  - blank1 hi. fin. split.
    + apply corrT_P; [exact hc | discriminate |]. intros _. unfold pt_Set. pose proof (hb a H) as g. destruct (pts K st a). exact g.
    + intros c c' e hcl. cbn [track] in e. injection e as <-. apply cleanT_P; [exact hcl|]. intro g. pose proof (hcl a g) as g'.
      unfold pt_Set. destruct (pts K st a). exact g'.
  - blank2 hi. fin. apply deg_result; [exact hc | | tk].
    refine (proj1 (deg0_add L _ _ (corrT_bd st s a hc) (conj (corrT_bd st s b hc) hn) _)). destruct H as [H|H]; [left | right]; exact (hb _ H).
  - blank2 hi. fin. apply deg_result; [exact hc | | tk].
    refine (proj2 (deg0_add L _ _ (corrT_bd st s a hc) (conj (corrT_bd st s b hc) hn) _)). destruct H as [H|H]; [left | right]; exact (hb _ H).
  - blank1 hi. fin. apply deg_result; [exact hc | | tk]. exact (deg0_double L _ (hb a H)).
  - blank1 hi. fin. split.
    + apply corrT_P; [exact hc | discriminate |]. intros _. exact (deg0_neg L _ (hb a H)).
    + intros c c' e hcl. cbn [track] in e. injection e as <-. apply cleanT_P; [exact hcl|]. intro g.
      pose proof (deg0_deg L _ (hb a H) (hcl a g)) as g'. destruct (neg_deg L _ g') as (z & _ & _ & _ & _ & h). exact h.
  - blank1 hi. fin. destruct (hS s0) as [hs <-]. destruct (reduced_bytes _ hs) as (h1 & h2 & h3 & h4). rewrite <- h2.
    apply fl_result; [exact hc | | tk]. unfold pt_ScalarMult. apply (d_ScalarMult L); try assumption. exact (deg0_deg L _ (hb a H) hn).
  - blank1 hi. destruct (hS s0) as [hs <-]. destruct (reduced_bytes _ hs) as (h1 & h2 & h3 & h4). rewrite <- h2.
    destruct (d_VarTimeScalarMult L _ (sc_bytes (scs K st s0)) (deg0_deg L _ (hb a H) hn) h1 ltac:(assumption)) as (R & e & hR).
    unfold pt_PublicScalarMult. rewrite e. fin. apply fl_result; [exact hc | exact hR | tk].
  - blank1 hi. fin. split.
    + refine (conj (conj hP (conj hS _)) (conj hb _)); intros j; unfold iT, setT, set_; cbn [itbs tbs]; destruct (Nat.eqb j t).
      * discriminate.
      * apply hT.
      * intros _. unfold pt_Compute. exact (d_Compute L _ (deg0_deg L _ (hb a H) hn)).
      * apply ht.
    + intros c c' e hcl. cbn [track] in e. destruct (c a); [|discriminate e]. injection e as <-. exact hcl.
  - blank1 hi. fin. destruct (hS s0) as [hs <-]. destruct (reduced_bytes _ hs) as (h1 & h2 & h3 & h4). rewrite <- h2.
    apply fl_result; [exact hc | | tk]. unfold pt_ScalarMultTable. apply (d_tblScalarMult L); try assumption. exact (ht t H).
  - blank1 hi. destruct (hS s0) as [hs <-]. destruct (reduced_bytes _ hs) as (h1 & h2 & h3 & h4). rewrite <- h2.
    destruct (d_tblVarTime L _ (sc_bytes (scs K st s0)) (ht t H) h1 ltac:(assumption)) as (R & e & hR).
    unfold pt_PublicScalarMultTable. rewrite e. fin. apply fl_result; [exact hc | exact hR | tk].
  - clear hi. fin. unfold pt_ConditionalSet. rewrite (bd_cond L _ _ b (corrT_bd st s d hc) (corrT_bd st s a hc)). split.
    + apply corrT_P; [exact hc | |]; destruct b; intros; [apply hP | apply hP | apply hb | apply hb]; assumption.
    + intros c c' e hcl. cbn [track] in e. injection e as <-. apply cleanT_P; [exact hcl|]. intro g. apply andb_true_iff in g.
      destruct b; apply hcl; apply g.
  - blank1 hi. unfold pt_Bytes. rewrite (deg0_bytes L _ (hb a H)). fin. apply unused; [exact hc | reflexivity].
  - blank2 hi. unfold pt_EqualsI. rewrite (deg0_equals L _ _ (corrT_bd st s a hc) (corrT_bd st s b hc)) by (destruct H as [H|H]; [left | right]; exact (hb _ H)).
    fin. apply unused; [exact hc | reflexivity].
  - blank2 hi. unfold pt_Equals, pt_EqualsI. rewrite (deg0_equals L _ _ (corrT_bd st s a hc) (corrT_bd st s b hc)) by (destruct H as [H|H]; [left | right]; exact (hb _ H)).
    fin. apply unused; [exact hc | reflexivity].
  - blank1 hi. destruct (Lizard_blank _ (hb a H)) as (Q & e & hQ). rewrite e. fin. split.
    + refine (conj (corr_P_same L st s a Q hcc _) (conj _ ht)); [intros m em; rewrite H in em; discriminate em|].
      intros j. unfold setP, set_. cbn [pts]. destruct (Nat.eqb j a); [intros _; exact hQ | apply hb].
    + intros c c' e' hcl. cbn [track] in e'. injection e' as <-. apply cleanT_P; [exact hcl | discriminate].
Qed.

Theorem total_step i st s : corrT st s -> well_typed i -> need i st ->
  exists st', step K base i st = Some (fst (jstep i s), st') /\ corrT st' (snd (jstep i s)) /\ tracked i st st'.
Proof.
  intros hc hw hn. unfold ApiTotalSpec.jstep. destruct (istep i s) as [[o s']|] eqn:e.
  - exact (set_step i st s o s' hc hw hn e).
  - exact (blank_step_ok i st s hc hn e).
Qed.

(** ** programs *)
Theorem total_run prog : forall c st s, corrT st s -> Forall well_typed prog ->
  (forall i st, need i st) \/ (cleanT c st /\ tracks prog c = true) ->
  exists st', run K base prog st = Some (fst (jrun prog s), st').
Proof.
  induction prog as [|i rest IH]; intros c st s hc hw hs; [exists st; reflexivity|].
  inversion hw as [|? ? hw1 hw2]. subst. cbn [ApiTotalSpec.jrun run tracks] in *.
  assert (H : exists c', need i st /\ ((forall i st, need i st) \/ (forall st', tracked i st st' -> cleanT c' st' /\ tracks rest c' = true))).
  { destruct hs as [hs|[h1 h2]]; [exists c; exact (conj (hs i st) (or_introl hs))|].
    destruct (track i c) as [c'|] eqn:e; [|discriminate h2]. exists c'. refine (conj (track_needT i c c' st h1 e) (or_intror _)).
    intros st' ht. exact (conj (ht c c' e h1) h2). }
  destruct H as (c' & hn & hs'). destruct (total_step i st s hc hw1 hn) as (st1 & e1 & hc1 & ht1). rewrite e1.
  destruct (jstep i s) as [o s1]. cbn [fst snd] in *.
  destruct (IH c' st1 s1 hc1 hw2) as [st2 e2]; [destruct hs' as [h|h]; [left; exact h | right; exact (h st1 ht1)]|].
  rewrite e2. exists st2. destruct (jrun rest s1) as [os s2]. reflexivity.
Qed.

Lemma corrT_init : tdeg L (repeat (repeat (np_zerovalue K) 8) 32) -> corrT (init K) iinit.
Proof. intro h. refine (conj (corr_init L) (conj _ _)); intros i _; [apply deg_deg0, deg_zv | exact h]. Qed.
Lemma cleanT_init c : cleanT c (init K).
Proof. intros i _. exact zv_fits. Qed.
End Machine.
End Ideal.
