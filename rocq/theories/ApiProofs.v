(** Over a lawful field backend every sequence of calls behaves like the ideal machine. *)
From Coq Require Import ZArith Znumtheory List Lia Bool.
From Verif Require Import Words Primes NumTheory Fp Edwards GroupOrder RistrettoSpec FieldModel CurveModel FieldLaws CurveProofs
  EncodeProofs ScalarMultProofs ScalarCode ScalarModel ScalarReduce ScalarSub ScalarFacts TextCodec RistrettoModel Sha256
  RistrettoFacts ElligatorMath ElligatorSpec ElligatorProofs LizardProofs Elligator51 ApiModel ApiSpec.
Import ListNotations.
Open Scope Z_scope.

(** the exponent of a group element *)
Definition dlog (A : E) (m : Z) : Prop := 0 <= m < l /\ Req A (Emul m EB).

Lemma dlog_of A k : Req A (Emul k EB) -> dlog A (k mod l).
Proof.
  intro h. split; [apply Z.mod_pos_bound, ScalarFacts.l_pos|]. apply (Req_trans _ _ _ h). apply Req_sym, R_mul_mod, even_B.
Qed.
Lemma dlog_eq A B m n : dlog A m -> dlog B n -> (Req A B <-> m = n).
Proof.
  intros [h1 h2] [h3 h4]. split.
  - intro h. apply (R_cyclic_unique A m n h1 h3 h2). exact (Req_trans _ _ _ h h4).
  - intros ->. exact (Req_trans _ _ _ h2 (Req_sym _ _ h4)).
Qed.
Lemma dlog_Req A B m : Req A B -> dlog B m -> dlog A m.
Proof. intros h [h1 h2]. split; [exact h1|]. exact (Req_trans _ _ _ h h2). Qed.
Lemma dlog_even A m : dlog A m -> even A.
Proof. intros [_ h]. exact (even_Req _ _ (even_mul _ _ even_B) h). Qed.
Lemma dlog_0 : dlog E0 0.
Proof. split; [pose proof ScalarFacts.l_pos; lia|]. apply Req_refl. Qed.
Lemma dlog_base s : 0 <= s < l -> dlog (Emul s EBc) s.
Proof. intro h. split; [exact h|]. apply Req_mul, EBc_Req. Qed.
Lemma dlog_add A B m n : dlog A m -> dlog B n -> dlog (Eadd A B) ((m + n) mod l).
Proof. intros [_ h1] [_ h2]. apply dlog_of. rewrite Emul_add. apply Req_add; assumption. Qed.
Lemma dlog_opp A m : dlog A m -> dlog (Eopp A) ((- m) mod l).
Proof. intros [_ h1]. apply dlog_of. rewrite Emul_opp. apply Req_opp; assumption. Qed.
Lemma dlog_sub A B m n : dlog A m -> dlog B n -> dlog (Esub A B) ((m - n) mod l).
Proof. intros [_ h1] [_ h2]. apply dlog_of. rewrite Emul_sub. apply Req_add; [|apply Req_opp]; assumption. Qed.
Lemma dlog_mul A m k : dlog A m -> dlog (Emul k A) ((k * m) mod l).
Proof. intros [_ h1]. apply dlog_of. rewrite Emul_mul. apply Req_mul; assumption. Qed.

(** what the functions of the ideal machine have to satisfy *)
Section Ideal.
Context (enc : Z -> list Z) (dec : list Z -> option Z) (ell lizenc : list Z -> Z) (lizdec : Z -> option (list Z)) (inv : Z -> Z).

Record ideal_ok : Prop := mkIdeal {
  id_enc : forall s A m, encodes s A -> dlog A m -> enc m = le_bytes 32 (fval s);
  id_dec : forall b m, dec b = Some m <-> 0 <= m < l /\ enc m = b;
  id_ell : forall b A, bytes 32 b -> rfc_map (fe_of b) A -> dlog A (ell b);
  id_lizenc : forall d A, bytes 16 d -> rfc_map (lz sha256 d) A -> dlog A (lizenc d);
  id_lizdec : forall m d, 0 <= m < l -> (lizdec m = Some d <-> bytes 16 d /\ lizenc d = m /\ forall d', bytes 16 d' -> lizenc d' = m -> d' = d);
  id_inv : forall a, 0 <= a < l -> 0 <= inv a < l /\ (a <> 0 -> (inv a * a) mod l = 1) /\ (a = 0 -> inv a = 0) }.

Context (I : ideal_ok).
Local Notation istep := (istep enc dec ell lizenc lizdec inv).
Local Notation irun := (irun enc dec ell lizenc lizdec inv).

Lemma id_inv_unique a x : 0 <= a < l -> 0 <= x < l -> (a <> 0 -> (x * a) mod l = 1) -> (a = 0 -> x = 0) -> x = inv a.
Proof.
  intros ha hx h1 h0. destruct (id_inv I a ha) as (hy & g1 & g0). destruct (Z.eq_dec a 0) as [e|n]; [rewrite h0, g0; auto|].
  specialize (h1 n). specialize (g1 n). set (y := inv a) in *. clearbody y.
  rewrite <- (Z.mod_small x l hx), <- (Z.mod_small y l hy).
  replace x with (x * 1) at 1 by lia. rewrite <- g1. rewrite Zmult_mod_idemp_r.
  replace (x * (y * a)) with ((x * a) * y) by ring. rewrite <- Zmult_mod_idemp_l, h1. f_equal. lia.
Qed.

Section Machine.
Context {K : FeOps} (L : FeLaws K) (base : list (list (niels (fe K)))) (hbase : tbl_ok L 1 base EBc).

(** the variables hold the values of the ideal machine *)
Definition hasP (P : ext (fe K)) (m : Z) : Prop := exists A, dpoint L P A /\ dlog A m.
Definition hasT (t : list (list (niels (fe K)))) (m : Z) : Prop := exists A, table L t A /\ dlog A m.
Definition hasS (s : sc) (m : Z) : Prop := reduced s /\ scv s = m.
Definition corr (st : state K) (s : istate) : Prop :=
  (forall i m, ipts s i = Some m -> hasP (pts K st i) m) /\ (forall i, hasS (scs K st i) (iscs s i)) /\
  (forall i m, itbs s i = Some m -> hasT (tbs K st i) m).

(** the point can be the second operand of an addition, or the argument of a scalar multiplication *)
Definition fitsP (P : ext (fe K)) : Prop := fits L (eX P) (eY P).
Definition need (i : call) (st : state K) : Prop :=
  match i with
  | PAdd _ _ b | PSub _ _ b => fitsP (pts K st b)
  | PScalarMult _ a _ | PPublicScalarMult _ a _ | TCompute _ a => fitsP (pts K st a)
  | _ => True
  end.

Lemma corr_P st s d x v : corr st s -> (forall m, v = Some m -> hasP x m) -> corr (setP K st d x) (iP s d v).
Proof.
  intros (h1 & h2 & h3) hx. refine (conj _ (conj h2 h3)). intros i m. unfold iP, setP, set_. cbn [ipts pts].
  destruct (Nat.eqb i d); [apply hx | apply h1].
Qed.
Lemma corr_S st s d x v : corr st s -> hasS x v -> corr (setS K st d x) (iS s d v).
Proof.
  intros (h1 & h2 & h3) hx. refine (conj h1 (conj _ h3)). intros i. unfold iS, setS, set_. cbn [iscs scs].
  destruct (Nat.eqb i d); [exact hx | apply h2].
Qed.
Lemma corr_T st s d x v : corr st s -> hasT x v -> corr (setT K st d x) (iT s d (Some v)).
Proof.
  intros (h1 & h2 & h3) hx. refine (conj h1 (conj h2 _)). intros i m. unfold iT, setT, set_. cbn [itbs tbs].
  destruct (Nat.eqb i d); [intro e; injection e as <-; exact hx | apply h3].
Qed.

Lemma corr_P_same st s d x : corr st s -> (forall m, ipts s d = Some m -> hasP x m) -> corr (setP K st d x) s.
Proof.
  intros (h1 & h2 & h3) hx. refine (conj _ (conj h2 h3)). intros i m. unfold setP, set_. cbn [pts].
  destruct (Nat.eqb_spec i d) as [->|n]; [apply hx | apply h1].
Qed.
Lemma corr_S_same st s d x : corr st s -> hasS x (iscs s d) -> corr (setS K st d x) s.
Proof.
  intros (h1 & h2 & h3) hx. refine (conj h1 (conj _ h3)). intros i. unfold setS, set_. cbn [scs].
  destruct (Nat.eqb_spec i d) as [->|n]; [exact hx | apply h2].
Qed.

Lemma hasP_point P m A : point L P A -> dlog A m -> hasP P m.
Proof. intros h1 h2. exists A. exact (conj (point_d L P A h1) h2). Qed.
Lemma fits_point P A : dpoint L P A -> fitsP P -> point L P A.
Proof. intros [h1 h2] h3. exact (conj (conj h1 h3) h2). Qed.

(** the result of [Lizard] *)
Lemma NoDup_len {X} (a b : list X) : NoDup a -> NoDup b -> (forall x, In x a <-> In x b) -> length a = length b.
Proof. intros h1 h2 h. apply Nat.le_antisymm; apply NoDup_incl_length; try assumption; intros x hx; apply h; exact hx. Qed.

Lemma lizenc_map d A m : bytes 16 d -> dlog A m -> (lizenc d = m <-> exists B, rfc_map (lz sha256 d) B /\ Req B A).
Proof.
  intros hd hA. destruct (rfc_map_exists (lz sha256 d)) as [C hC]. pose proof (id_lizenc I d C hd hC) as hl. split.
  - intro e. exists C. split; [exact hC|]. apply (dlog_eq C A _ _ hl hA). exact e.
  - intros (B & hB & hr). rewrite (rfc_map_unique _ B C hB hC) in hr. apply (dlog_eq C A _ _ hl hA). exact hr.
Qed.

Lemma Lizard_hasP P m : hasP P m -> exists Q, pt_Lizard K sha256 P = (lizdec m, Q) /\ hasP Q m.
Proof.
  intros (A & hP & hA). destruct (LizardInto_ok L sha256 sha256_bytes P A (repeat 0 16) hP) as (ds & Q & hQ & e & h1 & h2 & h3 & _).
  exists Q. split.
  2:{ exists A. split; [|exact hA]. split; [exact hQ | exact (proj2 hP)]. }
  assert (hn : NoDup ds).
  { apply h3. intros d hd. destruct (sha256_special d hd) as (n1 & n2 & _). split; assumption. }
  assert (hi : forall d, In d ds <-> bytes 16 d /\ lizenc d = m).
  { intro d. split.
    - intro hd. destruct (h1 d hd) as [hb hB]. split; [exact hb|]. apply (lizenc_map d A m hb hA). exact hB.
    - intros [hb he]. apply (lizenc_map d A m hb hA) in he. destruct he as (B & hB & hR). apply (h2 d B hb hB hR).
      apply (sha256_special d hb). }
  unfold pt_Lizard. rewrite e. clear e h1 h2 h3.
  assert (E : lizdec m = match ds with [d] => Some d | _ => None end).
  { assert (hm := proj1 hA). destruct (lizdec m) as [d|] eqn:el.
    - apply (id_lizdec I m d hm) in el. destruct el as (hb & he & hu).
      assert (hin : In d ds) by (apply hi; split; assumption).
      destruct ds as [|x [|y r]]; [destruct hin | |].
      + destruct hin as [-> | []]. reflexivity.
      + exfalso. assert (x = d) by (apply hu; apply (hi x); left; reflexivity). assert (y = d) by (apply hu; apply (hi y); right; left; reflexivity).
        subst x y. inversion hn as [|? ? hx ?]. apply hx. left. reflexivity.
    - destruct ds as [|x [|y r]]; try reflexivity. exfalso.
      assert (ex : lizdec m = Some x).
      { apply (id_lizdec I m x hm). destruct (proj1 (hi x) (or_introl eq_refl)) as [hb he]. refine (conj hb (conj he _)).
        intros d' hb' he'. destruct (proj2 (hi d') (conj hb' he')) as [<- | []]. reflexivity. }
      rewrite el in ex. discriminate ex. }
  rewrite E. destruct ds as [|x [|y r]]; reflexivity.
Qed.

(** ** one call *)
Ltac hs := match goal with hc : corr _ _ |- _ => let h := fresh in pose proof (proj1 (proj2 hc)) as h end.
Ltac ret h := let e := fresh in intro e; injection e as <- <-; eexists; split; [reflexivity|]; h.

Lemma EqualsI_dlog P Q A B m n : dpoint L P A -> dpoint L Q B -> dlog A m -> dlog B n ->
  pt_EqualsI K P Q = (if m =? n then 1 else 0) /\ pt_Equals K P Q = (m =? n).
Proof.
  intros h1 h2 h3 h4. destruct (EqualsI_dpoint L P Q A B h1 h2) as [e1 e0].
  assert (G : pt_EqualsI K P Q = (if m =? n then 1 else 0)).
  { destruct (Z.eqb_spec m n) as [e|e]; [apply e1 | apply e0]; rewrite (dlog_eq A B m n h3 h4); exact e. }
  split; [exact G|]. unfold pt_Equals. rewrite G. destruct (m =? n); reflexivity.
Qed.

Lemma SetBytes_dlog b : bytes 32 b -> exists Q, pt_SetBytes K b = (match dec b with Some _ => true | None => false end, Q) /\
  forall m, dec b = Some m -> hasP Q m.
Proof.
  intro hb. destruct (SetBytes_dcases L b hb) as [(P & A & e & hP & h)|[e h]].
  - destruct (R_cyclic A (proj2 hP)) as (m & hm). destruct (Bytes_dpoint L P A hP) as (s & es & hs).
    assert (hd : dec b = Some m).
    { apply (id_dec I). split; [exact (proj1 hm)|]. rewrite (id_enc I s A m hs hm), <- es. exact h. }
    rewrite hd. exists P. split; [exact e|]. intros m' em. injection em as <-. exists A. exact (conj hP hm).
  - exists (ep_zerovalue K). destruct (dec b) as [m|] eqn:hd.
    + exfalso. apply (id_dec I) in hd. destruct hd as [hm he].
      destruct (setBigInt_spec m) as [hs es]. rewrite Z.mod_small in es by exact hm.
      pose proof (point_ScalarMultBase L base _ hbase hs) as hp. rewrite es in hp.
      apply (h _ _ (point_d L _ _ hp)). destruct (Bytes_dpoint L _ _ (point_d L _ _ hp)) as (s & -> & hsq).
      rewrite <- (id_enc I s _ m hsq (dlog_base m hm)). exact he.
    + split; [exact e|]. discriminate.
Qed.

Lemma bytes_of b : Forall is_byte b -> length b = 32%nat -> bytes 32 b.
Proof. intros h1 h2. exact (conj h2 h1). Qed.

Lemma hasS_bytes s m : hasS s m -> sc_Bytes s = le_bytes 32 m.
Proof.
  intros [[hw hr] <-]. destruct (sc_bytes_ok s hw) as [h1 h2]. unfold sc_Bytes. rewrite <- h2. rewrite <- (proj1 h1) at 1. symmetry.
  apply le_bytes_le_val. exact (proj2 h1).
Qed.

Theorem step_ok i st s o s' : corr st s -> well_typed i -> need i st -> istep i s = Some (o, s') ->
  exists st', step K base i st = Some (o, st') /\ corr st' s'.
Proof.
  intros hc hw hn. pose proof hc as (hP & hS & hT). pose proof ScalarFacts.l_pos as hl.
  destruct i; cbn [ApiSpec.istep step well_typed need] in *; unfold i1, i2, okP, okS, opP in *.
  - ret idtac. apply corr_S; [exact hc|]. exact scZero_ok.
  - ret idtac. apply corr_S; [exact hc|]. exact scOne_ok.
  - ret idtac. apply corr_S; [exact hc|]. exact (hS a).
  - ret idtac. apply corr_S; [exact hc|]. destruct (hS a) as [ha <-], (hS b) as [hb <-]. exact (add_spec _ _ ha hb).
  - ret idtac. apply corr_S; [exact hc|]. destruct (hS a) as [ha <-], (hS b) as [hb <-]. exact (sub_spec _ _ ha hb).
  - ret idtac. apply corr_S; [exact hc|]. destruct (hS a) as [ha <-], (hS b) as [hb <-]. exact (mul_spec _ _ (proj1 ha) (proj1 hb)).
  - ret idtac. apply corr_S; [exact hc|]. destruct (hS a) as [ha <-]. exact (square_spec _ (proj1 ha)).
  - ret idtac. apply corr_S; [exact hc|]. destruct (hS a) as [ha <-], (hS b) as [hb <-], (hS c) as [hcc <-].
    exact (mulAdd_spec _ _ _ (proj1 ha) (proj1 hb) (proj1 hcc)).
  - ret idtac. apply corr_S; [exact hc|]. destruct (hS a) as [ha <-], (hS b) as [hb <-], (hS c) as [hcc <-].
    exact (mulSub_spec _ _ _ (proj1 ha) (proj1 hb) (proj1 hcc)).
  - ret idtac. apply corr_S; [exact hc|]. destruct (hS a) as [ha <-]. exact (neg_spec _ ha).
  - ret idtac. apply corr_S; [exact hc|]. destruct (hS a) as [ha <-]. destruct (inverse_spec _ (proj1 ha)) as (h1 & h2 & h3).
    rewrite (reduced_mod _ ha) in h2, h3.
    refine (conj h1 (id_inv_unique _ _ (proj2 ha) (proj2 h1) h2 h3)).
  - ret idtac. apply corr_S; [exact hc|]. exact (setBytes_spec _ hw).
  - ret idtac. apply corr_S; [exact hc|]. exact (setReduced_spec _ hw).
  - rewrite (setBytesStrict_ok _ _ hw). destruct (Z.ltb_spec (le_val buf) l) as [h|h].
    + ret idtac. apply corr_S; [exact hc|]. destruct (load_words_ok _ hw) as [h1 h2]. split; [|exact h2]. split; [exact h1|].
      rewrite h2. split; [|exact h]. apply le_val_range. exact (proj2 hw).
    + ret idtac. apply corr_S_same; [exact hc|]. apply hS.
  - unfold sc_unmarshalBinary. destruct (Nat.eqb_spec (length data) 32) as [h|h]; cbn [negb].
    + ret idtac. apply corr_S; [exact hc|]. exact (setBytes_spec _ (bytes_of _ hw h)).
    + ret idtac. apply corr_S_same; [exact hc|]. apply hS.
  - ret idtac. apply corr_S; [exact hc|]. exact (setBigInt_spec _).
  - ret idtac. apply corr_S; [exact hc|]. exact (setUint64_spec _ hw).
  - rewrite (condSet_ok _ _ b (proj1 (proj1 (hS d))) (proj1 (proj1 (hS a)))). ret idtac. destruct b.
    + apply corr_S; [exact hc|]. apply hS.
    + apply corr_S_same; [exact hc|]. apply hS.
  - rewrite (hasS_bytes _ _ (hS a)). ret idtac. exact hc.
  - rewrite (bigInt_ok _ (proj1 (proj1 (hS a)))), (proj2 (hS a)). ret idtac. exact hc.
  - rewrite (isNonZeroI_ok _ (proj1 (proj1 (hS a)))), (proj2 (hS a)).
    assert (E : Z.b2z (negb (iscs s a =? 0)) = if iscs s a =? 0 then 0 else 1) by (destruct (iscs s a =? 0); reflexivity).
    rewrite E. ret idtac. exact hc.
  - rewrite (equalsI_b2z _ _ (proj1 (proj1 (hS a))) (proj1 (proj1 (hS b)))).
    pose proof (equals_spec _ _ (proj1 (hS a)) (proj1 (hS b))) as he. rewrite (proj2 (hS a)), (proj2 (hS b)) in he.
    assert (E : Z.b2z (sc_equals (scs K st a) (scs K st b)) = if iscs s a =? iscs s b then 1 else 0).
    { destruct (Z.eqb_spec (iscs s a) (iscs s b)) as [e|e]; [rewrite (proj2 he e); reflexivity|].
      destruct (sc_equals _ _); [destruct (e (proj1 he eq_refl)) | reflexivity]. }
    rewrite E. ret idtac. exact hc.
  - pose proof (equals_spec _ _ (proj1 (hS a)) (proj1 (hS b))) as he. rewrite (proj2 (hS a)), (proj2 (hS b)) in he.
    assert (E : sc_equals (scs K st a) (scs K st b) = (iscs s a =? iscs s b)).
    { apply eq_true_iff_eq. rewrite he, Z.eqb_eq. reflexivity. }
    rewrite E. ret idtac. exact hc.
  - ret idtac. apply corr_P; [exact hc|]. intros m e. injection e as <-. exact (hasP_point _ _ _ (point_Zero L) dlog_0).
  - ret idtac. apply corr_P; [exact hc|]. intros m e. injection e as <-.
    refine (hasP_point _ _ _ (point_Base L) _). pose proof (dlog_base 1) as h. rewrite Emul_1 in h. apply h. pose proof l_gt. lia.
  - destruct (ipts s a) as [x|] eqn:ea; [|discriminate]. ret idtac. apply corr_P; [exact hc|]. intros m e. injection e as <-.
    destruct (hP a x ea) as (A & h1 & h2). exists A. split; [|exact h2]. unfold pt_Set. destruct (pts K st a). exact h1.
  - destruct (ipts s a) as [x|] eqn:ea; [|discriminate]. destruct (ipts s b) as [y|] eqn:eb; [|discriminate].
    ret idtac. apply corr_P; [exact hc|]. intros m e. injection e as <-.
    destruct (hP a x ea) as (A & h1 & h2), (hP b y eb) as (B & g1 & g2).
    exact (hasP_point _ _ _ (dpoint_Add L _ _ _ _ h1 (fits_point _ _ g1 hn)) (dlog_add _ _ _ _ h2 g2)).
  - destruct (ipts s a) as [x|] eqn:ea; [|discriminate]. destruct (ipts s b) as [y|] eqn:eb; [|discriminate].
    ret idtac. apply corr_P; [exact hc|]. intros m e. injection e as <-.
    destruct (hP a x ea) as (A & h1 & h2), (hP b y eb) as (B & g1 & g2).
    exact (hasP_point _ _ _ (dpoint_Sub L _ _ _ _ h1 (fits_point _ _ g1 hn)) (dlog_sub _ _ _ _ h2 g2)).
  - destruct (ipts s a) as [x|] eqn:ea; [|discriminate].
    ret idtac. apply corr_P; [exact hc|]. intros m e. pose proof (f_equal (fun z => match z with Some z => z | None => 0 end) e) as em.
    cbv beta iota in em. rewrite <- em.
    destruct (hP a x ea) as (A & h1 & h2). refine (hasP_point _ _ _ (dpoint_Double L _ _ h1) _).
    assert (G : dlog (Eadd A A) ((2 * x) mod l)) by (replace (2 * x) with (x + x) by lia; exact (dlog_add _ _ _ _ h2 h2)).
    exact G.
  - destruct (ipts s a) as [x|] eqn:ea; [|discriminate].
    ret idtac. apply corr_P; [exact hc|]. intros m e. injection e as <-.
    destruct (hP a x ea) as (A & h1 & h2). exists (Eopp A). exact (conj (dpoint_Neg L _ _ h1) (dlog_opp _ _ h2)).
  - destruct (ipts s a) as [x|] eqn:ea; [|discriminate].
    ret idtac. apply corr_P; [exact hc|]. intros m e. injection e as <-.
    destruct (hP a x ea) as (A & h1 & h2). destruct (hS s0) as [hs <-].
    exact (hasP_point _ _ _ (point_ScalarMult L _ _ _ (fits_point _ _ h1 hn) hs) (dlog_mul _ _ _ h2)).
  - destruct (ipts s a) as [x|] eqn:ea; [|discriminate].
    destruct (hP a x ea) as (A & h1 & h2). destruct (hS s0) as [hs <-].
    destruct (point_PublicScalarMult L _ _ _ (fits_point _ _ h1 hn) hs) as (R & eR & hR).
    rewrite eR. ret idtac. apply corr_P; [exact hc|]. intros m e. injection e as <-.
    exact (hasP_point _ _ _ hR (dlog_mul _ _ _ h2)).
  - destruct (hS s0) as [hs <-]. ret idtac. apply corr_P; [exact hc|]. intros m e. injection e as <-.
    exact (hasP_point _ _ _ (point_ScalarMultBase L base _ hbase hs) (dlog_base _ (proj2 hs))).
  - destruct (hS s0) as [hs <-]. destruct (point_PublicScalarMultBase L base _ hbase hs) as (R & eR & hR).
    rewrite eR. ret idtac. apply corr_P; [exact hc|]. intros m e. injection e as <-.
    exact (hasP_point _ _ _ hR (dlog_base _ (proj2 hs))).
  - destruct (ipts s a) as [x|] eqn:ea; [|discriminate]. destruct (hP a x ea) as (A & h1 & h2).
    ret idtac. apply corr_T; [exact hc|]. exists A. exact (conj (table_Compute L _ _ (fits_point _ _ h1 hn)) h2).
  - destruct (itbs s t) as [x|] eqn:et; [|discriminate]. destruct (hT t x et) as (A & h1 & h2). destruct (hS s0) as [hs <-].
    ret idtac. apply corr_P; [exact hc|]. intros m e. injection e as <-.
    exact (hasP_point _ _ _ (point_ScalarMultTable L _ _ _ h1 hs) (dlog_mul _ _ _ h2)).
  - destruct (itbs s t) as [x|] eqn:et; [|discriminate]. destruct (hT t x et) as (A & h1 & h2). destruct (hS s0) as [hs <-].
    destruct (point_PublicScalarMultTable L _ _ _ h1 hs) as (R & eR & hR).
    rewrite eR. ret idtac. apply corr_P; [exact hc|]. intros m e. injection e as <-.
    exact (hasP_point _ _ _ hR (dlog_mul _ _ _ h2)).
  - ret idtac. apply corr_P; [exact hc|]. intros m e. injection e as <-.
    destruct (rfc_map_exists (fe_of buf)) as [A hA].
    exact (hasP_point _ _ _ (point_SetElligator L _ _ hw hA) (id_ell I _ _ hw hA)).
  - ret idtac. apply corr_P; [exact hc|]. intros m e. injection e as <-.
    destruct (rfc_map_exists (lz sha256 data)) as [A hA].
    exact (hasP_point _ _ _ (point_SetLizard L sha256 sha256_bytes _ _ hw hA) (id_lizenc I _ _ hw hA)).
  - destruct (SetBytes_dlog buf hw) as (Q & eQ & hQ). rewrite eQ. ret idtac. apply corr_P; [exact hc | exact hQ].
  - unfold pt_UnmarshalBinary. destruct (Nat.eqb_spec (length data) 32) as [h|h]; cbn [negb].
    + destruct (SetBytes_dlog data (bytes_of _ hw h)) as (Q & eQ & hQ). rewrite eQ. ret idtac. apply corr_P; [exact hc | exact hQ].
    + ret idtac. apply corr_P_same; [exact hc | apply hP].
  - destruct (ipts s d) as [x|] eqn:ea; [|discriminate]. destruct (ipts s a) as [y|] eqn:eb; [|discriminate].
    pose proof (hP d x ea) as hx. pose proof (hP a y eb) as hy. destruct (hP d x ea) as (A & h1 & h2), (hP a y eb) as (B & g1 & g2).
    rewrite (dpoint_ConditionalSet L _ _ _ _ b h1 g1). ret idtac. apply corr_P; [exact hc|]. intros m e. injection e as <-.
    destruct b; assumption.
  - destruct (ipts s a) as [x|] eqn:ea; [|discriminate]. destruct (hP a x ea) as (A & h1 & h2).
    destruct (Bytes_dpoint L _ _ h1) as (q & eq & hq). rewrite eq, <- (id_enc I q A x hq h2). ret idtac. exact hc.
  - destruct (ipts s a) as [x|] eqn:ea; [|discriminate]. destruct (ipts s b) as [y|] eqn:eb; [|discriminate].
    destruct (hP a x ea) as (A & h1 & h2), (hP b y eb) as (B & g1 & g2).
    rewrite (proj1 (EqualsI_dlog _ _ _ _ _ _ h1 g1 h2 g2)). ret idtac. exact hc.
  - destruct (ipts s a) as [x|] eqn:ea; [|discriminate]. destruct (ipts s b) as [y|] eqn:eb; [|discriminate].
    destruct (hP a x ea) as (A & h1 & h2), (hP b y eb) as (B & g1 & g2).
    rewrite (proj2 (EqualsI_dlog _ _ _ _ _ _ h1 g1 h2 g2)). ret idtac. exact hc.
  - destruct (ipts s a) as [x|] eqn:ea; [|discriminate]. pose proof (hP a x ea) as h1.
    destruct (Lizard_hasP _ _ h1) as (Q & eQ & hQ). rewrite eQ. ret idtac. apply corr_P_same; [exact hc|].
    intros m e. rewrite ea in e. injection e as <-. exact hQ.
Qed.

(** ** programs *)
Fixpoint safe (prog : list call) (st : state K) : Prop :=
  match prog with
  | [] => True
  | i :: rest => need i st /\ forall o st', step K base i st = Some (o, st') -> safe rest st'
  end.

Theorem run_ok prog : forall st s os s', corr st s -> Forall well_typed prog -> safe prog st -> irun prog s = Some (os, s') ->
  exists st', run K base prog st = Some (os, st') /\ corr st' s'.
Proof.
  induction prog as [|i rest IH]; intros st s os s' hc hw hs.
  - cbn [ApiSpec.irun run]. intro e. injection e as <- <-. exists st. split; [reflexivity | exact hc].
  - cbn [ApiSpec.irun run]. destruct (istep i s) as [[o s1]|] eqn:e1; [|discriminate].
    inversion hw as [|? ? hw1 hw2]. subst. destruct hs as [hn hs].
    destruct (step_ok i st s o s1 hc hw1 hn e1) as (st1 & e2 & hc1). rewrite e2. specialize (hs o st1 e2).
    destruct (irun rest s1) as [[os1 s2]|] eqn:e3; [|discriminate]. intro e. injection e as <- <-.
    destruct (IH st1 s1 os1 s2 hc1 hw2 hs e3) as (st2 & e4 & hc2). rewrite e4. exists st2. split; [reflexivity | exact hc2].
Qed.

(** *** a static condition: which variables hold points that came from a decoder *)
Definition track (i : call) (c : nat -> bool) : option (nat -> bool) :=
  match i with
  | PSetZero d | PSetBase d | PScalarMultBase d _ | PPublicScalarMultBase d _ | PScalarMultTable d _ _ | PPublicScalarMultTable d _ _
  | PDouble d _ | PSetElligator d _ | PSetLizard d _ => Some (set_ c d true)
  | PSet d a | PNeg d a => Some (set_ c d (c a))
  | PAdd d _ b | PSub d _ b => if c b then Some (set_ c d true) else None
  | PScalarMult d a _ | PPublicScalarMult d a _ => if c a then Some (set_ c d true) else None
  | TCompute _ a => if c a then Some c else None
  | PSetBytes d _ | PUnmarshalBinary d _ => Some (set_ c d false)
  | PConditionalSet d a _ => Some (set_ c d (c d && c a))
  | PLizard a => Some (set_ c a false)
  | _ => Some c
  end.
Fixpoint tracks (prog : list call) (c : nat -> bool) : bool :=
  match prog with
  | [] => true
  | i :: rest => match track i c with None => false | Some c => tracks rest c end
  end.
Definition clean (c : nat -> bool) (st : state K) (s : istate) : Prop := forall i, c i = true -> ipts s i <> None -> fitsP (pts K st i).

Lemma point_fits P A : point L P A -> fitsP P.
Proof. intro h. exact (proj2 (proj1 h)). Qed.
Lemma track_need i c c' st s : clean c st s -> track i c = Some c' -> istep i s <> None -> need i st.
Proof.
  intros hc ht hi. destruct i; try exact Logic.I; cbn [track need ApiSpec.istep] in *; unfold i1, i2 in hi;
    match type of ht with (if ?x then _ else _) = _ => destruct x eqn:e; [|discriminate ht] end; apply hc; try exact e;
    destruct (ipts s a); try (exfalso; apply hi; reflexivity); try discriminate;
    destruct (ipts s b); try (exfalso; apply hi; reflexivity); try discriminate.
Qed.

Lemma clean_P c st s d x v : clean c st s -> fitsP x -> clean (set_ c d true) (setP K st d x) (iP s d v).
Proof.
  intros hc hx i. unfold set_, setP, iP. cbn [pts ipts]. unfold set_. destruct (Nat.eqb i d); [intros _ _; exact hx | apply hc].
Qed.
Lemma clean_P' c st s d x v b : clean c st s -> (b = true -> v <> None -> fitsP x) -> clean (set_ c d b) (setP K st d x) (iP s d v).
Proof.
  intros hc hx i. unfold set_, setP, iP. cbn [pts ipts]. unfold set_. destruct (Nat.eqb i d); [exact hx | apply hc].
Qed.
Lemma clean_S c st s d x v : clean c st s -> clean c (setS K st d x) (iS s d v).
Proof. intros hc i. exact (hc i). Qed.
Lemma clean_S' c st s d x : clean c st s -> clean c (setS K st d x) s.
Proof. intros hc i. exact (hc i). Qed.
Lemma clean_P_false c st s d x : clean c st s -> clean (set_ c d false) (setP K st d x) s.
Proof. intros hc i. unfold set_, setP. cbn [pts]. unfold set_. destruct (Nat.eqb i d); [discriminate | apply hc]. Qed.

Lemma some_snd {X Y} (a c : X) (b d : Y) : Some (a, b) = Some (c, d) -> b = d.
Proof. intro h. injection h as _ h. exact h. Qed.

Ltac rr hi := apply some_snd in hi; rewrite <- hi; eexists; eexists; split; [reflexivity|].

Lemma track_step i c c' st s o s' : corr st s -> clean c st s -> well_typed i -> track i c = Some c' ->
  istep i s = Some (o, s') -> exists o' st', step K base i st = Some (o', st') /\ clean c' st' s'.
Proof.
  intros hcorr hc hw ht hi. pose proof hcorr as (hP & hS & hT).
  assert (hn : need i st) by (apply (track_need i c c' st s hc ht); rewrite hi; discriminate).
  destruct i; cbn [track ApiSpec.istep step need well_typed] in *; unfold i1, i2, okP, okS, opP in *;
  try (injection ht as <-; rr hi;
    lazymatch goal with |- clean c st s => exact hc | |- clean c (setS _ _ _ _) (iS _ _ _) => exact (clean_S c st s _ _ _ hc) end).
  - injection ht as <-. rewrite (setBytesStrict_ok _ _ hw). destruct (le_val buf <? l); rr hi; intro i; exact (hc i).
  - injection ht as <-. unfold sc_unmarshalBinary. destruct (Nat.eqb _ 32); cbn [negb]; rr hi; intro i; exact (hc i).
  - injection ht as <-. rr hi. destruct b; intro i; exact (hc i).
  - injection ht as <-. rr hi. apply clean_P; [exact hc | exact (point_fits _ _ (point_Zero L))].
  - injection ht as <-. rr hi. apply clean_P; [exact hc | exact (point_fits _ _ (point_Base L))].
  - injection ht as <-. destruct (ipts s a) as [x|] eqn:ea in hi; [|discriminate hi]. rr hi.
    apply clean_P'; [exact hc|]. intros h _. assert (g : fitsP (pts K st a)) by (apply hc; [exact h | rewrite ea; discriminate]).
    unfold pt_Set. destruct (pts K st a). exact g.
  - destruct (c b); [|discriminate]. injection ht as <-. destruct (ipts s a) as [x|] eqn:ea in hi; [|discriminate hi]. destruct (ipts s b) as [y|] eqn:eb in hi; [|discriminate hi].
    rr hi. apply clean_P; [exact hc|].
    destruct (hP a x ea) as (A & h1 & h2), (hP b y eb) as (B & g1 & g2).
    exact (point_fits _ _ (dpoint_Add L _ _ _ _ h1 (fits_point _ _ g1 hn))).
  - destruct (c b); [|discriminate]. injection ht as <-. destruct (ipts s a) as [x|] eqn:ea in hi; [|discriminate hi]. destruct (ipts s b) as [y|] eqn:eb in hi; [|discriminate hi].
    rr hi. apply clean_P; [exact hc|].
    destruct (hP a x ea) as (A & h1 & h2), (hP b y eb) as (B & g1 & g2).
    exact (point_fits _ _ (dpoint_Sub L _ _ _ _ h1 (fits_point _ _ g1 hn))).
  - injection ht as <-. destruct (ipts s a) as [x|] eqn:ea in hi; [|discriminate hi]. rr hi.
    destruct (hP a x ea) as (A & h1 & h2). apply clean_P; [exact hc|]. exact (point_fits _ _ (dpoint_Double L _ _ h1)).
  - injection ht as <-. destruct (ipts s a) as [x|] eqn:ea in hi; [|discriminate hi]. rr hi.
    destruct (hP a x ea) as (A & h1 & h2). apply clean_P'; [exact hc|]. intros h _.
    assert (g : fitsP (pts K st a)) by (apply hc; [exact h | rewrite ea; discriminate]).
    exact (point_fits _ _ (point_Neg L _ _ (fits_point _ _ h1 g))).
  - destruct (c a); [|discriminate]. injection ht as <-. destruct (ipts s a) as [x|] eqn:ea in hi; [|discriminate hi]. rr hi.
    destruct (hP a x ea) as (A & h1 & h2). apply clean_P; [exact hc|].
    exact (point_fits _ _ (point_ScalarMult L _ _ _ (fits_point _ _ h1 hn) (proj1 (hS s0)))).
  - destruct (c a); [|discriminate]. injection ht as <-. destruct (ipts s a) as [x|] eqn:ea in hi; [|discriminate hi].
    destruct (hP a x ea) as (A & h1 & h2).
    destruct (point_PublicScalarMult L _ _ _ (fits_point _ _ h1 hn) (proj1 (hS s0))) as (R & eR & hR). rewrite eR.
    rr hi. apply clean_P; [exact hc|]. exact (point_fits _ _ hR).
  - injection ht as <-. rr hi. apply clean_P; [exact hc|].
    exact (point_fits _ _ (point_ScalarMultBase L base _ hbase (proj1 (hS s0)))).
  - injection ht as <-. destruct (point_PublicScalarMultBase L base _ hbase (proj1 (hS s0))) as (R & eR & hR). rewrite eR.
    rr hi. apply clean_P; [exact hc|]. exact (point_fits _ _ hR).
  - destruct (c a); [|discriminate]. injection ht as <-. destruct (ipts s a) as [x|] eqn:ea in hi; [|discriminate hi]. rr hi.
    intro i; exact (hc i).
  - injection ht as <-. destruct (itbs s t) as [x|] eqn:et in hi; [|discriminate hi]. destruct (hT t x et) as (A & h1 & h2).
    rr hi. apply clean_P; [exact hc|].
    exact (point_fits _ _ (point_ScalarMultTable L _ _ _ h1 (proj1 (hS s0)))).
  - injection ht as <-. destruct (itbs s t) as [x|] eqn:et in hi; [|discriminate hi]. destruct (hT t x et) as (A & h1 & h2).
    destruct (point_PublicScalarMultTable L _ _ _ h1 (proj1 (hS s0))) as (R & eR & hR). rewrite eR.
    rr hi. apply clean_P; [exact hc|]. exact (point_fits _ _ hR).
  - injection ht as <-. rr hi. apply clean_P; [exact hc|].
    destruct (rfc_map_exists (fe_of buf)) as [A hA]. exact (point_fits _ _ (point_SetElligator L _ _ hw hA)).
  - injection ht as <-. rr hi. apply clean_P; [exact hc|].
    destruct (rfc_map_exists (lz sha256 data)) as [A hA]. exact (point_fits _ _ (point_SetLizard L sha256 sha256_bytes _ _ hw hA)).
  - injection ht as <-. destruct (SetBytes_dlog buf hw) as (Q & eQ & hQ). rewrite eQ. rr hi. apply clean_P'; [exact hc | discriminate].
  - injection ht as <-. unfold pt_UnmarshalBinary.
    destruct (Nat.eqb_spec (length data) 32) as [h|h]; cbn [negb].
    + destruct (SetBytes_dlog data (bytes_of _ hw h)) as (Q & eQ & hQ). rewrite eQ. rr hi.
      apply clean_P'; [exact hc | discriminate].
    + rr hi. apply clean_P_false; exact hc.
  - injection ht as <-. destruct (ipts s d) as [x|] eqn:ea in hi; [|discriminate hi]. destruct (ipts s a) as [y|] eqn:eb in hi; [|discriminate hi].
    rr hi. destruct (hP d x ea) as (A & h1 & h2), (hP a y eb) as (B & g1 & g2).
    apply clean_P'; [exact hc|]. intros h _. apply andb_true_iff in h. destruct h as [k1 k2].
    rewrite (dpoint_ConditionalSet L _ _ _ _ b h1 g1). destruct b; apply hc; try assumption; [rewrite eb | rewrite ea]; discriminate.
  - destruct (ipts s a) as [x|] eqn:ea in hi; [|discriminate hi]. injection ht as <-. rr hi. exact hc.
  - destruct (ipts s a) as [x|] eqn:ea in hi; [|discriminate hi]. destruct (ipts s b) as [y|] eqn:eb in hi; [|discriminate hi]. injection ht as <-. rr hi. exact hc.
  - destruct (ipts s a) as [x|] eqn:ea in hi; [|discriminate hi]. destruct (ipts s b) as [y|] eqn:eb in hi; [|discriminate hi]. injection ht as <-. rr hi. exact hc.
  - destruct (ipts s a) as [x|] eqn:ea in hi; [|discriminate hi]. destruct (Lizard_hasP _ _ (hP a x ea)) as (Q & eQ & hQ). rewrite eQ. injection ht as <-. rr hi.
    apply clean_P_false. exact hc.
Qed.

Theorem tracks_safe prog : forall c st s, corr st s -> clean c st s -> Forall well_typed prog -> tracks prog c = true ->
  irun prog s <> None -> safe prog st.
Proof.
  induction prog as [|i rest IH]; intros c st s hcorr hc hw ht hi; [exact Logic.I|].
  cbn [tracks safe] in *. cbn [ApiSpec.irun] in hi. destruct (track i c) as [c'|] eqn:et; [|discriminate].
  destruct (istep i s) as [[o s1]|] eqn:e1; [|destruct (hi eq_refl)]. inversion hw as [|? ? hw1 hw2]. subst.
  assert (hn : need i st) by (apply (track_need i c c' st s hc et); rewrite e1; discriminate).
  split; [exact hn|]. intros o' st' es. destruct (step_ok i st s o s1 hcorr hw1 hn e1) as (st1 & e2 & hc1).
  pose proof (some_snd _ _ _ _ (eq_trans (eq_sym es) e2)) as ee. subst st'.
  apply (IH c' st1 s1 hc1).
  - destruct (track_step i c c' st s o s1 hcorr hc hw1 et e1) as (o2 & st2 & e5 & h5). rewrite (some_snd _ _ _ _ (eq_trans (eq_sym e2) e5)). exact h5.
  - exact hw2.
  - exact ht.
  - destruct (irun rest s1) as [[? ?]|]; [discriminate | destruct (hi eq_refl)].
Qed.

Lemma corr_init : corr (init K) iinit.
Proof. refine (conj _ (conj _ _)); [intros i m e; discriminate e | intro i; exact scZero_ok | intros i m e; discriminate e]. Qed.
Lemma clean_init c : clean c (init K) iinit.
Proof. intros i _ h. destruct (h eq_refl). Qed.

End Machine.
End Ideal.
