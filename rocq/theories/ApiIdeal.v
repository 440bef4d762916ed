(** Functions with which the ideal machine describes the implementation, and its instances for the
    64-bit backend. *)
From Coq Require Import ZArith Znumtheory List Lia Bool ConstructiveEpsilon.
From Verif Require Import Words Primes NumTheory Fp Edwards GroupOrder RistrettoSpec Fe51Code Fe51Proofs FieldModel CurveModel FieldLaws
  CurveProofs EncodeProofs ScalarMultProofs ScalarCode ScalarModel ScalarReduce ScalarSub ScalarFacts TextCodec RistrettoModel Sha256
  RistrettoFacts Fe51Laws BaseTable51 BaseTableProofs Points51 ElligatorMath ElligatorSpec ElligatorProofs LizardProofs Elligator51
  ApiModel ApiSpec ApiProofs.
Import ListNotations.
Open Scope Z_scope.

(** m B *)
Definition mB (m : Z) : ext fe51 := pt_ScalarMultBase R51 r51_baseTable (sc_setBigInt m).
Lemma mB_elt m : element (mB m) (Emul (m mod l) EBc).
Proof.
  destruct (setBigInt_spec m) as [h e]. unfold mB. rewrite <- e. exact (proj1 (base_mult _ h)).
Qed.
Lemma mB_dlog m : dlog (Emul (m mod l) EBc) (m mod l).
Proof. apply dlog_base. apply Z.mod_pos_bound, ScalarFacts.l_pos. Qed.
Lemma mB_valid m : Points51.valid (mB m).
Proof. exists (Emul (m mod l) EBc). exact (mB_elt m). Qed.

Definition enc (m : Z) : list Z := pt_Bytes R51 (mB m).
Lemma enc_def m : enc m = pt_Bytes R51 (mB m).
Proof. reflexivity. Qed.
Lemma enc_bytes m : bytes 32 (enc m).
Proof. rewrite enc_def. exact (enc_length _ (mB_valid m)). Qed.
Lemma enc_encodes s A m : encodes s A -> dlog A m -> enc m = le_bytes 32 (fval s).
Proof.
  intros hs hA. pose proof (proj1 (elt_point _ _) (mB_elt m)) as hp. destruct (Bytes_point L51 _ _ hp) as (t & e & ht).
  rewrite enc_def. rewrite e. f_equal. f_equal. apply (encodes_unique t s _ A ht hs).
  pose proof (mB_dlog m) as hm. rewrite (Z.mod_small m l) in * by exact (proj1 hA).
  apply (dlog_eq _ _ _ _ hm hA). reflexivity.
Qed.
Lemma enc_inj m n : 0 <= m < l -> 0 <= n < l -> enc m = enc n -> m = n.
Proof.
  intros hm hn e0. rewrite !enc_def in e0. pose proof (proj1 (enc_iff _ _ (mB_valid m) (mB_valid n)) e0) as e1.
  pose proof (proj1 (eq_iff _ _ _ _ (mB_elt m) (mB_elt n)) e1) as e. apply (dlog_eq _ _ _ _ (mB_dlog m) (mB_dlog n)) in e.
  rewrite !Z.mod_small in e by assumption. exact e.
Qed.

(** search for an exponent *)
Lemma search (f : Z -> bool) : (exists m, 0 <= m < l /\ f m = true) -> {m | 0 <= m /\ f m = true}.
Proof.
  intro h. destruct (constructive_indefinite_ground_description_nat (fun n => f (Z.of_nat n) = true)) as [n hn].
  - intro n. destruct (f (Z.of_nat n)); [left; reflexivity | right; discriminate].
  - destruct h as (m & hm & e). exists (Z.to_nat m). rewrite Z2Nat.id by lia. exact e.
  - exists (Z.of_nat n). split; [lia | exact hn].
Qed.

Lemma bytes_dec n b : {bytes n b} + {~ bytes n b}.
Proof.
  destruct (Nat.eq_dec (length b) n) as [e|e]; [|right; intros [h _]; exact (e h)].
  destruct (Forall_dec is_byte (fun x => match Z_le_dec 0 x, Z_lt_dec x 256 with
    | left h1, left h2 => left (conj h1 h2) | right h, _ => right (fun p => h (proj1 p)) | _, right h => right (fun p => h (proj2 p)) end) b) as [h|h].
  - left. exact (conj e h).
  - right. intros [_ g]. exact (h g).
Qed.

(** the exponent of a Point *)
Lemma log_of (P : ext fe51) : Points51.valid P -> {m | 0 <= m < l /\ pt_Equals R51 P (mB m) = true}.
Proof.
  intro h. destruct (search (fun m => pt_Equals R51 P (mB m))) as (m & hm & e).
  - destruct (cyclic P h) as (s & hs & e & _). exists (scv s). split; [exact (proj2 hs)|].
    destruct (setBigInt_spec (scv s)) as [h1 h2]. unfold mB.
    replace (sc_setBigInt (scv s)) with s; [exact e|]. apply scv_inj; [exact (proj1 hs) | exact (proj1 h1)|].
    rewrite h2. symmetry. apply reduced_mod. exact hs.
  - exists (m mod l). split; [apply Z.mod_pos_bound, ScalarFacts.l_pos|].
    destruct h as [A hA]. apply (proj1 (eq_iff _ _ _ _ hA (mB_elt m))) in e. apply (proj2 (eq_iff _ _ _ _ hA (mB_elt (m mod l)))).
    rewrite Z.mod_mod by (pose proof ScalarFacts.l_pos; lia). exact e.
Qed.
Lemma log_dlog P A m : element P A -> 0 <= m < l -> pt_Equals R51 P (mB m) = true -> dlog A m.
Proof.
  intros hA hm e0. pose proof (proj1 (eq_iff _ _ _ _ hA (mB_elt m)) e0) as e. pose proof (mB_dlog m) as h. rewrite (Z.mod_small m l hm) in h, e.
  exact (dlog_Req _ _ _ e h).
Qed.

Lemma dec_sum b : {m | 0 <= m < l /\ enc m = b} + {forall m, 0 <= m < l -> enc m <> b}.
Proof.
  destruct (bytes_dec 32 b) as [hb|hb].
  2:{ right. intros m _ e. apply hb. rewrite <- e. apply enc_bytes. }
  destruct (fst (pt_SetBytes R51 b)) eqn:e.
  - left. assert (hv : Points51.valid (snd (pt_SetBytes R51 b)) /\ pt_Bytes R51 (snd (pt_SetBytes R51 b)) = b).
    { apply (dec_sound b); [exact hb|]. rewrite <- e. apply surjective_pairing. }
    destruct (log_of _ (proj1 hv)) as (m & hm & em). exists m. split; [exact hm|]. rewrite enc_def.
    refine (eq_trans (eq_sym _) (proj2 hv)). exact (proj2 (enc_iff _ _ (proj1 hv) (mB_valid m)) em).
  - right. intros m hm em. assert (ht : fst (pt_SetBytes R51 b) = true).
    { apply (proj2 (dec_iff b hb)). exists (mB m). rewrite enc_def in em. exact (conj (mB_valid m) em). }
    rewrite e in ht. discriminate ht.
Qed.
Definition dec (b : list Z) : option Z := match dec_sum b with inleft m => Some (proj1_sig m) | inright _ => None end.
Lemma dec_ok b m : dec b = Some m <-> 0 <= m < l /\ enc m = b.
Proof.
  unfold dec. destruct (dec_sum b) as [(x & hx & ex)|hn]; cbn [proj1_sig].
  - split; [intro e; injection e as <-; exact (conj hx ex)|]. intros [hm em]. f_equal. apply enc_inj; congruence.
  - split; [discriminate|]. intros [hm em]. destruct (hn m hm em).
Qed.

Lemma ell_sum b : {m | bytes 32 b -> 0 <= m < l /\ pt_Equals R51 (pt_SetElligator R51 b) (mB m) = true}.
Proof.
  destruct (bytes_dec 32 b) as [hb|hb]; [|exists 0; intro h; destruct (hb h)].
  destruct (log_of _ (elligator_valid b hb)) as (m & hm). exists m. intros _. exact hm.
Qed.
Definition ell (b : list Z) : Z := proj1_sig (ell_sum b).
Lemma ell_ok b A : bytes 32 b -> rfc_map (fe_of b) A -> dlog A (ell b).
Proof.
  intros hb hA. unfold ell. destruct (ell_sum b) as [m h]. cbn [proj1_sig]. destruct (h hb) as [hm e].
  apply (log_dlog (pt_SetElligator R51 b)); [|exact hm | exact e]. apply elt_point. exact (point_SetElligator L51 b A hb hA).
Qed.

Lemma liz_sum d : {m | bytes 16 d -> 0 <= m < l /\ pt_Equals R51 (pt_SetLizard R51 sha256 d) (mB m) = true}.
Proof.
  destruct (bytes_dec 16 d) as [hb|hb]; [|exists 0; intro h; destruct (hb h)].
  destruct (log_of _ (lizard_valid sha256 d sha256_bytes hb)) as (m & hm). exists m. intros _. exact hm.
Qed.
Definition lizenc (d : list Z) : Z := proj1_sig (liz_sum d).
Lemma lizenc_ok d A : bytes 16 d -> rfc_map (lz sha256 d) A -> dlog A (lizenc d).
Proof.
  intros hb hA. unfold lizenc. destruct (liz_sum d) as [m h]. cbn [proj1_sig]. destruct (h hb) as [hm e].
  apply (log_dlog (pt_SetLizard R51 sha256 d)); [|exact hm | exact e]. apply elt_point. exact (point_SetLizard L51 sha256 sha256_bytes d A hb hA).
Qed.

Definition lizdec (m : Z) : option (list Z) := fst (pt_Lizard R51 sha256 (mB m)).
Lemma lizdec_ok m d : 0 <= m < l ->
  (lizdec m = Some d <-> bytes 16 d /\ lizenc d = m /\ forall d', bytes 16 d' -> lizenc d' = m -> d' = d).
Proof.
  intro hm. pose proof (mB_elt m) as hP. pose proof (mB_dlog m) as hA. rewrite (Z.mod_small m l hm) in hP, hA.
  destruct (lizard_list sha256 (mB m) _ (repeat 0 16) sha256_bytes hP (or_intror sha256_special)) as (ds & Q & e & hn & hi).
  assert (hi' : forall d, In d ds <-> bytes 16 d /\ lizenc d = m).
  { intro x. rewrite hi. split; intros [hb h]; (split; [exact hb|]).
    - apply (lizard_eq sha256 x _ _ sha256_bytes hb hP) in h. destruct h as (B & hB & hr).
      apply (dlog_eq _ _ _ _ (lizenc_ok x B hb hB) hA). exact hr.
    - apply (lizard_eq sha256 x _ _ sha256_bytes hb hP). destruct (rfc_map_exists (lz sha256 x)) as [B hB]. exists B.
      split; [exact hB|]. apply (dlog_eq _ _ _ _ (lizenc_ok x B hb hB) hA). exact h. }
  assert (E : lizdec m = match ds with [x] => Some x | _ => None end).
  { unfold lizdec, pt_Lizard. rewrite e. destruct ds as [|x [|y r]]; reflexivity. }
  rewrite E. clear e E hi. split.
  - destruct ds as [|x [|y r]]; try discriminate. intro h. injection h as ->.
    destruct (proj1 (hi' d) (or_introl eq_refl)) as [hb he]. refine (conj hb (conj he _)).
    intros d' hb' he'. destruct (proj2 (hi' d') (conj hb' he')) as [<-|[]]. reflexivity.
  - intros (hb & he & hu). pose proof (proj2 (hi' d) (conj hb he)) as hin. destruct ds as [|x [|y r]]; [destruct hin| |].
    + destruct hin as [->|[]]. reflexivity.
    + exfalso. assert (ex : x = d) by (destruct (proj1 (hi' x) (or_introl eq_refl)); apply hu; assumption).
      assert (ey : y = d) by (destruct (proj1 (hi' y) (or_intror (or_introl eq_refl))); apply hu; assumption).
      subst x y. inversion hn as [|? ? h _]. apply h. left. reflexivity.
Qed.

Definition inv (a : Z) : Z := scv (sc_inverse (sc_setBigInt a)).
Lemma inv_ok a : 0 <= a < l -> 0 <= inv a < l /\ (a <> 0 -> (inv a * a) mod l = 1) /\ (a = 0 -> inv a = 0).
Proof.
  intro ha. unfold inv. destruct (setBigInt_spec a) as [h1 h2]. rewrite (Z.mod_small a l ha) in h2.
  destruct (inverse_spec _ (proj1 h1)) as ([_ g1] & g2 & g3). rewrite h2 in g2, g3. rewrite (Z.mod_small a l ha) in g2, g3.
  refine (conj g1 (conj g2 g3)).
Qed.

Theorem ideal : ideal_ok enc dec ell lizenc lizdec inv.
Proof. exact (mkIdeal _ _ _ _ _ _ enc_encodes dec_ok ell_ok lizenc_ok lizdec_ok inv_ok). Qed.

Lemma safe51 prog : forall st, safe L51 r51_baseTable prog st.
Proof.
  induction prog as [|i prog IH]; intro st; [exact Logic.I|]. split; [destruct i; exact Logic.I|]. intros o st' _. apply IH.
Qed.
Theorem run51 prog st s os s' : corr L51 st s -> Forall well_typed prog ->
  irun enc dec ell lizenc lizdec inv prog s = Some (os, s') ->
  exists st', run R51 r51_baseTable prog st = Some (os, st') /\ corr L51 st' s'.
Proof. intros hc hw h. exact (run_ok _ _ _ _ _ _ ideal L51 r51_baseTable base51_ok prog st s os s' hc hw (safe51 prog st) h). Qed.
