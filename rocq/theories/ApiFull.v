(** Every program of all methods on every build. *)
From Coq Require Import ZArith List Lia Bool String.
From Verif Require Import Words Primes NumTheory Fp Edwards RistrettoSpec FieldModel CurveModel FieldLaws CurveProofs EncodeProofs ScalarFacts TextCodec RistrettoModel RistrettoFacts
  Sha256 Sha512 Fe51Laws Points51 EllGen LizardProofs ElligatorSpec ElligatorMath Elligator51 ApiModel ApiSpec ApiProofs ApiIdeal Backends BackendsMore Generic25 DegenerateFacts Degenerate
  ApiTotalSpec ApiTotalProofs ApiTotal TextProofs Text51 StringModel ErrorModel ErrorFacts ErrorText ErrorProofs ApiFullModel ApiFullSpec ApiFullProofs.
Import ListNotations.
Open Scope Z_scope.
Local Notation length := List.length.

(** the text of bytes *)
Lemma sext_be k : forall s, length s = (3 * k + 2)%nat -> Forall is_byte s -> be 64 (map sextet (b64_encode s)) = 4 * be 256 s.
Proof.
  induction k as [|k IH]; intros s hl h.
  - destruct s as [|a [|b [|c s]]]; try discriminate hl.
    apply Forall_cons_iff in h. destruct h as [ha h]. apply Forall_cons_iff in h. destruct h as [hb _]. cbn [b64_encode]. rewrite !land63 by lia.
    replace (Z.lor (Z.shiftl a 16) (Z.shiftl b 8)) with (a * 2 ^ 16 + b * 2 ^ 8 + 0) by (rewrite <- triple_val by (assumption || (unfold is_byte; lia)); apply Z.lor_0_r).
    unfold is_byte in ha, hb. set (v := a * 2 ^ 16 + b * 2 ^ 8 + 0).
    assert (H0 : 0 <= v / 2 ^ 18 mod 64 < 64) by (apply Z.mod_pos_bound; lia). assert (H1 : 0 <= v / 2 ^ 12 mod 64 < 64) by (apply Z.mod_pos_bound; lia).
    assert (H2 : 0 <= v / 2 ^ 6 mod 64 < 64) by (apply Z.mod_pos_bound; lia).
    cbn [map]. rewrite !sextet_char by assumption.
    assert (E : v / 2 ^ 18 mod 64 * 2 ^ 18 + v / 2 ^ 12 mod 64 * 2 ^ 12 + v / 2 ^ 6 mod 64 * 2 ^ 6 = v) by (unfold v; clear - ha hb; Z.div_mod_to_equations; lia).
    revert E. generalize (v / 2 ^ 18 mod 64) (v / 2 ^ 12 mod 64) (v / 2 ^ 6 mod 64). unfold v. intros x y z E. unfold be. cbn [fold_left]. lia.
  - destruct s as [|a [|b [|c s]]]; try (cbn in hl; lia). assert (hl' : length s = (3 * k + 2)%nat) by (cbn [length] in hl; lia).
    apply Forall_cons_iff in h. destruct h as [ha h]. apply Forall_cons_iff in h. destruct h as [hb h]. apply Forall_cons_iff in h. destruct h as [hc hs].
    specialize (IH s hl' hs). assert (ln : length (map sextet (b64_encode s)) = (4 * k + 3)%nat).
    { rewrite map_length, encode_len, hl'. replace ((3 * k + 2) * 4 + 2)%nat with (1 + (4 * k + 3) * 3)%nat by lia. rewrite Nat.div_add by lia. reflexivity. }
    cbn [b64_encode]. rewrite !land63, land63' by lia. rewrite triple_val by assumption.
    unfold is_byte in ha, hb, hc. set (v := a * 2 ^ 16 + b * 2 ^ 8 + c). assert (H0 : 0 <= v / 2 ^ 18 mod 64 < 64) by (apply Z.mod_pos_bound; lia). assert (H1 : 0 <= v / 2 ^ 12 mod 64 < 64) by (apply Z.mod_pos_bound; lia).
    assert (H2 : 0 <= v / 2 ^ 6 mod 64 < 64) by (apply Z.mod_pos_bound; lia). assert (H3 : 0 <= v mod 64 < 64) by (apply Z.mod_pos_bound; lia).
    cbn [map]. rewrite !sextet_char by assumption.
    assert (E : v / 2 ^ 18 mod 64 * 2 ^ 18 + v / 2 ^ 12 mod 64 * 2 ^ 12 + v / 2 ^ 6 mod 64 * 2 ^ 6 + v mod 64 = v) by (unfold v; clear - ha hb hc; Z.div_mod_to_equations; lia).
    revert E. generalize (v / 2 ^ 18 mod 64) (v / 2 ^ 12 mod 64) (v / 2 ^ 6 mod 64) (v mod 64). unfold v. intros x y z w E.
    rewrite !be_cons. cbn [length]. rewrite ln, hl', IH, !Nat2Z.inj_succ, !Z.pow_succ_r by lia.
    assert (EP : 64 ^ Z.of_nat (4 * k + 3) = 4 * 256 ^ Z.of_nat (3 * k + 2)).
    { change 64 with (2 ^ 6). change 256 with (2 ^ 8). rewrite <- !Z.pow_mul_r by lia. replace (8 * Z.of_nat (3 * k + 2)) with (6 * Z.of_nat (4 * k + 3) - 2) by lia. rewrite Z.pow_sub_r by lia. change (2 ^ 2) with 4. replace (6 * Z.of_nat (4 * k + 3)) with (2 + (6 * Z.of_nat (4 * k + 3) - 2)) by lia. rewrite Z.pow_add_r by lia. change (2 ^ 2) with 4. rewrite (Z.mul_comm 4 (2 ^ _)), Z.div_mul by lia. ring. }
    rewrite EP. generalize (256 ^ Z.of_nat (3 * k + 2)). intro M. transitivity ((x * 2 ^ 18 + y * 2 ^ 12 + z * 2 ^ 6 + w) * (4 * M) + 4 * be 256 s); [ring|]. rewrite E. ring.
Qed.
Lemma text_ok buf : bytes 32 buf -> exists vs, Forall2 digit64 (b64_encode buf) vs /\ length vs = 43%nat /\ be 64 vs = 4 * be 256 buf.
Proof.
  intros [hl hb]. destruct (encode_clean buf hb) as (_ & h2 & _). exists (map sextet (b64_encode buf)). refine (conj _ (conj _ _)).
  - apply digits64. exact (conj h2 eq_refl).
  - rewrite map_length, encode_len, hl. reflexivity.
  - exact (sext_be 10 buf hl hb).
Qed.

(** the meaning of texts *)
Lemma read_ok size d txt : length d = 32%nat -> (forall i n, size n <> CorruptInput i) -> (forall n m, size n = size m -> n = m) ->
  let r := read (er_to_buf size d txt) in
  (r = RPanic <-> over_long txt) /\ (forall i, r = RErr (CorruptInput i) <-> ~ over_long txt /\ corrupt_at i txt) /\
  (forall n, r = RErr (size n) <-> ~ over_long txt /\ b64_size n txt /\ n <> 32%nat) /\ (forall buf, r = RBuf buf <-> b64_text txt buf) /\
  (forall e, r = RErr e -> (exists i, e = CorruptInput i) \/ (exists n, e = size n)).
Proof.
  intros hd s1 s2. pose proof (to_buf_panics size d txt hd) as HP.
  pose proof (fun r err => to_buf_ret size d txt r err hd s1 s2) as HR.
  pose proof (erase_to_buf size d txt) as HE. pose proof (fun buf => b64_bytes_iff d txt buf hd) as HT.
  destruct (er_to_buf size d txt) as [x [e|]|]; cbn [read erase] in *; cbv zeta.
  - assert (ho : ~ over_long txt) by (intro h; apply HP in h; discriminate h).
    destruct (HR x (Some e) eq_refl) as (a1 & a2 & a3 & a4 & a5). refine (conj _ (conj _ (conj _ (conj _ _)))).
    + rewrite <- HP. split; discriminate.
    + intro i. rewrite <- a3. split; [intro h; injection h as ->; exact (conj ho eq_refl) | intros [_ h]; injection h as ->; reflexivity].
    + intro n. rewrite <- a4. split; [intro h; injection h as ->; exact (conj ho eq_refl) | intros [_ h]; injection h as ->; reflexivity].
    + intro buf. rewrite <- HT, <- HE. split; discriminate.
    + intros e' h. injection h as <-. exact (a5 e eq_refl).
  - destruct (HR x None eq_refl) as (a1 & a2 & a3 & a4 & a5). refine (conj _ (conj _ (conj _ (conj _ _)))).
    + rewrite <- HP. split; discriminate.
    + intro i. rewrite <- a3. split; [discriminate | intros [_ h]; discriminate h].
    + intro n. rewrite <- a4. split; [discriminate | intros [_ h]; discriminate h].
    + intro buf. rewrite <- HT, <- HE. split; intro h; injection h as ->; reflexivity.
    + discriminate.
  - assert (ho : over_long txt) by (apply HP; reflexivity). refine (conj _ (conj _ (conj _ (conj _ _)))).
    + split; [intros _; exact ho | reflexivity].
    + intro i. split; [discriminate|]. intros [h _]. destruct (h ho).
    + intro n. split; [discriminate|]. intros [h _]. destruct (h ho).
    + intro buf. rewrite <- HT, <- HE. split; discriminate.
    + discriminate.
Qed.
Lemma stext_ok txt :
  (stext txt = RPanic <-> over_long txt) /\ (forall i, stext txt = RErr (CorruptInput i) <-> ~ over_long txt /\ corrupt_at i txt) /\
  (forall n, stext txt = RErr (ScalarSize n) <-> ~ over_long txt /\ b64_size n txt /\ n <> 32%nat) /\ (forall buf, stext txt = RBuf buf <-> b64_text txt buf) /\
  (forall e, stext txt = RErr e -> (exists i, e = CorruptInput i) \/ (exists n, e = ScalarSize n)).
Proof. exact (read_ok ScalarSize (repeat 0 32) txt len0 (proj1 size_sc) (proj2 size_sc)). Qed.
Lemma ptext_ok txt :
  (ptext txt = RPanic <-> ~ hex64 txt /\ over_long txt) /\ (forall i, ptext txt = RErr (CorruptInput i) <-> ~ hex64 txt /\ ~ over_long txt /\ corrupt_at i txt) /\
  (forall n, ptext txt = RErr (PointSize n) <-> ~ hex64 txt /\ ~ over_long txt /\ b64_size n txt /\ n <> 32%nat) /\ (forall buf, ptext txt = RBuf buf <-> text_bytes txt buf) /\
  (forall e, ptext txt = RErr e -> (exists i, e = CorruptInput i) \/ (exists n, e = PointSize n)).
Proof.
  unfold ptext. pose proof (fun buf => text_bytes_iff (repeat 0 32) txt buf len0) as HT. pose proof (erase_textToBuf (repeat 0 32) txt) as HE.
  destruct (er_text_cases txt) as [[hx e]|[hx (d & hd & e)]]; rewrite e in *.
  - cbn [read erase] in *. refine (conj _ (conj _ (conj _ (conj _ _)))).
    + split; [discriminate | intros [h _]; destruct (h hx)].
    + intro i. split; [discriminate | intros [h _]; destruct (h hx)].
    + intro i. split; [discriminate | intros [h _]; destruct (h hx)].
    + intro buf. rewrite <- HT, <- HE. split; intro h; injection h as ->; reflexivity.
    + discriminate.
  - destruct (read_ok PointSize d txt hd (proj1 size_pt) (proj2 size_pt)) as (h1 & h2 & h3 & h4 & h5). cbv zeta in *. refine (conj _ (conj _ (conj _ (conj _ h5)))).
    + rewrite h1. split; [intro h; exact (conj hx h) | intros [_ h]; exact h].
    + intro i. rewrite h2. split; [intro h; exact (conj hx h) | intros [_ h]; exact h].
    + intro i. rewrite h3. split; [intro h; exact (conj hx h) | intros [_ h]; exact h].
    + intro buf. rewrite h4. unfold text_bytes. split; [intro h; right; exact (conj hx h)|]. intros [h|[_ h]]; [|exact h].
      apply hex_text_iff in h. destruct h as [h _]. apply hex64_eq in h. destruct (hx h).
Qed.

(** no preimage *)
Definition lizno (m : Z) : bool := match fst (fst (pt_LizardInto R51 sha256 (mB m) (repeat 0 16))) with lizard_none => true | _ => false end.
Lemma lizno_ok m : 0 <= m < l -> (lizno m = true <-> forall d, bytes 16 d -> lizenc d <> m).
Proof.
  intro hm. pose proof (mB_elt m) as hP. pose proof (mB_dlog m) as hA. rewrite (Z.mod_small m l hm) in hP, hA.
  destruct (Elligator51.lizard_list sha256 (mB m) _ (repeat 0 16) sha256_bytes hP (or_intror sha256_special)) as (ds & Q & e & hn & hi).
  assert (hi' : forall d, In d ds <-> bytes 16 d /\ lizenc d = m).
  { intro x. rewrite hi. split; intros [hb h]; (split; [exact hb|]).
    - apply (lizard_eq sha256 x _ _ sha256_bytes hb hP) in h. destruct h as (B & hB & hr).
      apply (dlog_eq _ _ _ _ (lizenc_ok x B hb hB) hA). exact hr.
    - apply (lizard_eq sha256 x _ _ sha256_bytes hb hP). destruct (rfc_map_exists (lz sha256 x)) as [B hB]. exists B.
      split; [exact hB|]. apply (dlog_eq _ _ _ _ (lizenc_ok x B hb hB) hA). exact h. }
  assert (E : lizno m = match ds with [] => true | _ => false end).
  { unfold lizno. rewrite e. destruct ds as [|x [|y r]]; reflexivity. }
  rewrite E. clear e E hi hn. destruct ds as [|x r].
  - split; [|reflexivity]. intros _ d hb he. destruct (proj2 (hi' d) (conj hb he)).
  - split; [discriminate|]. intro h. destruct (proj1 (hi' x) (or_introl eq_refl)) as [hb he]. destruct (h x hb he).
Qed.

Local Notation krun := (krun enc dec ell lizenc lizdec inv lizno b64_encode ptext stext).
Theorem f_run b prog : Forall x_typed prog -> b <> Generic \/ xtracks prog (fun _ => true) = true ->
  fst (xrun (ops b) (baseTable b) prog (init (ops b))) = fst (krun prog iinit).
Proof.
  intros hw h. apply (full_run _ _ _ _ _ _ ideal t_enc0 lizno lizno_ok (laws b) (baseTable b) (base_ok b) prog (fun _ => true) (init (ops b)) iinit).
  - apply corrT_init, zero_tdeg.
  - exact hw.
  - destruct h as [hb|ht]; [left; intros i st; exact (t_need b i st hb) | right; exact (conj (cleanT_init (laws b) _) ht)].
Qed.

Theorem f_all : exists enc dec ell lizenc lizdec inv lizno text ptext stext,
  ((forall m, bytes 32 (enc m)) /\ enc 0 = repeat 0 32 /\ (forall m n, 0 <= m < l -> 0 <= n < l -> enc m = enc n -> m = n) /\
   (forall b m, dec b = Some m <-> 0 <= m < l /\ enc m = b) /\
   (forall b, bytes 32 b -> 0 <= ell b < l) /\ (forall d, bytes 16 d -> 0 <= lizenc d < l) /\
   (forall m d, 0 <= m < l -> (lizdec m = Some d <-> bytes 16 d /\ lizenc d = m /\ forall d', bytes 16 d' -> lizenc d' = m -> d' = d)) /\
   (forall a, 0 <= a < l -> 0 <= inv a < l /\ (a <> 0 -> (inv a * a) mod l = 1) /\ (a = 0 -> inv a = 0))) /\
  ((forall m, 0 <= m < l -> (lizno m = true <-> forall d, bytes 16 d -> lizenc d <> m)) /\
   (forall buf, bytes 32 buf -> exists vs, Forall2 digit64 (text buf) vs /\ length vs = 43%nat /\ be 64 vs = 4 * be 256 buf)) /\
  (forall txt,
    (ptext txt = RPanic <-> ~ hex64 txt /\ over_long txt) /\
    (forall i, ptext txt = RErr (CorruptInput i) <-> ~ hex64 txt /\ ~ over_long txt /\ corrupt_at i txt) /\
    (forall n, ptext txt = RErr (PointSize n) <-> ~ hex64 txt /\ ~ over_long txt /\ b64_size n txt /\ n <> 32%nat) /\
    (forall buf, ptext txt = RBuf buf <-> text_bytes txt buf) /\
    (forall e, ptext txt = RErr e -> (exists i, e = CorruptInput i) \/ (exists n, e = PointSize n))) /\
  (forall txt,
    (stext txt = RPanic <-> over_long txt) /\
    (forall i, stext txt = RErr (CorruptInput i) <-> ~ over_long txt /\ corrupt_at i txt) /\
    (forall n, stext txt = RErr (ScalarSize n) <-> ~ over_long txt /\ b64_size n txt /\ n <> 32%nat) /\
    (forall buf, stext txt = RBuf buf <-> b64_text txt buf) /\
    (forall e, stext txt = RErr e -> (exists i, e = CorruptInput i) \/ (exists n, e = ScalarSize n))) /\
  forall b prog, Forall x_typed prog -> b <> Generic \/ xtracks prog (fun _ => true) = true ->
    fst (xrun (ops b) (baseTable b) prog (init (ops b))) = fst (ApiFullSpec.krun enc dec ell lizenc lizdec inv lizno text ptext stext prog iinit).
Proof.
  exists enc, dec, ell, lizenc, lizdec, inv, lizno, b64_encode, ptext, stext.
  exact (conj (conj enc_bytes (conj t_enc0 (conj enc_inj (conj dec_ok (conj ell_range (conj lizenc_range (conj lizdec_ok inv_ok)))))))
    (conj (conj lizno_ok text_ok) (conj ptext_ok (conj stext_ok f_run)))).
Qed.

Lemma f_same b c prog : Forall x_typed prog -> b <> Generic /\ c <> Generic \/ xtracks prog (fun _ => true) = true ->
  fst (xrun (ops b) (baseTable b) prog (init (ops b))) = fst (xrun (ops c) (baseTable c) prog (init (ops c))).
Proof. intros hw h. rewrite (f_run b prog hw) by tauto. symmetry. apply f_run; [exact hw | tauto]. Qed.

(** the calls that panic *)
Definition panics (i : xcall) : Prop :=
  match i with
  | XPRand _ None | XSRand _ None => True
  | XPUnmarshalText _ txt => ~ hex64 txt /\ over_long txt
  | XSUnmarshalText _ txt => over_long txt
  | _ => False
  end.
Local Notation kstep := (kstep enc dec ell lizenc lizdec inv lizno b64_encode ptext stext).
Lemma k_panics i s : fst (kstep i s) = XPanic <-> panics i.
Proof.
  destruct i; cbn [ApiFullSpec.kstep panics]; unfold k_point, k_scalar, k_lizard; cbn [fst].
  - destruct (jstep enc dec ell lizenc lizdec inv i s) as [o s']. split; [discriminate | intros []].
  - destruct r; cbn [fst]; split; try discriminate; try (intros []); reflexivity.
  - destruct r; cbn [fst]; split; try discriminate; try (intros []); reflexivity.
  - split; [discriminate | intros []].
  - split; [discriminate | intros []].
  - split; [discriminate | intros []].
  - split; [discriminate | intros []].
  - split; [discriminate | intros []].
  - split; [discriminate | intros []].
  - split; [discriminate | intros []].
  - split; [discriminate | intros []].
  - split; [discriminate | intros []].
  - split; [discriminate | intros []].
  - destruct (Nat.eqb (length data) 32); cbn [fst]; split; try discriminate; intros [].
  - destruct (Nat.eqb (length data) 32); cbn [fst]; split; try discriminate; intros [].
  - rewrite <- (proj1 (ptext_ok txt)). destruct (ptext txt); cbn [fst]; split; try discriminate; reflexivity.
  - rewrite <- (proj1 (stext_ok txt)). destruct (stext txt); cbn [fst]; split; try discriminate; reflexivity.
  - destruct (lizdec (val (ipts s a))); [|destruct (lizno (val (ipts s a)))]; split; try discriminate; intros [].
Qed.
Lemma krun_panics prog : forall s n, nth_error (fst (krun prog s)) n = Some XPanic <-> exists i, nth_error prog n = Some i /\ panics i.
Proof.
  induction prog as [|i rest IH]; intros s n; cbn [ApiFullSpec.krun].
  - destruct n; (split; [discriminate | intros (i & h & _); discriminate h]).
  - pose proof (k_panics i s) as h. destruct (kstep i s) as [o s1]. specialize (IH s1). destruct (krun rest s1) as [os s2]. cbn [fst] in *.
    destruct n as [|n]; cbn [nth_error]; [|apply IH]. split.
    + intro e. injection e as e. exists i. exact (conj eq_refl (proj1 h e)).
    + intros (j & e & hj). injection e as <-. rewrite (proj2 h hj). reflexivity.
Qed.
Lemma f_panics b prog : Forall x_typed prog -> b <> Generic \/ xtracks prog (fun _ => true) = true -> forall n,
  nth_error (fst (xrun (ops b) (baseTable b) prog (init (ops b)))) n = Some XPanic <-> exists i, nth_error prog n = Some i /\ panics i.
Proof. intros hw h n. rewrite (f_run b prog hw h). apply krun_panics. Qed.

(** texts that are too long, too short, wrong and right; a failure of crypto/rand; decodings that fail *)
Definition full_prog : list xcall :=
  [XSRand 0 None; XPString 0; XPDerive 1 (codes "test1"); XPUnmarshalText 1 (repeat 65 44); XPUnmarshalText 1 (codes "abc"); XPUnmarshalText 1 (codes "a*c");
   XSUnmarshalText 0 (66 :: repeat 65 42); XCall (SBigInt 0); XPUnmarshalBinary 2 [1; 2; 3]; XPUnmarshalBinary 2 (1 :: repeat 0 31); XCall (PEquals 2 1);
   XPDeriveDalek 1 []; XPMarshalText 2; XSDerive 1 []; XSMarshalBinary 0; XSString 0; XPLizardInto 2 (repeat 9 16); XPRand 3 None].
Definition full_obs (lz : list Z -> xobs) : list xobs :=
  [XPanic; XText (repeat 65 43); XObs ONone; XPanic; XErr (Some (PointSize 2)); XErr (Some (CorruptInput 1));
   XErr None; XObs (OInt 4); XErr (Some (PointSize 3)); XErr (Some NotAPoint); XObs (OBool true);
   XObs ONone; XText (repeat 65 43); XObs ONone; XObs (OBytes (4 :: repeat 0 31)); XText (66 :: repeat 65 42); lz (repeat 9 16); XPanic].
Lemma krun_case e d ll le ld iv no tx pt st : d (1 :: repeat 0 31) = None -> e 0 = repeat 0 32 -> tx (repeat 0 32) = repeat 65 43 ->
  pt (repeat 65 44) = RPanic -> pt (codes "abc") = RErr (PointSize 2) -> pt (codes "a*c") = RErr (CorruptInput 1) ->
  st (66 :: repeat 65 42) = RBuf (4 :: repeat 0 31) -> tx (4 :: repeat 0 31) = 66 :: repeat 65 42 ->
  fst (ApiFullSpec.krun e d ll le ld iv no tx pt st full_prog iinit) = full_obs (k_lizard ld no 0).
Proof.
  assert (v : (le_val (4 :: repeat 0 31) mod 2 ^ 253) mod l = 4) by (vm_compute; reflexivity).
  assert (b4 : le_bytes 32 4 = 4 :: repeat 0 31) by (vm_compute; reflexivity).
  unfold full_prog, full_obs.
  cbn [ApiFullSpec.krun ApiFullSpec.kstep fst].
  intros h1 h2 h3 h4 h5 h6 h7 h8. rewrite h4, h5, h6, h7. clear h4 h5 h6 h7.
  unfold k_point, k_scalar. rewrite h1. cbn [length Nat.eqb repeat]. cbn [repeat] in *.
  unfold jstep, istep, blank_step, i1, i2, iP, iS, iinit, set_, val. cbn [ipts iscs itbs fst Nat.eqb].
  rewrite v, h2, h3, b4, h8. reflexivity.
Qed.
Lemma f_case b : Forall x_typed full_prog /\ xtracks full_prog (fun _ => true) = true /\
  fst (xrun (ops b) (baseTable b) full_prog (init (ops b))) = full_obs (k_lizard lizdec lizno 0).
Proof.
  assert (hb : bytes 32 (1 :: repeat 0 31)) by (split; [reflexivity|]; repeat constructor; lia).
  assert (hd : dec (1 :: repeat 0 31) = None).
  { destruct (SetBytes_dlog _ _ _ _ _ _ ideal (laws PureGo64) (baseTable PureGo64) (base_ok PureGo64) _ hb) as (Q & e & _).
    assert (h : fst (pt_SetBytes (ops PureGo64) (1 :: repeat 0 31)) = false) by exact Points51.odd_rejected. apply (f_equal fst) in e. cbn [fst] in e. rewrite h in e.
    destruct (dec (1 :: repeat 0 31)); [discriminate e | reflexivity]. }
  assert (hw : Forall x_typed full_prog).
  { assert (h3 : Forall is_byte [1; 2; 3]) by (repeat constructor; unfold is_byte; lia).
    assert (h9 : bytes 16 (repeat 9 16)) by (split; [reflexivity|]; repeat constructor; unfold is_byte; lia).
    apply Forall_forall. intros i hi. unfold full_prog in hi. repeat (destruct hi as [<-|hi]; [first [exact Logic.I | exact h3 | exact h9 | exact (proj2 hb)]|]). destruct hi. }
  assert (ht : xtracks full_prog (fun _ => true) = true) by reflexivity.
  refine (conj hw (conj ht _)). rewrite (f_run b full_prog hw (or_intror ht)).
  apply krun_case; [exact hd | exact t_enc0 | | | | | |]; vm_compute; reflexivity.
Qed.
