(** Every sequence of calls of all methods behaves like the machine of ApiFullSpec.v. *)
From Coq Require Import ZArith Znumtheory List Lia Bool.
From Verif Require Import Words Primes NumTheory Fp Edwards GroupOrder RistrettoSpec FieldModel CurveModel FieldLaws CurveProofs
  EncodeProofs ScalarMultProofs ScalarCode ScalarModel ScalarReduce ScalarSub ScalarFacts TextCodec RistrettoModel StringModel Sha256 Sha512
  RistrettoFacts ElligatorMath ElligatorSpec ElligatorProofs LizardProofs Elligator51 ApiModel ApiSpec ApiProofs
  DegenerateFacts DegenerateMult DegenerateLizard ApiTotalSpec ApiTotalProofs TextProofs Text51 ErrorModel ErrorFacts ErrorText HashFacts ApiFullModel ApiFullSpec.
Import ListNotations.
Open Scope Z_scope.

(** the texts *)
Definition read (r : result (list Z)) : reading := match r with Panics => RPanic | Ret _ (Some e) => RErr e | Ret buf None => RBuf buf end.
Definition ptext (txt : list Z) : reading := read (er_textToBuf (repeat 0 32) txt).
Definition stext (txt : list Z) : reading := read (er_to_buf ScalarSize (repeat 0 32) txt).
Lemma ptext_bytes txt buf : ptext txt = RBuf buf -> bytes 32 buf.
Proof.
  unfold ptext. pose proof (erase_textToBuf (repeat 0 32) txt) as E. destruct (er_textToBuf (repeat 0 32) txt) as [d [e|]|]; try discriminate.
  cbn [read]. intro h. injection h as <-. exact (text_done_bytes _ txt d len0 (eq_sym E)).
Qed.
Lemma stext_bytes txt buf : stext txt = RBuf buf -> bytes 32 buf.
Proof.
  unfold stext. pose proof (erase_to_buf ScalarSize (repeat 0 32) txt) as E. destruct (er_to_buf ScalarSize (repeat 0 32) txt) as [d [e|]|]; try discriminate.
  cbn [read]. intro h. injection h as <-. exact (buf_done_bytes _ txt d len0 (eq_sym E)).
Qed.

(** the Points that may be added and multiplied on the generic build, as in [track] *)
Definition xtrack (i : xcall) (c : nat -> bool) : option (nat -> bool) :=
  match i with
  | XCall i => track i c
  | XPRand d (Some _) | XPDerive d _ | XPDeriveDalek d _ => Some (set_ c d true)
  | XPUnmarshalBinary d _ | XPUnmarshalText d _ | XPLizardInto d _ => Some (set_ c d false)
  | _ => Some c
  end.
Fixpoint xtracks (prog : list xcall) (c : nat -> bool) : bool :=
  match prog with
  | [] => true
  | i :: rest => match xtrack i c with None => false | Some c => xtracks rest c end
  end.

Definition liz_error (e : lizard_err) : option error :=
  match e with lizard_nil => None | lizard_none => Some NoPreimage | lizard_multiple => Some ManyPreimages end.
Lemma er_lizard (K : FeOps) H P buf :
  er_pt_LizardInto K H P buf = (let '(e, d, Q) := pt_LizardInto K H P buf in Ret (d, Q) (liz_error e)).
Proof.
  unfold er_pt_LizardInto, pt_LizardInto. destruct (ep_RistrettoElligator2Inverse K P) as [[mask fes] Q].
  destruct (for_up 8 (lizard_step K H mask fes) (buf, 0)) as [d n]. destruct (n =? 1); [reflexivity|]. destruct (n =? 0); reflexivity.
Qed.

Section Ideal.
Context (enc : Z -> list Z) (dec : list Z -> option Z) (ell lizenc : list Z -> Z) (lizdec : Z -> option (list Z)) (inv : Z -> Z).
Context (I : ideal_ok enc dec ell lizenc lizdec inv) (enc0 : enc 0 = repeat 0 32).
Context (lizno : Z -> bool) (hno : forall m, 0 <= m < l -> (lizno m = true <-> forall d, bytes 16 d -> lizenc d <> m)).
Local Notation jstep := (jstep enc dec ell lizenc lizdec inv).
Local Notation kstep := (kstep enc dec ell lizenc lizdec inv lizno b64_encode ptext stext).
Local Notation krun := (krun enc dec ell lizenc lizdec inv lizno b64_encode ptext stext).
Local Notation k_lizard := (k_lizard lizdec lizno).

Section Machine.
Context {K : FeOps} (L : FeLaws K) (base : list (list (niels (fe K)))) (hbase : tbl_ok L 1 base EBc).
Local Notation corrT := (corrT L).
Local Notation cleanT := (cleanT L).
Local Notation hasP := (hasP L).
Local Notation fitsP := (fitsP L).
Local Notation need := (need L).

Definition xneed (i : xcall) (st : state K) : Prop := match i with XCall i => need i st | _ => True end.
Definition xtracked (i : xcall) (st st' : state K) : Prop := forall c c', xtrack i c = Some c' -> cleanT c st -> cleanT c' st'.

Lemma corrT_S st s d x v : corrT st s -> hasS x v -> corrT (setS K st d x) (iS s d v).
Proof. intros (hc & hb & ht) h. exact (conj (corr_S L st s d x v hc h) (conj hb ht)). Qed.
Lemma corrT_S_same st s d x : corrT st s -> hasS x (iscs s d) -> corrT (setS K st d x) s.
Proof. intros (hc & hb & ht) h. exact (conj (corr_S_same L st s d x hc h) (conj hb ht)). Qed.
Lemma corrT_P_same st s d x : corrT st s -> (forall m, ipts s d = Some m -> hasP x m) -> (ipts s d = None -> deg0 L x) -> corrT (setP K st d x) s.
Proof.
  intros (hc & hb & ht) h1 h2. refine (conj (corr_P_same L st s d x hc h1) (conj _ ht)). intros j. unfold setP, set_. cbn [pts].
  destruct (Nat.eqb_spec j d) as [->|]; [exact h2 | apply hb].
Qed.

(** LizardInto *)
Lemma into_hasP P m buf : hasP P m -> exists e d Q, pt_LizardInto K sha256 P buf = (e, d, Q) /\ liz_view (liz_error e) d = k_lizard m buf /\ hasP Q m.
Proof.
  intros (A & hP & hA). destruct (LizardInto_ok L sha256 sha256_bytes P A buf hP) as (ds & Q & hQ & e & h1 & h2 & h3 & _).
  do 3 eexists. split; [exact e|]. clear e. split.
  2:{ exists A. split; [|exact hA]. split; [exact hQ | exact (proj2 hP)]. }
  assert (hn : NoDup ds).
  { apply h3. intros d hd. destruct (sha256_special d hd) as (n1 & n2 & _). split; assumption. }
  assert (hi : forall d, In d ds <-> bytes 16 d /\ lizenc d = m).
  { intro d. split.
    - intro hd. destruct (h1 d hd) as [hb hB]. split; [exact hb|]. apply (lizenc_map _ _ _ _ _ _ I d A m hb hA). exact hB.
    - intros [hb he]. apply (lizenc_map _ _ _ _ _ _ I d A m hb hA) in he. destruct he as (B & hB & hR). apply (h2 d B hb hB hR).
      apply (sha256_special d hb). }
  assert (hm := proj1 hA). clear h1 h2 h3 hP hA hQ. unfold ApiFullSpec.k_lizard. pose proof (id_lizdec _ _ _ _ _ _ I m) as hl.
  destruct ds as [|x [|y r]].
  - assert (e1 : lizdec m = None).
    { destruct (lizdec m) as [d|] eqn:el; [|reflexivity]. destruct (proj1 (hl d hm) eq_refl) as (hb & he & _). destruct (proj2 (hi d) (conj hb he)). }
    assert (e2 : lizno m = true).
    { apply (hno m hm). intros d hb he. destruct (proj2 (hi d) (conj hb he)). }
    rewrite e1, e2. reflexivity.
  - assert (e1 : lizdec m = Some x).
    { apply (hl x hm). destruct (proj1 (hi x) (or_introl eq_refl)) as [hb he]. refine (conj hb (conj he _)).
      intros d' hb' he'. destruct (proj2 (hi d') (conj hb' he')) as [<- | []]. reflexivity. }
    rewrite e1. reflexivity.
  - assert (e1 : lizdec m = None).
    { destruct (lizdec m) as [d|] eqn:el; [|reflexivity]. exfalso. destruct (proj1 (hl d hm) eq_refl) as (hb & he & hu).
      assert (x = d) by (apply hu; apply (hi x); left; reflexivity). assert (y = d) by (apply hu; apply (hi y); right; left; reflexivity).
      subst x y. inversion hn as [|? ? hx ?]. apply hx. left. reflexivity. }
    assert (e2 : lizno m = false).
    { destruct (lizno m) eqn:el; [|reflexivity]. exfalso. destruct (proj1 (hi x) (or_introl eq_refl)) as [hb he].
      exact (proj1 (hno m hm) el x hb he). }
    rewrite e1, e2. reflexivity.
Qed.
Lemma into_blank P buf : deg0 L P -> exists e d Q, pt_LizardInto K sha256 P buf = (e, d, Q) /\ liz_view (liz_error e) d = k_lizard 0 buf /\ deg0 L Q.
Proof.
  intro h. destruct (deg_lizard L sha256 P _ E0 buf h (point_d L _ _ (point_Zero L)) eq_refl) as (Q & hQ & e).
  destruct (into_hasP (pt_SetZero K) 0 buf (hasP_point L _ _ _ (point_Zero L) dlog_0)) as (er & d & Q0 & e0 & hv & _).
  exists er, d, Q. rewrite e, e0. exact (conj eq_refl (conj hv hQ)).
Qed.

(** encodings *)
Lemma enc_val st s a : corrT st s -> pt_Bytes K (pts K st a) = enc (val (ipts s a)).
Proof.
  intros (hc & hb & _). destruct (ipts s a) as [m|] eqn:e; cbn [val].
  - destruct (proj1 hc a m e) as (A & hP & hA). destruct (Bytes_dpoint L _ _ hP) as (q & eq & hq). rewrite eq. symmetry. exact (id_enc _ _ _ _ _ _ I q A m hq hA).
  - rewrite enc0. exact (deg0_bytes L _ (hb a e)).
Qed.
Lemma sc_val st s a : corrT st s -> sc_bytes (scs K st a) = le_bytes 32 (iscs s a).
Proof. intros (hc & _ & _). exact (hasS_bytes _ _ (proj1 (proj2 hc) a)). Qed.

Lemma ell_hasP buf : bytes 32 buf -> exists A, point L (pt_SetElligator K buf) A /\ dlog A (ell buf).
Proof.
  intro hb. destruct (rfc_map_exists (fe_of buf)) as [A hA]. exists A. split; [exact (point_SetElligator L buf A hb hA) | exact (id_ell _ _ _ _ _ _ I buf A hb hA)].
Qed.
(** a Point is set to a reduced value *)
Lemma set_point i st s d x A m : corrT st s -> (forall c, xtrack i c = Some (set_ c d true)) -> point L x A -> dlog A m ->
  corrT (setP K st d x) (iP s d (Some m)) /\ xtracked i st (setP K st d x).
Proof.
  intros hc hk hx hm. split.
  - apply corrT_P; [exact hc | | discriminate]. intros n e. injection e as <-. exact (hasP_point L _ _ _ hx hm).
  - intros c c' e hcl. rewrite hk in e. injection e as <-. apply cleanT_P; [exact hcl|]. intros _. exact (point_fits L _ _ hx).
Qed.
Lemma set_scalar i st s d x m : corrT st s -> (forall c, xtrack i c = Some c) -> hasS x m ->
  corrT (setS K st d x) (iS s d m) /\ xtracked i st (setS K st d x).
Proof.
  intros hc hk hx. split; [exact (corrT_S st s d x m hc hx)|]. intros c c' e hcl. rewrite hk in e. injection e as <-. exact hcl.
Qed.
Lemma no_effect i st s : corrT st s -> (forall c, xtrack i c = Some c) -> corrT st s /\ xtracked i st st.
Proof. intros hc hk. split; [exact hc|]. intros c c' e hcl. rewrite hk in e. injection e as <-. exact hcl. Qed.
Lemma clear_track i st d x : (forall c, xtrack i c = Some (set_ c d false)) -> xtracked i st (setP K st d x).
Proof. intros hk c c' e hcl. rewrite hk in e. injection e as <-. apply cleanT_P; [exact hcl | discriminate]. Qed.

(** decoding of 32 bytes into a Point: the receiver and the error *)
Lemma decode_point st s d buf : corrT st s -> bytes 32 buf -> exists x,
  (let '(ok, q) := pt_SetBytes K buf in if negb ok then Ret q (Some NotAPoint) else Ret q None) =
    Ret x (match dec buf with Some _ => None | None => Some NotAPoint end) /\
  corrT (setP K st d x) (iP s d (dec buf)).
Proof.
  intros hc hb. destruct (dec buf) as [m|] eqn:ed.
  - destruct (SetBytes_dlog _ _ _ _ _ _ I L base hbase buf hb) as (Q & e & hQ). rewrite ed in e. exists Q. rewrite e. split; [reflexivity|].
    apply corrT_P; [exact hc | | discriminate]. intros n en. apply hQ. rewrite ed. exact en.
  - exists (ep_zerovalue K). rewrite (SetBytes_fails _ _ _ _ _ _ I L base hbase buf hb ed). split; [reflexivity|].
    apply corrT_P; [exact hc | discriminate|]. intros _. apply deg_deg0, deg_zv.
Qed.
Lemma keep_point st s d : corrT st s -> corrT (setP K st d (pts K st d)) s.
Proof. intro hc. pose proof hc as (h1 & h2 & _). apply corrT_P_same; [exact hc | apply h1 | apply h2]. Qed.
Lemma keep_scalar st s d : corrT st s -> corrT (setS K st d (scs K st d)) s.
Proof. intro hc. pose proof hc as (h1 & _). apply corrT_S_same; [exact hc | apply h1]. Qed.

Definition good (i : xcall) (st : state K) (s : istate) : Prop :=
  exists st', xstep K base i st = (fst (kstep i s), st') /\ corrT st' (snd (kstep i s)) /\ xtracked i st st'.

Lemma g_call i st s : corrT st s -> well_typed i -> need i st -> good (XCall i) st s.
Proof.
  intros hc hw hn. destruct (total_step _ _ _ _ _ _ I L base hbase i st s hc hw hn) as (st' & e & h1 & h2).
  exists st'. cbn [xstep ApiFullSpec.kstep]. rewrite e. destruct (jstep i s) as [o s']. exact (conj eq_refl (conj h1 h2)).
Qed.
Lemma g_prand d r st s : corrT st s -> x_typed (XPRand d r) -> good (XPRand d r) st s.
Proof.
  intros hc hw. destruct r as [buf|]; cbn [x_typed] in hw; [|exists st; exact (conj eq_refl (no_effect (XPRand d None) st s hc (fun _ => eq_refl)))].
  destruct (ell_hasP buf hw) as (A & h1 & h2). exists (setP K st d (pt_Rand K buf)). split; [reflexivity|].
  exact (set_point (XPRand d (Some buf)) st s d _ A _ hc (fun _ => eq_refl) h1 h2).
Qed.
Lemma g_srand d r st s : corrT st s -> x_typed (XSRand d r) -> good (XSRand d r) st s.
Proof.
  intros hc hw. destruct r as [buf|]; cbn [x_typed] in hw; [|exists st; exact (conj eq_refl (no_effect (XSRand d None) st s hc (fun _ => eq_refl)))].
  exists (setS K st d (sc_rand buf)). split; [reflexivity|].
  exact (set_scalar (XSRand d (Some buf)) st s d _ _ hc (fun _ => eq_refl) (setReduced_spec buf hw)).
Qed.
Lemma g_pderive d m st s : corrT st s -> good (XPDerive d m) st s.
Proof.
  intros hc. destruct (ell_hasP _ (proj1 (hash_bytes _ (sha512_bytes m)))) as (A & h1 & h2).
  exists (setP K st d (pt_Derive K sha512 m)). split; [reflexivity|].
  exact (set_point (XPDerive d m) st s d _ A _ hc (fun _ => eq_refl) h1 h2).
Qed.
Lemma g_dalek d m st s : corrT st s -> good (XPDeriveDalek d m) st s.
Proof.
  intros hc. destruct (hash_bytes _ (sha512_bytes m)) as [b1 b2]. destruct (ell_hasP _ b1) as (A & h1 & h2). destruct (ell_hasP _ b2) as (B & h3 & h4).
  exists (setP K st d (pt_DeriveDalek K sha512 m)). split; [reflexivity|].
  exact (set_point (XPDeriveDalek d m) st s d _ _ _ hc (fun _ => eq_refl) (point_Add L _ _ _ _ h1 h3) (dlog_add _ _ _ _ h2 h4)).
Qed.
Lemma g_sderive d m st s : corrT st s -> good (XSDerive d m) st s.
Proof.
  intros hc. exists (setS K st d (sc_derive sha512 m)). split; [reflexivity|]. destruct (scalar_sha m) as (h1 & h2 & _ & _).
  exact (set_scalar (XSDerive d m) st s d _ _ hc (fun _ => eq_refl) (conj h1 h2)).
Qed.
Lemma g_sshort d m st s : corrT st s -> good (XSDeriveShort d m) st s.
Proof.
  intros hc. exists (setS K st d (sc_deriveShort sha512 m)). split; [reflexivity|]. destruct (scalar_sha m) as (_ & _ & h1 & h2).
  exact (set_scalar (XSDeriveShort d m) st s d _ _ hc (fun _ => eq_refl) (conj h1 h2)).
Qed.
Lemma g_out a st s : corrT st s -> good (XPMarshalBinary a) st s /\ good (XSMarshalBinary a) st s /\ good (XPMarshalText a) st s /\
  good (XSMarshalText a) st s /\ good (XPString a) st s /\ good (XSString a) st s.
Proof.
  intro hc. pose proof (enc_val st s a hc) as e1. pose proof (sc_val st s a hc) as e2.
  repeat (apply conj); exists st; (split; [|apply no_effect; [exact hc | reflexivity]]); cbn [xstep ApiFullSpec.kstep fst];
    unfold pt_MarshalBinary, sc_marshalBinary, pt_String, sc_String, pt_MarshalText, sc_MarshalText; rewrite ?e1, ?e2; reflexivity.
Qed.
Lemma g_pbin d data st s : corrT st s -> Forall is_byte data -> good (XPUnmarshalBinary d data) st s.
Proof.
  intros hc hw. unfold good. cbn [xstep ApiFullSpec.kstep]. unfold er_pt_UnmarshalBinary. destruct (Nat.eqb_spec (length data) 32) as [h|h]; cbn [negb].
  - destruct (decode_point st s d data hc (bytes_of _ hw h)) as (x & e & hx). rewrite e. eexists. split; [reflexivity|].
    exact (conj hx (clear_track (XPUnmarshalBinary d data) st d x (fun _ => eq_refl))).
  - eexists. split; [reflexivity|]. exact (conj (keep_point st s d hc) (clear_track (XPUnmarshalBinary d data) st d _ (fun _ => eq_refl))).
Qed.
Lemma g_ptext d txt st s : corrT st s -> good (XPUnmarshalText d txt) st s.
Proof.
  intros hc. unfold good. cbn [xstep ApiFullSpec.kstep]. unfold er_pt_UnmarshalText. pose proof (ptext_bytes txt) as hb. unfold ptext in *.
  destruct (er_textToBuf (repeat 0 32) txt) as [buf [er|]|]; cbn [read] in *.
  - eexists. split; [reflexivity|]. exact (conj (keep_point st s d hc) (clear_track (XPUnmarshalText d txt) st d _ (fun _ => eq_refl))).
  - destruct (decode_point st s d buf hc (hb buf eq_refl)) as (x & e & hx). rewrite e. eexists. split; [reflexivity|].
    exact (conj hx (clear_track (XPUnmarshalText d txt) st d x (fun _ => eq_refl))).
  - eexists. split; [reflexivity|]. refine (conj hc _). intros c c' e hcl. cbn [xtrack] in e. injection e as <-. intros j. unfold set_.
    destruct (Nat.eqb j d); [discriminate | apply hcl].
Qed.
Lemma g_sbin d data st s : corrT st s -> Forall is_byte data -> good (XSUnmarshalBinary d data) st s.
Proof.
  intros hc hw. unfold good. cbn [xstep ApiFullSpec.kstep]. unfold er_sc_UnmarshalBinary. destruct (Nat.eqb_spec (length data) 32) as [h|h]; cbn [negb].
  - eexists. split; [reflexivity|]. exact (set_scalar (XSUnmarshalBinary d data) st s d _ _ hc (fun _ => eq_refl) (setBytes_spec _ (bytes_of _ hw h))).
  - eexists. split; [reflexivity|]. refine (conj (keep_scalar st s d hc) _). intros c c' e hcl. injection e as <-. exact hcl.
Qed.
Lemma g_stext d txt st s : corrT st s -> good (XSUnmarshalText d txt) st s.
Proof.
  intros hc. unfold good. cbn [xstep ApiFullSpec.kstep]. unfold er_sc_UnmarshalText. pose proof (stext_bytes txt) as hb. unfold stext in *.
  destruct (er_to_buf ScalarSize (repeat 0 32) txt) as [buf [er|]|]; cbn [read] in *.
  - eexists. split; [reflexivity|]. refine (conj (keep_scalar st s d hc) _). intros c c' e hcl. injection e as <-. exact hcl.
  - eexists. split; [reflexivity|]. exact (set_scalar (XSUnmarshalText d txt) st s d _ _ hc (fun _ => eq_refl) (setBytes_spec _ (hb buf eq_refl))).
  - eexists. split; [reflexivity|]. exact (no_effect (XSUnmarshalText d txt) st s hc (fun _ => eq_refl)).
Qed.
Lemma g_lizard a buf st s : corrT st s -> good (XPLizardInto a buf) st s.
Proof.
  intros hc. pose proof hc as (h1 & h2 & _). unfold good. cbn [xstep ApiFullSpec.kstep]. rewrite er_lizard.
  assert (H : exists e d Q, pt_LizardInto K sha256 (pts K st a) buf = (e, d, Q) /\ liz_view (liz_error e) d = k_lizard (val (ipts s a)) buf /\
    corrT (setP K st a Q) s).
  { destruct (ipts s a) as [m|] eqn:em; cbn [val].
    - destruct (into_hasP _ m buf (proj1 h1 a m em)) as (e & d & Q & e1 & e2 & hQ). exists e, d, Q. refine (conj e1 (conj e2 _)).
      apply corrT_P_same; [exact hc | |]; rewrite em; [intros n en; injection en as <-; exact hQ | discriminate].
    - destruct (into_blank _ buf (h2 a em)) as (e & d & Q & e1 & e2 & hQ). exists e, d, Q. refine (conj e1 (conj e2 _)).
      apply corrT_P_same; [exact hc | |]; rewrite em; [discriminate | intros _; exact hQ]. }
  destruct H as (e & d & Q & e1 & e2 & hQ). rewrite e1. exists (setP K st a Q). cbn [fst snd]. rewrite e2.
  exact (conj eq_refl (conj hQ (clear_track (XPLizardInto a buf) st a Q (fun _ => eq_refl)))).
Qed.

Theorem full_step i st s : corrT st s -> x_typed i -> xneed i st -> good i st s.
Proof.
  intros hc hw hn. destruct i; cbn [x_typed xneed] in *; try (apply (g_out a st s hc)).
  - exact (g_call i st s hc hw hn).
  - exact (g_prand d r st s hc hw).
  - exact (g_srand d r st s hc hw).
  - exact (g_pderive d buf st s hc).
  - exact (g_dalek d data st s hc).
  - exact (g_sderive d buf st s hc).
  - exact (g_sshort d buf st s hc).
  - exact (g_pbin d data st s hc hw).
  - exact (g_sbin d data st s hc hw).
  - exact (g_ptext d txt st s hc).
  - exact (g_stext d txt st s hc).
  - exact (g_lizard a buf st s hc).
Qed.

Theorem full_run prog : forall c st s, corrT st s -> Forall x_typed prog ->
  (forall i st, need i st) \/ (cleanT c st /\ xtracks prog c = true) ->
  fst (xrun K base prog st) = fst (krun prog s).
Proof.
  induction prog as [|i rest IH]; intros c st s hc hw hs; [reflexivity|].
  inversion hw as [|? ? hw1 hw2]. subst. cbn [ApiFullSpec.krun xrun xtracks] in *.
  assert (H : exists c', xneed i st /\ ((forall i st, need i st) \/ (forall st', xtracked i st st' -> cleanT c' st' /\ xtracks rest c' = true))).
  { destruct hs as [hs|[h1 h2]].
    - exists c. split; [destruct i; try exact Logic.I; apply hs | left; exact hs].
    - destruct (xtrack i c) as [c'|] eqn:e; [|discriminate h2]. exists c'. split.
      + destruct i; try exact Logic.I. exact (track_needT L i c c' st h1 e).
      + right. intros st' ht. exact (conj (ht c c' e h1) h2). }
  destruct H as (c' & hn & hs'). destruct (full_step i st s hc hw1 hn) as (st1 & e1 & hc1 & ht1). rewrite e1.
  destruct (kstep i s) as [o s1]. cbn [fst snd] in *.
  assert (e2 := IH c' st1 s1 hc1 hw2). destruct (xrun K base rest st1) as [os st2], (krun rest s1) as [os' s2]. cbn [fst] in *. f_equal.
  apply e2. destruct hs' as [h|h]; [left; exact h | right; exact (h st1 ht1)].
Qed.
End Machine.
End Ideal.
