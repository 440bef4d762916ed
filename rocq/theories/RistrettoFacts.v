(** The Point methods of ristretto.go over a lawful field backend: group operations, scalar
    multiplication, equality, encoding and decoding. *)
From Coq Require Import ZArith Znumtheory List Lia Bool.
From Verif Require Import Words Primes Fp Edwards GroupOrder RistrettoSpec FieldModel CurveModel FieldLaws CurveProofs
  EncodeProofs ScalarMultProofs ScalarCode ScalarModel ScalarReduce ScalarSub ScalarFacts TextCodec RistrettoModel.
Import ListNotations.
Open Scope Z_scope.

Lemma even_EBc : even EBc.
Proof. apply (even_Req EBc EB); [apply even_B | apply EBc_Req]. Qed.

Lemma l_lt_254 : l < 2 ^ 254.
Proof. vm_compute. reflexivity. Qed.

Lemma reduced_bytes s : reduced s -> bytes 32 (sc_bytes s) /\ le_val (sc_bytes s) = scv s /\ le_val (sc_bytes s) < 2 ^ 254
  /\ le_val (sc_bytes s) < 2 ^ 255.
Proof.
  intros [hw hr]. destruct (sc_bytes_ok s hw) as [h1 h2]. pose proof l_lt_254. refine (conj h1 (conj h2 _)). lia.
Qed.

Section Facts.
Context {K : FeOps} (L : FeLaws K).
Local Notation FE := (fe K).

(** the Point [P] represents the even curve point [A] *)
Definition point (P : ext FE) (A : E) : Prop := rf L P A /\ even A.
Definition valid (P : ext FE) : Prop := exists A, point P A.

(** the same for a Point that possibly cannot be the second operand of an addition *)
Definition dpoint (P : ext FE) (A : E) : Prop := rd L P A /\ even A.

Lemma point_d P A : point P A -> dpoint P A.
Proof. intros [[h _] he]. exact (conj h he). Qed.

Lemma point_Zero : point (pt_SetZero K) E0.
Proof. split; [apply rpt_1, ep_Zero_ok | apply even_0]. Qed.
Lemma dpoint_Add P Q A B : dpoint P A -> point Q B -> point (pt_Add K P Q) (Eadd A B).
Proof. intros [h1 h2] [h3 h4]. split; [apply rpt_1, ep_Add_ok; assumption | apply even_add; assumption]. Qed.
Lemma dpoint_Sub P Q A B : dpoint P A -> point Q B -> point (pt_Sub K P Q) (Esub A B).
Proof. intros [h1 h2] [h3 h4]. split; [apply rpt_1, ep_Sub_ok; assumption | apply even_add; [|apply even_opp]; assumption]. Qed.
Lemma dpoint_Double P A : dpoint P A -> point (pt_Double K P) (Eadd A A).
Proof. intros [h1 h2]. split; [apply rpt_1, ep_Double_ok; assumption | apply even_double]. Qed.
Lemma point_Add P Q A B : point P A -> point Q B -> point (pt_Add K P Q) (Eadd A B).
Proof. intros h1 h2. exact (dpoint_Add P Q A B (point_d P A h1) h2). Qed.
Lemma point_Sub P Q A B : point P A -> point Q B -> point (pt_Sub K P Q) (Esub A B).
Proof. intros h1 h2. exact (dpoint_Sub P Q A B (point_d P A h1) h2). Qed.
Lemma point_Double P A : point P A -> point (pt_Double K P) (Eadd A A).
Proof. intros h. exact (dpoint_Double P A (point_d P A h)). Qed.
Lemma point_Neg P A : point P A -> point (pt_Neg K P) (Eopp A).
Proof.
  intros [h1 h2]. split; [exact (ep_Neg_rf L P A h1) | apply even_opp; assumption].
Qed.
Lemma dpoint_Neg P A : dpoint P A -> dpoint (pt_Neg K P) (Eopp A).
Proof.
  intros [h1 h2]. split; [exact (ep_Neg_rd L P A h1) | apply even_opp; assumption].
Qed.
Lemma point_Set P A : point P A -> pt_Set K P = P /\ point (pt_Set K P) A.
Proof. intros h. destruct P. split; [reflexivity | exact h]. Qed.

Lemma dpoint_ConditionalSet P Q A B b : dpoint P A -> dpoint Q B ->
  pt_ConditionalSet K P Q (Z.b2z b) = if b then Q else P.
Proof.
  intros [h1 _] [h2 _]. fe_facts L. apply (ep_ConditionalSet_ok L 2 2 P Q A B b (rd_rpt L P A h1) (rd_rpt L Q B h2)); lia.
Qed.
Lemma point_ConditionalSet P Q A B b : point P A -> point Q B ->
  pt_ConditionalSet K P Q (Z.b2z b) = if b then Q else P.
Proof. intros h1 h2. exact (dpoint_ConditionalSet P Q A B b (point_d _ _ h1) (point_d _ _ h2)). Qed.

(** ** Equals *)
Lemma EqualsI_dpoint P Q A B : dpoint P A -> dpoint Q B ->
  (pt_EqualsI K P Q = 1 <-> Req A B) /\ (pt_EqualsI K P Q = 0 <-> ~ Req A B).
Proof. intros [h1 _] [h2 _]. apply (ep_RistrettoEqualsI_iff L); assumption. Qed.
Lemma EqualsI_point P Q A B : point P A -> point Q B ->
  (pt_EqualsI K P Q = 1 <-> Req A B) /\ (pt_EqualsI K P Q = 0 <-> ~ Req A B).
Proof. intros h1 h2. exact (EqualsI_dpoint P Q A B (point_d _ _ h1) (point_d _ _ h2)). Qed.

Lemma Equals_dpoint P Q A B : dpoint P A -> dpoint Q B -> (pt_Equals K P Q = true <-> Req A B).
Proof. intros h1 h2. unfold pt_Equals. rewrite Z.eqb_eq. apply EqualsI_dpoint; assumption. Qed.

Lemma Equals_point P Q A B : point P A -> point Q B -> (pt_Equals K P Q = true <-> Req A B).
Proof. intros h1 h2. unfold pt_Equals. rewrite Z.eqb_eq. apply EqualsI_point; assumption. Qed.

(** the all-zero value of a Point equals everything *)
Lemma Equals_zerovalue Q B : rd L Q B ->
  pt_Equals K (ep_zerovalue K) Q = true /\ pt_Equals K Q (ep_zerovalue K) = true.
Proof.
  intros (w & hw & g1 & g2 & g3 & g4). fe_facts L. pose proof (law_zero K L) as h0. unfold pt_Equals, pt_EqualsI, ep_RistrettoEqualsI.
  cbv zeta. cbn [ep_zerovalue eX eY].
  split.
  - rewrite (fe_EqualsI_ok L 1 1 _ _ (F0 * (ey B * w))%F ((ex B * w) * F0)%F) by (try lia; eapply fe_mul_r; eauto; lia).
    rewrite (fe_EqualsI_ok L 1 1 _ _ (F0 * (ex B * w))%F (F0 * (ey B * w))%F) by (try lia; eapply fe_mul_r; eauto; lia).
    replace (F0 * (ey B * w))%F with F0 by ring. replace ((ex B * w) * F0)%F with F0 by ring.
    replace (F0 * (ex B * w))%F with F0 by ring. rewrite Feqb_refl'. reflexivity.
  - rewrite (fe_EqualsI_ok L 1 1 _ _ ((ex B * w) * F0)%F (F0 * (ey B * w))%F) by (try lia; eapply fe_mul_r; eauto; lia).
    rewrite (fe_EqualsI_ok L 1 1 _ _ ((ex B * w) * F0)%F ((ey B * w) * F0)%F) by (try lia; eapply fe_mul_r; eauto; lia).
    replace (F0 * (ey B * w))%F with F0 by ring. replace ((ex B * w) * F0)%F with F0 by ring.
    replace ((ey B * w) * F0)%F with F0 by ring. rewrite Feqb_refl'. reflexivity.
Qed.

(** ** Encoding *)
Lemma Bytes_dpoint P A : dpoint P A -> exists s, pt_Bytes K P = le_bytes 32 (fval s) /\ encodes s A.
Proof. intros [h1 h2]. apply (ep_RistrettoInto_ok L); assumption. Qed.
Lemma Bytes_point P A : point P A -> exists s, pt_Bytes K P = le_bytes 32 (fval s) /\ encodes s A.
Proof. intro h. exact (Bytes_dpoint P A (point_d P A h)). Qed.

Lemma le_bytes_fval_inj s t : le_bytes 32 (fval s) = le_bytes 32 (fval t) -> s = t.
Proof.
  intro h. apply F_eq. rewrite <- (le_val_le_bytes 32 (fval s) (fval_256 s)), <- (le_val_le_bytes 32 (fval t) (fval_256 t)), h.
  reflexivity.
Qed.

Lemma Bytes_bytes P A : dpoint P A -> bytes 32 (pt_Bytes K P).
Proof.
  intro h. destruct (Bytes_dpoint P A h) as (s & -> & _). apply le_bytes_bytes.
Qed.

Lemma Bytes_iff P Q A B : dpoint P A -> dpoint Q B -> (pt_Bytes K P = pt_Bytes K Q <-> Req A B).
Proof.
  intros h1 h2. destruct (Bytes_dpoint P A h1) as (s & -> & es). destruct (Bytes_dpoint Q B h2) as (t & -> & et). split; intro h.
  - apply le_bytes_fval_inj in h. subst t. apply (encodes_inj s); assumption.
  - rewrite (encodes_unique s t A B es et h). reflexivity.
Qed.

Lemma fval_le_bytes s : of_Z (le_val (le_bytes 32 (fval s)) mod 2 ^ 255) = s.
Proof.
  rewrite (le_val_le_bytes 32 (fval s) (fval_256 s)). pose proof (fval_range s) as hr.
  rewrite Z.mod_small. 2:{ split; [lia|]. apply (Z.lt_trans _ p); [lia|]. vm_compute. reflexivity. }
  apply of_Z_fval.
Qed.

(** ** Scalar multiplication *)
Lemma point_ScalarMult P A s : point P A -> reduced s -> point (pt_ScalarMult K P s) (Emul (scv s) A).
Proof.
  intros [h1 h2] hs. destruct (reduced_bytes s hs) as (hb & <- & hv & _).
  split; [|apply even_mul; assumption]. apply (ep_ScalarMult_ok L); assumption.
Qed.

Lemma point_PublicScalarMult P A s : point P A -> reduced s ->
  exists R, pt_PublicScalarMult K P s = Some R /\ point R (Emul (scv s) A).
Proof.
  intros [h1 h2] hs. destruct (reduced_bytes s hs) as (hb & <- & _ & hv).
  destruct (ep_VarTimeScalarMult_ok L P A _ h1 hb hv) as (R & e & h). exists R.
  refine (conj e (conj h _)). apply even_mul; assumption.
Qed.

Definition table (t : list (list (niels FE))) (A : E) : Prop := tbl_ok L (cN L) t A /\ even A.

Lemma table_Compute P A : point P A -> table (pt_Compute K P) A.
Proof.
  intros [h1 h2]. split; [|exact h2]. destruct (tbl_Compute_ok L P A h1) as [hl h]. split; [exact hl|].
  intros i hi. destruct (h i hi) as [h3 h4]. split; [exact h3|]. intros j hj.
  apply (rnp_le L 1); [apply cN_le_cL | apply h4; exact hj].
Qed.

Lemma point_ScalarMultTable t A s : table t A -> reduced s -> point (pt_ScalarMultTable K t s) (Emul (scv s) A).
Proof.
  intros [h1 h2] hs. destruct (reduced_bytes s hs) as (hb & <- & _ & hv).
  split; [|apply even_mul; assumption]. apply (tbl_ScalarMult_ok L); assumption.
Qed.

Lemma point_PublicScalarMultTable t A s : table t A -> reduced s ->
  exists R, pt_PublicScalarMultTable K t s = Some R /\ point R (Emul (scv s) A).
Proof.
  intros [h1 h2] hs. destruct (reduced_bytes s hs) as (hb & <- & _ & hv).
  destruct (tbl_VarTimeScalarMult_ok L t A _ h1 hb hv) as (R & e & h). exists R.
  refine (conj e (conj h _)). apply even_mul; assumption.
Qed.

Lemma table_base base : tbl_ok L 1 base EBc -> table base EBc.
Proof.
  intros [hl h]. split; [|apply even_EBc]. split; [exact hl|].
  intros i hi. destruct (h i hi) as [h3 h4]. split; [exact h3|]. intros j hj.
  apply (rnp_le L 1); [apply cN_le_cL | apply h4; exact hj].
Qed.

Lemma point_ScalarMultBase base s : tbl_ok L 1 base EBc -> reduced s -> point (pt_ScalarMultBase K base s) (Emul (scv s) EBc).
Proof. intros hb hs. exact (point_ScalarMultTable base EBc s (table_base base hb) hs). Qed.
Lemma point_PublicScalarMultBase base s : tbl_ok L 1 base EBc -> reduced s ->
  exists R, pt_PublicScalarMultBase K base s = Some R /\ point R (Emul (scv s) EBc).
Proof.
  intros h0 hs. destruct (table_base base h0) as [h1 h2]. destruct (reduced_bytes s hs) as (hb & <- & _ & hv).
  destruct (tbl_VarTimeScalarMult_ok L base EBc _ h1 hb hv) as (R & e & h). exists R.
  refine (conj e (conj h _)). apply even_mul; assumption.
Qed.

(** ** Decoding *)
Lemma point_Base : point (pt_SetBase K) EBc.
Proof. split; [apply ep_Base_rf | apply even_EBc]. Qed.

Lemma SetBytes_dcases buf : bytes 32 buf ->
  (exists P A, pt_SetBytes K buf = (true, P) /\ dpoint P A /\ pt_Bytes K P = buf) \/
  (pt_SetBytes K buf = (false, ep_zerovalue K) /\ forall Q B, dpoint Q B -> pt_Bytes K Q <> buf).
Proof.
  intro hb. destruct (ep_SetRistretto_ok L buf hb) as [(A & P & e & hP & hc & hbuf) | [e hn]].
  - left. exists P, A. assert (eA : encodes (of_Z (le_val buf mod 2 ^ 255)) A) by (exists A; split; [apply Req_refl | exact hc]).
    assert (hp : dpoint P A) by (split; [exact hP | exact (encodes_even _ _ eA)]).
    refine (conj e (conj hp _)). destruct (Bytes_dpoint P A hp) as (s & -> & es).
    rewrite (encodes_unique s _ A A es eA (Req_refl A)). symmetry. exact hbuf.
  - right. refine (conj e _). intros Q B hQ h. destruct (Bytes_dpoint Q B hQ) as (s & eb & (P' & _ & hc)).
    rewrite eb in h. subst buf. rewrite fval_le_bytes in hn. exact (hn P' hc eq_refl).
Qed.

Lemma SetBytes_dBytes P A : dpoint P A -> exists Q B, pt_SetBytes K (pt_Bytes K P) = (true, Q) /\ dpoint Q B /\ Req B A.
Proof.
  intro h. destruct (SetBytes_dcases _ (Bytes_bytes P A h)) as [(Q & B & e & hQ & hb) | [_ hn]].
  - exists Q, B. refine (conj e (conj hQ _)). apply (Bytes_iff Q P B A); assumption.
  - destruct (hn P A h eq_refl).
Qed.

(** for a backend whose points may have coordinates of two units *)
Section Decode.
Context (hN : 2 <= cN L).

Lemma dpoint_point P A : dpoint P A -> point P A.
Proof. intros [h1 h2]. split; [apply (rpt_rf L 2); [exact hN | exact (rd_rpt L P A h1)] | exact h2]. Qed.

Lemma SetBytes_cases buf : bytes 32 buf ->
  (exists P A, pt_SetBytes K buf = (true, P) /\ point P A /\ pt_Bytes K P = buf) \/
  (pt_SetBytes K buf = (false, ep_zerovalue K) /\ forall Q B, point Q B -> pt_Bytes K Q <> buf).
Proof.
  intro hb. destruct (SetBytes_dcases buf hb) as [(P & A & e & hP & h)|[e h]].
  - left. exists P, A. exact (conj e (conj (dpoint_point P A hP) h)).
  - right. refine (conj e _). intros Q B hQ. exact (h Q B (point_d Q B hQ)).
Qed.

Lemma SetBytes_Bytes P A : point P A -> exists Q B, pt_SetBytes K (pt_Bytes K P) = (true, Q) /\ point Q B /\ Req B A.
Proof.
  intro h. destruct (SetBytes_dBytes P A (point_d P A h)) as (Q & B & e & hQ & hb). exists Q, B.
  exact (conj e (conj (dpoint_point Q B hQ) hb)).
Qed.

End Decode.

(** ** El'Gamal *)
Lemma elgamal_ok base sk r P A : tbl_ok L 1 base EBc -> reduced sk -> reduced r -> point P A ->
  exists c D, eg_encrypt K base (eg_publicKey K base sk) P r = Some c /\
    point (eg_decrypt K sk c) D /\ Req D A.
Proof.
  intros hb hs hr hP. apply table_base in hb.
  pose proof (point_ScalarMultTable base EBc sk hb hs) as hpk.
  pose proof (point_ScalarMultTable base EBc r hb hr) as hc2.
  destruct (point_PublicScalarMult _ _ r hpk hr) as (R & eR & hR).
  unfold eg_encrypt, eg_publicKey, eg_decrypt.
  change (pt_ScalarMultBase K base) with (pt_ScalarMultTable K base). rewrite eR.
  eexists. eexists. split; [reflexivity|]. split.
  - apply point_Sub; [apply point_Add; [exact hR | exact hP]|]. apply point_ScalarMult; [exact hc2 | exact hs].
  - unfold Esub. rewrite <- !Emul_mul, (Z.mul_comm (scv r)).
    set (X := Emul (scv sk * scv r) EBc). rewrite (Eadd_comm X A), <- Eadd_assoc, Eadd_opp, Eadd_0_r. apply Req_refl.
Qed.

End Facts.
