(** The model against RFC 9496 (Rfc9496.v), for all builds and for the C reference implementation. *)
From Coq Require Import ZArith Znumtheory List Lia Bool.
From Verif Require Import Words Primes Fp Edwards GroupOrder RistrettoSpec Fe25Code Fe25Proofs FieldModel CurveModel FieldLaws
  CurveProofs EncodeProofs ScalarCode ScalarModel ScalarReduce ScalarSub ScalarFacts RistrettoModel RistrettoFacts ElligatorSpec ElligatorMath LizardProofs Backends
  CLang CrefFeCode CrefFe CrefCode CrefFacts CrefFeProofs CrefGroupProofs CrefTable CrefMul CrefMulFacts RfcProofs.
From Verif Require Rfc9496 Points51.
Import ListNotations.
Open Scope Z_scope.

(** The internal representation of RFC 9496 stored in a Point, or in a group_ge of cref.c: the four coordinates. *)
Definition coords (b : build) (P : ext (fe (ops b))) : Rfc9496.rep :=
  (value b (eX P) mod p, value b (eY P) mod p, value b (eZ P) mod p, value b (eT P) mod p).
Definition c_coords (P : ge) : Rfc9496.rep :=
  let '(Ge X Y Zc T) := P in (v25 X mod p, v25 Y mod p, v25 Zc mod p, v25 T mod p).
(** Two quadruples are projectively equal: the same curve point. *)
Definition same (a b : Rfc9496.rep) : Prop :=
  let '(x, y, z, t) := a in let '(x', y', z', t') := b in
  z mod p <> 0 /\ z' mod p <> 0 /\
  (x * z') mod p = (x' * z) mod p /\ (y * z') mod p = (y' * z) mod p /\ (t * z') mod p = (t' * z) mod p.

(** ** Proofs *)
Lemma same_stands a b A : stands a A -> stands b A -> same a b.
Proof.
  destruct a as [[[x y] z] t], b as [[[x' y'] z'] t']. intros (n1 & h1 & h2 & h3) (n2 & g1 & g2 & g3). unfold same.
  assert (N : forall u, of_Z u <> F0 -> u mod p <> 0) by (intros u h e; apply h; apply of_Z_eq; rewrite e; reflexivity).
  refine (conj (N _ n1) (conj (N _ n2) (conj _ (conj _ _)))); apply of_Z_eq; rewrite !Fp.of_Z_mul.
  - rewrite h1, g1. generalize (of_Z z), (of_Z z'), (ex A). intros. ring.
  - rewrite h2, g2. generalize (of_Z z), (of_Z z'), (ey A). intros. ring.
  - rewrite h3, g3. generalize (of_Z z), (of_Z z'), (ex A), (ey A). intros. ring.
Qed.
Lemma stands_same a b A : stands a A -> same a b -> stands b A.
Proof.
  destruct a as [[[x y] z] t], b as [[[x' y'] z'] t']. intros (n1 & h1 & h2 & h3) (_ & n2 & g1 & g2 & g3).
  assert (N : of_Z z' <> F0) by (intro e; apply n2; apply of_Z_eq in e; rewrite e; reflexivity).
  apply of_Z_eq in g1, g2, g3. rewrite !Fp.of_Z_mul in g1, g2, g3. rewrite h1 in g1. rewrite h2 in g2. rewrite h3 in g3.
  cbn [stands]. refine (conj N (conj _ (conj _ _))); apply (Fmul_cancel_l (of_Z z) _ _ n1).
  - transitivity (of_Z x' * of_Z z)%F; [ring|]. rewrite <- g1. ring.
  - transitivity (of_Z y' * of_Z z)%F; [ring|]. rewrite <- g2. ring.
  - transitivity (of_Z t' * of_Z z)%F; [ring|]. rewrite <- g3. ring.
Qed.
Lemma represents_stands b P A : represents b P A -> stands (coords b P) A.
Proof. intros (_ & hz & h1 & h2 & h3). unfold coords. cbn [stands]. rewrite !Fp.of_Z_mod. exact (conj hz (conj h1 (conj h2 h3))). Qed.
Lemma point_stands b P A : point b P A -> stands (coords b P) A.
Proof. intros [h _]. exact (represents_stands b P A h). Qed.
Lemma cpoint_stands P A : cpoint P A -> stands (c_coords P) A.
Proof. destruct P as [X Y Zc T]. intros (_ & hz & h1 & h2 & h3). unfold c_coords. cbn [stands]. rewrite !Fp.of_Z_mod. exact (conj hz (conj h1 (conj h2 h3))). Qed.

Lemma enc_class q A : stands q A -> even A -> forall s B, encodes s B -> Req A B -> Rfc9496.ENCODE q = le_bytes 32 (fval s).
Proof. intros h he s B hs hR. destruct (encode_ok q A h he) as (s' & -> & hs'). rewrite (encodes_unique s' s A B hs' hs hR). reflexivity. Qed.

Lemma r_encode b P A q : point b P A -> same (coords b P) q -> pt_Bytes (ops b) P = Rfc9496.ENCODE q.
Proof.
  intros h hq. destruct (b_encodes b P A h) as (s & -> & hs). symmetry.
  exact (enc_class q A (stands_same _ _ A (point_stands b P A h) hq) (proj2 h) s A hs (Req_refl A)).
Qed.
Lemma r_encode_self b P A : point b P A -> pt_Bytes (ops b) P = Rfc9496.ENCODE (coords b P).
Proof. intro h. apply (r_encode b P A _ h). apply (same_stands _ _ A); apply point_stands; exact h. Qed.

Lemma buf_canonical buf : bytes 32 buf -> (buf = le_bytes 32 (fval (of_Z (le_val buf mod 2 ^ 255))) <-> le_val buf < p).
Proof.
  intros [hl hf]. pose proof (le_val_range _ hf) as [h0 _]. rewrite fval_of_Z. split; intro h.
  - rewrite h. rewrite le_val_le_bytes.
    + apply Z.mod_pos_bound, p_pos.
    + pose proof (Z.mod_pos_bound (le_val buf mod 2 ^ 255) p p_pos) as hr.
      assert (hp : p < 256 ^ Z.of_nat 32) by (vm_compute; reflexivity). split; [apply hr|].
      apply (Z.lt_trans _ p); [apply hr | exact hp].
  - assert (hp : p < 2 ^ 255) by (vm_compute; reflexivity).
    rewrite (Z.mod_small (le_val buf)) by (split; [exact h0 | apply (Z.lt_trans _ p); assumption]).
    rewrite Z.mod_small by (split; assumption). rewrite <- hl. symmetry. apply le_bytes_le_val, hf.
Qed.
Lemma small_val buf : bytes 32 buf -> le_val buf < p -> le_val buf mod 2 ^ 255 = le_val buf.
Proof.
  intros [_ hf] h. pose proof (le_val_range _ hf) as [h0 _]. apply Z.mod_small. split; [exact h0|].
  apply (Z.lt_trans _ p); [exact h | vm_compute; reflexivity].
Qed.
Lemma r_decode b buf : bytes 32 buf ->
  match Rfc9496.DECODE buf with
  | Some q => exists P A, pt_SetBytes (ops b) buf = (true, P) /\ point b P A /\ same (coords b P) q /\ Rfc9496.ENCODE q = buf
  | None => pt_SetBytes (ops b) buf = (false, ep_zerovalue (ops b))
  end.
Proof.
  intro hb. pose proof (decode_ok buf (proj1 hb)) as hd. cbv zeta in hd.
  pose proof (ep_SetRistretto_ok (laws b) buf hb) as hg. cbv zeta in hg. pose proof (buf_canonical buf hb) as hc.
  destruct (Rfc9496.DECODE buf) as [q|].
  - destruct hd as (A & hA & _ & cA & hp). rewrite (small_val buf hb hp) in hg, hc. set (s := of_Z (le_val buf)) in *.
    destruct hg as [(B & P & e & hP & hB & _)|[_ hn]]; [|destruct (hn A cA (proj2 hc hp))].
    assert (A = B) as <- by exact (canonical_rep_P_unique s A B cA hB).
    assert (eA : encodes s A) by (exists A; split; [apply Req_refl | exact cA]).
    assert (hPp : point b P A) by (split; [apply rep_rd; exact hP | exact (encodes_even _ _ eA)]).
    exists P, A. refine (conj e (conj hPp (conj _ _))).
    + apply (same_stands _ _ A); [apply point_stands; exact hPp | exact hA].
    + rewrite (enc_class q A hA (proj2 hPp) s A eA (Req_refl A)). symmetry. exact (proj2 hc hp).
  - destruct hg as [(B & P & e & hP & hB & eb)|[e _]]; [|exact e]. exfalso. pose proof (proj1 hc eb) as hp.
    rewrite (small_val buf hb hp) in hB. apply (Z.lt_irrefl p). apply (Z.le_lt_trans _ (le_val buf)); [exact (hd B hB) | exact hp].
Qed.
Lemma r_unmarshal b P0 buf : Forall is_byte buf ->
  match Rfc9496.DECODE buf with
  | Some q => exists P A, pt_UnmarshalBinary (ops b) P0 buf = (true, P) /\ point b P A /\ same (coords b P) q
  | None => fst (pt_UnmarshalBinary (ops b) P0 buf) = false
  end.
Proof.
  intro hf. unfold pt_UnmarshalBinary. destruct (Nat.eqb_spec (length buf) 32) as [e|e]; cbn [negb].
  - pose proof (r_decode b buf (conj e hf)) as h. destruct (Rfc9496.DECODE buf) as [q|]; [|rewrite h; reflexivity].
    destruct h as (P & A & h1 & h2 & h3 & _). exists P, A. exact (conj h1 (conj h2 h3)).
  - rewrite (decode_length buf e). reflexivity.
Qed.
Lemma r_equals b P Q A B : point b P A -> point b Q B -> pt_Equals (ops b) P Q = Rfc9496.EQUALS (coords b P) (coords b Q).
Proof.
  intros h g. apply eq_true_iff_eq. rewrite (equals_ok _ _ A B (point_stands b P A h) (point_stands b Q B g)), Points51.Req_torsion.
  apply b_equals; assumption.
Qed.
Lemma r_group b P Q A B s : summand b P A -> summand b Q B -> reduced s ->
  same (coords b (pt_Add (ops b) P Q)) (Rfc9496.ADD (coords b P) (coords b Q)) /\
  same (coords b (pt_Sub (ops b) P Q)) (Rfc9496.ADD (coords b P) (Rfc9496.NEG (coords b Q))) /\
  same (coords b (pt_Double (ops b) P)) (Rfc9496.ADD (coords b P) (coords b P)) /\
  same (coords b (pt_Neg (ops b) P)) (Rfc9496.NEG (coords b P)) /\
  same (coords b (pt_SetZero (ops b))) Rfc9496.IDENTITY /\
  same (coords b (pt_ScalarMult (ops b) P s)) (Rfc9496.MULT (scv s) (coords b P)).
Proof.
  intros h g hs. pose proof (point_stands b P A (proj1 h)) as sP. pose proof (point_stands b Q B (proj1 g)) as sQ.
  destruct (b_add b P Q A B (proj1 h) g) as [[h1 _] [h2 _]].
  refine (conj _ (conj _ (conj _ (conj _ (conj _ _))))).
  - apply (same_stands _ _ (Eadd A B)); [apply point_stands; exact h1 | apply add_ok; assumption].
  - apply (same_stands _ _ (Eadd A (Eopp B))); [apply point_stands; exact h2 | apply add_ok; [|apply neg_ok]; assumption].
  - apply (same_stands _ _ (Eadd A A)); [apply point_stands; exact (proj1 (b_double b P A (proj1 h))) | apply add_ok; assumption].
  - apply (same_stands _ _ (Eopp A)); [apply point_stands; exact (proj1 (b_neg b P A) (proj1 h)) | apply neg_ok; assumption].
  - apply (same_stands _ _ E0); [apply point_stands; exact (proj1 (proj1 (b_const b))) | exact identity_ok].
  - apply (same_stands _ _ (Emul (scv s) A)); [apply point_stands; exact (proj1 (proj1 (b_scalarMult b P A s h hs))) | apply mult_ok; assumption].
Qed.
Lemma r_base b s : reduced s ->
  pt_Bytes (ops b) (pt_SetBase (ops b)) = Rfc9496.ENCODE Rfc9496.GENERATOR /\
  pt_Bytes (ops b) (pt_ScalarMultBase (ops b) (baseTable b) s) = Rfc9496.ENCODE (Rfc9496.MULT (scv s) Rfc9496.GENERATOR).
Proof.
  intro hs. assert (hR : Req EB (Eadd EB T4')) by (rewrite <- EBc_eq; apply Req_sym; exact EBc_Req). split.
  - destruct (b_encodes b _ _ (proj1 (proj2 (b_const b)))) as (t & -> & ht). symmetry.
    apply (enc_class _ EB generator_ok even_B t _ ht hR).
  - destruct (b_encodes b _ _ (proj1 (proj1 (b_baseMult b s hs)))) as (t & -> & ht). symmetry.
    apply (enc_class _ (Emul (scv s) EB) (mult_ok (scv s) _ EB generator_ok) (even_mul _ _ even_B) t _ ht).
    apply Req_mul. exact hR.
Qed.
Lemma r_map b buf : bytes 32 buf -> same (coords b (pt_SetElligator (ops b) buf)) (Rfc9496.MAP (Rfc9496.mask255 buf)).
Proof.
  intro hb. destruct (b_elligator b buf hb) as (A & [hA _] & hm). unfold Rfc9496.mask255. rewrite of_bytes_eq.
  destruct (map_ok (le_val buf mod 2 ^ 255)) as (B & hB & hm'). rewrite (rfc_map_unique _ B A hm' hm) in hB.
  apply (same_stands _ _ A); [apply point_stands; exact hA | exact hB].
Qed.
Lemma r_derive b h buf : bytes 64 (h buf) ->
  same (coords b (pt_DeriveDalek (ops b) h buf)) (Rfc9496.DERIVE (h buf)) /\
  pt_Bytes (ops b) (pt_DeriveDalek (ops b) h buf) = Rfc9496.ENCODE (Rfc9496.DERIVE (h buf)) /\
  same (coords b (pt_Derive (ops b) h buf)) (Rfc9496.MAP (Rfc9496.mask255 (firstn 32 (h buf)))).
Proof.
  intros [hl hb].
  assert (h1 : bytes 32 (firstn 32 (h buf))).
  { split; [rewrite firstn_length, hl; reflexivity|]. rewrite <- (firstn_skipn 32 (h buf)) in hb. apply Forall_app in hb. apply hb. }
  assert (h2 : bytes 32 (skipn 32 (h buf))).
  { split; [rewrite skipn_length, hl; reflexivity|]. rewrite <- (firstn_skipn 32 (h buf)) in hb. apply Forall_app in hb. apply hb. }
  destruct (b_elligator b _ h1) as (A & hA & mA). destruct (b_elligator b _ h2) as (B & hB & mB).
  destruct (b_add b _ _ A B (proj1 hA) hB) as [[hP _] _].
  assert (S : same (coords b (pt_DeriveDalek (ops b) h buf)) (Rfc9496.DERIVE (h buf))).
  { destruct (derive_ok (h buf)) as (A' & B' & hs & mA' & mB').
    rewrite (rfc_map_unique _ A' A mA' mA), (rfc_map_unique _ B' B mB' mB) in hs.
    apply (same_stands _ _ (Eadd A B)); [apply point_stands; exact hP | exact hs]. }
  refine (conj S (conj _ _)).
  - exact (r_encode b (pt_DeriveDalek (ops b) h buf) (Eadd A B) _ hP S).
  - exact (r_map b _ h1).
Qed.

(** ** cref.c *)
Lemma rc_encode P A q : cpoint P A -> even A -> same (c_coords P) q -> g_pack P = Some (Rfc9496.ENCODE q).
Proof.
  intros h he hq. destruct (g_pack_ok P A (proj1 (cpoint_cge P A) h) he) as (s & -> & hs). f_equal. symmetry.
  exact (enc_class q A (stands_same _ _ A (cpoint_stands P A h) hq) he s A hs (Req_refl A)).
Qed.
Lemma rc_decode buf : bytes 32 buf ->
  match Rfc9496.DECODE (canonical_bytes buf) with
  | Some q => exists P A, g_unpack buf = Some (0, P) /\ cpoint P A /\ even A /\ same (c_coords P) q
  | None => g_unpack buf = Some (-1, Ge c_zero c_zero c_zero c_zero)
  end.
Proof.
  intro hb. assert (hc : bytes 32 (canonical_bytes buf)) by apply le_bytes_bytes.
  pose proof (r_decode PureGo64 (canonical_bytes buf) hc) as hr. destruct (cp_unpack PureGo64 buf hb) as [(P & A & Q & B & e & hP & he & _ & e' & hQ & <-)|[e e']].
  - destruct (Rfc9496.DECODE (canonical_bytes buf)) as [q|]; [|rewrite hr in e'; discriminate e'].
    destruct hr as (Q' & A' & e'' & hQ' & hs & _). rewrite e' in e''. apply (f_equal snd) in e''. cbn [snd] in e''. subst Q'.
    exists P, A. refine (conj e (conj hP (conj he _))). apply (same_stands _ _ A); [apply cpoint_stands; exact hP|].
    exact (stands_same _ _ A (point_stands PureGo64 Q A hQ) hs).
  - destruct (Rfc9496.DECODE (canonical_bytes buf)) as [q|]; [|exact e]. destruct hr as (Q' & A' & e'' & _). rewrite e' in e''. discriminate e''.
Qed.
Lemma rc_map buf : bytes 32 buf -> exists r P, c_unpack buf = Some r /\ g_elligator r = Some P /\
  same (c_coords P) (Rfc9496.MAP (Rfc9496.mask255 buf)).
Proof.
  intro hb. destruct (c_unpack_ok buf hb) as (r & e & hr). unfold Rfc9496.mask255. rewrite of_bytes_eq.
  destruct (map_ok (le_val buf mod 2 ^ 255)) as (B & hB & hm).
  destruct (g_elligator_ok r _ B hr hm) as (P & eP & hP). exists r, P. refine (conj e (conj eP _)).
  apply (same_stands _ _ B); [apply cpoint_stands; apply cpoint_cge; exact hP | exact hB].
Qed.
Lemma rc_base s : bytes 32 s -> le_val s < l -> exists R, g_scalarmult_base s = Some R /\
  same (c_coords R) (Rfc9496.MULT (le_val s) Rfc9496.GENERATOR).
Proof.
  intros hs hl. destruct (cp_scalarmult_base s hs hl) as (R & e & hR). exists R. refine (conj e _).
  apply (same_stands _ _ (Emul (le_val s) EB)); [apply cpoint_stands; exact hR | apply mult_ok, generator_ok].
Qed.
