(** The accepted encodings and the exponents 0, ..., l - 1: a group isomorphism in every build and across builds. *)
From Coq Require Import ZArith Znumtheory List Lia Bool.
From Verif Require Import Words Primes Fp Edwards GroupOrder RistrettoSpec FieldModel CurveModel FieldLaws
  CurveProofs EncodeProofs ScalarCode ScalarModel ScalarReduce ScalarSub ScalarFacts RistrettoModel RistrettoFacts Backends
  CrefFe CrefCode CrefFacts CrefMul CrefMulFacts ApiProofs RfcFacts.
From Verif Require Points51 Rfc9496.
Import ListNotations.
Open Scope Z_scope.

(** The bytes that Bytes gives for ScalarMultBase(s): /repo/ristretto.go:121-126, 233-236 *)
Definition public (b : build) (s : sc) : list Z := pt_Bytes (ops b) (pt_ScalarMultBase (ops b) (baseTable b) s).
(** SetBytes returns true: /repo/ristretto.go:244-246 *)
Definition accepted (b : build) (buf : list Z) : Prop := bytes 32 buf /\ fst (pt_SetBytes (ops b) buf) = true.

(** ** Proofs *)
Lemma mult_point b s : reduced s -> point b (pt_ScalarMultBase (ops b) (baseTable b) s) (Emul (scv s) EBc).
Proof. intro h. rewrite EBc_eq. exact (proj1 (proj1 (b_baseMult b s h))). Qed.

Lemma same_enc b c P Q A B : point b P A -> point c Q B -> (pt_Bytes (ops b) P = pt_Bytes (ops c) Q <-> Req A B).
Proof. intros h g. rewrite (proj2 (b_bytes b c P Q A B h g)). symmetry. apply Points51.Req_torsion. Qed.

Lemma dlog_inj A B m n : dlog A m -> dlog B n -> (Req A B <-> m = n).
Proof.
  intros [h1 h2] [g1 g2]. split.
  - intro e. apply (R_cyclic_unique A m n h1 g1 h2). exact (Req_trans _ _ _ e g2).
  - intros ->. exact (Req_trans _ _ _ h2 (Req_sym _ _ g2)).
Qed.

Lemma j_bytes b s : reduced s -> bytes 32 (public b s).
Proof. intro h. exact (proj1 (b_bytes b b _ _ _ _ (mult_point b s h) (mult_point b s h))). Qed.
Lemma j_inj b c s t : reduced s -> reduced t -> (public b s = public c t <-> s = t).
Proof.
  intros hs ht. unfold public. rewrite (same_enc b c _ _ _ _ (mult_point b s hs) (mult_point c t ht)).
  rewrite (dlog_inj _ _ _ _ (dlog_base _ (proj2 hs)) (dlog_base _ (proj2 ht))). split; [|intros ->; reflexivity].
  exact (scv_inj s t (proj1 hs) (proj1 ht)).
Qed.
Lemma j_accepted b c s : reduced s -> exists P A, pt_SetBytes (ops c) (public b s) = (true, P) /\ point c P A /\
  pt_Equals (ops c) P (pt_ScalarMultBase (ops c) (baseTable c) s) = true.
Proof.
  intro hs. destruct (b_roundtrip b c _ _ (mult_point b s hs)) as (P & B & e & hP & hB). exists P, B.
  refine (conj e (conj hP _)). apply (b_equals c _ _ _ _ hP (mult_point c s hs)). exact hB.
Qed.
Lemma j_point b c P A : point b P A -> exists s, reduced s /\ pt_Bytes (ops b) P = public c s.
Proof.
  intro hP. destruct (R_cyclic A (proj2 hP)) as (m & hm & hR). destruct (setBigInt_spec m) as [hs es].
  rewrite (Z.mod_small m l hm) in es. exists (sc_setBigInt m). refine (conj hs _).
  apply (same_enc b c _ _ _ _ hP (mult_point c _ hs)). rewrite es.
  apply (Req_trans _ _ _ hR). exact (Req_sym _ _ (proj2 (dlog_base m hm))).
Qed.
Lemma j_onto b c buf : bytes 32 buf -> fst (pt_SetBytes (ops b) buf) = true ->
  exists s, reduced s /\ public c s = buf /\ forall t, reduced t -> public c t = buf -> t = s.
Proof.
  intros hb e. destruct (b_decode b buf hb) as [(P & A & e1 & hP & eb)|[e1 _]].
  - destruct (j_point b c P A hP) as (s & hs & es). exists s. rewrite <- eb, es. refine (conj hs (conj eq_refl _)).
    intros t ht et. apply (j_inj c c t s ht hs). exact et.
  - rewrite e1 in e. discriminate e.
Qed.

Definition exps : list sc := map (fun k => sc_setBigInt (Z.of_nat k)) (seq 0 (Z.to_nat l)).
Lemma exps_in s : In s exps <-> reduced s.
Proof.
  pose proof ScalarFacts.l_pos as hl. unfold exps. rewrite in_map_iff. split.
  - intros (k & <- & _). exact (proj1 (setBigInt_spec _)).
  - intro h. exists (Z.to_nat (scv s)). pose proof (proj2 h) as hr. destruct (setBigInt_spec (Z.of_nat (Z.to_nat (scv s)))) as [h1 h2].
    rewrite Z2Nat.id in h1, h2 |- * by lia. split.
    + apply scv_inj; [exact (proj1 h1) | exact (proj1 h)|]. rewrite h2. apply reduced_mod. exact h.
    + apply in_seq. split; [lia|]. rewrite Nat.add_0_l. apply Z2Nat.inj_lt; lia.
Qed.
Lemma nodup_map {A B} (f : A -> B) (L : list A) : (forall x y, In x L -> In y L -> f x = f y -> x = y) -> NoDup L -> NoDup (map f L).
Proof.
  induction L as [|a L IH]; intros hi hn; [constructor|]. inversion hn as [|? ? h1 h2]; subst. cbn [map]. constructor.
  - rewrite in_map_iff. intros (x & ex & hx). apply h1. rewrite (hi a x); [exact hx | left; reflexivity | right; exact hx | symmetry; exact ex].
  - apply IH; [|exact h2]. intros x y hx hy. apply hi; right; assumption.
Qed.
Lemma exps_nodup : NoDup exps.
Proof.
  pose proof ScalarFacts.l_pos as hl. apply nodup_map; [|apply seq_NoDup]. intros x y hx hy e. apply in_seq in hx, hy.
  apply Nat2Z.inj. rewrite Nat.add_0_l in hx, hy.
  rewrite <- (Z.mod_small (Z.of_nat x) l), <- (Z.mod_small (Z.of_nat y) l) by lia.
  rewrite <- (proj2 (setBigInt_spec (Z.of_nat x))), <- (proj2 (setBigInt_spec (Z.of_nat y))). rewrite e. reflexivity.
Qed.
Lemma exps_length : Z.of_nat (length exps) = l.
Proof. pose proof ScalarFacts.l_pos as hl. unfold exps. rewrite map_length, seq_length. apply Z2Nat.id. lia. Qed.

Lemma j_count b : exists L, NoDup L /\ Z.of_nat (length L) = l /\ forall buf, In buf L <-> accepted b buf.
Proof.
  exists (map (public b) exps). refine (conj _ (conj _ _)).
  - apply nodup_map; [|exact exps_nodup]. intros x y hx hy e. apply exps_in in hx, hy. exact (proj1 (j_inj b b x y hx hy) e).
  - rewrite map_length. exact exps_length.
  - intro buf. rewrite in_map_iff. split.
    + intros (s & <- & hs). apply exps_in in hs. split; [exact (j_bytes b s hs)|].
      destruct (j_accepted b b s hs) as (P & A & e & _). rewrite e. reflexivity.
    + intros [hb e]. destruct (j_onto b b buf hb e) as (s & hs & es & _). exists s. split; [exact es | apply exps_in; exact hs].
Qed.

Lemma decoded b c s P : reduced s -> pt_SetBytes (ops c) (public b s) = (true, P) -> exists A, point c P A /\ Req A (Emul (scv s) EBc).
Proof.
  intros hs e. destruct (b_roundtrip b c _ _ (mult_point b s hs)) as (Q & B & e1 & hQ & hB).
  fold (public b s) in e1. rewrite e in e1. apply (f_equal snd) in e1. cbn [snd] in e1. subst Q. exists B. split; [exact hQ|].
  apply Points51.Req_torsion. exact hB.
Qed.

Lemma j_exp b c P A s : point b P A -> reduced s -> (pt_Bytes (ops b) P = public c s <-> Req A (Emul (scv s) EBc)).
Proof. intros h hs. exact (same_enc b c _ _ _ _ h (mult_point c s hs)). Qed.

Lemma j_add b c P Q A B s t : point b P A -> summand b Q B -> reduced s -> reduced t ->
  pt_Bytes (ops b) P = public c s -> pt_Bytes (ops b) Q = public c t ->
  pt_Bytes (ops b) (pt_Add (ops b) P Q) = public c (sc_add s t) /\ pt_Bytes (ops b) (pt_Sub (ops b) P Q) = public c (sc_sub s t).
Proof.
  intros hP hQ hs ht eP eQ. apply (j_exp b c P A s hP hs) in eP. apply (j_exp b c Q B t (proj1 hQ) ht) in eQ.
  destruct (b_add b P Q A B hP hQ) as [ha hb]. destruct (add_spec s t hs ht) as [hr er]. destruct (sub_spec s t hs ht) as [hr' er'].
  split.
  - apply (j_exp b c _ _ _ (proj1 ha) hr). rewrite er. apply (Req_trans _ (Emul (scv s + scv t) EBc)).
    + rewrite Emul_add. apply Req_add; assumption.
    + apply Req_sym, R_mul_mod, even_EBc.
  - apply (j_exp b c _ _ _ (proj1 hb) hr'). rewrite er'. apply (Req_trans _ (Emul (scv s - scv t) EBc)).
    + rewrite Emul_sub. apply Req_add; [assumption | apply Req_opp; assumption].
    + apply Req_sym, R_mul_mod, even_EBc.
Qed.
Lemma j_neg b c P A s : point b P A -> reduced s -> pt_Bytes (ops b) P = public c s ->
  pt_Bytes (ops b) (pt_Neg (ops b) P) = public c (sc_neg s).
Proof.
  intros hP hs eP. apply (j_exp b c P A s hP hs) in eP. destruct (neg_spec s hs) as [hr er].
  apply (j_exp b c _ _ _ (proj1 (b_neg b P A) hP) hr). rewrite er. apply (Req_trans _ (Emul (- scv s) EBc)).
  - rewrite Emul_opp. apply Req_opp. exact eP.
  - apply Req_sym, R_mul_mod, even_EBc.
Qed.
Lemma j_mult b c P A s t : summand b P A -> reduced s -> reduced t -> pt_Bytes (ops b) P = public c s ->
  pt_Bytes (ops b) (pt_ScalarMult (ops b) P t) = public c (sc_mul t s).
Proof.
  intros hP hs ht eP. apply (j_exp b c P A s (proj1 hP) hs) in eP. destruct (mul_spec t s (proj1 ht) (proj1 hs)) as [hr er].
  apply (j_exp b c _ _ _ (proj1 (proj1 (b_scalarMult b P A t hP ht))) hr). rewrite er. apply (Req_trans _ (Emul (scv t * scv s) EBc)).
  - rewrite Emul_mul. apply Req_mul. exact eP.
  - apply Req_sym, R_mul_mod, even_EBc.
Qed.
Lemma j_zero b c s : reduced s -> (public b s = pt_Bytes (ops c) (pt_SetZero (ops c)) <-> scv s = 0) /\
  (public b s = pt_Bytes (ops c) (pt_SetBase (ops c)) <-> scv s = 1).
Proof.
  intro hs. destruct (b_const c) as [h0 h1]. pose proof (proj2 hs) as hr. pose proof l_lit as hl.
  assert (D0 : dlog E0 0) by (split; [rewrite hl; lia | change E0 with (Emul 0 EB); apply Req_refl]).
  assert (D1 : dlog (Eadd EB T4') 1) by (rewrite <- EBc_eq; rewrite <- (Emul_1 EBc); apply dlog_base; rewrite hl; lia).
  split; unfold public.
  - rewrite (same_enc b c _ _ _ _ (mult_point b s hs) (proj1 h0)). exact (dlog_inj _ _ _ _ (dlog_base _ hr) D0).
  - rewrite (same_enc b c _ _ _ _ (mult_point b s hs) (proj1 h1)). exact (dlog_inj _ _ _ _ (dlog_base _ hr) D1).
Qed.


(** ** Diffie-Hellman between two builds *)
Lemma j_dh b c s t P Q A B : reduced s -> reduced t ->
  pt_SetBytes (ops b) (public c t) = (true, P) -> summand b P A -> pt_SetBytes (ops c) (public b s) = (true, Q) -> summand c Q B ->
  pt_Bytes (ops b) (pt_ScalarMult (ops b) P s) = pt_Bytes (ops c) (pt_ScalarMult (ops c) Q t) /\
  pt_Bytes (ops b) (pt_ScalarMult (ops b) P s) = public b (sc_mul s t).
Proof.
  intros hs ht eP hP eQ hQ.
  assert (e1 : pt_Bytes (ops b) P = public b t).
  { destruct (decoded c b t P ht eP) as (A' & hA & hR). apply (j_exp b b P A' t hA ht). exact hR. }
  assert (e2 : pt_Bytes (ops c) Q = public b s).
  { destruct (decoded b c s Q hs eQ) as (B' & hB & hR). apply (j_exp c b Q B' s hB hs). exact hR. }
  rewrite (j_mult b b P A t s hP ht hs e1), (j_mult c b Q B s t hQ hs ht e2). split; [|reflexivity].
  destruct (mul_spec s t (proj1 hs) (proj1 ht)) as [h1 e3]. destruct (mul_spec t s (proj1 ht) (proj1 hs)) as [h2 e4].
  apply (j_inj b b _ _ h1 h2). apply (scv_inj _ _ (proj1 h1) (proj1 h2)). rewrite e3, e4, Z.mul_comm. reflexivity.
Qed.
Lemma j_dh64 b c s t : b <> Generic -> c <> Generic -> reduced s -> reduced t ->
  exists P Q, pt_SetBytes (ops b) (public c t) = (true, P) /\ pt_SetBytes (ops c) (public b s) = (true, Q) /\
  pt_Bytes (ops b) (pt_ScalarMult (ops b) P s) = pt_Bytes (ops c) (pt_ScalarMult (ops c) Q t) /\
  pt_Bytes (ops b) (pt_ScalarMult (ops b) P s) = public b (sc_mul s t).
Proof.
  intros hb hc hs ht. destruct (j_accepted c b t ht) as (P & A & eP & hP & _). destruct (j_accepted b c s hs) as (Q & B & eQ & hQ & _).
  exists P, Q. refine (conj eP (conj eQ _)).
  exact (j_dh b c s t P Q A B hs ht eP (b_summand64 b P A hb hP) eQ (b_summand64 c Q B hc hQ)).
Qed.
