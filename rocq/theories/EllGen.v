(** Elligator and Lizard over any lawful field backend (Elligator51.v, with [dpoint] for [element]). *)
From Coq Require Import ZArith Znumtheory List Lia Bool.
From Verif Require Import Words Primes Fp Edwards GroupOrder RistrettoSpec FieldModel CurveModel BitFold FieldLaws
  CurveProofs EncodeProofs ScalarCode ScalarModel TextCodec RistrettoModel RistrettoFacts
  ElligatorSpec ElligatorMath ElligatorProofs LizardProofs Sha256.
From Verif Require Elligator51.
Import ListNotations.
Open Scope Z_scope.
Local Notation nonneg_bytes := Elligator51.nonneg_bytes.
Local Notation missed := Elligator51.missed.
Local Notation hash32 := Elligator51.hash32.
Local Notation nonneg_bytes_fe := Elligator51.nonneg_bytes_fe.
Local Notation fe_of_le_bytes := Elligator51.fe_of_le_bytes.
Local Notation mask_testbit := Elligator51.mask_testbit.
Local Notation sha256_special := Elligator51.sha256_special.
Local Notation NoDup_other := Elligator51.NoDup_other.

Section Gen.
Context {K : FeOps} (L : FeLaws K).
Local Notation FE := (fe K).
Local Notation dvalid P := (exists A, dpoint L P A).
Lemma elligator_map buf : bytes 32 buf -> exists A, dpoint L (pt_SetElligator K buf) A /\ rfc_map (fe_of buf) A.
Proof. intro hb. destruct (valid_SetElligator L buf hb) as (A & h1 & h2). exists A. split; [apply point_d; exact h2 | exact h1]. Qed.
Lemma elligator_valid buf : bytes 32 buf -> dvalid (pt_SetElligator K buf).
Proof. intro hb. destruct (elligator_map buf hb) as (A & h & _). exists A. exact h. Qed.
Lemma elligator_same b c : bytes 32 b -> bytes 32 c -> (fe_of b = fe_of c \/ fe_of b = Fopp (fe_of c)) ->
  pt_Equals K (pt_SetElligator K b) (pt_SetElligator K c) = true /\ pt_Bytes K (pt_SetElligator K b) = pt_Bytes K (pt_SetElligator K c).
Proof.
  intros hb hc h. destruct (elligator_map b hb) as (A & hA & mA). destruct (elligator_map c hc) as (B & hB & mB).
  assert (e : A = B).
  { destruct h as [h|h]; rewrite h in mA; [exact (rfc_map_unique _ A B mA mB)|].
    apply rfc_map_opp in mB. exact (rfc_map_unique _ A B mA mB). }
  assert (EQ : pt_Equals K (pt_SetElligator K b) (pt_SetElligator K c) = true).
  { apply (Equals_dpoint L _ _ A B hA hB). rewrite e. apply Req_refl. }
  split; [exact EQ|]. apply (Bytes_iff L _ _ A B hA hB). rewrite e. apply Req_refl.
Qed.
(** ** the inverse *)
(** bit j of the mask, and the bytes of the j-th field dpoint L *)
Definition reported_bytes (P : ext FE) (b : list Z) : Prop :=
  let '(mask, fes, _) := ep_RistrettoElligator2Inverse K P in
  exists j, (j < 8)%nat /\ Z.testbit mask (Z.of_nat j) = true /\ b = fst (o_bytes K (nth j fes (k_zero K))).
Lemma reported_iff P A : dpoint L P A -> exists z, z <> F0 /\ forall b, reported_bytes P b <-> exists f, reported A z f /\ b = le_bytes 32 (fval f).
Proof.
  intro hP. destruct (inverse_ok L P A hP) as (z & mask & fes & P' & hz & e & _ & _ & hq).
  exists z. split; [exact hz|]. intro b. unfold reported_bytes. rewrite e. split.
  - intros (j & hj & hm & ->). destruct (hq j hj) as [h1 h2]. rewrite h2. eexists. split; [|reflexivity].
    apply mask_testbit in h1. rewrite hm in h1. eexists. eexists. refine (conj _ (conj (eq_sym h1) eq_refl)).
    rewrite <- surjective_pairing. apply nth_In. exact hj.
  - intros (f & (s & t & hin & hr & ho) & ->). apply (In_nth _ _ (F0, F0)) in hin. destruct hin as (j & hj & ej).
    change (length (jq8 A z)) with 8%nat in hj. exists j. destruct (hq j hj) as [h1 h2]. rewrite ej in h1, h2. cbn [fst snd] in h1, h2.
    refine (conj hj (conj _ _)); [apply mask_testbit; rewrite h1, hr; reflexivity | rewrite h2, ho; reflexivity].
Qed.
Lemma inverse_sound P b : dvalid P -> reported_bytes P b -> nonneg_bytes b /\ pt_Equals K (pt_SetElligator K b) P = true.
Proof.
  intros [A hP] hr. destruct (reported_iff P A hP) as (z & hz & hi). destruct (proj1 (hi b) hr) as (f & hf & ->).
  destruct (reported_sound A z (proj2 hP) hz f hf) as (hn & B & hB & hR).
  assert (nb : nonneg_bytes (le_bytes 32 (fval f))) by (apply nonneg_bytes_fe; exists f; split; [exact hn | reflexivity]).
  split; [exact nb|]. destruct (elligator_map _ (proj1 nb)) as (C & hC & mC). rewrite fe_of_le_bytes in mC.
  apply (Equals_dpoint L _ _ C A hC hP). rewrite (rfc_map_unique f C B mC hB). exact hR.
Qed.
Lemma inverse_complete P b : dvalid P -> nonneg_bytes b -> pt_Equals K (pt_SetElligator K b) P = true -> b <> missed -> reported_bytes P b.
Proof.
  intros [A hP] hb he hn. destruct (reported_iff P A hP) as (z & hz & hi). apply (proj2 (hi b)).
  destruct (elligator_map b (proj1 hb)) as (B & hB & mB). apply (Equals_dpoint L _ _ B A hB hP) in he.
  apply nonneg_bytes_fe in hb. destruct hb as (f & hf & eb). rewrite eb, fe_of_le_bytes in mB. exists f. split; [|exact eb].
  apply (reported_complete A z (proj2 hP) hz f B hf mB he). intros ->. apply hn. exact eb.
Qed.
Lemma inverse_missed P : dvalid P -> ~ reported_bytes P missed.
Proof.
  intros [A hP] hr. destruct (reported_iff P A hP) as (z & hz & hi). destruct (proj1 (hi missed) hr) as (f & hf & e).
  apply le_bytes_fval_inj in e. rewrite <- e in hf. exact (iod_not_reported A z (proj2 hP) hz hf).
Qed.
Lemma missed_zero : nonneg_bytes missed /\ pt_Equals K (pt_SetElligator K missed) (pt_SetZero K) = true.
Proof.
  assert (nb : nonneg_bytes missed) by (apply nonneg_bytes_fe; exists Fsqrt_iod; split; [exact Fsqrt_iod_nonneg | reflexivity]).
  split; [exact nb|]. destruct (elligator_map _ (proj1 nb)) as (C & hC & mC). unfold missed in mC. rewrite fe_of_le_bytes in mC.
  apply (Equals_dpoint L _ _ C E0 hC (point_d L _ _ (point_Zero L))). rewrite (rfc_iod C mC). apply Req_refl.
Qed.

Lemma lizard_map H d : hash32 H -> bytes 16 d -> exists A, dpoint L (pt_SetLizard K H d) A /\ rfc_map (lz H d) A.
Proof.
  intros hH hd. destruct (rfc_map_exists (lz H d)) as [A hA]. exists A. split; [|exact hA]. apply point_d.
  exact (point_SetLizard L H hH d A hd hA).
Qed.
Lemma lizard_valid H d : hash32 H -> bytes 16 d -> dvalid (pt_SetLizard K H d).
Proof. intros hH hd. destruct (lizard_map H d hH hd) as (A & h & _). exists A. exact h. Qed.
Lemma lizard_eq H d P A : hash32 H -> bytes 16 d -> dpoint L P A ->
  (pt_Equals K (pt_SetLizard K H d) P = true <-> exists B, rfc_map (lz H d) B /\ Req B A).
Proof.
  intros hH hd hP. destruct (lizard_map H d hH hd) as (C & hC & mC). rewrite (Equals_dpoint L _ _ C A hC hP). split.
  - intro h. exists C. split; assumption.
  - intros (B & hB & h). rewrite (rfc_map_unique _ C B mC hB). exact h.
Qed.
Lemma lizard_sound H P buf d P' : hash32 H -> dvalid P -> pt_LizardInto K H P buf = (lizard_nil, d, P') ->
  bytes 16 d /\ pt_Equals K (pt_SetLizard K H d) P = true.
Proof.
  intros hH [A hP] h. pose proof hP as hP0. destruct (LizardInto_ok L H hH P A buf hP0) as (ds & Q & _ & e & h1 & _).
  rewrite e in h. destruct ds as [|x [|y r]]; try discriminate h. 
  assert (ed : x = d) by (exact (f_equal (fun z => snd (fst z)) h)). subst x.
  destruct (h1 d (or_introl eq_refl)) as [hd hB]. split; [exact hd|]. apply (lizard_eq H d P A hH hd hP). exact hB.
Qed.

(** data found by LizardInto, for a hash that avoids the three field elements mapped to the identity *)
Lemma lizard_list H P A buf : hash32 H -> dpoint L P A ->
  (~ Req A E0) \/ (forall d, bytes 16 d -> lz H d <> F0 /\ lz H d <> Fsqrt_id /\ lz H d <> Fsqrt_iod) ->
  exists ds P', pt_LizardInto K H P buf = (match ds with [] => lizard_none | [_] => lizard_nil | _ => lizard_multiple end, last ds buf, P') /\
    NoDup ds /\ forall d, In d ds <-> bytes 16 d /\ pt_Equals K (pt_SetLizard K H d) P = true.
Proof.
  intros hH hP hs. pose proof hP as hP0. destruct (LizardInto_ok L H hH P A buf hP0) as (ds & Q & _ & e & h1 & h2 & h3 & h4).
  exists ds, Q. refine (conj e (conj _ _)).
  - destruct hs as [hs|hs]; [exact (h4 hs)|]. apply h3. intros d hd. destruct (hs d hd) as (n1 & n2 & _). split; assumption.
  - intro d. split.
    + intro hd. destruct (h1 d hd) as [hb hB]. split; [exact hb|]. apply (lizard_eq H d P A hH hb hP). exact hB.
    + intros [hb he]. apply (lizard_eq H d P A hH hb hP) in he. destruct he as (B & hB & hR). apply (h2 d B hb hB hR).
      destruct hs as [hs|hs]; [|apply (hs d hb)]. intro x. apply hs. apply Req_sym. rewrite x in hB. rewrite <- (rfc_iod B hB). exact hR.
Qed.

(** the outcome when the point encodes [data] *)
Definition lizard_outcome (H : list Z -> list Z) (P : ext FE) (buf data : list Z) : Prop :=
  exists P', pt_LizardInto K H P buf = (lizard_nil, data, P') \/
  exists b other, pt_LizardInto K H P buf = (lizard_multiple, b, P') /\ bytes 16 other /\ other <> data /\
    pt_Equals K (pt_SetLizard K H other) P = true.

Lemma outcome_ok H P A buf data : hash32 H -> dpoint L P A ->
  (~ Req A E0) \/ (forall d, bytes 16 d -> lz H d <> F0 /\ lz H d <> Fsqrt_id /\ lz H d <> Fsqrt_iod) ->
  bytes 16 data -> pt_Equals K (pt_SetLizard K H data) P = true -> lizard_outcome H P buf data.
Proof.
  intros hH hP hs hd he. destruct (lizard_list H P A buf hH hP hs) as (ds & P' & e & nd & hi). exists P'.
  assert (hin : In data ds) by (apply hi; split; assumption).
  destruct ds as [|x [|y r]]; [destruct hin | left | right].
  - destruct hin as [->|[]]. rewrite e. reflexivity.
  - destruct (NoDup_other data (x :: y :: r) nd) as (z & hz & hn); [cbn; lia | apply list_eqb_spec|].
    exists (last (x :: y :: r) buf), z. apply hi in hz. refine (conj e (conj (proj1 hz) (conj hn (proj2 hz)))).
Qed.
Lemma lizard_none_iff H P A buf : hash32 H -> dpoint L P A ->
  (~ Req A E0) \/ (forall d, bytes 16 d -> lz H d <> F0 /\ lz H d <> Fsqrt_id /\ lz H d <> Fsqrt_iod) ->
  (fst (fst (pt_LizardInto K H P buf)) = lizard_none <-> forall d, bytes 16 d -> pt_Equals K (pt_SetLizard K H d) P = false).
Proof.
  intros hH hP hs. destruct (lizard_list H P A buf hH hP hs) as (ds & P' & e & nd & hi). rewrite e. cbn [fst]. split.
  - intros h d hd. destruct (pt_Equals K (pt_SetLizard K H d) P) eqn:E; [|reflexivity].
    assert (hin : In d ds) by (apply hi; split; assumption). destruct ds as [|x [|y r]]; [destruct hin | discriminate h | discriminate h].
  - intro h. destruct ds as [|x r]; [reflexivity|]. exfalso. destruct (proj1 (hi x) (or_introl eq_refl)) as [hb ht].
    rewrite (h x hb) in ht. discriminate ht.
Qed.

Lemma sha_outcome P buf data : dvalid P -> bytes 16 data -> pt_Equals K (pt_SetLizard K sha256 data) P = true -> lizard_outcome sha256 P buf data.
Proof. intros [A hP] hd he. exact (outcome_ok sha256 P A buf data sha256_bytes hP (or_intror sha256_special) hd he). Qed.
Lemma sha_roundtrip buf data : bytes 16 data -> lizard_outcome sha256 (pt_SetLizard K sha256 data) buf data.
Proof.
  intro hd. pose proof (lizard_valid sha256 data sha256_bytes hd) as hv. apply (sha_outcome _ buf data hv hd). destruct hv as [A hA]. apply (Equals_dpoint L _ _ A A hA hA). apply Req_refl.
Qed.
Lemma sha_none P buf : dvalid P ->
  (fst (fst (pt_LizardInto K sha256 P buf)) = lizard_none <-> forall d, bytes 16 d -> pt_Equals K (pt_SetLizard K sha256 d) P = false).
Proof. intros [A hP]. exact (lizard_none_iff sha256 P A buf sha256_bytes hP (or_intror sha256_special)). Qed.
Lemma any_outcome H P buf data : hash32 H -> dvalid P -> pt_Equals K P (pt_SetZero K) = false ->
  bytes 16 data -> pt_Equals K (pt_SetLizard K H data) P = true -> lizard_outcome H P buf data.
Proof.
  intros hH [A hP] hz hd he. apply (outcome_ok H P A buf data hH hP); [left | exact hd | exact he].
  intro hR. apply (Equals_dpoint L P _ A E0 hP (point_d L _ _ (point_Zero L))) in hR. rewrite hz in hR. discriminate hR.
Qed.
Lemma lizard_wrap H P : pt_Lizard K H P = match pt_LizardInto K H P (repeat 0 16) with
  | (lizard_nil, buf, Q) => (Some buf, Q) | (_, _, Q) => (None, Q) end.
Proof. reflexivity. Qed.

(** at most 8 byte strings are reported *)
Lemma reported_at_most_8 P : exists bs, (length bs <= 8)%nat /\ forall b, reported_bytes P b <-> In b bs.
Proof.
  unfold reported_bytes. destruct (ep_RistrettoElligator2Inverse K P) as [[mask fes] P'].
  exists (map (fun j => fst (o_bytes K (nth j fes (k_zero K)))) (filter (fun j => Z.testbit mask (Z.of_nat j)) (seq 0 8))).
  split.
  - rewrite map_length. assert (G : forall (g : nat -> bool) l, (length (filter g l) <= length l)%nat).
    { intros g l. induction l as [|a l IH]; cbn; [lia|]. destruct (g a); cbn; lia. }
    exact (G _ (seq 0 8)).
  - intro b. rewrite in_map_iff. split.
    + intros (j & hj & ht & ->). exists j. split; [reflexivity|]. apply filter_In. split; [apply in_seq; lia | exact ht].
    + intros (j & <- & hj). apply filter_In in hj. destruct hj as [hj ht]. apply in_seq in hj. exists j. refine (conj _ (conj ht eq_refl)). lia.
Qed.
Lemma reported_exact P b : dvalid P ->
  (reported_bytes P b <-> nonneg_bytes b /\ b <> missed /\ pt_Equals K (pt_SetElligator K b) P = true).
Proof.
  intro hP. split.
  - intro h. destruct (inverse_sound P b hP h) as [h1 h2]. refine (conj h1 (conj _ h2)). intro e. rewrite e in h. exact (inverse_missed P hP h).
  - intros (h1 & h2 & h3). exact (inverse_complete P b hP h1 h3 h2).
Qed.
Lemma missed_only_zero P : dvalid P -> pt_Equals K (pt_SetElligator K missed) P = true -> pt_Equals K P (pt_SetZero K) = true.
Proof.
  intros [A hP] h. destruct missed_zero as [h1 h2]. destruct (elligator_map missed (proj1 h1)) as (C & hC & _).
  apply (Equals_dpoint L _ _ C A hC hP) in h. apply (Equals_dpoint L _ _ C E0 hC (point_d L _ _ (point_Zero L))) in h2. apply (Equals_dpoint L _ _ A E0 hP (point_d L _ _ (point_Zero L))).
  apply Req_sym in h. exact (Req_trans _ _ _ h h2).
Qed.
Lemma complete_nonzero P b : dvalid P -> pt_Equals K P (pt_SetZero K) = false -> nonneg_bytes b ->
  pt_Equals K (pt_SetElligator K b) P = true -> reported_bytes P b.
Proof.
  intros hP hz hb he. apply (inverse_complete P b hP hb he). intros ->. rewrite (missed_only_zero P hP he) in hz. discriminate hz.
Qed.
End Gen.
