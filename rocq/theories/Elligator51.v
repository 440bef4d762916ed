(** Elligator and Lizard on the 64-bit backend: API-level lemmas. *)
From Coq Require Import ZArith Znumtheory List Lia Bool.
From Verif Require Import Words Primes Fp Edwards GroupOrder RistrettoSpec Fe51Code Fe51Proofs FieldModel CurveModel BitFold FieldLaws
  CurveProofs EncodeProofs ScalarCode ScalarModel TextCodec RistrettoModel RistrettoFacts Fe51Laws Points51
  ElligatorSpec ElligatorMath ElligatorProofs LizardProofs Sha256.
Import ListNotations.
Open Scope Z_scope.

Lemma elligator_map buf : bytes 32 buf -> exists A, element (pt_SetElligator R51 buf) A /\ rfc_map (fe_of buf) A.
Proof. intro hb. destruct (valid_SetElligator L51 buf hb) as (A & h1 & h2). exists A. split; [apply elt_point; exact h2 | exact h1]. Qed.
Lemma elligator_valid buf : bytes 32 buf -> valid (pt_SetElligator R51 buf).
Proof. intro hb. destruct (elligator_map buf hb) as (A & h & _). exists A. exact h. Qed.
Lemma map_functional f : exists A, rfc_map f A /\ forall B, rfc_map f B -> B = A.
Proof. destruct (rfc_map_exists f) as [A h]. exists A. split; [exact h|]. intros B hB. exact (rfc_map_unique f B A hB h). Qed.
Lemma elligator_same b c : bytes 32 b -> bytes 32 c -> (fe_of b = fe_of c \/ fe_of b = Fopp (fe_of c)) ->
  pt_Equals R51 (pt_SetElligator R51 b) (pt_SetElligator R51 c) = true /\ pt_Bytes R51 (pt_SetElligator R51 b) = pt_Bytes R51 (pt_SetElligator R51 c).
Proof.
  intros hb hc h. destruct (elligator_map b hb) as (A & hA & mA). destruct (elligator_map c hc) as (B & hB & mB).
  assert (e : A = B).
  { destruct h as [h|h]; rewrite h in mA; [exact (rfc_map_unique _ A B mA mB)|].
    apply rfc_map_opp in mB. exact (rfc_map_unique _ A B mA mB). }
  assert (EQ : pt_Equals R51 (pt_SetElligator R51 b) (pt_SetElligator R51 c) = true).
  { apply (eq_iff _ _ A B hA hB). rewrite e. apply Req_refl. }
  split; [exact EQ|]. apply enc_iff; [exists A; exact hA | exists B; exact hB | exact EQ].
Qed.
Lemma top_bit b x : bytes 31 b -> is_byte x -> fe_of (b ++ [x]) = fe_of (b ++ [x mod 128]).
Proof.
  intros [hl hb] hx. unfold fe_of. f_equal. rewrite !le_val_app, hl. cbn [le_val]. change (256 ^ Z.of_nat 31) with (2 ^ 248).
  rewrite (Z.div_mod x 128) at 1 by lia.
  replace (le_val b + 2 ^ 248 * (128 * (x / 128) + x mod 128 + 256 * 0)) with (le_val b + 2 ^ 248 * (x mod 128 + 256 * 0) + (x / 128) * 2 ^ 255).
  - apply Z_mod_plus_full.
  - change (2 ^ 255) with (2 ^ 248 * 128). ring.
Qed.
Lemma derive_ok (h : list Z -> list Z) buf : bytes 64 (h buf) ->
  (exists A, element (pt_Derive R51 h buf) A /\ rfc_map (fe_of (firstn 32 (h buf))) A) /\
  (exists A B, element (pt_DeriveDalek R51 h buf) (Eadd A B) /\ rfc_map (fe_of (firstn 32 (h buf))) A /\ rfc_map (fe_of (skipn 32 (h buf))) B).
Proof.
  intros [hl hb].
  assert (h1 : bytes 32 (firstn 32 (h buf))).
  { split; [rewrite firstn_length, hl; reflexivity|]. rewrite <- (firstn_skipn 32 (h buf)) in hb. apply Forall_app in hb. apply hb. }
  assert (h2 : bytes 32 (skipn 32 (h buf))).
  { split; [rewrite skipn_length, hl; reflexivity|]. rewrite <- (firstn_skipn 32 (h buf)) in hb. apply Forall_app in hb. apply hb. }
  destruct (elligator_map _ h1) as (A & eA & mA). destruct (elligator_map _ h2) as (B & eB & mB).
  split; [exists A; split; [exact eA | exact mA]|]. exists A, B. refine (conj _ (conj mA mB)).
  apply elt_point. apply elt_point in eA, eB. exact (point_Add L51 _ _ A B eA eB).
Qed.

(** ** the inverse *)
(** bit j of the mask, and the bytes of the j-th field element *)
Definition reported_bytes (P : ext fe51) (b : list Z) : Prop :=
  let '(mask, fes, _) := ep_RistrettoElligator2Inverse R51 P in
  exists j, (j < 8)%nat /\ Z.testbit mask (Z.of_nat j) = true /\ b = fst (o_bytes R51 (nth j fes (k_zero R51))).
(** the canonical encoding of a nonnegative field element *)
Definition nonneg_bytes (b : list Z) : Prop := bytes 32 b /\ le_val b < p /\ Z.even (le_val b) = true.

Lemma nonneg_bytes_fe b : nonneg_bytes b <-> exists f, Fneg f = false /\ b = le_bytes 32 (fval f).
Proof.
  split.
  - intros (hb & hp & he). exists (of_Z (le_val b)). assert (hr : 0 <= le_val b) by (apply le_val_range, hb).
    unfold Fneg. rewrite fval_of_Z, Z.mod_small by lia. split; [rewrite <- Z.negb_even, he; reflexivity|].
    rewrite <- (proj1 hb). symmetry. apply le_bytes_le_val, hb.
  - intros (f & hf & ->). pose proof (fval_range f) as hr. refine (conj _ _).
    + split; [apply le_bytes_length | apply le_bytes_bytes].
    + rewrite le_val_le_bytes by apply fval_256. split; [lia|]. unfold Fneg in hf. rewrite <- Z.negb_odd, hf. reflexivity.
Qed.
Lemma fe_of_le_bytes f : fe_of (le_bytes 32 (fval f)) = f.
Proof. exact (fval_le_bytes f). Qed.
Lemma mask_testbit mask j b : mask_bit mask j = Z.b2z b <-> Z.testbit mask (Z.of_nat j) = b.
Proof.
  unfold mask_bit. change 1 with (Z.ones 1) at 1. rewrite Z.land_ones by lia. change (2 ^ 1) with 2. rewrite <- Z.bit0_mod, Z.shiftr_spec by lia.
  rewrite Z.add_0_l. destruct (Z.testbit mask (Z.of_nat j)), b; cbn; split; congruence.
Qed.
Lemma reported_iff P A : element P A -> exists z, z <> F0 /\ forall b, reported_bytes P b <-> exists f, reported A z f /\ b = le_bytes 32 (fval f).
Proof.
  intro hP. apply elt_point in hP. destruct (inverse_ok L51 P A (point_d L51 _ _ hP)) as (z & mask & fes & P' & hz & e & _ & _ & hq).
  exists z. split; [exact hz|]. intro b. unfold reported_bytes. rewrite e. split.
  - intros (j & hj & hm & ->). destruct (hq j hj) as [h1 h2]. rewrite h2. eexists. split; [|reflexivity].
    apply mask_testbit in h1. rewrite hm in h1. eexists. eexists. refine (conj _ (conj (eq_sym h1) eq_refl)).
    rewrite <- surjective_pairing. apply nth_In. exact hj.
  - intros (f & (s & t & hin & hr & ho) & ->). apply (In_nth _ _ (F0, F0)) in hin. destruct hin as (j & hj & ej).
    change (length (jq8 A z)) with 8%nat in hj. exists j. destruct (hq j hj) as [h1 h2]. rewrite ej in h1, h2. cbn [fst snd] in h1, h2.
    refine (conj hj (conj _ _)); [apply mask_testbit; rewrite h1, hr; reflexivity | rewrite h2, ho; reflexivity].
Qed.
Lemma inverse_sound P b : valid P -> reported_bytes P b -> nonneg_bytes b /\ pt_Equals R51 (pt_SetElligator R51 b) P = true.
Proof.
  intros [A hP] hr. destruct (reported_iff P A hP) as (z & hz & hi). destruct (proj1 (hi b) hr) as (f & hf & ->).
  destruct (reported_sound A z (proj2 hP) hz f hf) as (hn & B & hB & hR).
  assert (nb : nonneg_bytes (le_bytes 32 (fval f))) by (apply nonneg_bytes_fe; exists f; split; [exact hn | reflexivity]).
  split; [exact nb|]. destruct (elligator_map _ (proj1 nb)) as (C & hC & mC). rewrite fe_of_le_bytes in mC.
  apply (eq_iff _ _ C A hC hP). rewrite (rfc_map_unique f C B mC hB). exact hR.
Qed.
Definition missed : list Z := le_bytes 32 (fval Fsqrt_iod).
Lemma inverse_complete P b : valid P -> nonneg_bytes b -> pt_Equals R51 (pt_SetElligator R51 b) P = true -> b <> missed -> reported_bytes P b.
Proof.
  intros [A hP] hb he hn. destruct (reported_iff P A hP) as (z & hz & hi). apply (proj2 (hi b)).
  destruct (elligator_map b (proj1 hb)) as (B & hB & mB). apply (eq_iff _ _ B A hB hP) in he.
  apply nonneg_bytes_fe in hb. destruct hb as (f & hf & eb). rewrite eb, fe_of_le_bytes in mB. exists f. split; [|exact eb].
  apply (reported_complete A z (proj2 hP) hz f B hf mB he). intros ->. apply hn. exact eb.
Qed.
Lemma inverse_missed P : valid P -> ~ reported_bytes P missed.
Proof.
  intros [A hP] hr. destruct (reported_iff P A hP) as (z & hz & hi). destruct (proj1 (hi missed) hr) as (f & hf & e).
  apply le_bytes_fval_inj in e. rewrite <- e in hf. exact (iod_not_reported A z (proj2 hP) hz hf).
Qed.
Lemma missed_zero : nonneg_bytes missed /\ pt_Equals R51 (pt_SetElligator R51 missed) (pt_SetZero R51) = true.
Proof.
  assert (nb : nonneg_bytes missed) by (apply nonneg_bytes_fe; exists Fsqrt_iod; split; [exact Fsqrt_iod_nonneg | reflexivity]).
  split; [exact nb|]. destruct (elligator_map _ (proj1 nb)) as (C & hC & mC). unfold missed in mC. rewrite fe_of_le_bytes in mC.
  apply (eq_iff _ _ C E0 hC elt_Zero). rewrite (rfc_iod C mC). apply Req_refl.
Qed.

(** ** Lizard *)
Definition hash32 (H : list Z -> list Z) : Prop := forall d, bytes 32 (H d).

Lemma lizard_map H d : hash32 H -> bytes 16 d -> exists A, element (pt_SetLizard R51 H d) A /\ rfc_map (lz H d) A.
Proof.
  intros hH hd. destruct (rfc_map_exists (lz H d)) as [A hA]. exists A. split; [|exact hA]. apply elt_point.
  exact (point_SetLizard L51 H hH d A hd hA).
Qed.
Lemma lizard_valid H d : hash32 H -> bytes 16 d -> valid (pt_SetLizard R51 H d).
Proof. intros hH hd. destruct (lizard_map H d hH hd) as (A & h & _). exists A. exact h. Qed.
Lemma lizard_eq H d P A : hash32 H -> bytes 16 d -> element P A ->
  (pt_Equals R51 (pt_SetLizard R51 H d) P = true <-> exists B, rfc_map (lz H d) B /\ Req B A).
Proof.
  intros hH hd hP. destruct (lizard_map H d hH hd) as (C & hC & mC). rewrite (eq_iff _ _ C A hC hP). split.
  - intro h. exists C. split; assumption.
  - intros (B & hB & h). rewrite (rfc_map_unique _ C B mC hB). exact h.
Qed.
Lemma last_in {X} (l : list X) d : l <> [] -> In (last l d) l.
Proof. intro h. destruct (exists_last h) as (l' & a & ->). rewrite last_last. apply in_or_app. right. left. reflexivity. Qed.

Lemma lizard_sound H P buf d P' : hash32 H -> valid P -> pt_LizardInto R51 H P buf = (lizard_nil, d, P') ->
  bytes 16 d /\ pt_Equals R51 (pt_SetLizard R51 H d) P = true.
Proof.
  intros hH [A hP] h. pose proof hP as hP0. apply elt_point in hP0. destruct (LizardInto_ok L51 H hH P A buf (point_d L51 _ _ hP0)) as (ds & Q & _ & e & h1 & _).
  rewrite e in h. destruct ds as [|x [|y r]]; try discriminate h. 
  assert (ed : x = d) by (exact (f_equal (fun z => snd (fst z)) h)). subst x.
  destruct (h1 d (or_introl eq_refl)) as [hd hB]. split; [exact hd|]. apply (lizard_eq H d P A hH hd hP). exact hB.
Qed.

(** data found by LizardInto, for a hash that avoids the three field elements mapped to the identity *)
Lemma lizard_list H P A buf : hash32 H -> element P A ->
  (~ Req A E0) \/ (forall d, bytes 16 d -> lz H d <> F0 /\ lz H d <> Fsqrt_id /\ lz H d <> Fsqrt_iod) ->
  exists ds P', pt_LizardInto R51 H P buf = (match ds with [] => lizard_none | [_] => lizard_nil | _ => lizard_multiple end, last ds buf, P') /\
    NoDup ds /\ forall d, In d ds <-> bytes 16 d /\ pt_Equals R51 (pt_SetLizard R51 H d) P = true.
Proof.
  intros hH hP hs. pose proof hP as hP0. apply elt_point in hP0. destruct (LizardInto_ok L51 H hH P A buf (point_d L51 _ _ hP0)) as (ds & Q & _ & e & h1 & h2 & h3 & h4).
  exists ds, Q. refine (conj e (conj _ _)).
  - destruct hs as [hs|hs]; [exact (h4 hs)|]. apply h3. intros d hd. destruct (hs d hd) as (n1 & n2 & _). split; assumption.
  - intro d. split.
    + intro hd. destruct (h1 d hd) as [hb hB]. split; [exact hb|]. apply (lizard_eq H d P A hH hb hP). exact hB.
    + intros [hb he]. apply (lizard_eq H d P A hH hb hP) in he. destruct he as (B & hB & hR). apply (h2 d B hb hB hR).
      destruct hs as [hs|hs]; [|apply (hs d hb)]. intro x. apply hs. apply Req_sym. rewrite x in hB. rewrite <- (rfc_iod B hB). exact hR.
Qed.

Lemma NoDup_other {X} (x : X) (l : list X) : NoDup l -> (2 <= length l)%nat -> (forall a b : X, {a = b} + {a <> b}) -> exists y, In y l /\ y <> x.
Proof.
  intros h hl dec. destruct l as [|a [|b r]]; cbn in hl; try lia. destruct (dec a x) as [->|n].
  - exists b. split; [right; left; reflexivity|]. intros ->. inversion h. apply H1. left. reflexivity.
  - exists a. split; [left; reflexivity | exact n].
Qed.

(** the outcome when the point encodes [data] *)
Definition lizard_outcome (H : list Z -> list Z) (P : ext fe51) (buf data : list Z) : Prop :=
  exists P', pt_LizardInto R51 H P buf = (lizard_nil, data, P') \/
  exists b other, pt_LizardInto R51 H P buf = (lizard_multiple, b, P') /\ bytes 16 other /\ other <> data /\
    pt_Equals R51 (pt_SetLizard R51 H other) P = true.

Lemma outcome_ok H P A buf data : hash32 H -> element P A ->
  (~ Req A E0) \/ (forall d, bytes 16 d -> lz H d <> F0 /\ lz H d <> Fsqrt_id /\ lz H d <> Fsqrt_iod) ->
  bytes 16 data -> pt_Equals R51 (pt_SetLizard R51 H data) P = true -> lizard_outcome H P buf data.
Proof.
  intros hH hP hs hd he. destruct (lizard_list H P A buf hH hP hs) as (ds & P' & e & nd & hi). exists P'.
  assert (hin : In data ds) by (apply hi; split; assumption).
  destruct ds as [|x [|y r]]; [destruct hin | left | right].
  - destruct hin as [->|[]]. rewrite e. reflexivity.
  - destruct (NoDup_other data (x :: y :: r) nd) as (z & hz & hn); [cbn; lia | apply list_eqb_spec|].
    exists (last (x :: y :: r) buf), z. apply hi in hz. refine (conj e (conj (proj1 hz) (conj hn (proj2 hz)))).
Qed.
Lemma lizard_none_iff H P A buf : hash32 H -> element P A ->
  (~ Req A E0) \/ (forall d, bytes 16 d -> lz H d <> F0 /\ lz H d <> Fsqrt_id /\ lz H d <> Fsqrt_iod) ->
  (fst (fst (pt_LizardInto R51 H P buf)) = lizard_none <-> forall d, bytes 16 d -> pt_Equals R51 (pt_SetLizard R51 H d) P = false).
Proof.
  intros hH hP hs. destruct (lizard_list H P A buf hH hP hs) as (ds & P' & e & nd & hi). rewrite e. cbn [fst]. split.
  - intros h d hd. destruct (pt_Equals R51 (pt_SetLizard R51 H d) P) eqn:E; [|reflexivity].
    assert (hin : In d ds) by (apply hi; split; assumption). destruct ds as [|x [|y r]]; [destruct hin | discriminate h | discriminate h].
  - intro h. destruct ds as [|x r]; [reflexivity|]. exfalso. destruct (proj1 (hi x) (or_introl eq_refl)) as [hb ht].
    rewrite (h x hb) in ht. discriminate ht.
Qed.

(** ** SHA-256 *)
Lemma sha256_special d : bytes 16 d -> lz sha256 d <> F0 /\ lz sha256 d <> Fsqrt_id /\ lz sha256 d <> Fsqrt_iod.
Proof.
  intro hd. destruct (lz_ok sha256 sha256_bytes d hd) as [e _]. destruct (lizard_buf_ok sha256 sha256_bytes d hd) as (_ & hs & _).
  assert (G : forall f, lz sha256 d = f -> lizard_buf sha256 (slice (le_bytes 32 (fval f)) 8 24) = le_bytes 32 (fval f)).
  { intros f hf. rewrite hf in e. rewrite e, hs. reflexivity. }
  refine (conj _ (conj _ _)); intro h; apply G in h; vm_compute in h; discriminate h.
Qed.
Lemma sha_outcome P buf data : valid P -> bytes 16 data -> pt_Equals R51 (pt_SetLizard R51 sha256 data) P = true -> lizard_outcome sha256 P buf data.
Proof. intros [A hP] hd he. exact (outcome_ok sha256 P A buf data sha256_bytes hP (or_intror sha256_special) hd he). Qed.
Lemma sha_roundtrip buf data : bytes 16 data -> lizard_outcome sha256 (pt_SetLizard R51 sha256 data) buf data.
Proof.
  intro hd. pose proof (lizard_valid sha256 data sha256_bytes hd) as hv. apply (sha_outcome _ buf data hv hd). apply Equals_refl. exact hv.
Qed.
Lemma sha_none P buf : valid P ->
  (fst (fst (pt_LizardInto R51 sha256 P buf)) = lizard_none <-> forall d, bytes 16 d -> pt_Equals R51 (pt_SetLizard R51 sha256 d) P = false).
Proof. intros [A hP]. exact (lizard_none_iff sha256 P A buf sha256_bytes hP (or_intror sha256_special)). Qed.
Lemma any_outcome H P buf data : hash32 H -> valid P -> pt_Equals R51 P (pt_SetZero R51) = false ->
  bytes 16 data -> pt_Equals R51 (pt_SetLizard R51 H data) P = true -> lizard_outcome H P buf data.
Proof.
  intros hH [A hP] hz hd he. apply (outcome_ok H P A buf data hH hP); [left | exact hd | exact he].
  intro hR. apply (eq_iff P _ A E0 hP elt_Zero) in hR. rewrite hz in hR. discriminate hR.
Qed.
Lemma lizard_wrapper H P : pt_Lizard R51 H P = match pt_LizardInto R51 H P (repeat 0 16) with
  | (lizard_nil, buf, Q) => (Some buf, Q) | (_, _, Q) => (None, Q) end.
Proof. reflexivity. Qed.

(** at most 8 byte strings are reported *)
Lemma reported_at_most_8 P : exists bs, (length bs <= 8)%nat /\ forall b, reported_bytes P b <-> In b bs.
Proof.
  unfold reported_bytes. destruct (ep_RistrettoElligator2Inverse R51 P) as [[mask fes] P'].
  exists (map (fun j => fst (o_bytes R51 (nth j fes (k_zero R51)))) (filter (fun j => Z.testbit mask (Z.of_nat j)) (seq 0 8))).
  split.
  - rewrite map_length. assert (G : forall (g : nat -> bool) l, (length (filter g l) <= length l)%nat).
    { intros g l. induction l as [|a l IH]; cbn; [lia|]. destruct (g a); cbn; lia. }
    exact (G _ (seq 0 8)).
  - intro b. rewrite in_map_iff. split.
    + intros (j & hj & ht & ->). exists j. split; [reflexivity|]. apply filter_In. split; [apply in_seq; lia | exact ht].
    + intros (j & <- & hj). apply filter_In in hj. destruct hj as [hj ht]. apply in_seq in hj. exists j. refine (conj _ (conj ht eq_refl)). lia.
Qed.
Lemma reported_exact P b : valid P ->
  (reported_bytes P b <-> nonneg_bytes b /\ b <> missed /\ pt_Equals R51 (pt_SetElligator R51 b) P = true).
Proof.
  intro hP. split.
  - intro h. destruct (inverse_sound P b hP h) as [h1 h2]. refine (conj h1 (conj _ h2)). intro e. rewrite e in h. exact (inverse_missed P hP h).
  - intros (h1 & h2 & h3). exact (inverse_complete P b hP h1 h3 h2).
Qed.
Lemma missed_only_zero P : valid P -> pt_Equals R51 (pt_SetElligator R51 missed) P = true -> pt_Equals R51 P (pt_SetZero R51) = true.
Proof.
  intros [A hP] h. destruct missed_zero as [h1 h2]. destruct (elligator_map missed (proj1 h1)) as (C & hC & _).
  apply (eq_iff _ _ C A hC hP) in h. apply (eq_iff _ _ C E0 hC elt_Zero) in h2. apply (eq_iff _ _ A E0 hP elt_Zero).
  apply Req_sym in h. exact (Req_trans _ _ _ h h2).
Qed.
Lemma complete_nonzero P b : valid P -> pt_Equals R51 P (pt_SetZero R51) = false -> nonneg_bytes b ->
  pt_Equals R51 (pt_SetElligator R51 b) P = true -> reported_bytes P b.
Proof.
  intros hP hz hb he. apply (inverse_complete P b hP hb he). intros ->. rewrite (missed_only_zero P hP he) in hz. discriminate hz.
Qed.
Lemma nonneg_example : nonneg_bytes (le_bytes 32 4).
Proof. split; [split; [reflexivity | apply le_bytes_bytes] | split; [|vm_compute; reflexivity]]. vm_compute. reflexivity. Qed.
