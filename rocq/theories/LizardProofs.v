(** SetElligator, Derive, the inverse and Lizard of ristretto.go over a lawful field backend *)
From Coq Require Import ZArith Znumtheory List Lia Bool.
From Verif Require Import Words Primes Fp Edwards GroupOrder RistrettoSpec FieldModel CurveModel BitFold FieldLaws CurveProofs
  EncodeProofs ScalarCode ScalarModel TextCodec RistrettoModel RistrettoFacts ElligatorSpec ElligatorMath ElligatorProofs.
Import ListNotations.
Open Scope Z_scope.

(** the field element that a 32-byte string stands for: the top bit is ignored *)
Definition fe_of (buf : list Z) : F := of_Z (le_val buf mod 2 ^ 255).

Section Lizard.
Context {K : FeOps} (L : FeLaws K).
Local Notation FE := (fe K).

Lemma point_SetElligator buf A : bytes 32 buf -> rfc_map (fe_of buf) A -> point L (pt_SetElligator K buf) A.
Proof.
  intros hb hA. split; [|exact (rfc_map_even _ _ hA)]. apply rpt_1, rct_ext.
  apply (cp_SetRistrettoElligator2_ok L _ (fe_of buf)); [|exact hA]. apply law_setBytes. exact hb.
Qed.
Lemma valid_SetElligator buf : bytes 32 buf -> exists A, rfc_map (fe_of buf) A /\ point L (pt_SetElligator K buf) A.
Proof. intro hb. destruct (rfc_map_exists (fe_of buf)) as [A hA]. exists A. split; [exact hA | apply point_SetElligator; assumption]. Qed.

(** ** the inverse *)
Definition inv_results (P : ext FE) : list (bool * list Z) :=
  let '(mask, fes, _) := ep_RistrettoElligator2Inverse K P in
  map (fun j => (mask_bit mask j =? 1, fst (o_bytes K (nth j fes (k_zero K))))) (seq 0 8).

Lemma Forall2_len fes fs : Forall2 (fun x f => rel L 2 x f) fes fs -> length fes = length fs.
Proof. intro h. induction h; cbn; congruence. Qed.
Lemma Forall2_nth_rel fes fs j : Forall2 (fun x f => rel L 2 x f) fes fs -> (j < length fs)%nat ->
  rel L 2 (nth j fes (k_zero K)) (nth j fs F0).
Proof.
  intro h. revert j. induction h as [|x f xs fs0 hx hxs IH]; intros j hj; cbn in *; [lia|].
  destruct j; [exact hx | apply IH; lia].
Qed.
Lemma map_seq_nth {A} (g : nat -> A) (d : A) (j n : nat) : (j < n)%nat -> nth j (map g (seq 0 n)) d = g j.
Proof. intro h. rewrite (nth_indep _ d (g 0%nat)) by (rewrite map_length, seq_length; exact h). rewrite map_nth, seq_nth by exact h. reflexivity. Qed.

Lemma inverse_ok P A : dpoint L P A -> exists z mask fes P', z <> F0 /\ ep_RistrettoElligator2Inverse K P = (mask, fes, P') /\
  rd L P' A /\ length fes = 8%nat /\
  forall j, (j < 8)%nat -> let q := nth j (jq8 A z) (F0, F0) in
    mask_bit mask j = Z.b2z (inv_ret (fst q) (snd q)) /\
    fst (o_bytes K (nth j fes (k_zero K))) = le_bytes 32 (fval (inv_out (fst q) (snd q))).
Proof.
  intros [hP hA]. destruct (ep_RistrettoElligator2Inverse_ok L P A hP) as (z & mask & fes & P' & hz & e & hm & hf & hP').
  exists z, mask, fes, P'. refine (conj hz (conj e (conj hP' (conj _ _)))).
  - apply Forall2_len in hf. rewrite hf. reflexivity.
  - intros j hj q. split.
    + apply (f_equal (fun l => nth j l 0)) in hm. rewrite map_seq_nth in hm by exact hj. rewrite hm.
      change 0 with (Z.b2z false). rewrite map_nth. f_equal.
      rewrite (nth_indep _ false (inv_fst (F0, F0))) by (exact hj). rewrite map_nth. reflexivity.
    + pose proof (Forall2_nth_rel fes _ j hf hj) as hr.
      rewrite (nth_indep _ F0 (inv_snd (F0, F0))), map_nth in hr by (exact hj). fold q in hr. fe_facts L.
      destruct (law_bytes K L 2 _ _ hr ltac:(lia)) as (x' & e' & _). rewrite e'. reflexivity.
Qed.

(** ** Lizard *)
Variable H : list Z -> list Z.
Hypothesis Hlen : forall d, bytes 32 (H d).

Lemma lizard_buf_ok d : bytes 16 d -> let b := lizard_buf H d in
  bytes 32 b /\ slice b 8 24 = d /\ Z.even (le_val b) = true /\ 0 <= le_val b < 2 ^ 254.
Proof.
  intros [hl hd]. destruct (Hlen d) as [gl gd]. cbv zeta. unfold lizard_buf. cbv zeta. revert gl gd. generalize (H d). intros h gl gd.
  assert (E0 : forall x, is_byte x -> is_byte (Z.land x 254) /\ Z.even (Z.land x 254) = true).
  { intros x hx. split.
    - unfold is_byte in *. split; [apply Z.land_nonneg; lia|].
      change 254 with (Z.land (Z.ones 8) 254). rewrite Z.land_assoc, (Z.land_comm x), <- Z.land_assoc, Z.land_comm, Z.land_ones by lia. apply Z.mod_pos_bound. lia.
    - rewrite <- Z.negb_odd, <- Z.bit0_odd, Z.land_spec. change (Z.testbit 254 0) with false. rewrite andb_false_r. reflexivity. }
  assert (E1 : forall x, is_byte x -> 0 <= Z.land x 63 < 64).
  { intros x hx. change 63 with (Z.ones 6). rewrite Z.land_ones by lia. change (2 ^ 6) with 64. apply Z.mod_pos_bound. lia. }
  do 32 (destruct h as [|? h]; [discriminate gl|]). destruct h; [|discriminate gl].
  do 16 (destruct d as [|? d]; [discriminate hl|]). destruct d; [|discriminate hl].
  repeat match goal with G : Forall is_byte (_ :: _) |- _ => inversion G; clear G; subst end.
  cbn [firstn skipn app upd at_ nth slice Nat.sub].
  match goal with |- bytes 32 (Z.land ?a 254 :: _) /\ _ => destruct (E0 a ltac:(assumption)) as [u1 u2]; set (a0 := Z.land a 254) in *; clearbody a0 end.
  match goal with |- context [Z.land ?a 63] => pose proof (E1 a ltac:(assumption)) as u3; set (a1 := Z.land a 63) in *; clearbody a1 end.
  refine (conj _ (conj _ (conj _ _))).
  - split; [reflexivity|]. repeat (apply Forall_cons; [first [assumption | unfold is_byte; lia]|]). apply Forall_nil.
  - reflexivity.
  - cbn [le_val]. rewrite Z.even_add, u2, Z.even_mul. reflexivity.
  - unfold is_byte in *. cbn [le_val]. change (2 ^ 254) with 28948022309329048855892746252171976963317496166410141009864396001978282409984. clear E0 E1 Hlen H gl hl u2. lia.
Qed.

Definition lz (d : list Z) : F := fe_of (lizard_buf H d).

Lemma two254_p : 2 ^ 254 < p.
Proof. vm_compute. reflexivity. Qed.
Lemma lz_ok d : bytes 16 d -> le_bytes 32 (fval (lz d)) = lizard_buf H d /\ Fneg (lz d) = false.
Proof.
  intro hd. destruct (lizard_buf_ok d hd) as (hb & _ & he & hr). pose proof two254_p.
  assert (ev : fval (lz d) = le_val (lizard_buf H d)).
  { unfold lz, fe_of. rewrite (Z.mod_small _ (2 ^ 255)) by (change (2 ^ 255) with (2 * 2 ^ 254); lia).
    rewrite fval_of_Z. apply Z.mod_small. lia. }
  split.
  - rewrite ev. rewrite <- (proj1 hb) at 1. apply le_bytes_le_val, hb.
  - unfold Fneg. rewrite ev, <- Z.negb_even, he. reflexivity.
Qed.
Lemma lz_inj f d : bytes 16 d -> le_bytes 32 (fval f) = lizard_buf H d -> f = lz d.
Proof. intros hd e. rewrite <- (proj1 (lz_ok d hd)) in e. apply le_bytes_fval_inj in e. exact e. Qed.
Lemma point_SetLizard d A : bytes 16 d -> rfc_map (lz d) A -> point L (pt_SetLizard K H d) A.
Proof. intros hd hA. apply (point_SetElligator (lizard_buf H d)); [apply lizard_buf_ok, hd | exact hA]. Qed.

(** data found at index [j]: the field elements with bit [j] of the mask *)
Section Loop.
Variables (mask : Z) (fes : list FE) (bit : nat -> bool) (out : nat -> F).
Hypothesis Hbit : forall j, (j < 8)%nat -> mask_bit mask j = Z.b2z (bit j).
Hypothesis Hout : forall j, (j < 8)%nat -> fst (o_bytes K (nth j fes (k_zero K))) = le_bytes 32 (fval (out j)).

Definition data_at (j : nat) : list Z := slice (le_bytes 32 (fval (out j))) 8 24.
Definition ok_at (j : nat) : bool :=
  bit j && (if list_eqb_spec (lizard_buf H (data_at j)) (le_bytes 32 (fval (out j))) then true else false).
Definition found (n : nat) : list nat := filter ok_at (seq 0 n).

Lemma data_at_bytes j : bytes 16 (data_at j).
Proof.
  unfold data_at. split.
  - rewrite slice_len; [reflexivity | lia | rewrite le_bytes_length; lia].
  - apply slice_bytes, le_bytes_bytes.
Qed.
Lemma step_found j buf n : (j < 8)%nat -> (n < 255)%nat ->
  lizard_step K H mask fes j (buf, Z.of_nat n) =
  (if ok_at j then data_at j else buf, Z.of_nat (if ok_at j then S n else n)).
Proof.
  intros hj hn. unfold lizard_step. rewrite (Hout j hj). fold (mask_bit mask j). rewrite (Hbit j hj). cbv zeta. fold (data_at j).
  destruct (lizard_buf_ok _ (data_at_bytes j)) as (hb & _).
  rewrite ct_compare_ok; [| apply hb | apply le_bytes_bytes | rewrite le_bytes_length; apply hb].
  unfold ok_at. destruct (bit j), (list_eqb_spec _ _); cbn [andb]; [| | |]; cbn [Z.b2z]; unfold u8.
  1: change (Z.land 1 (1 mod 256)) with 1; cbn [Z.eqb Pos.eqb]; f_equal; rewrite Z.mod_small by lia; lia.
  all: match goal with |- context [Z.land ?a ?b] => change (Z.land a b) with 0 end; cbn [Z.eqb]; f_equal;
    rewrite Z.mod_small by lia; lia.
Qed.
Lemma loop_found n buf : (n <= 8)%nat ->
  for_up n (lizard_step K H mask fes) (buf, 0) = (last (map data_at (found n)) buf, Z.of_nat (length (found n))) /\ (length (found n) <= n)%nat.
Proof.
  induction n as [|n IH]; intro hn; [split; [reflexivity | cbn; lia]|].
  destruct (IH ltac:(lia)) as [e hl]. cbn [for_up]. rewrite e, (step_found n _ (length (found n))) by lia.
  unfold found. rewrite seq_S, filter_app. cbn [filter app Nat.add]. destruct (ok_at n).
  - rewrite map_app, app_length. cbn [map length]. rewrite last_last. fold (found n). split; [f_equal; lia | lia].
  - rewrite app_nil_r. fold (found n). split; [reflexivity | lia].
Qed.
End Loop.

(** what [LizardInto] does *)
Definition lizard_result (P : ext FE) (A : E) (buf : list Z) : Prop :=
  exists (ds : list (list Z)) P', rd L P' A /\
  pt_LizardInto K H P buf = (match ds with [] => lizard_none | [_] => lizard_nil | _ => lizard_multiple end, last ds buf, P') /\
  (forall d, In d ds -> bytes 16 d /\ exists B, rfc_map (lz d) B /\ Req B A) /\
  (forall d B, bytes 16 d -> rfc_map (lz d) B -> Req B A -> lz d <> Fsqrt_iod -> In d ds) /\
  ((forall d, bytes 16 d -> lz d <> F0 /\ lz d <> Fsqrt_id) -> NoDup ds) /\
  (~ Req A E0 -> NoDup ds).
Theorem LizardInto_ok P A buf : dpoint L P A -> lizard_result P A buf.
Proof.
  intro hP. pose proof (proj2 hP) as hA. destruct (inverse_ok P A hP) as (z & mask & fes & P' & hz & e & hP' & hlen & hq).
  set (bit := fun j => let q := nth j (jq8 A z) (F0, F0) in inv_ret (fst q) (snd q)).
  set (out := fun j => let q := nth j (jq8 A z) (F0, F0) in inv_out (fst q) (snd q)).
  assert (Hbit : forall j, (j < 8)%nat -> mask_bit mask j = Z.b2z (bit j)) by (intros j hj; apply (hq j hj)).
  assert (Hout : forall j, (j < 8)%nat -> fst (o_bytes K (nth j fes (k_zero K))) = le_bytes 32 (fval (out j))) by (intros j hj; apply (hq j hj)).
  destruct (loop_found mask fes bit out Hbit Hout 8 buf (le_n 8)) as [el hl].
  set (fd := found bit out 8) in *.
  assert (OK : forall j, In j fd -> (j < 8)%nat /\ bit j = true /\ out j = lz (data_at out j)).
  { intros j hj. apply filter_In in hj. destruct hj as [h1 h2]. apply in_seq in h1. refine (conj (proj2 h1) _).
    unfold ok_at in h2. apply andb_true_iff in h2. destruct h2 as [h2 h3]. split; [exact h2|].
    destruct (list_eqb_spec _ _) as [h4|]; [|discriminate]. apply lz_inj; [apply data_at_bytes | symmetry; exact h4]. }
  assert (IN : forall d, bytes 16 d -> forall j, (j < 8)%nat -> bit j = true -> out j = lz d -> In d (map (data_at out) fd)).
  { intros d hd j hj hb ho. destruct (lz_ok d hd) as [e1 _]. apply in_map_iff. exists j.
    assert (ed : data_at out j = d). { unfold data_at. rewrite ho, e1. apply lizard_buf_ok, hd. }
    split; [exact ed|]. apply filter_In. split; [apply in_seq; lia|]. unfold ok_at. rewrite hb, ed, ho, e1.
    destruct (list_eqb_spec _ _) as [|n]; [reflexivity | destruct (n eq_refl)]. }
  assert (ND : (forall j k, In j fd -> In k fd -> (j < k)%nat -> out j <> out k) -> NoDup (map (data_at out) fd)).
  { intro hd. apply NoDup_nth with (d := data_at out 0%nat). intros i k hi hk hik.
    rewrite map_length in hi, hk. rewrite !map_nth in hik.
    assert (sf : NoDup fd) by (apply NoDup_filter, seq_NoDup).
    set (a := nth i fd 0%nat) in *. set (b := nth k fd 0%nat) in *.
    assert (ia : In a fd) by (apply nth_In; exact hi). assert (ib : In b fd) by (apply nth_In; exact hk).
    assert (eo : out a = out b) by (rewrite (proj2 (proj2 (OK a ia))), (proj2 (proj2 (OK b ib))), hik; reflexivity).
    destruct (Nat.lt_trichotomy a b) as [lt|[eq|lt]].
    - destruct (hd a b ia ib lt eo).
    - exact (proj1 (NoDup_nth fd 0%nat) sf i k hi hk eq).
    - destruct (hd b a ib ia lt (eq_sym eo)). }
  exists (map (data_at out) fd), P'. refine (conj hP' (conj _ (conj _ (conj _ (conj _ _))))).
  - unfold pt_LizardInto. rewrite e, el. 
    destruct fd as [|a [|b r]]; cbn [length map Nat.eqb]; [reflexivity | reflexivity|].
    replace (Z.of_nat (S (S (length r))) =? 1) with false by (symmetry; apply Z.eqb_neq; lia).
    replace (Z.of_nat (S (S (length r))) =? 0) with false by (symmetry; apply Z.eqb_neq; lia). reflexivity.
  - intros d hd. apply in_map_iff in hd. destruct hd as (j & <- & hj). destruct (OK j hj) as (h1 & h2 & h3).
    split; [apply data_at_bytes|]. rewrite <- h3. 
    assert (R : reported A z (out j)).
    { exists (fst (nth j (jq8 A z) (F0, F0))), (snd (nth j (jq8 A z) (F0, F0))). refine (conj _ (conj h2 eq_refl)).
      rewrite <- surjective_pairing. apply nth_In. exact h1. }
    exact (proj2 (reported_sound A z hA hz _ R)).
  - intros d B hd hB hR hn. destruct (reported_complete A z hA hz (lz d) B (proj2 (lz_ok d hd)) hB hR hn) as (s & t & hin & r1 & r2).
    apply (In_nth _ _ (F0, F0)) in hin. destruct hin as (j & hj & ej). change (length (jq8 A z)) with 8%nat in hj.
    apply (IN d hd j hj); unfold bit, out; rewrite ej; assumption.
  - intro hs. apply ND. intros j k hj hk lt eo. destruct (OK j hj) as (h1 & h2 & h3). destruct (OK k hk) as (g1 & g2 & g3).
    destruct (hs _ (data_at_bytes out j)) as [n1 n2]. rewrite <- h3 in n1, n2.
    destruct (out_distinct A z hA hz j k (conj lt g1) h2 g2 eo) as [x|x]; [exact (n1 x) | exact (n2 x)].
  - intro hs. apply ND. intros j k hj hk lt eo. destruct (OK j hj) as (h1 & h2 & h3). destruct (OK k hk) as (g1 & g2 & g3).
    assert (R : reported A z (out j)).
    { exists (fst (nth j (jq8 A z) (F0, F0))), (snd (nth j (jq8 A z) (F0, F0))). refine (conj _ (conj h2 eq_refl)).
      rewrite <- surjective_pairing. apply nth_In. exact h1. }
    destruct (reported_sound A z hA hz _ R) as (_ & B & hB & hR). apply hs. apply Req_sym.
    replace E0 with B; [exact hR|]. apply (rfc_map_unique (out j)); [exact hB|]. apply rfc_E0.
    destruct (out_distinct A z hA hz j k (conj lt g1) h2 g2 eo) as [x|x]; [left; exact x | right; left].
    unfold out at 1 2. cbv zeta. rewrite x. exact Fsqrt_id_sq.
Qed.
End Lizard.
