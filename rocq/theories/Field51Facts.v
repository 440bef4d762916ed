(** The field operations of the radix-2^51 backend, as statements about limbs and residues. *)
From Coq Require Import ZArith List Lia Bool.
From Verif Require Import Words Primes Fp NumTheory Edwards Fe51Code Fe51Proofs FieldModel FieldLaws FieldFacts Fe51Laws.
Import ListNotations.
Open Scope Z_scope.

(** the element of GF(p) that five limbs represent *)
Definition val51 (x : fe51) : F := of_Z (v51 x).

Lemma rel51_val n x : bnd51 (n * U51) x -> rel51 n x (val51 x).
Proof. intro h. split; [exact h | reflexivity]. Qed.

Lemma cong_of_Z x y : of_Z x = of_Z y -> x mod p = y mod p.
Proof. apply of_Z_eq. Qed.

Lemma k_cong x y k : x = y + P25519 * k -> y mod p = x mod p.
Proof. intro h. apply cong_of_Z. rewrite h, of_Z_plus_pk. reflexivity. Qed.

Lemma f51_mul a b : bnd51 (2 ^ 54 - 1) a -> bnd51 (2 ^ 54 - 1) b ->
  bnd51 U51 (r51_mul a b) /\ v51 (r51_mul a b) mod p = (v51 a * v51 b) mod p.
Proof. intros ha hb. destruct (r51_mul_ok a b ha hb) as [h [k e]]. split; [exact h | exact (k_cong _ _ _ e)]. Qed.
Lemma f51_square a : bnd51 (2 ^ 54 - 1) a ->
  bnd51 U51 (r51_square a) /\ v51 (r51_square a) mod p = (v51 a * v51 a) mod p.
Proof. intros ha. destruct (r51_square_ok a ha) as [h [k e]]. split; [exact h | exact (k_cong _ _ _ e)]. Qed.
Lemma f51_doubledSquare a : bnd51 (2 ^ 53 + 2 ^ 15) a ->
  bnd51 U51 (r51_doubledSquare a) /\ v51 (r51_doubledSquare a) mod p = (2 * (v51 a * v51 a)) mod p.
Proof. intros ha. destruct (r51_doubledSquare_ok a ha) as [h [k e]]. split; [exact h | exact (k_cong _ _ _ e)]. Qed.
Lemma f51_add m n a b : bnd51 m a -> bnd51 n b -> m + n < 2 ^ 64 ->
  bnd51 (m + n) (r51_add a b) /\ v51 (r51_add a b) = v51 a + v51 b.
Proof. exact (r51_add_ok m n a b). Qed.
Lemma f51_sub m a b : bnd51 m a -> m < 2 ^ 63 -> bnd51 (2 ^ 63 - 1) b ->
  bnd51 (m + (2 ^ 52 - 2)) (r51_sub a b) /\ v51 (r51_sub a b) mod p = (v51 a - v51 b) mod p.
Proof.
  intros ha hm hb. destruct (r51_sub_ok m a b ha ltac:(lia) hb) as [h [k e]]. split; [exact h|].
  apply cong_of_Z. rewrite e, of_Z_plus_pk. reflexivity.
Qed.
Lemma f51_neg a : bnd51 (2 ^ 63 - 1) a ->
  bnd51 (2 ^ 52 - 2) (r51_neg a) /\ v51 (r51_neg a) mod p = (- v51 a) mod p.
Proof.
  intros ha. destruct (r51_neg_ok a ha) as [h [k e]]. split; [exact h|].
  apply cong_of_Z. rewrite e, of_Z_plus_pk. reflexivity.
Qed.
Lemma f51_normalize a : bnd51 (2 ^ 63 - 1) a ->
  bnd51 (2 ^ 51 - 1) (r51_setReduced a) /\ v51 (r51_setReduced a) = v51 a mod p.
Proof. rewrite <- P25519_p. exact (r51_setReduced_ok a). Qed.
Lemma f51_Add a b : bnd51 (2 ^ 62 - 1) a -> bnd51 (2 ^ 62 - 1) b ->
  bnd51 (2 ^ 51 - 1) (fe_Add R51 a b) /\ v51 (fe_Add R51 a b) = (v51 a + v51 b) mod p.
Proof.
  intros ha hb. destruct (r51_add_ok _ _ a b ha hb ltac:(lia)) as [h e].
  destruct (f51_normalize (r51_add a b)) as [h1 e1]; [eapply bnd51_le; [|exact h]; lia|].
  split; [exact h1|]. refine (eq_trans e1 _). rewrite e. reflexivity.
Qed.
Lemma f51_Sub a b : bnd51 (2 ^ 62 - 1) a -> bnd51 (2 ^ 62 - 1) b ->
  bnd51 (2 ^ 51 - 1) (fe_Sub R51 a b) /\ v51 (fe_Sub R51 a b) = (v51 a - v51 b) mod p.
Proof.
  intros ha hb. destruct (f51_sub (2 ^ 62 - 1) a b ha ltac:(lia)) as [h e]; [eapply bnd51_le; [|exact hb]; lia|].
  destruct (f51_normalize (r51_sub a b)) as [h1 e1]; [eapply bnd51_le; [|exact h]; lia|].
  split; [exact h1|]. refine (eq_trans e1 _). exact e.
Qed.

(** ** encodings *)
Lemma f51_bytes a : bnd51 (2 ^ 63 - 1) a -> bytes 32 (r51_bytes a) /\ le_val (r51_bytes a) = v51 a mod p.
Proof.
  intro ha. rewrite (r51_bytes_ok a ha), P25519_p. split; [apply le_bytes_bytes|].
  apply le_val_le_bytes. pose proof (fval_256 (val51 a)) as h. unfold val51 in h. rewrite fval_of_Z in h. exact h.
Qed.
Lemma f51_setBytes s : bytes 32 s -> bnd51 (2 ^ 51 - 1) (r51_setBytes s) /\ v51 (r51_setBytes s) = le_val s mod 2 ^ 255.
Proof. exact (r51_setBytes_ok s). Qed.

Lemma p_lt_255 : p < 2 ^ 255.
Proof. vm_compute. reflexivity. Qed.

Lemma f51_bytes_setBytes s : bytes 32 s -> le_val s < p -> r51_bytes (r51_setBytes s) = s.
Proof.
  intros hs hv. pose proof p_lt_255. destruct (f51_setBytes s hs) as [h e].
  destruct (f51_bytes (r51_setBytes s)) as [h1 e1]; [eapply bnd51_le; [|exact h]; lia|].
  pose proof (le_val_range s (proj2 hs)). rewrite e, (Z.mod_small (le_val s)), Z.mod_small in e1 by lia.
  apply le_val_inj; [apply h1 | apply hs | rewrite (proj1 h1), (proj1 hs); reflexivity | exact e1].
Qed.
Lemma f51_setBytes_bytes a : bnd51 (2 ^ 63 - 1) a -> v51 (r51_setBytes (r51_bytes a)) = v51 a mod p.
Proof.
  intro ha. pose proof p_lt_255. pose proof p_pos. destruct (f51_bytes a ha) as [h e].
  destruct (f51_setBytes _ h) as [_ e1]. rewrite e1, e. pose proof (Z.mod_pos_bound (v51 a) p ltac:(lia)). apply Z.mod_small. lia.
Qed.

Lemma f51_SetBigInt x : bnd51 U51 (fe_SetBigInt R51 x) /\ v51 (fe_SetBigInt R51 x) mod p = x mod p.
Proof.
  destruct (fe_SetBigInt_ok L51 x) as [h e]. rewrite Z.mul_1_l in h. split; [exact h | apply cong_of_Z; exact e].
Qed.
Lemma f51_BigInt a : bnd51 (7 * U51) a -> fst (fe_BigInt R51 a) = v51 a mod p.
Proof.
  intro h. destruct (fe_BigInt_ok L51 7 a (val51 a) (rel51_val 7 a h) ltac:(cbn; lia)) as (x' & e & _).
  rewrite e. cbn [fst]. unfold val51. apply fval_of_Z.
Qed.

(** ** inversion and roots *)
Lemma f51_Inverse a : bnd51 (7 * U51) a -> bnd51 U51 (fe_Inverse R51 a) /\
  (v51 a mod p <> 0 -> (v51 (fe_Inverse R51 a) * v51 a) mod p = 1) /\
  (v51 a mod p = 0 -> v51 (fe_Inverse R51 a) mod p = 0).
Proof.
  intro h. destruct (fe_Inverse_ok L51 7 a (val51 a) (rel51_val 7 a h) ltac:(cbn; lia)) as [hb e].
  rewrite Z.mul_1_l in hb. split; [exact hb|]. unfold val51 in e. split; intro hz.
  - assert (hn : of_Z (v51 a) <> F0).
    { intro h0. apply hz. apply (f_equal fval) in h0. rewrite fval_of_Z in h0. rewrite h0. reflexivity. }
    assert (E : of_Z (v51 (fe_Inverse R51 a) * v51 a) = F1).
    { rewrite of_Z_mul, e. apply Finv_l. exact hn. }
    apply (f_equal fval) in E. rewrite fval_of_Z in E. rewrite E. reflexivity.
  - assert (h0 : of_Z (v51 a) = F0) by (apply F_eq; rewrite fval_of_Z, hz; reflexivity).
    rewrite h0 in e. apply (f_equal fval) in e. rewrite fval_of_Z in e. rewrite e.
    unfold Finv. rewrite Fpow_F0; [reflexivity|]. vm_compute. reflexivity.
Qed.

Lemma f51_InvSqrt a : bnd51 (7 * U51) a ->
  let f := val51 a in let g := val51 (fe_InvSqrt R51 a) in
  bnd51 U51 (fe_InvSqrt R51 a) /\ (f = F0 -> g = F0) /\
  (f <> F0 -> is_sq f -> (g * g * f)%F = F1) /\ (f <> F0 -> ~ is_sq f -> (g * g * f)%F <> F1).
Proof.
  intros h f g. destruct (fe_InvSqrt_ok L51 7 a f (rel51_val 7 a h) ltac:(cbn; lia)) as [hb e].
  rewrite Z.mul_1_l in hb. split; [exact hb|]. replace g with (isr_val f). apply isr_val_spec.
Qed.

Lemma f51_InvSqrtI a : bnd51 (7 * U51) a ->
  let f := val51 a in let g := val51 (snd (fe_InvSqrtI R51 a)) in let b := fst (fe_InvSqrtI R51 a) in
  bnd51 U51 (snd (fe_InvSqrtI R51 a)) /\ (f = F0 -> b = 0 /\ g = F0) /\
  (f <> F0 -> is_sq f -> b = 1 /\ (g * g * f)%F = F1) /\ (f <> F0 -> ~ is_sq f -> b = 0 /\ (g * g * (Fi * f))%F = F1).
Proof.
  intros h f g b. destruct (fe_InvSqrtI_ok L51 7 a f (rel51_val 7 a h) ltac:(cbn; lia)) as (x & e & [hb hv]).
  rewrite Z.mul_1_l in hb. subst g b. rewrite e. cbn [fst snd]. split; [exact hb|].
  change (val51 x) with (of_Z (v51 x)). rewrite hv. destruct (isri_val_spec f) as (s1 & s2 & s3).
  split; [|split].
  - intro h0. destruct (s1 h0) as [-> s4]. split; [reflexivity | exact s4].
  - intros h0 h1. destruct (s2 h0 h1) as [-> s4]. split; [reflexivity | exact s4].
  - intros h0 h1. destruct (s3 h0 h1) as [-> s4]. split; [reflexivity | exact s4].
Qed.

Lemma f51_Sqrt a : bnd51 (7 * U51) a -> is_sq (val51 a) ->
  let g := val51 (fe_Sqrt R51 a) in bnd51 (2 * U51) (fe_Sqrt R51 a) /\ (g * g)%F = val51 a /\ Fneg g = false.
Proof.
  intros h hs g. destruct (fe_Sqrt_ok L51 7 a (val51 a) (rel51_val 7 a h) ltac:(cbn; lia)) as [hb e].
  split; [exact hb|]. change (of_Z (v51 (fe_Sqrt R51 a))) with g in e. rewrite e. split; [|apply Fabs_nonneg].
  rewrite Fabs_sq. destruct (isr_val_spec (val51 a)) as (s1 & s2 & _).
  destruct (F_dec (val51 a) F0) as [z|z].
  - rewrite z. ring.
  - specialize (s2 z hs). set (r := isr_val (val51 a)) in *. transitivity ((r * r * val51 a) * val51 a)%F; [ring|].
    rewrite s2. ring.
Qed.

(** ** predicates *)
Lemma f51_IsNegativeI a : bnd51 (7 * U51) a -> fe_IsNegativeI R51 a = (Z.b2z (Z.odd (v51 a mod p)), a).
Proof.
  intro h. destruct (fe_IsNegativeI_ok L51 7 a (val51 a) (rel51_val 7 a h) ltac:(cbn; lia)) as (x & e & _).
  unfold Fneg, val51 in e. rewrite fval_of_Z in e. rewrite e. f_equal.
  unfold fe_IsNegativeI in e. cbn [o_bytes R51] in e. congruence.
Qed.
Lemma Feqb_val a b : Feqb (of_Z a) (of_Z b) = (a mod p =? b mod p).
Proof.
  apply eq_true_iff_eq. rewrite Feqb_eq, Z.eqb_eq. apply of_Z_eq.
Qed.
Lemma f51_IsNonZeroI a : bnd51 (7 * U51) a -> fe_IsNonZeroI R51 a = (Z.b2z (negb (v51 a mod p =? 0)), a).
Proof.
  intro h. destruct (fe_IsNonZeroI_ok L51 7 a (val51 a) (rel51_val 7 a h) ltac:(cbn; lia)) as (x & e & _).
  replace (Feqb (val51 a) F0) with (v51 a mod p =? 0) in e.
  2:{ symmetry. etransitivity; [apply (Feqb_val (v51 a) 0)|]. rewrite Zmod_0_l. reflexivity. }
  rewrite e. f_equal. unfold fe_IsNonZeroI in e. cbn [o_bytes R51] in e. congruence.
Qed.
Lemma f51_EqualsI a b : bnd51 (3 * U51) a -> bnd51 (3 * U51) b ->
  fe_EqualsI R51 a b = Z.b2z (v51 a mod p =? v51 b mod p) /\ fe_Equals R51 a b = (v51 a mod p =? v51 b mod p).
Proof.
  intros ha hb. rewrite <- Feqb_val. split.
  - apply (fe_EqualsI_ok L51 3 3); try (cbn; lia); apply rel51_val; assumption.
  - apply (fe_Equals_ok L51 3 3); try (cbn; lia); apply rel51_val; assumption.
Qed.
Lemma f51_IsOneI a : bnd51 (5 * U51) a -> fe_IsOneI R51 a = Z.b2z (v51 a mod p =? 1).
Proof.
  intros ha. rewrite (fe_IsOneI_ok L51 5 a (val51 a) (rel51_val 5 a ha)) by (cbn; lia). f_equal.
Qed.
Lemma f51_Abs a : bnd51 (2 * U51) a -> let r := fe_Abs R51 a in let s := fe_Abs_self R51 a in
  snd r = a /\ bnd51 (2 * U51) (fst r) /\ bnd51 (2 * U51) s /\
  v51 (fst r) mod p = (if Z.odd (v51 a mod p) then (- v51 a) mod p else v51 a mod p) /\
  v51 s mod p = (if Z.odd (v51 a mod p) then (- v51 a) mod p else v51 a mod p).
Proof.
  intros ha r s.
  destruct (fe_Abs_ok L51 2 a (val51 a) (rel51_val 2 a ha) ltac:(cbn; lia)) as (x & e & _ & [h1 e1]).
  destruct (fe_Abs_self_ok L51 2 a (val51 a) (rel51_val 2 a ha) ltac:(cbn; lia) ltac:(cbn; lia)) as [h2 e2].
  assert (G : forall x, of_Z x = Fabs (val51 a) -> x mod p = if Z.odd (v51 a mod p) then (- v51 a) mod p else v51 a mod p).
  { intros y ey. unfold Fabs, Fneg, val51 in ey. rewrite fval_of_Z in ey. rewrite <- of_Z_opp in ey.
    destruct (Z.odd (v51 a mod p)); apply cong_of_Z; exact ey. }
  split; [|split; [exact h1 | split; [exact h2 | split; [exact (G _ e1) | exact (G _ e2)]]]].
  subst r. unfold fe_Abs. rewrite f51_IsNegativeI; [reflexivity|]. eapply bnd51_le; [|exact ha]. unfold U51. lia.
Qed.

Lemma f51_condSet x y b : bnd51 (2 ^ 64 - 1) x -> bnd51 (2 ^ 64 - 1) y ->
  r51_condSet x y (Z.b2z b) = if b then y else x.
Proof. intros hx hy. apply (r51_condSet_ok _ x y b hx hy). lia. Qed.
