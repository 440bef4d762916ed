(** Running the program of [ScalarMultTable.Compute] gives [tbl_Compute]. *)
From Coq Require Import ZArith List String Lia.
From Verif Require Import Words ScalarCode FieldModel CurveModel GoLang GoLangFacts GoCurveCode GoViews GoScalarMult.
Import ListNotations.
Open Scope Z_scope.
Strategy 2000 [final exec].

Ltac red_prog :=
  cbv beta iota delta [runk prog fold_right vals map fst snd ixval GoLang.upd setk Nat.eqb Nat.add Nat.sub Nat.mul Nat.div2 andb
    elt off lo fo0 fo1 fo2 foc foc0 ido io1 io2 iot fe_at int_at ext_at compl_at proj_at niels_at jac_at ints exts seq].

Lemma pair_eq {A B : Type} (a c : A) (b d : B) : (a, b) = (c, d) -> a = c /\ b = d.
Proof. intro h. injection h as -> ->. split; reflexivity. Qed.

Section Facts.
Context (K : FeOps).
Notation V := (fe K * Z)%type.
Notation FIN := (final (E:=Empty_set) nosub (fun a => a)).
Notation P n := ((n%nat, C 0) : place V).

Ltac link v := rewrite <- (runk_ok (E:=Empty_set) nosub _ _ _ v); red_prog; reflexivity.

(** ** one entry *)
Lemma inv_8 rho m : fe_at K (FIN rho (g_fe_Inverse K (lo K 2 6) (off (lo K 0 2) 2) 9 2) m 8%nat) 0 = fe_Inverse K (fe_at K (m 2%nat) 2).
Proof. unfold g_fe_Inverse, fe_Inverse, go_for. link (fun m : mem V => fe_at K (m 8%nat) 0). Qed.

Definition entry : place V := elt (elt (P 0) 24 (Ctr 0)) 3 (Ctr 1).
Lemma head rho m : let m1 := FIN rho (prog [g_fe_Inverse K (lo K 2 6) (off (lo K 0 2) 2) 9 2;
    fo2 K "Mul" (o_mul K) (lo K 0 6) (off (lo K 0 2) 0) (lo K 2 6); fo2 K "Mul" (o_mul K) (lo K 1 6) (off (lo K 0 2) 1) (lo K 2 6)]) m in
  (fe_at K (m1 6%nat) 0, fe_at K (m1 7%nat) 0) =
  (o_mul K (fe_at K (m 2%nat) 0) (fe_Inverse K (fe_at K (m 2%nat) 2)), o_mul K (fe_at K (m 2%nat) 1) (fe_Inverse K (fe_at K (m 2%nat) 2))).
Proof.
  cbv zeta. rewrite final_cons, <- (inv_8 rho m).
  pose proof (fun i => keep K (g_fe_Inverse K (lo K 2 6) (off (lo K 0 2) 2) 9 2) rho m 2 eq_refl eq_refl i) as h.
  set (m1 := FIN rho (g_fe_Inverse _ _ _ _ _) m) in *. clearbody m1. unfold fe_at at 3 5. rewrite <- !h. clear h.
  rewrite <- (runk_ok (E:=Empty_set) nosub _ _ _ (fun m1 : mem V => (fe_at K (m1 6%nat) 0, fe_at K (m1 7%nat) 0))). red_prog. reflexivity.
Qed.

Lemma tail rho m : niels_at K (FIN rho (prog [
    g_fe_Add K (off entry 0) (lo K 1 6) (lo K 0 6) 9 2;
    g_fe_Sub K (off entry 1) (lo K 1 6) (lo K 0 6) 9 2;
    fo2 K "Mul" (o_mul K) (off entry 2) (lo K 0 6) (lo K 1 6);
    g_fe_Add K (off entry 2) (off entry 2) (off entry 2) 9 2;
    fo1 K "Mul" (fun x => o_mul K x (k_D K)) (off entry 2) (off entry 2)]) m 0%nat) (24 * rho 0%nat + 3 * rho 1%nat) =
  mkNiels (fe_Add K (fe_at K (m 7%nat) 0) (fe_at K (m 6%nat) 0)) (fe_Sub K (fe_at K (m 7%nat) 0) (fe_at K (m 6%nat) 0))
    (o_mul K (let t := o_mul K (fe_at K (m 6%nat) 0) (fe_at K (m 7%nat) 0) in fe_Add K t t) (k_D K)).
Proof.
  rewrite <- (runk_ok (E:=Empty_set) nosub _ _ _ (fun m : mem V => niels_at K (m 0%nat) (24 * rho 0%nat + 3 * rho 1%nat))).
  unfold g_fe_Add, g_fe_Sub, fe_Add, fe_Sub, entry.
  cbv beta iota delta [runk prog fold_right vals map fst snd ixval elt off lo fo0 fo1 fo2 fe_at niels_at LetIn].
  generalize (24 * rho 0%nat + 3 * rho 1%nat)%nat. intro o.
  unfold GoLang.upd.
  assert (e1 : Nat.eqb (o + 1) o = false) by (apply Nat.eqb_neq; lia). assert (e2 : Nat.eqb (o + 2) o = false) by (apply Nat.eqb_neq; lia).
  assert (e3 : Nat.eqb (o + 2) (o + 1) = false) by (apply Nat.eqb_neq; lia). assert (e4 : Nat.eqb o (o + 1) = false) by (apply Nat.eqb_neq; lia).
  assert (e5 : Nat.eqb o (o + 2) = false) by (apply Nat.eqb_neq; lia). assert (e6 : Nat.eqb (o + 1) (o + 2) = false) by (apply Nat.eqb_neq; lia).
  rewrite ?e1, ?e2, ?e3, ?e4, ?e5, ?e6, ?Nat.eqb_refl. reflexivity.
Qed.

Definition set_entry : stmt V := g_np_SetExtended K entry (lo K 0 2) 6 2.
Definition entry_of (x y : fe K) : niels (fe K) := mkNiels (fe_Add K y x) (fe_Sub K y x) (o_mul K (let t := o_mul K x y in fe_Add K t t) (k_D K)).
Lemma entry_pure (c : nat -> V) : np_SetExtended K (ext_at K c 0) =
  entry_of (o_mul K (fe_at K c 0) (fe_Inverse K (fe_at K c 2))) (o_mul K (fe_at K c 1) (fe_Inverse K (fe_at K c 2))).
Proof.
  unfold np_SetExtended, entry_of, ext_at, fe_at. cbv beta iota zeta delta [eX eY eZ Nat.add]. reflexivity.
Qed.
Definition three : list (stmt V) := [g_fe_Inverse K (lo K 2 6) (off (lo K 0 2) 2) 9 2;
    fo2 K "Mul" (o_mul K) (lo K 0 6) (off (lo K 0 2) 0) (lo K 2 6); fo2 K "Mul" (o_mul K) (lo K 1 6) (off (lo K 0 2) 1) (lo K 2 6)].
Definition five : list (stmt V) := [
    g_fe_Add K (off entry 0) (lo K 1 6) (lo K 0 6) 9 2;
    g_fe_Sub K (off entry 1) (lo K 1 6) (lo K 0 6) 9 2;
    fo2 K "Mul" (o_mul K) (off entry 2) (lo K 0 6) (lo K 1 6);
    g_fe_Add K (off entry 2) (off entry 2) (off entry 2) 9 2;
    fo1 K "Mul" (fun x => o_mul K x (k_D K)) (off entry 2) (off entry 2)].
Lemma entry_parts : set_entry = prog (three ++ five).
Proof. reflexivity. Qed.
Lemma entry_final rho m : FIN rho set_entry m = FIN rho (prog five) (FIN rho (prog three) m).
Proof. rewrite entry_parts, (final_split nosub 3). reflexivity. Qed.
Lemma entry_set rho m : niels_at K (FIN rho set_entry m 0%nat) (24 * rho 0%nat + 3 * rho 1%nat) = np_SetExtended K (ext_at K (m 2%nat) 0).
Proof.
  rewrite entry_final, entry_pure. pose proof (head rho m) as h. cbv zeta in h. fold three in h.
  apply pair_eq in h as [h1 h2]. rewrite <- h1, <- h2. apply tail.
Qed.
Lemma entry_other rho m i : (forall k, (k < 3)%nat -> i <> 24 * rho 0%nat + 3 * rho 1%nat + k)%nat -> FIN rho set_entry m 0%nat i = m 0%nat i.
Proof.
  intro h. rewrite entry_final. rewrite frame; [apply keep; reflexivity|reflexivity|].
  pose proof (h 0%nat ltac:(lia)) as h0. pose proof (h 1%nat ltac:(lia)) as h1. pose proof (h 2%nat ltac:(lia)) as h2. clear h.
  intro hin. unfold five, g_fe_Add, g_fe_Sub, entry in hin.
  cbv beta iota delta [wcells prog fold_right app fo1 fo2 off elt lo ixc fst snd] in hin.
  repeat (destruct hin as [hin|hin]; [assert (e := f_equal snd hin); cbn [snd] in e; lia|]). destruct hin.
Qed.

(** ** a row *)
Lemma add_c rho m : ext_at K (FIN rho (g_ep_Add K (lo K 0 2) (lo K 0 2) (lo K 1 2) 6 2) m 2%nat) 0 = ep_Add K (ext_at K (m 2%nat) 0) (ext_at K (m 3%nat) 0).
Proof.
  unfold g_ep_Add, g_cp_AddExtended, g_ep_SetCompleted, ep_Add, cp_AddExtended, ep_SetCompleted. link (fun m : mem V => ext_at K (m 2%nat) 0).
Qed.
Definition row_body : stmt V := prog [g_ep_Add K (lo K 0 2) (lo K 0 2) (lo K 1 2) 6 2; set_entry].
Definition row_step (cp : ext (fe K)) (st : list (niels (fe K)) * ext (fe K)) :=
  let '(row, c) := st in let c := ep_Add K c cp in ((row ++ [np_SetExtended K c])%list, c).
Lemma row_ok rho i m : rho 0%nat = i ->
  let m' := FIN rho (For 1 8 row_body) m in
  (map (fun j => niels_at K (m' 0%nat) (24 * i + 3 * j)) (seq 0 8), ext_at K (m' 2%nat) 0) =
    for_up 8 (fun _ => row_step (ext_at K (m 3%nat) 0)) ([], ext_at K (m 2%nat) 0) /\
  (forall k, (k < 24 * i)%nat -> m' 0%nat k = m 0%nat k) /\ (forall k, m' 3%nat k = m 3%nat k).
Proof.
  intro hi. cbv zeta. rewrite final_For.
  apply (for_up_rel (fun n (x : mem V) st =>
    (map (fun j => niels_at K (x 0%nat) (24 * i + 3 * j)) (seq 0 n), ext_at K (x 2%nat) 0) = st /\
    (forall k, (k < 24 * i)%nat -> x 0%nat k = m 0%nat k) /\ (forall k, x 3%nat k = m 3%nat k)));
    [refine (conj eq_refl (conj (fun _ _ => eq_refl) (fun _ => eq_refl)))|].
  intros n x y hn [<- [h1 h2]]. set (r := setk rho 1 n).
  assert (r0 : r 0%nat = i) by exact hi. assert (r1 : r 1%nat = n) by reflexivity. clearbody r.
  unfold row_body. rewrite !final_cons, final_nil.
  pose proof (add_c r x) as hc. pose proof (keep K (g_ep_Add K (lo K 0 2) (lo K 0 2) (lo K 1 2) 6 2) r x 0 eq_refl eq_refl) as ka.
  pose proof (keep K (g_ep_Add K (lo K 0 2) (lo K 0 2) (lo K 1 2) 6 2) r x 3 eq_refl eq_refl) as kb.
  set (x1 := FIN r (g_ep_Add _ _ _ _ _ _) x) in *. clearbody x1.
  pose proof (entry_set r x1) as he. pose proof (entry_other r x1) as ho.
  pose proof (keep K set_entry r x1 2 eq_refl eq_refl) as kc. pose proof (keep K set_entry r x1 3 eq_refl eq_refl) as kd.
  set (x2 := FIN r set_entry x1) in *. clearbody x2. rewrite r0, r1 in *. clear r r0 r1.
  refine (conj _ (conj _ _)).
  - unfold row_step. rewrite <- (ext_at_ext K _ _ 0 h2), <- hc, <- he. rewrite seq_S, map_app. cbn [map Nat.add].
    f_equal; [|exact (ext_at_ext K _ _ 0 kc)]. f_equal.
    apply map_ext_in. intros j hj. apply in_seq in hj. unfold niels_at. rewrite !ho, !ka by (intros; lia). reflexivity.
  - intros k hk. rewrite ho, ka by (intros; lia). apply h1, hk.
  - intro k. rewrite kd, kb. apply h2.
Qed.

(** ** the rest of a round *)
Lemma zero_c rho m : ext_at K (FIN rho (g_ep_SetZero K (lo K 0 2) 6 2) m 2%nat) 0 = ep_SetZero K.
Proof. unfold g_ep_SetZero, ep_SetZero. link (fun m : mem V => ext_at K (m 2%nat) 0). Qed.
Definition dbl5 : stmt V := prog [
    g_cp_DoubleExtended K (lo K 3 2) (lo K 0 2) 6 2;
    g_pp_SetCompleted K (lo K 2 2) (lo K 3 2) 6 2;
    g_cp_DoubleProjective K (lo K 3 2) (lo K 2 2) 6 2;
    g_pp_SetCompleted K (lo K 2 2) (lo K 3 2) 6 2;
    g_cp_DoubleProjective K (lo K 3 2) (lo K 2 2) 6 2;
    g_pp_SetCompleted K (lo K 2 2) (lo K 3 2) 6 2;
    g_cp_DoubleProjective K (lo K 3 2) (lo K 2 2) 6 2;
    g_pp_SetCompleted K (lo K 2 2) (lo K 3 2) 6 2;
    g_cp_DoubleProjective K (lo K 3 2) (lo K 2 2) 6 2;
    g_ep_SetCompleted K (lo K 1 2) (lo K 3 2) 6 2].
Lemma dbl_a rho m : compl_at K (FIN rho (g_cp_DoubleExtended K (lo K 3 2) (lo K 0 2) 6 2) m 5%nat) 0 = cp_DoubleExtended K (ext_at K (m 2%nat) 0).
Proof. unfold g_cp_DoubleExtended, cp_DoubleExtended. link (fun m : mem V => compl_at K (m 5%nat) 0). Qed.
Lemma dbl_b rho m : proj_at K (FIN rho (g_pp_SetCompleted K (lo K 2 2) (lo K 3 2) 6 2) m 4%nat) 0 = pp_SetCompleted K (compl_at K (m 5%nat) 0).
Proof. unfold g_pp_SetCompleted, pp_SetCompleted. link (fun m : mem V => proj_at K (m 4%nat) 0). Qed.
Lemma dbl_c rho m : compl_at K (FIN rho (g_cp_DoubleProjective K (lo K 3 2) (lo K 2 2) 6 2) m 5%nat) 0 = cp_DoubleProjective K (proj_at K (m 4%nat) 0).
Proof. unfold g_cp_DoubleProjective, cp_DoubleProjective. link (fun m : mem V => compl_at K (m 5%nat) 0). Qed.
Lemma dbl_d rho m : ext_at K (FIN rho (g_ep_SetCompleted K (lo K 1 2) (lo K 3 2) 6 2) m 3%nat) 0 = ep_SetCompleted K (compl_at K (m 5%nat) 0).
Proof. unfold g_ep_SetCompleted, ep_SetCompleted. link (fun m : mem V => ext_at K (m 3%nat) 0). Qed.
Definition c16 (c : ext (fe K)) : ext (fe K) :=
  let D := fun c => cp_DoubleProjective K (pp_SetCompleted K c) in ep_SetCompleted K (D (D (D (D (cp_DoubleExtended K c))))).
Lemma dbl5_ok rho m : ext_at K (FIN rho dbl5 m 3%nat) 0 = c16 (ext_at K (m 2%nat) 0).
Proof. unfold dbl5. rewrite !final_cons, final_nil, dbl_d, dbl_c, dbl_b, dbl_c, dbl_b, dbl_c, dbl_b, dbl_c, dbl_b, dbl_a. reflexivity. Qed.

Definition round_body : stmt V := Seq (g_ep_SetZero K (lo K 0 2) 6 2) (Seq (For 1 8 row_body) dbl5).
Lemma compute_parts : g_tb_Compute K (P 0) (P 1) 2 0 = prog [g_ep_Set K (lo K 1 2) (P 1) 6 2; For 0 32 round_body].
Proof. reflexivity. Qed.
Lemma set_cp rho m : ext_at K (FIN rho (g_ep_Set K (lo K 1 2) (P 1) 6 2) m 3%nat) 0 = ext_at K (m 1%nat) 0.
Proof. unfold g_ep_Set. link (fun m : mem V => ext_at K (m 3%nat) 0). Qed.

Theorem link_tb_Compute rho m : table K (FIN rho (g_tb_Compute K (P 0) (P 1) 2 0) m 0%nat) = tbl_Compute K (ext_at K (m 1%nat) 0).
Proof.
  rewrite compute_parts, !final_cons, final_nil, <- (set_cp rho m). set (m1 := FIN rho (g_ep_Set _ _ _ _ _) m). clearbody m1.
  unfold tbl_Compute. rewrite final_For.
  match goal with |- _ = fst (for_up 32 ?g ?y) => set (G := g) end.
  refine (proj1 (for_up_rel (fun n (x : mem V) st =>
    map (fun i => map (fun j => niels_at K (x 0%nat) (24 * i + 3 * j)) (seq 0 8)) (seq 0 n) = fst st /\ ext_at K (x 3%nat) 0 = snd st)
    32 _ G m1 ([], ext_at K (m1 3%nat) 0) (conj eq_refl eq_refl) _)).
  intros n x [t cp] hn [h1 h2]. cbn [fst snd] in h1, h2. subst t cp. set (r := setk rho 0 n). assert (r0 : r 0%nat = n) by reflexivity. clearbody r.
  unfold round_body. rewrite !final_Seq.
  pose proof (zero_c r x) as hz. pose proof (keep K (g_ep_SetZero K (lo K 0 2) 6 2) r x 0 eq_refl eq_refl) as ka.
  pose proof (keep K (g_ep_SetZero K (lo K 0 2) 6 2) r x 3 eq_refl eq_refl) as kb.
  set (x1 := FIN r (g_ep_SetZero _ _ _ _) x) in *. clearbody x1.
  pose proof (row_ok r n x1 r0) as hr. cbv zeta in hr. set (x2 := FIN r (For 1 8 row_body) x1) in *. clearbody x2. destruct hr as (hr & hl & k3).
  pose proof (dbl5_ok r x2) as hd. pose proof (keep K dbl5 r x2 0 eq_refl eq_refl) as kd. set (x3 := FIN r dbl5 x2) in *. clearbody x3.
  unfold G. cbv beta iota zeta. rewrite hz in hr. rewrite (ext_at_ext K _ _ 0 kb) in hr.
  change (for_up 8 (fun _ => row_step (ext_at K (x 3%nat) 0)) ([], ep_SetZero K)) with (tbl_row K (ext_at K (x 3%nat) 0)) in hr.
  rewrite <- hr. cbv beta iota zeta delta [fst snd]. refine (conj _ _).
  - rewrite (seq_S n 0), map_app. change (0 + n)%nat with n. f_equal.
    + apply map_ext_in. intros i hi. apply map_ext_in. intros j hj. apply in_seq in hi, hj. unfold niels_at. rewrite !kd, !hl, !ka by lia. reflexivity.
    + f_equal. cbn [seq map]. unfold niels_at. rewrite !kd. reflexivity.
  - rewrite hd. reflexivity.
Qed.
End Facts.
