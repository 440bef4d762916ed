(** The parts of the program of [ExtendedPoint.ScalarMult], for GoScalarMultRun.v. *)
From Coq Require Import ZArith List String Lia.
From Verif Require Import Words ScalarCode FieldModel CurveModel GoLang GoLangFacts GoCurveCode GoViews.
Import ListNotations.
Open Scope Z_scope.
Strategy 2000 [final exec].

Lemma at_ints K c n i : (i < n)%nat -> at_ (ints K c n) i = int_at K c i.
Proof.
  intro h. unfold at_, ints. rewrite (nth_indep _ 0 (snd (c 0%nat))) by (rewrite map_length, seq_length; exact h).
  rewrite (map_nth (fun i => snd (c i)) (seq 0 n) 0%nat i), seq_nth by exact h. reflexivity.
Qed.
Lemma ints_ext K c c' n : (forall i, c i = c' i) -> ints K c n = ints K c' n.
Proof. intro h. apply map_ext. intro i. rewrite h. reflexivity. Qed.
Lemma ext_at_ext K c c' o : (forall i, c i = c' i) -> ext_at K c o = ext_at K c' o.
Proof. intro h. unfold ext_at. rewrite !h. reflexivity. Qed.
Lemma exts_ext K c c' n : (forall i, c i = c' i) -> exts K c n = exts K c' n.
Proof. intro h. apply map_ext. intro i. apply ext_at_ext. exact h. Qed.

Ltac red_prog :=
  cbv beta iota delta [runk prog fold_right vals map fst snd ixval GoLang.upd setk Nat.eqb Nat.add Nat.mul Nat.div2 andb
    elt off lo fo0 fo1 fo2 foc foc0 ido io1 io2 iot fe_at int_at ext_at compl_at proj_at niels_at jac_at ints exts seq].

Section Facts.
Context (K : FeOps).
Notation V := (fe K * Z)%type.
Notation FIN := (final (E:=Empty_set) nosub (fun a => a)).
Notation P n := ((n%nat, C 0) : place V).

Ltac link v := rewrite <- (runk_ok (E:=Empty_set) nosub _ _ _ v); red_prog; reflexivity.
(** the contents of block [a] after a program that does not write it *)
Lemma keep (s : stmt V) rho m a : ct s = true -> existsb (Nat.eqb a) (wnames s) = false -> forall i, FIN rho s m a i = m a i.
Proof. intros h1 h2 i. apply frame_name; assumption. Qed.

(** ** computeScalarWindow5 *)
Definition w5 : stmt V := g_computeScalarWindow5 K (P 2) (lo K 2 3) 12 4.

Lemma link_w5 rho m : ints K (FIN rho w5 m 5%nat) 51 = computeScalarWindow5 (ints K (m 2%nat) 32).
Proof.
  unfold w5, g_computeScalarWindow5. rewrite (final_split _ 6). cbn [firstn skipn].
  set (m1 := FIN rho _ m).
  assert (h1 : (ints K (m1 5%nat) 51, int_at K (m1 12%nat) 0) = (window5_raw (ints K (m 2%nat) 32), 0)).
  { unfold m1, window5_raw. rewrite <- (runk_ok (E:=Empty_set) nosub _ _ _ (fun m : mem V => (ints K (m 5%nat) 51, int_at K (m 12%nat) 0))).
    red_prog. reflexivity. }
  clearbody m1. rewrite final_cons, final_For. cbn [Nat.add].
  unfold computeScalarWindow5. 
  match goal with |- context [for_up 50 ?f m1] => set (F := f) end.
  assert (h : (ints K (for_up 50 F m1 5%nat) 51, int_at K (for_up 50 F m1 12%nat) 0) = for_up 50 window5_step (window5_raw (ints K (m 2%nat) 32), 0)).
  { apply (for_up_rel (fun _ (m : mem V) st => (ints K (m 5%nat) 51, int_at K (m 12%nat) 0) = st)); [exact h1|].
    intros k x y hk <-. unfold F. clear - hk.
    do 50 (destruct k as [|k]; [rewrite <- (runk_ok (E:=Empty_set) nosub _ _ _ (fun m : mem V => (ints K (m 5%nat) 51, int_at K (m 12%nat) 0))); red_prog; reflexivity|]). lia. }
  destruct (for_up 50 window5_step (window5_raw (ints K (m 2%nat) 32), 0)) as [w c].
  set (m2 := for_up 50 F m1) in *. clearbody m2. apply pair_equal_spec in h as [<- <-].
  rewrite <- (runk_ok (E:=Empty_set) nosub _ _ _ (fun m : mem V => ints K (m 5%nat) 51)). red_prog. reflexivity.
Qed.

(** ** the table of multiples *)
Definition lut_from (l0 : list (ext (fe K))) (q : ext (fe K)) : list (ext (fe K)) :=
  let lut := Words.upd l0 0 (ep_SetZero K) in
  let lut := Words.upd lut 1 q in
  let lut := for_up 7 (fun k lut =>
    let i := (2 * k + 2)%nat in
    let lut := Words.upd lut i (ep_Double K (nth (Nat.div i 2) lut (ep_zerovalue K))) in
    Words.upd lut (i + 1) (ep_Add K (nth i lut (ep_zerovalue K)) q)) lut in
  Words.upd lut 16 (ep_Double K (nth 8 lut (ep_zerovalue K))).

Lemma lut_from_any l0 q : List.length l0 = 17%nat -> lut_from l0 q = sm_lut K q.
Proof.
  intro h. do 17 (destruct l0 as [|? l0]; [discriminate h|]). destruct l0; [|discriminate h].
  unfold sm_lut, lut_from. cbn [for_up repeat Words.upd nth Nat.mul Nat.add Nat.div Nat.divmod fst]. reflexivity.
Qed.

Lemma lut_init rho m : exts K (FIN rho (prog [g_ep_SetZero K (elt (lo K 0 3) 4 (C 0)) 12 4; g_ep_Set K (elt (lo K 0 3) 4 (C 1)) (P 1) 12 4]) m 3%nat) 17 =
  Words.upd (Words.upd (exts K (m 3%nat) 17) 0 (ep_SetZero K)) 1 (ext_at K (m 1%nat) 0).
Proof. unfold g_ep_SetZero, g_ep_Set, ep_SetZero. link (fun m : mem V => exts K (m 3%nat) 17). Qed.

Lemma lut_double k m : (k < 7)%nat -> forall rho,
  exts K (FIN (setk rho 0 k)
    (g_ep_Double K (elt (lo K 0 3) 4 (Plus (C 2) (Times 2 (Ctr 0)))) (elt (lo K 0 3) 4 (Half (Plus (C 2) (Times 2 (Ctr 0))))) 12 4) m 3%nat) 17 =
  Words.upd (exts K (m 3%nat) 17) (2 * k + 2) (ep_Double K (nth (Nat.div (2 * k + 2) 2) (exts K (m 3%nat) 17) (ep_zerovalue K))).
Proof.
  intros hk rho. unfold g_ep_Double, g_cp_DoubleExtended, g_ep_SetCompleted, ep_Double, cp_DoubleExtended, ep_SetCompleted.
  do 7 (destruct k as [|k]; [rewrite <- (runk_ok (E:=Empty_set) nosub _ _ _ (fun m : mem V => exts K (m 3%nat) 17)); red_prog; reflexivity|]). lia.
Qed.
Lemma lut_add k m : (k < 7)%nat -> forall rho,
  exts K (FIN (setk rho 0 k)
    (g_ep_Add K (elt (lo K 0 3) 4 (Plus (Plus (C 2) (Times 2 (Ctr 0))) (C 1))) (elt (lo K 0 3) 4 (Plus (C 2) (Times 2 (Ctr 0)))) (P 1) 12 4) m 3%nat) 17 =
  Words.upd (exts K (m 3%nat) 17) (2 * k + 2 + 1) (ep_Add K (nth (2 * k + 2) (exts K (m 3%nat) 17) (ep_zerovalue K)) (ext_at K (m 1%nat) 0)).
Proof.
  intros hk rho. unfold g_ep_Add, g_cp_AddExtended, g_ep_SetCompleted, ep_Add, cp_AddExtended, ep_SetCompleted.
  do 7 (destruct k as [|k]; [rewrite <- (runk_ok (E:=Empty_set) nosub _ _ _ (fun m : mem V => exts K (m 3%nat) 17)); red_prog; reflexivity|]). lia.
Qed.

(** ** the main loop *)
Lemma dbl_first rho m : compl_at K (FIN rho (g_cp_DoubleExtended K (lo K 4 3) (P 0) 12 4) m 7%nat) 0 = cp_DoubleExtended K (ext_at K (m 0%nat) 0).
Proof. unfold g_cp_DoubleExtended, cp_DoubleExtended. link (fun m : mem V => compl_at K (m 7%nat) 0). Qed.
Lemma dbl_next rho m : compl_at K (FIN rho (prog [g_pp_SetCompleted K (lo K 3 3) (lo K 4 3) 12 4; g_cp_DoubleProjective K (lo K 4 3) (lo K 3 3) 12 4]) m 7%nat) 0
  = cp_DoubleProjective K (pp_SetCompleted K (compl_at K (m 7%nat) 0)).
Proof. unfold g_pp_SetCompleted, g_cp_DoubleProjective, cp_DoubleProjective, pp_SetCompleted. link (fun m : mem V => compl_at K (m 7%nat) 0). Qed.

Lemma round_p rho m : ext_at K (FIN rho (g_ep_SetCompleted K (P 0) (lo K 4 3) 12 4) m 0%nat) 0 = ep_SetCompleted K (compl_at K (m 7%nat) 0).
Proof. unfold g_ep_SetCompleted, ep_SetCompleted. link (fun m : mem V => ext_at K (m 0%nat) 0). Qed.

Lemma round_select rho m :
  ext_at K (FIN rho (prog [
    g_ep_Set K (lo K 1 3) (elt (lo K 0 3) 4 (C 0)) 12 4;
    ido K (fun _ vs => match vs with [x0] => x0 | _ => 0 end) (lo K 5 3) [(elt (lo K 2 3) 1 (Minus (C 50) (Ctr 1)))];
    For 3 16 (prog [
      ido K (fun rho vs => match vs with [b] => Z.lor (equal15 b (i32 (- (Z.of_nat (rho 3%nat + 1))))) (equal15 b (i32 (Z.of_nat (rho 3%nat + 1)))) | _ => 0 end) (lo K 6 3) [(lo K 5 3)];
      g_ep_ConditionalSet K (lo K 1 3) (elt (lo K 0 3) 4 (Plus (C 1) (Ctr 3))) (lo K 6 3) 12 4]);
    ido K (fun _ vs => match vs with [b] => negative b | _ => 0 end) (lo K 8 3) [(lo K 5 3)];
    fo1 K "Neg" (o_neg K) (lo K 7 3) (off (lo K 1 3) 0);
    foc K (off (lo K 1 3) 0) (lo K 7 3) (lo K 8 3);
    fo1 K "Neg" (o_neg K) (lo K 7 3) (off (lo K 1 3) 3);
    foc K (off (lo K 1 3) 3) (lo K 7 3) (lo K 8 3)]) m 4%nat) 0
  = sm_select K (exts K (m 3%nat) 17) (int_at K (m 5%nat) (1 * (50 - rho 1%nat))).
Proof.
  unfold g_ep_Set, g_ep_ConditionalSet, sm_select, ep_ConditionalSet, ep_zerovalue.
  rewrite <- (runk_ok (E:=Empty_set) nosub _ _ _ (fun m : mem V => ext_at K (m 4%nat) 0)). red_prog.
  reflexivity.
Qed.

Lemma round_add rho m : ext_at K (FIN rho (g_ep_Add K (P 0) (P 0) (lo K 1 3) 12 4) m 0%nat) 0 = ep_Add K (ext_at K (m 0%nat) 0) (ext_at K (m 4%nat) 0).
Proof. unfold g_ep_Add, g_cp_AddExtended, g_ep_SetCompleted, ep_Add, cp_AddExtended, ep_SetCompleted. link (fun m : mem V => ext_at K (m 0%nat) 0). Qed.

Lemma lut_last rho m : exts K (FIN rho (g_ep_Double K (elt (lo K 0 3) 4 (C 16)) (elt (lo K 0 3) 4 (C 8)) 12 4) m 3%nat) 17 =
  Words.upd (exts K (m 3%nat) 17) 16 (ep_Double K (nth 8 (exts K (m 3%nat) 17) (ep_zerovalue K))).
Proof. unfold g_ep_Double, g_cp_DoubleExtended, g_ep_SetCompleted, ep_Double, cp_DoubleExtended, ep_SetCompleted. link (fun m : mem V => exts K (m 3%nat) 17). Qed.
Lemma zero_p rho m : ext_at K (FIN rho (g_ep_SetZero K (P 0) 12 4) m 0%nat) 0 = ep_SetZero K.
Proof. unfold g_ep_SetZero, ep_SetZero. link (fun m : mem V => ext_at K (m 0%nat) 0). Qed.

End Facts.
