(** Aliasing for [Scalar.Inverse], [FieldElement.Abs] and [FieldElement.InvSqrtI], and the
    failure of [NielsPoint.Neg]. *)
From Coq Require Import ZArith List String Lia Bool PeanoNat.
From Verif Require Import Words ScalarCode Fe51Code Fe25Code FieldModel CurveModel GoLang GoLangFacts GoViews
  GoInverseCode GoCurveCode GoCurveFacts GoAliasFacts Fe51Laws.
Import ListNotations.
Open Scope Z_scope.
Strategy 2000 [final exec].

(** ** Scalar.Inverse *)
Lemma loop_square n (m : mem sc) :
  let m' := final (E:=Empty_set) nosub (fun a => a) rho0 (For 0 n (prog [so1 "Square" sc_square 2 2])) m in
  m' 2%nat 0%nat = Nat.iter n sc_square (m 2%nat 0%nat) /\ m' 5%nat 0%nat = m 5%nat 0%nat.
Proof.
  cbv zeta. rewrite final_For. induction n as [|n [IH1 IH2]]; [split; reflexivity|].
  cbn [for_up]. set (m1 := for_up n _ m) in *. clearbody m1. rewrite final_cons, final_nil.
  rewrite <- IH2. change (Nat.iter (S n) sc_square (m 2%nat 0%nat)) with (sc_square (Nat.iter n sc_square (m 2%nat 0%nat))). rewrite <- IH1. split; reflexivity.
Qed.

Lemma link_sc_inverse (nu : mem sc) :
  final (E:=Empty_set) nosub (fun a => a) rho0 (d_sc_inverse 0 1 2) nu 0%nat 0%nat = sc_inverse (nu 1%nat 0%nat).
Proof.
  unfold d_sc_inverse. rewrite (final_split _ 196). cbn [firstn skipn Nat.add].
  set (A := final _ _ _ (prog _) nu).
  assert (h : sc_mul (A 5%nat 0%nat) (Nat.iter 126 sc_square (A 2%nat 0%nat)) = sc_inverse (nu 1%nat 0%nat)).
  { unfold A. rewrite <- (runk_ok (E:=Empty_set) nosub _ _ _ (fun m : mem sc => sc_mul (m 5%nat 0%nat) (Nat.iter 126 sc_square (m 2%nat 0%nat)))).
    cbv beta iota delta [runk prog fold_right vals map fst snd ixval GoLang.upd Nat.eqb Nat.add andb so1 so2 sc_inverse]. reflexivity. }
  clearbody A. rewrite final_cons. destruct (loop_square 126 A) as [h1 h2].
  set (m1 := final _ _ _ (For _ _ _) A) in *. clearbody m1. rewrite final_cons, final_nil. rewrite <- h, <- h1, <- h2. reflexivity.
Qed.

Lemma alias_free_Scalar_Inverse : forall sg m, fresh_locals 2 sg ->
  final nosub sg rho0 (d_sc_inverse 0 1 2) m (sg 0%nat) 0%nat = sc_inverse (m (sg 1%nat) 0%nat) /\
  others_same 2 sg m (final nosub sg rho0 (d_sc_inverse 0 1 2) m).
Proof.
  exact (harmless_final (fun c => c 0%nat) 2 (d_sc_inverse 0 1 2) (fun nu => sc_inverse (nu 1%nat 0%nat)) ltac:(lia)
    ltac:(vm_compute; reflexivity) (fun c c' h => h 0%nat) link_sc_inverse).
Qed.

(** the locals of an accepted program *)
Lemma alias_free_local {V : Type} (L : nat) (sg : nat -> nat) (s : stmt V) m a i :
  (0 < L)%nat -> fresh_locals L sg -> alias_ok L [] s = true -> (L <= a)%nat ->
  final (E:=Empty_set) nosub sg rho0 s m (sg a) i = final (E:=Empty_set) nosub (fun a => a) rho0 s (fun a j => m (sg a) j) a i.
Proof.
  intros hL fr h ha. assert (inv : Inv L sg m [] m (fun a j => m (sg a) j)) by (constructor; reflexivity).
  pose proof (exec_ok (E:=Empty_set) nosub L sg hL fr m s [] rho0 m (fun a j => m (sg a) j) h inv) as [_ r _ _].
  apply r. apply Nat.leb_le. exact ha.
Qed.

Section Curve.
Context (K : FeOps).
Notation V := (fe K * Z)%type.
Notation P n := ((n%nat, C 0) : place V).
Notation FIN := (final (E:=Empty_set) nosub (fun a => a)).

(** ** InvSqrtI *)
Lemma link_fe_InvSqrtI nu :
  (int_at K (FIN rho0 (g_fe_InvSqrtI K (P 0) (P 1) (P 2) 3 0) nu 2%nat) 0, fe_at K (FIN rho0 (g_fe_InvSqrtI K (P 0) (P 1) (P 2) 3 0) nu 0%nat) 0)
  = fe_InvSqrtI K (fe_at K (nu 1%nat) 0).
Proof.
  unfold g_fe_InvSqrtI, fe_InvSqrtI, g_fe_Exp22523, fe_Exp22523, go_for.
  rewrite <- (runk_ok (E:=Empty_set) nosub _ _ _ (fun m : mem V => (int_at K (m 2%nat) 0, fe_at K (m 0%nat) 0))).
  red_prog. reflexivity.
Qed.
Lemma alias_free_FieldElement_InvSqrtI : forall sg m, fresh_locals 2 sg ->
  (int_at K (final nosub sg rho0 (g_fe_InvSqrtI K (P 0) (P 1) (P 2) 3 0) m (sg 2%nat)) 0,
   fe_at K (final nosub sg rho0 (g_fe_InvSqrtI K (P 0) (P 1) (P 2) 3 0) m (sg 0%nat)) 0) =
    fe_InvSqrtI K (fe_at K (m (sg 1%nat)) 0) /\
  others_same 2 sg m (final nosub sg rho0 (g_fe_InvSqrtI K (P 0) (P 1) (P 2) 3 0) m).
Proof.
  intros sg m fr. assert (ok : alias_ok 2 [] (g_fe_InvSqrtI K (P 0) (P 1) (P 2) 3 0) = true) by (vm_compute; reflexivity).
  destruct (alias_free (E:=Empty_set) nosub 2 sg ltac:(lia) fr _ rho0 m ok) as [hr ho].
  split; [|exact ho]. unfold int_at, fe_at. rewrite (alias_free_local 2 sg _ m 2 0 ltac:(lia) fr ok ltac:(lia)), (hr 0%nat).
  exact (link_fe_InvSqrtI (fun a j => m (sg a) j)).
Qed.

(** ** Abs *)
Lemma link_fe_Abs nu :
  (fe_at K (FIN rho0 (g_fe_Abs K (P 0) (P 1) 2 0) nu 0%nat) 0, fe_at K (FIN rho0 (g_fe_Abs K (P 0) (P 1) 2 0) nu 1%nat) 0)
  = fe_Abs K (fe_at K (nu 1%nat) 0).
Proof.
  rewrite <- (runk_ok (E:=Empty_set) nosub _ _ _ (fun m : mem V => (fe_at K (m 0%nat) 0, fe_at K (m 1%nat) 0))).
  unfold g_fe_Abs, fe_Abs. red_prog. unfold LetIn. destruct (fe_IsNegativeI K _) as [b r]. reflexivity.
Qed.
Lemma link_fe_Abs_self nu :
  fe_at K (FIN rho0 (g_fe_Abs K (P 0) (P 0) 2 0) nu 0%nat) 0 = fe_Abs_self K (fe_at K (nu 0%nat) 0).
Proof.
  rewrite <- (runk_ok (E:=Empty_set) nosub _ _ _ (fun m : mem V => fe_at K (m 0%nat) 0)).
  unfold g_fe_Abs, fe_Abs_self. red_prog. unfold LetIn. destruct (fe_IsNegativeI K _) as [b r]. reflexivity.
Qed.
Lemma abs_same_block sg m : sg 0%nat = sg 1%nat ->
  final (E:=Empty_set) nosub sg rho0 (g_fe_Abs K (P 0) (P 1) 2 0) m = final (E:=Empty_set) nosub sg rho0 (g_fe_Abs K (P 0) (P 0) 2 0) m.
Proof.
  intro h. unfold g_fe_Abs. rewrite !final_cons, !final_nil. unfold fo1, iot, ido, foc, final. cbn [exec fetches].
  unfold fetch, store, lo. cbn [fst snd ixv]. rewrite <- h. reflexivity.
Qed.
Lemma alias_free_FieldElement_Abs : forall sg m, fresh_locals 2 sg ->
  let m' := final nosub sg rho0 (g_fe_Abs K (P 0) (P 1) 2 0) m in
  let x := fe_at K (m (sg 1%nat)) 0 in
  (sg 0%nat <> sg 1%nat -> fe_at K (m' (sg 0%nat)) 0 = fst (fe_Abs K x) /\ fe_at K (m' (sg 1%nat)) 0 = snd (fe_Abs K x)) /\
  (sg 0%nat = sg 1%nat -> fe_at K (m' (sg 0%nat)) 0 = fe_Abs_self K x) /\
  (forall b i, b <> sg 0%nat -> b <> sg 1%nat -> (forall a, (2 <= a)%nat -> sg a <> b) -> m' b i = m b i).
Proof.
  intros sg m fr. cbv zeta. destruct (Nat.eq_dec (sg 0%nat) (sg 1%nat)) as [h|h].
  - assert (ok : alias_ok 2 [] (g_fe_Abs K (P 0) (P 0) 2 0) = true) by (vm_compute; reflexivity).
    rewrite (abs_same_block sg m h). destruct (alias_free (E:=Empty_set) nosub 2 sg ltac:(lia) fr _ rho0 m ok) as [hr ho].
    split; [intro h'; elim h'; exact h|]. split; [intros _|intros b i h0 _ hb; apply ho; assumption].
    unfold fe_at. rewrite (hr 0%nat), <- h. exact (link_fe_Abs_self (fun a j => m (sg a) j)).
  - assert (ok : alias_ok 1 [] (g_fe_Abs K (P 0) (P 1) 2 0) = true) by (vm_compute; reflexivity).
    assert (fr1 : fresh_locals 1 sg).
    { intros a b ha e. destruct (Nat.eq_dec a 1) as [->|na]; [|apply fr; [lia|exact e]].
      destruct (Nat.eq_dec b 1) as [->|nb]; [reflexivity|]. destruct (Nat.eq_dec b 0) as [->|nb0]; [elim h; symmetry; exact e|].
      symmetry. apply fr; [lia|symmetry; exact e]. }
    destruct (alias_free (E:=Empty_set) nosub 1 sg ltac:(lia) fr1 _ rho0 m ok) as [hr ho].
    pose proof (link_fe_Abs (fun a j => m (sg a) j)) as hl.
    split; [|split; [intro h'; elim h; exact h'|]].
    + intros _. unfold fe_at in *. rewrite (hr 0%nat), (alias_free_local 1 sg _ m 1 0 ltac:(lia) fr1 ok ltac:(lia)).
      rewrite <- hl. split; reflexivity.
    + intros b i h0 h1 hb. apply ho; [exact h0|]. intros a ha. destruct (Nat.eq_dec a 1) as [->|na]; [congruence|]. apply hb. lia.
Qed.
End Curve.

Lemma alias_free_Abs_R51 : forall sg m, fresh_locals 2 sg ->
  let m' := final nosub sg rho0 (g_fe_Abs R51 (0%nat, C 0) (1%nat, C 0) 2 0) m in
  let x := fe_at R51 (m (sg 1%nat)) 0 in
  fe_at R51 (m' (sg 0%nat)) 0 = fst (fe_Abs R51 x) /\
  (sg 0%nat <> sg 1%nat -> fe_at R51 (m' (sg 1%nat)) 0 = x) /\
  (forall b i, b <> sg 0%nat -> b <> sg 1%nat -> (forall a, (2 <= a)%nat -> sg a <> b) -> m' b i = m b i).
Proof.
  intros sg m fr. cbv zeta. destruct (alias_free_FieldElement_Abs R51 sg m fr) as (h1 & h2 & h3).
  assert (e1 : forall x, fe_Abs_self R51 x = fst (fe_Abs R51 x)) by reflexivity.
  assert (e2 : forall x, snd (fe_Abs R51 x) = x) by reflexivity.
  split; [|split; [|exact h3]].
  - destruct (Nat.eq_dec (sg 0%nat) (sg 1%nat)) as [h|h]; [rewrite (h2 h); apply e1|apply (h1 h)].
  - intro h. rewrite (proj2 (h1 h)). apply e2.
Qed.

(** ** NielsPoint.Neg *)
Definition niels_mem : mem (fe R51 * Z) :=
  fun b i => match b, i with
             | 0%nat, 0%nat => (Fe51 1 0 0 0 0, 0) | 0%nat, 1%nat => (Fe51 2 0 0 0 0, 0) | _, _ => (Fe51 0 0 0 0 0, 0) end.
Definition niels_sg (a : nat) : nat := match a with 0%nat | 1%nat => 0%nat | _ => a end.
Lemma niels_fresh : fresh_locals 2 niels_sg.
Proof. intros a b ha. destruct a as [|[|a]]; [lia|lia|]. destruct b as [|[|b]]; cbn; intro h; [discriminate h|discriminate h|exact h]. Qed.
Lemma niels_neg_aliased : niels_at R51 (final (E:=Empty_set) nosub niels_sg rho0 (g_np_Neg R51 (0%nat, C 0) (1%nat, C 0) 2 0) niels_mem (niels_sg 0)) 0 <>
  np_Neg R51 (niels_at R51 (niels_mem (niels_sg 1)) 0).
Proof.
  intro h. assert (e : nYpX (niels_at R51 (final (E:=Empty_set) nosub niels_sg rho0 (g_np_Neg R51 (0%nat, C 0) (1%nat, C 0) 2 0) niels_mem (niels_sg 0)) 0) =
    nYpX (np_Neg R51 (niels_at R51 (niels_mem (niels_sg 1)) 0))) by (rewrite h; reflexivity).
  vm_compute in e. discriminate e.
Qed.

Lemma niels_neg_distinct : forall (K : FeOps) sg (m : mem (fe K * Z)), fresh_locals 2 sg -> sg 0%nat <> sg 1%nat ->
  niels_at K (final nosub sg rho0 (g_np_Neg K (0%nat, C 0) (1%nat, C 0) 2 0) m (sg 0%nat)) 0 = np_Neg K (niels_at K (m (sg 1%nat)) 0) /\
  others_same 2 sg m (final nosub sg rho0 (g_np_Neg K (0%nat, C 0) (1%nat, C 0) 2 0) m).
Proof.
  intros K sg m fr h.
  assert (fr1 : fresh_locals 1 sg).
  { intros a b ha e. destruct (Nat.eq_dec a 1) as [->|na]; [|apply fr; [lia|exact e]].
    destruct (Nat.eq_dec b 1) as [->|nb]; [reflexivity|]. destruct (Nat.eq_dec b 0) as [->|nb0]; [elim h; symmetry; exact e|].
    symmetry. apply fr; [lia|symmetry; exact e]. }
  destruct (harmless_final (fun c => niels_at K c 0) 1 (g_np_Neg K (0%nat, C 0) (1%nat, C 0) 2 0) (fun nu => np_Neg K (niels_at K (nu 1%nat) 0)) ltac:(lia)
    ltac:(vm_compute; reflexivity) (niels_at_ext K) (link_np_Neg K) sg m fr1) as [h1 h2].
  split; [exact h1|]. intros b i hb hl. destruct (Nat.eq_dec b (sg 1%nat)) as [->|n1].
  - assert (ok : alias_ok 1 [] (g_np_Neg K (0%nat, C 0) (1%nat, C 0) 2 0) = true) by (vm_compute; reflexivity).
    rewrite (alias_free_local 1 sg _ m 1 i ltac:(lia) fr1 ok ltac:(lia)).
    match goal with |- final _ _ _ ?p ?n _ _ = _ => change (final (E:=Empty_set) nosub (fun a => a) rho0 p n 1%nat i = n 1%nat i) end.
    apply frame_name; reflexivity.
  - apply h2; [exact hb|]. intros a ha. destruct (Nat.eq_dec a 1) as [->|na]; [congruence|]. apply hl. lia.
Qed.
