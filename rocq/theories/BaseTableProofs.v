(** The literal base point table of the radix-2^51 backend holds the multiples
    (j + 1) 256^i of the base point (proof by a checker on digits; models no code). *)
From Coq Require Import ZArith List Lia Bool Ring Field.
From Verif Require Import NumTheory DigitTables Digits Primes Fp DigitsP AbGroup Edwards GroupOrder Words WordsTac
  FieldModel CurveModel Fe51Code Fe51Proofs FieldLaws Fe51Laws CurveProofs ScalarMultProofs BaseTable51 BaseTableData.
Import ListNotations.
Open Scope Z_scope.

Definition ntrip : Type := (Z * Z * Z)%type.
Definition repN (t : ntrip) (A : E) : Prop :=
  let '(a, b, w) := t in
  of_Z a = (ey A + ex A)%F /\ of_Z b = (ey A - ex A)%F /\ of_Z w = (of_Z 2 * Fd * (ex A * ey A))%F.

Definition Pc : Z := 57896044618658097711785492504343953926634992332820282019728792003956564819949.
(** 1/(4d) and d/2 *)
Definition inv4d : list dg := dig 21774842047284482506429428831299246420514751955462597088725269624896613416460.
Definition dh : list dg := dig 47495875276663768527461788006549259558088553106331750518058788768521252551752.

Definition inr (z : Z) : bool := (0 <=? z) && (z <? Pc).
Definition inr3 (t : ntrip) : bool := let '(a, b, w) := t in inr a && inr b && inr w.
Definition ks : list Z := [0; 1; 2; 3; 4; 5; 6; 7; 8; 9; 10; 11; 12; 13; 14; 15; 16; 17; 18; 19; 20].
Definition eqp (x : list dg) (z : Z) : bool := let d := val x - z in existsb (fun k => d =? k * Pc) ks.

Definition addchk (t1 t2 t3 : ntrip) : bool :=
  let '(a1, b1, w1) := t1 in let '(a2, b2, w2) := t2 in let '(a3, b3, w3) := t3 in
  let da3 := dig a3 in let db3 := dig b3 in
  let A := mulp (dig a1) (dig a2) in let B := mulp (dig b1) (dig b2) in
  let C := mulp (mulp (dig w1) (dig w2)) inv4d in
  inr3 t3 && eqp (addp A (mulp db3 C)) a3 && eqp (addp B (mulp da3 C)) b3 &&
  eqp (mulp dh (mulp (addp da3 db3) (dig (a3 + Pc - b3)))) w3.

Lemma Pc_p : Pc = p. Proof. rewrite p_eq. vm_compute. reflexivity. Qed.
Lemma inr_ok z : inr z = true -> 0 <= z < Pc.
Proof. unfold inr. rewrite andb_true_iff, Z.leb_le, Z.ltb_lt. auto. Qed.
Lemma of_Z_Pc z k : of_Z (z + k * Pc) = of_Z z.
Proof. apply of_Z_eq. rewrite Pc_p. apply Z_mod_plus_full. Qed.
Lemma eqp_ok x z : eqp x z = true -> of_Z z = fv x.
Proof.
  unfold eqp. cbv zeta. rewrite existsb_exists. intros [k [_ h]]. apply Z.eqb_eq in h. unfold fv.
  replace (val x) with (z + k * Pc) by lia. symmetry. apply of_Z_Pc.
Qed.
Lemma fv_dig z : 0 <= z < 2 * Pc -> fv (dig z) = of_Z z.
Proof. intro h. unfold fv. rewrite dig_ok; [reflexivity|]. split; [lia|]. apply Z.lt_trans with (2 * Pc); [lia|reflexivity]. Qed.
Lemma fv_inv4d : (fv inv4d * (of_Z 4 * Fd) = F1)%F.
Proof. unfold fv, inv4d. rewrite dig_ok by (split; [discriminate|reflexivity]). apply F_eq. vm_compute. reflexivity. Qed.
Lemma fv_dh : (fv dh * of_Z 2 = Fd)%F.
Proof. unfold fv, dh. rewrite dig_ok by (split; [discriminate|reflexivity]). apply F_eq. vm_compute. reflexivity. Qed.

Lemma addchk_ok t1 t2 t3 A B : inr3 t1 = true -> inr3 t2 = true -> repN t1 A -> repN t2 B ->
  addchk t1 t2 t3 = true -> inr3 t3 = true /\ repN t3 (Eadd A B).
Proof.
  destruct t1 as [[a1 b1] w1], t2 as [[a2 b2] w2], t3 as [[a3 b3] w3]. unfold addchk, repN, inr3.
  intros r1 r2 (h1 & h2 & h3) (g1 & g2 & g3) h.
  rewrite !andb_true_iff in *. destruct r1 as [[r1 r1'] r1''], r2 as [[r2 r2'] r2''].
  destruct h as [[[[[r3 r3'] r3''] c1] c2] c3]. refine (conj (conj (conj r3 r3') r3'') _).
  apply inr_ok in r1, r1', r1'', r2, r2', r2'', r3, r3', r3''.
  apply eqp_ok in c1, c2, c3. 
  rewrite fv_add, !fv_mul in c1, c2. rewrite !fv_mul, fv_add in c3.
  rewrite (fv_dig w1), (fv_dig w2) in c1, c2 by lia.
  rewrite (fv_dig a1), (fv_dig a2), (fv_dig b3) in c1 by lia. rewrite (fv_dig b1), (fv_dig b2), (fv_dig a3) in c2 by lia.
  rewrite (fv_dig a3), (fv_dig b3), (fv_dig (a3 + Pc - b3)) in c3 by lia.
  rewrite h1, h3, g1, g3 in c1. rewrite h2, h3, g2, g3 in c2. 
  replace (of_Z (a3 + Pc - b3)) with (of_Z a3 - of_Z b3)%F in c3.
  2: { rewrite <- of_Z_sub. rewrite <- (of_Z_Pc (a3 - b3) 1). f_equal. lia. }
  set (C := (Fd * prodxy A B)%F).
  assert (EC : (of_Z 2 * Fd * (ex A * ey A) * (of_Z 2 * Fd * (ex B * ey B)) * fv inv4d = C)%F).
  { transitivity (Fd * prodxy A B * (fv inv4d * (of_Z 4 * Fd)))%F.
    - unfold prodxy. replace (of_Z 4) with (of_Z 2 * of_Z 2)%F by (rewrite <- of_Z_mul; reflexivity). ring.
    - rewrite fv_inv4d. unfold C. ring. }
  rewrite EC in c1, c2. clear EC.
  pose proof (add_nzp A B) as np. pose proof (add_nzm A B) as nm. fold C in np, nm.
  pose proof (ex_add A B) as eX. pose proof (ey_add A B) as eY. fold C in eX, eY. 
  set (X := ex (Eadd A B)) in *. set (Y := ey (Eadd A B)) in *.
  set (u := of_Z a3) in *. set (v := of_Z b3) in *.
  (* u - v C and v - u C determine u and v *)
  assert (c1' : (u - v * C = (ey A + ex A) * (ey B + ex B))%F) by (rewrite c1; ring).
  assert (c2' : (v - u * C = (ey A - ex A) * (ey B - ex B))%F) by (rewrite c2; ring).
  assert (s1 : ((u + v) * (F1 - C) = of_Z 2 * Y * (F1 - C))%F).
  { transitivity (of_Z 2 * (Y * (F1 - C)))%F; [|ring]. rewrite eY. 
    transitivity ((u - v * C) + (v - u * C))%F; [ring|]. rewrite c1', c2'.
    replace (of_Z 2) with (F1 + F1)%F by (apply F_eq; vm_compute; reflexivity). ring. }
  assert (s2 : ((u - v) * (F1 + C) = of_Z 2 * X * (F1 + C))%F).
  { transitivity (of_Z 2 * (X * (F1 + C)))%F; [|ring]. rewrite eX.
    transitivity ((u - v * C) - (v - u * C))%F; [ring|]. rewrite c1', c2'.
    replace (of_Z 2) with (F1 + F1)%F by (apply F_eq; vm_compute; reflexivity). ring. }
  assert (s1' : (u + v = of_Z 2 * Y)%F) by (apply (Fmul_cancel_l (F1 - C)%F _ _ nm); transitivity ((u + v) * (F1 - C))%F; [ring|]; rewrite s1; ring).
  assert (s2' : (u - v = of_Z 2 * X)%F) by (apply (Fmul_cancel_l (F1 + C)%F _ _ np); transitivity ((u - v) * (F1 + C))%F; [ring|]; rewrite s2; ring).
  assert (n2 : of_Z 2 <> F0) by (intro e; apply (f_equal fval) in e; vm_compute in e; discriminate).
  assert (E2 : of_Z 2 = (F1 + F1)%F) by (apply F_eq; vm_compute; reflexivity).
  refine (conj _ (conj _ _)).
  - apply (Fmul_cancel_l _ _ _ n2). transitivity ((u + v) + (u - v))%F; [rewrite E2; ring|]. rewrite s1', s2'. ring.
  - apply (Fmul_cancel_l _ _ _ n2). transitivity ((u + v) - (u - v))%F; [rewrite E2; ring|]. rewrite s1', s2'. ring.
  - rewrite c3, s1', s2'. transitivity (fv dh * of_Z 2 * of_Z 2 * (X * Y))%F; [ring|]. rewrite fv_dh. ring.
Qed.

Fixpoint rowchk (base prev : ntrip) (row : list ntrip) : bool :=
  match row with
  | [] => true
  | e :: t => addchk prev base e && rowchk base e t
  end.

Definition dblchk (e : ntrip) (ds : list ntrip) (next : ntrip) : bool :=
  match ds with
  | [q1; q2; q3; q4] => addchk e e q1 && addchk q1 q1 q2 && addchk q2 q2 q3 && addchk q3 q3 q4 && addchk q4 q4 next
  | _ => false
  end.

Fixpoint tablechk (rows dbls : list (list ntrip)) : bool :=
  match rows with
  | (e0 :: rest) :: rows' =>
    Nat.eqb (length rest) 7 && rowchk e0 e0 rest &&
    match rows', dbls with
    | [], _ => true
    | (f0 :: _) :: _, ds :: dbls' => dblchk (last rest e0) ds f0 && tablechk rows' dbls'
    | _, _ => false
    end
  | _ => false
  end.

Definition nt0 : ntrip := (0, 0, 0).

Lemma rowchk_ok base P row : inr3 base = true -> repN base P -> forall prev m, inr3 prev = true -> repN prev (Emul m P) ->
  rowchk base prev row = true ->
  forall j, (j < length row)%nat -> inr3 (nth j row nt0) = true /\ repN (nth j row nt0) (Emul (m + Z.of_nat j + 1) P).
Proof.
  intros rb hb. induction row as [|e row IH]; intros prev m rp hp h j hj; [cbn in hj; lia|].
  cbn [rowchk] in h. apply andb_true_iff in h. destruct h as [h1 h2].
  destruct (addchk_ok _ _ _ _ _ rp rb hp hb h1) as [r3 h3]. rewrite Emul_S in h3.
  destruct j as [|j].
  - cbn [nth]. split; [exact r3|]. replace (m + Z.of_nat 0 + 1) with (m + 1) by lia. exact h3.
  - cbn [nth]. replace (m + Z.of_nat (S j) + 1) with (m + 1 + Z.of_nat j + 1) by lia.
    apply (IH e (m + 1) r3 h3 h2). cbn [length] in hj. lia.
Qed.

Lemma dblchk_ok e ds f P m : inr3 e = true -> repN e (Emul m P) -> dblchk e ds f = true -> inr3 f = true /\ repN f (Emul (32 * m) P).
Proof.
  intros r h. unfold dblchk. destruct ds as [|q1 [|q2 [|q3 [|q4 [|]]]]]; try discriminate.
  rewrite !andb_true_iff. intros [[[[c1 c2] c3] c4] c5].
  destruct (addchk_ok _ _ _ _ _ r r h h c1) as [r1 h1]. rewrite Emul_dbl in h1.
  destruct (addchk_ok _ _ _ _ _ r1 r1 h1 h1 c2) as [r2 h2]. rewrite Emul_dbl in h2.
  destruct (addchk_ok _ _ _ _ _ r2 r2 h2 h2 c3) as [r3 h3]. rewrite Emul_dbl in h3.
  destruct (addchk_ok _ _ _ _ _ r3 r3 h3 h3 c4) as [r4 h4]. rewrite Emul_dbl in h4.
  destruct (addchk_ok _ _ _ _ _ r4 r4 h4 h4 c5) as [r5 h5]. rewrite Emul_dbl in h5.
  split; [exact r5|]. replace (32 * m) with (2 * (2 * (2 * (2 * (2 * m))))) by lia. exact h5.
Qed.

Lemma tablechk_ok P rows : forall dbls m, 
  inr3 (nth 0 (nth 0 rows []) nt0) = true -> repN (nth 0 (nth 0 rows []) nt0) (Emul m P) -> tablechk rows dbls = true ->
  forall i, (i < length rows)%nat -> length (nth i rows []) = 8%nat /\
    forall j, (j < 8)%nat -> repN (nth j (nth i rows []) nt0) (Emul ((Z.of_nat j + 1) * (256 ^ Z.of_nat i * m)) P).
Proof.
  induction rows as [|row rows IH]; intros dbls m r0 h0 h i hi; [cbn in hi; lia|].
  cbn [tablechk] in h. destruct row as [|e0 rest]; [discriminate|].
  apply andb_true_iff in h. destruct h as [h h3]. apply andb_true_iff in h. destruct h as [h1 h2].
  apply Nat.eqb_eq in h1. cbn [nth] in r0, h0.
  assert (h0' : repN e0 (Emul 1 (Emul m P))) by (rewrite Emul_1; exact h0).
  pose proof (rowchk_ok e0 (Emul m P) rest r0 h0 e0 1 r0 h0' h2) as hr.
  destruct i as [|i].
  - cbn [nth]. split; [cbn [length]; lia|]. intros j hj. change (256 ^ Z.of_nat 0) with 1. rewrite Z.mul_1_l.
    rewrite Emul_mul. destruct j as [|j]; [exact h0'|]. cbn [nth].
    replace (Z.of_nat (S j) + 1) with (1 + Z.of_nat j + 1) by lia. apply hr. lia.
  - destruct rows as [|row' rows]; [cbn in hi; lia|]. destruct row' as [|f0 rest']; [discriminate|].
    destruct dbls as [|ds dbls]; [discriminate|]. apply andb_true_iff in h3. destruct h3 as [h3 h4].
    assert (hl : last rest e0 = nth 6 rest nt0).
    { clear -h1. do 7 (destruct rest as [|? rest]; [discriminate h1|]). destruct rest; [reflexivity|discriminate h1]. }
    destruct (hr 6%nat ltac:(lia)) as [rl hlst]. rewrite <- hl in rl, hlst.
    rewrite <- Emul_mul in hlst. destruct (dblchk_ok _ _ _ _ _ rl hlst h3) as [rf hf].
    change (1 + Z.of_nat 6 + 1) with 8 in hf.
    destruct (IH dbls (256 * m)) with (i := i) as [g1 g2].
    + exact rf.
    + cbn [nth]. replace (256 * m) with (32 * (8 * m)) by lia. exact hf.
    + exact h4.
    + cbn [length] in *. lia.
    + change (nth (S i) ((e0 :: rest) :: (f0 :: rest') :: rows) []) with (nth i ((f0 :: rest') :: rows) []).
      split; [exact g1|]. intros j hj.
      replace (256 ^ Z.of_nat (S i) * m) with (256 ^ Z.of_nat i * (256 * m)) by (rewrite Nat2Z.inj_succ, Z.pow_succ_r by lia; ring).
      apply g2, hj.
Qed.

(** ** the radix-2^51 table *)
Definition trip51 (n : niels fe51) : ntrip := (v51 (nYpX n), v51 (nYmX n), v51 (nXY2D n)).
Definition rows51 : list (list ntrip) := map (map trip51) r51_baseTable.

Lemma rows51_chk : tablechk rows51 base_dbls = true.
Proof. vm_compute. reflexivity. Qed.

Definition small51 (x : fe51) : bool :=
  let '(Fe51 a b c d e) := x in forallb (fun z => (0 <=? z) && (z <? 2251799813685248)) [a; b; c; d; e].
Lemma base51_small : forallb (forallb (fun n => small51 (nYpX n) && small51 (nYmX n) && small51 (nXY2D n))) r51_baseTable = true.
Proof. vm_compute. reflexivity. Qed.

Lemma small51_bnd x : small51 x = true -> bnd51 (1 * U51) x.
Proof.
  destruct x as [a b c d e]. cbn [small51 forallb]. rewrite !andb_true_iff, !Z.leb_le, !Z.ltb_lt.
  unfold bnd51, U51. lia.
Qed.

Lemma EBc_repN : inr3 (nth 0 (nth 0 rows51 []) nt0) = true /\ repN (nth 0 (nth 0 rows51 []) nt0) EBc.
Proof.
  split; [vm_compute; reflexivity|]. unfold repN.
  replace (nth 0 (nth 0 rows51 []) nt0) with (17184872788060436883139212985806683774461331716833183784530193951107473052525, 2357895295865968244602145870313187857867044276055182429137594064940348852169, 7658430290429433199253656808231786248588514975978872815715289361970058581381) by (vm_compute; reflexivity).
  change (ex EBc) with (of_Z bcx). change (ey EBc) with (of_Z bcy).
  refine (conj _ (conj _ _)); apply F_eq; vm_compute; reflexivity.
Qed.

Theorem base51_ok : tbl_ok L51 1 r51_baseTable EBc.
Proof.
  split; [reflexivity|]. intros i hi.
  destruct EBc_repN as [r0 h0]. rewrite <- (Emul_1 EBc) in h0.
  assert (hl : length rows51 = 32%nat) by (unfold rows51; rewrite map_length; reflexivity).
  destruct (tablechk_ok EBc rows51 base_dbls 1 r0 h0 rows51_chk i ltac:(rewrite hl; exact hi)) as [l h].
  assert (E : nth i rows51 [] = map trip51 (nth i r51_baseTable [])) by (unfold rows51; exact (map_nth (map trip51) r51_baseTable [] i)).
  rewrite E in l, h. rewrite map_length in l. split; [exact l|]. intros j hj. specialize (h j hj).
  assert (hsm : small51 (nYpX (tbl_at R51 r51_baseTable i j)) && small51 (nYmX (tbl_at R51 r51_baseTable i j)) && small51 (nXY2D (tbl_at R51 r51_baseTable i j)) = true).
  { pose proof base51_small as hb. rewrite forallb_forall in hb. specialize (hb (nth i r51_baseTable []) (nth_In r51_baseTable [] (hi : (i < length r51_baseTable)%nat))).
    rewrite forallb_forall in hb. apply hb. unfold tbl_at. apply nth_In. rewrite <- l in hj. exact hj. }
  rewrite (nth_indep _ nt0 (trip51 (np_zerovalue R51))) in h by (rewrite map_length; lia). rewrite map_nth in h.
  change (nth j (nth i r51_baseTable []) (np_zerovalue R51)) with (tbl_at R51 r51_baseTable i j) in h.
  set (N := tbl_at R51 r51_baseTable i j) in *. clearbody N.
  rewrite !andb_true_iff in hsm. destruct hsm as [[s1 s2] s3]. apply small51_bnd in s1, s2, s3.
  rewrite Z.mul_1_r in h. unfold trip51, repN in h. destruct h as (h1 & h2 & h3).
  refine (conj (conj s1 h1) (conj (conj s2 h2) (conj s3 h3))).
Qed.
