(** Interval analysis of straight-line C code: if the check succeeds, no operation overflows and the code computes over
    the integers. *)
From Coq Require Import ZArith List Bool Lia.
From Verif Require Import Words CLang.
Import ListNotations.
Open Scope Z_scope.

(** Evaluation over the integers (only conversions and left shifts wrap). *)
Definition get (env : list Z) (n : nat) : Z := nth n env 0.
Fixpoint zeval (env : list Z) (e : cex) : Z :=
  match e with
  | Var n => get env n
  | Cst z => z
  | Bin o _ a b => op o (zeval env a) (zeval env b)
  | Opp _ a => - zeval env a
  | Shl t a k => wrap t (Z.shiftl (zeval env a) k)
  | Shr _ a k => Z.shiftr (zeval env a) k
  | Cast t a => wrap t (zeval env a)
  end.

(** Evaluation with wrap-around everywhere. *)
Fixpoint weval (env : list Z) (e : cex) : Z :=
  match e with
  | Var n => get env n
  | Cst z => z
  | Bin o t a b => match o with And | Or => op o (weval env a) (weval env b) | _ => wrap t (op o (weval env a) (weval env b)) end
  | Opp t a => wrap t (- weval env a)
  | Shl t a k => wrap t (Z.shiftl (weval env a) k)
  | Shr _ a k => Z.shiftr (weval env a) k
  | Cast t a => wrap t (weval env a)
  end.

Definition itv := (Z * Z)%type.
Definition in_itv (z : Z) (i : itv) : Prop := fst i <= z <= snd i.

Definition min4 a b c d := Z.min (Z.min a b) (Z.min c d).
Definition max4 a b c d := Z.max (Z.max a b) (Z.max c d).

Definition imul (x y : itv) : itv :=
  let a := fst x * fst y in let b := fst x * snd y in let c := snd x * fst y in let d := snd x * snd y in
  (min4 a b c d, max4 a b c d).

(** all numbers with as many bits as [z] *)
Definition up (z : Z) : Z := 2 ^ (Z.log2 z + 1) - 1.

Definition iop (o : cop) (x y : itv) : option itv :=
  match o with
  | Add => Some (fst x + fst y, snd x + snd y)
  | Sub => Some (fst x - snd y, snd x - fst y)
  | Mul => Some (imul x y)
  | And => if (0 <=? fst x) && (0 <=? fst y) then Some (0, snd y) else None
  | Or => if (0 <=? fst x) && (0 <=? fst y) then Some (0, Z.max (up (snd x)) (up (snd y))) else None
  end.

Definition fit (t : cty) (i : itv) : option itv :=
  if fits_ty t (fst i) && fits_ty t (snd i) then Some i else None.

(** An operation of type [t]; "or" of values of a signed type that may be negative stays in the type. *)
Definition iopt (t : cty) (o : cop) (x y : itv) : option itv :=
  match iop o x y with
  | Some i => fit t i
  | None => match o with
            | Or => if signed t && fits_ty t (fst x) && fits_ty t (snd x) && fits_ty t (fst y) && fits_ty t (snd y)
                    then Some (lo t, hi t) else None
            | _ => None end
  end.

(** a shift, a conversion *)
Definition iwrap (t : cty) (i : itv) : itv := match fit t i with Some j => j | None => (lo t, hi t) end.
Definition ishl (k : Z) (x : itv) : itv := (Z.shiftl (fst x) k, Z.shiftl (snd x) k).

(** [def n] is the right-hand side of the assignment to variable [n].  The carry of a coefficient, taken away from it,
    leaves a remainder: [x - ((x + r) >> k << k)] is in [-r, 2^k - 1 - r]. *)
Definition rem_of (def : nat -> option cex) (ivs : list itv) (a b : cex) : option itv :=
  match a, b with
  | Var h, Shl t (Var c) k =>
    match def c, nth_error ivs c with
    | Some (Shr _ (Bin Add _ (Var h') (Cst r)) k'), Some ic =>
      if Nat.eqb h h' && (k =? k') && (0 <=? k) && (match fit t (ishl k ic) with Some _ => true | None => false end)
      then Some (- r, 2 ^ k - 1 - r) else None
    | Some (Shr _ (Var h') k'), Some ic =>
      if Nat.eqb h h' && (k =? k') && (0 <=? k) && (match fit t (ishl k ic) with Some _ => true | None => false end)
      then Some (0, 2 ^ k - 1) else None
    | _, _ => None
    end
  | _, _ => None
  end.

Fixpoint ieval (def : nat -> option cex) (ivs : list itv) (e : cex) : option itv :=
  match e with
  | Var n => nth_error ivs n
  | Cst z => Some (z, z)
  | Bin o t a b =>
    match ieval def ivs a, ieval def ivs b with
    | Some x, Some y =>
      match o, rem_of def ivs a b with
      | Sub, Some i => fit t i
      | _, _ => iopt t o x y
      end
    | _, _ => None
    end
  | Opp t a => match ieval def ivs a with Some x => fit t (- snd x, - fst x) | None => None end
  | Shl t a k => if 0 <=? k then match ieval def ivs a with Some x => Some (iwrap t (ishl k x)) | None => None end else None
  | Shr t a k => if 0 <=? k then match ieval def ivs a with Some x => Some (Z.shiftr (fst x) k, Z.shiftr (snd x) k) | None => None end else None
  | Cast t a => match ieval def ivs a with Some x => Some (iwrap t x) | None => None end
  end.

(** Variables below [n] only. *)
Fixpoint below (n : nat) (e : cex) : bool :=
  match e with
  | Var m => Nat.ltb m n
  | Cst _ => true
  | Bin _ _ a b => below n a && below n b
  | Opp _ a | Shl _ a _ | Shr _ a _ | Cast _ a => below n a
  end.

Fixpoint irun (def : nat -> option cex) (ivs : list itv) (body : list cex) : option (list itv) :=
  match body with
  | [] => Some ivs
  | e :: r => if below (length ivs) e then match ieval def ivs e with Some i => irun def (ivs ++ [i]) r | None => None end else None
  end.

(** The right-hand sides of a body whose first variable is number [n]. *)
Definition def_of (n : nat) (body : list cex) (m : nat) : option cex :=
  if Nat.ltb m n then None else nth_error body (m - n).

Fixpoint zrun (env : list Z) (body : list cex) : list Z :=
  match body with [] => env | e :: r => zrun (env ++ [zeval env e]) r end.
Fixpoint wrun (env : list Z) (body : list cex) : list Z :=
  match body with [] => env | e :: r => wrun (env ++ [weval env e]) r end.

(** ** Soundness *)

Lemma wrap_fits t z : fits_ty t z = true -> wrap t z = z.
Proof.
  unfold fits_ty. rewrite andb_true_iff, !Z.leb_le. intros [h1 h2].
  destruct t; cbn in *; unfold i32, i64, u8, u32, u64; rewrite Z.mod_small; lia.
Qed.

Lemma arith_fits t z : fits_ty t z = true -> arith t z = Some z.
Proof. intro h. unfold arith. rewrite h, (wrap_fits t z h). destruct (signed t); reflexivity. Qed.

Lemma wrap_range t z : in_itv (wrap t z) (lo t, hi t).
Proof.
  unfold in_itv. destruct t; cbn; unfold i32, i64, u8, u32, u64;
  match goal with |- context [?a mod ?m] => pose proof (Z.mod_pos_bound a m ltac:(lia)) end; lia.
Qed.

Lemma fit_in t i j z : fit t i = Some j -> in_itv z i -> in_itv z j /\ fits_ty t z = true.
Proof.
  unfold fit, in_itv. destruct (fits_ty t (fst i) && fits_ty t (snd i)) eqn:h; [|discriminate]. intros [= <-] hz.
  refine (conj hz _). unfold fits_ty in *. rewrite !andb_true_iff, !Z.leb_le in *. lia.
Qed.

Lemma imul_in x y i j : in_itv x i -> in_itv y j -> in_itv (x * y) (imul i j).
Proof.
  unfold in_itv, imul, min4, max4. destruct i as [a b], j as [c d]. cbn. intros h1 h2. split.
  - assert (Z.min (Z.min (a * c) (a * d)) (Z.min (b * c) (b * d)) <= Z.min (a * y) (b * y)).
    { apply Z.min_glb; [destruct (Z.le_gt_cases 0 a) | destruct (Z.le_gt_cases 0 b)]; nia. }
    assert (Z.min (a * y) (b * y) <= x * y) by (destruct (Z.le_gt_cases 0 y); nia). lia.
  - assert (Z.max (a * y) (b * y) <= Z.max (Z.max (a * c) (a * d)) (Z.max (b * c) (b * d))).
    { apply Z.max_lub; [destruct (Z.le_gt_cases 0 a) | destruct (Z.le_gt_cases 0 b)]; nia. }
    assert (x * y <= Z.max (a * y) (b * y)) by (destruct (Z.le_gt_cases 0 y); nia). lia.
Qed.

Lemma up_ge x z : 0 <= x <= z -> 0 <= x < 2 ^ (Z.log2 z + 1).
Proof.
  intro h. split; [lia|]. destruct (Z.eq_dec z 0) as [-> | n]; [change (2 ^ (Z.log2 0 + 1)) with 2; lia|].
  pose proof (Z.log2_spec z ltac:(lia)). replace (Z.log2 z + 1) with (Z.succ (Z.log2 z)) by lia. lia.
Qed.

Lemma lor_up x y a b : 0 <= x <= a -> 0 <= y <= b -> 0 <= Z.lor x y <= Z.max (up a) (up b).
Proof.
  intros hx hy. split; [apply Z.lor_nonneg; lia|]. unfold up.
  pose proof (up_ge x a hx). pose proof (up_ge y b hy). pose proof (Z.log2_nonneg a). pose proof (Z.log2_nonneg b).
  set (n := Z.max (Z.log2 a + 1) (Z.log2 b + 1)).
  assert (Z.lor x y < 2 ^ n).
  { destruct (Z.eq_dec (Z.lor x y) 0) as [-> | ne]; [apply Z.pow_pos_nonneg; lia|].
    assert (0 <= Z.lor x y) by (apply Z.lor_nonneg; lia).
    apply Z.log2_lt_pow2; [lia|]. rewrite Z.log2_lor by lia.
    apply Z.max_lub_lt.
    - destruct (Z.eq_dec x 0) as [-> | nx]; [change (Z.log2 0) with 0; lia|].
      assert (Z.log2 x < Z.log2 a + 1) by (apply Z.log2_lt_pow2; lia). lia.
    - destruct (Z.eq_dec y 0) as [-> | nx]; [change (Z.log2 0) with 0; lia|].
      assert (Z.log2 y < Z.log2 b + 1) by (apply Z.log2_lt_pow2; lia). lia. }
  unfold n in *. destruct (Z.max_spec (Z.log2 a + 1) (Z.log2 b + 1)) as [[h e] | [h e]]; rewrite e in *; lia.
Qed.

Lemma land_up x y b : 0 <= x -> 0 <= y <= b -> 0 <= Z.land x y <= b.
Proof.
  intros hx hy. split; [apply Z.land_nonneg; lia|].
  assert (Z.land x y <= y); [|lia].
  assert (h : y - Z.land x y = Z.ldiff y (Z.land x y)).
  { apply Z.sub_nocarry_ldiff. apply Z.bits_inj'. intros n hn. rewrite Z.ldiff_spec, Z.land_spec, Z.bits_0.
    destruct (Z.testbit y n), (Z.testbit x n); reflexivity. }
  assert (0 <= Z.ldiff y (Z.land x y)) by (apply Z.ldiff_nonneg; lia). lia.
Qed.

Lemma iop_in o x y i j r : iop o i j = Some r -> in_itv x i -> in_itv y j -> in_itv (op o x y) r.
Proof.
  intros h hx hy. destruct o; cbn in h |- *.
  - injection h as <-. unfold in_itv in *. cbn. lia.
  - injection h as <-. unfold in_itv in *. cbn. lia.
  - injection h as <-. apply imul_in; assumption.
  - destruct ((0 <=? fst i) && (0 <=? fst j)) eqn:e; [|discriminate]. injection h as <-.
    rewrite andb_true_iff, !Z.leb_le in e. unfold in_itv in *. cbn. apply land_up; lia.
  - destruct ((0 <=? fst i) && (0 <=? fst j)) eqn:e; [|discriminate]. injection h as <-.
    rewrite andb_true_iff, !Z.leb_le in e. unfold in_itv in *. cbn. apply lor_up; lia.
Qed.

Lemma lor_signed x y k : 0 <= k -> - 2 ^ k <= x < 2 ^ k -> - 2 ^ k <= y < 2 ^ k -> - 2 ^ k <= Z.lor x y < 2 ^ k.
Proof.
  intros hk hx hy. pose proof (Z.pow_pos_nonneg 2 k ltac:(lia) hk) as hp.
  assert (S : forall z, - 2 ^ k <= z < 2 ^ k <-> (Z.shiftr z k = 0 \/ Z.shiftr z k = -1)).
  { intro z. rewrite Z.shiftr_div_pow2 by exact hk. pose proof (Z.div_mod z (2 ^ k) ltac:(lia)). pose proof (Z.mod_pos_bound z (2 ^ k) ltac:(lia)). split; [|nia].
    intro h. destruct (Z.lt_ge_cases z 0); [right | left]; nia. }
  apply S. rewrite Z.shiftr_lor. apply S in hx, hy. destruct hx as [-> | ->], hy as [-> | ->]; cbn; tauto.
Qed.

Lemma iopt_in t o x y i j r : iopt t o i j = Some r -> in_itv x i -> in_itv y j -> in_itv (op o x y) r /\ fits_ty t (op o x y) = true.
Proof.
  unfold iopt. intros h hx hy. destruct (iop o i j) as [q|] eqn:e; [exact (fit_in t q r _ h (iop_in o _ _ i j q e hx hy))|].
  destruct o; try discriminate. destruct (signed t && _ && _ && _ && _) eqn:e2; [|discriminate]. injection h as <-.
  rewrite !andb_true_iff in e2. destruct e2 as ((((hs & h1) & h2) & h3) & h4).
  unfold fits_ty in *. rewrite !andb_true_iff, !Z.leb_le in *. unfold in_itv in *. cbn [fst snd op].
  assert (D : lo t <= Z.lor x y <= hi t); [|tauto]. clear e.
  destruct t; try discriminate hs; unfold lo, hi in *.
  - pose proof (lor_signed x y 31 ltac:(lia) ltac:(lia) ltac:(lia)). lia.
  - pose proof (lor_signed x y 63 ltac:(lia) ltac:(lia) ltac:(lia)). lia.
Qed.

Lemma iwrap_in t i z : in_itv z i -> in_itv (wrap t z) (iwrap t i).
Proof.
  intro h. unfold iwrap. destruct (fit t i) as [j|] eqn:ej; [|apply wrap_range].
  destruct (fit_in t i j _ ej h) as [K1 K2]. rewrite (wrap_fits t _ K2). exact K1.
Qed.
Lemma ishl_in k i z : 0 <= k -> in_itv z i -> in_itv (Z.shiftl z k) (ishl k i).
Proof. intros hk h. unfold in_itv, ishl in *. cbn. rewrite !Z.shiftl_mul_pow2 by lia. pose proof (Z.pow_pos_nonneg 2 k ltac:(lia) hk). nia. Qed.

(** what the analysis knows about the values of the variables *)
Definition knows (def : nat -> option cex) (ivs : list itv) (env : list Z) : Prop :=
  length env = length ivs /\
  (forall n i, nth_error ivs n = Some i -> in_itv (get env n) i) /\
  (forall n e, (n < length env)%nat -> def n = Some e -> get env n = zeval env e).

Lemma get_error env n : (n < length env)%nat -> nth_error env n = Some (get env n).
Proof. intro h. unfold get. apply nth_error_nth'. exact h. Qed.

Lemma sound def ivs env : knows def ivs env -> forall e i, below (length ivs) e = true -> ieval def ivs e = Some i ->
  in_itv (zeval env e) i /\ ceval false env e = Some (zeval env e) /\ weval env e = zeval env e.
Proof.
  intros (hl & hk & hd). induction e as [n | z | o t a IHa b IHb | t a IHa | t a IHa k | t a IHa k | t a IHa]; intros i hb h; cbn in hb, h |- *.
  - apply Nat.ltb_lt in hb. refine (conj (hk n i h) (conj _ eq_refl)). apply get_error. lia.
  - injection h as <-. unfold in_itv. cbn. refine (conj _ (conj eq_refl eq_refl)). lia.
  - apply andb_true_iff in hb. destruct hb as [hb1 hb2].
    destruct (ieval def ivs a) as [x|] eqn:ea; [|discriminate]. destruct (ieval def ivs b) as [y|] eqn:eb; [|discriminate].
    destruct (IHa x hb1 eq_refl) as (a1 & a2 & a3). destruct (IHb y hb2 eq_refl) as (b1 & b2 & b3). rewrite a2, b2, a3, b3.
    assert (K : in_itv (op o (zeval env a) (zeval env b)) i /\ fits_ty t (op o (zeval env a) (zeval env b)) = true).
    { assert (D : iopt t o x y = Some i \/ (o = Sub /\ exists j, rem_of def ivs a b = Some j /\ fit t j = Some i)).
      { destruct o; try (left; exact h).
        destruct (rem_of def ivs a b) as [j|] eqn:ej; [right; split; [reflexivity|]; exists j; split; [reflexivity | exact h]|].
        left. exact h. }
      destruct D as [e1 | (-> & j & e1 & e2)]; [exact (iopt_in t o _ _ x y i e1 a1 b1)|].
      apply (fit_in t j i _ e2). clear - e1 hd hl hb2 hb1 hk.
      unfold rem_of in e1. destruct a as [hh| | | | | |]; try discriminate. destruct b as [| | | |? c k| |]; try discriminate.
      destruct c as [c| | | | | |]; try discriminate. cbn in hb2. apply Nat.ltb_lt in hb2.
      destruct (def c) as [ex|] eqn:ed; [|discriminate]. destruct (nth_error ivs c) as [ic|] eqn:ec; [|destruct ex as [| | | | |? ex ?|]; try discriminate; destruct ex as [| |oo ? aa bb| | | |]; try discriminate; destruct oo; try discriminate; destruct aa; try discriminate; destruct bb; discriminate]. pose proof (hk c ic ec) as hcc. pose proof (hd c ex ltac:(lia) ed) as hc.
      destruct ex as [| | | | |ty ex k'|]; try discriminate.
      destruct ex as [h'| |o' t' a' b'| | | |]; try discriminate.
      - destruct (Nat.eqb hh h' && (k =? k') && (0 <=? k) && _) eqn:eq; [|discriminate]. injection e1 as <-.
        rewrite !andb_true_iff, Nat.eqb_eq, Z.eqb_eq, Z.leb_le in eq. destruct eq as (((-> & <-) & hk0) & hf).
        destruct (fit _ (ishl k ic)) as [jj|] eqn:ej; [|discriminate hf]. destruct (fit_in _ _ _ _ ej (ishl_in k ic _ hk0 hcc)) as [_ hw]. cbn [zeval]. rewrite (wrap_fits _ _ hw).
        cbn [zeval op] in *. rewrite hc, Z.shiftl_mul_pow2, Z.shiftr_div_pow2 by lia. unfold in_itv. cbn.
        pose proof (Z.pow_pos_nonneg 2 k ltac:(lia) hk0) as hp0.
        pose proof (Z.div_mod (get env h') (2 ^ k) ltac:(lia)). pose proof (Z.mod_pos_bound (get env h') (2 ^ k) ltac:(lia)). lia.
      - destruct o'; try discriminate. destruct a' as [h'| | | | | |]; try discriminate. destruct b' as [|r| | | | |]; try discriminate.
        destruct (Nat.eqb hh h' && (k =? k') && (0 <=? k) && _) eqn:eq; [|discriminate]. injection e1 as <-.
        rewrite !andb_true_iff, Nat.eqb_eq, Z.eqb_eq, Z.leb_le in eq. destruct eq as (((-> & <-) & hk0) & hf).
        destruct (fit _ (ishl k ic)) as [jj|] eqn:ej; [|discriminate hf]. destruct (fit_in _ _ _ _ ej (ishl_in k ic _ hk0 hcc)) as [_ hw]. cbn [zeval]. rewrite (wrap_fits _ _ hw).
        cbn [zeval op] in *. rewrite hc, Z.shiftl_mul_pow2, Z.shiftr_div_pow2 by lia. unfold in_itv. cbn.
        pose proof (Z.pow_pos_nonneg 2 k ltac:(lia) hk0) as hp0.
        pose proof (Z.div_mod (get env h' + r) (2 ^ k) ltac:(lia)). pose proof (Z.mod_pos_bound (get env h' + r) (2 ^ k) ltac:(lia)). lia. }
    destruct K as [K1 K2]. refine (conj K1 (conj (arith_fits _ _ K2) _)). destruct o; try reflexivity; apply wrap_fits; exact K2.
  - destruct (ieval def ivs a) as [x|] eqn:ea; [|discriminate]. destruct (IHa x hb eq_refl) as (a1 & a2 & a3). rewrite a2, a3.
    destruct (fit_in t (- snd x, - fst x) i (- zeval env a) h) as [K1 K2]; [unfold in_itv in *; cbn; lia|].
    refine (conj K1 (conj (arith_fits _ _ K2) (wrap_fits _ _ K2))).
  - destruct (0 <=? k) eqn:hk0; [|discriminate]. apply Z.leb_le in hk0.
    destruct (ieval def ivs a) as [x|] eqn:ea; [|discriminate]. destruct (IHa x hb eq_refl) as (a1 & a2 & a3). rewrite a2, a3.
    injection h as <-. refine (conj (iwrap_in t _ _ (ishl_in k x _ hk0 a1)) (conj _ eq_refl)). reflexivity.
  - destruct (0 <=? k) eqn:hk0; [|discriminate]. apply Z.leb_le in hk0.
    destruct (ieval def ivs a) as [x|] eqn:ea; [|discriminate]. destruct (IHa x hb eq_refl) as (a1 & a2 & a3). rewrite a2, a3.
    injection h as <-. refine (conj _ (conj eq_refl eq_refl)). unfold in_itv in *. cbn.
    rewrite !Z.shiftr_div_pow2 by lia. pose proof (Z.pow_pos_nonneg 2 k ltac:(lia) hk0). split; apply Z.div_le_mono; lia.
  - destruct (ieval def ivs a) as [x|] eqn:ea; [|discriminate]. destruct (IHa x hb eq_refl) as (a1 & a2 & a3). rewrite a2, a3.
    injection h as <-. refine (conj (iwrap_in t x _ a1) (conj eq_refl eq_refl)).
Qed.

(** Evaluation over the integers with conversions that change nothing. *)
Fixpoint xeval (env : list Z) (e : cex) : Z :=
  match e with
  | Var n => get env n
  | Cst z => z
  | Bin o _ a b => op o (xeval env a) (xeval env b)
  | Opp _ a => - xeval env a
  | Shl _ a k => Z.shiftl (xeval env a) k
  | Shr _ a k => Z.shiftr (xeval env a) k
  | Cast _ a => xeval env a
  end.
Fixpoint xrun (env : list Z) (body : list cex) : list Z :=
  match body with [] => env | e :: r => xrun (env ++ [xeval env e]) r end.
(** every conversion and every left shift in [e] is to a type that holds the value *)
Fixpoint plain (def : nat -> option cex) (ivs : list itv) (e : cex) : bool :=
  match e with
  | Var _ | Cst _ => true
  | Bin _ _ a b => plain def ivs a && plain def ivs b
  | Opp _ a | Shr _ a _ => plain def ivs a
  | Shl t a k => (0 <=? k) && plain def ivs a && match ieval def ivs a with Some i => match fit t (ishl k i) with Some _ => true | None => false end | None => false end
  | Cast t a => plain def ivs a && match ieval def ivs a with Some i => match fit t i with Some _ => true | None => false end | None => false end
  end.

Lemma plain_x def ivs env : knows def ivs env -> forall e, below (length ivs) e = true -> plain def ivs e = true -> zeval env e = xeval env e.
Proof.
  intro hk. induction e as [n | z | o t a IHa b IHb | t a IHa | t a IHa k | t a IHa k | t a IHa]; intros hb h; cbn in hb, h |- *;
    try reflexivity; try (rewrite IHa by assumption; reflexivity).
  - apply andb_true_iff in hb, h. rewrite IHa, IHb by tauto. reflexivity.
  - rewrite !andb_true_iff in h. destruct h as ((hk0 & h1) & h2). apply Z.leb_le in hk0. destruct (ieval def ivs a) as [i|] eqn:ei; [|discriminate].
    destruct (fit t (ishl k i)) as [j|] eqn:ej; [|discriminate]. destruct (sound def ivs env hk a i hb ei) as (s1 & _).
    destruct (fit_in t (ishl k i) j _ ej (ishl_in k i _ hk0 s1)) as [_ K]. rewrite (wrap_fits t _ K), IHa by assumption. reflexivity.
  - apply andb_true_iff in h. destruct h as [h1 h2]. destruct (ieval def ivs a) as [i|] eqn:ei; [|discriminate].
    destruct (fit t i) as [j|] eqn:ej; [|discriminate]. destruct (sound def ivs env hk a i hb ei) as (s1 & _).
    destruct (fit_in t i j _ ej s1) as [_ K]. rewrite (wrap_fits t _ K). apply IHa; assumption.
Qed.

Lemma get_app env x n : (n < length env)%nat -> get (env ++ [x]) n = get env n.
Proof. intro h. unfold get. apply app_nth1. exact h. Qed.
Lemma get_last env x : get (env ++ [x]) (length env) = x.
Proof. unfold get. rewrite app_nth2 by lia. rewrite Nat.sub_diag. reflexivity. Qed.

Lemma zeval_app env x e : below (length env) e = true -> zeval (env ++ [x]) e = zeval env e.
Proof.
  induction e as [n | z | o t a IHa b IHb | t a IHa | t a IHa k | t a IHa k | t a IHa]; cbn; intro h; try (rewrite IHa by exact h; reflexivity); [| reflexivity |].
  - apply get_app. apply Nat.ltb_lt. exact h.
  - apply andb_true_iff in h. rewrite IHa, IHb by tauto. reflexivity.
Qed.

Lemma below_le n m e : (n <= m)%nat -> below n e = true -> below m e = true.
Proof.
  intro hn. induction e as [v | z | o t a IHa b IHb | t a IHa | t a IHa k | t a IHa k | t a IHa]; cbn; intro h; try (apply IHa; exact h).
  - apply Nat.ltb_lt in h. apply Nat.ltb_lt. lia.
  - reflexivity.
  - apply andb_true_iff in h. apply andb_true_iff. tauto.
Qed.

(** [def] has no entry for a variable that is read before it is assigned: [scoped]. *)
Definition scoped (def : nat -> option cex) : Prop := forall n e, def n = Some e -> below n e = true.

Lemma knows_step def ivs env e i : scoped def -> def (length ivs) = Some e -> knows def ivs env -> below (length ivs) e = true ->
  in_itv (zeval env e) i -> knows def (ivs ++ [i]) (env ++ [zeval env e]).
Proof.
  intros hs h0 (hl & hk & hd) hb s1. unfold knows. rewrite !app_length. cbn [length]. refine (conj _ (conj _ _)).
  - lia.
  - intros n j hn. destruct (Nat.lt_ge_cases n (length ivs)) as [hlt | hge].
    + rewrite nth_error_app1 in hn by exact hlt. rewrite get_app by lia. apply hk. exact hn.
    + assert (n = length ivs) as ->.
      { assert (n < length (ivs ++ [i]))%nat by (apply nth_error_Some; congruence). rewrite app_length in *. cbn in *. lia. }
      rewrite nth_error_app2, Nat.sub_diag in hn by lia. injection hn as <-. rewrite <- hl, get_last. exact s1.
  - intros n e' hn he. destruct (Nat.lt_ge_cases n (length env)) as [hlt | hge].
    + rewrite get_app by exact hlt. rewrite zeval_app; [apply hd; assumption|]. apply (below_le n); [lia | apply hs; exact he].
    + assert (n = length env) as -> by lia. rewrite get_last. rewrite hl in he. rewrite h0 in he. injection he as <-.
      rewrite zeval_app; [reflexivity|]. rewrite hl. exact hb.
Qed.

Lemma irun_sound def : scoped def -> forall body ivs env res,
  (forall j e, nth_error body j = Some e -> def (length ivs + j)%nat = Some e) ->
  knows def ivs env -> irun def ivs body = Some res ->
  crun false env body = Some (zrun env body) /\ wrun env body = zrun env body /\ knows def res (zrun env body).
Proof.
  intro hs. induction body as [|e body IH]; intros ivs env res hdef hk hr; cbn in hr |- *.
  - injection hr as <-. tauto.
  - destruct (below (length ivs) e) eqn:hb; [|discriminate]. destruct (ieval def ivs e) as [i|] eqn:ei; [|discriminate].
    destruct (sound def ivs env hk e i hb ei) as (s1 & s2 & s3). rewrite s2, s3.
    apply (IH (ivs ++ [i])); [| | exact hr].
    + intros j e' he. rewrite app_length. cbn. replace (length ivs + 1 + j)%nat with (length ivs + S j)%nat by lia. apply hdef. exact he.
    + apply knows_step; try assumption. rewrite <- (Nat.add_0_r (length ivs)). apply hdef. reflexivity.
Qed.

Fixpoint prun (def : nat -> option cex) (ivs : list itv) (body : list cex) : bool :=
  match body with
  | [] => true
  | e :: r => below (length ivs) e && plain def ivs e && match ieval def ivs e with Some i => prun def (ivs ++ [i]) r | None => false end
  end.

Lemma prun_sound def : scoped def -> forall body ivs env,
  (forall j e, nth_error body j = Some e -> def (length ivs + j)%nat = Some e) ->
  knows def ivs env -> prun def ivs body = true -> zrun env body = xrun env body.
Proof.
  intro hs. induction body as [|e body IH]; intros ivs env hdef hk hr; cbn in hr |- *; [reflexivity|].
  rewrite !andb_true_iff in hr. destruct hr as ((hb & hp) & hr). destruct (ieval def ivs e) as [i|] eqn:ei; [|discriminate].
  destruct (sound def ivs env hk e i hb ei) as (s1 & _). rewrite (plain_x def ivs env hk e hb hp) in *.
  apply (IH (ivs ++ [i])); [| | exact hr].
  - intros j e' he. rewrite app_length. cbn. replace (length ivs + 1 + j)%nat with (length ivs + S j)%nat by lia. apply hdef. exact he.
  - rewrite <- (plain_x def ivs env hk e hb hp) in *. apply knows_step; try assumption. rewrite <- (Nat.add_0_r (length ivs)). apply hdef. reflexivity.
Qed.

(** The check, for a function whose arguments lie in the intervals [ivs], and whose results are to lie in [outs]. *)
Fixpoint scoped_from (n : nat) (body : list cex) : bool :=
  match body with [] => true | e :: r => below n e && scoped_from (S n) r end.

Definition within (i : option itv) (o : itv) : bool :=
  match i with Some i => (fst o <=? fst i) && (snd i <=? snd o) | None => false end.
Fixpoint all_within (ivs : list itv) (outs : list nat) (os : list itv) : bool :=
  match outs, os with
  | [], [] => true
  | n :: ns, o :: r => within (nth_error ivs n) o && all_within ivs ns r
  | _, _ => false
  end.

Definition check (f : cfun) (ivs : list itv) (os : list itv) : bool :=
  scoped_from (length ivs) (cbody f) &&
  match irun (def_of (length ivs) (cbody f)) ivs (cbody f) with Some res => all_within res (couts f) os | None => false end.

Lemma scoped_from_ok body : forall n, scoped_from n body = true -> forall j e, nth_error body j = Some e -> below (n + j) e = true.
Proof.
  induction body as [|e body IH]; cbn; intros n h j e' he; [destruct j; discriminate|].
  apply andb_true_iff in h. destruct h as [h1 h2]. destruct j as [|j]; cbn in he.
  - injection he as <-. rewrite Nat.add_0_r. exact h1.
  - replace (n + S j)%nat with (S n + j)%nat by lia. apply (IH (S n) h2). exact he.
Qed.

Lemma def_of_scoped n body : scoped_from n body = true -> scoped (def_of n body).
Proof.
  intros h m e. unfold def_of. destruct (Nat.ltb m n) eqn:hm; [discriminate|]. apply Nat.ltb_ge in hm. intro he.
  pose proof (scoped_from_ok body n h (m - n) e he) as h2. replace (n + (m - n))%nat with m in h2 by lia. exact h2.
Qed.

Lemma reads_ok res def env outs os : knows def res env -> all_within res outs os = true ->
  reads env outs = Some (map (get env) outs) /\ Forall2 in_itv (map (get env) outs) os.
Proof.
  intros (hl & hk & _). revert os. induction outs as [|n outs IH]; intros [|o os] h; cbn in h |- *; try discriminate; [split; [reflexivity | constructor]|].
  apply andb_true_iff in h. destruct h as [h1 h2]. destruct (IH os h2) as [i1 i2]. rewrite i1.
  unfold within in h1. destruct (nth_error res n) as [i|] eqn:en; [|discriminate].
  assert (n < length env)%nat by (rewrite hl; apply nth_error_Some; congruence). rewrite (get_error env n) by assumption.
  refine (conj eq_refl (Forall2_cons _ _ _ i2)). rewrite andb_true_iff, !Z.leb_le in h1. pose proof (hk n i en). unfold in_itv in *. lia.
Qed.

Lemma knows_start def ivs args : length args = length ivs -> (forall n e, def n = Some e -> (length ivs <= n)%nat) ->
  Forall2 in_itv args ivs -> knows def ivs args.
Proof.
  intros hl hd ha. unfold knows. refine (conj hl (conj _ _)).
  - clear -ha. induction ha as [|x i xs is_ hx _ IH]; intros [|n] j hn; cbn in hn; try discriminate.
    + injection hn as <-. exact hx.
    + exact (IH n j hn).
  - intros n e hn he. pose proof (hd n e he). lia.
Qed.
Lemma def_of_ge n body m e : def_of n body m = Some e -> (n <= m)%nat.
Proof. unfold def_of. destruct (Nat.ltb m n) eqn:h; [discriminate|]. apply Nat.ltb_ge in h. intros _. exact h. Qed.
Lemma def_of_at n body j e : nth_error body j = Some e -> def_of n body (n + j) = Some e.
Proof.
  intro he. unfold def_of. destruct (Nat.ltb (n + j) n) eqn:hj; [apply Nat.ltb_lt in hj; lia|].
  replace (n + j - n)%nat with j by lia. exact he.
Qed.

Theorem check_sound f ivs os args : Forall2 in_itv args ivs -> check f ivs os = true ->
  ccall false f args = Some (map (get (zrun args (cbody f))) (couts f)) /\
  map (get (zrun args (cbody f))) (couts f) = map (get (wrun args (cbody f))) (couts f) /\
  Forall2 in_itv (map (get (zrun args (cbody f))) (couts f)) os.
Proof.
  intros ha h. unfold check in h. apply andb_true_iff in h. destruct h as [hs h].
  destruct (irun _ ivs (cbody f)) as [res|] eqn:er; [|discriminate].
  assert (hl : length args = length ivs) by (clear -ha; induction ha; cbn; congruence).
  destruct (irun_sound _ (def_of_scoped _ _ hs) (cbody f) ivs args res) as (r1 & r2 & r3).
  - intros j e. apply def_of_at.
  - apply knows_start; [exact hl | intros n e; apply def_of_ge | exact ha].
  - exact er.
  - unfold ccall. rewrite r1. destruct (reads_ok res _ _ (couts f) os r3 h) as [e1 e2]. rewrite e1, r2. tauto.
Qed.

(** The check that also asks for value-preserving conversions. *)
Definition xcheck (f : cfun) (ivs : list itv) (os : list itv) : bool :=
  check f ivs os && prun (def_of (length ivs) (cbody f)) ivs (cbody f).

Theorem xcheck_sound f ivs os args : Forall2 in_itv args ivs -> xcheck f ivs os = true ->
  ccall false f args = Some (map (get (xrun args (cbody f))) (couts f)) /\
  Forall2 in_itv (map (get (xrun args (cbody f))) (couts f)) os.
Proof.
  intros ha h. unfold xcheck in h. apply andb_true_iff in h. destruct h as [hc hx].
  destruct (check_sound f ivs os args ha hc) as (c1 & _ & c3).
  assert (hl : length args = length ivs) by (clear -ha; induction ha; cbn; congruence).
  unfold check in hc. apply andb_true_iff in hc. destruct hc as [hs _].
  rewrite (prun_sound _ (def_of_scoped _ _ hs) (cbody f) ivs args) in c1, c3.
  - tauto.
  - intros j e. apply def_of_at.
  - apply knows_start; [exact hl | intros n e; apply def_of_ge | exact ha].
  - exact hx.
  - intros j e. apply def_of_at.
  - apply knows_start; [exact hl | intros n e; apply def_of_ge | exact ha].
  - exact hx.
Qed.
