(** The field arithmetic of /repo/cref/cref.c computes in the field, and no operation overflows. *)
From Coq Require Import ZArith List Lia Bool Ring.
From Verif Require Import Words WordsTac NumTheory Primes Fp Edwards Fe51Proofs Fe51Laws Fe25Code Fe25Proofs FieldModel BitFold FieldLaws Fe25Laws CLang CLangFacts CrefFeCode CrefFe.
Import ListNotations.
Open Scope Z_scope.

(** ** Straight-line code with the carries as unknowns *)

Fixpoint pev (env : list Z) (e : cex) : Z :=
  match e with
  | Var n => get env n
  | Cst z => z
  | Bin o _ a b => op o (pev env a) (pev env b)
  | Opp _ a => - pev env a
  | Shl _ a k => pev env a * 2 ^ k
  | Shr _ a k => Z.shiftr (pev env a) k
  | Cast _ a => pev env a
  end.
Fixpoint shl_ok (e : cex) : bool :=
  match e with
  | Var _ | Cst _ => true
  | Bin _ _ a b => shl_ok a && shl_ok b
  | Shl _ a k => (0 <=? k) && shl_ok a
  | Opp _ a | Shr _ a _ | Cast _ a => shl_ok a
  end.
Lemma pev_ok env e : shl_ok e = true -> xeval env e = pev env e.
Proof.
  induction e as [n | z | o t a IHa b IHb | t a IHa | t a IHa k | t a IHa k | t a IHa]; cbn; intro h; try reflexivity; try (rewrite IHa by exact h; reflexivity).
  - apply andb_true_iff in h. rewrite IHa, IHb by tauto. reflexivity.
  - apply andb_true_iff in h. destruct h as [h1 h2]. apply Z.leb_le in h1. rewrite IHa by exact h2. apply Z.shiftl_mul_pow2. exact h1.
Qed.

Fixpoint orun (cs : list Z) (env : list Z) (body : list cex) : list Z :=
  match body with
  | [] => env
  | Shr _ _ _ :: r => match cs with c :: cs' => orun cs' (env ++ [c]) r | [] => [] end
  | e :: r => orun cs (env ++ [pev env e]) r
  end.
Fixpoint nshr (body : list cex) : nat :=
  match body with [] => O | Shr _ _ _ :: r => S (nshr r) | _ :: r => nshr r end.
Lemma orun_ex body : forall env, forallb shl_ok body = true -> exists cs, length cs = nshr body /\ xrun env body = orun cs env body.
Proof.
  induction body as [|e body IH]; intros env h; cbn in h; [exists []; split; reflexivity|].
  apply andb_true_iff in h. destruct h as [h1 h2].
  destruct (IH (env ++ [xeval env e]) h2) as (cs & hl & he).
  destruct e; cbn [xrun orun nshr]; try (exists cs; split; [exact hl|]; rewrite he; rewrite pev_ok by exact h1; reflexivity).
  exists (xeval env (Shr t e k) :: cs). split; [cbn; congruence|]. exact he.
Qed.

Definition lval (l : list Z) : Z := match l with [a; b; c; d; e; f; g; h; i; j] => v10 a b c d e f g h i j | _ => 0 end.

Ltac carries := let cs := fresh "cs" in let hl := fresh "hl" in
  match goal with |- context [xrun ?e ?b] => destruct (orun_ex b e ltac:(vm_compute; reflexivity)) as (cs & hl & ->) end;
  match type of hl with _ = ?n => let y := eval vm_compute in n in change (length cs = y) in hl end;
  repeat (destruct cs as [|?c cs]; [discriminate hl|]); destruct cs; [|discriminate hl]; clear hl.
Ltac unroll b :=
  match goal with |- context [lval ?l] =>
    let y := eval cbv [lval map get orun pev nth app cbody couts b op] in (lval l) in change (lval l) with y end;
  change (2 ^ 26) with 67108864; change (2 ^ 25) with 33554432.

Lemma p_mul_val a0 a1 a2 a3 a4 a5 a6 a7 a8 a9 b0 b1 b2 b3 b4 b5 b6 b7 b8 b9 : exists k,
  v10 a0 a1 a2 a3 a4 a5 a6 a7 a8 a9 * v10 b0 b1 b2 b3 b4 b5 b6 b7 b8 b9 =
  lval (map (get (xrun [a0; a1; a2; a3; a4; a5; a6; a7; a8; a9; b0; b1; b2; b3; b4; b5; b6; b7; b8; b9] (cbody p_mul))) (couts p_mul)) + P25519 * k.
Proof.
  carries. unroll p_mul.
  exists ((1*(2*a1*b9+a2*b8+2*a3*b7+a4*b6+2*a5*b5+a6*b4+2*a7*b3+a8*b2+2*a9*b1)+67108864*(a2*b9+a3*b8+a4*b7+a5*b6+a6*b5+a7*b4+a8*b3+a9*b2)+2251799813685248*(2*a3*b9+a4*b8+2*a5*b7+a6*b6+2*a7*b5+a8*b4+2*a9*b3)+151115727451828646838272*(a4*b9+a5*b8+a6*b7+a7*b6+a8*b5+a9*b4)+5070602400912917605986812821504*(2*a5*b9+a6*b8+2*a7*b7+a8*b6+2*a9*b5)+340282366920938463463374607431768211456*(a6*b9+a7*b8+a8*b7+a9*b6)+11417981541647679048466287755595961091061972992*(2*a7*b9+a8*b8+2*a9*b7)+766247770432944429179173513575154591809369561091801088*(a8*b9+a9*b8)+25711008708143844408671393477458601640355247900524685364822016*(2*a9*b9)) + c9).
  unfold v10, P25519. ring.
Qed.

Lemma p_square_val a0 a1 a2 a3 a4 a5 a6 a7 a8 a9 : exists k,
  v10 a0 a1 a2 a3 a4 a5 a6 a7 a8 a9 * v10 a0 a1 a2 a3 a4 a5 a6 a7 a8 a9 =
  lval (map (get (xrun [a0; a1; a2; a3; a4; a5; a6; a7; a8; a9] (cbody p_square))) (couts p_square)) + P25519 * k.
Proof.
  carries. unroll p_square.
  exists ((1*(2*a1*a9+a2*a8+2*a3*a7+a4*a6+2*a5*a5+a6*a4+2*a7*a3+a8*a2+2*a9*a1)+67108864*(a2*a9+a3*a8+a4*a7+a5*a6+a6*a5+a7*a4+a8*a3+a9*a2)+2251799813685248*(2*a3*a9+a4*a8+2*a5*a7+a6*a6+2*a7*a5+a8*a4+2*a9*a3)+151115727451828646838272*(a4*a9+a5*a8+a6*a7+a7*a6+a8*a5+a9*a4)+5070602400912917605986812821504*(2*a5*a9+a6*a8+2*a7*a7+a8*a6+2*a9*a5)+340282366920938463463374607431768211456*(a6*a9+a7*a8+a8*a7+a9*a6)+11417981541647679048466287755595961091061972992*(2*a7*a9+a8*a8+2*a9*a7)+766247770432944429179173513575154591809369561091801088*(a8*a9+a9*a8)+25711008708143844408671393477458601640355247900524685364822016*(2*a9*a9)) + c9).
  unfold v10, P25519. ring.
Qed.

Lemma p_square_double_val a0 a1 a2 a3 a4 a5 a6 a7 a8 a9 : exists k,
  2 * (v10 a0 a1 a2 a3 a4 a5 a6 a7 a8 a9 * v10 a0 a1 a2 a3 a4 a5 a6 a7 a8 a9) =
  lval (map (get (xrun [a0; a1; a2; a3; a4; a5; a6; a7; a8; a9] (cbody p_square_double))) (couts p_square_double)) + P25519 * k.
Proof.
  carries. unroll p_square_double.
  exists (2*(1*(2*a1*a9+a2*a8+2*a3*a7+a4*a6+2*a5*a5+a6*a4+2*a7*a3+a8*a2+2*a9*a1)+67108864*(a2*a9+a3*a8+a4*a7+a5*a6+a6*a5+a7*a4+a8*a3+a9*a2)+2251799813685248*(2*a3*a9+a4*a8+2*a5*a7+a6*a6+2*a7*a5+a8*a4+2*a9*a3)+151115727451828646838272*(a4*a9+a5*a8+a6*a7+a7*a6+a8*a5+a9*a4)+5070602400912917605986812821504*(2*a5*a9+a6*a8+2*a7*a7+a8*a6+2*a9*a5)+340282366920938463463374607431768211456*(a6*a9+a7*a8+a8*a7+a9*a6)+11417981541647679048466287755595961091061972992*(2*a7*a9+a8*a8+2*a9*a7)+766247770432944429179173513575154591809369561091801088*(a8*a9+a9*a8)+25711008708143844408671393477458601640355247900524685364822016*(2*a9*a9)) + c9).
  unfold v10, P25519. ring.
Qed.

(** ** Loading bytes *)

Lemma lor_shift a b k : 0 <= k -> 0 <= a < 2 ^ k -> Z.lor a (b * 2 ^ k) = a + b * 2 ^ k.
Proof.
  intros hk ha. rewrite <- Z.shiftl_mul_pow2 by exact hk.
  assert (L : Z.land a (Z.shiftl b k) = 0).
  { apply Z.bits_inj'. intros n hn. rewrite Z.land_spec, Z.bits_0. destruct (Z.lt_ge_cases n k) as [h | h].
    - rewrite (Z.shiftl_spec_low b k n h). apply andb_false_r.
    - rewrite <- (Z.mod_small a (2 ^ k) ha), Z.mod_pow2_bits_high by lia. reflexivity. }
  rewrite (Z.add_nocarry_lxor _ _ L). symmetry. apply Z.lxor_lor. exact L.
Qed.

Lemma load3 a b c : is_byte a -> is_byte b -> is_byte c -> Z.lor (Z.lor a (b * 2 ^ 8)) (c * 2 ^ 16) = a + 256 * b + 65536 * c.
Proof.
  unfold is_byte. intros ha hb hc. rewrite (lor_shift a b 8) by (change (2 ^ 8) with 256; lia).
  rewrite (lor_shift _ c 16); change (2 ^ 8) with 256; change (2 ^ 16) with 65536; lia.
Qed.
Lemma load4 a b c d : is_byte a -> is_byte b -> is_byte c -> is_byte d ->
  Z.lor (a + 256 * b + 65536 * c) (d * 2 ^ 24) = a + 256 * b + 65536 * c + 16777216 * d.
Proof.
  unfold is_byte. intros ha hb hc hd. rewrite (lor_shift _ d 24); change (2 ^ 24) with 16777216; lia.
Qed.

Lemma bytes32_inv s : bytes 32 s -> exists b0 b1 b2 b3 b4 b5 b6 b7 b8 b9 b10 b11 b12 b13 b14 b15 b16 b17 b18 b19 b20 b21 b22 b23 b24 b25 b26 b27 b28 b29 b30 b31,
  s = [b0; b1; b2; b3; b4; b5; b6; b7; b8; b9; b10; b11; b12; b13; b14; b15; b16; b17; b18; b19; b20; b21; b22; b23; b24; b25; b26; b27; b28; b29; b30; b31].
Proof.
  intros [hl _]. do 32 (destruct s as [|?b s]; [discriminate hl|]). destruct s; [|discriminate hl].
  repeat eexists.
Qed.

Lemma p_unpack_val s : bytes 32 s -> exists k,
  lval (map (get (xrun s (cbody p_unpack))) (couts p_unpack)) = le_val s mod 2 ^ 255 + P25519 * k.
Proof.
  intro hs. destruct (bytes32_inv s hs) as (b0 & b1 & b2 & b3 & b4 & b5 & b6 & b7 & b8 & b9 & b10 & b11 & b12 & b13 & b14 & b15 & b16 & b17 & b18 & b19 & b20 & b21 & b22 & b23 & b24 & b25 & b26 & b27 & b28 & b29 & b30 & b31 & ->).
  destruct hs as [_ hs]. repeat match goal with H : Forall is_byte (_ :: _) |- _ => apply Forall_cons_iff in H; destruct H as [? H] end.
  carries. unroll p_unpack. rewrite !load3 by assumption. rewrite !load4 by assumption.
  change 8388607 with (Z.ones 23). rewrite Z.land_ones by lia. change (2 ^ 23) with 8388608.
  remember ((b29 + 256 * b30 + 65536 * b31) / 8388608) as q eqn:eq.
  assert (hm : (b29 + 256 * b30 + 65536 * b31) mod 8388608 = b29 + 256 * b30 + 65536 * b31 - 8388608 * q) by (subst q; rewrite Z.mod_eq by lia; reflexivity).
  rewrite hm.
  match goal with |- context [le_val ?l] => assert (hv : le_val l mod 2 ^ 255 = le_val l - 2 ^ 255 * q) end.
  { symmetry. apply (Z.mod_unique _ _ q); [left|ring].
    pose proof (Z.mod_pos_bound (b29 + 256 * b30 + 65536 * b31) 8388608 ltac:(lia)) as hb. rewrite hm in hb. clear eq hm.
    unfold is_byte in *. cbn [le_val]. change (2 ^ 255) with 57896044618658097711785492504343953926634992332820282019728792003956564819968. lia. }
  rewrite hv. clear. exists (- c). cbn [le_val]. unfold v10, P25519.
  change (2 ^ 255) with 57896044618658097711785492504343953926634992332820282019728792003956564819968.
  change (2 ^ 7) with 128. change (2 ^ 6) with 64. change (2 ^ 5) with 32. change (2 ^ 4) with 16. change (2 ^ 3) with 8. change (2 ^ 2) with 4.
  ring.
Qed.

(** ** The functions *)

Definition ok {A : Type} (o : option A) (P : A -> Prop) : Prop := exists v, o = Some v /\ P v.

Definition iv25 (e o : Z) : list itv := [(- e, e); (- o, o); (- e, e); (- o, o); (- e, e); (- o, o); (- e, e); (- o, o); (- e, e); (- o, o)].
Lemma bnd_iv e o x : bnd25 e o x <-> Forall2 in_itv (limbs_of x) (iv25 e o).
Proof.
  destruct x. unfold bnd25, limbs_of, iv25. split.
  - intros (? & ? & ? & ? & ? & ? & ? & ? & ? & ?). repeat constructor; cbn; lia.
  - intro h. repeat match goal with H : Forall2 _ (_ :: _) (_ :: _) |- _ => inversion H; clear H; subst end.
    unfold in_itv in *. cbn [fst snd] in *. tauto.
Qed.
Lemma iv_cons l i is_ : Forall2 in_itv l (i :: is_) -> exists x r, l = x :: r /\ fst i <= x <= snd i /\ Forall2 in_itv r is_.
Proof. intro h. inversion h; subst. eexists. eexists. split; [reflexivity|]. split; assumption. Qed.
Lemma of_iv l e o : Forall2 in_itv l (iv25 e o) -> exists x, of_limbs l = Some x /\ bnd25 e o x /\ v25 x = lval l.
Proof.
  intro h. unfold iv25 in h. do 10 (apply iv_cons in h; destruct h as (? & ? & -> & ? & h)). inversion h; subst.
  eexists. refine (conj eq_refl (conj _ eq_refl)). cbn [fst snd] in *. unfold bnd25. tauto.
Qed.

Lemma rel_iv n m x f : rel25 n x f -> n <= m -> Forall2 in_itv (limbs_of x) (iv25 (m * UE) (m * UO)).
Proof. intros [hb _] hn. apply bnd_iv. apply (bnd25_U n m _ _ _ hb hn); lia. Qed.

Lemma c_mul_ok n m x y f g : rel25 n x f -> rel25 m y g -> n <= 4 -> m <= 3 -> ok (c_mul x y) (fun z => rel25 1 z (Fmul f g)).
Proof.
  intros hx hy hn hm.
  assert (ha : Forall2 in_itv (limbs_of x ++ limbs_of y) (iv25 (4 * UE) (4 * UO) ++ iv25 (3 * UE) (3 * UO))).
  { apply Forall2_app; [exact (rel_iv n 4 x f hx hn) | exact (rel_iv m 3 y g hy hm)]. }
  destruct (xcheck_sound p_mul _ (iv25 UE UO) _ ha) as [h1 h2]; [vm_compute; reflexivity|].
  destruct (of_iv _ _ _ h2) as (z & e1 & e2 & e3). exists z. split.
  - unfold c_mul, call2. rewrite h1. exact e1.
  - split; [apply (bnd25_le UE UO); [lia | lia | exact e2]|].
    destruct hx as [_ <-], hy as [_ <-]. clear - e3. destruct x as [x0 x1 x2 x3 x4 x5 x6 x7 x8 x9], y as [y0 y1 y2 y3 y4 y5 y6 y7 y8 y9]. unfold limbs_of in e3. cbn [app] in e3.
    destruct (p_mul_val x0 x1 x2 x3 x4 x5 x6 x7 x8 x9 y0 y1 y2 y3 y4 y5 y6 y7 y8 y9) as [k hk].
    rewrite <- of_Z_mul. unfold v25 at 2 3. rewrite hk, <- e3, of_Z_plus_pk. reflexivity.
Qed.

Lemma c_square_ok n x f : rel25 n x f -> n <= 3 -> ok (c_square x) (fun z => rel25 1 z (Fmul f f)).
Proof.
  intros hx hn. pose proof (rel_iv n 3 x f hx hn) as ha.
  destruct (xcheck_sound p_square _ (iv25 UE UO) _ ha) as [h1 h2]; [vm_compute; reflexivity|].
  destruct (of_iv _ _ _ h2) as (z & e1 & e2 & e3). exists z. split.
  - unfold c_square, call1. rewrite h1. exact e1.
  - split; [apply (bnd25_le UE UO); [lia | lia | exact e2]|].
    destruct hx as [_ <-]. clear - e3. destruct x as [x0 x1 x2 x3 x4 x5 x6 x7 x8 x9]. unfold limbs_of in e3.
    destruct (p_square_val x0 x1 x2 x3 x4 x5 x6 x7 x8 x9) as [k hk].
    rewrite <- of_Z_mul. unfold v25 at 2 3. rewrite hk, <- e3, of_Z_plus_pk. reflexivity.
Qed.

Lemma c_square_double_ok n x f : rel25 n x f -> n <= 3 -> ok (c_square_double x) (fun z => rel25 1 z (Fmul (of_Z 2) (Fmul f f))).
Proof.
  intros hx hn. pose proof (rel_iv n 3 x f hx hn) as ha.
  destruct (xcheck_sound p_square_double _ (iv25 UE UO) _ ha) as [h1 h2]; [vm_compute; reflexivity|].
  destruct (of_iv _ _ _ h2) as (z & e1 & e2 & e3). exists z. split.
  - unfold c_square_double, call1. rewrite h1. exact e1.
  - split; [apply (bnd25_le UE UO); [lia | lia | exact e2]|].
    destruct hx as [_ <-]. clear - e3. destruct x as [x0 x1 x2 x3 x4 x5 x6 x7 x8 x9]. unfold limbs_of in e3.
    destruct (p_square_double_val x0 x1 x2 x3 x4 x5 x6 x7 x8 x9) as [k hk].
    rewrite <- !of_Z_mul. unfold v25 at 2 3. rewrite hk, <- e3, of_Z_plus_pk. reflexivity.
Qed.

(** The bound under which sums of two elements are representable. *)
Definition MX : Z := 2 ^ 30 - 1.
Lemma c_add_eq x0 x1 x2 x3 x4 x5 x6 x7 x8 x9 y0 y1 y2 y3 y4 y5 y6 y7 y8 y9 :
  bnd25 MX MX (Fe25 x0 x1 x2 x3 x4 x5 x6 x7 x8 x9) -> bnd25 MX MX (Fe25 y0 y1 y2 y3 y4 y5 y6 y7 y8 y9) ->
  c_add (Fe25 x0 x1 x2 x3 x4 x5 x6 x7 x8 x9) (Fe25 y0 y1 y2 y3 y4 y5 y6 y7 y8 y9) =
  Some (Fe25 (x0 + y0) (x1 + y1) (x2 + y2) (x3 + y3) (x4 + y4) (x5 + y5) (x6 + y6) (x7 + y7) (x8 + y8) (x9 + y9)).
Proof.
  intros hx hy. apply bnd_iv in hx, hy.
  destruct (xcheck_sound p_add _ (iv25 (2 * MX) (2 * MX)) _ (Forall2_app hx hy)) as [h1 _]; [vm_compute; reflexivity|].
  unfold c_add, call2. rewrite h1. reflexivity.
Qed.
Lemma c_sub_eq x0 x1 x2 x3 x4 x5 x6 x7 x8 x9 y0 y1 y2 y3 y4 y5 y6 y7 y8 y9 :
  bnd25 MX MX (Fe25 x0 x1 x2 x3 x4 x5 x6 x7 x8 x9) -> bnd25 MX MX (Fe25 y0 y1 y2 y3 y4 y5 y6 y7 y8 y9) ->
  c_sub (Fe25 x0 x1 x2 x3 x4 x5 x6 x7 x8 x9) (Fe25 y0 y1 y2 y3 y4 y5 y6 y7 y8 y9) =
  Some (Fe25 (x0 - y0) (x1 - y1) (x2 - y2) (x3 - y3) (x4 - y4) (x5 - y5) (x6 - y6) (x7 - y7) (x8 - y8) (x9 - y9)).
Proof.
  intros hx hy. apply bnd_iv in hx, hy.
  destruct (xcheck_sound p_sub _ (iv25 (2 * MX) (2 * MX)) _ (Forall2_app hx hy)) as [h1 _]; [vm_compute; reflexivity|].
  unfold c_sub, call2. rewrite h1. reflexivity.
Qed.
Lemma c_neg_eq x0 x1 x2 x3 x4 x5 x6 x7 x8 x9 :
  bnd25 MX MX (Fe25 x0 x1 x2 x3 x4 x5 x6 x7 x8 x9) ->
  c_neg (Fe25 x0 x1 x2 x3 x4 x5 x6 x7 x8 x9) = Some (Fe25 (- x0) (- x1) (- x2) (- x3) (- x4) (- x5) (- x6) (- x7) (- x8) (- x9)).
Proof.
  intros hx. apply bnd_iv in hx.
  destruct (xcheck_sound p_neg _ (iv25 MX MX) _ hx) as [h1 _]; [vm_compute; reflexivity|].
  unfold c_neg, call1. rewrite h1. reflexivity.
Qed.

Lemma rel_MX n x f : rel25 n x f -> n <= 16 -> bnd25 MX MX x.
Proof. intros [hb _] hn. apply (bnd25_U n 16 _ _ _ hb hn); vm_compute; discriminate. Qed.

Lemma c_add_ok n m x y f g : rel25 n x f -> rel25 m y g -> n <= 16 -> m <= 16 -> ok (c_add x y) (fun z => rel25 (n + m) z (Fadd f g)).
Proof.
  intros hx hy hn hm. pose proof (rel_MX _ _ _ hx hn) as bx. pose proof (rel_MX _ _ _ hy hm) as b_y.
  destruct hx as [hx <-], hy as [hy <-]. destruct x, y. rewrite (c_add_eq _ _ _ _ _ _ _ _ _ _ _ _ _ _ _ _ _ _ _ _ bx b_y).
  eexists. split; [reflexivity|]. split.
  - unfold bnd25 in *. rewrite !Z.mul_add_distr_r. clear bx b_y. pack25; lia.
  - rewrite <- of_Z_add. f_equal. unfold v25, v10. ring.
Qed.
Lemma c_sub_ok n m x y f g : rel25 n x f -> rel25 m y g -> n <= 16 -> m <= 16 -> ok (c_sub x y) (fun z => rel25 (n + m) z (Fsub f g)).
Proof.
  intros hx hy hn hm. pose proof (rel_MX _ _ _ hx hn) as bx. pose proof (rel_MX _ _ _ hy hm) as b_y.
  destruct hx as [hx <-], hy as [hy <-]. destruct x, y. rewrite (c_sub_eq _ _ _ _ _ _ _ _ _ _ _ _ _ _ _ _ _ _ _ _ bx b_y).
  eexists. split; [reflexivity|]. split.
  - unfold bnd25 in *. rewrite !Z.mul_add_distr_r. clear bx b_y. pack25; lia.
  - rewrite <- of_Z_sub. f_equal. unfold v25, v10. ring.
Qed.
Lemma c_neg_ok n x f : rel25 n x f -> n <= 16 -> ok (c_neg x) (fun z => rel25 n z (Fopp f)).
Proof.
  intros hx hn. pose proof (rel_MX _ _ _ hx hn) as bx.
  destruct hx as [hx <-]. destruct x. rewrite (c_neg_eq _ _ _ _ _ _ _ _ _ _ bx).
  eexists. split; [reflexivity|]. split.
  - unfold bnd25 in *. clear bx. pack25; lia.
  - rewrite <- of_Z_opp. f_equal. unfold v25, v10. ring.
Qed.

Definition ivb : list itv := repeat (0, 255) 32.
Lemma bytes_iv s : bytes 32 s -> Forall2 in_itv s ivb.
Proof.
  intros [hl hs]. unfold ivb. rewrite <- hl. clear hl. induction hs as [|b s hb _ IH]; cbn; constructor; [|exact IH].
  unfold is_byte in hb. unfold in_itv. cbn. lia.
Qed.

Lemma c_unpack_ok s : bytes 32 s -> ok (c_unpack s) (fun z => rel25 1 z (of_Z (le_val s mod 2 ^ 255))).
Proof.
  intro hs. destruct (xcheck_sound p_unpack _ (iv25 UE UO) _ (bytes_iv s hs)) as [h1 h2]; [vm_compute; reflexivity|].
  destruct (of_iv _ _ _ h2) as (z & e1 & e2 & e3). exists z. split.
  - unfold c_unpack. rewrite h1. exact e1.
  - split; [apply (bnd25_le UE UO); [lia | lia | exact e2]|].
    destruct (p_unpack_val s hs) as [k hk]. rewrite e3, hk, of_Z_plus_pk. reflexivity.
Qed.

(** The serialisation performs the operations of the Go code in the same order. *)
Lemma p_pack_bytes x : map (get (wrun (limbs_of x) (cbody p_pack))) (couts p_pack) = fst (g25_bytes x).
Proof.
  destruct x. unfold limbs_of.
  match goal with |- ?l = ?r => let y := eval cbv [map get wrun weval nth app cbody couts p_pack op] in l in change (y = r);
    let z := eval cbv [g25_bytes fst] in r in change (y = z) end.
  reflexivity.
Qed.

Lemma c_pack_ok n x f : rel25 n x f -> n <= 3 -> c_pack x = Some (le_bytes 32 (fval f)).
Proof.
  intros hx hn. pose proof (rel_iv n 3 x f hx hn) as ha.
  destruct (check_sound p_pack _ ivb _ ha) as (h1 & h2 & _); [vm_compute; reflexivity|].
  unfold c_pack. rewrite h1, h2, p_pack_bytes. destruct hx as [hb hv].
  destruct (g25_bytes_ok x) as [e _]. { apply (bnd25_U n 3 _ _ _ hb hn); vm_compute; discriminate. }
  rewrite e, <- hv, fval_of_Z, <- P25519_p. reflexivity.
Qed.
