(** The programs of GoCodecCode.v compute the functions of CurveModel.v. *)
From Coq Require Import ZArith List String Lia.
From Verif Require Import Words ScalarCode FieldModel CurveModel RistrettoModel GoLang GoLangFacts GoCurveCode GoViews GoCurveFacts GoCodecCode.
Import ListNotations.
Open Scope Z_scope.
Strategy 2000 [final exec].

Ltac red_codec :=
  cbv beta iota delta [runk prog fold_right vals map fst snd ixval GoLang.upd upds seq setk Nat.eqb Nat.add Nat.sub Nat.mul Nat.div2 andb rho0
    elt off lo fo0 fo1 fo2 foc foc0 ido io1 io2 iot sbo bio fe_at int_at ext_at compl_at proj_at niels_at jac_at].
Ltac unlet := match goal with |- LetIn ?a ?f = _ => change (f a = _) end; cbv beta.

Section Facts.
Context (K : FeOps).
Notation V := (fe K * Z)%type.
Notation FIN := (final (E:=Empty_set) nosub (fun a => a)).
Notation P n := ((n%nat, C 0) : place V).

Ltac link v := rewrite <- (runk_ok (E:=Empty_set) nosub _ _ _ v); red_codec; reflexivity.

Lemma link_ep_RistrettoEqualsI nu : int_at K (FIN rho0 (g_ep_RistrettoEqualsI K (P 0) (P 1) (P 2) 3 0) nu 2%nat) 0 =
  ep_RistrettoEqualsI K (ext_at K (nu 0%nat) 0) (ext_at K (nu 1%nat) 0).
Proof. unfold g_ep_RistrettoEqualsI, ep_RistrettoEqualsI. link (fun m : mem V => int_at K (m 2%nat) 0). Qed.

Lemma link_cp_SetJacobiQuartic nu : compl_at K (FIN rho0 (g_cp_SetJacobiQuartic K (P 0) (P 1) 2 0) nu 0%nat) 0 =
  cp_SetJacobiQuartic K (jac_at K (nu 1%nat) 0).
Proof. unfold g_cp_SetJacobiQuartic, cp_SetJacobiQuartic. link (fun m : mem V => compl_at K (m 0%nat) 0). Qed.

(** InvSqrt as called below *)
Lemma inv_5_5_17 nu : fe_at K (FIN rho0 (g_fe_InvSqrt K (lo K 3 2) (lo K 3 2) (15 + 2) (0 + 0)) nu 5%nat) 0 = fe_InvSqrt K (fe_at K (nu 5%nat) 0).
Proof. unfold g_fe_InvSqrt, fe_InvSqrt, g_fe_Exp22523, fe_Exp22523, go_for. link (fun m : mem V => fe_at K (m 5%nat) 0). Qed.

Lemma ints32 (c : nat -> V) l : List.length l = 32%nat -> (forall i, (i < 32)%nat -> snd (c i) = nth i l 0) -> ints K c 32 = l.
Proof.
  intros hl h. unfold ints. apply nth_ext with 0 0; [rewrite map_length, seq_length; symmetry; exact hl|].
  rewrite map_length, seq_length. intros i hi. rewrite <- (h i hi).
  rewrite nth_indep with (d' := snd (c 0%nat)) by (rewrite map_length, seq_length; exact hi).
  rewrite (map_nth (fun i => snd (c i))). rewrite seq_nth by exact hi. reflexivity.
Qed.

Lemma link_ep_RistrettoInto nu : (forall x, List.length (fst (o_bytes K x)) = 32%nat) ->
  ints K (FIN rho0 (g_ep_RistrettoInto K (P 0) (P 1) 2 0) nu 1%nat) 32 = ep_RistrettoInto K (ext_at K (nu 0%nat) 0).
Proof.
  intro len. unfold g_ep_RistrettoInto. rewrite (final_split nosub 7). cbn [firstn skipn].
  set (m1 := FIN rho0 (prog [ _; _; _; _; _; _; _]) nu).
  assert (h1 : (fe_at K (m1 3%nat) 0, fe_at K (m1 4%nat) 0, fe_at K (m1 5%nat) 0, ext_at K (m1 0%nat) 0) =
    (let X := eX (ext_at K (nu 0%nat) 0) in let Y := eY (ext_at K (nu 0%nat) 0) in let Z := eZ (ext_at K (nu 0%nat) 0) in
     let d := o_add K Z Y in let u1 := o_mul K (o_sub K Z Y) d in let u2 := o_mul K X Y in
     (u1, u2, o_mul K (o_square K u2) u1, ext_at K (nu 0%nat) 0))).
  { unfold m1. link (fun m : mem V => (fe_at K (m 3%nat) 0, fe_at K (m 4%nat) 0, fe_at K (m 5%nat) 0, ext_at K (m 0%nat) 0)). }
  clearbody m1. cbv zeta in h1. rewrite final_cons. pose proof (inv_5_5_17 m1) as h2. set (m2 := FIN rho0 (g_fe_InvSqrt K _ _ _ _) m1) in *.
  assert (h3 : m2 3%nat 0%nat = m1 3%nat 0%nat /\ m2 4%nat 0%nat = m1 4%nat 0%nat /\ forall i, m2 0%nat i = m1 0%nat i).
  { unfold m2. split; [|split]; [| |intro i]; apply frame_name; reflexivity. }
  clearbody m2. destruct h3 as (ha & hb & hc).
  remember (ext_at K (nu 0%nat) 0) as q eqn:eq. clear eq. destruct q as [X Y Z T]. unfold fe_at, ext_at in h1, h2. rewrite <- ha, <- hb, <- !hc in h1.
  rewrite <- (runk_ok (E:=Empty_set) nosub _ _ _ (fun m : mem V => ints K (m 1%nat) 32)).
  unfold ep_RistrettoInto. cbn [eX eY eZ eT] in *.
  injection h1 as e1 e2 e3 e4 e5 e6 e7. rewrite e3 in h2.
  red_codec. cbv beta zeta delta [LetIn]. cbn [Nat.add] in *.
  destruct (m2 0%nat 0%nat), (m2 0%nat 1%nat), (m2 0%nat 2%nat), (m2 0%nat 3%nat), (m2 3%nat 0%nat), (m2 4%nat 0%nat), (m2 5%nat 0%nat).
  cbn [fst] in *. subst.
  repeat match goal with |- context [fe_IsNegativeI K ?t] => destruct (fe_IsNegativeI K t) end.
  match goal with |- context [o_bytes K ?t] => pose proof (len t) as hl; destruct (o_bytes K t) as [bs y] end. cbn [fst] in hl.
  do 32 (destruct bs as [|? bs]; [discriminate hl|]). destruct bs; [|discriminate hl]. reflexivity.
Qed.

Lemma inv_10_13_22 nu : fe_at K (FIN rho0 (g_fe_InvSqrt K (lo K 7 3) (lo K 10 3) (19 + 3) (0 + 0)) nu 10%nat) 0 = fe_InvSqrt K (fe_at K (nu 13%nat) 0).
Proof. unfold g_fe_InvSqrt, fe_InvSqrt, g_fe_Exp22523, fe_Exp22523, go_for. link (fun m : mem V => fe_at K (m 10%nat) 0). Qed.

Lemma dec_1 nu : (forall x, List.length (fst (o_bytes K x)) = 32%nat) ->
  let m1 := FIN rho0 (prog [
    ido K (fun _ _ => 0) (lo K 11 3) []; ido K (fun _ _ => 0) (lo K 12 3) []; sbo K (lo K 0 3) (P 1); bio K (lo K 0 3) (lo K 13 3);
    g_ConstantTimeCompare K (P 1) (lo K 13 3) (lo K 14 3) (19 + 3)%nat (0 + 0)%nat]) nu in
  (fe_at K (m1 3%nat) 0, int_at K (m1 16%nat) 0, int_at K (m1 17%nat) 0) =
   (let buf := ints K (nu 1%nat) 32 in
    let '(buf2, s) := o_bytes K (o_setBytes K buf) in (s, at_ buf2 0, ct_compare buf buf2)).
Proof.
  intro len. cbv zeta. unfold g_ConstantTimeCompare.
  rewrite <- (runk_ok (E:=Empty_set) nosub _ _ _ (fun m1 : mem V => (fe_at K (m1 3%nat) 0, int_at K (m1 16%nat) 0, int_at K (m1 17%nat) 0))).
  red_codec. cbv beta zeta iota delta [LetIn]. unfold ints. cbv beta iota delta [map seq snd].
  match goal with |- context [o_bytes K ?t] => pose proof (len t) as hl; destruct (o_bytes K t) as [bs y] end. cbn [fst] in hl.
  do 32 (destruct bs as [|? bs]; [discriminate hl|]). destruct bs; [|discriminate hl].
  cbv beta iota delta [ct_compare List.length Nat.eqb combine fold_left fst snd at_ nth]. reflexivity.
Qed.

Lemma link_ep_SetRistretto nu : (forall x, List.length (fst (o_bytes K x)) = 32%nat) ->
  let m := FIN rho0 (g_ep_SetRistretto K (P 0) (P 1) (P 2) 3 0) nu in
  (int_at K (m 2%nat) 0 =? 1, ext_at K (m 0%nat) 0) = ep_SetRistretto K (ints K (nu 1%nat) 32).
Proof.
  intros len. cbv zeta. unfold g_ep_SetRistretto. rewrite (final_split nosub 5). cbn [firstn skipn].
  pose proof (dec_1 nu len) as h0. cbv zeta in h0. set (m0 := FIN rho0 (prog [ _; _; _; _; _]) nu) in *. clearbody m0.
  unfold ep_SetRistretto. revert h0. destruct (o_bytes K (o_setBytes K (ints K (nu 1%nat) 32))) as [buf2 s].
  generalize (ct_compare (ints K (nu 1%nat) 32) buf2) (at_ buf2 0). intros cmp b0 h0.
  rewrite (final_split nosub 11). cbn [firstn skipn].
  set (m1 := FIN rho0 (prog [ _; _; _; _; _; _; _; _; _; _; _]) m0).
  assert (h1 : (fe_at K (m1 3%nat) 0, fe_at K (m1 6%nat) 0, fe_at K (m1 7%nat) 0, fe_at K (m1 9%nat) 0, fe_at K (m1 13%nat) 0, int_at K (m1 15%nat) 0) =
    (let '(s, b0, cmp) := (fe_at K (m0 3%nat) 0, int_at K (m0 16%nat) 0, int_at K (m0 17%nat) 0) in
     let ret := i32 (1 - cmp) in
     let ret := Z.lor ret (Z.land b0 1) in
     let s2 := o_square K s in
     let yDen := o_add K (k_one K) s2 in
     let yNum := o_sub K (k_one K) s2 in
     let yDen2 := o_square K yDen in
     let xDen2 := o_neg K (o_add K (o_mul K (o_square K yNum) (k_D K)) yDen2) in
     (s, yDen, yNum, xDen2, o_mul K xDen2 yDen2, ret))).
  { unfold m1. link (fun m1 : mem V => (fe_at K (m1 3%nat) 0, fe_at K (m1 6%nat) 0, fe_at K (m1 7%nat) 0, fe_at K (m1 9%nat) 0, fe_at K (m1 13%nat) 0, int_at K (m1 15%nat) 0)). }
  clearbody m1. rewrite h0 in h1. clear h0 m0. revert h1. cbv zeta.
  generalize (Z.lor (i32 (1 - cmp)) (Z.land b0 1)). intros ret h1.
  rewrite final_cons. pose proof (inv_10_13_22 m1) as h2. set (m2 := FIN rho0 (g_fe_InvSqrt K _ _ _ _) m1) in *.
  assert (h3 : m2 3%nat 0%nat = m1 3%nat 0%nat /\ m2 6%nat 0%nat = m1 6%nat 0%nat /\ m2 7%nat 0%nat = m1 7%nat 0%nat /\ m2 9%nat 0%nat = m1 9%nat 0%nat /\ 
    m2 13%nat 0%nat = m1 13%nat 0%nat /\ m2 15%nat 0%nat = m1 15%nat 0%nat).
  { unfold m2. refine (conj _ (conj _ (conj _ (conj _ (conj _ _))))); apply frame_name; reflexivity. }
  clearbody m2. destruct h3 as (ha & hb & hc & hd & he & hf).
  unfold fe_at, int_at in h1, h2. rewrite <- ha, <- hb, <- hc, <- hd, <- he, <- hf in h1. rewrite <- he in h2. clear ha hb hc hd he hf.
  rewrite (final_split nosub 13). cbn [firstn skipn].
  set (m3 := FIN rho0 (prog [ _; _; _; _; _; _; _; _; _; _; _; _; _]) m2).
  assert (h4 : (fe_at K (m3 0%nat) 0, fe_at K (m3 7%nat) 0, fe_at K (m3 12%nat) 0, int_at K (m3 15%nat) 0) =
    (let '(s, yDen, yNum, xDen2, t, ret) := (fst (m2 3%nat 0%nat), fst (m2 6%nat 0%nat), fst (m2 7%nat 0%nat), fst (m2 9%nat 0%nat), fst (m2 13%nat 0%nat), snd (m2 15%nat 0%nat)) in
     let isr := fst (m2 10%nat 0%nat) in
     let chk := o_square K isr in
     let chk := o_mul K chk t in
     let ret := Z.lor ret (i32 (1 - fe_IsOneI K chk)) in
     let xDenInv := o_mul K isr yDen in
     let yDenInv := o_mul K xDenInv isr in
     let yDenInv := o_mul K yDenInv xDen2 in
     let X := o_mul K s xDenInv in
     let X := o_add K X X in
     let bX := fe_IsNegativeI K X in
     let t := o_neg K (snd bX) in
     let X := o_condSet K (snd bX) t (fst bX) in
     (X, yNum, yDenInv, ret))).
  { unfold m3. rewrite <- (runk_ok (E:=Empty_set) nosub _ _ _ (fun m1 : mem V => (fe_at K (m1 0%nat) 0, fe_at K (m1 7%nat) 0, fe_at K (m1 12%nat) 0, int_at K (m1 15%nat) 0))).
    red_codec. cbv beta zeta delta [LetIn].
    destruct (m2 3%nat 0%nat), (m2 6%nat 0%nat), (m2 7%nat 0%nat), (m2 9%nat 0%nat), (m2 13%nat 0%nat), (m2 15%nat 0%nat), (m2 10%nat 0%nat).
    cbv beta iota delta [fst snd].
    match goal with |- context [fe_IsNegativeI K ?t] => destruct (fe_IsNegativeI K t) end. reflexivity. }
  clearbody m3. rewrite h1, h2 in h4. injection h1 as _ _ _ _ e5 _. rewrite e5 in h4. clear h2 e5 m2 m1.
  revert h4. cbv zeta beta iota. 
  set (isr := fe_InvSqrt K _). clearbody isr.
  match goal with |- context [fe_IsNegativeI K ?t] => destruct (fe_IsNegativeI K t) as [b X] end. cbn [fst snd].
  match goal with |- context [(o_condSet K ?a ?b ?c, _, ?d, ?e)] => generalize (o_condSet K a b c) d e end.
  match goal with |- context [o_sub K ?a ?b] => generalize (o_sub K a b) end.
  clear. intros yNum X yDenInv ret h4.
  rewrite <- (runk_ok (E:=Empty_set) nosub _ _ _ (fun m : mem V => (int_at K (m 2%nat) 0 =? 1, ext_at K (m 0%nat) 0))).
  red_codec. cbv beta zeta delta [LetIn]. revert h4. unfold fe_at, int_at.
  destruct (m3 0%nat 0%nat), (m3 7%nat 0%nat), (m3 12%nat 0%nat), (m3 15%nat 0%nat). cbn [fst snd]. intro h4.
  injection h4 as -> -> -> ->.
  match goal with |- context [fe_IsNegativeI K ?t] => destruct (fe_IsNegativeI K t) end.
  match goal with |- context [fe_IsNonZeroI K ?t] => destruct (fe_IsNonZeroI K t) end.
  cbv beta iota. match goal with |- context [if ?x =? 0 then 1 else 0] => destruct (x =? 0) end; reflexivity.
Qed.

Lemma invI_ nu : let m := FIN rho0 (g_fe_InvSqrtI K (lo K 6 2) (lo K 5 2) (lo K 14 2) (19 + 2) (0 + 0)) nu in
  (int_at K (m 16%nat) 0, fe_at K (m 8%nat) 0) = fe_InvSqrtI K (fe_at K (nu 7%nat) 0).
Proof. cbv zeta. unfold g_fe_InvSqrtI, fe_InvSqrtI, g_fe_Exp22523, fe_Exp22523, go_for. link (fun m : mem V => (int_at K (m 16%nat) 0, fe_at K (m 8%nat) 0)). Qed.

Lemma link_cp_SetRistrettoElligator2 nu : compl_at K (FIN rho0 (g_cp_SetRistrettoElligator2 K (P 0) (P 1) 2 0) nu 0%nat) 0 =
  cp_SetRistrettoElligator2 K (fe_at K (nu 1%nat) 0).
Proof.
  unfold g_cp_SetRistrettoElligator2. rewrite (final_split nosub 11). cbn [firstn skipn].
  set (m1 := FIN rho0 (prog [ _; _; _; _; _; _; _; _; _; _; _]) nu).
  assert (h1 : (fe_at K (m1 12%nat) 0, fe_at K (m1 2%nat) 0, fe_at K (m1 6%nat) 0, fe_at K (m1 7%nat) 0) =
    (let r0 := fe_at K (nu 1%nat) 0 in
     let r0i := o_mul K r0 (k_I K) in
     let r := o_mul K r0 r0i in
     let N := o_mul K (k_oneMinusDSquared K) (o_add K r (k_one K)) in
     (r0i, r, N, o_mul K N (o_neg K (o_mul K (o_add K (o_mul K (k_D K) r) (k_one K)) (o_add K (k_D K) r)))))).
  { unfold m1. link (fun m1 : mem V => (fe_at K (m1 12%nat) 0, fe_at K (m1 2%nat) 0, fe_at K (m1 6%nat) 0, fe_at K (m1 7%nat) 0)). }
  clearbody m1. cbv zeta in h1. rewrite final_cons. pose proof (invI_ m1) as h2. cbv zeta in h2.
  set (m2 := FIN rho0 (g_fe_InvSqrtI K _ _ _ _ _) m1) in *.
  assert (h3 : m2 12%nat 0%nat = m1 12%nat 0%nat /\ m2 2%nat 0%nat = m1 2%nat 0%nat /\ m2 6%nat 0%nat = m1 6%nat 0%nat).
  { unfold m2. refine (conj _ (conj _ _)); apply frame_name; reflexivity. }
  clearbody m2. destruct h3 as (ha & hb & hc). unfold fe_at, int_at in h1, h2. rewrite <- ha, <- hb, <- hc in h1. clear ha hb hc.
  unfold cp_SetRistrettoElligator2. fold (fe_at K (nu 1%nat) 0) in h1. cbv zeta.
  revert h1. generalize (fe_at K (nu 1%nat) 0). intros r0. generalize (o_mul K r0 (k_I K)). intro r0i. generalize (o_mul K r0 r0i). intro r.
  match goal with |- context [o_mul K (k_oneMinusDSquared K) ?t] => generalize (o_mul K (k_oneMinusDSquared K) t) end. intro N.
  match goal with |- context [o_mul K N ?t] => generalize (o_mul K N t) end. intros ND h1.
  injection h1 as e1 e2 e3 e4. rewrite e4 in h2. destruct (fe_InvSqrtI K ND) as [b sq].
  clear e4 m1. unfold g_fe_Abs, fe_Abs_self, g_cp_SetJacobiQuartic, cp_SetJacobiQuartic.
  rewrite <- (runk_ok (E:=Empty_set) nosub _ _ _ (fun m : mem V => compl_at K (m 0%nat) 0)).
  red_codec. cbv beta zeta delta [LetIn]. revert h2 e1 e2 e3.
  destruct (m2 16%nat 0%nat), (m2 8%nat 0%nat), (m2 12%nat 0%nat), (m2 2%nat 0%nat), (m2 6%nat 0%nat). cbv beta iota delta [fst snd].
  intro h2. injection h2 as -> ->. intros -> -> ->.
  match goal with |- context [fe_IsNegativeI K sq] => destruct (fe_IsNegativeI K sq) end. cbv beta iota.
  match goal with |- context [fe_IsNegativeI K ?t] => destruct (fe_IsNegativeI K t) end. reflexivity.
Qed.

Lemma invI__in nu : let m := FIN rho0 (g_fe_InvSqrtI K (lo K 6 4) (lo K 5 4) (lo K 14 4) (19 + 4) (0 + 0)) nu in
  (int_at K (m 18%nat) 0, fe_at K (m 10%nat) 0) = fe_InvSqrtI K (fe_at K (nu 9%nat) 0).
Proof. cbv zeta. unfold g_fe_InvSqrtI, fe_InvSqrtI, g_fe_Exp22523, fe_Exp22523, go_for. link (fun m : mem V => (int_at K (m 18%nat) 0, fe_at K (m 10%nat) 0)). Qed.

Lemma link_cp_SetRistrettoElligator2_in nu : compl_at K (FIN rho0 (g_cp_SetRistrettoElligator2 K (lo K 1 2) (lo K 0 2) 4 0) nu 3%nat) 0 =
  cp_SetRistrettoElligator2 K (fe_at K (nu 2%nat) 0).
Proof.
  unfold g_cp_SetRistrettoElligator2. rewrite (final_split nosub 11). cbn [firstn skipn].
  set (m1 := FIN rho0 (prog [ _; _; _; _; _; _; _; _; _; _; _]) nu).
  assert (h1 : (fe_at K (m1 14%nat) 0, fe_at K (m1 4%nat) 0, fe_at K (m1 8%nat) 0, fe_at K (m1 9%nat) 0) =
    (let r0 := fe_at K (nu 2%nat) 0 in
     let r0i := o_mul K r0 (k_I K) in
     let r := o_mul K r0 r0i in
     let N := o_mul K (k_oneMinusDSquared K) (o_add K r (k_one K)) in
     (r0i, r, N, o_mul K N (o_neg K (o_mul K (o_add K (o_mul K (k_D K) r) (k_one K)) (o_add K (k_D K) r)))))).
  { unfold m1. link (fun m1 : mem V => (fe_at K (m1 14%nat) 0, fe_at K (m1 4%nat) 0, fe_at K (m1 8%nat) 0, fe_at K (m1 9%nat) 0)). }
  clearbody m1. cbv zeta in h1. rewrite final_cons. pose proof (invI__in m1) as h2. cbv zeta in h2.
  set (m2 := FIN rho0 (g_fe_InvSqrtI K _ _ _ _ _) m1) in *.
  assert (h3 : m2 14%nat 0%nat = m1 14%nat 0%nat /\ m2 4%nat 0%nat = m1 4%nat 0%nat /\ m2 8%nat 0%nat = m1 8%nat 0%nat).
  { unfold m2. refine (conj _ (conj _ _)); apply frame_name; reflexivity. }
  clearbody m2. destruct h3 as (ha & hb & hc). unfold fe_at, int_at in h1, h2. rewrite <- ha, <- hb, <- hc in h1. clear ha hb hc.
  unfold cp_SetRistrettoElligator2. fold (fe_at K (nu 2%nat) 0) in h1. cbv zeta.
  revert h1. generalize (fe_at K (nu 2%nat) 0). intros r0. generalize (o_mul K r0 (k_I K)). intro r0i. generalize (o_mul K r0 r0i). intro r.
  match goal with |- context [o_mul K (k_oneMinusDSquared K) ?t] => generalize (o_mul K (k_oneMinusDSquared K) t) end. intro N.
  match goal with |- context [o_mul K N ?t] => generalize (o_mul K N t) end. intros ND h1.
  injection h1 as e1 e2 e3 e4. rewrite e4 in h2. destruct (fe_InvSqrtI K ND) as [b sq].
  clear e4 m1. unfold g_fe_Abs, fe_Abs_self, g_cp_SetJacobiQuartic, cp_SetJacobiQuartic.
  rewrite <- (runk_ok (E:=Empty_set) nosub _ _ _ (fun m : mem V => compl_at K (m 3%nat) 0)).
  red_codec. cbv beta zeta delta [LetIn]. revert h2 e1 e2 e3.
  destruct (m2 18%nat 0%nat), (m2 10%nat 0%nat), (m2 14%nat 0%nat), (m2 4%nat 0%nat), (m2 8%nat 0%nat). cbv beta iota delta [fst snd].
  intro h2. injection h2 as -> ->. intros -> -> ->.
  match goal with |- context [fe_IsNegativeI K sq] => destruct (fe_IsNegativeI K sq) end. cbv beta iota.
  match goal with |- context [fe_IsNegativeI K ?t] => destruct (fe_IsNegativeI K t) end. reflexivity.
Qed.


Lemma link_pt_SetElligator nu : ext_at K (FIN rho0 (g_pt_SetElligator K (P 0) (P 1) 2 0) nu 0%nat) 0 = pt_SetElligator K (ints K (nu 1%nat) 32).
Proof.
  unfold g_pt_SetElligator. rewrite final_cons.
  set (m1 := FIN rho0 (sbo K _ _) nu).
  assert (h1 : fe_at K (m1 2%nat) 0 = o_setBytes K (ints K (nu 1%nat) 32)).
  { unfold m1. link (fun m : mem V => fe_at K (m 2%nat) 0). }
  clearbody m1. rewrite final_cons. pose proof (link_cp_SetRistrettoElligator2_in m1) as h2.
  change (2 + 2)%nat with 4%nat. change (0 + 0)%nat with 0%nat.
  set (m2 := FIN rho0 (g_cp_SetRistrettoElligator2 K _ _ _ _) m1) in *. clearbody m2. rewrite h1 in h2.
  unfold pt_SetElligator. rewrite <- h2. unfold g_ep_SetCompleted, ep_SetCompleted. link (fun m : mem V => ext_at K (m 0%nat) 0).
Qed.

(** InvSqrt as called by ToJacobiQuarticRistretto; all calls below start at local [2] *)
Lemma inv_9_9_22 nu : fe_at K (FIN rho0 (g_fe_InvSqrt K (lo K 7 2) (lo K 7 2) (20 + 2) (0 + 0)) nu 9%nat) 0 = fe_InvSqrt K (fe_at K (nu 9%nat) 0).
Proof. unfold g_fe_InvSqrt, fe_InvSqrt, g_fe_Exp22523, fe_Exp22523, go_for. link (fun m : mem V => fe_at K (m 9%nat) 0). Qed.

Lemma link_ep_ToJacobiQuarticRistretto nu : let m := FIN rho0 (g_ep_ToJacobiQuarticRistretto K (P 0) (P 1) 2 0) nu in
  ([jac_at K (m 1%nat) 0; jac_at K (m 1%nat) 2; jac_at K (m 1%nat) 4; jac_at K (m 1%nat) 6], ext_at K (m 0%nat) 0) =
  ep_ToJacobiQuarticRistretto K (ext_at K (nu 0%nat) 0).
Proof.
  cbv zeta. unfold g_ep_ToJacobiQuarticRistretto. rewrite (final_split nosub 9). cbn [firstn skipn].
  set (m1 := FIN rho0 (prog [ _; _; _; _; _; _; _; _; _]) nu).
  assert (h1 : (fe_at K (m1 3%nat) 0, fe_at K (m1 6%nat) 0, fe_at K (m1 7%nat) 0, fe_at K (m1 8%nat) 0, fe_at K (m1 9%nat) 0, ext_at K (m1 0%nat) 0) =
    (let p := ext_at K (nu 0%nat) 0 in
     let Y2 := o_square K (eY p) in
     let d := o_sub K (o_square K (eZ p)) Y2 in
     (Y2, o_sub K (eZ p) (eY p), o_add K (eZ p) (eY p), d, o_mul K (o_mul K (o_square K Y2) (o_square K (eX p))) d, p))).
  { unfold m1. link (fun m1 : mem V => (fe_at K (m1 3%nat) 0, fe_at K (m1 6%nat) 0, fe_at K (m1 7%nat) 0, fe_at K (m1 8%nat) 0, fe_at K (m1 9%nat) 0, ext_at K (m1 0%nat) 0)). }
  clearbody m1. cbv zeta in h1. rewrite final_cons. pose proof (inv_9_9_22 m1) as h2. set (m2 := FIN rho0 (g_fe_InvSqrt K _ _ _ _) m1) in *.
  assert (h3 : m2 3%nat 0%nat = m1 3%nat 0%nat /\ m2 6%nat 0%nat = m1 6%nat 0%nat /\ m2 7%nat 0%nat = m1 7%nat 0%nat /\ m2 8%nat 0%nat = m1 8%nat 0%nat /\ forall i, m2 0%nat i = m1 0%nat i).
  { unfold m2. refine (conj _ (conj _ (conj _ (conj _ _)))); [| | | |intro i]; apply frame_name; reflexivity. }
  clearbody m2. destruct h3 as (ha & hb & hc & hd & he).
  remember (ext_at K (nu 0%nat) 0) as q eqn:eq. clear eq. destruct q as [X Y Z T]. unfold fe_at, ext_at in h1, h2. rewrite <- ha, <- hb, <- hc, <- hd, <- !he in h1. clear ha hb hc hd he.
  unfold ep_ToJacobiQuarticRistretto. cbn [eX eY eZ eT Nat.add] in *. cbv zeta.
  revert h1. match goal with |- context [o_square K Y] => generalize (o_square K Y) end. intro Y2.
  match goal with |- context [o_sub K ?a Y2] => generalize (o_sub K a Y2) end. intro d.
  match goal with |- context [o_mul K ?a d] => generalize (o_mul K a d) end. intro g.
  generalize (o_sub K Z Y) (o_add K Z Y). intros zm zp h1. injection h1 as e1 e2 e3 e4 e5 e6 e7 e8 e9.
  rewrite e5 in h2. revert h2. generalize (fe_InvSqrt K g). intros gam h2. clear e5 m1 g.
  match goal with |- context [FIN rho0 ?P m2] => rewrite <- (runk_ok (E:=Empty_set) nosub P rho0 m2 (fun m : mem V => ([jac_at K (m 1%nat) 0; jac_at K (m 1%nat) 2; jac_at K (m 1%nat) 4; jac_at K (m 1%nat) 6], ext_at K (m 0%nat) 0))) end.
  red_codec. cbv beta zeta delta [LetIn]. revert h2 e1 e2 e3 e4 e6 e7 e8 e9.
  destruct (m2 0%nat 0%nat), (m2 0%nat 1%nat), (m2 0%nat 2%nat), (m2 0%nat 3%nat), (m2 3%nat 0%nat), (m2 6%nat 0%nat), (m2 7%nat 0%nat), (m2 8%nat 0%nat), (m2 9%nat 0%nat).
  cbv beta iota delta [fst snd]. intros -> -> -> -> -> -> -> -> ->.
  destruct (fe_IsNonZeroI K X), (fe_IsNonZeroI K Y). reflexivity.
Qed.
End Facts.
