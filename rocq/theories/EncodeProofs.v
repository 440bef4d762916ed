(** Ristretto encoding, decoding and equality (curve.go) over any lawful field backend. *)
From Coq Require Import ZArith List Lia Bool Ring Field.
From Verif Require Import Words FieldModel CurveModel BitFold Primes Fp Edwards GroupOrder RistrettoSpec FieldLaws CurveProofs.
Import ListNotations.
Open Scope Z_scope.

(** ** Field-level arguments *)
Section Math.
Open Scope F_scope.

Definition dec_v (s : F) : F := - (Fd * ((F1 - s * s) * (F1 - s * s)) + (F1 + s * s) * (F1 + s * s)).

(** the decoded coordinates, given isr = 1/sqrt(v u^2) *)
Lemma dec_sound s isr v : v = dec_v s ->
  isr * isr * (v * ((F1 + s * s) * (F1 + s * s))) = F1 ->
  let u := F1 + s * s in
  let X := Fabs (s * (isr * u) + s * (isr * u)) in
  let Y := (F1 - s * s) * (isr * u * isr * v) in
  on_curve X Y /\ Y * (F1 + s * s) = F1 - s * s.
Proof.
  intros Hv H u X Y.
  assert (Hu : isr * u * isr * v * u = F1) by (rewrite <- H; unfold u; ring).
  assert (HY : Y * u = F1 - s * s).
  { unfold Y. transitivity ((F1 - s * s) * (isr * u * isr * v * u)); [ring|]. rewrite Hu. ring. }
  split; [|exact HY].
  assert (HX : X * X = #4 * (s * s) * (isr * u * (isr * u))).
  { unfold X. rewrite Fabs_sq. ring. }
  assert (Nu : u * u <> F0).
  { intro h. apply F1_neq_0. rewrite <- H. transitivity (isr * isr * v * (u * u)); [unfold u; ring|]. rewrite h. ring. }
  unfold on_curve. apply (Fmul_cancel_l (u * u) _ _ Nu).
  transitivity ((Y * u) * (Y * u) - u * u * (X * X)); [ring|].
  transitivity (u * u + Fd * (X * X) * ((Y * u) * (Y * u))); [|ring].
  rewrite HY, HX.
  apply Fsub_0.
  transitivity ((F1 - s * s) * (F1 - s * s) - u * u + #4 * (s * s) * (isr * u * (isr * u)) * dec_v s);
    [unfold dec_v, u; ring|].
  rewrite <- Hv. transitivity ((F1 - s * s) * (F1 - s * s) - u * u + #4 * (s * s) * (isr * isr * (v * ((F1 + s * s) * (F1 + s * s)))));
    [unfold u; ring|]. rewrite H. unfold u. ring.
Qed.

(** the x-coordinate of a decodable s *)
Lemma dec_x s P : ey P * (F1 + s * s) = F1 - s * s -> ex P * ex P * dec_v s = #4 * (s * s).
Proof.
  intros B. pose proof (E_on P) as O. unfold on_curve in O.
  set (x := ex P) in *. set (y := ey P) in *. set (u := F1 + s * s) in *.
  apply Fsub_0. unfold dec_v. fold u. rewrite <- B.
  transitivity (u * u * (y * y - x * x - (F1 + Fd * (x * x) * (y * y)) + F1 - y * y) - #4 * (s * s)); [ring|].
  rewrite O. transitivity (u * u - (y * u) * (y * u) - #4 * (s * s)); [ring|]. rewrite B. unfold u. ring.
Qed.

Lemma dec_complete s P : ey P * (F1 + s * s) = F1 - s * s ->
  dec_v s * ((F1 + s * s) * (F1 + s * s)) <> F0 /\ is_sq (dec_v s * ((F1 + s * s) * (F1 + s * s))).
Proof.
  intros B. pose proof (s_denom P s B) as U. pose proof (dec_x s P B) as HX.
  assert (V : dec_v s <> F0 /\ is_sq (dec_v s)).
  { destruct (F_dec s F0) as [->|S0].
    - replace (dec_v F0) with (- (Fd + F1)) by (unfold dec_v; ring). split; [|exact mdp1_sq].
      intro h. apply (proj1 (Fopp_0_iff _)) in h. apply dp1_nz. rewrite <- h. ring.
    - assert (N : #4 * (s * s) <> F0).
      { apply Fmul_nz; [|apply Fmul_nz; exact S0]. apply of_Z_neq. vm_compute. reflexivity. }
      assert (NX : ex P <> F0) by (intro h; apply N; rewrite <- HX, h; ring).
      split; [intro h; apply N; rewrite <- HX, h; ring|].
      exists (#2 * s / ex P).
      transitivity (#4 * (s * s) / (ex P * ex P)); [field; exact NX|]. rewrite <- HX. field. exact NX. }
  destruct V as [V1 V2]. split; [apply Fmul_nz; [exact V1 | apply Fmul_nz; exact U]|].
  apply is_sq_mul; [exact V2|]. exists (F1 + s * s). reflexivity.
Qed.

(** the scaled candidate t of the encoding *)
Lemma enc_isr A z : even A -> z <> F0 ->
  let u1 := z * z * (F1 - ey A * ey A) in let u2 := z * z * (ex A * ey A) in
  (ex A * ey A = F0 -> isr_val (u2 * u2 * u1) = F0) /\
  (ex A * ey A <> F0 -> isr_val (u2 * u2 * u1) * isr_val (u2 * u2 * u1) * (u2 * u2 * u1) = F1).
Proof.
  intros HA Hz u1 u2. destruct (isr_val_spec (u2 * u2 * u1)) as (I0 & I1 & _). split; intro H.
  - apply I0. unfold u2. rewrite H. ring.
  - assert (Hx : ex A <> F0) by (intro h; apply H; rewrite h; ring).
    assert (Hy : ey A <> F0) by (intro h; apply H; rewrite h; ring).
    assert (N : F1 - ey A * ey A <> F0).
    { intro h. pose proof (curve_fact A) as C. rewrite h in C.
      assert (D : - (Fd + F1) * (ex A * ex A) * (ey A * ey A) <> F0).
      { repeat apply Fmul_nz; auto. intro q. apply dp1_nz. apply (proj1 (Fopp_0_iff _)). exact q. }
      apply D. rewrite <- C. ring. }
    apply I1.
    + unfold u1, u2. repeat apply Fmul_nz; assumption.
    + apply is_sq_mul; [exists u2; reflexivity|]. apply is_sq_mul; [exists z; reflexivity | apply even_iff, HA].
Qed.

(** s^2 in the two cases *)
Lemma enc_s1 A z isr : z <> F0 ->
  let u1 := z * z * (F1 - ey A * ey A) in let u2 := z * z * (ex A * ey A) in
  isr * isr * (u2 * u2 * u1) = F1 -> forall y, y * y = ey A * ey A ->
  y * (F1 + ((z - y * z) * (isr * u2)) * ((z - y * z) * (isr * u2))) = F1 - ((z - y * z) * (isr * u2)) * ((z - y * z) * (isr * u2)).
Proof.
  intros Hz u1 u2 H y Hy. set (S := (z - y * z) * (isr * u2)).
  assert (N : (F1 - y * y) <> F0).
  { intro h. apply F1_neq_0. rewrite <- H. unfold u1. rewrite <- Hy, h. ring. }
  assert (HS : S * S * (F1 - y * y) = (F1 - y) * (F1 - y)).
  { transitivity ((F1 - y) * (F1 - y) * (isr * isr * (u2 * u2 * u1))); [unfold S, u1; rewrite <- Hy; ring|]. rewrite H. ring. }
  apply Fsub_0. apply (Fmul_cancel_l (F1 - y * y) _ _ N).
  transitivity ((F1 - y * y) * (y - F1) + (F1 + y) * (S * S * (F1 - y * y))); [ring|]. rewrite HS. ring.
Qed.

Lemma enc_s2 A z isr : z <> F0 ->
  let u1 := z * z * (F1 - ey A * ey A) in let u2 := z * z * (ex A * ey A) in
  isr * isr * (u2 * u2 * u1) = F1 -> forall y, y * y = - (ex A * ex A) ->
  let S := (z - y * z) * (Fisdm1 * (isr * u1)) in
  y * (F1 + S * S) = F1 - S * S.
Proof.
  intros Hz u1 u2 H y Hy S. pose proof Fisdm1_sq as I. pose proof (curve_fact A) as C.
  assert (N2 : u2 * u2 <> F0) by (intro h; apply F1_neq_0; rewrite <- H, h; ring).
  assert (Nz : z * z <> F0) by (apply Fmul_nz; exact Hz).
  assert (N : F1 - y * y <> F0).
  { intro h. assert (D : - (Fd + F1) * (ex A * ex A) * (ey A * ey A) = F0).
    { rewrite <- C. replace (F1 + ex A * ex A) with (F1 - y * y) by (rewrite Hy; ring). rewrite h. ring. }
    assert (D2 : (u2 * u2) * - (Fd + F1) = F0).
    { unfold u2. transitivity ((z * z) * (z * z) * (- (Fd + F1) * (ex A * ex A) * (ey A * ey A))); [ring|]. rewrite D. ring. }
    apply Fmul_0 in D2. destruct D2 as [D2|D2]; [exact (N2 D2)|].
    apply F1_neq_0. rewrite <- I, D2. ring. }
  assert (HS : S * S * (F1 - y * y) = (F1 - y) * (F1 - y)).
  { apply (Fmul_cancel_l (u2 * u2) _ _ N2).
    transitivity (z * z * u1 * (F1 - y) * (F1 - y) * (Fisdm1 * Fisdm1) * (isr * isr * (u2 * u2 * u1)) * (F1 - y * y));
      [unfold S; ring|]. rewrite H.
    replace (F1 - y * y) with (F1 + ex A * ex A) by (rewrite Hy; ring).
    transitivity ((z * z) * (z * z) * (F1 - y) * (F1 - y) * (Fisdm1 * Fisdm1) * ((F1 - ey A * ey A) * (F1 + ex A * ex A))).
    { unfold u1. ring. }
    rewrite C.
    transitivity ((z * z) * (z * z) * (F1 - y) * (F1 - y) * (Fisdm1 * Fisdm1 * - (Fd + F1)) * ((ex A * ex A) * (ey A * ey A))); [ring|].
    rewrite I. unfold u2. ring. }
  apply Fsub_0. apply (Fmul_cancel_l (F1 - y * y) _ _ N).
  transitivity ((F1 - y * y) * (y - F1) + (F1 + y) * (S * S * (F1 - y * y))); [ring|]. rewrite HS. ring.
Qed.

(** the value computed by RistrettoInto from z, t = x y z and the inverse root *)
Lemma enc_encodes A z : even A -> z <> F0 ->
  let u1 := z * z * (F1 - ey A * ey A) in let u2 := z * z * (ex A * ey A) in
  let isr := isr_val (u2 * u2 * u1) in
  let zInv := isr * u1 * (isr * u2) * (ex A * ey A * z) in
  let rot := Fneg (zInv * (ex A * ey A * z)) in
  let nx := if rot then Fi * (ey A * z) else ex A * z in
  let ny := if rot then Fi * (ex A * z) else ey A * z in
  let den := if rot then Fisdm1 * (isr * u1) else isr * u2 in
  let ny' := if Fneg (nx * zInv) then - ny else ny in
  encodes (Fabs ((z - ny') * den)) A.
Proof.
  intros HA Hz u1 u2 isr zInv rot nx ny den ny'.
  destruct (enc_isr A z HA Hz) as [I0 I1]. fold u1 u2 in I0, I1. fold isr in I0, I1.
  destruct (F_dec (ex A * ey A) F0) as [D|D].
  - (* the class of the identity *)
    specialize (I0 D).
    assert (E0' : (z - ny') * den = F0) by (unfold den; rewrite I0; destruct rot; ring).
    rewrite E0', Fabs_id by exact Fneg_0. exists E0. split.
    + apply Req_sym. unfold Req. replace (Esub A E0) with A by (unfold Esub; rewrite Eopp_0, Eadd_0_r; reflexivity).
      apply E4_iff. apply Fmul_0, D.
    + unfold canonical_rep. change (ex E0) with F0. change (ey E0) with F1.
      refine (conj Fneg_0 (conj _ (conj Fneg_0 (conj _ F1_neq_0)))); [ring|].
      replace (F0 * F1) with F0 by ring. exact Fneg_0.
  - specialize (I1 D).
    assert (Hx : ex A <> F0) by (intro h; apply D; rewrite h; ring).
    assert (Hy : ey A <> F0) by (intro h; apply D; rewrite h; ring).
    assert (ZI : z * zInv = F1).
    { unfold zInv. rewrite <- I1. unfold u2. ring. }
    assert (ZT : zInv * (ex A * ey A * z) = ex A * ey A).
    { transitivity (ex A * ey A * (z * zInv)); [ring|]. rewrite ZI. ring. }
    unfold encodes.
    assert (R0 : rot = Fneg (ex A * ey A)) by (unfold rot; rewrite ZT; reflexivity). clearbody rot.
    destruct (Fneg (ex A * ey A)) eqn:Erot; subst rot.
    + (* rotated by (i, 0) *)
      assert (NX : nx * zInv = Fi * ey A).
      { unfold nx. transitivity (Fi * ey A * (z * zInv)); [ring|]. rewrite ZI. ring. }
      assert (Hn : ny' = if Fneg (Fi * ey A) then - ny else ny) by (unfold ny'; rewrite NX; reflexivity). clearbody ny'.
      assert (G : forall P y, ex P * ex P = - (ey A * ey A) -> Req P A -> ey P = y -> ny' = y * z -> y * y = - (ex A * ex A) ->
        Fneg (ex P) = false -> ex P * ey P = - (ex A * ey A) ->
        exists P, Req P A /\ canonical_rep (Fabs ((z - ny') * den)) P).
      { intros P y _ RP Py Hny y2 Xn XY. exists P. split; [exact RP|]. unfold canonical_rep.
        refine (conj (Fabs_nonneg _) (conj _ (conj Xn (conj _ _)))).
        - rewrite Fabs_sq, Py, Hny. unfold den. exact (enc_s2 A z isr Hz I1 y y2).
        - rewrite XY, Fneg_opp by exact D. rewrite Erot. reflexivity.
        - rewrite Py. intro h. apply (Fmul_nz _ _ Hx Hx). rewrite <- (Fopp_inv (ex A * ex A)), <- y2, h. ring. }
      assert (Niy : Fi * ey A <> F0) by (apply Fmul_nz; [exact Fi_nz | exact Hy]).
      destruct (Fneg (Fi * ey A)) eqn:En.
      * destruct (add_T4' A) as [X Y].
        apply (G (Eadd A T4') (- (Fi * ex A))).
        -- rewrite X. transitivity ((Fi * Fi) * (ey A * ey A)); [ring|]. rewrite Fi_sq. ring.
        -- apply Req_coset. auto.
        -- exact Y.
        -- rewrite Hn. unfold ny. ring.
        -- transitivity ((Fi * Fi) * (ex A * ex A)); [ring|]. rewrite Fi_sq. ring.
        -- rewrite X, Fneg_opp, En by exact Niy. reflexivity.
        -- rewrite X, Y. transitivity ((Fi * Fi) * (ex A * ey A)); [ring|]. rewrite Fi_sq. ring.
      * destruct (add_T4 A) as [X Y].
        apply (G (Eadd A T4) (Fi * ex A)).
        -- rewrite X. transitivity ((Fi * Fi) * (ey A * ey A)); [ring|]. rewrite Fi_sq. ring.
        -- apply Req_coset. auto.
        -- exact Y.
        -- rewrite Hn. unfold ny. ring.
        -- transitivity ((Fi * Fi) * (ex A * ex A)); [ring|]. rewrite Fi_sq. ring.
        -- rewrite X. exact En.
        -- rewrite X, Y. transitivity ((Fi * Fi) * (ex A * ey A)); [ring|]. rewrite Fi_sq. ring.
    + assert (NX : nx * zInv = ex A).
      { unfold nx. transitivity (ex A * (z * zInv)); [ring|]. rewrite ZI. ring. }
      assert (Hn : ny' = if Fneg (ex A) then - ny else ny) by (unfold ny'; rewrite NX; reflexivity). clearbody ny'.
      assert (G : forall P y, Req P A -> ey P = y -> ny' = y * z -> y * y = ey A * ey A ->
        Fneg (ex P) = false -> ex P * ey P = ex A * ey A ->
        exists P, Req P A /\ canonical_rep (Fabs ((z - ny') * den)) P).
      { intros P y RP Py Hny y2 Xn XY. exists P. split; [exact RP|]. unfold canonical_rep.
        refine (conj (Fabs_nonneg _) (conj _ (conj Xn (conj _ _)))).
        - rewrite Fabs_sq, Py, Hny. unfold den. exact (enc_s1 A z isr Hz I1 y y2).
        - rewrite XY. exact Erot.
        - rewrite Py. intro h. apply (Fmul_nz _ _ Hy Hy). rewrite <- y2, h. ring. }
      destruct (Fneg (ex A)) eqn:En.
      * destruct (add_T2 A) as [X Y].
        apply (G (Eadd A T2) (- ey A)).
        -- apply Req_coset. auto.
        -- exact Y.
        -- rewrite Hn. unfold ny. ring.
        -- ring.
        -- rewrite X, Fneg_opp, En by exact Hx. reflexivity.
        -- rewrite X, Y. ring.
      * apply (G A (ey A)).
        -- apply Req_refl.
        -- reflexivity.
        -- rewrite Hn. reflexivity.
        -- reflexivity.
        -- exact En.
        -- reflexivity.
Qed.

End Math.

(** ** Stepping through the code *)

(** name the next [let]-bound value [x]: [e_x : g_x = ...], [h_x : rel L _ x g_x] *)
Ltac fs L x :=
  lazymatch goal with
  | |- ?P (let x := ?e in @?body x) =>
    let g := fresh "g_" x in let E := fresh "e_" x in let h := fresh "h_" x in
    refine (step_fe L P body e _ _ _ _); [fe_go | intros x g E h; cbv beta]
  end.

(** a boolean-valued integer, [e_x : x = Z.b2z b] *)
Ltac bs x b tac :=
  lazymatch goal with
  | |- ?P (let x := ?e in @?body x) =>
    let E := fresh "e_" x in
    refine (step_b P body e b _ _); [tac | intros x E; cbv beta]
  end.

(** a conditional assignment to a field element, with condition [b] *)
Ltac cs L x b tac :=
  lazymatch goal with
  | |- ?P (let x := ?e in @?body x) =>
    let g := fresh "g_" x in let E := fresh "e_" x in let h := fresh "h_" x in
    refine (step_fe L P body e _ _ _ _);
      [eapply (fe_condSet_r L _ _ _ _ _ _ _ b); [fe_go | fe_go | tac | lia | lia] | intros x g E h; cbv beta]
  end.

(** results in pairs: the next [fe_IsNegativeI] or [fe_IsNonZeroI]; the receiver becomes [v] *)
Ltac ns L v :=
  match goal with
  | |- context [fe_IsNegativeI ?K ?x] =>
    match goal with H : rel _ _ x _ |- _ =>
      let e := fresh "e" in let h := fresh "h_" v in
      destruct (fe_IsNegativeI_ok L _ x _ H ltac:(lia)) as (v & e & h); rewrite e; clear e; cbv beta iota end
  end.
Ltac zs L v :=
  match goal with
  | |- context [fe_IsNonZeroI ?K ?x] =>
    match goal with H : rel _ _ x _ |- _ =>
      let e := fresh "e" in let h := fresh "h_" v in
      destruct (fe_IsNonZeroI_ok L _ x _ H ltac:(lia)) as (v & e & h); rewrite e; clear e; cbv beta iota end
  end.

Section Code.
Context {K : FeOps} (L : FeLaws K).
Local Notation FE := (fe K).

Lemma Feqb_false x y : Feqb x y = false -> x <> y.
Proof. intros h e. rewrite (proj2 (Feqb_eq x y) e) in h. discriminate h. Qed.

Lemma ep_SetRistretto_ok buf : bytes 32 buf ->
  let s := of_Z (le_val buf mod 2 ^ 255) in
  (exists A P, ep_SetRistretto K buf = (true, P) /\ rd L P A /\ canonical_rep s A /\ buf = le_bytes 32 (fval s)) \/
  (ep_SetRistretto K buf = (false, ep_zerovalue K) /\ forall A, canonical_rep s A -> buf <> le_bytes 32 (fval s)).
Proof.
  intros hb s. fe_facts L.
  pose proof (law_setBytes K L buf hb) as hs0. fold s in hs0. clearbody s.
  fe_open (@ep_SetRistretto) (ep_SetRistretto K buf).
  fs L s0. subst g_s0.
  destruct (law_bytes K L 1 s0 s h_s0 ltac:(lia)) as (s1 & e1 & h1). rewrite e1. clear e1. cbv beta iota.
  bs r (negb (if list_eqb_spec buf (le_bytes 32 (fval s)) then true else false))
    ltac:(rewrite ct_compare_ok; [apply i32_1_sub_b2z | apply hb | apply le_bytes_bytes | rewrite le_bytes_length; apply hb]).
  set (bc := if list_eqb_spec _ _ then true else false) in *.
  bs r1 (negb bc || Fneg s)%bool ltac:(rewrite le_bytes_fval_odd, e_r; apply lor_b2z).
  fs L s2. fs L yDen. fs L yNum. fs L yDen2. fs L xDen2a. fs L xDen2b. fs L xDen2c. fs L xDen2. fs L t. fs L isr. fs L chka. fs L chk.
  bs r2 ((negb bc || Fneg s) || negb (Feqb g_chk F1))%bool
    ltac:(rewrite (fe_IsOneI_ok L 1 chk g_chk h_chk) by lia; rewrite i32_1_sub_b2z, e_r1; apply lor_b2z).
  fs L xDenInv. fs L yDenInva. fs L yDenInv. fs L Xa. fs L Xb.
  ns L Xc. fs L nX.
  cs L X (Fneg g_Xb) ltac:(reflexivity).
  fs L Ya.
  fs L Zo.
  fs L Ta. ns L T. 
  bs r3 ((negb bc || Fneg s) || negb (Feqb g_chk F1) || Fneg g_Ta)%bool ltac:(rewrite e_r2; apply lor_b2z).
  zs L Y.
  bs r4 ((negb bc || Fneg s) || negb (Feqb g_chk F1) || Fneg g_Ta || Feqb g_Ya F0)%bool
    ltac:(rewrite i32_1_sub_b2z, negb_involutive, e_r3; apply lor_b2z).
  match type of e_r4 with _ = Z.b2z ?b => set (bad := b) in * end.
  rewrite e_r4.
  rewrite (law_condSet K L _ _ X _ _ _ bad h_X (law_zero K L)) by lia.
  rewrite (law_condSet K L _ _ Y _ _ _ bad h_Y (law_zero K L)) by lia.
  rewrite (law_condSet K L _ _ Zo _ _ _ bad h_Zo (law_zero K L)) by lia.
  rewrite (law_condSet K L _ _ T _ _ _ bad h_T (law_zero K L)) by lia.
  cbv zeta. subst PP. cbv beta.
  set (tt := (dec_v s * ((F1 + s * s) * (F1 + s * s)))%F).
  assert (Et : g_t = tt) by (subst; unfold tt, dec_v; ring).
  assert (Ei : g_isr = isr_val tt) by (rewrite e_isr, Et; reflexivity).
  assert (Ec : g_chk = (isr_val tt * isr_val tt * tt)%F) by (rewrite e_chk, e_chka, Ei, Et; reflexivity).
  assert (EX : g_X = Fabs (s * (isr_val tt * (F1 + s * s)) + s * (isr_val tt * (F1 + s * s)))%F).
  { rewrite e_X, e_nX. fold (Fabs g_Xb). f_equal. rewrite e_Xb, e_Xa, e_xDenInv, Ei, e_yDen, e_s2. reflexivity. }
  assert (EY : g_Ya = ((F1 - s * s) * (isr_val tt * (F1 + s * s) * isr_val tt * dec_v s))%F).
  { rewrite e_Ya, e_yNum, e_yDenInv, e_yDenInva, e_xDenInv, Ei, e_yDen, e_s2.
    assert (g_xDen2 = dec_v s) as -> by (subst; unfold dec_v; ring). reflexivity. }
  destruct (isr_val_spec tt) as (_ & isr1 & _).
  destruct bad eqn:Eb; unfold bad in Eb; [right | left].
  - split; [reflexivity|]. intros A hA hbuf. pose proof hA as (c1 & c2 & c3 & c4 & c5).
    unfold bc in Eb. destruct (list_eqb_spec buf (le_bytes 32 (fval s))) as [_|n]; [|exact (n hbuf)].
    cbn [negb orb] in Eb. rewrite c1 in Eb. cbn [orb] in Eb.
    destruct (dec_complete s A c2) as [t0 tsq]. specialize (isr1 t0 tsq).
    rewrite Ec, isr1, Feqb_refl' in Eb. cbn [negb orb] in Eb.
    destruct (dec_sound s (isr_val tt) (dec_v s) eq_refl isr1) as [on yeq].
    rewrite <- EY in yeq. rewrite <- EY, <- EX in on.
    assert (ey A = g_Ya) as hY.
    { apply (Fmul_cancel_l (F1 + s * s)%F); [exact (s_denom A s c2)|].
      transitivity (ey A * (F1 + s * s))%F; [ring|]. rewrite c2, <- yeq. ring. }
    assert (ex A = g_X) as hX.
    { apply Fnonneg_sq_unique; [exact c3 | rewrite EX; apply Fabs_nonneg |].
      pose proof (dec_x s A c2) as x1.
      pose proof (dec_x s (mkE' g_X g_Ya on) yeq) as x2. cbn [mkE' ex] in x2.
      apply (Fmul_cancel_l (dec_v s)).
      - intro h0. apply t0. unfold tt. rewrite h0. ring.
      - transitivity (ex A * ex A * dec_v s)%F; [ring|]. rewrite x1, <- x2. ring. }
    rewrite e_Ta, <- hX, <- hY, c4 in Eb. cbn [orb] in Eb. apply Feqb_eq in Eb. contradiction.
  - apply orb_false_iff in Eb. destruct Eb as [Eb b4]. apply orb_false_iff in Eb. destruct Eb as [Eb b3].
    apply orb_false_iff in Eb. destruct Eb as [Eb b2]. apply orb_false_iff in Eb. destruct Eb as [b0 b1].
    apply negb_false_iff in b0, b2. apply Feqb_eq in b2. rewrite Ec in b2.
    destruct (dec_sound s (isr_val tt) (dec_v s) eq_refl b2) as [on yeq].
    rewrite <- EY in yeq. rewrite <- EY, <- EX in on.
    exists (mkE' g_X g_Ya on). eexists. split; [reflexivity|]. split; [|split].
    + exists F1. split; [exact F1_neq_0|]. cbn [mkE' ex ey eX eY eZ eT].
      refine (conj _ (conj _ (conj _ _))).
      * eapply rel_eq; [exact h_X | lia | ring].
      * eapply rel_eq; [exact h_Y | lia | ring].
      * eapply rel_eq; [exact h_Zo | lia | exact e_Zo].
      * eapply rel_eq; [exact h_T | lia | rewrite e_Ta; ring].
    + unfold canonical_rep. cbn [mkE' ex ey]. refine (conj b1 (conj yeq (conj _ (conj _ _)))).
      * rewrite EX. apply Fabs_nonneg.
      * rewrite <- e_Ta. exact b3.
      * apply Feqb_false, b4.
    + unfold bc in b0. destruct (list_eqb_spec buf (le_bytes 32 (fval s))); [assumption | discriminate b0].
Qed.

(** [RistrettoInto] writes the encoding of the class of the represented point *)
Lemma ep_RistrettoInto_gen P A n m z : z <> F0 ->
  rel L n (eX P) (ex A * z)%F -> rel L n (eY P) (ey A * z)%F -> rel L m (eZ P) z -> rel L n (eT P) (ex A * ey A * z)%F ->
  m + Z.max (cN L) n <= cL L -> m <= cL L -> m + n <= cL L -> n <= cL L -> m + 1 <= cL L -> m + cN L <= cL L -> even A ->
  exists s, ep_RistrettoInto K P = le_bytes 32 (fval s) /\ encodes s A.
Proof.
  intros hz h1 h2 h3 h4 l1 l2 l3 l4 l5 l6 hA. fe_facts L.
  pose proof (enc_encodes A z hA hz) as HE. cbv zeta in HE.
  fe_open (@ep_RistrettoInto) (ep_RistrettoInto K P).
  fs L d0. fs L u1a. fs L u1. fs L u2. fs L isra. fs L isrb. fs L isr. fs L i1. fs L i2. fs L zInva. fs L zInv.
  fs L d1. fs L nx0. fs L ny0. fs L denInv0.
  ns L d2.
  bs b (negb (Fneg g_d1)) ltac:(apply i32_1_sub_b2z).
  cs L nx (negb (Fneg g_d1)) ltac:(exact e_b).
  cs L ny1 (negb (Fneg g_d1)) ltac:(exact e_b).
  cs L denInv (negb (Fneg g_d1)) ltac:(exact e_b).
  fs L d3. ns L d4. fs L d5.
  cs L ny (Fneg g_d3) ltac:(reflexivity).
  fs L s0. fs L s1. ns L s2. fs L d6.
  cs L s (Fneg g_s1) ltac:(reflexivity).
  destruct (law_bytes K L _ s g_s h_s ltac:(lia)) as (s' & e1 & _). rewrite e1. cbn [fst].
  subst PP. cbv beta. exists g_s. split; [reflexivity|].
  rewrite e_s, e_d6. fold (Fabs g_s1).
  match goal with |- encodes ?a _ => match type of HE with encodes ?b _ => replace a with b; [exact HE|] end end.
  f_equal.
  assert (E1 : g_u1 = (z * z * (F1 - ey A * ey A))%F) by (subst; ring).
  assert (E2 : g_u2 = (z * z * (ex A * ey A))%F) by (subst; ring).
  assert (Ei : g_isr = isr_val ((z * z * (ex A * ey A)) * (z * z * (ex A * ey A)) * (z * z * (F1 - ey A * ey A)))%F).
  { rewrite e_isr, e_isrb, e_isra, E1, E2. reflexivity. }
  rewrite <- Ei, <- E1, <- E2.
  assert (Ez : g_zInv = (g_isr * g_u1 * (g_isr * g_u2) * (ex A * ey A * z))%F) by (subst; ring).
  rewrite <- Ez, <- e_d1.
  rewrite e_s1, e_s0.
  assert (En : g_ny1 = (if Fneg g_d1 then Fi * (ex A * z) else ey A * z)%F).
  { rewrite e_ny1, e_ny0. destruct (Fneg g_d1); cbn [negb]; ring. }
  assert (Ex : g_nx = (if Fneg g_d1 then Fi * (ey A * z) else ex A * z)%F).
  { rewrite e_nx, e_nx0. destruct (Fneg g_d1); cbn [negb]; ring. }
  assert (Ed : g_denInv = (if Fneg g_d1 then Fisdm1 * (g_isr * g_u1) else g_isr * g_u2)%F).
  { rewrite e_denInv, e_denInv0, e_i1, e_i2. destruct (Fneg g_d1); cbn [negb]; reflexivity. }
  rewrite <- En, <- Ex, <- Ed. rewrite <- e_d3. rewrite e_ny, e_d5. reflexivity.
Qed.

Lemma ep_RistrettoInto_ok P A : rd L P A -> even A ->
  exists s, ep_RistrettoInto K P = le_bytes 32 (fval s) /\ encodes s A.
Proof.
  intros (z & hz & h1 & h2 & h3 & h4) hA. fe_facts L.
  apply (ep_RistrettoInto_gen P A 2 (cN L) z); try assumption; lia.
Qed.

(** [RistrettoEqualsI] decides equality of ristretto classes *)
Lemma ep_RistrettoEqualsI_gen n m P Q A B : rpt L n P A -> rpt L m Q B -> n <= cL L -> m <= cL L ->
  ep_RistrettoEqualsI K P Q = Z.b2z (Feqb (ex A * ey B)%F (ex B * ey A)%F || Feqb (ex A * ex B)%F (ey A * ey B)%F).
Proof.
  intros (z & hz & h1 & h2 & h3 & h4) (w & hw & g1 & g2 & g3 & g4) ln lm. fe_facts L.
  unfold ep_RistrettoEqualsI. cbv zeta.
  rewrite (fe_EqualsI_ok L 1 1 _ _ ((ex A * z) * (ey B * w)) ((ex B * w) * (ey A * z))) by (try lia; eapply fe_mul_r; eauto; lia).
  rewrite (fe_EqualsI_ok L 1 1 _ _ ((ex A * z) * (ex B * w)) ((ey A * z) * (ey B * w))) by (try lia; eapply fe_mul_r; eauto; lia).
  rewrite !i32_1_sub_b2z, land_b2z, i32_1_sub_b2z, negb_andb, !negb_involutive.
  assert (hzw : (z * w)%F <> F0) by (apply Fmul_nz; assumption).
  assert (C : forall a b, Feqb (z * w * a)%F (z * w * b)%F = Feqb a b).
  { intros a b. apply eq_true_iff_eq. rewrite !Feqb_eq. split; [apply Fmul_cancel_l, hzw | congruence]. }
  replace (ex A * z * (ey B * w))%F with (z * w * (ex A * ey B))%F by ring.
  replace (ex B * w * (ey A * z))%F with (z * w * (ex B * ey A))%F by ring.
  replace (ex A * z * (ex B * w))%F with (z * w * (ex A * ex B))%F by ring.
  replace (ey A * z * (ey B * w))%F with (z * w * (ey A * ey B))%F by ring.
  rewrite !C. reflexivity.
Qed.

Lemma ep_RistrettoEqualsI_iff_gen n m P Q A B : rpt L n P A -> rpt L m Q B -> n <= cL L -> m <= cL L ->
  (ep_RistrettoEqualsI K P Q = 1 <-> Req A B) /\ (ep_RistrettoEqualsI K P Q = 0 <-> ~ Req A B).
Proof.
  intros hP hQ ln lm. rewrite (ep_RistrettoEqualsI_gen n m P Q A B hP hQ ln lm), Req_coords.
  match goal with |- context [Z.b2z ?b] => set (c := b) end.
  assert (c = true <-> (ex A * ey B = ex B * ey A \/ ex A * ex B = ey A * ey B)%F) as H.
  { unfold c. rewrite orb_true_iff, !Feqb_eq. reflexivity. }
  rewrite <- H. destruct c; cbn; split; split; intro; try reflexivity; try discriminate; try congruence.
Qed.

Lemma ep_RistrettoEqualsI_ok P Q A B : rd L P A -> rd L Q B ->
  ep_RistrettoEqualsI K P Q = Z.b2z (Feqb (ex A * ey B)%F (ex B * ey A)%F || Feqb (ex A * ex B)%F (ey A * ey B)%F).
Proof. intros hP hQ. fe_facts L. apply (ep_RistrettoEqualsI_gen 2 2); try apply rd_rpt; try assumption; lia. Qed.

Lemma ep_RistrettoEqualsI_iff P Q A B : rd L P A -> rd L Q B ->
  (ep_RistrettoEqualsI K P Q = 1 <-> Req A B) /\ (ep_RistrettoEqualsI K P Q = 0 <-> ~ Req A B).
Proof. intros hP hQ. fe_facts L. apply (ep_RistrettoEqualsI_iff_gen 2 2); try apply rd_rpt; try assumption; lia. Qed.

End Code.
