(** Tests, conditional moves, powers and square roots of /repo/cref/cref.c. *)
From Coq Require Import ZArith List Lia Bool Ring.
From Verif Require Import Words WordsTac NumTheory Primes Fp Edwards Fe51Proofs Fe51Laws Fe25Code Fe25Proofs FieldModel BitFold FieldLaws Fe25Laws
  CLang CLangFacts CrefFeCode CrefFe CrefFeProofs CrefCode.
Import ListNotations.
Open Scope Z_scope.

Lemma bind_ok {A B : Type} (e : option A) (k : A -> option B) (Q : A -> Prop) (P : B -> Prop) :
  ok e Q -> (forall v, Q v -> ok (k v) P) -> ok (match e with Some x => k x | None => None end) P.
Proof. intros (v & -> & hv) h. exact (h v hv). Qed.
Lemma bind_rel {B : Type} (e : option fe25) (k : fe25 -> option B) n f (P : B -> Prop) :
  ok e (fun z => rel25 n z f) -> (forall z g, g = f -> rel25 n z g -> ok (k z) P) -> ok (match e with Some x => k x | None => None end) P.
Proof. intros (v & -> & hv) h. exact (h v f eq_refl hv). Qed.
Lemma bind_eq {A B : Type} (e : option A) (k : A -> option B) v (P : B -> Prop) :
  e = Some v -> ok (k v) P -> ok (match e with Some x => k x | None => None end) P.
Proof. intros ->. exact (fun h => h). Qed.
Lemma ok_ret {A : Type} (v : A) (P : A -> Prop) : P v -> ok (Some v) P.
Proof. intro h. exists v. split; [reflexivity | exact h]. Qed.
Lemma ok_weak {A : Type} (o : option A) (P Q : A -> Prop) : ok o P -> (forall v, P v -> Q v) -> ok o Q.
Proof. intros (v & e & h) w. exists v. split; [exact e | exact (w v h)]. Qed.
Lemma rel_weak n m x f : n <= m -> rel25 n x f -> rel25 m x f.
Proof. intros h [hb hv]. split; [|exact hv]. apply (bnd25_U n m _ _ _ hb h); lia. Qed.

Lemma r_zero : rel25 1 c_zero F0. Proof. rconst25. Qed.
Lemma r_one : rel25 1 c_one F1. Proof. rconst25. Qed.
Lemma r_m1 : rel25 1 c_m1 (Fopp F1). Proof. rconst25. Qed.
Lemma r_i : rel25 1 c_sqrtm1 Fi. Proof. rconst25. Qed.
Lemma r_d : rel25 1 c_ecd Fd. Proof. rconst25. Qed.
Lemma r_2d : rel25 1 c_ec2d (Fadd Fd Fd). Proof. rconst25. Qed.
Lemma r_magic : rel25 1 c_magic Fisdm1. Proof. rconst25. Qed.

(** ** Tests *)

Lemma static_equal_0 b : is_byte b -> c_static_equal 0 b = Z.b2z (b =? 0).
Proof.
  unfold is_byte, c_static_equal. intro h. rewrite Z.lxor_0_l. destruct (Z.eqb_spec b 0) as [-> | hne]; [reflexivity|].
  rewrite u32_small by lia. rewrite Z.shiftr_div_pow2 by lia. apply Z.div_small. change (2 ^ 31) with 2147483648. lia.
Qed.

Definition allz (s : list Z) : bool := forallb (fun b => b =? 0) s.
Lemma iszero_fold s : Forall is_byte s -> forall r,
  fold_left (fun r b => Z.lor r (i32 (u32 (1 - c_static_equal 0 b)))) s (Z.b2z r) = Z.b2z (r || negb (allz s)).
Proof.
  intro h. induction h as [|b s hb _ IH]; intro r; [cbn; rewrite orb_false_r; reflexivity|].
  cbn [fold_left allz forallb]. rewrite (static_equal_0 b hb).
  replace (Z.lor (Z.b2z r) (i32 (u32 (1 - Z.b2z (b =? 0))))) with (Z.b2z (r || negb (b =? 0))) by (destruct r, (b =? 0); reflexivity).
  rewrite IH. f_equal. unfold allz. destruct r, (b =? 0); reflexivity.
Qed.
Lemma allz_val s : Forall is_byte s -> allz s = (le_val s =? 0).
Proof.
  intro h. assert (K : allz s = (le_val s =? 0) /\ 0 <= le_val s).
  { induction h as [|b s hb _ [IH1 IH2]]; [split; [reflexivity | cbn; lia]|]. unfold is_byte in hb. cbn [le_val allz forallb].
    change (forallb (fun b => b =? 0) s) with (allz s). rewrite IH1. split; [|lia].
    destruct (Z.eqb_spec b 0), (Z.eqb_spec (le_val s) 0), (Z.eqb_spec (b + 256 * le_val s) 0); try reflexivity; lia. }
  apply K.
Qed.

Lemma c_iszero_ok n x f : rel25 n x f -> n <= 3 -> c_iszero x = Some (Z.b2z (Feqb f F0)).
Proof.
  intros hx hn. unfold c_iszero. rewrite (c_pack_ok n x f hx hn). f_equal.
  pose proof (proj2 (le_bytes_bytes 32 (fval f))) as hb.
  change 0 with (Z.b2z false) at 2. rewrite (iszero_fold _ hb), (allz_val _ hb), le_val_le_bytes by apply fval_256.
  rewrite fval_eqb_0. destruct (Feqb f F0); reflexivity.
Qed.

Lemma c_isnegative_ok n x f : rel25 n x f -> n <= 3 -> c_isnegative x = Some (Z.b2z (Fneg f)).
Proof.
  intros hx hn. unfold c_isnegative. rewrite (c_pack_ok n x f hx hn). f_equal. exact (le_bytes_fval_odd f).
Qed.

Lemma c_iseq_ok n m x y f g : rel25 n x f -> rel25 m y g -> n + m <= 3 -> c_iseq x y = Some (Z.b2z (Feqb f g)).
Proof.
  intros hx hy h. pose proof (rel25_nonneg _ _ _ hx). pose proof (rel25_nonneg _ _ _ hy). unfold c_iseq.
  destruct (c_sub_ok n m x y f g hx hy) as (t & -> & ht); [lia | lia |].
  rewrite (c_iszero_ok (n + m) t _ ht h), Feqb_sub_0. reflexivity.
Qed.
Lemma c_isone_ok n x f : rel25 n x f -> n <= 2 -> c_isone x = Some (Z.b2z (Feqb f F1)).
Proof. intros hx hn. unfold c_isone. apply (c_iseq_ok n 1 x c_one f F1 hx r_one). lia. Qed.

(** ** Conditional moves *)

Lemma cmov_limb_0 r x : -2147483648 <= r < 2147483648 -> c_cmov_limb 0 r x = r.
Proof.
  intro h. unfold c_cmov_limb. rewrite Z.land_0_l, Z.lxor_0_r. unfold i32, u32. rewrite Zplus_mod_idemp_l. fold (i32 r). apply i32_small. exact h.
Qed.
Lemma u32_lxor x r : Z.lxor (u32 r) (u32 (Z.lxor x r)) = u32 x.
Proof.
  unfold u32. change 4294967296 with (2 ^ 32). apply Z.bits_inj'. intros n hn. rewrite Z.lxor_spec.
  destruct (Z.lt_ge_cases n 32).
  - rewrite !Z.mod_pow2_bits_low by assumption. rewrite Z.lxor_spec. destruct (Z.testbit x n), (Z.testbit r n); reflexivity.
  - rewrite !Z.mod_pow2_bits_high by lia. reflexivity.
Qed.
Lemma cmov_limb_1 r x : -2147483648 <= x < 2147483648 -> c_cmov_limb 4294967295 r x = x.
Proof.
  intro h. unfold c_cmov_limb. rewrite Z.land_comm. change 4294967295 with (Z.ones 32). rewrite Z.land_ones by lia.
  unfold u32 at 2. change 4294967296 with (2 ^ 32). rewrite Zmod_mod. change (Z.lxor x r mod 2 ^ 32) with (u32 (Z.lxor x r)).
  rewrite u32_lxor. unfold i32, u32. rewrite Zplus_mod_idemp_l. fold (i32 x). apply i32_small. exact h.
Qed.

Lemma c_cmov_eq r x b : bnd25 MX MX r -> bnd25 MX MX x -> c_cmov r x (Z.b2z b) = if b then x else r.
Proof.
  destruct r as [r0 r1 r2 r3 r4 r5 r6 r7 r8 r9], x as [x0 x1 x2 x3 x4 x5 x6 x7 x8 x9]. unfold bnd25. change MX with 1073741823.
  intros (? & ? & ? & ? & ? & ? & ? & ? & ? & ?) (? & ? & ? & ? & ? & ? & ? & ? & ? & ?).
  unfold c_cmov. destruct b.
  - change (u32 (- u8 (Z.b2z true))) with 4294967295. cbv zeta. rewrite !cmov_limb_1 by lia. reflexivity.
  - change (u32 (- u8 (Z.b2z false))) with 0. cbv zeta. rewrite !cmov_limb_0 by lia. reflexivity.
Qed.
Lemma c_cmov_ok n r x f g c b : rel25 n r f -> rel25 n x g -> c = Z.b2z b -> n <= 16 -> rel25 n (c_cmov r x c) (if b then g else f).
Proof.
  intros hr hx -> hn. rewrite (c_cmov_eq r x b (rel_MX _ _ _ hr hn) (rel_MX _ _ _ hx hn)). destruct b; assumption.
Qed.

(** ** Stepping through a sequence of field operations *)

Ltac znorm h :=
  lazymatch type of h with rel25 ?n ?x ?f => let v := eval vm_compute in n in change (rel25 v x f) in h end.
Ltac clit := lazymatch goal with |- ?a <= ?b => vm_compute; discriminate end.
Ltac cstep_by lem :=
  lazymatch goal with |- ok (match ?e with Some x => @?k x | None => None end) ?P =>
    refine (bind_rel e k _ _ P lem _); cbv beta end.
Ltac cnext := let z := fresh "z" in let g := fresh "g" in let e := fresh "e" in let h := fresh "h" in intros z g e h; znorm h.
(** one arithmetic operation whose operands are in the context *)
Ltac cop :=
  lazymatch goal with
  | |- ok (match c_mul ?x ?y with Some _ => _ | None => _ end) _ =>
    match goal with hx : rel25 ?n x ?f, hy : rel25 ?m y ?g |- _ => cstep_by (c_mul_ok n m x y f g hx hy ltac:(clit) ltac:(clit)) end
  | |- ok (match c_square ?x with Some _ => _ | None => _ end) _ =>
    match goal with hx : rel25 ?n x ?f |- _ => cstep_by (c_square_ok n x f hx ltac:(clit)) end
  | |- ok (match c_square_double ?x with Some _ => _ | None => _ end) _ =>
    match goal with hx : rel25 ?n x ?f |- _ => cstep_by (c_square_double_ok n x f hx ltac:(clit)) end
  | |- ok (match c_add ?x ?x with Some _ => _ | None => _ end) _ =>
    match goal with hx : rel25 ?n x ?f |- _ => cstep_by (c_add_ok n n x x f f hx hx ltac:(clit) ltac:(clit)) end
  | |- ok (match c_add ?x ?y with Some _ => _ | None => _ end) _ =>
    match goal with hx : rel25 ?n x ?f, hy : rel25 ?m y ?g |- _ => cstep_by (c_add_ok n m x y f g hx hy ltac:(clit) ltac:(clit)) end
  | |- ok (match c_sub ?x ?y with Some _ => _ | None => _ end) _ =>
    match goal with hx : rel25 ?n x ?f, hy : rel25 ?m y ?g |- _ => cstep_by (c_sub_ok n m x y f g hx hy ltac:(clit) ltac:(clit)) end
  | |- ok (match c_neg ?x with Some _ => _ | None => _ end) _ =>
    match goal with hx : rel25 ?n x ?f |- _ => cstep_by (c_neg_ok n x f hx ltac:(clit)) end
  | |- ok (match c_double ?x with Some _ => _ | None => _ end) _ =>
    match goal with hx : rel25 ?n x ?f |- _ => cstep_by (c_add_ok n n x x f f hx hx ltac:(clit) ltac:(clit)) end
  end.
Ltac cstep := cop; cnext.
(** the same, giving names to the result *)
Ltac cn x := cop; let g := fresh "g_" x in let e := fresh "e_" x in let h := fresh "h_" x in intros x g e h; znorm h.
(** a conditional move, whose condition is the boolean [b] *)
Lemma bind_let {B : Type} (e : fe25) (k : fe25 -> option B) n f (P : B -> Prop) :
  rel25 n e f -> (forall z g, g = f -> rel25 n z g -> ok (k z) P) -> ok (let x := e in k x) P.
Proof. intros hv h. exact (h e f eq_refl hv). Qed.
Ltac cm x b tac :=
  lazymatch goal with |- ok (let y := ?e in @?k y) ?P =>
    lazymatch e with c_cmov ?r ?s ?c =>
      match goal with hr : rel25 ?n r ?f, hs : rel25 ?m s ?f' |- _ =>
        let v := eval vm_compute in (Z.max n m) in
        refine (bind_let e k v _ P (c_cmov_ok v r s f f' c b (rel_weak n v r f ltac:(clit) hr) (rel_weak m v s f' ltac:(clit) hs) ltac:(tac) ltac:(clit)) _) end end end;
  cbv beta; let g := fresh "g_" x in let E := fresh "e_" x in let h := fresh "h_" x in intros x g E h; znorm h.

(** a test *)
Ltac ctest lem :=
  lazymatch goal with |- ok (match ?e with Some x => @?k x | None => None end) ?P =>
    refine (bind_eq e k _ P lem _); cbv beta zeta end.
Ltac cis :=
  lazymatch goal with
  | |- ok (match c_isnegative ?x with Some _ => _ | None => _ end) _ =>
    match goal with hx : rel25 ?n x ?f |- _ => ctest (c_isnegative_ok n x f hx ltac:(clit)) end
  | |- ok (match c_iszero ?x with Some _ => _ | None => _ end) _ =>
    match goal with hx : rel25 ?n x ?f |- _ => ctest (c_iszero_ok n x f hx ltac:(clit)) end
  | |- ok (match c_isone ?x with Some _ => _ | None => _ end) _ =>
    match goal with hx : rel25 ?n x ?f |- _ => ctest (c_isone_ok n x f hx ltac:(clit)) end
  | |- ok (match c_iseq ?x ?y with Some _ => _ | None => _ end) _ =>
    match goal with hx : rel25 ?n x ?f, hy : rel25 ?m y ?g |- _ => ctest (c_iseq_ok n m x y f g hx hy ltac:(clit)) end
  end.

(** ** Powers *)

Lemma c_pow_mul n m x y f a b c : rel25 n x (Fpow f a) -> rel25 m y (Fpow f b) -> n <= 3 -> m <= 3 -> 0 <= a -> 0 <= b -> a + b = c ->
  ok (c_mul x y) (fun z => rel25 1 z (Fpow f c)).
Proof.
  intros hx hy hn hm ha hb <-. rewrite Fpow_add by assumption. apply (c_mul_ok n m); auto; lia.
Qed.
Lemma c_pow_square n x f a c : rel25 n x (Fpow f a) -> n <= 3 -> 0 <= a -> 2 * a = c -> ok (c_square x) (fun z => rel25 1 z (Fpow f c)).
Proof.
  intros hx hn ha <-. replace (2 * a) with (a + a) by ring. rewrite Fpow_add by assumption. apply (c_square_ok n); auto.
Qed.
Lemma c_pow_iter k : forall x f a c, rel25 1 x (Fpow f a) -> 0 <= a -> a * 2 ^ Z.of_nat k = c -> ok (c_iter k c_square x) (fun z => rel25 1 z (Fpow f c)).
Proof.
  induction k as [|k IH]; intros x f a c hx ha <-; cbn [c_iter].
  - change (2 ^ Z.of_nat 0) with 1. rewrite Z.mul_1_r. apply ok_ret. exact hx.
  - apply (bind_ok _ _ _ _ (c_pow_square 1 x f a (2 * a) hx ltac:(lia) ha eq_refl)). intros z hz.
    apply (IH z f (2 * a)); [exact hz | lia |]. rewrite Nat2Z.inj_succ, Z.pow_succ_r by lia. ring.
Qed.

Ltac bindp lem :=
  lazymatch goal with |- ok (match ?e with Some x => @?k x | None => None end) ?P =>
    refine (bind_ok e k _ P lem _); cbv beta; intros ? ? end.
Ltac pstep f :=
  lazymatch goal with
  | |- ok (match c_mul ?x ?y with Some _ => _ | None => _ end) _ =>
    match goal with hx : rel25 ?n x (Fpow f ?a), hy : rel25 ?m y (Fpow f ?b) |- _ =>
      let v := eval vm_compute in (a + b) in
      bindp (c_pow_mul n m x y f a b v hx hy ltac:(lia) ltac:(lia) ltac:(clit) ltac:(clit) ltac:(vm_compute; reflexivity)) end
  | |- ok (match c_square ?x with Some _ => _ | None => _ end) _ =>
    match goal with hx : rel25 ?n x (Fpow f ?a) |- _ =>
      let v := eval vm_compute in (2 * a) in
      bindp (c_pow_square n x f a v hx ltac:(lia) ltac:(clit) ltac:(vm_compute; reflexivity)) end
  | |- ok (match c_iter ?k c_square ?x with Some _ => _ | None => _ end) _ =>
    match goal with hx : rel25 1 x (Fpow f ?a) |- _ =>
      let v := eval vm_compute in (a * 2 ^ Z.of_nat k) in
      bindp (c_pow_iter k x f a v hx ltac:(clit) ltac:(vm_compute; reflexivity)) end
  end.

Lemma c_pow2523_ok n x f : rel25 n x f -> n <= 3 -> ok (c_pow2523 x) (fun z => rel25 1 z (Fpow f (2 ^ 252 - 3))).
Proof.
  intros hx hn. rewrite <- (Fpow_1 f) in hx. unfold c_pow2523. do 31 (pstep f).
  apply ok_ret. match goal with h : rel25 1 ?z _ |- rel25 1 ?z _ => exact h end.
Qed.
Lemma c_invert_ok n x f : rel25 n x f -> n <= 3 -> ok (c_invert x) (fun z => rel25 1 z (Finv f)).
Proof.
  intros hx hn. rewrite <- (Fpow_1 f) in hx. unfold c_invert, Finv. do 31 (pstep f).
  apply ok_ret. match goal with h : rel25 1 ?z (Fpow f ?a) |- rel25 1 ?z (Fpow f ?b) => 
    let v := eval vm_compute in b in change a with v in h; replace b with v by (vm_compute; reflexivity); exact h end.
Qed.

(** ** Square roots *)

(** the candidate x^3 (x^7)^(2^252-3), then its check value, then [body] *)
Lemma c_cand_ok n x f {B : Type} (P : B -> Prop) (body : fe25 -> fe25 -> option B) : rel25 n x f -> n <= 3 ->
  (forall t c, rel25 1 t (Ft f) -> rel25 1 c (Ft f * Ft f * f)%F -> ok (body t c) P) ->
  ok (let* den2 := c_square x in let* den3 := c_mul den2 x in let* den4 := c_square den2 in let* den6 := c_mul den2 den4 in
      let* t := c_mul den6 x in let* t := c_pow2523 t in let* t := c_mul t den3 in let* chk := c_square t in
      let* chk := c_mul chk x in body t chk) P.
Proof.
  intros hx hn H. pose proof hx as hx0. rewrite <- (Fpow_1 f) in hx. do 5 (pstep f).
  match goal with h : rel25 1 ?z (Fpow f 7) |- _ => rename z into t7; rename h into ht7 end.
  bindp (c_pow2523_ok 1 t7 (Fpow f 7) ht7 ltac:(lia)).
  match goal with h : rel25 1 ?z (Fpow (Fpow f 7) _), h3 : rel25 1 ?d (Fpow f 3) |- _ =>
    rewrite <- Fpow_mul in h by (vm_compute; discriminate);
    bindp (c_pow_mul 1 1 z d f _ _ isr_exp h h3 ltac:(lia) ltac:(lia) ltac:(clit) ltac:(clit) ltac:(vm_compute; reflexivity)) end.
  match goal with h : rel25 1 ?z (Fpow f isr_exp) |- _ => rename z into t; rename h into ht end.
  change (Fpow f isr_exp) with (Ft f) in ht.
  bindp (c_square_ok 1 t (Ft f) ht ltac:(lia)).
  match goal with h : rel25 1 ?z (Ft f * Ft f)%F |- _ => bindp (c_mul_ok 1 n z x _ f h hx0 ltac:(lia) hn) end.
  apply H; assumption.
Qed.

Lemma c_invsqrt_ok n x f : rel25 n x f -> n <= 3 -> ok (c_invsqrt x) (fun z => rel25 1 z (isr_val f)).
Proof.
  intros hx hn. unfold c_invsqrt. 
  lazymatch goal with |- ok (let* a1 := _ in let* a2 := _ in let* a3 := _ in let* a4 := _ in let* a5 := _ in let* a6 := _ in let* a7 := _ in let* a8 := _ in let* a9 := _ in @?body a7 a9) ?P =>
    refine (c_cand_ok n x f P body hx hn _) end.
  intros t c ht hc. cbv beta. ctest (c_isone_ok 1 c _ hc ltac:(clit)). unfold isr_val.
  destruct (Feqb (Ft f * Ft f * f)%F F1); cbn [Z.b2z negb Z.eqb].
  - apply ok_ret. exact ht.
  - bindp (c_mul_ok 1 1 t c_sqrtm1 _ _ ht r_i ltac:(clit) ltac:(clit)). apply ok_ret. assumption.
Qed.

Lemma c_sqrt_ok n x f : rel25 n x f -> n <= 3 -> ok (c_sqrt x) (fun z => rel25 1 z (isr_val f * f)%F).
Proof.
  intros hx hn. unfold c_sqrt. bindp (c_invsqrt_ok n x f hx hn).
  match goal with h : rel25 1 ?z (isr_val f) |- _ => bindp (c_mul_ok 1 n z x _ f h hx ltac:(lia) hn) end. apply ok_ret. assumption.
Qed.

Lemma c_abs_ok n x f : rel25 n x f -> n <= 3 -> ok (c_abs x) (fun z => rel25 n z (Fabs f)).
Proof.
  intros hx hn. unfold c_abs. cbv zeta. bindp (c_neg_ok n x f hx ltac:(lia)). ctest (c_isnegative_ok n x f hx hn).
  apply ok_ret. unfold Fabs. apply c_cmov_ok; [exact hx | assumption | reflexivity | lia].
Qed.

Lemma b2z_add_ex a b : (a && b)%bool = false -> Z.b2z a + Z.b2z b = Z.b2z (a || b).
Proof. destruct a, b; intro h; try discriminate h; reflexivity. Qed.

Lemma c_invsqrti_ok n x f : rel25 n x f -> n <= 3 ->
  ok (c_invsqrti x) (fun r => fst r = Z.b2z (isri_flag f) /\ rel25 1 (snd r) (isri_val f)).
Proof.
  intros hx hn. unfold c_invsqrti.
  lazymatch goal with |- ok (let* a1 := _ in let* a2 := _ in let* a3 := _ in let* a4 := _ in let* a5 := _ in let* a6 := _ in let* a7 := _ in let* a8 := _ in let* a9 := _ in @?body a7 a9) ?P =>
    refine (c_cand_ok n x f P body hx hn _) end.
  intros t c ht hc. cbv beta. pose proof r_i as hi_. pose proof r_one as h1_.
  remember (Ft f * Ft f * f)%F as ch eqn:ech.
  cis. cis. cstep. cis. subst g. 
  rewrite (b2z_add_ex (Feqb (Fopp ch) F1)), (b2z_add_ex (Feqb ch F1)).
  - bindp (c_mul_ok 1 1 t _ _ _ ht (c_cmov_ok 1 c_one c_sqrtm1 _ _ _ (Feqb (Fopp ch) F1 || Feqb ch Fi) h1_ hi_ eq_refl ltac:(lia)) ltac:(clit) ltac:(clit)).
    apply ok_ret. cbn [fst snd]. unfold isri_flag, isri_val. cbv zeta. rewrite <- ech. split; [reflexivity | assumption].
  - destruct (Feqb ch F1) eqn:E1, (Feqb (Fopp ch) F1) eqn:E2; try reflexivity.
    apply Feqb_eq in E1, E2. rewrite E1 in E2. exfalso. exact (F1_neq_opp (eq_sym E2)).
  - destruct (Feqb ch Fi) eqn:E1, (Feqb (Fopp ch) F1) eqn:E2; try reflexivity.
    apply Feqb_eq in E1, E2. rewrite E1 in E2. exfalso.
    apply Fi_nsq. apply is_sq_opp. rewrite E2. exists F1. ring.
Qed.

Lemma c_sqrti_ok n x f : rel25 n x f -> n <= 3 ->
  ok (c_sqrti x) (fun r => fst r = Z.b2z (isri_flag f) /\ rel25 1 (snd r) (isri_val f * (if isri_flag f then F1 else Fi) * f)%F).
Proof.
  intros hx hn. unfold c_sqrti. destruct (c_invsqrti_ok n x f hx hn) as ((b, t) & -> & hb & ht). cbn [fst snd] in hb, ht. subst b. cbv zeta.
  replace (1 - Z.b2z (isri_flag f)) with (Z.b2z (negb (isri_flag f))) by (destruct (isri_flag f); reflexivity).
  bindp (c_mul_ok 1 1 t _ _ _ ht (c_cmov_ok 1 c_one c_sqrtm1 _ _ _ (negb (isri_flag f)) r_one r_i eq_refl ltac:(lia)) ltac:(clit) ltac:(clit)).
  match goal with h : rel25 1 ?z (isri_val f * _)%F |- _ => bindp (c_mul_ok 1 n z x _ f h hx ltac:(lia) hn) end.
  apply ok_ret. cbn [fst snd]. split; [reflexivity|]. destruct (isri_flag f); assumption.
Qed.

Lemma c_double_ok n x f : rel25 n x f -> n <= 16 -> ok (c_double x) (fun z => rel25 (n + n) z (Fadd f f)).
Proof. intros hx hn. apply c_add_ok; assumption. Qed.
Lemma c_triple_ok n x f : rel25 n x f -> n <= 8 -> ok (c_triple x) (fun z => rel25 (n + n + n) z (Fadd (Fadd f f) f)).
Proof.
  intros hx hn. pose proof (rel25_nonneg _ _ _ hx). unfold c_triple. bindp (c_add_ok n n x x f f hx hx ltac:(lia) ltac:(lia)).
  apply c_add_ok; [assumption | exact hx | lia | lia].
Qed.
