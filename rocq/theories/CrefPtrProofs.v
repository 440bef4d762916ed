(** The functions on a memory (CrefPtrCode.v) compute the functions of CrefCode.v whichever of their pointers are equal. *)
From Coq Require Import ZArith List Lia.
From Verif Require Import Words ScalarCode CLang Fe25Code CrefFeCode CrefFe CrefCode CrefPtr CrefPtrCode.
Import ListNotations.
Open Scope Z_scope.

(** [m'] differs from [m] below [n] at most in the [k] cells from [r] *)
Definition only (n r k : nat) (m m' : cmem) : Prop := forall a, (a < n)%nat -> ((a < r)%nat \/ (r + k <= a)%nat) -> m' a = m a.

Lemma st_eq m d v : st m d v d = v.
Proof. unfold st. rewrite PeanoNat.Nat.eqb_refl. reflexivity. Qed.
Lemma st_ne m d v a : a <> d -> st m d v a = m a.
Proof. intros h. unfold st. apply PeanoNat.Nat.eqb_neq in h. rewrite h. reflexivity. Qed.

Lemma step_st {B : Type} (Q : B -> Prop) m d v K :
  (forall m1, m1 d = v -> (forall a, a <> d -> m1 a = m a) -> exists y, K m1 = Some y /\ Q y) ->
  exists y, LetIn (st m d v) K = Some y /\ Q y.
Proof. intros h. unfold LetIn. apply h. - apply st_eq. - intros a. apply st_ne. Qed.

Lemma step_bind {A B : Type} (Q : B -> Prop) (e : option A) v K : e = Some v -> (exists y, K v = Some y /\ Q y) ->
  exists y, match e with Some x => K x | None => None end = Some y /\ Q y.
Proof. intros e1 h. rewrite e1. exact h. Qed.

Lemma step_call {A B : Type} (Q : B -> Prop) (P : A -> Prop) (e : option A) K : (exists x, e = Some x /\ P x) ->
  (forall x, P x -> exists y, K x = Some y /\ Q y) ->
  exists y, match e with Some x => K x | None => None end = Some y /\ Q y.
Proof. intros (x & e1 & hx) h. rewrite e1. apply h. exact hx. Qed.

Lemma iter_ok f t k : forall m w, c_iter k f (m t) = Some w ->
  exists m1, iter_o k (fun m => let* v := f (m t) in Some (st m t v)) m = Some m1 /\ m1 t = w /\ forall a, a <> t -> m1 a = m a.
Proof.
  induction k as [|k ih]; intros m w h; cbn [c_iter iter_o] in *.
  - exists m. injection h as h. split; [reflexivity|]. split; [exact h|reflexivity].
  - destruct (f (m t)) as [v|]; [|discriminate h]. destruct (ih (st m t v) w) as (m1 & e & h1 & h2).
    { rewrite st_eq. exact h. }
    exists m1. split; [exact e|]. split; [exact h1|]. intros a ha. rewrite (h2 a ha). apply st_ne. exact ha.
Qed.

Lemma if_ok (b : bool) (e : option fe25) t (m : cmem) w : (if b then e else Some (m t)) = Some w ->
  exists m1, (if b then (let* v := e in Some (st m t v)) else Some m) = Some m1 /\ m1 t = w /\ forall a, a <> t -> m1 a = m a.
Proof.
  intros h. destruct b.
  - destruct e as [v|]; [|discriminate h]. injection h as h. exists (st m t v). split; [reflexivity|]. split; [rewrite st_eq; exact h|].
    intros a ha. apply st_ne. exact ha.
  - injection h as h. exists m. split; [reflexivity|]. split; [exact h|reflexivity].
Qed.

Ltac rd1 M b :=
  first [ match goal with h : M b = _ |- _ => rewrite h end
        | match goal with h : forall c, c <> ?d -> M c = _ |- _ => rewrite (h b) by lia end
        | match goal with h : only ?n ?r ?k ?m M |- _ => rewrite (h b) by lia end ].
Ltac rd := repeat match goal with |- context [?M ?b] => match type of M with cmem => rd1 M b | nat -> fe25 => rd1 M b end end.
Lemma bind_inv {A B : Type} (e : option A) (K : A -> option B) w : match e with Some x => K x | None => None end = Some w ->
  exists v, e = Some v /\ K v = Some w.
Proof. intros h. destruct e as [v|]; [|discriminate h]. exists v. split; [reflexivity|exact h]. Qed.
Ltac vstep := match goal with H : match _ with Some _ => _ | None => None end = Some _ |- _ =>
  apply bind_inv in H; let v := fresh "v" in let E := fresh "E" in destruct H as (v & E & H); cbv beta in H end.
Ltac stp :=
  lazymatch goal with
  | |- exists y, LetIn (st _ _ _) _ = Some y /\ _ => apply step_st; let m1 := fresh "m" in let h1 := fresh "h" in let h2 := fresh "h" in intros m1 h1 h2
  | |- exists y, match iter_o _ _ _ with Some _ => _ | None => None end = Some y /\ _ =>
    vstep; eapply step_call; [eapply iter_ok; rd; eassumption|];
    let m1 := fresh "m" in let h1 := fresh "h" in let h2 := fresh "h" in intros m1 [h1 h2]
  | |- exists y, match (if _ then _ else _) with Some _ => _ | None => None end = Some y /\ _ =>
    vstep; eapply step_call; [eapply if_ok; rd; eassumption|];
    let m1 := fresh "m" in let h1 := fresh "h" in let h2 := fresh "h" in intros m1 [h1 h2]
  | |- exists y, match _ with Some _ => _ | None => None end = Some y /\ _ => vstep; eapply step_bind; [rd; eassumption|]
  | |- exists y, Some _ = Some y /\ _ => eexists; split; [reflexivity|]
  end.
Ltac fin := intros; unfold only; intros; rd; reflexivity.

Lemma m_c_double_ok r x n m w : (r < n)%nat -> (x < n)%nat -> c_double (m x) = Some w ->
  exists m', m_c_double r x n m = Some m' /\ m' r = w /\ only n r 1 m m'.
Proof.
  intros hr hx H. unfold c_double in H. unfold m_c_double. eapply step_bind; [exact H|]. stp. stp. split; [rd; reflexivity|fin].
Qed.

Lemma m_c_triple_ok r x n m w : (r < n)%nat -> (x < n)%nat -> r <> x -> c_triple (m x) = Some w ->
  exists m', m_c_triple r x n m = Some m' /\ m' r = w /\ only n r 1 m m'.
Proof.
  intros hr hx hn H. unfold c_triple in H. unfold m_c_triple. stp. stp. eapply step_bind; [rd; exact H|]. repeat stp. split; [rd; reflexivity|fin].
Qed.

Lemma m_c_invert_ok r x n m w : (r < n)%nat -> (x < n)%nat -> c_invert (m x) = Some w ->
  exists m', m_c_invert r x n m = Some m' /\ m' r = w /\ only n r 1 m m'.
Proof.
  intros hr hx H. unfold c_invert in H. unfold m_c_invert. cbv zeta. repeat stp. injection H as H. subst w. split; [rd; reflexivity|fin].
Qed.

Lemma m_c_pow2523_ok r x n m w : (r < n)%nat -> (x < n)%nat -> c_pow2523 (m x) = Some w ->
  exists m', m_c_pow2523 r x n m = Some m' /\ m' r = w /\ only n r 1 m m'.
Proof.
  intros hr hx H. unfold c_pow2523 in H. unfold m_c_pow2523. cbv zeta. repeat stp. injection H as H. subst w. split; [rd; reflexivity|fin].
Qed.

(** the call of a function on field elements with result at [r] *)
Ltac call lem :=
  vstep; eapply step_call; [eapply lem; [lia|lia|rd; eassumption]|];
  let m1 := fresh "m" in let h1 := fresh "h" in let h2 := fresh "h" in intros m1 [h1 h2].

Lemma m_c_invsqrt_ok r x n m w : (r < n)%nat -> (x < n)%nat -> c_invsqrt (m x) = Some w ->
  exists m', m_c_invsqrt r x n m = Some m' /\ m' r = w /\ only n r 1 m m'.
Proof.
  intros hr hx H. unfold c_invsqrt in H. unfold m_c_invsqrt. cbv zeta in *. do 10 stp. call m_c_pow2523_ok. repeat stp.
  injection H as H. subst w. split; [rd; reflexivity|fin].
Qed.

Lemma m_c_sqrt_ok r x n m w : (r < n)%nat -> (x < n)%nat -> c_sqrt (m x) = Some w ->
  exists m', m_c_sqrt r x n m = Some m' /\ m' r = w /\ only n r 1 m m'.
Proof.
  intros hr hx H. unfold c_sqrt in H. unfold m_c_sqrt. cbv zeta in *. call m_c_invsqrt_ok. repeat stp.
  injection H as H. subst w. split; [rd; reflexivity|fin].
Qed.

Lemma m_c_abs_ok r x n m w : (r < n)%nat -> (x < n)%nat -> c_abs (m x) = Some w ->
  exists m', m_c_abs r x n m = Some m' /\ m' r = w /\ only n r 1 m m'.
Proof.
  intros hr hx H. unfold c_abs in H. unfold m_c_abs. cbv zeta in *.
  destruct (PeanoNat.Nat.eq_dec r x) as [->|hn]; repeat stp; injection H as H; subst w; (split; [rd; reflexivity|fin]).
Qed.

Lemma m_c_invsqrti_ok r x n m b w : (r < n)%nat -> (x < n)%nat -> c_invsqrti (m x) = Some (b, w) ->
  exists y, m_c_invsqrti r x n m = Some y /\ fst y = b /\ snd y r = w /\ only n r 1 m (snd y).
Proof.
  intros hr hx H. unfold c_invsqrti in H. unfold m_c_invsqrti. cbv zeta in *. do 10 stp. call m_c_pow2523_ok. repeat stp.
  cbn [fst snd]. injection H as H1 H2. subst w b. split; [reflexivity|]. split; [rd; reflexivity|fin].
Qed.

Lemma m_c_sqrti_ok r x n m b w : (r < n)%nat -> (x < n)%nat -> c_sqrti (m x) = Some (b, w) ->
  exists y, m_c_sqrti r x n m = Some y /\ fst y = b /\ snd y r = w /\ only n r 1 m (snd y).
Proof.
  intros hr hx H. unfold c_sqrti in H. unfold m_c_sqrti. cbv zeta in *. vstep. destruct v as [b1 v].
  eapply step_call; [eapply m_c_invsqrti_ok; [lia|lia|rd; eassumption]|]. intros [b2 m1] (hb & h1 & h2). cbn [fst snd] in *. subst b2. repeat stp.
  cbn [fst snd]. injection H as H1 H2. subst w b. split; [reflexivity|]. split; [rd; reflexivity|fin].
Qed.

(** ** Points *)

Lemma m_g_mixadd2_ok r q n m R : (r + 4 <= n)%nat -> (q + 2 <= n)%nat -> g_mixadd2 (ge_at m r) (aff_in m q) = Some R ->
  exists m', m_g_mixadd2 r q n m = Some m' /\ ge_at m' r = R /\ only n r 4 m m'.
Proof.
  intros hr hq H. unfold g_mixadd2, ge_at, aff_in in H. unfold m_g_mixadd2. cbv zeta in *. repeat stp.
  injection H as H. subst R. split; [unfold ge_at; rd; reflexivity|fin].
Qed.

Lemma m_g_p1p1_to_p2_ok r q n m R : (r + 3 <= q)%nat \/ (q + 4 <= r)%nat -> g_p1p1_to_p2 (p1p1_at m q) = Some R ->
  exists m', m_g_p1p1_to_p2 r q n m = Some m' /\ p2_at m' r = R /\ forall a, (a < r)%nat \/ (r + 3 <= a)%nat -> m' a = m a.
Proof.
  intros hd H. unfold g_p1p1_to_p2, p1p1_at in H. unfold m_g_p1p1_to_p2. cbv zeta in *. repeat stp.
  injection H as H. subst R. split; [unfold p2_at; rd; reflexivity|fin].
Qed.

Lemma m_g_p1p1_to_p3_ok r q n m R : (r + 4 <= q)%nat \/ (q + 4 <= r)%nat -> g_p1p1_to_p3 (p1p1_at m q) = Some R ->
  exists m', m_g_p1p1_to_p3 r q n m = Some m' /\ ge_at m' r = R /\ forall a, (a < r)%nat \/ (r + 4 <= a)%nat -> m' a = m a.
Proof.
  intros hd H. unfold g_p1p1_to_p3, p1p1_at in H. vstep. destruct v as [a b c]. unfold m_g_p1p1_to_p3.
  eapply step_call; [eapply m_g_p1p1_to_p2_ok; [lia|exact E]|]. intros m1 [h1 h2]. injection h1 as h1a h1b h1c. vstep.
  eapply step_bind; [rewrite !h2 by lia; eassumption|]. repeat stp. injection H as H. subst R.
  split; [unfold ge_at; rd; reflexivity|]. intros d hd'. rewrite h0 by lia. apply h2. lia.
Qed.

Lemma m_g_add_p1p1_ok r q s n m R : (r + 4 <= n)%nat -> (q + 4 <= n)%nat -> (s + 4 <= n)%nat ->
  g_add_p1p1 (ge_at m q) (ge_at m s) = Some R ->
  exists m', m_g_add_p1p1 r q s n m = Some m' /\ p1p1_at m' r = R /\ only n r 4 m m'.
Proof.
  intros hr hq hs H. unfold g_add_p1p1, ge_at in H. unfold m_g_add_p1p1. cbv zeta in *. repeat stp.
  injection H as H. subst R. split; [unfold p1p1_at; rd; reflexivity|fin].
Qed.

Lemma m_g_dbl_p1p1_ok r q n m R : (r + 4 <= n)%nat -> (q + 3 <= n)%nat ->
  g_dbl_p1p1 (p2_at m q) = Some R ->
  exists m', m_g_dbl_p1p1 r q n m = Some m' /\ p1p1_at m' r = R /\ only n r 4 m m'.
Proof.
  intros hr hq H. unfold g_dbl_p1p1, p2_at in H. unfold m_g_dbl_p1p1. cbv zeta in *. repeat stp.
  injection H as H. subst R. split; [unfold p1p1_at; rd; reflexivity|fin].
Qed.

Lemma ge_eta (P : ge) : match P with Ge a b c d => Ge a b c d end = P.
Proof. destruct P; reflexivity. Qed.

Lemma m_g_add_ok r x y n m R : (r + 4 <= n)%nat -> (x + 4 <= n)%nat -> (y + 4 <= n)%nat -> g_add (ge_at m x) (ge_at m y) = Some R ->
  exists m', m_g_add r x y n m = Some m' /\ ge_at m' r = R /\ only n r 4 m m'.
Proof.
  intros hr hx hy H. unfold g_add, ge_at in H. vstep. destruct v as [a b c d]. vstep. destruct v as [a' b' c' d']. injection H as H. subst R.
  unfold m_g_add. cbv zeta. eapply step_call; [eapply (m_g_add_p1p1_ok (n + 0)); [lia|lia|lia|exact E]|]. intros m1 [h1 h2].
  eapply step_call; [eapply m_g_p1p1_to_p3_ok; [|rewrite h1; exact E0]; lia|]. intros m2 [h3 h4].
  exists m2. split; [reflexivity|]. split; [exact h3|]. intros e he1 he2. rewrite h4 by lia. apply h2; lia.
Qed.

Lemma m_g_double_ok r x n m R : (r + 4 <= n)%nat -> (x + 4 <= n)%nat -> g_double (ge_at m x) = Some R ->
  exists m', m_g_double r x n m = Some m' /\ ge_at m' r = R /\ only n r 4 m m'.
Proof.
  intros hr hx H. unfold g_double, ge_at in H. vstep. destruct v as [a b c d]. vstep. destruct v as [a' b' c' d']. injection H as H. subst R.
  unfold m_g_double. cbv zeta. eapply step_call; [eapply (m_g_dbl_p1p1_ok (n + 0)); [lia|lia|exact E]|]. intros m1 [h1 h2].
  eapply step_call; [eapply m_g_p1p1_to_p3_ok; [|rewrite h1; exact E0]; lia|]. intros m2 [h3 h4].
  exists m2. split; [reflexivity|]. split; [exact h3|]. intros e he1 he2. rewrite h4 by lia. apply h2; lia.
Qed.

Lemma m_g_negate_ok r x n m R : r = x \/ (r + 4 <= x)%nat \/ (x + 4 <= r)%nat -> g_negate (ge_at m x) = Some R ->
  exists m', m_g_negate r x n m = Some m' /\ ge_at m' r = R /\ forall a, (a < r)%nat \/ (r + 4 <= a)%nat -> m' a = m a.
Proof.
  intros hd H. unfold g_negate, ge_at in H. unfold m_g_negate. cbv zeta in *.
  destruct hd as [->|hd]; repeat stp; injection H as H; subst R; (split; [unfold ge_at; rd; reflexivity|fin]).
Qed.

Lemma m_g_equals_ok x y n m b : (x + 4 <= n)%nat -> (y + 4 <= n)%nat -> g_equals (ge_at m x) (ge_at m y) = Some b ->
  exists z, m_g_equals x y n m = Some z /\ fst z = b /\ only n 0 0 m (snd z).
Proof.
  intros hx hy H. unfold g_equals, ge_at in H. unfold m_g_equals. cbv zeta in *. repeat stp.
  injection H as H. subst b. cbn [fst snd]. split; [reflexivity|fin].
Qed.

Lemma m_g_isneutral_ok x n m b : (x + 4 <= n)%nat -> g_isneutral (ge_at m x) = Some b ->
  exists z, m_g_isneutral x n m = Some z /\ fst z = b /\ only n 0 0 m (snd z).
Proof.
  intros hx H. unfold g_isneutral, ge_at in H. unfold m_g_isneutral. cbv zeta in *.
  vstep. destruct v as [a0 b0 c0 d0]. eapply step_call; [eapply (m_g_double_ok (n + 0)); [lia|lia|exact E]|]. intros m1 [h1 h2].
  vstep. destruct v as [a1 b1 c1 d1]. eapply step_call; [eapply (m_g_double_ok (n + 0)); [lia|lia|rewrite h1; exact E0]|]. intros m2 [h3 h4].
  vstep. destruct v as [a2 b2 c2 d2]. eapply step_call; [eapply (m_g_double_ok (n + 0)); [lia|lia|rewrite h3; exact E1]|]. intros m3 [h5 h6].
  unfold ge_at in h5. injection h5 as e1 e2 e3 e4. clear h1 h3 E E0 E1. vstep. eapply step_bind; [rewrite e1; eassumption|]. vstep.
  eapply step_bind; [rewrite e2, e3; eassumption|]. eexists. split; [reflexivity|]. injection H as H. subst b. cbn [fst snd]. split; [reflexivity|].
  intros a ha hb. rewrite (h6 a) by lia. rewrite (h4 a) by lia. apply h2; lia.
Qed.

Lemma m_g_from_jacobi_quartic_ok x s t n m R : (x + 4 <= n)%nat -> (s < n)%nat -> (t < n)%nat ->
  g_from_jacobi_quartic (m s) (m t) = Some R ->
  exists m', m_g_from_jacobi_quartic x s t n m = Some m' /\ ge_at m' x = R /\ only n x 4 m m'.
Proof.
  intros hx hs ht H. unfold g_from_jacobi_quartic in H. unfold m_g_from_jacobi_quartic. cbv zeta in *. stp. stp.
  call m_c_double_ok. do 7 stp. vstep. match type of H with match ?u with Ge _ _ _ _ => _ end = _ => destruct u as [a b c d] end. injection H as H. subst R.
  eapply step_call; [eapply (m_g_p1p1_to_p3_ok x (n + 0) _ _ (Ge a b c d)); [lia|unfold p1p1_at; rd; eassumption]|]. intros m9 [e1 e2].
  eexists. split; [reflexivity|]. split; [exact e1|]. intros k k1 k2. rewrite e2 by lia. rd. reflexivity.
Qed.

Lemma m_g_elligator_ok x r0 n m R : (x + 4 <= n)%nat -> (r0 < n)%nat -> g_elligator (m r0) = Some R ->
  exists m', m_g_elligator x r0 n m = Some m' /\ ge_at m' x = R /\ only n x 4 m m'.
Proof.
  intros hx hr H. unfold g_elligator in H. unfold m_g_elligator. cbv zeta in *. do 26 stp. vstep. match type of H with (let (_, _) := ?u in _) = _ => destruct u as [b u'] end.
  eapply step_call; [eapply m_c_invsqrti_ok; [lia|lia|rd; eassumption]|]. intros [b2 m1'] (hb & e1 & e2). cbn [fst snd] in *. subst b2.
  call m_c_abs_ok. do 30 stp. vstep. match type of H with match ?u with Ge _ _ _ _ => _ end = _ => destruct u as [a1 a2 a3 a4] end. injection H as H. subst R.
  eapply step_call; [eapply (m_g_from_jacobi_quartic_ok x (n + 10) (n + 11) _ _ (Ge a1 a2 a3 a4)); [lia|lia|lia|rd; eassumption]|]. intros mm [e3 e4].
  eexists. split; [reflexivity|]. split; [exact e3|]. intros k k1 k2. rewrite e4 by lia. rd. reflexivity.
Qed.
