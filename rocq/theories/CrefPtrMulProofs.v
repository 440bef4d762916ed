(** Scalar multiplication on the memory (CrefPtrMul.v) computes the functions of CrefMul.v. *)
From Coq Require Import ZArith List Lia.
From Verif Require Import Words ScalarCode CLang Fe25Code CrefFeCode CrefFe CrefCode CrefScalar CrefTable CrefMul CrefPtr CrefPtrCode
  CrefPtrProofs CrefPtrMul.
Import ListNotations.
Open Scope Z_scope.

Lemma for_upo_sim {A B : Type} (R : nat -> A -> B -> Prop) f g : forall n a b w, R 0%nat a b ->
  (forall k a b w, (k < n)%nat -> R k a b -> f k a = Some w -> exists v, g k b = Some v /\ R (S k) w v) ->
  for_upo n f a = Some w -> exists v, for_upo n g b = Some v /\ R n w v.
Proof.
  induction n as [|n ih]; intros a b w h0 hs h; cbn [for_upo] in *.
  - injection h as h. subst w. exists b. split; [reflexivity|exact h0].
  - apply bind_inv in h. destruct h as (u & e & h). destruct (ih a b u h0) as (v & e1 & h1).
    { intros k a1 b1 w1 hk. apply hs. lia. }
    { exact e. }
    destruct (hs n u v w) as (v2 & e2 & h2); [lia|exact h1|exact h|]. exists v2. rewrite e1. split; [exact e2|exact h2].
Qed.

Lemma some_inj {A : Type} (a b : A) : Some a = Some b -> a = b.
Proof. intros h. injection h as h. exact h. Qed.

Lemma ge_at_st m a P : ge_at (st_ge m a P) a = P.
Proof.
  destruct P as [x y z t]. unfold ge_at, st_ge. f_equal; repeat first [rewrite st_eq; reflexivity | rewrite st_ne by lia].
Qed.
Lemma st_ge_ne m a P b : (b < a)%nat \/ (a + 4 <= b)%nat -> st_ge m a P b = m b.
Proof. intros h. destruct P as [x y z t]. unfold st_ge. rewrite !st_ne by lia. reflexivity. Qed.
Lemma ge_at_only n r k m m' a : only n r k m m' -> (a + 4 <= n)%nat -> (a + 4 <= r)%nat \/ (r + k <= a)%nat -> ge_at m' a = ge_at m a.
Proof. intros h h1 h2. unfold ge_at. rewrite !h by lia. reflexivity. Qed.
Lemma ge_at_st_ne m a P b : (b + 4 <= a)%nat \/ (a + 4 <= b)%nat -> ge_at (st_ge m a P) b = ge_at m b.
Proof. intros h. unfold ge_at. rewrite !st_ge_ne by lia. reflexivity. Qed.

(** ** The choice of table entries *)

Lemma m_cmov_aff_ok r q b m : exists m', m_cmov_aff r q b m = Some m' /\ aff_in m' r = cmov_aff (aff_in m r) q b /\
  forall a, (a < r)%nat \/ (r + 2 <= a)%nat -> m' a = m a.
Proof.
  destruct q as [qx qy]. unfold m_cmov_aff. repeat stp. split; [unfold aff_in, cmov_aff; rd; reflexivity|]. intros a ha. rd. reflexivity.
Qed.

Lemma m_choose_aff_ok t pos b n m T : (t + 2 <= n)%nat -> g_choose_aff pos b = Some T ->
  exists m', m_choose_aff t pos b n m = Some m' /\ aff_in m' t = T /\ only n t 2 m m'.
Proof.
  intros ht H. unfold g_choose_aff in H. unfold m_choose_aff. cbv zeta in *. vstep. destruct v as [qx qy].
  eapply step_bind; [exact E|]. cbv beta iota. clear E. stp. stp.
  assert (a0 : aff_in m1 t = Aff qx qy) by (unfold aff_in; rd; reflexivity).
  assert (o0 : forall a, (a < t)%nat \/ (t + 2 <= a)%nat -> m1 a = m a) by (intros a ha; rd; reflexivity).
  clear h h0 h1 h2 m0.
  vstep. eapply step_bind; [exact E|]. clear E. eapply step_call; [apply m_cmov_aff_ok|]. intros m2 [a1 o1].
  vstep. eapply step_bind; [exact E|]. clear E. eapply step_call; [apply m_cmov_aff_ok|]. intros m3 [a2 o2].
  vstep. eapply step_bind; [exact E|]. clear E. eapply step_call; [apply m_cmov_aff_ok|]. intros m4 [a3 o3].
  vstep. eapply step_bind; [exact E|]. clear E. eapply step_call; [apply m_cmov_aff_ok|]. intros m5 [a4 o4].
  rewrite <- a0, <- a1, <- a2, <- a3, <- a4 in H. unfold aff_in in H. repeat stp.
  injection H as H. subst T. split; [unfold aff_in; rd; reflexivity|].
  intros a ha hb. rewrite h2, h0 by lia. rewrite o4, o3, o2, o1, o0 by lia. reflexivity.
Qed.

(** the first [k] elements of the array at [a] *)
Definition arr (m : cmem) (a k : nat) (l : list ge) : Prop := forall j, (j < k)%nat -> nth_error l j = Some (ge_at m (a + 4 * j)).

Lemma m_choose_step_ok t pre b k n m : (t + 4 <= n)%nat -> (pre + 4 * (k + 2) <= t)%nat ->
  exists m', m_choose_step t pre b k m = Some m' /\
    ge_at m' t = cmov_ge (ge_at m t) (ge_at m (pre + 4 * (k + 1))) (Z.lor (g_static_equal b (Z.of_nat (k + 1))) (g_static_equal (i8 (- b)) (Z.of_nat (k + 1)))) /\
    forall a, (a < t)%nat \/ (t + 4 <= a)%nat -> m' a = m a.
Proof.
  intros h1 h2. unfold m_choose_step. cbv zeta. generalize (Z.lor (g_static_equal b (Z.of_nat (k + 1))) (g_static_equal (i8 (- b)) (Z.of_nat (k + 1)))).
  intros c. repeat stp. split; [unfold ge_at, cmov_ge; rd; reflexivity|]. intros a ha. rd. reflexivity.
Qed.

Lemma m_choose_ok t pre b n m l T : (t + 4 <= n)%nat -> (pre + 68 <= t)%nat -> arr m pre 17 l -> g_choose l b = Some T ->
  exists m', m_choose t pre b n m = Some m' /\ ge_at m' t = T /\ only n t 4 m m'.
Proof.
  intros h1 h2 hl H. unfold g_choose in H. unfold m_choose. cbv zeta in *. vstep. rewrite (hl 0%nat) in E by lia. injection E as E. subst v. vstep.
  match type of E with for_upo _ _ (ge_at m ?a) = _ => replace a with pre in E by lia end.
  destruct (for_upo_sim (fun _ T m' => ge_at m' t = T /\ forall a, (a < t)%nat \/ (t + 4 <= a)%nat -> m' a = m a)
    (g_choose_step l b) (m_choose_step t pre b) 16 (ge_at m pre) (st_ge m t (ge_at m pre)) v) as (m1 & e1 & h3 & h4).
  { split; [apply ge_at_st|]. intros a. apply st_ge_ne. }
  { intros k A m1 w hk [hA ho] hw. unfold g_choose_step in hw. rewrite (hl (k + 1)%nat) in hw by lia. apply some_inj in hw.
    destruct (m_choose_step_ok t pre b k n m1) as (m2 & e2 & h5 & h6); [lia|lia|]. exists m2. split; [exact e2|]. split.
    - rewrite h5, <- hw, hA. f_equal. unfold ge_at. rewrite !ho by lia. reflexivity.
    - intros a ha. rewrite h6 by lia. apply ho. exact ha. }
  { exact E. }
  clear E. eapply step_bind; [exact e1|]. rewrite <- h3 in H. unfold ge_at in H. repeat stp. injection H as H. subst T.
  split; [unfold ge_at; rd; reflexivity|]. intros a ha hb. rd. apply h4. exact hb.
Qed.

(** ** group_ge_scalarmult *)

Lemma nth_error_upd {A : Type} (l : list A) i j v : (i < length l)%nat -> nth_error (upd l i v) j = if Nat.eqb j i then Some v else nth_error l j.
Proof.
  revert i j. induction l as [|x l ih]; intros i j h; [cbn in h; lia|]. destruct i as [|i], j as [|j]; try reflexivity.
  cbn [upd nth_error]. cbn in h. rewrite ih by lia. reflexivity.
Qed.

Lemma upd_len {A : Type} (l : list A) i v : length (upd l i v) = length l.
Proof. revert i. induction l as [|x l ih]; intros i; destruct i; cbn [upd length]; try reflexivity. rewrite ih. reflexivity. Qed.

Lemma arr_upd n r m m' l i P N : arr m n i l -> length l = 17%nat -> (i < 17)%nat -> r = (n + 4 * i)%nat -> (n + 68 <= N)%nat ->
  ge_at m' r = P -> only N r 4 m m' -> arr m' n (S i) (upd l i P).
Proof.
  intros hl hn hi -> hN hP ho j hj. rewrite nth_error_upd by lia. destruct (Nat.eqb j i) eqn:e.
  - apply PeanoNat.Nat.eqb_eq in e. subst j. rewrite hP. reflexivity.
  - apply PeanoNat.Nat.eqb_neq in e. rewrite hl by lia. f_equal. symmetry. apply (ge_at_only _ _ _ _ _ _ ho); lia.
Qed.

Lemma pre_step_ok n m l k l' N : (n + 72 <= N)%nat -> length l = 17%nat -> arr m n (2 * k + 2) l -> (k < 7)%nat -> g_pre_step k l = Some l' ->
  exists m', m_pre_step n N k m = Some m' /\ length l' = 17%nat /\ arr m' n (2 * S k + 2) l' /\ forall a, (a < n)%nat -> m' a = m a.
Proof.
  intros hN hlen hl hk H. unfold g_pre_step in H. unfold m_pre_step. cbv zeta in *.
  assert (hdiv : Nat.div (2 * k + 2) 2 = (k + 1)%nat) by (symmetry; apply (PeanoNat.Nat.div_unique _ _ _ 0); lia).
  rewrite hdiv in *. vstep. rewrite (hl (k + 1)%nat) in E by lia. apply some_inj in E. subst v.
  vstep. rename v into d. vstep. rewrite nth_error_upd, PeanoNat.Nat.eqb_refl in E0 by lia. apply some_inj in E0. subst v.
  vstep. rewrite nth_error_upd in E0 by lia. replace (Nat.eqb 1 (2 * k + 2)) with false in E0 by (symmetry; apply PeanoNat.Nat.eqb_neq; lia).
  rewrite (hl 1%nat) in E0 by lia. apply some_inj in E0. subst v. vstep. rename v into e. apply some_inj in H.
  eapply step_call; [eapply (m_g_double_ok (n + 4 * (2 * k + 2))); [| |exact E]; lia|]. intros m1 [h1 h2].
  destruct (m_g_add_ok (n + 4 * (2 * k + 2 + 1)) (n + 4 * (2 * k + 2)) (n + 4 * 1) N m1 e) as (m2 & e2 & h3 & h4); [lia|lia|lia| |].
  { rewrite h1. rewrite (ge_at_only _ _ _ _ _ (n + 4 * 1) h2) by lia. exact E0. }
  exists m2. split; [exact e2|]. rewrite <- H. rewrite !upd_len. split; [exact hlen|].
  pose proof (arr_upd n _ m m1 l (2 * k + 2) d N hl hlen ltac:(lia) eq_refl ltac:(lia) h1 h2) as g1.
  split.
  - replace (2 * S k + 2)%nat with (S (2 * k + 2 + 1)) by lia.
    apply (arr_upd n (n + 4 * (2 * k + 2 + 1)) m1 m2 (upd l (2 * k + 2) d) (2 * k + 2 + 1) e N); [|rewrite upd_len; exact hlen|lia|reflexivity|lia|exact h3|exact h4].
    replace (2 * k + 2 + 1)%nat with (S (2 * k + 2)) by lia. exact g1.
  - intros a ha. rewrite h4 by lia. apply h2; lia.
Qed.

Lemma m_pre_ok n m x l N : (n + 72 <= N)%nat -> (x + 4 <= n)%nat -> g_pre (ge_at m x) = Some l ->
  exists m', (let* m1 := for_upo 7 (m_pre_step n N) (st_ge (st_ge m (n + 4 * 0) g_neutral) (n + 4 * 1) (ge_at (st_ge m (n + 4 * 0) g_neutral) x)) in
              m_g_double (n + 4 * 16) (n + 4 * 8) N m1) = Some m' /\
    arr m' n 17 l /\ forall a, (a < n)%nat -> m' a = m a.
Proof.
  intros hN hx H. unfold g_pre in H. vstep.
  destruct (for_upo_sim (fun k l m' => length l = 17%nat /\ arr m' n (2 * k + 2) l /\ forall a, (a < n)%nat -> m' a = m a)
    g_pre_step (m_pre_step n N) 7 (upd (repeat g_neutral 17) 1 (ge_at m x))
    (st_ge (st_ge m (n + 4 * 0) g_neutral) (n + 4 * 1) (ge_at (st_ge m (n + 4 * 0) g_neutral) x)) v) as (m1 & e1 & h1 & h2 & h3).
  { split; [reflexivity|]. split.
    - intros j hj. rewrite nth_error_upd by (cbn; lia). destruct j as [|[|j]]; [| |lia].
      + cbn [Nat.eqb]. change (nth_error (repeat g_neutral 17) 0) with (Some g_neutral). f_equal. rewrite ge_at_st_ne by lia. rewrite ge_at_st. reflexivity.
      + cbn [Nat.eqb]. f_equal. rewrite ge_at_st. rewrite ge_at_st_ne by lia. reflexivity.
    - intros a ha. rewrite !st_ge_ne by lia. reflexivity. }
  { intros k a b w hk (g1 & g2 & g3) hw. destruct (pre_step_ok n b a k w N hN g1 g2 hk hw) as (m2 & e2 & g4 & g5 & g6).
    exists m2. split; [exact e2|]. split; [exact g4|]. split; [exact g5|]. intros c hc. rewrite g6 by exact hc. apply g3. exact hc. }
  { exact E. }
  rewrite e1. vstep. rewrite (h2 8%nat) in E0 by lia. apply some_inj in E0. subst v0. vstep. apply some_inj in H. subst l. rename v0 into d.
  destruct (m_g_double_ok (n + 4 * 16) (n + 4 * 8) N m1 d) as (m2 & e2 & g1 & g2); [lia|lia|exact E0|].
  exists m2. split; [exact e2|]. split.
  - exact (arr_upd n _ m1 m2 v 16 d N h2 h1 ltac:(lia) eq_refl ltac:(lia) g1 g2).
  - intros a ha. rewrite g2 by lia. apply h3. exact ha.
Qed.

Lemma sm_step_ok r n m l w i P R N : (n + 72 = N)%nat -> (r + 4 <= n)%nat -> arr m n 17 l -> ge_at m r = P -> g_sm_step l w i P = Some R ->
  exists m', m_sm_step r n (n + 68) w N i m = Some m' /\ arr m' n 17 l /\ ge_at m' r = R /\ forall a, (a < n)%nat -> (a < r)%nat \/ (r + 4 <= a)%nat -> m' a = m a.
Proof.
  intros hN hr hl hP H. unfold g_sm_step in H. unfold m_sm_step. vstep.
  destruct (for_upo_sim (fun _ P m' => ge_at m' r = P /\ only N r 4 m m') (fun _ r => g_double r) (fun _ m => m_g_double r r N m) 5 P m v) as (m1 & e1 & h1 & h2).
  { split; [exact hP|]. intros a _ _. reflexivity. }
  { intros k A b u _ [g1 g2] hu. destruct (m_g_double_ok r r N b u) as (m2 & e2 & g3 & g4); [lia|lia|rewrite g1; exact hu|].
    exists m2. split; [exact e2|]. split; [exact g3|]. intros a ha hb. rewrite g4 by lia. apply g2; lia. }
  { exact E. }
  clear E. eapply step_bind; [exact e1|]. vstep. rename v0 into T.
  assert (hl1 : arr m1 n 17 l). { intros j hj. rewrite hl by exact hj. f_equal. symmetry. apply (ge_at_only _ _ _ _ _ _ h2); lia. }
  destruct (m_choose_ok (n + 68) n (at_ w i) N m1 l T) as (m2 & e2 & g1 & g2); [lia|lia|exact hl1|exact E|].
  eapply step_bind; [exact e2|]. destruct (m_g_add_ok r r (n + 68) N m2 R) as (m3 & e3 & g3 & g4); [lia|lia|lia| |].
  { rewrite g1. rewrite (ge_at_only _ _ _ _ _ r g2) by lia. rewrite h1. exact H. }
  exists m3. split; [exact e3|]. split.
  - intros j hj. rewrite hl1 by exact hj. f_equal. symmetry. rewrite (ge_at_only _ _ _ _ _ _ g4) by lia. apply (ge_at_only _ _ _ _ _ _ g2); lia.
  - split; [exact g3|]. intros a ha hb. rewrite g4 by lia. rewrite g2 by lia. apply h2; lia.
Qed.

Lemma m_scalarmult_ok r x s n m R : (r + 4 <= n)%nat -> (x + 4 <= n)%nat -> g_scalarmult (ge_at m x) s = Some R ->
  exists m', m_scalarmult r x s n m = Some m' /\ ge_at m' r = R /\ only n r 4 m m'.
Proof.
  intros hr hx H. unfold g_scalarmult in H. vstep. rename v into l. unfold m_scalarmult. cbv zeta.
  destruct (m_pre_ok n m x l (n + 72)) as (m1 & e1 & h1 & h2); [lia|exact hx|exact E|].
  apply bind_inv in e1. destruct e1 as (m0 & e0 & e1). eapply step_bind; [exact e0|]. cbv beta. eapply step_bind; [exact e1|].
  destruct (for_upo_sim (fun _ P m' => arr m' n 17 l /\ ge_at m' r = P /\ only n r 4 m m')
    (fun k r => g_sm_step l (cs_window5 s) (50 - k) r) (fun k m => m_sm_step r n (n + 68) (cs_window5 s) (n + 72) (50 - k) m) 51 g_neutral (st_ge m1 r g_neutral) R)
    as (m2 & e2 & g1 & g2 & g3).
  { split; [|split; [apply ge_at_st|]].
    - intros j hj. rewrite h1 by exact hj. f_equal. symmetry. apply ge_at_st_ne. lia.
    - intros a ha hb. rewrite st_ge_ne by lia. apply h2. exact ha. }
  { intros k P b w hk (g1 & g2 & g3) hw. destruct (sm_step_ok r n b l (cs_window5 s) (50 - k) P w (n + 72) eq_refl hr g1 g2 hw) as (m3 & e3 & g4 & g5 & g6).
    exists m3. split; [exact e3|]. split; [exact g4|]. split; [exact g5|]. intros a ha hb. rewrite g6 by assumption. apply g3; assumption. }
  { exact H. }
  exists m2. split; [exact e2|]. split; [exact g2|exact g3].
Qed.

(** ** group_ge_scalarmult_base *)

Local Strategy 3000 [g_choose_aff m_choose_aff for_upo g_mixadd2 m_g_mixadd2 c_mul cs_window3 c_one].


Lemma m_scalarmult_base_ok r s n m R : (r + 4 <= n)%nat -> g_scalarmult_base s = Some R ->
  exists m', m_scalarmult_base r s n m = Some m' /\ ge_at m' r = R /\ only n r 4 m m'.
Proof.
  intros hr H. unfold g_scalarmult_base in H. unfold m_scalarmult_base. cbv zeta in *. vstep. destruct v as [rx ry].
  eapply step_call; [eapply m_choose_aff_ok; [|exact E]; lia|]. intros m1 [h1 h2]. unfold aff_in in h1. injection h1 as h1x h1y. clear E. vstep.
  rename v into rt. stp. eapply step_bind; [rd; exact E|]. stp.
  destruct (for_upo_sim (fun _ P m' => ge_at m' r = P /\ only n r 4 m m')
    (fun k r0 => let* t := g_choose_aff (k + 1) (at_ (cs_window3 s) (k + 1)) in g_mixadd2 r0 t)
    (fun k m0 => let* m2 := m_choose_aff n (k + 1) (at_ (cs_window3 s) (k + 1)) (n + 2) m0 in m_g_mixadd2 r n (n + 2) m2) 84 (Ge rx ry c_one rt) m2 R)
    as (m3 & e3 & g1 & g2).
  { split; [unfold ge_at; rd; reflexivity|]. intros a ha hb. rd. reflexivity. }
  { intros k P b w hk (g1 & g2) hw. cbv beta in hw. apply bind_inv in hw. destruct hw as (T & eT & hw).
    destruct (m_choose_aff_ok n (k + 1) (at_ (cs_window3 s) (k + 1)) (n + 2) b T) as (m4 & e4 & g3 & g4); [lia|exact eT|].
    destruct (m_g_mixadd2_ok r n (n + 2) m4 w) as (m5 & e5 & g5 & g6); [lia|lia| |].
    { rewrite g3. rewrite (ge_at_only _ _ _ _ _ r g4) by lia. rewrite g1. exact hw. }
    exists m5. rewrite e4. split; [exact e5|]. split; [exact g5|]. intros a ha hb. rewrite g6 by lia. rewrite g4 by lia. apply g2; assumption. }
  { exact H. }
  exists m3. split; [exact e3|]. split; [exact g1|exact g2].
Qed.

(** ** group_ge_multiscalarmult *)

(** the points and scalars of an array, as the pairs that CrefMul.v takes *)
Definition pairs (m : cmem) (x : nat) (ss : list (list Z)) : list (ge * list Z) :=
  map (fun i => (ge_at m (x + 4 * i), nth i ss [])) (seq 0 (length ss)).

Lemma fold_for {A B : Type} (f : A -> B -> option A) (g : nat -> B) n a :
  fold_left (fun r i => let* r := r in f r (g i)) (seq 0 n) (Some a) = for_upo n (fun i r => f r (g i)) a.
Proof.
  induction n as [|n ih]; [reflexivity|]. rewrite seq_S, fold_left_app, ih. reflexivity.
Qed.

Lemma fold_left_map {A B C : Type} (f : A -> B -> A) (g : C -> B) l : forall a, fold_left f (map g l) a = fold_left (fun a x => f a (g x)) l a.
Proof. induction l as [|x l ih]; intros a; [reflexivity|]. cbn [map fold_left]. apply ih. Qed.

Lemma multi_for m x ss : g_multiscalarmult (pairs m x ss) =
  for_upo (length ss) (fun i r => let* t := g_scalarmult (ge_at m (x + 4 * i)) (nth i ss []) in g_add r t) g_neutral.
Proof.
  unfold g_multiscalarmult, pairs. rewrite fold_left_map.
  exact (fold_for (fun r xs => let* t := g_scalarmult (fst xs) (snd xs) in g_add r t) (fun i => (ge_at m (x + 4 * i), nth i ss [])) (length ss) g_neutral).
Qed.

Lemma m_multiscalarmult_ok r x ss n m R : (r + 4 <= n)%nat -> (x + 4 * length ss <= n)%nat -> (r + 4 <= x)%nat \/ (x + 4 * length ss <= r)%nat ->
  g_multiscalarmult (pairs m x ss) = Some R ->
  exists m', m_multiscalarmult r x ss n m = Some m' /\ ge_at m' r = R /\ only n r 4 m m'.
Proof.
  intros hr hx hd H. rewrite multi_for in H. unfold m_multiscalarmult.
  destruct (for_upo_sim (fun _ P m' => ge_at m' r = P /\ only n r 4 m m')
    (fun i r => let* t := g_scalarmult (ge_at m (x + 4 * i)) (nth i ss []) in g_add r t) (m_multi_step r x ss n) (length ss) g_neutral (st_ge m r g_neutral) R)
    as (m1 & e1 & g1 & g2).
  { split; [apply ge_at_st|]. intros a ha hb. apply st_ge_ne. exact hb. }
  { intros k P b w hk (g1 & g2) hw. cbv beta in hw. apply bind_inv in hw. destruct hw as (T & eT & hw). unfold m_multi_step. cbv zeta.
    destruct (m_scalarmult_ok n (x + 4 * k) (nth k ss []) (n + 4) b T) as (m4 & e4 & g3 & g4); [lia|lia| |].
    { rewrite (ge_at_only _ _ _ _ _ (x + 4 * k) g2) by lia. exact eT. }
    destruct (m_g_add_ok r r n (n + 4) m4 w) as (m5 & e5 & g5 & g6); [lia|lia|lia| |].
    { rewrite g3. rewrite (ge_at_only _ _ _ _ _ r g4) by lia. rewrite g1. exact hw. }
    exists m5. rewrite e4. split; [exact e5|]. split; [exact g5|]. intros a ha hb. rewrite g6 by lia. rewrite g4 by lia. apply g2; assumption. }
  { exact H. }
  exists m1. split; [exact e1|]. split; [exact g1|exact g2].
Qed.
