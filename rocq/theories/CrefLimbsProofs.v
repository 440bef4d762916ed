(** The programs of CrefFeCode.v read all arguments before they write. *)
From Coq Require Import ZArith List Bool Lia.
From Verif Require Import Words CLang CLangFacts Fe25Code CrefFeCode CrefFe CrefPtr CrefPtrProofs CrefLimbs.
Import ListNotations.
Open Scope Z_scope.

(** no variable below [k] *)
Fixpoint noread (k : nat) (e : cex) : bool :=
  match e with
  | Var n => Nat.leb k n
  | Cst _ => true
  | Bin _ _ a b => noread k a && noread k b
  | Opp _ a | Shl _ a _ | Shr _ a _ | Cast _ a => noread k a
  end.

(** The lines numbered from [i]: those from [f] on read no argument. *)
Fixpoint late (nin f i : nat) (body : list cex) : bool :=
  match body with [] => true | e :: r => (Nat.ltb i f || noread nin e) && late nin f (S i) r end.

Definition reads_first (nin : nat) (f : cfun) : bool :=
  let q := fold_right Nat.min (nin + length (cbody f))%nat (couts f) in
  Nat.leb nin q && late nin q nin (cbody f).

Lemma ceval_ext strict k e env env' : noread k e = true -> (forall n, (k <= n)%nat -> nth_error env n = nth_error env' n) ->
  ceval strict env e = ceval strict env' e.
Proof.
  intros h he. induction e as [n|z|o t a iha b ihb|t a iha|t a iha j|t a iha j|t a iha]; cbn [ceval noread] in *.
  - apply he. apply PeanoNat.Nat.leb_le. exact h.
  - reflexivity.
  - apply andb_true_iff in h. destruct h as [h1 h2]. rewrite iha, ihb by assumption. reflexivity.
  - rewrite iha by assumption. reflexivity.
  - rewrite iha by assumption. reflexivity.
  - rewrite iha by assumption. reflexivity.
  - rewrite iha by assumption. reflexivity.
Qed.

Lemma lwrite_other outs : forall oa k v m a, ~ In a oa -> lwrite outs oa k v m a = m a.
Proof.
  induction outs as [|o outs ih]; intros [|b oa] k v m a h; cbn [lwrite]; try reflexivity.
  destruct (Nat.eqb o k).
  - unfold lst. destruct (Nat.eqb a b) eqn:e; [|reflexivity]. apply PeanoNat.Nat.eqb_eq in e. exfalso. apply h. left. congruence.
  - apply ih. intros h1. apply h. right. exact h1.
Qed.

Lemma lwrite_none outs : forall oa k v m, ~ In k outs -> lwrite outs oa k v m = m.
Proof.
  induction outs as [|o outs ih]; intros [|b oa] k v m h; cbn [lwrite]; try reflexivity.
  destruct (Nat.eqb o k) eqn:e.
  - apply PeanoNat.Nat.eqb_eq in e. exfalso. apply h. left. exact e.
  - apply ih. intros h1. apply h. right. exact h1.
Qed.

Lemma lwrite_at outs : forall oa k v m j a o, NoDup outs -> NoDup oa -> length outs = length oa ->
  nth_error outs j = Some o -> nth_error oa j = Some a -> lwrite outs oa k v m a = if Nat.eqb o k then v else m a.
Proof.
  induction outs as [|o' outs ih]; intros [|b oa] k v m j a o h1 h2 hl e1 e2; cbn [length] in hl; try discriminate; destruct j as [|j]; cbn [nth_error] in *; try discriminate; cbn [lwrite].
  - injection e1 as e1. injection e2 as e2. subst o' b. destruct (Nat.eqb o k) eqn:e.
    + unfold lst. rewrite PeanoNat.Nat.eqb_refl. reflexivity.
    + apply lwrite_other. inversion h2. assumption.
  - inversion h1 as [|? ? n1 d1]. inversion h2 as [|? ? n2 d2]. subst. destruct (Nat.eqb o' k) eqn:e.
    + apply PeanoNat.Nat.eqb_eq in e. subst o'. destruct (Nat.eqb o k) eqn:e3.
      * apply PeanoNat.Nat.eqb_eq in e3. subst o. exfalso. apply n1. apply nth_error_In in e1. exact e1.
      * unfold lst. destruct (Nat.eqb a b) eqn:e4; [|reflexivity]. apply PeanoNat.Nat.eqb_eq in e4. subst a. exfalso. apply n2. apply nth_error_In in e2. exact e2.
    + apply (ih oa k v m j a o); auto.
Qed.

Lemma reads_at outs : forall env vs, reads env outs = Some vs -> length vs = length outs /\
  forall j o, nth_error outs j = Some o -> nth_error vs j = nth_error env o.
Proof.
  induction outs as [|o outs ih]; intros env vs h; cbn [reads] in h.
  - injection h as h. subst vs. split; [reflexivity|]. intros [|j] o e; discriminate.
  - destruct (nth_error env o) as [x|] eqn:e1; [|discriminate]. destruct (reads env outs) as [l|] eqn:e2; [|discriminate].
    injection h as h. subst vs. destruct (ih _ _ e2) as [hl hj]. split; [cbn [length]; congruence|].
    intros [|j] o' e; cbn [nth_error] in *; [injection e as e; subst o'; congruence|apply hj; exact e].
Qed.

Lemma min_le l : forall b o, In o l -> (fold_right Nat.min b l <= o)%nat.
Proof. induction l as [|x l ih]; intros b o h; [destruct h|]. cbn [fold_right]. destruct h as [->|h]; [lia|]. specialize (ih b o h). lia. Qed.

Section sim.
Context (strict : bool) (nin q : nat) (ia oa outs : list nat) (m0 : lmem).
Hypothesis hia : length ia = nin.
Hypothesis hq : (nin <= q)%nat.
Hypothesis hmin : forall o, In o outs -> (q <= o)%nat.
Hypothesis h1 : NoDup outs.
Hypothesis h2 : NoDup oa.
Hypothesis hlen : length outs = length oa.

Lemma lrun_ok body : forall loc m env, late nin q (nin + length loc) body = true ->
  ((nin + length loc <= q)%nat -> m = m0) ->
  (forall j o a, nth_error outs j = Some o -> nth_error oa j = Some a -> (o < nin + length loc)%nat -> Some (m a) = nth_error (map m0 ia ++ loc) o) ->
  (forall a, ~ In a oa -> m a = m0 a) ->
  crun strict (map m0 ia ++ loc) body = Some env ->
  exists m', lrun strict ia oa outs body loc m = Some m' /\
    (forall j o a, nth_error outs j = Some o -> nth_error oa j = Some a -> (o < length env)%nat -> Some (m' a) = nth_error env o) /\
    (forall a, ~ In a oa -> m' a = m0 a).
Proof.
  induction body as [|e body ih]; intros loc m env hl hm hw ho hr; cbn [late lrun crun] in *.
  - injection hr as hr. subst env. exists m. split; [reflexivity|]. split; [|exact ho]. intros j o a e1 e2 h. apply (hw j); try assumption.
    rewrite app_length, map_length in h. lia.
  - apply andb_true_iff in hl. destruct hl as [hl1 hl2].
    assert (he : ceval strict (map m ia ++ loc) e = ceval strict (map m0 ia ++ loc) e).
    { apply orb_true_iff in hl1. destruct hl1 as [h|h].
      - apply PeanoNat.Nat.ltb_lt in h. rewrite hm by lia. reflexivity.
      - apply (ceval_ext strict nin); [exact h|]. intros n hn. rewrite !nth_error_app2 by (rewrite map_length; lia). rewrite !map_length. reflexivity. }
    rewrite he. destruct (ceval strict (map m0 ia ++ loc) e) as [v|]; [|discriminate].
    assert (hs : (nin + length (loc ++ [v]) = S (nin + length loc))%nat) by (rewrite app_length; cbn [length]; lia).
    rewrite hia. apply ih.
    + rewrite hs. exact hl2.
    + rewrite hs. intros h. rewrite lwrite_none; [apply hm; lia|]. intros hin. specialize (hmin _ hin). lia.
    + intros j o a e1 e2 h. rewrite hs in h. rewrite (lwrite_at outs oa _ v m j a o h1 h2 hlen e1 e2). rewrite app_assoc.
      destruct (Nat.eqb o (nin + length loc)) eqn:e3.
      * apply PeanoNat.Nat.eqb_eq in e3. subst o. rewrite nth_error_app2 by (rewrite app_length, map_length; lia).
        rewrite app_length, map_length, hia, PeanoNat.Nat.sub_diag. reflexivity.
      * apply PeanoNat.Nat.eqb_neq in e3. rewrite nth_error_app1 by (rewrite app_length, map_length; lia). apply (hw j); try assumption. lia.
    + intros a ha. rewrite lwrite_other by exact ha. apply ho. exact ha.
    + rewrite app_assoc. exact hr.
Qed.
End sim.

Lemma crun_len strict body : forall env env', crun strict env body = Some env' -> length env' = (length env + length body)%nat.
Proof.
  induction body as [|e body ih]; intros env env' h; cbn [crun] in h.
  - injection h as h. subst. cbn [length]. lia.
  - destruct (ceval strict env e) as [v|]; [|discriminate]. apply ih in h. rewrite h, app_length. cbn [length]. lia.
Qed.

Lemma nth_error_eq {A : Type} : forall l k : list A, length l = length k -> (forall j, (j < length l)%nat -> nth_error l j = nth_error k j) -> l = k.
Proof.
  induction l as [|x l ih]; intros [|y k] h hj; cbn [length] in *; try discriminate; [reflexivity|].
  pose proof (hj 0%nat ltac:(lia)) as h0. cbn in h0. injection h0 as h0. subst y. f_equal. apply ih; [lia|].
  intros j h1. apply (hj (S j)). lia.
Qed.

(** any overlap of [ia] and [oa] *)
Theorem lcall_ok strict f ia oa m vs : reads_first (length ia) f = true -> NoDup (couts f) -> NoDup oa -> length (couts f) = length oa ->
  ccall strict f (map m ia) = Some vs ->
  exists m', lcall strict f ia oa m = Some m' /\ map m' oa = vs /\ forall a, ~ In a oa -> m' a = m a.
Proof.
  intros hr hn1 hn2 hlen h. unfold ccall in h. destruct (crun strict (map m ia) (cbody f)) as [env|] eqn:e; [|discriminate].
  unfold reads_first in hr. apply andb_true_iff in hr. destruct hr as [hr1 hr2]. apply PeanoNat.Nat.leb_le in hr1.
  destruct (lrun_ok strict (length ia) _ ia oa (couts f) m eq_refl hr1 (fun o => min_le (couts f) _ o) hn1 hn2 hlen (cbody f) [] m env)
    as (m' & e1 & h3 & h4).
  - cbn [length]. rewrite PeanoNat.Nat.add_0_r. exact hr2.
  - intros _. reflexivity.
  - intros j o a e1 e2 h3. cbn [length] in h3. apply nth_error_In in e1. apply (min_le _ (length ia + length (cbody f))%nat) in e1. lia.
  - intros a _. reflexivity.
  - rewrite app_nil_r. exact e.
  - exists m'. split; [exact e1|]. split; [|exact h4]. destruct (reads_at _ _ _ h) as [hl hj].
    apply nth_error_eq; [rewrite map_length; lia|]. intros j hj1. rewrite map_length in hj1.
    destruct (nth_error oa j) as [a|] eqn:ea; [|apply nth_error_None in ea; lia].
    destruct (nth_error (couts f) j) as [o|] eqn:eo; [|apply nth_error_None in eo; lia].
    rewrite (map_nth_error m' j oa ea). rewrite (hj j o eo).
    apply (h3 j); try assumption. apply nth_error_Some. intros hno. pose proof (hj j o eo) as hc. rewrite hno in hc. apply nth_error_None in hc. lia.
Qed.

(** ** calls on field elements *)

Lemma limb_addrs_eq a : limb_addrs a = [(10 * a + 0); (10 * a + 1); (10 * a + 2); (10 * a + 3); (10 * a + 4); (10 * a + 5); (10 * a + 6);
  (10 * a + 7); (10 * a + 8); (10 * a + 9)]%nat.
Proof. reflexivity. Qed.
Lemma limb_addrs_in a b : In b (limb_addrs a) -> (10 * a <= b < 10 * a + 10)%nat.
Proof. intros h. unfold limb_addrs in h. apply in_map_iff in h. destruct h as (i & e & h). apply in_seq in h. lia. Qed.
Lemma limb_addrs_nodup a : NoDup (limb_addrs a).
Proof. rewrite limb_addrs_eq. repeat (constructor; [cbn [In]; lia|]). constructor. Qed.
Lemma map_limbs m a : map m (limb_addrs a) = limbs_of (cells m a).
Proof. reflexivity. Qed.

Lemma cells_st m m' h v : map m' (limb_addrs h) = limbs_of v -> (forall a, ~ In a (limb_addrs h) -> m' a = m a) ->
  forall a, cells m' a = st (cells m) h v a.
Proof.
  intros hv ho a. unfold st. destruct (Nat.eqb a h) eqn:e.
  - apply PeanoNat.Nat.eqb_eq in e. subst a. rewrite map_limbs in hv. destruct (cells m' h), v. cbn [limbs_of] in hv. injection hv. intros. subst. reflexivity.
  - apply PeanoNat.Nat.eqb_neq in e. unfold cells. rewrite !ho; [reflexivity|..]; intros hin; apply limb_addrs_in in hin; lia.
Qed.

Lemma of_limbs_inv l v : of_limbs l = Some v -> l = limbs_of v.
Proof.
  intros h. destruct l as [|? [|? [|? [|? [|? [|? [|? [|? [|? [|? [|? ?]]]]]]]]]]]; try discriminate. cbn [of_limbs] in h. injection h as h. subst v. reflexivity.
Qed.

Lemma lcall1_ok p h f m v : reads_first 10 p = true -> NoDup (couts p) -> length (couts p) = 10%nat -> call1 p (cells m f) = Some v ->
  exists m', lcall1 p h f m = Some m' /\ forall a, cells m' a = st (cells m) h v a.
Proof.
  intros hr hn hl e. unfold call1 in e. destruct (ccall false p (limbs_of (cells m f))) as [vs|] eqn:ec; [|discriminate].
  apply of_limbs_inv in e. subst vs. rewrite <- map_limbs in ec.
  destruct (lcall_ok false p (limb_addrs f) (limb_addrs h) m (limbs_of v) hr hn (limb_addrs_nodup h) hl ec) as (m' & e1 & e2 & e3).
  exists m'. split; [exact e1|]. apply cells_st; assumption.
Qed.

Lemma lcall2_ok p h f g m v : reads_first 20 p = true -> NoDup (couts p) -> length (couts p) = 10%nat -> call2 p (cells m f) (cells m g) = Some v ->
  exists m', lcall2 p h f g m = Some m' /\ forall a, cells m' a = st (cells m) h v a.
Proof.
  intros hr hn hl e. unfold call2 in e. destruct (ccall false p (limbs_of (cells m f) ++ limbs_of (cells m g))) as [vs|] eqn:ec; [|discriminate].
  apply of_limbs_inv in e. subst vs. rewrite <- !map_limbs, <- map_app in ec.
  destruct (lcall_ok false p (limb_addrs f ++ limb_addrs g) (limb_addrs h) m (limbs_of v) hr hn (limb_addrs_nodup h) hl ec) as (m' & e1 & e2 & e3).
  exists m'. split; [exact e1|]. apply cells_st; assumption.
Qed.

Ltac nodup := repeat (constructor; [cbn [In]; lia|]); constructor.

Lemma l_neg h f m v : c_neg (cells m f) = Some v -> exists m', lcall1 p_neg h f m = Some m' /\ forall a, cells m' a = st (cells m) h v a.
Proof. apply lcall1_ok; [vm_compute; reflexivity|unfold p_neg; cbn [couts]; nodup|reflexivity]. Qed.
Lemma l_square h f m v : c_square (cells m f) = Some v -> exists m', lcall1 p_square h f m = Some m' /\ forall a, cells m' a = st (cells m) h v a.
Proof. apply lcall1_ok; [vm_compute; reflexivity|unfold p_square; cbn [couts]; nodup|reflexivity]. Qed.
Lemma l_square_double h f m v : c_square_double (cells m f) = Some v ->
  exists m', lcall1 p_square_double h f m = Some m' /\ forall a, cells m' a = st (cells m) h v a.
Proof. apply lcall1_ok; [vm_compute; reflexivity|unfold p_square_double; cbn [couts]; nodup|reflexivity]. Qed.
Lemma l_add h f g m v : c_add (cells m f) (cells m g) = Some v -> exists m', lcall2 p_add h f g m = Some m' /\ forall a, cells m' a = st (cells m) h v a.
Proof. apply lcall2_ok; [vm_compute; reflexivity|unfold p_add; cbn [couts]; nodup|reflexivity]. Qed.
Lemma l_sub h f g m v : c_sub (cells m f) (cells m g) = Some v -> exists m', lcall2 p_sub h f g m = Some m' /\ forall a, cells m' a = st (cells m) h v a.
Proof. apply lcall2_ok; [vm_compute; reflexivity|unfold p_sub; cbn [couts]; nodup|reflexivity]. Qed.
Lemma l_mul h f g m v : c_mul (cells m f) (cells m g) = Some v -> exists m', lcall2 p_mul h f g m = Some m' /\ forall a, cells m' a = st (cells m) h v a.
Proof. apply lcall2_ok; [vm_compute; reflexivity|unfold p_mul; cbn [couts]; nodup|reflexivity]. Qed.

(** ** fe25519_cmov *)

Lemma l_cmov_loop r x b m (l : list nat) : NoDup l -> (forall i, In i l -> (i < 10)%nat) ->
  let f := fun m i => lst m (10 * r + i) (c_cmov_limb b (m (10 * r + i)%nat) (m (10 * x + i)%nat)) in
  (forall i, In i l -> fold_left f l m (10 * r + i)%nat = c_cmov_limb b (m (10 * r + i)%nat) (m (10 * x + i)%nat)) /\
  (forall a, (forall i, In i l -> a <> (10 * r + i)%nat) -> fold_left f l m a = m a).
Proof.
  cbv zeta. revert m. induction l as [|k l ih]; intros m hn hb; cbn [fold_left].
  - split; [intros i []|reflexivity].
  - inversion hn as [|? ? hk hn']. subst. destruct (ih (lst m (10 * r + k) (c_cmov_limb b (m (10 * r + k)%nat) (m (10 * x + k)%nat))) hn') as [h1 h2].
    { intros i hi. apply hb. right. exact hi. }
    split.
    + intros i [->|hi].
      * rewrite h2. { unfold lst. rewrite PeanoNat.Nat.eqb_refl. reflexivity. }
        intros j hj e. assert (i = j) by lia. subst j. exact (hk hj).
      * rewrite h1 by exact hi. assert (i <> k) by (intros ->; exact (hk hi)).
        pose proof (hb i (or_intror hi)). pose proof (hb k (or_introl eq_refl)).
        unfold lst. replace (Nat.eqb (10 * r + i) (10 * r + k)) with false by (symmetry; apply PeanoNat.Nat.eqb_neq; lia).
        replace (Nat.eqb (10 * x + i) (10 * r + k)) with false by (symmetry; apply PeanoNat.Nat.eqb_neq; lia). reflexivity.
    + intros a ha. rewrite h2 by (intros i hi; apply ha; right; exact hi). unfold lst.
      replace (Nat.eqb a (10 * r + k)) with false; [reflexivity|]. symmetry. apply PeanoNat.Nat.eqb_neq. apply ha. left. reflexivity.
Qed.

Lemma l_cmov_ok r x b m a : cells (l_cmov r x b m) a = st (cells m) r (c_cmov (cells m r) (cells m x) b) a.
Proof.
  destruct (l_cmov_loop r x (u32 (- u8 b)) m (seq 0 10) (seq_NoDup 10 0)) as [h1 h2].
  { intros i hi. apply in_seq in hi. lia. }
  apply (cells_st m).
  - rewrite map_limbs. unfold l_cmov. unfold cells at 1. cbn [limbs_of c_cmov cells].
    rewrite !h1 by (apply in_seq; lia). reflexivity.
  - intros c hc. apply h2. intros i hi e. apply hc. unfold limb_addrs. apply in_map_iff. exists i. split; [symmetry; exact e|exact hi].
Qed.
