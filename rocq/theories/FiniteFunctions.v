(** All functions from a list of arguments to a list of values, and sums over them (used by C65). *)
From Coq Require Import ZArith List Lia Bool.
Import ListNotations.
Open Scope Z_scope.

(** ** Sums *)
Definition tot {A} (f : A -> Z) (xs : list A) : Z := fold_right (fun x s => f x + s) 0 xs.

Section Sums.
Context {A : Type}.
Implicit Types (f g : A -> Z) (xs ys : list A).
Lemma tot_app f xs ys : tot f (xs ++ ys) = tot f xs + tot f ys.
Proof. induction xs as [|x xs IH]; cbn [app tot fold_right]; [reflexivity|]. fold (tot f (xs ++ ys)) (tot f xs). rewrite IH. lia. Qed.
Lemma tot_map {B} f (k : B -> A) (bs : list B) : tot f (map k bs) = tot (fun b => f (k b)) bs.
Proof. induction bs as [|b bs IH]; cbn; [reflexivity|]. f_equal. exact IH. Qed.
Lemma tot_flat {B} f (k : B -> list A) (bs : list B) : tot f (flat_map k bs) = tot (fun b => tot f (k b)) bs.
Proof. induction bs as [|b bs IH]; cbn [flat_map]; [reflexivity|]. rewrite tot_app, IH. reflexivity. Qed.
Lemma tot_le f g xs : (forall x, In x xs -> f x <= g x) -> tot f xs <= tot g xs.
Proof.
  induction xs as [|x xs IH]; intro h; cbn; [lia|]. fold (tot f xs) (tot g xs).
  pose proof (h x (or_introl eq_refl)). pose proof (IH (fun y hy => h y (or_intror hy))). lia.
Qed.
Lemma tot_eq f g xs : (forall x, In x xs -> f x = g x) -> tot f xs = tot g xs.
Proof. intro h. apply Z.le_antisymm; apply tot_le; intros x hx; rewrite (h x hx); lia. Qed.
Lemma tot_add f g xs : tot (fun x => f x + g x) xs = tot f xs + tot g xs.
Proof. induction xs as [|x xs IH]; cbn; [reflexivity|]. fold (tot f xs) (tot g xs) (tot (fun x => f x + g x) xs). lia. Qed.
Lemma tot_mul c f xs : tot (fun x => c * f x) xs = c * tot f xs.
Proof. induction xs as [|x xs IH]; cbn; [lia|]. fold (tot f xs) (tot (fun x => c * f x) xs). lia. Qed.
Lemma tot_const c xs : tot (fun _ => c) xs = c * Z.of_nat (length xs).
Proof. induction xs as [|x xs IH]; cbn [tot fold_right length]; [lia|]. fold (tot (fun _ : A => c) xs). lia. Qed.
Lemma tot_nonneg f xs : (forall x, 0 <= f x) -> 0 <= tot f xs.
Proof. intro h. induction xs as [|x xs IH]; cbn; [lia|]. fold (tot f xs). pose proof (h x). lia. Qed.
Lemma tot_count (b : A -> bool) xs : Z.of_nat (length (filter b xs)) = tot (fun x => Z.b2z (b x)) xs.
Proof.
  induction xs as [|x xs IH]; [reflexivity|]. cbn [filter tot fold_right]. fold (tot (fun x => Z.b2z (b x)) xs).
  destruct (b x); cbn [length Z.b2z]; lia.
Qed.
Lemma tot_zero xs : tot (fun _ => 0) xs = 0.
Proof. rewrite tot_const. lia. Qed.
(** an element counted once *)
Lemma tot_pick (b : A -> bool) c f xs : NoDup xs -> In c xs -> b c = true -> (forall x, b x = true -> x = c) ->
  tot (fun x => Z.b2z (b x) * f x) xs = f c.
Proof.
  intros hn hi hc hb. induction hn as [|x xs hx hn IH]; [destruct hi|].
  cbn [tot fold_right]. fold (tot (fun x => Z.b2z (b x) * f x) xs). destruct hi as [->|hi].
  - rewrite hc. cbn [Z.b2z]. assert (e : tot (fun x => Z.b2z (b x) * f x) xs = tot (fun _ => 0) xs).
    { apply tot_eq. intros y hy. destruct (b y) eqn:ey; [|reflexivity]. apply hb in ey. subst y. destruct (hx hy). }
    rewrite e, tot_zero. lia.
  - rewrite (IH hi). destruct (b x) eqn:ex; [|cbn; lia]. apply hb in ex. subst x. destruct (hx hi).
Qed.
(** at most one element contributes *)
Lemma tot_one f c m xs : NoDup xs -> 0 <= m -> f c <= m -> (forall x, In x xs -> x <> c -> f x = 0) -> (forall a b : A, {a = b} + {a <> b}) -> tot f xs <= m.
Proof.
  intros hn hm hc h0 dec. induction hn as [|x xs hx hn IH]; [exact hm|].
  cbn [tot fold_right]. fold (tot f xs). destruct (dec x c) as [->|n].
  - rewrite (tot_eq f (fun _ => 0)), tot_zero by (intros y hy; apply h0; [right; exact hy | intros ->; exact (hx hy)]). lia.
  - rewrite (h0 x (or_introl eq_refl) n). apply IH. intros y hy. apply h0. right. exact hy.
Qed.
End Sums.
Lemma tot_swap {A B} (f : A -> B -> Z) xs ys : tot (fun x => tot (fun y => f x y) ys) xs = tot (fun y => tot (fun x => f x y) xs) ys.
Proof.
  induction xs as [|x xs IH].
  - cbn. symmetry. apply tot_zero.
  - cbn [tot fold_right]. fold (tot (fun x => tot (fun y => f x y) ys) xs). rewrite IH, <- tot_add. reflexivity.
Qed.

(** ** All functions *)
Section Functions.
Context {X Y : Type} (dec : forall a b : X, {a = b} + {a <> b}) (y0 : Y) (V : list Y).
Definition set (h : X -> Y) (d : X) (v : Y) : X -> Y := fun x => if dec x d then v else h x.
(** all functions that map the arguments in [ds] to values in [V], and other arguments to [y0] *)
Fixpoint functions (ds : list X) : list (X -> Y) :=
  match ds with
  | [] => [fun _ => y0]
  | d :: r => flat_map (fun v => map (fun h => set h d v) (functions r)) V
  end.

Lemma set_same h d v : set h d v d = v.
Proof. unfold set. destruct (dec d d) as [|n]; [reflexivity | destruct (n eq_refl)]. Qed.
Lemma set_other h d v x : x <> d -> set h d v x = h x.
Proof. intro hx. unfold set. destruct (dec x d) as [->|]; [destruct (hx eq_refl) | reflexivity]. Qed.

Local Notation n := (Z.of_nat (length V)).
Lemma tot_cons F d r : tot F (functions (d :: r)) = tot (fun v => tot (fun h => F (set h d v)) (functions r)) V.
Proof. cbn [functions]. rewrite tot_flat. apply tot_eq. intros v _. apply tot_map. Qed.
Lemma functions_length ds : Z.of_nat (length (functions ds)) = n ^ Z.of_nat (length ds).
Proof.
  assert (e : forall r, Z.of_nat (length (functions r)) = tot (fun _ => 1) (functions r)) by (intro; rewrite tot_const; lia).
  induction ds as [|d r IH]; [reflexivity|]. rewrite e, tot_cons.
  rewrite (tot_eq _ (fun _ => n ^ Z.of_nat (length r))) by (intros v _; rewrite tot_const, IH; lia).
  rewrite tot_const. cbn [length]. rewrite Nat2Z.inj_succ, Z.pow_succ_r by lia. lia.
Qed.
(** the values *)
Lemma functions_values ds h : In h (functions ds) -> (forall x, In x ds -> In (h x) V) /\ (forall x, ~ In x ds -> h x = y0).
Proof.
  revert h. induction ds as [|d r IH]; intros h hi.
  - destruct hi as [<-|[]]. split; [intros x [] | reflexivity].
  - cbn [functions] in hi. apply in_flat_map in hi. destruct hi as (v & hv & hi). apply in_map_iff in hi. destruct hi as (k & <- & hk).
    destruct (IH k hk) as [h1 h2]. split; intros x hx.
    + destruct (dec x d) as [->|hn]; [rewrite set_same; exact hv|]. rewrite set_other by exact hn. apply h1. destruct hx as [<-|hx]; [destruct (hn eq_refl) | exact hx].
    + rewrite set_other by (intros ->; apply hx; left; reflexivity). apply h2. intro g. apply hx. right. exact g.
Qed.
(** every function is there ... *)
Lemma functions_all ds H : (forall x, In x ds -> In (H x) V) -> exists h, In h (functions ds) /\ forall x, In x ds -> h x = H x.
Proof.
  induction ds as [|d r IH]; intro hH; [exists (fun _ => y0); split; [left; reflexivity | intros x []]|].
  destruct (IH (fun x hx => hH x (or_intror hx))) as (h & h1 & h2). exists (set h d (H d)). split.
  - cbn [functions]. apply in_flat_map. exists (H d). split; [apply hH; left; reflexivity|]. apply in_map_iff. exists h. split; [reflexivity | exact h1].
  - intros x hx. destruct (dec x d) as [->|hn]; [apply set_same|]. rewrite set_other by exact hn. apply h2. destruct hx as [<-|hx]; [destruct (hn eq_refl) | exact hx].
Qed.
(** ... and only once *)
Definition differ (ds : list X) (h k : X -> Y) : Prop := exists x, In x ds /\ h x <> k x.
Lemma ordpairs_app {A} (R : A -> A -> Prop) l1 l2 : ForallOrdPairs R l1 -> ForallOrdPairs R l2 ->
  (forall a b, In a l1 -> In b l2 -> R a b) -> ForallOrdPairs R (l1 ++ l2).
Proof.
  intros h1 h2 h. induction h1 as [|a l1 ha h1 IH]; [exact h2|]. cbn [app]. constructor.
  - apply Forall_app. split; [exact ha|]. apply Forall_forall. intros b hb. apply h; [left; reflexivity | exact hb].
  - apply IH. intros a' b ha' hb. apply h; [right; exact ha' | exact hb].
Qed.
Lemma functions_once ds : NoDup V -> NoDup ds -> ForallOrdPairs (differ ds) (functions ds).
Proof.
  intros hV hn. induction hn as [|d r hd hn IH]; [repeat constructor|].
  cbn [functions]. revert hV. generalize V at 1 2 as W. intros W hW. induction hW as [|v W hv hW IHW]; [constructor|].
  cbn [flat_map]. apply ordpairs_app; [| exact IHW |].
  - clear IHW. induction IH as [|h l hh IH IHl]; [constructor|]. cbn [map]. constructor.
    + apply Forall_forall. intros k hk. apply in_map_iff in hk. destruct hk as (k' & <- & hk').
      destruct (proj1 (Forall_forall _ _) hh k' hk') as (x & hx & hne). exists x. split; [right; exact hx|].
      assert (x <> d) by (intros ->; exact (hd hx)). rewrite !set_other by assumption. exact hne.
    + apply IHl.
  - intros a b ha hb. apply in_map_iff in ha. destruct ha as (h & <- & _). apply in_flat_map in hb. destruct hb as (w & hw & hb).
    apply in_map_iff in hb. destruct hb as (k & <- & _). exists d. split; [left; reflexivity|]. rewrite !set_same. intros ->. exact (hv hw).
Qed.

(** sums of what depends on one argument, or on two *)
Lemma tot_one_arg ds d g : NoDup ds -> In d ds -> tot (fun h => g (h d)) (functions ds) * n = tot g V * n ^ Z.of_nat (length ds).
Proof.
  intro hn. induction hn as [|a r ha hn IH]; intro hi; [destruct hi|].
  rewrite tot_cons. cbn [length]. rewrite Nat2Z.inj_succ, Z.pow_succ_r by lia. destruct (dec d a) as [->|ne].
  - rewrite (tot_eq _ (fun v => n ^ Z.of_nat (length r) * g v)).
    + rewrite tot_mul. ring.
    + intros v _. rewrite (tot_eq _ (fun _ => g v)) by (intros h _; rewrite set_same; reflexivity). rewrite tot_const, functions_length. ring.
  - rewrite (tot_eq _ (fun v => tot (fun h => g (h d)) (functions r))).
    + rewrite tot_const. destruct hi as [->|hi]; [destruct (ne eq_refl)|]. specialize (IH hi).
      transitivity (tot (fun h => g (h d)) (functions r) * n * n); [ring|]. rewrite IH. ring.
    + intros v _. apply tot_eq. intros h _. rewrite set_other by exact ne. reflexivity.
Qed.
Lemma tot_two_args ds d e g : NoDup ds -> In d ds -> In e ds -> d <> e ->
  tot (fun h => g (h d) (h e)) (functions ds) * (n * n) = tot (fun v => tot (fun w => g v w) V) V * n ^ Z.of_nat (length ds).
Proof.
  intro hn. induction hn as [|a r ha hn IH]; intros hd he hde; [destruct hd|].
  rewrite tot_cons. cbn [length]. rewrite Nat2Z.inj_succ, Z.pow_succ_r by lia.
  set (k := n ^ Z.of_nat (length r)) in *. destruct (dec d a) as [->|nd]; [|destruct (dec e a) as [->|ne]].
  - destruct he as [->|he]; [destruct (hde eq_refl)|].
    rewrite (tot_eq _ (fun v => tot (fun h => g v (h e)) (functions r))) by (intros v _; apply tot_eq; intros h _; rewrite set_same, set_other by congruence; reflexivity).
    assert (E : tot (fun v => tot (fun h => g v (h e)) (functions r)) V * n = tot (fun v => tot (fun w => g v w) V) V * k).
    { rewrite !(Z.mul_comm (tot _ V)), <- !tot_mul. apply tot_eq. intros v _. rewrite Z.mul_comm, (tot_one_arg r e (g v) hn he). apply Z.mul_comm. }
    rewrite Z.mul_assoc, E. ring.
  - destruct hd as [->|hd]; [destruct (nd eq_refl)|].
    rewrite (tot_eq _ (fun w => tot (fun h => g (h d) w) (functions r))) by (intros v _; apply tot_eq; intros h _; rewrite set_same, set_other by congruence; reflexivity).
    rewrite (tot_swap (fun v w => g v w)).
    assert (E : tot (fun w => tot (fun h => g (h d) w) (functions r)) V * n = tot (fun w => tot (fun v => g v w) V) V * k).
    { rewrite !(Z.mul_comm (tot _ V)), <- !tot_mul. apply tot_eq. intros w _. rewrite Z.mul_comm, (tot_one_arg r d (fun v => g v w) hn hd). apply Z.mul_comm. }
    rewrite Z.mul_assoc, E. ring.
  - destruct hd as [->|hd]; [destruct (nd eq_refl)|]. destruct he as [->|he]; [destruct (ne eq_refl)|].
    rewrite (tot_eq _ (fun _ => tot (fun h => g (h d) (h e)) (functions r))) by (intros v _; apply tot_eq; intros h _; rewrite !set_other by assumption; reflexivity).
    rewrite tot_const. specialize (IH hd he hde).
    transitivity (n * (tot (fun h => g (h d) (h e)) (functions r) * (n * n))); [ring|]. rewrite IH. ring.
Qed.
End Functions.

(** ** Lists of numbers *)
Lemma nodup_range xs m : NoDup xs -> 0 <= m -> (forall x, In x xs -> 0 <= x < m) -> Z.of_nat (length xs) <= m.
Proof.
  intros hn hm hx. rewrite <- (map_length Z.to_nat). rewrite <- (Z2Nat.id m) by exact hm. apply Nat2Z.inj_le.
  rewrite <- (seq_length (Z.to_nat m) 0). apply NoDup_incl_length.
  - clear hm. induction hn as [|x xs h hn IH]; [constructor|]. cbn [map]. constructor.
    + intro hi. apply in_map_iff in hi. destruct hi as (y & e & hy). apply h.
      assert (x = y); [|subst; exact hy]. pose proof (hx x (or_introl eq_refl)). pose proof (hx y (or_intror hy)). lia.
    + apply IH. intros y hy. apply hx. right. exact hy.
  - intros k hk. apply in_map_iff in hk. destruct hk as (x & <- & h). apply in_seq. pose proof (hx x h). lia.
Qed.
