(** Facts about GoThreads.v: a program changes and depends on its own variables only, hence calls
    that do not write each other's variables do not interfere. *)
From Coq Require Import Arith List Lia Bool String.
From Verif Require Import ScalarCode FieldModel GoLang GoLangFacts GoThreads.
Import ListNotations.

Section Lang.
Context {V : Type}.
Notation ix := (ix V). Notation place := (place V). Notation stmt := (stmt V). Notation mem := (mem V).

Section Exec.
Context {E : Type} (sub : string -> list V -> list E) (sg : nat -> nat).
Notation event := (event E).
Notation ixv := (@GoLang.ixv V E sg). Notation fetches := (@GoLang.fetches V E sg).
Notation fetch := (@GoLang.fetch V E sg). Notation store := (@GoLang.store V E sg). Notation stores := (@GoLang.stores V E sg).
Notation exec := (exec sub sg). Notation final := (final sub sg).

(** ** Writes *)

(** [t] has no write to block [x], and [m'] has the contents of [m] there *)
Definition untouched (x : nat) (m : mem) (r : mem * list event) : Prop :=
  (forall k, ~ In (Write x k) (snd r)) /\ forall k, fst r x k = m x k.

Lemma ixv_nowrite x rho m e k : ~ In (Write x k) (snd (ixv rho m e)).
Proof.
  induction e as [n|y|i IHi j IHj|i IHi j IHj|n i IHi|i IHi|f a i IHi]; cbn [GoLang.ixv];
    repeat match goal with |- context [ixv rho m ?e] => destruct (ixv rho m e); cbn [snd] in * end; try exact (fun h => h); try assumption;
    intro h; apply in_app_or in h as [h|h]; try (apply IHi; exact h); try (apply IHj; exact h). destruct h as [h|[]]. discriminate h.
Qed.

Lemma fetches_nowrite x rho m ps k : ~ In (Write x k) (snd (fetches rho m ps)).
Proof.
  induction ps as [|p ps IH]; cbn [GoLang.fetches]; [exact (fun h => h)|].
  unfold GoLang.fetch. pose proof (ixv_nowrite x rho m (snd p) k) as hi. destruct (ixv rho m (snd p)) as [n t].
  destruct (fetches rho m ps) as [vs u]. cbn [snd] in *. intro h. apply in_app_or in h as [h|h]; [|apply IH; exact h].
  apply in_app_or in h as [h|h]; [apply hi; exact h|]. destruct h as [h|[]]. discriminate h.
Qed.

Lemma store_untouched x rho m p v : sg (fst p) <> x -> untouched x m (store rho m p v).
Proof.
  intro ne. unfold GoLang.store. pose proof (fun k => ixv_nowrite x rho m (snd p) k) as hi. destruct (ixv rho m (snd p)) as [n t]. split; cbn [fst snd].
  - intros k h. apply in_app_or in h as [h|h]; [exact (hi k h)|]. destruct h as [h|[]]. injection h as h _. exact (ne h).
  - intro k. unfold upd. destruct (Nat.eqb_spec x (sg (fst p))) as [e|]; [exfalso; apply ne; symmetry; exact e|reflexivity].
Qed.

Lemma stores_untouched x rho ds g : (forall d, In d ds -> sg (fst d) <> x) -> forall m k, untouched x m (stores rho m ds k g).
Proof.
  induction ds as [|d ds IH]; intros hd m k; cbn [GoLang.stores].
  - split; [exact (fun _ h => h)|reflexivity].
  - pose proof (store_untouched x rho m d (g k) (hd d (or_introl eq_refl))) as [h1 h2]. destruct (store rho m d (g k)) as [m1 t].
    pose proof (IH (fun d h => hd d (or_intror h)) m1 (S k)) as [h3 h4]. destruct (stores rho m1 ds (S k) g) as [m2 u]. cbn [fst snd] in *. split; cbn [fst snd].
    + intros j h. apply in_app_or in h as [h|h]; [exact (h1 j h)|exact (h3 j h)].
    + intro j. rewrite h4. apply h2.
Qed.

Lemma nowrite_app x (t u : list event) : (forall k, ~ In (Write x k) t) -> (forall k, ~ In (Write x k) u) -> forall k, ~ In (Write x k) (t ++ u).
Proof. intros h1 h2 k h. apply in_app_or in h as [h|h]; [exact (h1 k h)|exact (h2 k h)]. Qed.
Lemma nowrite_branch x b (t : list event) : (forall k, ~ In (Write x k) t) -> forall k, ~ In (Write x k) (Branch b :: t).
Proof. intros h1 k [h|h]; [discriminate h|exact (h1 k h)]. Qed.
Lemma nowrite_inside x tag es : forall k, ~ In (Write x k) (map (Inside tag) es : list event).
Proof. intros k h. apply in_map_iff in h as [e [h _]]. discriminate h. Qed.

Lemma exec_untouched s : forall x rho m, (forall a, In a (wnames s) -> sg a <> x) -> untouched x m (exec rho s m).
Proof.
  induction s as [|s1 IH1 s2 IH2|tag f d args|tag f d1 d2 args|tag f ds args|y n body IH|c args s1 IH1 s2 IH2|fuel c args body IH];
    intros x rho m hw; cbn [wnames] in hw.
  - split; [exact (fun _ h => h)|reflexivity].
  - cbn [GoLang.exec]. pose proof (IH1 x rho m (fun a h => hw a (in_or_app _ _ _ (or_introl h)))) as [h1 h2]. destruct (exec rho s1 m) as [m1 t1].
    pose proof (IH2 x rho m1 (fun a h => hw a (in_or_app _ _ _ (or_intror h)))) as [h3 h4]. destruct (exec rho s2 m1) as [m2 t2]. cbn [fst snd] in *.
    split; cbn [fst snd]; [apply nowrite_app; assumption|]. intro k. rewrite h4. apply h2.
  - cbn [GoLang.exec]. pose proof (fun k => fetches_nowrite x rho m args k) as hf. destruct (fetches rho m args) as [vs t].
    pose proof (store_untouched x rho m d (f rho vs) (hw _ (or_introl eq_refl))) as [h1 h2]. destruct (store rho m d (f rho vs)) as [m1 u]. cbn [fst snd] in *.
    split; cbn [fst snd]; [|exact h2]. apply nowrite_app; [exact hf|]. apply nowrite_app; [apply nowrite_inside|exact h1].
  - cbn [GoLang.exec]. pose proof (fun k => fetches_nowrite x rho m args k) as hf. destruct (fetches rho m args) as [vs t]. destruct (f rho vs) as [v1 v2].
    pose proof (store_untouched x rho m d1 v1 (hw _ (or_introl eq_refl))) as [h1 h2]. destruct (store rho m d1 v1) as [m1 u].
    pose proof (store_untouched x rho m1 d2 v2 (hw _ (or_intror (or_introl eq_refl)))) as [h3 h4]. destruct (store rho m1 d2 v2) as [m2 u2]. cbn [fst snd] in *.
    split; cbn [fst snd]; [|intro k; rewrite h4; apply h2]. repeat (apply nowrite_app; [first [exact hf|apply nowrite_inside|exact h1]|]). exact h3.
  - cbn [GoLang.exec]. pose proof (fun k => fetches_nowrite x rho m args k) as hf. destruct (fetches rho m args) as [vs t].
    pose proof (stores_untouched x rho ds (f rho vs) (fun d h => hw _ (in_map _ _ _ h)) m 0) as [h1 h2]. destruct (stores rho m ds 0 (f rho vs)) as [m1 u]. cbn [fst snd] in *.
    split; cbn [fst snd]; [|exact h2]. apply nowrite_app; [exact hf|]. apply nowrite_app; [apply nowrite_inside|exact h1].
  - rewrite exec_For. assert (h : untouched x m (rounds sub sg rho y body n m)).
    { induction n as [|n [h1 h2]]; cbn [rounds]; [split; [exact (fun _ h => h)|reflexivity]|]. destruct (rounds sub sg rho y body n m) as [m1 t1].
      pose proof (IH x (setk rho y n) m1 hw) as [h3 h4]. destruct (exec (setk rho y n) body m1) as [m2 t2]. cbn [fst snd] in *.
      split; cbn [fst snd]; [|intro k; rewrite h4; apply h2]. apply nowrite_app; [exact h1|]. apply nowrite_branch. exact h3. }
    destruct (rounds sub sg rho y body n m) as [m1 t1]. destruct h as [h1 h2]. cbn [fst snd] in *. split; cbn [fst snd]; [|exact h2].
    apply nowrite_app; [exact h1|]. apply nowrite_branch. exact (fun _ h => h).
  - cbn [GoLang.exec]. pose proof (fun k => fetches_nowrite x rho m args k) as hf. destruct (fetches rho m args) as [vs t]. cbn [snd] in hf.
    assert (h : untouched x m (if c vs then exec rho s1 m else exec rho s2 m)).
    { destruct (c vs); [apply IH1|apply IH2]; intros a h; apply hw, in_or_app; [left|right]; exact h. }
    destruct (if c vs then exec rho s1 m else exec rho s2 m) as [m1 u]. destruct h as [h1 h2]. cbn [fst snd] in *.
    split; cbn [fst snd]; [|exact h2]. apply nowrite_app; [exact hf|]. apply nowrite_branch. exact h1.
  - cbn [GoLang.exec]. revert m. induction fuel as [|k IHk]; intro m; [split; [exact (fun _ h => h)|reflexivity]|].
    pose proof (fun k => fetches_nowrite x rho m args k) as hf. destruct (fetches rho m args) as [vs t]. cbn [snd] in hf. destruct (c vs).
    + pose proof (IH x rho m hw) as [h1 h2]. destruct (exec rho body m) as [m1 t1]. specialize (IHk m1).
      match goal with |- context [let (m2, t2) := ?G k m1 in _] => set (go := G) in * end. destruct (go k m1) as [m2 t2]. destruct IHk as [h3 h4]. cbn [fst snd] in *.
      split; cbn [fst snd]; [|intro j; rewrite h4; apply h2]. apply nowrite_app; [exact hf|]. apply nowrite_branch. apply nowrite_app; assumption.
    + split; cbn [fst snd]; [|reflexivity]. apply nowrite_app; [exact hf|]. apply nowrite_branch. exact (fun _ h => h).
Qed.

(** ** Reads *)

Definition agree (m m' : mem) : Prop := forall a k, m (sg a) k = m' (sg a) k.

Lemma ixv_agree rho m m' e : agree m m' -> ixv rho m e = ixv rho m' e.
Proof.
  intro h. induction e as [n|y|i IHi j IHj|i IHi j IHj|n i IHi|i IHi|f a i IHi]; cbn [GoLang.ixv]; try rewrite IHi; try rewrite IHj; try reflexivity.
  destruct (ixv rho m' i) as [n t]. rewrite h. reflexivity.
Qed.
Lemma fetches_agree rho m m' ps : agree m m' -> fetches rho m ps = fetches rho m' ps.
Proof.
  intro h. induction ps as [|p ps IH]; cbn [GoLang.fetches]; [reflexivity|]. rewrite IH. unfold GoLang.fetch. rewrite (ixv_agree rho m m' _ h).
  destruct (ixv rho m' (snd p)) as [n t]. rewrite h. reflexivity.
Qed.
Lemma store_agree rho m m' p v : agree m m' -> agree (fst (store rho m p v)) (fst (store rho m' p v)) /\ snd (store rho m p v) = snd (store rho m' p v).
Proof.
  intro h. unfold GoLang.store. rewrite (ixv_agree rho m m' _ h). destruct (ixv rho m' (snd p)) as [n t]. cbn [fst snd]. split; [|reflexivity].
  intros a k. unfold upd. destruct (sg a =? sg (fst p))%nat; [destruct (k =? n)%nat; [reflexivity|]|]; apply h.
Qed.
Lemma stores_agree rho ds g : forall m m' k, agree m m' -> agree (fst (stores rho m ds k g)) (fst (stores rho m' ds k g)) /\ snd (stores rho m ds k g) = snd (stores rho m' ds k g).
Proof.
  induction ds as [|d ds IH]; intros m m' k h; cbn [GoLang.stores]; [split; [exact h|reflexivity]|].
  pose proof (store_agree rho m m' d (g k) h) as [h1 h2]. destruct (store rho m d (g k)) as [m1 t], (store rho m' d (g k)) as [m1' t']. cbn [fst snd] in *.
  pose proof (IH m1 m1' (S k) h1) as [h3 h4]. destruct (stores rho m1 ds (S k) g) as [m2 u], (stores rho m1' ds (S k) g) as [m2' u']. cbn [fst snd] in *.
  split; [exact h3|congruence].
Qed.

Lemma exec_agree s : forall rho m m', agree m m' -> agree (fst (exec rho s m)) (fst (exec rho s m')) /\ snd (exec rho s m) = snd (exec rho s m').
Proof.
  induction s as [|s1 IH1 s2 IH2|tag f d args|tag f d1 d2 args|tag f ds args|y n body IH|c args s1 IH1 s2 IH2|fuel c args body IH];
    intros rho m m' h.
  - split; [exact h|reflexivity].
  - cbn [GoLang.exec]. pose proof (IH1 rho m m' h) as [h1 h2]. destruct (exec rho s1 m) as [m1 t1], (exec rho s1 m') as [m1' t1']. cbn [fst snd] in *.
    pose proof (IH2 rho m1 m1' h1) as [h3 h4]. destruct (exec rho s2 m1) as [m2 t2], (exec rho s2 m1') as [m2' t2']. cbn [fst snd] in *. split; [exact h3|congruence].
  - cbn [GoLang.exec]. rewrite (fetches_agree rho m m' args h). destruct (fetches rho m' args) as [vs t].
    pose proof (store_agree rho m m' d (f rho vs) h) as [h1 h2]. destruct (store rho m d (f rho vs)), (store rho m' d (f rho vs)). cbn [fst snd] in *. split; [exact h1|congruence].
  - cbn [GoLang.exec]. rewrite (fetches_agree rho m m' args h). destruct (fetches rho m' args) as [vs t]. destruct (f rho vs) as [v1 v2].
    pose proof (store_agree rho m m' d1 v1 h) as [h1 h2]. destruct (store rho m d1 v1) as [m1 u], (store rho m' d1 v1) as [m1' u']. cbn [fst snd] in *.
    pose proof (store_agree rho m1 m1' d2 v2 h1) as [h3 h4]. destruct (store rho m1 d2 v2), (store rho m1' d2 v2). cbn [fst snd] in *. split; [exact h3|congruence].
  - cbn [GoLang.exec]. rewrite (fetches_agree rho m m' args h). destruct (fetches rho m' args) as [vs t].
    pose proof (stores_agree rho ds (f rho vs) m m' 0 h) as [h1 h2]. destruct (stores rho m ds 0 (f rho vs)), (stores rho m' ds 0 (f rho vs)). cbn [fst snd] in *. split; [exact h1|congruence].
  - rewrite !exec_For. assert (hr : agree (fst (rounds sub sg rho y body n m)) (fst (rounds sub sg rho y body n m')) /\ snd (rounds sub sg rho y body n m) = snd (rounds sub sg rho y body n m')).
    { induction n as [|n [h1 h2]]; cbn [rounds]; [split; [exact h|reflexivity]|].
      destruct (rounds sub sg rho y body n m) as [m1 t1], (rounds sub sg rho y body n m') as [m1' t1']. cbn [fst snd] in *.
      pose proof (IH (setk rho y n) m1 m1' h1) as [h3 h4]. destruct (exec (setk rho y n) body m1), (exec (setk rho y n) body m1'). cbn [fst snd] in *. split; [exact h3|congruence]. }
    destruct (rounds sub sg rho y body n m) as [m1 t1], (rounds sub sg rho y body n m') as [m1' t1']. cbn [fst snd] in *. destruct hr as [h1 h2]. split; [exact h1|congruence].
  - cbn [GoLang.exec]. rewrite (fetches_agree rho m m' args h). destruct (fetches rho m' args) as [vs t].
    assert (hb : agree (fst (if c vs then exec rho s1 m else exec rho s2 m)) (fst (if c vs then exec rho s1 m' else exec rho s2 m')) /\
                 snd (if c vs then exec rho s1 m else exec rho s2 m) = snd (if c vs then exec rho s1 m' else exec rho s2 m')).
    { destruct (c vs); [apply IH1|apply IH2]; exact h. }
    destruct (if c vs then exec rho s1 m else exec rho s2 m) as [m1 u], (if c vs then exec rho s1 m' else exec rho s2 m') as [m1' u']. cbn [fst snd] in *. destruct hb as [h1 h2]. split; [exact h1|congruence].
  - cbn [GoLang.exec]. revert m m' h. induction fuel as [|k IHk]; intros m m' h; [split; [exact h|reflexivity]|].
    rewrite (fetches_agree rho m m' args h). destruct (fetches rho m' args) as [vs t]. destruct (c vs); [|split; [exact h|reflexivity]].
    pose proof (IH rho m m' h) as [h1 h2]. destruct (exec rho body m) as [m1 t1], (exec rho body m') as [m1' t1']. cbn [fst snd] in *. specialize (IHk m1 m1' h1).
    match goal with |- context [let (m2, t2) := ?G k m1 in _] => set (go := G) in * end. destruct (go k m1) as [m2 t2], (go k m1') as [m2' t2']. cbn [fst snd] in *.
    destruct IHk as [h3 h4]. split; [exact h3|congruence].
Qed.
End Exec.

(** ** Threads *)
Notation FIN sg := (@GoLang.final V Empty_set nosub sg).

Lemma fold_app (t u : list (mem -> mem)) m : run_steps (t ++ u) m = run_steps u (run_steps t m).
Proof. apply fold_left_app. Qed.

(** the steps of a program make up the program *)
Lemma steps_final sg s : forall rho m, run_steps (map (step sg) (steps_of rho s)) m = FIN sg rho s m.
Proof.
  induction s as [|s1 IH1 s2 IH2|tag f d args|tag f d1 d2 args|tag f ds args|y n body IH|c args s1 IH1 s2 IH2|fuel c args body IH]; intros rho m; try reflexivity.
  - cbn [steps_of]. rewrite map_app, fold_app, IH1, IH2. symmetry. apply final_Seq.
  - cbn [steps_of]. rewrite final_For. induction n as [|n IHn]; [reflexivity|].
    rewrite seq_S, flat_map_app, map_app, fold_app, IHn. cbn [for_up plus flat_map]. rewrite app_nil_r. apply IH.
Qed.

Lemma steps_names s : forall rho a, In a (steps_of rho s) -> forall b, In b (wnames (snd a)) -> In b (wnames (s : stmt)).
Proof.
  induction s as [|s1 IH1 s2 IH2|tag f d args|tag f d1 d2 args|tag f ds args|y n body IH|c args s1 IH1 s2 IH2|fuel c args body IH];
    intros rho a h b hb; cbn [steps_of] in h; try (destruct h as [h|[]]; subst a; exact hb).
  - destruct h.
  - cbn [wnames]. apply in_or_app. apply in_app_or in h as [h|h]; [left|right]; eauto.
  - apply in_flat_map in h as [k [_ h]]. eauto.
Qed.

Section Steps.
Context {A : Type}.
Lemma nth_replace_same (l : list A) i x y : nth_error l i = Some y -> nth_error (replace l i x) i = Some x.
Proof. revert i. induction l as [|a l IH]; intros [|i] h; try discriminate; [reflexivity|]. exact (IH i h). Qed.
Lemma nth_replace_other (l : list A) i j x : i <> j -> nth_error (replace l i x) j = nth_error l j.
Proof. revert i j. induction l as [|a l IH]; intros [|i] [|j] h; try reflexivity; [exfalso; apply h; reflexivity|]. cbn. apply IH. congruence. Qed.
End Steps.

(** a thread [i] whose steps respect [R], and whose relation is kept by the steps of the others *)
Lemma one_thread (R : mem -> mem -> Prop) (i : nat) : forall (ts : list (list (mem -> mem))) tr, interleaving ts tr -> forall m m' t,
  nth_error ts i = Some t -> (forall f, In f t -> forall m m', R m m' -> R (f m) (f m')) ->
  (forall j u, j <> i -> nth_error ts j = Some u -> forall f, In f u -> forall m m', R m m' -> R (f m) m') ->
  R m m' -> R (run_steps tr m) (run_steps t m').
Proof.
  induction 1 as [ts hd|ts j a t0 tr hj hil IH]; intros m m' t ht hs ho hr.
  - rewrite Forall_forall in hd. apply nth_error_In in ht. apply hd in ht. subst t. exact hr.
  - destruct (Nat.eq_dec j i) as [->|ne].
    + rewrite hj in ht. injection ht as ht. subst t. cbn [run_steps fold_left].
      apply (IH (a m) (a m') t0 (nth_replace_same _ _ _ _ hj)).
      * intros f hf. exact (hs f (or_intror hf)).
      * intros k u hk hu f hf. rewrite nth_replace_other in hu by congruence. exact (ho k u hk hu f hf).
      * exact (hs a (or_introl eq_refl) m m' hr).
    + cbn [run_steps fold_left]. apply (IH (a m) m' t).
      * rewrite nth_replace_other by exact ne. exact ht.
      * exact hs.
      * intros k u hk hu f hf. destruct (Nat.eq_dec j k) as [->|nk].
        -- rewrite (nth_replace_same _ _ _ _ hj) in hu. injection hu as hu. subst u. exact (ho k (a :: t0) hk hj f (or_intror hf)).
        -- rewrite nth_replace_other in hu by exact nk. exact (ho k u hk hu f hf).
      * exact (ho j (a :: t0) ne hj a (or_introl eq_refl) m m' hr).
Qed.

(** a relation kept by all steps *)
Lemma all_threads (R : mem -> Prop) : forall (ts : list (list (mem -> mem))) tr, interleaving ts tr -> forall m,
  (forall u, In u ts -> forall f, In f u -> forall m, R m -> R (f m)) -> R m -> R (run_steps tr m).
Proof.
  induction 1 as [ts hd|ts j a t0 tr hj hil IH]; intros m hs hr; [exact hr|].
  cbn [run_steps fold_left]. apply IH.
  - intros u hu f hf. apply In_nth_error in hu as [k hu]. destruct (Nat.eq_dec j k) as [->|nk].
    + rewrite (nth_replace_same _ _ _ _ hj) in hu. injection hu as hu. subst u. exact (hs _ (nth_error_In _ _ hj) f (or_intror hf)).
    + rewrite nth_replace_other in hu by exact nk. exact (hs _ (nth_error_In _ _ hu) f hf).
  - exact (hs _ (nth_error_In _ _ hj) a (or_introl eq_refl) m hr).
Qed.

Definition disjoint_calls (cs : list (call V)) : Prop :=
  forall i j c c', i <> j -> nth_error cs i = Some c -> nth_error cs j = Some c' ->
    forall a b, In a (wnames (snd c)) -> fst c a <> fst c' b.

Theorem threads_independent : forall (cs : list (call V)) tr m, disjoint_calls cs -> interleaving (map thread cs) tr ->
  (forall c, In c cs -> forall a k, run_steps tr m (fst c a) k = FIN (fst c) rho0 (snd c) m (fst c a) k) /\
  (forall x, (forall c a, In c cs -> In a (wnames (snd c)) -> fst c a <> x) -> forall k, run_steps tr m x k = m x k).
Proof.
  intros cs tr m hd hil. split.
  - intros c hc. apply In_nth_error in hc as [i hi].
    pose proof (one_thread (agree (fst c)) i (map thread cs) tr hil m m (thread c)) as h.
    unfold agree at 4 in h. intros a k. rewrite <- steps_final. refine (h _ _ _ _ a k).
    + apply map_nth_error. exact hi.
    + intros f hf m1 m2 ha. apply in_map_iff in hf as [s [hs _]]. subst f.
      exact (proj1 (exec_agree nosub (fst c) (snd s) (fst s) m1 m2 ha)).
    + intros j u ne hu f hf m1 m2 ha a' k'. rewrite nth_error_map in hu. destruct (nth_error cs j) as [c'|] eqn:hj; [|discriminate].
      injection hu as hu. subst u. apply in_map_iff in hf as [s [hs hin]]. subst f.
      etransitivity; [|exact (ha a' k')]. refine (proj2 (exec_untouched nosub (fst c') (snd s) (fst c a') (fst s) m1 _) k').
      intros b hb. exact (hd j i c' c ne hj hi b a' (steps_names _ _ _ hin b hb)).
    + intros b j. reflexivity.
  - intros x hx k. revert k. refine (all_threads (fun m' => forall k, m' x k = m x k) (map thread cs) tr hil m _ (fun _ => eq_refl)).
    intros u hu f hf m1 h1 k. apply in_map_iff in hu as [c [hu hc]]. subst u. apply in_map_iff in hf as [s [hs hin]]. subst f.
    etransitivity; [|exact (h1 k)]. refine (proj2 (exec_untouched nosub (fst c) (snd s) x (fst s) m1 _) k).
    intros b hb. exact (hx c b hc (steps_names _ _ _ hin b hb)).
Qed.
End Lang.
