(** Facts about the language of GoLang.v: loops, traces of programs whose control flow and
    addresses do not depend on the data, and programs for which aliasing is harmless. *)
From Coq Require Import Arith List Lia Bool String.
From Verif Require Import ScalarCode FieldModel GoLang.
Import ListNotations.

Section Lang.
Context {V E : Type}.
Notation ix := (ix V). Notation place := (place V). Notation stmt := (stmt V).
Notation event := (event E). Notation mem := (mem V).
Notation ixv := (@GoLang.ixv V E). Notation fetches := (@GoLang.fetches V E).
Notation fetch := (@GoLang.fetch V E). Notation store := (@GoLang.store V E). Notation stores := (@GoLang.stores V E).

Section Exec.
Context (sub : string -> list V -> list E) (sg : nat -> nat).
Notation exec := (exec sub sg). Notation final := (final sub sg).

(** [m] after [n] rounds of a [For] *)
Fixpoint rounds (rho : nat -> nat) (x : nat) (body : stmt) (k : nat) (m : mem) : mem * list event :=
  match k with
  | O => (m, [])
  | S k => let (m1, t1) := rounds rho x body k m in
           let (m2, t2) := exec (setk rho x k) body m1 in (m2, t1 ++ Branch true :: t2)
  end.

Lemma exec_For rho x n body m : exec rho (For x n body) m =
  let (m1, t1) := rounds rho x body n m in (m1, t1 ++ [Branch false]).
Proof.
  cbn [GoLang.exec].
  assert (h : forall k, (fix go (k : nat) (m : mem) : mem * list event :=
           match k with
           | O => (m, [])
           | S k => let (m1, t1) := go k m in
                    let (m2, t2) := exec (setk rho x k) body m1 in (m2, t1 ++ Branch true :: t2)
           end) k m = rounds rho x body k m).
  { induction k as [|k IH]; [reflexivity|]. cbn [rounds]. rewrite <- IH. reflexivity. }
  rewrite h. reflexivity.
Qed.


Lemma final_Seq rho s1 s2 m : final rho (Seq s1 s2) m = final rho s2 (final rho s1 m).
Proof.
  unfold final. cbn [exec]. destruct (exec rho s1 m) as [m1 t1]. cbn [fst].
  destruct (exec rho s2 m1) as [m2 t2]. reflexivity.
Qed.

Lemma final_For rho x n body m : final rho (For x n body) m =
  for_up n (fun k m => final (setk rho x k) body m) m.
Proof.
  unfold GoLang.final. rewrite exec_For.
  assert (h : fst (rounds rho x body n m) = for_up n (fun k m => fst (exec (setk rho x k) body m)) m).
  { induction n as [|n IH]; [reflexivity|]. cbn [rounds for_up]. rewrite <- IH.
    destruct (rounds rho x body n m) as [m1 t1]. cbn [fst].
    destruct (exec (setk rho x n) body m1) as [m2 t2]. reflexivity. }
  destruct (rounds rho x body n m) as [m1 t1]. exact h.
Qed.
End Exec.

Section CT.
Context (sub : string -> list V -> list E) (sg : nat -> nat)
  (sub_ct : forall tag vs vs', sub tag vs = sub tag vs').

Lemma ct_ixv rho m m' e : ct_ix e = true -> ixv sg rho m e = ixv sg rho m' e.
Proof.
  induction e as [n|x|i IHi j IHj|i IHi j IHj|n i IHi|i IHi|f a i IHi]; cbn [ct_ix ixv]; intro h;
    try discriminate; try reflexivity.
  - apply andb_true_iff in h as [h1 h2]. rewrite (IHi h1), (IHj h2). reflexivity.
  - apply andb_true_iff in h as [h1 h2]. rewrite (IHi h1), (IHj h2). reflexivity.
  - rewrite (IHi h). reflexivity.
  - rewrite (IHi h). reflexivity.
Qed.

Lemma ct_fetches rho m m' ps : forallb (fun p => ct_ix (snd p)) ps = true ->
  snd (fetches sg rho m ps) = snd (fetches sg rho m' ps).
Proof.
  induction ps as [|p ps IH]; cbn [forallb fetches]; intro h; [reflexivity|].
  apply andb_true_iff in h as [h1 h2]. specialize (IH h2). unfold fetch.
  rewrite (ct_ixv rho m m' (snd p) h1). destruct (ixv sg rho m' (snd p)) as [n t].
  destruct (fetches sg rho m ps) as [vs u], (fetches sg rho m' ps) as [vs' u']. cbn [snd] in *. rewrite IH. reflexivity.
Qed.

Lemma ct_store rho m m' p v v' : ct_ix (snd p) = true ->
  snd (store sg rho m p v) = snd (store sg rho m' p v').
Proof.
  intro h. unfold store. rewrite (ct_ixv rho m m' (snd p) h). destruct (ixv sg rho m' (snd p)) as [n t]. reflexivity.
Qed.

Lemma ct_stores rho ds : forall m m' k g g', forallb (fun p => ct_ix (snd p)) ds = true ->
  snd (stores sg rho m ds k g) = snd (stores sg rho m' ds k g').
Proof.
  induction ds as [|d ds IH]; cbn [forallb GoLang.stores]; intros m m' k g g' h; [reflexivity|].
  apply andb_true_iff in h as [h1 h2]. pose proof (ct_store rho m m' d (g k) (g' k) h1) as e.
  destruct (store sg rho m d (g k)) as [a t], (store sg rho m' d (g' k)) as [a' t']. specialize (IH a a' (S k) g g' h2).
  destruct (stores sg rho a ds (S k) g) as [b u], (stores sg rho a' ds (S k) g') as [b' u']. cbn [snd] in *. rewrite e, IH. reflexivity.
Qed.

(** The trace does not depend on the contents of the memory. *)
Theorem ct_trace s : forall rho m m', ct s = true -> trace sub sg rho s m = trace sub sg rho s m'.
Proof.
  unfold trace. induction s as [|s1 IH1 s2 IH2|tag f d args|tag f d1 d2 args|tag f ds args|x n body IH|c args s1 IH1 s2 IH2|fuel c args body IH];
    intros rho m m' h; cbn [ct] in h; try discriminate.
  - reflexivity.
  - apply andb_true_iff in h as [h1 h2]. cbn [exec].
    pose proof (IH1 rho m m' h1) as e1. destruct (exec sub sg rho s1 m) as [a t], (exec sub sg rho s1 m') as [a' t'].
    pose proof (IH2 rho a a' h2) as e2. destruct (exec sub sg rho s2 a) as [b u], (exec sub sg rho s2 a') as [b' u'].
    cbn [snd] in *. rewrite e1, e2. reflexivity.
  - apply andb_true_iff in h as [h1 h2]. cbn [exec].
    pose proof (ct_fetches rho m m' args h2) as e1. destruct (fetches sg rho m args) as [vs t], (fetches sg rho m' args) as [vs' t'].
    pose proof (ct_store rho m m' d (f rho vs) (f rho vs') h1) as e2.
    destruct (store sg rho m d (f rho vs)) as [b u], (store sg rho m' d (f rho vs')) as [b' u'].
    cbn [snd] in *. rewrite e1, e2, (sub_ct tag vs vs'). reflexivity.
  - apply andb_true_iff in h as [h h3]. apply andb_true_iff in h as [h1 h2]. cbn [exec].
    pose proof (ct_fetches rho m m' args h3) as e1. destruct (fetches sg rho m args) as [vs t], (fetches sg rho m' args) as [vs' t'].
    destruct (f rho vs) as [v1 v2], (f rho vs') as [v1' v2'].
    pose proof (ct_store rho m m' d1 v1 v1' h1) as e2.
    destruct (store sg rho m d1 v1) as [b u], (store sg rho m' d1 v1') as [b' u'].
    pose proof (ct_store rho b b' d2 v2 v2' h2) as e3.
    destruct (store sg rho b d2 v2) as [b2 u2], (store sg rho b' d2 v2') as [b2' u2'].
    cbn [snd] in *. rewrite e1, e2, e3, (sub_ct tag vs vs'). reflexivity.
  - apply andb_true_iff in h as [h1 h2]. cbn [exec].
    pose proof (ct_fetches rho m m' args h2) as e1. destruct (fetches sg rho m args) as [vs t], (fetches sg rho m' args) as [vs' t'].
    pose proof (ct_stores rho ds m m' 0 (f rho vs) (f rho vs') h1) as e2.
    destruct (stores sg rho m ds 0 (f rho vs)) as [b u], (stores sg rho m' ds 0 (f rho vs')) as [b' u'].
    cbn [snd] in *. rewrite e1, e2, (sub_ct tag vs vs'). reflexivity.
  - rewrite !exec_For.
    assert (e : snd (rounds sub sg rho x body n m) = snd (rounds sub sg rho x body n m')).
    { induction n as [|n IHn]; [reflexivity|]. cbn [rounds].
      destruct (rounds sub sg rho x body n m) as [a t], (rounds sub sg rho x body n m') as [a' t'].
      pose proof (IH (setk rho x n) a a' h) as e. destruct (exec sub sg (setk rho x n) body a) as [b u], (exec sub sg (setk rho x n) body a') as [b' u'].
      cbn [snd] in *. rewrite IHn, e. reflexivity. }
    destruct (rounds sub sg rho x body n m) as [a t], (rounds sub sg rho x body n m') as [a' t']. cbn [snd] in *. rewrite e. reflexivity.
Qed.
End CT.



(** ** Aliasing *)
Section Alias.
Context (sub : string -> list V -> list E) (L : nat) (sg : nat -> nat) (hL : 0 < L) (fr0 : fresh_locals L sg).

Lemma not_local_0 : is_local L 0 = false.
Proof. unfold is_local. apply Nat.leb_gt. exact hL. Qed.

Lemma fr a b : is_local L a = true -> sg a = sg b -> a = b.
Proof. intro h. apply fr0. apply Nat.leb_le. exact h. Qed.

Lemma kinds a : a = 0 \/ is_local L a = true \/ is_param L a = true.
Proof.
  unfold is_param. destruct (Nat.eqb_spec a 0); [left; assumption|]. right.
  destruct (is_local L a); [left|right]; reflexivity.
Qed.

(** real memory [m] against the memory [nu] of a run in which all names are different blocks *)
Record Inv (m0 : mem) (W : list nat) (m nu : mem) : Prop := mkInv {
  inv_R : forall i, m (sg 0) i = nu 0 i;
  inv_L : forall a i, is_local L a = true -> m (sg a) i = nu a i;
  inv_P : forall a i, is_param L a = true -> ~ In i W -> m (sg a) i = nu a i;
  inv_F : forall b i, b <> sg 0 -> (forall a, is_local L a = true -> sg a <> b) -> m b i = m0 b i }.

Lemma Inv_weaken m0 W W' m nu : (forall i, In i W -> In i W') -> Inv m0 W m nu -> Inv m0 W' m nu.
Proof.
  intros h [r l p f]. constructor; [exact r|exact l| |exact f].
  intros a i ha hi. apply p; [exact ha|]. intro h'. apply hi, h, h'.
Qed.

Lemma rd_cell_ok m0 W m nu rho e a : Inv m0 W m nu -> rd_cell L W a e = true ->
  m (sg a) (fst (ixv sg rho m e)) = nu a (fst (ixv sg rho m e)).
Proof.
  intros [r l p f] h. destruct (kinds a) as [->|[ha|ha]].
  - apply r.
  - apply l, ha.
  - unfold rd_cell in h. rewrite ha in h. cbn [negb orb] in h. apply p; [exact ha|].
    destruct W as [|w W]; [intros []|]. destruct e; try discriminate. cbn [ixv fst].
    apply negb_true_iff in h. intro hin. assert (h' : existsb (Nat.eqb n) (w :: W) = true).
    { apply existsb_exists. exists n. split; [exact hin|apply Nat.eqb_refl]. }
    rewrite h' in h. discriminate.
Qed.

Lemma ixv_ok m0 W m nu rho e : Inv m0 W m nu -> rd_ix L W e = true ->
  fst (ixv sg rho m e) = fst (ixv (fun a => a) rho nu e).
Proof.
  intro inv. induction e as [n|x|i IHi j IHj|i IHi j IHj|n i IHi|i IHi|f a i IHi]; cbn [rd_ix ixv]; intro h;
    try reflexivity.
  - apply andb_true_iff in h as [h1 h2]. specialize (IHi h1). specialize (IHj h2).
    destruct (ixv sg rho m i), (ixv (fun a => a) rho nu i), (ixv sg rho m j), (ixv (fun a => a) rho nu j).
    cbn [fst] in *. congruence.
  - apply andb_true_iff in h as [h1 h2]. specialize (IHi h1). specialize (IHj h2).
    destruct (ixv sg rho m i), (ixv (fun a => a) rho nu i), (ixv sg rho m j), (ixv (fun a => a) rho nu j).
    cbn [fst] in *. congruence.
  - specialize (IHi h). destruct (ixv sg rho m i), (ixv (fun a => a) rho nu i). cbn [fst] in *. congruence.
  - specialize (IHi h). destruct (ixv sg rho m i), (ixv (fun a => a) rho nu i). cbn [fst] in *. congruence.
  - apply andb_true_iff in h as [h1 h2]. specialize (IHi h1).
    pose proof (rd_cell_ok m0 W m nu rho i a inv h2) as hc.
    destruct (ixv sg rho m i), (ixv (fun a => a) rho nu i). cbn [fst] in *. congruence.
Qed.

Lemma fetches_ok m0 W m nu rho ps : Inv m0 W m nu -> forallb (rd L W) ps = true ->
  fst (fetches sg rho m ps) = fst (fetches (fun a => a) rho nu ps).
Proof.
  intro inv. induction ps as [|[a e] ps IH]; cbn [forallb fetches]; intro h; [reflexivity|].
  apply andb_true_iff in h as [h1 h2]. specialize (IH h2). unfold rd in h1. cbn [fst snd] in h1.
  apply andb_true_iff in h1 as [h1 h3]. unfold fetch. cbn [fst snd].
  pose proof (ixv_ok m0 W m nu rho e inv h1) as hi. pose proof (rd_cell_ok m0 W m nu rho e a inv h3) as hc.
  destruct (ixv sg rho m e), (ixv (fun a => a) rho nu e). cbn [fst] in *.
  destruct (fetches sg rho m ps), (fetches (fun a => a) rho nu ps). cbn [fst] in *. congruence.
Qed.

Lemma store_ok m0 W m nu rho p v : Inv m0 W m nu -> wr L W p = true ->
  Inv m0 (W ++ wplace L p) (fst (store sg rho m p v)) (fst (store (fun a => a) rho nu p v)).
Proof.
  intros inv h. destruct p as [a e]. unfold wr in h. cbn [fst snd] in h. apply andb_true_iff in h as [h1 h2].
  pose proof (ixv_ok m0 W m nu rho e inv h1) as hi. unfold store, wplace. cbn [fst snd].
  destruct (is_local L a) eqn:ha.
  - clear h2. destruct (ixv sg rho m e) as [n t], (ixv (fun a => a) rho nu e) as [n' t']. cbn [fst] in *. subst n'.
    destruct inv as [r l p f]. rewrite app_nil_r. constructor; unfold upd.
    + intro i. destruct (Nat.eqb_spec (sg 0) (sg a)) as [e0|_].
      { symmetry in e0. apply fr in e0; [|exact ha]. subst a. rewrite not_local_0 in ha. discriminate. }
      destruct (Nat.eqb_spec 0 a) as [<-|_]; [rewrite not_local_0 in ha; discriminate|]. apply r.
    + intros b i hb. destruct (Nat.eqb_spec (sg b) (sg a)) as [e0|ne].
      { apply fr in e0; [|exact hb]. subst b. rewrite Nat.eqb_refl. cbn [andb].
        destruct (Nat.eqb i n); [reflexivity|]. apply l, hb. }
      destruct (Nat.eqb_spec b a) as [->|_]; [contradiction|]. apply l, hb.
    + intros b i hb hw. destruct (Nat.eqb_spec (sg b) (sg a)) as [e0|ne].
      { symmetry in e0. apply fr in e0; [|exact ha]. subst b. unfold is_param in hb. rewrite ha in hb.
        rewrite andb_false_r in hb. discriminate. }
      destruct (Nat.eqb_spec b a) as [->|_]; [contradiction|]. apply p; assumption.
    + intros b i hb hl. destruct (Nat.eqb_spec b (sg a)) as [->|_]; [exfalso; apply (hl a ha); reflexivity|]. apply f; assumption.
  - cbn [orb] in h2. apply andb_true_iff in h2 as [h2 h3]. apply Nat.eqb_eq in h2. subst a.
    destruct e as [n| | | | | |]; try discriminate. cbn [ixv] in *. clear h1 hi h3. cbn [fst].
    destruct inv as [r l p f]. constructor; unfold upd.
    + intro i. rewrite !Nat.eqb_refl. cbn [andb]. destruct (Nat.eqb i n); [reflexivity|]. apply r.
    + intros b i hb. destruct (Nat.eqb_spec (sg b) (sg 0)) as [e0|ne].
      { apply fr in e0; [|exact hb]. subst b. rewrite hb in ha. discriminate. }
      destruct (Nat.eqb_spec b 0) as [->|_]; [contradiction|]. apply l, hb.
    + intros b i hb hw. assert (hn : i <> n /\ ~ In i W).
      { split; intro h; apply hw; apply in_or_app; [right; left; symmetry; exact h|left; exact h]. }
      destruct hn as [hn hW]. destruct (Nat.eqb_spec i n) as [|_]; [contradiction|]. rewrite !andb_false_r. apply p; assumption.
    + intros b i hb hl. destruct (Nat.eqb_spec b (sg 0)) as [->|_]; [contradiction|]. apply f; assumption.
Qed.

Lemma stores_ok m0 rho ds g : forall W m nu k, Inv m0 W m nu -> wrs L W ds = true ->
  Inv m0 (W ++ flat_map (wplace L) ds) (fst (stores sg rho m ds k g)) (fst (stores (fun a => a) rho nu ds k g)).
Proof.
  induction ds as [|d ds IH]; intros W m nu k inv h; cbn [flat_map GoLang.stores wrs] in *; [rewrite app_nil_r; exact inv|].
  apply andb_true_iff in h as [h1 h2]. pose proof (store_ok m0 W m nu rho d (g k) inv h1) as hs.
  destruct (store sg rho m d (g k)) as [m1 u1], (store (fun a => a) rho nu d (g k)) as [m1' u1']. cbn [fst] in hs.
  specialize (IH _ m1 m1' (S k) hs h2). rewrite app_assoc.
  destruct (stores sg rho m1 ds (S k) g), (stores (fun a => a) rho m1' ds (S k) g). exact IH.
Qed.

Lemma store_pair rho m p v s : store s rho m p v = (fst (store s rho m p v), snd (store s rho m p v)).
Proof. apply surjective_pairing. Qed.

(** Whatever variables the parameters are, the run computes in the receiver and the locals what
    it computes when all are different, and changes nothing else. *)
Lemma exec_ok m0 s : forall W rho m nu, alias_ok L W s = true -> Inv m0 W m nu ->
  Inv m0 (W ++ writes L s) (final sub sg rho s m) (final sub (fun a => a) rho s nu).
Proof.
  induction s as [|s1 IH1 s2 IH2|tag f d args|tag f d1 d2 args|tag f ds args|x n body IH|c args s1 IH1 s2 IH2|fuel c args body IH];
    intros W rho m nu h inv; cbn [alias_ok writes] in *.
  - rewrite app_nil_r. exact inv.
  - apply andb_true_iff in h as [h1 h2]. rewrite !final_Seq, app_assoc. apply IH2; [exact h2|]. apply IH1; assumption.
  - apply andb_true_iff in h as [h1 h2]. unfold final. cbn [exec].
    pose proof (fetches_ok m0 W m nu rho args inv h1) as hf.
    destruct (fetches sg rho m args) as [vs t], (fetches (fun a => a) rho nu args) as [vs' t']. cbn [fst] in hf. subst vs'.
    pose proof (store_ok m0 W m nu rho d (f rho vs) inv h2) as hs.
    destruct (store sg rho m d (f rho vs)), (store (fun a => a) rho nu d (f rho vs)). exact hs.
  - apply andb_true_iff in h as [h h3]. apply andb_true_iff in h as [h1 h2]. unfold final. cbn [exec].
    pose proof (fetches_ok m0 W m nu rho args inv h1) as hf.
    destruct (fetches sg rho m args) as [vs t], (fetches (fun a => a) rho nu args) as [vs' t']. cbn [fst] in hf. subst vs'.
    destruct (f rho vs) as [v1 v2]. pose proof (store_ok m0 W m nu rho d1 v1 inv h2) as hs.
    destruct (store sg rho m d1 v1) as [m1 u1], (store (fun a => a) rho nu d1 v1) as [m1' u1']. cbn [fst] in hs.
    pose proof (store_ok m0 _ m1 m1' rho d2 v2 hs h3) as hs2.
    destruct (store sg rho m1 d2 v2), (store (fun a => a) rho m1' d2 v2). rewrite app_assoc. exact hs2.
  - apply andb_true_iff in h as [h1 h2]. unfold final. cbn [exec].
    pose proof (fetches_ok m0 W m nu rho args inv h1) as hf.
    destruct (fetches sg rho m args) as [vs t], (fetches (fun a => a) rho nu args) as [vs' t']. cbn [fst] in hf. subst vs'.
    pose proof (stores_ok m0 rho ds (f rho vs) W m nu 0 inv h2) as hs.
    destruct (stores sg rho m ds 0 (f rho vs)), (stores (fun a => a) rho nu ds 0 (f rho vs)). exact hs.
  - rewrite !final_For. induction n as [|n IHn]; cbn [for_up].
    + apply (Inv_weaken m0 W); [|exact inv]. intros i hi. apply in_or_app. left. exact hi.
    + apply (Inv_weaken m0 ((W ++ writes L body) ++ writes L body)).
      { intros i hi. apply in_app_or in hi as [hi|hi]; [exact hi|]. apply in_or_app. right. exact hi. }
      apply IH; [exact h|exact IHn].
  - apply andb_true_iff in h as [h h2]. apply andb_true_iff in h as [h1 h3]. unfold final. cbn [exec].
    pose proof (fetches_ok m0 W m nu rho args inv h1) as hf.
    destruct (fetches sg rho m args) as [vs t], (fetches (fun a => a) rho nu args) as [vs' t']. cbn [fst] in hf. subst vs'.
    destruct (c vs).
    + pose proof (IH1 W rho m nu h3 inv) as h'. unfold final in h'.
      destruct (exec sub sg rho s1 m), (exec sub (fun a => a) rho s1 nu). apply (Inv_weaken m0 (W ++ writes L s1)); [|exact h'].
      intros i hi. rewrite app_assoc. apply in_or_app. left. exact hi.
    + pose proof (IH2 W rho m nu h2 inv) as h'. unfold final in h'.
      destruct (exec sub sg rho s2 m), (exec sub (fun a => a) rho s2 nu). apply (Inv_weaken m0 (W ++ writes L s2)); [|exact h'].
      intros i hi. apply in_app_or in hi as [hi|hi]; apply in_or_app; [left; exact hi|right; apply in_or_app; right; exact hi].
  - apply andb_true_iff in h as [h1 h2]. apply (Inv_weaken m0 W (W ++ writes L body)) in inv.
    2: { intros i hi. apply in_or_app. left. exact hi. }
    unfold final. cbn [exec]. revert m nu inv. induction fuel as [|fuel IHf]; intros m nu inv; [exact inv|].
    pose proof (fetches_ok m0 _ m nu rho args inv h1) as hf.
    destruct (fetches sg rho m args) as [vs t], (fetches (fun a => a) rho nu args) as [vs' t']. cbn [fst] in hf. subst vs'.
    destruct (c vs); [|exact inv].
    pose proof (IH _ rho m nu h2 inv) as h'. unfold final in h'.
    destruct (exec sub sg rho body m) as [m1 u1], (exec sub (fun a => a) rho body nu) as [m1' u1']. cbn [fst] in h'.
    apply (Inv_weaken m0 _ (W ++ writes L body)) in h'.
    2: { intros i hi. apply in_app_or in hi as [hi|hi]; [exact hi|]. apply in_or_app. right. exact hi. }
    specialize (IHf m1 m1' h').
    match goal with |- Inv _ _ (fst (let (_, _) := ?A in _)) (fst (let (_, _) := ?B in _)) => destruct A, B end.
    exact IHf.
Qed.

Theorem alias_free s rho m : alias_ok L [] s = true ->
  (forall i, final sub sg rho s m (sg 0) i = final sub (fun a => a) rho s (fun a j => m (sg a) j) 0 i) /\
  others_same L sg m (final sub sg rho s m).
Proof.
  intro h. assert (inv : Inv m [] m (fun a j => m (sg a) j)) by (constructor; reflexivity).
  pose proof (exec_ok m s [] rho m (fun a j => m (sg a) j) h inv) as [r _ _ f]. split; [exact r|].
  intros b i hb hl. apply f; [exact hb|]. intros a ha. apply hl. apply Nat.leb_le. exact ha.
Qed.
End Alias.

(** ** Symbolic execution of straight-line programs *)

Fixpoint ixval (rho : nat -> nat) (m : mem) (e : ix) : nat :=
  match e with
  | C n => n
  | Ctr x => rho x
  | Plus i j => ixval rho m i + ixval rho m j
  | Minus i j => ixval rho m i - ixval rho m j
  | Times n i => n * ixval rho m i
  | Half i => Nat.div2 (ixval rho m i)
  | Data f a i => f (m a (ixval rho m i))
  end.
Definition vals (rho : nat -> nat) (m : mem) (ps : list place) : list V :=
  map (fun p => m (fst p) (ixval rho m (snd p))) ps.

Fixpoint upds (rho : nat -> nat) (m : mem) (ds : list place) (k : nat) (g : nat -> V) : mem :=
  match ds with [] => m | (a, e) :: ds => upds rho (upd m a (ixval rho m e) (g k)) ds (S k) g end.

Section Run.
Context (sub : string -> list V -> list E).

Fixpoint runk {B : Type} (rho : nat -> nat) (s : stmt) (m : mem) (k : mem -> B) : B :=
  match s with
  | Skip => k m
  | Seq s1 s2 => runk rho s1 m (fun m => runk rho s2 m k)
  | Do _ f (a, e) args => LetIn (f rho (vals rho m args)) (fun v => k (upd m a (ixval rho m e) v))
  | Do2 _ f (a1, e1) (a2, e2) args =>
      let (v1, v2) := f rho (vals rho m args) in
      (fun m1 => k (upd m1 a2 (ixval rho m1 e2) v2)) (upd m a1 (ixval rho m e1) v1)
  | DoN _ f ds args => LetIn (f rho (vals rho m args)) (fun g => k (upds rho m ds 0 g))
  | For x n body =>
      (fix go (i : nat) (m : mem) (k : mem -> B) : B :=
         match i with
         | O => k m
         | S i => go i m (fun m => runk (setk rho x i) body m k)
         end) n m k
  | _ => k (final sub (fun a => a) rho s m)
  end.

Lemma ixval_ok rho m e : fst (ixv (fun a => a) rho m e) = ixval rho m e.
Proof.
  induction e as [n|x|i IHi j IHj|i IHi j IHj|n i IHi|i IHi|f a i IHi]; cbn [GoLang.ixv ixval]; try reflexivity;
    repeat match goal with |- context [ixv ?A ?r ?m ?e] => destruct (ixv A r m e); cbn [fst] in * end; congruence.
Qed.

Lemma vals_ok rho m ps : fst (fetches (fun a => a) rho m ps) = vals rho m ps.
Proof.
  induction ps as [|[a e] ps IH]; [reflexivity|]. cbn [GoLang.fetches vals map fst snd]. unfold GoLang.fetch. cbn [fst snd].
  rewrite <- (ixval_ok rho m e). destruct (ixv (fun a => a) rho m e) as [n t]. cbn [fst].
  unfold vals in IH. rewrite <- IH. destruct (fetches (fun a => a) rho m ps). reflexivity.
Qed.

Lemma store_val rho m a e v : fst (store (fun a => a) rho m (a, e) v) = upd m a (ixval rho m e) v.
Proof. unfold GoLang.store. cbn [fst snd]. rewrite <- ixval_ok. destruct (ixv (fun a => a) rho m e). reflexivity. Qed.

Lemma stores_val rho ds g : forall m k, fst (stores (fun a => a) rho m ds k g) = upds rho m ds k g.
Proof.
  induction ds as [|[a e] ds IH]; intros m k; [reflexivity|]. cbn [GoLang.stores upds].
  pose proof (store_val rho m a e (g k)) as h. destruct (store (fun a => a) rho m (a, e) (g k)) as [m1 u]. cbn [fst] in h. rewrite <- h, <- IH.
  destruct (stores (fun a => a) rho m1 ds (S k) g). reflexivity.
Qed.

Lemma runk_ok {B : Type} s : forall rho m (k : mem -> B), runk rho s m k = k (final sub (fun a => a) rho s m).
Proof.
  induction s as [|s1 IH1 s2 IH2|tag f [a e] args|tag f [a1 e1] [a2 e2] args|tag f ds args|x n body IH|c args s1 IH1 s2 IH2|fuel c args body IH];
    intros rho m k; cbn [runk].
  - reflexivity.
  - rewrite IH1, IH2, final_Seq. reflexivity.
  - unfold LetIn, final. cbn [exec]. rewrite <- vals_ok. destruct (fetches (fun a => a) rho m args) as [vs t]. cbn [fst].
    rewrite <- store_val. destruct (store (fun a => a) rho m (a, e) (f rho vs)). reflexivity.
  - unfold final. cbn [exec]. rewrite <- vals_ok. destruct (fetches (fun a => a) rho m args) as [vs t]. cbn [fst].
    destruct (f rho vs) as [v1 v2]. pose proof (store_val rho m a1 e1 v1) as h1.
    destruct (store (fun a => a) rho m (a1, e1) v1) as [m1 u1]. cbn [fst] in h1. rewrite <- h1.
    pose proof (store_val rho m1 a2 e2 v2) as h2. destruct (store (fun a => a) rho m1 (a2, e2) v2) as [m2 u2].
    cbn [fst] in h2. rewrite <- h2. reflexivity.
  - unfold LetIn, final. cbn [exec]. rewrite <- vals_ok. destruct (fetches (fun a => a) rho m args) as [vs t]. cbn [fst].
    rewrite <- stores_val. destruct (stores (fun a => a) rho m ds 0 (f rho vs)). reflexivity.
  - rewrite final_For. revert m k. induction n as [|n IHn]; intros m k; [reflexivity|]. rewrite IHn, IH. reflexivity.
  - reflexivity.
  - reflexivity.
Qed.
End Run.

(** ** What is not written *)
Section Frame.
Context (sub : string -> list V -> list E).

Lemma ixv_ct rho m e : ct_ix e = true -> fst (ixv (fun a => a) rho m e) = ixc rho e.
Proof.
  induction e as [n|x|i IHi j IHj|i IHi j IHj|n i IHi|i IHi|f a i IHi]; cbn [GoLang.ixv ixc ct_ix]; intro h; try reflexivity;
    try discriminate; try (apply andb_true_iff in h as [h1 h2]; specialize (IHi h1); specialize (IHj h2)); try specialize (IHi h);
    repeat match goal with |- context [ixv ?A ?r ?m ?e] => destruct (ixv A r m e); cbn [fst] in * end; congruence.
Qed.

Lemma frame_store rho m p v a i : ct_ix (snd p) = true -> (fst p, ixc rho (snd p)) <> (a, i) ->
  fst (store (fun a => a) rho m p v) a i = m a i.
Proof.
  intros h ne. destruct p as [b e]. cbn [fst snd] in *. unfold GoLang.store. cbn [fst snd].
  pose proof (ixv_ct rho m e h) as hc. destruct (ixv (fun a => a) rho m e) as [n t]. cbn [fst] in *. subst n. unfold upd.
  destruct (Nat.eqb_spec a b) as [->|]; [|reflexivity]. destruct (Nat.eqb_spec i (ixc rho e)) as [->|]; [|reflexivity].
  exfalso. apply ne. reflexivity.
Qed.

Lemma frame_stores rho ds g a i : forall m k, forallb (fun p => ct_ix (snd p)) ds = true ->
  ~ In (a, i) (map (fun d : place => (fst d, ixc rho (snd d))) ds) -> fst (stores (fun a => a) rho m ds k g) a i = m a i.
Proof.
  induction ds as [|d ds IH]; intros m k h hw; [reflexivity|]. cbn [forallb map GoLang.stores] in *. apply andb_true_iff in h as [h1 h2].
  pose proof (frame_store rho m d (g k) a i h1 (fun e => hw (or_introl e))) as hs.
  destruct (store (fun a => a) rho m d (g k)) as [m1 u1]. cbn [fst] in hs. specialize (IH m1 (S k) h2 (fun e => hw (or_intror e))).
  destruct (stores (fun a => a) rho m1 ds (S k) g). cbn [fst] in *. congruence.
Qed.

Lemma frame s : forall rho m a i, ct s = true -> ~ In (a, i) (wcells rho s) ->
  final sub (fun a => a) rho s m a i = m a i.
Proof.
  induction s as [|s1 IH1 s2 IH2|tag f d args|tag f d1 d2 args|tag f ds args|x n body IH|c args s1 IH1 s2 IH2|fuel c args body IH];
    intros rho m a i h hw; cbn [ct wcells] in *; try discriminate.
  - reflexivity.
  - apply andb_true_iff in h as [h1 h2]. rewrite final_Seq, IH2, IH1; [reflexivity|exact h1| |exact h2|];
      intro h; apply hw, in_or_app; [left|right]; exact h.
  - apply andb_true_iff in h as [h1 h2]. unfold final. cbn [exec]. destruct (fetches (fun a => a) rho m args) as [vs t].
    pose proof (frame_store rho m d (f rho vs) a i h1 (fun e => hw (or_introl e))) as hs.
    destruct (store (fun a => a) rho m d (f rho vs)). exact hs.
  - apply andb_true_iff in h as [h h3]. apply andb_true_iff in h as [h1 h2]. unfold final. cbn [exec].
    destruct (fetches (fun a => a) rho m args) as [vs t]. destruct (f rho vs) as [v1 v2].
    pose proof (frame_store rho m d1 v1 a i h1 (fun e => hw (or_introl e))) as hs.
    destruct (store (fun a => a) rho m d1 v1) as [m1 u1]. cbn [fst] in hs.
    pose proof (frame_store rho m1 d2 v2 a i h2 (fun e => hw (or_intror (or_introl e)))) as hs2.
    destruct (store (fun a => a) rho m1 d2 v2). cbn [fst] in *. congruence.
  - apply andb_true_iff in h as [h1 h2]. unfold final. cbn [exec]. destruct (fetches (fun a => a) rho m args) as [vs t].
    pose proof (frame_stores rho ds (f rho vs) a i m 0 h1 hw) as hs.
    destruct (stores (fun a => a) rho m ds 0 (f rho vs)). exact hs.
  - rewrite final_For. assert (hk : forall k, k <= n -> for_up k (fun k m => final sub (fun a => a) (setk rho x k) body m) m a i = m a i).
    { induction k as [|k IHk]; intro hk; [reflexivity|]. cbn [for_up]. rewrite IH; [apply IHk; lia|exact h|].
      intro hin. apply hw. apply in_flat_map. exists k. split; [apply in_seq; lia|exact hin]. }
    apply hk. lia.
Qed.

Lemma frame_b s rho m a i : ct s = true ->
  existsb (fun p => Nat.eqb (fst p) a && Nat.eqb (snd p) i) (wcells rho s) = false ->
  final sub (fun a => a) rho s m a i = m a i.
Proof.
  intros h hw. apply frame; [exact h|]. intro hin. assert (ht : existsb (fun p => Nat.eqb (fst p) a && Nat.eqb (snd p) i) (wcells rho s) = true).
  { apply existsb_exists. exists (a, i). split; [exact hin|]. cbn [fst snd]. rewrite !Nat.eqb_refl. reflexivity. }
  rewrite ht in hw. discriminate.
Qed.

Lemma wcells_names s : forall rho a i, In (a, i) (wcells rho s) -> In a (wnames (s : stmt)).
Proof.
  induction s as [|s1 IH1 s2 IH2|tag f d args|tag f d1 d2 args|tag f ds args|x n body IH|c args s1 IH1 s2 IH2|fuel c args body IH];
    intros rho a i h; cbn [wcells wnames] in *.
  - exact h.
  - apply in_app_or in h as [h|h]; apply in_or_app; [left|right]; eauto.
  - destruct h as [h|[]]. left. congruence.
  - destruct h as [h|[h|[]]]; [left|right; left]; congruence.
  - apply in_map_iff in h as [d [hd hin]]. apply in_map_iff. exists d. split; [congruence|exact hin].
  - apply in_flat_map in h as [k [_ h]]. eauto.
  - apply in_app_or in h as [h|h]; apply in_or_app; [left|right]; eauto.
  - eauto.
Qed.

Lemma frame_name s rho m a i : ct s = true -> existsb (Nat.eqb a) (wnames s) = false ->
  final sub (fun a => a) rho s m a i = m a i.
Proof.
  intros h hw. apply frame; [exact h|]. intro hin. apply wcells_names in hin.
  assert (ht : existsb (Nat.eqb a) (wnames s) = true) by (apply existsb_exists; exists a; split; [exact hin|apply Nat.eqb_refl]).
  rewrite ht in hw. discriminate.
Qed.
End Frame.
End Lang.

Section Split.
Context {V E : Type} (sub : string -> list V -> list E).
Lemma final_split n (l : list (stmt V)) sg rho m :
  final sub sg rho (prog l) m = final sub sg rho (prog (skipn n l)) (final sub sg rho (prog (firstn n l)) m).
Proof.
  revert l m. induction n as [|n IH]; intros l m; [reflexivity|]. destruct l as [|s l]; [reflexivity|].
  cbn [skipn firstn prog fold_right]. rewrite !final_Seq. apply IH.
Qed.
Lemma final_cons s (l : list (stmt V)) sg rho m :
  final sub sg rho (prog (s :: l)) m = final sub sg rho (prog l) (final sub sg rho s m).
Proof. apply final_Seq. Qed.
Lemma final_nil sg rho m : final sub sg rho (prog (@nil (stmt V))) m = m.
Proof. reflexivity. Qed.
End Split.

(** Two loops that keep a relation between their states. *)
Lemma for_up_rel {A B : Type} (R : nat -> A -> B -> Prop) n f g x y :
  R O x y -> (forall k x y, (k < n)%nat -> R k x y -> R (S k) (f k x) (g k y)) -> R n (for_up n f x) (for_up n g y).
Proof.
  intros h0 hs. assert (h : forall k, (k <= n)%nat -> R k (for_up k f x) (for_up k g y)).
  { induction k as [|k IH]; intro hk; [exact h0|]. cbn [for_up]. apply hs; [lia|]. apply IH. lia. }
  apply h. lia.
Qed.

(** The final memory does not depend on what is recorded inside the operations. *)
Section Sub.
Context {V E E' : Type} (sub : string -> list V -> list E) (sub' : string -> list V -> list E') (sg : nat -> nat).

Lemma ixv_sub rho m (e : ix V) : fst (@ixv V E sg rho m e) = fst (@ixv V E' sg rho m e).
Proof.
  induction e as [n|x|i IHi j IHj|i IHi j IHj|n i IHi|i IHi|f a i IHi]; cbn [ixv]; try reflexivity;
    repeat match goal with |- context [@ixv ?V ?E ?A ?r ?m ?e] => destruct (@ixv V E A r m e); cbn [fst] in * end; congruence.
Qed.

Lemma fetches_sub rho m (ps : list (place V)) : fst (@fetches V E sg rho m ps) = fst (@fetches V E' sg rho m ps).
Proof.
  induction ps as [|[a e] ps IH]; [reflexivity|]. cbn [fetches]. unfold fetch. cbn [fst snd].
  pose proof (ixv_sub rho m e) as h. destruct (@ixv V E sg rho m e), (@ixv V E' sg rho m e). cbn [fst] in *. subst.
  destruct (@fetches V E sg rho m ps), (@fetches V E' sg rho m ps). cbn [fst] in *. congruence.
Qed.

Lemma store_sub rho m p (v : V) : fst (@store V E sg rho m p v) = fst (@store V E' sg rho m p v).
Proof.
  unfold store. pose proof (ixv_sub rho m (snd p)) as h.
  destruct (@ixv V E sg rho m (snd p)), (@ixv V E' sg rho m (snd p)). cbn [fst] in *. congruence.
Qed.

Lemma stores_sub rho ds g : forall m k, fst (@stores V E sg rho m ds k g) = fst (@stores V E' sg rho m ds k g).
Proof.
  induction ds as [|d ds IH]; intros m k; [reflexivity|]. cbn [stores]. pose proof (store_sub rho m d (g k)) as h.
  destruct (@store V E sg rho m d (g k)) as [m1 u], (@store V E' sg rho m d (g k)) as [m1' u']. cbn [fst] in h. subst m1'. specialize (IH m1 (S k)).
  destruct (@stores V E sg rho m1 ds (S k) g), (@stores V E' sg rho m1 ds (S k) g). exact IH.
Qed.

Theorem final_sub s : forall rho m, final sub sg rho s m = final sub' sg rho s m.
Proof.
  induction s as [|s1 IH1 s2 IH2|tag f d args|tag f d1 d2 args|tag f ds args|x n body IH|c args s1 IH1 s2 IH2|fuel c args body IH];
    intros rho m.
  - reflexivity.
  - rewrite !final_Seq, IH1, IH2. reflexivity.
  - unfold final. cbn [exec]. pose proof (fetches_sub rho m args) as hf.
    destruct (@fetches V E sg rho m args) as [vs t], (@fetches V E' sg rho m args) as [vs' t']. cbn [fst] in hf. subst vs'.
    pose proof (store_sub rho m d (f rho vs)) as hs.
    destruct (@store V E sg rho m d (f rho vs)), (@store V E' sg rho m d (f rho vs)). exact hs.
  - unfold final. cbn [exec]. pose proof (fetches_sub rho m args) as hf.
    destruct (@fetches V E sg rho m args) as [vs t], (@fetches V E' sg rho m args) as [vs' t']. cbn [fst] in hf. subst vs'.
    destruct (f rho vs) as [v1 v2]. pose proof (store_sub rho m d1 v1) as hs.
    destruct (@store V E sg rho m d1 v1) as [m1 u1], (@store V E' sg rho m d1 v1) as [m1' u1']. cbn [fst] in hs. subst m1'.
    pose proof (store_sub rho m1 d2 v2) as hs2.
    destruct (@store V E sg rho m1 d2 v2), (@store V E' sg rho m1 d2 v2). exact hs2.
  - unfold final. cbn [exec]. pose proof (fetches_sub rho m args) as hf.
    destruct (@fetches V E sg rho m args) as [vs t], (@fetches V E' sg rho m args) as [vs' t']. cbn [fst] in hf. subst vs'.
    pose proof (stores_sub rho ds (f rho vs) m 0) as hs.
    destruct (@stores V E sg rho m ds 0 (f rho vs)), (@stores V E' sg rho m ds 0 (f rho vs)). exact hs.
  - rewrite !final_For. induction n as [|n IHn]; [reflexivity|]. cbn [for_up]. rewrite IHn. apply IH.
  - unfold final. cbn [exec]. pose proof (fetches_sub rho m args) as hf.
    destruct (@fetches V E sg rho m args) as [vs t], (@fetches V E' sg rho m args) as [vs' t']. cbn [fst] in hf. subst vs'.
    destruct (c vs).
    + specialize (IH1 rho m). unfold final in IH1. destruct (exec sub sg rho s1 m), (exec sub' sg rho s1 m). exact IH1.
    + specialize (IH2 rho m). unfold final in IH2. destruct (exec sub sg rho s2 m), (exec sub' sg rho s2 m). exact IH2.
  - unfold final. cbn [exec]. revert m. induction fuel as [|fuel IHf]; intro m; [reflexivity|].
    pose proof (fetches_sub rho m args) as hf.
    destruct (@fetches V E sg rho m args) as [vs t], (@fetches V E' sg rho m args) as [vs' t']. cbn [fst] in hf. subst vs'.
    destruct (c vs); [|reflexivity].
    specialize (IH rho m). unfold final in IH. destruct (exec sub sg rho body m) as [m1 u1], (exec sub' sg rho body m) as [m1' u1'].
    cbn [fst] in IH. subst m1'. specialize (IHf m1).
    match goal with |- fst (let (_, _) := ?A in _) = fst (let (_, _) := ?B in _) => destruct A, B end. exact IHf.
Qed.
End Sub.

(** A program accepted by [alias_ok] whose result in a run with different variables is [F]. *)
Lemma harmless_final {V R : Type} (view : (nat -> V) -> R) (L : nat) (s : stmt V) (F : mem V -> R) :
  (0 < L)%nat -> alias_ok L [] s = true ->
  (forall c c', (forall i, c i = c' i) -> view c = view c') ->
  (forall nu, view (final nosub (fun a => a) rho0 s nu 0%nat) = F nu) ->
  forall sg m, fresh_locals L sg ->
    view (final nosub sg rho0 s m (sg 0%nat)) = F (fun a j => m (sg a) j) /\
    others_same L sg m (final nosub sg rho0 s m).
Proof.
  intros hL ok ext link sg m fr. destruct (alias_free nosub L sg hL fr s rho0 m ok) as [hr ho]. split; [|exact ho].
  rewrite (ext _ _ hr). apply (link (fun a j => m (sg a) j)).
Qed.
Lemma harmless_intro {V R : Type} (view : (nat -> V) -> R) (L : nat) (s : stmt V) (F : mem V -> R) :
  (0 < L)%nat -> alias_ok L [] s = true ->
  (forall c c', (forall i, c i = c' i) -> view c = view c') ->
  (forall nu, runk nosub rho0 s nu (fun m => view (m 0%nat)) = F nu) ->
  forall sg m, fresh_locals L sg ->
    view (final nosub sg rho0 s m (sg 0%nat)) = F (fun a j => m (sg a) j) /\
    others_same L sg m (final nosub sg rho0 s m).
Proof.
  intros hL ok ext link. apply harmless_final; [exact hL|exact ok|exact ext|].
  intro nu. rewrite <- (link nu), runk_ok. reflexivity.
Qed.
