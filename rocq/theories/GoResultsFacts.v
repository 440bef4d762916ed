(** The proofs of PropThreads.v. *)
From Coq Require Import ZArith List String Bool Lia.
From Verif Require Import ScalarCode FieldModel CurveModel Fe51Laws Fe25Laws Amd64Model Amd64Code Amd64Field
  GoLang GoLangFacts GoLimbCode GoLimbTests GoCurveCode GoCodecCode GoInverseCode GoTrace GoSecret GoThreads GoThreadsFacts GoResults.
Import ListNotations.
Open Scope string_scope.
Open Scope nat_scope.
Strategy 2000 [final exec].

Definition may (g : sig) (a : nat) : bool := existsb (Nat.eqb a) (results g) || (params g <=? a).
Lemma may_ok g a : may g a = true -> writable g a.
Proof.
  intro h. apply orb_true_iff in h as [h|h]; [left|right].
  - apply existsb_exists in h as [b [hb e]]. apply Nat.eqb_eq in e. subst b. exact hb.
  - apply Nat.leb_le in h. exact h.
Qed.
Definition obeys {V : Type} (g : sig) (s : stmt V) : bool := forallb (may g) (wnames s).
Lemma obeys_names {V : Type} g (s : stmt V) : obeys g s = true -> forall a, In a (wnames s) -> writable g a.
Proof. intros h a ha. unfold obeys in h. rewrite forallb_forall in h. apply may_ok, h, ha. Qed.
Lemma obeys_ok {V : Type} g (s : stmt V) : obeys g s = true -> writes_only g s.
Proof.
  intros h E sub sg m x hx. refine (exec_untouched sub sg s x rho0 m _). intros a ha. exact (hx a (obeys_names g s h a ha)).
Qed.

(** a list of programs that obeys a list of signatures *)
Definition obey {V : Type} (sigs : list (string * sig)) (code : list (string * stmt V)) : bool :=
  forallb (fun p => match lookup (fst p) sigs with Some g => obeys g (snd p) | None => false end) code.
Lemma obey_in {V : Type} sigs (code : list (string * stmt V)) : obey sigs code = true ->
  forall n s, In (n, s) code -> exists g, lookup n sigs = Some g /\ obeys g s = true.
Proof.
  intros h n s hin. unfold obey in h. rewrite forallb_forall in h. apply h in hin. cbn [fst snd] in hin.
  destruct (lookup n sigs) as [g|]; [|discriminate]. exists g. split; [reflexivity|exact hin].
Qed.
Lemma obey_writes {V : Type} sigs (code : list (string * stmt V)) : obey sigs code = true ->
  forall n s, In (n, s) code -> exists g, lookup n sigs = Some g /\ writes_only g s.
Proof. intros h n s hin. destruct (obey_in sigs code h n s hin) as [g [hg ho]]. exists g. split; [exact hg|]. apply obeys_ok, ho. Qed.
Lemma lookup_in {A : Type} n (code : list (string * A)) s : lookup n code = Some s -> In (n, s) code.
Proof.
  induction code as [|[k a] code IH]; cbn [lookup]; [discriminate|]. destruct (String.eqb_spec k n) as [->|].
  - intro h. injection h as ->. left. reflexivity.
  - intro h. right. exact (IH h).
Qed.
Lemma in_lookup {A : Type} n (code : list (string * A)) : In n (map fst code) -> exists s, lookup n code = Some s.
Proof.
  induction code as [|[k a] code IH]; cbn [map In fst lookup]; [intros []|]. intros [->|h].
  - rewrite String.eqb_refl. eauto.
  - destruct (String.eqb k n); eauto.
Qed.

Lemma obey_interference {V : Type} sigs (code : list (string * stmt V)) : obey sigs code = true -> no_interference code sigs.
Proof.
  intros ho cs tr m hcs hi hil.
  assert (hk : forall n sg, In (n, sg) cs -> exists s g, lookup n code = Some s /\ lookup n sigs = Some g /\ obeys g s = true).
  { intros n sg hin. destruct (in_lookup n code (hcs _ hin)) as [s hs]. destruct (obey_in sigs code ho n s (lookup_in n code s hs)) as [g [hg h]]. eauto. }
  destruct (threads_independent (calls code cs) tr m) as [h1 h2].
  - intros i j c c' ne hc hc' a b ha. unfold calls in hc, hc'. rewrite nth_error_map in hc, hc'.
    destruct (nth_error cs i) as [[n sg]|] eqn:ei; [|discriminate]. destruct (nth_error cs j) as [[n' sg']|] eqn:ej; [|discriminate].
    cbn [option_map fst snd] in hc, hc'. injection hc as <-. injection hc' as <-. cbn [fst snd] in *.
    destruct (hk n sg (nth_error_In _ _ ei)) as (s & g & hs & hg & h). rewrite hs in ha.
    exact (hi i j n sg n' sg' g ne ei ej hg a b (obeys_names g s h a ha)).
  - exact hil.
  - split.
    + intros n sg s hin hs a k. specialize (h1 (sg, s)). refine (h1 _ a k). unfold calls. apply in_map_iff. exists (n, sg). cbn [fst snd]. rewrite hs.
      split; [reflexivity|exact hin].
    + intros x hx. apply h2. intros c a hc ha. unfold calls in hc. apply in_map_iff in hc as [[n sg] [<- hin]]. cbn [fst snd] in *.
      destruct (hk n sg hin) as (s & g & hs & hg & h). rewrite hs in ha. exact (hx n sg g a hin hg (obeys_names g s h a ha)).
Qed.

Lemma obey_points64 K : obey point_sigs (points64 K) = true.
Proof. vm_compute. reflexivity. Qed.
Lemma obey_points K : obey point_sigs (points_all K) = true.
Proof. vm_compute. reflexivity. Qed.
Lemma obey_scalars : obey scalar_sigs scalar_programs = true.
Proof. vm_compute. reflexivity. Qed.
Lemma obey_51 : obey sigs51 code51 = true.
Proof. vm_compute. reflexivity. Qed.
Lemma obey_64 : obey sigs51 code64 = true.
Proof. vm_compute. reflexivity. Qed.
Lemma obey_25 : obey sigs25 code25 = true.
Proof. vm_compute. reflexivity. Qed.
Lemma obey_inverse : writes_only inverse_sig (d_sc_inverse 0 1 2).
Proof. apply obeys_ok. vm_compute. reflexivity. Qed.

(** ** Leaving out the write of an unchanged receiver *)
Section Same.
Context {V : Type}.
Notation FIN sg := (@final V Empty_set nosub sg).

(** the second result of the tests is what is already in the second destination, and the first destination is another variable *)
Fixpoint same_back (s : stmt V) : Prop :=
  match s with
  | Do2 tag f d1 d2 args =>
      if (String.eqb tag "IsNegativeI" || String.eqb tag "IsNonZeroI")%bool
      then args = [d2] /\ ct_ix (snd d2) = true /\ forall rho v, snd (f rho [v]) = v else True
  | Seq s1 s2 => same_back s1 /\ same_back s2
  | For _ _ s => same_back s
  | If _ _ _ _ | While _ _ _ _ => False
  | _ => True
  end.
(** the first destination is a local and another variable than the second *)
Fixpoint apart (L : nat) (s : stmt V) : bool :=
  match s with
  | Do2 tag f d1 d2 args => (L <=? fst d1) && negb (Nat.eqb (fst d1) (fst d2))
  | Seq s1 s2 => apart L s1 && apart L s2
  | For _ _ s => apart L s
  | _ => true
  end.
Definition meq (m m' : mem V) : Prop := forall x k, m x k = m' x k.
Lemma meq_final sg s rho m m' : meq m m' -> meq (FIN sg rho s m) (FIN sg rho s m').
Proof.
  intros h x k. destruct (in_dec Nat.eq_dec x (map sg (wnames s))) as [hin|hout].
  - apply in_map_iff in hin as [a [<- _]]. exact (proj1 (exec_agree (E := Empty_set) nosub sg s rho m m' (fun a k => h (sg a) k)) a k).
  - assert (hw : forall a, In a (wnames s) -> sg a <> x) by (intros a ha e; apply hout, in_map_iff; eauto).
    etransitivity; [exact (proj2 (exec_untouched (E := Empty_set) nosub sg s x rho m hw) k)|].
    etransitivity; [exact (h x k)|]. symmetry. exact (proj2 (exec_untouched (E := Empty_set) nosub sg s x rho m' hw) k).
Qed.
Lemma ct_value sg rho m e : ct_ix e = true -> fst (@ixv V Empty_set sg rho m e) = ixc rho e.
Proof.
  induction e as [n|x|i IHi j IHj|i IHi j IHj|n i IHi|i IHi|f a i IHi]; cbn [ixv ixc ct_ix]; intro h; try reflexivity;
    try discriminate; try (apply andb_true_iff in h as [h1 h2]; specialize (IHi h1); specialize (IHj h2)); try specialize (IHi h);
    repeat match goal with |- context [ixv ?A ?r ?m ?e] => destruct (ixv A r m e); cbn [fst] in * end; congruence.
Qed.

Lemma readonly_final L sg s : fresh_locals L sg -> same_back s -> apart L s = true -> forall rho m, meq (FIN sg rho (readonly_tests s) m) (FIN sg rho s m).
Proof.
  intros hf. induction s as [|s1 IH1 s2 IH2|tag f d args|tag f d1 d2 args|tag f ds args|y n body IH|c args s1 IH1 s2 IH2|fuel c args body IH];
    cbn [same_back apart readonly_tests]; intros hb ha rho m; try (intros x k; reflexivity).
  - destruct hb as [hb1 hb2]. apply andb_true_iff in ha as [ha1 ha2]. rewrite !final_Seq. intros x k.
    etransitivity; [exact (meq_final sg (readonly_tests s2) rho _ _ (IH1 hb1 ha1 rho m) x k)|]. exact (IH2 hb2 ha2 rho _ x k).
  - destruct (String.eqb tag "IsNegativeI" || String.eqb tag "IsNonZeroI")%bool; [|intros x k; reflexivity].
    destruct hb as (-> & hc & hv). apply andb_true_iff in ha as [hl hn]. apply Nat.leb_le in hl. apply negb_true_iff, Nat.eqb_neq in hn.
    assert (ne : sg (fst d1) <> sg (fst d2)) by (intro e; apply hn; exact (hf _ _ hl e)).
    intros x k. unfold final. cbn [exec fetches]. unfold fetch, store. pose proof (ct_value sg rho m (snd d2) hc) as h2.
    destruct (@ixv V Empty_set sg rho m (snd d2)) as [j t]. cbn [fst] in h2. specialize (hv rho (m (sg (fst d2)) j)).
    destruct (f rho [m (sg (fst d2)) j]) as [v1 v2]. cbn [fst snd] in *. subst v2.
    destruct (@ixv V Empty_set sg rho m (snd d1)) as [j1 t1].
    match goal with |- context [ixv sg rho ?M (snd d2)] => pose proof (ct_value sg rho M (snd d2) hc) as h3; destruct (@ixv V Empty_set sg rho M (snd d2)) as [j' t'] end.
    cbn [fst] in *. subst j j'. unfold upd. destruct (Nat.eqb_spec x (sg (fst d2))) as [->|]; [|reflexivity].
    destruct (Nat.eqb_spec k (ixc rho (snd d2))) as [->|]; [|reflexivity]. cbn [andb].
    destruct (Nat.eqb_spec (sg (fst d2)) (sg (fst d1))) as [e|]; [exfalso; apply ne; symmetry; exact e|reflexivity].
  - rewrite !final_For. clear -IH hb ha. induction n as [|n IHn]; [intros x k; reflexivity|]. cbn [for_up]. intros x k.
    etransitivity; [|exact (IH hb ha (setk rho y n) _ x k)]. exact (meq_final sg _ _ _ _ IHn x k).
  - destruct hb.
  - destruct hb.
Qed.
End Same.

Lemma test_same K : (forall x, snd (o_bytes K x) = x) -> (forall x, snd (fe_IsNegativeI K x) = x) /\ (forall x, snd (fe_IsNonZeroI K x) = x).
Proof.
  intro h. split; intro x; unfold fe_IsNegativeI, fe_IsNonZeroI; specialize (h x); destruct (o_bytes K x) as [b y]; exact h.
Qed.
Lemma back51 K : K = R51 \/ K = RAmd64 -> forall x, snd (o_bytes K x) = x.
Proof. intros [-> | ->] []; reflexivity. Qed.

Section Points.
Context (K : FeOps) (hK : K = R51 \/ K = RAmd64).
Local Notation V := (fe K * Z)%type.
Lemma back_neg d a : ct_ix (snd a) = true -> same_back (iot K "IsNegativeI" (fe_IsNegativeI K) d a).
Proof.
  intro h. refine (conj eq_refl (conj h _)). intros rho v. destruct (test_same K (back51 K hK)) as [h1 _]. specialize (h1 (fst v)).
  destruct (fe_IsNegativeI K (fst v)) as [r y]. cbn [snd] in *. subst y. destruct v. reflexivity.
Qed.
Lemma back_nonzero d a : ct_ix (snd a) = true -> same_back (iot K "IsNonZeroI" (fe_IsNonZeroI K) d a).
Proof.
  intro h. refine (conj eq_refl (conj h _)). intros rho v. destruct (test_same K (back51 K hK)) as [_ h1]. specialize (h1 (fst v)).
  destruct (fe_IsNonZeroI K (fst v)) as [r y]. cbn [snd] in *. subst y. destruct v. reflexivity.
Qed.
Lemma back_seq (s1 s2 : stmt V) : same_back s1 -> same_back s2 -> same_back (Seq s1 s2).
Proof. exact (fun h1 h2 => conj h1 h2). Qed.
Lemma back_for x n (s : stmt V) : same_back s -> same_back (For x n s).
Proof. exact (fun h => h). Qed.
Lemma back_do tag f d (args : list (place V)) : same_back (Do tag f d args).
Proof. exact Logic.I. Qed.
Lemma back_don tag f ds (args : list (place V)) : same_back (DoN tag f ds args).
Proof. exact Logic.I. Qed.
Lemma back_skip : same_back (@Skip V).
Proof. exact Logic.I. Qed.
Ltac back :=
  repeat match goal with
  | |- same_back (Seq _ _) => apply back_seq
  | |- same_back (For _ _ _) => apply back_for
  | |- same_back (Do _ _ _ _) => apply back_do
  | |- same_back (DoN _ _ _ _) => apply back_don
  | |- same_back Skip => apply back_skip
  | |- same_back (iot _ "IsNegativeI" _ _ _) => apply back_neg; reflexivity
  | |- same_back (iot _ "IsNonZeroI" _ _ _) => apply back_nonzero; reflexivity
  | |- same_back (prog []) => apply back_skip
  | |- same_back (prog (_ :: _)) => apply back_seq
  | |- same_back (prog (map _ (seq _ _))) => cbn [map seq]
  | |- same_back (fold_right Seq Skip (_ :: _)) => apply back_seq
  | |- same_back (fold_right Seq Skip []) => apply back_skip
  | |- same_back (?f _) => unfold f
  | |- same_back (?f _ _) => unfold f
  | |- same_back (?f _ _ _) => unfold f
  | |- same_back (?f _ _ _ _) => unfold f
  | |- same_back (?f _ _ _ _ _) => unfold f
  | |- same_back (?f _ _ _ _ _ _) => unfold f
  | |- same_back (?f _ _ _ _ _ _ _) => unfold f
  end.
Lemma back_points : Forall (fun p => same_back (snd p)) (secret_points K).
Proof. unfold secret_points. repeat (apply Forall_cons; [cbn [snd]; back|]). apply Forall_nil. Qed.
Lemma apart_points : forallb (fun p => match lookup (fst p) point_sigs with Some g => apart (params g) (snd p) | None => false end) (secret_points K) = true.
Proof. vm_compute. reflexivity. Qed.

Lemma points64_same : forall n s g sg m, In (n, s) (secret_points K) -> lookup n point_sigs = Some g -> fresh_locals (params g) sg ->
  forall x k, final (E := Empty_set) nosub sg rho0 (readonly_tests s) m x k = final (E := Empty_set) nosub sg rho0 s m x k.
Proof.
  intros n s g sg m hin hg hf. pose proof apart_points as ha. rewrite forallb_forall in ha. pose proof (ha _ hin) as ha1. cbn [fst snd] in ha1. rewrite hg in ha1.
  pose proof back_points as hb. rewrite Forall_forall in hb. exact (readonly_final (params g) sg s hf (hb _ hin) ha1 rho0 m).
Qed.
End Points.
