(** The branches and memory accesses of the scalar multiplications do not depend on the data. *)
From Coq Require Import ZArith List String Bool Lia.
From Verif Require Import Words ScalarCode FieldModel CurveModel GoLang GoLangFacts GoViews GoLimbCode GoLimbFacts GoCurveCode GoCurveFacts
  GoScalarMult GoScalarMultRun GoTableMult GoAliasFacts Amd64Model Amd64Code Amd64Field Amd64Trace GoTrace.
Import ListNotations.
Open Scope string_scope.
Strategy 2000 [final exec].

Section CT.
Context {V E : Type} (sub : string -> list V -> list E) (sg : nat -> nat).
Theorem ct_trace_tags s : forall rho m m', ct s = true ->
  (forall t, In t (tags s) -> forall vs vs', sub t vs = sub t vs') ->
  trace sub sg rho s m = trace sub sg rho s m'.
Proof.
  unfold trace. induction s as [|s1 IH1 s2 IH2|tag f d args|tag f d1 d2 args|tag f ds args|x n body IH|c args s1 IH1 s2 IH2|fuel c args body IH];
    intros rho m m' h hs; cbn [ct] in h; try discriminate; cbn [tags] in hs.
  - reflexivity.
  - apply andb_true_iff in h as [h1 h2]. cbn [exec].
    pose proof (IH1 rho m m' h1 (fun t ht => hs t (in_or_app _ _ _ (or_introl ht)))) as e1.
    destruct (exec sub sg rho s1 m) as [a t], (exec sub sg rho s1 m') as [a' t'].
    pose proof (IH2 rho a a' h2 (fun t ht => hs t (in_or_app _ _ _ (or_intror ht)))) as e2.
    destruct (exec sub sg rho s2 a) as [b u], (exec sub sg rho s2 a') as [b' u'].
    cbn [snd] in *. rewrite e1, e2. reflexivity.
  - apply andb_true_iff in h as [h1 h2]. cbn [exec].
    pose proof (ct_fetches sg (E:=E) rho m m' args h2) as e1. destruct (fetches sg rho m args) as [vs t], (fetches sg rho m' args) as [vs' t'].
    pose proof (ct_store sg (E:=E) rho m m' d (f rho vs) (f rho vs') h1) as e2.
    destruct (store sg rho m d (f rho vs)) as [b u], (store sg rho m' d (f rho vs')) as [b' u'].
    cbn [snd] in *. rewrite e1, e2, (hs tag (or_introl eq_refl) vs vs'). reflexivity.
  - apply andb_true_iff in h as [h h3]. apply andb_true_iff in h as [h1 h2]. cbn [exec].
    pose proof (ct_fetches sg (E:=E) rho m m' args h3) as e1. destruct (fetches sg rho m args) as [vs t], (fetches sg rho m' args) as [vs' t'].
    destruct (f rho vs) as [v1 v2], (f rho vs') as [v1' v2'].
    pose proof (ct_store sg (E:=E) rho m m' d1 v1 v1' h1) as e2.
    destruct (store sg rho m d1 v1) as [b u], (store sg rho m' d1 v1') as [b' u'].
    pose proof (ct_store sg (E:=E) rho b b' d2 v2 v2' h2) as e3.
    destruct (store sg rho b d2 v2) as [b2 u2], (store sg rho b' d2 v2') as [b2' u2'].
    cbn [snd] in *. rewrite e1, e2, e3, (hs tag (or_introl eq_refl) vs vs'). reflexivity.
  - apply andb_true_iff in h as [h1 h2]. cbn [exec].
    pose proof (ct_fetches sg (E:=E) rho m m' args h2) as e1. destruct (fetches sg rho m args) as [vs t], (fetches sg rho m' args) as [vs' t'].
    pose proof (ct_stores sg (E:=E) rho ds m m' 0 (f rho vs) (f rho vs') h1) as e2.
    destruct (stores sg rho m ds 0 (f rho vs)) as [b u], (stores sg rho m' ds 0 (f rho vs')) as [b' u'].
    cbn [snd] in *. rewrite e1, e2, (hs tag (or_introl eq_refl) vs vs'). reflexivity.
  - rewrite !exec_For.
    assert (e : snd (rounds sub sg rho x body n m) = snd (rounds sub sg rho x body n m')).
    { induction n as [|n IHn]; [reflexivity|]. cbn [rounds].
      destruct (rounds sub sg rho x body n m) as [a t], (rounds sub sg rho x body n m') as [a' t'].
      pose proof (IH (setk rho x n) a a' h hs) as e. destruct (exec sub sg (setk rho x n) body a) as [b u], (exec sub sg (setk rho x n) body a') as [b' u'].
      cbn [snd] in *. rewrite IHn, e. reflexivity. }
    destruct (rounds sub sg rho x body n m) as [a t], (rounds sub sg rho x body n m') as [a' t']. cbn [snd] in *. rewrite e. reflexivity.
Qed.
End CT.

(** the operations of a backend that the programs use *)
Definition used : list string := ["add"; "sub"; "Mul"; "Square"; "DoubledSquare"; "Neg"; "ConditionalSet"; "normalize"; "Set"; "SetBytes"; "BytesInto";
  "IsNegativeI"; "IsNonZeroI"; "IsOneI"; "EqualsI"; "int"].
Definition known (t : string) : bool := existsb (String.eqb t) used.
Lemma known_cases t : known t = true -> In t used.
Proof. intro h. unfold known in h. apply existsb_exists in h as [u [hu e]]. apply String.eqb_eq in e. subst u. exact hu. Qed.

Lemma trace_code (s : stmt Z) m m' : ct s = true ->
  trace (E:=Empty_set) nosub (fun a => a) rho0 s m = trace nosub (fun a => a) rho0 s m'.
Proof. intro h. apply ct_trace; [reflexivity|exact h]. Qed.

Lemma method_one code tag t t' : forallb (fun p => ct (snd p)) code = true ->
  (tag = "int" \/ lookup tag code <> None) -> method code tag t -> method code tag t' -> t = t'.
Proof.
  intros hc hk. unfold method. destruct (lookup tag code) as [s|] eqn:E.
  - assert (h : ct s = true).
    { clear hk. induction code as [|[u a] code IH]; [discriminate E|]. cbn [forallb snd] in hc. apply andb_true_iff in hc as [h1 h2].
      cbn [lookup] in E. destruct (String.eqb u tag); [injection E as <-; exact h1|exact (IH h2 E)]. }
    intros [m ->] [m' ->]. apply trace_code, h.
  - destruct hk as [hk|hk]; [|elim hk; reflexivity]. intros h1 h2. rewrite (h1 hk), (h2 hk). reflexivity.
Qed.
Lemma used51 t : In t used -> t = "int" \/ lookup t code51 <> None.
Proof. intro h. repeat (destruct h as [<-|h]; [first [left; reflexivity|right; discriminate]|]). destruct h. Qed.
Lemma used25 t : In t used -> t = "int" \/ lookup t code25 <> None.
Proof. intro h. repeat (destruct h as [<-|h]; [first [left; reflexivity|right; discriminate]|]). destruct h. Qed.
Lemma ct51 : forallb (fun p => ct (snd p)) code51 = true.
Proof. vm_compute. reflexivity. Qed.
Lemma ct25 : forallb (fun p => ct (snd p)) code25 = true.
Proof. vm_compute. reflexivity. Qed.

Lemma feMul_accesses args s s' : accesses args asm_feMul s = accesses args asm_feMul s'.
Proof. apply accesses_const. vm_compute. discriminate. Qed.
Lemma feSquare_accesses args s s' : accesses args asm_feSquare s = accesses args asm_feSquare s'.
Proof. apply accesses_const. vm_compute. discriminate. Qed.

Lemma ct64 : forallb (fun p => ct (snd p)) code64 = true.
Proof. vm_compute. reflexivity. Qed.
Lemma lookup_ct code tag s : forallb (fun p => ct (snd p)) code = true -> lookup tag code = Some s -> @ct Z s = true.
Proof.
  intros hc E. induction code as [|[u a] code IH]; [discriminate E|]. cbn [forallb snd] in hc. apply andb_true_iff in hc as [h1 h2].
  cbn [lookup] in E. destruct (String.eqb u tag); [injection E as <-; exact h1|exact (IH h2 E)].
Qed.
Lemma used64 t : In t used -> lookup t code64 = None -> t = "Mul" \/ t = "Square" \/ t = "DoubledSquare" \/ t = "int".
Proof.
  intro h. repeat (destruct h as [<-|h]; [intro E; first [discriminate E|left; reflexivity|right; left; reflexivity|right; right; left; reflexivity|right; right; right; reflexivity]|]).
  destruct h.
Qed.
Lemma method64_one t u u' : In t used -> method64 t u -> method64 t u' -> u = u'.
Proof.
  intro h. unfold method64. destruct (lookup t code64) as [s|] eqn:E.
  - pose proof (lookup_ct _ _ _ ct64 E) as hs. intros [m ->] [m' ->]. rewrite (trace_code s m m' hs). reflexivity.
  - destruct (used64 t h E) as [-> | [-> | [-> | ->]]].
    + change (String.eqb "Mul" "Mul") with true. cbv iota. intros [s ->] [s' ->]. rewrite (feMul_accesses _ s s'). reflexivity.
    + change (String.eqb "Square" "Mul") with false. change (String.eqb "Square" "Square") with true. cbv iota.
      intros [s ->] [s' ->]. rewrite (feSquare_accesses _ s s'). reflexivity.
    + change (String.eqb "DoubledSquare" "Mul") with false. change (String.eqb "DoubledSquare" "Square") with false.
      change (String.eqb "DoubledSquare" "DoubledSquare") with true. cbv iota.
      intros (s & m & ->) (s' & m' & ->). rewrite (feSquare_accesses _ s s').
      rewrite (ct_trace nosub _ (fun _ _ _ => eq_refl) (d_r51_add 0 1 2 3) rho0 m m' (ct_r51_add 0 1 2 3)). reflexivity.
    + change (String.eqb "int" "Mul") with false. change (String.eqb "int" "Square") with false.
      change (String.eqb "int" "DoubledSquare") with false. cbv iota.
      intros h1 h2. rewrite (h1 eq_refl), (h2 eq_refl). reflexivity.
Qed.

Section Curve.
Context (K : FeOps).
Notation V := (fe K * Z)%type.
Notation P n := ((n%nat, C 0) : place V).
Definition prog_ep : stmt V := g_ep_ScalarMult K (P 0) (P 1) (P 2) 3 0.
Definition prog_tb : stmt V := g_tb_ScalarMult K (P 1) (P 0) (P 2) 3 0.
Lemma ct_ep : ct prog_ep = true. Proof. vm_compute. reflexivity. Qed.
Lemma ct_tb : ct prog_tb = true. Proof. vm_compute. reflexivity. Qed.
Lemma tags_ep t : In t (tags prog_ep) -> In t used.
Proof.
  intro h. apply known_cases. assert (a : forallb known (tags prog_ep) = true) by (vm_compute; reflexivity).
  rewrite forallb_forall in a. apply a, h.
Qed.
Lemma tags_tb t : In t (tags prog_tb) -> In t used.
Proof.
  intro h. apply known_cases. assert (a : forallb known (tags prog_tb) = true) by (vm_compute; reflexivity).
  rewrite forallb_forall in a. apply a, h.
Qed.

Lemma trace_const {E : Type} (meth : string -> list E -> Prop) (s : stmt V) :
  (forall t u u', In t used -> meth t u -> meth t u' -> u = u') -> ct s = true -> (forall t, In t (tags s) -> In t used) ->
  forall sub, (forall t vs, meth t (sub t vs)) -> forall sg m m', trace sub sg rho0 s m = trace sub sg rho0 s m'.
Proof.
  intros h1 h2 h3 sub hs sg m m'. apply ct_trace_tags; [exact h2|]. intros t ht vs vs'. apply (h1 t); [apply h3, ht|apply hs|apply hs].
Qed.

(** any injective choice of variables *)
Lemma tb_result sg m : fresh_locals 1 sg ->
  ext_at K (final (E:=Empty_set) nosub sg rho0 prog_tb m (sg 0%nat)) 0 = tbl_ScalarMult K (table K (m (sg 1%nat))) (ints K (m (sg 2%nat)) 32) /\
  (forall b i, b <> sg 0%nat -> b <> sg 1%nat -> b <> sg 2%nat -> (forall a, (3 <= a)%nat -> sg a <> b) -> final (E:=Empty_set) nosub sg rho0 prog_tb m b i = m b i).
Proof.
  intro fr.
  destruct (harmless_final (fun c => ext_at K c 0) 1 prog_tb (fun nu => tbl_ScalarMult K (table K (nu 1%nat)) (ints K (nu 2%nat) 32)) ltac:(lia)
    ltac:(vm_compute; reflexivity) (ext0_ext K) (link_tb_ScalarMult K rho0) sg m fr) as [h ho].
  split; [exact h|]. intros b i h0 h1 h2 hb. apply ho; [exact h0|]. intros a ha.
  destruct a as [|[|[|a]]]; [lia|congruence|congruence|apply hb; lia].
Qed.
End Curve.
