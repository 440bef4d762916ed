(** Programs over package edwards25519: the ideal machine in terms of the Points of package ristretto, and a program. *)
From Coq Require Import ZArith Znumtheory List Lia Bool.
From Verif Require Import Words Primes Fp Edwards GroupOrder RistrettoSpec FieldModel CurveModel FieldLaws
  ScalarModel ScalarReduce ScalarFacts RistrettoModel RistrettoFacts ElligatorSpec LizardProofs
  ApiProofs ApiIdeal Backends EdwardsFacts EdProgModel EdProgSpec EdProgProofs.
Import ListNotations.
Open Scope Z_scope.

Lemma ed_enc b s : reduced s -> pt_Bytes (ops b) (pt_ScalarMultBase (ops b) (baseTable b) s) = enc (scv s).
Proof.
  intro hs. destruct (b_baseMult b s hs) as [[h _] _]. destruct (b_encodes b _ _ h) as (x & e & hx). rewrite e.
  symmetry. rewrite <- EBc_eq in hx. exact (enc_encodes x _ _ hx (dlog_base _ (proj2 hs))).
Qed.
Lemma ed_ell b buf : bytes 32 buf -> 0 <= ell buf < l /\ pt_Bytes (ops b) (pt_SetElligator (ops b) buf) = enc (ell buf).
Proof.
  intro hb. destruct (b_elligator b buf hb) as (A & [h _] & hA). pose proof (ell_ok buf A hb hA) as d. split; [exact (proj1 d)|].
  destruct (b_encodes b _ _ h) as (x & e & hx). rewrite e. symmetry. exact (enc_encodes x A _ hx d).
Qed.

Theorem ed_all : exists enc dec ell vt,
  (forall b s, reduced s -> pt_Bytes (ops b) (pt_ScalarMultBase (ops b) (baseTable b) s) = enc (scv s)) /\
  (forall buf m, dec buf = Some m <-> 0 <= m < l /\ enc m = buf) /\
  (forall m n, 0 <= m < l -> 0 <= n < l -> enc m = enc n -> m = n) /\
  (forall b buf, bytes 32 buf -> 0 <= ell buf < l /\ pt_Bytes (ops b) (pt_SetElligator (ops b) buf) = enc (ell buf)) /\
  (forall v, 0 <= v < 2 ^ 256 -> (vt v = v \/ vt v = v - 2 ^ 256) /\ (v < 2 ^ 255 -> vt v = v)) /\
  forall b prog os fine, Forall e_typed prog -> (b <> Generic \/ e_fit prog (fun _ => false) = true) ->
    i_run enc dec ell vt prog i_init = Some (os, fine) ->
    fst (e_run (ops b) prog (e_init (ops b))) = os /\ (snd (e_run (ops b) prog (e_init (ops b))) = None <-> fine = false).
Proof.
  exists enc, dec, ell, vt. refine (conj ed_enc (conj dec_ok (conj enc_inj (conj ed_ell (conj vt_spec _))))).
  intros b prog os fine h1 h2 h3. destruct (ed_programs b prog (os, fine) h1 h2 h3) as [g1 g2]. split; [exact g1|]. cbn [snd] in g2.
  destruct (snd (e_run (ops b) prog (e_init (ops b)))); cbn [ended] in g2; subst fine; split; (reflexivity || discriminate).
Qed.

(** Whatever the ideal machine has seen before, its encodings decide: two builds agree on every program that reads only variables that are set. *)
Definition e_defined (prog : list ecall) : Prop := forall enc dec ell vt, i_run enc dec ell vt prog i_init <> None.
Theorem ed_same b c prog : Forall e_typed prog -> (b <> Generic /\ c <> Generic \/ e_fit prog (fun _ => false) = true) -> e_defined prog ->
  fst (e_run (ops b) prog (e_init (ops b))) = fst (e_run (ops c) prog (e_init (ops c))) /\
  (snd (e_run (ops b) prog (e_init (ops b))) = None <-> snd (e_run (ops c) prog (e_init (ops c))) = None).
Proof.
  intros ht hg hd. destruct ed_all as (en & de & el & v & _ & _ & _ & _ & _ & H). specialize (hd en de el v).
  destruct (i_run en de el v prog i_init) as [[os x]|] eqn:e; [|destruct (hd eq_refl)].
  assert (hb : b <> Generic \/ e_fit prog (fun _ => false) = true) by (destruct hg as [[g _]|g]; [left; exact g | right; exact g]).
  assert (hc : c <> Generic \/ e_fit prog (fun _ => false) = true) by (destruct hg as [[_ g]|g]; [left; exact g | right; exact g]).
  destruct (H b prog os x ht hb e) as [b1 b2], (H c prog os x ht hc e) as [c1 c2]. split; [congruence|]. rewrite b2, c2. reflexivity.
Qed.

(** 2B = B + B by way of a CompletedPoint and a ProjectivePoint; 4B three ways; subtraction of a NielsPoint; points of small order are invisible;
    to the Jacobi quartic and back;
    a scalar that is too large for the VarTimeScalarMult of a table. *)
Definition e_prog : list ecall := [
  EBase 0; CAdd 0 0 0; PSetCompleted 0 0; CDoubleP 1 0; ESetCompleted 2 1; EDoubleE 1 0;
  TCompute 0 0; ETable 3 0 (4 :: repeat 0 31); EEqualsI 2 3; EScalarMult 4 0 (4 :: repeat 0 31); EEqualsI 4 3; EEqualsI 4 0;
  NSetExtended 0 1; NNeg 1 0; CAddNiels 2 2 1; ESetCompleted 4 2; EEqualsI 4 1; ETorsion2 5; EAddE 4 4 5; EEqualsI 4 1;
  ESubE 4 4 1; EEqualsI 4 5; ECond 4 0 true; EEqualsI 4 0; ETableVarTime 6 0 (3 :: repeat 0 31); ESubE 6 6 0; EEqualsI 6 1;
  JFrom 0 1; JDual 3 3; CSetJacobi 3 3; ESetCompleted 6 3; EEqualsI 6 1;
  ETableVarTime 6 0 (repeat 255 32); EEqualsI 6 1].
Definition e_seen : list eobs := [
  ENone; ENone; ENone; ENone; ENone; ENone;
  ENone; ENone; EInt 1; ENone; EInt 1; EInt 0;
  ENone; ENone; ENone; ENone; EInt 1; ENone; ENone; EInt 1;
  ENone; EInt 1; ENone; EInt 1; ENone; ENone; EInt 1;
  ENone; ENone; ENone; ENone; EInt 1].
Lemma e_prog_ideal enc dec ell vt : i_run enc dec ell vt e_prog i_init = Some (e_seen, false).
Proof. vm_compute. reflexivity. Qed.
Lemma e_prog_typed : Forall e_typed e_prog /\ e_fit e_prog (fun _ => false) = true.
Proof.
  assert (H : forall x, is_byte x -> bytes 32 (x :: repeat 0 31)).
  { intros x hx. split; [reflexivity|]. constructor; [exact hx|]. apply Forall_forall. intros y hy. apply repeat_spec in hy. subst y. unfold is_byte. lia. }
  assert (G : bytes 32 (repeat 255 32)).
  { split; [reflexivity|]. apply Forall_forall. intros y hy. apply repeat_spec in hy. subst y. unfold is_byte. lia. }
  split; [|vm_compute; reflexivity]. unfold e_prog. repeat (constructor; [cbn [e_typed]; try exact Logic.I; try exact G; apply H; unfold is_byte; lia|]); constructor.
Qed.
Theorem e_case : Forall e_typed e_prog /\ e_fit e_prog (fun _ => false) = true /\ e_defined e_prog /\
  forall b, fst (e_run (ops b) e_prog (e_init (ops b))) = e_seen /\ snd (e_run (ops b) e_prog (e_init (ops b))) = None.
Proof.
  destruct e_prog_typed as [h1 h2]. refine (conj h1 (conj h2 (conj _ _))).
  - intros en de el v. rewrite e_prog_ideal. discriminate.
  - intro b. destruct ed_all as (en & de & el & v & _ & _ & _ & _ & _ & H).
    destruct (H b e_prog _ _ h1 (or_intror h2) (e_prog_ideal en de el v)) as [g1 g2]. exact (conj g1 (proj2 g2 eq_refl)).
Qed.

(** Elligator and back: 4 is among the preimages of its image, 5 is negative *)
Definition inv_prog : list ecall := [
  CElligator 0 (4 :: repeat 0 31); ESetCompleted 0 0; EInverse 0 (4 :: repeat 0 31); EInverse 0 (5 :: repeat 0 31); EZero 1; ESubE 1 1 1; EInverse 1 (5 :: repeat 0 31)].
Definition inv_seen : list eobs := [ENone; ENone; EBool true; EBool false; ENone; ENone; EBool false].
Lemma inv_ideal enc dec ell vt : i_run enc dec ell vt inv_prog i_init = Some (inv_seen, true).
Proof.
  assert (H : i_candidate (4 :: repeat 0 31) = true) by (vm_compute; reflexivity).
  assert (G : i_candidate (5 :: repeat 0 31) = false) by (vm_compute; reflexivity).
  unfold inv_prog. generalize dependent (5 :: repeat 0 31). generalize dependent (4 :: repeat 0 31). intros x hx y hy.
  cbn [i_run i_step i_init ilet zE zC isetE isetC eset Nat.eqb]. rewrite hx, hy, Z.eqb_refl. reflexivity.
Qed.
Theorem inv_case b : fst (e_run (ops b) inv_prog (e_init (ops b))) = inv_seen.
Proof.
  destruct ed_all as (en & de & el & v & _ & _ & _ & _ & _ & H). apply (H b inv_prog inv_seen true).
  - assert (B : forall x, is_byte x -> bytes 32 (x :: repeat 0 31)).
    { intros x hx. split; [reflexivity|]. constructor; [exact hx|]. apply Forall_forall. intros y hy. apply repeat_spec in hy. subst y. unfold is_byte. lia. }
    unfold inv_prog. repeat (constructor; [cbn [e_typed]; try exact Logic.I; apply B; unfold is_byte; lia|]). constructor.
  - right. reflexivity.
  - apply inv_ideal.
Qed.

(** 0 plus the negative of B by way of NielsPoints, compared with -B and with 0; the negative in the variable [d], B in the variable 0. *)
Definition neg_prog (d : nat) : list ecall := [
  EBase 0; NSetExtended 0 0; NNeg d 0; EZero 1; CAddNiels 0 1 d; ESetCompleted 2 0; ENegE 3 0; EEqualsI 2 3; EEqualsI 2 1].
Definition neg_seen (x y : Z) : list eobs := [ENone; ENone; ENone; ENone; ENone; ENone; ENone; EInt x; EInt y].
Theorem neg_apart b : fst (e_run (ops b) (neg_prog 1) (e_init (ops b))) = neg_seen 1 0.
Proof.
  destruct ed_all as (en & de & el & v & _ & _ & _ & _ & _ & H). apply (H b (neg_prog 1) (neg_seen 1 0) true).
  - unfold neg_prog. repeat (constructor; [exact Logic.I|]). constructor.
  - right. reflexivity.
  - vm_compute. reflexivity.
Qed.
Theorem neg_alias : fst (e_run (ops PureGo64) (neg_prog 0) (e_init (ops PureGo64))) = neg_seen 0 1.
Proof. vm_compute. reflexivity. Qed.
