(** Every program on every build, with Points and tables that need not be set. *)
From Coq Require Import ZArith List Lia Bool.
From Verif Require Import Words Primes NumTheory Fp Edwards RistrettoSpec FieldModel CurveModel FieldLaws CurveProofs EncodeProofs ScalarFacts RistrettoModel RistrettoFacts
  ApiModel ApiSpec ApiProofs ApiIdeal Backends BackendsMore Generic25 DegenerateFacts Degenerate ApiTotalSpec ApiTotalProofs.
From Verif Require Points51.
Import ListNotations.
Open Scope Z_scope.

Lemma t_enc0 : enc 0 = repeat 0 32.
Proof.
  pose proof (point_d (laws PureGo64) _ _ (point_Zero (laws PureGo64))) as h.
  destruct (Bytes_dpoint (laws PureGo64) _ _ h) as (q & e & hq). rewrite (id_enc _ _ _ _ _ _ ideal q E0 0 hq dlog_0), <- e.
  exact (E0_bytes (laws PureGo64) _ (proj1 h)).
Qed.
Lemma t_need b i (st : state (ops b)) : b <> Generic -> need (laws b) i st.
Proof. intro hb. destruct b; [| |destruct (hb eq_refl)]; destruct i; exact Logic.I. Qed.

Theorem t_run b prog : Forall well_typed prog -> b <> Generic \/ tracks prog (fun _ => true) = true ->
  exists st', run (ops b) (baseTable b) prog (init (ops b)) = Some (fst (jrun enc dec ell lizenc lizdec inv prog iinit), st').
Proof.
  intros hw h. apply (total_run _ _ _ _ _ _ ideal (laws b) (baseTable b) (base_ok b) prog (fun _ => true) (init (ops b)) iinit).
  - apply corrT_init, zero_tdeg.
  - exact hw.
  - destruct h as [hb|ht]; [left; intros i st; exact (t_need b i st hb) | right; exact (conj (cleanT_init (laws b) _) ht)].
Qed.

Theorem t_all : exists enc dec ell lizenc lizdec inv,
  ((forall m, bytes 32 (enc m)) /\ enc 0 = repeat 0 32 /\ (forall m n, 0 <= m < l -> 0 <= n < l -> enc m = enc n -> m = n) /\
   (forall b m, dec b = Some m <-> 0 <= m < l /\ enc m = b) /\
   (forall b, bytes 32 b -> 0 <= ell b < l) /\ (forall d, bytes 16 d -> 0 <= lizenc d < l) /\
   (forall m d, 0 <= m < l -> (lizdec m = Some d <-> bytes 16 d /\ lizenc d = m /\ forall d', bytes 16 d' -> lizenc d' = m -> d' = d)) /\
   (forall a, 0 <= a < l -> 0 <= inv a < l /\ (a <> 0 -> (inv a * a) mod l = 1) /\ (a = 0 -> inv a = 0))) /\
  forall b prog, Forall well_typed prog -> b <> Generic \/ tracks prog (fun _ => true) = true ->
    exists st', run (ops b) (baseTable b) prog (init (ops b)) = Some (fst (jrun enc dec ell lizenc lizdec inv prog iinit), st').
Proof.
  exists enc, dec, ell, lizenc, lizdec, inv.
  exact (conj (conj enc_bytes (conj t_enc0 (conj enc_inj (conj dec_ok (conj ell_range (conj lizenc_range (conj lizdec_ok inv_ok))))))) t_run).
Qed.

Lemma t_no_panic b prog : b <> Generic -> Forall well_typed prog -> run (ops b) (baseTable b) prog (init (ops b)) <> None.
Proof. intros hb hw. destruct (t_run b prog hw (or_introl hb)) as [st' e]. rewrite e. discriminate. Qed.
Lemma t_same b c prog : Forall well_typed prog -> b <> Generic /\ c <> Generic \/ tracks prog (fun _ => true) = true ->
  option_map fst (run (ops b) (baseTable b) prog (init (ops b))) = option_map fst (run (ops c) (baseTable c) prog (init (ops c))).
Proof.
  intros hw h. destruct (t_run b prog hw ltac:(tauto)) as [s1 e1], (t_run c prog hw ltac:(tauto)) as [s2 e2]. rewrite e1, e2. reflexivity.
Qed.

Lemma t_irun enc dec ell lizenc lizdec inv prog : forall os s' s, irun enc dec ell lizenc lizdec inv prog s = Some (os, s') -> jrun enc dec ell lizenc lizdec inv prog s = (os, s').
Proof.
  induction prog as [|i r IH]; intros os s' s; cbn [irun jrun].
  - intro e. injection e as <- <-. reflexivity.
  - unfold jstep. destruct (istep enc dec ell lizenc lizdec inv i s) as [[o s1]|]; [|discriminate].
    destruct (irun enc dec ell lizenc lizdec inv r s1) as [[os1 s2]|] eqn:e; [|discriminate]. intro g. injection g as <- <-.
    rewrite (IH _ _ _ e). reflexivity.
Qed.

(** a program that uses Points and tables that are not set: the first two calls read them; a failed decoding; an addition; multiples by 3 and by 0 *)
Definition blank_prog : list call :=
  [PBytes 0; PSetBase 1; PEquals 0 1; PSetBytes 1 (1 :: repeat 0 31); PSetBase 2; PAdd 2 2 1; PBytes 2; SSetUint64 0 3; PScalarMult 3 2 0; PSetBase 4; PEquals 3 4;
   TCompute 0 3; PPublicScalarMultTable 5 0 1; PEquals 5 4; PConditionalSet 4 3 true; PDouble 4 4; PLizard 4; PNeg 4 4; PEqualsI 4 1].
Lemma jrun_case e d ll le ld iv : d (1 :: repeat 0 31) = None ->
  irun e d ll le ld iv blank_prog iinit = None /\
  fst (jrun e d ll le ld iv blank_prog iinit) =
  [OBytes (repeat 0 32); ONone; OBool true; OBool false; ONone; ONone; OBytes (repeat 0 32); ONone; ONone; ONone; OBool true;
   ONone; ONone; OBool false; ONone; ONone; OData (ld 0); ONone; OInt 1].
Proof.
  intro hd. split; [reflexivity|]. unfold blank_prog. generalize dependent (1 :: repeat 0 31). intros x hx.
  cbn -[l]. rewrite hx. reflexivity.
Qed.
Lemma t_case : Forall well_typed blank_prog /\ irun enc dec ell lizenc lizdec inv blank_prog iinit = None /\
  tracks blank_prog (fun _ => true) = false /\
  fst (jrun enc dec ell lizenc lizdec inv blank_prog iinit) =
  [OBytes (repeat 0 32); ONone; OBool true; OBool false; ONone; ONone; OBytes (repeat 0 32); ONone; ONone; ONone; OBool true;
   ONone; ONone; OBool false; ONone; ONone; OData (lizdec 0); ONone; OInt 1].
Proof.
  assert (hb : bytes 32 (1 :: repeat 0 31)) by (split; [reflexivity|]; repeat constructor; lia).
  assert (hd : dec (1 :: repeat 0 31) = None).
  { destruct (SetBytes_dlog _ _ _ _ _ _ ideal (laws PureGo64) (baseTable PureGo64) (base_ok PureGo64) _ hb) as (Q & e & _).
    assert (h : fst (pt_SetBytes (ops PureGo64) (1 :: repeat 0 31)) = false) by exact Points51.odd_rejected. apply (f_equal fst) in e. cbn [fst] in e. rewrite h in e.
    destruct (dec (1 :: repeat 0 31)); [discriminate e | reflexivity]. }
  destruct (jrun_case enc dec ell lizenc lizdec inv hd) as [h1 h2]. refine (conj _ (conj h1 (conj eq_refl h2))).
  unfold blank_prog. repeat (apply Forall_cons); try exact Logic.I; [exact hb | cbn [well_typed]; lia | apply Forall_nil].
Qed.
