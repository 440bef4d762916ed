(** Property C69: sequences of calls of the exported methods of package edwards25519.

    [e_run], [e_init], [e_typed] (EdProgModel.v): the calls of a program until the first panic, from variables whose limbs are all 0, with what
    the caller sees of each; arrays have 32 bytes.  [i_run], [i_init] (EdProgSpec.v): the same program where all variables hold
    integers modulo l; [None] if it reads a variable that has no value.  [e_fit] (EdProgSpec.v): no point from
    SetRistretto is the second operand of an addition, or is multiplied.  [scv], [reduced]: the value of a
    Scalar, and that it is below l.  [e_defined] (EdProg.v): the program reads only variables that have a value. *)
From Coq Require Import ZArith List Bool.
From Verif Require Import Words Primes ScalarModel ScalarReduce ScalarSub ScalarFacts FieldModel RistrettoModel Backends EdProgModel EdProgSpec EdProgProofs EdProg.
Import ListNotations.
Open Scope Z_scope.

(** What the caller of any program sees, on any build, is what the machine on integers modulo l computes, where [enc m] is the encoding of m
    times the base point.  On the generic build points from SetRistretto may not be used as second operands (C37). *)
Theorem C69_run : exists enc dec ell vt,
  (forall b s, reduced s -> pt_Bytes (ops b) (pt_ScalarMultBase (ops b) (baseTable b) s) = enc (scv s)) /\
  (forall buf m, dec buf = Some m <-> 0 <= m < l /\ enc m = buf) /\
  (forall m n, 0 <= m < l -> 0 <= n < l -> enc m = enc n -> m = n) /\
  (forall b buf, bytes 32 buf -> 0 <= ell buf < l /\ pt_Bytes (ops b) (pt_SetElligator (ops b) buf) = enc (ell buf)) /\
  (forall v, 0 <= v < 2 ^ 256 -> (vt v = v \/ vt v = v - 2 ^ 256) /\ (v < 2 ^ 255 -> vt v = v)) /\
  forall b prog os fine, Forall e_typed prog -> (b <> Generic \/ e_fit prog (fun _ => false) = true) ->
    i_run enc dec ell vt prog i_init = Some (os, fine) ->
    fst (e_run (ops b) prog (e_init (ops b))) = os /\ (snd (e_run (ops b) prog (e_init (ops b))) = None <-> fine = false).
Proof. exact ed_all. Qed.
Print Assumptions C69_run.

(** The builds give the same results, and panic at the same call. *)
Theorem C69_same : forall b c prog, Forall e_typed prog -> (b <> Generic /\ c <> Generic \/ e_fit prog (fun _ => false) = true) -> e_defined prog ->
  fst (e_run (ops b) prog (e_init (ops b))) = fst (e_run (ops c) prog (e_init (ops c))) /\
  (snd (e_run (ops b) prog (e_init (ops b))) = None <-> snd (e_run (ops c) prog (e_init (ops c))) = None).
Proof. exact ed_same. Qed.
Print Assumptions C69_same.

(** The negative of a NielsPoint written over its argument, which [i_run] excludes, is visible: added to 0 it compares as equal to 0, and not to the
    negative. *)
Theorem C69_neg_alias_refuted : exists prog : nat -> list ecall,
  (forall d, prog d = [EBase 0; NSetExtended 0 0; NNeg d 0; EZero 1; CAddNiels 0 1 d; ESetCompleted 2 0; ENegE 3 0; EEqualsI 2 3; EEqualsI 2 1]) /\
  (forall b, fst (e_run (ops b) (prog 1%nat) (e_init (ops b))) = [ENone; ENone; ENone; ENone; ENone; ENone; ENone; EInt 1; EInt 0]) /\
  fst (e_run (ops PureGo64) (prog 0%nat) (e_init (ops PureGo64))) = [ENone; ENone; ENone; ENone; ENone; ENone; ENone; EInt 0; EInt 1].
Proof. exact (ex_intro _ neg_prog (conj (fun _ => eq_refl) (conj neg_apart neg_alias))). Qed.
Print Assumptions C69_neg_alias_refuted.

Example C69_case : Forall e_typed e_prog /\ e_fit e_prog (fun _ => false) = true /\ e_defined e_prog /\
  forall b, fst (e_run (ops b) e_prog (e_init (ops b))) = e_seen /\ snd (e_run (ops b) e_prog (e_init (ops b))) = None.
Proof. exact e_case. Qed.
Example C69_inverse_case : forall b, fst (e_run (ops b) inv_prog (e_init (ops b))) = [ENone; ENone; EBool true; EBool false; ENone; ENone; EBool false].
Proof. exact inv_case. Qed.
