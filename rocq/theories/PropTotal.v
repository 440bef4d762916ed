(** Property C66: sequences of calls on Points and tables that need not have been set.

    [run], [init], [well_typed] (ApiModel.v): the calls of a program, variables that hold the zero values of their types, and arguments
    that have the types of the parameters.  [irun] (ApiSpec.v): the ideal machine, in which Points are exponents modulo l; it stops when a
    Point that is not set is used.  [jrun] (ApiTotalSpec.v): the same machine, which goes on with the rules of [blank_step].
    [tracks] (ApiProofs.v): no Point that came from a decoder or that Lizard has been called on is added or multiplied. *)
From Coq Require Import ZArith List Lia Bool.
From Verif Require Import Words Primes FieldModel CurveModel RistrettoModel ApiModel ApiSpec ApiProofs ApiIdeal Backends ApiTotalSpec ApiTotal.
Import ListNotations.
Open Scope Z_scope.

(** Every program: the results of the calls are those of the machine, for one encoding of the exponents on all builds. *)
Theorem C66_run : exists enc dec ell lizenc lizdec inv,
  ((forall m, bytes 32 (enc m)) /\ enc 0 = repeat 0 32 /\ (forall m n, 0 <= m < l -> 0 <= n < l -> enc m = enc n -> m = n) /\
   (forall b m, dec b = Some m <-> 0 <= m < l /\ enc m = b) /\
   (forall b, bytes 32 b -> 0 <= ell b < l) /\ (forall d, bytes 16 d -> 0 <= lizenc d < l) /\
   (forall m d, 0 <= m < l -> (lizdec m = Some d <-> bytes 16 d /\ lizenc d = m /\ forall d', bytes 16 d' -> lizenc d' = m -> d' = d)) /\
   (forall a, 0 <= a < l -> 0 <= inv a < l /\ (a <> 0 -> (inv a * a) mod l = 1) /\ (a = 0 -> inv a = 0))) /\
  forall b prog, Forall well_typed prog -> b <> Generic \/ tracks prog (fun _ => true) = true ->
    exists st', run (ops b) (baseTable b) prog (init (ops b)) = Some (fst (jrun enc dec ell lizenc lizdec inv prog iinit), st').
Proof. exact t_all. Qed.
Print Assumptions C66_run.

(** [jrun] extends [irun]. *)
Theorem C66_extends : forall enc dec ell lizenc lizdec inv prog os s' s, irun enc dec ell lizenc lizdec inv prog s = Some (os, s') ->
  jrun enc dec ell lizenc lizdec inv prog s = (os, s').
Proof. exact t_irun. Qed.
Print Assumptions C66_extends.

(** On the 64-bit builds no program panics. *)
Theorem C66_no_panic : forall b prog, b <> Generic -> Forall well_typed prog ->
  run (ops b) (baseTable b) prog (init (ops b)) <> None.
Proof. exact t_no_panic. Qed.
Print Assumptions C66_no_panic.

(** The builds give the same results. *)
Theorem C66_same : forall b c prog, Forall well_typed prog -> b <> Generic /\ c <> Generic \/ tracks prog (fun _ => true) = true ->
  option_map fst (run (ops b) (baseTable b) prog (init (ops b))) = option_map fst (run (ops c) (baseTable c) prog (init (ops c))).
Proof. exact t_same. Qed.
Print Assumptions C66_same.

(** A program for which [irun] stops. *)
Example C66_case : Forall well_typed blank_prog /\ irun enc dec ell lizenc lizdec inv blank_prog iinit = None /\
  tracks blank_prog (fun _ => true) = false /\
  fst (jrun enc dec ell lizenc lizdec inv blank_prog iinit) =
  [OBytes (repeat 0 32); ONone; OBool true; OBool false; ONone; ONone; OBytes (repeat 0 32); ONone; ONone; ONone; OBool true;
   ONone; ONone; OBool false; ONone; ONone; OData (lizdec 0); ONone; OInt 1].
Proof. exact t_case. Qed.

(** One on the generic build: the unset Point 0 is encoded, added, multiplied and compared. *)
Example C66_generic : tracks [PBytes 0; PSetBase 1; PAdd 2 1 0; PScalarMult 3 2 0; TCompute 0 2; PScalarMultTable 4 0 0; PEquals 2 1] (fun _ => true) = true.
Proof. reflexivity. Qed.
