(** Property C40: sequences of API calls, on the 64-bit (radix 2^51) backend.

    [run R51 r51_baseTable prog st] (ApiModel.v) executes the calls [prog] on the modelled Go code; [None] would be a
    panic.  [init R51] gives every variable the Go zero value.  [irun ... prog iinit] (ApiSpec.v) executes them on
    integers modulo [l]: a Point is an exponent, a Scalar an integer; it gives [None] if a Point is used that was
    never initialised (or whose decoding failed).  Both return the list of values the caller observes. *)
From Coq Require Import ZArith List Lia Bool.
From Verif Require Import Words Primes Fp Edwards GroupOrder RistrettoSpec Fe51Code FieldModel CurveModel FieldLaws
  ScalarCode ScalarModel ScalarFacts TextCodec RistrettoModel Sha256 RistrettoFacts Fe51Laws BaseTable51
  ApiModel ApiSpec ApiProofs ApiIdeal Points51 Generic25.
Import ListNotations.
Open Scope Z_scope.

Theorem C40_history : exists enc dec ell lizenc lizdec inv,
  ((forall m, bytes 32 (enc m)) /\ (forall m n, 0 <= m < l -> 0 <= n < l -> enc m = enc n -> m = n) /\
   (forall b m, dec b = Some m <-> 0 <= m < l /\ enc m = b) /\
   (forall b, bytes 32 b -> 0 <= ell b < l) /\ (forall d, bytes 16 d -> 0 <= lizenc d < l) /\
   (forall m d, 0 <= m < l -> (lizdec m = Some d <-> bytes 16 d /\ lizenc d = m /\ forall d', bytes 16 d' -> lizenc d' = m -> d' = d)) /\
   (forall a, 0 <= a < l -> 0 <= inv a < l /\ (a <> 0 -> (inv a * a) mod l = 1) /\ (a = 0 -> inv a = 0))) /\
  forall prog os s', Forall well_typed prog -> irun enc dec ell lizenc lizdec inv prog iinit = Some (os, s') ->
    exists st', run R51 r51_baseTable prog (init R51) = Some (os, st').
Proof. exact history51. Qed.
Print Assumptions C40_history.

(** The same from any state: [holds st s] (Generic25.v) says that every Point, Scalar and table variable of [st] holds the
    group element, integer or multiples table that [s] has for it, and it holds again afterwards. *)
Theorem C40_states : forall prog st s os s', holds st s -> Forall well_typed prog ->
  irun enc dec ell lizenc lizdec inv prog s = Some (os, s') ->
  exists st', run R51 r51_baseTable prog st = Some (os, st') /\ holds st' s'.
Proof. exact states51. Qed.
Print Assumptions C40_states.

(** Two different exponents are told apart by every observer, equal ones by none. *)
Theorem C40_distinguish : forall m n, 0 <= m < l -> 0 <= n < l -> (enc m = enc n <-> m = n).
Proof. exact enc_iff_eq. Qed.
Print Assumptions C40_distinguish.

Example C40_case :
  let prog := [SSetUint64 0 5; PScalarMultBase 0 0; PSetElligator 1 (repeat 7 32); PAdd 2 0 1; PSetBytes 3 (repeat 0 32);
               PAdd 4 3 2; PDouble 5 3; PBytes 4; PEquals 4 2; TCompute 0 4; PScalarMultTable 6 0 0; PNeg 6 6; PSub 7 3 6; PBytes 7] in
  Forall well_typed prog /\ irun enc dec ell lizenc lizdec inv prog iinit <> None /\ holds (init R51) iinit.
Proof.
  destruct case_prog_ok as (os & h1 & h2 & _). exact (conj h1 (conj h2 holds_init)).
Qed.
