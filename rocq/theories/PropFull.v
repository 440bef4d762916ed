(** Property C67: sequences of calls of all exported methods, on recovered panics.

    [xrun], [x_typed] (ApiFullModel.v): the calls of a program, one after the other, from variables that hold the zero values of their types,
    with what the caller sees of each; arguments that have the types of the parameters.  [krun] (ApiFullSpec.v): the ideal machine of C66,
    in which Points are exponents modulo l, with the further methods.  [xtracks] (ApiFullProofs.v): no Point that came from a decoder, or
    that Lizard or LizardInto has been called on, is added or multiplied.
    [hex64], [over_long], [corrupt_at], [b64_size], [text_bytes], [b64_text], [digit64], [be]: the texts, as in C34 and C63. *)
From Coq Require Import ZArith List Lia Bool String.
From Verif Require Import Words Primes FieldModel CurveModel RistrettoModel TextCodec Text51 ErrorModel ErrorFacts ErrorText ApiModel ApiSpec ApiIdeal Backends
  ApiTotalSpec ApiFullModel ApiFullSpec ApiFullProofs ApiFull.
Import ListNotations.
Open Scope Z_scope.
Local Notation length := List.length.

(** Every program: the results of the calls are those of the machine, for one choice of its functions on all builds. *)
Theorem C67_run : exists enc dec ell lizenc lizdec inv lizno text ptext stext,
  ((forall m, bytes 32 (enc m)) /\ enc 0 = repeat 0 32 /\ (forall m n, 0 <= m < l -> 0 <= n < l -> enc m = enc n -> m = n) /\
   (forall b m, dec b = Some m <-> 0 <= m < l /\ enc m = b) /\
   (forall b, bytes 32 b -> 0 <= ell b < l) /\ (forall d, bytes 16 d -> 0 <= lizenc d < l) /\
   (forall m d, 0 <= m < l -> (lizdec m = Some d <-> bytes 16 d /\ lizenc d = m /\ forall d', bytes 16 d' -> lizenc d' = m -> d' = d)) /\
   (forall a, 0 <= a < l -> 0 <= inv a < l /\ (a <> 0 -> (inv a * a) mod l = 1) /\ (a = 0 -> inv a = 0))) /\
  ((forall m, 0 <= m < l -> (lizno m = true <-> forall d, bytes 16 d -> lizenc d <> m)) /\
   (forall buf, bytes 32 buf -> exists vs, Forall2 digit64 (text buf) vs /\ length vs = 43%nat /\ be 64 vs = 4 * be 256 buf)) /\
  (forall txt,
    (ptext txt = RPanic <-> ~ hex64 txt /\ over_long txt) /\
    (forall i, ptext txt = RErr (CorruptInput i) <-> ~ hex64 txt /\ ~ over_long txt /\ corrupt_at i txt) /\
    (forall n, ptext txt = RErr (PointSize n) <-> ~ hex64 txt /\ ~ over_long txt /\ b64_size n txt /\ n <> 32%nat) /\
    (forall buf, ptext txt = RBuf buf <-> text_bytes txt buf) /\
    (forall e, ptext txt = RErr e -> (exists i, e = CorruptInput i) \/ (exists n, e = PointSize n))) /\
  (forall txt,
    (stext txt = RPanic <-> over_long txt) /\
    (forall i, stext txt = RErr (CorruptInput i) <-> ~ over_long txt /\ corrupt_at i txt) /\
    (forall n, stext txt = RErr (ScalarSize n) <-> ~ over_long txt /\ b64_size n txt /\ n <> 32%nat) /\
    (forall buf, stext txt = RBuf buf <-> b64_text txt buf) /\
    (forall e, stext txt = RErr e -> (exists i, e = CorruptInput i) \/ (exists n, e = ScalarSize n))) /\
  forall b prog, Forall x_typed prog -> b <> Generic \/ xtracks prog (fun _ => true) = true ->
    fst (xrun (ops b) (baseTable b) prog (init (ops b))) = fst (krun enc dec ell lizenc lizdec inv lizno text ptext stext prog iinit).
Proof. exact f_all. Qed.
Print Assumptions C67_run.

(** The calls that panic: Rand when crypto/rand fails, and UnmarshalText on a text whose first 44 characters, line breaks aside, are base64
    characters (unless it is a Point in hexadecimal).  No other. *)
Theorem C67_panics : forall b prog, Forall x_typed prog -> b <> Generic \/ xtracks prog (fun _ => true) = true -> forall n,
  nth_error (fst (xrun (ops b) (baseTable b) prog (init (ops b)))) n = Some XPanic <->
  exists i, nth_error prog n = Some i /\
    match i with
    | XPRand _ None | XSRand _ None => True
    | XPUnmarshalText _ txt => ~ hex64 txt /\ over_long txt
    | XSUnmarshalText _ txt => over_long txt
    | _ => False
    end.
Proof. exact f_panics. Qed.
Print Assumptions C67_panics.

(** The builds give the same results. *)
Theorem C67_same : forall b c prog, Forall x_typed prog -> b <> Generic /\ c <> Generic \/ xtracks prog (fun _ => true) = true ->
  fst (xrun (ops b) (baseTable b) prog (init (ops b))) = fst (xrun (ops c) (baseTable c) prog (init (ops c))).
Proof. exact f_same. Qed.
Print Assumptions C67_same.

(** A program with failures of crypto/rand, texts that are too long, too short, wrong and right, and decodings that fail. *)
Example C67_case : forall b, Forall x_typed full_prog /\ xtracks full_prog (fun _ => true) = true /\
  fst (xrun (ops b) (baseTable b) full_prog (init (ops b))) = full_obs (k_lizard lizdec lizno 0).
Proof. exact f_case. Qed.
