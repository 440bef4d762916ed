(** Property C45: the theorems on points hold for all three builds of the library, and the builds interoperate.

    [build], [point], [summand], [table_of] and [reports] are defined at the top of Backends.v: [point b P A] says
    that the limbs of [P] are in bounds and that (X : Y : Z : T) are extended coordinates of the curve point [A], a
    double of a curve point.  On the generic build an operand that is added has to satisfy an additional bound
    ([summand]), which all results except those of decoding do (this is the exception of C37). *)
From Coq Require Import ZArith Znumtheory List Lia Bool.
From Verif Require Import Words Primes Fp Edwards GroupOrder RistrettoSpec FieldModel CurveModel FieldLaws ScalarCode ScalarModel ScalarReduce ScalarSub ScalarFacts
  RistrettoModel ElligatorSpec ElligatorMath LizardProofs Sha256 Elligator51 TextCodec TextProofs Text51 ApiModel ApiSpec ApiProofs ApiIdeal Generic25 Backends BackendsMore.
Import ListNotations.
Open Scope Z_scope.

(** Add and Sub. *)
Theorem C45_add : forall b P Q A B, point b P A -> summand b Q B ->
  summand b (pt_Add (ops b) P Q) (Eadd A B) /\ summand b (pt_Sub (ops b) P Q) (Eadd A (Eopp B)).
Proof. exact b_add. Qed.
Print Assumptions C45_add.

Theorem C45_double : forall b P A, point b P A -> summand b (pt_Double (ops b) P) (Eadd A A).
Proof. exact b_double. Qed.
Print Assumptions C45_double.

Theorem C45_neg : forall b P A, (point b P A -> point b (pt_Neg (ops b) P) (Eopp A)) /\ (summand b P A -> summand b (pt_Neg (ops b) P) (Eopp A)).
Proof. exact b_neg. Qed.
Print Assumptions C45_neg.

(** The zero and the base point (the RFC 8032 base point plus the point (-i, 0) of order 4, see C16). *)
Theorem C45_constants : forall b, summand b (pt_SetZero (ops b)) E0 /\ summand b (pt_SetBase (ops b)) (Eadd EB T4').
Proof. exact b_const. Qed.
Print Assumptions C45_constants.

Theorem C45_conditionalSet : forall b P Q A B c, point b P A -> point b Q B -> pt_ConditionalSet (ops b) P Q (Z.b2z c) = if c then Q else P.
Proof. exact b_condset. Qed.
Print Assumptions C45_conditionalSet.

(** Scalar multiplication, constant-time and Public; [Some] excludes panics. *)
Theorem C45_scalarMult : forall b P A s, summand b P A -> reduced s -> summand b (pt_ScalarMult (ops b) P s) (Emul (scv s) A) /\
  exists R, pt_PublicScalarMult (ops b) P s = Some R /\ summand b R (Emul (scv s) A).
Proof. exact b_scalarMult. Qed.
Print Assumptions C45_scalarMult.

(** Precomputed tables, and the literal one. *)
Theorem C45_tables : forall b, (forall P A, summand b P A -> table_of b (pt_Compute (ops b) P) A) /\ table_of b (baseTable b) (Eadd EB T4').
Proof. exact b_tables. Qed.
Print Assumptions C45_tables.

Theorem C45_tableMult : forall b t A s, table_of b t A -> reduced s -> summand b (pt_ScalarMultTable (ops b) t s) (Emul (scv s) A) /\
  exists R, pt_PublicScalarMultTable (ops b) t s = Some R /\ summand b R (Emul (scv s) A).
Proof. exact b_tableMult. Qed.
Print Assumptions C45_tableMult.

Theorem C45_baseMult : forall b s, reduced s -> summand b (pt_ScalarMultBase (ops b) (baseTable b) s) (Emul (scv s) (Eadd EB T4')) /\
  exists R, pt_PublicScalarMultBase (ops b) (baseTable b) s = Some R /\ summand b R (Emul (scv s) (Eadd EB T4')).
Proof. exact b_baseMult. Qed.
Print Assumptions C45_baseMult.

(** Equality is equality modulo the four points of order dividing 4. *)
Theorem C45_equals : forall b P Q A B, point b P A -> point b Q B ->
  (pt_Equals (ops b) P Q = true <-> In (Eadd A (Eopp B)) [E0; T2; T4; T4']) /\ pt_EqualsI (ops b) P Q = Z.b2z (pt_Equals (ops b) P Q).
Proof. exact b_equals. Qed.
Print Assumptions C45_equals.

(** Encodings of two builds are equal exactly when the group elements are. *)
Theorem C45_bytes : forall b c P Q A B, point b P A -> point c Q B ->
  bytes 32 (pt_Bytes (ops b) P) /\ (pt_Bytes (ops b) P = pt_Bytes (ops c) Q <-> In (Eadd A (Eopp B)) [E0; T2; T4; T4']).
Proof. exact b_bytes. Qed.
Print Assumptions C45_bytes.

(** Decoding accepts exactly the encodings of points, of whatever build. *)
Theorem C45_decode : forall b buf, bytes 32 buf ->
  (exists P A, pt_SetBytes (ops b) buf = (true, P) /\ point b P A /\ pt_Bytes (ops b) P = buf) \/
  (pt_SetBytes (ops b) buf = (false, ep_zerovalue (ops b)) /\ forall c Q B, point c Q B -> pt_Bytes (ops c) Q <> buf).
Proof. exact b_decode. Qed.
Print Assumptions C45_decode.

Theorem C45_decode_same : forall b c buf, bytes 32 buf -> fst (pt_SetBytes (ops b) buf) = fst (pt_SetBytes (ops c) buf).
Proof. exact b_decode_same. Qed.
Print Assumptions C45_decode_same.

(** Encode on one build, decode on another. *)
Theorem C45_roundtrip : forall b c P A, point b P A -> exists Q B, pt_SetBytes (ops c) (pt_Bytes (ops b) P) = (true, Q) /\ point c Q B /\
  In (Eadd B (Eopp A)) [E0; T2; T4; T4'].
Proof. exact b_roundtrip. Qed.
Print Assumptions C45_roundtrip.

(** Elligator is the map of RFC 9496 on every build; its inverse. *)
Theorem C45_elligator : forall b buf, bytes 32 buf -> exists A, summand b (pt_SetElligator (ops b) buf) A /\ rfc_map (fe_of buf) A.
Proof. exact b_elligator. Qed.
Print Assumptions C45_elligator.

Theorem C45_inverse : forall b P A s, point b P A ->
  (reports b P s <-> nonneg_bytes s /\ s <> missed /\ pt_Equals (ops b) (pt_SetElligator (ops b) s) P = true).
Proof. exact b_reports. Qed.
Print Assumptions C45_inverse.

(** Lizard. *)
Theorem C45_lizard : forall b buf data, bytes 16 data -> exists A, summand b (pt_SetLizard (ops b) sha256 data) A /\
  exists P', pt_LizardInto (ops b) sha256 (pt_SetLizard (ops b) sha256 data) buf = (lizard_nil, data, P') \/
  exists d other, pt_LizardInto (ops b) sha256 (pt_SetLizard (ops b) sha256 data) buf = (lizard_multiple, d, P') /\ bytes 16 other /\ other <> data /\
    pt_Equals (ops b) (pt_SetLizard (ops b) sha256 other) (pt_SetLizard (ops b) sha256 data) = true.
Proof. exact b_lizard. Qed.
Print Assumptions C45_lizard.

Theorem C45_lizard_sound : forall b H P A buf d P', hash32 H -> point b P A -> pt_LizardInto (ops b) H P buf = (lizard_nil, d, P') ->
  bytes 16 d /\ pt_Equals (ops b) (pt_SetLizard (ops b) H d) P = true.
Proof. exact b_lizard_sound. Qed.
Print Assumptions C45_lizard_sound.

(** Hashing to a Point gives the same element on all builds. *)
Theorem C45_elligator_same : forall b c buf, bytes 32 buf ->
  pt_Bytes (ops b) (pt_SetElligator (ops b) buf) = pt_Bytes (ops c) (pt_SetElligator (ops c) buf).
Proof. exact b_elligator_same. Qed.
Print Assumptions C45_elligator_same.

Theorem C45_lizard_same : forall b c H data, hash32 H -> bytes 16 data ->
  pt_Bytes (ops b) (pt_SetLizard (ops b) H data) = pt_Bytes (ops c) (pt_SetLizard (ops c) H data).
Proof. exact b_lizard_same. Qed.
Print Assumptions C45_lizard_same.

(** Text: base64 and hexadecimal, marshalled on one build and unmarshalled on another; what UnmarshalText does otherwise
    ([hex64], [over_long], [base64_43]: see PropText.v). *)
Theorem C45_text : forall b c P A R up, point b P A -> length (pt_MarshalText (ops b) P) = 43%nat /\
  exists Q B, pt_UnmarshalText (ops c) R (pt_MarshalText (ops b) P) = Done Q /\
    pt_UnmarshalText (ops c) R (hex_encode up (pt_Bytes (ops b) P)) = Done Q /\ point c Q B /\ In (Eadd B (Eopp A)) [E0; T2; T4; T4'].
Proof. exact b_text_roundtrip. Qed.
Print Assumptions C45_text.

Theorem C45_text_cases : forall b P txt,
  match pt_UnmarshalText (ops b) P txt with
  | Panic => ~ hex64 txt /\ over_long txt
  | Done Q => (exists A, point b Q A) /\ (hex64 txt \/ base64_43 txt)
  | Fail Q => (Q = P \/ Q = ep_zerovalue (ops b)) /\ (hex64 txt \/ ~ over_long txt)
  end.
Proof. exact b_text_cases. Qed.
Print Assumptions C45_text_cases.

(** Sequences of calls (see PropApi.v for [run], [irun] and the encodings): one ideal machine describes all builds; on
    the generic build if no decoded Point is added or multiplied ([tracks], as in C37). *)
Theorem C45_history : exists enc dec ell lizenc lizdec inv,
  ((forall m, bytes 32 (enc m)) /\ (forall m n, 0 <= m < l -> 0 <= n < l -> enc m = enc n -> m = n) /\
   (forall b m, dec b = Some m <-> 0 <= m < l /\ enc m = b) /\
   (forall b, bytes 32 b -> 0 <= ell b < l) /\ (forall d, bytes 16 d -> 0 <= lizenc d < l) /\
   (forall m d, 0 <= m < l -> (lizdec m = Some d <-> bytes 16 d /\ lizenc d = m /\ forall d', bytes 16 d' -> lizenc d' = m -> d' = d)) /\
   (forall a, 0 <= a < l -> 0 <= inv a < l /\ (a <> 0 -> (inv a * a) mod l = 1) /\ (a = 0 -> inv a = 0))) /\
  forall b prog os s', Forall well_typed prog -> irun enc dec ell lizenc lizdec inv prog iinit = Some (os, s') ->
    b <> Generic \/ tracks prog (fun _ => true) = true ->
    exists st', run (ops b) (baseTable b) prog (init (ops b)) = Some (os, st').
Proof. exact b_history_ex. Qed.
Print Assumptions C45_history.

(** The El'Gamal example of the README. *)
Theorem C45_elgamal : forall b sk r P A, reduced sk -> reduced r -> summand b P A ->
  exists c, eg_encrypt (ops b) (baseTable b) (eg_publicKey (ops b) (baseTable b) sk) P r = Some c /\
    pt_Equals (ops b) (eg_decrypt (ops b) sk c) P = true.
Proof. exact b_elgamal. Qed.
Print Assumptions C45_elgamal.

(** On the two 64-bit builds every Point may be the second operand of an addition. *)
Theorem C45_summand : forall b P A, b <> Generic -> point b P A -> summand b P A.
Proof. exact b_summand64. Qed.
Print Assumptions C45_summand.

(** Field arithmetic; [limbs b n x]: the limbs of [x] are at most [n] times as large as those of a product. *)
Theorem C45_mul : forall b x y, limbs b 3 x -> limbs b 3 y ->
  (limbs b 1 (o_mul (ops b) x y) /\ elt b (o_mul (ops b) x y) = (elt b x * elt b y)%F) /\
  (limbs b 1 (o_square (ops b) x) /\ elt b (o_square (ops b) x) = (elt b x * elt b x)%F).
Proof. exact b_mul. Qed.
Print Assumptions C45_mul.

Theorem C45_addfe : forall b x y, limbs b 1 x -> limbs b 1 y ->
  (limbs b 2 (o_add (ops b) x y) /\ elt b (o_add (ops b) x y) = (elt b x + elt b y)%F) /\
  (limbs b 3 (o_sub (ops b) x y) /\ elt b (o_sub (ops b) x y) = (elt b x - elt b y)%F) /\
  (limbs b 2 (o_neg (ops b) x) /\ elt b (o_neg (ops b) x) = (- elt b x)%F).
Proof. exact b_addfe. Qed.
Print Assumptions C45_addfe.

Theorem C45_codec : forall b x s, limbs b 3 x -> bytes 32 s ->
  fst (o_bytes (ops b) x) = le_bytes 32 (value b x mod p) /\ elt b (snd (o_bytes (ops b) x)) = elt b x /\
  limbs b 1 (o_setBytes (ops b) s) /\ elt b (o_setBytes (ops b) s) = of_Z (le_val s mod 2 ^ 255).
Proof. exact b_codec. Qed.
Print Assumptions C45_codec.

Theorem C45_inverseFe : forall b a, limbs b 3 a -> limbs b 1 (fe_Inverse (ops b) a) /\
  (elt b a <> F0 -> (elt b (fe_Inverse (ops b) a) * elt b a)%F = F1) /\ (elt b a = F0 -> elt b (fe_Inverse (ops b) a) = F0).
Proof. exact b_inverse. Qed.
Print Assumptions C45_inverseFe.

Theorem C45_invSqrt : forall b a, limbs b 3 a -> let f := elt b a in
  (let g := elt b (fe_InvSqrt (ops b) a) in
   limbs b 1 (fe_InvSqrt (ops b) a) /\ (f = F0 -> g = F0) /\
   (f <> F0 -> is_sq f -> (g * g * f)%F = F1) /\ (f <> F0 -> ~ is_sq f -> (g * g * f)%F <> F1)) /\
  (let g := elt b (snd (fe_InvSqrtI (ops b) a)) in let c := fst (fe_InvSqrtI (ops b) a) in
   limbs b 1 (snd (fe_InvSqrtI (ops b) a)) /\ (f = F0 -> c = 0 /\ g = F0) /\
   (f <> F0 -> is_sq f -> c = 1 /\ (g * g * f)%F = F1) /\ (f <> F0 -> ~ is_sq f -> c = 0 /\ (g * g * (Fi * f))%F = F1)) /\
  (is_sq f -> let g := elt b (fe_Sqrt (ops b) a) in limbs b 2 (fe_Sqrt (ops b) a) /\ (g * g)%F = f /\ Fneg g = false).
Proof. exact b_invSqrt. Qed.
Print Assumptions C45_invSqrt.

Theorem C45_tests : forall b x y, limbs b 2 x -> limbs b 1 y ->
  fst (fe_IsNegativeI (ops b) x) = Z.b2z (Z.odd (value b x mod p)) /\
  fst (fe_IsNonZeroI (ops b) x) = Z.b2z (negb (value b x mod p =? 0)) /\
  (forall w, limbs b 1 w -> fe_EqualsI (ops b) w y = Z.b2z (value b w mod p =? value b y mod p)) /\
  fe_IsOneI (ops b) y = Z.b2z (value b y mod p =? 1) /\
  elt b (fst (fe_Abs (ops b) x)) = Fabs (elt b x).
Proof. exact b_tests. Qed.
Print Assumptions C45_tests.

(** The hypotheses are met on every build. *)
Example C45_case : forall b, exists P Q A B s, summand b P A /\ point b Q B /\ pt_Equals (ops b) P Q = false /\ reduced s /\ scv s = 5 /\
  bytes 32 (pt_Bytes (ops b) P) /\ table_of b (baseTable b) (Eadd EB T4').
Proof. exact b_example. Qed.

Example C45_history_case : Forall well_typed case_prog /\ irun enc dec ell lizenc lizdec inv case_prog iinit <> None /\ tracks case_prog (fun _ => true) = true.
Proof. exact (match case_prog_ok with ex_intro _ _ (conj a (conj b (conj c _))) => conj a (conj b c) end). Qed.
