(** Property C56: the accepted encodings and the Scalars are in bijection, as groups, in every build and across builds;
    Diffie-Hellman. *)
From Coq Require Import ZArith List.
From Verif Require Import Words Primes Edwards GroupOrder RistrettoSpec FieldModel CurveModel ScalarCode ScalarModel ScalarReduce RistrettoModel Generic25 Backends
  CrefCode CrefMul CrefMulFacts BijFacts GenMul.
From Verif Require ScalarFacts.
Import ListNotations.
Open Scope Z_scope.

(** different Scalars give different bytes, the same Scalar gives the same bytes in all builds *)
Theorem C56_injective : forall b c s t, ScalarFacts.reduced s -> ScalarFacts.reduced t -> (public b s = public c t <-> s = t).
Proof. exact j_inj. Qed.
Print Assumptions C56_injective.

(** every build decodes the bytes computed by every build, to the Point it computes itself *)
Theorem C56_accepted : forall b c s, ScalarFacts.reduced s -> exists P A, pt_SetBytes (ops c) (public b s) = (true, P) /\ point c P A /\
  pt_Equals (ops c) P (pt_ScalarMultBase (ops c) (baseTable c) s) = true.
Proof. exact j_accepted. Qed.
Print Assumptions C56_accepted.

(** every accepted string is the encoding of exactly one Scalar times the base point *)
Theorem C56_onto : forall b c buf, bytes 32 buf -> fst (pt_SetBytes (ops b) buf) = true ->
  exists s, ScalarFacts.reduced s /\ public c s = buf /\ forall t, ScalarFacts.reduced t -> public c t = buf -> t = s.
Proof. exact j_onto. Qed.
Print Assumptions C56_onto.

(** exactly l of the 2^256 strings are accepted *)
Theorem C56_count : forall b, exists L, NoDup L /\ Z.of_nat (length L) = l /\ forall buf, In buf L <-> accepted b buf.
Proof. exact j_count. Qed.
Print Assumptions C56_count.

(** every Point encodes to the bytes of one of the Scalars *)
Theorem C56_point : forall b c P A, point b P A -> exists s, ScalarFacts.reduced s /\ pt_Bytes (ops b) P = public c s.
Proof. exact j_point. Qed.
Print Assumptions C56_point.

(** Point operations are Scalar operations *)
Theorem C56_add : forall b c P Q A B s t, point b P A -> summand b Q B -> ScalarFacts.reduced s -> ScalarFacts.reduced t ->
  pt_Bytes (ops b) P = public c s -> pt_Bytes (ops b) Q = public c t ->
  pt_Bytes (ops b) (pt_Add (ops b) P Q) = public c (sc_add s t) /\ pt_Bytes (ops b) (pt_Sub (ops b) P Q) = public c (sc_sub s t).
Proof. exact j_add. Qed.
Print Assumptions C56_add.
Theorem C56_neg : forall b c P A s, point b P A -> ScalarFacts.reduced s -> pt_Bytes (ops b) P = public c s ->
  pt_Bytes (ops b) (pt_Neg (ops b) P) = public c (sc_neg s).
Proof. exact j_neg. Qed.
Print Assumptions C56_neg.
Theorem C56_mult : forall b c P A s t, summand b P A -> ScalarFacts.reduced s -> ScalarFacts.reduced t -> pt_Bytes (ops b) P = public c s ->
  pt_Bytes (ops b) (pt_ScalarMult (ops b) P t) = public c (sc_mul t s).
Proof. exact j_mult. Qed.
Print Assumptions C56_mult.
Theorem C56_zero : forall b c s, ScalarFacts.reduced s -> (public b s = pt_Bytes (ops c) (pt_SetZero (ops c)) <-> scv s = 0) /\
  (public b s = pt_Bytes (ops c) (pt_SetBase (ops c)) <-> scv s = 1).
Proof. exact j_zero. Qed.
Print Assumptions C56_zero.

(** the C code computes the same bytes *)
Theorem C56_cref : forall b s, ScalarFacts.reduced s -> exists R, g_scalarmult_base (sc_Bytes s) = Some R /\ g_pack R = Some (public b s).
Proof. exact cp_go_base. Qed.
Print Assumptions C56_cref.

(** Diffie-Hellman: each side sends the bytes of its Scalar times the base point *)
Theorem C56_dh : forall b c s t, b <> Generic -> c <> Generic -> ScalarFacts.reduced s -> ScalarFacts.reduced t ->
  exists P Q, pt_SetBytes (ops b) (public c t) = (true, P) /\ pt_SetBytes (ops c) (public b s) = (true, Q) /\
  pt_Bytes (ops b) (pt_ScalarMult (ops b) P s) = pt_Bytes (ops c) (pt_ScalarMult (ops c) Q t) /\
  pt_Bytes (ops b) (pt_ScalarMult (ops b) P s) = public b (sc_mul s t).
Proof. exact j_dh64. Qed.
Print Assumptions C56_dh.
(** in generic builds the decoded Points have to be summands (C20): their limbs are otherwise too large to be added *)
Theorem C56_dh_summand : forall b c s t P Q A B, ScalarFacts.reduced s -> ScalarFacts.reduced t ->
  pt_SetBytes (ops b) (public c t) = (true, P) -> summand b P A -> pt_SetBytes (ops c) (public b s) = (true, Q) -> summand c Q B ->
  pt_Bytes (ops b) (pt_ScalarMult (ops b) P s) = pt_Bytes (ops c) (pt_ScalarMult (ops c) Q t) /\
  pt_Bytes (ops b) (pt_ScalarMult (ops b) P s) = public b (sc_mul s t).
Proof. exact j_dh. Qed.
Print Assumptions C56_dh_summand.

(** ... and without that the claim is false: ScalarMult of a received Point by 3 is neither 3 t times the base point nor
    Add(P, Double(P)).  A bug of the generic builds. *)
Theorem C56_dh_generic_refuted : forall c, exists s t P, ScalarFacts.reduced s /\ ScalarFacts.reduced t /\
  pt_SetBytes (ops Generic) (public c t) = (true, P) /\
  pt_Equals (ops Generic) (pt_ScalarMult (ops Generic) P s) (pt_ScalarMultBase (ops Generic) (baseTable Generic) (sc_mul s t)) = false /\
  pt_Equals (ops Generic) (pt_ScalarMult (ops Generic) P s) (pt_Add (ops Generic) P (pt_Double (ops Generic) P)) = false.
Proof. exact g_dh. Qed.
Print Assumptions C56_dh_generic_refuted.

(** the string 152, 0, ..., 0 is accepted by all builds; 3 is a Scalar *)
Example C56_ex : bytes 32 (le_bytes 32 152) /\ fst (pt_SetBytes (ops Generic) (le_bytes 32 152)) = true /\
  ScalarFacts.reduced three /\ scv three = 3 /\ point Generic (pt_SetBase (ops Generic)) (Eadd EB T4') /\
  summand Generic (pt_SetBase (ops Generic)) (Eadd EB T4').
Proof. exact bij_ex. Qed.
