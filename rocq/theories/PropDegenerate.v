(** Property C62: a Point that has never been set, and one whose SetBytes has failed.

    [blank b P] (Degenerate.v): X, Y and T are zero modulo p and the limbs are within the bounds of a Point.
    [tuple b P]: [blank b P], or [P] represents a point and may be the second operand of an addition. *)
From Coq Require Import ZArith List Lia Bool.
From Verif Require Import Words Primes Fp Edwards FieldModel CurveModel ScalarCode ScalarModel ScalarReduce ScalarFacts RistrettoModel Backends Degenerate.
From Verif Require ApiModel.
Import ListNotations.
Open Scope Z_scope.

(** The zero value of the type Point is blank, and so is the receiver of a SetBytes that returned false. *)
Theorem C62_sources : forall b, blank b (ep_zerovalue (ops b)) /\
  forall buf, bytes 32 buf -> fst (pt_SetBytes (ops b) buf) = false -> blank b (snd (pt_SetBytes (ops b) buf)).
Proof. exact (fun b => conj (blank_zero b) (blank_undecoded b)). Qed.
Print Assumptions C62_sources.

(** It represents no point. *)
Theorem C62_invalid : forall b P, blank b P -> forall A, ~ point b P A.
Proof. exact blank_invalid. Qed.
Print Assumptions C62_invalid.

(** Sums and differences with a blank operand are blank, and so are the double, the negative and a copy. *)
Theorem C62_add : forall b P Q, (exists A, point b P A) \/ blank b P -> tuple b Q -> blank b P \/ blank b Q ->
  blank b (pt_Add (ops b) P Q) /\ blank b (pt_Sub (ops b) P Q).
Proof. exact b0. Qed.
Print Assumptions C62_add.
Theorem C62_unary : forall b P, blank b P ->
  blank b (pt_Double (ops b) P) /\ blank b (pt_Neg (ops b) P) /\ blank b (pt_Set (ops b) P).
Proof. exact b1. Qed.
Print Assumptions C62_unary.
Theorem C62_condset : forall b P Q c, tuple b P -> tuple b Q -> pt_ConditionalSet (ops b) P Q (Z.b2z c) = if c then Q else P.
Proof. exact b2. Qed.
Print Assumptions C62_condset.

(** Multiples by a scalar other than 0 are blank; the multiple by 0 is the identity. *)
Theorem C62_scalarMult : forall b P s, blank b P -> reduced s ->
  ((scv s <> 0 -> blank b (pt_ScalarMult (ops b) P s)) /\ (scv s = 0 -> summand b (pt_ScalarMult (ops b) P s) E0)) /\
  exists R, pt_PublicScalarMult (ops b) P s = Some R /\ (scv s <> 0 -> blank b R) /\ (scv s = 0 -> summand b R E0).
Proof. exact b3. Qed.
Print Assumptions C62_scalarMult.
Theorem C62_table : forall b P s, blank b P -> reduced s -> let t := pt_Compute (ops b) P in
  ((scv s <> 0 -> blank b (pt_ScalarMultTable (ops b) t s)) /\ (scv s = 0 -> summand b (pt_ScalarMultTable (ops b) t s) E0)) /\
  exists R, pt_PublicScalarMultTable (ops b) t s = Some R /\ (scv s <> 0 -> blank b R) /\ (scv s = 0 -> summand b R E0).
Proof. exact b4. Qed.
Print Assumptions C62_table.

(** So does a ScalarMultTable that has never been set. *)
Theorem C62_zero_table : forall b n s, reduced s -> let t := ApiModel.tbs (ops b) (ApiModel.init (ops b)) n in
  ((scv s <> 0 -> blank b (pt_ScalarMultTable (ops b) t s)) /\ (scv s = 0 -> summand b (pt_ScalarMultTable (ops b) t s) E0)) /\
  exists R, pt_PublicScalarMultTable (ops b) t s = Some R /\ (scv s <> 0 -> blank b R) /\ (scv s = 0 -> summand b R E0).
Proof. exact b10. Qed.
Print Assumptions C62_zero_table.

(** A blank point Equals everything, and is encoded like the identity, as 32 zero bytes. *)
Theorem C62_equals : forall b P Q, blank b P -> (exists A, point b Q A) \/ blank b Q ->
  pt_Equals (ops b) P Q = true /\ pt_Equals (ops b) Q P = true /\ pt_EqualsI (ops b) P Q = 1 /\ pt_EqualsI (ops b) Q P = 1.
Proof. exact b5. Qed.
Print Assumptions C62_equals.
Theorem C62_bytes : forall b P, (blank b P -> pt_Bytes (ops b) P = repeat 0 32) /\ (point b P E0 -> pt_Bytes (ops b) P = repeat 0 32).
Proof. exact (fun b P => conj (b6 b P) (b7 b P)). Qed.
Print Assumptions C62_bytes.

(** What it means for a program that ignores the result of SetBytes: the shared secret of a Diffie-Hellman exchange
    is 32 zero bytes whatever the secret key, and the equation [s B = R + c A] of a Schnorr signature holds for
    all s, R and c <> 0. *)
Theorem C62_secret : forall b P s, blank b P -> reduced s -> pt_Bytes (ops b) (pt_ScalarMult (ops b) P s) = repeat 0 32.
Proof. exact b8. Qed.
Print Assumptions C62_secret.
Theorem C62_forgery : forall b buf R A s c, bytes 32 buf -> fst (pt_SetBytes (ops b) buf) = false -> point b R A ->
  reduced s -> reduced c -> scv c <> 0 ->
  pt_Equals (ops b) (pt_ScalarMultBase (ops b) (baseTable b) s)
    (pt_Add (ops b) R (pt_ScalarMult (ops b) (snd (pt_SetBytes (ops b) buf)) c)) = true.
Proof. exact b9. Qed.
Print Assumptions C62_forgery.

Example C62_ex : (exists buf, bytes 32 buf /\ fst (pt_SetBytes (ops PureGo64) buf) = false) /\
  (forall b, blank b (ep_zerovalue (ops b)) /\ tuple b (pt_SetBase (ops b))) /\
  reduced (Sc 1 0 0 0 0 0 0 0) /\ scv (Sc 1 0 0 0 0 0 0 0) <> 0.
Proof.
  split; [|split].
  - exists (1 :: repeat 0 31). refine (conj _ Points51.odd_rejected). split; [reflexivity|]. repeat constructor; lia.
  - intro b. exact (conj (blank_zero b) (or_intror (ex_intro _ _ (proj2 (b_const b))))).
  - split; [vm_compute; repeat split; discriminate | vm_compute; discriminate].
Qed.
