(** Properties C33 and C34: text marshaling of Points (64-bit backend) and Scalars.

    [alphabet], [hex_digit], [without_crlf], [hex64], [base64_43] and [over_long] (Text51.v) describe
    texts as lists of character codes; [hex_encode up] is hexadecimal in lower or upper case.
    [Done], [Fail] and [Panic] are the outcomes of a call, with the receiver after it. *)
From Coq Require Import ZArith List Lia Bool.
From Verif Require Import Words Primes Fp Edwards RistrettoSpec Fe51Code FieldModel CurveModel ScalarCode ScalarModel ScalarReduce ScalarSub ScalarFacts
  TextCodec TextProofs FieldLaws Fe51Laws RistrettoModel Points51 Text51 PropPoint PropScalar.
Import ListNotations.
Open Scope Z_scope.

(** ** C33 *)

Theorem C33_point : forall P R, valid P -> length (pt_MarshalText R51 P) = 43%nat /\
  exists Q, pt_UnmarshalText R51 R (pt_MarshalText R51 P) = Done Q /\ valid Q /\ pt_Equals R51 Q P = true.
Proof. exact point_text_roundtrip. Qed.
Print Assumptions C33_point.

Theorem C33_scalar : forall s r, reduced s -> sc_UnmarshalText r (sc_MarshalText s) = Done s /\ length (sc_MarshalText s) = 43%nat.
Proof. exact scalar_text_roundtrip. Qed.
Print Assumptions C33_scalar.

Theorem C33_hex : forall up P R, valid P ->
  exists Q, pt_UnmarshalText R51 R (hex_encode up (pt_Bytes R51 P)) = Done Q /\ valid Q /\ pt_Equals R51 Q P = true.
Proof. exact point_hex. Qed.
Print Assumptions C33_hex.

Example C33_case : valid (pt_SetBase R51) /\ reduced sc_lm1.
Proof. exact (conj valid_B (proj1 C07_ex)). Qed.

(** ** C34 *)

(** Refuted: 44 letters A make both methods panic (index out of range in base64 decoding into 32 bytes). *)
Theorem C34_refuted : exists txt, forall P s, pt_UnmarshalText R51 P txt = Panic /\ sc_UnmarshalText s txt = Panic.
Proof. exact text_refuted. Qed.
Print Assumptions C34_refuted.

(** Exactly the over-long texts panic ... *)
Theorem C34_point_panics_partial : forall P txt, pt_UnmarshalText R51 P txt = Panic <-> ~ hex64 txt /\ over_long txt.
Proof. exact point_panics. Qed.
Print Assumptions C34_point_panics_partial.

Theorem C34_scalar_panics_partial : forall s txt, sc_UnmarshalText s txt = Panic <-> over_long txt.
Proof. exact scalar_panics. Qed.
Print Assumptions C34_scalar_panics_partial.

(** ... so that no text of at most 43 characters does. *)
Theorem C34_short_partial : forall P s txt, (length txt <= 43)%nat -> pt_UnmarshalText R51 P txt <> Panic /\ sc_UnmarshalText s txt <> Panic.
Proof. exact short_no_panic. Qed.
Print Assumptions C34_short_partial.

(** Success sets the receiver to a valid Point or reduced Scalar; failure leaves it, or zeroes a Point. *)
Theorem C34_point_done_partial : forall P txt Q, pt_UnmarshalText R51 P txt = Done Q -> valid Q /\ (hex64 txt \/ base64_43 txt).
Proof. exact point_done. Qed.
Print Assumptions C34_point_done_partial.

Theorem C34_point_fail_partial : forall P txt Q, pt_UnmarshalText R51 P txt = Fail Q -> Q = P \/ Q = ep_zerovalue R51.
Proof. exact point_fail. Qed.
Print Assumptions C34_point_fail_partial.

Theorem C34_scalar_done_partial : forall s txt r, sc_UnmarshalText s txt = Done r -> reduced r /\ base64_43 txt.
Proof. exact scalar_done. Qed.
Print Assumptions C34_scalar_done_partial.

Theorem C34_scalar_accepts_partial : forall s txt, base64_43 txt -> exists r, sc_UnmarshalText s txt = Done r.
Proof. exact scalar_accepts. Qed.
Print Assumptions C34_scalar_accepts_partial.

Theorem C34_scalar_fail_partial : forall s txt r, sc_UnmarshalText s txt = Fail r -> r = s.
Proof. exact scalar_fail. Qed.
Print Assumptions C34_scalar_fail_partial.

Example C34_case : over_long (repeat 65 44) /\ ~ hex64 (repeat 65 44) /\ base64_43 (13 :: repeat 65 43) /\
  sc_UnmarshalText scZero [33] = Fail scZero.
Proof.
  refine (conj (proj1 aaaa) (conj (proj2 aaaa) (conj (conj eq_refl _) eq_refl))).
  cbn. unfold alphabet. repeat constructor; lia.
Qed.
