(** Property C60: Derive, DeriveShort and DeriveDalek with SHA-512 in place of an arbitrary hash function.

    [sha512] is the function of FIPS 180-4 (Sha512.v); [Rfc9496] is the transcription of RFC 9496, both independent of the model. *)
From Coq Require Import ZArith List Lia Bool.
From Verif Require Import Words Primes CurveModel ScalarCode ScalarModel ScalarReduce ScalarFacts RistrettoModel Backends Sha512 HashFacts.
From Verif Require Rfc9496.
Import ListNotations.
Open Scope Z_scope.

(** Scalar.Derive is the hash, read as a 512-bit little-endian integer, modulo l; DeriveShort its first 128 bits. *)
Theorem C60_scalar : forall m,
  reduced (sc_derive sha512 m) /\ scv (sc_derive sha512 m) = le_val (sha512 m) mod l /\
  reduced (sc_deriveShort sha512 m) /\ scv (sc_deriveShort sha512 m) = le_val (firstn 16 (sha512 m)).
Proof. exact scalar_sha. Qed.
Print Assumptions C60_scalar.

(** DeriveDalek is the element derivation of the RFC applied to the hash, in every build; Derive maps its first half only. *)
Theorem C60_point : forall b m,
  pt_Bytes (ops b) (pt_DeriveDalek (ops b) sha512 m) = Rfc9496.ENCODE (Rfc9496.DERIVE (sha512 m)) /\
  pt_Bytes (ops b) (pt_Derive (ops b) sha512 m) = Rfc9496.ENCODE (Rfc9496.MAP (Rfc9496.mask255 (firstn 32 (sha512 m)))).
Proof. exact point_sha. Qed.
Print Assumptions C60_point.

(** Derive and DeriveDalek agree exactly when the second half of the hash maps to the identity, for every hash function ... *)
Theorem C60_agree : forall b h buf, bytes 64 (h buf) ->
  (pt_Bytes (ops b) (pt_Derive (ops b) h buf) = Rfc9496.ENCODE (Rfc9496.DERIVE (h buf)) <->
   Rfc9496.ENCODE (Rfc9496.MAP (Rfc9496.mask255 (skipn 32 (h buf)))) = repeat 0 32).
Proof. exact derive_agrees. Qed.
Print Assumptions C60_agree.

(** ... and with SHA-512 they differ on the message "test1". *)
Theorem C60_agree_refuted : forall b, exists m,
  pt_Bytes (ops b) (pt_Derive (ops b) sha512 m) <> Rfc9496.ENCODE (Rfc9496.DERIVE (sha512 m)).
Proof. exact (fun b => ex_intro _ [116; 101; 115; 116; 49] (derive_no_sha b)). Qed.
Print Assumptions C60_agree_refuted.

(** The hash has 64 bytes, and the values that /repo/scalar_test.go:264-290 expects for the message "test1". *)
Example C60_case : bytes 64 (sha512 [116; 101; 115; 116; 49]) /\
  sc_bytes (sc_derive sha512 [116; 101; 115; 116; 49]) =
    [244; 242; 186; 14; 204; 192; 86; 195; 34; 65; 181; 231; 246; 72; 255; 230; 191; 135; 7; 115; 224; 145; 4; 240; 253; 44; 40; 251; 215; 252; 84; 2] /\
  sc_bytes (sc_deriveShort sha512 [116; 101; 115; 116; 49]) =
    [177; 110; 215; 210; 75; 62; 203; 212; 22; 77; 205; 173; 55; 78; 8; 192; 0; 0; 0; 0; 0; 0; 0; 0; 0; 0; 0; 0; 0; 0; 0; 0].
Proof. exact (conj (sha512_bytes _) derive_test1). Qed.
