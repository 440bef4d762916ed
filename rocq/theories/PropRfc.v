(** Property C55: the package, in all its builds, and the C reference implementation compute the functions of
    RFC 9496 (ristretto255).

    The RFC is transcribed in Rfc9496.v as functions on integers, independently of the model: [DECODE], [ENCODE],
    [EQUALS], [MAP] and [DERIVE], with the group operations of RFC 8032.  [coords b P] are the four coordinates stored in the
    Point [P], reduced modulo p, [same] is equality of projective coordinates, [point b P A] (Backends.v) says that
    [P] is a valid Point. *)
From Coq Require Import ZArith List Lia Bool.
From Verif Require Import Words Primes Fp Edwards GroupOrder RistrettoSpec FieldModel CurveModel ScalarCode ScalarModel ScalarReduce ScalarFacts
  RistrettoModel Backends CrefFeCode CrefFe CrefCode CrefFacts CrefMul CrefMulFacts RfcFacts RfcExamples.
From Verif Require Rfc9496.
Import ListNotations.
Open Scope Z_scope.

(** Bytes and MarshalBinary are ENCODE, whichever coordinates represent the point. *)
Theorem C55_encode : forall b P A q, point b P A -> same (coords b P) q -> pt_Bytes (ops b) P = Rfc9496.ENCODE q.
Proof. exact r_encode. Qed.
Print Assumptions C55_encode.

Theorem C55_encode_self : forall b P A, point b P A -> pt_Bytes (ops b) P = Rfc9496.ENCODE (coords b P).
Proof. exact r_encode_self. Qed.
Print Assumptions C55_encode_self.

(** SetBytes accepts exactly what DECODE accepts, and decodes to the same curve point (not only the same class). *)
Theorem C55_decode : forall b buf, bytes 32 buf ->
  match Rfc9496.DECODE buf with
  | Some q => exists P A, pt_SetBytes (ops b) buf = (true, P) /\ point b P A /\ same (coords b P) q /\ Rfc9496.ENCODE q = buf
  | None => pt_SetBytes (ops b) buf = (false, ep_zerovalue (ops b))
  end.
Proof. exact r_decode. Qed.
Print Assumptions C55_decode.

(** UnmarshalBinary, on inputs of any length. *)
Theorem C55_unmarshal : forall b P0 buf, Forall is_byte buf ->
  match Rfc9496.DECODE buf with
  | Some q => exists P A, pt_UnmarshalBinary (ops b) P0 buf = (true, P) /\ point b P A /\ same (coords b P) q
  | None => fst (pt_UnmarshalBinary (ops b) P0 buf) = false
  end.
Proof. exact r_unmarshal. Qed.
Print Assumptions C55_unmarshal.

Theorem C55_equals : forall b P Q A B, point b P A -> point b Q B -> pt_Equals (ops b) P Q = Rfc9496.EQUALS (coords b P) (coords b Q).
Proof. exact r_equals. Qed.
Print Assumptions C55_equals.

(** The group operations. *)
Theorem C55_group : forall b P Q A B s, summand b P A -> summand b Q B -> reduced s ->
  same (coords b (pt_Add (ops b) P Q)) (Rfc9496.ADD (coords b P) (coords b Q)) /\
  same (coords b (pt_Sub (ops b) P Q)) (Rfc9496.ADD (coords b P) (Rfc9496.NEG (coords b Q))) /\
  same (coords b (pt_Double (ops b) P)) (Rfc9496.ADD (coords b P) (coords b P)) /\
  same (coords b (pt_Neg (ops b) P)) (Rfc9496.NEG (coords b P)) /\
  same (coords b (pt_SetZero (ops b))) Rfc9496.IDENTITY /\
  same (coords b (pt_ScalarMult (ops b) P s)) (Rfc9496.MULT (scv s) (coords b P)).
Proof. exact r_group. Qed.
Print Assumptions C55_group.

(** The generator: the package uses another representative of the class, with the same encoding. *)
Theorem C55_base : forall b s, reduced s ->
  pt_Bytes (ops b) (pt_SetBase (ops b)) = Rfc9496.ENCODE Rfc9496.GENERATOR /\
  pt_Bytes (ops b) (pt_ScalarMultBase (ops b) (baseTable b) s) = Rfc9496.ENCODE (Rfc9496.MULT (scv s) Rfc9496.GENERATOR).
Proof. exact r_base. Qed.
Print Assumptions C55_base.

(** SetElligator is MAP, after the top bit is dropped. *)
Theorem C55_map : forall b buf, bytes 32 buf -> same (coords b (pt_SetElligator (ops b) buf)) (Rfc9496.MAP (Rfc9496.mask255 buf)).
Proof. exact r_map. Qed.
Print Assumptions C55_map.

(** DeriveDalek is the element derivation of the RFC applied to the hash; Derive maps the first half of it only. *)
Theorem C55_derive : forall b h buf, bytes 64 (h buf) ->
  same (coords b (pt_DeriveDalek (ops b) h buf)) (Rfc9496.DERIVE (h buf)) /\
  pt_Bytes (ops b) (pt_DeriveDalek (ops b) h buf) = Rfc9496.ENCODE (Rfc9496.DERIVE (h buf)) /\
  same (coords b (pt_Derive (ops b) h buf)) (Rfc9496.MAP (Rfc9496.mask255 (firstn 32 (h buf)))).
Proof. exact r_derive. Qed.
Print Assumptions C55_derive.
(** Derive is not the derivation of the RFC: they differ on the hash 01 00 ... 00 01 00 ... 00. *)
Theorem C55_derive_rfc_refuted : forall b, exists h buf, bytes 64 (h buf) /\
  pt_Bytes (ops b) (pt_Derive (ops b) h buf) <> Rfc9496.ENCODE (Rfc9496.DERIVE (h buf)).
Proof. exact r_derive_no. Qed.
Print Assumptions C55_derive_rfc_refuted.

(** The C reference implementation: its decoder first reduces modulo 2^255 and modulo p (C50). *)
Theorem C55_c_encode : forall P A q, cpoint P A -> even A -> same (c_coords P) q -> g_pack P = Some (Rfc9496.ENCODE q).
Proof. exact rc_encode. Qed.
Print Assumptions C55_c_encode.

Theorem C55_c_decode : forall buf, bytes 32 buf ->
  match Rfc9496.DECODE (canonical_bytes buf) with
  | Some q => exists P A, g_unpack buf = Some (0, P) /\ cpoint P A /\ even A /\ same (c_coords P) q
  | None => g_unpack buf = Some (-1, Ge c_zero c_zero c_zero c_zero)
  end.
Proof. exact rc_decode. Qed.
Print Assumptions C55_c_decode.

Theorem C55_c_map : forall buf, bytes 32 buf -> exists r P, c_unpack buf = Some r /\ g_elligator r = Some P /\
  same (c_coords P) (Rfc9496.MAP (Rfc9496.mask255 buf)).
Proof. exact rc_map. Qed.
Print Assumptions C55_c_map.

Theorem C55_c_base : forall s, bytes 32 s -> le_val s < l -> exists R, g_scalarmult_base s = Some R /\
  same (c_coords R) (Rfc9496.MULT (le_val s) Rfc9496.GENERATOR).
Proof. exact rc_base. Qed.
Print Assumptions C55_c_base.

(** Test vectors of the RFC for the transcription, and a valid Point. *)
Example C55_vectors :
  (Rfc9496.ENCODE (Rfc9496.MULT 2 Rfc9496.GENERATOR) =
    [0x6a; 0x49; 0x32; 0x10; 0xf7; 0x49; 0x9c; 0xd1; 0x7f; 0xec; 0xb5; 0x10; 0xae; 0x0c; 0xea; 0x23;
     0xa1; 0x10; 0xe8; 0xd5; 0xb9; 0x01; 0xf8; 0xac; 0xad; 0xd3; 0x09; 0x5c; 0x73; 0xa3; 0xb9; 0x19]) /\
  Rfc9496.DECODE (1 :: repeat 0 31) = None /\
  (forall b, exists P A s, summand b P A /\ reduced s /\ scv s = 5 /\ bytes 32 (pt_Bytes (ops b) P) /\ bytes 64 (repeat 7 64)).
Proof.
  refine (conj (proj1 (proj2 rfc_vectors)) (conj eq_refl _)). intro b.
  destruct (b_example b) as (P & Q & A & B & s & h1 & _ & _ & h2 & h3 & h4 & _). exists P, A, s. refine (conj h1 (conj h2 (conj h3 (conj h4 _)))).
  split; [reflexivity|]. unfold is_byte. cbn. repeat constructor; lia.
Qed.
