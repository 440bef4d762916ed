(** Properties C29 to C32: Elligator and Lizard, on the 64-bit (radix 2^51) backend.

    [element P A] and [valid P] are as in PropPoint.v.  [rfc_map f A] (ElligatorMath.v) is the MAP of
    RFC 9496, section 4.3.4: its steps written over GF(p), with SQRT_RATIO_M1 given by its specification,
    and [fe_of buf] is the field element read from 32 bytes, the top bit ignored.
    [nonneg_bytes b] says that [b] is the canonical encoding of a nonnegative (even) field element;
    [reported_bytes P b] that RistrettoElligator2Inverse(P) has a mask bit set at an index where the
    returned field element has the encoding [b].  [missed] is the encoding of the square root of i/d. *)
From Coq Require Import ZArith List Lia Bool.
From Verif Require Import Words Primes Fp Edwards GroupOrder RistrettoSpec Fe51Code FieldModel CurveModel
  ScalarCode ScalarModel FieldLaws Fe51Laws RistrettoModel Points51 ElligatorSpec ElligatorMath LizardProofs Sha256 Elligator51 PropPoint.
Import ListNotations.
Open Scope Z_scope.

(** ** C29 *)

(** MAP is a function: exactly one curve point for every field element. *)
Theorem C29_map_total : forall f, exists A, rfc_map f A /\ forall B, rfc_map f B -> B = A.
Proof. exact map_functional. Qed.
Print Assumptions C29_map_total.

Theorem C29_elligator : forall buf, bytes 32 buf -> exists A, element (pt_SetElligator R51 buf) A /\ rfc_map (fe_of buf) A.
Proof. exact elligator_map. Qed.
Print Assumptions C29_elligator.

Theorem C29_valid : forall buf, bytes 32 buf -> valid (pt_SetElligator R51 buf).
Proof. exact elligator_valid. Qed.
Print Assumptions C29_valid.

Theorem C29_same : forall b c, bytes 32 b -> bytes 32 c -> (fe_of b = fe_of c \/ fe_of b = Fopp (fe_of c)) ->
  pt_Equals R51 (pt_SetElligator R51 b) (pt_SetElligator R51 c) = true /\ pt_Bytes R51 (pt_SetElligator R51 b) = pt_Bytes R51 (pt_SetElligator R51 c).
Proof. exact elligator_same. Qed.
Print Assumptions C29_same.

Theorem C29_top_bit : forall b x, bytes 31 b -> is_byte x -> fe_of (b ++ [x]) = fe_of (b ++ [x mod 128]).
Proof. exact top_bit. Qed.
Print Assumptions C29_top_bit.

Theorem C29_rand : forall buf, bytes 32 buf -> valid (pt_Rand R51 buf).
Proof. exact elligator_valid. Qed.
Print Assumptions C29_rand.

Theorem C29_derive : forall (h : list Z -> list Z) buf, bytes 64 (h buf) ->
  (exists A, element (pt_Derive R51 h buf) A /\ rfc_map (fe_of (firstn 32 (h buf))) A) /\
  (exists A B, element (pt_DeriveDalek R51 h buf) (Eadd A B) /\ rfc_map (fe_of (firstn 32 (h buf))) A /\ rfc_map (fe_of (skipn 32 (h buf))) B).
Proof. exact derive_ok. Qed.
Print Assumptions C29_derive.

Example C29_case : bytes 32 (repeat 0 31 ++ [128]) /\ fe_of (repeat 0 31 ++ [128]) = fe_of (repeat 0 32) /\
  bytes 32 (le_bytes 32 1) /\ bytes 32 (le_bytes 32 (p - 1)) /\ fe_of (le_bytes 32 1) = Fopp (fe_of (le_bytes 32 (p - 1))) /\
  bytes 64 ((fun _ => repeat 7 64) [1]).
Proof.
  assert (hb : forall n x, bytes n (le_bytes n x)) by (intros; split; [apply le_bytes_length | apply le_bytes_bytes]).
  refine (conj _ (conj _ (conj (hb _ _) (conj (hb _ _) (conj _ _))))).
  - split; [reflexivity|]. unfold is_byte. repeat constructor; lia.
  - unfold fe_of. f_equal. 
  - unfold fe_of. rewrite <- of_Z_opp. apply of_Z_eq. vm_compute. reflexivity.
  - split; [reflexivity|]. unfold is_byte. cbn. repeat constructor; lia.
Qed.

(** ** C30 *)

Theorem C30_sound : forall P b, valid P -> reported_bytes P b ->
  nonneg_bytes b /\ pt_Equals R51 (pt_SetElligator R51 b) P = true.
Proof. exact inverse_sound. Qed.
Print Assumptions C30_sound.

Theorem C30_at_most_8 : forall P, exists bs, (length bs <= 8)%nat /\ forall b, reported_bytes P b <-> In b bs.
Proof. exact reported_at_most_8. Qed.
Print Assumptions C30_at_most_8.

(** Exactly which encodings are reported. *)
Theorem C30_exact : forall P b, valid P ->
  (reported_bytes P b <-> nonneg_bytes b /\ b <> missed /\ pt_Equals R51 (pt_SetElligator R51 b) P = true).
Proof. exact reported_exact. Qed.
Print Assumptions C30_exact.

Example C30_case : valid (pt_SetElligator R51 (le_bytes 32 4)) /\ reported_bytes (pt_SetElligator R51 (le_bytes 32 4)) (le_bytes 32 4).
Proof.
  pose proof (elligator_valid _ (proj1 nonneg_example)) as hv. split; [exact hv|].
  apply (proj2 (C30_exact _ (le_bytes 32 4) hv)). refine (conj nonneg_example (conj _ (Equals_refl _ hv))). vm_compute. discriminate.
Qed.

(** ** C31 *)

(** Completeness fails at the identity: the square root of i/d is mapped to the identity and not reported. *)
Theorem C31_refuted : exists P b, valid P /\ nonneg_bytes b /\ pt_Equals R51 (pt_SetElligator R51 b) P = true /\ ~ reported_bytes P b.
Proof. exact (ex_intro _ (pt_SetZero R51) (ex_intro _ missed (conj valid_Zero (conj (proj1 missed_zero) (conj (proj2 missed_zero) (inverse_missed _ valid_Zero)))))). Qed.
Print Assumptions C31_refuted.

(** It is the only exception ... *)
Theorem C31_complete_partial : forall P b, valid P -> nonneg_bytes b -> pt_Equals R51 (pt_SetElligator R51 b) P = true ->
  b <> missed -> reported_bytes P b.
Proof. exact inverse_complete. Qed.
Print Assumptions C31_complete_partial.

(** ... so that completeness holds for all points other than the identity. *)
Theorem C31_nonzero_partial : forall P b, valid P -> pt_Equals R51 P (pt_SetZero R51) = false -> nonneg_bytes b ->
  pt_Equals R51 (pt_SetElligator R51 b) P = true -> reported_bytes P b.
Proof. exact complete_nonzero. Qed.
Print Assumptions C31_nonzero_partial.

Theorem C31_missed_value : missed = le_bytes 32 347587707554176910664335222571809819192038173877021618066561357284830225728.
Proof. exact eq_refl. Qed.
Print Assumptions C31_missed_value.

Example C31_case : nonneg_bytes (le_bytes 32 4) /\ le_bytes 32 4 <> missed /\
  valid (pt_SetElligator R51 (le_bytes 32 4)) /\ pt_Equals R51 (pt_SetElligator R51 (le_bytes 32 4)) (pt_SetElligator R51 (le_bytes 32 4)) = true.
Proof.
  pose proof (elligator_valid _ (proj1 nonneg_example)) as hv. refine (conj nonneg_example (conj _ (conj hv (Equals_refl _ hv)))).
  vm_compute. discriminate.
Qed.

(** ** C32 *)

Theorem C32_valid : forall H data, hash32 H -> bytes 16 data -> valid (pt_SetLizard R51 H data).
Proof. exact lizard_valid. Qed.
Print Assumptions C32_valid.

(** Soundness, for every hash function with 32-byte results and every valid point. *)
Theorem C32_sound : forall H P buf d P', hash32 H -> valid P -> pt_LizardInto R51 H P buf = (lizard_nil, d, P') ->
  bytes 16 d /\ pt_Equals R51 (pt_SetLizard R51 H d) P = true.
Proof. exact lizard_sound. Qed.
Print Assumptions C32_sound.

(** Decoding, with SHA-256: the outcome on a point that encodes [data] is [data], or Multiple in the
    presence of another preimage. *)
Theorem C32_decode : forall P buf data, valid P -> bytes 16 data -> pt_Equals R51 (pt_SetLizard R51 sha256 data) P = true ->
  exists P', pt_LizardInto R51 sha256 P buf = (lizard_nil, data, P') \/
  exists b other, pt_LizardInto R51 sha256 P buf = (lizard_multiple, b, P') /\ bytes 16 other /\ other <> data /\
    pt_Equals R51 (pt_SetLizard R51 sha256 other) P = true.
Proof. exact sha_outcome. Qed.
Print Assumptions C32_decode.

Theorem C32_roundtrip : forall buf data, bytes 16 data ->
  exists P', pt_LizardInto R51 sha256 (pt_SetLizard R51 sha256 data) buf = (lizard_nil, data, P') \/
  exists b other, pt_LizardInto R51 sha256 (pt_SetLizard R51 sha256 data) buf = (lizard_multiple, b, P') /\ bytes 16 other /\ other <> data /\
    pt_Equals R51 (pt_SetLizard R51 sha256 other) (pt_SetLizard R51 sha256 data) = true.
Proof. exact sha_roundtrip. Qed.
Print Assumptions C32_roundtrip.

(** "No preimage" is reported exactly when there is none. *)
Theorem C32_none : forall P buf, valid P ->
  (fst (fst (pt_LizardInto R51 sha256 P buf)) = lizard_none <-> forall d, bytes 16 d -> pt_Equals R51 (pt_SetLizard R51 sha256 d) P = false).
Proof. exact sha_none. Qed.
Print Assumptions C32_none.

(** The same for every hash function, when the point is not the identity.  (At the identity a contrived
    hash could hit the preimage of C31_refuted; SHA-256 does not, which C32_decode uses.) *)
Theorem C32_decode_any_hash : forall H P buf data, hash32 H -> valid P -> pt_Equals R51 P (pt_SetZero R51) = false ->
  bytes 16 data -> pt_Equals R51 (pt_SetLizard R51 H data) P = true ->
  exists P', pt_LizardInto R51 H P buf = (lizard_nil, data, P') \/
  exists b other, pt_LizardInto R51 H P buf = (lizard_multiple, b, P') /\ bytes 16 other /\ other <> data /\
    pt_Equals R51 (pt_SetLizard R51 H other) P = true.
Proof. exact any_outcome. Qed.
Print Assumptions C32_decode_any_hash.

(** Lizard is LizardInto on a zeroed buffer, with nil for an error. *)
Theorem C32_lizard : forall H P, pt_Lizard R51 H P = match pt_LizardInto R51 H P (repeat 0 16) with
  | (lizard_nil, buf, Q) => (Some buf, Q) | (_, _, Q) => (None, Q) end.
Proof. exact lizard_wrapper. Qed.
Print Assumptions C32_lizard.

Example C32_case : hash32 sha256 /\ bytes 16 (le_bytes 16 5) /\ valid (pt_SetLizard R51 sha256 (le_bytes 16 5)) /\
  pt_Equals R51 (pt_SetLizard R51 sha256 (le_bytes 16 5)) (pt_SetLizard R51 sha256 (le_bytes 16 5)) = true.
Proof.
  assert (hb : bytes 16 (le_bytes 16 5)) by (split; [apply le_bytes_length | apply le_bytes_bytes]).
  pose proof (lizard_valid sha256 _ sha256_bytes hb) as hv.
  exact (conj sha256_bytes (conj hb (conj hv (Equals_refl _ hv)))).
Qed.
