(** Property C44: how many inputs are mapped to one scalar or point.

    [enumerates n f S] (UniformFacts.v): [f 0], ..., [f (n-1)] are the lists that satisfy [S], each once;
    so [n] is their number. *)
From Coq Require Import ZArith List Lia Bool.
From Verif Require Import Words Primes Fe51Code FieldModel CurveModel ScalarCode ScalarModel ScalarReduce Fe51Laws RistrettoModel Points51 UniformFacts.
From Verif Require Backends Unreached.
Import ListNotations.
Open Scope Z_scope.

(** There are [256^n] strings of [n] bytes. *)
Theorem C44_strings : forall n, enumerates (256 ^ Z.of_nat n) (le_bytes n) (bytes n).
Proof. exact strings_enum. Qed.
Print Assumptions C44_strings.

(** SetReduced, and with it Rand and Derive: every scalar has [2^512 / l] rounded down or up preimages, so its
    probability for a uniform buffer differs from [1/l] by less than [2^-512]. *)
Theorem C44_setReduced : forall r, 0 <= r < l -> exists c, (c = 2 ^ 512 / l \/ c = 2 ^ 512 / l + 1) /\
  exists f, enumerates c f (fun t => bytes 64 t /\ scv (sc_setReduced t) = r).
Proof. exact reduced_count. Qed.
Print Assumptions C44_setReduced.
Theorem C44_rand : forall r, 0 <= r < l -> exists c, Z.abs (c * l - 2 ^ 512) < l /\
  exists f, enumerates c f (fun t => bytes 64 t /\ scv (sc_rand t) = r).
Proof. exact rand_count. Qed.
Print Assumptions C44_rand.

(** SetBytes: 16 preimages, except 8 for the [2 * l - 2^253] (about [2^125]) largest scalars. *)
Theorem C44_setBytes : forall r, 0 <= r < l -> exists c, c = (if r <? 2 ^ 253 - l then 16 else 8) /\
  exists f, enumerates c f (fun t => bytes 32 t /\ scv (sc_setBytes t) = r).
Proof. exact setBytes_count. Qed.
Print Assumptions C44_setBytes.

(** SetElligator, and with it Point.Rand and Derive: no point has more than 54 of the [2^256] buffers. *)
Theorem C44_elligator : forall P, valid P -> exists bs, (length bs <= 54)%nat /\
  forall t, bytes 32 t -> pt_Equals R51 (pt_SetElligator R51 t) P = true -> In t bs.
Proof. exact elligator_count. Qed.
Print Assumptions C44_elligator.
Theorem C44_point_rand : forall P, valid P -> exists bs, (length bs <= 54)%nat /\
  forall t, bytes 32 t -> pt_Equals R51 (pt_Rand R51 t) P = true -> In t bs.
Proof. exact elligator_count. Qed.
Print Assumptions C44_point_rand.

(** The same for all builds. *)
Theorem C44_builds : forall b P A, Backends.point b P A -> exists bs, (length bs <= 54)%nat /\
  forall t, bytes 32 t -> pt_Equals (Backends.ops b) (pt_SetElligator (Backends.ops b) t) P = true -> In t bs.
Proof. exact Unreached.elligator_count. Qed.
Print Assumptions C44_builds.

(** But Rand and Derive do not reach every point, whatever the random bytes or the hash function are: 16 times the base point
    is never the result. *)
Theorem C44_onto_refuted : forall b, exists P A, Backends.point b P A /\
  (forall t, bytes 32 t -> pt_Equals (Backends.ops b) (pt_Rand (Backends.ops b) t) P = false) /\
  (forall h m, bytes 64 (h m) -> pt_Equals (Backends.ops b) (pt_Derive (Backends.ops b) h m) P = false).
Proof. exact Unreached.not_onto. Qed.
Print Assumptions C44_onto_refuted.
Theorem C44_sixteen : forall b t, bytes 32 t ->
  let double := pt_Double (Backends.ops b) in
  pt_Equals (Backends.ops b) (pt_Rand (Backends.ops b) t) (double (double (double (double (pt_SetBase (Backends.ops b)))))) = false.
Proof. exact Unreached.rand_misses. Qed.
Print Assumptions C44_sixteen.

Example C44_case : 0 <= l - 1 < l /\ 2 ^ 253 - l <= l - 1 /\ 2 ^ 512 / l > 2 ^ 259 /\ valid (pt_SetBase R51).
Proof. exact uniform_example. Qed.
