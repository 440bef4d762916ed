(** Property C64: the package /repo/cref/cref.go, over all sequences of calls.

    A program is a list of method calls on [np] variables of type GroupGe, [nf] of type Fe25519 and on scalars (CrefGo.v);
    arguments may be the same variable, and an Fe25519 may be a coordinate of a GroupGe (X, Y, Z, T).  [crun np nf prog cinit]
    runs it on the C code from variables that are zero; [None] is undefined behaviour.  [krun] runs it on an ideal machine,
    whose points are exponents (CrefGoSpec.v); its encodings and its hash are those of the Go code, on all builds
    ([go_functions]). *)
From Coq Require Import ZArith List Lia Bool.
From Verif Require Import Words Primes Fp Edwards GroupOrder RistrettoSpec FieldModel CurveModel RistrettoModel Backends ScalarModel ScalarFacts
  CrefFe CrefCode CrefFacts ApiModel ApiSpec ApiProofs CrefGo CrefGoSpec CrefGoProofs CrefGoFacts.
Import ListNotations.
Open Scope Z_scope.

(** What the methods return and write is what the ideal machine returns. *)
Theorem C64_history : forall enc dec ell coords, go_functions enc dec ell -> (forall x y z t m, coords x y z t = Some m -> has_coords x y z t m) ->
  forall np nf prog os k, Forall (c_typed np nf) prog -> krun enc dec ell coords prog kinit = Some (os, k) -> exists s, crun np nf prog cinit = Some (os, s).
Proof. exact kg_history. Qed.
Print Assumptions C64_history.

(** The coordinates that X, Y, Z and T give are extended coordinates of a point with the exponent of the ideal machine. *)
Theorem C64_coordinates : forall enc dec ell coords, go_functions enc dec ell -> (forall x y z t m, coords x y z t = Some m -> has_coords x y z t m) ->
  forall np nf prog os k g m, Forall (c_typed np nf) prog -> krun enc dec ell coords prog kinit = Some (os, k) -> (g < np)%nat -> k_val coords k g = Some m ->
  exists s x y z t, crun np nf prog cinit = Some (os, s) /\ has_coords x y z t m /\
    (cstep np nf (FePack (FX g)) s = Some (OBytes (le_bytes 32 x), s) /\ cstep np nf (FePack (FY g)) s = Some (OBytes (le_bytes 32 y), s) /\
     cstep np nf (FePack (FZ g)) s = Some (OBytes (le_bytes 32 z), s) /\ cstep np nf (FePack (FT g)) s = Some (OBytes (le_bytes 32 t), s)).
Proof. exact kg_coords. Qed.
Print Assumptions C64_coordinates.

(** One choice of the functions serves the Go package (C45, all builds) and the C package. *)
Theorem C64_same_machine : exists enc dec ell lizenc lizdec inv coords,
  go_functions enc dec ell /\ (forall x y z t m, coords x y z t = Some m <-> has_coords x y z t m) /\
  (forall b prog os s', Forall well_typed prog -> irun enc dec ell lizenc lizdec inv prog iinit = Some (os, s') ->
     b <> Generic \/ tracks prog (fun _ => true) = true -> exists st', run (ops b) (baseTable b) prog (init (ops b)) = Some (os, st')) /\
  (forall np nf prog os k, Forall (c_typed np nf) prog -> krun enc dec ell coords prog kinit = Some (os, k) -> exists s, crun np nf prog cinit = Some (os, s)).
Proof. exact kg_both. Qed.
Print Assumptions C64_same_machine.

(** A program with shared pointers that the ideal machine executes: unpack into the X coordinate of a point, hash this coordinate to
    the point itself, add the point to itself, multiply it by 3 and compare with another variable *)
Definition prog64 : list ccall_go :=
  [FeUnpack (FX 0) (le_bytes 32 7); FePack (FX 0); GeElligator 0 (FX 0); GeAdd 1 0 0; GeDouble 0 0; GePack 0; GePack 1;
   ScUnpack 0 (le_bytes 32 3); ScPack 0; GeScalarMult 0 0 0; GeNeg 0 0; GePack 0; GeUnpack 0 (le_bytes 32 1)].
Example C64_case : Forall (c_typed 2 0) prog64 /\
  forall enc dec ell coords, dec (le_bytes 32 1) = None -> exists k, krun enc dec ell coords prog64 kinit = Some (
    let m := ell (le_bytes 32 7) in
    [ONone; OBytes (le_bytes 32 7); ONone; ONone; ONone; OBytes (enc ((2 * m) mod l)); OBytes (enc ((m + m) mod l));
     ONone; OBytes (le_bytes 32 3); ONone; ONone; OBytes (enc ((- ((3 * ((2 * m) mod l)) mod l)) mod l)); OInt (-1)], k).
Proof. exact kg_case. Qed.
