(** How a memory block is read as a Go value, for the statements about the programs of GoLimbCode.v. *)
From Coq Require Import ZArith List.
From Verif Require Import ScalarCode Fe51Code Fe25Code FieldModel CurveModel.
Import ListNotations.
Open Scope Z_scope.

(** [type Scalar [8]uint32]: /repo/scalar.go:20 *)
Definition sc_of (c : nat -> Z) : sc := Sc (c 0%nat) (c 1%nat) (c 2%nat) (c 3%nat) (c 4%nat) (c 5%nat) (c 6%nat) (c 7%nat).
(** [type FieldElement [5]uint64]: /repo/edwards25519/field_radix51.go:8 *)
Definition fe51_of (c : nat -> Z) : fe51 := Fe51 (c 0%nat) (c 1%nat) (c 2%nat) (c 3%nat) (c 4%nat).
(** [type FieldElement [10]int32]: /repo/edwards25519/field_generic.go:8 *)
Definition fe25_of (c : nat -> Z) : fe25 :=
  Fe25 (c 0%nat) (c 1%nat) (c 2%nat) (c 3%nat) (c 4%nat) (c 5%nat) (c 6%nat) (c 7%nat) (c 8%nat) (c 9%nat).
(** [[32]byte] *)
Definition bytes_of (c : nat -> Z) : list Z := map c (seq 0 32).

(** ** Blocks of field elements and integers, for the programs of GoCurveCode.v *)
Section Views.
Context (K : FeOps).
Notation cells := (nat -> fe K * Z).

Definition fe_at (c : cells) (o : nat) : fe K := fst (c o).
Definition int_at (c : cells) (o : nat) : Z := snd (c o).
(** [ExtendedPoint]: /repo/edwards25519/curve.go:12-14 *)
Definition ext_at (c : cells) (o : nat) : ext (fe K) :=
  mkExt (fst (c o)) (fst (c (o + 1)%nat)) (fst (c (o + 2)%nat)) (fst (c (o + 3)%nat)).
(** [CompletedPoint]: /repo/edwards25519/curve.go:17-19 *)
Definition compl_at (c : cells) (o : nat) : compl (fe K) :=
  mkCompl (fst (c o)) (fst (c (o + 1)%nat)) (fst (c (o + 2)%nat)) (fst (c (o + 3)%nat)).
(** [ProjectivePoint]: /repo/edwards25519/curve.go:22-24 *)
Definition proj_at (c : cells) (o : nat) : proj (fe K) := mkProj (fst (c o)) (fst (c (o + 1)%nat)) (fst (c (o + 2)%nat)).
(** [NielsPoint]: /repo/edwards25519/table.go:3-5 *)
Definition niels_at (c : cells) (o : nat) : niels (fe K) := mkNiels (fst (c o)) (fst (c (o + 1)%nat)) (fst (c (o + 2)%nat)).
(** [JacobiPoint]: /repo/edwards25519/elligator.go:9-11 *)
Definition jac_at (c : cells) (o : nat) : jacobi (fe K) := mkJac (fst (c o)) (fst (c (o + 1)%nat)).
(** [[n]byte], [[n]int8] *)
Definition ints (c : cells) (n : nat) : list Z := map (fun i => snd (c i)) (seq 0 n).
(** [[n]ExtendedPoint] *)
Definition exts (c : cells) (n : nat) : list (ext (fe K)) := map (fun i => ext_at c (4 * i)) (seq 0 n).
(** [type ScalarMultTable [32][8]NielsPoint]: /repo/edwards25519/table.go:8 *)
Definition table (c : cells) : list (list (niels (fe K))) :=
  map (fun i => map (fun j => niels_at c (24 * i + 3 * j)) (seq 0 8)) (seq 0 32).
End Views.
