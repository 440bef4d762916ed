(** The [FieldElement] multiplications of /repo/edwards25519/field_amd64.go, which call the
    assembly of field_amd64.s. *)
From Coq Require Import ZArith List.
From Verif Require Import Words Fe51Code FieldModel Amd64Model Amd64Code.
Import ListNotations.
Open Scope Z_scope.

(** A memory that holds [x] at address 4096 and [y] at 8192. *)
Definition mem_init (x y : fe51) (a : Z) : Z :=
  match x, y with Fe51 x0 x1 x2 x3 x4, Fe51 y0 y1 y2 y3 y4 =>
    if a =? 4096 then x0 else if a =? 4104 then x1 else if a =? 4112 then x2
    else if a =? 4120 then x3 else if a =? 4128 then x4
    else if a =? 8192 then y0 else if a =? 8200 then y1 else if a =? 8208 then y2
    else if a =? 8216 then y3 else if a =? 8224 then y4 else 0
  end.

(** A machine with this memory; all registers zero. *)
Definition mach_init (x y : fe51) : mach :=
  Mach 0 0 0 0 0 0 0 0 0 0 0 0 0 0 0 None (mem_init x y).

(** Pointer arguments of a call: the result at 12288, operands at 4096 and 8192. *)
Definition args_init (off : Z) : Z :=
  if off =? 0 then 12288 else if off =? 8 then 4096 else if off =? 16 then 8192 else 0.

Definition result (r : option mach) : fe51 :=
  match r with
  | Some s => Fe51 (mem s 12288) (mem s 12296) (mem s 12304) (mem s 12312) (mem s 12320)
  | None => Fe51 0 0 0 0 0
  end.

(** [Mul]: /repo/edwards25519/field_amd64.go:13-16.  The placement of operands and result in
    memory is fixed here; Amd64Proofs.feMul_any_placement shows that it does not matter. *)
Definition amd64_mul (a b : fe51) : fe51 := result (run args_init asm_feMul (mach_init a b)).

(** [Square]: /repo/edwards25519/field_amd64.go:19-22 *)
Definition amd64_square (a : fe51) : fe51 := result (run args_init asm_feSquare (mach_init a a)).

(** [DoubledSquare]: /repo/edwards25519/field_amd64.go:25-28 *)
Definition amd64_doubledSquare (a : fe51) : fe51 :=
  let fe := amd64_square a in r51_add fe fe.

(** The [FieldElement] of amd64 builds with a Go version before 1.13:
    /repo/edwards25519/field_radix51.go:8-301 with field_amd64.go:13-28. *)
Definition RAmd64 : FeOps := mkFeOps fe51
  r51_feZero r51_feOne r51_feMinusOne r51_feI r51_feMinusI r51_feD r51_fe2D
  r51_feInvSqrtMinusDMinusOne r51_feDoubleInvSqrtMinusDMinusOne r51_feDoubleIInvSqrtMinusDMinusOne
  r51_feDMinusOneSquared r51_feOneMinusDSquared r51_feDp1OverDm1 r51_feSqrtID r51_feInvSqrt1pD
  r51_epBaseX r51_epBaseY r51_epBaseT
  r51_neg r51_sub r51_add r51_setReduced amd64_mul amd64_square amd64_doubledSquare r51_condSet
  (fun x => (r51_bytes x, x)) r51_setBytes.
