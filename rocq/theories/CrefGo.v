(** The package /repo/cref/cref.go: Go methods, each of which is one call of a C function or a pointer to a coordinate.

    A program has [np] variables of type GroupGe, [nf] of type Fe25519 and scalars; all start as zero, as Go variables do.
    The field elements live in a memory of CrefPtr.v: the GroupGe number [g] at [4 g], ..., [4 g + 3] and the Fe25519 number
    [j] at [4 np + j].  The arrays of bytes passed to and filled by the methods overlap none of them, by their Go types. *)
From Coq Require Import ZArith List Bool.
From Verif Require Import Words CLang Fe25Code CrefFeCode CrefFe CrefCode CrefScalar CrefPtr CrefPtrCode CrefPtrMul ApiModel.
Import ListNotations.
Open Scope Z_scope.

(** An expression of type *Fe25519: a variable (/repo/cref/cref.go:10) or the result of a method X, Y, Z, T of a GroupGe
    (/repo/cref/cref.go:58-72) *)
Inductive fptr : Type := FVar (j : nat) | FX (g : nat) | FY (g : nat) | FZ (g : nat) | FT (g : nat).

(** A method call of /repo/cref/cref.go:14-84.  [g], [x], [y] number variables of type GroupGe and [s] of type GroupScalar *)
Inductive ccall_go : Type :=
| FeUnpack (f : fptr) (buf : list Z) | FePack (f : fptr)
| GePack (g : nat) | GeUnpack (g : nat) (buf : list Z) | GeElligator (g : nat) (r0 : fptr)
| GeNeg (g x : nat) | GeAdd (g x y : nat) | GeDouble (g x : nat) | GeScalarMult (g x s : nat)
| ScUnpack (s : nat) (buf : list Z) | ScPack (s : nat).

Section Machine.
Context (np nf : nat).

(** the address of a GroupGe; [c()] of a GroupGe, Fe25519 or GroupScalar is a conversion: /repo/cref/cref.go:14-16, 26-28, 74-76 *)
Definition ge_addr (g : nat) : nat := (4 * g)%nat.
(** the address a *Fe25519 points to; X, Y, Z, T: /repo/cref/cref.go:58-72, members in the order of /repo/cref/cref.h:124-130 *)
Definition fe_addr (f : fptr) : nat :=
  match f with
  | FVar j => (4 * np + j)%nat
  | FX g => (4 * g + 0)%nat | FY g => (4 * g + 1)%nat | FZ g => (4 * g + 2)%nat | FT g => (4 * g + 3)%nat
  end.
(** the first address for local variables of the C functions *)
Definition free : nat := (4 * np + nf)%nat.

Record cstate : Type := mkCstate { c_mem : cmem; c_scs : nat -> list Z }.
(** zero values of the variables *)
Definition cinit : cstate := mkCstate (fun _ => c_zero) (fun _ => repeat 0 32).

Definition ret_mem (m : option cmem) (s : cstate) : option (obs * cstate) := let* m := m in Some (ONone, mkCstate m (c_scs s)).

(** One call; [None] is undefined behaviour of the C code. *)
Definition cstep (i : ccall_go) (s : cstate) : option (obs * cstate) :=
  let m := c_mem s in
  match i with
  (* /repo/cref/cref.go:18-20 *)
  | FeUnpack f buf => let* v := c_unpack buf in Some (ONone, mkCstate (st m (fe_addr f) v) (c_scs s))
  (* /repo/cref/cref.go:22-24 *)
  | FePack f => let* o := c_pack (m (fe_addr f)) in Some (OBytes o, s)
  (* /repo/cref/cref.go:30-32 *)
  | GePack g => let* o := g_pack (ge_at m (ge_addr g)) in Some (OBytes o, s)
  (* /repo/cref/cref.go:34-36 *)
  | GeUnpack g buf => let* r := g_unpack buf in Some (OInt (fst r), mkCstate (st_ge m (ge_addr g) (snd r)) (c_scs s))
  (* /repo/cref/cref.go:38-40 *)
  | GeElligator g r0 => ret_mem (m_g_elligator (ge_addr g) (fe_addr r0) free m) s
  (* /repo/cref/cref.go:42-44 *)
  | GeNeg g x => ret_mem (m_g_negate (ge_addr g) (ge_addr x) free m) s
  (* /repo/cref/cref.go:46-48 *)
  | GeAdd g x y => ret_mem (m_g_add (ge_addr g) (ge_addr x) (ge_addr y) free m) s
  (* /repo/cref/cref.go:50-52 *)
  | GeDouble g x => ret_mem (m_g_double (ge_addr g) (ge_addr x) free m) s
  (* /repo/cref/cref.go:54-56 *)
  | GeScalarMult g x k => ret_mem (m_scalarmult (ge_addr g) (ge_addr x) (c_scs s k) free m) s
  (* /repo/cref/cref.go:78-80 *)
  | ScUnpack k buf => Some (ONone, mkCstate m (set_ (c_scs s) k (cs_unpack buf)))
  (* /repo/cref/cref.go:82-84 *)
  | ScPack k => Some (OBytes (cs_pack (c_scs s k)), s)
  end.

Fixpoint crun (prog : list ccall_go) (s : cstate) : option (list obs * cstate) :=
  match prog with
  | [] => Some ([], s)
  | i :: rest =>
    match cstep i s with
    | None => None
    | Some (o, s) => match crun rest s with None => None | Some (os, s) => Some (o :: os, s) end
    end
  end.

(** the variables exist and the arrays have 32 bytes *)
Definition fe_typed (f : fptr) : Prop :=
  match f with FVar j => (j < nf)%nat | FX g | FY g | FZ g | FT g => (g < np)%nat end.
Definition c_typed (i : ccall_go) : Prop :=
  match i with
  | FeUnpack f buf => fe_typed f /\ bytes 32 buf
  | FePack f => fe_typed f
  | GePack g => (g < np)%nat
  | GeUnpack g buf => (g < np)%nat /\ bytes 32 buf
  | GeElligator g r0 => (g < np)%nat /\ fe_typed r0
  | GeNeg g x | GeDouble g x | GeScalarMult g x _ => (g < np)%nat /\ (x < np)%nat
  | GeAdd g x y => (g < np)%nat /\ (x < np)%nat /\ (y < np)%nat
  | ScUnpack _ buf => bytes 32 buf
  | ScPack _ => True
  end.
End Machine.
