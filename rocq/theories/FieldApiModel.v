(** Sequences of calls of the exported methods of FieldElement (package edwards25519).

    The variables of the caller are numbered; a call names its receiver and arguments, which may be the same variable (C39 has
    the bodies of the methods on shared variables; of the exported ones only [Abs] writes its receiver before it last reads its
    argument, and has two models).  Not modelled: FieldElement is an array type, so a caller can also write limbs directly. *)
From Coq Require Import ZArith List Bool.
From Verif Require Import Words FieldModel StringModel.
Import ListNotations.
Open Scope Z_scope.

(** A call: [d] is the receiver where it is written, [a] and [b] are read.  [QCond d a c]: ConditionalSet with 1 or 0. *)
Inductive qcall :=
| QSetI (d : nat) | QSetZero (d : nat) | QSetOne (d : nat) | QSet (d a : nat) | QSetBytes (d : nat) (buf : list Z) | QSetBigInt (d : nat) (x : Z)
| QAdd (d a b : nat) | QSub (d a b : nat) | QMul (d a b : nat) | QNeg (d a : nat) | QSquare (d a : nat) | QDoubledSquare (d a : nat)
| QInverse (d a : nat) | QExp22523 (d a : nat) | QAbs (d a : nat) | QInvSqrt (d a : nat) | QSqrt (d a : nat) | QInvSqrtI (d a : nat)
| QCond (d a : nat) (c : bool)
| QBytes (a : nat) | QBytesInto (a : nat) | QBigInt (a : nat) | QString (a : nat)
| QIsNegativeI (a : nat) | QIsNonZeroI (a : nat) | QIsOneI (a : nat) | QEqualsI (a b : nat) | QEquals (a b : nat).

(** What the caller sees: nothing but the receiver, an array of bytes, an integer (int32 or big.Int), a bool, a string. *)
Inductive qobs := QNone | QBuf (buf : list Z) | QInt (x : Z) | QBool (b : bool) | QText (txt : list Z).

Definition qset {A : Type} (st : nat -> A) (d : nat) (x : A) : nat -> A := fun i => if Nat.eqb i d then x else st i.

Section Calls.
Context (K : FeOps).

(** One call.  [SetI], [SetZero], [SetOne], [Set] copy the limbs: /repo/edwards25519/field.go:12-27, 45-48; the other methods are
    those of FieldModel.v and StringModel.v.  [BytesInto], and what calls it on its receiver or argument, may change the limbs of
    that variable (field_generic.go:251-331); [String] has a copy of its receiver (field.go:182). *)
Definition q_step (i : qcall) (st : nat -> fe K) : qobs * (nat -> fe K) :=
  match i with
  | QSetI d => (QNone, qset st d (k_I K))
  | QSetZero d => (QNone, qset st d (k_zero K))
  | QSetOne d => (QNone, qset st d (k_one K))
  | QSet d a => (QNone, qset st d (st a))
  | QSetBytes d buf => (QNone, qset st d (o_setBytes K buf))
  | QSetBigInt d x => (QNone, qset st d (fe_SetBigInt K x))
  | QAdd d a b => (QNone, qset st d (fe_Add K (st a) (st b)))
  | QSub d a b => (QNone, qset st d (fe_Sub K (st a) (st b)))
  | QMul d a b => (QNone, qset st d (o_mul K (st a) (st b)))
  | QNeg d a => (QNone, qset st d (o_neg K (st a)))
  | QSquare d a => (QNone, qset st d (o_square K (st a)))
  | QDoubledSquare d a => (QNone, qset st d (o_doubledSquare K (st a)))
  | QInverse d a => (QNone, qset st d (fe_Inverse K (st a)))
  | QExp22523 d a => (QNone, qset st d (fe_Exp22523 K (st a)))
  | QAbs d a =>
      if Nat.eqb d a then (QNone, qset st d (fe_Abs_self K (st a)))
      else let '(r, x) := fe_Abs K (st a) in (QNone, qset (qset st a x) d r)
  | QInvSqrt d a => (QNone, qset st d (fe_InvSqrt K (st a)))
  | QSqrt d a => (QNone, qset st d (fe_Sqrt K (st a)))
  | QInvSqrtI d a => let '(c, x) := fe_InvSqrtI K (st a) in (QInt c, qset st d x)
  | QCond d a c => (QNone, qset st d (o_condSet K (st d) (st a) (Z.b2z c)))
  | QBytes a => let '(buf, x) := fe_Bytes K (st a) in (QBuf buf, qset st a x)
  | QBytesInto a => let '(buf, x) := o_bytes K (st a) in (QBuf buf, qset st a x)
  | QBigInt a => let '(v, x) := fe_BigInt K (st a) in (QInt v, qset st a x)
  | QString a => (QText (fe_String K (st a)), st)
  | QIsNegativeI a => let '(c, x) := fe_IsNegativeI K (st a) in (QInt c, qset st a x)
  | QIsNonZeroI a => let '(c, x) := fe_IsNonZeroI K (st a) in (QInt c, qset st a x)
  | QIsOneI a => (QInt (fe_IsOneI K (st a)), st)
  | QEqualsI a b => (QInt (fe_EqualsI K (st a) (st b)), st)
  | QEquals a b => (QBool (fe_Equals K (st a) (st b)), st)
  end.

(** The calls of a program one after the other, with what the caller sees of each. *)
Fixpoint q_run (prog : list qcall) (st : nat -> fe K) : list qobs * (nat -> fe K) :=
  match prog with
  | [] => ([], st)
  | i :: r => let '(o, st1) := q_step i st in let '(os, st2) := q_run r st1 in (o :: os, st2)
  end.

(** [var x FieldElement]: all limbs are 0, as those of feZero: /repo/edwards25519/field_radix51.go:11, field_generic.go:11 *)
Definition q_init : nat -> fe K := fun _ => k_zero K.
End Calls.

(** arguments of the types of the parameters: SetBytes takes an array of 32 bytes *)
Definition q_typed (i : qcall) : Prop := match i with QSetBytes _ buf => bytes 32 buf | _ => True end.
