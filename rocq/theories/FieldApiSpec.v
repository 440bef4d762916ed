(** The calculator that programs over FieldElement should be: variables hold integers modulo p.  No limbs, no carries. *)
From Coq Require Import ZArith List Bool.
From Verif Require Import Words Primes FieldApiModel.
Import ListNotations.
Open Scope Z_scope.

(** of x and -x the one that is even: "x is negative" means that its representative in 0 .. p-1 is odd *)
Definition z_abs (x : Z) : Z := if Z.odd x then p - x else x.

Section Spec.
(** [im]: the square root of -1; [inv]: inversion; [isr], [isri], [flag]: the roots chosen by InvSqrt and InvSqrtI; [dec]: decimal *)
Context (im : Z) (inv isr isri : Z -> Z) (flag : Z -> bool) (dec : Z -> list Z).

Definition z_step (i : qcall) (st : nat -> Z) : qobs * (nat -> Z) :=
  match i with
  | QSetI d => (QNone, qset st d im)
  | QSetZero d => (QNone, qset st d 0)
  | QSetOne d => (QNone, qset st d 1)
  | QSet d a => (QNone, qset st d (st a))
  | QSetBytes d buf => (QNone, qset st d ((le_val buf mod 2 ^ 255) mod p))
  | QSetBigInt d x => (QNone, qset st d (x mod p))
  | QAdd d a b => (QNone, qset st d ((st a + st b) mod p))
  | QSub d a b => (QNone, qset st d ((st a - st b) mod p))
  | QMul d a b => (QNone, qset st d ((st a * st b) mod p))
  | QNeg d a => (QNone, qset st d ((- st a) mod p))
  | QSquare d a => (QNone, qset st d ((st a * st a) mod p))
  | QDoubledSquare d a => (QNone, qset st d ((2 * (st a * st a)) mod p))
  | QInverse d a => (QNone, qset st d (inv (st a)))
  | QExp22523 d a => (QNone, qset st d (st a ^ (2 ^ 252 - 3) mod p))
  | QAbs d a => (QNone, qset st d (z_abs (st a)))
  | QInvSqrt d a => (QNone, qset st d (isr (st a)))
  | QSqrt d a => (QNone, qset st d (z_abs ((isr (st a) * st a) mod p)))
  | QInvSqrtI d a => (QInt (Z.b2z (flag (st a))), qset st d (isri (st a)))
  | QCond d a c => (QNone, qset st d (if c then st a else st d))
  | QBytes a | QBytesInto a => (QBuf (le_bytes 32 (st a)), st)
  | QBigInt a => (QInt (st a), st)
  | QString a => (QText (dec (st a)), st)
  | QIsNegativeI a => (QInt (Z.b2z (Z.odd (st a))), st)
  | QIsNonZeroI a => (QInt (Z.b2z (negb (st a =? 0))), st)
  | QIsOneI a => (QInt (Z.b2z (st a =? 1)), st)
  | QEqualsI a b => (QInt (Z.b2z (st a =? st b)), st)
  | QEquals a b => (QBool (st a =? st b), st)
  end.

Fixpoint z_run (prog : list qcall) (st : nat -> Z) : list qobs * (nat -> Z) :=
  match prog with
  | [] => ([], st)
  | i :: r => let '(o, st1) := z_step i st in let '(os, st2) := z_run r st1 in (o :: os, st2)
  end.
End Spec.
