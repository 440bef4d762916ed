(** Sequences of calls of the exported methods of ExtendedPoint, CompletedPoint, ProjectivePoint, NielsPoint, JacobiPoint and ScalarMultTable
    (package edwards25519).

    The variables of the caller are numbered, for each type on its own; a call names its receiver and arguments, which may be the same
    variable (C39).  Left out: the String methods (C57), and writing coordinates directly. *)
From Coq Require Import ZArith List Bool.
From Verif Require Import Words FieldModel CurveModel.
Import ListNotations.
Open Scope Z_scope.

(** [E..]: receiver (or the result, of [ETable..]) is an ExtendedPoint; [C..], [P..], [N..], [T..], [J..]: a CompletedPoint, ProjectivePoint,
    NielsPoint, ScalarMultTable, JacobiPoint.  [JFrom d a]: ToJacobiQuarticRistretto into an array of the variables [d], .., [d + 3].
    [EInverse a buf]: RistrettoElligator2Inverse, after which the caller looks for a field element with the encoding [buf] among the
    ones in the mask; the order of the eight field elements is not seen.  [CElligator d buf]: SetRistrettoElligator2 of the FieldElement that SetBytes makes of [buf]. *)
Inductive ecall :=
| EZero (d : nat) | EBase (d : nat) | ETorsion1 (d : nat) | ETorsion2 (d : nat) | ETorsion3 (d : nat)
| ESet (d a : nat) | ECond (d a : nat) (c : bool) | EAddE (d a b : nat) | ESubE (d a b : nat) | EDoubleE (d a : nat) | ENegE (d a : nat)
| ESetCompleted (d c : nat) | ESetRistretto (d : nat) (buf : list Z) | ERistretto (a : nat) | ERistrettoInto (a : nat) | EEqualsI (a b : nat)
| EScalarMult (d a : nat) (s : list Z) | EVarTime (d a : nat) (s : list Z) | ETable (d t : nat) (s : list Z) | ETableVarTime (d t : nat) (s : list Z)
| CAdd (d a b : nat) | CSub (d a b : nat) | CDoubleP (d a : nat) | CDoubleE (d a : nat) | CAddNiels (d a n : nat) | CSubNiels (d a n : nat)
| CElligator (d : nat) (buf : list Z)
| PZero (d : nat) | PSetExtended (d a : nat) | PSetCompleted (d c : nat)
| NZero (d : nat) | NSet (d a : nat) | NCond (d a : nat) (c : bool) | NNeg (d a : nat) | NSetExtended (d a : nat)
| TCompute (t a : nat)
| JFrom (d a : nat) | JDual (d a : nat) | CSetJacobi (d j : nat)
| EInverse (a : nat) (buf : list Z).

(** What the caller sees: nothing but the receiver, an array of bytes, an int32, a bool. *)
Inductive eobs := ENone | EBuf (buf : list Z) | EInt (x : Z) | EBool (b : bool).

Definition eset {A : Type} (f : nat -> A) (d : nat) (x : A) : nat -> A := fun i => if Nat.eqb i d then x else f i.

Section Calls.
Context (K : FeOps).
Notation FE := (fe K).

Record est := mkEst {
  vE : nat -> ext FE; vC : nat -> compl FE; vP : nat -> proj FE; vN : nat -> niels FE; vT : nat -> list (list (niels FE));
  vJ : nat -> jacobi FE }.
Definition setE (s : est) d x := mkEst (eset (vE s) d x) (vC s) (vP s) (vN s) (vT s) (vJ s).
Definition setC (s : est) d x := mkEst (vE s) (eset (vC s) d x) (vP s) (vN s) (vT s) (vJ s).
Definition setPr (s : est) d x := mkEst (vE s) (vC s) (eset (vP s) d x) (vN s) (vT s) (vJ s).
Definition setN (s : est) d x := mkEst (vE s) (vC s) (vP s) (eset (vN s) d x) (vT s) (vJ s).
Definition setJ (s : est) d x := mkEst (vE s) (vC s) (vP s) (vN s) (vT s) (eset (vJ s) d x).
Definition setTb (s : est) d x := mkEst (vE s) (vC s) (vP s) (vN s) (eset (vT s) d x) (vJ s).

(** One call; [None] is a panic.  The methods are those of CurveModel.v; [ExtendedPoint.Set], [NielsPoint.Set] copy:
    /repo/edwards25519/curve.go:76-82, table.go:19-24.  [n.Neg(&n)] has overwritten YMinusX when it reads it for YPlusX:
    /repo/edwards25519/table.go:35-40.  ToJacobiQuarticRistretto serialises X and Y of its receiver in place on some builds (C38):
    /repo/edwards25519/elligator.go:126. *)
Definition e_step (i : ecall) (s : est) : option (eobs * est) :=
  match i with
  | EZero d => Some (ENone, setE s d (ep_SetZero K))
  | EBase d => Some (ENone, setE s d (ep_SetBase K))
  | ETorsion1 d => Some (ENone, setE s d (ep_torsion1 K))
  | ETorsion2 d => Some (ENone, setE s d (ep_torsion2 K))
  | ETorsion3 d => Some (ENone, setE s d (ep_torsion3 K))
  | ESet d a => Some (ENone, setE s d (vE s a))
  | ECond d a c => Some (ENone, setE s d (ep_ConditionalSet K (vE s d) (vE s a) (Z.b2z c)))
  | EAddE d a b => Some (ENone, setE s d (ep_Add K (vE s a) (vE s b)))
  | ESubE d a b => Some (ENone, setE s d (ep_Sub K (vE s a) (vE s b)))
  | EDoubleE d a => Some (ENone, setE s d (ep_Double K (vE s a)))
  | ENegE d a => Some (ENone, setE s d (ep_Neg K (vE s a)))
  | ESetCompleted d c => Some (ENone, setE s d (ep_SetCompleted K (vC s c)))
  | ESetRistretto d buf => let '(ok, P) := ep_SetRistretto K buf in Some (EBool ok, setE s d P)
  | ERistretto a | ERistrettoInto a => Some (EBuf (ep_RistrettoInto K (vE s a)), s)
  | EEqualsI a b => Some (EInt (ep_RistrettoEqualsI K (vE s a) (vE s b)), s)
  | EScalarMult d a k => Some (ENone, setE s d (ep_ScalarMult K (vE s a) k))
  | EVarTime d a k => match ep_VarTimeScalarMult K (vE s a) k with Some P => Some (ENone, setE s d P) | None => None end
  | ETable d t k => Some (ENone, setE s d (tbl_ScalarMult K (vT s t) k))
  | ETableVarTime d t k => match tbl_VarTimeScalarMult K (vT s t) k with Some P => Some (ENone, setE s d P) | None => None end
  | CAdd d a b => Some (ENone, setC s d (cp_AddExtended K (vE s a) (vE s b)))
  | CSub d a b => Some (ENone, setC s d (cp_SubExtended K (vE s a) (vE s b)))
  | CDoubleP d a => Some (ENone, setC s d (cp_DoubleProjective K (vP s a)))
  | CDoubleE d a => Some (ENone, setC s d (cp_DoubleExtended K (vE s a)))
  | CAddNiels d a n => Some (ENone, setC s d (cp_AddExtendedNiels K (vE s a) (vN s n)))
  | CSubNiels d a n => Some (ENone, setC s d (cp_SubExtendedNiels K (vE s a) (vN s n)))
  | CElligator d buf => Some (ENone, setC s d (cp_SetRistrettoElligator2 K (o_setBytes K buf)))
  | PZero d => Some (ENone, setPr s d (pp_SetZero K))
  | PSetExtended d a => Some (ENone, setPr s d (pp_SetExtended K (vE s a)))
  | PSetCompleted d c => Some (ENone, setPr s d (pp_SetCompleted K (vC s c)))
  | NZero d => Some (ENone, setN s d (np_SetZero K))
  | NSet d a => Some (ENone, setN s d (vN s a))
  | NCond d a c => Some (ENone, setN s d (np_ConditionalSet K (vN s d) (vN s a) (Z.b2z c)))
  | NNeg d a =>
      if Nat.eqb d a then Some (ENone, setN s d (mkNiels (nYpX (vN s a)) (nYpX (vN s a)) (o_neg K (nXY2D (vN s a)))))
      else Some (ENone, setN s d (np_Neg K (vN s a)))
  | NSetExtended d a => Some (ENone, setN s d (np_SetExtended K (vE s a)))
  | TCompute t a => Some (ENone, setTb s t (tbl_Compute K (vE s a)))
  | JFrom d a =>
      let '(js, P) := ep_ToJacobiQuarticRistretto K (vE s a) in
      let z := mkJac (k_zero K) (k_zero K) in
      let j i := nth i js z in
      Some (ENone, setJ (setJ (setJ (setJ (setE s a P) d (j 0%nat)) (d + 1) (j 1%nat)) (d + 2) (j 2%nat)) (d + 3) (j 3%nat))
  | JDual d a => Some (ENone, setJ s d (jc_Dual K (vJ s a)))
  | CSetJacobi d j => Some (ENone, setC s d (cp_SetJacobiQuartic K (vJ s j)))
  | EInverse a buf =>
      let '(mask, fes, P) := ep_RistrettoElligator2Inverse K (vE s a) in
      let at_j j := Z.testbit mask (Z.of_nat j) && (if list_eq_dec Z.eq_dec (fst (o_bytes K (nth j fes (k_zero K)))) buf then true else false) in
      Some (EBool (existsb at_j (seq 0 8)), setE s a P)
  end.

(** The calls of a program until the first panic, with what the caller sees of each; [None] for a panic. *)
Fixpoint e_run (prog : list ecall) (s : est) : list eobs * option est :=
  match prog with
  | [] => ([], Some s)
  | i :: r => match e_step i s with None => ([], None) | Some (o, s1) => let '(os, e) := e_run r s1 in (o :: os, e) end
  end.

(** variables that have not been set: all limbs are 0 *)
Definition e_init : est :=
  let z := k_zero K in
  mkEst (fun _ => mkExt z z z z) (fun _ => mkCompl z z z z) (fun _ => mkProj z z z) (fun _ => mkNiels z z z)
    (fun _ => repeat (repeat (mkNiels z z z) 8) 32) (fun _ => mkJac z z).
End Calls.

(** arguments of the types of the parameters: arrays of 32 bytes *)
Definition e_typed (i : ecall) : Prop :=
  match i with
  | ESetRistretto _ buf | CElligator _ buf | EInverse _ buf => bytes 32 buf
  | EScalarMult _ _ k | EVarTime _ _ k | ETable _ _ k | ETableVarTime _ _ k => bytes 32 k
  | _ => True
  end.
