(** Sequences of calls of the Point and Scalar API on numbered variables (no code of its own: every
    call is a definition of ScalarModel.v, ScalarCode.v or RistrettoModel.v, which cite the lines of
    /repo they model).  A call may name the same variable several times. *)
From Coq Require Import ZArith List Bool.
From Verif Require Import Words FieldModel CurveModel ScalarCode ScalarModel TextCodec RistrettoModel Sha256.
Import ListNotations.
Open Scope Z_scope.

(** A call.  [d], [a], [b], [c], [s], [t] number variables; S… are methods of Scalar, P… of Point
    and T… of ScalarMultTable. *)
Inductive call : Type :=
| SSetZero (d : nat) | SSetOne (d : nat) | SSet (d a : nat)
| SAdd (d a b : nat) | SSub (d a b : nat) | SMul (d a b : nat) | SSquare (d a : nat)
| SMulAdd (d a b c : nat) | SMulSub (d a b c : nat) | SNeg (d a : nat) | SInverse (d a : nat)
| SSetBytes (d : nat) (buf : list Z) | SSetReduced (d : nat) (buf : list Z)
| SSetBytesStrict (d : nat) (buf : list Z) | SUnmarshalBinary (d : nat) (data : list Z)
| SSetBigInt (d : nat) (x : Z) | SSetUint64 (d : nat) (x : Z) | SConditionalSet (d a : nat) (b : bool)
| SBytes (a : nat) | SBigInt (a : nat) | SIsNonZeroI (a : nat) | SEqualsI (a b : nat) | SEquals (a b : nat)
| PSetZero (d : nat) | PSetBase (d : nat) | PSet (d a : nat)
| PAdd (d a b : nat) | PSub (d a b : nat) | PDouble (d a : nat) | PNeg (d a : nat)
| PScalarMult (d a s : nat) | PPublicScalarMult (d a s : nat)
| PScalarMultBase (d s : nat) | PPublicScalarMultBase (d s : nat)
| TCompute (t a : nat) | PScalarMultTable (d t s : nat) | PPublicScalarMultTable (d t s : nat)
| PSetElligator (d : nat) (buf : list Z) | PSetLizard (d : nat) (data : list Z)
| PSetBytes (d : nat) (buf : list Z) | PUnmarshalBinary (d : nat) (data : list Z)
| PConditionalSet (d a : nat) (b : bool)
| PBytes (a : nat) | PEqualsI (a b : nat) | PEquals (a b : nat) | PLizard (a : nat).

(** What the caller sees. *)
Inductive obs : Type := ONone | OBool (b : bool) | OInt (z : Z) | OBytes (b : list Z) | OData (d : option (list Z)).

Definition set_ {X} (f : nat -> X) (d : nat) (x : X) : nat -> X := fun i => if Nat.eqb i d then x else f i.

Section Run.
Context (K : FeOps) (base : list (list (niels (fe K)))).

(** the variables *)
Record state : Type := mkState { pts : nat -> ext (fe K); scs : nat -> sc; tbs : nat -> list (list (niels (fe K))) }.

(** every variable has the zero value of its Go type *)
Definition init : state :=
  mkState (fun _ => ep_zerovalue K) (fun _ => sc_setZero) (fun _ => repeat (repeat (np_zerovalue K) 8) 32).

Definition setP (st : state) (d : nat) (x : ext (fe K)) : state := mkState (set_ (pts st) d x) (scs st) (tbs st).
Definition setS (st : state) (d : nat) (x : sc) : state := mkState (pts st) (set_ (scs st) d x) (tbs st).
Definition setT (st : state) (d : nat) (x : list (list (niels (fe K)))) : state := mkState (pts st) (scs st) (set_ (tbs st) d x).

Definition okP (st : state) (d : nat) (x : ext (fe K)) : option (obs * state) := Some (ONone, setP st d x).
Definition okS (st : state) (d : nat) (x : sc) : option (obs * state) := Some (ONone, setS st d x).
(** a call that may panic *)
Definition opP (st : state) (d : nat) (x : option (ext (fe K))) : option (obs * state) :=
  match x with Some x => okP st d x | None => None end.

(** One call; [None] is a panic. *)
Definition step (i : call) (st : state) : option (obs * state) :=
  let P := pts st in let S := scs st in let T := tbs st in
  match i with
  | SSetZero d => okS st d sc_setZero
  | SSetOne d => okS st d sc_setOne
  | SSet d a => okS st d (sc_set (S a))
  | SAdd d a b => okS st d (sc_add (S a) (S b))
  | SSub d a b => okS st d (sc_sub (S a) (S b))
  | SMul d a b => okS st d (sc_mul (S a) (S b))
  | SSquare d a => okS st d (sc_square (S a))
  | SMulAdd d a b c => okS st d (sc_mulAdd (S a) (S b) (S c))
  | SMulSub d a b c => okS st d (sc_mulSub (S a) (S b) (S c))
  | SNeg d a => okS st d (sc_neg (S a))
  | SInverse d a => okS st d (sc_inverse (S a))
  | SSetBytes d buf => okS st d (sc_setBytes buf)
  | SSetReduced d buf => okS st d (sc_setReduced buf)
  | SSetBytesStrict d buf => let '(r, ok) := sc_setBytesStrict (S d) buf in Some (OBool ok, setS st d r)
  | SUnmarshalBinary d data => let '(r, ok) := sc_unmarshalBinary (S d) data in Some (OBool ok, setS st d r)
  | SSetBigInt d x => okS st d (sc_setBigInt x)
  | SSetUint64 d x => okS st d (sc_setUint64 x)
  | SConditionalSet d a b => okS st d (sc_condSet (S d) (S a) (Z.b2z b))
  | SBytes a => Some (OBytes (sc_Bytes (S a)), st)
  | SBigInt a => Some (OInt (sc_bigInt (S a)), st)
  | SIsNonZeroI a => Some (OInt (sc_isNonZeroI (S a)), st)
  | SEqualsI a b => Some (OInt (sc_equalsI (S a) (S b)), st)
  | SEquals a b => Some (OBool (sc_equals (S a) (S b)), st)
  | PSetZero d => okP st d (pt_SetZero K)
  | PSetBase d => okP st d (pt_SetBase K)
  | PSet d a => okP st d (pt_Set K (P a))
  | PAdd d a b => okP st d (pt_Add K (P a) (P b))
  | PSub d a b => okP st d (pt_Sub K (P a) (P b))
  | PDouble d a => okP st d (pt_Double K (P a))
  | PNeg d a => okP st d (pt_Neg K (P a))
  | PScalarMult d a s => okP st d (pt_ScalarMult K (P a) (S s))
  | PPublicScalarMult d a s => opP st d (pt_PublicScalarMult K (P a) (S s))
  | PScalarMultBase d s => okP st d (pt_ScalarMultBase K base (S s))
  | PPublicScalarMultBase d s => opP st d (pt_PublicScalarMultBase K base (S s))
  | TCompute t a => Some (ONone, setT st t (pt_Compute K (P a)))
  | PScalarMultTable d t s => okP st d (pt_ScalarMultTable K (T t) (S s))
  | PPublicScalarMultTable d t s => opP st d (pt_PublicScalarMultTable K (T t) (S s))
  | PSetElligator d buf => okP st d (pt_SetElligator K buf)
  | PSetLizard d data => okP st d (pt_SetLizard K sha256 data)
  | PSetBytes d buf => let '(ok, r) := pt_SetBytes K buf in Some (OBool ok, setP st d r)
  | PUnmarshalBinary d data => let '(ok, r) := pt_UnmarshalBinary K (P d) data in Some (OBool ok, setP st d r)
  | PConditionalSet d a b => okP st d (pt_ConditionalSet K (P d) (P a) (Z.b2z b))
  | PBytes a => Some (OBytes (pt_Bytes K (P a)), st)
  | PEqualsI a b => Some (OInt (pt_EqualsI K (P a) (P b)), st)
  | PEquals a b => Some (OBool (pt_Equals K (P a) (P b)), st)
  | PLizard a => let '(r, q) := pt_Lizard K sha256 (P a) in Some (OData r, setP st a q)
  end.

Fixpoint run (prog : list call) (st : state) : option (list obs * state) :=
  match prog with
  | [] => Some ([], st)
  | i :: rest =>
    match step i st with
    | None => None
    | Some (o, st) => match run rest st with None => None | Some (os, st) => Some (o :: os, st) end
    end
  end.

End Run.

(** the arrays and integers of a call have the Go type of the parameter *)
Definition well_typed (i : call) : Prop :=
  match i with
  | SSetBytes _ buf | SSetBytesStrict _ buf | PSetElligator _ buf | PSetBytes _ buf => bytes 32 buf
  | SSetReduced _ buf => bytes 64 buf
  | SUnmarshalBinary _ data | PUnmarshalBinary _ data => Forall is_byte data
  | SSetUint64 _ x => 0 <= x < 2 ^ 64
  | PSetLizard _ data => bytes 16 data
  | _ => True
  end.
