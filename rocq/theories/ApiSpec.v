(** The ideal machine: Points are exponents modulo l of a generator, Scalars integers modulo l.
    It executes the calls of ApiModel.v given an encoding of the exponents as bytes, its inverse,
    and a hash to exponents (Elligator and Lizard).  Models no code. *)
From Coq Require Import ZArith List Bool.
From Verif Require Import Words Primes NumTheory ApiModel.
Import ListNotations.
Open Scope Z_scope.

Section Ideal.
Context (enc : Z -> list Z) (dec : list Z -> option Z) (ell lizenc : list Z -> Z) (lizdec : Z -> option (list Z)) (inv : Z -> Z).

(** [None]: not a group element (uninitialised, or the receiver of a failed decoding) *)
Record istate : Type := mkIstate { ipts : nat -> option Z; iscs : nat -> Z; itbs : nat -> option Z }.

(** no Point is initialised, the Scalars are 0 *)
Definition iinit : istate := mkIstate (fun _ => None) (fun _ => 0) (fun _ => None).

Definition iP (st : istate) (d : nat) (x : option Z) : istate := mkIstate (set_ (ipts st) d x) (iscs st) (itbs st).
Definition iS (st : istate) (d : nat) (x : Z) : istate := mkIstate (ipts st) (set_ (iscs st) d x) (itbs st).
Definition iT (st : istate) (d : nat) (x : option Z) : istate := mkIstate (ipts st) (iscs st) (set_ (itbs st) d x).

Definition i1 (x : option Z) (f : Z -> obs * istate) : option (obs * istate) :=
  match x with Some x => Some (f x) | None => None end.
Definition i2 (x y : option Z) (f : Z -> Z -> obs * istate) : option (obs * istate) :=
  match x, y with Some x, Some y => Some (f x y) | _, _ => None end.

(** One call; [None] when it uses a Point or table that is not initialised. *)
Definition istep (i : call) (st : istate) : option (obs * istate) :=
  let P := ipts st in let S := iscs st in let T := itbs st in
  match i with
  | SSetZero d => Some (ONone, iS st d 0)
  | SSetOne d => Some (ONone, iS st d 1)
  | SSet d a => Some (ONone, iS st d (S a))
  | SAdd d a b => Some (ONone, iS st d ((S a + S b) mod l))
  | SSub d a b => Some (ONone, iS st d ((S a - S b) mod l))
  | SMul d a b => Some (ONone, iS st d ((S a * S b) mod l))
  | SSquare d a => Some (ONone, iS st d ((S a * S a) mod l))
  | SMulAdd d a b c => Some (ONone, iS st d ((S a * S b + S c) mod l))
  | SMulSub d a b c => Some (ONone, iS st d ((S a * S b - S c) mod l))
  | SNeg d a => Some (ONone, iS st d ((- S a) mod l))
  | SInverse d a => Some (ONone, iS st d (inv (S a)))
  | SSetBytes d buf => Some (ONone, iS st d ((le_val buf mod 2 ^ 253) mod l))
  | SSetReduced d buf => Some (ONone, iS st d (le_val buf mod l))
  | SSetBytesStrict d buf =>
      Some (if le_val buf <? l then (OBool true, iS st d (le_val buf)) else (OBool false, st))
  | SUnmarshalBinary d data =>
      Some (if Nat.eqb (length data) 32 then (OBool true, iS st d ((le_val data mod 2 ^ 253) mod l)) else (OBool false, st))
  | SSetBigInt d x => Some (ONone, iS st d (x mod l))
  | SSetUint64 d x => Some (ONone, iS st d x)
  | SConditionalSet d a b => Some (ONone, if b then iS st d (S a) else st)
  | SBytes a => Some (OBytes (le_bytes 32 (S a)), st)
  | SBigInt a => Some (OInt (S a), st)
  | SIsNonZeroI a => Some (OInt (if S a =? 0 then 0 else 1), st)
  | SEqualsI a b => Some (OInt (if S a =? S b then 1 else 0), st)
  | SEquals a b => Some (OBool (S a =? S b), st)
  | PSetZero d => Some (ONone, iP st d (Some 0))
  | PSetBase d => Some (ONone, iP st d (Some 1))
  | PSet d a => i1 (P a) (fun x => (ONone, iP st d (Some x)))
  | PAdd d a b => i2 (P a) (P b) (fun x y => (ONone, iP st d (Some ((x + y) mod l))))
  | PSub d a b => i2 (P a) (P b) (fun x y => (ONone, iP st d (Some ((x - y) mod l))))
  | PDouble d a => i1 (P a) (fun x => (ONone, iP st d (Some ((2 * x) mod l))))
  | PNeg d a => i1 (P a) (fun x => (ONone, iP st d (Some ((- x) mod l))))
  | PScalarMult d a s | PPublicScalarMult d a s => i1 (P a) (fun x => (ONone, iP st d (Some ((S s * x) mod l))))
  | PScalarMultBase d s | PPublicScalarMultBase d s => Some (ONone, iP st d (Some (S s)))
  | TCompute t a => i1 (P a) (fun x => (ONone, iT st t (Some x)))
  | PScalarMultTable d t s | PPublicScalarMultTable d t s => i1 (T t) (fun x => (ONone, iP st d (Some ((S s * x) mod l))))
  | PSetElligator d buf => Some (ONone, iP st d (Some (ell buf)))
  | PSetLizard d data => Some (ONone, iP st d (Some (lizenc data)))
  | PSetBytes d buf => Some (OBool (match dec buf with Some _ => true | None => false end), iP st d (dec buf))
  | PUnmarshalBinary d data =>
      Some (if Nat.eqb (length data) 32 then (OBool (match dec data with Some _ => true | None => false end), iP st d (dec data))
            else (OBool false, st))
  | PConditionalSet d a b => i2 (P d) (P a) (fun x y => (ONone, iP st d (Some (if b then y else x))))
  | PBytes a => i1 (P a) (fun x => (OBytes (enc x), st))
  | PEqualsI a b => i2 (P a) (P b) (fun x y => (OInt (if x =? y then 1 else 0), st))
  | PEquals a b => i2 (P a) (P b) (fun x y => (OBool (x =? y), st))
  | PLizard a => i1 (P a) (fun x => (OData (lizdec x), st))
  end.

Fixpoint irun (prog : list call) (st : istate) : option (list obs * istate) :=
  match prog with
  | [] => Some ([], st)
  | i :: rest =>
    match istep i st with
    | None => None
    | Some (o, st) => match irun rest st with None => None | Some (os, st) => Some (o :: os, st) end
    end
  end.

End Ideal.
