(** The machine that programs over package edwards25519 should be: every variable, of whatever type, holds an integer modulo l, or [None] if
    it has not been set, if SetRistretto has failed, or after [n.Neg(&n)].  No coordinates, no curve. *)
From Coq Require Import ZArith List Bool.
From Verif Require Import Words Primes EdProgModel.
Import ListNotations.
Open Scope Z_scope.

Record ist := mkIst { zE : nat -> option Z; zC : nat -> option Z; zP : nat -> option Z; zN : nat -> option Z; zT : nat -> option Z;
  zJ : nat -> option Z }.
Definition isetE (s : ist) d x := mkIst (eset (zE s) d x) (zC s) (zP s) (zN s) (zT s) (zJ s).
Definition isetC (s : ist) d x := mkIst (zE s) (eset (zC s) d x) (zP s) (zN s) (zT s) (zJ s).
Definition isetP (s : ist) d x := mkIst (zE s) (zC s) (eset (zP s) d x) (zN s) (zT s) (zJ s).
Definition isetN (s : ist) d x := mkIst (zE s) (zC s) (zP s) (eset (zN s) d x) (zT s) (zJ s).
Definition isetT (s : ist) d x := mkIst (zE s) (zC s) (zP s) (zN s) (eset (zT s) d x) (zJ s).
Definition isetJ (s : ist) d x := mkIst (zE s) (zC s) (zP s) (zN s) (zT s) (eset (zJ s) d x).

(** the encodings of the non-negative field elements, without the square root of i/d (C31) *)
Definition i_candidate (buf : list Z) : bool :=
  (le_val buf <? p) && Z.even (le_val buf) &&
  negb (le_val buf =? 347587707554176910664335222571809819192038173877021618066561357284830225728).

(** a call that reads a variable without value; a panic; the result *)
Inductive iout := IUnset | IPanic | IDone (o : eobs) (s : ist).
Definition ilet (x : option Z) (k : Z -> iout) : iout := match x with Some m => k m | None => IUnset end.
Local Notation "'get' m := x 'in' k" := (ilet x (fun m => k)) (at level 200, m ident, right associativity).

(** the multiples that the constant-time multiplications compute (C53): the scalar itself up to a bound above 2^254, resp. 2^255 *)
Definition z_mult (v : Z) : Z :=
  let n := v mod 2 ^ 255 in
  let r := (2 ^ 250 - 1) / 31 in
  if n <=? 2 ^ 254 + 15 * r then n else (n + 16 * r) mod 2 ^ 250 - 16 * r.
Definition z_tmult (v : Z) : Z :=
  let r := (2 ^ 252 - 1) / 15 in
  if v <=? 2 ^ 255 + 7 * r then v else (v + 8 * r) mod 2 ^ 252 - 8 * r.

Section Spec.
(** encodings; Elligator; the multiples that VarTimeScalarMult computes *)
Context (enc : Z -> list Z) (dec : list Z -> option Z) (ell : list Z -> Z) (vt : Z -> Z).

Definition i_step (i : ecall) (s : ist) : iout :=
  match i with
  | EZero d | ETorsion1 d | ETorsion2 d | ETorsion3 d => IDone ENone (isetE s d (Some 0))
  | EBase d => IDone ENone (isetE s d (Some 1))
  | ESet d a => get m := zE s a in IDone ENone (isetE s d (Some m))
  | ECond d a c => get m := zE s d in get n := zE s a in IDone ENone (isetE s d (Some (if c then n else m)))
  | EAddE d a b => get m := zE s a in get n := zE s b in IDone ENone (isetE s d (Some ((m + n) mod l)))
  | ESubE d a b => get m := zE s a in get n := zE s b in IDone ENone (isetE s d (Some ((m - n) mod l)))
  | EDoubleE d a => get m := zE s a in IDone ENone (isetE s d (Some ((m + m) mod l)))
  | ENegE d a => get m := zE s a in IDone ENone (isetE s d (Some ((- m) mod l)))
  | ESetCompleted d c => get m := zC s c in IDone ENone (isetE s d (Some m))
  | ESetRistretto d buf => IDone (EBool (match dec buf with Some _ => true | None => false end)) (isetE s d (dec buf))
  | ERistretto a | ERistrettoInto a => get m := zE s a in IDone (EBuf (enc m)) s
  | EEqualsI a b => get m := zE s a in get n := zE s b in IDone (EInt (if m =? n then 1 else 0)) s
  | EScalarMult d a k => get m := zE s a in IDone ENone (isetE s d (Some ((z_mult (le_val k) * m) mod l)))
  | EVarTime d a k => get m := zE s a in IDone ENone (isetE s d (Some ((vt (le_val k) * m) mod l)))
  | ETable d t k => get m := zT s t in IDone ENone (isetE s d (Some ((z_tmult (le_val k) * m) mod l)))
  | ETableVarTime d t k => get m := zT s t in
      if le_val k <=? 2 ^ 255 + 7 * ((2 ^ 252 - 1) / 15) then IDone ENone (isetE s d (Some ((le_val k * m) mod l))) else IPanic
  | CAdd d a b => get m := zE s a in get n := zE s b in IDone ENone (isetC s d (Some ((m + n) mod l)))
  | CSub d a b => get m := zE s a in get n := zE s b in IDone ENone (isetC s d (Some ((m - n) mod l)))
  | CDoubleP d a => get m := zP s a in IDone ENone (isetC s d (Some ((m + m) mod l)))
  | CDoubleE d a => get m := zE s a in IDone ENone (isetC s d (Some ((m + m) mod l)))
  | CAddNiels d a n => get m := zE s a in get k := zN s n in IDone ENone (isetC s d (Some ((m + k) mod l)))
  | CSubNiels d a n => get m := zE s a in get k := zN s n in IDone ENone (isetC s d (Some ((m - k) mod l)))
  | CElligator d buf => IDone ENone (isetC s d (Some (ell buf)))
  | PZero d => IDone ENone (isetP s d (Some 0))
  | PSetExtended d a => get m := zE s a in IDone ENone (isetP s d (Some m))
  | PSetCompleted d c => get m := zC s c in IDone ENone (isetP s d (Some m))
  | NZero d => IDone ENone (isetN s d (Some 0))
  | NSet d a => get m := zN s a in IDone ENone (isetN s d (Some m))
  | NCond d a c => get m := zN s d in get n := zN s a in IDone ENone (isetN s d (Some (if c then n else m)))
  | NNeg d a => get m := zN s a in IDone ENone (isetN s d (if Nat.eqb d a then None else Some ((- m) mod l)))
  | NSetExtended d a => get m := zE s a in IDone ENone (isetN s d (Some m))
  | TCompute t a => get m := zE s a in IDone ENone (isetT s t (Some m))
  | JFrom d a => get m := zE s a in
      IDone ENone (isetJ (isetJ (isetJ (isetJ s d (Some m)) (d + 1) (Some m)) (d + 2) (Some m)) (d + 3) (Some m))
  | JDual d a => get m := zJ s a in IDone ENone (isetJ s d (Some m))
  | CSetJacobi d j => get m := zJ s j in IDone ENone (isetC s d (Some m))
  | EInverse a buf => get m := zE s a in IDone (EBool (i_candidate buf && (ell buf =? m))) s
  end.

(** The calls until the first panic; [None] if one reads a variable without value. *)
Fixpoint i_run (prog : list ecall) (s : ist) : option (list eobs * bool) :=
  match prog with
  | [] => Some ([], true)
  | i :: r =>
    match i_step i s with
    | IUnset => None
    | IPanic => Some ([], false)
    | IDone o s1 => match i_run r s1 with Some (os, e) => Some (o :: os, e) | None => None end
    end
  end.
End Spec.

Definition i_init : ist := mkIst (fun _ => None) (fun _ => None) (fun _ => None) (fun _ => None) (fun _ => None) (fun _ => None).

(** ** The generic build
    There an ExtendedPoint from SetRistretto, or the negative of one, or one whose coordinates ToJacobiQuarticRistretto or RistrettoElligator2Inverse has serialised, may not be the second operand of an addition or subtraction, nor the
    argument of a multiplication or of Compute (C37).  [e_need i t]: the call [i] respects that, where [t] marks the variables that hold
    such a point; [e_mark i t]: the marks after it; [e_fit]: the whole program respects it. *)
Definition e_need (i : ecall) (t : nat -> bool) : bool :=
  match i with
  | EAddE _ _ b | ESubE _ _ b | CAdd _ _ b | CSub _ _ b => negb (t b)
  | EScalarMult _ a _ | EVarTime _ a _ | TCompute _ a => negb (t a)
  | _ => true
  end.
Definition e_mark (i : ecall) (t : nat -> bool) : nat -> bool :=
  match i with
  | ESetRistretto d _ | JFrom _ d | EInverse d _ => eset t d true
  | ESet d a | ENegE d a => eset t d (t a)
  | ECond d a _ => eset t d (t d || t a)
  | EZero d | EBase d | ETorsion1 d | ETorsion2 d | ETorsion3 d | EAddE d _ _ | ESubE d _ _ | EDoubleE d _ | ESetCompleted d _
  | EScalarMult d _ _ | EVarTime d _ _ | ETable d _ _ | ETableVarTime d _ _ => eset t d false
  | _ => t
  end.
Fixpoint e_fit (prog : list ecall) (t : nat -> bool) : bool :=
  match prog with [] => true | i :: r => e_need i t && e_fit r (e_mark i t) end.
