(** The ideal machine of ApiTotalSpec.v for the calls of ApiFullModel.v.  Models no code. *)
From Coq Require Import ZArith List Bool.
From Verif Require Import Words Primes NumTheory Sha512 ErrorModel ApiModel ApiSpec ApiTotalSpec ApiFullModel.
Import ListNotations.
Open Scope Z_scope.

(** what a text stands for: the decoder panics, it returns an error, or 32 bytes *)
Inductive reading : Type := RPanic | RErr (e : error) | RBuf (buf : list Z).

Section Full.
Context (enc : Z -> list Z) (dec : list Z -> option Z) (ell lizenc : list Z -> Z) (lizdec : Z -> option (list Z)) (inv : Z -> Z).
(** no data is mapped to the exponent; the text of 32 bytes; the meaning of the texts of Points and of Scalars *)
Context (lizno : Z -> bool) (text : list Z -> list Z) (ptext stext : list Z -> reading).

(** a Point that is not set is encoded like 0 *)
Definition val (x : option Z) : Z := match x with Some m => m | None => 0 end.

Definition k_point (st : istate) (d : nat) (buf : list Z) : xobs * istate :=
  (XErr (match dec buf with Some _ => None | None => Some NotAPoint end), iP st d (dec buf)).
Definition k_scalar (st : istate) (d : nat) (buf : list Z) : xobs * istate :=
  (XErr None, iS st d ((le_val buf mod 2 ^ 253) mod l)).
Definition k_lizard (m : Z) (buf : list Z) : xobs :=
  match lizdec m with
  | Some d => XLiz None (Some d)
  | None => if lizno m then XLiz (Some NoPreimage) (Some buf) else XLiz (Some ManyPreimages) None
  end.

Definition kstep (i : xcall) (st : istate) : xobs * istate :=
  let P a := val (ipts st a) in let S := iscs st in
  match i with
  | XCall i => let '(o, st) := jstep enc dec ell lizenc lizdec inv i st in (XObs o, st)
  | XPRand d None | XSRand d None => (XPanic, st)
  | XPRand d (Some buf) => (XObs ONone, iP st d (Some (ell buf)))
  | XSRand d (Some buf) => (XObs ONone, iS st d (le_val buf mod l))
  | XPDerive d m => (XObs ONone, iP st d (Some (ell (firstn 32 (sha512 m)))))
  | XPDeriveDalek d m => (XObs ONone, iP st d (Some ((ell (firstn 32 (sha512 m)) + ell (skipn 32 (sha512 m))) mod l)))
  | XSDerive d m => (XObs ONone, iS st d (le_val (sha512 m) mod l))
  | XSDeriveShort d m => (XObs ONone, iS st d (le_val (firstn 16 (sha512 m))))
  | XPMarshalBinary a => (XObs (OBytes (enc (P a))), st)
  | XSMarshalBinary a => (XObs (OBytes (le_bytes 32 (S a))), st)
  | XPMarshalText a | XPString a => (XText (text (enc (P a))), st)
  | XSMarshalText a | XSString a => (XText (text (le_bytes 32 (S a))), st)
  | XPUnmarshalBinary d data => if Nat.eqb (length data) 32 then k_point st d data else (XErr (Some (PointSize (length data))), st)
  | XSUnmarshalBinary d data => if Nat.eqb (length data) 32 then k_scalar st d data else (XErr (Some (ScalarSize (length data))), st)
  | XPUnmarshalText d txt => match ptext txt with RPanic => (XPanic, st) | RErr e => (XErr (Some e), st) | RBuf buf => k_point st d buf end
  | XSUnmarshalText d txt => match stext txt with RPanic => (XPanic, st) | RErr e => (XErr (Some e), st) | RBuf buf => k_scalar st d buf end
  | XPLizardInto a buf => (k_lizard (P a) buf, st)
  end.

Fixpoint krun (prog : list xcall) (st : istate) : list xobs * istate :=
  match prog with
  | [] => ([], st)
  | i :: rest => let '(o, st) := kstep i st in let '(os, st) := krun rest st in (o :: os, st)
  end.
End Full.
