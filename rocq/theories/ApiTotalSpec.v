(** The ideal machine of ApiSpec.v for all programs: [None] stands for the tuples (0 : 0 : Z : 0), which a Point holds
    before it is set and after a decoding that failed, and for the tables computed from them.  Models no code. *)
From Coq Require Import ZArith List Bool.
From Verif Require Import Words Primes NumTheory ApiModel ApiSpec.
Import ListNotations.
Open Scope Z_scope.

Section Total.
Context (enc : Z -> list Z) (dec : list Z -> option Z) (ell lizenc : list Z -> Z) (lizdec : Z -> option (list Z)) (inv : Z -> Z).

(** a call that uses a Point or table that is not set *)
Definition blank_step (i : call) (st : istate) : obs * istate :=
  let P := ipts st in let S := iscs st in
  match i with
  | PSet d _ | PAdd d _ _ | PSub d _ _ | PDouble d _ | PNeg d _ => (ONone, iP st d None)
  | PScalarMult d _ s | PPublicScalarMult d _ s | PScalarMultTable d _ s | PPublicScalarMultTable d _ s =>
      (ONone, iP st d (if S s =? 0 then Some 0 else None))
  | TCompute t _ => (ONone, iT st t None)
  | PConditionalSet d a b => (ONone, iP st d (if b then P a else P d))
  | PBytes _ => (OBytes (repeat 0 32), st)
  | PEqualsI _ _ => (OInt 1, st)
  | PEquals _ _ => (OBool true, st)
  | PLizard _ => (OData (lizdec 0), st)
  | _ => (ONone, st)
  end.

Definition jstep (i : call) (st : istate) : obs * istate :=
  match istep enc dec ell lizenc lizdec inv i st with Some r => r | None => blank_step i st end.

Fixpoint jrun (prog : list call) (st : istate) : list obs * istate :=
  match prog with
  | [] => ([], st)
  | i :: rest => let '(o, st) := jstep i st in let '(os, st) := jrun rest st in (o :: os, st)
  end.
End Total.
