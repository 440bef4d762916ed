(** Sequences of calls of all exported methods of Point, Scalar and ScalarMultTable: those of ApiModel.v, and the ones that hash, read
    from crypto/rand, encode as text or return errors (no code of its own: every call is a definition of RistrettoModel.v,
    ScalarModel.v or ErrorModel.v, except for the failures of crypto/rand).  The caller recovers from panics and goes on. *)
From Coq Require Import ZArith List Bool.
From Verif Require Import Words FieldModel CurveModel ScalarCode ScalarModel TextCodec RistrettoModel StringModel Sha256 Sha512 ErrorModel ApiModel.
Import ListNotations.
Open Scope Z_scope.

(** A call.  [r] is what rand.Read does: it fills the buffer with the bytes, or it returns an error ([None]). *)
Inductive xcall : Type :=
| XCall (i : call)
| XPRand (d : nat) (r : option (list Z)) | XSRand (d : nat) (r : option (list Z))
| XPDerive (d : nat) (buf : list Z) | XPDeriveDalek (d : nat) (data : list Z)
| XSDerive (d : nat) (buf : list Z) | XSDeriveShort (d : nat) (buf : list Z)
| XPMarshalBinary (a : nat) | XSMarshalBinary (a : nat)
| XPMarshalText (a : nat) | XSMarshalText (a : nat) | XPString (a : nat) | XSString (a : nat)
| XPUnmarshalBinary (d : nat) (data : list Z) | XSUnmarshalBinary (d : nat) (data : list Z)
| XPUnmarshalText (d : nat) (txt : list Z) | XSUnmarshalText (d : nat) (txt : list Z)
| XPLizardInto (a : nat) (buf : list Z).

(** What the caller sees.  [XLiz err buf]: the error of LizardInto and the buffer after the call, [None] where the code says nothing
    about it: if there are several preimages, the buffer holds one of them that depends on the coordinates of the Point. *)
Inductive xobs : Type :=
| XObs (o : obs) | XPanic | XErr (err : option error) | XText (txt : list Z) | XLiz (err : option error) (buf : option (list Z)).

Section Run.
Context (K : FeOps) (base : list (list (niels (fe K)))).

(** Point [Rand]: /repo/ristretto.go:189-195; [None] is a panic *)
Definition rd_pt_Rand (r : option (list Z)) : option (ext (fe K)) :=
  match r with None => None | Some buf => Some (pt_Rand K buf) end.
(** Scalar [Rand]: /repo/scalar.go:703-709; [None] is a panic *)
Definition rd_sc_Rand (r : option (list Z)) : option sc :=
  match r with None => None | Some buf => Some (sc_rand buf) end.

Definition liz_view (err : option error) (buf : list Z) : xobs :=
  match err with Some ManyPreimages => XLiz err None | _ => XLiz err (Some buf) end.

(** One call.  A panic of Rand or UnmarshalText comes before the receiver is written. *)
Definition xstep (i : xcall) (st : state K) : xobs * state K :=
  let P := pts K st in let S := scs K st in
  match i with
  | XCall i => match step K base i st with Some (o, st) => (XObs o, st) | None => (XPanic, st) end
  | XPRand d r => match rd_pt_Rand r with Some x => (XObs ONone, setP K st d x) | None => (XPanic, st) end
  | XSRand d r => match rd_sc_Rand r with Some x => (XObs ONone, setS K st d x) | None => (XPanic, st) end
  | XPDerive d buf => (XObs ONone, setP K st d (pt_Derive K sha512 buf))
  | XPDeriveDalek d data => (XObs ONone, setP K st d (pt_DeriveDalek K sha512 data))
  | XSDerive d buf => (XObs ONone, setS K st d (sc_derive sha512 buf))
  | XSDeriveShort d buf => (XObs ONone, setS K st d (sc_deriveShort sha512 buf))
  | XPMarshalBinary a => (XObs (OBytes (pt_MarshalBinary K (P a))), st)
  | XSMarshalBinary a => (XObs (OBytes (sc_marshalBinary (S a))), st)
  | XPMarshalText a => (XText (pt_MarshalText K (P a)), st)
  | XSMarshalText a => (XText (sc_MarshalText (S a)), st)
  | XPString a => (XText (pt_String K (P a)), st)
  | XSString a => (XText (sc_String (S a)), st)
  | XPUnmarshalBinary d data => match er_pt_UnmarshalBinary K (P d) data with Ret x e => (XErr e, setP K st d x) | Panics => (XPanic, st) end
  | XSUnmarshalBinary d data => match er_sc_UnmarshalBinary (S d) data with Ret x e => (XErr e, setS K st d x) | Panics => (XPanic, st) end
  | XPUnmarshalText d txt => match er_pt_UnmarshalText K (P d) txt with Ret x e => (XErr e, setP K st d x) | Panics => (XPanic, st) end
  | XSUnmarshalText d txt => match er_sc_UnmarshalText (S d) txt with Ret x e => (XErr e, setS K st d x) | Panics => (XPanic, st) end
  | XPLizardInto a buf => match er_pt_LizardInto K sha256 (P a) buf with Ret (b, q) e => (liz_view e b, setP K st a q) | Panics => (XPanic, st) end
  end.

Fixpoint xrun (prog : list xcall) (st : state K) : list xobs * state K :=
  match prog with
  | [] => ([], st)
  | i :: rest => let '(o, st) := xstep i st in let '(os, st) := xrun rest st in (o :: os, st)
  end.
End Run.

(** the arguments have the types of the parameters *)
Definition x_typed (i : xcall) : Prop :=
  match i with
  | XCall i => well_typed i
  | XPRand _ (Some buf) => bytes 32 buf
  | XSRand _ (Some buf) => bytes 64 buf
  | XPUnmarshalBinary _ data | XSUnmarshalBinary _ data => Forall is_byte data
  | XPLizardInto _ buf => bytes 16 buf
  | _ => True
  end.
