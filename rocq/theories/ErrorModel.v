(** The error values that the decoding methods return, with their messages.  TextCodec.v, RistrettoModel.v and
    ScalarModel.v say whether these methods succeed and what they leave behind; this file repeats their control flow with
    the error in the result. *)
From Coq Require Import ZArith List Bool String.
From Verif Require Import Words ScalarCode ScalarModel FieldModel CurveModel TextCodec RistrettoModel StringModel.
Import ListNotations.
Open Scope Z_scope.

(** the errors: /repo/ristretto.go:340, 345, 380, 393, 300, 302, /repo/scalar.go:1043 and 1075; [CorruptInput] is
    CorruptInputError of encoding/base64, an int64 *)
Inductive error : Type :=
| PointSize (n : nat)
| ScalarSize (n : nat)
| NotAPoint
| CorruptInput (offset : nat)
| NoPreimage
| ManyPreimages.

(** the result of the method Error.  fmt.Errorf with %d writes a number that is not negative in decimal; so does
    CorruptInputError.Error *)
Definition message (e : error) : list Z :=
  match e with
  | PointSize n => codes "ristretto.Point should be 32 bytes; not " ++ decimal (Z.of_nat n)
  | ScalarSize n => codes "ristretto.Scalar should be 32 bytes; not " ++ decimal (Z.of_nat n)
  | NotAPoint => codes "Buffer does not encode a ristretto.Point"
  | CorruptInput n => codes "illegal base64 data at input byte " ++ decimal (Z.of_nat n)
  | NoPreimage => codes "No Lizard preimage"
  | ManyPreimages => codes "Multiple Lizard preimages"
  end.

(** what a call returns: the state after it and the error ([None] is nil), or a panic *)
Inductive result (A : Type) : Type :=
| Ret (a : A) (err : option error)
| Panics.
Arguments Ret {A}. Arguments Panics {A}.

(** the loop of decodeQuantum of encoding/base64; [si] is the index in the source of the next character.
    [inr] is the CorruptInputError: [si - 1] for a character outside the alphabet, [si - j] for a single character at
    the end of the source *)
Fixpoint er_collect (dbuf : list Z) (src : list Z) (si : nat) : (list Z * list Z * nat) + nat :=
  if Nat.eqb (List.length dbuf) 4 then inl (dbuf, src, si)
  else match src with
  | [] => if Nat.eqb (List.length dbuf) 1 then inr (si - List.length dbuf)%nat else inl (dbuf, [], si)
  | c :: src =>
    let si := S si in
    match b64_val c with
    | Some v => er_collect (dbuf ++ [v]) src si
    | None => if (c =? 10) || (c =? 13) then er_collect dbuf src si else inr (si - 1)%nat
    end
  end.

(** Encoding.Decode of encoding/base64 (no padding, not strict), as in [b64_decode] *)
Fixpoint er_decode (fuel : nat) (dst : list Z) (n : nat) (src : list Z) (si : nat) : result (list Z * nat) :=
  match fuel with
  | O => Panics
  | S fuel =>
    match src with
    | [] => Ret (dst, n) None
    | _ :: _ =>
      match er_collect [] src si with
      | inr offset => Ret (dst, n) (Some (CorruptInput offset))
      | inl (dbuf, src, si) =>
        if Nat.eqb (List.length dbuf) 0 then Ret (dst, n) None
        else match b64_store dst n dbuf with
        | Done d => er_decode fuel d (n + (List.length dbuf - 1)) src si
        | _ => Panics
        end
      end
    end
  end.
Definition er_Decode (dst src : list Z) : result (list Z * nat) := er_decode (S (List.length src)) dst 0 src 0.

(** /repo/ristretto.go:375-383 with [size] = PointSize, /repo/scalar.go:1068-1076 with [size] = ScalarSize *)
Definition er_to_buf (size : nat -> error) (dst src : list Z) : result (list Z) :=
  match er_Decode dst src with
  | Panics => Panics
  | Ret (d, n) (Some e) => Ret d (Some e)
  | Ret (d, n) None => if negb (Nat.eqb n 32) then Ret d (Some (size n)) else Ret d None
  end.

(** [textToBuf]: /repo/ristretto.go:366-384.  The error of hex.Decode is dropped *)
Definition er_textToBuf (dst src : list Z) : result (list Z) :=
  if Nat.eqb (List.length src) 64 then
    match hex_Decode dst src with
    | Panic => Panics
    | Done (d, n) => if Nat.eqb n 32 then Ret d None else er_to_buf PointSize d src
    | Fail (d, n) => er_to_buf PointSize d src
    end
  else er_to_buf PointSize dst src.

Section Errors.
Context (K : FeOps).
Notation Point := (ext (fe K)).
(** Point [UnmarshalBinary]: /repo/ristretto.go:338-348 *)
Definition er_pt_UnmarshalBinary (p : Point) (data : list Z) : result Point :=
  if negb (Nat.eqb (List.length data) 32) then Ret p (Some (PointSize (List.length data)))
  else let '(ok, p) := pt_SetBytes K data in
  if negb ok then Ret p (Some NotAPoint) else Ret p None.
(** Point [UnmarshalText]: /repo/ristretto.go:386-396 *)
Definition er_pt_UnmarshalText (p : Point) (txt : list Z) : result Point :=
  match er_textToBuf (repeat 0 32) txt with
  | Panics => Panics
  | Ret _ (Some e) => Ret p (Some e)
  | Ret buf None => let '(ok, p) := pt_SetBytes K buf in
    if negb ok then Ret p (Some NotAPoint) else Ret p None
  end.
(** [LizardInto]: /repo/ristretto.go:278-303; the buffer and the receiver after the call, and the error *)
Definition er_pt_LizardInto (sha256 : list Z -> list Z) (p : Point) (buf : list Z) : result (list Z * Point) :=
  let '(mask, fes, p) := ep_RistrettoElligator2Inverse K p in
  let '(buf, nFound) := for_up 8 (lizard_step K sha256 mask fes) (buf, 0) in
  if nFound =? 1 then Ret (buf, p) None else
  if nFound =? 0 then Ret (buf, p) (Some NoPreimage) else Ret (buf, p) (Some ManyPreimages).
End Errors.

(** Scalar [UnmarshalBinary]: /repo/scalar.go:1041-1049 *)
Definition er_sc_UnmarshalBinary (s : sc) (data : list Z) : result sc :=
  if negb (Nat.eqb (List.length data) 32) then Ret s (Some (ScalarSize (List.length data))) else Ret (sc_setBytes data) None.
(** Scalar [UnmarshalText]: /repo/scalar.go:1067-1079 *)
Definition er_sc_UnmarshalText (s : sc) (txt : list Z) : result sc :=
  match er_to_buf ScalarSize (repeat 0 32) txt with
  | Panics => Panics
  | Ret _ (Some e) => Ret s (Some e)
  | Ret buf None => Ret (sc_setBytes buf) None
  end.
