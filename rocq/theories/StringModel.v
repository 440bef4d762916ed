(** The String methods, and the El'Gamal example of /repo/elgamal_test.go.  Strings are lists of character codes. *)
From Coq Require Import ZArith List Bool String Ascii.
From Verif Require Import Words ScalarCode ScalarModel FieldModel CurveModel TextCodec RistrettoModel.
Import ListNotations.
Open Scope Z_scope.

Definition codes (s : string) : list Z := map (fun c => Z.of_nat (nat_of_ascii c)) (list_ascii_of_string s).

(** math/big, [Int.String] of a number that is not negative and has at most 80 digits: the digits are written from the last
    to the first *)
Fixpoint decimal_go (fuel : nat) (x : Z) (acc : list Z) : list Z :=
  match fuel with
  | O => acc
  | S f => let acc := (48 + x mod 10) :: acc in if x <? 10 then acc else decimal_go f (x / 10) acc
  end.
Definition decimal (x : Z) : list Z := decimal_go 80 x [].
(** encoding/hex, [EncodeToString] *)
Definition hextable : list Z := codes "0123456789abcdef".
Definition hex_EncodeToString (src : list Z) : list Z :=
  flat_map (fun v => [at_ hextable (Z.to_nat (Z.shiftr v 4)); at_ hextable (Z.to_nat (Z.land v 15))]) src.

Section Strings.
Context (K : FeOps).
(** [FieldElement.String]: /repo/edwards25519/field.go:182-184 (the receiver is a copy) *)
Definition fe_String (x : fe K) : list Z := decimal (fst (fe_BigInt K x)).
(** [ExtendedPoint.String]: /repo/edwards25519/curve.go:431-434.  fmt.Sprintf with %v is concatenation with the results of
    String. *)
Definition ep_String (p : ext (fe K)) : list Z :=
  codes "ExtendedPoint(" ++ fe_String (eX p) ++ codes ", " ++ fe_String (eY p) ++ codes ", " ++ fe_String (eZ p) ++ codes ", " ++
  fe_String (eT p) ++ codes "; " ++ hex_EncodeToString (ep_RistrettoInto K p) ++ codes ")".
(** [CompletedPoint.String]: /repo/edwards25519/curve.go:439-444 *)
Definition cp_String (p : compl (fe K)) : list Z :=
  let ep := ep_SetCompleted K p in
  codes "CompletedPoint(" ++ fe_String (cX p) ++ codes ", " ++ fe_String (cY p) ++ codes ", " ++ fe_String (cZ p) ++ codes ", " ++
  fe_String (cT p) ++ codes "; " ++ hex_EncodeToString (ep_RistrettoInto K ep) ++ codes ")".
(** [JacobiPoint.String]: /repo/edwards25519/elligator.go:271-273 *)
Definition jc_String (p : jacobi (fe K)) : list Z :=
  codes "JacobiPoint(" ++ fe_String (jS p) ++ codes ", " ++ fe_String (jT p) ++ codes ")".
(** [Point.String]: /repo/ristretto.go:398-401 *)
Definition pt_String (p : ext (fe K)) : list Z := pt_MarshalText K p.

(** [Example]: /repo/elgamal_test.go:10-37, with the bytes read by the three calls of Rand; [None] is a panic *)
Definition elgamal_key (base : list (list (niels (fe K)))) (secretKey : sc) : ext (fe K) := pt_ScalarMultBase K base secretKey.
Definition elgamal_encrypt (base : list (list (niels (fe K)))) (publicKey p : ext (fe K)) (r : sc) : option (ext (fe K) * ext (fe K)) :=
  let c2 := pt_ScalarMultBase K base r in
  match pt_PublicScalarMult K publicKey r with
  | Some c1 => Some (pt_Add K c1 p, c2)
  | None => None
  end.
Definition elgamal_decrypt (c1 c2 : ext (fe K)) (secretKey : sc) : ext (fe K) :=
  let blinding := pt_ScalarMult K c2 secretKey in pt_Sub K c1 blinding.
Definition elgamal_example (base : list (list (niels (fe K)))) (rand1 rand2 rand3 : list Z) : option bool :=
  let secretKey := sc_rand rand1 in
  let publicKey := elgamal_key base secretKey in
  let p := pt_Rand K rand2 in
  let r := sc_rand rand3 in
  match elgamal_encrypt base publicKey p r with
  | Some (c1, c2) => let p2 := elgamal_decrypt c1 c2 secretKey in
    Some (if list_eq_dec Z.eq_dec (pt_Bytes K p) (pt_Bytes K p2) then true else false)
  | None => None
  end.
End Strings.
(** [Scalar.String]: /repo/scalar.go:1081-1084 *)
Definition sc_String (s : sc) : list Z := sc_MarshalText s.
