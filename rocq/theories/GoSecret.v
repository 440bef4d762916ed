(** The methods that are meant to be safe on secret data: every method of Point, ScalarMultTable
    and Scalar modelled as a program whose name does not start with Public, and the arithmetic of
    the package edwards25519 below them.

    Not listed, because they are not programs of GoLang.v: the hash functions called by Derive,
    DeriveShort, SetLizard, LizardInto and DeriveDalek, the text and big-integer conversions,
    Bytes (which allocates a buffer and calls BytesInto) and SetBytesStrict (which branches on
    its result, see [d_sc_setBytesStrict]). *)
From Coq Require Import ZArith List String.
From Verif Require Import Words ScalarCode ScalarModel FieldModel CurveModel GoLang GoLimbCode GoLimbTests GoCurveCode GoCodecCode GoInverseCode GoTrace.
Import ListNotations.
Open Scope string_scope.

(** Programs over field elements.  Variables 0, 1, 2 are the receiver and the arguments in the
    order of the Go declaration, except for the table, where 0 is the point that is set and 1 the
    table; a result that is not the receiver comes after the arguments. *)
Section Points.
Context (K : FeOps).
Local Notation V := (fe K * Z)%type.
Local Notation P n := ((n%nat, C 0) : place V).
Definition secret_points : list (string * stmt V) :=
  [(** /repo/ristretto.go:69-72, 75-78, 81-84, 87-90, 93-96 with /repo/edwards25519/curve.go:76-82, 190-220, 409-415 *)
   ("Point.Set", g_ep_Set K (P 0) (P 1) 2 0); ("Point.Add", g_ep_Add K (P 0) (P 1) (P 2) 3 0);
   ("Point.Double", g_ep_Double K (P 0) (P 1) 2 0); ("Point.Sub", g_ep_Sub K (P 0) (P 1) (P 2) 3 0);
   ("Point.Neg", g_ep_Neg K (P 0) (P 1) 2 0);
   (** ristretto.go:99-102, 111-113, 120-127 with curve.go:224-325 *)
   ("Point.BytesInto", g_ep_RistrettoInto K (P 0) (P 1) 2 0); ("Point.SetBytes", g_ep_SetRistretto K (P 0) (P 1) (P 2) 3 0);
   ("Point.SetElligator", g_pt_SetElligator K (P 0) (P 1) 2 0);
   (** ristretto.go:131-160 with curve.go:361-406 and table.go:131-160; the scalar is encoded first, see [secret_scalars] *)
   ("Point.ScalarMult", g_ep_ScalarMult K (P 0) (P 1) (P 2) 3 0); ("Point.ScalarMultTable", g_tb_ScalarMult K (P 1) (P 0) (P 2) 3 0);
   (** ristretto.go:306-308, 316-318 with curve.go:85-91, 419-426 *)
   ("Point.EqualsI", g_ep_RistrettoEqualsI K (P 0) (P 1) (P 2) 3 0); ("Point.ConditionalSet", g_ep_ConditionalSet K (P 0) (P 1) (P 2) 3 0);
   (** ristretto.go:412-414 with table.go:91-113 *)
   ("ScalarMultTable.Compute", g_tb_Compute K (P 0) (P 1) 2 0);
   (** elligator.go:17-50 *)
   ("ExtendedPoint.RistrettoElligator2Inverse", g_ep_RistrettoElligator2Inverse K (P 0) (P 1) (P 2) 3 0);
   (** field.go:35-42, 58-118, 207-335 *)
   ("FieldElement.Add", g_fe_Add K (P 0) (P 1) (P 2) 3 0); ("FieldElement.Sub", g_fe_Sub K (P 0) (P 1) (P 2) 3 0);
   ("FieldElement.Inverse", g_fe_Inverse K (P 0) (P 1) 2 0); ("FieldElement.Abs", g_fe_Abs K (P 0) (P 1) 2 0);
   ("FieldElement.Exp22523", g_fe_Exp22523 K (P 0) (P 1) 2 0); ("FieldElement.InvSqrt", g_fe_InvSqrt K (P 0) (P 1) 2 0);
   ("FieldElement.Sqrt", g_fe_Sqrt K (P 0) (P 1) 2 0); ("FieldElement.InvSqrtI", g_fe_InvSqrtI K (P 0) (P 1) (P 2) 3 0)].
(** the memory after the method *)
Definition after (name : string) (m : mem V) : mem V :=
  match lookup name secret_points with Some s => final (E:=Empty_set) nosub (fun a => a) rho0 s m | None => m end.
End Points.

(** Programs on the words of a scalar: /repo/scalar.go:34-68, 79-91, 117-193, 230-233, 246-378,
    406-699, 712-803, 1014-1028, 1458-1467.  The last variable before the locals is scL or scZero
    where the function uses it, or the result. *)
Definition secret_scalars : list (string * stmt Z) :=
  [("Scalar.BytesInto", d_sc_bytes 0 1 2); ("Scalar.SetBytes", d_sc_setBytes 0 1 2 3); ("Scalar.Neg", d_sc_neg 0 1 2 3);
   ("Scalar.Add", d_sc_add 0 1 2 3 4); ("Scalar.Sub", d_sc_sub 0 1 2 3); ("Scalar.Set", d_copy 8);
   ("Scalar.MulSub", d_sc_mulSub 0 1 2 3 4); ("Scalar.MulAdd", d_sc_mulAdd 0 1 2 3 4); ("Scalar.SetReduced", d_sc_setReduced 0 1 2);
   ("Scalar.Square", d_sc_square 0 1 2); ("Scalar.Mul", d_sc_mul 0 1 2 3); ("Scalar.IsNonZeroI", d_sc_isNonZeroI 0 1 2);
   ("Scalar.EqualsI", d_sc_equalsI 0 1 2 3); ("Scalar.ConditionalSet", d_sc_condSet 0 1 2 3)].
(** The calls of [Scalar.Inverse], /repo/scalar.go:807-1011 (the program is [d_sc_inverse]). *)
Definition code_sc : list (string * stmt Z) := [("Square", d_sc_square 0 1 2); ("Mul", d_sc_mul 0 1 2 3)].
Definition after_sc (name : string) (m : mem Z) : mem Z :=
  match lookup name secret_scalars with Some s => final (E:=Empty_set) nosub (fun a => a) rho0 s m | None => m end.
