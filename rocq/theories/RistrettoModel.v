(** Model of /repo/ristretto.go, and of the text methods of /repo/scalar.go, over a field backend [K]
    and a table [base] for BaseScalarMultTable.  Conventions as in FieldModel.v; a Point is an
    ExtendedPoint, so the conversions [e()] and [t()] (ristretto.go:403-409) are the identity. *)
From Coq Require Import ZArith List Bool.
From Verif Require Import Words FieldModel CurveModel ScalarCode ScalarModel TextCodec.
Import ListNotations.
Open Scope Z_scope.

Section Ristretto.
Context (K : FeOps) (base : list (list (niels (fe K)))).
Notation FE := (fe K).
Notation Point := (ext FE).
Notation Table := (list (list (niels FE))).

(** [SetZero]: /repo/ristretto.go:57-60 *)
Definition pt_SetZero : Point := ep_SetZero K.
(** [SetBase]: /repo/ristretto.go:63-66 *)
Definition pt_SetBase : Point := ep_SetBase K.
(** [Set]: /repo/ristretto.go:69-72, /repo/edwards25519/curve.go:76-82 *)
Definition pt_Set (q : Point) : Point := mkExt (eX q) (eY q) (eZ q) (eT q).
(** [Add]: /repo/ristretto.go:75-78 *)
Definition pt_Add (q r : Point) : Point := ep_Add K q r.
(** [Double]: /repo/ristretto.go:81-84 *)
Definition pt_Double (q : Point) : Point := ep_Double K q.
(** [Sub]: /repo/ristretto.go:87-90 *)
Definition pt_Sub (q r : Point) : Point := ep_Sub K q r.
(** [Neg]: /repo/ristretto.go:93-96 *)
Definition pt_Neg (q : Point) : Point := ep_Neg K q.
(** [BytesInto] and [Bytes]: /repo/ristretto.go:99-107 *)
Definition pt_Bytes (p : Point) : list Z := ep_RistrettoInto K p.
(** [SetBytes]: /repo/ristretto.go:111-113; the result and the receiver after the call *)
Definition pt_SetBytes (buf : list Z) : bool * Point := ep_SetRistretto K buf.

(** [SetElligator]: /repo/ristretto.go:120-127 *)
Definition pt_SetElligator (buf : list Z) : Point :=
  let fe := o_setBytes K buf in
  let cp := cp_SetRistrettoElligator2 K fe in
  ep_SetCompleted K cp.

(** [ScalarMultTable.Compute]: /repo/ristretto.go:412-414 *)
Definition pt_Compute (p : Point) : Table := tbl_Compute K p.
(** [ScalarMultTable]: /repo/ristretto.go:131-136 *)
Definition pt_ScalarMultTable (t : Table) (s : sc) : Point := tbl_ScalarMult K t (sc_bytes s).
(** [PublicScalarMultTable]: /repo/ristretto.go:143-148; [None] is a panic *)
Definition pt_PublicScalarMultTable (t : Table) (s : sc) : option Point := tbl_VarTimeScalarMult K t (sc_bytes s).
(** [ScalarMult]: /repo/ristretto.go:151-156 *)
Definition pt_ScalarMult (q : Point) (s : sc) : Point := ep_ScalarMult K q (sc_bytes s).
(** [PublicScalarMult]: /repo/ristretto.go:162-167; [None] is a panic *)
Definition pt_PublicScalarMult (q : Point) (s : sc) : option Point := ep_VarTimeScalarMult K q (sc_bytes s).
(** [PublicScalarMultBase]: /repo/ristretto.go:173-178; [None] is a panic *)
Definition pt_PublicScalarMultBase (s : sc) : option Point := tbl_VarTimeScalarMult K base (sc_bytes s).
(** [ScalarMultBase]: /repo/ristretto.go:181-186 *)
Definition pt_ScalarMultBase (s : sc) : Point := tbl_ScalarMult K base (sc_bytes s).

(** [Rand]: /repo/ristretto.go:189-195, for the 32 bytes that rand.Read returns (a failing
    random source panics) *)
Definition pt_Rand (buf : list Z) : Point := pt_SetElligator buf.

(** [Derive]: /repo/ristretto.go:203-208 *)
Definition pt_Derive (sha512 : list Z -> list Z) (buf : list Z) : Point :=
  let h := sha512 buf in
  let ptBuf := firstn 32 h in
  pt_SetElligator ptBuf.

(** the 32 bytes hashed into the curve by [SetLizard], and recomputed by [LizardInto]:
    /repo/ristretto.go:251-254 and 288-291 *)
Definition lizard_buf (sha256 : list Z -> list Z) (data : list Z) : list Z :=
  let buf := sha256 data in
  let buf := firstn 8 buf ++ data ++ skipn 24 buf in
  let buf := upd buf 0 (Z.land (at_ buf 0) 254) in
  upd buf 31 (Z.land (at_ buf 31) 63).

(** [SetLizard]: /repo/ristretto.go:248-259 *)
Definition pt_SetLizard (sha256 : list Z -> list Z) (data : list Z) : Point :=
  let buf := lizard_buf sha256 data in
  let fe := o_setBytes K buf in
  let cp := cp_SetRistrettoElligator2 K fe in
  ep_SetCompleted K cp.

(** one iteration of the loop of [LizardInto]: /repo/ristretto.go:285-295.
    subtle.ConstantTimeCopy(1, x, y) copies y to x, with 0 it does nothing. *)
Definition lizard_step (sha256 : list Z -> list Z) (mask : Z) (fes : list FE) (j : nat)
    (st : list Z * Z) : list Z * Z :=
  let '(buf, nFound) := st in
  let ok := Z.land (Z.shiftr mask (Z.of_nat j)) 1 in
  let buf2 := fst (o_bytes K (nth j fes (k_zero K))) in
  let h := lizard_buf sha256 (slice buf2 8 24) in
  let ok := Z.land ok (u8 (ct_compare h buf2)) in
  let buf := if ok =? 1 then slice buf2 8 24 else buf in
  let nFound := u8 (nFound + ok) in
  (buf, nFound).

(** the error that [LizardInto] returns *)
Inductive lizard_err : Type := lizard_nil | lizard_none | lizard_multiple.

(** [LizardInto]: /repo/ristretto.go:278-303; the error, the buffer and the receiver after the call *)
Definition pt_LizardInto (sha256 : list Z -> list Z) (p : Point) (buf : list Z) : lizard_err * list Z * Point :=
  let '(mask, fes, p) := ep_RistrettoElligator2Inverse K p in
  let '(buf, nFound) := for_up 8 (lizard_step sha256 mask fes) (buf, 0) in
  (if nFound =? 1 then lizard_nil else if nFound =? 0 then lizard_none else lizard_multiple, buf, p).

(** [Lizard]: /repo/ristretto.go:266-272; [None] is nil *)
Definition pt_Lizard (sha256 : list Z -> list Z) (p : Point) : option (list Z) * Point :=
  match pt_LizardInto sha256 p (repeat 0 16) with
  | (lizard_nil, buf, p) => (Some buf, p)
  | (_, _, p) => (None, p)
  end.

(** [EqualsI]: /repo/ristretto.go:306-308 *)
Definition pt_EqualsI (p q : Point) : Z := ep_RistrettoEqualsI K p q.
(** [Equals]: /repo/ristretto.go:311-313 *)
Definition pt_Equals (p q : Point) : bool := pt_EqualsI p q =? 1.
(** [ConditionalSet]: /repo/ristretto.go:316-318 *)
Definition pt_ConditionalSet (p q : Point) (b : Z) : Point := ep_ConditionalSet K p q b.

(** [DeriveDalek]: /repo/ristretto.go:325-335 *)
Definition pt_DeriveDalek (sha512 : list Z -> list Z) (data : list Z) : Point :=
  let hash := sha512 data in
  let p := pt_SetElligator (firstn 32 hash) in
  let p2 := pt_SetElligator (skipn 32 hash) in
  pt_Add p p2.

(** [UnmarshalBinary]: /repo/ristretto.go:338-348; success and the receiver after the call *)
Definition pt_UnmarshalBinary (p : Point) (data : list Z) : bool * Point :=
  if negb (Nat.eqb (length data) 32) then (false, p) else pt_SetBytes data.

(** [MarshalBinary]: /repo/ristretto.go:351-355 *)
Definition pt_MarshalBinary (p : Point) : list Z := pt_Bytes p.

(** [MarshalText]: /repo/ristretto.go:357-364 (32 bytes encode to EncodedLen(32) = 43 characters);
    also [String]: /repo/ristretto.go:398-401 *)
Definition pt_MarshalText (p : Point) : list Z := b64_encode (pt_Bytes p).

(** [UnmarshalText]: /repo/ristretto.go:386-396; the receiver after the call *)
Definition pt_UnmarshalText (p : Point) (txt : list Z) : outcome Point :=
  match textToBuf (repeat 0 32) txt with
  | Panic => Panic
  | Fail _ => Fail p
  | Done buf => let '(ok, p) := pt_SetBytes buf in if negb ok then Fail p else Done p
  end.

End Ristretto.

(** Scalar [MarshalText]: /repo/scalar.go:1058-1065; also [String]: /repo/scalar.go:1081-1084 *)
Definition sc_MarshalText (s : sc) : list Z := b64_encode (sc_bytes s).

(** Scalar [UnmarshalText]: /repo/scalar.go:1067-1079; the receiver after the call *)
Definition sc_UnmarshalText (s : sc) (txt : list Z) : outcome sc :=
  match b64_to_buf (repeat 0 32) txt with
  | Panic => Panic
  | Fail _ => Fail s
  | Done buf => Done (sc_setBytes buf)
  end.

(** ** The El'Gamal example: /repo/README.md:15-45 *)
Section ElGamal.
Context (K : FeOps) (base : list (list (niels (fe K)))).

(** /repo/README.md:23-24: the public key *)
Definition eg_publicKey (secretKey : sc) : ext (fe K) := pt_ScalarMultBase K base secretKey.

(** /repo/README.md:33-35: the ciphertext (c1, c2); [None] is a panic *)
Definition eg_encrypt (publicKey p : ext (fe K)) (r : sc) : option (ext (fe K) * ext (fe K)) :=
  let c2 := pt_ScalarMultBase K base r in
  match pt_PublicScalarMult K publicKey r with
  | None => None
  | Some c1 => let c1 := pt_Add K c1 p in Some (c1, c2)
  end.

(** /repo/README.md:39-40 *)
Definition eg_decrypt (secretKey : sc) (c : ext (fe K) * ext (fe K)) : ext (fe K) :=
  let '(c1, c2) := c in
  let blinding := pt_ScalarMult K c2 secretKey in
  pt_Sub K c1 blinding.

End ElGamal.
