(** Model of the remaining methods of [Scalar]: those of /repo/scalar.go that are not
    straight-line arithmetic (which is in ScalarCode.v). *)
From Coq Require Import ZArith List Bool.
From Verif Require Import Words ScalarCode.
Import ListNotations.
Open Scope Z_scope.

(** Go's [==] on [Scalar] values, which are arrays: used by /repo/scalar.go:108 *)
Definition sc_eqb (a b : sc) : bool :=
  match a, b with
  | Sc a0 a1 a2 a3 a4 a5 a6 a7, Sc b0 b1 b2 b3 b4 b5 b6 b7 =>
      (a0 =? b0) && (a1 =? b1) && (a2 =? b2) && (a3 =? b3) && (a4 =? b4) && (a5 =? b5) && (a6 =? b6) && (a7 =? b7)
  end.

(** [Bytes]: /repo/scalar.go:71-75 *)
Definition sc_Bytes (s : sc) : list Z := sc_bytes s.

(** [SetBytesStrict]: /repo/scalar.go:94-114; [s] is the receiver before the call, the
    result is the receiver after the call and the returned flag *)
Definition sc_setBytesStrict (s : sc) (x : list Z) : sc * bool :=
  let t := Sc (load4u32 (skipn 0 x)) (load4u32 (skipn 4 x)) (load4u32 (skipn 8 x)) (load4u32 (skipn 12 x))
              (load4u32 (skipn 16 x)) (load4u32 (skipn 20 x)) (load4u32 (skipn 24 x)) (load4u32 (skipn 28 x)) in
  let r := sc_sub t scL in
  if negb (sc_eqb r t) then (s, false) else (t, true).

(** [Neg]: /repo/scalar.go:117-119 *)
Definition sc_neg (a : sc) : sc := sc_sub scZero a.

(** math/big.Int.SetBytes: value of a big-endian byte string; math/big is not
    modelled further, its integers are [Z] *)
Definition big_SetBytes (s : list Z) : Z := le_val (rev s).

(** math/big.Int.Bytes: the shortest big-endian representation of the absolute value *)
Definition big_Bytes (v : Z) : list Z :=
  rev (le_bytes (if Z.abs v =? 0 then O else S (Z.to_nat (Z.log2 (Z.abs v) / 8))) (Z.abs v)).

(** [BigInt]: /repo/scalar.go:196-204; the loop fills rBuf with buf reversed *)
Definition sc_bigInt (s : sc) : Z := big_SetBytes (map (fun i => at_ (sc_bytes s) (31 - i)) (seq 0 32)).

(** [biL] of /repo/scalar.go:212-213 *)
Definition biL : Z := 0x1000000000000000000000000000000014def9dea2f79cd65812631a5cf5d3ed.

(** [SetBigInt]: /repo/scalar.go:210-220; big.Int.Mod is Euclidean, as [Z.modulo] with a
    positive modulus; rBuf[i] stays 0 when the loop does not reach i *)
Definition sc_setBigInt (x : Z) : sc :=
  let buf := big_Bytes (x mod biL) in
  sc_setBytes (map (fun i => if (i <? length buf)%nat then at_ buf (length buf - i - 1) else 0) (seq 0 32)).

(** [SetUint64]: /repo/scalar.go:223-227; binary.LittleEndian.PutUint64 writes the 8
    little-endian bytes *)
Definition sc_setUint64 (x : Z) : sc := sc_setBytes (le_bytes 8 x ++ repeat 0 24).

(** [Set]: /repo/scalar.go:230-233 *)
Definition sc_set (t : sc) : sc := t.
(** [SetZero]: /repo/scalar.go:236-238 *)
Definition sc_setZero : sc := sc_set scZero.
(** [SetOne]: /repo/scalar.go:241-243 *)
Definition sc_setOne : sc := sc_set scOne.

(** [DeriveShort]: /repo/scalar.go:383-395; SHA-512 is the parameter [sha512] *)
Definition sc_deriveShort (sha512 : list Z -> list Z) (buf : list Z) : sc :=
  let h := sha512 buf in
  Sc (load4u32 (skipn 0 h)) (load4u32 (skipn 4 h)) (load4u32 (skipn 8 h)) (load4u32 (skipn 12 h)) 0 0 0 0.

(** [Derive]: /repo/scalar.go:399-404 *)
Definition sc_derive (sha512 : list Z -> list Z) (buf : list Z) : sc := sc_setReduced (sha512 buf).

(** [Rand]: /repo/scalar.go:703-709, with the bytes read from crypto/rand as argument;
    the panic when no randomness is available is [rd_sc_Rand] in ApiFullModel.v *)
Definition sc_rand (buf : list Z) : sc := sc_setReduced buf.

(** [IsNonZeroI]: /repo/scalar.go:1014-1022 *)
Definition sc_isNonZeroI (s : sc) : Z :=
  match s with Sc s0 s1 s2 s3 s4 s5 s6 s7 =>
    let ret := Z.lor (Z.lor (Z.lor (Z.lor (Z.lor (Z.lor (Z.lor s0 s1) s2) s3) s4) s5) s6) s7 in
    let ret := Z.lor ret (Z.shiftr ret 16) in
    let ret := Z.lor ret (Z.shiftr ret 8) in
    let ret := Z.lor ret (Z.shiftr ret 4) in
    let ret := Z.lor ret (Z.shiftr ret 2) in
    let ret := Z.lor ret (Z.shiftr ret 1) in
    i32 (Z.land ret 1)
  end.

(** [EqualsI]: /repo/scalar.go:1025-1028 *)
Definition sc_equalsI (s a : sc) : Z := i32 (1 - sc_isNonZeroI (sc_sub s a)).

(** [Equals]: /repo/scalar.go:1031-1034 *)
Definition sc_equals (s a : sc) : bool := sc_isNonZeroI (sc_sub s a) =? 0.

(** [UnmarshalBinary]: /repo/scalar.go:1041-1049; the receiver after the call and
    whether the error is nil *)
Definition sc_unmarshalBinary (s : sc) (data : list Z) : sc * bool :=
  if negb (Nat.eqb (length data) 32) then (s, false) else (sc_setBytes data, true).

(** [MarshalBinary]: /repo/scalar.go:1052-1056 *)
Definition sc_marshalBinary (s : sc) : list Z := sc_bytes s.

(** [ConditionalSet]: /repo/scalar.go:1458-1468; the receiver after the call *)
Definition sc_condSet (s t : sc) (b : Z) : sc :=
  match s, t with Sc s0 s1 s2 s3 s4 s5 s6 s7, Sc t0 t1 t2 t3 t4 t5 t6 t7 =>
    let m := u32 (i32 (- b)) in
    Sc (Z.lxor s0 (Z.land m (Z.lxor s0 t0))) (Z.lxor s1 (Z.land m (Z.lxor s1 t1)))
       (Z.lxor s2 (Z.land m (Z.lxor s2 t2))) (Z.lxor s3 (Z.land m (Z.lxor s3 t3)))
       (Z.lxor s4 (Z.land m (Z.lxor s4 t4))) (Z.lxor s5 (Z.land m (Z.lxor s5 t5)))
       (Z.lxor s6 (Z.land m (Z.lxor s6 t6))) (Z.lxor s7 (Z.land m (Z.lxor s7 t7)))
  end.
