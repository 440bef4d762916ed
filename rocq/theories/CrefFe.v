(** The field element functions of /repo/cref/cref.c: calls of the programs of CrefFeCode.v, and the short functions that
    loop over limbs or bytes.  [None] is undefined behaviour. *)
From Coq Require Import ZArith List.
From Verif Require Import Words CLang Fe25Code CrefFeCode.
Import ListNotations.
Open Scope Z_scope.

Notation "'let*' x := e 'in' k" := (match e with Some x => k | None => None end)
  (at level 200, x pattern, e at level 200, k at level 200, right associativity).

(** [fe25519] is [crypto_int32 v[10]] (/repo/cref/cref.h:13-17), the same type as FieldElement of the generic Go code. *)
Definition limbs_of (x : fe25) : list Z :=
  match x with Fe25 a b c d e f g h i j => [a; b; c; d; e; f; g; h; i; j] end.
Definition of_limbs (l : list Z) : option fe25 :=
  match l with [a; b; c; d; e; f; g; h; i; j] => Some (Fe25 a b c d e f g h i j) | _ => None end.

Definition call1 (p : cfun) (x : fe25) : option fe25 := let* l := ccall false p (limbs_of x) in of_limbs l.
Definition call2 (p : cfun) (x y : fe25) : option fe25 := let* l := ccall false p (limbs_of x ++ limbs_of y) in of_limbs l.

(** /repo/cref/cref.c:640-685, 713-804, 919-951, 971-1013, 1037-1079, 1114-1331, 1343-1473, 1833-1974 *)
Definition c_unpack (s : list Z) : option fe25 := let* l := ccall false p_unpack s in of_limbs l.
Definition c_pack (x : fe25) : option (list Z) := ccall false p_pack (limbs_of x).
Definition c_neg (x : fe25) : option fe25 := call1 p_neg x.
Definition c_add (x y : fe25) : option fe25 := call2 p_add x y.
Definition c_sub (x y : fe25) : option fe25 := call2 p_sub x y.
Definition c_mul (x y : fe25) : option fe25 := call2 p_mul x y.
Definition c_square (x : fe25) : option fe25 := call1 p_square x.
Definition c_square_double (x : fe25) : option fe25 := call1 p_square_double x.

(** [fe25519_double], [fe25519_triple]: /repo/cref/cref.c:1016-1023 *)
Definition c_double (x : fe25) : option fe25 := c_add x x.
Definition c_triple (x : fe25) : option fe25 := let* r := c_add x x in c_add r x.

(** [fe25519_c_static_equal]: /repo/cref/cref.c:610-616 *)
Definition c_static_equal (a b : Z) : Z := Z.shiftr (u32 (Z.lxor a b - 1)) 31.

(** [fe25519_iszero]: /repo/cref/cref.c:815-823.  [1 - ...] is computed in unsigned int and converted to int by [|=]. *)
Definition c_iszero (f : fe25) : option Z :=
  let* s := c_pack f in
  Some (1 - fold_left (fun r b => Z.lor r (i32 (u32 (1 - c_static_equal 0 b)))) s 0).

(** [fe25519_iseq]: /repo/cref/cref.c:845-850; [fe25519_isone]: 825-828; [fe25519_isnegative]: 838-843 *)
Definition c_iseq (x y : fe25) : option Z := let* t := c_sub x y in c_iszero t.
Definition c_isone (x : fe25) : option Z := c_iseq x c_one.
Definition c_isnegative (f : fe25) : option Z := let* s := c_pack f in Some (Z.land (nth 0 s 0) 1).

(** [fe25519_cmov]: /repo/cref/cref.c:863-869.  The parameter b has type unsigned char; [mask] is unsigned int, so the
    operators & and ^ are computed in unsigned int and the assignment converts back to int. *)
Definition c_cmov_limb (mask r x : Z) : Z := i32 (Z.lxor (u32 r) (Z.land mask (u32 (Z.lxor x r)))).
Definition c_cmov (r x : fe25) (b : Z) : fe25 :=
  let mask := u32 (- u8 b) in
  match r, x with Fe25 r0 r1 r2 r3 r4 r5 r6 r7 r8 r9, Fe25 x0 x1 x2 x3 x4 x5 x6 x7 x8 x9 =>
    Fe25 (c_cmov_limb mask r0 x0) (c_cmov_limb mask r1 x1) (c_cmov_limb mask r2 x2) (c_cmov_limb mask r3 x3) (c_cmov_limb mask r4 x4)
         (c_cmov_limb mask r5 x5) (c_cmov_limb mask r6 x6) (c_cmov_limb mask r7 x7) (c_cmov_limb mask r8 x8) (c_cmov_limb mask r9 x9)
  end.

(** [for (i = 1; i < n + 1; ++i) x = f(x)]: the loops of /repo/cref/cref.c:1476-1817 *)
Fixpoint c_iter (n : nat) (f : fe25 -> option fe25) (x : fe25) : option fe25 :=
  match n with O => Some x | S m => let* y := f x in c_iter m f y end.

(** [group_ge]: /repo/cref/cref.h:124-130; [ge25519_p1p1], [ge25519_p2], [ge25519_aff]: /repo/cref/cref.c:2029-2048 *)
Inductive ge := Ge (x y z t : fe25).
Inductive p1p1 := P1p1 (x z y t : fe25).
Inductive p2 := P2 (x y z : fe25).
Inductive aff := Aff (x y : fe25).
