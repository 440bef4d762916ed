(** Straight-line C code on fixed-size integers, with undefined behaviour.

    Models the fragment of C in which /repo/cref/cref.c:618-1114,1343-1460,1833-1974 is written: local variables of integer type,
    each assigned once per line, and the operators + - * - (unary) << >> & |.  The translator (tools/c2coq.py) applies the
    integer promotions and usual arithmetic conversions, so that every operation carries the type it is performed in. *)
From Coq Require Import ZArith List Bool.
From Verif Require Import Words.
Import ListNotations.
Open Scope Z_scope.

Inductive cty := I32 | I64 | U8 | U32 | U64.

Definition lo (t : cty) : Z :=
  match t with I32 => -2147483648 | I64 => -9223372036854775808 | _ => 0 end.
Definition hi (t : cty) : Z :=
  match t with I32 => 2147483647 | I64 => 9223372036854775807 | U8 => 255 | U32 => 4294967295 | U64 => 18446744073709551615 end.
Definition fits_ty (t : cty) (z : Z) : bool := (lo t <=? z) && (z <=? hi t).
Definition wrap (t : cty) (z : Z) : Z :=
  match t with I32 => i32 z | I64 => i64 z | U8 => u8 z | U32 => u32 z | U64 => u64 z end.
Definition signed (t : cty) : bool := match t with I32 | I64 => true | _ => false end.

Inductive cop := Add | Sub | Mul | And | Or.

(** Variables are numbered in the order of their assignments, parameters first; a second assignment to a C variable makes
    a new number. *)
Inductive cex :=
| Var (n : nat)
| Cst (z : Z)
| Bin (o : cop) (t : cty) (a b : cex)
| Opp (t : cty) (a : cex)
| Shl (t : cty) (a : cex) (k : Z)
| Shr (t : cty) (a : cex) (k : Z)
| Cast (t : cty) (a : cex).

Definition op (o : cop) (x y : Z) : Z :=
  match o with Add => x + y | Sub => x - y | Mul => x * y | And => Z.land x y | Or => Z.lor x y end.

(** The result of an arithmetic operation performed in type [t]: unsigned types wrap, a signed result that is not
    representable is undefined behaviour (C11 6.5p5, 6.2.5p9). *)
Definition arith (t : cty) (z : Z) : option Z :=
  if signed t then if fits_ty t z then Some z else None else Some (wrap t z).

(** [strict] is ISO C11, where a left shift of a negative value, or one whose result is not representable in a signed
    type, is undefined (6.5.7p4).  GCC defines both: the bits are shifted and the excess ones dropped.  A right shift of a negative value rounds down, and a conversion to a signed type that does not fit
    wraps; both are implementation-defined in C11 (6.5.7p5, 6.3.1.3p3) and documented so by GCC and Clang. *)
Fixpoint ceval (strict : bool) (env : list Z) (e : cex) : option Z :=
  match e with
  | Var n => nth_error env n
  | Cst z => Some z
  | Bin o t a b =>
    match ceval strict env a, ceval strict env b with Some x, Some y => arith t (op o x y) | _, _ => None end
  | Opp t a => match ceval strict env a with Some x => arith t (- x) | None => None end
  | Shl t a k =>
    match ceval strict env a with
    | Some x => if strict && signed t && ((x <? 0) || negb (fits_ty t (Z.shiftl x k))) then None else Some (wrap t (Z.shiftl x k))
    | None => None end
  | Shr t a k => match ceval strict env a with Some x => Some (Z.shiftr x k) | None => None end
  | Cast t a => match ceval strict env a with Some x => Some (wrap t x) | None => None end
  end.

(** A list of assignments, then the variables that hold the result. *)
Fixpoint crun (strict : bool) (env : list Z) (body : list cex) : option (list Z) :=
  match body with
  | [] => Some env
  | e :: r => match ceval strict env e with Some x => crun strict (env ++ [x]) r | None => None end
  end.

Fixpoint reads (env : list Z) (outs : list nat) : option (list Z) :=
  match outs with
  | [] => Some []
  | n :: r => match nth_error env n, reads env r with Some x, Some l => Some (x :: l) | _, _ => None end
  end.

Record cfun := CFun { cbody : list cex; couts : list nat }.

Definition ccall (strict : bool) (f : cfun) (args : list Z) : option (list Z) :=
  match crun strict args (cbody f) with Some env => reads env (couts f) | None => None end.
