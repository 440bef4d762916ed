(** The field operations of /repo/cref/cref.c on a memory of limbs, with any overlap of arguments and result.

    CrefFe.v gives a program of CrefFeCode.v the values of its arguments at the call.  Here a line that mentions a limb of an
    argument reads it from the memory when the line is executed, and a line that assigns a limb of the result writes it to the
    memory at once: a function that reads an argument after it has begun to write would see its own output. *)
From Coq Require Import ZArith List Bool.
From Verif Require Import Words ScalarCode FieldModel CLang Fe25Code CrefFeCode CrefFe CrefPtr CrefScalar.
Import ListNotations.
Open Scope Z_scope.

(** an address is a number and holds one [crypto_int32] (/repo/cref/cref.h:13-17) *)
Definition lmem : Type := nat -> Z.
Definition lst (m : lmem) (a : nat) (v : Z) : lmem := fun b => if Nat.eqb b a then v else m b.

(** the assignment numbered [k] writes to the memory if it is one of [outs] *)
Fixpoint lwrite (outs oa : list nat) (k : nat) (v : Z) (m : lmem) : lmem :=
  match outs, oa with
  | o :: outs, a :: oa => if Nat.eqb o k then lst m a v else lwrite outs oa k v m
  | _, _ => m
  end.

(** The statements of a function called with its arguments at the addresses [ia] and its result at [oa].  [loc] are the
    local variables assigned so far. *)
Fixpoint lrun (strict : bool) (ia oa outs : list nat) (body : list cex) (loc : list Z) (m : lmem) : option lmem :=
  match body with
  | [] => Some m
  | e :: r =>
    match ceval strict (map m ia ++ loc) e with
    | Some v => lrun strict ia oa outs r (loc ++ [v]) (lwrite outs oa (length ia + length loc) v m)
    | None => None
    end
  end.
Definition lcall (strict : bool) (f : cfun) (ia oa : list nat) (m : lmem) : option lmem :=
  lrun strict ia oa (couts f) (cbody f) [] m.

(** the ten limbs of the field element at [a] *)
Definition limb_addrs (a : nat) : list nat := map (fun i => (10 * a + i)%nat) (seq 0 10).
(** the field elements of a memory of limbs *)
Definition cells (m : lmem) : cmem := fun a =>
  Fe25 (m (10 * a + 0)%nat) (m (10 * a + 1)%nat) (m (10 * a + 2)%nat) (m (10 * a + 3)%nat) (m (10 * a + 4)%nat)
       (m (10 * a + 5)%nat) (m (10 * a + 6)%nat) (m (10 * a + 7)%nat) (m (10 * a + 8)%nat) (m (10 * a + 9)%nat).

(** the calls [f(h, f)] and [f(h, f, g)] *)
Definition lcall1 (p : cfun) (h f : nat) (m : lmem) : option lmem := lcall false p (limb_addrs f) (limb_addrs h) m.
Definition lcall2 (p : cfun) (h f g : nat) (m : lmem) : option lmem := lcall false p (limb_addrs f ++ limb_addrs g) (limb_addrs h) m.

(** [fe25519_cmov], limb after limb: /repo/cref/cref.c:863-869 *)
Definition l_cmov (r x : nat) (b : Z) (m : lmem) : lmem :=
  let mask := u32 (- u8 b) in
  fold_left (fun m i => lst m (10 * r + i) (c_cmov_limb mask (m (10 * r + i)%nat) (m (10 * x + i)%nat))) (seq 0 10) m.

(** The scalar at [a]: [uint32_t v[32]], /repo/cref/cref.h:84-88 *)
Definition sc_at (m : lmem) (a : nat) : list Z := map (fun i => m (32 * a + i)%nat) (seq 0 32).
(** [group_scalar_add], its first loop entry after entry; what follows works on [r] alone: /repo/cref/cref.c:141-152 *)
Definition l_scalar_add (r x y : nat) (m : lmem) : lmem :=
  let m := fold_left (fun m i => lst m (32 * r + i) (u32 (m (32 * x + i)%nat + m (32 * y + i)%nat))) (seq 0 32) m in
  let v := reduce_add_sub (for_up 31 carry_step (sc_at m r)) in
  fold_left (fun m i => lst m (32 * r + i) (at_ v i)) (seq 0 32) m.
