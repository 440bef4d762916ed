(** A memory for the functions of /repo/cref/cref.c that work on pointers to field elements and points.

    An address is a number and holds one [fe25519] (/repo/cref/cref.h:13-17); a [group_ge], [ge25519_p1p1], ... is as many
    consecutive field elements as it has members, in the order of the declaration (/repo/cref/cref.h:124-130,
    /repo/cref/cref.c:2027-2048).  A function gets the first free address [n]; its locals start there. *)
From Coq Require Import ZArith List.
From Verif Require Import Words CLang Fe25Code CrefFeCode CrefFe.
Open Scope Z_scope.

Definition cmem : Type := nat -> fe25.
(** an assignment to the field element at [d] *)
Definition st (m : cmem) (d : nat) (v : fe25) : cmem := fun a => if Nat.eqb a d then v else m a.

(** the structures at an address *)
Definition ge_at (m : cmem) (a : nat) : ge := Ge (m (a + 0)%nat) (m (a + 1)%nat) (m (a + 2)%nat) (m (a + 3)%nat).
Definition aff_in (m : cmem) (a : nat) : aff := Aff (m (a + 0)%nat) (m (a + 1)%nat).
Definition p2_at (m : cmem) (a : nat) : p2 := P2 (m (a + 0)%nat) (m (a + 1)%nat) (m (a + 2)%nat).
Definition p1p1_at (m : cmem) (a : nat) : p1p1 := P1p1 (m (a + 0)%nat) (m (a + 1)%nat) (m (a + 2)%nat) (m (a + 3)%nat).

(** assignments of whole structures *)
Definition st_ge (m : cmem) (a : nat) (v : ge) : cmem :=
  let '(Ge x y z t) := v in st (st (st (st m (a + 0)%nat x) (a + 1)%nat y) (a + 2)%nat z) (a + 3)%nat t.

(** a loop that runs [n] times *)
Fixpoint iter_o {A : Type} (n : nat) (f : A -> option A) (x : A) : option A :=
  match n with O => Some x | S k => let* y := f x in iter_o k f y end.
