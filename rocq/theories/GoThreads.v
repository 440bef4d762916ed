(** Concurrent calls: the programs of GoLang.v as threads on one memory.

    A step of a thread is one assignment (one call of a method of the field backend, or one
    assignment to a word or limb): a statement [Do], [Do2] or [DoN], with its loop counters.
    [interleaving ts tr]: [tr] is an order in which the threads [ts] may take their steps. *)
From Coq Require Import Arith List Bool String.
From Verif Require Import GoLang.
Import ListNotations.

Section Threads.
Context {V : Type}.

(** the assignments a program makes, in order, with the loop counters of each ([If] and [While],
    which programs with [ct] do not have, are left whole) *)
Fixpoint steps_of (rho : nat -> nat) (s : stmt V) : list ((nat -> nat) * stmt V) :=
  match s with
  | Skip => []
  | Seq s1 s2 => steps_of rho s1 ++ steps_of rho s2
  | For x n body => flat_map (fun k => steps_of (setk rho x k) body) (seq 0 n)
  | _ => [(rho, s)]
  end.

(** a step as a change of the memory *)
Definition step (sg : nat -> nat) (a : (nat -> nat) * stmt V) : mem V -> mem V :=
  final (E := Empty_set) nosub sg (fst a) (snd a).

(** a call of the program [snd] with variables [fst] *)
Definition call : Type := ((nat -> nat) * stmt V)%type.
Definition thread (c : call) : list (mem V -> mem V) := map (step (fst c)) (steps_of rho0 (snd c)).
Definition run_steps (tr : list (mem V -> mem V)) (m : mem V) : mem V := fold_left (fun m f => f m) tr m.

Fixpoint replace {A : Type} (l : list A) (i : nat) (x : A) : list A :=
  match l, i with [], _ => [] | _ :: l, O => x :: l | a :: l, S i => a :: replace l i x end.

Inductive interleaving {A : Type} : list (list A) -> list A -> Prop :=
| il_done ts : Forall (eq []) ts -> interleaving ts []
| il_step ts i a t tr : nth_error ts i = Some (a :: t) -> interleaving (replace ts i t) tr -> interleaving ts (a :: tr).
End Threads.
Arguments call : clear implicits.

(** The 64-bit backends do not write the receiver of IsNegativeI and IsNonZeroI; the statement [iot]
    of GoCurveCode.v, which is for all backends, does, with the value it has.  This leaves that
    write out: /repo/edwards25519/field.go:121-142, field_radix51.go:213-254. *)
Fixpoint readonly_tests {V : Type} (s : stmt V) : stmt V :=
  match s with
  | Seq s1 s2 => Seq (readonly_tests s1) (readonly_tests s2)
  | Do2 tag f d1 d2 args =>
      if (String.eqb tag "IsNegativeI" || String.eqb tag "IsNonZeroI")%bool
      then Do tag (fun rho vs => fst (f rho vs)) d1 args else s
  | For x n body => For x n (readonly_tests body)
  | If c args s1 s2 => If c args (readonly_tests s1) (readonly_tests s2)
  | While n c args body => While n c args (readonly_tests body)
  | s => s
  end.
