(** Property C68: sequences of calls of the exported methods of FieldElement.

    [q_run], [q_init], [q_typed] (FieldApiModel.v): the calls of a program one after the other, from variables whose limbs are all 0, with what
    the caller sees of each; SetBytes has an array of 32 bytes.  [z_run] (FieldApiSpec.v): the same program on integers modulo p.
    [z_square a]: [a] is a square modulo p.  [number], [digit] (StringFacts.v) read decimal numbers.  [limbs b 2], [value b]
    (Backends.v): the limbs are at most twice those of a product; the number that they stand for. *)
From Coq Require Import ZArith List Lia Bool.
From Verif Require Import Words Primes FieldModel StringFacts Backends FieldApiModel FieldApiSpec FieldApiProofs FieldApi.
Import ListNotations.
Open Scope Z_scope.

(** Every program, on every build: what the caller sees is what the calculator modulo p computes, for one choice of roots; and all
    variables keep small limbs, whatever the order of the calls. *)
Theorem C68_run : exists im inv isr isri flag dec,
  (0 <= im < p /\ (im * im) mod p = p - 1 /\ Z.even im = true) /\
  (forall a, 0 <= a < p -> 0 <= inv a < p /\ (a <> 0 -> (inv a * a) mod p = 1) /\ (a = 0 -> inv a = 0)) /\
  (forall a, 0 <= a < p -> 0 <= isr a < p /\ (a = 0 -> isr a = 0) /\ (a <> 0 -> ((isr a * isr a * a) mod p = 1 <-> z_square a))) /\
  (forall a, 0 <= a < p -> 0 <= isri a < p /\ (flag a = true <-> a <> 0 /\ z_square a) /\ (a = 0 -> isri a = 0) /\
    (a <> 0 -> z_square a -> (isri a * isri a * a) mod p = 1) /\
    (a <> 0 -> ~ z_square a -> (isri a * isri a * ((im * a) mod p)) mod p = 1)) /\
  (forall a, 0 <= a < p -> number (dec a) = a /\ Forall digit (dec a) /\ ((a = 0 /\ dec a = [48]) \/ exists c r, dec a = c :: r /\ c <> 48)) /\
  forall b prog, Forall q_typed prog ->
    fst (q_run (ops b) prog (q_init (ops b))) = fst (z_run im inv isr isri flag dec prog (fun _ => 0)) /\
    forall i, limbs b 2 (snd (q_run (ops b) prog (q_init (ops b))) i) /\
      value b (snd (q_run (ops b) prog (q_init (ops b))) i) mod p = snd (z_run im inv isr isri flag dec prog (fun _ => 0)) i.
Proof. exact q_all. Qed.
Print Assumptions C68_run.

(** The builds give the same results. *)
Theorem C68_same : forall b c prog, Forall q_typed prog ->
  fst (q_run (ops b) prog (q_init (ops b))) = fst (q_run (ops c) prog (q_init (ops c))).
Proof. exact q_same. Qed.
Print Assumptions C68_same.

Example C68_case : Forall q_typed q_prog /\ forall b, fst (q_run (ops b) q_prog (q_init (ops b))) = q_seen.
Proof. exact q_case. Qed.
