(** A small imperative language for the pointer-taking methods of /repo, with a semantics that
    records every memory access and every branch.

    Memory is divided into blocks (one per Go variable: a Scalar, a FieldElement, a Point, a
    local, ...) of cells; a program refers to blocks by names, and a map [sg] from names to
    blocks says which of its parameters are the same variable.  Cells hold values of a type
    [V]: machine words for the limb arithmetic, field elements for the code above it.  The
    programs in this language are in the files Go*Code.v. *)
From Coq Require Import Arith List Lia Bool String.
Import ListNotations.

Section Lang.
(** [V]: contents of a cell; [E]: events that happen inside an operation. *)
Context {V E : Type}.

(** index expressions: constants, loop counters, and the contents of a cell *)
Inductive ix : Type :=
| C (n : nat)
| Ctr (x : nat)
| Plus (i j : ix)
| Minus (i j : ix)
| Times (n : nat) (i : ix)
| Half (i : ix)
| Data (f : V -> nat) (a : nat) (i : ix).

(** a cell of the block named [fst] *)
Definition place : Type := (nat * ix)%type.

Inductive stmt : Type :=
| Skip
| Seq (s1 s2 : stmt)
(** assign [f] of the loop counters and the contents of [args] to [d]; [tag] names the operation *)
| Do (tag : string) (f : (nat -> nat) -> list V -> V) (d : place) (args : list place)
| Do2 (tag : string) (f : (nat -> nat) -> list V -> V * V) (d1 d2 : place) (args : list place)
(** the same with any number of results, stored one after the other *)
| DoN (tag : string) (f : (nat -> nat) -> list V -> nat -> V) (ds args : list place)
(** for x := 0; x < n; x++ *)
| For (x n : nat) (body : stmt)
| If (c : list V -> bool) (args : list place) (s1 s2 : stmt)
(** at most [fuel] rounds *)
| While (fuel : nat) (c : list V -> bool) (args : list place) (body : stmt).

(** the cell [k] places after [p]; element [e] of the array at [p] with elements of [size] cells *)
Definition off (p : place) (k : nat) : place :=
  (fst p, match k, snd p with O, e => e | _, C j => C (j + k) | _, e => Plus e (C k) end).
Definition elt (p : place) (size : nat) (e : ix) : place :=
  (fst p, match snd p, e with
          | C j, C i => C (j + size * i)
          | C 0, e => Times size e
          | b, e => Plus b (Times size e)
          end).
Definition prog (l : list stmt) : stmt := fold_right Seq Skip l.

Inductive event : Type :=
| Read (b i : nat)
| Write (b i : nat)
| Branch (taken : bool)
| Inside (tag : string) (e : E).

Definition mem : Type := nat -> nat -> V.
Definition upd (m : mem) (b i : nat) (v : V) : mem :=
  fun b' i' => if (Nat.eqb b' b && Nat.eqb i' i)%bool then v else m b' i'.
Definition setk (rho : nat -> nat) (x n : nat) : nat -> nat := fun y => if Nat.eqb y x then n else rho y.

Section Exec.
(** [sub tag vs]: what happens inside the operation [tag] on the values [vs]; [sg]: the block of each name *)
Context (sub : string -> list V -> list E) (sg : nat -> nat).

Fixpoint ixv (rho : nat -> nat) (m : mem) (e : ix) : nat * list event :=
  match e with
  | C n => (n, [])
  | Ctr x => (rho x, [])
  | Plus i j => let (a, t) := ixv rho m i in let (b, u) := ixv rho m j in (a + b, t ++ u)
  | Minus i j => let (a, t) := ixv rho m i in let (b, u) := ixv rho m j in (a - b, t ++ u)
  | Times n i => let (a, t) := ixv rho m i in (n * a, t)
  | Half i => let (a, t) := ixv rho m i in (Nat.div2 a, t)
  | Data f a i => let (n, t) := ixv rho m i in (f (m (sg a) n), t ++ [Read (sg a) n])
  end.

Definition fetch (rho : nat -> nat) (m : mem) (p : place) : V * list event :=
  let (n, t) := ixv rho m (snd p) in (m (sg (fst p)) n, t ++ [Read (sg (fst p)) n]).

Fixpoint fetches (rho : nat -> nat) (m : mem) (ps : list place) : list V * list event :=
  match ps with
  | [] => ([], [])
  | p :: ps => let (v, t) := fetch rho m p in let (vs, u) := fetches rho m ps in (v :: vs, t ++ u)
  end.

Definition store (rho : nat -> nat) (m : mem) (p : place) (v : V) : mem * list event :=
  let (n, t) := ixv rho m (snd p) in (upd m (sg (fst p)) n v, t ++ [Write (sg (fst p)) n]).

Fixpoint stores (rho : nat -> nat) (m : mem) (ds : list place) (k : nat) (g : nat -> V) : mem * list event :=
  match ds with
  | [] => (m, [])
  | d :: ds => let (m1, t) := store rho m d (g k) in let (m2, u) := stores rho m1 ds (S k) g in (m2, t ++ u)
  end.

Fixpoint exec (rho : nat -> nat) (s : stmt) (m : mem) {struct s} : mem * list event :=
  match s with
  | Skip => (m, [])
  | Seq s1 s2 => let (m1, t1) := exec rho s1 m in let (m2, t2) := exec rho s2 m1 in (m2, t1 ++ t2)
  | Do tag f d args =>
      let (vs, t) := fetches rho m args in
      let (m1, u) := store rho m d (f rho vs) in
      (m1, t ++ map (Inside tag) (sub tag vs) ++ u)
  | Do2 tag f d1 d2 args =>
      let (vs, t) := fetches rho m args in
      let (v1, v2) := f rho vs in
      let (m1, u1) := store rho m d1 v1 in
      let (m2, u2) := store rho m1 d2 v2 in
      (m2, t ++ map (Inside tag) (sub tag vs) ++ u1 ++ u2)
  | DoN tag f ds args =>
      let (vs, t) := fetches rho m args in
      let (m1, u) := stores rho m ds 0 (f rho vs) in
      (m1, t ++ map (Inside tag) (sub tag vs) ++ u)
  | For x n body =>
      let (m1, t1) :=
        (fix go (k : nat) (m : mem) : mem * list event :=
           match k with
           | O => (m, [])
           | S k => let (m1, t1) := go k m in
                    let (m2, t2) := exec (setk rho x k) body m1 in (m2, t1 ++ Branch true :: t2)
           end) n m in
      (m1, t1 ++ [Branch false])
  | If c args s1 s2 =>
      let (vs, t) := fetches rho m args in
      let (m1, u) := if c vs then exec rho s1 m else exec rho s2 m in
      (m1, t ++ Branch (c vs) :: u)
  | While fuel c args body =>
      (fix go (k : nat) (m : mem) : mem * list event :=
         match k with
         | O => (m, [])
         | S k => let (vs, t) := fetches rho m args in
                  if c vs then
                    let (m1, t1) := exec rho body m in
                    let (m2, t2) := go k m1 in (m2, t ++ Branch true :: t1 ++ t2)
                  else (m, t ++ [Branch false])
         end) fuel m
  end.

Definition final (rho : nat -> nat) (s : stmt) (m : mem) : mem := fst (exec rho s m).
Definition trace (rho : nat -> nat) (s : stmt) (m : mem) : list event := snd (exec rho s m).
End Exec.

(** ** Programs without secret-dependent control flow or addresses *)

Fixpoint ct_ix (e : ix) : bool :=
  match e with
  | C _ | Ctr _ => true
  | Plus i j | Minus i j => ct_ix i && ct_ix j
  | Times _ i | Half i => ct_ix i
  | Data _ _ _ => false
  end.

Fixpoint ct (s : stmt) : bool :=
  match s with
  | Skip => true
  | Seq s1 s2 => ct s1 && ct s2
  | Do _ _ d args => ct_ix (snd d) && forallb (fun p => ct_ix (snd p)) args
  | Do2 _ _ d1 d2 args => ct_ix (snd d1) && ct_ix (snd d2) && forallb (fun p => ct_ix (snd p)) args
  | DoN _ _ ds args => forallb (fun p => ct_ix (snd p)) ds && forallb (fun p => ct_ix (snd p)) args
  | For _ _ body => ct body
  | If _ _ _ _ => false
  | While _ _ _ _ => false
  end.

(** the cells a program writes, given its loop counters *)
Fixpoint ixc (rho : nat -> nat) (e : ix) : nat :=
  match e with
  | C n => n
  | Ctr x => rho x
  | Plus i j => ixc rho i + ixc rho j
  | Minus i j => ixc rho i - ixc rho j
  | Times n i => n * ixc rho i
  | Half i => Nat.div2 (ixc rho i)
  | Data _ _ _ => 0
  end.
Fixpoint wcells (rho : nat -> nat) (s : stmt) : list (nat * nat) :=
  match s with
  | Skip => []
  | Seq s1 s2 => wcells rho s1 ++ wcells rho s2
  | Do _ _ d _ => [(fst d, ixc rho (snd d))]
  | Do2 _ _ d1 d2 _ => [(fst d1, ixc rho (snd d1)); (fst d2, ixc rho (snd d2))]
  | DoN _ _ ds _ => map (fun d => (fst d, ixc rho (snd d))) ds
  | For x n body => flat_map (fun k => wcells (setk rho x k) body) (seq 0 n)
  | If _ _ s1 s2 => wcells rho s1 ++ wcells rho s2
  | While _ _ _ body => wcells rho body
  end.
(** the names a program writes *)
Fixpoint wnames (s : stmt) : list nat :=
  match s with
  | Skip => []
  | Seq s1 s2 => wnames s1 ++ wnames s2
  | Do _ _ d _ => [fst d]
  | Do2 _ _ d1 d2 _ => [fst d1; fst d2]
  | DoN _ _ ds _ => map fst ds
  | For x n body => wnames body
  | If _ _ s1 s2 => wnames s1 ++ wnames s2
  | While _ _ _ body => wnames body
  end.

(** no counters set, nothing inside the operations *)
Definition rho0 : nat -> nat := fun _ => 0.
Definition nosub : string -> list V -> list Empty_set := fun _ _ => [].

(** ** Programs for which aliasing of parameters does not matter *)

(** Name 0 is the receiver, names 1 .. L-1 are the other parameters, names from [L] on are local. *)
Section Alias.
Context (L : nat).

Definition is_local (a : nat) : bool := L <=? a.
Definition is_param (a : nat) : bool := negb (Nat.eqb a 0) && negb (is_local a).

(** reading cell [e] of [a] is allowed unless [a] is a parameter and that cell of the receiver
    may have been written before ([W]: the indices written so far) *)
Definition rd_cell (W : list nat) (a : nat) (e : ix) : bool :=
  negb (is_param a) ||
  match W with [] => true | _ => match e with C n => negb (existsb (Nat.eqb n) W) | _ => false end end.

Fixpoint rd_ix (W : list nat) (e : ix) : bool :=
  match e with
  | C _ | Ctr _ => true
  | Plus i j | Minus i j => rd_ix W i && rd_ix W j
  | Times _ i | Half i => rd_ix W i
  | Data _ a i => rd_ix W i && rd_cell W a i
  end.

Definition rd (W : list nat) (p : place) : bool := rd_ix W (snd p) && rd_cell W (fst p) (snd p).

(** writing is allowed to locals and to constant indices of the receiver *)
Definition wr (W : list nat) (p : place) : bool :=
  rd_ix W (snd p) &&
  (is_local (fst p) || (Nat.eqb (fst p) 0 && match snd p with C _ => true | _ => false end)).

(** the receiver indices a program writes *)
Definition wplace (p : place) : list nat :=
  if is_local (fst p) then [] else match snd p with C n => [n] | _ => [] end.
Fixpoint writes (s : stmt) : list nat :=
  match s with
  | Skip => []
  | Seq s1 s2 => writes s1 ++ writes s2
  | Do _ _ d _ => wplace d
  | Do2 _ _ d1 d2 _ => wplace d1 ++ wplace d2
  | DoN _ _ ds _ => flat_map wplace ds
  | For _ _ body => writes body
  | If _ _ s1 s2 => writes s1 ++ writes s2
  | While _ _ _ body => writes body
  end.

Fixpoint wrs (W : list nat) (ds : list place) : bool :=
  match ds with [] => true | d :: ds => wr W d && wrs (W ++ wplace d) ds end.

(** no parameter cell is read after the receiver's cell of the same index was written *)
Fixpoint alias_ok (W : list nat) (s : stmt) : bool :=
  match s with
  | Skip => true
  | Seq s1 s2 => alias_ok W s1 && alias_ok (W ++ writes s1) s2
  | Do _ _ d args => forallb (rd W) args && wr W d
  | Do2 _ _ d1 d2 args => forallb (rd W) args && wr W d1 && wr (W ++ wplace d1) d2
  | DoN _ _ ds args => forallb (rd W) args && wrs W ds
  | For _ _ body => alias_ok (W ++ writes body) body
  | If _ args s1 s2 => forallb (rd W) args && alias_ok W s1 && alias_ok W s2
  | While _ _ args body => forallb (rd (W ++ writes body)) args && alias_ok (W ++ writes body) body
  end.

(** every local variable is a block of its own *)
Definition fresh_locals (sg : nat -> nat) : Prop := forall a b, L <= a -> sg a = sg b -> a = b.
(** every block but that of the receiver and those of the locals has the same contents *)
Definition others_same (sg : nat -> nat) (m m' : mem) : Prop :=
  forall b i, b <> sg 0 -> (forall a, L <= a -> sg a <> b) -> m' b i = m b i.
End Alias.
End Lang.
Arguments ix : clear implicits.
Arguments place : clear implicits.
Arguments stmt : clear implicits.
Arguments event : clear implicits.
Arguments mem : clear implicits.
