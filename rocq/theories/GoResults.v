(** Which variables the methods of GoSecret.v and GoTrace.v give their results in.

    Names as there: parameters are 0, 1, .. in the order of the programs, then the locals. *)
From Coq Require Import ZArith List String Bool.
From Verif Require Import FieldModel GoLang GoLimbCode GoLimbTests GoInverseCode GoTrace GoSecret GoThreads.
Import ListNotations.
Open Scope string_scope.
Open Scope nat_scope.

(** [results]: the result parameters; [params]: the number of parameters *)
Record sig := Sig { results : list nat; params : nat }.
(** variables a call may write: its results and its own locals *)
Definition writable (g : sig) (a : nat) : Prop := In a (results g) \/ params g <= a.

(** /repo/ristretto.go:98-414, edwards25519/curve.go, table.go, elligator.go, field.go: the receiver,
    except that BytesInto has its argument, SetBytes also a bool, EqualsI an int32, and
    RistrettoElligator2Inverse an array and a mask. *)
Definition point_sigs : list (string * sig) :=
  [("Point.Set", Sig [0] 2); ("Point.Add", Sig [0] 3); ("Point.Double", Sig [0] 2); ("Point.Sub", Sig [0] 3); ("Point.Neg", Sig [0] 2);
   ("Point.BytesInto", Sig [1] 2); ("Point.SetBytes", Sig [0; 2] 3); ("Point.SetElligator", Sig [0] 2);
   ("Point.ScalarMult", Sig [0] 3); ("Point.ScalarMultTable", Sig [0] 3); ("Point.EqualsI", Sig [2] 3); ("Point.ConditionalSet", Sig [0] 3);
   ("ScalarMultTable.Compute", Sig [0] 2); ("ExtendedPoint.RistrettoElligator2Inverse", Sig [1; 2] 3);
   ("FieldElement.Add", Sig [0] 3); ("FieldElement.Sub", Sig [0] 3); ("FieldElement.Inverse", Sig [0] 2); ("FieldElement.Abs", Sig [0] 2);
   ("FieldElement.Exp22523", Sig [0] 2); ("FieldElement.InvSqrt", Sig [0] 2); ("FieldElement.Sqrt", Sig [0] 2); ("FieldElement.InvSqrtI", Sig [0; 2] 3)].
(** Methods that call IsNegativeI or IsNonZeroI on a parameter that is not a result. *)
Definition testing_methods : list string := ["ExtendedPoint.RistrettoElligator2Inverse"; "FieldElement.Abs"].

(** the programs of the 64-bit builds, and those of GoSecret.v that are the same in all builds *)
Definition points64 (K : FeOps) : list (string * stmt (fe K * Z)) := map (fun p => (fst p, readonly_tests (snd p))) (secret_points K).
Definition points_all (K : FeOps) : list (string * stmt (fe K * Z)) :=
  filter (fun p => negb (existsb (String.eqb (fst p)) testing_methods)) (secret_points K).

(** /repo/scalar.go; the parameters include scL and scZero where they are used.  In SetBytesStrict the [if] with its
    two branches is one step. *)
Definition scalar_programs : list (string * stmt Z) :=
  (secret_scalars ++ [("Scalar.SetBytesStrict", d_sc_setBytesStrict 0 1 2 3 4)])%list.
Definition scalar_sigs : list (string * sig) :=
  [("Scalar.BytesInto", Sig [1] 2); ("Scalar.SetBytes", Sig [0] 3); ("Scalar.Neg", Sig [0] 3); ("Scalar.Add", Sig [0] 4); ("Scalar.Sub", Sig [0] 3);
   ("Scalar.Set", Sig [0] 2); ("Scalar.MulSub", Sig [0] 4); ("Scalar.MulAdd", Sig [0] 4); ("Scalar.SetReduced", Sig [0] 2); ("Scalar.Square", Sig [0] 2);
   ("Scalar.Mul", Sig [0] 3); ("Scalar.IsNonZeroI", Sig [1] 2); ("Scalar.EqualsI", Sig [2] 3); ("Scalar.ConditionalSet", Sig [0] 3);
   ("Scalar.SetBytesStrict", Sig [0; 3] 4)].

(** the methods of the field backends on limbs: /repo/edwards25519/field_radix51.go, field_mul64.go, field_generic.go,
    field.go (the last argument of ConditionalSet is passed by value and counts as a local) *)
Definition limb_sigs (bytes : list nat) : list (string * sig) :=
  [("add", Sig [0] 3); ("sub", Sig [0] 3); ("Mul", Sig [0] 3); ("Square", Sig [0] 2); ("DoubledSquare", Sig [0] 2); ("Neg", Sig [0] 2);
   ("ConditionalSet", Sig [0] 2); ("normalize", Sig [0] 1); ("Set", Sig [0] 2); ("SetBytes", Sig [0] 2);
   ("BytesInto", Sig bytes 2); ("IsNegativeI", Sig bytes 2); ("IsNonZeroI", Sig bytes 2); ("IsOneI", Sig [2] 3); ("EqualsI", Sig [2] 3)].
Definition inverse_sig : sig := Sig [0] 2.
Definition sigs51 : list (string * sig) := limb_sigs [1].
(** BytesInto of the generic backend writes its receiver *)
Definition sigs25 : list (string * sig) := limb_sigs [0; 1].

(** no variable but those [g] allows is written: there is no write in the trace, and the contents stay *)
Definition writes_only {V : Type} (g : sig) (s : stmt V) : Prop :=
  forall E (sub : string -> list V -> list E) sg m x, (forall a, writable g a -> sg a <> x) ->
    (forall k, ~ In (Write x k) (trace sub sg rho0 s m)) /\ forall k, final sub sg rho0 s m x k = m x k.

(** [cs]: calls by name, with the variables they are made on *)
Definition calls {V : Type} (code : list (string * stmt V)) (cs : list (string * (nat -> nat))) : list (call V) :=
  map (fun c => (snd c, match lookup (fst c) code with Some s => s | None => Skip end)) cs.
(** no call may write a variable that another one uses *)
Definition independent (sigs : list (string * sig)) (cs : list (string * (nat -> nat))) : Prop :=
  forall i j n sg n' sg' g, i <> j -> nth_error cs i = Some (n, sg) -> nth_error cs j = Some (n', sg') -> lookup n sigs = Some g ->
    forall a b, writable g a -> sg a <> sg' b.
(** In whatever order the steps are taken, every call leaves in its variables what it leaves there when it is run alone,
    and other variables keep their contents. *)
Definition no_interference {V : Type} (code : list (string * stmt V)) (sigs : list (string * sig)) : Prop :=
  forall cs tr m, (forall c, In c cs -> In (fst c) (map fst code)) -> independent sigs cs -> interleaving (map thread (calls code cs)) tr ->
    (forall n sg s, In (n, sg) cs -> lookup n code = Some s ->
       forall a k, run_steps tr m (sg a) k = final (E := Empty_set) nosub sg rho0 s m (sg a) k) /\
    (forall x, (forall n sg g a, In (n, sg) cs -> lookup n sigs = Some g -> writable g a -> sg a <> x) -> forall k, run_steps tr m x k = m x k).
