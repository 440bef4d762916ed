(** Property C46: methods write only their results, and calls that share only operands may run concurrently.

    [point_sigs], [scalar_sigs], [sigs51] and [sigs25] in GoResults.v say for every method which variables are its
    results.  [writes_only g s]: whatever the variables and their contents, the program [s] has no write to any variable
    but the results and its own locals, and leaves all others as they are.  [no_interference code sigs]: for any number
    of concurrent calls of methods in [code] none of which may write a variable another one uses, and for every
    interleaving of their steps, each ends with what it computes when run alone. *)
From Coq Require Import ZArith List String Lia.
From Verif Require Import FieldModel CurveModel Fe51Laws Fe25Laws Amd64Model Amd64Code Amd64Field
  GoLang GoViews GoLimbCode GoLimbTests GoInverseCode GoTrace GoSecret GoThreads GoResults GoResultsFacts.
Import ListNotations.
Open Scope string_scope.
Open Scope nat_scope.

(** Methods of points, on every build, except RistrettoElligator2Inverse and FieldElement.Abs. *)
Theorem C46_points : forall K n s, In (n, s) (points_all K) -> exists g, lookup n point_sigs = Some g /\ writes_only g s.
Proof. exact (fun K => obey_writes point_sigs (points_all K) (obey_points K)). Qed.
Print Assumptions C46_points.

(** On the 64-bit builds, these two as well.  ([points64] leaves out the write of the receiver in IsNegativeI and IsNonZeroI,
    which these builds do not make; C46_same: the programs do the same as those of C43.) *)
Theorem C46_points64 : forall K n s, In (n, s) (points64 K) -> exists g, lookup n point_sigs = Some g /\ writes_only g s.
Proof. exact (fun K => obey_writes point_sigs (points64 K) (obey_points64 K)). Qed.
Print Assumptions C46_points64.

Theorem C46_same : forall K, K = R51 \/ K = RAmd64 -> forall n s g sg m, In (n, s) (secret_points K) -> lookup n point_sigs = Some g ->
  fresh_locals (params g) sg -> forall x k,
  final (E := Empty_set) nosub sg rho0 (readonly_tests s) m x k = final (E := Empty_set) nosub sg rho0 s m x k.
Proof. exact points64_same. Qed.
Print Assumptions C46_same.

(** Methods of scalars. *)
Theorem C46_scalars : forall n s, In (n, s) scalar_programs -> exists g, lookup n scalar_sigs = Some g /\ writes_only g s.
Proof. exact (obey_writes scalar_sigs scalar_programs obey_scalars). Qed.
Print Assumptions C46_scalars.
Theorem C46_Inverse : writes_only inverse_sig (d_sc_inverse 0 1 2).
Proof. exact obey_inverse. Qed.
Print Assumptions C46_Inverse.

(** Methods of the field backends on limbs.  In [sigs25], BytesInto, IsNegativeI and IsNonZeroI have their receiver among
    the results (finding 6); in [sigs51] they do not. *)
Theorem C46_limbs : (forall n s, In (n, s) code51 \/ In (n, s) code64 -> exists g, lookup n sigs51 = Some g /\ writes_only g s) /\
  (forall n s, In (n, s) code25 -> exists g, lookup n sigs25 = Some g /\ writes_only g s).
Proof.
  exact (conj (fun n s h => match h with or_introl h => obey_writes sigs51 code51 obey_51 n s h | or_intror h => obey_writes sigs51 code64 obey_64 n s h end)
              (obey_writes sigs25 code25 obey_25)).
Qed.
Print Assumptions C46_limbs.

(** Concurrent calls. *)
Theorem C46_concurrent_points64 : forall K, no_interference (points64 K) point_sigs.
Proof. exact (fun K => obey_interference point_sigs (points64 K) (obey_points64 K)). Qed.
Print Assumptions C46_concurrent_points64.
Theorem C46_concurrent_points : forall K, no_interference (points_all K) point_sigs.
Proof. exact (fun K => obey_interference point_sigs (points_all K) (obey_points K)). Qed.
Print Assumptions C46_concurrent_points.
Theorem C46_concurrent_scalars : no_interference scalar_programs scalar_sigs.
Proof. exact (obey_interference scalar_sigs scalar_programs obey_scalars). Qed.
Print Assumptions C46_concurrent_scalars.

(** Two concurrent readers of the same variables 1 and 2: Equals of them and an encoding of the second; the variables of
    the calls other than these are disjoint. *)
Definition readers46 : list (string * (nat -> nat)) :=
  [("Point.EqualsI", fun a => match a with 0 => 1 | 1 => 2 | a => 2 * a end); ("Point.BytesInto", fun a => match a with 0 => 2 | a => 2 * a + 1 end)].
Example C46_case : (forall c, In c readers46 -> In (fst c) (map fst (points64 R51))) /\ independent point_sigs readers46 /\
  exists tr, interleaving (map thread (calls (points64 R51) [("Point.Set", fun a => a); ("Point.Set", fun a => a + 2)])) tr /\ List.length tr = 8.
Proof.
  split; [|split].
  - intros c [<-|[<-|[]]]; vm_compute; tauto.
  - intros [|[|i]] [|[|j]] n sg n' sg' g hne h h' hg a b hw; try (exfalso; apply hne; reflexivity); cbn in h, h';
      try (destruct i; discriminate); try (destruct j; discriminate);
      injection h as <- <-; injection h' as <- <-; cbn in hg; injection hg as <-; destruct hw as [hw|hw]; cbn in hw.
    + destruct hw as [<-|[]]. destruct b as [|b]; lia.
    + destruct a as [|[|a]]; [lia|lia|]. destruct b as [|b]; lia.
    + destruct hw as [<-|[]]. destruct b as [|[|b]]; lia.
    + destruct a as [|a]; [lia|]. destruct b as [|[|b]]; lia.
  - eexists. split. cbn. 1: eapply (il_step _ 0); [reflexivity|]. eapply (il_step _ 1); [reflexivity|]. do 3 (eapply (il_step _ 0); [reflexivity|]).
    do 3 (eapply (il_step _ 1); [reflexivity|]). apply il_done. repeat constructor.
    reflexivity.
Qed.
