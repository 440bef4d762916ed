(** Property C51: scalar multiplication in the C reference implementation /repo/cref/cref.c.

    [None] is undefined behaviour.  [cpoint P A]: [P] represents the curve point [A] (CrefFacts.v); [EB] is the base point of
    RFC 8032. *)
From Coq Require Import ZArith List Lia Bool.
From Verif Require Import Words Primes Fp Edwards GroupOrder RistrettoSpec ScalarCode ScalarModel ScalarReduce ScalarFacts FieldModel CurveModel RistrettoModel Backends
  CrefFe CrefCode CrefFacts CrefScalar CrefTable CrefMul CrefMulProofs CrefMulFacts.
Import ListNotations.
Open Scope Z_scope.

Theorem C51_scalarmult : forall P A s, cpoint P A -> bytes 32 s -> le_val s < 2 ^ 254 ->
  exists R, g_scalarmult P s = Some R /\ cpoint R (Emul (le_val s) A).
Proof. exact cp_scalarmult. Qed.
Print Assumptions C51_scalarmult.

Theorem C51_scalarmult_base : forall s, bytes 32 s -> le_val s < l -> exists R, g_scalarmult_base s = Some R /\ cpoint R (Emul (le_val s) EB).
Proof. exact cp_scalarmult_base. Qed.
Print Assumptions C51_scalarmult_base.

(** [lincomb ks As] is the sum of the [k_i A_i]. *)
Theorem C51_multiscalarmult : forall xs As, Forall2 (fun x B => cpoint (fst x) B /\ bytes 32 (snd x) /\ le_val (snd x) < 2 ^ 254) xs As ->
  exists R, g_multiscalarmult xs = Some R /\ cpoint R (lincomb (map (fun x => le_val (snd x)) xs) As).
Proof. exact cp_multiscalarmult. Qed.
Print Assumptions C51_multiscalarmult.

Theorem C51_constants : cpoint g_base EB /\ cpoint g_neutral E0.
Proof. exact cp_base. Qed.
Print Assumptions C51_constants.

(** For scalars that are not reduced group_ge_scalarmult_base can be wrong: the last signed digit can be 4, and
    choose_t_aff looks for -4 only. *)
Theorem C51_base_unreduced : forall s, bytes 32 s -> le_val s < 2 ^ 254 -> exists R, g_scalarmult_base s = Some R /\
  cpoint R (Emul (if 24 * 2 ^ 252 + 4 <=? 7 * le_val s then le_val s - 2 ^ 254 else le_val s) EB).
Proof. exact cp_scalarmult_base_all. Qed.
Print Assumptions C51_base_unreduced.

Theorem C51_base_unreduced_refuted : exists s R A, bytes 32 s /\ le_val s < 2 ^ 254 /\ g_scalarmult_base s = Some R /\ cpoint R A /\
  ~ In (Eadd A (Eopp (Emul (le_val s) EB))) [E0; T2; T4; T4'].
Proof. exact cp_base_bad. Qed.
Print Assumptions C51_base_unreduced_refuted.

(** Agreement with the Go code, on every build: multiples of points that represent the same group element have the same
    encoding. *)
Theorem C51_go_scalarmult : forall b P A Q B s, cpoint P A -> even A -> summand b Q B -> In (Eadd A (Eopp B)) [E0; T2; T4; T4'] -> reduced s ->
  exists R, g_scalarmult P (sc_Bytes s) = Some R /\ g_pack R = Some (pt_Bytes (ops b) (pt_ScalarMult (ops b) Q s)).
Proof. exact cp_go_mult. Qed.
Print Assumptions C51_go_scalarmult.

Theorem C51_go_base : forall b s, reduced s -> exists R, g_scalarmult_base (sc_Bytes s) = Some R /\
  g_pack R = Some (pt_Bytes (ops b) (pt_ScalarMultBase (ops b) (baseTable b) s)).
Proof. exact cp_go_base. Qed.
Print Assumptions C51_go_base.

(** the scalar 2 *)
Definition s51 : list Z := 2 :: repeat 0 31.
Lemma s51_ok : bytes 32 s51 /\ le_val s51 = 2.
Proof.
  refine (conj (conj eq_refl _) _); [|vm_compute; reflexivity]. cbv [s51 repeat]. repeat (apply Forall_cons; [unfold is_byte; lia|]). apply Forall_nil.
Qed.
Example C51_case : bytes 32 s51 /\ le_val s51 < l /\ cpoint g_base EB /\ even EB /\ reduced (Sc 2 0 0 0 0 0 0 0) /\
  exists R S, g_scalarmult_base s51 = Some R /\ g_scalarmult g_base s51 = Some S /\ cpoint R (Emul 2 EB) /\ cpoint S (Emul 2 EB).
Proof.
  destruct s51_ok as [h1 h2]. assert (h3 : le_val s51 < l) by (rewrite h2, l_lit; reflexivity). assert (h4 : le_val s51 < 2 ^ 254) by (rewrite h2; reflexivity).
  split; [exact h1|]. split; [exact h3|]. split; [exact (proj1 C51_constants)|]. split; [exact even_EB|]. split.
  - unfold reduced. rewrite l_lit. cbn [sc_words scv]. lia.
  - destruct (C51_scalarmult_base s51 h1 h3) as (R & e & hR). destruct (C51_scalarmult g_base EB s51 (proj1 C51_constants) h1 h4) as (S & e' & hS).
    rewrite h2 in hR, hS. exists R, S. exact (conj e (conj e' (conj hR hS))).
Qed.
Example C51_case_go : forall b, summand b (pt_SetBase (ops b)) (Eadd EB T4') /\ In (Eadd EB (Eopp (Eadd EB T4'))) [E0; T2; T4; T4'].
Proof.
  intro b. split; [exact (proj2 (b_const b))|]. apply Points51.Req_torsion. rewrite <- FieldLaws.EBc_eq. apply Req_sym. exact FieldLaws.EBc_Req.
Qed.
