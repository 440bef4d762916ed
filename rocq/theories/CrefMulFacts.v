(** Scalar multiplication of cref.c, also against the Go code. *)
From Coq Require Import ZArith List Lia Bool.
From Verif Require Import Words NumTheory Primes Fp AbGroup Edwards GroupOrder RistrettoSpec ScalarCode ScalarModel ScalarReduce ScalarSub ScalarFacts FieldModel CurveModel RistrettoModel
  FieldLaws Backends CrefFeProofs CrefFe CrefCode CrefGroupProofs CrefFacts CrefScalar CrefScalarProofs CrefScalarOps CrefScalarFacts CrefTable CrefTableProofs CrefMul CrefMulProofs.
Import ListNotations.
Open Scope Z_scope.

Lemma cp_scalarmult P A s : cpoint P A -> bytes 32 s -> le_val s < 2 ^ 254 -> exists R, g_scalarmult P s = Some R /\ cpoint R (Emul (le_val s) A).
Proof.
  intros h hs hv. apply cpoint_cge in h. destruct (g_scalarmult_ok P A s h hs hv) as (R & e & hR). exists R. split; [exact e | apply cpoint_cge; exact hR].
Qed.
Lemma cp_scalarmult_base s : bytes 32 s -> le_val s < l -> exists R, g_scalarmult_base s = Some R /\ cpoint R (Emul (le_val s) EB).
Proof.
  intros hs hv. destruct (g_scalarmult_base_ok s hs hv) as (R & e & hR). exists R. split; [exact e | apply cpoint_cge; exact hR].
Qed.
Lemma cp_scalarmult_base_all s : bytes 32 s -> le_val s < 2 ^ 254 -> exists R, g_scalarmult_base s = Some R /\
  cpoint R (Emul (if 24 * 2 ^ 252 + 4 <=? 7 * le_val s then le_val s - 2 ^ 254 else le_val s) EB).
Proof.
  intros hs hv. destruct (g_scalarmult_base_all s hs hv) as (R & e & hR). exists R. split; [exact e | apply cpoint_cge; exact hR].
Qed.
Lemma cp_multiscalarmult xs As : Forall2 (fun x B => cpoint (fst x) B /\ bytes 32 (snd x) /\ le_val (snd x) < 2 ^ 254) xs As ->
  exists R, g_multiscalarmult xs = Some R /\ cpoint R (lincomb (map (fun x => le_val (snd x)) xs) As).
Proof.
  intro h. destruct (g_multiscalarmult_ok xs As) as (R & e & hR).
  - induction h as [|x B xs As (h1 & h2) h3 IH]; constructor; [|exact IH]. exact (conj (proj1 (cpoint_cge _ _) h1) h2).
  - exists R. split; [exact e | apply cpoint_cge; exact hR].
Qed.
Lemma cp_base : cpoint g_base EB /\ cpoint g_neutral E0.
Proof. split; apply cpoint_cge; [exact g_base_ok | exact g_neutral_ok]. Qed.

(** ** the Go code *)
Lemma even_EB : even EB.
Proof. destruct EB_index as (j & h & _). rewrite h. apply even_index. replace (8 * j) with (2 * (4 * j)) by ring. rewrite Z.even_mul. reflexivity. Qed.

Lemma cp_go_mult b P A Q B s : cpoint P A -> even A -> summand b Q B -> In (Eadd A (Eopp B)) [E0; T2; T4; T4'] -> reduced s ->
  exists R, g_scalarmult P (sc_Bytes s) = Some R /\ g_pack R = Some (pt_Bytes (ops b) (pt_ScalarMult (ops b) Q s)).
Proof.
  intros hP he hQ hAB hs. destruct (go_csc s hs) as [[h1 h1'] h2].
  destruct (cp_scalarmult P A (sc_Bytes s) hP h1) as (R & e & hR); [rewrite l_lit in h1'; lia|]. exists R. split; [exact e|].
  rewrite h2 in hR. destruct (b_scalarMult b Q B s hQ hs) as [hS _].
  destruct (cp_pack b R _ _ _ hR (even_mul _ _ he) (proj1 hS)) as (t & et & _ & ht). rewrite et. f_equal. apply (proj2 ht).
  apply Points51.Req_torsion. apply Req_mul. apply Points51.Req_torsion. exact hAB.
Qed.

Lemma cp_go_base b s : reduced s -> exists R, g_scalarmult_base (sc_Bytes s) = Some R /\
  g_pack R = Some (pt_Bytes (ops b) (pt_ScalarMultBase (ops b) (baseTable b) s)).
Proof.
  intros hs. destruct (go_csc s hs) as [[h1 h1'] h2]. destruct (cp_scalarmult_base (sc_Bytes s) h1 h1') as (R & e & hR). exists R. split; [exact e|].
  rewrite h2 in hR. destruct (b_baseMult b s hs) as [hS _].
  destruct (cp_pack b R _ _ _ hR (even_mul _ _ even_EB) (proj1 hS)) as (t & et & _ & ht). rewrite et. f_equal. apply (proj2 ht).
  apply Points51.Req_torsion. apply Req_mul. rewrite <- EBc_eq. apply Req_sym. exact EBc_Req.
Qed.

(** ** a scalar for which group_ge_scalarmult_base is wrong *)
Definition s_bad : list Z := repeat 255 31 ++ [63].
Lemma s_bad_bytes : bytes 32 s_bad.
Proof. split; [reflexivity|]. cbv [s_bad repeat app]. repeat (apply Forall_cons; [unfold is_byte; lia|]). apply Forall_nil. Qed.
Lemma s_bad_val : le_val s_bad = 2 ^ 254 - 1.
Proof. vm_compute. reflexivity. Qed.
Lemma cp_base_bad : exists s R A, bytes 32 s /\ le_val s < 2 ^ 254 /\ g_scalarmult_base s = Some R /\ cpoint R A /\
  ~ In (Eadd A (Eopp (Emul (le_val s) EB))) [E0; T2; T4; T4'].
Proof.
  destruct (cp_scalarmult_base_all s_bad s_bad_bytes) as (R & e & hR); [rewrite s_bad_val; lia|].
  exists s_bad, R. eexists. refine (conj s_bad_bytes (conj _ (conj e (conj hR _)))); [rewrite s_bad_val; lia|].
  intro h. apply Points51.Req_torsion in h. apply R_order_B in h. rewrite s_bad_val in h.
  replace (24 * 2 ^ 252 + 4 <=? 7 * (2 ^ 254 - 1)) with true in h by reflexivity.
  replace (2 ^ 254 - 1 - 2 ^ 254 - (2 ^ 254 - 1)) with (- 2 ^ 254) in h by ring. apply Z.divide_opp_r in h.
  apply Z.mod_divide in h; [|rewrite l_lit; discriminate]. revert h. rewrite l_lit. vm_compute. discriminate.
Qed.
