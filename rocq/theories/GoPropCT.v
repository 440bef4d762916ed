(** The proofs of PropCT.v. *)
From Coq Require Import ZArith List String Bool Lia.
From Verif Require Import Words ScalarCode FieldModel CurveModel Fe51Code Fe51Laws Fe25Laws GoLang GoLangFacts GoViews GoLimbCode GoLimbFacts
  GoCurveCode GoCurveFacts GoScalarMult GoScalarMultRun GoTableMult GoAliasFacts Amd64Model Amd64Code Amd64Field Amd64Trace GoTrace GoTraceFacts.
Import ListNotations.
Open Scope string_scope.
Strategy 2000 [final exec].
Local Notation P n := ((n%nat, C 0)).

Lemma method51_one t u u' : In t used -> method code51 t u -> method code51 t u' -> u = u'.
Proof. intro h. apply method_one; [exact ct51|apply used51, h]. Qed.
Lemma method25_one t u u' : In t used -> method code25 t u -> method code25 t u' -> u = u'.
Proof. intro h. apply method_one; [exact ct25|apply used25, h]. Qed.

Lemma ep_trace_51 : forall sub, (forall tag vs, method code51 tag (sub tag vs)) -> forall sg m m',
  trace sub sg rho0 (g_ep_ScalarMult R51 (P 0) (P 1) (P 2) 3 0) m = trace sub sg rho0 (g_ep_ScalarMult R51 (P 0) (P 1) (P 2) 3 0) m'.
Proof. exact (trace_const R51 (method code51) (prog_ep R51) method51_one (ct_ep R51) (tags_ep R51)). Qed.
Lemma ep_trace_25 : forall sub, (forall tag vs, method code25 tag (sub tag vs)) -> forall sg m m',
  trace sub sg rho0 (g_ep_ScalarMult R25 (P 0) (P 1) (P 2) 3 0) m = trace sub sg rho0 (g_ep_ScalarMult R25 (P 0) (P 1) (P 2) 3 0) m'.
Proof. exact (trace_const R25 (method code25) (prog_ep R25) method25_one (ct_ep R25) (tags_ep R25)). Qed.
Lemma ep_trace_64 : forall sub, (forall tag vs, method64 tag (sub tag vs)) -> forall sg m m',
  trace sub sg rho0 (g_ep_ScalarMult RAmd64 (P 0) (P 1) (P 2) 3 0) m = trace sub sg rho0 (g_ep_ScalarMult RAmd64 (P 0) (P 1) (P 2) 3 0) m'.
Proof. exact (trace_const RAmd64 method64 (prog_ep RAmd64) method64_one (ct_ep RAmd64) (tags_ep RAmd64)). Qed.
Lemma tb_trace_51 : forall sub, (forall tag vs, method code51 tag (sub tag vs)) -> forall sg m m',
  trace sub sg rho0 (g_tb_ScalarMult R51 (P 1) (P 0) (P 2) 3 0) m = trace sub sg rho0 (g_tb_ScalarMult R51 (P 1) (P 0) (P 2) 3 0) m'.
Proof. exact (trace_const R51 (method code51) (prog_tb R51) method51_one (ct_tb R51) (tags_tb R51)). Qed.
Lemma tb_trace_25 : forall sub, (forall tag vs, method code25 tag (sub tag vs)) -> forall sg m m',
  trace sub sg rho0 (g_tb_ScalarMult R25 (P 1) (P 0) (P 2) 3 0) m = trace sub sg rho0 (g_tb_ScalarMult R25 (P 1) (P 0) (P 2) 3 0) m'.
Proof. exact (trace_const R25 (method code25) (prog_tb R25) method25_one (ct_tb R25) (tags_tb R25)). Qed.
Lemma tb_trace_64 : forall sub, (forall tag vs, method64 tag (sub tag vs)) -> forall sg m m',
  trace sub sg rho0 (g_tb_ScalarMult RAmd64 (P 1) (P 0) (P 2) 3 0) m = trace sub sg rho0 (g_tb_ScalarMult RAmd64 (P 1) (P 0) (P 2) 3 0) m'.
Proof. exact (trace_const RAmd64 method64 (prog_tb RAmd64) method64_one (ct_tb RAmd64) (tags_tb RAmd64)). Qed.

Lemma bytes_trace : forall sg m m',
  trace (E:=Empty_set) nosub sg rho0 (d_sc_bytes 0 1 2) m = trace nosub sg rho0 (d_sc_bytes 0 1 2) m' /\
  bytes_of (final (E:=Empty_set) nosub (fun a => a) rho0 (d_sc_bytes 0 1 2) m 1%nat) = sc_bytes (sc_of (m 0%nat)).
Proof.
  intros sg m m'. split.
  - apply ct_trace; [reflexivity|apply ct_sc_bytes].
  - rewrite <- (runk_ok (E:=Empty_set) nosub _ _ _ (fun m => bytes_of (m 1%nat))). apply link_sc_bytes.
Qed.
Lemma asm_trace : forall args s s',
  accesses args asm_feMul s = accesses args asm_feMul s' /\ accesses args asm_feSquare s = accesses args asm_feSquare s'.
Proof. intros args s s'. split; [apply feMul_accesses|apply feSquare_accesses]. Qed.

Lemma traced_result : forall (K : FeOps) (E : Type) (sub : string -> list (fe K * Z) -> list E) sg m,
  (fresh_locals 3 sg ->
   ext_at K (final sub sg rho0 (g_ep_ScalarMult K (P 0) (P 1) (P 2) 3 0) m (sg 0%nat)) 0 =
     ep_ScalarMult K (ext_at K (m (sg 1%nat)) 0) (ints K (m (sg 2%nat)) 32)) /\
  (fresh_locals 1 sg ->
   ext_at K (final sub sg rho0 (g_tb_ScalarMult K (P 1) (P 0) (P 2) 3 0) m (sg 0%nat)) 0 =
     tbl_ScalarMult K (table K (m (sg 1%nat))) (ints K (m (sg 2%nat)) 32)).
Proof.
  intros K E sub sg m. rewrite !(final_sub sub nosub). split; intro fr.
  - apply (alias_free_ExtendedPoint_ScalarMult K sg m fr).
  - apply (tb_result K sg m fr).
Qed.

Lemma sub_example : exists sub : string -> list (fe R51 * Z) -> list (event Empty_set),
  (forall tag vs, method code51 tag (sub tag vs)) /\
  firstn 2 (sub "add" []) = [Read 1 0; Read 2 0] /\ firstn 3 (sub "ConditionalSet" []) = [Read 2 0; Write 3 0; Read 0 0].
Proof.
  exists (fun tag _ => match lookup tag code51 with Some s => trace nosub (fun a => a) rho0 s (fun _ _ => 0%Z) | None => [] end).
  split; [|split; vm_compute; reflexivity].
  intros tag vs. unfold method. destruct (lookup tag code51) as [s|]; [exists (fun _ _ => 0%Z); reflexivity|intros _; reflexivity].
Qed.

Definition cm (b : Z) : GoLang.mem (fe R51 * Z) := fun a i => (Fe51 0 0 0 0 0, match a with 2%nat => b | _ => 0%Z end).
Lemma contrast_example : exists m1 m2 m3 : GoLang.mem (fe R51 * Z),
  trace (E:=Empty_set) nosub (fun a => a) rho0 (g_tb_varTimeSelectPoint R51 (P 1) (P 0) (C 0) 2) m1 <>
  trace (E:=Empty_set) nosub (fun a => a) rho0 (g_tb_varTimeSelectPoint R51 (P 1) (P 0) (C 0) 2) m2 /\
  trace (E:=Empty_set) nosub (fun a => a) rho0 (g_tb_varTimeSelectPoint R51 (P 1) (P 0) (C 0) 2) m2 <>
  trace (E:=Empty_set) nosub (fun a => a) rho0 (g_tb_varTimeSelectPoint R51 (P 1) (P 0) (C 0) 2) m3.
Proof. exists (cm 0), (cm 1), (cm 2). split; vm_compute; discriminate. Qed.
