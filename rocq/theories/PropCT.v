(** C42: the branches and memory addresses of the secret-scalar multiplications do not depend on
    the scalar (nor on the point).

    [trace sub sg rho0 prog m] lists, in order, the variable and index of every memory access
    and the outcome of every loop test and branch of [prog] run from the memory [m].  For each
    call of a method of the field backend it also has what happens inside: [sub tag vs] for the
    method [tag] on the values [vs].  The hypothesis on [sub] says that this is the trace of the
    code of that method on some memory; which one may depend on the values in any way. *)
From Coq Require Import ZArith List String Lia.
From Verif Require Import Words ScalarCode FieldModel CurveModel Fe51Laws Fe25Laws Amd64Model Amd64Code Amd64Field Amd64Trace
  GoLang GoViews GoLimbCode GoCurveCode GoTrace GoPropCT.
Import ListNotations.
Open Scope string_scope.
Local Notation P n := ((n%nat, C 0)).

(** [ExtendedPoint.ScalarMult], /repo/edwards25519/curve.go:361-406, radix-51 backend *)
Theorem C42_ScalarMult_r51 : forall sub, (forall tag vs, method code51 tag (sub tag vs)) -> forall sg m m',
  trace sub sg rho0 (g_ep_ScalarMult R51 (P 0) (P 1) (P 2) 3 0) m = trace sub sg rho0 (g_ep_ScalarMult R51 (P 0) (P 1) (P 2) 3 0) m'.
Proof. exact ep_trace_51. Qed.
Print Assumptions C42_ScalarMult_r51.

(** ... generic backend *)
Theorem C42_ScalarMult_generic : forall sub, (forall tag vs, method code25 tag (sub tag vs)) -> forall sg m m',
  trace sub sg rho0 (g_ep_ScalarMult R25 (P 0) (P 1) (P 2) 3 0) m = trace sub sg rho0 (g_ep_ScalarMult R25 (P 0) (P 1) (P 2) 3 0) m'.
Proof. exact ep_trace_25. Qed.
Print Assumptions C42_ScalarMult_generic.

(** ... amd64 assembly backend *)
Theorem C42_ScalarMult_amd64 : forall sub, (forall tag vs, method64 tag (sub tag vs)) -> forall sg m m',
  trace sub sg rho0 (g_ep_ScalarMult RAmd64 (P 0) (P 1) (P 2) 3 0) m = trace sub sg rho0 (g_ep_ScalarMult RAmd64 (P 0) (P 1) (P 2) 3 0) m'.
Proof. exact ep_trace_64. Qed.
Print Assumptions C42_ScalarMult_amd64.

(** [ScalarMultTable.ScalarMult], /repo/edwards25519/table.go:131-160, the three backends *)
Theorem C42_table_r51 : forall sub, (forall tag vs, method code51 tag (sub tag vs)) -> forall sg m m',
  trace sub sg rho0 (g_tb_ScalarMult R51 (P 1) (P 0) (P 2) 3 0) m = trace sub sg rho0 (g_tb_ScalarMult R51 (P 1) (P 0) (P 2) 3 0) m'.
Proof. exact tb_trace_51. Qed.
Print Assumptions C42_table_r51.
Theorem C42_table_generic : forall sub, (forall tag vs, method code25 tag (sub tag vs)) -> forall sg m m',
  trace sub sg rho0 (g_tb_ScalarMult R25 (P 1) (P 0) (P 2) 3 0) m = trace sub sg rho0 (g_tb_ScalarMult R25 (P 1) (P 0) (P 2) 3 0) m'.
Proof. exact tb_trace_25. Qed.
Print Assumptions C42_table_generic.
Theorem C42_table_amd64 : forall sub, (forall tag vs, method64 tag (sub tag vs)) -> forall sg m m',
  trace sub sg rho0 (g_tb_ScalarMult RAmd64 (P 1) (P 0) (P 2) 3 0) m = trace sub sg rho0 (g_tb_ScalarMult RAmd64 (P 1) (P 0) (P 2) 3 0) m'.
Proof. exact tb_trace_64. Qed.
Print Assumptions C42_table_amd64.

(** The scalar is encoded first ([Scalar.BytesInto], /repo/scalar.go:34-68). *)
Theorem C42_BytesInto : forall sg m m',
  trace (E:=Empty_set) nosub sg rho0 (d_sc_bytes 0 1 2) m = trace nosub sg rho0 (d_sc_bytes 0 1 2) m' /\
  bytes_of (final (E:=Empty_set) nosub (fun a => a) rho0 (d_sc_bytes 0 1 2) m 1%nat) = sc_bytes (sc_of (m 0%nat)).
Proof. exact bytes_trace. Qed.
Print Assumptions C42_BytesInto.

(** The assembly, for any pointers [args]: its accesses do not depend on registers or memory. *)
Theorem C42_assembly : forall args s s',
  accesses args asm_feMul s = accesses args asm_feMul s' /\ accesses args asm_feSquare s = accesses args asm_feSquare s'.
Proof. exact asm_trace. Qed.
Print Assumptions C42_assembly.

(** The traced programs are the multiplications of the other properties, whatever [sub] is. *)
Theorem C42_result : forall (K : FeOps) (E : Type) (sub : string -> list (fe K * Z) -> list E) sg m,
  (fresh_locals 3 sg ->
   ext_at K (final sub sg rho0 (g_ep_ScalarMult K (P 0) (P 1) (P 2) 3 0) m (sg 0%nat)) 0 =
     ep_ScalarMult K (ext_at K (m (sg 1%nat)) 0) (ints K (m (sg 2%nat)) 32)) /\
  (fresh_locals 1 sg ->
   ext_at K (final sub sg rho0 (g_tb_ScalarMult K (P 1) (P 0) (P 2) 3 0) m (sg 0%nat)) 0 =
     tbl_ScalarMult K (table K (m (sg 1%nat))) (ints K (m (sg 2%nat)) 32)).
Proof. exact traced_result. Qed.
Print Assumptions C42_result.

(** The hypothesis on [sub] can be met, also by an inner trace that is not empty. *)
Example C42_sub : exists sub : string -> list (fe R51 * Z) -> list (event Empty_set),
  (forall tag vs, method code51 tag (sub tag vs)) /\
  firstn 2 (sub "add" []) = [Read 1 0; Read 2 0] /\ firstn 3 (sub "ConditionalSet" []) = [Read 2 0; Write 3 0; Read 0 0].
Proof. exact sub_example. Qed.

(** The variable-time selection has traces that depend on the data: both its branches and its
    addresses. *)
Example C42_contrast : exists m1 m2 m3 : GoLang.mem (fe R51 * Z),
  trace (E:=Empty_set) nosub (fun a => a) rho0 (g_tb_varTimeSelectPoint R51 (P 1) (P 0) (C 0) 2) m1 <>
  trace (E:=Empty_set) nosub (fun a => a) rho0 (g_tb_varTimeSelectPoint R51 (P 1) (P 0) (C 0) 2) m2 /\
  trace (E:=Empty_set) nosub (fun a => a) rho0 (g_tb_varTimeSelectPoint R51 (P 1) (P 0) (C 0) 2) m2 <>
  trace (E:=Empty_set) nosub (fun a => a) rho0 (g_tb_varTimeSelectPoint R51 (P 1) (P 0) (C 0) 2) m3.
Proof. exact contrast_example. Qed.
