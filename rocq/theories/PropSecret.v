(** C43: no method meant for secrets branches on data or uses data as an address.

    The programs are listed by name in GoSecret.v.  [trace] is as in PropCT.v: it lists every
    memory access and branch, including those inside the called methods of the field backend. *)
From Coq Require Import ZArith List String Lia.
From Verif Require Import Words ScalarCode ScalarModel FieldModel CurveModel RistrettoModel Fe51Laws Fe25Laws Amd64Model Amd64Code Amd64Field Amd64Trace
  GoLang GoViews GoLimbCode GoLimbTests GoCurveCode GoCodecCode GoInverseCode GoTrace GoSecret GoSecretFacts.
Import ListNotations.
Open Scope string_scope.

(** Points and field elements: the radix-51, generic and amd64 backends. *)
Theorem C43_points_r51 : forall name prog, In (name, prog) (secret_points R51) ->
  forall sub, (forall tag vs, method code51 tag (sub tag vs)) -> forall sg m m', trace sub sg rho0 prog m = trace sub sg rho0 prog m'.
Proof. exact secret_51. Qed.
Print Assumptions C43_points_r51.
Theorem C43_points_generic : forall name prog, In (name, prog) (secret_points R25) ->
  forall sub, (forall tag vs, method code25 tag (sub tag vs)) -> forall sg m m', trace sub sg rho0 prog m = trace sub sg rho0 prog m'.
Proof. exact secret_25. Qed.
Print Assumptions C43_points_generic.
Theorem C43_points_amd64 : forall name prog, In (name, prog) (secret_points RAmd64) ->
  forall sub, (forall tag vs, method64 tag (sub tag vs)) -> forall sg m m', trace sub sg rho0 prog m = trace sub sg rho0 prog m'.
Proof. exact secret_64. Qed.
Print Assumptions C43_points_amd64.

(** Scalars. *)
Theorem C43_scalars : forall name prog, In (name, prog) secret_scalars -> forall sg m m',
  trace (E:=Empty_set) nosub sg rho0 prog m = trace nosub sg rho0 prog m'.
Proof. exact secret_sc. Qed.
Print Assumptions C43_scalars.
Theorem C43_Inverse : forall sub, (forall tag vs, method code_sc tag (sub tag vs)) -> forall sg m m',
  trace sub sg rho0 (d_sc_inverse 0 1 2) m = trace sub sg rho0 (d_sc_inverse 0 1 2) m'.
Proof. exact secret_inverse. Qed.
Print Assumptions C43_Inverse.

(** SetBytesStrict reveals whether it accepts, and nothing else. *)
Theorem C43_SetBytesStrict : forall m m', sc_of (m 2%nat) = scL -> sc_of (m' 2%nat) = scL ->
  snd (sc_setBytesStrict (sc_of (m 0%nat)) (bytes_of (m 1%nat))) = snd (sc_setBytesStrict (sc_of (m' 0%nat)) (bytes_of (m' 1%nat))) ->
  trace (E:=Empty_set) nosub (fun a => a) rho0 (d_sc_setBytesStrict 0 1 2 3 4) m = trace nosub (fun a => a) rho0 (d_sc_setBytesStrict 0 1 2 3 4) m'.
Proof. exact strict_trace. Qed.
Print Assumptions C43_SetBytesStrict.

(** The traced programs compute the functions of the other properties. *)
Theorem C43_results_points : forall K, K = R51 \/ K = R25 \/ K = RAmd64 -> forall m : GoLang.mem (fe K * Z)%type,
  ext_at K (after K "Point.Set" m 0%nat) 0 = ext_at K (m 1%nat) 0 /\
  ext_at K (after K "Point.Add" m 0%nat) 0 = ep_Add K (ext_at K (m 1%nat) 0) (ext_at K (m 2%nat) 0) /\
  ext_at K (after K "Point.Double" m 0%nat) 0 = ep_Double K (ext_at K (m 1%nat) 0) /\
  ext_at K (after K "Point.Sub" m 0%nat) 0 = ep_Sub K (ext_at K (m 1%nat) 0) (ext_at K (m 2%nat) 0) /\
  ext_at K (after K "Point.Neg" m 0%nat) 0 = ep_Neg K (ext_at K (m 1%nat) 0) /\
  ints K (after K "Point.BytesInto" m 1%nat) 32 = ep_RistrettoInto K (ext_at K (m 0%nat) 0) /\
  (int_at K (after K "Point.SetBytes" m 2%nat) 0 =? 1, ext_at K (after K "Point.SetBytes" m 0%nat) 0)%Z = ep_SetRistretto K (ints K (m 1%nat) 32) /\
  ext_at K (after K "Point.SetElligator" m 0%nat) 0 = pt_SetElligator K (ints K (m 1%nat) 32) /\
  ext_at K (after K "Point.ScalarMult" m 0%nat) 0 = ep_ScalarMult K (ext_at K (m 1%nat) 0) (ints K (m 2%nat) 32) /\
  ext_at K (after K "Point.ScalarMultTable" m 0%nat) 0 = tbl_ScalarMult K (table K (m 1%nat)) (ints K (m 2%nat) 32) /\
  int_at K (after K "Point.EqualsI" m 2%nat) 0 = ep_RistrettoEqualsI K (ext_at K (m 0%nat) 0) (ext_at K (m 1%nat) 0) /\
  ext_at K (after K "Point.ConditionalSet" m 0%nat) 0 = ep_ConditionalSet K (ext_at K (m 0%nat) 0) (ext_at K (m 1%nat) 0) (int_at K (m 2%nat) 0) /\
  table K (after K "ScalarMultTable.Compute" m 0%nat) = tbl_Compute K (ext_at K (m 1%nat) 0) /\
  (let m' := after K "ExtendedPoint.RistrettoElligator2Inverse" m in
   (int_at K (m' 2%nat) 0, map (fe_at K (m' 1%nat)) (seq 0 8), ext_at K (m' 0%nat) 0) = ep_RistrettoElligator2Inverse K (ext_at K (m 0%nat) 0)) /\
  fe_at K (after K "FieldElement.Add" m 0%nat) 0 = fe_Add K (fe_at K (m 1%nat) 0) (fe_at K (m 2%nat) 0) /\
  fe_at K (after K "FieldElement.Sub" m 0%nat) 0 = fe_Sub K (fe_at K (m 1%nat) 0) (fe_at K (m 2%nat) 0) /\
  fe_at K (after K "FieldElement.Inverse" m 0%nat) 0 = fe_Inverse K (fe_at K (m 1%nat) 0) /\
  (fe_at K (after K "FieldElement.Abs" m 0%nat) 0, fe_at K (after K "FieldElement.Abs" m 1%nat) 0) = fe_Abs K (fe_at K (m 1%nat) 0) /\
  fe_at K (after K "FieldElement.Exp22523" m 0%nat) 0 = fe_Exp22523 K (fe_at K (m 1%nat) 0) /\
  fe_at K (after K "FieldElement.InvSqrt" m 0%nat) 0 = fe_InvSqrt K (fe_at K (m 1%nat) 0) /\
  fe_at K (after K "FieldElement.Sqrt" m 0%nat) 0 = fe_Sqrt K (fe_at K (m 1%nat) 0) /\
  (int_at K (after K "FieldElement.InvSqrtI" m 2%nat) 0, fe_at K (after K "FieldElement.InvSqrtI" m 0%nat) 0) = fe_InvSqrtI K (fe_at K (m 1%nat) 0).
Proof. exact secret_results. Qed.
Print Assumptions C43_results_points.
Theorem C43_results_scalars : forall m : GoLang.mem Z,
  bytes_of (after_sc "Scalar.BytesInto" m 1%nat) = sc_bytes (sc_of (m 0%nat)) /\
  (sc_of (m 2%nat) = scL -> sc_of (after_sc "Scalar.SetBytes" m 0%nat) = sc_setBytes (bytes_of (m 1%nat))) /\
  (sc_of (m 2%nat) = scZero -> sc_of (after_sc "Scalar.Neg" m 0%nat) = sc_neg (sc_of (m 1%nat))) /\
  (sc_of (m 3%nat) = scL -> sc_of (after_sc "Scalar.Add" m 0%nat) = sc_add (sc_of (m 1%nat)) (sc_of (m 2%nat))) /\
  sc_of (after_sc "Scalar.Sub" m 0%nat) = sc_sub (sc_of (m 1%nat)) (sc_of (m 2%nat)) /\
  sc_of (after_sc "Scalar.Set" m 0%nat) = sc_of (m 1%nat) /\
  sc_of (after_sc "Scalar.MulSub" m 0%nat) = sc_mulSub (sc_of (m 1%nat)) (sc_of (m 2%nat)) (sc_of (m 3%nat)) /\
  sc_of (after_sc "Scalar.MulAdd" m 0%nat) = sc_mulAdd (sc_of (m 1%nat)) (sc_of (m 2%nat)) (sc_of (m 3%nat)) /\
  sc_of (after_sc "Scalar.SetReduced" m 0%nat) = sc_setReduced (map (m 1%nat) (seq 0 64)) /\
  sc_of (after_sc "Scalar.Square" m 0%nat) = sc_square (sc_of (m 1%nat)) /\
  sc_of (after_sc "Scalar.Mul" m 0%nat) = sc_mul (sc_of (m 1%nat)) (sc_of (m 2%nat)) /\
  after_sc "Scalar.IsNonZeroI" m 1%nat 0%nat = sc_isNonZeroI (sc_of (m 0%nat)) /\
  after_sc "Scalar.EqualsI" m 2%nat 0%nat = sc_equalsI (sc_of (m 0%nat)) (sc_of (m 1%nat)) /\
  sc_of (after_sc "Scalar.ConditionalSet" m 0%nat) = sc_condSet (sc_of (m 0%nat)) (sc_of (m 1%nat)) (m 2%nat 0%nat).
Proof. exact scalar_results. Qed.
Print Assumptions C43_results_scalars.
Theorem C43_results_others : 
  (forall m : GoLang.mem sc, final (E:=Empty_set) nosub (fun a => a) rho0 (d_sc_inverse 0 1 2) m 0%nat 0%nat = sc_inverse (m 1%nat 0%nat)) /\
  (forall m : GoLang.mem Z, sc_of (m 2%nat) = scL ->
    let m' := final (E:=Empty_set) nosub (fun a => a) rho0 (d_sc_setBytesStrict 0 1 2 3 4) m in
    (sc_of (m' 0%nat), m' 3%nat 0%nat =? 1)%Z = sc_setBytesStrict (sc_of (m 0%nat)) (bytes_of (m 1%nat))).
Proof. exact other_results. Qed.
Print Assumptions C43_results_others.

(** The methods the hypotheses about [sub] refer to compute the operations of the backends: the
    tests and codecs (for add, Mul, ... see C39). *)
Theorem C43_backends : forall m : GoLang.mem Z,
  let F := fun s => final (E:=Empty_set) nosub (fun a => a) rho0 s m in
  fe51_of (F (d_r51_setBytes 0 1 2) 0%nat) = o_setBytes R51 (bytes_of (m 1%nat)) /\
  bytes_of (F (d_r51_bytes 0 1 2) 1%nat) = fst (o_bytes R51 (fe51_of (m 0%nat))) /\
  F (d_fe_IsNegativeI d_r51_bytes 0 1 2) 1%nat 0%nat = fst (fe_IsNegativeI R51 (fe51_of (m 0%nat))) /\
  F (d_fe_IsNonZeroI d_r51_bytes 0 1 2) 1%nat 0%nat = fst (fe_IsNonZeroI R51 (fe51_of (m 0%nat))) /\
  F (d_fe_EqualsI d_r51_bytes d_r51_sub 0 1 2 3) 2%nat 0%nat = fe_EqualsI R51 (fe51_of (m 0%nat)) (fe51_of (m 1%nat)) /\
  fe25_of (F (d_g25_setBytes 0 1 2) 0%nat) = o_setBytes R25 (bytes_of (m 1%nat)) /\
  bytes_of (F (d_g25_bytes 0 1 2) 1%nat) = fst (o_bytes R25 (fe25_of (m 0%nat))) /\
  F (d_fe_IsNegativeI d_g25_bytes 0 1 2) 1%nat 0%nat = fst (fe_IsNegativeI R25 (fe25_of (m 0%nat))) /\
  F (d_fe_IsNonZeroI d_g25_bytes 0 1 2) 1%nat 0%nat = fst (fe_IsNonZeroI R25 (fe25_of (m 0%nat))) /\
  F (d_fe_EqualsI d_g25_bytes d_g25_sub 0 1 2 3) 2%nat 0%nat = fe_EqualsI R25 (fe25_of (m 0%nat)) (fe25_of (m 1%nat)).
Proof. exact backend_results. Qed.
Print Assumptions C43_backends.

(** The lists are not empty, the traces are neither, and a method that branches is told apart. *)
Example C43_lists : List.length (secret_points R51) = 22%nat /\ List.length secret_scalars = 14%nat /\
  exists prog, In ("Point.EqualsI", prog) (secret_points R51) /\
  List.length (trace (E:=Empty_set) nosub (fun a => a) rho0 prog (fun _ _ => (Fe51Code.Fe51 0 0 0 0 0, 0%Z))) = 21%nat.
Proof. exact lists_example. Qed.
Example C43_strict_contrast : exists m m' : GoLang.mem Z, sc_of (m 2%nat) = scL /\ sc_of (m' 2%nat) = scL /\
  trace (E:=Empty_set) nosub (fun a => a) rho0 (d_sc_setBytesStrict 0 1 2 3 4) m <> trace nosub (fun a => a) rho0 (d_sc_setBytesStrict 0 1 2 3 4) m'.
Proof. exact strict_example. Qed.
