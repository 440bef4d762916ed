(** The proofs of PropSecret.v. *)
From Coq Require Import ZArith List String Bool Lia.
From Verif Require Import Words ScalarCode ScalarModel Fe51Code Fe25Code FieldModel CurveModel RistrettoModel Fe51Laws Fe25Laws
  GoLang GoLangFacts GoViews GoLimbCode GoLimbFacts GoLimbTests GoLimbTestsFacts GoCurveCode GoCurveFacts GoCodecCode GoCodecFacts GoEllInvFacts
  GoScalarMult GoScalarMultRun GoTableMult GoTableCompute GoInverseCode GoAliasMore Amd64Model Amd64Code Amd64Field Amd64Trace GoTrace GoTraceFacts GoPropCT GoSecret.
Import ListNotations.
Open Scope string_scope.
Strategy 2000 [final exec].
Notation FIN := (final (E:=Empty_set) nosub (fun a => a) rho0).

(** ** traces *)
Definition fine {V : Type} (p : string * stmt V) : bool := ct (snd p) && forallb known (tags (snd p)).
Lemma fine_points K : forallb fine (secret_points K) = true.
Proof. vm_compute. reflexivity. Qed.
Lemma secret_trace K {E : Type} (meth : string -> list E -> Prop) :
  (forall t u u', In t used -> meth t u -> meth t u' -> u = u') ->
  forall name prog, In (name, prog) (secret_points K) ->
  forall sub, (forall t vs, meth t (sub t vs)) -> forall sg m m', trace sub sg rho0 prog m = trace sub sg rho0 prog m'.
Proof.
  intros h name prog hin. pose proof (fine_points K) as hf. rewrite forallb_forall in hf. apply hf in hin. unfold fine in hin. cbn [snd] in hin.
  apply andb_true_iff in hin as [h1 h2]. apply (trace_const K meth prog h h1).
  intros t ht. rewrite forallb_forall in h2. apply known_cases, h2, ht.
Qed.
Lemma secret_51 : forall name prog, In (name, prog) (secret_points R51) ->
  forall sub, (forall tag vs, method code51 tag (sub tag vs)) -> forall sg m m', trace sub sg rho0 prog m = trace sub sg rho0 prog m'.
Proof. exact (secret_trace R51 (method code51) method51_one). Qed.
Lemma secret_25 : forall name prog, In (name, prog) (secret_points R25) ->
  forall sub, (forall tag vs, method code25 tag (sub tag vs)) -> forall sg m m', trace sub sg rho0 prog m = trace sub sg rho0 prog m'.
Proof. exact (secret_trace R25 (method code25) method25_one). Qed.
Lemma secret_64 : forall name prog, In (name, prog) (secret_points RAmd64) ->
  forall sub, (forall tag vs, method64 tag (sub tag vs)) -> forall sg m m', trace sub sg rho0 prog m = trace sub sg rho0 prog m'.
Proof. exact (secret_trace RAmd64 method64 method64_one). Qed.

Lemma ct_scalars : forallb (fun p => ct (snd p)) secret_scalars = true.
Proof. vm_compute. reflexivity. Qed.
Lemma secret_sc : forall name prog, In (name, prog) secret_scalars -> forall sg m m',
  trace (E:=Empty_set) nosub sg rho0 prog m = trace nosub sg rho0 prog m'.
Proof.
  intros name prog hin sg m m'. apply ct_trace; [reflexivity|]. pose proof ct_scalars as h. rewrite forallb_forall in h. exact (h _ hin).
Qed.
Lemma ct_code_sc : forallb (fun p => ct (snd p)) code_sc = true.
Proof. vm_compute. reflexivity. Qed.
Lemma secret_inverse : forall sub, (forall tag vs, method code_sc tag (sub tag vs)) -> forall sg m m',
  trace sub sg rho0 (d_sc_inverse 0 1 2) m = trace sub sg rho0 (d_sc_inverse 0 1 2) m'.
Proof.
  intros sub hs sg m m'. apply ct_trace_tags; [vm_compute; reflexivity|]. intros t ht vs vs'.
  assert (hk : forallb (fun t => existsb (String.eqb t) ["Square"; "Mul"]) (tags (d_sc_inverse 0 1 2)) = true) by (vm_compute; reflexivity).
  rewrite forallb_forall in hk. apply hk in ht. apply existsb_exists in ht as [u [hu e]]. apply String.eqb_eq in e. subst u.
  refine (method_one code_sc t _ _ ct_code_sc _ (hs t vs) (hs t vs')). right.
  destruct hu as [<-|[<-|[]]]; discriminate.
Qed.

(** ** results *)
Lemma len32 K : K = R51 \/ K = R25 \/ K = RAmd64 -> forall x, List.length (fst (o_bytes K x)) = 32%nat.
Proof. intros [-> | [-> | ->]]; intros []; reflexivity. Qed.

(** the programs compute the functions of the model *)
Lemma secret_results : forall K, K = R51 \/ K = R25 \/ K = RAmd64 -> forall m : GoLang.mem (fe K * Z)%type,
  ext_at K (after K "Point.Set" m 0%nat) 0 = ext_at K (m 1%nat) 0 /\
  ext_at K (after K "Point.Add" m 0%nat) 0 = ep_Add K (ext_at K (m 1%nat) 0) (ext_at K (m 2%nat) 0) /\
  ext_at K (after K "Point.Double" m 0%nat) 0 = ep_Double K (ext_at K (m 1%nat) 0) /\
  ext_at K (after K "Point.Sub" m 0%nat) 0 = ep_Sub K (ext_at K (m 1%nat) 0) (ext_at K (m 2%nat) 0) /\
  ext_at K (after K "Point.Neg" m 0%nat) 0 = ep_Neg K (ext_at K (m 1%nat) 0) /\
  ints K (after K "Point.BytesInto" m 1%nat) 32 = ep_RistrettoInto K (ext_at K (m 0%nat) 0) /\
  (int_at K (after K "Point.SetBytes" m 2%nat) 0 =? 1, ext_at K (after K "Point.SetBytes" m 0%nat) 0)%Z = ep_SetRistretto K (ints K (m 1%nat) 32) /\
  ext_at K (after K "Point.SetElligator" m 0%nat) 0 = pt_SetElligator K (ints K (m 1%nat) 32) /\
  ext_at K (after K "Point.ScalarMult" m 0%nat) 0 = ep_ScalarMult K (ext_at K (m 1%nat) 0) (ints K (m 2%nat) 32) /\
  ext_at K (after K "Point.ScalarMultTable" m 0%nat) 0 = tbl_ScalarMult K (table K (m 1%nat)) (ints K (m 2%nat) 32) /\
  int_at K (after K "Point.EqualsI" m 2%nat) 0 = ep_RistrettoEqualsI K (ext_at K (m 0%nat) 0) (ext_at K (m 1%nat) 0) /\
  ext_at K (after K "Point.ConditionalSet" m 0%nat) 0 = ep_ConditionalSet K (ext_at K (m 0%nat) 0) (ext_at K (m 1%nat) 0) (int_at K (m 2%nat) 0) /\
  table K (after K "ScalarMultTable.Compute" m 0%nat) = tbl_Compute K (ext_at K (m 1%nat) 0) /\
  (let m' := after K "ExtendedPoint.RistrettoElligator2Inverse" m in
   (int_at K (m' 2%nat) 0, map (fe_at K (m' 1%nat)) (seq 0 8), ext_at K (m' 0%nat) 0) = ep_RistrettoElligator2Inverse K (ext_at K (m 0%nat) 0)) /\
  fe_at K (after K "FieldElement.Add" m 0%nat) 0 = fe_Add K (fe_at K (m 1%nat) 0) (fe_at K (m 2%nat) 0) /\
  fe_at K (after K "FieldElement.Sub" m 0%nat) 0 = fe_Sub K (fe_at K (m 1%nat) 0) (fe_at K (m 2%nat) 0) /\
  fe_at K (after K "FieldElement.Inverse" m 0%nat) 0 = fe_Inverse K (fe_at K (m 1%nat) 0) /\
  (fe_at K (after K "FieldElement.Abs" m 0%nat) 0, fe_at K (after K "FieldElement.Abs" m 1%nat) 0) = fe_Abs K (fe_at K (m 1%nat) 0) /\
  fe_at K (after K "FieldElement.Exp22523" m 0%nat) 0 = fe_Exp22523 K (fe_at K (m 1%nat) 0) /\
  fe_at K (after K "FieldElement.InvSqrt" m 0%nat) 0 = fe_InvSqrt K (fe_at K (m 1%nat) 0) /\
  fe_at K (after K "FieldElement.Sqrt" m 0%nat) 0 = fe_Sqrt K (fe_at K (m 1%nat) 0) /\
  (int_at K (after K "FieldElement.InvSqrtI" m 2%nat) 0, fe_at K (after K "FieldElement.InvSqrtI" m 0%nat) 0) = fe_InvSqrtI K (fe_at K (m 1%nat) 0).
Proof.
  intros K hK m. refine (conj (link_ep_Set K m) _). refine (conj (link_ep_Add K m) _). refine (conj (link_ep_Double K m) _). refine (conj (link_ep_Sub K m) _). refine (conj (link_ep_Neg K m) _). refine (conj (link_ep_RistrettoInto K m (len32 K hK)) _). refine (conj (link_ep_SetRistretto K m (len32 K hK)) _). refine (conj (link_pt_SetElligator K m) _). refine (conj (link_ep_ScalarMult K rho0 m) _). refine (conj (link_tb_ScalarMult K rho0 m) _). refine (conj (link_ep_RistrettoEqualsI K m) _). refine (conj (link_ep_ConditionalSet K m) _). refine (conj (link_tb_Compute K rho0 m) _). refine (conj (link_ep_RistrettoElligator2Inverse K m) _). refine (conj (link_fe_Add K m) _). refine (conj (link_fe_Sub K m) _). refine (conj (link_fe_Inverse K m) _). refine (conj (link_fe_Abs K m) _). refine (conj (link_fe_Exp22523 K m) _). refine (conj (link_fe_InvSqrt K m) _). refine (conj (link_fe_Sqrt K m) _). exact (link_fe_InvSqrtI K m).
Qed.
Lemma scalar_results : forall m : GoLang.mem Z,
  bytes_of (after_sc "Scalar.BytesInto" m 1%nat) = sc_bytes (sc_of (m 0%nat)) /\
  (sc_of (m 2%nat) = scL -> sc_of (after_sc "Scalar.SetBytes" m 0%nat) = sc_setBytes (bytes_of (m 1%nat))) /\
  (sc_of (m 2%nat) = scZero -> sc_of (after_sc "Scalar.Neg" m 0%nat) = sc_neg (sc_of (m 1%nat))) /\
  (sc_of (m 3%nat) = scL -> sc_of (after_sc "Scalar.Add" m 0%nat) = sc_add (sc_of (m 1%nat)) (sc_of (m 2%nat))) /\
  sc_of (after_sc "Scalar.Sub" m 0%nat) = sc_sub (sc_of (m 1%nat)) (sc_of (m 2%nat)) /\
  sc_of (after_sc "Scalar.Set" m 0%nat) = sc_of (m 1%nat) /\
  sc_of (after_sc "Scalar.MulSub" m 0%nat) = sc_mulSub (sc_of (m 1%nat)) (sc_of (m 2%nat)) (sc_of (m 3%nat)) /\
  sc_of (after_sc "Scalar.MulAdd" m 0%nat) = sc_mulAdd (sc_of (m 1%nat)) (sc_of (m 2%nat)) (sc_of (m 3%nat)) /\
  sc_of (after_sc "Scalar.SetReduced" m 0%nat) = sc_setReduced (map (m 1%nat) (seq 0 64)) /\
  sc_of (after_sc "Scalar.Square" m 0%nat) = sc_square (sc_of (m 1%nat)) /\
  sc_of (after_sc "Scalar.Mul" m 0%nat) = sc_mul (sc_of (m 1%nat)) (sc_of (m 2%nat)) /\
  after_sc "Scalar.IsNonZeroI" m 1%nat 0%nat = sc_isNonZeroI (sc_of (m 0%nat)) /\
  after_sc "Scalar.EqualsI" m 2%nat 0%nat = sc_equalsI (sc_of (m 0%nat)) (sc_of (m 1%nat)) /\
  sc_of (after_sc "Scalar.ConditionalSet" m 0%nat) = sc_condSet (sc_of (m 0%nat)) (sc_of (m 1%nat)) (m 2%nat 0%nat).
Proof.
  intro m.
  refine (conj (eq_trans (eq_sym (runk_ok (E:=Empty_set) nosub _ rho0 m (fun m => bytes_of (m 1%nat)))) (link_sc_bytes m)) _).
  refine (conj (fun h => eq_trans (eq_sym (runk_ok (E:=Empty_set) nosub _ rho0 m (fun m => sc_of (m 0%nat)))) (link_sc_setBytes m h)) _).
  refine (conj (fun h => eq_trans (eq_sym (runk_ok (E:=Empty_set) nosub _ rho0 m (fun m => sc_of (m 0%nat)))) (link_sc_neg m h)) _).
  refine (conj (fun h => eq_trans (eq_sym (runk_ok (E:=Empty_set) nosub _ rho0 m (fun m => sc_of (m 0%nat)))) (link_sc_add m h)) _).
  refine (conj (eq_trans (eq_sym (runk_ok (E:=Empty_set) nosub _ rho0 m (fun m => sc_of (m 0%nat)))) (link_sc_sub m)) _).
  refine (conj eq_refl _).
  refine (conj (eq_trans (eq_sym (runk_ok (E:=Empty_set) nosub _ rho0 m (fun m => sc_of (m 0%nat)))) (link_sc_mulSub m)) _).
  refine (conj (eq_trans (eq_sym (runk_ok (E:=Empty_set) nosub _ rho0 m (fun m => sc_of (m 0%nat)))) (link_sc_mulAdd m)) _).
  refine (conj (eq_trans (eq_sym (runk_ok (E:=Empty_set) nosub _ rho0 m (fun m => sc_of (m 0%nat)))) (link_sc_setReduced m)) _).
  refine (conj (eq_trans (eq_sym (runk_ok (E:=Empty_set) nosub _ rho0 m (fun m => sc_of (m 0%nat)))) (link_sc_square m)) _).
  refine (conj (eq_trans (eq_sym (runk_ok (E:=Empty_set) nosub _ rho0 m (fun m => sc_of (m 0%nat)))) (link_sc_mul m)) _).
  refine (conj (eq_trans (eq_sym (runk_ok (E:=Empty_set) nosub _ rho0 m (fun m => m 1%nat 0%nat))) (link_sc_isNonZeroI m)) _).
  refine (conj (eq_trans (eq_sym (runk_ok (E:=Empty_set) nosub _ rho0 m (fun m => m 2%nat 0%nat))) (link_sc_equalsI m)) _).
  exact (eq_trans (eq_sym (runk_ok (E:=Empty_set) nosub _ rho0 m (fun m => sc_of (m 0%nat)))) (link_sc_condSet m)).
Qed.

Lemma strict_trace : forall m m', sc_of (m 2%nat) = scL -> sc_of (m' 2%nat) = scL ->
  snd (sc_setBytesStrict (sc_of (m 0%nat)) (bytes_of (m 1%nat))) = snd (sc_setBytesStrict (sc_of (m' 0%nat)) (bytes_of (m' 1%nat))) ->
  trace (E:=Empty_set) nosub (fun a => a) rho0 (d_sc_setBytesStrict 0 1 2 3 4) m = trace nosub (fun a => a) rho0 (d_sc_setBytesStrict 0 1 2 3 4) m'.
Proof. exact trace_sc_setBytesStrict. Qed.
Lemma other_results : 
  (forall m : GoLang.mem sc, final (E:=Empty_set) nosub (fun a => a) rho0 (d_sc_inverse 0 1 2) m 0%nat 0%nat = sc_inverse (m 1%nat 0%nat)) /\
  (forall m : GoLang.mem Z, sc_of (m 2%nat) = scL ->
    let m' := final (E:=Empty_set) nosub (fun a => a) rho0 (d_sc_setBytesStrict 0 1 2 3 4) m in
    (sc_of (m' 0%nat), m' 3%nat 0%nat =? 1)%Z = sc_setBytesStrict (sc_of (m 0%nat)) (bytes_of (m 1%nat))).
Proof. split; [exact link_sc_inverse|exact link_sc_setBytesStrict]. Qed.
Lemma backend_results : forall m : GoLang.mem Z,
  let F := fun s => final (E:=Empty_set) nosub (fun a => a) rho0 s m in
  fe51_of (F (d_r51_setBytes 0 1 2) 0%nat) = o_setBytes R51 (bytes_of (m 1%nat)) /\
  bytes_of (F (d_r51_bytes 0 1 2) 1%nat) = fst (o_bytes R51 (fe51_of (m 0%nat))) /\
  F (d_fe_IsNegativeI d_r51_bytes 0 1 2) 1%nat 0%nat = fst (fe_IsNegativeI R51 (fe51_of (m 0%nat))) /\
  F (d_fe_IsNonZeroI d_r51_bytes 0 1 2) 1%nat 0%nat = fst (fe_IsNonZeroI R51 (fe51_of (m 0%nat))) /\
  F (d_fe_EqualsI d_r51_bytes d_r51_sub 0 1 2 3) 2%nat 0%nat = fe_EqualsI R51 (fe51_of (m 0%nat)) (fe51_of (m 1%nat)) /\
  fe25_of (F (d_g25_setBytes 0 1 2) 0%nat) = o_setBytes R25 (bytes_of (m 1%nat)) /\
  bytes_of (F (d_g25_bytes 0 1 2) 1%nat) = fst (o_bytes R25 (fe25_of (m 0%nat))) /\
  F (d_fe_IsNegativeI d_g25_bytes 0 1 2) 1%nat 0%nat = fst (fe_IsNegativeI R25 (fe25_of (m 0%nat))) /\
  F (d_fe_IsNonZeroI d_g25_bytes 0 1 2) 1%nat 0%nat = fst (fe_IsNonZeroI R25 (fe25_of (m 0%nat))) /\
  F (d_fe_EqualsI d_g25_bytes d_g25_sub 0 1 2 3) 2%nat 0%nat = fe_EqualsI R25 (fe25_of (m 0%nat)) (fe25_of (m 1%nat)).
Proof.
  intro m. cbv zeta. refine (conj _ (conj _ (conj _ (conj _ (conj _ (conj _ (conj _ (conj _ (conj _ _))))))))).
  - exact (eq_trans (eq_sym (runk_ok (E:=Empty_set) nosub _ rho0 m (fun m => fe51_of (m 0%nat)))) (link_r51_setBytes m)).
  - exact (eq_trans (eq_sym (runk_ok (E:=Empty_set) nosub _ rho0 m (fun m => bytes_of (m 1%nat)))) (link_r51_bytes m)).
  - rewrite <- link51_IsNegativeI. reflexivity.
  - rewrite <- link51_IsNonZeroI. reflexivity.
  - apply link51_EqualsI.
  - exact (eq_trans (eq_sym (runk_ok (E:=Empty_set) nosub _ rho0 m (fun m => fe25_of (m 0%nat)))) (link_g25_setBytes m)).
  - change (o_bytes R25 (fe25_of (m 0%nat))) with (g25_bytes (fe25_of (m 0%nat))). rewrite <- link_g25_bytes, runk_ok. reflexivity.
  - rewrite <- link25_IsNegativeI. reflexivity.
  - rewrite <- link25_IsNonZeroI. reflexivity.
  - apply link25_EqualsI.
Qed.

Definition mz (b : Z) : GoLang.mem Z := fun a i => match a with
  | 1%nat => match i with 31%nat => b | _ => 0%Z end
  | 2%nat => nth i [0x5cf5d3ed; 0x5812631a; 0xa2f79cd6; 0x14def9de; 0; 0; 0; 0x10000000]%Z 0%Z
  | _ => 0%Z end.
Lemma strict_example : exists m m' : GoLang.mem Z, sc_of (m 2%nat) = scL /\ sc_of (m' 2%nat) = scL /\
  trace (E:=Empty_set) nosub (fun a => a) rho0 (d_sc_setBytesStrict 0 1 2 3 4) m <> trace nosub (fun a => a) rho0 (d_sc_setBytesStrict 0 1 2 3 4) m'.
Proof. exists (mz 0), (mz 0x20). split; [reflexivity|]. split; [reflexivity|]. vm_compute. discriminate. Qed.
Lemma lists_example : List.length (secret_points R51) = 22%nat /\ List.length secret_scalars = 14%nat /\
  exists prog, In ("Point.EqualsI", prog) (secret_points R51) /\
  List.length (trace (E:=Empty_set) nosub (fun a => a) rho0 prog (fun _ _ => (Fe51Code.Fe51 0 0 0 0 0, 0%Z))) = 21%nat.
Proof.
  refine (conj eq_refl (conj eq_refl (ex_intro _ _ (conj _ _)))); [|]. 
  - cbv beta delta [secret_points]. do 10 right. left. reflexivity.
  - vm_compute. reflexivity.
Qed.
