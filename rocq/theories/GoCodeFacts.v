(** The programs in the tables [code51], [code25], [code64], [code_sc] and [scalar_programs], which C42, C43 and C46 speak
    about, compute the operations of the backends; so does the variable-time selection. *)
From Coq Require Import ZArith List String Bool Lia.
From Verif Require Import Words ScalarCode ScalarModel Fe51Code Fe25Code FieldModel CurveModel Fe51Laws Fe25Laws Amd64Field
  GoLang GoLangFacts GoViews GoLimbCode GoLimbFacts GoLimbTests GoLimbTestsFacts GoCurveCode GoCurveFacts GoTrace GoSecret GoSecretFacts GoThreads GoResults.
Import ListNotations.
Open Scope string_scope.
Open Scope Z_scope.

(** the memory after the program called [name] *)
Definition ran (code : list (string * stmt Z)) (name : string) (m : GoLang.mem Z) : GoLang.mem Z :=
  match lookup name code with Some s => final (E:=Empty_set) nosub (fun a => a) rho0 s m | None => m end.

Local Strategy 2000 [final exec].
Local Notation by_run f e := (eq_trans (eq_sym (runk_ok (E:=Empty_set) nosub _ rho0 _ f)) e).
Lemma isOne K x : fe_IsOneI K x = fe_EqualsI K x (k_one K).
Proof. reflexivity. Qed.
Lemma link_r51_normalize nu : runk (E:=Empty_set) nosub rho0 (d_r51_setReduced 0 0 1) nu (fun m => fe51_of (m 0%nat)) = r51_setReduced (fe51_of (nu 0%nat)).
Proof. unfold d_r51_setReduced, r51_setReduced. red_prog. reflexivity. Qed.

Lemma code_51 (m : GoLang.mem Z) (x := fe51_of (m 0%nat)) (y := fe51_of (m 1%nat)) (z := fe51_of (m 2%nat)) :
  fe51_of (ran code51 "add" m 0%nat) = o_add R51 y z /\ fe51_of (ran code51 "sub" m 0%nat) = o_sub R51 y z /\
  fe51_of (ran code51 "Mul" m 0%nat) = o_mul R51 y z /\ fe51_of (ran code51 "Square" m 0%nat) = o_square R51 y /\
  fe51_of (ran code51 "DoubledSquare" m 0%nat) = o_doubledSquare R51 y /\ fe51_of (ran code51 "Neg" m 0%nat) = o_neg R51 y /\
  fe51_of (ran code51 "ConditionalSet" m 0%nat) = o_condSet R51 x y (m 2%nat 0%nat) /\
  fe51_of (ran code51 "normalize" m 0%nat) = o_normalize R51 x /\ fe51_of (ran code51 "Set" m 0%nat) = y /\
  fe51_of (ran code51 "SetBytes" m 0%nat) = o_setBytes R51 (bytes_of (m 1%nat)) /\
  (bytes_of (ran code51 "BytesInto" m 1%nat) = fst (o_bytes R51 x)) /\
  (ran code51 "IsNegativeI" m 1%nat 0%nat, fe51_of (ran code51 "IsNegativeI" m 0%nat)) = fe_IsNegativeI R51 x /\
  (ran code51 "IsNonZeroI" m 1%nat 0%nat, fe51_of (ran code51 "IsNonZeroI" m 0%nat)) = fe_IsNonZeroI R51 x /\
  (y = k_one R51 -> ran code51 "IsOneI" m 2%nat 0%nat = fe_IsOneI R51 x) /\
  ran code51 "EqualsI" m 2%nat 0%nat = fe_EqualsI R51 x y.
Proof.
  refine (conj (by_run (fun m => fe51_of (m 0%nat)) (link_r51_add m)) _).
  refine (conj (by_run (fun m => fe51_of (m 0%nat)) (link_r51_sub m)) _).
  refine (conj (by_run (fun m => fe51_of (m 0%nat)) (link_r51_mul m)) _).
  refine (conj (by_run (fun m => fe51_of (m 0%nat)) (link_r51_square m)) _).
  refine (conj (by_run (fun m => fe51_of (m 0%nat)) (link_r51_doubledSquare m)) _).
  refine (conj (by_run (fun m => fe51_of (m 0%nat)) (link_r51_neg m)) _).
  refine (conj (by_run (fun m => fe51_of (m 0%nat)) (link_r51_condSet m)) _).
  refine (conj (by_run (fun m => fe51_of (m 0%nat)) (link_r51_normalize m)) _).
  refine (conj eq_refl _).
  refine (conj (by_run (fun m => fe51_of (m 0%nat)) (link_r51_setBytes m)) _).
  refine (conj (by_run (fun m => bytes_of (m 1%nat)) (link_r51_bytes m)) _).
  refine (conj (link51_IsNegativeI m) (conj (link51_IsNonZeroI m) (conj _ (link51_EqualsI m)))).
  exact (fun e => eq_trans (link51_EqualsI m) (eq_trans (f_equal (fe_EqualsI R51 x) e) (eq_sym (isOne R51 x)))).
Qed.
Lemma neg_64 x : fe_IsNegativeI R51 x = fe_IsNegativeI RAmd64 x.
Proof. unfold fe_IsNegativeI. cbn [o_bytes R51 RAmd64]. reflexivity. Qed.
Lemma nonzero_64 x : fe_IsNonZeroI R51 x = fe_IsNonZeroI RAmd64 x.
Proof. unfold fe_IsNonZeroI. cbn [o_bytes R51 RAmd64]. reflexivity. Qed.
Lemma equals_64 x y : fe_EqualsI R51 x y = fe_EqualsI RAmd64 x y.
Proof. unfold fe_EqualsI. cbv zeta. rewrite <- nonzero_64. reflexivity. Qed.
Lemma code_64 (m : GoLang.mem Z) (x := fe51_of (m 0%nat)) (y := fe51_of (m 1%nat)) (z := fe51_of (m 2%nat)) :
  fe51_of (ran code64 "add" m 0%nat) = o_add RAmd64 y z /\ fe51_of (ran code64 "sub" m 0%nat) = o_sub RAmd64 y z /\
  fe51_of (ran code64 "Neg" m 0%nat) = o_neg RAmd64 y /\
  fe51_of (ran code64 "ConditionalSet" m 0%nat) = o_condSet RAmd64 x y (m 2%nat 0%nat) /\
  fe51_of (ran code64 "normalize" m 0%nat) = o_normalize RAmd64 x /\ fe51_of (ran code64 "Set" m 0%nat) = y /\
  fe51_of (ran code64 "SetBytes" m 0%nat) = o_setBytes RAmd64 (bytes_of (m 1%nat)) /\
  (bytes_of (ran code64 "BytesInto" m 1%nat) = fst (o_bytes RAmd64 x)) /\
  (ran code64 "IsNegativeI" m 1%nat 0%nat, fe51_of (ran code64 "IsNegativeI" m 0%nat)) = fe_IsNegativeI RAmd64 x /\
  (ran code64 "IsNonZeroI" m 1%nat 0%nat, fe51_of (ran code64 "IsNonZeroI" m 0%nat)) = fe_IsNonZeroI RAmd64 x /\
  (y = k_one RAmd64 -> ran code64 "IsOneI" m 2%nat 0%nat = fe_IsOneI RAmd64 x) /\
  ran code64 "EqualsI" m 2%nat 0%nat = fe_EqualsI RAmd64 x y.
Proof.
  refine (conj (by_run (fun m => fe51_of (m 0%nat)) (link_r51_add m)) _).
  refine (conj (by_run (fun m => fe51_of (m 0%nat)) (link_r51_sub m)) _).
  refine (conj (by_run (fun m => fe51_of (m 0%nat)) (link_r51_neg m)) _).
  refine (conj (by_run (fun m => fe51_of (m 0%nat)) (link_r51_condSet m)) _).
  refine (conj (by_run (fun m => fe51_of (m 0%nat)) (link_r51_normalize m)) _).
  refine (conj eq_refl _).
  refine (conj (by_run (fun m => fe51_of (m 0%nat)) (link_r51_setBytes m)) _).
  refine (conj (by_run (fun m => bytes_of (m 1%nat)) (link_r51_bytes m)) _).
  refine (conj (eq_trans (link51_IsNegativeI m) (neg_64 _)) (conj (eq_trans (link51_IsNonZeroI m) (nonzero_64 _))
    (conj _ (eq_trans (link51_EqualsI m) (equals_64 _ _))))).
  exact (fun e => eq_trans (eq_trans (link51_EqualsI m) (equals_64 _ _)) (eq_trans (f_equal (fe_EqualsI RAmd64 x) e) (eq_sym (isOne RAmd64 x)))).
Qed.
Lemma code_25 (m : GoLang.mem Z) (x := fe25_of (m 0%nat)) (y := fe25_of (m 1%nat)) (z := fe25_of (m 2%nat)) :
  fe25_of (ran code25 "add" m 0%nat) = o_add R25 y z /\ fe25_of (ran code25 "sub" m 0%nat) = o_sub R25 y z /\
  fe25_of (ran code25 "Mul" m 0%nat) = o_mul R25 y z /\ fe25_of (ran code25 "Square" m 0%nat) = o_square R25 y /\
  fe25_of (ran code25 "DoubledSquare" m 0%nat) = o_doubledSquare R25 y /\ fe25_of (ran code25 "Neg" m 0%nat) = o_neg R25 y /\
  fe25_of (ran code25 "ConditionalSet" m 0%nat) = o_condSet R25 x y (m 2%nat 0%nat) /\
  fe25_of (ran code25 "normalize" m 0%nat) = o_normalize R25 x /\ fe25_of (ran code25 "Set" m 0%nat) = y /\
  fe25_of (ran code25 "SetBytes" m 0%nat) = o_setBytes R25 (bytes_of (m 1%nat)) /\
  (bytes_of (ran code25 "BytesInto" m 1%nat), fe25_of (ran code25 "BytesInto" m 0%nat)) = o_bytes R25 x /\
  (ran code25 "IsNegativeI" m 1%nat 0%nat, fe25_of (ran code25 "IsNegativeI" m 0%nat)) = fe_IsNegativeI R25 x /\
  (ran code25 "IsNonZeroI" m 1%nat 0%nat, fe25_of (ran code25 "IsNonZeroI" m 0%nat)) = fe_IsNonZeroI R25 x /\
  (y = k_one R25 -> ran code25 "IsOneI" m 2%nat 0%nat = fe_IsOneI R25 x) /\
  ran code25 "EqualsI" m 2%nat 0%nat = fe_EqualsI R25 x y.
Proof.
  refine (conj (by_run (fun m => fe25_of (m 0%nat)) (link_g25_add m)) _).
  refine (conj (by_run (fun m => fe25_of (m 0%nat)) (link_g25_sub m)) _).
  refine (conj (by_run (fun m => fe25_of (m 0%nat)) (link_g25_mul m)) _).
  refine (conj (by_run (fun m => fe25_of (m 0%nat)) (link_g25_square m)) _).
  refine (conj (by_run (fun m => fe25_of (m 0%nat)) (link_g25_doubledSquare m)) _).
  refine (conj (by_run (fun m => fe25_of (m 0%nat)) (link_g25_neg m)) _).
  refine (conj (by_run (fun m => fe25_of (m 0%nat)) (link_g25_condSet m)) _).
  refine (conj (by_run (fun m => fe25_of (m 0%nat)) (link_g25_normalize m)) _).
  refine (conj eq_refl _).
  refine (conj (by_run (fun m => fe25_of (m 0%nat)) (link_g25_setBytes m)) _).
  refine (conj (by_run (fun m => (bytes_of (m 1%nat), fe25_of (m 0%nat))) (link_g25_bytes m)) _).
  refine (conj (link25_IsNegativeI m) (conj (link25_IsNonZeroI m) (conj _ (link25_EqualsI m)))).
  exact (fun e => eq_trans (link25_EqualsI m) (eq_trans (f_equal (fe_EqualsI R25 x) e) (eq_sym (isOne R25 x)))).
Qed.
Lemma code_scalars (m : GoLang.mem Z) :
  sc_of (ran code_sc "Square" m 0%nat) = sc_square (sc_of (m 1%nat)) /\
  sc_of (ran code_sc "Mul" m 0%nat) = sc_mul (sc_of (m 1%nat)) (sc_of (m 2%nat)) /\
  (sc_of (m 2%nat) = scL -> let m' := ran scalar_programs "Scalar.SetBytesStrict" m in
    (sc_of (m' 0%nat), m' 3%nat 0%nat =? 1) = sc_setBytesStrict (sc_of (m 0%nat)) (bytes_of (m 1%nat))).
Proof.
  refine (conj (by_run (fun m => sc_of (m 0%nat)) (link_sc_square m)) _).
  refine (conj (by_run (fun m => sc_of (m 0%nat)) (link_sc_mul m)) _).
  exact (link_sc_setBytesStrict m).
Qed.


(** varTimeSelectPoint: p is variable 0, the table variable 1, b variable 2 *)
Section Select.
Context (K : FeOps).
Lemma final_If c args s1 s2 (m : GoLang.mem (fe K * Z)) : final (E:=Empty_set) nosub (fun a => a) rho0 (If c args s1 s2) m =
  if c (fst (fetches (E:=Empty_set) (fun a => a) rho0 m args)) then final (E:=Empty_set) nosub (fun a => a) rho0 s1 m else final (E:=Empty_set) nosub (fun a => a) rho0 s2 m.
Proof.
  unfold final. cbn [exec]. destruct (fetches (fun a => a) rho0 m args) as [vs t]. cbn [fst].
  destruct (c vs); [destruct (exec nosub (fun a => a) rho0 s1 m) | destruct (exec nosub (fun a => a) rho0 s2 m)]; reflexivity.
Qed.
Lemma row_at (c : nat -> fe K * Z) k : (k < 8)%nat -> nth_error (nth 0 (table K c) []) k = Some (niels_at K c (3 * k)).
Proof. intro h. do 8 (destruct k as [|k]; [reflexivity|]). lia. Qed.
Lemma code_vtSelect (m : GoLang.mem (fe K * Z)) (b := int_at K (m 2%nat) 0) : -8 <= b <= 8 ->
  tbl_vtSelect K (table K (m 1%nat)) 0 b =
    Some (if b =? 0 then None else Some (niels_at K
      (final (E:=Empty_set) nosub (fun a => a) rho0 (g_tb_varTimeSelectPoint K (1%nat, C 0) (0%nat, C 0) (C 0) 2) m 0%nat) 0)).
Proof.
  intro hb. unfold b, int_at in *. clear b. unfold tbl_vtSelect, g_tb_varTimeSelectPoint. rewrite !final_If.
  cbn [fetches fetch ixv snd fst].
  destruct (Z.eqb_spec (snd (m 2%nat 0%nat)) 0) as [e|e]; [reflexivity|].
  destruct (Z.ltb_spec (snd (m 2%nat 0%nat)) 0) as [hs|hs].
  - rewrite (i32_small (- _)) by lia. rewrite (i32_small (_ - 1)) by lia. rewrite row_at by lia. apply f_equal. apply f_equal.
    unfold np_Neg, niels_at. cbn [nYpX nYmX nXY2D]. reflexivity.
  - rewrite (i32_small (_ - 1)) by lia. rewrite row_at by lia. apply f_equal. apply f_equal. unfold niels_at. reflexivity.
Qed.
End Select.
