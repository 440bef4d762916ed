(** Property C59: no array index or slice is out of range, in any build, for any operands, with one exception.

    The functions [ck_...] are transcriptions of the code in which every computed index is checked, as Go does; they are [None]
    when an index is out of range.  Points, tables and field elements are arbitrary limbs: nothing is assumed about the numbers
    in them, only that the arrays have the lengths that their types say.  The theorems also say that the results are those of
    the model used elsewhere, which does not check. *)
From Coq Require Import ZArith List Bool.
From Verif Require Import Words ScalarModel FieldModel CurveModel RistrettoModel Backends CheckedModel CheckedFacts.
Import ListNotations.
Open Scope Z_scope.

Theorem C59_windows : forall s w5 w4, length s = 32%nat -> length w5 = 51%nat -> length w4 = 64%nat ->
  ck_computeScalarWindow5 s w5 = Some (computeScalarWindow5 s) /\ ck_computeScalarWindow4 s w4 = Some (computeScalarWindow4 s) /\
  ck_computeScalar5NAF s = computeScalar5NAF s.
Proof. exact (fun s w5 w4 hs h5 h4 => conj (proj1 (window5_ck s w5 hs h5)) (conj (proj1 (window4_ck s w4 hs h4)) (naf_ck s hs))). Qed.
Print Assumptions C59_windows.

Theorem C59_scalarMult : forall b q s, length s = 32%nat -> ck_ep_ScalarMult (ops b) q s = Some (ep_ScalarMult (ops b) q s).
Proof. exact (fun b => ep_ScalarMult_ck (ops b)). Qed.
Print Assumptions C59_scalarMult.

Theorem C59_varTime : forall b q s, bytes 32 s ->
  exists r, ck_ep_VarTimeScalarMult (ops b) q s = Some r /\ ep_VarTimeScalarMult (ops b) q s = Some r.
Proof. exact (fun b => ep_VarTimeScalarMult_ck (ops b)). Qed.
Print Assumptions C59_varTime.

Theorem C59_table : forall b t p, shape (ops b) t ->
  ck_tbl_Compute (ops b) t p = Some (tbl_Compute (ops b) p) /\ shape (ops b) (tbl_Compute (ops b) p).
Proof. exact (fun b => tbl_Compute_ck (ops b)). Qed.
Print Assumptions C59_table.

Theorem C59_tableMult : forall b t s, shape (ops b) t -> length s = 32%nat ->
  ck_tbl_ScalarMult (ops b) t s = Some (tbl_ScalarMult (ops b) t s).
Proof. exact (fun b => tbl_ScalarMult_ck (ops b)). Qed.
Print Assumptions C59_tableMult.

(** The exception: the variable time multiplication with a table panics exactly for the scalars above
    [2^255 + 7 (2^252 - 1) / 15], whatever is in the table. *)
Theorem C59_tableVarTime : forall b t s, shape (ops b) t -> bytes 32 s ->
  ck_tbl_VarTimeScalarMult (ops b) t s = tbl_VarTimeScalarMult (ops b) t s /\
  (ck_tbl_VarTimeScalarMult (ops b) t s = None <-> 2 ^ 255 + 7 * ((2 ^ 252 - 1) / 15) < le_val s).
Proof. exact tblVT_ck. Qed.
Print Assumptions C59_tableVarTime.

Theorem C59_tableVarTime_refuted : exists s, length s = 32%nat /\ forall b t, shape (ops b) t -> ck_tbl_VarTimeScalarMult (ops b) t s = None.
Proof. exact (ex_intro _ (repeat 255 32) (conj (repeat_length 255 32) tblVT_panics)). Qed.
Print Assumptions C59_tableVarTime_refuted.

Theorem C59_elligator : forall b p fes, length fes = 8%nat ->
  ck_ep_RistrettoElligator2Inverse (ops b) p fes = Some (ep_RistrettoElligator2Inverse (ops b) p).
Proof. exact (fun b p fes h => proj1 (ell_inv_ck (ops b) p fes h)). Qed.
Print Assumptions C59_elligator.

Theorem C59_lizard : forall b sha256, (forall d, length (sha256 d) = 32%nat) ->
  (forall p buf, length buf = 16%nat -> ck_pt_LizardInto (ops b) sha256 p buf = Some (pt_LizardInto (ops b) sha256 p buf)) /\
  (forall d, length d = 16%nat -> ck_pt_SetLizard (ops b) sha256 d = Some (pt_SetLizard (ops b) sha256 d)).
Proof. exact (fun b sha h => conj (fun p buf => lizard_ck b sha p buf h) (fun d => SetLizard_ck (ops b) sha d (h d))). Qed.
Print Assumptions C59_lizard.

Theorem C59_bigInt : forall b, (forall x, ck_sc_bigInt x = Some (sc_bigInt x)) /\ (forall n, ck_sc_setBigInt n = Some (sc_setBigInt n)) /\
  (forall x, ck_fe_BigInt (ops b) x = Some (fe_BigInt (ops b) x)) /\ (forall n, ck_fe_SetBigInt (ops b) n = Some (fe_SetBigInt (ops b) n)).
Proof. exact (fun b => conj sc_bigInt_ck (conj sc_setBigInt_ck (conj (fe_bigInt_ck b) (fe_SetBigInt_ck (ops b))))). Qed.
Print Assumptions C59_bigInt.

(** Non-vacuity: the precomputed tables have the shape of their type, and the checks can fail. *)
Example C59_ex_shape : forall b, shape (ops b) (baseTable b).
Proof. exact base_shape. Qed.
Example C59_ex_check : get [10; 20; 30] 2 = Some 30 /\ get [10; 20; 30] 3 = None /\ get [10; 20; 30] (-1) = None /\
  set [10; 20; 30] 1 7 = Some [10; 7; 30] /\ set [10; 20; 30] 3 7 = None /\ ck_load8u [1; 2; 3; 4; 5; 6; 7] = None /\
  sub_slice [10; 20; 30] 1 3 = Some [20; 30] /\ sub_slice [10; 20; 30] 1 4 = None /\
  ck_computeScalarWindow4 (repeat 255 32) (repeat 0 64) = Some (-1 :: repeat 0 62 ++ [16]).
Proof. vm_compute. repeat split; reflexivity. Qed.
