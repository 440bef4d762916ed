(** Properties C42, C43 and C46, continued: the programs whose traces and effects they describe are the methods of the
    backends.  [ran code name m] is the memory after the program [name] of the table [code]; parameters are
    variables 0, 1, ... in order. *)
From Coq Require Import ZArith List String.
From Verif Require Import Words ScalarCode ScalarModel Fe51Code Fe25Code FieldModel CurveModel Fe51Laws Fe25Laws Amd64Field
  GoLang GoViews GoTrace GoSecret GoResults GoCodeFacts.
Import ListNotations.
Open Scope string_scope.
Open Scope Z_scope.

(** pure Go on 64-bit machines *)
Theorem C42_code_r51 : forall m : GoLang.mem Z, let x := fe51_of (m 0%nat) in let y := fe51_of (m 1%nat) in let z := fe51_of (m 2%nat) in
  fe51_of (ran code51 "add" m 0%nat) = o_add R51 y z /\ fe51_of (ran code51 "sub" m 0%nat) = o_sub R51 y z /\
  fe51_of (ran code51 "Mul" m 0%nat) = o_mul R51 y z /\ fe51_of (ran code51 "Square" m 0%nat) = o_square R51 y /\
  fe51_of (ran code51 "DoubledSquare" m 0%nat) = o_doubledSquare R51 y /\ fe51_of (ran code51 "Neg" m 0%nat) = o_neg R51 y /\
  fe51_of (ran code51 "ConditionalSet" m 0%nat) = o_condSet R51 x y (m 2%nat 0%nat) /\
  fe51_of (ran code51 "normalize" m 0%nat) = o_normalize R51 x /\ fe51_of (ran code51 "Set" m 0%nat) = y /\
  fe51_of (ran code51 "SetBytes" m 0%nat) = o_setBytes R51 (bytes_of (m 1%nat)) /\
  (bytes_of (ran code51 "BytesInto" m 1%nat) = fst (o_bytes R51 x)) /\
  (ran code51 "IsNegativeI" m 1%nat 0%nat, fe51_of (ran code51 "IsNegativeI" m 0%nat)) = fe_IsNegativeI R51 x /\
  (ran code51 "IsNonZeroI" m 1%nat 0%nat, fe51_of (ran code51 "IsNonZeroI" m 0%nat)) = fe_IsNonZeroI R51 x /\
  (y = k_one R51 -> ran code51 "IsOneI" m 2%nat 0%nat = fe_IsOneI R51 x) /\
  ran code51 "EqualsI" m 2%nat 0%nat = fe_EqualsI R51 x y.
Proof. exact code_51. Qed.
Print Assumptions C42_code_r51.

(** amd64, without the assembly (C41) *)
Theorem C42_code_amd64 : forall m : GoLang.mem Z, let x := fe51_of (m 0%nat) in let y := fe51_of (m 1%nat) in let z := fe51_of (m 2%nat) in
  fe51_of (ran code64 "add" m 0%nat) = o_add RAmd64 y z /\ fe51_of (ran code64 "sub" m 0%nat) = o_sub RAmd64 y z /\
  fe51_of (ran code64 "Neg" m 0%nat) = o_neg RAmd64 y /\
  fe51_of (ran code64 "ConditionalSet" m 0%nat) = o_condSet RAmd64 x y (m 2%nat 0%nat) /\
  fe51_of (ran code64 "normalize" m 0%nat) = o_normalize RAmd64 x /\ fe51_of (ran code64 "Set" m 0%nat) = y /\
  fe51_of (ran code64 "SetBytes" m 0%nat) = o_setBytes RAmd64 (bytes_of (m 1%nat)) /\
  (bytes_of (ran code64 "BytesInto" m 1%nat) = fst (o_bytes RAmd64 x)) /\
  (ran code64 "IsNegativeI" m 1%nat 0%nat, fe51_of (ran code64 "IsNegativeI" m 0%nat)) = fe_IsNegativeI RAmd64 x /\
  (ran code64 "IsNonZeroI" m 1%nat 0%nat, fe51_of (ran code64 "IsNonZeroI" m 0%nat)) = fe_IsNonZeroI RAmd64 x /\
  (y = k_one RAmd64 -> ran code64 "IsOneI" m 2%nat 0%nat = fe_IsOneI RAmd64 x) /\
  ran code64 "EqualsI" m 2%nat 0%nat = fe_EqualsI RAmd64 x y.
Proof. exact code_64. Qed.
Print Assumptions C42_code_amd64.

(** generic builds; BytesInto, IsNegativeI and IsNonZeroI also change their receiver *)
Theorem C42_code_generic : forall m : GoLang.mem Z, let x := fe25_of (m 0%nat) in let y := fe25_of (m 1%nat) in let z := fe25_of (m 2%nat) in
  fe25_of (ran code25 "add" m 0%nat) = o_add R25 y z /\ fe25_of (ran code25 "sub" m 0%nat) = o_sub R25 y z /\
  fe25_of (ran code25 "Mul" m 0%nat) = o_mul R25 y z /\ fe25_of (ran code25 "Square" m 0%nat) = o_square R25 y /\
  fe25_of (ran code25 "DoubledSquare" m 0%nat) = o_doubledSquare R25 y /\ fe25_of (ran code25 "Neg" m 0%nat) = o_neg R25 y /\
  fe25_of (ran code25 "ConditionalSet" m 0%nat) = o_condSet R25 x y (m 2%nat 0%nat) /\
  fe25_of (ran code25 "normalize" m 0%nat) = o_normalize R25 x /\ fe25_of (ran code25 "Set" m 0%nat) = y /\
  fe25_of (ran code25 "SetBytes" m 0%nat) = o_setBytes R25 (bytes_of (m 1%nat)) /\
  (bytes_of (ran code25 "BytesInto" m 1%nat), fe25_of (ran code25 "BytesInto" m 0%nat)) = o_bytes R25 x /\
  (ran code25 "IsNegativeI" m 1%nat 0%nat, fe25_of (ran code25 "IsNegativeI" m 0%nat)) = fe_IsNegativeI R25 x /\
  (ran code25 "IsNonZeroI" m 1%nat 0%nat, fe25_of (ran code25 "IsNonZeroI" m 0%nat)) = fe_IsNonZeroI R25 x /\
  (y = k_one R25 -> ran code25 "IsOneI" m 2%nat 0%nat = fe_IsOneI R25 x) /\
  ran code25 "EqualsI" m 2%nat 0%nat = fe_EqualsI R25 x y.
Proof. exact code_25. Qed.
Print Assumptions C42_code_generic.

(** the variable-time selection of the Example [C42_contrast] *)
Theorem C42_contrast_code : forall K (m : GoLang.mem (fe K * Z)), let b := int_at K (m 2%nat) 0 in -8 <= b <= 8 ->
  tbl_vtSelect K (table K (m 1%nat)) 0 b =
    Some (if b =? 0 then None else Some (niels_at K
      (final (E:=Empty_set) nosub (fun a => a) rho0 (g_tb_varTimeSelectPoint K (1%nat, C 0) (0%nat, C 0) (C 0) 2) m 0%nat) 0)).
Proof. exact code_vtSelect. Qed.
Print Assumptions C42_contrast_code.

(** the multiplications called by Scalar.Inverse, and SetBytesStrict in the list of C46 *)
Theorem C43_code_scalars : forall m : GoLang.mem Z,
  sc_of (ran code_sc "Square" m 0%nat) = sc_square (sc_of (m 1%nat)) /\
  sc_of (ran code_sc "Mul" m 0%nat) = sc_mul (sc_of (m 1%nat)) (sc_of (m 2%nat)) /\
  (sc_of (m 2%nat) = scL -> let m' := ran scalar_programs "Scalar.SetBytesStrict" m in
    (sc_of (m' 0%nat), m' 3%nat 0%nat =? 1) = sc_setBytesStrict (sc_of (m 0%nat)) (bytes_of (m 1%nat))).
Proof. exact code_scalars. Qed.
Print Assumptions C43_code_scalars.

(** The hypotheses can be met. *)
Example C42_code_ex : exists m : GoLang.mem Z, fe51_of (m 1%nat) = k_one R51 /\ fe25_of (m 1%nat) = k_one R25 /\ sc_of (m 2%nat) = scL.
Proof.
  exists (fun a i => match a with
    | 1%nat => match i with O => 1 | _ => 0 end
    | _ => nth i [0x5cf5d3ed; 0x5812631a; 0xa2f79cd6; 0x14def9de; 0; 0; 0; 0x10000000] 0 end).
  repeat split; reflexivity.
Qed.
