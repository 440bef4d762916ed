(** Property C41: the amd64 assembly [feMul] and [feSquare].

    [asm_feMul], [asm_feSquare] (Amd64Code.v) are the instruction lists of field_amd64.s and [Amd64Model.run] executes
    them to RET; [None] would be a use of an unknown carry flag.  The limbs of a field element [x] lie at the
    addresses a, a+8, .., a+32 ([fe_at m a x]); [args 0], [args 8], [args 16] are the pointers passed on the
    stack.  [v51 x] is the integer with limbs [x] and [bnd51 b x] bounds each limb by 0 and [b]. *)
From Coq Require Import ZArith List Lia.
From Verif Require Import Words Primes Fe51Code Fe51Proofs FieldModel Fe51Laws BaseTable51 Amd64Model Amd64Code Amd64Field Amd64Proofs
  Amd64Laws ApiModel ApiSpec ApiProofs ApiIdeal Generic25.
Import ListNotations.
Open Scope Z_scope.

(** From every machine state that holds the operands, for every position of operands and result (also
    the same), the code runs to its end, stores limbs of a representative of the product, and changes no other memory. *)
Theorem C41_feMul : forall args s x y,
  ptr (args 0) -> ptr (args 8) -> ptr (args 16) -> fe_at (mem s) (args 8) x -> fe_at (mem s) (args 16) y ->
  exists s', Amd64Model.run args asm_feMul s = Some s' /\ fe_at (mem s') (args 0) (amd64_mul x y) /\
    (forall a, ~ (a = args 0 \/ a = args 0 + 8 \/ a = args 0 + 16 \/ a = args 0 + 24 \/ a = args 0 + 32) -> mem s' a = mem s a).
Proof. exact feMul_any_placement. Qed.
Print Assumptions C41_feMul.

Theorem C41_feSquare : forall args s x,
  ptr (args 0) -> ptr (args 8) -> fe_at (mem s) (args 8) x ->
  exists s', Amd64Model.run args asm_feSquare s = Some s' /\ fe_at (mem s') (args 0) (amd64_square x) /\
    (forall a, ~ (a = args 0 \/ a = args 0 + 8 \/ a = args 0 + 16 \/ a = args 0 + 24 \/ a = args 0 + 32) -> mem s' a = mem s a).
Proof. exact feSquare_any_placement. Qed.
Print Assumptions C41_feSquare.

(** limbs up to 4 (2^52 + 2^16) *)
Theorem C41_mul : forall x y, bnd51 (2 ^ 54 + 2 ^ 18) x -> bnd51 (2 ^ 54 + 2 ^ 18) y ->
  bnd51 (2 ^ 51 + 2 ^ 15) (amd64_mul x y) /\ v51 (amd64_mul x y) mod p = (v51 x * v51 y) mod p.
Proof. exact fA_mul. Qed.
Print Assumptions C41_mul.

Theorem C41_square : forall x, bnd51 (2 ^ 54 + 2 ^ 18) x ->
  bnd51 (2 ^ 51 + 2 ^ 15) (amd64_square x) /\ v51 (amd64_square x) mod p = (v51 x * v51 x) mod p.
Proof. exact fA_square. Qed.
Print Assumptions C41_square.

(** DoubledSquare of field_amd64.go, which adds the square to itself *)
Theorem C41_doubledSquare : forall x, bnd51 (2 ^ 54 + 2 ^ 18) x ->
  bnd51 (2 ^ 52 + 2 ^ 16) (amd64_doubledSquare x) /\ v51 (amd64_doubledSquare x) mod p = (2 * (v51 x * v51 x)) mod p.
Proof. exact fA_doubledSquare. Qed.
Print Assumptions C41_doubledSquare.

(** Agreement with the Go code of field_mul64.go. *)
Theorem C41_agree : forall x y, bnd51 (2 ^ 54 - 1) x -> bnd51 (2 ^ 54 - 1) y ->
  v51 (amd64_mul x y) mod p = v51 (r51_mul x y) mod p /\ v51 (amd64_square x) mod p = v51 (r51_square x) mod p.
Proof. exact agree_mul. Qed.
Print Assumptions C41_agree.

Theorem C41_agree_doubledSquare : forall x, bnd51 (2 ^ 53) x ->
  v51 (amd64_doubledSquare x) mod p = v51 (r51_doubledSquare x) mod p.
Proof. exact agree_doubledSquare. Qed.
Print Assumptions C41_agree_doubledSquare.

(** And so the whole API: every program of calls returns the same values on both builds. *)
Theorem C41_api : forall prog, Forall well_typed prog -> irun enc dec ell lizenc lizdec inv prog iinit <> None ->
  exists os, option_map fst (ApiModel.run RAmd64 r51_baseTable prog (init RAmd64)) = Some os /\
             option_map fst (ApiModel.run R51 r51_baseTable prog (init R51)) = Some os.
Proof. exact agreeA. Qed.
Print Assumptions C41_api.

(** All limbs at the bound; result stored over the first operand. *)
Example C41_case :
  let m := 18014398509744128 in
  let x := Fe51 m m m m m in let y := Fe51 m 0 1 2 m in
  let args := fun o => if o =? 16 then 8192 else 4096 in
  bnd51 (2 ^ 54 + 2 ^ 18) x /\ bnd51 (2 ^ 54 + 2 ^ 18) y /\ bnd51 (2 ^ 54 - 1) (Fe51 (m - 262145) 7 0 3 5) /\
  ptr (args 0) /\ ptr (args 8) /\ ptr (args 16) /\ fe_at (mem (mach_init x y)) (args 8) x /\ fe_at (mem (mach_init x y)) (args 16) y /\
  (exists prog, prog <> [] /\ Forall well_typed prog /\ irun enc dec ell lizenc lizdec inv prog iinit <> None).
Proof.
  cbv zeta. refine (conj _ (conj _ (conj _ (conj _ (conj _ (conj _ (conj _ (conj _ _)))))))).
  - unfold bnd51. lia.
  - unfold bnd51. lia.
  - unfold bnd51. lia.
  - unfold ptr. cbn. lia.
  - unfold ptr. cbn. lia.
  - unfold ptr. cbn. lia.
  - exact (mem_init_x (Fe51 _ _ _ _ _) (Fe51 _ _ _ _ _)).
  - exact (mem_init_y (Fe51 _ _ _ _ _) (Fe51 _ _ _ _ _)).
  - destruct case_prog_ok as (os & h1 & h2 & _). exists case_prog. refine (conj _ (conj h1 h2)). discriminate.
Qed.
