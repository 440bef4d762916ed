(** RFC 9496 (The ristretto255 and decaf448 Groups), sections 4.1-4.3, transcribed as executable functions on
    integers.  This is a specification: it models no code of /repo and uses none of the definitions of the model
    or of the mathematical development. *)
From Coq Require Import ZArith List Bool.
Import ListNotations.
Open Scope Z_scope.

(** ** 4.1 Implementation constants, as printed in the RFC *)
Definition P : Z := 2 ^ 255 - 19.
Definition D : Z := 37095705934669439343138083508754565189542113879843219016388785533085940283555.
Definition SQRT_M1 : Z := 19681161376707505956807079304988542015446066515923890162744021073123829784752.
Definition SQRT_AD_MINUS_ONE : Z := 25063068953384623474111414158702152701244531502492656460079210482610430750235.
Definition INVSQRT_A_MINUS_D : Z := 54469307008909316920995813868745141605393597292927456921205312896311721017578.
Definition ONE_MINUS_D_SQ : Z := 1159843021668779879193775521855586647937357759715417654439879720876111806838.
Definition D_MINUS_ONE_SQ : Z := 40440834346308536858101042469323190826248399146238708352240133220865137265952.

(** ** Arithmetic modulo p *)
Definition fadd (a b : Z) : Z := (a + b) mod P.
Definition fsub (a b : Z) : Z := (a - b) mod P.
Definition fmul (a b : Z) : Z := (a * b) mod P.
Definition fneg (a : Z) : Z := (- a) mod P.
Definition fsq (a : Z) : Z := fmul a a.
(** a^e, by squaring and multiplying *)
Fixpoint fpow_pos (a : Z) (e : positive) : Z :=
  match e with
  | xH => a mod P
  | xO e' => fsq (fpow_pos a e')
  | xI e' => fmul (fsq (fpow_pos a e')) a
  end.
Definition fpow (a e : Z) : Z := match e with Zpos q => fpow_pos a q | _ => 1 end.

(** ** 4.2 Auxiliary functions *)
(** IS_NEGATIVE(e): the least significant bit of the canonical encoding *)
Definition IS_NEGATIVE (e : Z) : bool := Z.odd (e mod P).
Definition CT_EQ (a b : Z) : bool := a mod P =? b mod P.
Definition CT_ABS (u : Z) : Z := if IS_NEGATIVE u then fneg u else u mod P.
Definition SQRT_RATIO_M1 (u v : Z) : bool * Z :=
  let v3 := fmul (fsq v) v in
  let v7 := fmul (fsq v3) v in
  let r := fmul (fmul u v3) (fpow (fmul u v7) ((P - 5) / 8)) in
  let check := fmul v (fsq r) in
  let correct_sign_sqrt := CT_EQ check u in
  let flipped_sign_sqrt := CT_EQ check (fneg u) in
  let flipped_sign_sqrt_i := CT_EQ check (fmul (fneg u) SQRT_M1) in
  let r_prime := fmul SQRT_M1 r in
  let r := if flipped_sign_sqrt || flipped_sign_sqrt_i then r_prime else r in
  let r := CT_ABS r in
  let was_square := correct_sign_sqrt || flipped_sign_sqrt in
  (was_square, r).

(** ** 4.3 External functions.  Internal representations are (x, y, z, t). *)
Definition rep : Type := (Z * Z * Z * Z)%type.

Definition of_bytes (b : list Z) : Z := fold_right (fun x n => x + 256 * n) 0 b.
Fixpoint to_bytes (n : nat) (x : Z) : list Z :=
  match n with O => [] | S n' => x mod 256 :: to_bytes n' (x / 256) end.

(** 4.3.1 Decode *)
Definition DECODE (b : list Z) : option rep :=
  let s := of_bytes b in
  if negb (Nat.eqb (length b) 32) || (P <=? s) then None else
  if IS_NEGATIVE s then None else
  let ss := fsq s in
  let u1 := fsub 1 ss in
  let u2 := fadd 1 ss in
  let u2_sqr := fsq u2 in
  let v := fsub (fneg (fmul D (fsq u1))) u2_sqr in
  let '(was_square, invsqrt) := SQRT_RATIO_M1 1 (fmul v u2_sqr) in
  let den_x := fmul invsqrt u2 in
  let den_y := fmul (fmul invsqrt den_x) v in
  let x := CT_ABS (fmul (fmul 2 s) den_x) in
  let y := fmul u1 den_y in
  let t := fmul x y in
  if negb was_square || IS_NEGATIVE t || CT_EQ y 0 then None else Some (x, y, 1, t).

(** 4.3.2 Encode *)
Definition ENCODE (q : rep) : list Z :=
  let '(x0, y0, z0, t0) := q in
  let u1 := fmul (fadd z0 y0) (fsub z0 y0) in
  let u2 := fmul x0 y0 in
  let '(_, invsqrt) := SQRT_RATIO_M1 1 (fmul u1 (fsq u2)) in
  let den1 := fmul invsqrt u1 in
  let den2 := fmul invsqrt u2 in
  let z_inv := fmul (fmul den1 den2) t0 in
  let ix0 := fmul x0 SQRT_M1 in
  let iy0 := fmul y0 SQRT_M1 in
  let enchanted_denominator := fmul den1 INVSQRT_A_MINUS_D in
  let rotate := IS_NEGATIVE (fmul t0 z_inv) in
  let x := if rotate then iy0 else x0 in
  let y := if rotate then ix0 else y0 in
  let z := z0 in
  let den_inv := if rotate then enchanted_denominator else den2 in
  let y := if IS_NEGATIVE (fmul x z_inv) then fneg y else y in
  let s := CT_ABS (fmul den_inv (fsub z y)) in
  to_bytes 32 s.

(** 4.3.3 Equals *)
Definition EQUALS (a b : rep) : bool :=
  let '(x1, y1, _, _) := a in let '(x2, y2, _, _) := b in
  CT_EQ (fmul x1 y2) (fmul y1 x2) || CT_EQ (fmul y1 y2) (fmul x1 x2).

(** 4.3.4 Element derivation *)
Definition MAP (t : Z) : rep :=
  let r := fmul SQRT_M1 (fsq t) in
  let u := fmul (fadd r 1) ONE_MINUS_D_SQ in
  let v := fmul (fsub (fneg 1) (fmul r D)) (fadd r D) in
  let '(was_square, s) := SQRT_RATIO_M1 u v in
  let s_prime := fneg (CT_ABS (fmul s t)) in
  let s := if was_square then s else s_prime in
  let c := if was_square then fneg 1 else r in
  let N := fsub (fmul (fmul c (fsub r 1)) D_MINUS_ONE_SQ) v in
  let w0 := fmul (fmul 2 s) v in
  let w1 := fmul N SQRT_AD_MINUS_ONE in
  let w2 := fsub 1 (fsq s) in
  let w3 := fadd 1 (fsq s) in
  (fmul w0 w3, fmul w2 w1, fmul w1 w3, fmul w0 w2).

(** 4.3.5 points to the group operation of edwards25519: RFC 8032, section 5.1.4 *)
Definition ADD (a b : rep) : rep :=
  let '(x1, y1, z1, t1) := a in let '(x2, y2, z2, t2) := b in
  let A := fmul (fsub y1 x1) (fsub y2 x2) in
  let B := fmul (fadd y1 x1) (fadd y2 x2) in
  let C := fmul (fmul (fmul t1 2) D) t2 in
  let D' := fmul (fmul z1 2) z2 in
  let E := fsub B A in
  let F := fsub D' C in
  let G := fadd D' C in
  let H := fadd B A in
  (fmul E F, fmul G H, fmul F G, fmul E H).
Definition NEG (a : rep) : rep := let '(x, y, z, t) := a in (fneg x, y, z, fneg t).
Definition IDENTITY : rep := (0, 1, 1, 0).
(** the generator: the point with y = 4/5 and even x of RFC 8032, section 5.1 *)
Definition GENERATOR : rep :=
  (15112221349535400772501151409588531511454012693041857206046113283949847762202,
   46316835694926478169428394003475163141307993866256225615783033603165251855960, 1,
   fmul 15112221349535400772501151409588531511454012693041857206046113283949847762202
        46316835694926478169428394003475163141307993866256225615783033603165251855960).
(** n times the element, by doubling and adding *)
Fixpoint MULT_pos (n : positive) (a : rep) : rep :=
  match n with
  | xH => a
  | xO n' => let b := MULT_pos n' a in ADD b b
  | xI n' => let b := MULT_pos n' a in ADD (ADD b b) a
  end.
Definition MULT (n : Z) (a : rep) : rep :=
  match n with Z0 => IDENTITY | Zpos q => MULT_pos q a | Zneg q => NEG (MULT_pos q a) end.

(** Derivation from 64 uniformly random bytes *)
Definition mask255 (b : list Z) : Z := of_bytes b mod 2 ^ 255.
Definition DERIVE (b : list Z) : rep := ADD (MAP (mask255 (firstn 32 b))) (MAP (mask255 (skipn 32 b))).
