(** Model of /repo/edwards25519/curve.go, table.go, vartime.go and elligator.go over an
    arbitrary field backend (see FieldModel.v for the conventions).  Methods with a
    pointer receiver return the new receiver; where another argument can change (the
    generic backend normalises the receiver of [BytesInto]) it is returned as well. *)
From Coq Require Import ZArith List.
From Verif Require Import Words FieldModel.
Import ListNotations.
Open Scope Z_scope.

(** [ExtendedPoint]: /repo/edwards25519/curve.go:12-14 *)
Record ext (A : Type) : Type := mkExt { eX : A; eY : A; eZ : A; eT : A }.
(** [CompletedPoint]: /repo/edwards25519/curve.go:17-19 *)
Record compl (A : Type) : Type := mkCompl { cX : A; cY : A; cZ : A; cT : A }.
(** [ProjectivePoint]: /repo/edwards25519/curve.go:22-24 *)
Record proj (A : Type) : Type := mkProj { jX : A; jY : A; jZ : A }.
(** [NielsPoint]: /repo/edwards25519/table.go:3-5 *)
Record niels (A : Type) : Type := mkNiels { nYpX : A; nYmX : A; nXY2D : A }.
(** [JacobiPoint]: /repo/edwards25519/elligator.go:9-11 *)
Record jacobi (A : Type) : Type := mkJac { jS : A; jT : A }.
Arguments mkExt {A}. Arguments eX {A}. Arguments eY {A}. Arguments eZ {A}. Arguments eT {A}.
Arguments mkCompl {A}. Arguments cX {A}. Arguments cY {A}. Arguments cZ {A}. Arguments cT {A}.
Arguments mkProj {A}. Arguments jX {A}. Arguments jY {A}. Arguments jZ {A}.
Arguments mkNiels {A}. Arguments nYpX {A}. Arguments nYmX {A}. Arguments nXY2D {A}.
Arguments mkJac {A}. Arguments jS {A}. Arguments jT {A}.

(** crypto/subtle.ConstantTimeByteEq (Go standard library):
    [int((uint32(x^y) - 1) >> 31)] *)
Definition ct_byte_eq (x y : Z) : Z := Z.shiftr (u32 (u32 (Z.lxor x y) - 1)) 31.

(** crypto/subtle.ConstantTimeCompare (Go standard library): 0 if the lengths differ,
    else [v |= x[i] ^ y[i]] over all i and [ConstantTimeByteEq(v, 0)] *)
Definition ct_compare (x y : list Z) : Z :=
  if Nat.eqb (length x) (length y) then
    ct_byte_eq (fold_left (fun v xy => Z.lor v (Z.lxor (fst xy) (snd xy))) (combine x y) 0) 0
  else 0.

(** [computeScalarWindow5], the bit extraction: /repo/edwards25519/curve.go:329-346.
    [s] is a byte array; shifts of a [byte] wrap to 8 bits before masking. *)
Definition window5_raw (s : list Z) : list Z :=
  let b k := at_ s k in
  let shl x k := u8 (Z.shiftl x k) in
  flat_map (fun i =>
    [ i8 (Z.land (b (5*i+0)%nat) 31);
      Z.lxor (i8 (Z.land (Z.shiftr (b (5*i+0)%nat) 5) 31)) (i8 (Z.land (shl (b (5*i+1)%nat) 3) 31));
      i8 (Z.land (Z.shiftr (b (5*i+1)%nat) 2) 31);
      Z.lxor (i8 (Z.land (Z.shiftr (b (5*i+1)%nat) 7) 31)) (i8 (Z.land (shl (b (5*i+2)%nat) 1) 31));
      Z.lxor (i8 (Z.land (Z.shiftr (b (5*i+2)%nat) 4) 31)) (i8 (Z.land (shl (b (5*i+3)%nat) 4) 31));
      i8 (Z.land (Z.shiftr (b (5*i+3)%nat) 1) 31);
      Z.lxor (i8 (Z.land (Z.shiftr (b (5*i+3)%nat) 6) 31)) (i8 (Z.land (shl (b (5*i+4)%nat) 2) 31));
      i8 (Z.land (Z.shiftr (b (5*i+4)%nat) 3) 31) ]) (seq 0 6)
  ++ [ i8 (Z.land (b 30%nat) 31);
       Z.lxor (i8 (Z.land (Z.shiftr (b 30%nat) 5) 31)) (i8 (Z.land (shl (b 31%nat) 3) 31));
       i8 (Z.land (Z.shiftr (b 31%nat) 2) 31) ].

(** [computeScalarWindow5], one step of the loop making the digits signed:
    /repo/edwards25519/curve.go:350-356 *)
Definition window5_step (i : nat) (st : list Z * Z) : list Z * Z :=
  let '(w, carry) := st in
  let w := upd w i (i8 (at_ w i + carry)) in
  let w := upd w (i+1) (i8 (at_ w (i+1) + Z.shiftr (at_ w i) 5)) in
  let w := upd w i (Z.land (at_ w i) 31) in
  let carry := Z.shiftr (at_ w i) 4 in
  let w := upd w i (i8 (at_ w i - i8 (Z.shiftl carry 5))) in
  (w, carry).

(** [computeScalarWindow5]: /repo/edwards25519/curve.go:328-358 *)
Definition computeScalarWindow5 (s : list Z) : list Z :=
  let w := window5_raw s in
  let '(w, carry) := for_up 50 window5_step (w, 0) in
  upd w 50 (i8 (at_ w 50 + carry)).

(** [computeScalarWindow4], splitting the bytes: /repo/edwards25519/table.go:117-120 *)
Definition window4_raw (s : list Z) : list Z :=
  flat_map (fun i => [ i8 (Z.land (at_ s i) 15); i8 (Z.land (Z.shiftr (at_ s i) 4) 15) ]) (seq 0 32).

(** /repo/edwards25519/table.go:122-126 *)
Definition window4_step (i : nat) (st : list Z * Z) : list Z * Z :=
  let '(w, carry) := st in
  let w := upd w i (i8 (at_ w i + carry)) in
  let carry := Z.shiftr (i8 (at_ w i + 8)) 4 in
  let w := upd w i (i8 (at_ w i - i8 (Z.shiftl carry 4))) in
  (w, carry).

(** [computeScalarWindow4]: /repo/edwards25519/table.go:116-128 *)
Definition computeScalarWindow4 (s : list Z) : list Z :=
  let w := window4_raw s in
  let '(w, carry) := for_up 63 window4_step (w, 0) in
  upd w 63 (i8 (at_ w 63 + carry)).

(** [load8u]: /repo/edwards25519/vartime.go:3-14 *)
Definition load8u (s : list Z) : Z :=
  let sh x k := u64 (Z.shiftl x k) in
  let r := at_ s 0 in
  let r := Z.lor r (sh (at_ s 1) 8) in
  let r := Z.lor r (sh (at_ s 2) 16) in
  let r := Z.lor r (sh (at_ s 3) 24) in
  let r := Z.lor r (sh (at_ s 4) 32) in
  let r := Z.lor r (sh (at_ s 5) 40) in
  let r := Z.lor r (sh (at_ s 6) 48) in
  let r := Z.lor r (sh (at_ s 7) 56) in
  r.

(** the loop [for pos < 256] of [computeScalar5NAF]: /repo/edwards25519/vartime.go:26-50.
    [None] means that [fuel] iterations did not suffice. *)
Fixpoint naf_loop (fuel : nat) (x : list Z) (pos : nat) (carry : Z) (naf : list Z) : option (list Z) :=
  if Nat.ltb pos 256 then
    match fuel with
    | O => None
    | S fuel =>
      let idx := Nat.div pos 64 in
      let bit_idx := Nat.modulo pos 64 in
      let bit_buf :=
        if Nat.ltb bit_idx 59 then Z.shiftr (at_ x idx) (Z.of_nat bit_idx)
        else Z.lor (Z.shiftr (at_ x idx) (Z.of_nat bit_idx))
                   (u64 (Z.shiftl (at_ x (1 + idx)) (64 - Z.of_nat bit_idx))) in
      let window := u64 (carry + Z.land bit_buf 31) in
      if Z.land window 1 =? 0 then naf_loop fuel x (pos + 1) carry naf
      else if window <? 16 then naf_loop fuel x (pos + 5) 0 (upd naf pos (i8 window))
      else naf_loop fuel x (pos + 5) 1 (upd naf pos (i8 (i8 window - 32)))
    end
  else Some naf.

(** [computeScalar5NAF]: /repo/edwards25519/vartime.go:19-51, on a zero-initialised [naf] *)
Definition computeScalar5NAF (s : list Z) : option (list Z) :=
  let x := map (fun i => load8u (slice s (i * 8) ((i + 1) * 8))) (seq 0 4) ++ [0] in
  naf_loop 256 x 0 0 (repeat 0 256).

Section Curve.
Context (K : FeOps).
Notation FE := (fe K).
Notation add := (o_add K).
Notation sub := (o_sub K).
Notation Neg := (o_neg K).
Notation Mul := (o_mul K).
Notation Square := (o_square K).
Notation DoubledSquare := (o_doubledSquare K).
Notation ConditionalSet := (o_condSet K).
Notation EXT := (ext FE).

(** [SetTorsion3]: /repo/edwards25519/curve.go:27-33 *)
Definition ep_torsion3 : EXT := mkExt (k_minusI K) (k_zero K) (k_one K) (k_zero K).
(** [SetTorsion2]: /repo/edwards25519/curve.go:36-42 *)
Definition ep_torsion2 : EXT := mkExt (k_I K) (k_zero K) (k_one K) (k_zero K).
(** [SetTorsion1]: /repo/edwards25519/curve.go:45-51 *)
Definition ep_torsion1 : EXT := mkExt (k_zero K) (k_minusOne K) (k_one K) (k_zero K).

(** [ProjectivePoint.SetZero]: /repo/edwards25519/curve.go:54-59 *)
Definition pp_SetZero : proj FE := mkProj (k_zero K) (k_one K) (k_one K).

(** [ExtendedPoint.SetZero]: /repo/edwards25519/curve.go:62-68 *)
Definition ep_SetZero : EXT := mkExt (k_zero K) (k_one K) (k_one K) (k_zero K).

(** [SetBase]: /repo/edwards25519/curve.go:71-73; [epBase]:
    /repo/edwards25519/field_radix51.go:90-98, field_generic.go:89-97 *)
Definition ep_SetBase : EXT := mkExt (k_baseX K) (k_baseY K) (k_one K) (k_baseT K).

(** the Go zero value of an ExtendedPoint *)
Definition ep_zerovalue : EXT := mkExt (k_zero K) (k_zero K) (k_zero K) (k_zero K).

(** [ConditionalSet]: /repo/edwards25519/curve.go:85-91 *)
Definition ep_ConditionalSet (p q : EXT) (b : Z) : EXT :=
  mkExt (ConditionalSet (eX p) (eX q) b) (ConditionalSet (eY p) (eY q) b)
        (ConditionalSet (eZ p) (eZ q) b) (ConditionalSet (eT p) (eT q) b).

(** [AddExtended]: /repo/edwards25519/curve.go:94-113 *)
Definition cp_AddExtended (q r : EXT) : compl FE :=
  let a := sub (eY q) (eX q) in
  let t := sub (eY r) (eX r) in
  let a := Mul a t in
  let b := add (eX q) (eY q) in
  let t := add (eX r) (eY r) in
  let b := Mul b t in
  let c := Mul (eT q) (eT r) in
  let c := Mul c (k_2D K) in
  let d := Mul (eZ q) (eZ r) in
  let d := add d d in
  let X := sub b a in
  let T := sub d c in
  let Z := add d c in
  let Y := add b a in
  mkCompl X Y Z T.

(** [SubExtended]: /repo/edwards25519/curve.go:116-135 *)
Definition cp_SubExtended (q r : EXT) : compl FE :=
  let a := sub (eY q) (eX q) in
  let t := add (eY r) (eX r) in
  let a := Mul a t in
  let b := add (eX q) (eY q) in
  let t := sub (eY r) (eX r) in
  let b := Mul b t in
  let c := Mul (eT q) (eT r) in
  let c := Mul c (k_2D K) in
  let d := Mul (eZ q) (eZ r) in
  let d := add d d in
  let X := sub b a in
  let T := add d c in
  let Z := sub d c in
  let Y := add b a in
  mkCompl X Y Z T.

(** [DoubleProjective]: /repo/edwards25519/curve.go:138-152 *)
Definition cp_DoubleProjective (q : proj FE) : compl FE :=
  let X := Square (jX q) in
  let Z := Square (jY q) in
  let T := DoubledSquare (jZ q) in
  let Y := add (jX q) (jY q) in
  let t0 := Square Y in
  let Y := add Z X in
  let Z := sub Z X in
  let X := sub t0 Y in
  let T := sub T Z in
  mkCompl X Y Z T.

(** [DoubleExtended]: /repo/edwards25519/curve.go:155-171 *)
Definition cp_DoubleExtended (q : EXT) : compl FE :=
  let a := Square (eX q) in
  let b := Square (eY q) in
  let c := DoubledSquare (eZ q) in
  let d := Neg a in
  let X := add (eX q) (eY q) in
  let X := Square X in
  let X := sub X a in
  let X := sub X b in
  let Z := add d b in
  let T := sub Z c in
  let Y := sub d b in
  mkCompl X Y Z T.

(** [ProjectivePoint.SetExtended]: /repo/edwards25519/curve.go:174-179 *)
Definition pp_SetExtended (q : EXT) : proj FE := mkProj (eX q) (eY q) (eZ q).

(** [ProjectivePoint.SetCompleted]: /repo/edwards25519/curve.go:182-187 *)
Definition pp_SetCompleted (q : compl FE) : proj FE :=
  let X := Mul (cX q) (cT q) in
  let Y := Mul (cY q) (cZ q) in
  let Z := Mul (cZ q) (cT q) in
  mkProj X Y Z.

(** [ExtendedPoint.SetCompleted]: /repo/edwards25519/curve.go:214-220 *)
Definition ep_SetCompleted (q : compl FE) : EXT :=
  let X := Mul (cX q) (cT q) in
  let Y := Mul (cY q) (cZ q) in
  let Z := Mul (cZ q) (cT q) in
  let T := Mul (cX q) (cY q) in
  mkExt X Y Z T.

(** [Double]: /repo/edwards25519/curve.go:190-195 *)
Definition ep_Double (q : EXT) : EXT :=
  let tmp := cp_DoubleExtended q in
  ep_SetCompleted tmp.

(** [Add]: /repo/edwards25519/curve.go:198-203 *)
Definition ep_Add (q r : EXT) : EXT :=
  let tmp := cp_AddExtended q r in
  ep_SetCompleted tmp.

(** [Sub]: /repo/edwards25519/curve.go:206-211 *)
Definition ep_Sub (q r : EXT) : EXT :=
  let tmp := cp_SubExtended q r in
  ep_SetCompleted tmp.

(** [SetRistretto]: /repo/edwards25519/curve.go:224-268; returns the result and the new receiver *)
Definition ep_SetRistretto (buf : list Z) : bool * EXT :=
  let s := o_setBytes K buf in
  let '(buf2, s) := o_bytes K s in
  let ret := i32 (1 - ct_compare buf buf2) in
  let ret := Z.lor ret (Z.land (at_ buf2 0) 1) in
  let s2 := Square s in
  let yDen := add (k_one K) s2 in
  let yNum := sub (k_one K) s2 in
  let yDen2 := Square yDen in
  let xDen2 := Square yNum in
  let xDen2 := Mul xDen2 (k_D K) in
  let xDen2 := add xDen2 yDen2 in
  let xDen2 := Neg xDen2 in
  let t := Mul xDen2 yDen2 in
  let isr := fe_InvSqrt K t in
  let chk := Square isr in
  let chk := Mul chk t in
  let ret := Z.lor ret (i32 (1 - fe_IsOneI K chk)) in
  let xDenInv := Mul isr yDen in
  let yDenInv := Mul xDenInv isr in
  let yDenInv := Mul yDenInv xDen2 in
  let X := Mul s xDenInv in
  let X := add X X in
  let '(b, X) := fe_IsNegativeI K X in
  let t := Neg X in
  let X := ConditionalSet X t b in
  let Y := Mul yNum yDenInv in
  let Z := k_one K in
  let T := Mul X Y in
  let '(tneg, T) := fe_IsNegativeI K T in
  let ret := Z.lor ret tneg in
  let '(ynz, Y) := fe_IsNonZeroI K Y in
  let ret := Z.lor ret (i32 (1 - ynz)) in
  let X := ConditionalSet X (k_zero K) ret in
  let Y := ConditionalSet Y (k_zero K) ret in
  let Z := ConditionalSet Z (k_zero K) ret in
  let T := ConditionalSet T (k_zero K) ret in
  (ret =? 0, mkExt X Y Z T).

(** [RistrettoInto]: /repo/edwards25519/curve.go:280-325 (only locals are normalised, [p] is
    unchanged); also [Ristretto]: /repo/edwards25519/curve.go:272-276 *)
Definition ep_RistrettoInto (p : EXT) : list Z :=
  let d := add (eZ p) (eY p) in
  let u1 := sub (eZ p) (eY p) in
  let u1 := Mul u1 d in
  let u2 := Mul (eX p) (eY p) in
  let isr := Square u2 in
  let isr := Mul isr u1 in
  let isr := fe_InvSqrt K isr in
  let i1 := Mul isr u1 in
  let i2 := Mul isr u2 in
  let zInv := Mul i1 i2 in
  let zInv := Mul zInv (eT p) in
  let d := Mul zInv (eT p) in
  let nx := Mul (eY p) (k_I K) in
  let ny := Mul (eX p) (k_I K) in
  let denInv := Mul (k_invSqrtMinusDMinusOne K) i1 in
  let '(dneg, d) := fe_IsNegativeI K d in
  let b := i32 (1 - dneg) in
  let nx := ConditionalSet nx (eX p) b in
  let ny := ConditionalSet ny (eY p) b in
  let denInv := ConditionalSet denInv i2 b in
  let d := Mul nx zInv in
  let '(b, d) := fe_IsNegativeI K d in
  let d := Neg ny in
  let ny := ConditionalSet ny d b in
  let s := sub (eZ p) ny in
  let s := Mul s denInv in
  let '(b, s) := fe_IsNegativeI K s in
  let d := Neg s in
  let s := ConditionalSet s d b in
  fst (o_bytes K s).

(** the tabulation of [ScalarMult]: /repo/edwards25519/curve.go:363-375 *)
Definition sm_lut (q : EXT) : list EXT :=
  let lut := repeat ep_zerovalue 17 in
  let lut := upd lut 0 ep_SetZero in
  let lut := upd lut 1 q in
  let lut := for_up 7 (fun k lut =>
    let i := (2 * k + 2)%nat in
    let lut := upd lut i (ep_Double (nth (Nat.div i 2) lut ep_zerovalue)) in
    upd lut (i + 1) (ep_Add (nth i lut ep_zerovalue) q)) lut in
  upd lut 16 (ep_Double (nth 8 lut ep_zerovalue)).

(** selection in constant time: /repo/edwards25519/curve.go:389-400 *)
Definition sm_select (lut : list EXT) (b : Z) : EXT :=
  let t := nth 0 lut ep_zerovalue in
  let t := for_up 16 (fun k t =>
    let j := Z.of_nat (k + 1) in
    let c := Z.lor (equal15 b (i32 (- j))) (equal15 b (i32 j)) in
    ep_ConditionalSet t (nth (k + 1) lut ep_zerovalue) c) t in
  let c := negative b in
  let v := Neg (eX t) in
  let t := mkExt (ConditionalSet (eX t) v c) (eY t) (eZ t) (eT t) in
  let v := Neg (eT t) in
  mkExt (eX t) (eY t) (eZ t) (ConditionalSet (eT t) v c).

(** one iteration of the main loop: /repo/edwards25519/curve.go:379-403 *)
Definition sm_step (lut : list EXT) (window : list Z) (i : nat) (p : EXT) : EXT :=
  let cp := cp_DoubleExtended p in
  let cp := go_for 0 4 (fun cp => cp_DoubleProjective (pp_SetCompleted cp)) cp in
  let p := ep_SetCompleted cp in
  let t := sm_select lut (at_ window i) in
  ep_Add p t.

(** [ScalarMult]: /repo/edwards25519/curve.go:361-406 *)
Definition ep_ScalarMult (q : EXT) (s : list Z) : EXT :=
  let window := computeScalarWindow5 s in
  let lut := sm_lut q in
  for_up 51 (fun k p => sm_step lut window (50 - k) p) ep_SetZero.

(** [Neg]: /repo/edwards25519/curve.go:409-415 *)
Definition ep_Neg (q : EXT) : EXT := mkExt (Neg (eX q)) (eY q) (eZ q) (Neg (eT q)).

(** [RistrettoEqualsI]: /repo/edwards25519/curve.go:419-426 *)
Definition ep_RistrettoEqualsI (p q : EXT) : Z :=
  let x1y2 := Mul (eX p) (eY q) in
  let x2y1 := Mul (eX q) (eY p) in
  let x1x2 := Mul (eX p) (eX q) in
  let y1y2 := Mul (eY p) (eY q) in
  i32 (1 - Z.land (i32 (1 - fe_EqualsI K x1y2 x2y1)) (i32 (1 - fe_EqualsI K x1x2 y1y2))).

(** ** vartime.go *)

(** the table of odd multiples: /repo/edwards25519/vartime.go:54-62 *)
Definition vt_lut (q : EXT) : list EXT :=
  let lut := repeat ep_zerovalue 8 in
  let dblQ := ep_Double q in
  let lut := upd lut 0 q in
  for_up 7 (fun k lut =>
    let i := (k + 1)%nat in
    upd lut i (ep_Add (nth (i - 1) lut ep_zerovalue) dblQ)) lut.

(** the search for the leading non-zero digit, [for ; i >= 0; i--]:
    /repo/edwards25519/vartime.go:69-74; [vt_skip naf n] starts at index [n-1] and
    returns [i + 1], so that [O] stands for the index -1 *)
Fixpoint vt_skip (naf : list Z) (n : nat) : nat :=
  match n with
  | O => O
  | S i => if at_ naf i =? 0 then vt_skip naf i else S i
  end.

(** the inner loop finding the next non-zero digit: /repo/edwards25519/vartime.go:101-108 *)
Fixpoint vt_inner (naf : list Z) (i : nat) (cp : compl FE) : nat * compl FE :=
  match i with
  | O => (O, cp)
  | S i' =>
    if negb (at_ naf i =? 0) then (i, cp)
    else vt_inner naf i' (cp_DoubleProjective (pp_SetCompleted cp))
  end.

(** the outer loop: /repo/edwards25519/vartime.go:84-114.  [None] stands for a panic (index
    out of range) or for running out of [fuel] iterations. *)
Fixpoint vt_loop (fuel : nat) (lut : list EXT) (naf : list Z) (i : nat) (p : EXT) : option EXT :=
  match fuel with
  | O => None
  | S fuel =>
    let d := at_ naf i in
    match
      (if 0 <? d then
         match nth_error lut (Z.to_nat (i8 (Z.quot (i8 (d + 1)) 2 - 1))) with
         | Some r => Some (cp_AddExtended p r) | None => None end
       else
         match nth_error lut (Z.to_nat (i8 (Z.quot (i8 (1 - d)) 2 - 1))) with
         | Some r => Some (cp_SubExtended p r) | None => None end)
    with
    | None => None
    | Some cp =>
      match i with
      | O => Some (ep_SetCompleted cp)
      | S i =>
        let cp := cp_DoubleProjective (pp_SetCompleted cp) in
        let '(i, cp) := vt_inner naf i cp in
        let p := ep_SetCompleted cp in
        if at_ naf i =? 0 then Some p
        else vt_loop fuel lut naf i p
      end
    end
  end.

(** [ExtendedPoint.VarTimeScalarMult]: /repo/edwards25519/vartime.go:53-117 *)
Definition ep_VarTimeScalarMult (q : EXT) (s : list Z) : option EXT :=
  let lut := vt_lut q in
  match computeScalar5NAF s with
  | None => None
  | Some naf =>
    match vt_skip naf 256 with
    | O => Some ep_SetZero
    | S i => vt_loop 257 lut naf i ep_SetZero
    end
  end.

(** ** table.go *)

Notation NIELS := (niels FE).

(** [NielsPoint.SetZero]: /repo/edwards25519/table.go:11-16 *)
Definition np_SetZero : NIELS := mkNiels (k_one K) (k_one K) (k_zero K).

(** [NielsPoint.ConditionalSet]: /repo/edwards25519/table.go:27-32 *)
Definition np_ConditionalSet (p q : NIELS) (b : Z) : NIELS :=
  mkNiels (ConditionalSet (nYpX p) (nYpX q) b) (ConditionalSet (nYmX p) (nYmX q) b)
          (ConditionalSet (nXY2D p) (nXY2D q) b).

(** [NielsPoint.Neg] (receiver and argument distinct): /repo/edwards25519/table.go:35-40 *)
Definition np_Neg (q : NIELS) : NIELS := mkNiels (nYmX q) (nYpX q) (Neg (nXY2D q)).

(** [AddExtendedNiels]: /repo/edwards25519/table.go:43-57 *)
Definition cp_AddExtendedNiels (q : EXT) (r : NIELS) : compl FE :=
  let X := add (eY q) (eX q) in
  let Y := sub (eY q) (eX q) in
  let Z := Mul X (nYpX r) in
  let Y := Mul Y (nYmX r) in
  let T := Mul (nXY2D r) (eT q) in
  let t0 := add (eZ q) (eZ q) in
  let X := sub Z Y in
  let Y := add Z Y in
  let Z := add t0 T in
  let T := sub t0 T in
  mkCompl X Y Z T.

(** [SubExtendedNiels]: /repo/edwards25519/table.go:60-74 *)
Definition cp_SubExtendedNiels (q : EXT) (r : NIELS) : compl FE :=
  let X := add (eY q) (eX q) in
  let Y := sub (eY q) (eX q) in
  let Z := Mul X (nYmX r) in
  let Y := Mul Y (nYpX r) in
  let T := Mul (nXY2D r) (eT q) in
  let t0 := add (eZ q) (eZ q) in
  let X := sub Z Y in
  let Y := add Z Y in
  let Z := sub t0 T in
  let T := add t0 T in
  mkCompl X Y Z T.

(** [NielsPoint.SetExtended]: /repo/edwards25519/table.go:77-88 *)
Definition np_SetExtended (q : EXT) : NIELS :=
  let zInv := fe_Inverse K (eZ q) in
  let x := Mul (eX q) zInv in
  let y := Mul (eY q) zInv in
  let YPlusX := fe_Add K y x in
  let YMinusX := fe_Sub K y x in
  let XY2D := Mul x y in
  let XY2D := fe_Add K XY2D XY2D in
  let XY2D := Mul XY2D (k_D K) in
  mkNiels YPlusX YMinusX XY2D.

(** the inner loop of [Compute]: /repo/edwards25519/table.go:97-101; returns the row and [c] *)
Definition tbl_row (cp : EXT) : list NIELS * EXT :=
  for_up 8 (fun _ st =>
    let '(row, c) := st in
    let c := ep_Add c cp in
    (row ++ [np_SetExtended c], c)) ([], ep_SetZero).

(** [ScalarMultTable.Compute]: /repo/edwards25519/table.go:91-113 *)
Definition tbl_Compute (p : EXT) : list (list NIELS) :=
  fst (for_up 32 (fun _ st =>
    let '(t, cp) := st in
    let '(row, c) := tbl_row cp in
    let c_cp := cp_DoubleExtended c in
    let c_pp := pp_SetCompleted c_cp in
    let c_cp := cp_DoubleProjective c_pp in
    let c_pp := pp_SetCompleted c_cp in
    let c_cp := cp_DoubleProjective c_pp in
    let c_pp := pp_SetCompleted c_cp in
    let c_cp := cp_DoubleProjective c_pp in
    let c_pp := pp_SetCompleted c_cp in
    let c_cp := cp_DoubleProjective c_pp in
    let cp := ep_SetCompleted c_cp in
    (t ++ [row], cp)) ([], p)).

Definition np_zerovalue : NIELS := mkNiels (k_zero K) (k_zero K) (k_zero K).

(** t[pos][i] *)
Definition tbl_at (t : list (list NIELS)) (pos i : nat) : NIELS := nth i (nth pos t []) np_zerovalue.

(** [selectPoint]: /repo/edwards25519/table.go:195-205 *)
Definition tbl_select (t : list (list NIELS)) (pos : nat) (b : Z) : NIELS :=
  let bNegative := negative b in
  let bAbs := i32 (b - i32 (Z.shiftl (Z.land (i32 (- bNegative)) b) 1)) in
  let p := np_SetZero in
  let p := for_up 8 (fun i p =>
    np_ConditionalSet p (tbl_at t pos i) (equal30 bAbs (i32 (Z.of_nat i + 1)))) p in
  let negP := np_Neg p in
  np_ConditionalSet p negP bNegative.

(** the four doublings between the two passes: /repo/edwards25519/table.go:146-153 and 178-185 *)
Definition tbl_dbl4 (p : EXT) : EXT :=
  let cp := cp_DoubleExtended p in
  let pp := pp_SetCompleted cp in
  let cp := cp_DoubleProjective pp in
  let pp := pp_SetCompleted cp in
  let cp := cp_DoubleProjective pp in
  let pp := pp_SetCompleted cp in
  let cp := cp_DoubleProjective pp in
  ep_SetCompleted cp.

(** [ScalarMultTable.ScalarMult]: /repo/edwards25519/table.go:131-160 *)
Definition tbl_ScalarMult (t : list (list NIELS)) (s : list Z) : EXT :=
  let w := computeScalarWindow4 s in
  let p := ep_SetZero in
  let p := for_up 32 (fun i p =>
    ep_SetCompleted (cp_AddExtendedNiels p (tbl_select t i (at_ w (2 * i + 1))))) p in
  let p := tbl_dbl4 p in
  for_up 32 (fun i p =>
    ep_SetCompleted (cp_AddExtendedNiels p (tbl_select t i (at_ w (2 * i))))) p.

(** [varTimeSelectPoint]: /repo/edwards25519/table.go:207-217.  The outer [None] is a panic
    (index out of range), the inner [None] the result [false]. *)
Definition tbl_vtSelect (t : list (list NIELS)) (pos : nat) (b : Z) : option (option NIELS) :=
  if b =? 0 then Some None
  else
    let row := nth pos t [] in
    if b <? 0 then
      match nth_error row (Z.to_nat (i32 (i32 (- b) - 1))) with
      | Some n => Some (Some (np_Neg n)) | None => None end
    else
      match nth_error row (Z.to_nat (i32 (b - 1))) with
      | Some n => Some (Some n) | None => None end.

(** one iteration of the loops of [VarTimeScalarMult]: /repo/edwards25519/table.go:172-175, 188-191 *)
Definition tbl_vtStep (t : list (list NIELS)) (i : nat) (b : Z) (p : option EXT) : option EXT :=
  match p with
  | None => None
  | Some p =>
    match tbl_vtSelect t i b with
    | None => None
    | Some None => Some p
    | Some (Some np) => Some (ep_SetCompleted (cp_AddExtendedNiels p np))
    end
  end.

(** [ScalarMultTable.VarTimeScalarMult]: /repo/edwards25519/table.go:162-193 *)
Definition tbl_VarTimeScalarMult (t : list (list NIELS)) (s : list Z) : option EXT :=
  let w := computeScalarWindow4 s in
  let p := Some ep_SetZero in
  let p := for_up 32 (fun i p => tbl_vtStep t i (at_ w (2 * i + 1)) p) p in
  let p := option_map tbl_dbl4 p in
  for_up 32 (fun i p => tbl_vtStep t i (at_ w (2 * i)) p) p.

(** ** elligator.go *)

Notation JAC := (jacobi FE).

(** [ToJacobiQuarticRistretto]: /repo/edwards25519/elligator.go:57-135; returns the four quartic
    points and the receiver after the call *)
Definition ep_ToJacobiQuarticRistretto (p : EXT) : list JAC * EXT :=
  let X2 := Square (eX p) in
  let Y2 := Square (eY p) in
  let Y4 := Square Y2 in
  let Z2 := Square (eZ p) in
  let ZmY := sub (eZ p) (eY p) in
  let ZpY := add (eZ p) (eY p) in
  let Z2mY2 := sub Z2 Y2 in
  let gamma := Mul Y4 X2 in
  let gamma := Mul gamma Z2mY2 in
  let gamma := fe_InvSqrt K gamma in
  let den := Mul gamma Y2 in
  let sOverX := Mul den ZmY in
  let spOverXp := Mul den ZpY in
  let q0S := Mul sOverX (eX p) in
  let tmp := Mul spOverXp (eX p) in
  let q1S := Neg tmp in
  let tmp := Mul (k_doubleInvSqrtMinusDMinusOne K) (eZ p) in
  let q0T := Mul tmp sOverX in
  let q1T := Mul tmp spOverXp in
  let den := Neg Z2mY2 in
  let den := Mul den (k_invSqrt1pD K) in
  let den := Mul den gamma in
  let iZ := Mul (k_I K) (eZ p) in
  let iZmX := sub iZ (eX p) in
  let iZpX := add iZ (eX p) in
  let sOverY := Mul den iZmX in
  let spOverYp := Mul den iZpX in
  let q2S := Mul sOverY (eY p) in
  let tmp := Mul spOverYp (eY p) in
  let q3S := Neg tmp in
  let tmp := Mul (k_doubleInvSqrtMinusDMinusOne K) iZ in
  let q2T := Mul tmp sOverY in
  let q3T := Mul tmp spOverYp in
  let '(xnz, X) := fe_IsNonZeroI K (eX p) in
  let '(ynz, Y) := fe_IsNonZeroI K (eY p) in
  let XorYisZero := i32 (1 - Z.land xnz ynz) in
  let q0T := ConditionalSet q0T (k_one K) XorYisZero in
  let q1T := ConditionalSet q1T (k_one K) XorYisZero in
  let q2T := ConditionalSet q2T (k_doubleIInvSqrtMinusDMinusOne K) XorYisZero in
  let q3T := ConditionalSet q3T (k_doubleIInvSqrtMinusDMinusOne K) XorYisZero in
  let q2S := ConditionalSet q2S (k_one K) XorYisZero in
  let q3S := ConditionalSet q3S (k_minusOne K) XorYisZero in
  ([mkJac q0S q0T; mkJac q1S q1T; mkJac q2S q2T; mkJac q3S q3T], mkExt X Y (eZ p) (eT p)).

(** [Dual]: /repo/edwards25519/elligator.go:137-142 *)
Definition jc_Dual (q : JAC) : JAC := mkJac (Neg (jS q)) (Neg (jT q)).

(** [elligator2Inverse]: /repo/edwards25519/elligator.go:151-192; returns the result, [*fe] and
    the receiver after the call.  The receiver's [S] is normalised twice (line 157 and 182). *)
Definition jc_elligator2Inverse (p : JAC) : Z * FE * JAC :=
  let '(sNonZero, S') := fe_IsNonZeroI K (jS p) in
  let tEqualsOne := fe_EqualsI K (jT p) (k_one K) in
  let out := k_zero K in
  let out := ConditionalSet out (k_sqrtID K) tEqualsOne in
  let ret := i32 (1 - sNonZero) in
  let done := i32 (1 - sNonZero) in
  let a := add (jT p) (k_one K) in
  let a := Mul a (k_dp1OverDm1 K) in
  let a2 := Square a in
  let S2 := Square S' in
  let S4 := Square S2 in
  let invSqiY := sub S4 a2 in
  let '(sq, y) := fe_InvSqrtI K invSqiY in
  let ret := Z.lor ret (i32 (1 - sq)) in
  let done := Z.lor done sq in
  let negS2 := Neg S2 in
  let '(sneg, S') := fe_IsNegativeI K S' in
  let S2 := ConditionalSet S2 negS2 sneg in
  let x := add a S2 in
  let x := Mul x y in
  let x := fe_Abs_self K x in
  let out := ConditionalSet out x (i32 (1 - done)) in
  (ret, out, mkJac S' (jT p)).

(** the loop body of [RistrettoElligator2Inverse]: /repo/edwards25519/elligator.go:43-47 *)
Definition ell_inv_step (jcs : list JAC) (j : nat) (st : Z * list FE) : Z * list FE :=
  let '(setMask, fes) := st in
  let q := nth j jcs (mkJac (k_zero K) (k_zero K)) in
  let '(r, f, q) := jc_elligator2Inverse q in
  let fes := fes ++ [f] in
  let setMask := Z.lor setMask (u8 (Z.shiftl r (Z.of_nat (2 * j)))) in
  let jc := jc_Dual q in
  let '(r, f, _) := jc_elligator2Inverse jc in
  let fes := fes ++ [f] in
  let setMask := Z.lor setMask (u8 (Z.shiftl r (Z.of_nat (2 * j + 1)))) in
  (setMask, fes).

(** [RistrettoElligator2Inverse]: /repo/edwards25519/elligator.go:17-50; returns the mask, the
    eight field elements and the receiver after the call *)
Definition ep_RistrettoElligator2Inverse (p : EXT) : Z * list FE * EXT :=
  let '(jcs, p) := ep_ToJacobiQuarticRistretto p in
  let '(setMask, fes) := for_up 4 (ell_inv_step jcs) (0, []) in
  (setMask, fes, p).

(** [SetJacobiQuartic]: /repo/edwards25519/elligator.go:196-212 *)
Definition cp_SetJacobiQuartic (jc : JAC) : compl FE :=
  let s2 := Square (jS jc) in
  let X := Mul (jS jc) (k_doubleInvSqrtMinusDMinusOne K) in
  let Z := jT jc in
  let Y := sub (k_one K) s2 in
  let T := add (k_one K) s2 in
  mkCompl X Y Z T.

(** [SetRistrettoElligator2]: /repo/edwards25519/elligator.go:216-266 *)
Definition cp_SetRistrettoElligator2 (r0 : FE) : compl FE :=
  let r0i := Mul r0 (k_I K) in
  let r := Mul r0 r0i in
  let rPlusD := add (k_D K) r in
  let D := Mul (k_D K) r in
  let D := add D (k_one K) in
  let D := Mul D rPlusD in
  let D := Neg D in
  let rPlusOne := add r (k_one K) in
  let N := Mul (k_oneMinusDSquared K) rPlusOne in
  let ND := Mul N D in
  let '(b, sqrt) := fe_InvSqrtI K ND in
  let sqrt := fe_Abs_self K sqrt in
  let twiddle := k_one K in
  let twiddle := ConditionalSet twiddle r0i (i32 (1 - b)) in
  let sgn := k_one K in
  let sgn := ConditionalSet sgn (k_minusOne K) (i32 (1 - b)) in
  let sqrt := Mul sqrt twiddle in
  let S' := Mul sqrt N in
  let T := Neg sgn in
  let T := Mul sqrt T in
  let T := Mul S' T in
  let T := Mul (k_dMinusOneSquared K) T in
  let rSubOne := sub r (k_one K) in
  let T := Mul rSubOne T in
  let T := sub T (k_one K) in
  let sNeg := Neg S' in
  let '(sneg, S') := fe_IsNegativeI K S' in
  let S' := ConditionalSet S' sNeg (equal30 sneg b) in
  cp_SetJacobiQuartic (mkJac S' T).

End Curve.
