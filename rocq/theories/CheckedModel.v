(** The functions whose array indices are computed at run time, once more, with the bounds checks of
    Go: an index or a slice out of range gives [None], which stands for a panic.  Indices are
    integers ([int], [int32], [int8] or [uint16] in the code), not natural numbers.  Arrays are
    written in the order of the code.  Methods without computed indices are those of the other
    model files. *)
From Coq Require Import ZArith List Bool.
From Verif Require Import Words ScalarCode ScalarModel FieldModel CurveModel RistrettoModel.
Import ListNotations.
Open Scope Z_scope.

Notation "'let?' x := a 'in' b" := (match a with Some x => b | None => None end)
  (at level 200, x name, right associativity).

(** a[i] *)
Definition get {A : Type} (a : list A) (i : Z) : option A :=
  if 0 <=? i then nth_error a (Z.to_nat i) else None.
(** a[i] = x *)
Definition set {A : Type} (a : list A) (i : Z) (x : A) : option (list A) :=
  if (0 <=? i) && (i <? Z.of_nat (length a)) then Some (upd a (Z.to_nat i) x) else None.
(** a[i:j] *)
Definition sub_slice (a : list Z) (i j : Z) : option (list Z) :=
  if (0 <=? i) && (i <=? j) && (j <=? Z.of_nat (length a))
  then Some (firstn (Z.to_nat (j - i)) (skipn (Z.to_nat i) a)) else None.
(** a[i] ^= x *)
Definition xor_at (a : list Z) (i x : Z) : option (list Z) :=
  let? y := get a i in set a i (Z.lxor y x).
(** a[i] += x for an array of [int8] *)
Definition add_at (a : list Z) (i x : Z) : option (list Z) :=
  let? y := get a i in set a i (i8 (y + x)).
(** for i := 0; i < n; i++ *)
Fixpoint ck_for {A : Type} (n : nat) (f : Z -> A -> option A) (x : A) : option A :=
  match n with
  | O => Some x
  | S m => let? y := ck_for m f x in f (Z.of_nat m) y
  end.

(** ** scalar.go and field.go *)

(** the loop of [BigInt]: /repo/scalar.go:200-202 and /repo/edwards25519/field.go:171-173 *)
Definition ck_reverse (buf : list Z) : option (list Z) :=
  ck_for 32 (fun i rBuf => let? b := get buf (31 - i) in set rBuf i b) (repeat 0 32).

(** [Scalar.BigInt]: /repo/scalar.go:196-204 *)
Definition ck_sc_bigInt (s : sc) : option Z := let? rBuf := ck_reverse (sc_bytes s) in Some (big_SetBytes rBuf).

(** the loop of [SetBigInt]: /repo/scalar.go:215-218 and /repo/edwards25519/field.go:196-199; the loop ends at
    [i = 32] at the latest *)
Definition ck_copy_reverse (buf : list Z) : option (list Z) :=
  ck_for 32 (fun i rBuf =>
    if i <? Z.of_nat (length buf) then let? b := get buf (Z.of_nat (length buf) - i - 1) in set rBuf i b
    else Some rBuf) (repeat 0 32).

(** [Scalar.SetBigInt]: /repo/scalar.go:210-220 *)
Definition ck_sc_setBigInt (x : Z) : option sc :=
  let? rBuf := ck_copy_reverse (big_Bytes (x mod biL)) in Some (sc_setBytes rBuf).

(** ** windows *)

(** one iteration of the first loop of [computeScalarWindow5]: /repo/edwards25519/curve.go:329-342 *)
Definition ck_window5_split (s : list Z) (i : Z) (w : list Z) : option (list Z) :=
  let? a := get s (5 * i + 0) in let? w := set w (8 * i + 0) (i8 (Z.land a 31)) in
  let? a := get s (5 * i + 0) in let? w := set w (8 * i + 1) (i8 (Z.land (Z.shiftr a 5) 31)) in
  let? a := get s (5 * i + 1) in let? w := xor_at w (8 * i + 1) (i8 (Z.land (u8 (Z.shiftl a 3)) 31)) in
  let? a := get s (5 * i + 1) in let? w := set w (8 * i + 2) (i8 (Z.land (Z.shiftr a 2) 31)) in
  let? a := get s (5 * i + 1) in let? w := set w (8 * i + 3) (i8 (Z.land (Z.shiftr a 7) 31)) in
  let? a := get s (5 * i + 2) in let? w := xor_at w (8 * i + 3) (i8 (Z.land (u8 (Z.shiftl a 1)) 31)) in
  let? a := get s (5 * i + 2) in let? w := set w (8 * i + 4) (i8 (Z.land (Z.shiftr a 4) 31)) in
  let? a := get s (5 * i + 3) in let? w := xor_at w (8 * i + 4) (i8 (Z.land (u8 (Z.shiftl a 4)) 31)) in
  let? a := get s (5 * i + 3) in let? w := set w (8 * i + 5) (i8 (Z.land (Z.shiftr a 1) 31)) in
  let? a := get s (5 * i + 3) in let? w := set w (8 * i + 6) (i8 (Z.land (Z.shiftr a 6) 31)) in
  let? a := get s (5 * i + 4) in let? w := xor_at w (8 * i + 6) (i8 (Z.land (u8 (Z.shiftl a 2)) 31)) in
  let? a := get s (5 * i + 4) in set w (8 * i + 7) (i8 (Z.land (Z.shiftr a 3) 31)).

(** [computeScalarWindow5] before "Making it signed": /repo/edwards25519/curve.go:329-346 *)
Definition ck_window5_raw (s w : list Z) : option (list Z) :=
  let? w := ck_for 6 (ck_window5_split s) w in
  let? a := get s (5 * 6 + 0) in let? w := set w (8 * 6 + 0) (i8 (Z.land a 31)) in
  let? a := get s (5 * 6 + 0) in let? w := set w (8 * 6 + 1) (i8 (Z.land (Z.shiftr a 5) 31)) in
  let? a := get s (5 * 6 + 1) in let? w := xor_at w (8 * 6 + 1) (i8 (Z.land (u8 (Z.shiftl a 3)) 31)) in
  let? a := get s (5 * 6 + 1) in set w (8 * 6 + 2) (i8 (Z.land (Z.shiftr a 2) 31)).

(** one iteration of the second loop: /repo/edwards25519/curve.go:350-356 *)
Definition ck_window5_step (i : Z) (st : list Z * Z) : option (list Z * Z) :=
  let (w, carry) := st in
  let? w := add_at w i carry in
  let? a := get w i in let? w := add_at w (i + 1) (Z.shiftr a 5) in
  let? a := get w i in let? w := set w i (Z.land a 31) in
  let? a := get w i in let carry := Z.shiftr a 4 in
  let? a := get w i in let? w := set w i (i8 (a - i8 (Z.shiftl carry 5))) in
  Some (w, carry).

(** [computeScalarWindow5]: /repo/edwards25519/curve.go:328-358; [w] is the array before the call *)
Definition ck_computeScalarWindow5 (s w : list Z) : option (list Z) :=
  let? w := ck_window5_raw s w in
  let? st := ck_for 50 ck_window5_step (w, 0) in
  add_at (fst st) 50 (snd st).

(** one iteration of the second loop of [computeScalarWindow4]: /repo/edwards25519/table.go:122-126 *)
Definition ck_window4_step (i : Z) (st : list Z * Z) : option (list Z * Z) :=
  let (w, carry) := st in
  let? w := add_at w i carry in
  let? a := get w i in let carry := Z.shiftr (i8 (a + 8)) 4 in
  let? a := get w i in let? w := set w i (i8 (a - i8 (Z.shiftl carry 4))) in
  Some (w, carry).

(** [computeScalarWindow4]: /repo/edwards25519/table.go:116-128; [w] is the array before the call *)
Definition ck_computeScalarWindow4 (s w : list Z) : option (list Z) :=
  let? w := ck_for 32 (fun i w =>
    let? a := get s i in let? w := set w (2 * i) (i8 (Z.land a 15)) in
    let? a := get s i in set w (2 * i + 1) (i8 (Z.land (Z.shiftr a 4) 15))) w in
  let? st := ck_for 63 ck_window4_step (w, 0) in
  add_at (fst st) 63 (snd st).

(** [load8u]: /repo/edwards25519/vartime.go:3-14 *)
Definition ck_load8u (s : list Z) : option Z :=
  let sh x k := u64 (Z.shiftl x k) in
  let? a := get s 0 in let r := a in
  let? a := get s 1 in let r := Z.lor r (sh a 8) in
  let? a := get s 2 in let r := Z.lor r (sh a 16) in
  let? a := get s 3 in let r := Z.lor r (sh a 24) in
  let? a := get s 4 in let r := Z.lor r (sh a 32) in
  let? a := get s 5 in let r := Z.lor r (sh a 40) in
  let? a := get s 6 in let r := Z.lor r (sh a 48) in
  let? a := get s 7 in Some (Z.lor r (sh a 56)).

(** the loop of [computeScalar5NAF]: /repo/edwards25519/vartime.go:26-50; [pos] is a [uint16].
    [None] is a panic or more than [fuel] iterations. *)
Fixpoint ck_naf_loop (fuel : nat) (x : list Z) (pos carry : Z) (naf : list Z) : option (list Z) :=
  if pos <? 256 then
    match fuel with
    | O => None
    | S fuel =>
      let idx := pos / 64 in
      let bit_idx := pos mod 64 in
      let? bit_buf :=
        if bit_idx <? 59 then let? a := get x idx in Some (Z.shiftr a bit_idx)
        else let? a := get x idx in let? b := get x (1 + idx) in
             Some (Z.lor (Z.shiftr a bit_idx) (u64 (Z.shiftl b (64 - bit_idx)))) in
      let window := u64 (carry + Z.land bit_buf 31) in
      if Z.land window 1 =? 0 then ck_naf_loop fuel x (u16 (pos + 1)) carry naf
      else if window <? 16 then
        let? naf := set naf pos (i8 window) in ck_naf_loop fuel x (u16 (pos + 5)) 0 naf
      else
        let? naf := set naf pos (i8 (i8 window - 32)) in ck_naf_loop fuel x (u16 (pos + 5)) 1 naf
    end
  else Some naf.

(** [computeScalar5NAF]: /repo/edwards25519/vartime.go:19-51 *)
Definition ck_computeScalar5NAF (s : list Z) : option (list Z) :=
  let? x := ck_for 4 (fun i x =>
    let? b := sub_slice s (i * 8) ((i + 1) * 8) in let? v := ck_load8u b in set x i v) (repeat 0 5) in
  ck_naf_loop 256 x 0 0 (repeat 0 256).

Section Curve.
Context (K : FeOps).
Notation FE := (fe K).
Notation EXT := (ext FE).
Notation NIELS := (niels FE).
Notation JAC := (jacobi FE).

(** [FieldElement.BigInt]: /repo/edwards25519/field.go:167-175; the value and the receiver after the call *)
Definition ck_fe_BigInt (x : FE) : option (Z * FE) :=
  let r := o_bytes K x in
  let? rBuf := ck_reverse (fst r) in Some (big_SetBytes rBuf, snd r).

(** [FieldElement.SetBigInt]: /repo/edwards25519/field.go:191-201 *)
Definition ck_fe_SetBigInt (x : Z) : option FE :=
  let bi25519 := 0x7fffffffffffffffffffffffffffffffffffffffffffffffffffffffffffffed in
  let? rBuf := ck_copy_reverse (big_Bytes (x mod bi25519)) in Some (o_setBytes K rBuf).

(** ** curve.go *)

(** the tabulation of [ScalarMult]: /repo/edwards25519/curve.go:363-375 *)
Definition ck_sm_lut (q : EXT) : option (list EXT) :=
  let lut := repeat (ep_zerovalue K) 17 in
  let? lut := set lut 0 (ep_SetZero K) in
  let? lut := set lut 1 q in
  let? lut := ck_for 7 (fun k lut =>
    let i := 2 * k + 2 in
    let? a := get lut (Z.shiftr i 1) in
    let? lut := set lut i (ep_Double K a) in
    let? a := get lut i in
    set lut (i + 1) (ep_Add K a q)) lut in
  let? a := get lut 8 in
  set lut 16 (ep_Double K a).

(** the selection: /repo/edwards25519/curve.go:389-400 *)
Definition ck_sm_select (lut : list EXT) (b : Z) : option EXT :=
  let? t := get lut 0 in
  let? t := ck_for 16 (fun k t =>
    let j := k + 1 in
    let c := Z.lor (equal15 b (i32 (- j))) (equal15 b (i32 j)) in
    let? a := get lut j in
    Some (ep_ConditionalSet K t a c)) t in
  let c := negative b in
  let v := o_neg K (eX t) in
  let t := mkExt (o_condSet K (eX t) v c) (eY t) (eZ t) (eT t) in
  let v := o_neg K (eT t) in
  Some (mkExt (eX t) (eY t) (eZ t) (o_condSet K (eT t) v c)).

(** [ScalarMult]: /repo/edwards25519/curve.go:361-406 *)
Definition ck_ep_ScalarMult (q : EXT) (s : list Z) : option EXT :=
  let? window := ck_computeScalarWindow5 s (repeat 0 51) in
  let? lut := ck_sm_lut q in
  ck_for 51 (fun k p =>
    let i := 50 - k in
    let cp := cp_DoubleExtended K p in
    let cp := go_for 0 4 (fun cp => cp_DoubleProjective K (pp_SetCompleted K cp)) cp in
    let p := ep_SetCompleted K cp in
    let? b := get window i in
    let? t := ck_sm_select lut b in
    Some (ep_Add K p t)) (ep_SetZero K).

(** ** vartime.go *)

(** the table of odd multiples: /repo/edwards25519/vartime.go:54-62 *)
Definition ck_vt_lut (q : EXT) : option (list EXT) :=
  let dblQ := ep_Double K q in
  let? lut := set (repeat (ep_zerovalue K) 8) 0 q in
  ck_for 7 (fun k lut =>
    let i := k + 1 in
    let? a := get lut (i - 1) in
    set lut i (ep_Add K a dblQ)) lut.

(** [for ; i >= 0; i--]: /repo/edwards25519/vartime.go:69-74; [None] is a panic or more than [fuel] iterations *)
Fixpoint ck_vt_skip (fuel : nat) (naf : list Z) (i : Z) : option Z :=
  match fuel with
  | O => None
  | S fuel =>
    if 0 <=? i then
      let? d := get naf i in
      if negb (d =? 0) then Some i else ck_vt_skip fuel naf (i - 1)
    else Some i
  end.

(** the inner loop: /repo/edwards25519/vartime.go:101-108; [None] is a panic or more than [fuel] iterations *)
Fixpoint ck_vt_inner (fuel : nat) (naf : list Z) (i : Z) (cp : compl FE) : option (Z * compl FE) :=
  match fuel with
  | O => None
  | S fuel =>
    let? stop := if i =? 0 then Some true else let? d := get naf i in Some (negb (d =? 0)) in
    if (stop : bool) then Some (i, cp)
    else ck_vt_inner fuel naf (i - 1) (cp_DoubleProjective K (pp_SetCompleted K cp))
  end.

(** the outer loop: /repo/edwards25519/vartime.go:84-114; [None] is a panic or more than [fuel] iterations *)
Fixpoint ck_vt_loop (fuel : nat) (lut : list EXT) (naf : list Z) (i : Z) (p : EXT) : option EXT :=
  match fuel with
  | O => None
  | S fuel =>
    let? d := get naf i in
    let? cp :=
      if 0 <? d then let? a := get lut (i8 (Z.quot (i8 (d + 1)) 2 - 1)) in Some (cp_AddExtended K p a)
      else let? a := get lut (i8 (Z.quot (i8 (1 - d)) 2 - 1)) in Some (cp_SubExtended K p a) in
    if i =? 0 then Some (ep_SetCompleted K cp)
    else
      let i := i - 1 in
      let cp := cp_DoubleProjective K (pp_SetCompleted K cp) in
      let? st := ck_vt_inner 257 naf i cp in
      let p := ep_SetCompleted K (snd st) in
      let? d := get naf (fst st) in
      if d =? 0 then Some p else ck_vt_loop fuel lut naf (fst st) p
  end.

(** [ExtendedPoint.VarTimeScalarMult]: /repo/edwards25519/vartime.go:53-117 *)
Definition ck_ep_VarTimeScalarMult (q : EXT) (s : list Z) : option EXT :=
  let? lut := ck_vt_lut q in
  let? naf := ck_computeScalar5NAF s in
  let? i := ck_vt_skip 257 naf 255 in
  if i =? -1 then Some (ep_SetZero K)
  else ck_vt_loop 257 lut naf i (ep_SetZero K).

(** ** table.go *)

(** t[i][v] = x *)
Definition set2 (t : list (list NIELS)) (i v : Z) (x : NIELS) : option (list (list NIELS)) :=
  let? row := get t i in let? row := set row v x in set t i row.

(** t[i][v] *)
Definition get2 (t : list (list NIELS)) (i v : Z) : option NIELS := let? row := get t i in get row v.

(** [Compute]: /repo/edwards25519/table.go:91-113; [t] is the receiver before the call *)
Definition ck_tbl_Compute (t : list (list NIELS)) (p : EXT) : option (list (list NIELS)) :=
  let? st := ck_for 32 (fun i (st : list (list NIELS) * EXT) =>
    let (t, cp) := st in
    let? st := ck_for 8 (fun v (st : list (list NIELS) * EXT) =>
      let (t, c) := st in
      let c := ep_Add K c cp in
      let? t := set2 t i v (np_SetExtended K c) in
      Some (t, c)) (t, ep_SetZero K) in
    let (t, c) := (st : list (list NIELS) * EXT) in
    let c_cp := cp_DoubleExtended K c in
    let c_pp := pp_SetCompleted K c_cp in
    let c_cp := cp_DoubleProjective K c_pp in
    let c_pp := pp_SetCompleted K c_cp in
    let c_cp := cp_DoubleProjective K c_pp in
    let c_pp := pp_SetCompleted K c_cp in
    let c_cp := cp_DoubleProjective K c_pp in
    let c_pp := pp_SetCompleted K c_cp in
    let c_cp := cp_DoubleProjective K c_pp in
    let cp := ep_SetCompleted K c_cp in
    Some (t, cp)) (t, p) in
  Some (fst st).

(** [selectPoint]: /repo/edwards25519/table.go:195-205 *)
Definition ck_tbl_select (t : list (list NIELS)) (pos b : Z) : option NIELS :=
  let bNegative := negative b in
  let bAbs := i32 (b - i32 (Z.shiftl (Z.land (i32 (- bNegative)) b) 1)) in
  let? p := ck_for 8 (fun i p =>
    let? a := get2 t pos i in
    Some (np_ConditionalSet K p a (equal30 bAbs (i32 (i + 1))))) (np_SetZero K) in
  Some (np_ConditionalSet K p (np_Neg K p) bNegative).

(** [ScalarMultTable.ScalarMult]: /repo/edwards25519/table.go:131-160 *)
Definition ck_tbl_ScalarMult (t : list (list NIELS)) (s : list Z) : option EXT :=
  let? w := ck_computeScalarWindow4 s (repeat 0 64) in
  let? p := ck_for 32 (fun i p =>
    let? b := get w (2 * i + 1) in
    let? np := ck_tbl_select t i b in
    Some (ep_SetCompleted K (cp_AddExtendedNiels K p np))) (ep_SetZero K) in
  let p := tbl_dbl4 K p in
  ck_for 32 (fun i p =>
    let? b := get w (2 * i) in
    let? np := ck_tbl_select t i b in
    Some (ep_SetCompleted K (cp_AddExtendedNiels K p np))) p.

(** [varTimeSelectPoint]: /repo/edwards25519/table.go:207-217; the inner [None] is the result [false] *)
Definition ck_tbl_vtSelect (t : list (list NIELS)) (pos b : Z) : option (option NIELS) :=
  if b =? 0 then Some None
  else if b <? 0 then let? a := get2 t pos (i32 (i32 (- b) - 1)) in Some (Some (np_Neg K a))
  else let? a := get2 t pos (i32 (b - 1)) in Some (Some a).

(** one iteration of the loops of [VarTimeScalarMult]: /repo/edwards25519/table.go:172-175, 188-191 *)
Definition ck_tbl_vtStep (t : list (list NIELS)) (i b : Z) (p : EXT) : option EXT :=
  let? r := ck_tbl_vtSelect t i b in
  Some (match r with None => p | Some np => ep_SetCompleted K (cp_AddExtendedNiels K p np) end).

(** [ScalarMultTable.VarTimeScalarMult]: /repo/edwards25519/table.go:162-193 *)
Definition ck_tbl_VarTimeScalarMult (t : list (list NIELS)) (s : list Z) : option EXT :=
  let? w := ck_computeScalarWindow4 s (repeat 0 64) in
  let? p := ck_for 32 (fun i p => let? b := get w (2 * i + 1) in ck_tbl_vtStep t i b p) (ep_SetZero K) in
  let p := tbl_dbl4 K p in
  ck_for 32 (fun i p => let? b := get w (2 * i) in ck_tbl_vtStep t i b p) p.

(** ** elligator.go *)

(** the loop body of [RistrettoElligator2Inverse]: /repo/edwards25519/elligator.go:43-47; [jcs[j]] is
    changed by the call *)
Definition ck_ell_inv_step (j : Z) (st : Z * list JAC * list FE) : option (Z * list JAC * list FE) :=
  let '(setMask, jcs, fes) := st in
  let? q := get jcs j in
  let '(r, f, q) := jc_elligator2Inverse K q in
  let? jcs := set jcs j q in
  let? fes := set fes (2 * j) f in
  let setMask := Z.lor setMask (u8 (Z.shiftl r (2 * j))) in
  let? q := get jcs j in
  let jc := jc_Dual K q in
  let '(r, f, _) := jc_elligator2Inverse K jc in
  let? fes := set fes (2 * j + 1) f in
  let setMask := Z.lor setMask (u8 (Z.shiftl r (2 * j + 1))) in
  Some (setMask, jcs, fes).

(** [RistrettoElligator2Inverse]: /repo/edwards25519/elligator.go:17-50; [fes] is the array before the call *)
Definition ck_ep_RistrettoElligator2Inverse (p : EXT) (fes : list FE) : option (Z * list FE * EXT) :=
  let (jcs, p) := ep_ToJacobiQuarticRistretto K p in
  let? st := ck_for 4 ck_ell_inv_step (0, jcs, fes) in
  Some (fst (fst st), snd st, p).

(** ** ristretto.go *)

(** copy(dst, src) *)
Definition go_copy (dst src : list Z) : list Z :=
  firstn (length dst) src ++ skipn (length src) dst.

(** the 32 bytes of [SetLizard] and [LizardInto]: /repo/ristretto.go:251-254 and 288-291; [copy(h[8:], data)]
    changes the part of [h] from index 8 on *)
Definition ck_lizard_buf (sha256 : list Z -> list Z) (data : list Z) : option (list Z) :=
  let h := sha256 data in
  let? tail := sub_slice h 8 (Z.of_nat (length h)) in
  let h := firstn 8 h ++ go_copy tail data in
  let? a := get h 0 in let? h := set h 0 (Z.land a 254) in
  let? a := get h 31 in set h 31 (Z.land a 63).

(** one iteration of the loop of [LizardInto]: /repo/ristretto.go:285-295; subtle.ConstantTimeCopy panics
    unless both slices have the same length *)
Definition ck_lizard_step (sha256 : list Z -> list Z) (mask : Z) (fes : list FE) (j : Z)
    (st : list Z * Z) : option (list Z * Z) :=
  let (buf, nFound) := st in
  let ok := Z.land (Z.shiftr mask j) 1 in
  let? f := get fes j in
  let buf2 := fst (o_bytes K f) in
  let? data := sub_slice buf2 8 24 in
  let? h := ck_lizard_buf sha256 data in
  let ok := Z.land ok (u8 (ct_compare h buf2)) in
  let? data := sub_slice buf2 8 24 in
  if Nat.eqb (length buf) (length data) then
    Some (if ok =? 1 then data else buf, u8 (nFound + ok))
  else None.

(** [LizardInto]: /repo/ristretto.go:278-303 *)
Definition ck_pt_LizardInto (sha256 : list Z -> list Z) (p : EXT) (buf : list Z) :
    option (lizard_err * list Z * EXT) :=
  let? r := ck_ep_RistrettoElligator2Inverse p (repeat (k_zero K) 8) in
  let? st := ck_for 8 (ck_lizard_step sha256 (fst (fst r)) (snd (fst r))) (buf, 0) in
  Some (if snd st =? 1 then lizard_nil else if snd st =? 0 then lizard_none else lizard_multiple, fst st, snd r).

(** [SetLizard]: /repo/ristretto.go:248-259 *)
Definition ck_pt_SetLizard (sha256 : list Z -> list Z) (data : list Z) : option EXT :=
  let? buf := ck_lizard_buf sha256 data in
  Some (ep_SetCompleted K (cp_SetRistrettoElligator2 K (o_setBytes K buf))).

End Curve.
