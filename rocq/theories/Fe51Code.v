(** Generated by tools/go2coq.py from /repo/edwards25519/field_radix51.go and
    field_mul64.go; do not edit. *)
From Coq Require Import ZArith List.
From Verif Require Import Words.
Import ListNotations.
Open Scope Z_scope.

(** [type FieldElement [5]uint64]: /repo/edwards25519/field_radix51.go:8 *)
Inductive fe51 : Set := Fe51 (l0 l1 l2 l3 l4 : Z).

(** [feZero]: /repo/edwards25519/field_radix51.go:11-11 *)
Definition r51_feZero : fe51 := Fe51 0 0 0 0 0.
(** [feOne]: /repo/edwards25519/field_radix51.go:12-12 *)
Definition r51_feOne : fe51 := Fe51 1 0 0 0 0.
(** [feMinusOne]: /repo/edwards25519/field_radix51.go:13-14 *)
Definition r51_feMinusOne : fe51 := Fe51 2251799813685228 2251799813685247 2251799813685247 2251799813685247 2251799813685247.
(** [feI]: /repo/edwards25519/field_radix51.go:17-20 *)
Definition r51_feI : fe51 := Fe51 1718705420411056 234908883556509 2233514472574048 2117202627021982 765476049583133.
(** [feMinusI]: /repo/edwards25519/field_radix51.go:23-26 *)
Definition r51_feMinusI : fe51 := Fe51 533094393274173 2016890930128738 18285341111199 134597186663265 1486323764102114.
(** [feD]: /repo/edwards25519/field_radix51.go:29-32 *)
Definition r51_feD : fe51 := Fe51 929955233495203 466365720129213 1662059464998953 2033849074728123 1442794654840575.
(** [fe2D]: /repo/edwards25519/field_radix51.go:35-38 *)
Definition r51_fe2D : fe51 := Fe51 1859910466990425 932731440258426 1072319116312658 1815898335770999 633789495995903.
(** [feInvSqrtMinusDMinusOne]: /repo/edwards25519/field_radix51.go:41-44 *)
Definition r51_feInvSqrtMinusDMinusOne : fe51 := Fe51 1972891073822467 1430154612583622 2243686579258279 473840635492096 133279003116800.
(** [feDoubleInvSqrtMinusDMinusOne]: /repo/edwards25519/field_radix51.go:47-50 *)
Definition r51_feDoubleInvSqrtMinusDMinusOne : fe51 := Fe51 1693982333959686 608509411481997 2235573344831311 947681270984193 266558006233600.
(** [feDoubleIInvSqrtMinusDMinusOne]: /repo/edwards25519/field_radix51.go:53-56 *)
Definition r51_feDoubleIInvSqrtMinusDMinusOne : fe51 := Fe51 1608655899704280 1999971613377227 49908634785720 1873700692181652 353702208628067.
(** [feDMinusOneSquared]: /repo/edwards25519/field_radix51.go:59-62 *)
Definition r51_feDMinusOneSquared : fe51 := Fe51 1507062230895904 1572317787530805 683053064812840 317374165784489 1572899562415810.
(** [feOneMinusDSquared]: /repo/edwards25519/field_radix51.go:65-68 *)
Definition r51_feOneMinusDSquared : fe51 := Fe51 1136626929484150 1998550399581263 496427632559748 118527312129759 45110755273534.
(** [feDp1OverDm1]: /repo/edwards25519/field_radix51.go:71-74 *)
Definition r51_feDp1OverDm1 : fe51 := Fe51 2159851467815724 1752228607624431 1825604053920671 1212587319275468 253422448836237.
(** [feSqrtID]: /repo/edwards25519/field_radix51.go:77-80 *)
Definition r51_feSqrtID : fe51 := Fe51 2298852427963285 3837146560810661 4413131899466403 3883177008057528 2352084440532925.
(** [feInvSqrt1pD]: /repo/edwards25519/field_radix51.go:83-86 *)
Definition r51_feInvSqrt1pD : fe51 := Fe51 321571956990465 1251814006996634 2226845496292387 189049560751797 2074948709371214.
(** [epBase.X]: /repo/edwards25519/field_radix51.go:90-98 *)
Definition r51_epBaseX : fe51 := Fe51 2678275328304575 4315672520525287 2266428086574206 2359477563015859 2540138899492839.
(** [epBase.Y]: /repo/edwards25519/field_radix51.go:90-98 *)
Definition r51_epBaseY : fe51 := Fe51 1934594822876571 2049809580636559 1991994783322914 1758681962032007 380046701118659.
(** [epBase.T]: /repo/edwards25519/field_radix51.go:90-98 *)
Definition r51_epBaseT : fe51 := Fe51 410445769351754 2235400917701188 1495825632738689 1351628537510093 430502003771208.

(** [Neg]: /repo/edwards25519/field_radix51.go:102-124 *)
Definition r51_neg (a : fe51) : fe51 :=
  match a with Fe51 a_0 a_1 a_2 a_3 a_4 =>
  let t_0 := a_0 in
  let t_1 := a_1 in
  let t_2 := a_2 in
  let t_3 := a_3 in
  let t_4 := a_4 in
  let t_1 := u64 (t_1 + (Z.shiftr t_0 51)) in
  let t_0 := Z.land t_0 2251799813685247 in
  let t_2 := u64 (t_2 + (Z.shiftr t_1 51)) in
  let t_1 := Z.land t_1 2251799813685247 in
  let t_3 := u64 (t_3 + (Z.shiftr t_2 51)) in
  let t_2 := Z.land t_2 2251799813685247 in
  let t_4 := u64 (t_4 + (Z.shiftr t_3 51)) in
  let t_3 := Z.land t_3 2251799813685247 in
  let t_0 := u64 (t_0 + (u64 ((Z.shiftr t_4 51) * 19))) in
  let t_4 := Z.land t_4 2251799813685247 in
  let fe_0 := u64 (4503599627370458 - t_0) in
  let fe_1 := u64 (4503599627370494 - t_1) in
  let fe_2 := u64 (4503599627370494 - t_2) in
  let fe_3 := u64 (4503599627370494 - t_3) in
  let fe_4 := u64 (4503599627370494 - t_4) in
  (Fe51 fe_0 fe_1 fe_2 fe_3 fe_4) end.

(** [sub]: /repo/edwards25519/field_radix51.go:127-149 *)
Definition r51_sub (a : fe51) (b : fe51) : fe51 :=
  match a with Fe51 a_0 a_1 a_2 a_3 a_4 =>
  match b with Fe51 b_0 b_1 b_2 b_3 b_4 =>
  let t_0 := b_0 in
  let t_1 := b_1 in
  let t_2 := b_2 in
  let t_3 := b_3 in
  let t_4 := b_4 in
  let t_1 := u64 (t_1 + (Z.shiftr t_0 51)) in
  let t_0 := Z.land t_0 2251799813685247 in
  let t_2 := u64 (t_2 + (Z.shiftr t_1 51)) in
  let t_1 := Z.land t_1 2251799813685247 in
  let t_3 := u64 (t_3 + (Z.shiftr t_2 51)) in
  let t_2 := Z.land t_2 2251799813685247 in
  let t_4 := u64 (t_4 + (Z.shiftr t_3 51)) in
  let t_3 := Z.land t_3 2251799813685247 in
  let t_0 := u64 (t_0 + (u64 ((Z.shiftr t_4 51) * 19))) in
  let t_4 := Z.land t_4 2251799813685247 in
  let fe_0 := u64 ((u64 (a_0 + 4503599627370458)) - t_0) in
  let fe_1 := u64 ((u64 (a_1 + 4503599627370494)) - t_1) in
  let fe_2 := u64 ((u64 (a_2 + 4503599627370494)) - t_2) in
  let fe_3 := u64 ((u64 (a_3 + 4503599627370494)) - t_3) in
  let fe_4 := u64 ((u64 (a_4 + 4503599627370494)) - t_4) in
  (Fe51 fe_0 fe_1 fe_2 fe_3 fe_4) end end.

(** [add]: /repo/edwards25519/field_radix51.go:152-159 *)
Definition r51_add (a : fe51) (b : fe51) : fe51 :=
  match a with Fe51 a_0 a_1 a_2 a_3 a_4 =>
  match b with Fe51 b_0 b_1 b_2 b_3 b_4 =>
  let fe_0 := u64 (a_0 + b_0) in
  let fe_1 := u64 (a_1 + b_1) in
  let fe_2 := u64 (a_2 + b_2) in
  let fe_3 := u64 (a_3 + b_3) in
  let fe_4 := u64 (a_4 + b_4) in
  (Fe51 fe_0 fe_1 fe_2 fe_3 fe_4) end end.

(** [setReduced]: /repo/edwards25519/field_radix51.go:167-200 *)
Definition r51_setReduced (a : fe51) : fe51 :=
  match a with Fe51 a_0 a_1 a_2 a_3 a_4 =>
  let fe_0 := a_0 in
  let fe_1 := a_1 in
  let fe_2 := a_2 in
  let fe_3 := a_3 in
  let fe_4 := a_4 in
  let fe_1 := u64 (fe_1 + (Z.shiftr fe_0 51)) in
  let fe_0 := Z.land fe_0 2251799813685247 in
  let fe_2 := u64 (fe_2 + (Z.shiftr fe_1 51)) in
  let fe_1 := Z.land fe_1 2251799813685247 in
  let fe_3 := u64 (fe_3 + (Z.shiftr fe_2 51)) in
  let fe_2 := Z.land fe_2 2251799813685247 in
  let fe_4 := u64 (fe_4 + (Z.shiftr fe_3 51)) in
  let fe_3 := Z.land fe_3 2251799813685247 in
  let fe_0 := u64 (fe_0 + (u64 ((Z.shiftr fe_4 51) * 19))) in
  let fe_4 := Z.land fe_4 2251799813685247 in
  let c := Z.shiftr (u64 (fe_0 + 19)) 51 in
  let c := Z.shiftr (u64 (fe_1 + c)) 51 in
  let c := Z.shiftr (u64 (fe_2 + c)) 51 in
  let c := Z.shiftr (u64 (fe_3 + c)) 51 in
  let c := Z.shiftr (u64 (fe_4 + c)) 51 in
  let fe_0 := u64 (fe_0 + (u64 (19 * c))) in
  let fe_1 := u64 (fe_1 + (Z.shiftr fe_0 51)) in
  let fe_0 := Z.land fe_0 2251799813685247 in
  let fe_2 := u64 (fe_2 + (Z.shiftr fe_1 51)) in
  let fe_1 := Z.land fe_1 2251799813685247 in
  let fe_3 := u64 (fe_3 + (Z.shiftr fe_2 51)) in
  let fe_2 := Z.land fe_2 2251799813685247 in
  let fe_4 := u64 (fe_4 + (Z.shiftr fe_3 51)) in
  let fe_3 := Z.land fe_3 2251799813685247 in
  let fe_4 := Z.land fe_4 2251799813685247 in
  (Fe51 fe_0 fe_1 fe_2 fe_3 fe_4) end.

(** [ConditionalSet]: /repo/edwards25519/field_radix51.go:203-210 *)
Definition r51_condSet (fe : fe51) (a : fe51) (b : Z) : fe51 :=
  match fe with Fe51 fe_0 fe_1 fe_2 fe_3 fe_4 =>
  match a with Fe51 a_0 a_1 a_2 a_3 a_4 =>
  let b2 := u64 ((u64 (i32 (1 - b))) - 1) in
  let fe_0 := Z.lxor fe_0 (Z.land b2 (Z.lxor fe_0 a_0)) in
  let fe_1 := Z.lxor fe_1 (Z.land b2 (Z.lxor fe_1 a_1)) in
  let fe_2 := Z.lxor fe_2 (Z.land b2 (Z.lxor fe_2 a_2)) in
  let fe_3 := Z.lxor fe_3 (Z.land b2 (Z.lxor fe_3 a_3)) in
  let fe_4 := Z.lxor fe_4 (Z.land b2 (Z.lxor fe_4 a_4)) in
  (Fe51 fe_0 fe_1 fe_2 fe_3 fe_4) end end.

(** [BytesInto]: /repo/edwards25519/field_radix51.go:213-254; returns the contents of s *)
Definition r51_bytes (fe : fe51) : list Z :=
  match fe with Fe51 fe_0 fe_1 fe_2 fe_3 fe_4 =>
  let '(Fe51 t_0 t_1 t_2 t_3 t_4) := r51_setReduced (Fe51 fe_0 fe_1 fe_2 fe_3 fe_4) in
  let s_0 := u8 (Z.land t_0 255) in
  let s_1 := u8 (Z.land (Z.shiftr t_0 8) 255) in
  let s_2 := u8 (Z.land (Z.shiftr t_0 16) 255) in
  let s_3 := u8 (Z.land (Z.shiftr t_0 24) 255) in
  let s_4 := u8 (Z.land (Z.shiftr t_0 32) 255) in
  let s_5 := u8 (Z.land (Z.shiftr t_0 40) 255) in
  let s_6 := u8 (Z.shiftr t_0 48) in
  let s_6 := Z.lxor s_6 (u8 (Z.land (u64 (Z.shiftl t_1 3)) 248)) in
  let s_7 := u8 (Z.land (Z.shiftr t_1 5) 255) in
  let s_8 := u8 (Z.land (Z.shiftr t_1 13) 255) in
  let s_9 := u8 (Z.land (Z.shiftr t_1 21) 255) in
  let s_10 := u8 (Z.land (Z.shiftr t_1 29) 255) in
  let s_11 := u8 (Z.land (Z.shiftr t_1 37) 255) in
  let s_12 := u8 (Z.shiftr t_1 45) in
  let s_12 := Z.lxor s_12 (u8 (Z.land (u64 (Z.shiftl t_2 6)) 192)) in
  let s_13 := u8 (Z.land (Z.shiftr t_2 2) 255) in
  let s_14 := u8 (Z.land (Z.shiftr t_2 10) 255) in
  let s_15 := u8 (Z.land (Z.shiftr t_2 18) 255) in
  let s_16 := u8 (Z.land (Z.shiftr t_2 26) 255) in
  let s_17 := u8 (Z.land (Z.shiftr t_2 34) 255) in
  let s_18 := u8 (Z.land (Z.shiftr t_2 42) 255) in
  let s_19 := u8 (Z.shiftr t_2 50) in
  let s_19 := Z.lxor s_19 (u8 (Z.land (u64 (Z.shiftl t_3 1)) 254)) in
  let s_20 := u8 (Z.land (Z.shiftr t_3 7) 255) in
  let s_21 := u8 (Z.land (Z.shiftr t_3 15) 255) in
  let s_22 := u8 (Z.land (Z.shiftr t_3 23) 255) in
  let s_23 := u8 (Z.land (Z.shiftr t_3 31) 255) in
  let s_24 := u8 (Z.land (Z.shiftr t_3 39) 255) in
  let s_25 := u8 (Z.shiftr t_3 47) in
  let s_25 := Z.lxor s_25 (u8 (Z.land (u64 (Z.shiftl t_4 4)) 240)) in
  let s_26 := u8 (Z.land (Z.shiftr t_4 4) 255) in
  let s_27 := u8 (Z.land (Z.shiftr t_4 12) 255) in
  let s_28 := u8 (Z.land (Z.shiftr t_4 20) 255) in
  let s_29 := u8 (Z.land (Z.shiftr t_4 28) 255) in
  let s_30 := u8 (Z.land (Z.shiftr t_4 36) 255) in
  let s_31 := u8 (Z.shiftr t_4 44) in
  [s_0; s_1; s_2; s_3; s_4; s_5; s_6; s_7; s_8; s_9; s_10; s_11; s_12; s_13; s_14; s_15; s_16; s_17; s_18; s_19; s_20; s_21; s_22; s_23; s_24; s_25; s_26; s_27; s_28; s_29; s_30; s_31] end.

(** [SetBytes]: /repo/edwards25519/field_radix51.go:258-279 *)
Definition r51_setBytes (buf : list Z) : fe51 :=
  let fe_0 := Z.lor (Z.lor (Z.lor (Z.lor (Z.lor (Z.lor (at_ buf 0) (u64 (Z.shiftl (at_ buf 1) 8))) (u64 (Z.shiftl (at_ buf 2) 16))) (u64 (Z.shiftl (at_ buf 3) 24))) (u64 (Z.shiftl (at_ buf 4) 32))) (u64 (Z.shiftl (at_ buf 5) 40))) (u64 (Z.shiftl (Z.land (at_ buf 6) 7) 48)) in
  let fe_1 := Z.lor (Z.lor (Z.lor (Z.lor (Z.lor (Z.lor (Z.shiftr (at_ buf 6) 3) (u64 (Z.shiftl (at_ buf 7) 5))) (u64 (Z.shiftl (at_ buf 8) 13))) (u64 (Z.shiftl (at_ buf 9) 21))) (u64 (Z.shiftl (at_ buf 10) 29))) (u64 (Z.shiftl (at_ buf 11) 37))) (u64 (Z.shiftl (Z.land (at_ buf 12) 63) 45)) in
  let fe_2 := Z.lor (Z.lor (Z.lor (Z.lor (Z.lor (Z.lor (Z.lor (Z.shiftr (at_ buf 12) 6) (u64 (Z.shiftl (at_ buf 13) 2))) (u64 (Z.shiftl (at_ buf 14) 10))) (u64 (Z.shiftl (at_ buf 15) 18))) (u64 (Z.shiftl (at_ buf 16) 26))) (u64 (Z.shiftl (at_ buf 17) 34))) (u64 (Z.shiftl (at_ buf 18) 42))) (u64 (Z.shiftl (Z.land (at_ buf 19) 1) 50)) in
  let fe_3 := Z.lor (Z.lor (Z.lor (Z.lor (Z.lor (Z.lor (Z.shiftr (at_ buf 19) 1) (u64 (Z.shiftl (at_ buf 20) 7))) (u64 (Z.shiftl (at_ buf 21) 15))) (u64 (Z.shiftl (at_ buf 22) 23))) (u64 (Z.shiftl (at_ buf 23) 31))) (u64 (Z.shiftl (at_ buf 24) 39))) (u64 (Z.shiftl (Z.land (at_ buf 25) 15) 47)) in
  let fe_4 := Z.lor (Z.lor (Z.lor (Z.lor (Z.lor (Z.lor (Z.shiftr (at_ buf 25) 4) (u64 (Z.shiftl (at_ buf 26) 4))) (u64 (Z.shiftl (at_ buf 27) 12))) (u64 (Z.shiftl (at_ buf 28) 20))) (u64 (Z.shiftl (at_ buf 29) 28))) (u64 (Z.shiftl (at_ buf 30) 36))) (u64 (Z.shiftl (Z.land (at_ buf 31) 127) 44)) in
  (Fe51 fe_0 fe_1 fe_2 fe_3 fe_4).

(** [Mul]: /repo/edwards25519/field_mul64.go:11-129 *)
Definition r51_mul (a : fe51) (b : fe51) : fe51 :=
  match a with Fe51 a_0 a_1 a_2 a_3 a_4 =>
  match b with Fe51 b_0 b_1 b_2 b_3 b_4 =>
  let a0 := a_0 in
  let a1 := a_1 in
  let a2 := a_2 in
  let a3 := a_3 in
  let a4 := a_4 in
  let b0 := b_0 in
  let b1 := b_1 in
  let b2 := b_2 in
  let b3 := b_3 in
  let b4 := b_4 in
  let b1_19 := u64 (b1 * 19) in
  let b2_19 := u64 (b2 * 19) in
  let b3_19 := u64 (b3 * 19) in
  let b4_19 := u64 (b4 * 19) in
  let (c0h, c0l) := bits_mul64 b0 a0 in
  let (h, l) := bits_mul64 b1_19 a4 in
  let (c0l, carry) := bits_add64 c0l l 0 in
  let (c0h, _) := bits_add64 c0h h carry in
  let (h, l) := bits_mul64 b2_19 a3 in
  let (c0l, carry) := bits_add64 c0l l 0 in
  let (c0h, _) := bits_add64 c0h h carry in
  let (h, l) := bits_mul64 b3_19 a2 in
  let (c0l, carry) := bits_add64 c0l l 0 in
  let (c0h, _) := bits_add64 c0h h carry in
  let (h, l) := bits_mul64 b4_19 a1 in
  let (c0l, carry) := bits_add64 c0l l 0 in
  let (c0h, _) := bits_add64 c0h h carry in
  let (c1h, c1l) := bits_mul64 b0 a1 in
  let (h, l) := bits_mul64 b1 a0 in
  let (c1l, carry) := bits_add64 c1l l 0 in
  let (c1h, _) := bits_add64 c1h h carry in
  let (h, l) := bits_mul64 b2_19 a4 in
  let (c1l, carry) := bits_add64 c1l l 0 in
  let (c1h, _) := bits_add64 c1h h carry in
  let (h, l) := bits_mul64 b3_19 a3 in
  let (c1l, carry) := bits_add64 c1l l 0 in
  let (c1h, _) := bits_add64 c1h h carry in
  let (h, l) := bits_mul64 b4_19 a2 in
  let (c1l, carry) := bits_add64 c1l l 0 in
  let (c1h, _) := bits_add64 c1h h carry in
  let (c1l, carry) := bits_add64 (Z.lor (Z.shiftr c0l 51) (u64 (Z.shiftl c0h 13))) c1l 0 in
  let (c1h, _) := bits_add64 c1h 0 carry in
  let c0l := Z.land c0l 2251799813685247 in
  let (c2h, c2l) := bits_mul64 b0 a2 in
  let (h, l) := bits_mul64 b1 a1 in
  let (c2l, carry) := bits_add64 c2l l 0 in
  let (c2h, _) := bits_add64 c2h h carry in
  let (h, l) := bits_mul64 b2 a0 in
  let (c2l, carry) := bits_add64 c2l l 0 in
  let (c2h, _) := bits_add64 c2h h carry in
  let (h, l) := bits_mul64 b3_19 a4 in
  let (c2l, carry) := bits_add64 c2l l 0 in
  let (c2h, _) := bits_add64 c2h h carry in
  let (h, l) := bits_mul64 b4_19 a3 in
  let (c2l, carry) := bits_add64 c2l l 0 in
  let (c2h, _) := bits_add64 c2h h carry in
  let (c2l, carry) := bits_add64 (Z.lor (Z.shiftr c1l 51) (u64 (Z.shiftl c1h 13))) c2l 0 in
  let (c2h, _) := bits_add64 c2h 0 carry in
  let c1l := Z.land c1l 2251799813685247 in
  let (c3h, c3l) := bits_mul64 b0 a3 in
  let (h, l) := bits_mul64 b1 a2 in
  let (c3l, carry) := bits_add64 c3l l 0 in
  let (c3h, _) := bits_add64 c3h h carry in
  let (h, l) := bits_mul64 b2 a1 in
  let (c3l, carry) := bits_add64 c3l l 0 in
  let (c3h, _) := bits_add64 c3h h carry in
  let (h, l) := bits_mul64 b3 a0 in
  let (c3l, carry) := bits_add64 c3l l 0 in
  let (c3h, _) := bits_add64 c3h h carry in
  let (h, l) := bits_mul64 b4_19 a4 in
  let (c3l, carry) := bits_add64 c3l l 0 in
  let (c3h, _) := bits_add64 c3h h carry in
  let (c3l, carry) := bits_add64 (Z.lor (Z.shiftr c2l 51) (u64 (Z.shiftl c2h 13))) c3l 0 in
  let (c3h, _) := bits_add64 c3h 0 carry in
  let c2l := Z.land c2l 2251799813685247 in
  let (c4h, c4l) := bits_mul64 b0 a4 in
  let (h, l) := bits_mul64 b1 a3 in
  let (c4l, carry) := bits_add64 c4l l 0 in
  let (c4h, _) := bits_add64 c4h h carry in
  let (h, l) := bits_mul64 b2 a2 in
  let (c4l, carry) := bits_add64 c4l l 0 in
  let (c4h, _) := bits_add64 c4h h carry in
  let (h, l) := bits_mul64 b3 a1 in
  let (c4l, carry) := bits_add64 c4l l 0 in
  let (c4h, _) := bits_add64 c4h h carry in
  let (h, l) := bits_mul64 b4 a0 in
  let (c4l, carry) := bits_add64 c4l l 0 in
  let (c4h, _) := bits_add64 c4h h carry in
  let (c4l, carry) := bits_add64 (Z.lor (Z.shiftr c3l 51) (u64 (Z.shiftl c3h 13))) c4l 0 in
  let (c4h, _) := bits_add64 c4h 0 carry in
  let c3l := Z.land c3l 2251799813685247 in
  let carry := Z.lor (Z.shiftr c4l 51) (u64 (Z.shiftl c4h 13)) in
  let c4l := Z.land c4l 2251799813685247 in
  let c0l := u64 (c0l + (u64 (carry * 19))) in
  let c1l := u64 (c1l + (Z.shiftr c0l 51)) in
  let c0l := Z.land c0l 2251799813685247 in
  let fe_0 := c0l in
  let fe_1 := c1l in
  let fe_2 := c2l in
  let fe_3 := c3l in
  let fe_4 := c4l in
  (Fe51 fe_0 fe_1 fe_2 fe_3 fe_4) end end.

(** [Square]: /repo/edwards25519/field_mul64.go:132-211 *)
Definition r51_square (a : fe51) : fe51 :=
  match a with Fe51 a_0 a_1 a_2 a_3 a_4 =>
  let a0 := a_0 in
  let a1 := a_1 in
  let a2 := a_2 in
  let a3 := a_3 in
  let a4 := a_4 in
  let a4_38 := u64 (a4 * 38) in
  let (c0h, c0l) := bits_mul64 a0 a0 in
  let (h, l) := bits_mul64 (u64 (a4 * 38)) a1 in
  let (c0l, carry) := bits_add64 c0l l 0 in
  let (c0h, _) := bits_add64 c0h h carry in
  let (h, l) := bits_mul64 (u64 (a2 * 38)) a3 in
  let (c0l, carry) := bits_add64 c0l l 0 in
  let (c0h, _) := bits_add64 c0h h carry in
  let (c1h, c1l) := bits_mul64 (u64 (2 * a0)) a1 in
  let (h, l) := bits_mul64 a2 a4_38 in
  let (c1l, carry) := bits_add64 c1l l 0 in
  let (c1h, _) := bits_add64 c1h h carry in
  let (h, l) := bits_mul64 (u64 (a3 * 19)) a3 in
  let (c1l, carry) := bits_add64 c1l l 0 in
  let (c1h, _) := bits_add64 c1h h carry in
  let (c1l, carry) := bits_add64 (Z.lor (Z.shiftr c0l 51) (u64 (Z.shiftl c0h 13))) c1l 0 in
  let (c1h, _) := bits_add64 c1h 0 carry in
  let c0l := Z.land c0l 2251799813685247 in
  let (c2h, c2l) := bits_mul64 a0 (u64 (2 * a2)) in
  let (h, l) := bits_mul64 a1 a1 in
  let (c2l, carry) := bits_add64 c2l l 0 in
  let (c2h, _) := bits_add64 c2h h carry in
  let (h, l) := bits_mul64 a4_38 a3 in
  let (c2l, carry) := bits_add64 c2l l 0 in
  let (c2h, _) := bits_add64 c2h h carry in
  let (c2l, carry) := bits_add64 (Z.lor (Z.shiftr c1l 51) (u64 (Z.shiftl c1h 13))) c2l 0 in
  let (c2h, _) := bits_add64 c2h 0 carry in
  let c1l := Z.land c1l 2251799813685247 in
  let (c3h, c3l) := bits_mul64 a0 (u64 (2 * a3)) in
  let (h, l) := bits_mul64 (u64 (2 * a1)) a2 in
  let (c3l, carry) := bits_add64 c3l l 0 in
  let (c3h, _) := bits_add64 c3h h carry in
  let (h, l) := bits_mul64 (u64 (a4 * 19)) a4 in
  let (c3l, carry) := bits_add64 c3l l 0 in
  let (c3h, _) := bits_add64 c3h h carry in
  let (c3l, carry) := bits_add64 (Z.lor (Z.shiftr c2l 51) (u64 (Z.shiftl c2h 13))) c3l 0 in
  let (c3h, _) := bits_add64 c3h 0 carry in
  let c2l := Z.land c2l 2251799813685247 in
  let (c4h, c4l) := bits_mul64 a0 (u64 (2 * a4)) in
  let (h, l) := bits_mul64 a2 a2 in
  let (c4l, carry) := bits_add64 c4l l 0 in
  let (c4h, _) := bits_add64 c4h h carry in
  let (h, l) := bits_mul64 a3 (u64 (2 * a1)) in
  let (c4l, carry) := bits_add64 c4l l 0 in
  let (c4h, _) := bits_add64 c4h h carry in
  let (c4l, carry) := bits_add64 (Z.lor (Z.shiftr c3l 51) (u64 (Z.shiftl c3h 13))) c4l 0 in
  let (c4h, _) := bits_add64 c4h 0 carry in
  let c3l := Z.land c3l 2251799813685247 in
  let carry := Z.lor (Z.shiftr c4l 51) (u64 (Z.shiftl c4h 13)) in
  let c0l := u64 (c0l + (u64 (carry * 19))) in
  let c4l := Z.land c4l 2251799813685247 in
  let c1l := u64 (c1l + (Z.shiftr c0l 51)) in
  let c0l := Z.land c0l 2251799813685247 in
  let fe_0 := c0l in
  let fe_1 := c1l in
  let fe_2 := c2l in
  let fe_3 := c3l in
  let fe_4 := c4l in
  (Fe51 fe_0 fe_1 fe_2 fe_3 fe_4) end.

(** [DoubledSquare]: /repo/edwards25519/field_mul64.go:214-297 *)
Definition r51_doubledSquare (a : fe51) : fe51 :=
  match a with Fe51 a_0 a_1 a_2 a_3 a_4 =>
  let a0 := a_0 in
  let a1 := a_1 in
  let a2 := a_2 in
  let a3 := a_3 in
  let a4 := a_4 in
  let a0_2 := u64 (a0 * 2) in
  let a1_2 := u64 (a1 * 2) in
  let a2_2 := u64 (a2 * 2) in
  let a3_38 := u64 (a3 * 38) in
  let a4_38 := u64 (a4 * 38) in
  let (c0h, c0l) := bits_mul64 a0 a0_2 in
  let (h, l) := bits_mul64 a4_38 a1_2 in
  let (c0l, carry) := bits_add64 c0l l 0 in
  let (c0h, _) := bits_add64 c0h h carry in
  let (h, l) := bits_mul64 a2_2 a3_38 in
  let (c0l, carry) := bits_add64 c0l l 0 in
  let (c0h, _) := bits_add64 c0h h carry in
  let (c1h, c1l) := bits_mul64 a0_2 a1_2 in
  let (h, l) := bits_mul64 a2_2 a4_38 in
  let (c1l, carry) := bits_add64 c1l l 0 in
  let (c1h, _) := bits_add64 c1h h carry in
  let (h, l) := bits_mul64 a3_38 a3 in
  let (c1l, carry) := bits_add64 c1l l 0 in
  let (c1h, _) := bits_add64 c1h h carry in
  let (c1l, carry) := bits_add64 (Z.lor (Z.shiftr c0l 51) (u64 (Z.shiftl c0h 13))) c1l 0 in
  let (c1h, _) := bits_add64 c1h 0 carry in
  let c0l := Z.land c0l 2251799813685247 in
  let (c2h, c2l) := bits_mul64 a0_2 a2_2 in
  let (h, l) := bits_mul64 a1_2 a1 in
  let (c2l, carry) := bits_add64 c2l l 0 in
  let (c2h, _) := bits_add64 c2h h carry in
  let (h, l) := bits_mul64 a4_38 (u64 (a3 * 2)) in
  let (c2l, carry) := bits_add64 c2l l 0 in
  let (c2h, _) := bits_add64 c2h h carry in
  let (c2l, carry) := bits_add64 (Z.lor (Z.shiftr c1l 51) (u64 (Z.shiftl c1h 13))) c2l 0 in
  let (c2h, _) := bits_add64 c2h 0 carry in
  let c1l := Z.land c1l 2251799813685247 in
  let (c3h, c3l) := bits_mul64 a0_2 (u64 (2 * a3)) in
  let (h, l) := bits_mul64 a1_2 a2_2 in
  let (c3l, carry) := bits_add64 c3l l 0 in
  let (c3h, _) := bits_add64 c3h h carry in
  let (h, l) := bits_mul64 a4_38 a4 in
  let (c3l, carry) := bits_add64 c3l l 0 in
  let (c3h, _) := bits_add64 c3h h carry in
  let (c3l, carry) := bits_add64 (Z.lor (Z.shiftr c2l 51) (u64 (Z.shiftl c2h 13))) c3l 0 in
  let (c3h, _) := bits_add64 c3h 0 carry in
  let c2l := Z.land c2l 2251799813685247 in
  let (c4h, c4l) := bits_mul64 a0_2 (u64 (2 * a4)) in
  let (h, l) := bits_mul64 a2_2 a2 in
  let (c4l, carry) := bits_add64 c4l l 0 in
  let (c4h, _) := bits_add64 c4h h carry in
  let (h, l) := bits_mul64 (u64 (2 * a3)) a1_2 in
  let (c4l, carry) := bits_add64 c4l l 0 in
  let (c4h, _) := bits_add64 c4h h carry in
  let (c4l, carry) := bits_add64 (Z.lor (Z.shiftr c3l 51) (u64 (Z.shiftl c3h 13))) c4l 0 in
  let (c4h, _) := bits_add64 c4h 0 carry in
  let c3l := Z.land c3l 2251799813685247 in
  let carry := Z.lor (Z.shiftr c4l 51) (u64 (Z.shiftl c4h 13)) in
  let c0l := u64 (c0l + (u64 (carry * 19))) in
  let c4l := Z.land c4l 2251799813685247 in
  let c1l := u64 (c1l + (Z.shiftr c0l 51)) in
  let c0l := Z.land c0l 2251799813685247 in
  let fe_0 := c0l in
  let fe_1 := c1l in
  let fe_2 := c2l in
  let fe_3 := c3l in
  let fe_4 := c4l in
  (Fe51 fe_0 fe_1 fe_2 fe_3 fe_4) end.

