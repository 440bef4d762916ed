(** Generated by tools/go2coq.py from /repo/edwards25519/field_generic.go; do not edit. *)
From Coq Require Import ZArith List.
From Verif Require Import Words.
Import ListNotations.
Open Scope Z_scope.

(** [type FieldElement [10]int32]: /repo/edwards25519/field_generic.go:8 *)
Inductive fe25 : Set := Fe25 (l0 l1 l2 l3 l4 l5 l6 l7 l8 l9 : Z).

(** the ten unnormalised coefficients h0, ..., h9 of type int64 *)
Inductive h10 : Set := H10 (h0 h1 h2 h3 h4 h5 h6 h7 h8 h9 : Z).

(** [load3]: /repo/edwards25519/field_generic.go:146-152 *)
Definition g_load3 (inp : list Z) : Z :=
  let r := at_ inp 0 in
  let r := Z.lor r (i64 (Z.shiftl (at_ inp 1) 8)) in
  let r := Z.lor r (i64 (Z.shiftl (at_ inp 2) 16)) in
  r.

(** [load4]: /repo/edwards25519/field_generic.go:155-162 *)
Definition g_load4 (inp : list Z) : Z :=
  let r := at_ inp 0 in
  let r := Z.lor r (i64 (Z.shiftl (at_ inp 1) 8)) in
  let r := Z.lor r (i64 (Z.shiftl (at_ inp 2) 16)) in
  let r := Z.lor r (i64 (Z.shiftl (at_ inp 3) 24)) in
  r.

(** [feZero]: /repo/edwards25519/field_generic.go:11-11 *)
Definition g25_feZero : fe25 := Fe25 0 0 0 0 0 0 0 0 0 0.
(** [feOne]: /repo/edwards25519/field_generic.go:12-12 *)
Definition g25_feOne : fe25 := Fe25 1 0 0 0 0 0 0 0 0 0.
(** [feMinusOne]: /repo/edwards25519/field_generic.go:13-13 *)
Definition g25_feMinusOne : fe25 := Fe25 (-1) 0 0 0 0 0 0 0 0 0.
(** [feI]: /repo/edwards25519/field_generic.go:16-19 *)
Definition g25_feI : fe25 := Fe25 (-32595792) (-7943725) 9377950 3500415 12389472 (-272473) (-25146209) (-2005654) 326686 11406482.
(** [feMinusI]: /repo/edwards25519/field_generic.go:22-25 *)
Definition g25_feMinusI : fe25 := Fe25 32595792 7943725 (-9377950) (-3500415) (-12389472) 272473 25146209 2005654 (-326686) (-11406482).
(** [feD]: /repo/edwards25519/field_generic.go:28-31 *)
Definition g25_feD : fe25 := Fe25 (-10913610) 13857413 (-15372611) 6949391 114729 (-8787816) (-6275908) (-3247719) (-18696448) (-12055116).
(** [fe2D]: /repo/edwards25519/field_generic.go:34-37 *)
Definition g25_fe2D : fe25 := Fe25 (-21827239) (-5839606) (-30745221) 13898782 229458 15978800 (-12551817) (-6495438) 29715968 9444199.
(** [feInvSqrtMinusDMinusOne]: /repo/edwards25519/field_generic.go:40-43 *)
Definition g25_feInvSqrtMinusDMinusOne : fe25 := Fe25 (-6111485) (-4156064) 27798727 (-12243468) 25904040 (-120897) (-20826367) 7060776 (-6093568) 1986012.
(** [feDoubleInvSqrtMinusDMinusOne]: /repo/edwards25519/field_generic.go:46-49 *)
Definition g25_feDoubleInvSqrtMinusDMinusOne : fe25 := Fe25 (-12222970) (-8312128) (-11511410) 9067497 (-15300785) (-241793) 25456130 14121551 (-12187136) 3972024.
(** [feDoubleIInvSqrtMinusDMinusOne]: /repo/edwards25519/field_generic.go:52-55 *)
Definition g25_feDoubleIInvSqrtMinusDMinusOne : fe25 := Fe25 (-8930344) (-9583591) 26444492 (-3752533) (-26044487) 743697 2900628 (-5634116) (-25139868) 5270574.
(** [feDMinusOneSquared]: /repo/edwards25519/field_generic.go:58-61 *)
Definition g25_feDMinusOneSquared : fe25 := Fe25 15551795 (-11097455) (-13425098) (-10125071) (-11896535) 10178284 (-26634327) 4729244 (-5282110) (-10116402).
(** [feOneMinusDSquared]: /repo/edwards25519/field_generic.go:64-67 *)
Definition g25_feOneMinusDSquared : fe25 := Fe25 6275446 (-16617371) (-22938544) (-3773710) 11667077 7397348 (-27922721) 1766195 (-24433858) 672203.
(** [feDp1OverDm1]: /repo/edwards25519/field_generic.go:70-73 *)
Definition g25_feDp1OverDm1 : fe25 := Fe25 (-8275156) (-1370137) (-4651792) (-7444191) 19032992 (-6350812) 7122893 (-15485473) (-16089458) 3776289.
(** [feSqrtID]: /repo/edwards25519/field_generic.go:76-79 *)
Definition g25_feSqrtID : fe25 := Fe25 (-27518040) 701139 28659366 (-9930925) (-13176155) (-1348074) (-30782278) (-9245017) 26167231 1494357.
(** [feInvSqrt1pD]: /repo/edwards25519/field_generic.go:82-85 *)
Definition g25_feInvSqrt1pD : fe25 := Fe25 (-29089260) 4791796 20332186 (-14900950) (-20532188) (-371848) (-1450314) 2817058 12569934 (-2635287).
(** [epBase.X]: /repo/edwards25519/field_generic.go:89-97 *)
Definition g25_epBaseX : fe25 := Fe25 (-41032219) (-27199451) (-7502359) (-2800332) (-50176896) (-33336453) (-33570123) (-31949908) (-53948439) (-29257844).
(** [epBase.Y]: /repo/edwards25519/field_generic.go:89-97 *)
Definition g25_epBaseY : fe25 := Fe25 20163995 28827709 65616271 30544542 24400674 29683035 27175815 26206403 10372291 5663137.
(** [epBase.T]: /repo/edwards25519/field_generic.go:89-97 *)
Definition g25_epBaseT : fe25 := Fe25 38281802 6116118 27349572 33310069 58473857 22289538 47757517 20140834 50497352 6414979.

(** [Neg]: /repo/edwards25519/field_generic.go:101-113 *)
Definition g25_neg (a : fe25) : fe25 :=
  match a with Fe25 a_0 a_1 a_2 a_3 a_4 a_5 a_6 a_7 a_8 a_9 =>
  let fe_0 := i32 (- a_0) in
  let fe_1 := i32 (- a_1) in
  let fe_2 := i32 (- a_2) in
  let fe_3 := i32 (- a_3) in
  let fe_4 := i32 (- a_4) in
  let fe_5 := i32 (- a_5) in
  let fe_6 := i32 (- a_6) in
  let fe_7 := i32 (- a_7) in
  let fe_8 := i32 (- a_8) in
  let fe_9 := i32 (- a_9) in
  (Fe25 fe_0 fe_1 fe_2 fe_3 fe_4 fe_5 fe_6 fe_7 fe_8 fe_9) end.

(** [add]: /repo/edwards25519/field_generic.go:116-128 *)
Definition g25_add (a : fe25) (b : fe25) : fe25 :=
  match a with Fe25 a_0 a_1 a_2 a_3 a_4 a_5 a_6 a_7 a_8 a_9 =>
  match b with Fe25 b_0 b_1 b_2 b_3 b_4 b_5 b_6 b_7 b_8 b_9 =>
  let fe_0 := i32 (a_0 + b_0) in
  let fe_1 := i32 (a_1 + b_1) in
  let fe_2 := i32 (a_2 + b_2) in
  let fe_3 := i32 (a_3 + b_3) in
  let fe_4 := i32 (a_4 + b_4) in
  let fe_5 := i32 (a_5 + b_5) in
  let fe_6 := i32 (a_6 + b_6) in
  let fe_7 := i32 (a_7 + b_7) in
  let fe_8 := i32 (a_8 + b_8) in
  let fe_9 := i32 (a_9 + b_9) in
  (Fe25 fe_0 fe_1 fe_2 fe_3 fe_4 fe_5 fe_6 fe_7 fe_8 fe_9) end end.

(** [sub]: /repo/edwards25519/field_generic.go:131-143 *)
Definition g25_sub (a : fe25) (b : fe25) : fe25 :=
  match a with Fe25 a_0 a_1 a_2 a_3 a_4 a_5 a_6 a_7 a_8 a_9 =>
  match b with Fe25 b_0 b_1 b_2 b_3 b_4 b_5 b_6 b_7 b_8 b_9 =>
  let fe_0 := i32 (a_0 - b_0) in
  let fe_1 := i32 (a_1 - b_1) in
  let fe_2 := i32 (a_2 - b_2) in
  let fe_3 := i32 (a_3 - b_3) in
  let fe_4 := i32 (a_4 - b_4) in
  let fe_5 := i32 (a_5 - b_5) in
  let fe_6 := i32 (a_6 - b_6) in
  let fe_7 := i32 (a_7 - b_7) in
  let fe_8 := i32 (a_8 - b_8) in
  let fe_9 := i32 (a_9 - b_9) in
  (Fe25 fe_0 fe_1 fe_2 fe_3 fe_4 fe_5 fe_6 fe_7 fe_8 fe_9) end end.

(** [setReduced]: /repo/edwards25519/field_generic.go:174-233 *)
Definition g25_setReduced (h0 : Z) (h1 : Z) (h2 : Z) (h3 : Z) (h4 : Z) (h5 : Z) (h6 : Z) (h7 : Z) (h8 : Z) (h9 : Z) : fe25 :=
  let c0 := Z.shiftr (i64 (h0 + 33554432)) 26 in
  let h1 := i64 (h1 + c0) in
  let h0 := i64 (h0 - (i64 (Z.shiftl c0 26))) in
  let c4 := Z.shiftr (i64 (h4 + 33554432)) 26 in
  let h5 := i64 (h5 + c4) in
  let h4 := i64 (h4 - (i64 (Z.shiftl c4 26))) in
  let c1 := Z.shiftr (i64 (h1 + 16777216)) 25 in
  let h2 := i64 (h2 + c1) in
  let h1 := i64 (h1 - (i64 (Z.shiftl c1 25))) in
  let c5 := Z.shiftr (i64 (h5 + 16777216)) 25 in
  let h6 := i64 (h6 + c5) in
  let h5 := i64 (h5 - (i64 (Z.shiftl c5 25))) in
  let c2 := Z.shiftr (i64 (h2 + 33554432)) 26 in
  let h3 := i64 (h3 + c2) in
  let h2 := i64 (h2 - (i64 (Z.shiftl c2 26))) in
  let c6 := Z.shiftr (i64 (h6 + 33554432)) 26 in
  let h7 := i64 (h7 + c6) in
  let h6 := i64 (h6 - (i64 (Z.shiftl c6 26))) in
  let c3 := Z.shiftr (i64 (h3 + 16777216)) 25 in
  let h4 := i64 (h4 + c3) in
  let h3 := i64 (h3 - (i64 (Z.shiftl c3 25))) in
  let c7 := Z.shiftr (i64 (h7 + 16777216)) 25 in
  let h8 := i64 (h8 + c7) in
  let h7 := i64 (h7 - (i64 (Z.shiftl c7 25))) in
  let c4 := Z.shiftr (i64 (h4 + 33554432)) 26 in
  let h5 := i64 (h5 + c4) in
  let h4 := i64 (h4 - (i64 (Z.shiftl c4 26))) in
  let c8 := Z.shiftr (i64 (h8 + 33554432)) 26 in
  let h9 := i64 (h9 + c8) in
  let h8 := i64 (h8 - (i64 (Z.shiftl c8 26))) in
  let c9 := Z.shiftr (i64 (h9 + 16777216)) 25 in
  let h0 := i64 (h0 + (i64 (c9 * 19))) in
  let h9 := i64 (h9 - (i64 (Z.shiftl c9 25))) in
  let c0 := Z.shiftr (i64 (h0 + 33554432)) 26 in
  let h1 := i64 (h1 + c0) in
  let h0 := i64 (h0 - (i64 (Z.shiftl c0 26))) in
  let fe_0 := i32 h0 in
  let fe_1 := i32 h1 in
  let fe_2 := i32 h2 in
  let fe_3 := i32 h3 in
  let fe_4 := i32 h4 in
  let fe_5 := i32 h5 in
  let fe_6 := i32 h6 in
  let fe_7 := i32 h7 in
  let fe_8 := i32 h8 in
  let fe_9 := i32 h9 in
  (Fe25 fe_0 fe_1 fe_2 fe_3 fe_4 fe_5 fe_6 fe_7 fe_8 fe_9).

(** [normalize]: /repo/edwards25519/field_generic.go:166-170 *)
Definition g25_normalize (fe : fe25) : fe25 :=
  match fe with Fe25 fe_0 fe_1 fe_2 fe_3 fe_4 fe_5 fe_6 fe_7 fe_8 fe_9 =>
  let arg0 := fe_0 in
  let arg1 := fe_1 in
  let arg2 := fe_2 in
  let arg3 := fe_3 in
  let arg4 := fe_4 in
  let arg5 := fe_5 in
  let arg6 := fe_6 in
  let arg7 := fe_7 in
  let arg8 := fe_8 in
  let arg9 := fe_9 in
  g25_setReduced arg0 arg1 arg2 arg3 arg4 arg5 arg6 arg7 arg8 arg9 end.

(** [ConditionalSet]: /repo/edwards25519/field_generic.go:236-248 *)
Definition g25_condSet (fe : fe25) (a : fe25) (b : Z) : fe25 :=
  match fe with Fe25 fe_0 fe_1 fe_2 fe_3 fe_4 fe_5 fe_6 fe_7 fe_8 fe_9 =>
  match a with Fe25 a_0 a_1 a_2 a_3 a_4 a_5 a_6 a_7 a_8 a_9 =>
  let b := i32 (- b) in
  let fe_0 := Z.lxor fe_0 (Z.land b (Z.lxor fe_0 a_0)) in
  let fe_1 := Z.lxor fe_1 (Z.land b (Z.lxor fe_1 a_1)) in
  let fe_2 := Z.lxor fe_2 (Z.land b (Z.lxor fe_2 a_2)) in
  let fe_3 := Z.lxor fe_3 (Z.land b (Z.lxor fe_3 a_3)) in
  let fe_4 := Z.lxor fe_4 (Z.land b (Z.lxor fe_4 a_4)) in
  let fe_5 := Z.lxor fe_5 (Z.land b (Z.lxor fe_5 a_5)) in
  let fe_6 := Z.lxor fe_6 (Z.land b (Z.lxor fe_6 a_6)) in
  let fe_7 := Z.lxor fe_7 (Z.land b (Z.lxor fe_7 a_7)) in
  let fe_8 := Z.lxor fe_8 (Z.land b (Z.lxor fe_8 a_8)) in
  let fe_9 := Z.lxor fe_9 (Z.land b (Z.lxor fe_9 a_9)) in
  (Fe25 fe_0 fe_1 fe_2 fe_3 fe_4 fe_5 fe_6 fe_7 fe_8 fe_9) end end.

(** [BytesInto]: /repo/edwards25519/field_generic.go:251-331; returns the contents of s and the receiver, which is normalised in place *)
Definition g25_bytes (fe : fe25) : list Z * fe25 :=
  match fe with Fe25 fe_0 fe_1 fe_2 fe_3 fe_4 fe_5 fe_6 fe_7 fe_8 fe_9 =>
  let q := Z.shiftr (i32 ((i32 (19 * fe_9)) + 16777216)) 25 in
  let q := Z.shiftr (i32 (fe_0 + q)) 26 in
  let q := Z.shiftr (i32 (fe_1 + q)) 25 in
  let q := Z.shiftr (i32 (fe_2 + q)) 26 in
  let q := Z.shiftr (i32 (fe_3 + q)) 25 in
  let q := Z.shiftr (i32 (fe_4 + q)) 26 in
  let q := Z.shiftr (i32 (fe_5 + q)) 25 in
  let q := Z.shiftr (i32 (fe_6 + q)) 26 in
  let q := Z.shiftr (i32 (fe_7 + q)) 25 in
  let q := Z.shiftr (i32 (fe_8 + q)) 26 in
  let q := Z.shiftr (i32 (fe_9 + q)) 25 in
  let fe_0 := i32 (fe_0 + (i32 (19 * q))) in
  let carry_0 := Z.shiftr fe_0 26 in
  let fe_1 := i32 (fe_1 + carry_0) in
  let fe_0 := i32 (fe_0 - (i32 (Z.shiftl carry_0 26))) in
  let carry_1 := Z.shiftr fe_1 25 in
  let fe_2 := i32 (fe_2 + carry_1) in
  let fe_1 := i32 (fe_1 - (i32 (Z.shiftl carry_1 25))) in
  let carry_2 := Z.shiftr fe_2 26 in
  let fe_3 := i32 (fe_3 + carry_2) in
  let fe_2 := i32 (fe_2 - (i32 (Z.shiftl carry_2 26))) in
  let carry_3 := Z.shiftr fe_3 25 in
  let fe_4 := i32 (fe_4 + carry_3) in
  let fe_3 := i32 (fe_3 - (i32 (Z.shiftl carry_3 25))) in
  let carry_4 := Z.shiftr fe_4 26 in
  let fe_5 := i32 (fe_5 + carry_4) in
  let fe_4 := i32 (fe_4 - (i32 (Z.shiftl carry_4 26))) in
  let carry_5 := Z.shiftr fe_5 25 in
  let fe_6 := i32 (fe_6 + carry_5) in
  let fe_5 := i32 (fe_5 - (i32 (Z.shiftl carry_5 25))) in
  let carry_6 := Z.shiftr fe_6 26 in
  let fe_7 := i32 (fe_7 + carry_6) in
  let fe_6 := i32 (fe_6 - (i32 (Z.shiftl carry_6 26))) in
  let carry_7 := Z.shiftr fe_7 25 in
  let fe_8 := i32 (fe_8 + carry_7) in
  let fe_7 := i32 (fe_7 - (i32 (Z.shiftl carry_7 25))) in
  let carry_8 := Z.shiftr fe_8 26 in
  let fe_9 := i32 (fe_9 + carry_8) in
  let fe_8 := i32 (fe_8 - (i32 (Z.shiftl carry_8 26))) in
  let carry_9 := Z.shiftr fe_9 25 in
  let fe_9 := i32 (fe_9 - (i32 (Z.shiftl carry_9 25))) in
  let s_0 := u8 (Z.shiftr fe_0 0) in
  let s_1 := u8 (Z.shiftr fe_0 8) in
  let s_2 := u8 (Z.shiftr fe_0 16) in
  let s_3 := u8 (Z.lor (Z.shiftr fe_0 24) (i32 (Z.shiftl fe_1 2))) in
  let s_4 := u8 (Z.shiftr fe_1 6) in
  let s_5 := u8 (Z.shiftr fe_1 14) in
  let s_6 := u8 (Z.lor (Z.shiftr fe_1 22) (i32 (Z.shiftl fe_2 3))) in
  let s_7 := u8 (Z.shiftr fe_2 5) in
  let s_8 := u8 (Z.shiftr fe_2 13) in
  let s_9 := u8 (Z.lor (Z.shiftr fe_2 21) (i32 (Z.shiftl fe_3 5))) in
  let s_10 := u8 (Z.shiftr fe_3 3) in
  let s_11 := u8 (Z.shiftr fe_3 11) in
  let s_12 := u8 (Z.lor (Z.shiftr fe_3 19) (i32 (Z.shiftl fe_4 6))) in
  let s_13 := u8 (Z.shiftr fe_4 2) in
  let s_14 := u8 (Z.shiftr fe_4 10) in
  let s_15 := u8 (Z.shiftr fe_4 18) in
  let s_16 := u8 (Z.shiftr fe_5 0) in
  let s_17 := u8 (Z.shiftr fe_5 8) in
  let s_18 := u8 (Z.shiftr fe_5 16) in
  let s_19 := u8 (Z.lor (Z.shiftr fe_5 24) (i32 (Z.shiftl fe_6 1))) in
  let s_20 := u8 (Z.shiftr fe_6 7) in
  let s_21 := u8 (Z.shiftr fe_6 15) in
  let s_22 := u8 (Z.lor (Z.shiftr fe_6 23) (i32 (Z.shiftl fe_7 3))) in
  let s_23 := u8 (Z.shiftr fe_7 5) in
  let s_24 := u8 (Z.shiftr fe_7 13) in
  let s_25 := u8 (Z.lor (Z.shiftr fe_7 21) (i32 (Z.shiftl fe_8 4))) in
  let s_26 := u8 (Z.shiftr fe_8 4) in
  let s_27 := u8 (Z.shiftr fe_8 12) in
  let s_28 := u8 (Z.lor (Z.shiftr fe_8 20) (i32 (Z.shiftl fe_9 6))) in
  let s_29 := u8 (Z.shiftr fe_9 2) in
  let s_30 := u8 (Z.shiftr fe_9 10) in
  let s_31 := u8 (Z.shiftr fe_9 18) in
  ([s_0; s_1; s_2; s_3; s_4; s_5; s_6; s_7; s_8; s_9; s_10; s_11; s_12; s_13; s_14; s_15; s_16; s_17; s_18; s_19; s_20; s_21; s_22; s_23; s_24; s_25; s_26; s_27; s_28; s_29; s_30; s_31], (Fe25 fe_0 fe_1 fe_2 fe_3 fe_4 fe_5 fe_6 fe_7 fe_8 fe_9)) end.

(** [SetBytes]: /repo/edwards25519/field_generic.go:335-348 *)
Definition g25_setBytes (buf : list Z) : fe25 :=
  let arg0 := g_load4 (skipn 0 buf) in
  let arg1 := i64 (Z.shiftl (g_load3 (skipn 4 buf)) 6) in
  let arg2 := i64 (Z.shiftl (g_load3 (skipn 7 buf)) 5) in
  let arg3 := i64 (Z.shiftl (g_load3 (skipn 10 buf)) 3) in
  let arg4 := i64 (Z.shiftl (g_load3 (skipn 13 buf)) 2) in
  let arg5 := g_load4 (skipn 16 buf) in
  let arg6 := i64 (Z.shiftl (g_load3 (skipn 20 buf)) 7) in
  let arg7 := i64 (Z.shiftl (g_load3 (skipn 23 buf)) 5) in
  let arg8 := i64 (Z.shiftl (g_load3 (skipn 26 buf)) 4) in
  let arg9 := i64 (Z.shiftl (Z.land (g_load3 (skipn 29 buf)) 8388607) 2) in
  g25_setReduced arg0 arg1 arg2 arg3 arg4 arg5 arg6 arg7 arg8 arg9.

(** [Mul]: /repo/edwards25519/field_generic.go:351-402 *)
Definition g25_mul (a : fe25) (b : fe25) : fe25 :=
  match a with Fe25 a_0 a_1 a_2 a_3 a_4 a_5 a_6 a_7 a_8 a_9 =>
  match b with Fe25 b_0 b_1 b_2 b_3 b_4 b_5 b_6 b_7 b_8 b_9 =>
  let a0 := a_0 in
  let a1 := a_1 in
  let a2 := a_2 in
  let a3 := a_3 in
  let a4 := a_4 in
  let a5 := a_5 in
  let a6 := a_6 in
  let a7 := a_7 in
  let a8 := a_8 in
  let a9 := a_9 in
  let a1_2 := i32 (2 * a_1) in
  let a3_2 := i32 (2 * a_3) in
  let a5_2 := i32 (2 * a_5) in
  let a7_2 := i32 (2 * a_7) in
  let a9_2 := i32 (2 * a_9) in
  let b0 := b_0 in
  let b1 := b_1 in
  let b2 := b_2 in
  let b3 := b_3 in
  let b4 := b_4 in
  let b5 := b_5 in
  let b6 := b_6 in
  let b7 := b_7 in
  let b8 := b_8 in
  let b9 := b_9 in
  let b1_19 := i32 (19 * b_1) in
  let b2_19 := i32 (19 * b_2) in
  let b3_19 := i32 (19 * b_3) in
  let b4_19 := i32 (19 * b_4) in
  let b5_19 := i32 (19 * b_5) in
  let b6_19 := i32 (19 * b_6) in
  let b7_19 := i32 (19 * b_7) in
  let b8_19 := i32 (19 * b_8) in
  let b9_19 := i32 (19 * b_9) in
  let h0 := i64 ((i64 ((i64 ((i64 ((i64 ((i64 ((i64 ((i64 ((i64 ((i64 (a0 * b0)) + (i64 (a1_2 * b9_19)))) + (i64 (a2 * b8_19)))) + (i64 (a3_2 * b7_19)))) + (i64 (a4 * b6_19)))) + (i64 (a5_2 * b5_19)))) + (i64 (a6 * b4_19)))) + (i64 (a7_2 * b3_19)))) + (i64 (a8 * b2_19)))) + (i64 (a9_2 * b1_19))) in
  let h1 := i64 ((i64 ((i64 ((i64 ((i64 ((i64 ((i64 ((i64 ((i64 ((i64 (a0 * b1)) + (i64 (a1 * b0)))) + (i64 (a2 * b9_19)))) + (i64 (a3 * b8_19)))) + (i64 (a4 * b7_19)))) + (i64 (a5 * b6_19)))) + (i64 (a6 * b5_19)))) + (i64 (a7 * b4_19)))) + (i64 (a8 * b3_19)))) + (i64 (a9 * b2_19))) in
  let h2 := i64 ((i64 ((i64 ((i64 ((i64 ((i64 ((i64 ((i64 ((i64 ((i64 (a0 * b2)) + (i64 (a1_2 * b1)))) + (i64 (a2 * b0)))) + (i64 (a3_2 * b9_19)))) + (i64 (a4 * b8_19)))) + (i64 (a5_2 * b7_19)))) + (i64 (a6 * b6_19)))) + (i64 (a7_2 * b5_19)))) + (i64 (a8 * b4_19)))) + (i64 (a9_2 * b3_19))) in
  let h3 := i64 ((i64 ((i64 ((i64 ((i64 ((i64 ((i64 ((i64 ((i64 ((i64 (a0 * b3)) + (i64 (a1 * b2)))) + (i64 (a2 * b1)))) + (i64 (a3 * b0)))) + (i64 (a4 * b9_19)))) + (i64 (a5 * b8_19)))) + (i64 (a6 * b7_19)))) + (i64 (a7 * b6_19)))) + (i64 (a8 * b5_19)))) + (i64 (a9 * b4_19))) in
  let h4 := i64 ((i64 ((i64 ((i64 ((i64 ((i64 ((i64 ((i64 ((i64 ((i64 (a0 * b4)) + (i64 (a1_2 * b3)))) + (i64 (a2 * b2)))) + (i64 (a3_2 * b1)))) + (i64 (a4 * b0)))) + (i64 (a5_2 * b9_19)))) + (i64 (a6 * b8_19)))) + (i64 (a7_2 * b7_19)))) + (i64 (a8 * b6_19)))) + (i64 (a9_2 * b5_19))) in
  let h5 := i64 ((i64 ((i64 ((i64 ((i64 ((i64 ((i64 ((i64 ((i64 ((i64 (a0 * b5)) + (i64 (a1 * b4)))) + (i64 (a2 * b3)))) + (i64 (a3 * b2)))) + (i64 (a4 * b1)))) + (i64 (a5 * b0)))) + (i64 (a6 * b9_19)))) + (i64 (a7 * b8_19)))) + (i64 (a8 * b7_19)))) + (i64 (a9 * b6_19))) in
  let h6 := i64 ((i64 ((i64 ((i64 ((i64 ((i64 ((i64 ((i64 ((i64 ((i64 (a0 * b6)) + (i64 (a1_2 * b5)))) + (i64 (a2 * b4)))) + (i64 (a3_2 * b3)))) + (i64 (a4 * b2)))) + (i64 (a5_2 * b1)))) + (i64 (a6 * b0)))) + (i64 (a7_2 * b9_19)))) + (i64 (a8 * b8_19)))) + (i64 (a9_2 * b7_19))) in
  let h7 := i64 ((i64 ((i64 ((i64 ((i64 ((i64 ((i64 ((i64 ((i64 ((i64 (a0 * b7)) + (i64 (a1 * b6)))) + (i64 (a2 * b5)))) + (i64 (a3 * b4)))) + (i64 (a4 * b3)))) + (i64 (a5 * b2)))) + (i64 (a6 * b1)))) + (i64 (a7 * b0)))) + (i64 (a8 * b9_19)))) + (i64 (a9 * b8_19))) in
  let h8 := i64 ((i64 ((i64 ((i64 ((i64 ((i64 ((i64 ((i64 ((i64 ((i64 (a0 * b8)) + (i64 (a1_2 * b7)))) + (i64 (a2 * b6)))) + (i64 (a3_2 * b5)))) + (i64 (a4 * b4)))) + (i64 (a5_2 * b3)))) + (i64 (a6 * b2)))) + (i64 (a7_2 * b1)))) + (i64 (a8 * b0)))) + (i64 (a9_2 * b9_19))) in
  let h9 := i64 ((i64 ((i64 ((i64 ((i64 ((i64 ((i64 ((i64 ((i64 ((i64 (a0 * b9)) + (i64 (a1 * b8)))) + (i64 (a2 * b7)))) + (i64 (a3 * b6)))) + (i64 (a4 * b5)))) + (i64 (a5 * b4)))) + (i64 (a6 * b3)))) + (i64 (a7 * b2)))) + (i64 (a8 * b1)))) + (i64 (a9 * b0))) in
  let arg0 := h0 in
  let arg1 := h1 in
  let arg2 := h2 in
  let arg3 := h3 in
  let arg4 := h4 in
  let arg5 := h5 in
  let arg6 := h6 in
  let arg7 := h7 in
  let arg8 := h8 in
  let arg9 := h9 in
  g25_setReduced arg0 arg1 arg2 arg3 arg4 arg5 arg6 arg7 arg8 arg9 end end.

(** [square]: /repo/edwards25519/field_generic.go:405-442 *)
Definition g25_squareRaw (fe : fe25) : h10 :=
  match fe with Fe25 fe_0 fe_1 fe_2 fe_3 fe_4 fe_5 fe_6 fe_7 fe_8 fe_9 =>
  let f0 := fe_0 in
  let f1 := fe_1 in
  let f2 := fe_2 in
  let f3 := fe_3 in
  let f4 := fe_4 in
  let f5 := fe_5 in
  let f6 := fe_6 in
  let f7 := fe_7 in
  let f8 := fe_8 in
  let f9 := fe_9 in
  let f0_2 := i32 (2 * fe_0) in
  let f1_2 := i32 (2 * fe_1) in
  let f2_2 := i32 (2 * fe_2) in
  let f3_2 := i32 (2 * fe_3) in
  let f4_2 := i32 (2 * fe_4) in
  let f5_2 := i32 (2 * fe_5) in
  let f6_2 := i32 (2 * fe_6) in
  let f7_2 := i32 (2 * fe_7) in
  let f5_38 := i64 (38 * f5) in
  let f6_19 := i64 (19 * f6) in
  let f7_38 := i64 (38 * f7) in
  let f8_19 := i64 (19 * f8) in
  let f9_38 := i64 (38 * f9) in
  let h0 := i64 ((i64 ((i64 ((i64 ((i64 ((i64 (f0 * f0)) + (i64 (f1_2 * f9_38)))) + (i64 (f2_2 * f8_19)))) + (i64 (f3_2 * f7_38)))) + (i64 (f4_2 * f6_19)))) + (i64 (f5 * f5_38))) in
  let h1 := i64 ((i64 ((i64 ((i64 ((i64 (f0_2 * f1)) + (i64 (f2 * f9_38)))) + (i64 (f3_2 * f8_19)))) + (i64 (f4 * f7_38)))) + (i64 (f5_2 * f6_19))) in
  let h2 := i64 ((i64 ((i64 ((i64 ((i64 ((i64 (f0_2 * f2)) + (i64 (f1_2 * f1)))) + (i64 (f3_2 * f9_38)))) + (i64 (f4_2 * f8_19)))) + (i64 (f5_2 * f7_38)))) + (i64 (f6 * f6_19))) in
  let h3 := i64 ((i64 ((i64 ((i64 ((i64 (f0_2 * f3)) + (i64 (f1_2 * f2)))) + (i64 (f4 * f9_38)))) + (i64 (f5_2 * f8_19)))) + (i64 (f6 * f7_38))) in
  let h4 := i64 ((i64 ((i64 ((i64 ((i64 ((i64 (f0_2 * f4)) + (i64 (f1_2 * f3_2)))) + (i64 (f2 * f2)))) + (i64 (f5_2 * f9_38)))) + (i64 (f6_2 * f8_19)))) + (i64 (f7 * f7_38))) in
  let h5 := i64 ((i64 ((i64 ((i64 ((i64 (f0_2 * f5)) + (i64 (f1_2 * f4)))) + (i64 (f2_2 * f3)))) + (i64 (f6 * f9_38)))) + (i64 (f7_2 * f8_19))) in
  let h6 := i64 ((i64 ((i64 ((i64 ((i64 ((i64 (f0_2 * f6)) + (i64 (f1_2 * f5_2)))) + (i64 (f2_2 * f4)))) + (i64 (f3_2 * f3)))) + (i64 (f7_2 * f9_38)))) + (i64 (f8 * f8_19))) in
  let h7 := i64 ((i64 ((i64 ((i64 ((i64 (f0_2 * f7)) + (i64 (f1_2 * f6)))) + (i64 (f2_2 * f5)))) + (i64 (f3_2 * f4)))) + (i64 (f8 * f9_38))) in
  let h8 := i64 ((i64 ((i64 ((i64 ((i64 ((i64 (f0_2 * f8)) + (i64 (f1_2 * f7_2)))) + (i64 (f2_2 * f6)))) + (i64 (f3_2 * f5_2)))) + (i64 (f4 * f4)))) + (i64 (f9 * f9_38))) in
  let h9 := i64 ((i64 ((i64 ((i64 ((i64 (f0_2 * f9)) + (i64 (f1_2 * f8)))) + (i64 (f2_2 * f7)))) + (i64 (f3_2 * f6)))) + (i64 (f4_2 * f5))) in
  (H10 h0 h1 h2 h3 h4 h5 h6 h7 h8 h9) end.

(** [Square]: /repo/edwards25519/field_generic.go:445-448 *)
Definition g25_square (a : fe25) : fe25 :=
  match a with Fe25 a_0 a_1 a_2 a_3 a_4 a_5 a_6 a_7 a_8 a_9 =>
  let '(H10 h0 h1 h2 h3 h4 h5 h6 h7 h8 h9) := g25_squareRaw (Fe25 a_0 a_1 a_2 a_3 a_4 a_5 a_6 a_7 a_8 a_9) in
  let arg0 := h0 in
  let arg1 := h1 in
  let arg2 := h2 in
  let arg3 := h3 in
  let arg4 := h4 in
  let arg5 := h5 in
  let arg6 := h6 in
  let arg7 := h7 in
  let arg8 := h8 in
  let arg9 := h9 in
  g25_setReduced arg0 arg1 arg2 arg3 arg4 arg5 arg6 arg7 arg8 arg9 end.

(** [DoubledSquare]: /repo/edwards25519/field_generic.go:451-464 *)
Definition g25_doubledSquare (a : fe25) : fe25 :=
  match a with Fe25 a_0 a_1 a_2 a_3 a_4 a_5 a_6 a_7 a_8 a_9 =>
  let '(H10 h0 h1 h2 h3 h4 h5 h6 h7 h8 h9) := g25_squareRaw (Fe25 a_0 a_1 a_2 a_3 a_4 a_5 a_6 a_7 a_8 a_9) in
  let h0 := i64 (h0 + h0) in
  let h1 := i64 (h1 + h1) in
  let h2 := i64 (h2 + h2) in
  let h3 := i64 (h3 + h3) in
  let h4 := i64 (h4 + h4) in
  let h5 := i64 (h5 + h5) in
  let h6 := i64 (h6 + h6) in
  let h7 := i64 (h7 + h7) in
  let h8 := i64 (h8 + h8) in
  let h9 := i64 (h9 + h9) in
  let arg0 := h0 in
  let arg1 := h1 in
  let arg2 := h2 in
  let arg3 := h3 in
  let arg4 := h4 in
  let arg5 := h5 in
  let arg6 := h6 in
  let arg7 := h7 in
  let arg8 := h8 in
  let arg9 := h9 in
  g25_setReduced arg0 arg1 arg2 arg3 arg4 arg5 arg6 arg7 arg8 arg9 end.

