(** Generated by tools/go2coq.py from /repo/scalar.go; do not edit. *)
From Coq Require Import ZArith List.
From Verif Require Import Words.
Import ListNotations.
Open Scope Z_scope.

(** A [let] that the type checker keeps folded; used for the statement sequences below. *)
Definition LetIn {A B : Type} (e : A) (f : A -> B) : B := f e.
Strategy 1000 [LetIn].
Notation "'dlet' x := e 'in' b" := (LetIn e (fun x => b))
  (at level 200, x name, e at level 200, b at level 200, format "'dlet'  x  :=  e  'in' '//' b").

(** [type Scalar [8]uint32]: /repo/scalar.go:20 *)
Inductive sc : Set := Sc (s0 s1 s2 s3 s4 s5 s6 s7 : Z).

(** [scZero], [scOne], [scL]: /repo/scalar.go:23-30 *)
Definition scZero : sc := Sc 0 0 0 0 0 0 0 0.
Definition scOne : sc := Sc 1 0 0 0 0 0 0 0.
Definition scL : sc := Sc 0x5cf5d3ed 0x5812631a 0xa2f79cd6 0x14def9de 0 0 0 0x10000000.

(** [load3]: /repo/scalar.go:1087-1093 *)
Definition load3 (inp : list Z) : Z :=
  let r := at_ inp 0 in
  let r := Z.lor r (i64 (Z.shiftl (at_ inp 1) 8)) in
  let r := Z.lor r (i64 (Z.shiftl (at_ inp 2) 16)) in
  r.

(** [load4]: /repo/scalar.go:1096-1103 *)
Definition load4 (inp : list Z) : Z :=
  let r := at_ inp 0 in
  let r := Z.lor r (i64 (Z.shiftl (at_ inp 1) 8)) in
  let r := Z.lor r (i64 (Z.shiftl (at_ inp 2) 16)) in
  let r := Z.lor r (i64 (Z.shiftl (at_ inp 3) 24)) in
  r.

(** [load4u32]: /repo/scalar.go:1106-1109 *)
Definition load4u32 (inp : list Z) : Z :=
  Z.lor (Z.lor (Z.lor (at_ inp 0) (u32 (Z.shiftl (at_ inp 1) 8)))
    (u32 (Z.shiftl (at_ inp 2) 16))) (u32 (Z.shiftl (at_ inp 3) 24)).

(** [BytesInto]: /repo/scalar.go:34-68; returns the contents of buf *)
Definition sc_bytes (s : sc) : list Z :=
  match s with Sc s_0 s_1 s_2 s_3 s_4 s_5 s_6 s_7 =>
  dlet buf_0 := u8 s_0 in
  dlet buf_1 := u8 (Z.shiftr s_0 8) in
  dlet buf_2 := u8 (Z.shiftr s_0 16) in
  dlet buf_3 := u8 (Z.shiftr s_0 24) in
  dlet buf_4 := u8 s_1 in
  dlet buf_5 := u8 (Z.shiftr s_1 8) in
  dlet buf_6 := u8 (Z.shiftr s_1 16) in
  dlet buf_7 := u8 (Z.shiftr s_1 24) in
  dlet buf_8 := u8 s_2 in
  dlet buf_9 := u8 (Z.shiftr s_2 8) in
  dlet buf_10 := u8 (Z.shiftr s_2 16) in
  dlet buf_11 := u8 (Z.shiftr s_2 24) in
  dlet buf_12 := u8 s_3 in
  dlet buf_13 := u8 (Z.shiftr s_3 8) in
  dlet buf_14 := u8 (Z.shiftr s_3 16) in
  dlet buf_15 := u8 (Z.shiftr s_3 24) in
  dlet buf_16 := u8 s_4 in
  dlet buf_17 := u8 (Z.shiftr s_4 8) in
  dlet buf_18 := u8 (Z.shiftr s_4 16) in
  dlet buf_19 := u8 (Z.shiftr s_4 24) in
  dlet buf_20 := u8 s_5 in
  dlet buf_21 := u8 (Z.shiftr s_5 8) in
  dlet buf_22 := u8 (Z.shiftr s_5 16) in
  dlet buf_23 := u8 (Z.shiftr s_5 24) in
  dlet buf_24 := u8 s_6 in
  dlet buf_25 := u8 (Z.shiftr s_6 8) in
  dlet buf_26 := u8 (Z.shiftr s_6 16) in
  dlet buf_27 := u8 (Z.shiftr s_6 24) in
  dlet buf_28 := u8 s_7 in
  dlet buf_29 := u8 (Z.shiftr s_7 8) in
  dlet buf_30 := u8 (Z.shiftr s_7 16) in
  dlet buf_31 := u8 (Z.shiftr s_7 24) in
  [buf_0; buf_1; buf_2; buf_3; buf_4; buf_5; buf_6; buf_7; buf_8; buf_9; buf_10; buf_11; buf_12; buf_13; buf_14; buf_15; buf_16; buf_17; buf_18; buf_19; buf_20; buf_21; buf_22; buf_23; buf_24; buf_25; buf_26; buf_27; buf_28; buf_29; buf_30; buf_31] end.

(** [Sub]: /repo/scalar.go:143-190 *)
Definition sc_sub (a : sc) (b : sc) : sc :=
  match a with Sc a_0 a_1 a_2 a_3 a_4 a_5 a_6 a_7 =>
  match b with Sc b_0 b_1 b_2 b_3 b_4 b_5 b_6 b_7 =>
  dlet borrow := u64 (a_0 - b_0) in
  dlet s0 := u32 borrow in
  dlet borrow := u64 ((u64 (a_1 - b_1)) - (Z.shiftr borrow 63)) in
  dlet s1 := u32 borrow in
  dlet borrow := u64 ((u64 (a_2 - b_2)) - (Z.shiftr borrow 63)) in
  dlet s2 := u32 borrow in
  dlet borrow := u64 ((u64 (a_3 - b_3)) - (Z.shiftr borrow 63)) in
  dlet s3 := u32 borrow in
  dlet borrow := u64 ((u64 (a_4 - b_4)) - (Z.shiftr borrow 63)) in
  dlet s4 := u32 borrow in
  dlet borrow := u64 ((u64 (a_5 - b_5)) - (Z.shiftr borrow 63)) in
  dlet s5 := u32 borrow in
  dlet borrow := u64 ((u64 (a_6 - b_6)) - (Z.shiftr borrow 63)) in
  dlet s6 := u32 borrow in
  dlet borrow := u64 ((u64 (a_7 - b_7)) - (Z.shiftr borrow 63)) in
  dlet s7 := u32 borrow in
  dlet ufMask := u64 ((Z.lxor (Z.shiftr borrow 63) 1) - 1) in
  dlet carry := u64 (s0 + (Z.land ufMask 1559614445)) in
  dlet s0 := u32 carry in
  dlet carry := u64 ((u64 (s1 + (Z.shiftr carry 32))) + (Z.land ufMask 1477600026)) in
  dlet s1 := u32 carry in
  dlet carry := u64 ((u64 (s2 + (Z.shiftr carry 32))) + (Z.land ufMask 2734136534)) in
  dlet s2 := u32 carry in
  dlet carry := u64 ((u64 (s3 + (Z.shiftr carry 32))) + (Z.land ufMask 350157278)) in
  dlet s3 := u32 carry in
  dlet carry := u64 (s4 + (Z.shiftr carry 32)) in
  dlet s4 := u32 carry in
  dlet carry := u64 (s5 + (Z.shiftr carry 32)) in
  dlet s5 := u32 carry in
  dlet carry := u64 (s6 + (Z.shiftr carry 32)) in
  dlet s6 := u32 carry in
  dlet carry := u64 ((u64 (s7 + (Z.shiftr carry 32))) + (Z.land ufMask 268435456)) in
  dlet s7 := u32 carry in
  dlet s_0 := s0 in
  dlet s_1 := s1 in
  dlet s_2 := s2 in
  dlet s_3 := s3 in
  dlet s_4 := s4 in
  dlet s_5 := s5 in
  dlet s_6 := s6 in
  dlet s_7 := s7 in
  (Sc s_0 s_1 s_2 s_3 s_4 s_5 s_6 s_7) end end.

(** [Add]: /repo/scalar.go:122-140 *)
Definition sc_add (a : sc) (b : sc) : sc :=
  match a with Sc a_0 a_1 a_2 a_3 a_4 a_5 a_6 a_7 =>
  match b with Sc b_0 b_1 b_2 b_3 b_4 b_5 b_6 b_7 =>
  dlet carry := u64 (a_0 + b_0) in
  dlet s_0 := u32 carry in
  dlet carry := u64 ((u64 (a_1 + b_1)) + (Z.shiftr carry 32)) in
  dlet s_1 := u32 carry in
  dlet carry := u64 ((u64 (a_2 + b_2)) + (Z.shiftr carry 32)) in
  dlet s_2 := u32 carry in
  dlet carry := u64 ((u64 (a_3 + b_3)) + (Z.shiftr carry 32)) in
  dlet s_3 := u32 carry in
  dlet carry := u64 ((u64 (a_4 + b_4)) + (Z.shiftr carry 32)) in
  dlet s_4 := u32 carry in
  dlet carry := u64 ((u64 (a_5 + b_5)) + (Z.shiftr carry 32)) in
  dlet s_5 := u32 carry in
  dlet carry := u64 ((u64 (a_6 + b_6)) + (Z.shiftr carry 32)) in
  dlet s_6 := u32 carry in
  dlet carry := u64 ((u64 (a_7 + b_7)) + (Z.shiftr carry 32)) in
  dlet s_7 := u32 carry in
  sc_sub (Sc s_0 s_1 s_2 s_3 s_4 s_5 s_6 s_7) scL end end.

(** [SetBytes]: /repo/scalar.go:79-89 *)
Definition sc_setBytes (x : list Z) : sc :=
  dlet s_0 := load4u32 (skipn 0 x) in
  dlet s_1 := load4u32 (skipn 4 x) in
  dlet s_2 := load4u32 (skipn 8 x) in
  dlet s_3 := load4u32 (skipn 12 x) in
  dlet s_4 := load4u32 (skipn 16 x) in
  dlet s_5 := load4u32 (skipn 20 x) in
  dlet s_6 := load4u32 (skipn 24 x) in
  dlet s_7 := Z.land (load4u32 (skipn 28 x)) 536870911 in
  sc_sub (Sc s_0 s_1 s_2 s_3 s_4 s_5 s_6 s_7) scL.

(** [SetReduced]: /repo/scalar.go:406-700 *)
Definition sc_setReduced (t : list Z) : sc :=
  dlet t0 := Z.land (load3 (skipn 0 t)) 2097151 in
  dlet t1 := Z.land (Z.shiftr (load4 (skipn 2 t)) 5) 2097151 in
  dlet t2 := Z.land (Z.shiftr (load3 (skipn 5 t)) 2) 2097151 in
  dlet t3 := Z.land (Z.shiftr (load4 (skipn 7 t)) 7) 2097151 in
  dlet t4 := Z.land (Z.shiftr (load4 (skipn 10 t)) 4) 2097151 in
  dlet t5 := Z.land (Z.shiftr (load3 (skipn 13 t)) 1) 2097151 in
  dlet t6 := Z.land (Z.shiftr (load4 (skipn 15 t)) 6) 2097151 in
  dlet t7 := Z.land (Z.shiftr (load3 (skipn 18 t)) 3) 2097151 in
  dlet t8 := Z.land (load3 (skipn 21 t)) 2097151 in
  dlet t9 := Z.land (Z.shiftr (load4 (skipn 23 t)) 5) 2097151 in
  dlet t10 := Z.land (Z.shiftr (load3 (skipn 26 t)) 2) 2097151 in
  dlet t11 := Z.land (Z.shiftr (load4 (skipn 28 t)) 7) 2097151 in
  dlet t12 := Z.land (Z.shiftr (load4 (skipn 31 t)) 4) 2097151 in
  dlet t13 := Z.land (Z.shiftr (load3 (skipn 34 t)) 1) 2097151 in
  dlet t14 := Z.land (Z.shiftr (load4 (skipn 36 t)) 6) 2097151 in
  dlet t15 := Z.land (Z.shiftr (load3 (skipn 39 t)) 3) 2097151 in
  dlet t16 := Z.land (load3 (skipn 42 t)) 2097151 in
  dlet t17 := Z.land (Z.shiftr (load4 (skipn 44 t)) 5) 2097151 in
  dlet t18 := Z.land (Z.shiftr (load3 (skipn 47 t)) 2) 2097151 in
  dlet t19 := Z.land (Z.shiftr (load4 (skipn 49 t)) 7) 2097151 in
  dlet t20 := Z.land (Z.shiftr (load4 (skipn 52 t)) 4) 2097151 in
  dlet t21 := Z.land (Z.shiftr (load3 (skipn 55 t)) 1) 2097151 in
  dlet t22 := Z.land (Z.shiftr (load4 (skipn 57 t)) 6) 2097151 in
  dlet t23 := Z.shiftr (load4 (skipn 60 t)) 3 in
  dlet t11 := i64 (t11 + (i64 (t23 * 666643))) in
  dlet t12 := i64 (t12 + (i64 (t23 * 470296))) in
  dlet t13 := i64 (t13 + (i64 (t23 * 654183))) in
  dlet t14 := i64 (t14 - (i64 (t23 * 997805))) in
  dlet t15 := i64 (t15 + (i64 (t23 * 136657))) in
  dlet t16 := i64 (t16 - (i64 (t23 * 683901))) in
  dlet t23 := 0 in
  dlet t10 := i64 (t10 + (i64 (t22 * 666643))) in
  dlet t11 := i64 (t11 + (i64 (t22 * 470296))) in
  dlet t12 := i64 (t12 + (i64 (t22 * 654183))) in
  dlet t13 := i64 (t13 - (i64 (t22 * 997805))) in
  dlet t14 := i64 (t14 + (i64 (t22 * 136657))) in
  dlet t15 := i64 (t15 - (i64 (t22 * 683901))) in
  dlet t22 := 0 in
  dlet t9 := i64 (t9 + (i64 (t21 * 666643))) in
  dlet t10 := i64 (t10 + (i64 (t21 * 470296))) in
  dlet t11 := i64 (t11 + (i64 (t21 * 654183))) in
  dlet t12 := i64 (t12 - (i64 (t21 * 997805))) in
  dlet t13 := i64 (t13 + (i64 (t21 * 136657))) in
  dlet t14 := i64 (t14 - (i64 (t21 * 683901))) in
  dlet t21 := 0 in
  dlet t8 := i64 (t8 + (i64 (t20 * 666643))) in
  dlet t9 := i64 (t9 + (i64 (t20 * 470296))) in
  dlet t10 := i64 (t10 + (i64 (t20 * 654183))) in
  dlet t11 := i64 (t11 - (i64 (t20 * 997805))) in
  dlet t12 := i64 (t12 + (i64 (t20 * 136657))) in
  dlet t13 := i64 (t13 - (i64 (t20 * 683901))) in
  dlet t20 := 0 in
  dlet t7 := i64 (t7 + (i64 (t19 * 666643))) in
  dlet t8 := i64 (t8 + (i64 (t19 * 470296))) in
  dlet t9 := i64 (t9 + (i64 (t19 * 654183))) in
  dlet t10 := i64 (t10 - (i64 (t19 * 997805))) in
  dlet t11 := i64 (t11 + (i64 (t19 * 136657))) in
  dlet t12 := i64 (t12 - (i64 (t19 * 683901))) in
  dlet t19 := 0 in
  dlet t6 := i64 (t6 + (i64 (t18 * 666643))) in
  dlet t7 := i64 (t7 + (i64 (t18 * 470296))) in
  dlet t8 := i64 (t8 + (i64 (t18 * 654183))) in
  dlet t9 := i64 (t9 - (i64 (t18 * 997805))) in
  dlet t10 := i64 (t10 + (i64 (t18 * 136657))) in
  dlet t11 := i64 (t11 - (i64 (t18 * 683901))) in
  dlet t18 := 0 in
  dlet carry_6 := Z.shiftr (i64 (t6 + 1048576)) 21 in
  dlet t7 := i64 (t7 + carry_6) in
  dlet t6 := i64 (t6 - (i64 (Z.shiftl carry_6 21))) in
  dlet carry_8 := Z.shiftr (i64 (t8 + 1048576)) 21 in
  dlet t9 := i64 (t9 + carry_8) in
  dlet t8 := i64 (t8 - (i64 (Z.shiftl carry_8 21))) in
  dlet carry_10 := Z.shiftr (i64 (t10 + 1048576)) 21 in
  dlet t11 := i64 (t11 + carry_10) in
  dlet t10 := i64 (t10 - (i64 (Z.shiftl carry_10 21))) in
  dlet carry_12 := Z.shiftr (i64 (t12 + 1048576)) 21 in
  dlet t13 := i64 (t13 + carry_12) in
  dlet t12 := i64 (t12 - (i64 (Z.shiftl carry_12 21))) in
  dlet carry_14 := Z.shiftr (i64 (t14 + 1048576)) 21 in
  dlet t15 := i64 (t15 + carry_14) in
  dlet t14 := i64 (t14 - (i64 (Z.shiftl carry_14 21))) in
  dlet carry_16 := Z.shiftr (i64 (t16 + 1048576)) 21 in
  dlet t17 := i64 (t17 + carry_16) in
  dlet t16 := i64 (t16 - (i64 (Z.shiftl carry_16 21))) in
  dlet carry_7 := Z.shiftr (i64 (t7 + 1048576)) 21 in
  dlet t8 := i64 (t8 + carry_7) in
  dlet t7 := i64 (t7 - (i64 (Z.shiftl carry_7 21))) in
  dlet carry_9 := Z.shiftr (i64 (t9 + 1048576)) 21 in
  dlet t10 := i64 (t10 + carry_9) in
  dlet t9 := i64 (t9 - (i64 (Z.shiftl carry_9 21))) in
  dlet carry_11 := Z.shiftr (i64 (t11 + 1048576)) 21 in
  dlet t12 := i64 (t12 + carry_11) in
  dlet t11 := i64 (t11 - (i64 (Z.shiftl carry_11 21))) in
  dlet carry_13 := Z.shiftr (i64 (t13 + 1048576)) 21 in
  dlet t14 := i64 (t14 + carry_13) in
  dlet t13 := i64 (t13 - (i64 (Z.shiftl carry_13 21))) in
  dlet carry_15 := Z.shiftr (i64 (t15 + 1048576)) 21 in
  dlet t16 := i64 (t16 + carry_15) in
  dlet t15 := i64 (t15 - (i64 (Z.shiftl carry_15 21))) in
  dlet t5 := i64 (t5 + (i64 (t17 * 666643))) in
  dlet t6 := i64 (t6 + (i64 (t17 * 470296))) in
  dlet t7 := i64 (t7 + (i64 (t17 * 654183))) in
  dlet t8 := i64 (t8 - (i64 (t17 * 997805))) in
  dlet t9 := i64 (t9 + (i64 (t17 * 136657))) in
  dlet t10 := i64 (t10 - (i64 (t17 * 683901))) in
  dlet t17 := 0 in
  dlet t4 := i64 (t4 + (i64 (t16 * 666643))) in
  dlet t5 := i64 (t5 + (i64 (t16 * 470296))) in
  dlet t6 := i64 (t6 + (i64 (t16 * 654183))) in
  dlet t7 := i64 (t7 - (i64 (t16 * 997805))) in
  dlet t8 := i64 (t8 + (i64 (t16 * 136657))) in
  dlet t9 := i64 (t9 - (i64 (t16 * 683901))) in
  dlet t16 := 0 in
  dlet t3 := i64 (t3 + (i64 (t15 * 666643))) in
  dlet t4 := i64 (t4 + (i64 (t15 * 470296))) in
  dlet t5 := i64 (t5 + (i64 (t15 * 654183))) in
  dlet t6 := i64 (t6 - (i64 (t15 * 997805))) in
  dlet t7 := i64 (t7 + (i64 (t15 * 136657))) in
  dlet t8 := i64 (t8 - (i64 (t15 * 683901))) in
  dlet t15 := 0 in
  dlet t2 := i64 (t2 + (i64 (t14 * 666643))) in
  dlet t3 := i64 (t3 + (i64 (t14 * 470296))) in
  dlet t4 := i64 (t4 + (i64 (t14 * 654183))) in
  dlet t5 := i64 (t5 - (i64 (t14 * 997805))) in
  dlet t6 := i64 (t6 + (i64 (t14 * 136657))) in
  dlet t7 := i64 (t7 - (i64 (t14 * 683901))) in
  dlet t14 := 0 in
  dlet t1 := i64 (t1 + (i64 (t13 * 666643))) in
  dlet t2 := i64 (t2 + (i64 (t13 * 470296))) in
  dlet t3 := i64 (t3 + (i64 (t13 * 654183))) in
  dlet t4 := i64 (t4 - (i64 (t13 * 997805))) in
  dlet t5 := i64 (t5 + (i64 (t13 * 136657))) in
  dlet t6 := i64 (t6 - (i64 (t13 * 683901))) in
  dlet t13 := 0 in
  dlet t0 := i64 (t0 + (i64 (t12 * 666643))) in
  dlet t1 := i64 (t1 + (i64 (t12 * 470296))) in
  dlet t2 := i64 (t2 + (i64 (t12 * 654183))) in
  dlet t3 := i64 (t3 - (i64 (t12 * 997805))) in
  dlet t4 := i64 (t4 + (i64 (t12 * 136657))) in
  dlet t5 := i64 (t5 - (i64 (t12 * 683901))) in
  dlet t12 := 0 in
  dlet carry_0 := Z.shiftr (i64 (t0 + 1048576)) 21 in
  dlet t1 := i64 (t1 + carry_0) in
  dlet t0 := i64 (t0 - (i64 (Z.shiftl carry_0 21))) in
  dlet carry_2 := Z.shiftr (i64 (t2 + 1048576)) 21 in
  dlet t3 := i64 (t3 + carry_2) in
  dlet t2 := i64 (t2 - (i64 (Z.shiftl carry_2 21))) in
  dlet carry_4 := Z.shiftr (i64 (t4 + 1048576)) 21 in
  dlet t5 := i64 (t5 + carry_4) in
  dlet t4 := i64 (t4 - (i64 (Z.shiftl carry_4 21))) in
  dlet carry_6 := Z.shiftr (i64 (t6 + 1048576)) 21 in
  dlet t7 := i64 (t7 + carry_6) in
  dlet t6 := i64 (t6 - (i64 (Z.shiftl carry_6 21))) in
  dlet carry_8 := Z.shiftr (i64 (t8 + 1048576)) 21 in
  dlet t9 := i64 (t9 + carry_8) in
  dlet t8 := i64 (t8 - (i64 (Z.shiftl carry_8 21))) in
  dlet carry_10 := Z.shiftr (i64 (t10 + 1048576)) 21 in
  dlet t11 := i64 (t11 + carry_10) in
  dlet t10 := i64 (t10 - (i64 (Z.shiftl carry_10 21))) in
  dlet carry_1 := Z.shiftr (i64 (t1 + 1048576)) 21 in
  dlet t2 := i64 (t2 + carry_1) in
  dlet t1 := i64 (t1 - (i64 (Z.shiftl carry_1 21))) in
  dlet carry_3 := Z.shiftr (i64 (t3 + 1048576)) 21 in
  dlet t4 := i64 (t4 + carry_3) in
  dlet t3 := i64 (t3 - (i64 (Z.shiftl carry_3 21))) in
  dlet carry_5 := Z.shiftr (i64 (t5 + 1048576)) 21 in
  dlet t6 := i64 (t6 + carry_5) in
  dlet t5 := i64 (t5 - (i64 (Z.shiftl carry_5 21))) in
  dlet carry_7 := Z.shiftr (i64 (t7 + 1048576)) 21 in
  dlet t8 := i64 (t8 + carry_7) in
  dlet t7 := i64 (t7 - (i64 (Z.shiftl carry_7 21))) in
  dlet carry_9 := Z.shiftr (i64 (t9 + 1048576)) 21 in
  dlet t10 := i64 (t10 + carry_9) in
  dlet t9 := i64 (t9 - (i64 (Z.shiftl carry_9 21))) in
  dlet carry_11 := Z.shiftr (i64 (t11 + 1048576)) 21 in
  dlet t12 := i64 (t12 + carry_11) in
  dlet t11 := i64 (t11 - (i64 (Z.shiftl carry_11 21))) in
  dlet t0 := i64 (t0 + (i64 (t12 * 666643))) in
  dlet t1 := i64 (t1 + (i64 (t12 * 470296))) in
  dlet t2 := i64 (t2 + (i64 (t12 * 654183))) in
  dlet t3 := i64 (t3 - (i64 (t12 * 997805))) in
  dlet t4 := i64 (t4 + (i64 (t12 * 136657))) in
  dlet t5 := i64 (t5 - (i64 (t12 * 683901))) in
  dlet t12 := 0 in
  dlet carry_0 := Z.shiftr t0 21 in
  dlet t1 := i64 (t1 + carry_0) in
  dlet t0 := i64 (t0 - (i64 (Z.shiftl carry_0 21))) in
  dlet carry_1 := Z.shiftr t1 21 in
  dlet t2 := i64 (t2 + carry_1) in
  dlet t1 := i64 (t1 - (i64 (Z.shiftl carry_1 21))) in
  dlet carry_2 := Z.shiftr t2 21 in
  dlet t3 := i64 (t3 + carry_2) in
  dlet t2 := i64 (t2 - (i64 (Z.shiftl carry_2 21))) in
  dlet carry_3 := Z.shiftr t3 21 in
  dlet t4 := i64 (t4 + carry_3) in
  dlet t3 := i64 (t3 - (i64 (Z.shiftl carry_3 21))) in
  dlet carry_4 := Z.shiftr t4 21 in
  dlet t5 := i64 (t5 + carry_4) in
  dlet t4 := i64 (t4 - (i64 (Z.shiftl carry_4 21))) in
  dlet carry_5 := Z.shiftr t5 21 in
  dlet t6 := i64 (t6 + carry_5) in
  dlet t5 := i64 (t5 - (i64 (Z.shiftl carry_5 21))) in
  dlet carry_6 := Z.shiftr t6 21 in
  dlet t7 := i64 (t7 + carry_6) in
  dlet t6 := i64 (t6 - (i64 (Z.shiftl carry_6 21))) in
  dlet carry_7 := Z.shiftr t7 21 in
  dlet t8 := i64 (t8 + carry_7) in
  dlet t7 := i64 (t7 - (i64 (Z.shiftl carry_7 21))) in
  dlet carry_8 := Z.shiftr t8 21 in
  dlet t9 := i64 (t9 + carry_8) in
  dlet t8 := i64 (t8 - (i64 (Z.shiftl carry_8 21))) in
  dlet carry_9 := Z.shiftr t9 21 in
  dlet t10 := i64 (t10 + carry_9) in
  dlet t9 := i64 (t9 - (i64 (Z.shiftl carry_9 21))) in
  dlet carry_10 := Z.shiftr t10 21 in
  dlet t11 := i64 (t11 + carry_10) in
  dlet t10 := i64 (t10 - (i64 (Z.shiftl carry_10 21))) in
  dlet carry_11 := Z.shiftr t11 21 in
  dlet t12 := i64 (t12 + carry_11) in
  dlet t11 := i64 (t11 - (i64 (Z.shiftl carry_11 21))) in
  dlet t0 := i64 (t0 + (i64 (t12 * 666643))) in
  dlet t1 := i64 (t1 + (i64 (t12 * 470296))) in
  dlet t2 := i64 (t2 + (i64 (t12 * 654183))) in
  dlet t3 := i64 (t3 - (i64 (t12 * 997805))) in
  dlet t4 := i64 (t4 + (i64 (t12 * 136657))) in
  dlet t5 := i64 (t5 - (i64 (t12 * 683901))) in
  dlet t12 := 0 in
  dlet carry_0 := Z.shiftr t0 21 in
  dlet t1 := i64 (t1 + carry_0) in
  dlet t0 := i64 (t0 - (i64 (Z.shiftl carry_0 21))) in
  dlet carry_1 := Z.shiftr t1 21 in
  dlet t2 := i64 (t2 + carry_1) in
  dlet t1 := i64 (t1 - (i64 (Z.shiftl carry_1 21))) in
  dlet carry_2 := Z.shiftr t2 21 in
  dlet t3 := i64 (t3 + carry_2) in
  dlet t2 := i64 (t2 - (i64 (Z.shiftl carry_2 21))) in
  dlet carry_3 := Z.shiftr t3 21 in
  dlet t4 := i64 (t4 + carry_3) in
  dlet t3 := i64 (t3 - (i64 (Z.shiftl carry_3 21))) in
  dlet carry_4 := Z.shiftr t4 21 in
  dlet t5 := i64 (t5 + carry_4) in
  dlet t4 := i64 (t4 - (i64 (Z.shiftl carry_4 21))) in
  dlet carry_5 := Z.shiftr t5 21 in
  dlet t6 := i64 (t6 + carry_5) in
  dlet t5 := i64 (t5 - (i64 (Z.shiftl carry_5 21))) in
  dlet carry_6 := Z.shiftr t6 21 in
  dlet t7 := i64 (t7 + carry_6) in
  dlet t6 := i64 (t6 - (i64 (Z.shiftl carry_6 21))) in
  dlet carry_7 := Z.shiftr t7 21 in
  dlet t8 := i64 (t8 + carry_7) in
  dlet t7 := i64 (t7 - (i64 (Z.shiftl carry_7 21))) in
  dlet carry_8 := Z.shiftr t8 21 in
  dlet t9 := i64 (t9 + carry_8) in
  dlet t8 := i64 (t8 - (i64 (Z.shiftl carry_8 21))) in
  dlet carry_9 := Z.shiftr t9 21 in
  dlet t10 := i64 (t10 + carry_9) in
  dlet t9 := i64 (t9 - (i64 (Z.shiftl carry_9 21))) in
  dlet carry_10 := Z.shiftr t10 21 in
  dlet t11 := i64 (t11 + carry_10) in
  dlet t10 := i64 (t10 - (i64 (Z.shiftl carry_10 21))) in
  dlet s_0 := Z.lor (u32 t0) (u32 (i64 (Z.shiftl t1 21))) in
  dlet s_1 := Z.lor (Z.lor (u32 (Z.shiftr t1 11)) (u32 (i64 (Z.shiftl t2 10)))) (u32 (i64 (Z.shiftl t3 31))) in
  dlet s_2 := Z.lor (u32 (Z.shiftr t3 1)) (u32 (i64 (Z.shiftl t4 20))) in
  dlet s_3 := Z.lor (Z.lor (u32 (Z.shiftr t4 12)) (u32 (i64 (Z.shiftl t5 9)))) (u32 (i64 (Z.shiftl t6 30))) in
  dlet s_4 := Z.lor (u32 (Z.shiftr t6 2)) (u32 (i64 (Z.shiftl t7 19))) in
  dlet s_5 := Z.lor (Z.lor (u32 (Z.shiftr t7 13)) (u32 (i64 (Z.shiftl t8 8)))) (u32 (i64 (Z.shiftl t9 29))) in
  dlet s_6 := Z.lor (u32 (Z.shiftr t9 3)) (u32 (i64 (Z.shiftl t10 18))) in
  dlet s_7 := Z.lor (u32 (Z.shiftr t10 14)) (u32 (i64 (Z.shiftl t11 7))) in
  (Sc s_0 s_1 s_2 s_3 s_4 s_5 s_6 s_7).

(** [reduceAfterMul]: /repo/scalar.go:1113-1455 *)
Definition sc_reduceAfterMul (s0 : Z) (s1 : Z) (s2 : Z) (s3 : Z) (s4 : Z) (s5 : Z) (s6 : Z) (s7 : Z) (s8 : Z) (s9 : Z) (s10 : Z) (s11 : Z) (s12 : Z) (s13 : Z) (s14 : Z) (s15 : Z) (s16 : Z) (s17 : Z) (s18 : Z) (s19 : Z) (s20 : Z) (s21 : Z) (s22 : Z) : sc :=
  dlet s23 := 0 in
  dlet carry_0 := Z.shiftr (i64 (s0 + 1048576)) 21 in
  dlet s1 := i64 (s1 + carry_0) in
  dlet s0 := i64 (s0 - (i64 (Z.shiftl carry_0 21))) in
  dlet carry_2 := Z.shiftr (i64 (s2 + 1048576)) 21 in
  dlet s3 := i64 (s3 + carry_2) in
  dlet s2 := i64 (s2 - (i64 (Z.shiftl carry_2 21))) in
  dlet carry_4 := Z.shiftr (i64 (s4 + 1048576)) 21 in
  dlet s5 := i64 (s5 + carry_4) in
  dlet s4 := i64 (s4 - (i64 (Z.shiftl carry_4 21))) in
  dlet carry_6 := Z.shiftr (i64 (s6 + 1048576)) 21 in
  dlet s7 := i64 (s7 + carry_6) in
  dlet s6 := i64 (s6 - (i64 (Z.shiftl carry_6 21))) in
  dlet carry_8 := Z.shiftr (i64 (s8 + 1048576)) 21 in
  dlet s9 := i64 (s9 + carry_8) in
  dlet s8 := i64 (s8 - (i64 (Z.shiftl carry_8 21))) in
  dlet carry_10 := Z.shiftr (i64 (s10 + 1048576)) 21 in
  dlet s11 := i64 (s11 + carry_10) in
  dlet s10 := i64 (s10 - (i64 (Z.shiftl carry_10 21))) in
  dlet carry_12 := Z.shiftr (i64 (s12 + 1048576)) 21 in
  dlet s13 := i64 (s13 + carry_12) in
  dlet s12 := i64 (s12 - (i64 (Z.shiftl carry_12 21))) in
  dlet carry_14 := Z.shiftr (i64 (s14 + 1048576)) 21 in
  dlet s15 := i64 (s15 + carry_14) in
  dlet s14 := i64 (s14 - (i64 (Z.shiftl carry_14 21))) in
  dlet carry_16 := Z.shiftr (i64 (s16 + 1048576)) 21 in
  dlet s17 := i64 (s17 + carry_16) in
  dlet s16 := i64 (s16 - (i64 (Z.shiftl carry_16 21))) in
  dlet carry_18 := Z.shiftr (i64 (s18 + 1048576)) 21 in
  dlet s19 := i64 (s19 + carry_18) in
  dlet s18 := i64 (s18 - (i64 (Z.shiftl carry_18 21))) in
  dlet carry_20 := Z.shiftr (i64 (s20 + 1048576)) 21 in
  dlet s21 := i64 (s21 + carry_20) in
  dlet s20 := i64 (s20 - (i64 (Z.shiftl carry_20 21))) in
  dlet carry_22 := Z.shiftr (i64 (s22 + 1048576)) 21 in
  dlet s23 := i64 (s23 + carry_22) in
  dlet s22 := i64 (s22 - (i64 (Z.shiftl carry_22 21))) in
  dlet carry_1 := Z.shiftr (i64 (s1 + 1048576)) 21 in
  dlet s2 := i64 (s2 + carry_1) in
  dlet s1 := i64 (s1 - (i64 (Z.shiftl carry_1 21))) in
  dlet carry_3 := Z.shiftr (i64 (s3 + 1048576)) 21 in
  dlet s4 := i64 (s4 + carry_3) in
  dlet s3 := i64 (s3 - (i64 (Z.shiftl carry_3 21))) in
  dlet carry_5 := Z.shiftr (i64 (s5 + 1048576)) 21 in
  dlet s6 := i64 (s6 + carry_5) in
  dlet s5 := i64 (s5 - (i64 (Z.shiftl carry_5 21))) in
  dlet carry_7 := Z.shiftr (i64 (s7 + 1048576)) 21 in
  dlet s8 := i64 (s8 + carry_7) in
  dlet s7 := i64 (s7 - (i64 (Z.shiftl carry_7 21))) in
  dlet carry_9 := Z.shiftr (i64 (s9 + 1048576)) 21 in
  dlet s10 := i64 (s10 + carry_9) in
  dlet s9 := i64 (s9 - (i64 (Z.shiftl carry_9 21))) in
  dlet carry_11 := Z.shiftr (i64 (s11 + 1048576)) 21 in
  dlet s12 := i64 (s12 + carry_11) in
  dlet s11 := i64 (s11 - (i64 (Z.shiftl carry_11 21))) in
  dlet carry_13 := Z.shiftr (i64 (s13 + 1048576)) 21 in
  dlet s14 := i64 (s14 + carry_13) in
  dlet s13 := i64 (s13 - (i64 (Z.shiftl carry_13 21))) in
  dlet carry_15 := Z.shiftr (i64 (s15 + 1048576)) 21 in
  dlet s16 := i64 (s16 + carry_15) in
  dlet s15 := i64 (s15 - (i64 (Z.shiftl carry_15 21))) in
  dlet carry_17 := Z.shiftr (i64 (s17 + 1048576)) 21 in
  dlet s18 := i64 (s18 + carry_17) in
  dlet s17 := i64 (s17 - (i64 (Z.shiftl carry_17 21))) in
  dlet carry_19 := Z.shiftr (i64 (s19 + 1048576)) 21 in
  dlet s20 := i64 (s20 + carry_19) in
  dlet s19 := i64 (s19 - (i64 (Z.shiftl carry_19 21))) in
  dlet carry_21 := Z.shiftr (i64 (s21 + 1048576)) 21 in
  dlet s22 := i64 (s22 + carry_21) in
  dlet s21 := i64 (s21 - (i64 (Z.shiftl carry_21 21))) in
  dlet s11 := i64 (s11 + (i64 (s23 * 666643))) in
  dlet s12 := i64 (s12 + (i64 (s23 * 470296))) in
  dlet s13 := i64 (s13 + (i64 (s23 * 654183))) in
  dlet s14 := i64 (s14 - (i64 (s23 * 997805))) in
  dlet s15 := i64 (s15 + (i64 (s23 * 136657))) in
  dlet s16 := i64 (s16 - (i64 (s23 * 683901))) in
  dlet s23 := 0 in
  dlet s10 := i64 (s10 + (i64 (s22 * 666643))) in
  dlet s11 := i64 (s11 + (i64 (s22 * 470296))) in
  dlet s12 := i64 (s12 + (i64 (s22 * 654183))) in
  dlet s13 := i64 (s13 - (i64 (s22 * 997805))) in
  dlet s14 := i64 (s14 + (i64 (s22 * 136657))) in
  dlet s15 := i64 (s15 - (i64 (s22 * 683901))) in
  dlet s22 := 0 in
  dlet s9 := i64 (s9 + (i64 (s21 * 666643))) in
  dlet s10 := i64 (s10 + (i64 (s21 * 470296))) in
  dlet s11 := i64 (s11 + (i64 (s21 * 654183))) in
  dlet s12 := i64 (s12 - (i64 (s21 * 997805))) in
  dlet s13 := i64 (s13 + (i64 (s21 * 136657))) in
  dlet s14 := i64 (s14 - (i64 (s21 * 683901))) in
  dlet s21 := 0 in
  dlet s8 := i64 (s8 + (i64 (s20 * 666643))) in
  dlet s9 := i64 (s9 + (i64 (s20 * 470296))) in
  dlet s10 := i64 (s10 + (i64 (s20 * 654183))) in
  dlet s11 := i64 (s11 - (i64 (s20 * 997805))) in
  dlet s12 := i64 (s12 + (i64 (s20 * 136657))) in
  dlet s13 := i64 (s13 - (i64 (s20 * 683901))) in
  dlet s20 := 0 in
  dlet s7 := i64 (s7 + (i64 (s19 * 666643))) in
  dlet s8 := i64 (s8 + (i64 (s19 * 470296))) in
  dlet s9 := i64 (s9 + (i64 (s19 * 654183))) in
  dlet s10 := i64 (s10 - (i64 (s19 * 997805))) in
  dlet s11 := i64 (s11 + (i64 (s19 * 136657))) in
  dlet s12 := i64 (s12 - (i64 (s19 * 683901))) in
  dlet s19 := 0 in
  dlet s6 := i64 (s6 + (i64 (s18 * 666643))) in
  dlet s7 := i64 (s7 + (i64 (s18 * 470296))) in
  dlet s8 := i64 (s8 + (i64 (s18 * 654183))) in
  dlet s9 := i64 (s9 - (i64 (s18 * 997805))) in
  dlet s10 := i64 (s10 + (i64 (s18 * 136657))) in
  dlet s11 := i64 (s11 - (i64 (s18 * 683901))) in
  dlet s18 := 0 in
  dlet carry_6 := Z.shiftr (i64 (s6 + 1048576)) 21 in
  dlet s7 := i64 (s7 + carry_6) in
  dlet s6 := i64 (s6 - (i64 (Z.shiftl carry_6 21))) in
  dlet carry_8 := Z.shiftr (i64 (s8 + 1048576)) 21 in
  dlet s9 := i64 (s9 + carry_8) in
  dlet s8 := i64 (s8 - (i64 (Z.shiftl carry_8 21))) in
  dlet carry_10 := Z.shiftr (i64 (s10 + 1048576)) 21 in
  dlet s11 := i64 (s11 + carry_10) in
  dlet s10 := i64 (s10 - (i64 (Z.shiftl carry_10 21))) in
  dlet carry_12 := Z.shiftr (i64 (s12 + 1048576)) 21 in
  dlet s13 := i64 (s13 + carry_12) in
  dlet s12 := i64 (s12 - (i64 (Z.shiftl carry_12 21))) in
  dlet carry_14 := Z.shiftr (i64 (s14 + 1048576)) 21 in
  dlet s15 := i64 (s15 + carry_14) in
  dlet s14 := i64 (s14 - (i64 (Z.shiftl carry_14 21))) in
  dlet carry_16 := Z.shiftr (i64 (s16 + 1048576)) 21 in
  dlet s17 := i64 (s17 + carry_16) in
  dlet s16 := i64 (s16 - (i64 (Z.shiftl carry_16 21))) in
  dlet carry_7 := Z.shiftr (i64 (s7 + 1048576)) 21 in
  dlet s8 := i64 (s8 + carry_7) in
  dlet s7 := i64 (s7 - (i64 (Z.shiftl carry_7 21))) in
  dlet carry_9 := Z.shiftr (i64 (s9 + 1048576)) 21 in
  dlet s10 := i64 (s10 + carry_9) in
  dlet s9 := i64 (s9 - (i64 (Z.shiftl carry_9 21))) in
  dlet carry_11 := Z.shiftr (i64 (s11 + 1048576)) 21 in
  dlet s12 := i64 (s12 + carry_11) in
  dlet s11 := i64 (s11 - (i64 (Z.shiftl carry_11 21))) in
  dlet carry_13 := Z.shiftr (i64 (s13 + 1048576)) 21 in
  dlet s14 := i64 (s14 + carry_13) in
  dlet s13 := i64 (s13 - (i64 (Z.shiftl carry_13 21))) in
  dlet carry_15 := Z.shiftr (i64 (s15 + 1048576)) 21 in
  dlet s16 := i64 (s16 + carry_15) in
  dlet s15 := i64 (s15 - (i64 (Z.shiftl carry_15 21))) in
  dlet s5 := i64 (s5 + (i64 (s17 * 666643))) in
  dlet s6 := i64 (s6 + (i64 (s17 * 470296))) in
  dlet s7 := i64 (s7 + (i64 (s17 * 654183))) in
  dlet s8 := i64 (s8 - (i64 (s17 * 997805))) in
  dlet s9 := i64 (s9 + (i64 (s17 * 136657))) in
  dlet s10 := i64 (s10 - (i64 (s17 * 683901))) in
  dlet s17 := 0 in
  dlet s4 := i64 (s4 + (i64 (s16 * 666643))) in
  dlet s5 := i64 (s5 + (i64 (s16 * 470296))) in
  dlet s6 := i64 (s6 + (i64 (s16 * 654183))) in
  dlet s7 := i64 (s7 - (i64 (s16 * 997805))) in
  dlet s8 := i64 (s8 + (i64 (s16 * 136657))) in
  dlet s9 := i64 (s9 - (i64 (s16 * 683901))) in
  dlet s16 := 0 in
  dlet s3 := i64 (s3 + (i64 (s15 * 666643))) in
  dlet s4 := i64 (s4 + (i64 (s15 * 470296))) in
  dlet s5 := i64 (s5 + (i64 (s15 * 654183))) in
  dlet s6 := i64 (s6 - (i64 (s15 * 997805))) in
  dlet s7 := i64 (s7 + (i64 (s15 * 136657))) in
  dlet s8 := i64 (s8 - (i64 (s15 * 683901))) in
  dlet s15 := 0 in
  dlet s2 := i64 (s2 + (i64 (s14 * 666643))) in
  dlet s3 := i64 (s3 + (i64 (s14 * 470296))) in
  dlet s4 := i64 (s4 + (i64 (s14 * 654183))) in
  dlet s5 := i64 (s5 - (i64 (s14 * 997805))) in
  dlet s6 := i64 (s6 + (i64 (s14 * 136657))) in
  dlet s7 := i64 (s7 - (i64 (s14 * 683901))) in
  dlet s14 := 0 in
  dlet s1 := i64 (s1 + (i64 (s13 * 666643))) in
  dlet s2 := i64 (s2 + (i64 (s13 * 470296))) in
  dlet s3 := i64 (s3 + (i64 (s13 * 654183))) in
  dlet s4 := i64 (s4 - (i64 (s13 * 997805))) in
  dlet s5 := i64 (s5 + (i64 (s13 * 136657))) in
  dlet s6 := i64 (s6 - (i64 (s13 * 683901))) in
  dlet s13 := 0 in
  dlet s0 := i64 (s0 + (i64 (s12 * 666643))) in
  dlet s1 := i64 (s1 + (i64 (s12 * 470296))) in
  dlet s2 := i64 (s2 + (i64 (s12 * 654183))) in
  dlet s3 := i64 (s3 - (i64 (s12 * 997805))) in
  dlet s4 := i64 (s4 + (i64 (s12 * 136657))) in
  dlet s5 := i64 (s5 - (i64 (s12 * 683901))) in
  dlet s12 := 0 in
  dlet carry_0 := Z.shiftr (i64 (s0 + 1048576)) 21 in
  dlet s1 := i64 (s1 + carry_0) in
  dlet s0 := i64 (s0 - (i64 (Z.shiftl carry_0 21))) in
  dlet carry_2 := Z.shiftr (i64 (s2 + 1048576)) 21 in
  dlet s3 := i64 (s3 + carry_2) in
  dlet s2 := i64 (s2 - (i64 (Z.shiftl carry_2 21))) in
  dlet carry_4 := Z.shiftr (i64 (s4 + 1048576)) 21 in
  dlet s5 := i64 (s5 + carry_4) in
  dlet s4 := i64 (s4 - (i64 (Z.shiftl carry_4 21))) in
  dlet carry_6 := Z.shiftr (i64 (s6 + 1048576)) 21 in
  dlet s7 := i64 (s7 + carry_6) in
  dlet s6 := i64 (s6 - (i64 (Z.shiftl carry_6 21))) in
  dlet carry_8 := Z.shiftr (i64 (s8 + 1048576)) 21 in
  dlet s9 := i64 (s9 + carry_8) in
  dlet s8 := i64 (s8 - (i64 (Z.shiftl carry_8 21))) in
  dlet carry_10 := Z.shiftr (i64 (s10 + 1048576)) 21 in
  dlet s11 := i64 (s11 + carry_10) in
  dlet s10 := i64 (s10 - (i64 (Z.shiftl carry_10 21))) in
  dlet carry_1 := Z.shiftr (i64 (s1 + 1048576)) 21 in
  dlet s2 := i64 (s2 + carry_1) in
  dlet s1 := i64 (s1 - (i64 (Z.shiftl carry_1 21))) in
  dlet carry_3 := Z.shiftr (i64 (s3 + 1048576)) 21 in
  dlet s4 := i64 (s4 + carry_3) in
  dlet s3 := i64 (s3 - (i64 (Z.shiftl carry_3 21))) in
  dlet carry_5 := Z.shiftr (i64 (s5 + 1048576)) 21 in
  dlet s6 := i64 (s6 + carry_5) in
  dlet s5 := i64 (s5 - (i64 (Z.shiftl carry_5 21))) in
  dlet carry_7 := Z.shiftr (i64 (s7 + 1048576)) 21 in
  dlet s8 := i64 (s8 + carry_7) in
  dlet s7 := i64 (s7 - (i64 (Z.shiftl carry_7 21))) in
  dlet carry_9 := Z.shiftr (i64 (s9 + 1048576)) 21 in
  dlet s10 := i64 (s10 + carry_9) in
  dlet s9 := i64 (s9 - (i64 (Z.shiftl carry_9 21))) in
  dlet carry_11 := Z.shiftr (i64 (s11 + 1048576)) 21 in
  dlet s12 := i64 (s12 + carry_11) in
  dlet s11 := i64 (s11 - (i64 (Z.shiftl carry_11 21))) in
  dlet s0 := i64 (s0 + (i64 (s12 * 666643))) in
  dlet s1 := i64 (s1 + (i64 (s12 * 470296))) in
  dlet s2 := i64 (s2 + (i64 (s12 * 654183))) in
  dlet s3 := i64 (s3 - (i64 (s12 * 997805))) in
  dlet s4 := i64 (s4 + (i64 (s12 * 136657))) in
  dlet s5 := i64 (s5 - (i64 (s12 * 683901))) in
  dlet s12 := 0 in
  dlet carry_0 := Z.shiftr s0 21 in
  dlet s1 := i64 (s1 + carry_0) in
  dlet s0 := i64 (s0 - (i64 (Z.shiftl carry_0 21))) in
  dlet carry_1 := Z.shiftr s1 21 in
  dlet s2 := i64 (s2 + carry_1) in
  dlet s1 := i64 (s1 - (i64 (Z.shiftl carry_1 21))) in
  dlet carry_2 := Z.shiftr s2 21 in
  dlet s3 := i64 (s3 + carry_2) in
  dlet s2 := i64 (s2 - (i64 (Z.shiftl carry_2 21))) in
  dlet carry_3 := Z.shiftr s3 21 in
  dlet s4 := i64 (s4 + carry_3) in
  dlet s3 := i64 (s3 - (i64 (Z.shiftl carry_3 21))) in
  dlet carry_4 := Z.shiftr s4 21 in
  dlet s5 := i64 (s5 + carry_4) in
  dlet s4 := i64 (s4 - (i64 (Z.shiftl carry_4 21))) in
  dlet carry_5 := Z.shiftr s5 21 in
  dlet s6 := i64 (s6 + carry_5) in
  dlet s5 := i64 (s5 - (i64 (Z.shiftl carry_5 21))) in
  dlet carry_6 := Z.shiftr s6 21 in
  dlet s7 := i64 (s7 + carry_6) in
  dlet s6 := i64 (s6 - (i64 (Z.shiftl carry_6 21))) in
  dlet carry_7 := Z.shiftr s7 21 in
  dlet s8 := i64 (s8 + carry_7) in
  dlet s7 := i64 (s7 - (i64 (Z.shiftl carry_7 21))) in
  dlet carry_8 := Z.shiftr s8 21 in
  dlet s9 := i64 (s9 + carry_8) in
  dlet s8 := i64 (s8 - (i64 (Z.shiftl carry_8 21))) in
  dlet carry_9 := Z.shiftr s9 21 in
  dlet s10 := i64 (s10 + carry_9) in
  dlet s9 := i64 (s9 - (i64 (Z.shiftl carry_9 21))) in
  dlet carry_10 := Z.shiftr s10 21 in
  dlet s11 := i64 (s11 + carry_10) in
  dlet s10 := i64 (s10 - (i64 (Z.shiftl carry_10 21))) in
  dlet carry_11 := Z.shiftr s11 21 in
  dlet s12 := i64 (s12 + carry_11) in
  dlet s11 := i64 (s11 - (i64 (Z.shiftl carry_11 21))) in
  dlet s0 := i64 (s0 + (i64 (s12 * 666643))) in
  dlet s1 := i64 (s1 + (i64 (s12 * 470296))) in
  dlet s2 := i64 (s2 + (i64 (s12 * 654183))) in
  dlet s3 := i64 (s3 - (i64 (s12 * 997805))) in
  dlet s4 := i64 (s4 + (i64 (s12 * 136657))) in
  dlet s5 := i64 (s5 - (i64 (s12 * 683901))) in
  dlet s12 := 0 in
  dlet carry_0 := Z.shiftr s0 21 in
  dlet s1 := i64 (s1 + carry_0) in
  dlet s0 := i64 (s0 - (i64 (Z.shiftl carry_0 21))) in
  dlet carry_1 := Z.shiftr s1 21 in
  dlet s2 := i64 (s2 + carry_1) in
  dlet s1 := i64 (s1 - (i64 (Z.shiftl carry_1 21))) in
  dlet carry_2 := Z.shiftr s2 21 in
  dlet s3 := i64 (s3 + carry_2) in
  dlet s2 := i64 (s2 - (i64 (Z.shiftl carry_2 21))) in
  dlet carry_3 := Z.shiftr s3 21 in
  dlet s4 := i64 (s4 + carry_3) in
  dlet s3 := i64 (s3 - (i64 (Z.shiftl carry_3 21))) in
  dlet carry_4 := Z.shiftr s4 21 in
  dlet s5 := i64 (s5 + carry_4) in
  dlet s4 := i64 (s4 - (i64 (Z.shiftl carry_4 21))) in
  dlet carry_5 := Z.shiftr s5 21 in
  dlet s6 := i64 (s6 + carry_5) in
  dlet s5 := i64 (s5 - (i64 (Z.shiftl carry_5 21))) in
  dlet carry_6 := Z.shiftr s6 21 in
  dlet s7 := i64 (s7 + carry_6) in
  dlet s6 := i64 (s6 - (i64 (Z.shiftl carry_6 21))) in
  dlet carry_7 := Z.shiftr s7 21 in
  dlet s8 := i64 (s8 + carry_7) in
  dlet s7 := i64 (s7 - (i64 (Z.shiftl carry_7 21))) in
  dlet carry_8 := Z.shiftr s8 21 in
  dlet s9 := i64 (s9 + carry_8) in
  dlet s8 := i64 (s8 - (i64 (Z.shiftl carry_8 21))) in
  dlet carry_9 := Z.shiftr s9 21 in
  dlet s10 := i64 (s10 + carry_9) in
  dlet s9 := i64 (s9 - (i64 (Z.shiftl carry_9 21))) in
  dlet carry_10 := Z.shiftr s10 21 in
  dlet s11 := i64 (s11 + carry_10) in
  dlet s10 := i64 (s10 - (i64 (Z.shiftl carry_10 21))) in
  dlet s_0 := Z.lor (u32 s0) (u32 (i64 (Z.shiftl s1 21))) in
  dlet s_1 := Z.lor (Z.lor (u32 (Z.shiftr s1 11)) (u32 (i64 (Z.shiftl s2 10)))) (u32 (i64 (Z.shiftl s3 31))) in
  dlet s_2 := Z.lor (u32 (Z.shiftr s3 1)) (u32 (i64 (Z.shiftl s4 20))) in
  dlet s_3 := Z.lor (Z.lor (u32 (Z.shiftr s4 12)) (u32 (i64 (Z.shiftl s5 9)))) (u32 (i64 (Z.shiftl s6 30))) in
  dlet s_4 := Z.lor (u32 (Z.shiftr s6 2)) (u32 (i64 (Z.shiftl s7 19))) in
  dlet s_5 := Z.lor (Z.lor (u32 (Z.shiftr s7 13)) (u32 (i64 (Z.shiftl s8 8)))) (u32 (i64 (Z.shiftl s9 29))) in
  dlet s_6 := Z.lor (u32 (Z.shiftr s9 3)) (u32 (i64 (Z.shiftl s10 18))) in
  dlet s_7 := Z.lor (u32 (Z.shiftr s10 14)) (u32 (i64 (Z.shiftl s11 7))) in
  (Sc s_0 s_1 s_2 s_3 s_4 s_5 s_6 s_7).

(** [Square]: /repo/scalar.go:712-750 *)
Definition sc_square (a : sc) : sc :=
  match a with Sc a_0 a_1 a_2 a_3 a_4 a_5 a_6 a_7 =>
  dlet a0 := Z.land a_0 2097151 in
  dlet a1 := Z.land (Z.lor (Z.shiftr a_0 21) (u32 (Z.shiftl a_1 11))) 2097151 in
  dlet a2 := Z.land (Z.shiftr a_1 10) 2097151 in
  dlet a3 := Z.land (Z.lor (Z.shiftr a_1 31) (u32 (Z.shiftl a_2 1))) 2097151 in
  dlet a4 := Z.land (Z.lor (Z.shiftr a_2 20) (u32 (Z.shiftl a_3 12))) 2097151 in
  dlet a5 := Z.land (Z.shiftr a_3 9) 2097151 in
  dlet a6 := Z.land (Z.lor (Z.shiftr a_3 30) (u32 (Z.shiftl a_4 2))) 2097151 in
  dlet a7 := Z.land (Z.lor (Z.shiftr a_4 19) (u32 (Z.shiftl a_5 13))) 2097151 in
  dlet a8 := Z.land (Z.shiftr a_5 8) 2097151 in
  dlet a9 := Z.land (Z.lor (Z.shiftr a_5 29) (u32 (Z.shiftl a_6 3))) 2097151 in
  dlet a10 := Z.land (Z.lor (Z.shiftr a_6 18) (u32 (Z.shiftl a_7 14))) 2097151 in
  dlet a11 := Z.shiftr a_7 7 in
  dlet arg0 := i64 (a0 * a0) in
  dlet arg1 := i64 ((i64 (2 * a0)) * a1) in
  dlet arg2 := i64 ((i64 ((i64 (2 * a0)) * a2)) + (i64 (a1 * a1))) in
  dlet arg3 := i64 (2 * (i64 ((i64 (a0 * a3)) + (i64 (a1 * a2))))) in
  dlet arg4 := i64 ((i64 (2 * (i64 ((i64 (a0 * a4)) + (i64 (a1 * a3)))))) + (i64 (a2 * a2))) in
  dlet arg5 := i64 (2 * (i64 ((i64 ((i64 (a0 * a5)) + (i64 (a1 * a4)))) + (i64 (a2 * a3))))) in
  dlet arg6 := i64 ((i64 (2 * (i64 ((i64 ((i64 (a0 * a6)) + (i64 (a1 * a5)))) + (i64 (a2 * a4)))))) + (i64 (a3 * a3))) in
  dlet arg7 := i64 (2 * (i64 ((i64 ((i64 ((i64 (a0 * a7)) + (i64 (a1 * a6)))) + (i64 (a2 * a5)))) + (i64 (a3 * a4))))) in
  dlet arg8 := i64 ((i64 (2 * (i64 ((i64 ((i64 ((i64 (a0 * a8)) + (i64 (a1 * a7)))) + (i64 (a2 * a6)))) + (i64 (a3 * a5)))))) + (i64 (a4 * a4))) in
  dlet arg9 := i64 (2 * (i64 ((i64 ((i64 ((i64 ((i64 (a0 * a9)) + (i64 (a1 * a8)))) + (i64 (a2 * a7)))) + (i64 (a3 * a6)))) + (i64 (a4 * a5))))) in
  dlet arg10 := i64 ((i64 (2 * (i64 ((i64 ((i64 ((i64 ((i64 (a0 * a10)) + (i64 (a1 * a9)))) + (i64 (a2 * a8)))) + (i64 (a3 * a7)))) + (i64 (a4 * a6)))))) + (i64 (a5 * a5))) in
  dlet arg11 := i64 (2 * (i64 ((i64 ((i64 ((i64 ((i64 ((i64 (a0 * a11)) + (i64 (a1 * a10)))) + (i64 (a2 * a9)))) + (i64 (a3 * a8)))) + (i64 (a4 * a7)))) + (i64 (a5 * a6))))) in
  dlet arg12 := i64 ((i64 (2 * (i64 ((i64 ((i64 ((i64 ((i64 (a1 * a11)) + (i64 (a2 * a10)))) + (i64 (a3 * a9)))) + (i64 (a4 * a8)))) + (i64 (a5 * a7)))))) + (i64 (a6 * a6))) in
  dlet arg13 := i64 (2 * (i64 ((i64 ((i64 ((i64 ((i64 (a2 * a11)) + (i64 (a3 * a10)))) + (i64 (a4 * a9)))) + (i64 (a5 * a8)))) + (i64 (a6 * a7))))) in
  dlet arg14 := i64 ((i64 (2 * (i64 ((i64 ((i64 ((i64 (a3 * a11)) + (i64 (a4 * a10)))) + (i64 (a5 * a9)))) + (i64 (a6 * a8)))))) + (i64 (a7 * a7))) in
  dlet arg15 := i64 (2 * (i64 ((i64 ((i64 ((i64 (a4 * a11)) + (i64 (a5 * a10)))) + (i64 (a6 * a9)))) + (i64 (a7 * a8))))) in
  dlet arg16 := i64 ((i64 (2 * (i64 ((i64 ((i64 (a5 * a11)) + (i64 (a6 * a10)))) + (i64 (a7 * a9)))))) + (i64 (a8 * a8))) in
  dlet arg17 := i64 (2 * (i64 ((i64 ((i64 (a6 * a11)) + (i64 (a7 * a10)))) + (i64 (a8 * a9))))) in
  dlet arg18 := i64 ((i64 (2 * (i64 ((i64 (a7 * a11)) + (i64 (a8 * a10)))))) + (i64 (a9 * a9))) in
  dlet arg19 := i64 (2 * (i64 ((i64 (a8 * a11)) + (i64 (a9 * a10))))) in
  dlet arg20 := i64 ((i64 ((i64 (2 * a9)) * a11)) + (i64 (a10 * a10))) in
  dlet arg21 := i64 ((i64 (2 * a10)) * a11) in
  dlet arg22 := i64 (a11 * a11) in
  sc_reduceAfterMul arg0 arg1 arg2 arg3 arg4 arg5 arg6 arg7 arg8 arg9 arg10 arg11 arg12 arg13 arg14 arg15 arg16 arg17 arg18 arg19 arg20 arg21 arg22 end.

(** [Mul]: /repo/scalar.go:753-804 *)
Definition sc_mul (a : sc) (b : sc) : sc :=
  match a with Sc a_0 a_1 a_2 a_3 a_4 a_5 a_6 a_7 =>
  match b with Sc b_0 b_1 b_2 b_3 b_4 b_5 b_6 b_7 =>
  dlet a0 := Z.land a_0 2097151 in
  dlet a1 := Z.land (Z.lor (Z.shiftr a_0 21) (u32 (Z.shiftl a_1 11))) 2097151 in
  dlet a2 := Z.land (Z.shiftr a_1 10) 2097151 in
  dlet a3 := Z.land (Z.lor (Z.shiftr a_1 31) (u32 (Z.shiftl a_2 1))) 2097151 in
  dlet a4 := Z.land (Z.lor (Z.shiftr a_2 20) (u32 (Z.shiftl a_3 12))) 2097151 in
  dlet a5 := Z.land (Z.shiftr a_3 9) 2097151 in
  dlet a6 := Z.land (Z.lor (Z.shiftr a_3 30) (u32 (Z.shiftl a_4 2))) 2097151 in
  dlet a7 := Z.land (Z.lor (Z.shiftr a_4 19) (u32 (Z.shiftl a_5 13))) 2097151 in
  dlet a8 := Z.land (Z.shiftr a_5 8) 2097151 in
  dlet a9 := Z.land (Z.lor (Z.shiftr a_5 29) (u32 (Z.shiftl a_6 3))) 2097151 in
  dlet a10 := Z.land (Z.lor (Z.shiftr a_6 18) (u32 (Z.shiftl a_7 14))) 2097151 in
  dlet a11 := Z.shiftr a_7 7 in
  dlet b0 := Z.land b_0 2097151 in
  dlet b1 := Z.land (Z.lor (Z.shiftr b_0 21) (u32 (Z.shiftl b_1 11))) 2097151 in
  dlet b2 := Z.land (Z.shiftr b_1 10) 2097151 in
  dlet b3 := Z.land (Z.lor (Z.shiftr b_1 31) (u32 (Z.shiftl b_2 1))) 2097151 in
  dlet b4 := Z.land (Z.lor (Z.shiftr b_2 20) (u32 (Z.shiftl b_3 12))) 2097151 in
  dlet b5 := Z.land (Z.shiftr b_3 9) 2097151 in
  dlet b6 := Z.land (Z.lor (Z.shiftr b_3 30) (u32 (Z.shiftl b_4 2))) 2097151 in
  dlet b7 := Z.land (Z.lor (Z.shiftr b_4 19) (u32 (Z.shiftl b_5 13))) 2097151 in
  dlet b8 := Z.land (Z.shiftr b_5 8) 2097151 in
  dlet b9 := Z.land (Z.lor (Z.shiftr b_5 29) (u32 (Z.shiftl b_6 3))) 2097151 in
  dlet b10 := Z.land (Z.lor (Z.shiftr b_6 18) (u32 (Z.shiftl b_7 14))) 2097151 in
  dlet b11 := Z.shiftr b_7 7 in
  dlet arg0 := i64 (a0 * b0) in
  dlet arg1 := i64 ((i64 (a0 * b1)) + (i64 (a1 * b0))) in
  dlet arg2 := i64 ((i64 ((i64 (a0 * b2)) + (i64 (a1 * b1)))) + (i64 (a2 * b0))) in
  dlet arg3 := i64 ((i64 ((i64 ((i64 (a0 * b3)) + (i64 (a1 * b2)))) + (i64 (a2 * b1)))) + (i64 (a3 * b0))) in
  dlet arg4 := i64 ((i64 ((i64 ((i64 ((i64 (a0 * b4)) + (i64 (a1 * b3)))) + (i64 (a2 * b2)))) + (i64 (a3 * b1)))) + (i64 (a4 * b0))) in
  dlet arg5 := i64 ((i64 ((i64 ((i64 ((i64 ((i64 (a0 * b5)) + (i64 (a1 * b4)))) + (i64 (a2 * b3)))) + (i64 (a3 * b2)))) + (i64 (a4 * b1)))) + (i64 (a5 * b0))) in
  dlet arg6 := i64 ((i64 ((i64 ((i64 ((i64 ((i64 ((i64 (a0 * b6)) + (i64 (a1 * b5)))) + (i64 (a2 * b4)))) + (i64 (a3 * b3)))) + (i64 (a4 * b2)))) + (i64 (a5 * b1)))) + (i64 (a6 * b0))) in
  dlet arg7 := i64 ((i64 ((i64 ((i64 ((i64 ((i64 ((i64 ((i64 (a0 * b7)) + (i64 (a1 * b6)))) + (i64 (a2 * b5)))) + (i64 (a3 * b4)))) + (i64 (a4 * b3)))) + (i64 (a5 * b2)))) + (i64 (a6 * b1)))) + (i64 (a7 * b0))) in
  dlet arg8 := i64 ((i64 ((i64 ((i64 ((i64 ((i64 ((i64 ((i64 ((i64 (a0 * b8)) + (i64 (a1 * b7)))) + (i64 (a2 * b6)))) + (i64 (a3 * b5)))) + (i64 (a4 * b4)))) + (i64 (a5 * b3)))) + (i64 (a6 * b2)))) + (i64 (a7 * b1)))) + (i64 (a8 * b0))) in
  dlet arg9 := i64 ((i64 ((i64 ((i64 ((i64 ((i64 ((i64 ((i64 ((i64 ((i64 (a0 * b9)) + (i64 (a1 * b8)))) + (i64 (a2 * b7)))) + (i64 (a3 * b6)))) + (i64 (a4 * b5)))) + (i64 (a5 * b4)))) + (i64 (a6 * b3)))) + (i64 (a7 * b2)))) + (i64 (a8 * b1)))) + (i64 (a9 * b0))) in
  dlet arg10 := i64 ((i64 ((i64 ((i64 ((i64 ((i64 ((i64 ((i64 ((i64 ((i64 ((i64 (a0 * b10)) + (i64 (a1 * b9)))) + (i64 (a2 * b8)))) + (i64 (a3 * b7)))) + (i64 (a4 * b6)))) + (i64 (a5 * b5)))) + (i64 (a6 * b4)))) + (i64 (a7 * b3)))) + (i64 (a8 * b2)))) + (i64 (a9 * b1)))) + (i64 (a10 * b0))) in
  dlet arg11 := i64 ((i64 ((i64 ((i64 ((i64 ((i64 ((i64 ((i64 ((i64 ((i64 ((i64 ((i64 (a0 * b11)) + (i64 (a1 * b10)))) + (i64 (a2 * b9)))) + (i64 (a3 * b8)))) + (i64 (a4 * b7)))) + (i64 (a5 * b6)))) + (i64 (a6 * b5)))) + (i64 (a7 * b4)))) + (i64 (a8 * b3)))) + (i64 (a9 * b2)))) + (i64 (a10 * b1)))) + (i64 (a11 * b0))) in
  dlet arg12 := i64 ((i64 ((i64 ((i64 ((i64 ((i64 ((i64 ((i64 ((i64 ((i64 ((i64 (a1 * b11)) + (i64 (a2 * b10)))) + (i64 (a3 * b9)))) + (i64 (a4 * b8)))) + (i64 (a5 * b7)))) + (i64 (a6 * b6)))) + (i64 (a7 * b5)))) + (i64 (a8 * b4)))) + (i64 (a9 * b3)))) + (i64 (a10 * b2)))) + (i64 (a11 * b1))) in
  dlet arg13 := i64 ((i64 ((i64 ((i64 ((i64 ((i64 ((i64 ((i64 ((i64 ((i64 (a2 * b11)) + (i64 (a3 * b10)))) + (i64 (a4 * b9)))) + (i64 (a5 * b8)))) + (i64 (a6 * b7)))) + (i64 (a7 * b6)))) + (i64 (a8 * b5)))) + (i64 (a9 * b4)))) + (i64 (a10 * b3)))) + (i64 (a11 * b2))) in
  dlet arg14 := i64 ((i64 ((i64 ((i64 ((i64 ((i64 ((i64 ((i64 ((i64 (a3 * b11)) + (i64 (a4 * b10)))) + (i64 (a5 * b9)))) + (i64 (a6 * b8)))) + (i64 (a7 * b7)))) + (i64 (a8 * b6)))) + (i64 (a9 * b5)))) + (i64 (a10 * b4)))) + (i64 (a11 * b3))) in
  dlet arg15 := i64 ((i64 ((i64 ((i64 ((i64 ((i64 ((i64 ((i64 (a4 * b11)) + (i64 (a5 * b10)))) + (i64 (a6 * b9)))) + (i64 (a7 * b8)))) + (i64 (a8 * b7)))) + (i64 (a9 * b6)))) + (i64 (a10 * b5)))) + (i64 (a11 * b4))) in
  dlet arg16 := i64 ((i64 ((i64 ((i64 ((i64 ((i64 ((i64 (a5 * b11)) + (i64 (a6 * b10)))) + (i64 (a7 * b9)))) + (i64 (a8 * b8)))) + (i64 (a9 * b7)))) + (i64 (a10 * b6)))) + (i64 (a11 * b5))) in
  dlet arg17 := i64 ((i64 ((i64 ((i64 ((i64 ((i64 (a6 * b11)) + (i64 (a7 * b10)))) + (i64 (a8 * b9)))) + (i64 (a9 * b8)))) + (i64 (a10 * b7)))) + (i64 (a11 * b6))) in
  dlet arg18 := i64 ((i64 ((i64 ((i64 ((i64 (a7 * b11)) + (i64 (a8 * b10)))) + (i64 (a9 * b9)))) + (i64 (a10 * b8)))) + (i64 (a11 * b7))) in
  dlet arg19 := i64 ((i64 ((i64 ((i64 (a8 * b11)) + (i64 (a9 * b10)))) + (i64 (a10 * b9)))) + (i64 (a11 * b8))) in
  dlet arg20 := i64 ((i64 ((i64 (a9 * b11)) + (i64 (a10 * b10)))) + (i64 (a11 * b9))) in
  dlet arg21 := i64 ((i64 (a10 * b11)) + (i64 (a11 * b10))) in
  dlet arg22 := i64 (a11 * b11) in
  sc_reduceAfterMul arg0 arg1 arg2 arg3 arg4 arg5 arg6 arg7 arg8 arg9 arg10 arg11 arg12 arg13 arg14 arg15 arg16 arg17 arg18 arg19 arg20 arg21 arg22 end end.

(** [MulAdd]: /repo/scalar.go:313-377 *)
Definition sc_mulAdd (a : sc) (b : sc) (c : sc) : sc :=
  match a with Sc a_0 a_1 a_2 a_3 a_4 a_5 a_6 a_7 =>
  match b with Sc b_0 b_1 b_2 b_3 b_4 b_5 b_6 b_7 =>
  match c with Sc c_0 c_1 c_2 c_3 c_4 c_5 c_6 c_7 =>
  dlet a0 := Z.land a_0 2097151 in
  dlet a1 := Z.land (Z.lor (Z.shiftr a_0 21) (u32 (Z.shiftl a_1 11))) 2097151 in
  dlet a2 := Z.land (Z.shiftr a_1 10) 2097151 in
  dlet a3 := Z.land (Z.lor (Z.shiftr a_1 31) (u32 (Z.shiftl a_2 1))) 2097151 in
  dlet a4 := Z.land (Z.lor (Z.shiftr a_2 20) (u32 (Z.shiftl a_3 12))) 2097151 in
  dlet a5 := Z.land (Z.shiftr a_3 9) 2097151 in
  dlet a6 := Z.land (Z.lor (Z.shiftr a_3 30) (u32 (Z.shiftl a_4 2))) 2097151 in
  dlet a7 := Z.land (Z.lor (Z.shiftr a_4 19) (u32 (Z.shiftl a_5 13))) 2097151 in
  dlet a8 := Z.land (Z.shiftr a_5 8) 2097151 in
  dlet a9 := Z.land (Z.lor (Z.shiftr a_5 29) (u32 (Z.shiftl a_6 3))) 2097151 in
  dlet a10 := Z.land (Z.lor (Z.shiftr a_6 18) (u32 (Z.shiftl a_7 14))) 2097151 in
  dlet a11 := Z.shiftr a_7 7 in
  dlet b0 := Z.land b_0 2097151 in
  dlet b1 := Z.land (Z.lor (Z.shiftr b_0 21) (u32 (Z.shiftl b_1 11))) 2097151 in
  dlet b2 := Z.land (Z.shiftr b_1 10) 2097151 in
  dlet b3 := Z.land (Z.lor (Z.shiftr b_1 31) (u32 (Z.shiftl b_2 1))) 2097151 in
  dlet b4 := Z.land (Z.lor (Z.shiftr b_2 20) (u32 (Z.shiftl b_3 12))) 2097151 in
  dlet b5 := Z.land (Z.shiftr b_3 9) 2097151 in
  dlet b6 := Z.land (Z.lor (Z.shiftr b_3 30) (u32 (Z.shiftl b_4 2))) 2097151 in
  dlet b7 := Z.land (Z.lor (Z.shiftr b_4 19) (u32 (Z.shiftl b_5 13))) 2097151 in
  dlet b8 := Z.land (Z.shiftr b_5 8) 2097151 in
  dlet b9 := Z.land (Z.lor (Z.shiftr b_5 29) (u32 (Z.shiftl b_6 3))) 2097151 in
  dlet b10 := Z.land (Z.lor (Z.shiftr b_6 18) (u32 (Z.shiftl b_7 14))) 2097151 in
  dlet b11 := Z.shiftr b_7 7 in
  dlet c0 := Z.land c_0 2097151 in
  dlet c1 := Z.land (Z.lor (Z.shiftr c_0 21) (u32 (Z.shiftl c_1 11))) 2097151 in
  dlet c2 := Z.land (Z.shiftr c_1 10) 2097151 in
  dlet c3 := Z.land (Z.lor (Z.shiftr c_1 31) (u32 (Z.shiftl c_2 1))) 2097151 in
  dlet c4 := Z.land (Z.lor (Z.shiftr c_2 20) (u32 (Z.shiftl c_3 12))) 2097151 in
  dlet c5 := Z.land (Z.shiftr c_3 9) 2097151 in
  dlet c6 := Z.land (Z.lor (Z.shiftr c_3 30) (u32 (Z.shiftl c_4 2))) 2097151 in
  dlet c7 := Z.land (Z.lor (Z.shiftr c_4 19) (u32 (Z.shiftl c_5 13))) 2097151 in
  dlet c8 := Z.land (Z.shiftr c_5 8) 2097151 in
  dlet c9 := Z.land (Z.lor (Z.shiftr c_5 29) (u32 (Z.shiftl c_6 3))) 2097151 in
  dlet c10 := Z.land (Z.lor (Z.shiftr c_6 18) (u32 (Z.shiftl c_7 14))) 2097151 in
  dlet c11 := Z.shiftr c_7 7 in
  dlet arg0 := i64 (c0 + (i64 (a0 * b0))) in
  dlet arg1 := i64 ((i64 (c1 + (i64 (a0 * b1)))) + (i64 (a1 * b0))) in
  dlet arg2 := i64 ((i64 ((i64 (c2 + (i64 (a0 * b2)))) + (i64 (a1 * b1)))) + (i64 (a2 * b0))) in
  dlet arg3 := i64 ((i64 ((i64 ((i64 (c3 + (i64 (a0 * b3)))) + (i64 (a1 * b2)))) + (i64 (a2 * b1)))) + (i64 (a3 * b0))) in
  dlet arg4 := i64 ((i64 ((i64 ((i64 ((i64 (c4 + (i64 (a0 * b4)))) + (i64 (a1 * b3)))) + (i64 (a2 * b2)))) + (i64 (a3 * b1)))) + (i64 (a4 * b0))) in
  dlet arg5 := i64 ((i64 ((i64 ((i64 ((i64 ((i64 (c5 + (i64 (a0 * b5)))) + (i64 (a1 * b4)))) + (i64 (a2 * b3)))) + (i64 (a3 * b2)))) + (i64 (a4 * b1)))) + (i64 (a5 * b0))) in
  dlet arg6 := i64 ((i64 ((i64 ((i64 ((i64 ((i64 ((i64 (c6 + (i64 (a0 * b6)))) + (i64 (a1 * b5)))) + (i64 (a2 * b4)))) + (i64 (a3 * b3)))) + (i64 (a4 * b2)))) + (i64 (a5 * b1)))) + (i64 (a6 * b0))) in
  dlet arg7 := i64 ((i64 ((i64 ((i64 ((i64 ((i64 ((i64 ((i64 (c7 + (i64 (a0 * b7)))) + (i64 (a1 * b6)))) + (i64 (a2 * b5)))) + (i64 (a3 * b4)))) + (i64 (a4 * b3)))) + (i64 (a5 * b2)))) + (i64 (a6 * b1)))) + (i64 (a7 * b0))) in
  dlet arg8 := i64 ((i64 ((i64 ((i64 ((i64 ((i64 ((i64 ((i64 ((i64 (c8 + (i64 (a0 * b8)))) + (i64 (a1 * b7)))) + (i64 (a2 * b6)))) + (i64 (a3 * b5)))) + (i64 (a4 * b4)))) + (i64 (a5 * b3)))) + (i64 (a6 * b2)))) + (i64 (a7 * b1)))) + (i64 (a8 * b0))) in
  dlet arg9 := i64 ((i64 ((i64 ((i64 ((i64 ((i64 ((i64 ((i64 ((i64 ((i64 (c9 + (i64 (a0 * b9)))) + (i64 (a1 * b8)))) + (i64 (a2 * b7)))) + (i64 (a3 * b6)))) + (i64 (a4 * b5)))) + (i64 (a5 * b4)))) + (i64 (a6 * b3)))) + (i64 (a7 * b2)))) + (i64 (a8 * b1)))) + (i64 (a9 * b0))) in
  dlet arg10 := i64 ((i64 ((i64 ((i64 ((i64 ((i64 ((i64 ((i64 ((i64 ((i64 ((i64 (c10 + (i64 (a0 * b10)))) + (i64 (a1 * b9)))) + (i64 (a2 * b8)))) + (i64 (a3 * b7)))) + (i64 (a4 * b6)))) + (i64 (a5 * b5)))) + (i64 (a6 * b4)))) + (i64 (a7 * b3)))) + (i64 (a8 * b2)))) + (i64 (a9 * b1)))) + (i64 (a10 * b0))) in
  dlet arg11 := i64 ((i64 ((i64 ((i64 ((i64 ((i64 ((i64 ((i64 ((i64 ((i64 ((i64 ((i64 (c11 + (i64 (a0 * b11)))) + (i64 (a1 * b10)))) + (i64 (a2 * b9)))) + (i64 (a3 * b8)))) + (i64 (a4 * b7)))) + (i64 (a5 * b6)))) + (i64 (a6 * b5)))) + (i64 (a7 * b4)))) + (i64 (a8 * b3)))) + (i64 (a9 * b2)))) + (i64 (a10 * b1)))) + (i64 (a11 * b0))) in
  dlet arg12 := i64 ((i64 ((i64 ((i64 ((i64 ((i64 ((i64 ((i64 ((i64 ((i64 ((i64 (a1 * b11)) + (i64 (a2 * b10)))) + (i64 (a3 * b9)))) + (i64 (a4 * b8)))) + (i64 (a5 * b7)))) + (i64 (a6 * b6)))) + (i64 (a7 * b5)))) + (i64 (a8 * b4)))) + (i64 (a9 * b3)))) + (i64 (a10 * b2)))) + (i64 (a11 * b1))) in
  dlet arg13 := i64 ((i64 ((i64 ((i64 ((i64 ((i64 ((i64 ((i64 ((i64 ((i64 (a2 * b11)) + (i64 (a3 * b10)))) + (i64 (a4 * b9)))) + (i64 (a5 * b8)))) + (i64 (a6 * b7)))) + (i64 (a7 * b6)))) + (i64 (a8 * b5)))) + (i64 (a9 * b4)))) + (i64 (a10 * b3)))) + (i64 (a11 * b2))) in
  dlet arg14 := i64 ((i64 ((i64 ((i64 ((i64 ((i64 ((i64 ((i64 ((i64 (a3 * b11)) + (i64 (a4 * b10)))) + (i64 (a5 * b9)))) + (i64 (a6 * b8)))) + (i64 (a7 * b7)))) + (i64 (a8 * b6)))) + (i64 (a9 * b5)))) + (i64 (a10 * b4)))) + (i64 (a11 * b3))) in
  dlet arg15 := i64 ((i64 ((i64 ((i64 ((i64 ((i64 ((i64 ((i64 (a4 * b11)) + (i64 (a5 * b10)))) + (i64 (a6 * b9)))) + (i64 (a7 * b8)))) + (i64 (a8 * b7)))) + (i64 (a9 * b6)))) + (i64 (a10 * b5)))) + (i64 (a11 * b4))) in
  dlet arg16 := i64 ((i64 ((i64 ((i64 ((i64 ((i64 ((i64 (a5 * b11)) + (i64 (a6 * b10)))) + (i64 (a7 * b9)))) + (i64 (a8 * b8)))) + (i64 (a9 * b7)))) + (i64 (a10 * b6)))) + (i64 (a11 * b5))) in
  dlet arg17 := i64 ((i64 ((i64 ((i64 ((i64 ((i64 (a6 * b11)) + (i64 (a7 * b10)))) + (i64 (a8 * b9)))) + (i64 (a9 * b8)))) + (i64 (a10 * b7)))) + (i64 (a11 * b6))) in
  dlet arg18 := i64 ((i64 ((i64 ((i64 ((i64 (a7 * b11)) + (i64 (a8 * b10)))) + (i64 (a9 * b9)))) + (i64 (a10 * b8)))) + (i64 (a11 * b7))) in
  dlet arg19 := i64 ((i64 ((i64 ((i64 (a8 * b11)) + (i64 (a9 * b10)))) + (i64 (a10 * b9)))) + (i64 (a11 * b8))) in
  dlet arg20 := i64 ((i64 ((i64 (a9 * b11)) + (i64 (a10 * b10)))) + (i64 (a11 * b9))) in
  dlet arg21 := i64 ((i64 (a10 * b11)) + (i64 (a11 * b10))) in
  dlet arg22 := i64 (a11 * b11) in
  sc_reduceAfterMul arg0 arg1 arg2 arg3 arg4 arg5 arg6 arg7 arg8 arg9 arg10 arg11 arg12 arg13 arg14 arg15 arg16 arg17 arg18 arg19 arg20 arg21 arg22 end end end.

(** [MulSub]: /repo/scalar.go:246-310 *)
Definition sc_mulSub (a : sc) (b : sc) (c : sc) : sc :=
  match a with Sc a_0 a_1 a_2 a_3 a_4 a_5 a_6 a_7 =>
  match b with Sc b_0 b_1 b_2 b_3 b_4 b_5 b_6 b_7 =>
  match c with Sc c_0 c_1 c_2 c_3 c_4 c_5 c_6 c_7 =>
  dlet a0 := Z.land a_0 2097151 in
  dlet a1 := Z.land (Z.lor (Z.shiftr a_0 21) (u32 (Z.shiftl a_1 11))) 2097151 in
  dlet a2 := Z.land (Z.shiftr a_1 10) 2097151 in
  dlet a3 := Z.land (Z.lor (Z.shiftr a_1 31) (u32 (Z.shiftl a_2 1))) 2097151 in
  dlet a4 := Z.land (Z.lor (Z.shiftr a_2 20) (u32 (Z.shiftl a_3 12))) 2097151 in
  dlet a5 := Z.land (Z.shiftr a_3 9) 2097151 in
  dlet a6 := Z.land (Z.lor (Z.shiftr a_3 30) (u32 (Z.shiftl a_4 2))) 2097151 in
  dlet a7 := Z.land (Z.lor (Z.shiftr a_4 19) (u32 (Z.shiftl a_5 13))) 2097151 in
  dlet a8 := Z.land (Z.shiftr a_5 8) 2097151 in
  dlet a9 := Z.land (Z.lor (Z.shiftr a_5 29) (u32 (Z.shiftl a_6 3))) 2097151 in
  dlet a10 := Z.land (Z.lor (Z.shiftr a_6 18) (u32 (Z.shiftl a_7 14))) 2097151 in
  dlet a11 := Z.shiftr a_7 7 in
  dlet b0 := Z.land b_0 2097151 in
  dlet b1 := Z.land (Z.lor (Z.shiftr b_0 21) (u32 (Z.shiftl b_1 11))) 2097151 in
  dlet b2 := Z.land (Z.shiftr b_1 10) 2097151 in
  dlet b3 := Z.land (Z.lor (Z.shiftr b_1 31) (u32 (Z.shiftl b_2 1))) 2097151 in
  dlet b4 := Z.land (Z.lor (Z.shiftr b_2 20) (u32 (Z.shiftl b_3 12))) 2097151 in
  dlet b5 := Z.land (Z.shiftr b_3 9) 2097151 in
  dlet b6 := Z.land (Z.lor (Z.shiftr b_3 30) (u32 (Z.shiftl b_4 2))) 2097151 in
  dlet b7 := Z.land (Z.lor (Z.shiftr b_4 19) (u32 (Z.shiftl b_5 13))) 2097151 in
  dlet b8 := Z.land (Z.shiftr b_5 8) 2097151 in
  dlet b9 := Z.land (Z.lor (Z.shiftr b_5 29) (u32 (Z.shiftl b_6 3))) 2097151 in
  dlet b10 := Z.land (Z.lor (Z.shiftr b_6 18) (u32 (Z.shiftl b_7 14))) 2097151 in
  dlet b11 := Z.shiftr b_7 7 in
  dlet c0 := Z.land c_0 2097151 in
  dlet c1 := Z.land (Z.lor (Z.shiftr c_0 21) (u32 (Z.shiftl c_1 11))) 2097151 in
  dlet c2 := Z.land (Z.shiftr c_1 10) 2097151 in
  dlet c3 := Z.land (Z.lor (Z.shiftr c_1 31) (u32 (Z.shiftl c_2 1))) 2097151 in
  dlet c4 := Z.land (Z.lor (Z.shiftr c_2 20) (u32 (Z.shiftl c_3 12))) 2097151 in
  dlet c5 := Z.land (Z.shiftr c_3 9) 2097151 in
  dlet c6 := Z.land (Z.lor (Z.shiftr c_3 30) (u32 (Z.shiftl c_4 2))) 2097151 in
  dlet c7 := Z.land (Z.lor (Z.shiftr c_4 19) (u32 (Z.shiftl c_5 13))) 2097151 in
  dlet c8 := Z.land (Z.shiftr c_5 8) 2097151 in
  dlet c9 := Z.land (Z.lor (Z.shiftr c_5 29) (u32 (Z.shiftl c_6 3))) 2097151 in
  dlet c10 := Z.land (Z.lor (Z.shiftr c_6 18) (u32 (Z.shiftl c_7 14))) 2097151 in
  dlet c11 := Z.shiftr c_7 7 in
  dlet arg0 := i64 ((i64 (- c0)) + (i64 (a0 * b0))) in
  dlet arg1 := i64 ((i64 ((i64 (- c1)) + (i64 (a0 * b1)))) + (i64 (a1 * b0))) in
  dlet arg2 := i64 ((i64 ((i64 ((i64 (- c2)) + (i64 (a0 * b2)))) + (i64 (a1 * b1)))) + (i64 (a2 * b0))) in
  dlet arg3 := i64 ((i64 ((i64 ((i64 ((i64 (- c3)) + (i64 (a0 * b3)))) + (i64 (a1 * b2)))) + (i64 (a2 * b1)))) + (i64 (a3 * b0))) in
  dlet arg4 := i64 ((i64 ((i64 ((i64 ((i64 ((i64 (- c4)) + (i64 (a0 * b4)))) + (i64 (a1 * b3)))) + (i64 (a2 * b2)))) + (i64 (a3 * b1)))) + (i64 (a4 * b0))) in
  dlet arg5 := i64 ((i64 ((i64 ((i64 ((i64 ((i64 ((i64 (- c5)) + (i64 (a0 * b5)))) + (i64 (a1 * b4)))) + (i64 (a2 * b3)))) + (i64 (a3 * b2)))) + (i64 (a4 * b1)))) + (i64 (a5 * b0))) in
  dlet arg6 := i64 ((i64 ((i64 ((i64 ((i64 ((i64 ((i64 ((i64 (- c6)) + (i64 (a0 * b6)))) + (i64 (a1 * b5)))) + (i64 (a2 * b4)))) + (i64 (a3 * b3)))) + (i64 (a4 * b2)))) + (i64 (a5 * b1)))) + (i64 (a6 * b0))) in
  dlet arg7 := i64 ((i64 ((i64 ((i64 ((i64 ((i64 ((i64 ((i64 ((i64 (- c7)) + (i64 (a0 * b7)))) + (i64 (a1 * b6)))) + (i64 (a2 * b5)))) + (i64 (a3 * b4)))) + (i64 (a4 * b3)))) + (i64 (a5 * b2)))) + (i64 (a6 * b1)))) + (i64 (a7 * b0))) in
  dlet arg8 := i64 ((i64 ((i64 ((i64 ((i64 ((i64 ((i64 ((i64 ((i64 ((i64 (- c8)) + (i64 (a0 * b8)))) + (i64 (a1 * b7)))) + (i64 (a2 * b6)))) + (i64 (a3 * b5)))) + (i64 (a4 * b4)))) + (i64 (a5 * b3)))) + (i64 (a6 * b2)))) + (i64 (a7 * b1)))) + (i64 (a8 * b0))) in
  dlet arg9 := i64 ((i64 ((i64 ((i64 ((i64 ((i64 ((i64 ((i64 ((i64 ((i64 ((i64 (- c9)) + (i64 (a0 * b9)))) + (i64 (a1 * b8)))) + (i64 (a2 * b7)))) + (i64 (a3 * b6)))) + (i64 (a4 * b5)))) + (i64 (a5 * b4)))) + (i64 (a6 * b3)))) + (i64 (a7 * b2)))) + (i64 (a8 * b1)))) + (i64 (a9 * b0))) in
  dlet arg10 := i64 ((i64 ((i64 ((i64 ((i64 ((i64 ((i64 ((i64 ((i64 ((i64 ((i64 ((i64 (- c10)) + (i64 (a0 * b10)))) + (i64 (a1 * b9)))) + (i64 (a2 * b8)))) + (i64 (a3 * b7)))) + (i64 (a4 * b6)))) + (i64 (a5 * b5)))) + (i64 (a6 * b4)))) + (i64 (a7 * b3)))) + (i64 (a8 * b2)))) + (i64 (a9 * b1)))) + (i64 (a10 * b0))) in
  dlet arg11 := i64 ((i64 ((i64 ((i64 ((i64 ((i64 ((i64 ((i64 ((i64 ((i64 ((i64 ((i64 ((i64 (- c11)) + (i64 (a0 * b11)))) + (i64 (a1 * b10)))) + (i64 (a2 * b9)))) + (i64 (a3 * b8)))) + (i64 (a4 * b7)))) + (i64 (a5 * b6)))) + (i64 (a6 * b5)))) + (i64 (a7 * b4)))) + (i64 (a8 * b3)))) + (i64 (a9 * b2)))) + (i64 (a10 * b1)))) + (i64 (a11 * b0))) in
  dlet arg12 := i64 ((i64 ((i64 ((i64 ((i64 ((i64 ((i64 ((i64 ((i64 ((i64 ((i64 (a1 * b11)) + (i64 (a2 * b10)))) + (i64 (a3 * b9)))) + (i64 (a4 * b8)))) + (i64 (a5 * b7)))) + (i64 (a6 * b6)))) + (i64 (a7 * b5)))) + (i64 (a8 * b4)))) + (i64 (a9 * b3)))) + (i64 (a10 * b2)))) + (i64 (a11 * b1))) in
  dlet arg13 := i64 ((i64 ((i64 ((i64 ((i64 ((i64 ((i64 ((i64 ((i64 ((i64 (a2 * b11)) + (i64 (a3 * b10)))) + (i64 (a4 * b9)))) + (i64 (a5 * b8)))) + (i64 (a6 * b7)))) + (i64 (a7 * b6)))) + (i64 (a8 * b5)))) + (i64 (a9 * b4)))) + (i64 (a10 * b3)))) + (i64 (a11 * b2))) in
  dlet arg14 := i64 ((i64 ((i64 ((i64 ((i64 ((i64 ((i64 ((i64 ((i64 (a3 * b11)) + (i64 (a4 * b10)))) + (i64 (a5 * b9)))) + (i64 (a6 * b8)))) + (i64 (a7 * b7)))) + (i64 (a8 * b6)))) + (i64 (a9 * b5)))) + (i64 (a10 * b4)))) + (i64 (a11 * b3))) in
  dlet arg15 := i64 ((i64 ((i64 ((i64 ((i64 ((i64 ((i64 ((i64 (a4 * b11)) + (i64 (a5 * b10)))) + (i64 (a6 * b9)))) + (i64 (a7 * b8)))) + (i64 (a8 * b7)))) + (i64 (a9 * b6)))) + (i64 (a10 * b5)))) + (i64 (a11 * b4))) in
  dlet arg16 := i64 ((i64 ((i64 ((i64 ((i64 ((i64 ((i64 (a5 * b11)) + (i64 (a6 * b10)))) + (i64 (a7 * b9)))) + (i64 (a8 * b8)))) + (i64 (a9 * b7)))) + (i64 (a10 * b6)))) + (i64 (a11 * b5))) in
  dlet arg17 := i64 ((i64 ((i64 ((i64 ((i64 ((i64 (a6 * b11)) + (i64 (a7 * b10)))) + (i64 (a8 * b9)))) + (i64 (a9 * b8)))) + (i64 (a10 * b7)))) + (i64 (a11 * b6))) in
  dlet arg18 := i64 ((i64 ((i64 ((i64 ((i64 (a7 * b11)) + (i64 (a8 * b10)))) + (i64 (a9 * b9)))) + (i64 (a10 * b8)))) + (i64 (a11 * b7))) in
  dlet arg19 := i64 ((i64 ((i64 ((i64 (a8 * b11)) + (i64 (a9 * b10)))) + (i64 (a10 * b9)))) + (i64 (a11 * b8))) in
  dlet arg20 := i64 ((i64 ((i64 (a9 * b11)) + (i64 (a10 * b10)))) + (i64 (a11 * b9))) in
  dlet arg21 := i64 ((i64 (a10 * b11)) + (i64 (a11 * b10))) in
  dlet arg22 := i64 (a11 * b11) in
  sc_reduceAfterMul arg0 arg1 arg2 arg3 arg4 arg5 arg6 arg7 arg8 arg9 arg10 arg11 arg12 arg13 arg14 arg15 arg16 arg17 arg18 arg19 arg20 arg21 arg22 end end end.

(** [Inverse]: /repo/scalar.go:807-1011; the final loop is [Nat.iter] *)
Definition sc_inverse (t : sc) : sc :=
  dlet t1 := sc_square t in
  dlet t2 := sc_mul t t1 in
  dlet t0 := sc_mul t1 t2 in
  dlet t1 := sc_square t0 in
  dlet t3 := sc_square t1 in
  dlet t1 := sc_mul t2 t3 in
  dlet t2 := sc_square t1 in
  dlet t3 := sc_mul t0 t2 in
  dlet t0 := sc_square t3 in
  dlet t2 := sc_mul t1 t0 in
  dlet t0 := sc_square t2 in
  dlet t1 := sc_mul t2 t0 in
  dlet t0 := sc_square t1 in
  dlet t1 := sc_mul t3 t0 in
  dlet t0 := sc_square t1 in
  dlet t3 := sc_square t0 in
  dlet t0 := sc_mul t1 t3 in
  dlet t3 := sc_mul t2 t0 in
  dlet t0 := sc_square t3 in
  dlet t2 := sc_mul t1 t0 in
  dlet t0 := sc_square t2 in
  dlet t1 := sc_mul t3 t0 in
  dlet t0 := sc_square t1 in
  dlet t3 := sc_mul t1 t0 in
  dlet t0 := sc_mul t2 t3 in
  dlet t2 := sc_mul t1 t0 in
  dlet t1 := sc_square t2 in
  dlet t3 := sc_square t1 in
  dlet t4 := sc_square t3 in
  dlet t3 := sc_mul t1 t4 in
  dlet t1 := sc_mul t0 t3 in
  dlet t0 := sc_mul t2 t1 in
  dlet t2 := sc_mul t1 t0 in
  dlet t1 := sc_square t2 in
  dlet t3 := sc_square t1 in
  dlet t1 := sc_mul t0 t3 in
  dlet t0 := sc_square t1 in
  dlet t3 := sc_square t0 in
  dlet t0 := sc_mul t1 t3 in
  dlet t3 := sc_mul t2 t0 in
  dlet t0 := sc_square t3 in
  dlet t2 := sc_mul t1 t0 in
  dlet t0 := sc_square t2 in
  dlet t1 := sc_square t0 in
  dlet t0 := sc_mul t2 t1 in
  dlet t1 := sc_mul t3 t0 in
  dlet t0 := sc_square t1 in
  dlet t3 := sc_square t0 in
  dlet t0 := sc_square t3 in
  dlet t3 := sc_square t0 in
  dlet t0 := sc_square t3 in
  dlet t3 := sc_square t0 in
  dlet t0 := sc_mul t1 t3 in
  dlet t3 := sc_mul t2 t0 in
  dlet t0 := sc_square t3 in
  dlet t2 := sc_mul t1 t0 in
  dlet t0 := sc_square t2 in
  dlet t1 := sc_mul t2 t0 in
  dlet t0 := sc_square t1 in
  dlet t4 := sc_mul t2 t0 in
  dlet t0 := sc_square t4 in
  dlet t4 := sc_square t0 in
  dlet t0 := sc_mul t1 t4 in
  dlet t1 := sc_mul t3 t0 in
  dlet t0 := sc_square t1 in
  dlet t3 := sc_mul t1 t0 in
  dlet t0 := sc_square t3 in
  dlet t4 := sc_square t0 in
  dlet t0 := sc_mul t3 t4 in
  dlet t3 := sc_mul t2 t0 in
  dlet t0 := sc_square t3 in
  dlet t2 := sc_square t0 in
  dlet t0 := sc_square t2 in
  dlet t2 := sc_mul t1 t0 in
  dlet t0 := sc_square t2 in
  dlet t1 := sc_mul t3 t0 in
  dlet t0 := sc_mul t2 t1 in
  dlet t2 := sc_mul t1 t0 in
  dlet t1 := sc_square t2 in
  dlet t3 := sc_square t1 in
  dlet t1 := sc_mul t0 t3 in
  dlet t0 := sc_square t1 in
  dlet t3 := sc_mul t2 t0 in
  dlet t0 := sc_mul t1 t3 in
  dlet t1 := sc_square t0 in
  dlet t2 := sc_square t1 in
  dlet t1 := sc_mul t0 t2 in
  dlet t2 := sc_mul t3 t1 in
  dlet t1 := sc_mul t0 t2 in
  dlet t0 := sc_mul t2 t1 in
  dlet t2 := sc_square t0 in
  dlet t3 := sc_mul t0 t2 in
  dlet t2 := sc_square t3 in
  dlet t3 := sc_mul t1 t2 in
  dlet t1 := sc_mul t0 t3 in
  dlet t0 := sc_square t1 in
  dlet t2 := sc_mul t1 t0 in
  dlet t0 := sc_square t2 in
  dlet t4 := sc_mul t2 t0 in
  dlet t0 := sc_square t4 in
  dlet t4 := sc_square t0 in
  dlet t5 := sc_square t4 in
  dlet t4 := sc_square t5 in
  dlet t5 := sc_square t4 in
  dlet t4 := sc_square t5 in
  dlet t5 := sc_mul t0 t4 in
  dlet t0 := sc_mul t2 t5 in
  dlet t2 := sc_mul t3 t0 in
  dlet t0 := sc_mul t1 t2 in
  dlet t1 := sc_square t0 in
  dlet t3 := sc_mul t0 t1 in
  dlet t1 := sc_square t3 in
  dlet t4 := sc_mul t0 t1 in
  dlet t1 := sc_square t4 in
  dlet t4 := sc_square t1 in
  dlet t1 := sc_square t4 in
  dlet t4 := sc_mul t3 t1 in
  dlet t1 := sc_mul t2 t4 in
  dlet t2 := sc_square t1 in
  dlet t3 := sc_square t2 in
  dlet t4 := sc_square t3 in
  dlet t3 := sc_mul t2 t4 in
  dlet t2 := sc_mul t1 t3 in
  dlet t3 := sc_mul t0 t2 in
  dlet t0 := sc_square t3 in
  dlet t2 := sc_square t0 in
  dlet t0 := sc_square t2 in
  dlet t2 := sc_mul t1 t0 in
  dlet t0 := sc_mul t3 t2 in
  dlet t1 := sc_square t0 in
  dlet t3 := sc_square t1 in
  dlet t4 := sc_mul t1 t3 in
  dlet t3 := sc_square t4 in
  dlet t4 := sc_square t3 in
  dlet t3 := sc_mul t1 t4 in
  dlet t1 := sc_mul t2 t3 in
  dlet t2 := sc_square t1 in
  dlet t3 := sc_square t2 in
  dlet t2 := sc_mul t0 t3 in
  dlet t0 := sc_square t2 in
  dlet t3 := sc_mul t1 t0 in
  dlet t0 := sc_square t3 in
  dlet t1 := sc_mul t2 t0 in
  dlet t0 := sc_mul t3 t1 in
  dlet t2 := sc_square t0 in
  dlet t3 := sc_square t2 in
  dlet t2 := sc_square t3 in
  dlet t3 := sc_square t2 in
  dlet t2 := sc_mul t1 t3 in
  dlet t1 := sc_mul t0 t2 in
  dlet t0 := sc_square t1 in
  dlet t3 := sc_square t0 in
  dlet t4 := sc_square t3 in
  dlet t3 := sc_mul t0 t4 in
  dlet t0 := sc_mul t1 t3 in
  dlet t3 := sc_mul t2 t0 in
  dlet t0 := sc_square t3 in
  dlet t2 := sc_square t0 in
  dlet t0 := sc_mul t1 t2 in
  dlet t1 := sc_square t0 in
  dlet t2 := sc_mul t3 t1 in
  dlet t1 := sc_mul t0 t2 in
  dlet t0 := sc_square t1 in
  dlet t3 := sc_mul t2 t0 in
  dlet t0 := sc_square t3 in
  dlet t2 := sc_square t0 in
  dlet t0 := sc_mul t1 t2 in
  dlet t1 := sc_mul t3 t0 in
  dlet t2 := sc_square t1 in
  dlet t3 := sc_mul t0 t2 in
  dlet t0 := sc_mul t1 t3 in
  dlet t1 := sc_square t0 in
  dlet t2 := sc_square t1 in
  dlet t4 := sc_square t2 in
  dlet t2 := sc_mul t1 t4 in
  dlet t4 := sc_square t2 in
  dlet t2 := sc_square t4 in
  dlet t4 := sc_square t2 in
  dlet t2 := sc_mul t1 t4 in
  dlet t1 := sc_mul t3 t2 in
  dlet t2 := sc_square t1 in
  dlet t3 := sc_square t2 in
  dlet t2 := sc_mul t1 t3 in
  dlet t3 := sc_square t2 in
  dlet t2 := sc_square t3 in
  dlet t3 := sc_mul t1 t2 in
  dlet t2 := sc_mul t0 t3 in
  dlet t0 := sc_square t2 in
  dlet t3 := sc_mul t2 t0 in
  dlet t0 := sc_square t3 in
  dlet t4 := sc_square t0 in
  dlet t0 := sc_mul t3 t4 in
  dlet t3 := sc_mul t1 t0 in
  dlet t0 := sc_square t3 in
  dlet t1 := sc_mul t3 t0 in
  dlet t0 := sc_mul t2 t1 in
  dlet t0 := Nat.iter 126 sc_square t0 in
  sc_mul t3 t0.

