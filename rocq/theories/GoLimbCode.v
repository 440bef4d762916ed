(** Generated by tools/go2imp.py from /repo/scalar.go, /repo/edwards25519/field_radix51.go,
    field_mul64.go and field_generic.go; do not edit.

    The limb functions as programs over memory cells holding machine words (GoLang.v).  The
    first parameter is the receiver; a parameter is the name of the variable a pointer points
    to, or of the variable holding an argument passed by value.  Variables of the package
    ([scL], [scZero]) are parameters too.  Calls are expanded; arguments passed by value are
    copied into locals first.  [h0] ... [h9] of [square] are its named results. *)
From Coq Require Import ZArith List String.
From Verif Require Import Words ScalarCode Fe25Code GoLang.
Import ListNotations.
Open Scope string_scope.
Open Scope Z_scope.
Local Notation C := (@GoLang.C Z).

(** [BytesInto]: /repo/scalar.go:34-68; locals from [n] on: none *)
Definition d_sc_bytes (s buf n : nat) : stmt Z := prog [
  Do "" (fun _ vs => match vs with [s_0] => u8 s_0 | _ => 0 end) (buf, C 0) [(s, C 0)];
  Do "" (fun _ vs => match vs with [s_0] => u8 (Z.shiftr s_0 8) | _ => 0 end) (buf, C 1) [(s, C 0)];
  Do "" (fun _ vs => match vs with [s_0] => u8 (Z.shiftr s_0 16) | _ => 0 end) (buf, C 2) [(s, C 0)];
  Do "" (fun _ vs => match vs with [s_0] => u8 (Z.shiftr s_0 24) | _ => 0 end) (buf, C 3) [(s, C 0)];
  Do "" (fun _ vs => match vs with [s_1] => u8 s_1 | _ => 0 end) (buf, C 4) [(s, C 1)];
  Do "" (fun _ vs => match vs with [s_1] => u8 (Z.shiftr s_1 8) | _ => 0 end) (buf, C 5) [(s, C 1)];
  Do "" (fun _ vs => match vs with [s_1] => u8 (Z.shiftr s_1 16) | _ => 0 end) (buf, C 6) [(s, C 1)];
  Do "" (fun _ vs => match vs with [s_1] => u8 (Z.shiftr s_1 24) | _ => 0 end) (buf, C 7) [(s, C 1)];
  Do "" (fun _ vs => match vs with [s_2] => u8 s_2 | _ => 0 end) (buf, C 8) [(s, C 2)];
  Do "" (fun _ vs => match vs with [s_2] => u8 (Z.shiftr s_2 8) | _ => 0 end) (buf, C 9) [(s, C 2)];
  Do "" (fun _ vs => match vs with [s_2] => u8 (Z.shiftr s_2 16) | _ => 0 end) (buf, C 10) [(s, C 2)];
  Do "" (fun _ vs => match vs with [s_2] => u8 (Z.shiftr s_2 24) | _ => 0 end) (buf, C 11) [(s, C 2)];
  Do "" (fun _ vs => match vs with [s_3] => u8 s_3 | _ => 0 end) (buf, C 12) [(s, C 3)];
  Do "" (fun _ vs => match vs with [s_3] => u8 (Z.shiftr s_3 8) | _ => 0 end) (buf, C 13) [(s, C 3)];
  Do "" (fun _ vs => match vs with [s_3] => u8 (Z.shiftr s_3 16) | _ => 0 end) (buf, C 14) [(s, C 3)];
  Do "" (fun _ vs => match vs with [s_3] => u8 (Z.shiftr s_3 24) | _ => 0 end) (buf, C 15) [(s, C 3)];
  Do "" (fun _ vs => match vs with [s_4] => u8 s_4 | _ => 0 end) (buf, C 16) [(s, C 4)];
  Do "" (fun _ vs => match vs with [s_4] => u8 (Z.shiftr s_4 8) | _ => 0 end) (buf, C 17) [(s, C 4)];
  Do "" (fun _ vs => match vs with [s_4] => u8 (Z.shiftr s_4 16) | _ => 0 end) (buf, C 18) [(s, C 4)];
  Do "" (fun _ vs => match vs with [s_4] => u8 (Z.shiftr s_4 24) | _ => 0 end) (buf, C 19) [(s, C 4)];
  Do "" (fun _ vs => match vs with [s_5] => u8 s_5 | _ => 0 end) (buf, C 20) [(s, C 5)];
  Do "" (fun _ vs => match vs with [s_5] => u8 (Z.shiftr s_5 8) | _ => 0 end) (buf, C 21) [(s, C 5)];
  Do "" (fun _ vs => match vs with [s_5] => u8 (Z.shiftr s_5 16) | _ => 0 end) (buf, C 22) [(s, C 5)];
  Do "" (fun _ vs => match vs with [s_5] => u8 (Z.shiftr s_5 24) | _ => 0 end) (buf, C 23) [(s, C 5)];
  Do "" (fun _ vs => match vs with [s_6] => u8 s_6 | _ => 0 end) (buf, C 24) [(s, C 6)];
  Do "" (fun _ vs => match vs with [s_6] => u8 (Z.shiftr s_6 8) | _ => 0 end) (buf, C 25) [(s, C 6)];
  Do "" (fun _ vs => match vs with [s_6] => u8 (Z.shiftr s_6 16) | _ => 0 end) (buf, C 26) [(s, C 6)];
  Do "" (fun _ vs => match vs with [s_6] => u8 (Z.shiftr s_6 24) | _ => 0 end) (buf, C 27) [(s, C 6)];
  Do "" (fun _ vs => match vs with [s_7] => u8 s_7 | _ => 0 end) (buf, C 28) [(s, C 7)];
  Do "" (fun _ vs => match vs with [s_7] => u8 (Z.shiftr s_7 8) | _ => 0 end) (buf, C 29) [(s, C 7)];
  Do "" (fun _ vs => match vs with [s_7] => u8 (Z.shiftr s_7 16) | _ => 0 end) (buf, C 30) [(s, C 7)];
  Do "" (fun _ vs => match vs with [s_7] => u8 (Z.shiftr s_7 24) | _ => 0 end) (buf, C 31) [(s, C 7)]].

(** [Sub]: /repo/scalar.go:143-190; locals from [n] on: borrow, s0, s1, s2, s3, s4, s5, s6, s7, ufMask, carry *)
Definition d_sc_sub (s a b n : nat) : stmt Z := prog [
  Do "" (fun _ vs => match vs with [a_0; b_0] => u64 (a_0 - b_0) | _ => 0 end) ((0 + n)%nat, C 0) [(a, C 0); (b, C 0)];
  Do "" (fun _ vs => match vs with [borrow] => u32 borrow | _ => 0 end) ((1 + n)%nat, C 0) [((0 + n)%nat, C 0)];
  Do "" (fun _ vs => match vs with [a_1; b_1; borrow] => u64 ((u64 (a_1 - b_1)) - (Z.shiftr borrow 63)) | _ => 0 end) ((0 + n)%nat, C 0) [(a, C 1); (b, C 1); ((0 + n)%nat, C 0)];
  Do "" (fun _ vs => match vs with [borrow] => u32 borrow | _ => 0 end) ((2 + n)%nat, C 0) [((0 + n)%nat, C 0)];
  Do "" (fun _ vs => match vs with [a_2; b_2; borrow] => u64 ((u64 (a_2 - b_2)) - (Z.shiftr borrow 63)) | _ => 0 end) ((0 + n)%nat, C 0) [(a, C 2); (b, C 2); ((0 + n)%nat, C 0)];
  Do "" (fun _ vs => match vs with [borrow] => u32 borrow | _ => 0 end) ((3 + n)%nat, C 0) [((0 + n)%nat, C 0)];
  Do "" (fun _ vs => match vs with [a_3; b_3; borrow] => u64 ((u64 (a_3 - b_3)) - (Z.shiftr borrow 63)) | _ => 0 end) ((0 + n)%nat, C 0) [(a, C 3); (b, C 3); ((0 + n)%nat, C 0)];
  Do "" (fun _ vs => match vs with [borrow] => u32 borrow | _ => 0 end) ((4 + n)%nat, C 0) [((0 + n)%nat, C 0)];
  Do "" (fun _ vs => match vs with [a_4; b_4; borrow] => u64 ((u64 (a_4 - b_4)) - (Z.shiftr borrow 63)) | _ => 0 end) ((0 + n)%nat, C 0) [(a, C 4); (b, C 4); ((0 + n)%nat, C 0)];
  Do "" (fun _ vs => match vs with [borrow] => u32 borrow | _ => 0 end) ((5 + n)%nat, C 0) [((0 + n)%nat, C 0)];
  Do "" (fun _ vs => match vs with [a_5; b_5; borrow] => u64 ((u64 (a_5 - b_5)) - (Z.shiftr borrow 63)) | _ => 0 end) ((0 + n)%nat, C 0) [(a, C 5); (b, C 5); ((0 + n)%nat, C 0)];
  Do "" (fun _ vs => match vs with [borrow] => u32 borrow | _ => 0 end) ((6 + n)%nat, C 0) [((0 + n)%nat, C 0)];
  Do "" (fun _ vs => match vs with [a_6; b_6; borrow] => u64 ((u64 (a_6 - b_6)) - (Z.shiftr borrow 63)) | _ => 0 end) ((0 + n)%nat, C 0) [(a, C 6); (b, C 6); ((0 + n)%nat, C 0)];
  Do "" (fun _ vs => match vs with [borrow] => u32 borrow | _ => 0 end) ((7 + n)%nat, C 0) [((0 + n)%nat, C 0)];
  Do "" (fun _ vs => match vs with [a_7; b_7; borrow] => u64 ((u64 (a_7 - b_7)) - (Z.shiftr borrow 63)) | _ => 0 end) ((0 + n)%nat, C 0) [(a, C 7); (b, C 7); ((0 + n)%nat, C 0)];
  Do "" (fun _ vs => match vs with [borrow] => u32 borrow | _ => 0 end) ((8 + n)%nat, C 0) [((0 + n)%nat, C 0)];
  Do "" (fun _ vs => match vs with [borrow] => u64 ((Z.lxor (Z.shiftr borrow 63) 1) - 1) | _ => 0 end) ((9 + n)%nat, C 0) [((0 + n)%nat, C 0)];
  Do "" (fun _ vs => match vs with [s0; ufMask] => u64 (s0 + (Z.land ufMask 1559614445)) | _ => 0 end) ((10 + n)%nat, C 0) [((1 + n)%nat, C 0); ((9 + n)%nat, C 0)];
  Do "" (fun _ vs => match vs with [carry] => u32 carry | _ => 0 end) ((1 + n)%nat, C 0) [((10 + n)%nat, C 0)];
  Do "" (fun _ vs => match vs with [s1; carry; ufMask] => u64 ((u64 (s1 + (Z.shiftr carry 32))) + (Z.land ufMask 1477600026)) | _ => 0 end) ((10 + n)%nat, C 0) [((2 + n)%nat, C 0); ((10 + n)%nat, C 0); ((9 + n)%nat, C 0)];
  Do "" (fun _ vs => match vs with [carry] => u32 carry | _ => 0 end) ((2 + n)%nat, C 0) [((10 + n)%nat, C 0)];
  Do "" (fun _ vs => match vs with [s2; carry; ufMask] => u64 ((u64 (s2 + (Z.shiftr carry 32))) + (Z.land ufMask 2734136534)) | _ => 0 end) ((10 + n)%nat, C 0) [((3 + n)%nat, C 0); ((10 + n)%nat, C 0); ((9 + n)%nat, C 0)];
  Do "" (fun _ vs => match vs with [carry] => u32 carry | _ => 0 end) ((3 + n)%nat, C 0) [((10 + n)%nat, C 0)];
  Do "" (fun _ vs => match vs with [s3; carry; ufMask] => u64 ((u64 (s3 + (Z.shiftr carry 32))) + (Z.land ufMask 350157278)) | _ => 0 end) ((10 + n)%nat, C 0) [((4 + n)%nat, C 0); ((10 + n)%nat, C 0); ((9 + n)%nat, C 0)];
  Do "" (fun _ vs => match vs with [carry] => u32 carry | _ => 0 end) ((4 + n)%nat, C 0) [((10 + n)%nat, C 0)];
  Do "" (fun _ vs => match vs with [s4; carry] => u64 (s4 + (Z.shiftr carry 32)) | _ => 0 end) ((10 + n)%nat, C 0) [((5 + n)%nat, C 0); ((10 + n)%nat, C 0)];
  Do "" (fun _ vs => match vs with [carry] => u32 carry | _ => 0 end) ((5 + n)%nat, C 0) [((10 + n)%nat, C 0)];
  Do "" (fun _ vs => match vs with [s5; carry] => u64 (s5 + (Z.shiftr carry 32)) | _ => 0 end) ((10 + n)%nat, C 0) [((6 + n)%nat, C 0); ((10 + n)%nat, C 0)];
  Do "" (fun _ vs => match vs with [carry] => u32 carry | _ => 0 end) ((6 + n)%nat, C 0) [((10 + n)%nat, C 0)];
  Do "" (fun _ vs => match vs with [s6; carry] => u64 (s6 + (Z.shiftr carry 32)) | _ => 0 end) ((10 + n)%nat, C 0) [((7 + n)%nat, C 0); ((10 + n)%nat, C 0)];
  Do "" (fun _ vs => match vs with [carry] => u32 carry | _ => 0 end) ((7 + n)%nat, C 0) [((10 + n)%nat, C 0)];
  Do "" (fun _ vs => match vs with [s7; carry; ufMask] => u64 ((u64 (s7 + (Z.shiftr carry 32))) + (Z.land ufMask 268435456)) | _ => 0 end) ((10 + n)%nat, C 0) [((8 + n)%nat, C 0); ((10 + n)%nat, C 0); ((9 + n)%nat, C 0)];
  Do "" (fun _ vs => match vs with [carry] => u32 carry | _ => 0 end) ((8 + n)%nat, C 0) [((10 + n)%nat, C 0)];
  Do "" (fun _ vs => match vs with [s0] => s0 | _ => 0 end) (s, C 0) [((1 + n)%nat, C 0)];
  Do "" (fun _ vs => match vs with [s1] => s1 | _ => 0 end) (s, C 1) [((2 + n)%nat, C 0)];
  Do "" (fun _ vs => match vs with [s2] => s2 | _ => 0 end) (s, C 2) [((3 + n)%nat, C 0)];
  Do "" (fun _ vs => match vs with [s3] => s3 | _ => 0 end) (s, C 3) [((4 + n)%nat, C 0)];
  Do "" (fun _ vs => match vs with [s4] => s4 | _ => 0 end) (s, C 4) [((5 + n)%nat, C 0)];
  Do "" (fun _ vs => match vs with [s5] => s5 | _ => 0 end) (s, C 5) [((6 + n)%nat, C 0)];
  Do "" (fun _ vs => match vs with [s6] => s6 | _ => 0 end) (s, C 6) [((7 + n)%nat, C 0)];
  Do "" (fun _ vs => match vs with [s7] => s7 | _ => 0 end) (s, C 7) [((8 + n)%nat, C 0)]].

(** [Add]: /repo/scalar.go:122-140; locals from [n] on: carry *)
Definition d_sc_add (s a b scL n : nat) : stmt Z := prog [
  Do "" (fun _ vs => match vs with [a_0; b_0] => u64 (a_0 + b_0) | _ => 0 end) ((0 + n)%nat, C 0) [(a, C 0); (b, C 0)];
  Do "" (fun _ vs => match vs with [carry] => u32 carry | _ => 0 end) (s, C 0) [((0 + n)%nat, C 0)];
  Do "" (fun _ vs => match vs with [a_1; b_1; carry] => u64 ((u64 (a_1 + b_1)) + (Z.shiftr carry 32)) | _ => 0 end) ((0 + n)%nat, C 0) [(a, C 1); (b, C 1); ((0 + n)%nat, C 0)];
  Do "" (fun _ vs => match vs with [carry] => u32 carry | _ => 0 end) (s, C 1) [((0 + n)%nat, C 0)];
  Do "" (fun _ vs => match vs with [a_2; b_2; carry] => u64 ((u64 (a_2 + b_2)) + (Z.shiftr carry 32)) | _ => 0 end) ((0 + n)%nat, C 0) [(a, C 2); (b, C 2); ((0 + n)%nat, C 0)];
  Do "" (fun _ vs => match vs with [carry] => u32 carry | _ => 0 end) (s, C 2) [((0 + n)%nat, C 0)];
  Do "" (fun _ vs => match vs with [a_3; b_3; carry] => u64 ((u64 (a_3 + b_3)) + (Z.shiftr carry 32)) | _ => 0 end) ((0 + n)%nat, C 0) [(a, C 3); (b, C 3); ((0 + n)%nat, C 0)];
  Do "" (fun _ vs => match vs with [carry] => u32 carry | _ => 0 end) (s, C 3) [((0 + n)%nat, C 0)];
  Do "" (fun _ vs => match vs with [a_4; b_4; carry] => u64 ((u64 (a_4 + b_4)) + (Z.shiftr carry 32)) | _ => 0 end) ((0 + n)%nat, C 0) [(a, C 4); (b, C 4); ((0 + n)%nat, C 0)];
  Do "" (fun _ vs => match vs with [carry] => u32 carry | _ => 0 end) (s, C 4) [((0 + n)%nat, C 0)];
  Do "" (fun _ vs => match vs with [a_5; b_5; carry] => u64 ((u64 (a_5 + b_5)) + (Z.shiftr carry 32)) | _ => 0 end) ((0 + n)%nat, C 0) [(a, C 5); (b, C 5); ((0 + n)%nat, C 0)];
  Do "" (fun _ vs => match vs with [carry] => u32 carry | _ => 0 end) (s, C 5) [((0 + n)%nat, C 0)];
  Do "" (fun _ vs => match vs with [a_6; b_6; carry] => u64 ((u64 (a_6 + b_6)) + (Z.shiftr carry 32)) | _ => 0 end) ((0 + n)%nat, C 0) [(a, C 6); (b, C 6); ((0 + n)%nat, C 0)];
  Do "" (fun _ vs => match vs with [carry] => u32 carry | _ => 0 end) (s, C 6) [((0 + n)%nat, C 0)];
  Do "" (fun _ vs => match vs with [a_7; b_7; carry] => u64 ((u64 (a_7 + b_7)) + (Z.shiftr carry 32)) | _ => 0 end) ((0 + n)%nat, C 0) [(a, C 7); (b, C 7); ((0 + n)%nat, C 0)];
  Do "" (fun _ vs => match vs with [carry] => u32 carry | _ => 0 end) (s, C 7) [((0 + n)%nat, C 0)];
  d_sc_sub s s scL (1 + n)%nat].

(** [SetBytes]: /repo/scalar.go:79-89; locals from [n] on: none *)
Definition d_sc_setBytes (s x scL n : nat) : stmt Z := prog [
  Do "" (fun _ vs => match vs with [x_0; x_1; x_2; x_3] => load4u32 [x_0; x_1; x_2; x_3] | _ => 0 end) (s, C 0) [(x, C 0); (x, C 1); (x, C 2); (x, C 3)];
  Do "" (fun _ vs => match vs with [x_4; x_5; x_6; x_7] => load4u32 [x_4; x_5; x_6; x_7] | _ => 0 end) (s, C 1) [(x, C 4); (x, C 5); (x, C 6); (x, C 7)];
  Do "" (fun _ vs => match vs with [x_8; x_9; x_10; x_11] => load4u32 [x_8; x_9; x_10; x_11] | _ => 0 end) (s, C 2) [(x, C 8); (x, C 9); (x, C 10); (x, C 11)];
  Do "" (fun _ vs => match vs with [x_12; x_13; x_14; x_15] => load4u32 [x_12; x_13; x_14; x_15] | _ => 0 end) (s, C 3) [(x, C 12); (x, C 13); (x, C 14); (x, C 15)];
  Do "" (fun _ vs => match vs with [x_16; x_17; x_18; x_19] => load4u32 [x_16; x_17; x_18; x_19] | _ => 0 end) (s, C 4) [(x, C 16); (x, C 17); (x, C 18); (x, C 19)];
  Do "" (fun _ vs => match vs with [x_20; x_21; x_22; x_23] => load4u32 [x_20; x_21; x_22; x_23] | _ => 0 end) (s, C 5) [(x, C 20); (x, C 21); (x, C 22); (x, C 23)];
  Do "" (fun _ vs => match vs with [x_24; x_25; x_26; x_27] => load4u32 [x_24; x_25; x_26; x_27] | _ => 0 end) (s, C 6) [(x, C 24); (x, C 25); (x, C 26); (x, C 27)];
  Do "" (fun _ vs => match vs with [x_28; x_29; x_30; x_31] => Z.land (load4u32 [x_28; x_29; x_30; x_31]) 536870911 | _ => 0 end) (s, C 7) [(x, C 28); (x, C 29); (x, C 30); (x, C 31)];
  d_sc_sub s s scL (0 + n)%nat].

(** [SetReduced]: /repo/scalar.go:406-700; locals from [n] on: t0, t1, t2, t3, t4, t5, t6, t7, t8, t9, t10, t11, t12, t13, t14, t15, t16, t17, t18, t19, t20, t21, t22, t23, carry *)
Definition d_sc_setReduced (s t n : nat) : stmt Z := prog [
  Do "" (fun _ vs => match vs with [t_0; t_1; t_2] => Z.land (load3 [t_0; t_1; t_2]) 2097151 | _ => 0 end) ((0 + n)%nat, C 0) [(t, C 0); (t, C 1); (t, C 2)];
  Do "" (fun _ vs => match vs with [t_2; t_3; t_4; t_5] => Z.land (Z.shiftr (load4 [t_2; t_3; t_4; t_5]) 5) 2097151 | _ => 0 end) ((1 + n)%nat, C 0) [(t, C 2); (t, C 3); (t, C 4); (t, C 5)];
  Do "" (fun _ vs => match vs with [t_5; t_6; t_7] => Z.land (Z.shiftr (load3 [t_5; t_6; t_7]) 2) 2097151 | _ => 0 end) ((2 + n)%nat, C 0) [(t, C 5); (t, C 6); (t, C 7)];
  Do "" (fun _ vs => match vs with [t_7; t_8; t_9; t_10] => Z.land (Z.shiftr (load4 [t_7; t_8; t_9; t_10]) 7) 2097151 | _ => 0 end) ((3 + n)%nat, C 0) [(t, C 7); (t, C 8); (t, C 9); (t, C 10)];
  Do "" (fun _ vs => match vs with [t_10; t_11; t_12; t_13] => Z.land (Z.shiftr (load4 [t_10; t_11; t_12; t_13]) 4) 2097151 | _ => 0 end) ((4 + n)%nat, C 0) [(t, C 10); (t, C 11); (t, C 12); (t, C 13)];
  Do "" (fun _ vs => match vs with [t_13; t_14; t_15] => Z.land (Z.shiftr (load3 [t_13; t_14; t_15]) 1) 2097151 | _ => 0 end) ((5 + n)%nat, C 0) [(t, C 13); (t, C 14); (t, C 15)];
  Do "" (fun _ vs => match vs with [t_15; t_16; t_17; t_18] => Z.land (Z.shiftr (load4 [t_15; t_16; t_17; t_18]) 6) 2097151 | _ => 0 end) ((6 + n)%nat, C 0) [(t, C 15); (t, C 16); (t, C 17); (t, C 18)];
  Do "" (fun _ vs => match vs with [t_18; t_19; t_20] => Z.land (Z.shiftr (load3 [t_18; t_19; t_20]) 3) 2097151 | _ => 0 end) ((7 + n)%nat, C 0) [(t, C 18); (t, C 19); (t, C 20)];
  Do "" (fun _ vs => match vs with [t_21; t_22; t_23] => Z.land (load3 [t_21; t_22; t_23]) 2097151 | _ => 0 end) ((8 + n)%nat, C 0) [(t, C 21); (t, C 22); (t, C 23)];
  Do "" (fun _ vs => match vs with [t_23; t_24; t_25; t_26] => Z.land (Z.shiftr (load4 [t_23; t_24; t_25; t_26]) 5) 2097151 | _ => 0 end) ((9 + n)%nat, C 0) [(t, C 23); (t, C 24); (t, C 25); (t, C 26)];
  Do "" (fun _ vs => match vs with [t_26; t_27; t_28] => Z.land (Z.shiftr (load3 [t_26; t_27; t_28]) 2) 2097151 | _ => 0 end) ((10 + n)%nat, C 0) [(t, C 26); (t, C 27); (t, C 28)];
  Do "" (fun _ vs => match vs with [t_28; t_29; t_30; t_31] => Z.land (Z.shiftr (load4 [t_28; t_29; t_30; t_31]) 7) 2097151 | _ => 0 end) ((11 + n)%nat, C 0) [(t, C 28); (t, C 29); (t, C 30); (t, C 31)];
  Do "" (fun _ vs => match vs with [t_31; t_32; t_33; t_34] => Z.land (Z.shiftr (load4 [t_31; t_32; t_33; t_34]) 4) 2097151 | _ => 0 end) ((12 + n)%nat, C 0) [(t, C 31); (t, C 32); (t, C 33); (t, C 34)];
  Do "" (fun _ vs => match vs with [t_34; t_35; t_36] => Z.land (Z.shiftr (load3 [t_34; t_35; t_36]) 1) 2097151 | _ => 0 end) ((13 + n)%nat, C 0) [(t, C 34); (t, C 35); (t, C 36)];
  Do "" (fun _ vs => match vs with [t_36; t_37; t_38; t_39] => Z.land (Z.shiftr (load4 [t_36; t_37; t_38; t_39]) 6) 2097151 | _ => 0 end) ((14 + n)%nat, C 0) [(t, C 36); (t, C 37); (t, C 38); (t, C 39)];
  Do "" (fun _ vs => match vs with [t_39; t_40; t_41] => Z.land (Z.shiftr (load3 [t_39; t_40; t_41]) 3) 2097151 | _ => 0 end) ((15 + n)%nat, C 0) [(t, C 39); (t, C 40); (t, C 41)];
  Do "" (fun _ vs => match vs with [t_42; t_43; t_44] => Z.land (load3 [t_42; t_43; t_44]) 2097151 | _ => 0 end) ((16 + n)%nat, C 0) [(t, C 42); (t, C 43); (t, C 44)];
  Do "" (fun _ vs => match vs with [t_44; t_45; t_46; t_47] => Z.land (Z.shiftr (load4 [t_44; t_45; t_46; t_47]) 5) 2097151 | _ => 0 end) ((17 + n)%nat, C 0) [(t, C 44); (t, C 45); (t, C 46); (t, C 47)];
  Do "" (fun _ vs => match vs with [t_47; t_48; t_49] => Z.land (Z.shiftr (load3 [t_47; t_48; t_49]) 2) 2097151 | _ => 0 end) ((18 + n)%nat, C 0) [(t, C 47); (t, C 48); (t, C 49)];
  Do "" (fun _ vs => match vs with [t_49; t_50; t_51; t_52] => Z.land (Z.shiftr (load4 [t_49; t_50; t_51; t_52]) 7) 2097151 | _ => 0 end) ((19 + n)%nat, C 0) [(t, C 49); (t, C 50); (t, C 51); (t, C 52)];
  Do "" (fun _ vs => match vs with [t_52; t_53; t_54; t_55] => Z.land (Z.shiftr (load4 [t_52; t_53; t_54; t_55]) 4) 2097151 | _ => 0 end) ((20 + n)%nat, C 0) [(t, C 52); (t, C 53); (t, C 54); (t, C 55)];
  Do "" (fun _ vs => match vs with [t_55; t_56; t_57] => Z.land (Z.shiftr (load3 [t_55; t_56; t_57]) 1) 2097151 | _ => 0 end) ((21 + n)%nat, C 0) [(t, C 55); (t, C 56); (t, C 57)];
  Do "" (fun _ vs => match vs with [t_57; t_58; t_59; t_60] => Z.land (Z.shiftr (load4 [t_57; t_58; t_59; t_60]) 6) 2097151 | _ => 0 end) ((22 + n)%nat, C 0) [(t, C 57); (t, C 58); (t, C 59); (t, C 60)];
  Do "" (fun _ vs => match vs with [t_60; t_61; t_62; t_63] => Z.shiftr (load4 [t_60; t_61; t_62; t_63]) 3 | _ => 0 end) ((23 + n)%nat, C 0) [(t, C 60); (t, C 61); (t, C 62); (t, C 63)];
  Do "" (fun _ vs => match vs with [t11; t23] => i64 (t11 + (i64 (t23 * 666643))) | _ => 0 end) ((11 + n)%nat, C 0) [((11 + n)%nat, C 0); ((23 + n)%nat, C 0)];
  Do "" (fun _ vs => match vs with [t12; t23] => i64 (t12 + (i64 (t23 * 470296))) | _ => 0 end) ((12 + n)%nat, C 0) [((12 + n)%nat, C 0); ((23 + n)%nat, C 0)];
  Do "" (fun _ vs => match vs with [t13; t23] => i64 (t13 + (i64 (t23 * 654183))) | _ => 0 end) ((13 + n)%nat, C 0) [((13 + n)%nat, C 0); ((23 + n)%nat, C 0)];
  Do "" (fun _ vs => match vs with [t14; t23] => i64 (t14 - (i64 (t23 * 997805))) | _ => 0 end) ((14 + n)%nat, C 0) [((14 + n)%nat, C 0); ((23 + n)%nat, C 0)];
  Do "" (fun _ vs => match vs with [t15; t23] => i64 (t15 + (i64 (t23 * 136657))) | _ => 0 end) ((15 + n)%nat, C 0) [((15 + n)%nat, C 0); ((23 + n)%nat, C 0)];
  Do "" (fun _ vs => match vs with [t16; t23] => i64 (t16 - (i64 (t23 * 683901))) | _ => 0 end) ((16 + n)%nat, C 0) [((16 + n)%nat, C 0); ((23 + n)%nat, C 0)];
  Do "" (fun _ _ => 0) ((23 + n)%nat, C 0) [];
  Do "" (fun _ vs => match vs with [t10; t22] => i64 (t10 + (i64 (t22 * 666643))) | _ => 0 end) ((10 + n)%nat, C 0) [((10 + n)%nat, C 0); ((22 + n)%nat, C 0)];
  Do "" (fun _ vs => match vs with [t11; t22] => i64 (t11 + (i64 (t22 * 470296))) | _ => 0 end) ((11 + n)%nat, C 0) [((11 + n)%nat, C 0); ((22 + n)%nat, C 0)];
  Do "" (fun _ vs => match vs with [t12; t22] => i64 (t12 + (i64 (t22 * 654183))) | _ => 0 end) ((12 + n)%nat, C 0) [((12 + n)%nat, C 0); ((22 + n)%nat, C 0)];
  Do "" (fun _ vs => match vs with [t13; t22] => i64 (t13 - (i64 (t22 * 997805))) | _ => 0 end) ((13 + n)%nat, C 0) [((13 + n)%nat, C 0); ((22 + n)%nat, C 0)];
  Do "" (fun _ vs => match vs with [t14; t22] => i64 (t14 + (i64 (t22 * 136657))) | _ => 0 end) ((14 + n)%nat, C 0) [((14 + n)%nat, C 0); ((22 + n)%nat, C 0)];
  Do "" (fun _ vs => match vs with [t15; t22] => i64 (t15 - (i64 (t22 * 683901))) | _ => 0 end) ((15 + n)%nat, C 0) [((15 + n)%nat, C 0); ((22 + n)%nat, C 0)];
  Do "" (fun _ _ => 0) ((22 + n)%nat, C 0) [];
  Do "" (fun _ vs => match vs with [t9; t21] => i64 (t9 + (i64 (t21 * 666643))) | _ => 0 end) ((9 + n)%nat, C 0) [((9 + n)%nat, C 0); ((21 + n)%nat, C 0)];
  Do "" (fun _ vs => match vs with [t10; t21] => i64 (t10 + (i64 (t21 * 470296))) | _ => 0 end) ((10 + n)%nat, C 0) [((10 + n)%nat, C 0); ((21 + n)%nat, C 0)];
  Do "" (fun _ vs => match vs with [t11; t21] => i64 (t11 + (i64 (t21 * 654183))) | _ => 0 end) ((11 + n)%nat, C 0) [((11 + n)%nat, C 0); ((21 + n)%nat, C 0)];
  Do "" (fun _ vs => match vs with [t12; t21] => i64 (t12 - (i64 (t21 * 997805))) | _ => 0 end) ((12 + n)%nat, C 0) [((12 + n)%nat, C 0); ((21 + n)%nat, C 0)];
  Do "" (fun _ vs => match vs with [t13; t21] => i64 (t13 + (i64 (t21 * 136657))) | _ => 0 end) ((13 + n)%nat, C 0) [((13 + n)%nat, C 0); ((21 + n)%nat, C 0)];
  Do "" (fun _ vs => match vs with [t14; t21] => i64 (t14 - (i64 (t21 * 683901))) | _ => 0 end) ((14 + n)%nat, C 0) [((14 + n)%nat, C 0); ((21 + n)%nat, C 0)];
  Do "" (fun _ _ => 0) ((21 + n)%nat, C 0) [];
  Do "" (fun _ vs => match vs with [t8; t20] => i64 (t8 + (i64 (t20 * 666643))) | _ => 0 end) ((8 + n)%nat, C 0) [((8 + n)%nat, C 0); ((20 + n)%nat, C 0)];
  Do "" (fun _ vs => match vs with [t9; t20] => i64 (t9 + (i64 (t20 * 470296))) | _ => 0 end) ((9 + n)%nat, C 0) [((9 + n)%nat, C 0); ((20 + n)%nat, C 0)];
  Do "" (fun _ vs => match vs with [t10; t20] => i64 (t10 + (i64 (t20 * 654183))) | _ => 0 end) ((10 + n)%nat, C 0) [((10 + n)%nat, C 0); ((20 + n)%nat, C 0)];
  Do "" (fun _ vs => match vs with [t11; t20] => i64 (t11 - (i64 (t20 * 997805))) | _ => 0 end) ((11 + n)%nat, C 0) [((11 + n)%nat, C 0); ((20 + n)%nat, C 0)];
  Do "" (fun _ vs => match vs with [t12; t20] => i64 (t12 + (i64 (t20 * 136657))) | _ => 0 end) ((12 + n)%nat, C 0) [((12 + n)%nat, C 0); ((20 + n)%nat, C 0)];
  Do "" (fun _ vs => match vs with [t13; t20] => i64 (t13 - (i64 (t20 * 683901))) | _ => 0 end) ((13 + n)%nat, C 0) [((13 + n)%nat, C 0); ((20 + n)%nat, C 0)];
  Do "" (fun _ _ => 0) ((20 + n)%nat, C 0) [];
  Do "" (fun _ vs => match vs with [t7; t19] => i64 (t7 + (i64 (t19 * 666643))) | _ => 0 end) ((7 + n)%nat, C 0) [((7 + n)%nat, C 0); ((19 + n)%nat, C 0)];
  Do "" (fun _ vs => match vs with [t8; t19] => i64 (t8 + (i64 (t19 * 470296))) | _ => 0 end) ((8 + n)%nat, C 0) [((8 + n)%nat, C 0); ((19 + n)%nat, C 0)];
  Do "" (fun _ vs => match vs with [t9; t19] => i64 (t9 + (i64 (t19 * 654183))) | _ => 0 end) ((9 + n)%nat, C 0) [((9 + n)%nat, C 0); ((19 + n)%nat, C 0)];
  Do "" (fun _ vs => match vs with [t10; t19] => i64 (t10 - (i64 (t19 * 997805))) | _ => 0 end) ((10 + n)%nat, C 0) [((10 + n)%nat, C 0); ((19 + n)%nat, C 0)];
  Do "" (fun _ vs => match vs with [t11; t19] => i64 (t11 + (i64 (t19 * 136657))) | _ => 0 end) ((11 + n)%nat, C 0) [((11 + n)%nat, C 0); ((19 + n)%nat, C 0)];
  Do "" (fun _ vs => match vs with [t12; t19] => i64 (t12 - (i64 (t19 * 683901))) | _ => 0 end) ((12 + n)%nat, C 0) [((12 + n)%nat, C 0); ((19 + n)%nat, C 0)];
  Do "" (fun _ _ => 0) ((19 + n)%nat, C 0) [];
  Do "" (fun _ vs => match vs with [t6; t18] => i64 (t6 + (i64 (t18 * 666643))) | _ => 0 end) ((6 + n)%nat, C 0) [((6 + n)%nat, C 0); ((18 + n)%nat, C 0)];
  Do "" (fun _ vs => match vs with [t7; t18] => i64 (t7 + (i64 (t18 * 470296))) | _ => 0 end) ((7 + n)%nat, C 0) [((7 + n)%nat, C 0); ((18 + n)%nat, C 0)];
  Do "" (fun _ vs => match vs with [t8; t18] => i64 (t8 + (i64 (t18 * 654183))) | _ => 0 end) ((8 + n)%nat, C 0) [((8 + n)%nat, C 0); ((18 + n)%nat, C 0)];
  Do "" (fun _ vs => match vs with [t9; t18] => i64 (t9 - (i64 (t18 * 997805))) | _ => 0 end) ((9 + n)%nat, C 0) [((9 + n)%nat, C 0); ((18 + n)%nat, C 0)];
  Do "" (fun _ vs => match vs with [t10; t18] => i64 (t10 + (i64 (t18 * 136657))) | _ => 0 end) ((10 + n)%nat, C 0) [((10 + n)%nat, C 0); ((18 + n)%nat, C 0)];
  Do "" (fun _ vs => match vs with [t11; t18] => i64 (t11 - (i64 (t18 * 683901))) | _ => 0 end) ((11 + n)%nat, C 0) [((11 + n)%nat, C 0); ((18 + n)%nat, C 0)];
  Do "" (fun _ _ => 0) ((18 + n)%nat, C 0) [];
  Do "" (fun _ vs => match vs with [t6] => Z.shiftr (i64 (t6 + 1048576)) 21 | _ => 0 end) ((24 + n)%nat, C 6) [((6 + n)%nat, C 0)];
  Do "" (fun _ vs => match vs with [t7; carry_6] => i64 (t7 + carry_6) | _ => 0 end) ((7 + n)%nat, C 0) [((7 + n)%nat, C 0); ((24 + n)%nat, C 6)];
  Do "" (fun _ vs => match vs with [t6; carry_6] => i64 (t6 - (i64 (Z.shiftl carry_6 21))) | _ => 0 end) ((6 + n)%nat, C 0) [((6 + n)%nat, C 0); ((24 + n)%nat, C 6)];
  Do "" (fun _ vs => match vs with [t8] => Z.shiftr (i64 (t8 + 1048576)) 21 | _ => 0 end) ((24 + n)%nat, C 8) [((8 + n)%nat, C 0)];
  Do "" (fun _ vs => match vs with [t9; carry_8] => i64 (t9 + carry_8) | _ => 0 end) ((9 + n)%nat, C 0) [((9 + n)%nat, C 0); ((24 + n)%nat, C 8)];
  Do "" (fun _ vs => match vs with [t8; carry_8] => i64 (t8 - (i64 (Z.shiftl carry_8 21))) | _ => 0 end) ((8 + n)%nat, C 0) [((8 + n)%nat, C 0); ((24 + n)%nat, C 8)];
  Do "" (fun _ vs => match vs with [t10] => Z.shiftr (i64 (t10 + 1048576)) 21 | _ => 0 end) ((24 + n)%nat, C 10) [((10 + n)%nat, C 0)];
  Do "" (fun _ vs => match vs with [t11; carry_10] => i64 (t11 + carry_10) | _ => 0 end) ((11 + n)%nat, C 0) [((11 + n)%nat, C 0); ((24 + n)%nat, C 10)];
  Do "" (fun _ vs => match vs with [t10; carry_10] => i64 (t10 - (i64 (Z.shiftl carry_10 21))) | _ => 0 end) ((10 + n)%nat, C 0) [((10 + n)%nat, C 0); ((24 + n)%nat, C 10)];
  Do "" (fun _ vs => match vs with [t12] => Z.shiftr (i64 (t12 + 1048576)) 21 | _ => 0 end) ((24 + n)%nat, C 12) [((12 + n)%nat, C 0)];
  Do "" (fun _ vs => match vs with [t13; carry_12] => i64 (t13 + carry_12) | _ => 0 end) ((13 + n)%nat, C 0) [((13 + n)%nat, C 0); ((24 + n)%nat, C 12)];
  Do "" (fun _ vs => match vs with [t12; carry_12] => i64 (t12 - (i64 (Z.shiftl carry_12 21))) | _ => 0 end) ((12 + n)%nat, C 0) [((12 + n)%nat, C 0); ((24 + n)%nat, C 12)];
  Do "" (fun _ vs => match vs with [t14] => Z.shiftr (i64 (t14 + 1048576)) 21 | _ => 0 end) ((24 + n)%nat, C 14) [((14 + n)%nat, C 0)];
  Do "" (fun _ vs => match vs with [t15; carry_14] => i64 (t15 + carry_14) | _ => 0 end) ((15 + n)%nat, C 0) [((15 + n)%nat, C 0); ((24 + n)%nat, C 14)];
  Do "" (fun _ vs => match vs with [t14; carry_14] => i64 (t14 - (i64 (Z.shiftl carry_14 21))) | _ => 0 end) ((14 + n)%nat, C 0) [((14 + n)%nat, C 0); ((24 + n)%nat, C 14)];
  Do "" (fun _ vs => match vs with [t16] => Z.shiftr (i64 (t16 + 1048576)) 21 | _ => 0 end) ((24 + n)%nat, C 16) [((16 + n)%nat, C 0)];
  Do "" (fun _ vs => match vs with [t17; carry_16] => i64 (t17 + carry_16) | _ => 0 end) ((17 + n)%nat, C 0) [((17 + n)%nat, C 0); ((24 + n)%nat, C 16)];
  Do "" (fun _ vs => match vs with [t16; carry_16] => i64 (t16 - (i64 (Z.shiftl carry_16 21))) | _ => 0 end) ((16 + n)%nat, C 0) [((16 + n)%nat, C 0); ((24 + n)%nat, C 16)];
  Do "" (fun _ vs => match vs with [t7] => Z.shiftr (i64 (t7 + 1048576)) 21 | _ => 0 end) ((24 + n)%nat, C 7) [((7 + n)%nat, C 0)];
  Do "" (fun _ vs => match vs with [t8; carry_7] => i64 (t8 + carry_7) | _ => 0 end) ((8 + n)%nat, C 0) [((8 + n)%nat, C 0); ((24 + n)%nat, C 7)];
  Do "" (fun _ vs => match vs with [t7; carry_7] => i64 (t7 - (i64 (Z.shiftl carry_7 21))) | _ => 0 end) ((7 + n)%nat, C 0) [((7 + n)%nat, C 0); ((24 + n)%nat, C 7)];
  Do "" (fun _ vs => match vs with [t9] => Z.shiftr (i64 (t9 + 1048576)) 21 | _ => 0 end) ((24 + n)%nat, C 9) [((9 + n)%nat, C 0)];
  Do "" (fun _ vs => match vs with [t10; carry_9] => i64 (t10 + carry_9) | _ => 0 end) ((10 + n)%nat, C 0) [((10 + n)%nat, C 0); ((24 + n)%nat, C 9)];
  Do "" (fun _ vs => match vs with [t9; carry_9] => i64 (t9 - (i64 (Z.shiftl carry_9 21))) | _ => 0 end) ((9 + n)%nat, C 0) [((9 + n)%nat, C 0); ((24 + n)%nat, C 9)];
  Do "" (fun _ vs => match vs with [t11] => Z.shiftr (i64 (t11 + 1048576)) 21 | _ => 0 end) ((24 + n)%nat, C 11) [((11 + n)%nat, C 0)];
  Do "" (fun _ vs => match vs with [t12; carry_11] => i64 (t12 + carry_11) | _ => 0 end) ((12 + n)%nat, C 0) [((12 + n)%nat, C 0); ((24 + n)%nat, C 11)];
  Do "" (fun _ vs => match vs with [t11; carry_11] => i64 (t11 - (i64 (Z.shiftl carry_11 21))) | _ => 0 end) ((11 + n)%nat, C 0) [((11 + n)%nat, C 0); ((24 + n)%nat, C 11)];
  Do "" (fun _ vs => match vs with [t13] => Z.shiftr (i64 (t13 + 1048576)) 21 | _ => 0 end) ((24 + n)%nat, C 13) [((13 + n)%nat, C 0)];
  Do "" (fun _ vs => match vs with [t14; carry_13] => i64 (t14 + carry_13) | _ => 0 end) ((14 + n)%nat, C 0) [((14 + n)%nat, C 0); ((24 + n)%nat, C 13)];
  Do "" (fun _ vs => match vs with [t13; carry_13] => i64 (t13 - (i64 (Z.shiftl carry_13 21))) | _ => 0 end) ((13 + n)%nat, C 0) [((13 + n)%nat, C 0); ((24 + n)%nat, C 13)];
  Do "" (fun _ vs => match vs with [t15] => Z.shiftr (i64 (t15 + 1048576)) 21 | _ => 0 end) ((24 + n)%nat, C 15) [((15 + n)%nat, C 0)];
  Do "" (fun _ vs => match vs with [t16; carry_15] => i64 (t16 + carry_15) | _ => 0 end) ((16 + n)%nat, C 0) [((16 + n)%nat, C 0); ((24 + n)%nat, C 15)];
  Do "" (fun _ vs => match vs with [t15; carry_15] => i64 (t15 - (i64 (Z.shiftl carry_15 21))) | _ => 0 end) ((15 + n)%nat, C 0) [((15 + n)%nat, C 0); ((24 + n)%nat, C 15)];
  Do "" (fun _ vs => match vs with [t5; t17] => i64 (t5 + (i64 (t17 * 666643))) | _ => 0 end) ((5 + n)%nat, C 0) [((5 + n)%nat, C 0); ((17 + n)%nat, C 0)];
  Do "" (fun _ vs => match vs with [t6; t17] => i64 (t6 + (i64 (t17 * 470296))) | _ => 0 end) ((6 + n)%nat, C 0) [((6 + n)%nat, C 0); ((17 + n)%nat, C 0)];
  Do "" (fun _ vs => match vs with [t7; t17] => i64 (t7 + (i64 (t17 * 654183))) | _ => 0 end) ((7 + n)%nat, C 0) [((7 + n)%nat, C 0); ((17 + n)%nat, C 0)];
  Do "" (fun _ vs => match vs with [t8; t17] => i64 (t8 - (i64 (t17 * 997805))) | _ => 0 end) ((8 + n)%nat, C 0) [((8 + n)%nat, C 0); ((17 + n)%nat, C 0)];
  Do "" (fun _ vs => match vs with [t9; t17] => i64 (t9 + (i64 (t17 * 136657))) | _ => 0 end) ((9 + n)%nat, C 0) [((9 + n)%nat, C 0); ((17 + n)%nat, C 0)];
  Do "" (fun _ vs => match vs with [t10; t17] => i64 (t10 - (i64 (t17 * 683901))) | _ => 0 end) ((10 + n)%nat, C 0) [((10 + n)%nat, C 0); ((17 + n)%nat, C 0)];
  Do "" (fun _ _ => 0) ((17 + n)%nat, C 0) [];
  Do "" (fun _ vs => match vs with [t4; t16] => i64 (t4 + (i64 (t16 * 666643))) | _ => 0 end) ((4 + n)%nat, C 0) [((4 + n)%nat, C 0); ((16 + n)%nat, C 0)];
  Do "" (fun _ vs => match vs with [t5; t16] => i64 (t5 + (i64 (t16 * 470296))) | _ => 0 end) ((5 + n)%nat, C 0) [((5 + n)%nat, C 0); ((16 + n)%nat, C 0)];
  Do "" (fun _ vs => match vs with [t6; t16] => i64 (t6 + (i64 (t16 * 654183))) | _ => 0 end) ((6 + n)%nat, C 0) [((6 + n)%nat, C 0); ((16 + n)%nat, C 0)];
  Do "" (fun _ vs => match vs with [t7; t16] => i64 (t7 - (i64 (t16 * 997805))) | _ => 0 end) ((7 + n)%nat, C 0) [((7 + n)%nat, C 0); ((16 + n)%nat, C 0)];
  Do "" (fun _ vs => match vs with [t8; t16] => i64 (t8 + (i64 (t16 * 136657))) | _ => 0 end) ((8 + n)%nat, C 0) [((8 + n)%nat, C 0); ((16 + n)%nat, C 0)];
  Do "" (fun _ vs => match vs with [t9; t16] => i64 (t9 - (i64 (t16 * 683901))) | _ => 0 end) ((9 + n)%nat, C 0) [((9 + n)%nat, C 0); ((16 + n)%nat, C 0)];
  Do "" (fun _ _ => 0) ((16 + n)%nat, C 0) [];
  Do "" (fun _ vs => match vs with [t3; t15] => i64 (t3 + (i64 (t15 * 666643))) | _ => 0 end) ((3 + n)%nat, C 0) [((3 + n)%nat, C 0); ((15 + n)%nat, C 0)];
  Do "" (fun _ vs => match vs with [t4; t15] => i64 (t4 + (i64 (t15 * 470296))) | _ => 0 end) ((4 + n)%nat, C 0) [((4 + n)%nat, C 0); ((15 + n)%nat, C 0)];
  Do "" (fun _ vs => match vs with [t5; t15] => i64 (t5 + (i64 (t15 * 654183))) | _ => 0 end) ((5 + n)%nat, C 0) [((5 + n)%nat, C 0); ((15 + n)%nat, C 0)];
  Do "" (fun _ vs => match vs with [t6; t15] => i64 (t6 - (i64 (t15 * 997805))) | _ => 0 end) ((6 + n)%nat, C 0) [((6 + n)%nat, C 0); ((15 + n)%nat, C 0)];
  Do "" (fun _ vs => match vs with [t7; t15] => i64 (t7 + (i64 (t15 * 136657))) | _ => 0 end) ((7 + n)%nat, C 0) [((7 + n)%nat, C 0); ((15 + n)%nat, C 0)];
  Do "" (fun _ vs => match vs with [t8; t15] => i64 (t8 - (i64 (t15 * 683901))) | _ => 0 end) ((8 + n)%nat, C 0) [((8 + n)%nat, C 0); ((15 + n)%nat, C 0)];
  Do "" (fun _ _ => 0) ((15 + n)%nat, C 0) [];
  Do "" (fun _ vs => match vs with [t2; t14] => i64 (t2 + (i64 (t14 * 666643))) | _ => 0 end) ((2 + n)%nat, C 0) [((2 + n)%nat, C 0); ((14 + n)%nat, C 0)];
  Do "" (fun _ vs => match vs with [t3; t14] => i64 (t3 + (i64 (t14 * 470296))) | _ => 0 end) ((3 + n)%nat, C 0) [((3 + n)%nat, C 0); ((14 + n)%nat, C 0)];
  Do "" (fun _ vs => match vs with [t4; t14] => i64 (t4 + (i64 (t14 * 654183))) | _ => 0 end) ((4 + n)%nat, C 0) [((4 + n)%nat, C 0); ((14 + n)%nat, C 0)];
  Do "" (fun _ vs => match vs with [t5; t14] => i64 (t5 - (i64 (t14 * 997805))) | _ => 0 end) ((5 + n)%nat, C 0) [((5 + n)%nat, C 0); ((14 + n)%nat, C 0)];
  Do "" (fun _ vs => match vs with [t6; t14] => i64 (t6 + (i64 (t14 * 136657))) | _ => 0 end) ((6 + n)%nat, C 0) [((6 + n)%nat, C 0); ((14 + n)%nat, C 0)];
  Do "" (fun _ vs => match vs with [t7; t14] => i64 (t7 - (i64 (t14 * 683901))) | _ => 0 end) ((7 + n)%nat, C 0) [((7 + n)%nat, C 0); ((14 + n)%nat, C 0)];
  Do "" (fun _ _ => 0) ((14 + n)%nat, C 0) [];
  Do "" (fun _ vs => match vs with [t1; t13] => i64 (t1 + (i64 (t13 * 666643))) | _ => 0 end) ((1 + n)%nat, C 0) [((1 + n)%nat, C 0); ((13 + n)%nat, C 0)];
  Do "" (fun _ vs => match vs with [t2; t13] => i64 (t2 + (i64 (t13 * 470296))) | _ => 0 end) ((2 + n)%nat, C 0) [((2 + n)%nat, C 0); ((13 + n)%nat, C 0)];
  Do "" (fun _ vs => match vs with [t3; t13] => i64 (t3 + (i64 (t13 * 654183))) | _ => 0 end) ((3 + n)%nat, C 0) [((3 + n)%nat, C 0); ((13 + n)%nat, C 0)];
  Do "" (fun _ vs => match vs with [t4; t13] => i64 (t4 - (i64 (t13 * 997805))) | _ => 0 end) ((4 + n)%nat, C 0) [((4 + n)%nat, C 0); ((13 + n)%nat, C 0)];
  Do "" (fun _ vs => match vs with [t5; t13] => i64 (t5 + (i64 (t13 * 136657))) | _ => 0 end) ((5 + n)%nat, C 0) [((5 + n)%nat, C 0); ((13 + n)%nat, C 0)];
  Do "" (fun _ vs => match vs with [t6; t13] => i64 (t6 - (i64 (t13 * 683901))) | _ => 0 end) ((6 + n)%nat, C 0) [((6 + n)%nat, C 0); ((13 + n)%nat, C 0)];
  Do "" (fun _ _ => 0) ((13 + n)%nat, C 0) [];
  Do "" (fun _ vs => match vs with [t0; t12] => i64 (t0 + (i64 (t12 * 666643))) | _ => 0 end) ((0 + n)%nat, C 0) [((0 + n)%nat, C 0); ((12 + n)%nat, C 0)];
  Do "" (fun _ vs => match vs with [t1; t12] => i64 (t1 + (i64 (t12 * 470296))) | _ => 0 end) ((1 + n)%nat, C 0) [((1 + n)%nat, C 0); ((12 + n)%nat, C 0)];
  Do "" (fun _ vs => match vs with [t2; t12] => i64 (t2 + (i64 (t12 * 654183))) | _ => 0 end) ((2 + n)%nat, C 0) [((2 + n)%nat, C 0); ((12 + n)%nat, C 0)];
  Do "" (fun _ vs => match vs with [t3; t12] => i64 (t3 - (i64 (t12 * 997805))) | _ => 0 end) ((3 + n)%nat, C 0) [((3 + n)%nat, C 0); ((12 + n)%nat, C 0)];
  Do "" (fun _ vs => match vs with [t4; t12] => i64 (t4 + (i64 (t12 * 136657))) | _ => 0 end) ((4 + n)%nat, C 0) [((4 + n)%nat, C 0); ((12 + n)%nat, C 0)];
  Do "" (fun _ vs => match vs with [t5; t12] => i64 (t5 - (i64 (t12 * 683901))) | _ => 0 end) ((5 + n)%nat, C 0) [((5 + n)%nat, C 0); ((12 + n)%nat, C 0)];
  Do "" (fun _ _ => 0) ((12 + n)%nat, C 0) [];
  Do "" (fun _ vs => match vs with [t0] => Z.shiftr (i64 (t0 + 1048576)) 21 | _ => 0 end) ((24 + n)%nat, C 0) [((0 + n)%nat, C 0)];
  Do "" (fun _ vs => match vs with [t1; carry_0] => i64 (t1 + carry_0) | _ => 0 end) ((1 + n)%nat, C 0) [((1 + n)%nat, C 0); ((24 + n)%nat, C 0)];
  Do "" (fun _ vs => match vs with [t0; carry_0] => i64 (t0 - (i64 (Z.shiftl carry_0 21))) | _ => 0 end) ((0 + n)%nat, C 0) [((0 + n)%nat, C 0); ((24 + n)%nat, C 0)];
  Do "" (fun _ vs => match vs with [t2] => Z.shiftr (i64 (t2 + 1048576)) 21 | _ => 0 end) ((24 + n)%nat, C 2) [((2 + n)%nat, C 0)];
  Do "" (fun _ vs => match vs with [t3; carry_2] => i64 (t3 + carry_2) | _ => 0 end) ((3 + n)%nat, C 0) [((3 + n)%nat, C 0); ((24 + n)%nat, C 2)];
  Do "" (fun _ vs => match vs with [t2; carry_2] => i64 (t2 - (i64 (Z.shiftl carry_2 21))) | _ => 0 end) ((2 + n)%nat, C 0) [((2 + n)%nat, C 0); ((24 + n)%nat, C 2)];
  Do "" (fun _ vs => match vs with [t4] => Z.shiftr (i64 (t4 + 1048576)) 21 | _ => 0 end) ((24 + n)%nat, C 4) [((4 + n)%nat, C 0)];
  Do "" (fun _ vs => match vs with [t5; carry_4] => i64 (t5 + carry_4) | _ => 0 end) ((5 + n)%nat, C 0) [((5 + n)%nat, C 0); ((24 + n)%nat, C 4)];
  Do "" (fun _ vs => match vs with [t4; carry_4] => i64 (t4 - (i64 (Z.shiftl carry_4 21))) | _ => 0 end) ((4 + n)%nat, C 0) [((4 + n)%nat, C 0); ((24 + n)%nat, C 4)];
  Do "" (fun _ vs => match vs with [t6] => Z.shiftr (i64 (t6 + 1048576)) 21 | _ => 0 end) ((24 + n)%nat, C 6) [((6 + n)%nat, C 0)];
  Do "" (fun _ vs => match vs with [t7; carry_6] => i64 (t7 + carry_6) | _ => 0 end) ((7 + n)%nat, C 0) [((7 + n)%nat, C 0); ((24 + n)%nat, C 6)];
  Do "" (fun _ vs => match vs with [t6; carry_6] => i64 (t6 - (i64 (Z.shiftl carry_6 21))) | _ => 0 end) ((6 + n)%nat, C 0) [((6 + n)%nat, C 0); ((24 + n)%nat, C 6)];
  Do "" (fun _ vs => match vs with [t8] => Z.shiftr (i64 (t8 + 1048576)) 21 | _ => 0 end) ((24 + n)%nat, C 8) [((8 + n)%nat, C 0)];
  Do "" (fun _ vs => match vs with [t9; carry_8] => i64 (t9 + carry_8) | _ => 0 end) ((9 + n)%nat, C 0) [((9 + n)%nat, C 0); ((24 + n)%nat, C 8)];
  Do "" (fun _ vs => match vs with [t8; carry_8] => i64 (t8 - (i64 (Z.shiftl carry_8 21))) | _ => 0 end) ((8 + n)%nat, C 0) [((8 + n)%nat, C 0); ((24 + n)%nat, C 8)];
  Do "" (fun _ vs => match vs with [t10] => Z.shiftr (i64 (t10 + 1048576)) 21 | _ => 0 end) ((24 + n)%nat, C 10) [((10 + n)%nat, C 0)];
  Do "" (fun _ vs => match vs with [t11; carry_10] => i64 (t11 + carry_10) | _ => 0 end) ((11 + n)%nat, C 0) [((11 + n)%nat, C 0); ((24 + n)%nat, C 10)];
  Do "" (fun _ vs => match vs with [t10; carry_10] => i64 (t10 - (i64 (Z.shiftl carry_10 21))) | _ => 0 end) ((10 + n)%nat, C 0) [((10 + n)%nat, C 0); ((24 + n)%nat, C 10)];
  Do "" (fun _ vs => match vs with [t1] => Z.shiftr (i64 (t1 + 1048576)) 21 | _ => 0 end) ((24 + n)%nat, C 1) [((1 + n)%nat, C 0)];
  Do "" (fun _ vs => match vs with [t2; carry_1] => i64 (t2 + carry_1) | _ => 0 end) ((2 + n)%nat, C 0) [((2 + n)%nat, C 0); ((24 + n)%nat, C 1)];
  Do "" (fun _ vs => match vs with [t1; carry_1] => i64 (t1 - (i64 (Z.shiftl carry_1 21))) | _ => 0 end) ((1 + n)%nat, C 0) [((1 + n)%nat, C 0); ((24 + n)%nat, C 1)];
  Do "" (fun _ vs => match vs with [t3] => Z.shiftr (i64 (t3 + 1048576)) 21 | _ => 0 end) ((24 + n)%nat, C 3) [((3 + n)%nat, C 0)];
  Do "" (fun _ vs => match vs with [t4; carry_3] => i64 (t4 + carry_3) | _ => 0 end) ((4 + n)%nat, C 0) [((4 + n)%nat, C 0); ((24 + n)%nat, C 3)];
  Do "" (fun _ vs => match vs with [t3; carry_3] => i64 (t3 - (i64 (Z.shiftl carry_3 21))) | _ => 0 end) ((3 + n)%nat, C 0) [((3 + n)%nat, C 0); ((24 + n)%nat, C 3)];
  Do "" (fun _ vs => match vs with [t5] => Z.shiftr (i64 (t5 + 1048576)) 21 | _ => 0 end) ((24 + n)%nat, C 5) [((5 + n)%nat, C 0)];
  Do "" (fun _ vs => match vs with [t6; carry_5] => i64 (t6 + carry_5) | _ => 0 end) ((6 + n)%nat, C 0) [((6 + n)%nat, C 0); ((24 + n)%nat, C 5)];
  Do "" (fun _ vs => match vs with [t5; carry_5] => i64 (t5 - (i64 (Z.shiftl carry_5 21))) | _ => 0 end) ((5 + n)%nat, C 0) [((5 + n)%nat, C 0); ((24 + n)%nat, C 5)];
  Do "" (fun _ vs => match vs with [t7] => Z.shiftr (i64 (t7 + 1048576)) 21 | _ => 0 end) ((24 + n)%nat, C 7) [((7 + n)%nat, C 0)];
  Do "" (fun _ vs => match vs with [t8; carry_7] => i64 (t8 + carry_7) | _ => 0 end) ((8 + n)%nat, C 0) [((8 + n)%nat, C 0); ((24 + n)%nat, C 7)];
  Do "" (fun _ vs => match vs with [t7; carry_7] => i64 (t7 - (i64 (Z.shiftl carry_7 21))) | _ => 0 end) ((7 + n)%nat, C 0) [((7 + n)%nat, C 0); ((24 + n)%nat, C 7)];
  Do "" (fun _ vs => match vs with [t9] => Z.shiftr (i64 (t9 + 1048576)) 21 | _ => 0 end) ((24 + n)%nat, C 9) [((9 + n)%nat, C 0)];
  Do "" (fun _ vs => match vs with [t10; carry_9] => i64 (t10 + carry_9) | _ => 0 end) ((10 + n)%nat, C 0) [((10 + n)%nat, C 0); ((24 + n)%nat, C 9)];
  Do "" (fun _ vs => match vs with [t9; carry_9] => i64 (t9 - (i64 (Z.shiftl carry_9 21))) | _ => 0 end) ((9 + n)%nat, C 0) [((9 + n)%nat, C 0); ((24 + n)%nat, C 9)];
  Do "" (fun _ vs => match vs with [t11] => Z.shiftr (i64 (t11 + 1048576)) 21 | _ => 0 end) ((24 + n)%nat, C 11) [((11 + n)%nat, C 0)];
  Do "" (fun _ vs => match vs with [t12; carry_11] => i64 (t12 + carry_11) | _ => 0 end) ((12 + n)%nat, C 0) [((12 + n)%nat, C 0); ((24 + n)%nat, C 11)];
  Do "" (fun _ vs => match vs with [t11; carry_11] => i64 (t11 - (i64 (Z.shiftl carry_11 21))) | _ => 0 end) ((11 + n)%nat, C 0) [((11 + n)%nat, C 0); ((24 + n)%nat, C 11)];
  Do "" (fun _ vs => match vs with [t0; t12] => i64 (t0 + (i64 (t12 * 666643))) | _ => 0 end) ((0 + n)%nat, C 0) [((0 + n)%nat, C 0); ((12 + n)%nat, C 0)];
  Do "" (fun _ vs => match vs with [t1; t12] => i64 (t1 + (i64 (t12 * 470296))) | _ => 0 end) ((1 + n)%nat, C 0) [((1 + n)%nat, C 0); ((12 + n)%nat, C 0)];
  Do "" (fun _ vs => match vs with [t2; t12] => i64 (t2 + (i64 (t12 * 654183))) | _ => 0 end) ((2 + n)%nat, C 0) [((2 + n)%nat, C 0); ((12 + n)%nat, C 0)];
  Do "" (fun _ vs => match vs with [t3; t12] => i64 (t3 - (i64 (t12 * 997805))) | _ => 0 end) ((3 + n)%nat, C 0) [((3 + n)%nat, C 0); ((12 + n)%nat, C 0)];
  Do "" (fun _ vs => match vs with [t4; t12] => i64 (t4 + (i64 (t12 * 136657))) | _ => 0 end) ((4 + n)%nat, C 0) [((4 + n)%nat, C 0); ((12 + n)%nat, C 0)];
  Do "" (fun _ vs => match vs with [t5; t12] => i64 (t5 - (i64 (t12 * 683901))) | _ => 0 end) ((5 + n)%nat, C 0) [((5 + n)%nat, C 0); ((12 + n)%nat, C 0)];
  Do "" (fun _ _ => 0) ((12 + n)%nat, C 0) [];
  Do "" (fun _ vs => match vs with [t0] => Z.shiftr t0 21 | _ => 0 end) ((24 + n)%nat, C 0) [((0 + n)%nat, C 0)];
  Do "" (fun _ vs => match vs with [t1; carry_0] => i64 (t1 + carry_0) | _ => 0 end) ((1 + n)%nat, C 0) [((1 + n)%nat, C 0); ((24 + n)%nat, C 0)];
  Do "" (fun _ vs => match vs with [t0; carry_0] => i64 (t0 - (i64 (Z.shiftl carry_0 21))) | _ => 0 end) ((0 + n)%nat, C 0) [((0 + n)%nat, C 0); ((24 + n)%nat, C 0)];
  Do "" (fun _ vs => match vs with [t1] => Z.shiftr t1 21 | _ => 0 end) ((24 + n)%nat, C 1) [((1 + n)%nat, C 0)];
  Do "" (fun _ vs => match vs with [t2; carry_1] => i64 (t2 + carry_1) | _ => 0 end) ((2 + n)%nat, C 0) [((2 + n)%nat, C 0); ((24 + n)%nat, C 1)];
  Do "" (fun _ vs => match vs with [t1; carry_1] => i64 (t1 - (i64 (Z.shiftl carry_1 21))) | _ => 0 end) ((1 + n)%nat, C 0) [((1 + n)%nat, C 0); ((24 + n)%nat, C 1)];
  Do "" (fun _ vs => match vs with [t2] => Z.shiftr t2 21 | _ => 0 end) ((24 + n)%nat, C 2) [((2 + n)%nat, C 0)];
  Do "" (fun _ vs => match vs with [t3; carry_2] => i64 (t3 + carry_2) | _ => 0 end) ((3 + n)%nat, C 0) [((3 + n)%nat, C 0); ((24 + n)%nat, C 2)];
  Do "" (fun _ vs => match vs with [t2; carry_2] => i64 (t2 - (i64 (Z.shiftl carry_2 21))) | _ => 0 end) ((2 + n)%nat, C 0) [((2 + n)%nat, C 0); ((24 + n)%nat, C 2)];
  Do "" (fun _ vs => match vs with [t3] => Z.shiftr t3 21 | _ => 0 end) ((24 + n)%nat, C 3) [((3 + n)%nat, C 0)];
  Do "" (fun _ vs => match vs with [t4; carry_3] => i64 (t4 + carry_3) | _ => 0 end) ((4 + n)%nat, C 0) [((4 + n)%nat, C 0); ((24 + n)%nat, C 3)];
  Do "" (fun _ vs => match vs with [t3; carry_3] => i64 (t3 - (i64 (Z.shiftl carry_3 21))) | _ => 0 end) ((3 + n)%nat, C 0) [((3 + n)%nat, C 0); ((24 + n)%nat, C 3)];
  Do "" (fun _ vs => match vs with [t4] => Z.shiftr t4 21 | _ => 0 end) ((24 + n)%nat, C 4) [((4 + n)%nat, C 0)];
  Do "" (fun _ vs => match vs with [t5; carry_4] => i64 (t5 + carry_4) | _ => 0 end) ((5 + n)%nat, C 0) [((5 + n)%nat, C 0); ((24 + n)%nat, C 4)];
  Do "" (fun _ vs => match vs with [t4; carry_4] => i64 (t4 - (i64 (Z.shiftl carry_4 21))) | _ => 0 end) ((4 + n)%nat, C 0) [((4 + n)%nat, C 0); ((24 + n)%nat, C 4)];
  Do "" (fun _ vs => match vs with [t5] => Z.shiftr t5 21 | _ => 0 end) ((24 + n)%nat, C 5) [((5 + n)%nat, C 0)];
  Do "" (fun _ vs => match vs with [t6; carry_5] => i64 (t6 + carry_5) | _ => 0 end) ((6 + n)%nat, C 0) [((6 + n)%nat, C 0); ((24 + n)%nat, C 5)];
  Do "" (fun _ vs => match vs with [t5; carry_5] => i64 (t5 - (i64 (Z.shiftl carry_5 21))) | _ => 0 end) ((5 + n)%nat, C 0) [((5 + n)%nat, C 0); ((24 + n)%nat, C 5)];
  Do "" (fun _ vs => match vs with [t6] => Z.shiftr t6 21 | _ => 0 end) ((24 + n)%nat, C 6) [((6 + n)%nat, C 0)];
  Do "" (fun _ vs => match vs with [t7; carry_6] => i64 (t7 + carry_6) | _ => 0 end) ((7 + n)%nat, C 0) [((7 + n)%nat, C 0); ((24 + n)%nat, C 6)];
  Do "" (fun _ vs => match vs with [t6; carry_6] => i64 (t6 - (i64 (Z.shiftl carry_6 21))) | _ => 0 end) ((6 + n)%nat, C 0) [((6 + n)%nat, C 0); ((24 + n)%nat, C 6)];
  Do "" (fun _ vs => match vs with [t7] => Z.shiftr t7 21 | _ => 0 end) ((24 + n)%nat, C 7) [((7 + n)%nat, C 0)];
  Do "" (fun _ vs => match vs with [t8; carry_7] => i64 (t8 + carry_7) | _ => 0 end) ((8 + n)%nat, C 0) [((8 + n)%nat, C 0); ((24 + n)%nat, C 7)];
  Do "" (fun _ vs => match vs with [t7; carry_7] => i64 (t7 - (i64 (Z.shiftl carry_7 21))) | _ => 0 end) ((7 + n)%nat, C 0) [((7 + n)%nat, C 0); ((24 + n)%nat, C 7)];
  Do "" (fun _ vs => match vs with [t8] => Z.shiftr t8 21 | _ => 0 end) ((24 + n)%nat, C 8) [((8 + n)%nat, C 0)];
  Do "" (fun _ vs => match vs with [t9; carry_8] => i64 (t9 + carry_8) | _ => 0 end) ((9 + n)%nat, C 0) [((9 + n)%nat, C 0); ((24 + n)%nat, C 8)];
  Do "" (fun _ vs => match vs with [t8; carry_8] => i64 (t8 - (i64 (Z.shiftl carry_8 21))) | _ => 0 end) ((8 + n)%nat, C 0) [((8 + n)%nat, C 0); ((24 + n)%nat, C 8)];
  Do "" (fun _ vs => match vs with [t9] => Z.shiftr t9 21 | _ => 0 end) ((24 + n)%nat, C 9) [((9 + n)%nat, C 0)];
  Do "" (fun _ vs => match vs with [t10; carry_9] => i64 (t10 + carry_9) | _ => 0 end) ((10 + n)%nat, C 0) [((10 + n)%nat, C 0); ((24 + n)%nat, C 9)];
  Do "" (fun _ vs => match vs with [t9; carry_9] => i64 (t9 - (i64 (Z.shiftl carry_9 21))) | _ => 0 end) ((9 + n)%nat, C 0) [((9 + n)%nat, C 0); ((24 + n)%nat, C 9)];
  Do "" (fun _ vs => match vs with [t10] => Z.shiftr t10 21 | _ => 0 end) ((24 + n)%nat, C 10) [((10 + n)%nat, C 0)];
  Do "" (fun _ vs => match vs with [t11; carry_10] => i64 (t11 + carry_10) | _ => 0 end) ((11 + n)%nat, C 0) [((11 + n)%nat, C 0); ((24 + n)%nat, C 10)];
  Do "" (fun _ vs => match vs with [t10; carry_10] => i64 (t10 - (i64 (Z.shiftl carry_10 21))) | _ => 0 end) ((10 + n)%nat, C 0) [((10 + n)%nat, C 0); ((24 + n)%nat, C 10)];
  Do "" (fun _ vs => match vs with [t11] => Z.shiftr t11 21 | _ => 0 end) ((24 + n)%nat, C 11) [((11 + n)%nat, C 0)];
  Do "" (fun _ vs => match vs with [t12; carry_11] => i64 (t12 + carry_11) | _ => 0 end) ((12 + n)%nat, C 0) [((12 + n)%nat, C 0); ((24 + n)%nat, C 11)];
  Do "" (fun _ vs => match vs with [t11; carry_11] => i64 (t11 - (i64 (Z.shiftl carry_11 21))) | _ => 0 end) ((11 + n)%nat, C 0) [((11 + n)%nat, C 0); ((24 + n)%nat, C 11)];
  Do "" (fun _ vs => match vs with [t0; t12] => i64 (t0 + (i64 (t12 * 666643))) | _ => 0 end) ((0 + n)%nat, C 0) [((0 + n)%nat, C 0); ((12 + n)%nat, C 0)];
  Do "" (fun _ vs => match vs with [t1; t12] => i64 (t1 + (i64 (t12 * 470296))) | _ => 0 end) ((1 + n)%nat, C 0) [((1 + n)%nat, C 0); ((12 + n)%nat, C 0)];
  Do "" (fun _ vs => match vs with [t2; t12] => i64 (t2 + (i64 (t12 * 654183))) | _ => 0 end) ((2 + n)%nat, C 0) [((2 + n)%nat, C 0); ((12 + n)%nat, C 0)];
  Do "" (fun _ vs => match vs with [t3; t12] => i64 (t3 - (i64 (t12 * 997805))) | _ => 0 end) ((3 + n)%nat, C 0) [((3 + n)%nat, C 0); ((12 + n)%nat, C 0)];
  Do "" (fun _ vs => match vs with [t4; t12] => i64 (t4 + (i64 (t12 * 136657))) | _ => 0 end) ((4 + n)%nat, C 0) [((4 + n)%nat, C 0); ((12 + n)%nat, C 0)];
  Do "" (fun _ vs => match vs with [t5; t12] => i64 (t5 - (i64 (t12 * 683901))) | _ => 0 end) ((5 + n)%nat, C 0) [((5 + n)%nat, C 0); ((12 + n)%nat, C 0)];
  Do "" (fun _ _ => 0) ((12 + n)%nat, C 0) [];
  Do "" (fun _ vs => match vs with [t0] => Z.shiftr t0 21 | _ => 0 end) ((24 + n)%nat, C 0) [((0 + n)%nat, C 0)];
  Do "" (fun _ vs => match vs with [t1; carry_0] => i64 (t1 + carry_0) | _ => 0 end) ((1 + n)%nat, C 0) [((1 + n)%nat, C 0); ((24 + n)%nat, C 0)];
  Do "" (fun _ vs => match vs with [t0; carry_0] => i64 (t0 - (i64 (Z.shiftl carry_0 21))) | _ => 0 end) ((0 + n)%nat, C 0) [((0 + n)%nat, C 0); ((24 + n)%nat, C 0)];
  Do "" (fun _ vs => match vs with [t1] => Z.shiftr t1 21 | _ => 0 end) ((24 + n)%nat, C 1) [((1 + n)%nat, C 0)];
  Do "" (fun _ vs => match vs with [t2; carry_1] => i64 (t2 + carry_1) | _ => 0 end) ((2 + n)%nat, C 0) [((2 + n)%nat, C 0); ((24 + n)%nat, C 1)];
  Do "" (fun _ vs => match vs with [t1; carry_1] => i64 (t1 - (i64 (Z.shiftl carry_1 21))) | _ => 0 end) ((1 + n)%nat, C 0) [((1 + n)%nat, C 0); ((24 + n)%nat, C 1)];
  Do "" (fun _ vs => match vs with [t2] => Z.shiftr t2 21 | _ => 0 end) ((24 + n)%nat, C 2) [((2 + n)%nat, C 0)];
  Do "" (fun _ vs => match vs with [t3; carry_2] => i64 (t3 + carry_2) | _ => 0 end) ((3 + n)%nat, C 0) [((3 + n)%nat, C 0); ((24 + n)%nat, C 2)];
  Do "" (fun _ vs => match vs with [t2; carry_2] => i64 (t2 - (i64 (Z.shiftl carry_2 21))) | _ => 0 end) ((2 + n)%nat, C 0) [((2 + n)%nat, C 0); ((24 + n)%nat, C 2)];
  Do "" (fun _ vs => match vs with [t3] => Z.shiftr t3 21 | _ => 0 end) ((24 + n)%nat, C 3) [((3 + n)%nat, C 0)];
  Do "" (fun _ vs => match vs with [t4; carry_3] => i64 (t4 + carry_3) | _ => 0 end) ((4 + n)%nat, C 0) [((4 + n)%nat, C 0); ((24 + n)%nat, C 3)];
  Do "" (fun _ vs => match vs with [t3; carry_3] => i64 (t3 - (i64 (Z.shiftl carry_3 21))) | _ => 0 end) ((3 + n)%nat, C 0) [((3 + n)%nat, C 0); ((24 + n)%nat, C 3)];
  Do "" (fun _ vs => match vs with [t4] => Z.shiftr t4 21 | _ => 0 end) ((24 + n)%nat, C 4) [((4 + n)%nat, C 0)];
  Do "" (fun _ vs => match vs with [t5; carry_4] => i64 (t5 + carry_4) | _ => 0 end) ((5 + n)%nat, C 0) [((5 + n)%nat, C 0); ((24 + n)%nat, C 4)];
  Do "" (fun _ vs => match vs with [t4; carry_4] => i64 (t4 - (i64 (Z.shiftl carry_4 21))) | _ => 0 end) ((4 + n)%nat, C 0) [((4 + n)%nat, C 0); ((24 + n)%nat, C 4)];
  Do "" (fun _ vs => match vs with [t5] => Z.shiftr t5 21 | _ => 0 end) ((24 + n)%nat, C 5) [((5 + n)%nat, C 0)];
  Do "" (fun _ vs => match vs with [t6; carry_5] => i64 (t6 + carry_5) | _ => 0 end) ((6 + n)%nat, C 0) [((6 + n)%nat, C 0); ((24 + n)%nat, C 5)];
  Do "" (fun _ vs => match vs with [t5; carry_5] => i64 (t5 - (i64 (Z.shiftl carry_5 21))) | _ => 0 end) ((5 + n)%nat, C 0) [((5 + n)%nat, C 0); ((24 + n)%nat, C 5)];
  Do "" (fun _ vs => match vs with [t6] => Z.shiftr t6 21 | _ => 0 end) ((24 + n)%nat, C 6) [((6 + n)%nat, C 0)];
  Do "" (fun _ vs => match vs with [t7; carry_6] => i64 (t7 + carry_6) | _ => 0 end) ((7 + n)%nat, C 0) [((7 + n)%nat, C 0); ((24 + n)%nat, C 6)];
  Do "" (fun _ vs => match vs with [t6; carry_6] => i64 (t6 - (i64 (Z.shiftl carry_6 21))) | _ => 0 end) ((6 + n)%nat, C 0) [((6 + n)%nat, C 0); ((24 + n)%nat, C 6)];
  Do "" (fun _ vs => match vs with [t7] => Z.shiftr t7 21 | _ => 0 end) ((24 + n)%nat, C 7) [((7 + n)%nat, C 0)];
  Do "" (fun _ vs => match vs with [t8; carry_7] => i64 (t8 + carry_7) | _ => 0 end) ((8 + n)%nat, C 0) [((8 + n)%nat, C 0); ((24 + n)%nat, C 7)];
  Do "" (fun _ vs => match vs with [t7; carry_7] => i64 (t7 - (i64 (Z.shiftl carry_7 21))) | _ => 0 end) ((7 + n)%nat, C 0) [((7 + n)%nat, C 0); ((24 + n)%nat, C 7)];
  Do "" (fun _ vs => match vs with [t8] => Z.shiftr t8 21 | _ => 0 end) ((24 + n)%nat, C 8) [((8 + n)%nat, C 0)];
  Do "" (fun _ vs => match vs with [t9; carry_8] => i64 (t9 + carry_8) | _ => 0 end) ((9 + n)%nat, C 0) [((9 + n)%nat, C 0); ((24 + n)%nat, C 8)];
  Do "" (fun _ vs => match vs with [t8; carry_8] => i64 (t8 - (i64 (Z.shiftl carry_8 21))) | _ => 0 end) ((8 + n)%nat, C 0) [((8 + n)%nat, C 0); ((24 + n)%nat, C 8)];
  Do "" (fun _ vs => match vs with [t9] => Z.shiftr t9 21 | _ => 0 end) ((24 + n)%nat, C 9) [((9 + n)%nat, C 0)];
  Do "" (fun _ vs => match vs with [t10; carry_9] => i64 (t10 + carry_9) | _ => 0 end) ((10 + n)%nat, C 0) [((10 + n)%nat, C 0); ((24 + n)%nat, C 9)];
  Do "" (fun _ vs => match vs with [t9; carry_9] => i64 (t9 - (i64 (Z.shiftl carry_9 21))) | _ => 0 end) ((9 + n)%nat, C 0) [((9 + n)%nat, C 0); ((24 + n)%nat, C 9)];
  Do "" (fun _ vs => match vs with [t10] => Z.shiftr t10 21 | _ => 0 end) ((24 + n)%nat, C 10) [((10 + n)%nat, C 0)];
  Do "" (fun _ vs => match vs with [t11; carry_10] => i64 (t11 + carry_10) | _ => 0 end) ((11 + n)%nat, C 0) [((11 + n)%nat, C 0); ((24 + n)%nat, C 10)];
  Do "" (fun _ vs => match vs with [t10; carry_10] => i64 (t10 - (i64 (Z.shiftl carry_10 21))) | _ => 0 end) ((10 + n)%nat, C 0) [((10 + n)%nat, C 0); ((24 + n)%nat, C 10)];
  Do "" (fun _ vs => match vs with [t0; t1] => Z.lor (u32 t0) (u32 (i64 (Z.shiftl t1 21))) | _ => 0 end) (s, C 0) [((0 + n)%nat, C 0); ((1 + n)%nat, C 0)];
  Do "" (fun _ vs => match vs with [t1; t2; t3] => Z.lor (Z.lor (u32 (Z.shiftr t1 11)) (u32 (i64 (Z.shiftl t2 10)))) (u32 (i64 (Z.shiftl t3 31))) | _ => 0 end) (s, C 1) [((1 + n)%nat, C 0); ((2 + n)%nat, C 0); ((3 + n)%nat, C 0)];
  Do "" (fun _ vs => match vs with [t3; t4] => Z.lor (u32 (Z.shiftr t3 1)) (u32 (i64 (Z.shiftl t4 20))) | _ => 0 end) (s, C 2) [((3 + n)%nat, C 0); ((4 + n)%nat, C 0)];
  Do "" (fun _ vs => match vs with [t4; t5; t6] => Z.lor (Z.lor (u32 (Z.shiftr t4 12)) (u32 (i64 (Z.shiftl t5 9)))) (u32 (i64 (Z.shiftl t6 30))) | _ => 0 end) (s, C 3) [((4 + n)%nat, C 0); ((5 + n)%nat, C 0); ((6 + n)%nat, C 0)];
  Do "" (fun _ vs => match vs with [t6; t7] => Z.lor (u32 (Z.shiftr t6 2)) (u32 (i64 (Z.shiftl t7 19))) | _ => 0 end) (s, C 4) [((6 + n)%nat, C 0); ((7 + n)%nat, C 0)];
  Do "" (fun _ vs => match vs with [t7; t8; t9] => Z.lor (Z.lor (u32 (Z.shiftr t7 13)) (u32 (i64 (Z.shiftl t8 8)))) (u32 (i64 (Z.shiftl t9 29))) | _ => 0 end) (s, C 5) [((7 + n)%nat, C 0); ((8 + n)%nat, C 0); ((9 + n)%nat, C 0)];
  Do "" (fun _ vs => match vs with [t9; t10] => Z.lor (u32 (Z.shiftr t9 3)) (u32 (i64 (Z.shiftl t10 18))) | _ => 0 end) (s, C 6) [((9 + n)%nat, C 0); ((10 + n)%nat, C 0)];
  Do "" (fun _ vs => match vs with [t10; t11] => Z.lor (u32 (Z.shiftr t10 14)) (u32 (i64 (Z.shiftl t11 7))) | _ => 0 end) (s, C 7) [((10 + n)%nat, C 0); ((11 + n)%nat, C 0)]].

(** [reduceAfterMul]: /repo/scalar.go:1113-1455; locals from [n] on: s23, carry *)
Definition d_sc_reduceAfterMul (s s0 s1 s2 s3 s4 s5 s6 s7 s8 s9 s10 s11 s12 s13 s14 s15 s16 s17 s18 s19 s20 s21 s22 n : nat) : stmt Z := prog [
  Do "" (fun _ _ => 0) ((0 + n)%nat, C 0) [];
  Do "" (fun _ vs => match vs with [s0] => Z.shiftr (i64 (s0 + 1048576)) 21 | _ => 0 end) ((1 + n)%nat, C 0) [(s0, C 0)];
  Do "" (fun _ vs => match vs with [s1; carry_0] => i64 (s1 + carry_0) | _ => 0 end) (s1, C 0) [(s1, C 0); ((1 + n)%nat, C 0)];
  Do "" (fun _ vs => match vs with [s0; carry_0] => i64 (s0 - (i64 (Z.shiftl carry_0 21))) | _ => 0 end) (s0, C 0) [(s0, C 0); ((1 + n)%nat, C 0)];
  Do "" (fun _ vs => match vs with [s2] => Z.shiftr (i64 (s2 + 1048576)) 21 | _ => 0 end) ((1 + n)%nat, C 2) [(s2, C 0)];
  Do "" (fun _ vs => match vs with [s3; carry_2] => i64 (s3 + carry_2) | _ => 0 end) (s3, C 0) [(s3, C 0); ((1 + n)%nat, C 2)];
  Do "" (fun _ vs => match vs with [s2; carry_2] => i64 (s2 - (i64 (Z.shiftl carry_2 21))) | _ => 0 end) (s2, C 0) [(s2, C 0); ((1 + n)%nat, C 2)];
  Do "" (fun _ vs => match vs with [s4] => Z.shiftr (i64 (s4 + 1048576)) 21 | _ => 0 end) ((1 + n)%nat, C 4) [(s4, C 0)];
  Do "" (fun _ vs => match vs with [s5; carry_4] => i64 (s5 + carry_4) | _ => 0 end) (s5, C 0) [(s5, C 0); ((1 + n)%nat, C 4)];
  Do "" (fun _ vs => match vs with [s4; carry_4] => i64 (s4 - (i64 (Z.shiftl carry_4 21))) | _ => 0 end) (s4, C 0) [(s4, C 0); ((1 + n)%nat, C 4)];
  Do "" (fun _ vs => match vs with [s6] => Z.shiftr (i64 (s6 + 1048576)) 21 | _ => 0 end) ((1 + n)%nat, C 6) [(s6, C 0)];
  Do "" (fun _ vs => match vs with [s7; carry_6] => i64 (s7 + carry_6) | _ => 0 end) (s7, C 0) [(s7, C 0); ((1 + n)%nat, C 6)];
  Do "" (fun _ vs => match vs with [s6; carry_6] => i64 (s6 - (i64 (Z.shiftl carry_6 21))) | _ => 0 end) (s6, C 0) [(s6, C 0); ((1 + n)%nat, C 6)];
  Do "" (fun _ vs => match vs with [s8] => Z.shiftr (i64 (s8 + 1048576)) 21 | _ => 0 end) ((1 + n)%nat, C 8) [(s8, C 0)];
  Do "" (fun _ vs => match vs with [s9; carry_8] => i64 (s9 + carry_8) | _ => 0 end) (s9, C 0) [(s9, C 0); ((1 + n)%nat, C 8)];
  Do "" (fun _ vs => match vs with [s8; carry_8] => i64 (s8 - (i64 (Z.shiftl carry_8 21))) | _ => 0 end) (s8, C 0) [(s8, C 0); ((1 + n)%nat, C 8)];
  Do "" (fun _ vs => match vs with [s10] => Z.shiftr (i64 (s10 + 1048576)) 21 | _ => 0 end) ((1 + n)%nat, C 10) [(s10, C 0)];
  Do "" (fun _ vs => match vs with [s11; carry_10] => i64 (s11 + carry_10) | _ => 0 end) (s11, C 0) [(s11, C 0); ((1 + n)%nat, C 10)];
  Do "" (fun _ vs => match vs with [s10; carry_10] => i64 (s10 - (i64 (Z.shiftl carry_10 21))) | _ => 0 end) (s10, C 0) [(s10, C 0); ((1 + n)%nat, C 10)];
  Do "" (fun _ vs => match vs with [s12] => Z.shiftr (i64 (s12 + 1048576)) 21 | _ => 0 end) ((1 + n)%nat, C 12) [(s12, C 0)];
  Do "" (fun _ vs => match vs with [s13; carry_12] => i64 (s13 + carry_12) | _ => 0 end) (s13, C 0) [(s13, C 0); ((1 + n)%nat, C 12)];
  Do "" (fun _ vs => match vs with [s12; carry_12] => i64 (s12 - (i64 (Z.shiftl carry_12 21))) | _ => 0 end) (s12, C 0) [(s12, C 0); ((1 + n)%nat, C 12)];
  Do "" (fun _ vs => match vs with [s14] => Z.shiftr (i64 (s14 + 1048576)) 21 | _ => 0 end) ((1 + n)%nat, C 14) [(s14, C 0)];
  Do "" (fun _ vs => match vs with [s15; carry_14] => i64 (s15 + carry_14) | _ => 0 end) (s15, C 0) [(s15, C 0); ((1 + n)%nat, C 14)];
  Do "" (fun _ vs => match vs with [s14; carry_14] => i64 (s14 - (i64 (Z.shiftl carry_14 21))) | _ => 0 end) (s14, C 0) [(s14, C 0); ((1 + n)%nat, C 14)];
  Do "" (fun _ vs => match vs with [s16] => Z.shiftr (i64 (s16 + 1048576)) 21 | _ => 0 end) ((1 + n)%nat, C 16) [(s16, C 0)];
  Do "" (fun _ vs => match vs with [s17; carry_16] => i64 (s17 + carry_16) | _ => 0 end) (s17, C 0) [(s17, C 0); ((1 + n)%nat, C 16)];
  Do "" (fun _ vs => match vs with [s16; carry_16] => i64 (s16 - (i64 (Z.shiftl carry_16 21))) | _ => 0 end) (s16, C 0) [(s16, C 0); ((1 + n)%nat, C 16)];
  Do "" (fun _ vs => match vs with [s18] => Z.shiftr (i64 (s18 + 1048576)) 21 | _ => 0 end) ((1 + n)%nat, C 18) [(s18, C 0)];
  Do "" (fun _ vs => match vs with [s19; carry_18] => i64 (s19 + carry_18) | _ => 0 end) (s19, C 0) [(s19, C 0); ((1 + n)%nat, C 18)];
  Do "" (fun _ vs => match vs with [s18; carry_18] => i64 (s18 - (i64 (Z.shiftl carry_18 21))) | _ => 0 end) (s18, C 0) [(s18, C 0); ((1 + n)%nat, C 18)];
  Do "" (fun _ vs => match vs with [s20] => Z.shiftr (i64 (s20 + 1048576)) 21 | _ => 0 end) ((1 + n)%nat, C 20) [(s20, C 0)];
  Do "" (fun _ vs => match vs with [s21; carry_20] => i64 (s21 + carry_20) | _ => 0 end) (s21, C 0) [(s21, C 0); ((1 + n)%nat, C 20)];
  Do "" (fun _ vs => match vs with [s20; carry_20] => i64 (s20 - (i64 (Z.shiftl carry_20 21))) | _ => 0 end) (s20, C 0) [(s20, C 0); ((1 + n)%nat, C 20)];
  Do "" (fun _ vs => match vs with [s22] => Z.shiftr (i64 (s22 + 1048576)) 21 | _ => 0 end) ((1 + n)%nat, C 22) [(s22, C 0)];
  Do "" (fun _ vs => match vs with [s23; carry_22] => i64 (s23 + carry_22) | _ => 0 end) ((0 + n)%nat, C 0) [((0 + n)%nat, C 0); ((1 + n)%nat, C 22)];
  Do "" (fun _ vs => match vs with [s22; carry_22] => i64 (s22 - (i64 (Z.shiftl carry_22 21))) | _ => 0 end) (s22, C 0) [(s22, C 0); ((1 + n)%nat, C 22)];
  Do "" (fun _ vs => match vs with [s1] => Z.shiftr (i64 (s1 + 1048576)) 21 | _ => 0 end) ((1 + n)%nat, C 1) [(s1, C 0)];
  Do "" (fun _ vs => match vs with [s2; carry_1] => i64 (s2 + carry_1) | _ => 0 end) (s2, C 0) [(s2, C 0); ((1 + n)%nat, C 1)];
  Do "" (fun _ vs => match vs with [s1; carry_1] => i64 (s1 - (i64 (Z.shiftl carry_1 21))) | _ => 0 end) (s1, C 0) [(s1, C 0); ((1 + n)%nat, C 1)];
  Do "" (fun _ vs => match vs with [s3] => Z.shiftr (i64 (s3 + 1048576)) 21 | _ => 0 end) ((1 + n)%nat, C 3) [(s3, C 0)];
  Do "" (fun _ vs => match vs with [s4; carry_3] => i64 (s4 + carry_3) | _ => 0 end) (s4, C 0) [(s4, C 0); ((1 + n)%nat, C 3)];
  Do "" (fun _ vs => match vs with [s3; carry_3] => i64 (s3 - (i64 (Z.shiftl carry_3 21))) | _ => 0 end) (s3, C 0) [(s3, C 0); ((1 + n)%nat, C 3)];
  Do "" (fun _ vs => match vs with [s5] => Z.shiftr (i64 (s5 + 1048576)) 21 | _ => 0 end) ((1 + n)%nat, C 5) [(s5, C 0)];
  Do "" (fun _ vs => match vs with [s6; carry_5] => i64 (s6 + carry_5) | _ => 0 end) (s6, C 0) [(s6, C 0); ((1 + n)%nat, C 5)];
  Do "" (fun _ vs => match vs with [s5; carry_5] => i64 (s5 - (i64 (Z.shiftl carry_5 21))) | _ => 0 end) (s5, C 0) [(s5, C 0); ((1 + n)%nat, C 5)];
  Do "" (fun _ vs => match vs with [s7] => Z.shiftr (i64 (s7 + 1048576)) 21 | _ => 0 end) ((1 + n)%nat, C 7) [(s7, C 0)];
  Do "" (fun _ vs => match vs with [s8; carry_7] => i64 (s8 + carry_7) | _ => 0 end) (s8, C 0) [(s8, C 0); ((1 + n)%nat, C 7)];
  Do "" (fun _ vs => match vs with [s7; carry_7] => i64 (s7 - (i64 (Z.shiftl carry_7 21))) | _ => 0 end) (s7, C 0) [(s7, C 0); ((1 + n)%nat, C 7)];
  Do "" (fun _ vs => match vs with [s9] => Z.shiftr (i64 (s9 + 1048576)) 21 | _ => 0 end) ((1 + n)%nat, C 9) [(s9, C 0)];
  Do "" (fun _ vs => match vs with [s10; carry_9] => i64 (s10 + carry_9) | _ => 0 end) (s10, C 0) [(s10, C 0); ((1 + n)%nat, C 9)];
  Do "" (fun _ vs => match vs with [s9; carry_9] => i64 (s9 - (i64 (Z.shiftl carry_9 21))) | _ => 0 end) (s9, C 0) [(s9, C 0); ((1 + n)%nat, C 9)];
  Do "" (fun _ vs => match vs with [s11] => Z.shiftr (i64 (s11 + 1048576)) 21 | _ => 0 end) ((1 + n)%nat, C 11) [(s11, C 0)];
  Do "" (fun _ vs => match vs with [s12; carry_11] => i64 (s12 + carry_11) | _ => 0 end) (s12, C 0) [(s12, C 0); ((1 + n)%nat, C 11)];
  Do "" (fun _ vs => match vs with [s11; carry_11] => i64 (s11 - (i64 (Z.shiftl carry_11 21))) | _ => 0 end) (s11, C 0) [(s11, C 0); ((1 + n)%nat, C 11)];
  Do "" (fun _ vs => match vs with [s13] => Z.shiftr (i64 (s13 + 1048576)) 21 | _ => 0 end) ((1 + n)%nat, C 13) [(s13, C 0)];
  Do "" (fun _ vs => match vs with [s14; carry_13] => i64 (s14 + carry_13) | _ => 0 end) (s14, C 0) [(s14, C 0); ((1 + n)%nat, C 13)];
  Do "" (fun _ vs => match vs with [s13; carry_13] => i64 (s13 - (i64 (Z.shiftl carry_13 21))) | _ => 0 end) (s13, C 0) [(s13, C 0); ((1 + n)%nat, C 13)];
  Do "" (fun _ vs => match vs with [s15] => Z.shiftr (i64 (s15 + 1048576)) 21 | _ => 0 end) ((1 + n)%nat, C 15) [(s15, C 0)];
  Do "" (fun _ vs => match vs with [s16; carry_15] => i64 (s16 + carry_15) | _ => 0 end) (s16, C 0) [(s16, C 0); ((1 + n)%nat, C 15)];
  Do "" (fun _ vs => match vs with [s15; carry_15] => i64 (s15 - (i64 (Z.shiftl carry_15 21))) | _ => 0 end) (s15, C 0) [(s15, C 0); ((1 + n)%nat, C 15)];
  Do "" (fun _ vs => match vs with [s17] => Z.shiftr (i64 (s17 + 1048576)) 21 | _ => 0 end) ((1 + n)%nat, C 17) [(s17, C 0)];
  Do "" (fun _ vs => match vs with [s18; carry_17] => i64 (s18 + carry_17) | _ => 0 end) (s18, C 0) [(s18, C 0); ((1 + n)%nat, C 17)];
  Do "" (fun _ vs => match vs with [s17; carry_17] => i64 (s17 - (i64 (Z.shiftl carry_17 21))) | _ => 0 end) (s17, C 0) [(s17, C 0); ((1 + n)%nat, C 17)];
  Do "" (fun _ vs => match vs with [s19] => Z.shiftr (i64 (s19 + 1048576)) 21 | _ => 0 end) ((1 + n)%nat, C 19) [(s19, C 0)];
  Do "" (fun _ vs => match vs with [s20; carry_19] => i64 (s20 + carry_19) | _ => 0 end) (s20, C 0) [(s20, C 0); ((1 + n)%nat, C 19)];
  Do "" (fun _ vs => match vs with [s19; carry_19] => i64 (s19 - (i64 (Z.shiftl carry_19 21))) | _ => 0 end) (s19, C 0) [(s19, C 0); ((1 + n)%nat, C 19)];
  Do "" (fun _ vs => match vs with [s21] => Z.shiftr (i64 (s21 + 1048576)) 21 | _ => 0 end) ((1 + n)%nat, C 21) [(s21, C 0)];
  Do "" (fun _ vs => match vs with [s22; carry_21] => i64 (s22 + carry_21) | _ => 0 end) (s22, C 0) [(s22, C 0); ((1 + n)%nat, C 21)];
  Do "" (fun _ vs => match vs with [s21; carry_21] => i64 (s21 - (i64 (Z.shiftl carry_21 21))) | _ => 0 end) (s21, C 0) [(s21, C 0); ((1 + n)%nat, C 21)];
  Do "" (fun _ vs => match vs with [s11; s23] => i64 (s11 + (i64 (s23 * 666643))) | _ => 0 end) (s11, C 0) [(s11, C 0); ((0 + n)%nat, C 0)];
  Do "" (fun _ vs => match vs with [s12; s23] => i64 (s12 + (i64 (s23 * 470296))) | _ => 0 end) (s12, C 0) [(s12, C 0); ((0 + n)%nat, C 0)];
  Do "" (fun _ vs => match vs with [s13; s23] => i64 (s13 + (i64 (s23 * 654183))) | _ => 0 end) (s13, C 0) [(s13, C 0); ((0 + n)%nat, C 0)];
  Do "" (fun _ vs => match vs with [s14; s23] => i64 (s14 - (i64 (s23 * 997805))) | _ => 0 end) (s14, C 0) [(s14, C 0); ((0 + n)%nat, C 0)];
  Do "" (fun _ vs => match vs with [s15; s23] => i64 (s15 + (i64 (s23 * 136657))) | _ => 0 end) (s15, C 0) [(s15, C 0); ((0 + n)%nat, C 0)];
  Do "" (fun _ vs => match vs with [s16; s23] => i64 (s16 - (i64 (s23 * 683901))) | _ => 0 end) (s16, C 0) [(s16, C 0); ((0 + n)%nat, C 0)];
  Do "" (fun _ _ => 0) ((0 + n)%nat, C 0) [];
  Do "" (fun _ vs => match vs with [s10; s22] => i64 (s10 + (i64 (s22 * 666643))) | _ => 0 end) (s10, C 0) [(s10, C 0); (s22, C 0)];
  Do "" (fun _ vs => match vs with [s11; s22] => i64 (s11 + (i64 (s22 * 470296))) | _ => 0 end) (s11, C 0) [(s11, C 0); (s22, C 0)];
  Do "" (fun _ vs => match vs with [s12; s22] => i64 (s12 + (i64 (s22 * 654183))) | _ => 0 end) (s12, C 0) [(s12, C 0); (s22, C 0)];
  Do "" (fun _ vs => match vs with [s13; s22] => i64 (s13 - (i64 (s22 * 997805))) | _ => 0 end) (s13, C 0) [(s13, C 0); (s22, C 0)];
  Do "" (fun _ vs => match vs with [s14; s22] => i64 (s14 + (i64 (s22 * 136657))) | _ => 0 end) (s14, C 0) [(s14, C 0); (s22, C 0)];
  Do "" (fun _ vs => match vs with [s15; s22] => i64 (s15 - (i64 (s22 * 683901))) | _ => 0 end) (s15, C 0) [(s15, C 0); (s22, C 0)];
  Do "" (fun _ _ => 0) (s22, C 0) [];
  Do "" (fun _ vs => match vs with [s9; s21] => i64 (s9 + (i64 (s21 * 666643))) | _ => 0 end) (s9, C 0) [(s9, C 0); (s21, C 0)];
  Do "" (fun _ vs => match vs with [s10; s21] => i64 (s10 + (i64 (s21 * 470296))) | _ => 0 end) (s10, C 0) [(s10, C 0); (s21, C 0)];
  Do "" (fun _ vs => match vs with [s11; s21] => i64 (s11 + (i64 (s21 * 654183))) | _ => 0 end) (s11, C 0) [(s11, C 0); (s21, C 0)];
  Do "" (fun _ vs => match vs with [s12; s21] => i64 (s12 - (i64 (s21 * 997805))) | _ => 0 end) (s12, C 0) [(s12, C 0); (s21, C 0)];
  Do "" (fun _ vs => match vs with [s13; s21] => i64 (s13 + (i64 (s21 * 136657))) | _ => 0 end) (s13, C 0) [(s13, C 0); (s21, C 0)];
  Do "" (fun _ vs => match vs with [s14; s21] => i64 (s14 - (i64 (s21 * 683901))) | _ => 0 end) (s14, C 0) [(s14, C 0); (s21, C 0)];
  Do "" (fun _ _ => 0) (s21, C 0) [];
  Do "" (fun _ vs => match vs with [s8; s20] => i64 (s8 + (i64 (s20 * 666643))) | _ => 0 end) (s8, C 0) [(s8, C 0); (s20, C 0)];
  Do "" (fun _ vs => match vs with [s9; s20] => i64 (s9 + (i64 (s20 * 470296))) | _ => 0 end) (s9, C 0) [(s9, C 0); (s20, C 0)];
  Do "" (fun _ vs => match vs with [s10; s20] => i64 (s10 + (i64 (s20 * 654183))) | _ => 0 end) (s10, C 0) [(s10, C 0); (s20, C 0)];
  Do "" (fun _ vs => match vs with [s11; s20] => i64 (s11 - (i64 (s20 * 997805))) | _ => 0 end) (s11, C 0) [(s11, C 0); (s20, C 0)];
  Do "" (fun _ vs => match vs with [s12; s20] => i64 (s12 + (i64 (s20 * 136657))) | _ => 0 end) (s12, C 0) [(s12, C 0); (s20, C 0)];
  Do "" (fun _ vs => match vs with [s13; s20] => i64 (s13 - (i64 (s20 * 683901))) | _ => 0 end) (s13, C 0) [(s13, C 0); (s20, C 0)];
  Do "" (fun _ _ => 0) (s20, C 0) [];
  Do "" (fun _ vs => match vs with [s7; s19] => i64 (s7 + (i64 (s19 * 666643))) | _ => 0 end) (s7, C 0) [(s7, C 0); (s19, C 0)];
  Do "" (fun _ vs => match vs with [s8; s19] => i64 (s8 + (i64 (s19 * 470296))) | _ => 0 end) (s8, C 0) [(s8, C 0); (s19, C 0)];
  Do "" (fun _ vs => match vs with [s9; s19] => i64 (s9 + (i64 (s19 * 654183))) | _ => 0 end) (s9, C 0) [(s9, C 0); (s19, C 0)];
  Do "" (fun _ vs => match vs with [s10; s19] => i64 (s10 - (i64 (s19 * 997805))) | _ => 0 end) (s10, C 0) [(s10, C 0); (s19, C 0)];
  Do "" (fun _ vs => match vs with [s11; s19] => i64 (s11 + (i64 (s19 * 136657))) | _ => 0 end) (s11, C 0) [(s11, C 0); (s19, C 0)];
  Do "" (fun _ vs => match vs with [s12; s19] => i64 (s12 - (i64 (s19 * 683901))) | _ => 0 end) (s12, C 0) [(s12, C 0); (s19, C 0)];
  Do "" (fun _ _ => 0) (s19, C 0) [];
  Do "" (fun _ vs => match vs with [s6; s18] => i64 (s6 + (i64 (s18 * 666643))) | _ => 0 end) (s6, C 0) [(s6, C 0); (s18, C 0)];
  Do "" (fun _ vs => match vs with [s7; s18] => i64 (s7 + (i64 (s18 * 470296))) | _ => 0 end) (s7, C 0) [(s7, C 0); (s18, C 0)];
  Do "" (fun _ vs => match vs with [s8; s18] => i64 (s8 + (i64 (s18 * 654183))) | _ => 0 end) (s8, C 0) [(s8, C 0); (s18, C 0)];
  Do "" (fun _ vs => match vs with [s9; s18] => i64 (s9 - (i64 (s18 * 997805))) | _ => 0 end) (s9, C 0) [(s9, C 0); (s18, C 0)];
  Do "" (fun _ vs => match vs with [s10; s18] => i64 (s10 + (i64 (s18 * 136657))) | _ => 0 end) (s10, C 0) [(s10, C 0); (s18, C 0)];
  Do "" (fun _ vs => match vs with [s11; s18] => i64 (s11 - (i64 (s18 * 683901))) | _ => 0 end) (s11, C 0) [(s11, C 0); (s18, C 0)];
  Do "" (fun _ _ => 0) (s18, C 0) [];
  Do "" (fun _ vs => match vs with [s6] => Z.shiftr (i64 (s6 + 1048576)) 21 | _ => 0 end) ((1 + n)%nat, C 6) [(s6, C 0)];
  Do "" (fun _ vs => match vs with [s7; carry_6] => i64 (s7 + carry_6) | _ => 0 end) (s7, C 0) [(s7, C 0); ((1 + n)%nat, C 6)];
  Do "" (fun _ vs => match vs with [s6; carry_6] => i64 (s6 - (i64 (Z.shiftl carry_6 21))) | _ => 0 end) (s6, C 0) [(s6, C 0); ((1 + n)%nat, C 6)];
  Do "" (fun _ vs => match vs with [s8] => Z.shiftr (i64 (s8 + 1048576)) 21 | _ => 0 end) ((1 + n)%nat, C 8) [(s8, C 0)];
  Do "" (fun _ vs => match vs with [s9; carry_8] => i64 (s9 + carry_8) | _ => 0 end) (s9, C 0) [(s9, C 0); ((1 + n)%nat, C 8)];
  Do "" (fun _ vs => match vs with [s8; carry_8] => i64 (s8 - (i64 (Z.shiftl carry_8 21))) | _ => 0 end) (s8, C 0) [(s8, C 0); ((1 + n)%nat, C 8)];
  Do "" (fun _ vs => match vs with [s10] => Z.shiftr (i64 (s10 + 1048576)) 21 | _ => 0 end) ((1 + n)%nat, C 10) [(s10, C 0)];
  Do "" (fun _ vs => match vs with [s11; carry_10] => i64 (s11 + carry_10) | _ => 0 end) (s11, C 0) [(s11, C 0); ((1 + n)%nat, C 10)];
  Do "" (fun _ vs => match vs with [s10; carry_10] => i64 (s10 - (i64 (Z.shiftl carry_10 21))) | _ => 0 end) (s10, C 0) [(s10, C 0); ((1 + n)%nat, C 10)];
  Do "" (fun _ vs => match vs with [s12] => Z.shiftr (i64 (s12 + 1048576)) 21 | _ => 0 end) ((1 + n)%nat, C 12) [(s12, C 0)];
  Do "" (fun _ vs => match vs with [s13; carry_12] => i64 (s13 + carry_12) | _ => 0 end) (s13, C 0) [(s13, C 0); ((1 + n)%nat, C 12)];
  Do "" (fun _ vs => match vs with [s12; carry_12] => i64 (s12 - (i64 (Z.shiftl carry_12 21))) | _ => 0 end) (s12, C 0) [(s12, C 0); ((1 + n)%nat, C 12)];
  Do "" (fun _ vs => match vs with [s14] => Z.shiftr (i64 (s14 + 1048576)) 21 | _ => 0 end) ((1 + n)%nat, C 14) [(s14, C 0)];
  Do "" (fun _ vs => match vs with [s15; carry_14] => i64 (s15 + carry_14) | _ => 0 end) (s15, C 0) [(s15, C 0); ((1 + n)%nat, C 14)];
  Do "" (fun _ vs => match vs with [s14; carry_14] => i64 (s14 - (i64 (Z.shiftl carry_14 21))) | _ => 0 end) (s14, C 0) [(s14, C 0); ((1 + n)%nat, C 14)];
  Do "" (fun _ vs => match vs with [s16] => Z.shiftr (i64 (s16 + 1048576)) 21 | _ => 0 end) ((1 + n)%nat, C 16) [(s16, C 0)];
  Do "" (fun _ vs => match vs with [s17; carry_16] => i64 (s17 + carry_16) | _ => 0 end) (s17, C 0) [(s17, C 0); ((1 + n)%nat, C 16)];
  Do "" (fun _ vs => match vs with [s16; carry_16] => i64 (s16 - (i64 (Z.shiftl carry_16 21))) | _ => 0 end) (s16, C 0) [(s16, C 0); ((1 + n)%nat, C 16)];
  Do "" (fun _ vs => match vs with [s7] => Z.shiftr (i64 (s7 + 1048576)) 21 | _ => 0 end) ((1 + n)%nat, C 7) [(s7, C 0)];
  Do "" (fun _ vs => match vs with [s8; carry_7] => i64 (s8 + carry_7) | _ => 0 end) (s8, C 0) [(s8, C 0); ((1 + n)%nat, C 7)];
  Do "" (fun _ vs => match vs with [s7; carry_7] => i64 (s7 - (i64 (Z.shiftl carry_7 21))) | _ => 0 end) (s7, C 0) [(s7, C 0); ((1 + n)%nat, C 7)];
  Do "" (fun _ vs => match vs with [s9] => Z.shiftr (i64 (s9 + 1048576)) 21 | _ => 0 end) ((1 + n)%nat, C 9) [(s9, C 0)];
  Do "" (fun _ vs => match vs with [s10; carry_9] => i64 (s10 + carry_9) | _ => 0 end) (s10, C 0) [(s10, C 0); ((1 + n)%nat, C 9)];
  Do "" (fun _ vs => match vs with [s9; carry_9] => i64 (s9 - (i64 (Z.shiftl carry_9 21))) | _ => 0 end) (s9, C 0) [(s9, C 0); ((1 + n)%nat, C 9)];
  Do "" (fun _ vs => match vs with [s11] => Z.shiftr (i64 (s11 + 1048576)) 21 | _ => 0 end) ((1 + n)%nat, C 11) [(s11, C 0)];
  Do "" (fun _ vs => match vs with [s12; carry_11] => i64 (s12 + carry_11) | _ => 0 end) (s12, C 0) [(s12, C 0); ((1 + n)%nat, C 11)];
  Do "" (fun _ vs => match vs with [s11; carry_11] => i64 (s11 - (i64 (Z.shiftl carry_11 21))) | _ => 0 end) (s11, C 0) [(s11, C 0); ((1 + n)%nat, C 11)];
  Do "" (fun _ vs => match vs with [s13] => Z.shiftr (i64 (s13 + 1048576)) 21 | _ => 0 end) ((1 + n)%nat, C 13) [(s13, C 0)];
  Do "" (fun _ vs => match vs with [s14; carry_13] => i64 (s14 + carry_13) | _ => 0 end) (s14, C 0) [(s14, C 0); ((1 + n)%nat, C 13)];
  Do "" (fun _ vs => match vs with [s13; carry_13] => i64 (s13 - (i64 (Z.shiftl carry_13 21))) | _ => 0 end) (s13, C 0) [(s13, C 0); ((1 + n)%nat, C 13)];
  Do "" (fun _ vs => match vs with [s15] => Z.shiftr (i64 (s15 + 1048576)) 21 | _ => 0 end) ((1 + n)%nat, C 15) [(s15, C 0)];
  Do "" (fun _ vs => match vs with [s16; carry_15] => i64 (s16 + carry_15) | _ => 0 end) (s16, C 0) [(s16, C 0); ((1 + n)%nat, C 15)];
  Do "" (fun _ vs => match vs with [s15; carry_15] => i64 (s15 - (i64 (Z.shiftl carry_15 21))) | _ => 0 end) (s15, C 0) [(s15, C 0); ((1 + n)%nat, C 15)];
  Do "" (fun _ vs => match vs with [s5; s17] => i64 (s5 + (i64 (s17 * 666643))) | _ => 0 end) (s5, C 0) [(s5, C 0); (s17, C 0)];
  Do "" (fun _ vs => match vs with [s6; s17] => i64 (s6 + (i64 (s17 * 470296))) | _ => 0 end) (s6, C 0) [(s6, C 0); (s17, C 0)];
  Do "" (fun _ vs => match vs with [s7; s17] => i64 (s7 + (i64 (s17 * 654183))) | _ => 0 end) (s7, C 0) [(s7, C 0); (s17, C 0)];
  Do "" (fun _ vs => match vs with [s8; s17] => i64 (s8 - (i64 (s17 * 997805))) | _ => 0 end) (s8, C 0) [(s8, C 0); (s17, C 0)];
  Do "" (fun _ vs => match vs with [s9; s17] => i64 (s9 + (i64 (s17 * 136657))) | _ => 0 end) (s9, C 0) [(s9, C 0); (s17, C 0)];
  Do "" (fun _ vs => match vs with [s10; s17] => i64 (s10 - (i64 (s17 * 683901))) | _ => 0 end) (s10, C 0) [(s10, C 0); (s17, C 0)];
  Do "" (fun _ _ => 0) (s17, C 0) [];
  Do "" (fun _ vs => match vs with [s4; s16] => i64 (s4 + (i64 (s16 * 666643))) | _ => 0 end) (s4, C 0) [(s4, C 0); (s16, C 0)];
  Do "" (fun _ vs => match vs with [s5; s16] => i64 (s5 + (i64 (s16 * 470296))) | _ => 0 end) (s5, C 0) [(s5, C 0); (s16, C 0)];
  Do "" (fun _ vs => match vs with [s6; s16] => i64 (s6 + (i64 (s16 * 654183))) | _ => 0 end) (s6, C 0) [(s6, C 0); (s16, C 0)];
  Do "" (fun _ vs => match vs with [s7; s16] => i64 (s7 - (i64 (s16 * 997805))) | _ => 0 end) (s7, C 0) [(s7, C 0); (s16, C 0)];
  Do "" (fun _ vs => match vs with [s8; s16] => i64 (s8 + (i64 (s16 * 136657))) | _ => 0 end) (s8, C 0) [(s8, C 0); (s16, C 0)];
  Do "" (fun _ vs => match vs with [s9; s16] => i64 (s9 - (i64 (s16 * 683901))) | _ => 0 end) (s9, C 0) [(s9, C 0); (s16, C 0)];
  Do "" (fun _ _ => 0) (s16, C 0) [];
  Do "" (fun _ vs => match vs with [s3; s15] => i64 (s3 + (i64 (s15 * 666643))) | _ => 0 end) (s3, C 0) [(s3, C 0); (s15, C 0)];
  Do "" (fun _ vs => match vs with [s4; s15] => i64 (s4 + (i64 (s15 * 470296))) | _ => 0 end) (s4, C 0) [(s4, C 0); (s15, C 0)];
  Do "" (fun _ vs => match vs with [s5; s15] => i64 (s5 + (i64 (s15 * 654183))) | _ => 0 end) (s5, C 0) [(s5, C 0); (s15, C 0)];
  Do "" (fun _ vs => match vs with [s6; s15] => i64 (s6 - (i64 (s15 * 997805))) | _ => 0 end) (s6, C 0) [(s6, C 0); (s15, C 0)];
  Do "" (fun _ vs => match vs with [s7; s15] => i64 (s7 + (i64 (s15 * 136657))) | _ => 0 end) (s7, C 0) [(s7, C 0); (s15, C 0)];
  Do "" (fun _ vs => match vs with [s8; s15] => i64 (s8 - (i64 (s15 * 683901))) | _ => 0 end) (s8, C 0) [(s8, C 0); (s15, C 0)];
  Do "" (fun _ _ => 0) (s15, C 0) [];
  Do "" (fun _ vs => match vs with [s2; s14] => i64 (s2 + (i64 (s14 * 666643))) | _ => 0 end) (s2, C 0) [(s2, C 0); (s14, C 0)];
  Do "" (fun _ vs => match vs with [s3; s14] => i64 (s3 + (i64 (s14 * 470296))) | _ => 0 end) (s3, C 0) [(s3, C 0); (s14, C 0)];
  Do "" (fun _ vs => match vs with [s4; s14] => i64 (s4 + (i64 (s14 * 654183))) | _ => 0 end) (s4, C 0) [(s4, C 0); (s14, C 0)];
  Do "" (fun _ vs => match vs with [s5; s14] => i64 (s5 - (i64 (s14 * 997805))) | _ => 0 end) (s5, C 0) [(s5, C 0); (s14, C 0)];
  Do "" (fun _ vs => match vs with [s6; s14] => i64 (s6 + (i64 (s14 * 136657))) | _ => 0 end) (s6, C 0) [(s6, C 0); (s14, C 0)];
  Do "" (fun _ vs => match vs with [s7; s14] => i64 (s7 - (i64 (s14 * 683901))) | _ => 0 end) (s7, C 0) [(s7, C 0); (s14, C 0)];
  Do "" (fun _ _ => 0) (s14, C 0) [];
  Do "" (fun _ vs => match vs with [s1; s13] => i64 (s1 + (i64 (s13 * 666643))) | _ => 0 end) (s1, C 0) [(s1, C 0); (s13, C 0)];
  Do "" (fun _ vs => match vs with [s2; s13] => i64 (s2 + (i64 (s13 * 470296))) | _ => 0 end) (s2, C 0) [(s2, C 0); (s13, C 0)];
  Do "" (fun _ vs => match vs with [s3; s13] => i64 (s3 + (i64 (s13 * 654183))) | _ => 0 end) (s3, C 0) [(s3, C 0); (s13, C 0)];
  Do "" (fun _ vs => match vs with [s4; s13] => i64 (s4 - (i64 (s13 * 997805))) | _ => 0 end) (s4, C 0) [(s4, C 0); (s13, C 0)];
  Do "" (fun _ vs => match vs with [s5; s13] => i64 (s5 + (i64 (s13 * 136657))) | _ => 0 end) (s5, C 0) [(s5, C 0); (s13, C 0)];
  Do "" (fun _ vs => match vs with [s6; s13] => i64 (s6 - (i64 (s13 * 683901))) | _ => 0 end) (s6, C 0) [(s6, C 0); (s13, C 0)];
  Do "" (fun _ _ => 0) (s13, C 0) [];
  Do "" (fun _ vs => match vs with [s0; s12] => i64 (s0 + (i64 (s12 * 666643))) | _ => 0 end) (s0, C 0) [(s0, C 0); (s12, C 0)];
  Do "" (fun _ vs => match vs with [s1; s12] => i64 (s1 + (i64 (s12 * 470296))) | _ => 0 end) (s1, C 0) [(s1, C 0); (s12, C 0)];
  Do "" (fun _ vs => match vs with [s2; s12] => i64 (s2 + (i64 (s12 * 654183))) | _ => 0 end) (s2, C 0) [(s2, C 0); (s12, C 0)];
  Do "" (fun _ vs => match vs with [s3; s12] => i64 (s3 - (i64 (s12 * 997805))) | _ => 0 end) (s3, C 0) [(s3, C 0); (s12, C 0)];
  Do "" (fun _ vs => match vs with [s4; s12] => i64 (s4 + (i64 (s12 * 136657))) | _ => 0 end) (s4, C 0) [(s4, C 0); (s12, C 0)];
  Do "" (fun _ vs => match vs with [s5; s12] => i64 (s5 - (i64 (s12 * 683901))) | _ => 0 end) (s5, C 0) [(s5, C 0); (s12, C 0)];
  Do "" (fun _ _ => 0) (s12, C 0) [];
  Do "" (fun _ vs => match vs with [s0] => Z.shiftr (i64 (s0 + 1048576)) 21 | _ => 0 end) ((1 + n)%nat, C 0) [(s0, C 0)];
  Do "" (fun _ vs => match vs with [s1; carry_0] => i64 (s1 + carry_0) | _ => 0 end) (s1, C 0) [(s1, C 0); ((1 + n)%nat, C 0)];
  Do "" (fun _ vs => match vs with [s0; carry_0] => i64 (s0 - (i64 (Z.shiftl carry_0 21))) | _ => 0 end) (s0, C 0) [(s0, C 0); ((1 + n)%nat, C 0)];
  Do "" (fun _ vs => match vs with [s2] => Z.shiftr (i64 (s2 + 1048576)) 21 | _ => 0 end) ((1 + n)%nat, C 2) [(s2, C 0)];
  Do "" (fun _ vs => match vs with [s3; carry_2] => i64 (s3 + carry_2) | _ => 0 end) (s3, C 0) [(s3, C 0); ((1 + n)%nat, C 2)];
  Do "" (fun _ vs => match vs with [s2; carry_2] => i64 (s2 - (i64 (Z.shiftl carry_2 21))) | _ => 0 end) (s2, C 0) [(s2, C 0); ((1 + n)%nat, C 2)];
  Do "" (fun _ vs => match vs with [s4] => Z.shiftr (i64 (s4 + 1048576)) 21 | _ => 0 end) ((1 + n)%nat, C 4) [(s4, C 0)];
  Do "" (fun _ vs => match vs with [s5; carry_4] => i64 (s5 + carry_4) | _ => 0 end) (s5, C 0) [(s5, C 0); ((1 + n)%nat, C 4)];
  Do "" (fun _ vs => match vs with [s4; carry_4] => i64 (s4 - (i64 (Z.shiftl carry_4 21))) | _ => 0 end) (s4, C 0) [(s4, C 0); ((1 + n)%nat, C 4)];
  Do "" (fun _ vs => match vs with [s6] => Z.shiftr (i64 (s6 + 1048576)) 21 | _ => 0 end) ((1 + n)%nat, C 6) [(s6, C 0)];
  Do "" (fun _ vs => match vs with [s7; carry_6] => i64 (s7 + carry_6) | _ => 0 end) (s7, C 0) [(s7, C 0); ((1 + n)%nat, C 6)];
  Do "" (fun _ vs => match vs with [s6; carry_6] => i64 (s6 - (i64 (Z.shiftl carry_6 21))) | _ => 0 end) (s6, C 0) [(s6, C 0); ((1 + n)%nat, C 6)];
  Do "" (fun _ vs => match vs with [s8] => Z.shiftr (i64 (s8 + 1048576)) 21 | _ => 0 end) ((1 + n)%nat, C 8) [(s8, C 0)];
  Do "" (fun _ vs => match vs with [s9; carry_8] => i64 (s9 + carry_8) | _ => 0 end) (s9, C 0) [(s9, C 0); ((1 + n)%nat, C 8)];
  Do "" (fun _ vs => match vs with [s8; carry_8] => i64 (s8 - (i64 (Z.shiftl carry_8 21))) | _ => 0 end) (s8, C 0) [(s8, C 0); ((1 + n)%nat, C 8)];
  Do "" (fun _ vs => match vs with [s10] => Z.shiftr (i64 (s10 + 1048576)) 21 | _ => 0 end) ((1 + n)%nat, C 10) [(s10, C 0)];
  Do "" (fun _ vs => match vs with [s11; carry_10] => i64 (s11 + carry_10) | _ => 0 end) (s11, C 0) [(s11, C 0); ((1 + n)%nat, C 10)];
  Do "" (fun _ vs => match vs with [s10; carry_10] => i64 (s10 - (i64 (Z.shiftl carry_10 21))) | _ => 0 end) (s10, C 0) [(s10, C 0); ((1 + n)%nat, C 10)];
  Do "" (fun _ vs => match vs with [s1] => Z.shiftr (i64 (s1 + 1048576)) 21 | _ => 0 end) ((1 + n)%nat, C 1) [(s1, C 0)];
  Do "" (fun _ vs => match vs with [s2; carry_1] => i64 (s2 + carry_1) | _ => 0 end) (s2, C 0) [(s2, C 0); ((1 + n)%nat, C 1)];
  Do "" (fun _ vs => match vs with [s1; carry_1] => i64 (s1 - (i64 (Z.shiftl carry_1 21))) | _ => 0 end) (s1, C 0) [(s1, C 0); ((1 + n)%nat, C 1)];
  Do "" (fun _ vs => match vs with [s3] => Z.shiftr (i64 (s3 + 1048576)) 21 | _ => 0 end) ((1 + n)%nat, C 3) [(s3, C 0)];
  Do "" (fun _ vs => match vs with [s4; carry_3] => i64 (s4 + carry_3) | _ => 0 end) (s4, C 0) [(s4, C 0); ((1 + n)%nat, C 3)];
  Do "" (fun _ vs => match vs with [s3; carry_3] => i64 (s3 - (i64 (Z.shiftl carry_3 21))) | _ => 0 end) (s3, C 0) [(s3, C 0); ((1 + n)%nat, C 3)];
  Do "" (fun _ vs => match vs with [s5] => Z.shiftr (i64 (s5 + 1048576)) 21 | _ => 0 end) ((1 + n)%nat, C 5) [(s5, C 0)];
  Do "" (fun _ vs => match vs with [s6; carry_5] => i64 (s6 + carry_5) | _ => 0 end) (s6, C 0) [(s6, C 0); ((1 + n)%nat, C 5)];
  Do "" (fun _ vs => match vs with [s5; carry_5] => i64 (s5 - (i64 (Z.shiftl carry_5 21))) | _ => 0 end) (s5, C 0) [(s5, C 0); ((1 + n)%nat, C 5)];
  Do "" (fun _ vs => match vs with [s7] => Z.shiftr (i64 (s7 + 1048576)) 21 | _ => 0 end) ((1 + n)%nat, C 7) [(s7, C 0)];
  Do "" (fun _ vs => match vs with [s8; carry_7] => i64 (s8 + carry_7) | _ => 0 end) (s8, C 0) [(s8, C 0); ((1 + n)%nat, C 7)];
  Do "" (fun _ vs => match vs with [s7; carry_7] => i64 (s7 - (i64 (Z.shiftl carry_7 21))) | _ => 0 end) (s7, C 0) [(s7, C 0); ((1 + n)%nat, C 7)];
  Do "" (fun _ vs => match vs with [s9] => Z.shiftr (i64 (s9 + 1048576)) 21 | _ => 0 end) ((1 + n)%nat, C 9) [(s9, C 0)];
  Do "" (fun _ vs => match vs with [s10; carry_9] => i64 (s10 + carry_9) | _ => 0 end) (s10, C 0) [(s10, C 0); ((1 + n)%nat, C 9)];
  Do "" (fun _ vs => match vs with [s9; carry_9] => i64 (s9 - (i64 (Z.shiftl carry_9 21))) | _ => 0 end) (s9, C 0) [(s9, C 0); ((1 + n)%nat, C 9)];
  Do "" (fun _ vs => match vs with [s11] => Z.shiftr (i64 (s11 + 1048576)) 21 | _ => 0 end) ((1 + n)%nat, C 11) [(s11, C 0)];
  Do "" (fun _ vs => match vs with [s12; carry_11] => i64 (s12 + carry_11) | _ => 0 end) (s12, C 0) [(s12, C 0); ((1 + n)%nat, C 11)];
  Do "" (fun _ vs => match vs with [s11; carry_11] => i64 (s11 - (i64 (Z.shiftl carry_11 21))) | _ => 0 end) (s11, C 0) [(s11, C 0); ((1 + n)%nat, C 11)];
  Do "" (fun _ vs => match vs with [s0; s12] => i64 (s0 + (i64 (s12 * 666643))) | _ => 0 end) (s0, C 0) [(s0, C 0); (s12, C 0)];
  Do "" (fun _ vs => match vs with [s1; s12] => i64 (s1 + (i64 (s12 * 470296))) | _ => 0 end) (s1, C 0) [(s1, C 0); (s12, C 0)];
  Do "" (fun _ vs => match vs with [s2; s12] => i64 (s2 + (i64 (s12 * 654183))) | _ => 0 end) (s2, C 0) [(s2, C 0); (s12, C 0)];
  Do "" (fun _ vs => match vs with [s3; s12] => i64 (s3 - (i64 (s12 * 997805))) | _ => 0 end) (s3, C 0) [(s3, C 0); (s12, C 0)];
  Do "" (fun _ vs => match vs with [s4; s12] => i64 (s4 + (i64 (s12 * 136657))) | _ => 0 end) (s4, C 0) [(s4, C 0); (s12, C 0)];
  Do "" (fun _ vs => match vs with [s5; s12] => i64 (s5 - (i64 (s12 * 683901))) | _ => 0 end) (s5, C 0) [(s5, C 0); (s12, C 0)];
  Do "" (fun _ _ => 0) (s12, C 0) [];
  Do "" (fun _ vs => match vs with [s0] => Z.shiftr s0 21 | _ => 0 end) ((1 + n)%nat, C 0) [(s0, C 0)];
  Do "" (fun _ vs => match vs with [s1; carry_0] => i64 (s1 + carry_0) | _ => 0 end) (s1, C 0) [(s1, C 0); ((1 + n)%nat, C 0)];
  Do "" (fun _ vs => match vs with [s0; carry_0] => i64 (s0 - (i64 (Z.shiftl carry_0 21))) | _ => 0 end) (s0, C 0) [(s0, C 0); ((1 + n)%nat, C 0)];
  Do "" (fun _ vs => match vs with [s1] => Z.shiftr s1 21 | _ => 0 end) ((1 + n)%nat, C 1) [(s1, C 0)];
  Do "" (fun _ vs => match vs with [s2; carry_1] => i64 (s2 + carry_1) | _ => 0 end) (s2, C 0) [(s2, C 0); ((1 + n)%nat, C 1)];
  Do "" (fun _ vs => match vs with [s1; carry_1] => i64 (s1 - (i64 (Z.shiftl carry_1 21))) | _ => 0 end) (s1, C 0) [(s1, C 0); ((1 + n)%nat, C 1)];
  Do "" (fun _ vs => match vs with [s2] => Z.shiftr s2 21 | _ => 0 end) ((1 + n)%nat, C 2) [(s2, C 0)];
  Do "" (fun _ vs => match vs with [s3; carry_2] => i64 (s3 + carry_2) | _ => 0 end) (s3, C 0) [(s3, C 0); ((1 + n)%nat, C 2)];
  Do "" (fun _ vs => match vs with [s2; carry_2] => i64 (s2 - (i64 (Z.shiftl carry_2 21))) | _ => 0 end) (s2, C 0) [(s2, C 0); ((1 + n)%nat, C 2)];
  Do "" (fun _ vs => match vs with [s3] => Z.shiftr s3 21 | _ => 0 end) ((1 + n)%nat, C 3) [(s3, C 0)];
  Do "" (fun _ vs => match vs with [s4; carry_3] => i64 (s4 + carry_3) | _ => 0 end) (s4, C 0) [(s4, C 0); ((1 + n)%nat, C 3)];
  Do "" (fun _ vs => match vs with [s3; carry_3] => i64 (s3 - (i64 (Z.shiftl carry_3 21))) | _ => 0 end) (s3, C 0) [(s3, C 0); ((1 + n)%nat, C 3)];
  Do "" (fun _ vs => match vs with [s4] => Z.shiftr s4 21 | _ => 0 end) ((1 + n)%nat, C 4) [(s4, C 0)];
  Do "" (fun _ vs => match vs with [s5; carry_4] => i64 (s5 + carry_4) | _ => 0 end) (s5, C 0) [(s5, C 0); ((1 + n)%nat, C 4)];
  Do "" (fun _ vs => match vs with [s4; carry_4] => i64 (s4 - (i64 (Z.shiftl carry_4 21))) | _ => 0 end) (s4, C 0) [(s4, C 0); ((1 + n)%nat, C 4)];
  Do "" (fun _ vs => match vs with [s5] => Z.shiftr s5 21 | _ => 0 end) ((1 + n)%nat, C 5) [(s5, C 0)];
  Do "" (fun _ vs => match vs with [s6; carry_5] => i64 (s6 + carry_5) | _ => 0 end) (s6, C 0) [(s6, C 0); ((1 + n)%nat, C 5)];
  Do "" (fun _ vs => match vs with [s5; carry_5] => i64 (s5 - (i64 (Z.shiftl carry_5 21))) | _ => 0 end) (s5, C 0) [(s5, C 0); ((1 + n)%nat, C 5)];
  Do "" (fun _ vs => match vs with [s6] => Z.shiftr s6 21 | _ => 0 end) ((1 + n)%nat, C 6) [(s6, C 0)];
  Do "" (fun _ vs => match vs with [s7; carry_6] => i64 (s7 + carry_6) | _ => 0 end) (s7, C 0) [(s7, C 0); ((1 + n)%nat, C 6)];
  Do "" (fun _ vs => match vs with [s6; carry_6] => i64 (s6 - (i64 (Z.shiftl carry_6 21))) | _ => 0 end) (s6, C 0) [(s6, C 0); ((1 + n)%nat, C 6)];
  Do "" (fun _ vs => match vs with [s7] => Z.shiftr s7 21 | _ => 0 end) ((1 + n)%nat, C 7) [(s7, C 0)];
  Do "" (fun _ vs => match vs with [s8; carry_7] => i64 (s8 + carry_7) | _ => 0 end) (s8, C 0) [(s8, C 0); ((1 + n)%nat, C 7)];
  Do "" (fun _ vs => match vs with [s7; carry_7] => i64 (s7 - (i64 (Z.shiftl carry_7 21))) | _ => 0 end) (s7, C 0) [(s7, C 0); ((1 + n)%nat, C 7)];
  Do "" (fun _ vs => match vs with [s8] => Z.shiftr s8 21 | _ => 0 end) ((1 + n)%nat, C 8) [(s8, C 0)];
  Do "" (fun _ vs => match vs with [s9; carry_8] => i64 (s9 + carry_8) | _ => 0 end) (s9, C 0) [(s9, C 0); ((1 + n)%nat, C 8)];
  Do "" (fun _ vs => match vs with [s8; carry_8] => i64 (s8 - (i64 (Z.shiftl carry_8 21))) | _ => 0 end) (s8, C 0) [(s8, C 0); ((1 + n)%nat, C 8)];
  Do "" (fun _ vs => match vs with [s9] => Z.shiftr s9 21 | _ => 0 end) ((1 + n)%nat, C 9) [(s9, C 0)];
  Do "" (fun _ vs => match vs with [s10; carry_9] => i64 (s10 + carry_9) | _ => 0 end) (s10, C 0) [(s10, C 0); ((1 + n)%nat, C 9)];
  Do "" (fun _ vs => match vs with [s9; carry_9] => i64 (s9 - (i64 (Z.shiftl carry_9 21))) | _ => 0 end) (s9, C 0) [(s9, C 0); ((1 + n)%nat, C 9)];
  Do "" (fun _ vs => match vs with [s10] => Z.shiftr s10 21 | _ => 0 end) ((1 + n)%nat, C 10) [(s10, C 0)];
  Do "" (fun _ vs => match vs with [s11; carry_10] => i64 (s11 + carry_10) | _ => 0 end) (s11, C 0) [(s11, C 0); ((1 + n)%nat, C 10)];
  Do "" (fun _ vs => match vs with [s10; carry_10] => i64 (s10 - (i64 (Z.shiftl carry_10 21))) | _ => 0 end) (s10, C 0) [(s10, C 0); ((1 + n)%nat, C 10)];
  Do "" (fun _ vs => match vs with [s11] => Z.shiftr s11 21 | _ => 0 end) ((1 + n)%nat, C 11) [(s11, C 0)];
  Do "" (fun _ vs => match vs with [s12; carry_11] => i64 (s12 + carry_11) | _ => 0 end) (s12, C 0) [(s12, C 0); ((1 + n)%nat, C 11)];
  Do "" (fun _ vs => match vs with [s11; carry_11] => i64 (s11 - (i64 (Z.shiftl carry_11 21))) | _ => 0 end) (s11, C 0) [(s11, C 0); ((1 + n)%nat, C 11)];
  Do "" (fun _ vs => match vs with [s0; s12] => i64 (s0 + (i64 (s12 * 666643))) | _ => 0 end) (s0, C 0) [(s0, C 0); (s12, C 0)];
  Do "" (fun _ vs => match vs with [s1; s12] => i64 (s1 + (i64 (s12 * 470296))) | _ => 0 end) (s1, C 0) [(s1, C 0); (s12, C 0)];
  Do "" (fun _ vs => match vs with [s2; s12] => i64 (s2 + (i64 (s12 * 654183))) | _ => 0 end) (s2, C 0) [(s2, C 0); (s12, C 0)];
  Do "" (fun _ vs => match vs with [s3; s12] => i64 (s3 - (i64 (s12 * 997805))) | _ => 0 end) (s3, C 0) [(s3, C 0); (s12, C 0)];
  Do "" (fun _ vs => match vs with [s4; s12] => i64 (s4 + (i64 (s12 * 136657))) | _ => 0 end) (s4, C 0) [(s4, C 0); (s12, C 0)];
  Do "" (fun _ vs => match vs with [s5; s12] => i64 (s5 - (i64 (s12 * 683901))) | _ => 0 end) (s5, C 0) [(s5, C 0); (s12, C 0)];
  Do "" (fun _ _ => 0) (s12, C 0) [];
  Do "" (fun _ vs => match vs with [s0] => Z.shiftr s0 21 | _ => 0 end) ((1 + n)%nat, C 0) [(s0, C 0)];
  Do "" (fun _ vs => match vs with [s1; carry_0] => i64 (s1 + carry_0) | _ => 0 end) (s1, C 0) [(s1, C 0); ((1 + n)%nat, C 0)];
  Do "" (fun _ vs => match vs with [s0; carry_0] => i64 (s0 - (i64 (Z.shiftl carry_0 21))) | _ => 0 end) (s0, C 0) [(s0, C 0); ((1 + n)%nat, C 0)];
  Do "" (fun _ vs => match vs with [s1] => Z.shiftr s1 21 | _ => 0 end) ((1 + n)%nat, C 1) [(s1, C 0)];
  Do "" (fun _ vs => match vs with [s2; carry_1] => i64 (s2 + carry_1) | _ => 0 end) (s2, C 0) [(s2, C 0); ((1 + n)%nat, C 1)];
  Do "" (fun _ vs => match vs with [s1; carry_1] => i64 (s1 - (i64 (Z.shiftl carry_1 21))) | _ => 0 end) (s1, C 0) [(s1, C 0); ((1 + n)%nat, C 1)];
  Do "" (fun _ vs => match vs with [s2] => Z.shiftr s2 21 | _ => 0 end) ((1 + n)%nat, C 2) [(s2, C 0)];
  Do "" (fun _ vs => match vs with [s3; carry_2] => i64 (s3 + carry_2) | _ => 0 end) (s3, C 0) [(s3, C 0); ((1 + n)%nat, C 2)];
  Do "" (fun _ vs => match vs with [s2; carry_2] => i64 (s2 - (i64 (Z.shiftl carry_2 21))) | _ => 0 end) (s2, C 0) [(s2, C 0); ((1 + n)%nat, C 2)];
  Do "" (fun _ vs => match vs with [s3] => Z.shiftr s3 21 | _ => 0 end) ((1 + n)%nat, C 3) [(s3, C 0)];
  Do "" (fun _ vs => match vs with [s4; carry_3] => i64 (s4 + carry_3) | _ => 0 end) (s4, C 0) [(s4, C 0); ((1 + n)%nat, C 3)];
  Do "" (fun _ vs => match vs with [s3; carry_3] => i64 (s3 - (i64 (Z.shiftl carry_3 21))) | _ => 0 end) (s3, C 0) [(s3, C 0); ((1 + n)%nat, C 3)];
  Do "" (fun _ vs => match vs with [s4] => Z.shiftr s4 21 | _ => 0 end) ((1 + n)%nat, C 4) [(s4, C 0)];
  Do "" (fun _ vs => match vs with [s5; carry_4] => i64 (s5 + carry_4) | _ => 0 end) (s5, C 0) [(s5, C 0); ((1 + n)%nat, C 4)];
  Do "" (fun _ vs => match vs with [s4; carry_4] => i64 (s4 - (i64 (Z.shiftl carry_4 21))) | _ => 0 end) (s4, C 0) [(s4, C 0); ((1 + n)%nat, C 4)];
  Do "" (fun _ vs => match vs with [s5] => Z.shiftr s5 21 | _ => 0 end) ((1 + n)%nat, C 5) [(s5, C 0)];
  Do "" (fun _ vs => match vs with [s6; carry_5] => i64 (s6 + carry_5) | _ => 0 end) (s6, C 0) [(s6, C 0); ((1 + n)%nat, C 5)];
  Do "" (fun _ vs => match vs with [s5; carry_5] => i64 (s5 - (i64 (Z.shiftl carry_5 21))) | _ => 0 end) (s5, C 0) [(s5, C 0); ((1 + n)%nat, C 5)];
  Do "" (fun _ vs => match vs with [s6] => Z.shiftr s6 21 | _ => 0 end) ((1 + n)%nat, C 6) [(s6, C 0)];
  Do "" (fun _ vs => match vs with [s7; carry_6] => i64 (s7 + carry_6) | _ => 0 end) (s7, C 0) [(s7, C 0); ((1 + n)%nat, C 6)];
  Do "" (fun _ vs => match vs with [s6; carry_6] => i64 (s6 - (i64 (Z.shiftl carry_6 21))) | _ => 0 end) (s6, C 0) [(s6, C 0); ((1 + n)%nat, C 6)];
  Do "" (fun _ vs => match vs with [s7] => Z.shiftr s7 21 | _ => 0 end) ((1 + n)%nat, C 7) [(s7, C 0)];
  Do "" (fun _ vs => match vs with [s8; carry_7] => i64 (s8 + carry_7) | _ => 0 end) (s8, C 0) [(s8, C 0); ((1 + n)%nat, C 7)];
  Do "" (fun _ vs => match vs with [s7; carry_7] => i64 (s7 - (i64 (Z.shiftl carry_7 21))) | _ => 0 end) (s7, C 0) [(s7, C 0); ((1 + n)%nat, C 7)];
  Do "" (fun _ vs => match vs with [s8] => Z.shiftr s8 21 | _ => 0 end) ((1 + n)%nat, C 8) [(s8, C 0)];
  Do "" (fun _ vs => match vs with [s9; carry_8] => i64 (s9 + carry_8) | _ => 0 end) (s9, C 0) [(s9, C 0); ((1 + n)%nat, C 8)];
  Do "" (fun _ vs => match vs with [s8; carry_8] => i64 (s8 - (i64 (Z.shiftl carry_8 21))) | _ => 0 end) (s8, C 0) [(s8, C 0); ((1 + n)%nat, C 8)];
  Do "" (fun _ vs => match vs with [s9] => Z.shiftr s9 21 | _ => 0 end) ((1 + n)%nat, C 9) [(s9, C 0)];
  Do "" (fun _ vs => match vs with [s10; carry_9] => i64 (s10 + carry_9) | _ => 0 end) (s10, C 0) [(s10, C 0); ((1 + n)%nat, C 9)];
  Do "" (fun _ vs => match vs with [s9; carry_9] => i64 (s9 - (i64 (Z.shiftl carry_9 21))) | _ => 0 end) (s9, C 0) [(s9, C 0); ((1 + n)%nat, C 9)];
  Do "" (fun _ vs => match vs with [s10] => Z.shiftr s10 21 | _ => 0 end) ((1 + n)%nat, C 10) [(s10, C 0)];
  Do "" (fun _ vs => match vs with [s11; carry_10] => i64 (s11 + carry_10) | _ => 0 end) (s11, C 0) [(s11, C 0); ((1 + n)%nat, C 10)];
  Do "" (fun _ vs => match vs with [s10; carry_10] => i64 (s10 - (i64 (Z.shiftl carry_10 21))) | _ => 0 end) (s10, C 0) [(s10, C 0); ((1 + n)%nat, C 10)];
  Do "" (fun _ vs => match vs with [s0; s1] => Z.lor (u32 s0) (u32 (i64 (Z.shiftl s1 21))) | _ => 0 end) (s, C 0) [(s0, C 0); (s1, C 0)];
  Do "" (fun _ vs => match vs with [s1; s2; s3] => Z.lor (Z.lor (u32 (Z.shiftr s1 11)) (u32 (i64 (Z.shiftl s2 10)))) (u32 (i64 (Z.shiftl s3 31))) | _ => 0 end) (s, C 1) [(s1, C 0); (s2, C 0); (s3, C 0)];
  Do "" (fun _ vs => match vs with [s3; s4] => Z.lor (u32 (Z.shiftr s3 1)) (u32 (i64 (Z.shiftl s4 20))) | _ => 0 end) (s, C 2) [(s3, C 0); (s4, C 0)];
  Do "" (fun _ vs => match vs with [s4; s5; s6] => Z.lor (Z.lor (u32 (Z.shiftr s4 12)) (u32 (i64 (Z.shiftl s5 9)))) (u32 (i64 (Z.shiftl s6 30))) | _ => 0 end) (s, C 3) [(s4, C 0); (s5, C 0); (s6, C 0)];
  Do "" (fun _ vs => match vs with [s6; s7] => Z.lor (u32 (Z.shiftr s6 2)) (u32 (i64 (Z.shiftl s7 19))) | _ => 0 end) (s, C 4) [(s6, C 0); (s7, C 0)];
  Do "" (fun _ vs => match vs with [s7; s8; s9] => Z.lor (Z.lor (u32 (Z.shiftr s7 13)) (u32 (i64 (Z.shiftl s8 8)))) (u32 (i64 (Z.shiftl s9 29))) | _ => 0 end) (s, C 5) [(s7, C 0); (s8, C 0); (s9, C 0)];
  Do "" (fun _ vs => match vs with [s9; s10] => Z.lor (u32 (Z.shiftr s9 3)) (u32 (i64 (Z.shiftl s10 18))) | _ => 0 end) (s, C 6) [(s9, C 0); (s10, C 0)];
  Do "" (fun _ vs => match vs with [s10; s11] => Z.lor (u32 (Z.shiftr s10 14)) (u32 (i64 (Z.shiftl s11 7))) | _ => 0 end) (s, C 7) [(s10, C 0); (s11, C 0)]].

(** [Square]: /repo/scalar.go:712-750; locals from [n] on: a0, a1, a2, a3, a4, a5, a6, a7, a8, a9, a10, a11, arg0, arg1, arg2, arg3, arg4, arg5, arg6, arg7, arg8, arg9, arg10, arg11, arg12, arg13, arg14, arg15, arg16, arg17, arg18, arg19, arg20, arg21, arg22 *)
Definition d_sc_square (s a n : nat) : stmt Z := prog [
  Do "" (fun _ vs => match vs with [a_0] => Z.land a_0 2097151 | _ => 0 end) ((0 + n)%nat, C 0) [(a, C 0)];
  Do "" (fun _ vs => match vs with [a_0; a_1] => Z.land (Z.lor (Z.shiftr a_0 21) (u32 (Z.shiftl a_1 11))) 2097151 | _ => 0 end) ((1 + n)%nat, C 0) [(a, C 0); (a, C 1)];
  Do "" (fun _ vs => match vs with [a_1] => Z.land (Z.shiftr a_1 10) 2097151 | _ => 0 end) ((2 + n)%nat, C 0) [(a, C 1)];
  Do "" (fun _ vs => match vs with [a_1; a_2] => Z.land (Z.lor (Z.shiftr a_1 31) (u32 (Z.shiftl a_2 1))) 2097151 | _ => 0 end) ((3 + n)%nat, C 0) [(a, C 1); (a, C 2)];
  Do "" (fun _ vs => match vs with [a_2; a_3] => Z.land (Z.lor (Z.shiftr a_2 20) (u32 (Z.shiftl a_3 12))) 2097151 | _ => 0 end) ((4 + n)%nat, C 0) [(a, C 2); (a, C 3)];
  Do "" (fun _ vs => match vs with [a_3] => Z.land (Z.shiftr a_3 9) 2097151 | _ => 0 end) ((5 + n)%nat, C 0) [(a, C 3)];
  Do "" (fun _ vs => match vs with [a_3; a_4] => Z.land (Z.lor (Z.shiftr a_3 30) (u32 (Z.shiftl a_4 2))) 2097151 | _ => 0 end) ((6 + n)%nat, C 0) [(a, C 3); (a, C 4)];
  Do "" (fun _ vs => match vs with [a_4; a_5] => Z.land (Z.lor (Z.shiftr a_4 19) (u32 (Z.shiftl a_5 13))) 2097151 | _ => 0 end) ((7 + n)%nat, C 0) [(a, C 4); (a, C 5)];
  Do "" (fun _ vs => match vs with [a_5] => Z.land (Z.shiftr a_5 8) 2097151 | _ => 0 end) ((8 + n)%nat, C 0) [(a, C 5)];
  Do "" (fun _ vs => match vs with [a_5; a_6] => Z.land (Z.lor (Z.shiftr a_5 29) (u32 (Z.shiftl a_6 3))) 2097151 | _ => 0 end) ((9 + n)%nat, C 0) [(a, C 5); (a, C 6)];
  Do "" (fun _ vs => match vs with [a_6; a_7] => Z.land (Z.lor (Z.shiftr a_6 18) (u32 (Z.shiftl a_7 14))) 2097151 | _ => 0 end) ((10 + n)%nat, C 0) [(a, C 6); (a, C 7)];
  Do "" (fun _ vs => match vs with [a_7] => Z.shiftr a_7 7 | _ => 0 end) ((11 + n)%nat, C 0) [(a, C 7)];
  Do "" (fun _ vs => match vs with [a0] => i64 (a0 * a0) | _ => 0 end) ((12 + n)%nat, C 0) [((0 + n)%nat, C 0)];
  Do "" (fun _ vs => match vs with [a0; a1] => i64 ((i64 (2 * a0)) * a1) | _ => 0 end) ((13 + n)%nat, C 0) [((0 + n)%nat, C 0); ((1 + n)%nat, C 0)];
  Do "" (fun _ vs => match vs with [a0; a2; a1] => i64 ((i64 ((i64 (2 * a0)) * a2)) + (i64 (a1 * a1))) | _ => 0 end) ((14 + n)%nat, C 0) [((0 + n)%nat, C 0); ((2 + n)%nat, C 0); ((1 + n)%nat, C 0)];
  Do "" (fun _ vs => match vs with [a0; a3; a1; a2] => i64 (2 * (i64 ((i64 (a0 * a3)) + (i64 (a1 * a2))))) | _ => 0 end) ((15 + n)%nat, C 0) [((0 + n)%nat, C 0); ((3 + n)%nat, C 0); ((1 + n)%nat, C 0); ((2 + n)%nat, C 0)];
  Do "" (fun _ vs => match vs with [a0; a4; a1; a3; a2] => i64 ((i64 (2 * (i64 ((i64 (a0 * a4)) + (i64 (a1 * a3)))))) + (i64 (a2 * a2))) | _ => 0 end) ((16 + n)%nat, C 0) [((0 + n)%nat, C 0); ((4 + n)%nat, C 0); ((1 + n)%nat, C 0); ((3 + n)%nat, C 0); ((2 + n)%nat, C 0)];
  Do "" (fun _ vs => match vs with [a0; a5; a1; a4; a2; a3] => i64 (2 * (i64 ((i64 ((i64 (a0 * a5)) + (i64 (a1 * a4)))) + (i64 (a2 * a3))))) | _ => 0 end) ((17 + n)%nat, C 0) [((0 + n)%nat, C 0); ((5 + n)%nat, C 0); ((1 + n)%nat, C 0); ((4 + n)%nat, C 0); ((2 + n)%nat, C 0); ((3 + n)%nat, C 0)];
  Do "" (fun _ vs => match vs with [a0; a6; a1; a5; a2; a4; a3] => i64 ((i64 (2 * (i64 ((i64 ((i64 (a0 * a6)) + (i64 (a1 * a5)))) + (i64 (a2 * a4)))))) + (i64 (a3 * a3))) | _ => 0 end) ((18 + n)%nat, C 0) [((0 + n)%nat, C 0); ((6 + n)%nat, C 0); ((1 + n)%nat, C 0); ((5 + n)%nat, C 0); ((2 + n)%nat, C 0); ((4 + n)%nat, C 0); ((3 + n)%nat, C 0)];
  Do "" (fun _ vs => match vs with [a0; a7; a1; a6; a2; a5; a3; a4] => i64 (2 * (i64 ((i64 ((i64 ((i64 (a0 * a7)) + (i64 (a1 * a6)))) + (i64 (a2 * a5)))) + (i64 (a3 * a4))))) | _ => 0 end) ((19 + n)%nat, C 0) [((0 + n)%nat, C 0); ((7 + n)%nat, C 0); ((1 + n)%nat, C 0); ((6 + n)%nat, C 0); ((2 + n)%nat, C 0); ((5 + n)%nat, C 0); ((3 + n)%nat, C 0); ((4 + n)%nat, C 0)];
  Do "" (fun _ vs => match vs with [a0; a8; a1; a7; a2; a6; a3; a5; a4] => i64 ((i64 (2 * (i64 ((i64 ((i64 ((i64 (a0 * a8)) + (i64 (a1 * a7)))) + (i64 (a2 * a6)))) + (i64 (a3 * a5)))))) + (i64 (a4 * a4))) | _ => 0 end) ((20 + n)%nat, C 0) [((0 + n)%nat, C 0); ((8 + n)%nat, C 0); ((1 + n)%nat, C 0); ((7 + n)%nat, C 0); ((2 + n)%nat, C 0); ((6 + n)%nat, C 0); ((3 + n)%nat, C 0); ((5 + n)%nat, C 0); ((4 + n)%nat, C 0)];
  Do "" (fun _ vs => match vs with [a0; a9; a1; a8; a2; a7; a3; a6; a4; a5] => i64 (2 * (i64 ((i64 ((i64 ((i64 ((i64 (a0 * a9)) + (i64 (a1 * a8)))) + (i64 (a2 * a7)))) + (i64 (a3 * a6)))) + (i64 (a4 * a5))))) | _ => 0 end) ((21 + n)%nat, C 0) [((0 + n)%nat, C 0); ((9 + n)%nat, C 0); ((1 + n)%nat, C 0); ((8 + n)%nat, C 0); ((2 + n)%nat, C 0); ((7 + n)%nat, C 0); ((3 + n)%nat, C 0); ((6 + n)%nat, C 0); ((4 + n)%nat, C 0); ((5 + n)%nat, C 0)];
  Do "" (fun _ vs => match vs with [a0; a10; a1; a9; a2; a8; a3; a7; a4; a6; a5] => i64 ((i64 (2 * (i64 ((i64 ((i64 ((i64 ((i64 (a0 * a10)) + (i64 (a1 * a9)))) + (i64 (a2 * a8)))) + (i64 (a3 * a7)))) + (i64 (a4 * a6)))))) + (i64 (a5 * a5))) | _ => 0 end) ((22 + n)%nat, C 0) [((0 + n)%nat, C 0); ((10 + n)%nat, C 0); ((1 + n)%nat, C 0); ((9 + n)%nat, C 0); ((2 + n)%nat, C 0); ((8 + n)%nat, C 0); ((3 + n)%nat, C 0); ((7 + n)%nat, C 0); ((4 + n)%nat, C 0); ((6 + n)%nat, C 0); ((5 + n)%nat, C 0)];
  Do "" (fun _ vs => match vs with [a0; a11; a1; a10; a2; a9; a3; a8; a4; a7; a5; a6] => i64 (2 * (i64 ((i64 ((i64 ((i64 ((i64 ((i64 (a0 * a11)) + (i64 (a1 * a10)))) + (i64 (a2 * a9)))) + (i64 (a3 * a8)))) + (i64 (a4 * a7)))) + (i64 (a5 * a6))))) | _ => 0 end) ((23 + n)%nat, C 0) [((0 + n)%nat, C 0); ((11 + n)%nat, C 0); ((1 + n)%nat, C 0); ((10 + n)%nat, C 0); ((2 + n)%nat, C 0); ((9 + n)%nat, C 0); ((3 + n)%nat, C 0); ((8 + n)%nat, C 0); ((4 + n)%nat, C 0); ((7 + n)%nat, C 0); ((5 + n)%nat, C 0); ((6 + n)%nat, C 0)];
  Do "" (fun _ vs => match vs with [a1; a11; a2; a10; a3; a9; a4; a8; a5; a7; a6] => i64 ((i64 (2 * (i64 ((i64 ((i64 ((i64 ((i64 (a1 * a11)) + (i64 (a2 * a10)))) + (i64 (a3 * a9)))) + (i64 (a4 * a8)))) + (i64 (a5 * a7)))))) + (i64 (a6 * a6))) | _ => 0 end) ((24 + n)%nat, C 0) [((1 + n)%nat, C 0); ((11 + n)%nat, C 0); ((2 + n)%nat, C 0); ((10 + n)%nat, C 0); ((3 + n)%nat, C 0); ((9 + n)%nat, C 0); ((4 + n)%nat, C 0); ((8 + n)%nat, C 0); ((5 + n)%nat, C 0); ((7 + n)%nat, C 0); ((6 + n)%nat, C 0)];
  Do "" (fun _ vs => match vs with [a2; a11; a3; a10; a4; a9; a5; a8; a6; a7] => i64 (2 * (i64 ((i64 ((i64 ((i64 ((i64 (a2 * a11)) + (i64 (a3 * a10)))) + (i64 (a4 * a9)))) + (i64 (a5 * a8)))) + (i64 (a6 * a7))))) | _ => 0 end) ((25 + n)%nat, C 0) [((2 + n)%nat, C 0); ((11 + n)%nat, C 0); ((3 + n)%nat, C 0); ((10 + n)%nat, C 0); ((4 + n)%nat, C 0); ((9 + n)%nat, C 0); ((5 + n)%nat, C 0); ((8 + n)%nat, C 0); ((6 + n)%nat, C 0); ((7 + n)%nat, C 0)];
  Do "" (fun _ vs => match vs with [a3; a11; a4; a10; a5; a9; a6; a8; a7] => i64 ((i64 (2 * (i64 ((i64 ((i64 ((i64 (a3 * a11)) + (i64 (a4 * a10)))) + (i64 (a5 * a9)))) + (i64 (a6 * a8)))))) + (i64 (a7 * a7))) | _ => 0 end) ((26 + n)%nat, C 0) [((3 + n)%nat, C 0); ((11 + n)%nat, C 0); ((4 + n)%nat, C 0); ((10 + n)%nat, C 0); ((5 + n)%nat, C 0); ((9 + n)%nat, C 0); ((6 + n)%nat, C 0); ((8 + n)%nat, C 0); ((7 + n)%nat, C 0)];
  Do "" (fun _ vs => match vs with [a4; a11; a5; a10; a6; a9; a7; a8] => i64 (2 * (i64 ((i64 ((i64 ((i64 (a4 * a11)) + (i64 (a5 * a10)))) + (i64 (a6 * a9)))) + (i64 (a7 * a8))))) | _ => 0 end) ((27 + n)%nat, C 0) [((4 + n)%nat, C 0); ((11 + n)%nat, C 0); ((5 + n)%nat, C 0); ((10 + n)%nat, C 0); ((6 + n)%nat, C 0); ((9 + n)%nat, C 0); ((7 + n)%nat, C 0); ((8 + n)%nat, C 0)];
  Do "" (fun _ vs => match vs with [a5; a11; a6; a10; a7; a9; a8] => i64 ((i64 (2 * (i64 ((i64 ((i64 (a5 * a11)) + (i64 (a6 * a10)))) + (i64 (a7 * a9)))))) + (i64 (a8 * a8))) | _ => 0 end) ((28 + n)%nat, C 0) [((5 + n)%nat, C 0); ((11 + n)%nat, C 0); ((6 + n)%nat, C 0); ((10 + n)%nat, C 0); ((7 + n)%nat, C 0); ((9 + n)%nat, C 0); ((8 + n)%nat, C 0)];
  Do "" (fun _ vs => match vs with [a6; a11; a7; a10; a8; a9] => i64 (2 * (i64 ((i64 ((i64 (a6 * a11)) + (i64 (a7 * a10)))) + (i64 (a8 * a9))))) | _ => 0 end) ((29 + n)%nat, C 0) [((6 + n)%nat, C 0); ((11 + n)%nat, C 0); ((7 + n)%nat, C 0); ((10 + n)%nat, C 0); ((8 + n)%nat, C 0); ((9 + n)%nat, C 0)];
  Do "" (fun _ vs => match vs with [a7; a11; a8; a10; a9] => i64 ((i64 (2 * (i64 ((i64 (a7 * a11)) + (i64 (a8 * a10)))))) + (i64 (a9 * a9))) | _ => 0 end) ((30 + n)%nat, C 0) [((7 + n)%nat, C 0); ((11 + n)%nat, C 0); ((8 + n)%nat, C 0); ((10 + n)%nat, C 0); ((9 + n)%nat, C 0)];
  Do "" (fun _ vs => match vs with [a8; a11; a9; a10] => i64 (2 * (i64 ((i64 (a8 * a11)) + (i64 (a9 * a10))))) | _ => 0 end) ((31 + n)%nat, C 0) [((8 + n)%nat, C 0); ((11 + n)%nat, C 0); ((9 + n)%nat, C 0); ((10 + n)%nat, C 0)];
  Do "" (fun _ vs => match vs with [a9; a11; a10] => i64 ((i64 ((i64 (2 * a9)) * a11)) + (i64 (a10 * a10))) | _ => 0 end) ((32 + n)%nat, C 0) [((9 + n)%nat, C 0); ((11 + n)%nat, C 0); ((10 + n)%nat, C 0)];
  Do "" (fun _ vs => match vs with [a10; a11] => i64 ((i64 (2 * a10)) * a11) | _ => 0 end) ((33 + n)%nat, C 0) [((10 + n)%nat, C 0); ((11 + n)%nat, C 0)];
  Do "" (fun _ vs => match vs with [a11] => i64 (a11 * a11) | _ => 0 end) ((34 + n)%nat, C 0) [((11 + n)%nat, C 0)];
  d_sc_reduceAfterMul s (12 + n)%nat (13 + n)%nat (14 + n)%nat (15 + n)%nat (16 + n)%nat (17 + n)%nat (18 + n)%nat (19 + n)%nat (20 + n)%nat (21 + n)%nat (22 + n)%nat (23 + n)%nat (24 + n)%nat (25 + n)%nat (26 + n)%nat (27 + n)%nat (28 + n)%nat (29 + n)%nat (30 + n)%nat (31 + n)%nat (32 + n)%nat (33 + n)%nat (34 + n)%nat (35 + n)%nat].

(** [Mul]: /repo/scalar.go:753-804; locals from [n] on: a0, a1, a2, a3, a4, a5, a6, a7, a8, a9, a10, a11, b0, b1, b2, b3, b4, b5, b6, b7, b8, b9, b10, b11, arg0, arg1, arg2, arg3, arg4, arg5, arg6, arg7, arg8, arg9, arg10, arg11, arg12, arg13, arg14, arg15, arg16, arg17, arg18, arg19, arg20, arg21, arg22 *)
Definition d_sc_mul (s a b n : nat) : stmt Z := prog [
  Do "" (fun _ vs => match vs with [a_0] => Z.land a_0 2097151 | _ => 0 end) ((0 + n)%nat, C 0) [(a, C 0)];
  Do "" (fun _ vs => match vs with [a_0; a_1] => Z.land (Z.lor (Z.shiftr a_0 21) (u32 (Z.shiftl a_1 11))) 2097151 | _ => 0 end) ((1 + n)%nat, C 0) [(a, C 0); (a, C 1)];
  Do "" (fun _ vs => match vs with [a_1] => Z.land (Z.shiftr a_1 10) 2097151 | _ => 0 end) ((2 + n)%nat, C 0) [(a, C 1)];
  Do "" (fun _ vs => match vs with [a_1; a_2] => Z.land (Z.lor (Z.shiftr a_1 31) (u32 (Z.shiftl a_2 1))) 2097151 | _ => 0 end) ((3 + n)%nat, C 0) [(a, C 1); (a, C 2)];
  Do "" (fun _ vs => match vs with [a_2; a_3] => Z.land (Z.lor (Z.shiftr a_2 20) (u32 (Z.shiftl a_3 12))) 2097151 | _ => 0 end) ((4 + n)%nat, C 0) [(a, C 2); (a, C 3)];
  Do "" (fun _ vs => match vs with [a_3] => Z.land (Z.shiftr a_3 9) 2097151 | _ => 0 end) ((5 + n)%nat, C 0) [(a, C 3)];
  Do "" (fun _ vs => match vs with [a_3; a_4] => Z.land (Z.lor (Z.shiftr a_3 30) (u32 (Z.shiftl a_4 2))) 2097151 | _ => 0 end) ((6 + n)%nat, C 0) [(a, C 3); (a, C 4)];
  Do "" (fun _ vs => match vs with [a_4; a_5] => Z.land (Z.lor (Z.shiftr a_4 19) (u32 (Z.shiftl a_5 13))) 2097151 | _ => 0 end) ((7 + n)%nat, C 0) [(a, C 4); (a, C 5)];
  Do "" (fun _ vs => match vs with [a_5] => Z.land (Z.shiftr a_5 8) 2097151 | _ => 0 end) ((8 + n)%nat, C 0) [(a, C 5)];
  Do "" (fun _ vs => match vs with [a_5; a_6] => Z.land (Z.lor (Z.shiftr a_5 29) (u32 (Z.shiftl a_6 3))) 2097151 | _ => 0 end) ((9 + n)%nat, C 0) [(a, C 5); (a, C 6)];
  Do "" (fun _ vs => match vs with [a_6; a_7] => Z.land (Z.lor (Z.shiftr a_6 18) (u32 (Z.shiftl a_7 14))) 2097151 | _ => 0 end) ((10 + n)%nat, C 0) [(a, C 6); (a, C 7)];
  Do "" (fun _ vs => match vs with [a_7] => Z.shiftr a_7 7 | _ => 0 end) ((11 + n)%nat, C 0) [(a, C 7)];
  Do "" (fun _ vs => match vs with [b_0] => Z.land b_0 2097151 | _ => 0 end) ((12 + n)%nat, C 0) [(b, C 0)];
  Do "" (fun _ vs => match vs with [b_0; b_1] => Z.land (Z.lor (Z.shiftr b_0 21) (u32 (Z.shiftl b_1 11))) 2097151 | _ => 0 end) ((13 + n)%nat, C 0) [(b, C 0); (b, C 1)];
  Do "" (fun _ vs => match vs with [b_1] => Z.land (Z.shiftr b_1 10) 2097151 | _ => 0 end) ((14 + n)%nat, C 0) [(b, C 1)];
  Do "" (fun _ vs => match vs with [b_1; b_2] => Z.land (Z.lor (Z.shiftr b_1 31) (u32 (Z.shiftl b_2 1))) 2097151 | _ => 0 end) ((15 + n)%nat, C 0) [(b, C 1); (b, C 2)];
  Do "" (fun _ vs => match vs with [b_2; b_3] => Z.land (Z.lor (Z.shiftr b_2 20) (u32 (Z.shiftl b_3 12))) 2097151 | _ => 0 end) ((16 + n)%nat, C 0) [(b, C 2); (b, C 3)];
  Do "" (fun _ vs => match vs with [b_3] => Z.land (Z.shiftr b_3 9) 2097151 | _ => 0 end) ((17 + n)%nat, C 0) [(b, C 3)];
  Do "" (fun _ vs => match vs with [b_3; b_4] => Z.land (Z.lor (Z.shiftr b_3 30) (u32 (Z.shiftl b_4 2))) 2097151 | _ => 0 end) ((18 + n)%nat, C 0) [(b, C 3); (b, C 4)];
  Do "" (fun _ vs => match vs with [b_4; b_5] => Z.land (Z.lor (Z.shiftr b_4 19) (u32 (Z.shiftl b_5 13))) 2097151 | _ => 0 end) ((19 + n)%nat, C 0) [(b, C 4); (b, C 5)];
  Do "" (fun _ vs => match vs with [b_5] => Z.land (Z.shiftr b_5 8) 2097151 | _ => 0 end) ((20 + n)%nat, C 0) [(b, C 5)];
  Do "" (fun _ vs => match vs with [b_5; b_6] => Z.land (Z.lor (Z.shiftr b_5 29) (u32 (Z.shiftl b_6 3))) 2097151 | _ => 0 end) ((21 + n)%nat, C 0) [(b, C 5); (b, C 6)];
  Do "" (fun _ vs => match vs with [b_6; b_7] => Z.land (Z.lor (Z.shiftr b_6 18) (u32 (Z.shiftl b_7 14))) 2097151 | _ => 0 end) ((22 + n)%nat, C 0) [(b, C 6); (b, C 7)];
  Do "" (fun _ vs => match vs with [b_7] => Z.shiftr b_7 7 | _ => 0 end) ((23 + n)%nat, C 0) [(b, C 7)];
  Do "" (fun _ vs => match vs with [a0; b0] => i64 (a0 * b0) | _ => 0 end) ((24 + n)%nat, C 0) [((0 + n)%nat, C 0); ((12 + n)%nat, C 0)];
  Do "" (fun _ vs => match vs with [a0; b1; a1; b0] => i64 ((i64 (a0 * b1)) + (i64 (a1 * b0))) | _ => 0 end) ((25 + n)%nat, C 0) [((0 + n)%nat, C 0); ((13 + n)%nat, C 0); ((1 + n)%nat, C 0); ((12 + n)%nat, C 0)];
  Do "" (fun _ vs => match vs with [a0; b2; a1; b1; a2; b0] => i64 ((i64 ((i64 (a0 * b2)) + (i64 (a1 * b1)))) + (i64 (a2 * b0))) | _ => 0 end) ((26 + n)%nat, C 0) [((0 + n)%nat, C 0); ((14 + n)%nat, C 0); ((1 + n)%nat, C 0); ((13 + n)%nat, C 0); ((2 + n)%nat, C 0); ((12 + n)%nat, C 0)];
  Do "" (fun _ vs => match vs with [a0; b3; a1; b2; a2; b1; a3; b0] => i64 ((i64 ((i64 ((i64 (a0 * b3)) + (i64 (a1 * b2)))) + (i64 (a2 * b1)))) + (i64 (a3 * b0))) | _ => 0 end) ((27 + n)%nat, C 0) [((0 + n)%nat, C 0); ((15 + n)%nat, C 0); ((1 + n)%nat, C 0); ((14 + n)%nat, C 0); ((2 + n)%nat, C 0); ((13 + n)%nat, C 0); ((3 + n)%nat, C 0); ((12 + n)%nat, C 0)];
  Do "" (fun _ vs => match vs with [a0; b4; a1; b3; a2; b2; a3; b1; a4; b0] => i64 ((i64 ((i64 ((i64 ((i64 (a0 * b4)) + (i64 (a1 * b3)))) + (i64 (a2 * b2)))) + (i64 (a3 * b1)))) + (i64 (a4 * b0))) | _ => 0 end) ((28 + n)%nat, C 0) [((0 + n)%nat, C 0); ((16 + n)%nat, C 0); ((1 + n)%nat, C 0); ((15 + n)%nat, C 0); ((2 + n)%nat, C 0); ((14 + n)%nat, C 0); ((3 + n)%nat, C 0); ((13 + n)%nat, C 0); ((4 + n)%nat, C 0); ((12 + n)%nat, C 0)];
  Do "" (fun _ vs => match vs with [a0; b5; a1; b4; a2; b3; a3; b2; a4; b1; a5; b0] => i64 ((i64 ((i64 ((i64 ((i64 ((i64 (a0 * b5)) + (i64 (a1 * b4)))) + (i64 (a2 * b3)))) + (i64 (a3 * b2)))) + (i64 (a4 * b1)))) + (i64 (a5 * b0))) | _ => 0 end) ((29 + n)%nat, C 0) [((0 + n)%nat, C 0); ((17 + n)%nat, C 0); ((1 + n)%nat, C 0); ((16 + n)%nat, C 0); ((2 + n)%nat, C 0); ((15 + n)%nat, C 0); ((3 + n)%nat, C 0); ((14 + n)%nat, C 0); ((4 + n)%nat, C 0); ((13 + n)%nat, C 0); ((5 + n)%nat, C 0); ((12 + n)%nat, C 0)];
  Do "" (fun _ vs => match vs with [a0; b6; a1; b5; a2; b4; a3; b3; a4; b2; a5; b1; a6; b0] => i64 ((i64 ((i64 ((i64 ((i64 ((i64 ((i64 (a0 * b6)) + (i64 (a1 * b5)))) + (i64 (a2 * b4)))) + (i64 (a3 * b3)))) + (i64 (a4 * b2)))) + (i64 (a5 * b1)))) + (i64 (a6 * b0))) | _ => 0 end) ((30 + n)%nat, C 0) [((0 + n)%nat, C 0); ((18 + n)%nat, C 0); ((1 + n)%nat, C 0); ((17 + n)%nat, C 0); ((2 + n)%nat, C 0); ((16 + n)%nat, C 0); ((3 + n)%nat, C 0); ((15 + n)%nat, C 0); ((4 + n)%nat, C 0); ((14 + n)%nat, C 0); ((5 + n)%nat, C 0); ((13 + n)%nat, C 0); ((6 + n)%nat, C 0); ((12 + n)%nat, C 0)];
  Do "" (fun _ vs => match vs with [a0; b7; a1; b6; a2; b5; a3; b4; a4; b3; a5; b2; a6; b1; a7; b0] => i64 ((i64 ((i64 ((i64 ((i64 ((i64 ((i64 ((i64 (a0 * b7)) + (i64 (a1 * b6)))) + (i64 (a2 * b5)))) + (i64 (a3 * b4)))) + (i64 (a4 * b3)))) + (i64 (a5 * b2)))) + (i64 (a6 * b1)))) + (i64 (a7 * b0))) | _ => 0 end) ((31 + n)%nat, C 0) [((0 + n)%nat, C 0); ((19 + n)%nat, C 0); ((1 + n)%nat, C 0); ((18 + n)%nat, C 0); ((2 + n)%nat, C 0); ((17 + n)%nat, C 0); ((3 + n)%nat, C 0); ((16 + n)%nat, C 0); ((4 + n)%nat, C 0); ((15 + n)%nat, C 0); ((5 + n)%nat, C 0); ((14 + n)%nat, C 0); ((6 + n)%nat, C 0); ((13 + n)%nat, C 0); ((7 + n)%nat, C 0); ((12 + n)%nat, C 0)];
  Do "" (fun _ vs => match vs with [a0; b8; a1; b7; a2; b6; a3; b5; a4; b4; a5; b3; a6; b2; a7; b1; a8; b0] => i64 ((i64 ((i64 ((i64 ((i64 ((i64 ((i64 ((i64 ((i64 (a0 * b8)) + (i64 (a1 * b7)))) + (i64 (a2 * b6)))) + (i64 (a3 * b5)))) + (i64 (a4 * b4)))) + (i64 (a5 * b3)))) + (i64 (a6 * b2)))) + (i64 (a7 * b1)))) + (i64 (a8 * b0))) | _ => 0 end) ((32 + n)%nat, C 0) [((0 + n)%nat, C 0); ((20 + n)%nat, C 0); ((1 + n)%nat, C 0); ((19 + n)%nat, C 0); ((2 + n)%nat, C 0); ((18 + n)%nat, C 0); ((3 + n)%nat, C 0); ((17 + n)%nat, C 0); ((4 + n)%nat, C 0); ((16 + n)%nat, C 0); ((5 + n)%nat, C 0); ((15 + n)%nat, C 0); ((6 + n)%nat, C 0); ((14 + n)%nat, C 0); ((7 + n)%nat, C 0); ((13 + n)%nat, C 0); ((8 + n)%nat, C 0); ((12 + n)%nat, C 0)];
  Do "" (fun _ vs => match vs with [a0; b9; a1; b8; a2; b7; a3; b6; a4; b5; a5; b4; a6; b3; a7; b2; a8; b1; a9; b0] => i64 ((i64 ((i64 ((i64 ((i64 ((i64 ((i64 ((i64 ((i64 ((i64 (a0 * b9)) + (i64 (a1 * b8)))) + (i64 (a2 * b7)))) + (i64 (a3 * b6)))) + (i64 (a4 * b5)))) + (i64 (a5 * b4)))) + (i64 (a6 * b3)))) + (i64 (a7 * b2)))) + (i64 (a8 * b1)))) + (i64 (a9 * b0))) | _ => 0 end) ((33 + n)%nat, C 0) [((0 + n)%nat, C 0); ((21 + n)%nat, C 0); ((1 + n)%nat, C 0); ((20 + n)%nat, C 0); ((2 + n)%nat, C 0); ((19 + n)%nat, C 0); ((3 + n)%nat, C 0); ((18 + n)%nat, C 0); ((4 + n)%nat, C 0); ((17 + n)%nat, C 0); ((5 + n)%nat, C 0); ((16 + n)%nat, C 0); ((6 + n)%nat, C 0); ((15 + n)%nat, C 0); ((7 + n)%nat, C 0); ((14 + n)%nat, C 0); ((8 + n)%nat, C 0); ((13 + n)%nat, C 0); ((9 + n)%nat, C 0); ((12 + n)%nat, C 0)];
  Do "" (fun _ vs => match vs with [a0; b10; a1; b9; a2; b8; a3; b7; a4; b6; a5; b5; a6; b4; a7; b3; a8; b2; a9; b1; a10; b0] => i64 ((i64 ((i64 ((i64 ((i64 ((i64 ((i64 ((i64 ((i64 ((i64 ((i64 (a0 * b10)) + (i64 (a1 * b9)))) + (i64 (a2 * b8)))) + (i64 (a3 * b7)))) + (i64 (a4 * b6)))) + (i64 (a5 * b5)))) + (i64 (a6 * b4)))) + (i64 (a7 * b3)))) + (i64 (a8 * b2)))) + (i64 (a9 * b1)))) + (i64 (a10 * b0))) | _ => 0 end) ((34 + n)%nat, C 0) [((0 + n)%nat, C 0); ((22 + n)%nat, C 0); ((1 + n)%nat, C 0); ((21 + n)%nat, C 0); ((2 + n)%nat, C 0); ((20 + n)%nat, C 0); ((3 + n)%nat, C 0); ((19 + n)%nat, C 0); ((4 + n)%nat, C 0); ((18 + n)%nat, C 0); ((5 + n)%nat, C 0); ((17 + n)%nat, C 0); ((6 + n)%nat, C 0); ((16 + n)%nat, C 0); ((7 + n)%nat, C 0); ((15 + n)%nat, C 0); ((8 + n)%nat, C 0); ((14 + n)%nat, C 0); ((9 + n)%nat, C 0); ((13 + n)%nat, C 0); ((10 + n)%nat, C 0); ((12 + n)%nat, C 0)];
  Do "" (fun _ vs => match vs with [a0; b11; a1; b10; a2; b9; a3; b8; a4; b7; a5; b6; a6; b5; a7; b4; a8; b3; a9; b2; a10; b1; a11; b0] => i64 ((i64 ((i64 ((i64 ((i64 ((i64 ((i64 ((i64 ((i64 ((i64 ((i64 ((i64 (a0 * b11)) + (i64 (a1 * b10)))) + (i64 (a2 * b9)))) + (i64 (a3 * b8)))) + (i64 (a4 * b7)))) + (i64 (a5 * b6)))) + (i64 (a6 * b5)))) + (i64 (a7 * b4)))) + (i64 (a8 * b3)))) + (i64 (a9 * b2)))) + (i64 (a10 * b1)))) + (i64 (a11 * b0))) | _ => 0 end) ((35 + n)%nat, C 0) [((0 + n)%nat, C 0); ((23 + n)%nat, C 0); ((1 + n)%nat, C 0); ((22 + n)%nat, C 0); ((2 + n)%nat, C 0); ((21 + n)%nat, C 0); ((3 + n)%nat, C 0); ((20 + n)%nat, C 0); ((4 + n)%nat, C 0); ((19 + n)%nat, C 0); ((5 + n)%nat, C 0); ((18 + n)%nat, C 0); ((6 + n)%nat, C 0); ((17 + n)%nat, C 0); ((7 + n)%nat, C 0); ((16 + n)%nat, C 0); ((8 + n)%nat, C 0); ((15 + n)%nat, C 0); ((9 + n)%nat, C 0); ((14 + n)%nat, C 0); ((10 + n)%nat, C 0); ((13 + n)%nat, C 0); ((11 + n)%nat, C 0); ((12 + n)%nat, C 0)];
  Do "" (fun _ vs => match vs with [a1; b11; a2; b10; a3; b9; a4; b8; a5; b7; a6; b6; a7; b5; a8; b4; a9; b3; a10; b2; a11; b1] => i64 ((i64 ((i64 ((i64 ((i64 ((i64 ((i64 ((i64 ((i64 ((i64 ((i64 (a1 * b11)) + (i64 (a2 * b10)))) + (i64 (a3 * b9)))) + (i64 (a4 * b8)))) + (i64 (a5 * b7)))) + (i64 (a6 * b6)))) + (i64 (a7 * b5)))) + (i64 (a8 * b4)))) + (i64 (a9 * b3)))) + (i64 (a10 * b2)))) + (i64 (a11 * b1))) | _ => 0 end) ((36 + n)%nat, C 0) [((1 + n)%nat, C 0); ((23 + n)%nat, C 0); ((2 + n)%nat, C 0); ((22 + n)%nat, C 0); ((3 + n)%nat, C 0); ((21 + n)%nat, C 0); ((4 + n)%nat, C 0); ((20 + n)%nat, C 0); ((5 + n)%nat, C 0); ((19 + n)%nat, C 0); ((6 + n)%nat, C 0); ((18 + n)%nat, C 0); ((7 + n)%nat, C 0); ((17 + n)%nat, C 0); ((8 + n)%nat, C 0); ((16 + n)%nat, C 0); ((9 + n)%nat, C 0); ((15 + n)%nat, C 0); ((10 + n)%nat, C 0); ((14 + n)%nat, C 0); ((11 + n)%nat, C 0); ((13 + n)%nat, C 0)];
  Do "" (fun _ vs => match vs with [a2; b11; a3; b10; a4; b9; a5; b8; a6; b7; a7; b6; a8; b5; a9; b4; a10; b3; a11; b2] => i64 ((i64 ((i64 ((i64 ((i64 ((i64 ((i64 ((i64 ((i64 ((i64 (a2 * b11)) + (i64 (a3 * b10)))) + (i64 (a4 * b9)))) + (i64 (a5 * b8)))) + (i64 (a6 * b7)))) + (i64 (a7 * b6)))) + (i64 (a8 * b5)))) + (i64 (a9 * b4)))) + (i64 (a10 * b3)))) + (i64 (a11 * b2))) | _ => 0 end) ((37 + n)%nat, C 0) [((2 + n)%nat, C 0); ((23 + n)%nat, C 0); ((3 + n)%nat, C 0); ((22 + n)%nat, C 0); ((4 + n)%nat, C 0); ((21 + n)%nat, C 0); ((5 + n)%nat, C 0); ((20 + n)%nat, C 0); ((6 + n)%nat, C 0); ((19 + n)%nat, C 0); ((7 + n)%nat, C 0); ((18 + n)%nat, C 0); ((8 + n)%nat, C 0); ((17 + n)%nat, C 0); ((9 + n)%nat, C 0); ((16 + n)%nat, C 0); ((10 + n)%nat, C 0); ((15 + n)%nat, C 0); ((11 + n)%nat, C 0); ((14 + n)%nat, C 0)];
  Do "" (fun _ vs => match vs with [a3; b11; a4; b10; a5; b9; a6; b8; a7; b7; a8; b6; a9; b5; a10; b4; a11; b3] => i64 ((i64 ((i64 ((i64 ((i64 ((i64 ((i64 ((i64 ((i64 (a3 * b11)) + (i64 (a4 * b10)))) + (i64 (a5 * b9)))) + (i64 (a6 * b8)))) + (i64 (a7 * b7)))) + (i64 (a8 * b6)))) + (i64 (a9 * b5)))) + (i64 (a10 * b4)))) + (i64 (a11 * b3))) | _ => 0 end) ((38 + n)%nat, C 0) [((3 + n)%nat, C 0); ((23 + n)%nat, C 0); ((4 + n)%nat, C 0); ((22 + n)%nat, C 0); ((5 + n)%nat, C 0); ((21 + n)%nat, C 0); ((6 + n)%nat, C 0); ((20 + n)%nat, C 0); ((7 + n)%nat, C 0); ((19 + n)%nat, C 0); ((8 + n)%nat, C 0); ((18 + n)%nat, C 0); ((9 + n)%nat, C 0); ((17 + n)%nat, C 0); ((10 + n)%nat, C 0); ((16 + n)%nat, C 0); ((11 + n)%nat, C 0); ((15 + n)%nat, C 0)];
  Do "" (fun _ vs => match vs with [a4; b11; a5; b10; a6; b9; a7; b8; a8; b7; a9; b6; a10; b5; a11; b4] => i64 ((i64 ((i64 ((i64 ((i64 ((i64 ((i64 ((i64 (a4 * b11)) + (i64 (a5 * b10)))) + (i64 (a6 * b9)))) + (i64 (a7 * b8)))) + (i64 (a8 * b7)))) + (i64 (a9 * b6)))) + (i64 (a10 * b5)))) + (i64 (a11 * b4))) | _ => 0 end) ((39 + n)%nat, C 0) [((4 + n)%nat, C 0); ((23 + n)%nat, C 0); ((5 + n)%nat, C 0); ((22 + n)%nat, C 0); ((6 + n)%nat, C 0); ((21 + n)%nat, C 0); ((7 + n)%nat, C 0); ((20 + n)%nat, C 0); ((8 + n)%nat, C 0); ((19 + n)%nat, C 0); ((9 + n)%nat, C 0); ((18 + n)%nat, C 0); ((10 + n)%nat, C 0); ((17 + n)%nat, C 0); ((11 + n)%nat, C 0); ((16 + n)%nat, C 0)];
  Do "" (fun _ vs => match vs with [a5; b11; a6; b10; a7; b9; a8; b8; a9; b7; a10; b6; a11; b5] => i64 ((i64 ((i64 ((i64 ((i64 ((i64 ((i64 (a5 * b11)) + (i64 (a6 * b10)))) + (i64 (a7 * b9)))) + (i64 (a8 * b8)))) + (i64 (a9 * b7)))) + (i64 (a10 * b6)))) + (i64 (a11 * b5))) | _ => 0 end) ((40 + n)%nat, C 0) [((5 + n)%nat, C 0); ((23 + n)%nat, C 0); ((6 + n)%nat, C 0); ((22 + n)%nat, C 0); ((7 + n)%nat, C 0); ((21 + n)%nat, C 0); ((8 + n)%nat, C 0); ((20 + n)%nat, C 0); ((9 + n)%nat, C 0); ((19 + n)%nat, C 0); ((10 + n)%nat, C 0); ((18 + n)%nat, C 0); ((11 + n)%nat, C 0); ((17 + n)%nat, C 0)];
  Do "" (fun _ vs => match vs with [a6; b11; a7; b10; a8; b9; a9; b8; a10; b7; a11; b6] => i64 ((i64 ((i64 ((i64 ((i64 ((i64 (a6 * b11)) + (i64 (a7 * b10)))) + (i64 (a8 * b9)))) + (i64 (a9 * b8)))) + (i64 (a10 * b7)))) + (i64 (a11 * b6))) | _ => 0 end) ((41 + n)%nat, C 0) [((6 + n)%nat, C 0); ((23 + n)%nat, C 0); ((7 + n)%nat, C 0); ((22 + n)%nat, C 0); ((8 + n)%nat, C 0); ((21 + n)%nat, C 0); ((9 + n)%nat, C 0); ((20 + n)%nat, C 0); ((10 + n)%nat, C 0); ((19 + n)%nat, C 0); ((11 + n)%nat, C 0); ((18 + n)%nat, C 0)];
  Do "" (fun _ vs => match vs with [a7; b11; a8; b10; a9; b9; a10; b8; a11; b7] => i64 ((i64 ((i64 ((i64 ((i64 (a7 * b11)) + (i64 (a8 * b10)))) + (i64 (a9 * b9)))) + (i64 (a10 * b8)))) + (i64 (a11 * b7))) | _ => 0 end) ((42 + n)%nat, C 0) [((7 + n)%nat, C 0); ((23 + n)%nat, C 0); ((8 + n)%nat, C 0); ((22 + n)%nat, C 0); ((9 + n)%nat, C 0); ((21 + n)%nat, C 0); ((10 + n)%nat, C 0); ((20 + n)%nat, C 0); ((11 + n)%nat, C 0); ((19 + n)%nat, C 0)];
  Do "" (fun _ vs => match vs with [a8; b11; a9; b10; a10; b9; a11; b8] => i64 ((i64 ((i64 ((i64 (a8 * b11)) + (i64 (a9 * b10)))) + (i64 (a10 * b9)))) + (i64 (a11 * b8))) | _ => 0 end) ((43 + n)%nat, C 0) [((8 + n)%nat, C 0); ((23 + n)%nat, C 0); ((9 + n)%nat, C 0); ((22 + n)%nat, C 0); ((10 + n)%nat, C 0); ((21 + n)%nat, C 0); ((11 + n)%nat, C 0); ((20 + n)%nat, C 0)];
  Do "" (fun _ vs => match vs with [a9; b11; a10; b10; a11; b9] => i64 ((i64 ((i64 (a9 * b11)) + (i64 (a10 * b10)))) + (i64 (a11 * b9))) | _ => 0 end) ((44 + n)%nat, C 0) [((9 + n)%nat, C 0); ((23 + n)%nat, C 0); ((10 + n)%nat, C 0); ((22 + n)%nat, C 0); ((11 + n)%nat, C 0); ((21 + n)%nat, C 0)];
  Do "" (fun _ vs => match vs with [a10; b11; a11; b10] => i64 ((i64 (a10 * b11)) + (i64 (a11 * b10))) | _ => 0 end) ((45 + n)%nat, C 0) [((10 + n)%nat, C 0); ((23 + n)%nat, C 0); ((11 + n)%nat, C 0); ((22 + n)%nat, C 0)];
  Do "" (fun _ vs => match vs with [a11; b11] => i64 (a11 * b11) | _ => 0 end) ((46 + n)%nat, C 0) [((11 + n)%nat, C 0); ((23 + n)%nat, C 0)];
  d_sc_reduceAfterMul s (24 + n)%nat (25 + n)%nat (26 + n)%nat (27 + n)%nat (28 + n)%nat (29 + n)%nat (30 + n)%nat (31 + n)%nat (32 + n)%nat (33 + n)%nat (34 + n)%nat (35 + n)%nat (36 + n)%nat (37 + n)%nat (38 + n)%nat (39 + n)%nat (40 + n)%nat (41 + n)%nat (42 + n)%nat (43 + n)%nat (44 + n)%nat (45 + n)%nat (46 + n)%nat (47 + n)%nat].

(** [MulAdd]: /repo/scalar.go:313-377; locals from [n] on: a0, a1, a2, a3, a4, a5, a6, a7, a8, a9, a10, a11, b0, b1, b2, b3, b4, b5, b6, b7, b8, b9, b10, b11, c0, c1, c2, c3, c4, c5, c6, c7, c8, c9, c10, c11, arg0, arg1, arg2, arg3, arg4, arg5, arg6, arg7, arg8, arg9, arg10, arg11, arg12, arg13, arg14, arg15, arg16, arg17, arg18, arg19, arg20, arg21, arg22 *)
Definition d_sc_mulAdd (s a b c n : nat) : stmt Z := prog [
  Do "" (fun _ vs => match vs with [a_0] => Z.land a_0 2097151 | _ => 0 end) ((0 + n)%nat, C 0) [(a, C 0)];
  Do "" (fun _ vs => match vs with [a_0; a_1] => Z.land (Z.lor (Z.shiftr a_0 21) (u32 (Z.shiftl a_1 11))) 2097151 | _ => 0 end) ((1 + n)%nat, C 0) [(a, C 0); (a, C 1)];
  Do "" (fun _ vs => match vs with [a_1] => Z.land (Z.shiftr a_1 10) 2097151 | _ => 0 end) ((2 + n)%nat, C 0) [(a, C 1)];
  Do "" (fun _ vs => match vs with [a_1; a_2] => Z.land (Z.lor (Z.shiftr a_1 31) (u32 (Z.shiftl a_2 1))) 2097151 | _ => 0 end) ((3 + n)%nat, C 0) [(a, C 1); (a, C 2)];
  Do "" (fun _ vs => match vs with [a_2; a_3] => Z.land (Z.lor (Z.shiftr a_2 20) (u32 (Z.shiftl a_3 12))) 2097151 | _ => 0 end) ((4 + n)%nat, C 0) [(a, C 2); (a, C 3)];
  Do "" (fun _ vs => match vs with [a_3] => Z.land (Z.shiftr a_3 9) 2097151 | _ => 0 end) ((5 + n)%nat, C 0) [(a, C 3)];
  Do "" (fun _ vs => match vs with [a_3; a_4] => Z.land (Z.lor (Z.shiftr a_3 30) (u32 (Z.shiftl a_4 2))) 2097151 | _ => 0 end) ((6 + n)%nat, C 0) [(a, C 3); (a, C 4)];
  Do "" (fun _ vs => match vs with [a_4; a_5] => Z.land (Z.lor (Z.shiftr a_4 19) (u32 (Z.shiftl a_5 13))) 2097151 | _ => 0 end) ((7 + n)%nat, C 0) [(a, C 4); (a, C 5)];
  Do "" (fun _ vs => match vs with [a_5] => Z.land (Z.shiftr a_5 8) 2097151 | _ => 0 end) ((8 + n)%nat, C 0) [(a, C 5)];
  Do "" (fun _ vs => match vs with [a_5; a_6] => Z.land (Z.lor (Z.shiftr a_5 29) (u32 (Z.shiftl a_6 3))) 2097151 | _ => 0 end) ((9 + n)%nat, C 0) [(a, C 5); (a, C 6)];
  Do "" (fun _ vs => match vs with [a_6; a_7] => Z.land (Z.lor (Z.shiftr a_6 18) (u32 (Z.shiftl a_7 14))) 2097151 | _ => 0 end) ((10 + n)%nat, C 0) [(a, C 6); (a, C 7)];
  Do "" (fun _ vs => match vs with [a_7] => Z.shiftr a_7 7 | _ => 0 end) ((11 + n)%nat, C 0) [(a, C 7)];
  Do "" (fun _ vs => match vs with [b_0] => Z.land b_0 2097151 | _ => 0 end) ((12 + n)%nat, C 0) [(b, C 0)];
  Do "" (fun _ vs => match vs with [b_0; b_1] => Z.land (Z.lor (Z.shiftr b_0 21) (u32 (Z.shiftl b_1 11))) 2097151 | _ => 0 end) ((13 + n)%nat, C 0) [(b, C 0); (b, C 1)];
  Do "" (fun _ vs => match vs with [b_1] => Z.land (Z.shiftr b_1 10) 2097151 | _ => 0 end) ((14 + n)%nat, C 0) [(b, C 1)];
  Do "" (fun _ vs => match vs with [b_1; b_2] => Z.land (Z.lor (Z.shiftr b_1 31) (u32 (Z.shiftl b_2 1))) 2097151 | _ => 0 end) ((15 + n)%nat, C 0) [(b, C 1); (b, C 2)];
  Do "" (fun _ vs => match vs with [b_2; b_3] => Z.land (Z.lor (Z.shiftr b_2 20) (u32 (Z.shiftl b_3 12))) 2097151 | _ => 0 end) ((16 + n)%nat, C 0) [(b, C 2); (b, C 3)];
  Do "" (fun _ vs => match vs with [b_3] => Z.land (Z.shiftr b_3 9) 2097151 | _ => 0 end) ((17 + n)%nat, C 0) [(b, C 3)];
  Do "" (fun _ vs => match vs with [b_3; b_4] => Z.land (Z.lor (Z.shiftr b_3 30) (u32 (Z.shiftl b_4 2))) 2097151 | _ => 0 end) ((18 + n)%nat, C 0) [(b, C 3); (b, C 4)];
  Do "" (fun _ vs => match vs with [b_4; b_5] => Z.land (Z.lor (Z.shiftr b_4 19) (u32 (Z.shiftl b_5 13))) 2097151 | _ => 0 end) ((19 + n)%nat, C 0) [(b, C 4); (b, C 5)];
  Do "" (fun _ vs => match vs with [b_5] => Z.land (Z.shiftr b_5 8) 2097151 | _ => 0 end) ((20 + n)%nat, C 0) [(b, C 5)];
  Do "" (fun _ vs => match vs with [b_5; b_6] => Z.land (Z.lor (Z.shiftr b_5 29) (u32 (Z.shiftl b_6 3))) 2097151 | _ => 0 end) ((21 + n)%nat, C 0) [(b, C 5); (b, C 6)];
  Do "" (fun _ vs => match vs with [b_6; b_7] => Z.land (Z.lor (Z.shiftr b_6 18) (u32 (Z.shiftl b_7 14))) 2097151 | _ => 0 end) ((22 + n)%nat, C 0) [(b, C 6); (b, C 7)];
  Do "" (fun _ vs => match vs with [b_7] => Z.shiftr b_7 7 | _ => 0 end) ((23 + n)%nat, C 0) [(b, C 7)];
  Do "" (fun _ vs => match vs with [c_0] => Z.land c_0 2097151 | _ => 0 end) ((24 + n)%nat, C 0) [(c, C 0)];
  Do "" (fun _ vs => match vs with [c_0; c_1] => Z.land (Z.lor (Z.shiftr c_0 21) (u32 (Z.shiftl c_1 11))) 2097151 | _ => 0 end) ((25 + n)%nat, C 0) [(c, C 0); (c, C 1)];
  Do "" (fun _ vs => match vs with [c_1] => Z.land (Z.shiftr c_1 10) 2097151 | _ => 0 end) ((26 + n)%nat, C 0) [(c, C 1)];
  Do "" (fun _ vs => match vs with [c_1; c_2] => Z.land (Z.lor (Z.shiftr c_1 31) (u32 (Z.shiftl c_2 1))) 2097151 | _ => 0 end) ((27 + n)%nat, C 0) [(c, C 1); (c, C 2)];
  Do "" (fun _ vs => match vs with [c_2; c_3] => Z.land (Z.lor (Z.shiftr c_2 20) (u32 (Z.shiftl c_3 12))) 2097151 | _ => 0 end) ((28 + n)%nat, C 0) [(c, C 2); (c, C 3)];
  Do "" (fun _ vs => match vs with [c_3] => Z.land (Z.shiftr c_3 9) 2097151 | _ => 0 end) ((29 + n)%nat, C 0) [(c, C 3)];
  Do "" (fun _ vs => match vs with [c_3; c_4] => Z.land (Z.lor (Z.shiftr c_3 30) (u32 (Z.shiftl c_4 2))) 2097151 | _ => 0 end) ((30 + n)%nat, C 0) [(c, C 3); (c, C 4)];
  Do "" (fun _ vs => match vs with [c_4; c_5] => Z.land (Z.lor (Z.shiftr c_4 19) (u32 (Z.shiftl c_5 13))) 2097151 | _ => 0 end) ((31 + n)%nat, C 0) [(c, C 4); (c, C 5)];
  Do "" (fun _ vs => match vs with [c_5] => Z.land (Z.shiftr c_5 8) 2097151 | _ => 0 end) ((32 + n)%nat, C 0) [(c, C 5)];
  Do "" (fun _ vs => match vs with [c_5; c_6] => Z.land (Z.lor (Z.shiftr c_5 29) (u32 (Z.shiftl c_6 3))) 2097151 | _ => 0 end) ((33 + n)%nat, C 0) [(c, C 5); (c, C 6)];
  Do "" (fun _ vs => match vs with [c_6; c_7] => Z.land (Z.lor (Z.shiftr c_6 18) (u32 (Z.shiftl c_7 14))) 2097151 | _ => 0 end) ((34 + n)%nat, C 0) [(c, C 6); (c, C 7)];
  Do "" (fun _ vs => match vs with [c_7] => Z.shiftr c_7 7 | _ => 0 end) ((35 + n)%nat, C 0) [(c, C 7)];
  Do "" (fun _ vs => match vs with [c0; a0; b0] => i64 (c0 + (i64 (a0 * b0))) | _ => 0 end) ((36 + n)%nat, C 0) [((24 + n)%nat, C 0); ((0 + n)%nat, C 0); ((12 + n)%nat, C 0)];
  Do "" (fun _ vs => match vs with [c1; a0; b1; a1; b0] => i64 ((i64 (c1 + (i64 (a0 * b1)))) + (i64 (a1 * b0))) | _ => 0 end) ((37 + n)%nat, C 0) [((25 + n)%nat, C 0); ((0 + n)%nat, C 0); ((13 + n)%nat, C 0); ((1 + n)%nat, C 0); ((12 + n)%nat, C 0)];
  Do "" (fun _ vs => match vs with [c2; a0; b2; a1; b1; a2; b0] => i64 ((i64 ((i64 (c2 + (i64 (a0 * b2)))) + (i64 (a1 * b1)))) + (i64 (a2 * b0))) | _ => 0 end) ((38 + n)%nat, C 0) [((26 + n)%nat, C 0); ((0 + n)%nat, C 0); ((14 + n)%nat, C 0); ((1 + n)%nat, C 0); ((13 + n)%nat, C 0); ((2 + n)%nat, C 0); ((12 + n)%nat, C 0)];
  Do "" (fun _ vs => match vs with [c3; a0; b3; a1; b2; a2; b1; a3; b0] => i64 ((i64 ((i64 ((i64 (c3 + (i64 (a0 * b3)))) + (i64 (a1 * b2)))) + (i64 (a2 * b1)))) + (i64 (a3 * b0))) | _ => 0 end) ((39 + n)%nat, C 0) [((27 + n)%nat, C 0); ((0 + n)%nat, C 0); ((15 + n)%nat, C 0); ((1 + n)%nat, C 0); ((14 + n)%nat, C 0); ((2 + n)%nat, C 0); ((13 + n)%nat, C 0); ((3 + n)%nat, C 0); ((12 + n)%nat, C 0)];
  Do "" (fun _ vs => match vs with [c4; a0; b4; a1; b3; a2; b2; a3; b1; a4; b0] => i64 ((i64 ((i64 ((i64 ((i64 (c4 + (i64 (a0 * b4)))) + (i64 (a1 * b3)))) + (i64 (a2 * b2)))) + (i64 (a3 * b1)))) + (i64 (a4 * b0))) | _ => 0 end) ((40 + n)%nat, C 0) [((28 + n)%nat, C 0); ((0 + n)%nat, C 0); ((16 + n)%nat, C 0); ((1 + n)%nat, C 0); ((15 + n)%nat, C 0); ((2 + n)%nat, C 0); ((14 + n)%nat, C 0); ((3 + n)%nat, C 0); ((13 + n)%nat, C 0); ((4 + n)%nat, C 0); ((12 + n)%nat, C 0)];
  Do "" (fun _ vs => match vs with [c5; a0; b5; a1; b4; a2; b3; a3; b2; a4; b1; a5; b0] => i64 ((i64 ((i64 ((i64 ((i64 ((i64 (c5 + (i64 (a0 * b5)))) + (i64 (a1 * b4)))) + (i64 (a2 * b3)))) + (i64 (a3 * b2)))) + (i64 (a4 * b1)))) + (i64 (a5 * b0))) | _ => 0 end) ((41 + n)%nat, C 0) [((29 + n)%nat, C 0); ((0 + n)%nat, C 0); ((17 + n)%nat, C 0); ((1 + n)%nat, C 0); ((16 + n)%nat, C 0); ((2 + n)%nat, C 0); ((15 + n)%nat, C 0); ((3 + n)%nat, C 0); ((14 + n)%nat, C 0); ((4 + n)%nat, C 0); ((13 + n)%nat, C 0); ((5 + n)%nat, C 0); ((12 + n)%nat, C 0)];
  Do "" (fun _ vs => match vs with [c6; a0; b6; a1; b5; a2; b4; a3; b3; a4; b2; a5; b1; a6; b0] => i64 ((i64 ((i64 ((i64 ((i64 ((i64 ((i64 (c6 + (i64 (a0 * b6)))) + (i64 (a1 * b5)))) + (i64 (a2 * b4)))) + (i64 (a3 * b3)))) + (i64 (a4 * b2)))) + (i64 (a5 * b1)))) + (i64 (a6 * b0))) | _ => 0 end) ((42 + n)%nat, C 0) [((30 + n)%nat, C 0); ((0 + n)%nat, C 0); ((18 + n)%nat, C 0); ((1 + n)%nat, C 0); ((17 + n)%nat, C 0); ((2 + n)%nat, C 0); ((16 + n)%nat, C 0); ((3 + n)%nat, C 0); ((15 + n)%nat, C 0); ((4 + n)%nat, C 0); ((14 + n)%nat, C 0); ((5 + n)%nat, C 0); ((13 + n)%nat, C 0); ((6 + n)%nat, C 0); ((12 + n)%nat, C 0)];
  Do "" (fun _ vs => match vs with [c7; a0; b7; a1; b6; a2; b5; a3; b4; a4; b3; a5; b2; a6; b1; a7; b0] => i64 ((i64 ((i64 ((i64 ((i64 ((i64 ((i64 ((i64 (c7 + (i64 (a0 * b7)))) + (i64 (a1 * b6)))) + (i64 (a2 * b5)))) + (i64 (a3 * b4)))) + (i64 (a4 * b3)))) + (i64 (a5 * b2)))) + (i64 (a6 * b1)))) + (i64 (a7 * b0))) | _ => 0 end) ((43 + n)%nat, C 0) [((31 + n)%nat, C 0); ((0 + n)%nat, C 0); ((19 + n)%nat, C 0); ((1 + n)%nat, C 0); ((18 + n)%nat, C 0); ((2 + n)%nat, C 0); ((17 + n)%nat, C 0); ((3 + n)%nat, C 0); ((16 + n)%nat, C 0); ((4 + n)%nat, C 0); ((15 + n)%nat, C 0); ((5 + n)%nat, C 0); ((14 + n)%nat, C 0); ((6 + n)%nat, C 0); ((13 + n)%nat, C 0); ((7 + n)%nat, C 0); ((12 + n)%nat, C 0)];
  Do "" (fun _ vs => match vs with [c8; a0; b8; a1; b7; a2; b6; a3; b5; a4; b4; a5; b3; a6; b2; a7; b1; a8; b0] => i64 ((i64 ((i64 ((i64 ((i64 ((i64 ((i64 ((i64 ((i64 (c8 + (i64 (a0 * b8)))) + (i64 (a1 * b7)))) + (i64 (a2 * b6)))) + (i64 (a3 * b5)))) + (i64 (a4 * b4)))) + (i64 (a5 * b3)))) + (i64 (a6 * b2)))) + (i64 (a7 * b1)))) + (i64 (a8 * b0))) | _ => 0 end) ((44 + n)%nat, C 0) [((32 + n)%nat, C 0); ((0 + n)%nat, C 0); ((20 + n)%nat, C 0); ((1 + n)%nat, C 0); ((19 + n)%nat, C 0); ((2 + n)%nat, C 0); ((18 + n)%nat, C 0); ((3 + n)%nat, C 0); ((17 + n)%nat, C 0); ((4 + n)%nat, C 0); ((16 + n)%nat, C 0); ((5 + n)%nat, C 0); ((15 + n)%nat, C 0); ((6 + n)%nat, C 0); ((14 + n)%nat, C 0); ((7 + n)%nat, C 0); ((13 + n)%nat, C 0); ((8 + n)%nat, C 0); ((12 + n)%nat, C 0)];
  Do "" (fun _ vs => match vs with [c9; a0; b9; a1; b8; a2; b7; a3; b6; a4; b5; a5; b4; a6; b3; a7; b2; a8; b1; a9; b0] => i64 ((i64 ((i64 ((i64 ((i64 ((i64 ((i64 ((i64 ((i64 ((i64 (c9 + (i64 (a0 * b9)))) + (i64 (a1 * b8)))) + (i64 (a2 * b7)))) + (i64 (a3 * b6)))) + (i64 (a4 * b5)))) + (i64 (a5 * b4)))) + (i64 (a6 * b3)))) + (i64 (a7 * b2)))) + (i64 (a8 * b1)))) + (i64 (a9 * b0))) | _ => 0 end) ((45 + n)%nat, C 0) [((33 + n)%nat, C 0); ((0 + n)%nat, C 0); ((21 + n)%nat, C 0); ((1 + n)%nat, C 0); ((20 + n)%nat, C 0); ((2 + n)%nat, C 0); ((19 + n)%nat, C 0); ((3 + n)%nat, C 0); ((18 + n)%nat, C 0); ((4 + n)%nat, C 0); ((17 + n)%nat, C 0); ((5 + n)%nat, C 0); ((16 + n)%nat, C 0); ((6 + n)%nat, C 0); ((15 + n)%nat, C 0); ((7 + n)%nat, C 0); ((14 + n)%nat, C 0); ((8 + n)%nat, C 0); ((13 + n)%nat, C 0); ((9 + n)%nat, C 0); ((12 + n)%nat, C 0)];
  Do "" (fun _ vs => match vs with [c10; a0; b10; a1; b9; a2; b8; a3; b7; a4; b6; a5; b5; a6; b4; a7; b3; a8; b2; a9; b1; a10; b0] => i64 ((i64 ((i64 ((i64 ((i64 ((i64 ((i64 ((i64 ((i64 ((i64 ((i64 (c10 + (i64 (a0 * b10)))) + (i64 (a1 * b9)))) + (i64 (a2 * b8)))) + (i64 (a3 * b7)))) + (i64 (a4 * b6)))) + (i64 (a5 * b5)))) + (i64 (a6 * b4)))) + (i64 (a7 * b3)))) + (i64 (a8 * b2)))) + (i64 (a9 * b1)))) + (i64 (a10 * b0))) | _ => 0 end) ((46 + n)%nat, C 0) [((34 + n)%nat, C 0); ((0 + n)%nat, C 0); ((22 + n)%nat, C 0); ((1 + n)%nat, C 0); ((21 + n)%nat, C 0); ((2 + n)%nat, C 0); ((20 + n)%nat, C 0); ((3 + n)%nat, C 0); ((19 + n)%nat, C 0); ((4 + n)%nat, C 0); ((18 + n)%nat, C 0); ((5 + n)%nat, C 0); ((17 + n)%nat, C 0); ((6 + n)%nat, C 0); ((16 + n)%nat, C 0); ((7 + n)%nat, C 0); ((15 + n)%nat, C 0); ((8 + n)%nat, C 0); ((14 + n)%nat, C 0); ((9 + n)%nat, C 0); ((13 + n)%nat, C 0); ((10 + n)%nat, C 0); ((12 + n)%nat, C 0)];
  Do "" (fun _ vs => match vs with [c11; a0; b11; a1; b10; a2; b9; a3; b8; a4; b7; a5; b6; a6; b5; a7; b4; a8; b3; a9; b2; a10; b1; a11; b0] => i64 ((i64 ((i64 ((i64 ((i64 ((i64 ((i64 ((i64 ((i64 ((i64 ((i64 ((i64 (c11 + (i64 (a0 * b11)))) + (i64 (a1 * b10)))) + (i64 (a2 * b9)))) + (i64 (a3 * b8)))) + (i64 (a4 * b7)))) + (i64 (a5 * b6)))) + (i64 (a6 * b5)))) + (i64 (a7 * b4)))) + (i64 (a8 * b3)))) + (i64 (a9 * b2)))) + (i64 (a10 * b1)))) + (i64 (a11 * b0))) | _ => 0 end) ((47 + n)%nat, C 0) [((35 + n)%nat, C 0); ((0 + n)%nat, C 0); ((23 + n)%nat, C 0); ((1 + n)%nat, C 0); ((22 + n)%nat, C 0); ((2 + n)%nat, C 0); ((21 + n)%nat, C 0); ((3 + n)%nat, C 0); ((20 + n)%nat, C 0); ((4 + n)%nat, C 0); ((19 + n)%nat, C 0); ((5 + n)%nat, C 0); ((18 + n)%nat, C 0); ((6 + n)%nat, C 0); ((17 + n)%nat, C 0); ((7 + n)%nat, C 0); ((16 + n)%nat, C 0); ((8 + n)%nat, C 0); ((15 + n)%nat, C 0); ((9 + n)%nat, C 0); ((14 + n)%nat, C 0); ((10 + n)%nat, C 0); ((13 + n)%nat, C 0); ((11 + n)%nat, C 0); ((12 + n)%nat, C 0)];
  Do "" (fun _ vs => match vs with [a1; b11; a2; b10; a3; b9; a4; b8; a5; b7; a6; b6; a7; b5; a8; b4; a9; b3; a10; b2; a11; b1] => i64 ((i64 ((i64 ((i64 ((i64 ((i64 ((i64 ((i64 ((i64 ((i64 ((i64 (a1 * b11)) + (i64 (a2 * b10)))) + (i64 (a3 * b9)))) + (i64 (a4 * b8)))) + (i64 (a5 * b7)))) + (i64 (a6 * b6)))) + (i64 (a7 * b5)))) + (i64 (a8 * b4)))) + (i64 (a9 * b3)))) + (i64 (a10 * b2)))) + (i64 (a11 * b1))) | _ => 0 end) ((48 + n)%nat, C 0) [((1 + n)%nat, C 0); ((23 + n)%nat, C 0); ((2 + n)%nat, C 0); ((22 + n)%nat, C 0); ((3 + n)%nat, C 0); ((21 + n)%nat, C 0); ((4 + n)%nat, C 0); ((20 + n)%nat, C 0); ((5 + n)%nat, C 0); ((19 + n)%nat, C 0); ((6 + n)%nat, C 0); ((18 + n)%nat, C 0); ((7 + n)%nat, C 0); ((17 + n)%nat, C 0); ((8 + n)%nat, C 0); ((16 + n)%nat, C 0); ((9 + n)%nat, C 0); ((15 + n)%nat, C 0); ((10 + n)%nat, C 0); ((14 + n)%nat, C 0); ((11 + n)%nat, C 0); ((13 + n)%nat, C 0)];
  Do "" (fun _ vs => match vs with [a2; b11; a3; b10; a4; b9; a5; b8; a6; b7; a7; b6; a8; b5; a9; b4; a10; b3; a11; b2] => i64 ((i64 ((i64 ((i64 ((i64 ((i64 ((i64 ((i64 ((i64 ((i64 (a2 * b11)) + (i64 (a3 * b10)))) + (i64 (a4 * b9)))) + (i64 (a5 * b8)))) + (i64 (a6 * b7)))) + (i64 (a7 * b6)))) + (i64 (a8 * b5)))) + (i64 (a9 * b4)))) + (i64 (a10 * b3)))) + (i64 (a11 * b2))) | _ => 0 end) ((49 + n)%nat, C 0) [((2 + n)%nat, C 0); ((23 + n)%nat, C 0); ((3 + n)%nat, C 0); ((22 + n)%nat, C 0); ((4 + n)%nat, C 0); ((21 + n)%nat, C 0); ((5 + n)%nat, C 0); ((20 + n)%nat, C 0); ((6 + n)%nat, C 0); ((19 + n)%nat, C 0); ((7 + n)%nat, C 0); ((18 + n)%nat, C 0); ((8 + n)%nat, C 0); ((17 + n)%nat, C 0); ((9 + n)%nat, C 0); ((16 + n)%nat, C 0); ((10 + n)%nat, C 0); ((15 + n)%nat, C 0); ((11 + n)%nat, C 0); ((14 + n)%nat, C 0)];
  Do "" (fun _ vs => match vs with [a3; b11; a4; b10; a5; b9; a6; b8; a7; b7; a8; b6; a9; b5; a10; b4; a11; b3] => i64 ((i64 ((i64 ((i64 ((i64 ((i64 ((i64 ((i64 ((i64 (a3 * b11)) + (i64 (a4 * b10)))) + (i64 (a5 * b9)))) + (i64 (a6 * b8)))) + (i64 (a7 * b7)))) + (i64 (a8 * b6)))) + (i64 (a9 * b5)))) + (i64 (a10 * b4)))) + (i64 (a11 * b3))) | _ => 0 end) ((50 + n)%nat, C 0) [((3 + n)%nat, C 0); ((23 + n)%nat, C 0); ((4 + n)%nat, C 0); ((22 + n)%nat, C 0); ((5 + n)%nat, C 0); ((21 + n)%nat, C 0); ((6 + n)%nat, C 0); ((20 + n)%nat, C 0); ((7 + n)%nat, C 0); ((19 + n)%nat, C 0); ((8 + n)%nat, C 0); ((18 + n)%nat, C 0); ((9 + n)%nat, C 0); ((17 + n)%nat, C 0); ((10 + n)%nat, C 0); ((16 + n)%nat, C 0); ((11 + n)%nat, C 0); ((15 + n)%nat, C 0)];
  Do "" (fun _ vs => match vs with [a4; b11; a5; b10; a6; b9; a7; b8; a8; b7; a9; b6; a10; b5; a11; b4] => i64 ((i64 ((i64 ((i64 ((i64 ((i64 ((i64 ((i64 (a4 * b11)) + (i64 (a5 * b10)))) + (i64 (a6 * b9)))) + (i64 (a7 * b8)))) + (i64 (a8 * b7)))) + (i64 (a9 * b6)))) + (i64 (a10 * b5)))) + (i64 (a11 * b4))) | _ => 0 end) ((51 + n)%nat, C 0) [((4 + n)%nat, C 0); ((23 + n)%nat, C 0); ((5 + n)%nat, C 0); ((22 + n)%nat, C 0); ((6 + n)%nat, C 0); ((21 + n)%nat, C 0); ((7 + n)%nat, C 0); ((20 + n)%nat, C 0); ((8 + n)%nat, C 0); ((19 + n)%nat, C 0); ((9 + n)%nat, C 0); ((18 + n)%nat, C 0); ((10 + n)%nat, C 0); ((17 + n)%nat, C 0); ((11 + n)%nat, C 0); ((16 + n)%nat, C 0)];
  Do "" (fun _ vs => match vs with [a5; b11; a6; b10; a7; b9; a8; b8; a9; b7; a10; b6; a11; b5] => i64 ((i64 ((i64 ((i64 ((i64 ((i64 ((i64 (a5 * b11)) + (i64 (a6 * b10)))) + (i64 (a7 * b9)))) + (i64 (a8 * b8)))) + (i64 (a9 * b7)))) + (i64 (a10 * b6)))) + (i64 (a11 * b5))) | _ => 0 end) ((52 + n)%nat, C 0) [((5 + n)%nat, C 0); ((23 + n)%nat, C 0); ((6 + n)%nat, C 0); ((22 + n)%nat, C 0); ((7 + n)%nat, C 0); ((21 + n)%nat, C 0); ((8 + n)%nat, C 0); ((20 + n)%nat, C 0); ((9 + n)%nat, C 0); ((19 + n)%nat, C 0); ((10 + n)%nat, C 0); ((18 + n)%nat, C 0); ((11 + n)%nat, C 0); ((17 + n)%nat, C 0)];
  Do "" (fun _ vs => match vs with [a6; b11; a7; b10; a8; b9; a9; b8; a10; b7; a11; b6] => i64 ((i64 ((i64 ((i64 ((i64 ((i64 (a6 * b11)) + (i64 (a7 * b10)))) + (i64 (a8 * b9)))) + (i64 (a9 * b8)))) + (i64 (a10 * b7)))) + (i64 (a11 * b6))) | _ => 0 end) ((53 + n)%nat, C 0) [((6 + n)%nat, C 0); ((23 + n)%nat, C 0); ((7 + n)%nat, C 0); ((22 + n)%nat, C 0); ((8 + n)%nat, C 0); ((21 + n)%nat, C 0); ((9 + n)%nat, C 0); ((20 + n)%nat, C 0); ((10 + n)%nat, C 0); ((19 + n)%nat, C 0); ((11 + n)%nat, C 0); ((18 + n)%nat, C 0)];
  Do "" (fun _ vs => match vs with [a7; b11; a8; b10; a9; b9; a10; b8; a11; b7] => i64 ((i64 ((i64 ((i64 ((i64 (a7 * b11)) + (i64 (a8 * b10)))) + (i64 (a9 * b9)))) + (i64 (a10 * b8)))) + (i64 (a11 * b7))) | _ => 0 end) ((54 + n)%nat, C 0) [((7 + n)%nat, C 0); ((23 + n)%nat, C 0); ((8 + n)%nat, C 0); ((22 + n)%nat, C 0); ((9 + n)%nat, C 0); ((21 + n)%nat, C 0); ((10 + n)%nat, C 0); ((20 + n)%nat, C 0); ((11 + n)%nat, C 0); ((19 + n)%nat, C 0)];
  Do "" (fun _ vs => match vs with [a8; b11; a9; b10; a10; b9; a11; b8] => i64 ((i64 ((i64 ((i64 (a8 * b11)) + (i64 (a9 * b10)))) + (i64 (a10 * b9)))) + (i64 (a11 * b8))) | _ => 0 end) ((55 + n)%nat, C 0) [((8 + n)%nat, C 0); ((23 + n)%nat, C 0); ((9 + n)%nat, C 0); ((22 + n)%nat, C 0); ((10 + n)%nat, C 0); ((21 + n)%nat, C 0); ((11 + n)%nat, C 0); ((20 + n)%nat, C 0)];
  Do "" (fun _ vs => match vs with [a9; b11; a10; b10; a11; b9] => i64 ((i64 ((i64 (a9 * b11)) + (i64 (a10 * b10)))) + (i64 (a11 * b9))) | _ => 0 end) ((56 + n)%nat, C 0) [((9 + n)%nat, C 0); ((23 + n)%nat, C 0); ((10 + n)%nat, C 0); ((22 + n)%nat, C 0); ((11 + n)%nat, C 0); ((21 + n)%nat, C 0)];
  Do "" (fun _ vs => match vs with [a10; b11; a11; b10] => i64 ((i64 (a10 * b11)) + (i64 (a11 * b10))) | _ => 0 end) ((57 + n)%nat, C 0) [((10 + n)%nat, C 0); ((23 + n)%nat, C 0); ((11 + n)%nat, C 0); ((22 + n)%nat, C 0)];
  Do "" (fun _ vs => match vs with [a11; b11] => i64 (a11 * b11) | _ => 0 end) ((58 + n)%nat, C 0) [((11 + n)%nat, C 0); ((23 + n)%nat, C 0)];
  d_sc_reduceAfterMul s (36 + n)%nat (37 + n)%nat (38 + n)%nat (39 + n)%nat (40 + n)%nat (41 + n)%nat (42 + n)%nat (43 + n)%nat (44 + n)%nat (45 + n)%nat (46 + n)%nat (47 + n)%nat (48 + n)%nat (49 + n)%nat (50 + n)%nat (51 + n)%nat (52 + n)%nat (53 + n)%nat (54 + n)%nat (55 + n)%nat (56 + n)%nat (57 + n)%nat (58 + n)%nat (59 + n)%nat].

(** [MulSub]: /repo/scalar.go:246-310; locals from [n] on: a0, a1, a2, a3, a4, a5, a6, a7, a8, a9, a10, a11, b0, b1, b2, b3, b4, b5, b6, b7, b8, b9, b10, b11, c0, c1, c2, c3, c4, c5, c6, c7, c8, c9, c10, c11, arg0, arg1, arg2, arg3, arg4, arg5, arg6, arg7, arg8, arg9, arg10, arg11, arg12, arg13, arg14, arg15, arg16, arg17, arg18, arg19, arg20, arg21, arg22 *)
Definition d_sc_mulSub (s a b c n : nat) : stmt Z := prog [
  Do "" (fun _ vs => match vs with [a_0] => Z.land a_0 2097151 | _ => 0 end) ((0 + n)%nat, C 0) [(a, C 0)];
  Do "" (fun _ vs => match vs with [a_0; a_1] => Z.land (Z.lor (Z.shiftr a_0 21) (u32 (Z.shiftl a_1 11))) 2097151 | _ => 0 end) ((1 + n)%nat, C 0) [(a, C 0); (a, C 1)];
  Do "" (fun _ vs => match vs with [a_1] => Z.land (Z.shiftr a_1 10) 2097151 | _ => 0 end) ((2 + n)%nat, C 0) [(a, C 1)];
  Do "" (fun _ vs => match vs with [a_1; a_2] => Z.land (Z.lor (Z.shiftr a_1 31) (u32 (Z.shiftl a_2 1))) 2097151 | _ => 0 end) ((3 + n)%nat, C 0) [(a, C 1); (a, C 2)];
  Do "" (fun _ vs => match vs with [a_2; a_3] => Z.land (Z.lor (Z.shiftr a_2 20) (u32 (Z.shiftl a_3 12))) 2097151 | _ => 0 end) ((4 + n)%nat, C 0) [(a, C 2); (a, C 3)];
  Do "" (fun _ vs => match vs with [a_3] => Z.land (Z.shiftr a_3 9) 2097151 | _ => 0 end) ((5 + n)%nat, C 0) [(a, C 3)];
  Do "" (fun _ vs => match vs with [a_3; a_4] => Z.land (Z.lor (Z.shiftr a_3 30) (u32 (Z.shiftl a_4 2))) 2097151 | _ => 0 end) ((6 + n)%nat, C 0) [(a, C 3); (a, C 4)];
  Do "" (fun _ vs => match vs with [a_4; a_5] => Z.land (Z.lor (Z.shiftr a_4 19) (u32 (Z.shiftl a_5 13))) 2097151 | _ => 0 end) ((7 + n)%nat, C 0) [(a, C 4); (a, C 5)];
  Do "" (fun _ vs => match vs with [a_5] => Z.land (Z.shiftr a_5 8) 2097151 | _ => 0 end) ((8 + n)%nat, C 0) [(a, C 5)];
  Do "" (fun _ vs => match vs with [a_5; a_6] => Z.land (Z.lor (Z.shiftr a_5 29) (u32 (Z.shiftl a_6 3))) 2097151 | _ => 0 end) ((9 + n)%nat, C 0) [(a, C 5); (a, C 6)];
  Do "" (fun _ vs => match vs with [a_6; a_7] => Z.land (Z.lor (Z.shiftr a_6 18) (u32 (Z.shiftl a_7 14))) 2097151 | _ => 0 end) ((10 + n)%nat, C 0) [(a, C 6); (a, C 7)];
  Do "" (fun _ vs => match vs with [a_7] => Z.shiftr a_7 7 | _ => 0 end) ((11 + n)%nat, C 0) [(a, C 7)];
  Do "" (fun _ vs => match vs with [b_0] => Z.land b_0 2097151 | _ => 0 end) ((12 + n)%nat, C 0) [(b, C 0)];
  Do "" (fun _ vs => match vs with [b_0; b_1] => Z.land (Z.lor (Z.shiftr b_0 21) (u32 (Z.shiftl b_1 11))) 2097151 | _ => 0 end) ((13 + n)%nat, C 0) [(b, C 0); (b, C 1)];
  Do "" (fun _ vs => match vs with [b_1] => Z.land (Z.shiftr b_1 10) 2097151 | _ => 0 end) ((14 + n)%nat, C 0) [(b, C 1)];
  Do "" (fun _ vs => match vs with [b_1; b_2] => Z.land (Z.lor (Z.shiftr b_1 31) (u32 (Z.shiftl b_2 1))) 2097151 | _ => 0 end) ((15 + n)%nat, C 0) [(b, C 1); (b, C 2)];
  Do "" (fun _ vs => match vs with [b_2; b_3] => Z.land (Z.lor (Z.shiftr b_2 20) (u32 (Z.shiftl b_3 12))) 2097151 | _ => 0 end) ((16 + n)%nat, C 0) [(b, C 2); (b, C 3)];
  Do "" (fun _ vs => match vs with [b_3] => Z.land (Z.shiftr b_3 9) 2097151 | _ => 0 end) ((17 + n)%nat, C 0) [(b, C 3)];
  Do "" (fun _ vs => match vs with [b_3; b_4] => Z.land (Z.lor (Z.shiftr b_3 30) (u32 (Z.shiftl b_4 2))) 2097151 | _ => 0 end) ((18 + n)%nat, C 0) [(b, C 3); (b, C 4)];
  Do "" (fun _ vs => match vs with [b_4; b_5] => Z.land (Z.lor (Z.shiftr b_4 19) (u32 (Z.shiftl b_5 13))) 2097151 | _ => 0 end) ((19 + n)%nat, C 0) [(b, C 4); (b, C 5)];
  Do "" (fun _ vs => match vs with [b_5] => Z.land (Z.shiftr b_5 8) 2097151 | _ => 0 end) ((20 + n)%nat, C 0) [(b, C 5)];
  Do "" (fun _ vs => match vs with [b_5; b_6] => Z.land (Z.lor (Z.shiftr b_5 29) (u32 (Z.shiftl b_6 3))) 2097151 | _ => 0 end) ((21 + n)%nat, C 0) [(b, C 5); (b, C 6)];
  Do "" (fun _ vs => match vs with [b_6; b_7] => Z.land (Z.lor (Z.shiftr b_6 18) (u32 (Z.shiftl b_7 14))) 2097151 | _ => 0 end) ((22 + n)%nat, C 0) [(b, C 6); (b, C 7)];
  Do "" (fun _ vs => match vs with [b_7] => Z.shiftr b_7 7 | _ => 0 end) ((23 + n)%nat, C 0) [(b, C 7)];
  Do "" (fun _ vs => match vs with [c_0] => Z.land c_0 2097151 | _ => 0 end) ((24 + n)%nat, C 0) [(c, C 0)];
  Do "" (fun _ vs => match vs with [c_0; c_1] => Z.land (Z.lor (Z.shiftr c_0 21) (u32 (Z.shiftl c_1 11))) 2097151 | _ => 0 end) ((25 + n)%nat, C 0) [(c, C 0); (c, C 1)];
  Do "" (fun _ vs => match vs with [c_1] => Z.land (Z.shiftr c_1 10) 2097151 | _ => 0 end) ((26 + n)%nat, C 0) [(c, C 1)];
  Do "" (fun _ vs => match vs with [c_1; c_2] => Z.land (Z.lor (Z.shiftr c_1 31) (u32 (Z.shiftl c_2 1))) 2097151 | _ => 0 end) ((27 + n)%nat, C 0) [(c, C 1); (c, C 2)];
  Do "" (fun _ vs => match vs with [c_2; c_3] => Z.land (Z.lor (Z.shiftr c_2 20) (u32 (Z.shiftl c_3 12))) 2097151 | _ => 0 end) ((28 + n)%nat, C 0) [(c, C 2); (c, C 3)];
  Do "" (fun _ vs => match vs with [c_3] => Z.land (Z.shiftr c_3 9) 2097151 | _ => 0 end) ((29 + n)%nat, C 0) [(c, C 3)];
  Do "" (fun _ vs => match vs with [c_3; c_4] => Z.land (Z.lor (Z.shiftr c_3 30) (u32 (Z.shiftl c_4 2))) 2097151 | _ => 0 end) ((30 + n)%nat, C 0) [(c, C 3); (c, C 4)];
  Do "" (fun _ vs => match vs with [c_4; c_5] => Z.land (Z.lor (Z.shiftr c_4 19) (u32 (Z.shiftl c_5 13))) 2097151 | _ => 0 end) ((31 + n)%nat, C 0) [(c, C 4); (c, C 5)];
  Do "" (fun _ vs => match vs with [c_5] => Z.land (Z.shiftr c_5 8) 2097151 | _ => 0 end) ((32 + n)%nat, C 0) [(c, C 5)];
  Do "" (fun _ vs => match vs with [c_5; c_6] => Z.land (Z.lor (Z.shiftr c_5 29) (u32 (Z.shiftl c_6 3))) 2097151 | _ => 0 end) ((33 + n)%nat, C 0) [(c, C 5); (c, C 6)];
  Do "" (fun _ vs => match vs with [c_6; c_7] => Z.land (Z.lor (Z.shiftr c_6 18) (u32 (Z.shiftl c_7 14))) 2097151 | _ => 0 end) ((34 + n)%nat, C 0) [(c, C 6); (c, C 7)];
  Do "" (fun _ vs => match vs with [c_7] => Z.shiftr c_7 7 | _ => 0 end) ((35 + n)%nat, C 0) [(c, C 7)];
  Do "" (fun _ vs => match vs with [c0; a0; b0] => i64 ((i64 (- c0)) + (i64 (a0 * b0))) | _ => 0 end) ((36 + n)%nat, C 0) [((24 + n)%nat, C 0); ((0 + n)%nat, C 0); ((12 + n)%nat, C 0)];
  Do "" (fun _ vs => match vs with [c1; a0; b1; a1; b0] => i64 ((i64 ((i64 (- c1)) + (i64 (a0 * b1)))) + (i64 (a1 * b0))) | _ => 0 end) ((37 + n)%nat, C 0) [((25 + n)%nat, C 0); ((0 + n)%nat, C 0); ((13 + n)%nat, C 0); ((1 + n)%nat, C 0); ((12 + n)%nat, C 0)];
  Do "" (fun _ vs => match vs with [c2; a0; b2; a1; b1; a2; b0] => i64 ((i64 ((i64 ((i64 (- c2)) + (i64 (a0 * b2)))) + (i64 (a1 * b1)))) + (i64 (a2 * b0))) | _ => 0 end) ((38 + n)%nat, C 0) [((26 + n)%nat, C 0); ((0 + n)%nat, C 0); ((14 + n)%nat, C 0); ((1 + n)%nat, C 0); ((13 + n)%nat, C 0); ((2 + n)%nat, C 0); ((12 + n)%nat, C 0)];
  Do "" (fun _ vs => match vs with [c3; a0; b3; a1; b2; a2; b1; a3; b0] => i64 ((i64 ((i64 ((i64 ((i64 (- c3)) + (i64 (a0 * b3)))) + (i64 (a1 * b2)))) + (i64 (a2 * b1)))) + (i64 (a3 * b0))) | _ => 0 end) ((39 + n)%nat, C 0) [((27 + n)%nat, C 0); ((0 + n)%nat, C 0); ((15 + n)%nat, C 0); ((1 + n)%nat, C 0); ((14 + n)%nat, C 0); ((2 + n)%nat, C 0); ((13 + n)%nat, C 0); ((3 + n)%nat, C 0); ((12 + n)%nat, C 0)];
  Do "" (fun _ vs => match vs with [c4; a0; b4; a1; b3; a2; b2; a3; b1; a4; b0] => i64 ((i64 ((i64 ((i64 ((i64 ((i64 (- c4)) + (i64 (a0 * b4)))) + (i64 (a1 * b3)))) + (i64 (a2 * b2)))) + (i64 (a3 * b1)))) + (i64 (a4 * b0))) | _ => 0 end) ((40 + n)%nat, C 0) [((28 + n)%nat, C 0); ((0 + n)%nat, C 0); ((16 + n)%nat, C 0); ((1 + n)%nat, C 0); ((15 + n)%nat, C 0); ((2 + n)%nat, C 0); ((14 + n)%nat, C 0); ((3 + n)%nat, C 0); ((13 + n)%nat, C 0); ((4 + n)%nat, C 0); ((12 + n)%nat, C 0)];
  Do "" (fun _ vs => match vs with [c5; a0; b5; a1; b4; a2; b3; a3; b2; a4; b1; a5; b0] => i64 ((i64 ((i64 ((i64 ((i64 ((i64 ((i64 (- c5)) + (i64 (a0 * b5)))) + (i64 (a1 * b4)))) + (i64 (a2 * b3)))) + (i64 (a3 * b2)))) + (i64 (a4 * b1)))) + (i64 (a5 * b0))) | _ => 0 end) ((41 + n)%nat, C 0) [((29 + n)%nat, C 0); ((0 + n)%nat, C 0); ((17 + n)%nat, C 0); ((1 + n)%nat, C 0); ((16 + n)%nat, C 0); ((2 + n)%nat, C 0); ((15 + n)%nat, C 0); ((3 + n)%nat, C 0); ((14 + n)%nat, C 0); ((4 + n)%nat, C 0); ((13 + n)%nat, C 0); ((5 + n)%nat, C 0); ((12 + n)%nat, C 0)];
  Do "" (fun _ vs => match vs with [c6; a0; b6; a1; b5; a2; b4; a3; b3; a4; b2; a5; b1; a6; b0] => i64 ((i64 ((i64 ((i64 ((i64 ((i64 ((i64 ((i64 (- c6)) + (i64 (a0 * b6)))) + (i64 (a1 * b5)))) + (i64 (a2 * b4)))) + (i64 (a3 * b3)))) + (i64 (a4 * b2)))) + (i64 (a5 * b1)))) + (i64 (a6 * b0))) | _ => 0 end) ((42 + n)%nat, C 0) [((30 + n)%nat, C 0); ((0 + n)%nat, C 0); ((18 + n)%nat, C 0); ((1 + n)%nat, C 0); ((17 + n)%nat, C 0); ((2 + n)%nat, C 0); ((16 + n)%nat, C 0); ((3 + n)%nat, C 0); ((15 + n)%nat, C 0); ((4 + n)%nat, C 0); ((14 + n)%nat, C 0); ((5 + n)%nat, C 0); ((13 + n)%nat, C 0); ((6 + n)%nat, C 0); ((12 + n)%nat, C 0)];
  Do "" (fun _ vs => match vs with [c7; a0; b7; a1; b6; a2; b5; a3; b4; a4; b3; a5; b2; a6; b1; a7; b0] => i64 ((i64 ((i64 ((i64 ((i64 ((i64 ((i64 ((i64 ((i64 (- c7)) + (i64 (a0 * b7)))) + (i64 (a1 * b6)))) + (i64 (a2 * b5)))) + (i64 (a3 * b4)))) + (i64 (a4 * b3)))) + (i64 (a5 * b2)))) + (i64 (a6 * b1)))) + (i64 (a7 * b0))) | _ => 0 end) ((43 + n)%nat, C 0) [((31 + n)%nat, C 0); ((0 + n)%nat, C 0); ((19 + n)%nat, C 0); ((1 + n)%nat, C 0); ((18 + n)%nat, C 0); ((2 + n)%nat, C 0); ((17 + n)%nat, C 0); ((3 + n)%nat, C 0); ((16 + n)%nat, C 0); ((4 + n)%nat, C 0); ((15 + n)%nat, C 0); ((5 + n)%nat, C 0); ((14 + n)%nat, C 0); ((6 + n)%nat, C 0); ((13 + n)%nat, C 0); ((7 + n)%nat, C 0); ((12 + n)%nat, C 0)];
  Do "" (fun _ vs => match vs with [c8; a0; b8; a1; b7; a2; b6; a3; b5; a4; b4; a5; b3; a6; b2; a7; b1; a8; b0] => i64 ((i64 ((i64 ((i64 ((i64 ((i64 ((i64 ((i64 ((i64 ((i64 (- c8)) + (i64 (a0 * b8)))) + (i64 (a1 * b7)))) + (i64 (a2 * b6)))) + (i64 (a3 * b5)))) + (i64 (a4 * b4)))) + (i64 (a5 * b3)))) + (i64 (a6 * b2)))) + (i64 (a7 * b1)))) + (i64 (a8 * b0))) | _ => 0 end) ((44 + n)%nat, C 0) [((32 + n)%nat, C 0); ((0 + n)%nat, C 0); ((20 + n)%nat, C 0); ((1 + n)%nat, C 0); ((19 + n)%nat, C 0); ((2 + n)%nat, C 0); ((18 + n)%nat, C 0); ((3 + n)%nat, C 0); ((17 + n)%nat, C 0); ((4 + n)%nat, C 0); ((16 + n)%nat, C 0); ((5 + n)%nat, C 0); ((15 + n)%nat, C 0); ((6 + n)%nat, C 0); ((14 + n)%nat, C 0); ((7 + n)%nat, C 0); ((13 + n)%nat, C 0); ((8 + n)%nat, C 0); ((12 + n)%nat, C 0)];
  Do "" (fun _ vs => match vs with [c9; a0; b9; a1; b8; a2; b7; a3; b6; a4; b5; a5; b4; a6; b3; a7; b2; a8; b1; a9; b0] => i64 ((i64 ((i64 ((i64 ((i64 ((i64 ((i64 ((i64 ((i64 ((i64 ((i64 (- c9)) + (i64 (a0 * b9)))) + (i64 (a1 * b8)))) + (i64 (a2 * b7)))) + (i64 (a3 * b6)))) + (i64 (a4 * b5)))) + (i64 (a5 * b4)))) + (i64 (a6 * b3)))) + (i64 (a7 * b2)))) + (i64 (a8 * b1)))) + (i64 (a9 * b0))) | _ => 0 end) ((45 + n)%nat, C 0) [((33 + n)%nat, C 0); ((0 + n)%nat, C 0); ((21 + n)%nat, C 0); ((1 + n)%nat, C 0); ((20 + n)%nat, C 0); ((2 + n)%nat, C 0); ((19 + n)%nat, C 0); ((3 + n)%nat, C 0); ((18 + n)%nat, C 0); ((4 + n)%nat, C 0); ((17 + n)%nat, C 0); ((5 + n)%nat, C 0); ((16 + n)%nat, C 0); ((6 + n)%nat, C 0); ((15 + n)%nat, C 0); ((7 + n)%nat, C 0); ((14 + n)%nat, C 0); ((8 + n)%nat, C 0); ((13 + n)%nat, C 0); ((9 + n)%nat, C 0); ((12 + n)%nat, C 0)];
  Do "" (fun _ vs => match vs with [c10; a0; b10; a1; b9; a2; b8; a3; b7; a4; b6; a5; b5; a6; b4; a7; b3; a8; b2; a9; b1; a10; b0] => i64 ((i64 ((i64 ((i64 ((i64 ((i64 ((i64 ((i64 ((i64 ((i64 ((i64 ((i64 (- c10)) + (i64 (a0 * b10)))) + (i64 (a1 * b9)))) + (i64 (a2 * b8)))) + (i64 (a3 * b7)))) + (i64 (a4 * b6)))) + (i64 (a5 * b5)))) + (i64 (a6 * b4)))) + (i64 (a7 * b3)))) + (i64 (a8 * b2)))) + (i64 (a9 * b1)))) + (i64 (a10 * b0))) | _ => 0 end) ((46 + n)%nat, C 0) [((34 + n)%nat, C 0); ((0 + n)%nat, C 0); ((22 + n)%nat, C 0); ((1 + n)%nat, C 0); ((21 + n)%nat, C 0); ((2 + n)%nat, C 0); ((20 + n)%nat, C 0); ((3 + n)%nat, C 0); ((19 + n)%nat, C 0); ((4 + n)%nat, C 0); ((18 + n)%nat, C 0); ((5 + n)%nat, C 0); ((17 + n)%nat, C 0); ((6 + n)%nat, C 0); ((16 + n)%nat, C 0); ((7 + n)%nat, C 0); ((15 + n)%nat, C 0); ((8 + n)%nat, C 0); ((14 + n)%nat, C 0); ((9 + n)%nat, C 0); ((13 + n)%nat, C 0); ((10 + n)%nat, C 0); ((12 + n)%nat, C 0)];
  Do "" (fun _ vs => match vs with [c11; a0; b11; a1; b10; a2; b9; a3; b8; a4; b7; a5; b6; a6; b5; a7; b4; a8; b3; a9; b2; a10; b1; a11; b0] => i64 ((i64 ((i64 ((i64 ((i64 ((i64 ((i64 ((i64 ((i64 ((i64 ((i64 ((i64 ((i64 (- c11)) + (i64 (a0 * b11)))) + (i64 (a1 * b10)))) + (i64 (a2 * b9)))) + (i64 (a3 * b8)))) + (i64 (a4 * b7)))) + (i64 (a5 * b6)))) + (i64 (a6 * b5)))) + (i64 (a7 * b4)))) + (i64 (a8 * b3)))) + (i64 (a9 * b2)))) + (i64 (a10 * b1)))) + (i64 (a11 * b0))) | _ => 0 end) ((47 + n)%nat, C 0) [((35 + n)%nat, C 0); ((0 + n)%nat, C 0); ((23 + n)%nat, C 0); ((1 + n)%nat, C 0); ((22 + n)%nat, C 0); ((2 + n)%nat, C 0); ((21 + n)%nat, C 0); ((3 + n)%nat, C 0); ((20 + n)%nat, C 0); ((4 + n)%nat, C 0); ((19 + n)%nat, C 0); ((5 + n)%nat, C 0); ((18 + n)%nat, C 0); ((6 + n)%nat, C 0); ((17 + n)%nat, C 0); ((7 + n)%nat, C 0); ((16 + n)%nat, C 0); ((8 + n)%nat, C 0); ((15 + n)%nat, C 0); ((9 + n)%nat, C 0); ((14 + n)%nat, C 0); ((10 + n)%nat, C 0); ((13 + n)%nat, C 0); ((11 + n)%nat, C 0); ((12 + n)%nat, C 0)];
  Do "" (fun _ vs => match vs with [a1; b11; a2; b10; a3; b9; a4; b8; a5; b7; a6; b6; a7; b5; a8; b4; a9; b3; a10; b2; a11; b1] => i64 ((i64 ((i64 ((i64 ((i64 ((i64 ((i64 ((i64 ((i64 ((i64 ((i64 (a1 * b11)) + (i64 (a2 * b10)))) + (i64 (a3 * b9)))) + (i64 (a4 * b8)))) + (i64 (a5 * b7)))) + (i64 (a6 * b6)))) + (i64 (a7 * b5)))) + (i64 (a8 * b4)))) + (i64 (a9 * b3)))) + (i64 (a10 * b2)))) + (i64 (a11 * b1))) | _ => 0 end) ((48 + n)%nat, C 0) [((1 + n)%nat, C 0); ((23 + n)%nat, C 0); ((2 + n)%nat, C 0); ((22 + n)%nat, C 0); ((3 + n)%nat, C 0); ((21 + n)%nat, C 0); ((4 + n)%nat, C 0); ((20 + n)%nat, C 0); ((5 + n)%nat, C 0); ((19 + n)%nat, C 0); ((6 + n)%nat, C 0); ((18 + n)%nat, C 0); ((7 + n)%nat, C 0); ((17 + n)%nat, C 0); ((8 + n)%nat, C 0); ((16 + n)%nat, C 0); ((9 + n)%nat, C 0); ((15 + n)%nat, C 0); ((10 + n)%nat, C 0); ((14 + n)%nat, C 0); ((11 + n)%nat, C 0); ((13 + n)%nat, C 0)];
  Do "" (fun _ vs => match vs with [a2; b11; a3; b10; a4; b9; a5; b8; a6; b7; a7; b6; a8; b5; a9; b4; a10; b3; a11; b2] => i64 ((i64 ((i64 ((i64 ((i64 ((i64 ((i64 ((i64 ((i64 ((i64 (a2 * b11)) + (i64 (a3 * b10)))) + (i64 (a4 * b9)))) + (i64 (a5 * b8)))) + (i64 (a6 * b7)))) + (i64 (a7 * b6)))) + (i64 (a8 * b5)))) + (i64 (a9 * b4)))) + (i64 (a10 * b3)))) + (i64 (a11 * b2))) | _ => 0 end) ((49 + n)%nat, C 0) [((2 + n)%nat, C 0); ((23 + n)%nat, C 0); ((3 + n)%nat, C 0); ((22 + n)%nat, C 0); ((4 + n)%nat, C 0); ((21 + n)%nat, C 0); ((5 + n)%nat, C 0); ((20 + n)%nat, C 0); ((6 + n)%nat, C 0); ((19 + n)%nat, C 0); ((7 + n)%nat, C 0); ((18 + n)%nat, C 0); ((8 + n)%nat, C 0); ((17 + n)%nat, C 0); ((9 + n)%nat, C 0); ((16 + n)%nat, C 0); ((10 + n)%nat, C 0); ((15 + n)%nat, C 0); ((11 + n)%nat, C 0); ((14 + n)%nat, C 0)];
  Do "" (fun _ vs => match vs with [a3; b11; a4; b10; a5; b9; a6; b8; a7; b7; a8; b6; a9; b5; a10; b4; a11; b3] => i64 ((i64 ((i64 ((i64 ((i64 ((i64 ((i64 ((i64 ((i64 (a3 * b11)) + (i64 (a4 * b10)))) + (i64 (a5 * b9)))) + (i64 (a6 * b8)))) + (i64 (a7 * b7)))) + (i64 (a8 * b6)))) + (i64 (a9 * b5)))) + (i64 (a10 * b4)))) + (i64 (a11 * b3))) | _ => 0 end) ((50 + n)%nat, C 0) [((3 + n)%nat, C 0); ((23 + n)%nat, C 0); ((4 + n)%nat, C 0); ((22 + n)%nat, C 0); ((5 + n)%nat, C 0); ((21 + n)%nat, C 0); ((6 + n)%nat, C 0); ((20 + n)%nat, C 0); ((7 + n)%nat, C 0); ((19 + n)%nat, C 0); ((8 + n)%nat, C 0); ((18 + n)%nat, C 0); ((9 + n)%nat, C 0); ((17 + n)%nat, C 0); ((10 + n)%nat, C 0); ((16 + n)%nat, C 0); ((11 + n)%nat, C 0); ((15 + n)%nat, C 0)];
  Do "" (fun _ vs => match vs with [a4; b11; a5; b10; a6; b9; a7; b8; a8; b7; a9; b6; a10; b5; a11; b4] => i64 ((i64 ((i64 ((i64 ((i64 ((i64 ((i64 ((i64 (a4 * b11)) + (i64 (a5 * b10)))) + (i64 (a6 * b9)))) + (i64 (a7 * b8)))) + (i64 (a8 * b7)))) + (i64 (a9 * b6)))) + (i64 (a10 * b5)))) + (i64 (a11 * b4))) | _ => 0 end) ((51 + n)%nat, C 0) [((4 + n)%nat, C 0); ((23 + n)%nat, C 0); ((5 + n)%nat, C 0); ((22 + n)%nat, C 0); ((6 + n)%nat, C 0); ((21 + n)%nat, C 0); ((7 + n)%nat, C 0); ((20 + n)%nat, C 0); ((8 + n)%nat, C 0); ((19 + n)%nat, C 0); ((9 + n)%nat, C 0); ((18 + n)%nat, C 0); ((10 + n)%nat, C 0); ((17 + n)%nat, C 0); ((11 + n)%nat, C 0); ((16 + n)%nat, C 0)];
  Do "" (fun _ vs => match vs with [a5; b11; a6; b10; a7; b9; a8; b8; a9; b7; a10; b6; a11; b5] => i64 ((i64 ((i64 ((i64 ((i64 ((i64 ((i64 (a5 * b11)) + (i64 (a6 * b10)))) + (i64 (a7 * b9)))) + (i64 (a8 * b8)))) + (i64 (a9 * b7)))) + (i64 (a10 * b6)))) + (i64 (a11 * b5))) | _ => 0 end) ((52 + n)%nat, C 0) [((5 + n)%nat, C 0); ((23 + n)%nat, C 0); ((6 + n)%nat, C 0); ((22 + n)%nat, C 0); ((7 + n)%nat, C 0); ((21 + n)%nat, C 0); ((8 + n)%nat, C 0); ((20 + n)%nat, C 0); ((9 + n)%nat, C 0); ((19 + n)%nat, C 0); ((10 + n)%nat, C 0); ((18 + n)%nat, C 0); ((11 + n)%nat, C 0); ((17 + n)%nat, C 0)];
  Do "" (fun _ vs => match vs with [a6; b11; a7; b10; a8; b9; a9; b8; a10; b7; a11; b6] => i64 ((i64 ((i64 ((i64 ((i64 ((i64 (a6 * b11)) + (i64 (a7 * b10)))) + (i64 (a8 * b9)))) + (i64 (a9 * b8)))) + (i64 (a10 * b7)))) + (i64 (a11 * b6))) | _ => 0 end) ((53 + n)%nat, C 0) [((6 + n)%nat, C 0); ((23 + n)%nat, C 0); ((7 + n)%nat, C 0); ((22 + n)%nat, C 0); ((8 + n)%nat, C 0); ((21 + n)%nat, C 0); ((9 + n)%nat, C 0); ((20 + n)%nat, C 0); ((10 + n)%nat, C 0); ((19 + n)%nat, C 0); ((11 + n)%nat, C 0); ((18 + n)%nat, C 0)];
  Do "" (fun _ vs => match vs with [a7; b11; a8; b10; a9; b9; a10; b8; a11; b7] => i64 ((i64 ((i64 ((i64 ((i64 (a7 * b11)) + (i64 (a8 * b10)))) + (i64 (a9 * b9)))) + (i64 (a10 * b8)))) + (i64 (a11 * b7))) | _ => 0 end) ((54 + n)%nat, C 0) [((7 + n)%nat, C 0); ((23 + n)%nat, C 0); ((8 + n)%nat, C 0); ((22 + n)%nat, C 0); ((9 + n)%nat, C 0); ((21 + n)%nat, C 0); ((10 + n)%nat, C 0); ((20 + n)%nat, C 0); ((11 + n)%nat, C 0); ((19 + n)%nat, C 0)];
  Do "" (fun _ vs => match vs with [a8; b11; a9; b10; a10; b9; a11; b8] => i64 ((i64 ((i64 ((i64 (a8 * b11)) + (i64 (a9 * b10)))) + (i64 (a10 * b9)))) + (i64 (a11 * b8))) | _ => 0 end) ((55 + n)%nat, C 0) [((8 + n)%nat, C 0); ((23 + n)%nat, C 0); ((9 + n)%nat, C 0); ((22 + n)%nat, C 0); ((10 + n)%nat, C 0); ((21 + n)%nat, C 0); ((11 + n)%nat, C 0); ((20 + n)%nat, C 0)];
  Do "" (fun _ vs => match vs with [a9; b11; a10; b10; a11; b9] => i64 ((i64 ((i64 (a9 * b11)) + (i64 (a10 * b10)))) + (i64 (a11 * b9))) | _ => 0 end) ((56 + n)%nat, C 0) [((9 + n)%nat, C 0); ((23 + n)%nat, C 0); ((10 + n)%nat, C 0); ((22 + n)%nat, C 0); ((11 + n)%nat, C 0); ((21 + n)%nat, C 0)];
  Do "" (fun _ vs => match vs with [a10; b11; a11; b10] => i64 ((i64 (a10 * b11)) + (i64 (a11 * b10))) | _ => 0 end) ((57 + n)%nat, C 0) [((10 + n)%nat, C 0); ((23 + n)%nat, C 0); ((11 + n)%nat, C 0); ((22 + n)%nat, C 0)];
  Do "" (fun _ vs => match vs with [a11; b11] => i64 (a11 * b11) | _ => 0 end) ((58 + n)%nat, C 0) [((11 + n)%nat, C 0); ((23 + n)%nat, C 0)];
  d_sc_reduceAfterMul s (36 + n)%nat (37 + n)%nat (38 + n)%nat (39 + n)%nat (40 + n)%nat (41 + n)%nat (42 + n)%nat (43 + n)%nat (44 + n)%nat (45 + n)%nat (46 + n)%nat (47 + n)%nat (48 + n)%nat (49 + n)%nat (50 + n)%nat (51 + n)%nat (52 + n)%nat (53 + n)%nat (54 + n)%nat (55 + n)%nat (56 + n)%nat (57 + n)%nat (58 + n)%nat (59 + n)%nat].

(** [ConditionalSet]: /repo/scalar.go:1458-1468; locals from [n] on: m *)
Definition d_sc_condSet (s t b n : nat) : stmt Z := prog [
  Do "" (fun _ vs => match vs with [b] => u32 (i32 (- b)) | _ => 0 end) ((0 + n)%nat, C 0) [(b, C 0)];
  Do "" (fun _ vs => match vs with [s_0; m; t_0] => Z.lxor s_0 (Z.land m (Z.lxor s_0 t_0)) | _ => 0 end) (s, C 0) [(s, C 0); ((0 + n)%nat, C 0); (t, C 0)];
  Do "" (fun _ vs => match vs with [s_1; m; t_1] => Z.lxor s_1 (Z.land m (Z.lxor s_1 t_1)) | _ => 0 end) (s, C 1) [(s, C 1); ((0 + n)%nat, C 0); (t, C 1)];
  Do "" (fun _ vs => match vs with [s_2; m; t_2] => Z.lxor s_2 (Z.land m (Z.lxor s_2 t_2)) | _ => 0 end) (s, C 2) [(s, C 2); ((0 + n)%nat, C 0); (t, C 2)];
  Do "" (fun _ vs => match vs with [s_3; m; t_3] => Z.lxor s_3 (Z.land m (Z.lxor s_3 t_3)) | _ => 0 end) (s, C 3) [(s, C 3); ((0 + n)%nat, C 0); (t, C 3)];
  Do "" (fun _ vs => match vs with [s_4; m; t_4] => Z.lxor s_4 (Z.land m (Z.lxor s_4 t_4)) | _ => 0 end) (s, C 4) [(s, C 4); ((0 + n)%nat, C 0); (t, C 4)];
  Do "" (fun _ vs => match vs with [s_5; m; t_5] => Z.lxor s_5 (Z.land m (Z.lxor s_5 t_5)) | _ => 0 end) (s, C 5) [(s, C 5); ((0 + n)%nat, C 0); (t, C 5)];
  Do "" (fun _ vs => match vs with [s_6; m; t_6] => Z.lxor s_6 (Z.land m (Z.lxor s_6 t_6)) | _ => 0 end) (s, C 6) [(s, C 6); ((0 + n)%nat, C 0); (t, C 6)];
  Do "" (fun _ vs => match vs with [s_7; m; t_7] => Z.lxor s_7 (Z.land m (Z.lxor s_7 t_7)) | _ => 0 end) (s, C 7) [(s, C 7); ((0 + n)%nat, C 0); (t, C 7)]].

(** [Neg]: /repo/scalar.go:117-119; locals from [n] on: none *)
Definition d_sc_neg (s a scZero n : nat) : stmt Z := prog [
  d_sc_sub s scZero a (0 + n)%nat].

(** [Neg]: /repo/edwards25519/field_radix51.go:102-124; locals from [n] on: t *)
Definition d_r51_neg (fe a n : nat) : stmt Z := prog [
  Do "" (fun _ vs => match vs with [a_0] => a_0 | _ => 0 end) ((0 + n)%nat, C 0) [(a, C 0)];
  Do "" (fun _ vs => match vs with [a_1] => a_1 | _ => 0 end) ((0 + n)%nat, C 1) [(a, C 1)];
  Do "" (fun _ vs => match vs with [a_2] => a_2 | _ => 0 end) ((0 + n)%nat, C 2) [(a, C 2)];
  Do "" (fun _ vs => match vs with [a_3] => a_3 | _ => 0 end) ((0 + n)%nat, C 3) [(a, C 3)];
  Do "" (fun _ vs => match vs with [a_4] => a_4 | _ => 0 end) ((0 + n)%nat, C 4) [(a, C 4)];
  Do "" (fun _ vs => match vs with [t_1; t_0] => u64 (t_1 + (Z.shiftr t_0 51)) | _ => 0 end) ((0 + n)%nat, C 1) [((0 + n)%nat, C 1); ((0 + n)%nat, C 0)];
  Do "" (fun _ vs => match vs with [t_0] => Z.land t_0 2251799813685247 | _ => 0 end) ((0 + n)%nat, C 0) [((0 + n)%nat, C 0)];
  Do "" (fun _ vs => match vs with [t_2; t_1] => u64 (t_2 + (Z.shiftr t_1 51)) | _ => 0 end) ((0 + n)%nat, C 2) [((0 + n)%nat, C 2); ((0 + n)%nat, C 1)];
  Do "" (fun _ vs => match vs with [t_1] => Z.land t_1 2251799813685247 | _ => 0 end) ((0 + n)%nat, C 1) [((0 + n)%nat, C 1)];
  Do "" (fun _ vs => match vs with [t_3; t_2] => u64 (t_3 + (Z.shiftr t_2 51)) | _ => 0 end) ((0 + n)%nat, C 3) [((0 + n)%nat, C 3); ((0 + n)%nat, C 2)];
  Do "" (fun _ vs => match vs with [t_2] => Z.land t_2 2251799813685247 | _ => 0 end) ((0 + n)%nat, C 2) [((0 + n)%nat, C 2)];
  Do "" (fun _ vs => match vs with [t_4; t_3] => u64 (t_4 + (Z.shiftr t_3 51)) | _ => 0 end) ((0 + n)%nat, C 4) [((0 + n)%nat, C 4); ((0 + n)%nat, C 3)];
  Do "" (fun _ vs => match vs with [t_3] => Z.land t_3 2251799813685247 | _ => 0 end) ((0 + n)%nat, C 3) [((0 + n)%nat, C 3)];
  Do "" (fun _ vs => match vs with [t_0; t_4] => u64 (t_0 + (u64 ((Z.shiftr t_4 51) * 19))) | _ => 0 end) ((0 + n)%nat, C 0) [((0 + n)%nat, C 0); ((0 + n)%nat, C 4)];
  Do "" (fun _ vs => match vs with [t_4] => Z.land t_4 2251799813685247 | _ => 0 end) ((0 + n)%nat, C 4) [((0 + n)%nat, C 4)];
  Do "" (fun _ vs => match vs with [t_0] => u64 (4503599627370458 - t_0) | _ => 0 end) (fe, C 0) [((0 + n)%nat, C 0)];
  Do "" (fun _ vs => match vs with [t_1] => u64 (4503599627370494 - t_1) | _ => 0 end) (fe, C 1) [((0 + n)%nat, C 1)];
  Do "" (fun _ vs => match vs with [t_2] => u64 (4503599627370494 - t_2) | _ => 0 end) (fe, C 2) [((0 + n)%nat, C 2)];
  Do "" (fun _ vs => match vs with [t_3] => u64 (4503599627370494 - t_3) | _ => 0 end) (fe, C 3) [((0 + n)%nat, C 3)];
  Do "" (fun _ vs => match vs with [t_4] => u64 (4503599627370494 - t_4) | _ => 0 end) (fe, C 4) [((0 + n)%nat, C 4)]].

(** [sub]: /repo/edwards25519/field_radix51.go:127-149; locals from [n] on: t *)
Definition d_r51_sub (fe a b n : nat) : stmt Z := prog [
  Do "" (fun _ vs => match vs with [b_0] => b_0 | _ => 0 end) ((0 + n)%nat, C 0) [(b, C 0)];
  Do "" (fun _ vs => match vs with [b_1] => b_1 | _ => 0 end) ((0 + n)%nat, C 1) [(b, C 1)];
  Do "" (fun _ vs => match vs with [b_2] => b_2 | _ => 0 end) ((0 + n)%nat, C 2) [(b, C 2)];
  Do "" (fun _ vs => match vs with [b_3] => b_3 | _ => 0 end) ((0 + n)%nat, C 3) [(b, C 3)];
  Do "" (fun _ vs => match vs with [b_4] => b_4 | _ => 0 end) ((0 + n)%nat, C 4) [(b, C 4)];
  Do "" (fun _ vs => match vs with [t_1; t_0] => u64 (t_1 + (Z.shiftr t_0 51)) | _ => 0 end) ((0 + n)%nat, C 1) [((0 + n)%nat, C 1); ((0 + n)%nat, C 0)];
  Do "" (fun _ vs => match vs with [t_0] => Z.land t_0 2251799813685247 | _ => 0 end) ((0 + n)%nat, C 0) [((0 + n)%nat, C 0)];
  Do "" (fun _ vs => match vs with [t_2; t_1] => u64 (t_2 + (Z.shiftr t_1 51)) | _ => 0 end) ((0 + n)%nat, C 2) [((0 + n)%nat, C 2); ((0 + n)%nat, C 1)];
  Do "" (fun _ vs => match vs with [t_1] => Z.land t_1 2251799813685247 | _ => 0 end) ((0 + n)%nat, C 1) [((0 + n)%nat, C 1)];
  Do "" (fun _ vs => match vs with [t_3; t_2] => u64 (t_3 + (Z.shiftr t_2 51)) | _ => 0 end) ((0 + n)%nat, C 3) [((0 + n)%nat, C 3); ((0 + n)%nat, C 2)];
  Do "" (fun _ vs => match vs with [t_2] => Z.land t_2 2251799813685247 | _ => 0 end) ((0 + n)%nat, C 2) [((0 + n)%nat, C 2)];
  Do "" (fun _ vs => match vs with [t_4; t_3] => u64 (t_4 + (Z.shiftr t_3 51)) | _ => 0 end) ((0 + n)%nat, C 4) [((0 + n)%nat, C 4); ((0 + n)%nat, C 3)];
  Do "" (fun _ vs => match vs with [t_3] => Z.land t_3 2251799813685247 | _ => 0 end) ((0 + n)%nat, C 3) [((0 + n)%nat, C 3)];
  Do "" (fun _ vs => match vs with [t_0; t_4] => u64 (t_0 + (u64 ((Z.shiftr t_4 51) * 19))) | _ => 0 end) ((0 + n)%nat, C 0) [((0 + n)%nat, C 0); ((0 + n)%nat, C 4)];
  Do "" (fun _ vs => match vs with [t_4] => Z.land t_4 2251799813685247 | _ => 0 end) ((0 + n)%nat, C 4) [((0 + n)%nat, C 4)];
  Do "" (fun _ vs => match vs with [a_0; t_0] => u64 ((u64 (a_0 + 4503599627370458)) - t_0) | _ => 0 end) (fe, C 0) [(a, C 0); ((0 + n)%nat, C 0)];
  Do "" (fun _ vs => match vs with [a_1; t_1] => u64 ((u64 (a_1 + 4503599627370494)) - t_1) | _ => 0 end) (fe, C 1) [(a, C 1); ((0 + n)%nat, C 1)];
  Do "" (fun _ vs => match vs with [a_2; t_2] => u64 ((u64 (a_2 + 4503599627370494)) - t_2) | _ => 0 end) (fe, C 2) [(a, C 2); ((0 + n)%nat, C 2)];
  Do "" (fun _ vs => match vs with [a_3; t_3] => u64 ((u64 (a_3 + 4503599627370494)) - t_3) | _ => 0 end) (fe, C 3) [(a, C 3); ((0 + n)%nat, C 3)];
  Do "" (fun _ vs => match vs with [a_4; t_4] => u64 ((u64 (a_4 + 4503599627370494)) - t_4) | _ => 0 end) (fe, C 4) [(a, C 4); ((0 + n)%nat, C 4)]].

(** [add]: /repo/edwards25519/field_radix51.go:152-159; locals from [n] on: none *)
Definition d_r51_add (fe a b n : nat) : stmt Z := prog [
  Do "" (fun _ vs => match vs with [a_0; b_0] => u64 (a_0 + b_0) | _ => 0 end) (fe, C 0) [(a, C 0); (b, C 0)];
  Do "" (fun _ vs => match vs with [a_1; b_1] => u64 (a_1 + b_1) | _ => 0 end) (fe, C 1) [(a, C 1); (b, C 1)];
  Do "" (fun _ vs => match vs with [a_2; b_2] => u64 (a_2 + b_2) | _ => 0 end) (fe, C 2) [(a, C 2); (b, C 2)];
  Do "" (fun _ vs => match vs with [a_3; b_3] => u64 (a_3 + b_3) | _ => 0 end) (fe, C 3) [(a, C 3); (b, C 3)];
  Do "" (fun _ vs => match vs with [a_4; b_4] => u64 (a_4 + b_4) | _ => 0 end) (fe, C 4) [(a, C 4); (b, C 4)]].

(** [setReduced]: /repo/edwards25519/field_radix51.go:167-200; locals from [n] on: c *)
Definition d_r51_setReduced (fe a n : nat) : stmt Z := prog [
  Do "" (fun _ vs => match vs with [a_0] => a_0 | _ => 0 end) (fe, C 0) [(a, C 0)];
  Do "" (fun _ vs => match vs with [a_1] => a_1 | _ => 0 end) (fe, C 1) [(a, C 1)];
  Do "" (fun _ vs => match vs with [a_2] => a_2 | _ => 0 end) (fe, C 2) [(a, C 2)];
  Do "" (fun _ vs => match vs with [a_3] => a_3 | _ => 0 end) (fe, C 3) [(a, C 3)];
  Do "" (fun _ vs => match vs with [a_4] => a_4 | _ => 0 end) (fe, C 4) [(a, C 4)];
  Do "" (fun _ vs => match vs with [fe_1; fe_0] => u64 (fe_1 + (Z.shiftr fe_0 51)) | _ => 0 end) (fe, C 1) [(fe, C 1); (fe, C 0)];
  Do "" (fun _ vs => match vs with [fe_0] => Z.land fe_0 2251799813685247 | _ => 0 end) (fe, C 0) [(fe, C 0)];
  Do "" (fun _ vs => match vs with [fe_2; fe_1] => u64 (fe_2 + (Z.shiftr fe_1 51)) | _ => 0 end) (fe, C 2) [(fe, C 2); (fe, C 1)];
  Do "" (fun _ vs => match vs with [fe_1] => Z.land fe_1 2251799813685247 | _ => 0 end) (fe, C 1) [(fe, C 1)];
  Do "" (fun _ vs => match vs with [fe_3; fe_2] => u64 (fe_3 + (Z.shiftr fe_2 51)) | _ => 0 end) (fe, C 3) [(fe, C 3); (fe, C 2)];
  Do "" (fun _ vs => match vs with [fe_2] => Z.land fe_2 2251799813685247 | _ => 0 end) (fe, C 2) [(fe, C 2)];
  Do "" (fun _ vs => match vs with [fe_4; fe_3] => u64 (fe_4 + (Z.shiftr fe_3 51)) | _ => 0 end) (fe, C 4) [(fe, C 4); (fe, C 3)];
  Do "" (fun _ vs => match vs with [fe_3] => Z.land fe_3 2251799813685247 | _ => 0 end) (fe, C 3) [(fe, C 3)];
  Do "" (fun _ vs => match vs with [fe_0; fe_4] => u64 (fe_0 + (u64 ((Z.shiftr fe_4 51) * 19))) | _ => 0 end) (fe, C 0) [(fe, C 0); (fe, C 4)];
  Do "" (fun _ vs => match vs with [fe_4] => Z.land fe_4 2251799813685247 | _ => 0 end) (fe, C 4) [(fe, C 4)];
  Do "" (fun _ vs => match vs with [fe_0] => Z.shiftr (u64 (fe_0 + 19)) 51 | _ => 0 end) ((0 + n)%nat, C 0) [(fe, C 0)];
  Do "" (fun _ vs => match vs with [fe_1; c] => Z.shiftr (u64 (fe_1 + c)) 51 | _ => 0 end) ((0 + n)%nat, C 0) [(fe, C 1); ((0 + n)%nat, C 0)];
  Do "" (fun _ vs => match vs with [fe_2; c] => Z.shiftr (u64 (fe_2 + c)) 51 | _ => 0 end) ((0 + n)%nat, C 0) [(fe, C 2); ((0 + n)%nat, C 0)];
  Do "" (fun _ vs => match vs with [fe_3; c] => Z.shiftr (u64 (fe_3 + c)) 51 | _ => 0 end) ((0 + n)%nat, C 0) [(fe, C 3); ((0 + n)%nat, C 0)];
  Do "" (fun _ vs => match vs with [fe_4; c] => Z.shiftr (u64 (fe_4 + c)) 51 | _ => 0 end) ((0 + n)%nat, C 0) [(fe, C 4); ((0 + n)%nat, C 0)];
  Do "" (fun _ vs => match vs with [fe_0; c] => u64 (fe_0 + (u64 (19 * c))) | _ => 0 end) (fe, C 0) [(fe, C 0); ((0 + n)%nat, C 0)];
  Do "" (fun _ vs => match vs with [fe_1; fe_0] => u64 (fe_1 + (Z.shiftr fe_0 51)) | _ => 0 end) (fe, C 1) [(fe, C 1); (fe, C 0)];
  Do "" (fun _ vs => match vs with [fe_0] => Z.land fe_0 2251799813685247 | _ => 0 end) (fe, C 0) [(fe, C 0)];
  Do "" (fun _ vs => match vs with [fe_2; fe_1] => u64 (fe_2 + (Z.shiftr fe_1 51)) | _ => 0 end) (fe, C 2) [(fe, C 2); (fe, C 1)];
  Do "" (fun _ vs => match vs with [fe_1] => Z.land fe_1 2251799813685247 | _ => 0 end) (fe, C 1) [(fe, C 1)];
  Do "" (fun _ vs => match vs with [fe_3; fe_2] => u64 (fe_3 + (Z.shiftr fe_2 51)) | _ => 0 end) (fe, C 3) [(fe, C 3); (fe, C 2)];
  Do "" (fun _ vs => match vs with [fe_2] => Z.land fe_2 2251799813685247 | _ => 0 end) (fe, C 2) [(fe, C 2)];
  Do "" (fun _ vs => match vs with [fe_4; fe_3] => u64 (fe_4 + (Z.shiftr fe_3 51)) | _ => 0 end) (fe, C 4) [(fe, C 4); (fe, C 3)];
  Do "" (fun _ vs => match vs with [fe_3] => Z.land fe_3 2251799813685247 | _ => 0 end) (fe, C 3) [(fe, C 3)];
  Do "" (fun _ vs => match vs with [fe_4] => Z.land fe_4 2251799813685247 | _ => 0 end) (fe, C 4) [(fe, C 4)]].

(** [ConditionalSet]: /repo/edwards25519/field_radix51.go:203-210; locals from [n] on: b2 *)
Definition d_r51_condSet (fe a b n : nat) : stmt Z := prog [
  Do "" (fun _ vs => match vs with [b] => u64 ((u64 (i32 (1 - b))) - 1) | _ => 0 end) ((0 + n)%nat, C 0) [(b, C 0)];
  Do "" (fun _ vs => match vs with [fe_0; b2; a_0] => Z.lxor fe_0 (Z.land b2 (Z.lxor fe_0 a_0)) | _ => 0 end) (fe, C 0) [(fe, C 0); ((0 + n)%nat, C 0); (a, C 0)];
  Do "" (fun _ vs => match vs with [fe_1; b2; a_1] => Z.lxor fe_1 (Z.land b2 (Z.lxor fe_1 a_1)) | _ => 0 end) (fe, C 1) [(fe, C 1); ((0 + n)%nat, C 0); (a, C 1)];
  Do "" (fun _ vs => match vs with [fe_2; b2; a_2] => Z.lxor fe_2 (Z.land b2 (Z.lxor fe_2 a_2)) | _ => 0 end) (fe, C 2) [(fe, C 2); ((0 + n)%nat, C 0); (a, C 2)];
  Do "" (fun _ vs => match vs with [fe_3; b2; a_3] => Z.lxor fe_3 (Z.land b2 (Z.lxor fe_3 a_3)) | _ => 0 end) (fe, C 3) [(fe, C 3); ((0 + n)%nat, C 0); (a, C 3)];
  Do "" (fun _ vs => match vs with [fe_4; b2; a_4] => Z.lxor fe_4 (Z.land b2 (Z.lxor fe_4 a_4)) | _ => 0 end) (fe, C 4) [(fe, C 4); ((0 + n)%nat, C 0); (a, C 4)]].

(** [BytesInto]: /repo/edwards25519/field_radix51.go:213-254; locals from [n] on: t *)
Definition d_r51_bytes (fe s n : nat) : stmt Z := prog [
  d_r51_setReduced (0 + n)%nat fe (1 + n)%nat;
  Do "" (fun _ vs => match vs with [t_0] => u8 (Z.land t_0 255) | _ => 0 end) (s, C 0) [((0 + n)%nat, C 0)];
  Do "" (fun _ vs => match vs with [t_0] => u8 (Z.land (Z.shiftr t_0 8) 255) | _ => 0 end) (s, C 1) [((0 + n)%nat, C 0)];
  Do "" (fun _ vs => match vs with [t_0] => u8 (Z.land (Z.shiftr t_0 16) 255) | _ => 0 end) (s, C 2) [((0 + n)%nat, C 0)];
  Do "" (fun _ vs => match vs with [t_0] => u8 (Z.land (Z.shiftr t_0 24) 255) | _ => 0 end) (s, C 3) [((0 + n)%nat, C 0)];
  Do "" (fun _ vs => match vs with [t_0] => u8 (Z.land (Z.shiftr t_0 32) 255) | _ => 0 end) (s, C 4) [((0 + n)%nat, C 0)];
  Do "" (fun _ vs => match vs with [t_0] => u8 (Z.land (Z.shiftr t_0 40) 255) | _ => 0 end) (s, C 5) [((0 + n)%nat, C 0)];
  Do "" (fun _ vs => match vs with [t_0] => u8 (Z.shiftr t_0 48) | _ => 0 end) (s, C 6) [((0 + n)%nat, C 0)];
  Do "" (fun _ vs => match vs with [s_6; t_1] => Z.lxor s_6 (u8 (Z.land (u64 (Z.shiftl t_1 3)) 248)) | _ => 0 end) (s, C 6) [(s, C 6); ((0 + n)%nat, C 1)];
  Do "" (fun _ vs => match vs with [t_1] => u8 (Z.land (Z.shiftr t_1 5) 255) | _ => 0 end) (s, C 7) [((0 + n)%nat, C 1)];
  Do "" (fun _ vs => match vs with [t_1] => u8 (Z.land (Z.shiftr t_1 13) 255) | _ => 0 end) (s, C 8) [((0 + n)%nat, C 1)];
  Do "" (fun _ vs => match vs with [t_1] => u8 (Z.land (Z.shiftr t_1 21) 255) | _ => 0 end) (s, C 9) [((0 + n)%nat, C 1)];
  Do "" (fun _ vs => match vs with [t_1] => u8 (Z.land (Z.shiftr t_1 29) 255) | _ => 0 end) (s, C 10) [((0 + n)%nat, C 1)];
  Do "" (fun _ vs => match vs with [t_1] => u8 (Z.land (Z.shiftr t_1 37) 255) | _ => 0 end) (s, C 11) [((0 + n)%nat, C 1)];
  Do "" (fun _ vs => match vs with [t_1] => u8 (Z.shiftr t_1 45) | _ => 0 end) (s, C 12) [((0 + n)%nat, C 1)];
  Do "" (fun _ vs => match vs with [s_12; t_2] => Z.lxor s_12 (u8 (Z.land (u64 (Z.shiftl t_2 6)) 192)) | _ => 0 end) (s, C 12) [(s, C 12); ((0 + n)%nat, C 2)];
  Do "" (fun _ vs => match vs with [t_2] => u8 (Z.land (Z.shiftr t_2 2) 255) | _ => 0 end) (s, C 13) [((0 + n)%nat, C 2)];
  Do "" (fun _ vs => match vs with [t_2] => u8 (Z.land (Z.shiftr t_2 10) 255) | _ => 0 end) (s, C 14) [((0 + n)%nat, C 2)];
  Do "" (fun _ vs => match vs with [t_2] => u8 (Z.land (Z.shiftr t_2 18) 255) | _ => 0 end) (s, C 15) [((0 + n)%nat, C 2)];
  Do "" (fun _ vs => match vs with [t_2] => u8 (Z.land (Z.shiftr t_2 26) 255) | _ => 0 end) (s, C 16) [((0 + n)%nat, C 2)];
  Do "" (fun _ vs => match vs with [t_2] => u8 (Z.land (Z.shiftr t_2 34) 255) | _ => 0 end) (s, C 17) [((0 + n)%nat, C 2)];
  Do "" (fun _ vs => match vs with [t_2] => u8 (Z.land (Z.shiftr t_2 42) 255) | _ => 0 end) (s, C 18) [((0 + n)%nat, C 2)];
  Do "" (fun _ vs => match vs with [t_2] => u8 (Z.shiftr t_2 50) | _ => 0 end) (s, C 19) [((0 + n)%nat, C 2)];
  Do "" (fun _ vs => match vs with [s_19; t_3] => Z.lxor s_19 (u8 (Z.land (u64 (Z.shiftl t_3 1)) 254)) | _ => 0 end) (s, C 19) [(s, C 19); ((0 + n)%nat, C 3)];
  Do "" (fun _ vs => match vs with [t_3] => u8 (Z.land (Z.shiftr t_3 7) 255) | _ => 0 end) (s, C 20) [((0 + n)%nat, C 3)];
  Do "" (fun _ vs => match vs with [t_3] => u8 (Z.land (Z.shiftr t_3 15) 255) | _ => 0 end) (s, C 21) [((0 + n)%nat, C 3)];
  Do "" (fun _ vs => match vs with [t_3] => u8 (Z.land (Z.shiftr t_3 23) 255) | _ => 0 end) (s, C 22) [((0 + n)%nat, C 3)];
  Do "" (fun _ vs => match vs with [t_3] => u8 (Z.land (Z.shiftr t_3 31) 255) | _ => 0 end) (s, C 23) [((0 + n)%nat, C 3)];
  Do "" (fun _ vs => match vs with [t_3] => u8 (Z.land (Z.shiftr t_3 39) 255) | _ => 0 end) (s, C 24) [((0 + n)%nat, C 3)];
  Do "" (fun _ vs => match vs with [t_3] => u8 (Z.shiftr t_3 47) | _ => 0 end) (s, C 25) [((0 + n)%nat, C 3)];
  Do "" (fun _ vs => match vs with [s_25; t_4] => Z.lxor s_25 (u8 (Z.land (u64 (Z.shiftl t_4 4)) 240)) | _ => 0 end) (s, C 25) [(s, C 25); ((0 + n)%nat, C 4)];
  Do "" (fun _ vs => match vs with [t_4] => u8 (Z.land (Z.shiftr t_4 4) 255) | _ => 0 end) (s, C 26) [((0 + n)%nat, C 4)];
  Do "" (fun _ vs => match vs with [t_4] => u8 (Z.land (Z.shiftr t_4 12) 255) | _ => 0 end) (s, C 27) [((0 + n)%nat, C 4)];
  Do "" (fun _ vs => match vs with [t_4] => u8 (Z.land (Z.shiftr t_4 20) 255) | _ => 0 end) (s, C 28) [((0 + n)%nat, C 4)];
  Do "" (fun _ vs => match vs with [t_4] => u8 (Z.land (Z.shiftr t_4 28) 255) | _ => 0 end) (s, C 29) [((0 + n)%nat, C 4)];
  Do "" (fun _ vs => match vs with [t_4] => u8 (Z.land (Z.shiftr t_4 36) 255) | _ => 0 end) (s, C 30) [((0 + n)%nat, C 4)];
  Do "" (fun _ vs => match vs with [t_4] => u8 (Z.shiftr t_4 44) | _ => 0 end) (s, C 31) [((0 + n)%nat, C 4)]].

(** [SetBytes]: /repo/edwards25519/field_radix51.go:258-279; locals from [n] on: none *)
Definition d_r51_setBytes (fe buf n : nat) : stmt Z := prog [
  Do "" (fun _ vs => match vs with [buf_0; buf_1; buf_2; buf_3; buf_4; buf_5; buf_6] => Z.lor (Z.lor (Z.lor (Z.lor (Z.lor (Z.lor buf_0 (u64 (Z.shiftl buf_1 8))) (u64 (Z.shiftl buf_2 16))) (u64 (Z.shiftl buf_3 24))) (u64 (Z.shiftl buf_4 32))) (u64 (Z.shiftl buf_5 40))) (u64 (Z.shiftl (Z.land buf_6 7) 48)) | _ => 0 end) (fe, C 0) [(buf, C 0); (buf, C 1); (buf, C 2); (buf, C 3); (buf, C 4); (buf, C 5); (buf, C 6)];
  Do "" (fun _ vs => match vs with [buf_6; buf_7; buf_8; buf_9; buf_10; buf_11; buf_12] => Z.lor (Z.lor (Z.lor (Z.lor (Z.lor (Z.lor (Z.shiftr buf_6 3) (u64 (Z.shiftl buf_7 5))) (u64 (Z.shiftl buf_8 13))) (u64 (Z.shiftl buf_9 21))) (u64 (Z.shiftl buf_10 29))) (u64 (Z.shiftl buf_11 37))) (u64 (Z.shiftl (Z.land buf_12 63) 45)) | _ => 0 end) (fe, C 1) [(buf, C 6); (buf, C 7); (buf, C 8); (buf, C 9); (buf, C 10); (buf, C 11); (buf, C 12)];
  Do "" (fun _ vs => match vs with [buf_12; buf_13; buf_14; buf_15; buf_16; buf_17; buf_18; buf_19] => Z.lor (Z.lor (Z.lor (Z.lor (Z.lor (Z.lor (Z.lor (Z.shiftr buf_12 6) (u64 (Z.shiftl buf_13 2))) (u64 (Z.shiftl buf_14 10))) (u64 (Z.shiftl buf_15 18))) (u64 (Z.shiftl buf_16 26))) (u64 (Z.shiftl buf_17 34))) (u64 (Z.shiftl buf_18 42))) (u64 (Z.shiftl (Z.land buf_19 1) 50)) | _ => 0 end) (fe, C 2) [(buf, C 12); (buf, C 13); (buf, C 14); (buf, C 15); (buf, C 16); (buf, C 17); (buf, C 18); (buf, C 19)];
  Do "" (fun _ vs => match vs with [buf_19; buf_20; buf_21; buf_22; buf_23; buf_24; buf_25] => Z.lor (Z.lor (Z.lor (Z.lor (Z.lor (Z.lor (Z.shiftr buf_19 1) (u64 (Z.shiftl buf_20 7))) (u64 (Z.shiftl buf_21 15))) (u64 (Z.shiftl buf_22 23))) (u64 (Z.shiftl buf_23 31))) (u64 (Z.shiftl buf_24 39))) (u64 (Z.shiftl (Z.land buf_25 15) 47)) | _ => 0 end) (fe, C 3) [(buf, C 19); (buf, C 20); (buf, C 21); (buf, C 22); (buf, C 23); (buf, C 24); (buf, C 25)];
  Do "" (fun _ vs => match vs with [buf_25; buf_26; buf_27; buf_28; buf_29; buf_30; buf_31] => Z.lor (Z.lor (Z.lor (Z.lor (Z.lor (Z.lor (Z.shiftr buf_25 4) (u64 (Z.shiftl buf_26 4))) (u64 (Z.shiftl buf_27 12))) (u64 (Z.shiftl buf_28 20))) (u64 (Z.shiftl buf_29 28))) (u64 (Z.shiftl buf_30 36))) (u64 (Z.shiftl (Z.land buf_31 127) 44)) | _ => 0 end) (fe, C 4) [(buf, C 25); (buf, C 26); (buf, C 27); (buf, C 28); (buf, C 29); (buf, C 30); (buf, C 31)]].

(** [Mul]: /repo/edwards25519/field_mul64.go:11-129; locals from [n] on: a0, a1, a2, a3, a4, b0, b1, b2, b3, b4, b1_19, b2_19, b3_19, b4_19, c0h, c0l, h, l, carry, _, c1h, c1l, c2h, c2l, c3h, c3l, c4h, c4l *)
Definition d_r51_mul (fe a b n : nat) : stmt Z := prog [
  Do "" (fun _ vs => match vs with [a_0] => a_0 | _ => 0 end) ((0 + n)%nat, C 0) [(a, C 0)];
  Do "" (fun _ vs => match vs with [a_1] => a_1 | _ => 0 end) ((1 + n)%nat, C 0) [(a, C 1)];
  Do "" (fun _ vs => match vs with [a_2] => a_2 | _ => 0 end) ((2 + n)%nat, C 0) [(a, C 2)];
  Do "" (fun _ vs => match vs with [a_3] => a_3 | _ => 0 end) ((3 + n)%nat, C 0) [(a, C 3)];
  Do "" (fun _ vs => match vs with [a_4] => a_4 | _ => 0 end) ((4 + n)%nat, C 0) [(a, C 4)];
  Do "" (fun _ vs => match vs with [b_0] => b_0 | _ => 0 end) ((5 + n)%nat, C 0) [(b, C 0)];
  Do "" (fun _ vs => match vs with [b_1] => b_1 | _ => 0 end) ((6 + n)%nat, C 0) [(b, C 1)];
  Do "" (fun _ vs => match vs with [b_2] => b_2 | _ => 0 end) ((7 + n)%nat, C 0) [(b, C 2)];
  Do "" (fun _ vs => match vs with [b_3] => b_3 | _ => 0 end) ((8 + n)%nat, C 0) [(b, C 3)];
  Do "" (fun _ vs => match vs with [b_4] => b_4 | _ => 0 end) ((9 + n)%nat, C 0) [(b, C 4)];
  Do "" (fun _ vs => match vs with [b1] => u64 (b1 * 19) | _ => 0 end) ((10 + n)%nat, C 0) [((6 + n)%nat, C 0)];
  Do "" (fun _ vs => match vs with [b2] => u64 (b2 * 19) | _ => 0 end) ((11 + n)%nat, C 0) [((7 + n)%nat, C 0)];
  Do "" (fun _ vs => match vs with [b3] => u64 (b3 * 19) | _ => 0 end) ((12 + n)%nat, C 0) [((8 + n)%nat, C 0)];
  Do "" (fun _ vs => match vs with [b4] => u64 (b4 * 19) | _ => 0 end) ((13 + n)%nat, C 0) [((9 + n)%nat, C 0)];
  Do2 "" (fun _ vs => match vs with [b0; a0] => bits_mul64 b0 a0 | _ => (0, 0) end) ((14 + n)%nat, C 0) ((15 + n)%nat, C 0) [((5 + n)%nat, C 0); ((0 + n)%nat, C 0)];
  Do2 "" (fun _ vs => match vs with [b1_19; a4] => bits_mul64 b1_19 a4 | _ => (0, 0) end) ((16 + n)%nat, C 0) ((17 + n)%nat, C 0) [((10 + n)%nat, C 0); ((4 + n)%nat, C 0)];
  Do2 "" (fun _ vs => match vs with [c0l; l] => bits_add64 c0l l 0 | _ => (0, 0) end) ((15 + n)%nat, C 0) ((18 + n)%nat, C 0) [((15 + n)%nat, C 0); ((17 + n)%nat, C 0)];
  Do2 "" (fun _ vs => match vs with [c0h; h; carry] => bits_add64 c0h h carry | _ => (0, 0) end) ((14 + n)%nat, C 0) ((19 + n)%nat, C 0) [((14 + n)%nat, C 0); ((16 + n)%nat, C 0); ((18 + n)%nat, C 0)];
  Do2 "" (fun _ vs => match vs with [b2_19; a3] => bits_mul64 b2_19 a3 | _ => (0, 0) end) ((16 + n)%nat, C 0) ((17 + n)%nat, C 0) [((11 + n)%nat, C 0); ((3 + n)%nat, C 0)];
  Do2 "" (fun _ vs => match vs with [c0l; l] => bits_add64 c0l l 0 | _ => (0, 0) end) ((15 + n)%nat, C 0) ((18 + n)%nat, C 0) [((15 + n)%nat, C 0); ((17 + n)%nat, C 0)];
  Do2 "" (fun _ vs => match vs with [c0h; h; carry] => bits_add64 c0h h carry | _ => (0, 0) end) ((14 + n)%nat, C 0) ((19 + n)%nat, C 0) [((14 + n)%nat, C 0); ((16 + n)%nat, C 0); ((18 + n)%nat, C 0)];
  Do2 "" (fun _ vs => match vs with [b3_19; a2] => bits_mul64 b3_19 a2 | _ => (0, 0) end) ((16 + n)%nat, C 0) ((17 + n)%nat, C 0) [((12 + n)%nat, C 0); ((2 + n)%nat, C 0)];
  Do2 "" (fun _ vs => match vs with [c0l; l] => bits_add64 c0l l 0 | _ => (0, 0) end) ((15 + n)%nat, C 0) ((18 + n)%nat, C 0) [((15 + n)%nat, C 0); ((17 + n)%nat, C 0)];
  Do2 "" (fun _ vs => match vs with [c0h; h; carry] => bits_add64 c0h h carry | _ => (0, 0) end) ((14 + n)%nat, C 0) ((19 + n)%nat, C 0) [((14 + n)%nat, C 0); ((16 + n)%nat, C 0); ((18 + n)%nat, C 0)];
  Do2 "" (fun _ vs => match vs with [b4_19; a1] => bits_mul64 b4_19 a1 | _ => (0, 0) end) ((16 + n)%nat, C 0) ((17 + n)%nat, C 0) [((13 + n)%nat, C 0); ((1 + n)%nat, C 0)];
  Do2 "" (fun _ vs => match vs with [c0l; l] => bits_add64 c0l l 0 | _ => (0, 0) end) ((15 + n)%nat, C 0) ((18 + n)%nat, C 0) [((15 + n)%nat, C 0); ((17 + n)%nat, C 0)];
  Do2 "" (fun _ vs => match vs with [c0h; h; carry] => bits_add64 c0h h carry | _ => (0, 0) end) ((14 + n)%nat, C 0) ((19 + n)%nat, C 0) [((14 + n)%nat, C 0); ((16 + n)%nat, C 0); ((18 + n)%nat, C 0)];
  Do2 "" (fun _ vs => match vs with [b0; a1] => bits_mul64 b0 a1 | _ => (0, 0) end) ((20 + n)%nat, C 0) ((21 + n)%nat, C 0) [((5 + n)%nat, C 0); ((1 + n)%nat, C 0)];
  Do2 "" (fun _ vs => match vs with [b1; a0] => bits_mul64 b1 a0 | _ => (0, 0) end) ((16 + n)%nat, C 0) ((17 + n)%nat, C 0) [((6 + n)%nat, C 0); ((0 + n)%nat, C 0)];
  Do2 "" (fun _ vs => match vs with [c1l; l] => bits_add64 c1l l 0 | _ => (0, 0) end) ((21 + n)%nat, C 0) ((18 + n)%nat, C 0) [((21 + n)%nat, C 0); ((17 + n)%nat, C 0)];
  Do2 "" (fun _ vs => match vs with [c1h; h; carry] => bits_add64 c1h h carry | _ => (0, 0) end) ((20 + n)%nat, C 0) ((19 + n)%nat, C 0) [((20 + n)%nat, C 0); ((16 + n)%nat, C 0); ((18 + n)%nat, C 0)];
  Do2 "" (fun _ vs => match vs with [b2_19; a4] => bits_mul64 b2_19 a4 | _ => (0, 0) end) ((16 + n)%nat, C 0) ((17 + n)%nat, C 0) [((11 + n)%nat, C 0); ((4 + n)%nat, C 0)];
  Do2 "" (fun _ vs => match vs with [c1l; l] => bits_add64 c1l l 0 | _ => (0, 0) end) ((21 + n)%nat, C 0) ((18 + n)%nat, C 0) [((21 + n)%nat, C 0); ((17 + n)%nat, C 0)];
  Do2 "" (fun _ vs => match vs with [c1h; h; carry] => bits_add64 c1h h carry | _ => (0, 0) end) ((20 + n)%nat, C 0) ((19 + n)%nat, C 0) [((20 + n)%nat, C 0); ((16 + n)%nat, C 0); ((18 + n)%nat, C 0)];
  Do2 "" (fun _ vs => match vs with [b3_19; a3] => bits_mul64 b3_19 a3 | _ => (0, 0) end) ((16 + n)%nat, C 0) ((17 + n)%nat, C 0) [((12 + n)%nat, C 0); ((3 + n)%nat, C 0)];
  Do2 "" (fun _ vs => match vs with [c1l; l] => bits_add64 c1l l 0 | _ => (0, 0) end) ((21 + n)%nat, C 0) ((18 + n)%nat, C 0) [((21 + n)%nat, C 0); ((17 + n)%nat, C 0)];
  Do2 "" (fun _ vs => match vs with [c1h; h; carry] => bits_add64 c1h h carry | _ => (0, 0) end) ((20 + n)%nat, C 0) ((19 + n)%nat, C 0) [((20 + n)%nat, C 0); ((16 + n)%nat, C 0); ((18 + n)%nat, C 0)];
  Do2 "" (fun _ vs => match vs with [b4_19; a2] => bits_mul64 b4_19 a2 | _ => (0, 0) end) ((16 + n)%nat, C 0) ((17 + n)%nat, C 0) [((13 + n)%nat, C 0); ((2 + n)%nat, C 0)];
  Do2 "" (fun _ vs => match vs with [c1l; l] => bits_add64 c1l l 0 | _ => (0, 0) end) ((21 + n)%nat, C 0) ((18 + n)%nat, C 0) [((21 + n)%nat, C 0); ((17 + n)%nat, C 0)];
  Do2 "" (fun _ vs => match vs with [c1h; h; carry] => bits_add64 c1h h carry | _ => (0, 0) end) ((20 + n)%nat, C 0) ((19 + n)%nat, C 0) [((20 + n)%nat, C 0); ((16 + n)%nat, C 0); ((18 + n)%nat, C 0)];
  Do2 "" (fun _ vs => match vs with [c0l; c0h; c1l] => bits_add64 (Z.lor (Z.shiftr c0l 51) (u64 (Z.shiftl c0h 13))) c1l 0 | _ => (0, 0) end) ((21 + n)%nat, C 0) ((18 + n)%nat, C 0) [((15 + n)%nat, C 0); ((14 + n)%nat, C 0); ((21 + n)%nat, C 0)];
  Do2 "" (fun _ vs => match vs with [c1h; carry] => bits_add64 c1h 0 carry | _ => (0, 0) end) ((20 + n)%nat, C 0) ((19 + n)%nat, C 0) [((20 + n)%nat, C 0); ((18 + n)%nat, C 0)];
  Do "" (fun _ vs => match vs with [c0l] => Z.land c0l 2251799813685247 | _ => 0 end) ((15 + n)%nat, C 0) [((15 + n)%nat, C 0)];
  Do2 "" (fun _ vs => match vs with [b0; a2] => bits_mul64 b0 a2 | _ => (0, 0) end) ((22 + n)%nat, C 0) ((23 + n)%nat, C 0) [((5 + n)%nat, C 0); ((2 + n)%nat, C 0)];
  Do2 "" (fun _ vs => match vs with [b1; a1] => bits_mul64 b1 a1 | _ => (0, 0) end) ((16 + n)%nat, C 0) ((17 + n)%nat, C 0) [((6 + n)%nat, C 0); ((1 + n)%nat, C 0)];
  Do2 "" (fun _ vs => match vs with [c2l; l] => bits_add64 c2l l 0 | _ => (0, 0) end) ((23 + n)%nat, C 0) ((18 + n)%nat, C 0) [((23 + n)%nat, C 0); ((17 + n)%nat, C 0)];
  Do2 "" (fun _ vs => match vs with [c2h; h; carry] => bits_add64 c2h h carry | _ => (0, 0) end) ((22 + n)%nat, C 0) ((19 + n)%nat, C 0) [((22 + n)%nat, C 0); ((16 + n)%nat, C 0); ((18 + n)%nat, C 0)];
  Do2 "" (fun _ vs => match vs with [b2; a0] => bits_mul64 b2 a0 | _ => (0, 0) end) ((16 + n)%nat, C 0) ((17 + n)%nat, C 0) [((7 + n)%nat, C 0); ((0 + n)%nat, C 0)];
  Do2 "" (fun _ vs => match vs with [c2l; l] => bits_add64 c2l l 0 | _ => (0, 0) end) ((23 + n)%nat, C 0) ((18 + n)%nat, C 0) [((23 + n)%nat, C 0); ((17 + n)%nat, C 0)];
  Do2 "" (fun _ vs => match vs with [c2h; h; carry] => bits_add64 c2h h carry | _ => (0, 0) end) ((22 + n)%nat, C 0) ((19 + n)%nat, C 0) [((22 + n)%nat, C 0); ((16 + n)%nat, C 0); ((18 + n)%nat, C 0)];
  Do2 "" (fun _ vs => match vs with [b3_19; a4] => bits_mul64 b3_19 a4 | _ => (0, 0) end) ((16 + n)%nat, C 0) ((17 + n)%nat, C 0) [((12 + n)%nat, C 0); ((4 + n)%nat, C 0)];
  Do2 "" (fun _ vs => match vs with [c2l; l] => bits_add64 c2l l 0 | _ => (0, 0) end) ((23 + n)%nat, C 0) ((18 + n)%nat, C 0) [((23 + n)%nat, C 0); ((17 + n)%nat, C 0)];
  Do2 "" (fun _ vs => match vs with [c2h; h; carry] => bits_add64 c2h h carry | _ => (0, 0) end) ((22 + n)%nat, C 0) ((19 + n)%nat, C 0) [((22 + n)%nat, C 0); ((16 + n)%nat, C 0); ((18 + n)%nat, C 0)];
  Do2 "" (fun _ vs => match vs with [b4_19; a3] => bits_mul64 b4_19 a3 | _ => (0, 0) end) ((16 + n)%nat, C 0) ((17 + n)%nat, C 0) [((13 + n)%nat, C 0); ((3 + n)%nat, C 0)];
  Do2 "" (fun _ vs => match vs with [c2l; l] => bits_add64 c2l l 0 | _ => (0, 0) end) ((23 + n)%nat, C 0) ((18 + n)%nat, C 0) [((23 + n)%nat, C 0); ((17 + n)%nat, C 0)];
  Do2 "" (fun _ vs => match vs with [c2h; h; carry] => bits_add64 c2h h carry | _ => (0, 0) end) ((22 + n)%nat, C 0) ((19 + n)%nat, C 0) [((22 + n)%nat, C 0); ((16 + n)%nat, C 0); ((18 + n)%nat, C 0)];
  Do2 "" (fun _ vs => match vs with [c1l; c1h; c2l] => bits_add64 (Z.lor (Z.shiftr c1l 51) (u64 (Z.shiftl c1h 13))) c2l 0 | _ => (0, 0) end) ((23 + n)%nat, C 0) ((18 + n)%nat, C 0) [((21 + n)%nat, C 0); ((20 + n)%nat, C 0); ((23 + n)%nat, C 0)];
  Do2 "" (fun _ vs => match vs with [c2h; carry] => bits_add64 c2h 0 carry | _ => (0, 0) end) ((22 + n)%nat, C 0) ((19 + n)%nat, C 0) [((22 + n)%nat, C 0); ((18 + n)%nat, C 0)];
  Do "" (fun _ vs => match vs with [c1l] => Z.land c1l 2251799813685247 | _ => 0 end) ((21 + n)%nat, C 0) [((21 + n)%nat, C 0)];
  Do2 "" (fun _ vs => match vs with [b0; a3] => bits_mul64 b0 a3 | _ => (0, 0) end) ((24 + n)%nat, C 0) ((25 + n)%nat, C 0) [((5 + n)%nat, C 0); ((3 + n)%nat, C 0)];
  Do2 "" (fun _ vs => match vs with [b1; a2] => bits_mul64 b1 a2 | _ => (0, 0) end) ((16 + n)%nat, C 0) ((17 + n)%nat, C 0) [((6 + n)%nat, C 0); ((2 + n)%nat, C 0)];
  Do2 "" (fun _ vs => match vs with [c3l; l] => bits_add64 c3l l 0 | _ => (0, 0) end) ((25 + n)%nat, C 0) ((18 + n)%nat, C 0) [((25 + n)%nat, C 0); ((17 + n)%nat, C 0)];
  Do2 "" (fun _ vs => match vs with [c3h; h; carry] => bits_add64 c3h h carry | _ => (0, 0) end) ((24 + n)%nat, C 0) ((19 + n)%nat, C 0) [((24 + n)%nat, C 0); ((16 + n)%nat, C 0); ((18 + n)%nat, C 0)];
  Do2 "" (fun _ vs => match vs with [b2; a1] => bits_mul64 b2 a1 | _ => (0, 0) end) ((16 + n)%nat, C 0) ((17 + n)%nat, C 0) [((7 + n)%nat, C 0); ((1 + n)%nat, C 0)];
  Do2 "" (fun _ vs => match vs with [c3l; l] => bits_add64 c3l l 0 | _ => (0, 0) end) ((25 + n)%nat, C 0) ((18 + n)%nat, C 0) [((25 + n)%nat, C 0); ((17 + n)%nat, C 0)];
  Do2 "" (fun _ vs => match vs with [c3h; h; carry] => bits_add64 c3h h carry | _ => (0, 0) end) ((24 + n)%nat, C 0) ((19 + n)%nat, C 0) [((24 + n)%nat, C 0); ((16 + n)%nat, C 0); ((18 + n)%nat, C 0)];
  Do2 "" (fun _ vs => match vs with [b3; a0] => bits_mul64 b3 a0 | _ => (0, 0) end) ((16 + n)%nat, C 0) ((17 + n)%nat, C 0) [((8 + n)%nat, C 0); ((0 + n)%nat, C 0)];
  Do2 "" (fun _ vs => match vs with [c3l; l] => bits_add64 c3l l 0 | _ => (0, 0) end) ((25 + n)%nat, C 0) ((18 + n)%nat, C 0) [((25 + n)%nat, C 0); ((17 + n)%nat, C 0)];
  Do2 "" (fun _ vs => match vs with [c3h; h; carry] => bits_add64 c3h h carry | _ => (0, 0) end) ((24 + n)%nat, C 0) ((19 + n)%nat, C 0) [((24 + n)%nat, C 0); ((16 + n)%nat, C 0); ((18 + n)%nat, C 0)];
  Do2 "" (fun _ vs => match vs with [b4_19; a4] => bits_mul64 b4_19 a4 | _ => (0, 0) end) ((16 + n)%nat, C 0) ((17 + n)%nat, C 0) [((13 + n)%nat, C 0); ((4 + n)%nat, C 0)];
  Do2 "" (fun _ vs => match vs with [c3l; l] => bits_add64 c3l l 0 | _ => (0, 0) end) ((25 + n)%nat, C 0) ((18 + n)%nat, C 0) [((25 + n)%nat, C 0); ((17 + n)%nat, C 0)];
  Do2 "" (fun _ vs => match vs with [c3h; h; carry] => bits_add64 c3h h carry | _ => (0, 0) end) ((24 + n)%nat, C 0) ((19 + n)%nat, C 0) [((24 + n)%nat, C 0); ((16 + n)%nat, C 0); ((18 + n)%nat, C 0)];
  Do2 "" (fun _ vs => match vs with [c2l; c2h; c3l] => bits_add64 (Z.lor (Z.shiftr c2l 51) (u64 (Z.shiftl c2h 13))) c3l 0 | _ => (0, 0) end) ((25 + n)%nat, C 0) ((18 + n)%nat, C 0) [((23 + n)%nat, C 0); ((22 + n)%nat, C 0); ((25 + n)%nat, C 0)];
  Do2 "" (fun _ vs => match vs with [c3h; carry] => bits_add64 c3h 0 carry | _ => (0, 0) end) ((24 + n)%nat, C 0) ((19 + n)%nat, C 0) [((24 + n)%nat, C 0); ((18 + n)%nat, C 0)];
  Do "" (fun _ vs => match vs with [c2l] => Z.land c2l 2251799813685247 | _ => 0 end) ((23 + n)%nat, C 0) [((23 + n)%nat, C 0)];
  Do2 "" (fun _ vs => match vs with [b0; a4] => bits_mul64 b0 a4 | _ => (0, 0) end) ((26 + n)%nat, C 0) ((27 + n)%nat, C 0) [((5 + n)%nat, C 0); ((4 + n)%nat, C 0)];
  Do2 "" (fun _ vs => match vs with [b1; a3] => bits_mul64 b1 a3 | _ => (0, 0) end) ((16 + n)%nat, C 0) ((17 + n)%nat, C 0) [((6 + n)%nat, C 0); ((3 + n)%nat, C 0)];
  Do2 "" (fun _ vs => match vs with [c4l; l] => bits_add64 c4l l 0 | _ => (0, 0) end) ((27 + n)%nat, C 0) ((18 + n)%nat, C 0) [((27 + n)%nat, C 0); ((17 + n)%nat, C 0)];
  Do2 "" (fun _ vs => match vs with [c4h; h; carry] => bits_add64 c4h h carry | _ => (0, 0) end) ((26 + n)%nat, C 0) ((19 + n)%nat, C 0) [((26 + n)%nat, C 0); ((16 + n)%nat, C 0); ((18 + n)%nat, C 0)];
  Do2 "" (fun _ vs => match vs with [b2; a2] => bits_mul64 b2 a2 | _ => (0, 0) end) ((16 + n)%nat, C 0) ((17 + n)%nat, C 0) [((7 + n)%nat, C 0); ((2 + n)%nat, C 0)];
  Do2 "" (fun _ vs => match vs with [c4l; l] => bits_add64 c4l l 0 | _ => (0, 0) end) ((27 + n)%nat, C 0) ((18 + n)%nat, C 0) [((27 + n)%nat, C 0); ((17 + n)%nat, C 0)];
  Do2 "" (fun _ vs => match vs with [c4h; h; carry] => bits_add64 c4h h carry | _ => (0, 0) end) ((26 + n)%nat, C 0) ((19 + n)%nat, C 0) [((26 + n)%nat, C 0); ((16 + n)%nat, C 0); ((18 + n)%nat, C 0)];
  Do2 "" (fun _ vs => match vs with [b3; a1] => bits_mul64 b3 a1 | _ => (0, 0) end) ((16 + n)%nat, C 0) ((17 + n)%nat, C 0) [((8 + n)%nat, C 0); ((1 + n)%nat, C 0)];
  Do2 "" (fun _ vs => match vs with [c4l; l] => bits_add64 c4l l 0 | _ => (0, 0) end) ((27 + n)%nat, C 0) ((18 + n)%nat, C 0) [((27 + n)%nat, C 0); ((17 + n)%nat, C 0)];
  Do2 "" (fun _ vs => match vs with [c4h; h; carry] => bits_add64 c4h h carry | _ => (0, 0) end) ((26 + n)%nat, C 0) ((19 + n)%nat, C 0) [((26 + n)%nat, C 0); ((16 + n)%nat, C 0); ((18 + n)%nat, C 0)];
  Do2 "" (fun _ vs => match vs with [b4; a0] => bits_mul64 b4 a0 | _ => (0, 0) end) ((16 + n)%nat, C 0) ((17 + n)%nat, C 0) [((9 + n)%nat, C 0); ((0 + n)%nat, C 0)];
  Do2 "" (fun _ vs => match vs with [c4l; l] => bits_add64 c4l l 0 | _ => (0, 0) end) ((27 + n)%nat, C 0) ((18 + n)%nat, C 0) [((27 + n)%nat, C 0); ((17 + n)%nat, C 0)];
  Do2 "" (fun _ vs => match vs with [c4h; h; carry] => bits_add64 c4h h carry | _ => (0, 0) end) ((26 + n)%nat, C 0) ((19 + n)%nat, C 0) [((26 + n)%nat, C 0); ((16 + n)%nat, C 0); ((18 + n)%nat, C 0)];
  Do2 "" (fun _ vs => match vs with [c3l; c3h; c4l] => bits_add64 (Z.lor (Z.shiftr c3l 51) (u64 (Z.shiftl c3h 13))) c4l 0 | _ => (0, 0) end) ((27 + n)%nat, C 0) ((18 + n)%nat, C 0) [((25 + n)%nat, C 0); ((24 + n)%nat, C 0); ((27 + n)%nat, C 0)];
  Do2 "" (fun _ vs => match vs with [c4h; carry] => bits_add64 c4h 0 carry | _ => (0, 0) end) ((26 + n)%nat, C 0) ((19 + n)%nat, C 0) [((26 + n)%nat, C 0); ((18 + n)%nat, C 0)];
  Do "" (fun _ vs => match vs with [c3l] => Z.land c3l 2251799813685247 | _ => 0 end) ((25 + n)%nat, C 0) [((25 + n)%nat, C 0)];
  Do "" (fun _ vs => match vs with [c4l; c4h] => Z.lor (Z.shiftr c4l 51) (u64 (Z.shiftl c4h 13)) | _ => 0 end) ((18 + n)%nat, C 0) [((27 + n)%nat, C 0); ((26 + n)%nat, C 0)];
  Do "" (fun _ vs => match vs with [c4l] => Z.land c4l 2251799813685247 | _ => 0 end) ((27 + n)%nat, C 0) [((27 + n)%nat, C 0)];
  Do "" (fun _ vs => match vs with [c0l; carry] => u64 (c0l + (u64 (carry * 19))) | _ => 0 end) ((15 + n)%nat, C 0) [((15 + n)%nat, C 0); ((18 + n)%nat, C 0)];
  Do "" (fun _ vs => match vs with [c1l; c0l] => u64 (c1l + (Z.shiftr c0l 51)) | _ => 0 end) ((21 + n)%nat, C 0) [((21 + n)%nat, C 0); ((15 + n)%nat, C 0)];
  Do "" (fun _ vs => match vs with [c0l] => Z.land c0l 2251799813685247 | _ => 0 end) ((15 + n)%nat, C 0) [((15 + n)%nat, C 0)];
  Do "" (fun _ vs => match vs with [c0l] => c0l | _ => 0 end) (fe, C 0) [((15 + n)%nat, C 0)];
  Do "" (fun _ vs => match vs with [c1l] => c1l | _ => 0 end) (fe, C 1) [((21 + n)%nat, C 0)];
  Do "" (fun _ vs => match vs with [c2l] => c2l | _ => 0 end) (fe, C 2) [((23 + n)%nat, C 0)];
  Do "" (fun _ vs => match vs with [c3l] => c3l | _ => 0 end) (fe, C 3) [((25 + n)%nat, C 0)];
  Do "" (fun _ vs => match vs with [c4l] => c4l | _ => 0 end) (fe, C 4) [((27 + n)%nat, C 0)]].

(** [Square]: /repo/edwards25519/field_mul64.go:132-211; locals from [n] on: a0, a1, a2, a3, a4, a4_38, c0h, c0l, h, l, carry, _, c1h, c1l, c2h, c2l, c3h, c3l, c4h, c4l *)
Definition d_r51_square (fe a n : nat) : stmt Z := prog [
  Do "" (fun _ vs => match vs with [a_0] => a_0 | _ => 0 end) ((0 + n)%nat, C 0) [(a, C 0)];
  Do "" (fun _ vs => match vs with [a_1] => a_1 | _ => 0 end) ((1 + n)%nat, C 0) [(a, C 1)];
  Do "" (fun _ vs => match vs with [a_2] => a_2 | _ => 0 end) ((2 + n)%nat, C 0) [(a, C 2)];
  Do "" (fun _ vs => match vs with [a_3] => a_3 | _ => 0 end) ((3 + n)%nat, C 0) [(a, C 3)];
  Do "" (fun _ vs => match vs with [a_4] => a_4 | _ => 0 end) ((4 + n)%nat, C 0) [(a, C 4)];
  Do "" (fun _ vs => match vs with [a4] => u64 (a4 * 38) | _ => 0 end) ((5 + n)%nat, C 0) [((4 + n)%nat, C 0)];
  Do2 "" (fun _ vs => match vs with [a0] => bits_mul64 a0 a0 | _ => (0, 0) end) ((6 + n)%nat, C 0) ((7 + n)%nat, C 0) [((0 + n)%nat, C 0)];
  Do2 "" (fun _ vs => match vs with [a4; a1] => bits_mul64 (u64 (a4 * 38)) a1 | _ => (0, 0) end) ((8 + n)%nat, C 0) ((9 + n)%nat, C 0) [((4 + n)%nat, C 0); ((1 + n)%nat, C 0)];
  Do2 "" (fun _ vs => match vs with [c0l; l] => bits_add64 c0l l 0 | _ => (0, 0) end) ((7 + n)%nat, C 0) ((10 + n)%nat, C 0) [((7 + n)%nat, C 0); ((9 + n)%nat, C 0)];
  Do2 "" (fun _ vs => match vs with [c0h; h; carry] => bits_add64 c0h h carry | _ => (0, 0) end) ((6 + n)%nat, C 0) ((11 + n)%nat, C 0) [((6 + n)%nat, C 0); ((8 + n)%nat, C 0); ((10 + n)%nat, C 0)];
  Do2 "" (fun _ vs => match vs with [a2; a3] => bits_mul64 (u64 (a2 * 38)) a3 | _ => (0, 0) end) ((8 + n)%nat, C 0) ((9 + n)%nat, C 0) [((2 + n)%nat, C 0); ((3 + n)%nat, C 0)];
  Do2 "" (fun _ vs => match vs with [c0l; l] => bits_add64 c0l l 0 | _ => (0, 0) end) ((7 + n)%nat, C 0) ((10 + n)%nat, C 0) [((7 + n)%nat, C 0); ((9 + n)%nat, C 0)];
  Do2 "" (fun _ vs => match vs with [c0h; h; carry] => bits_add64 c0h h carry | _ => (0, 0) end) ((6 + n)%nat, C 0) ((11 + n)%nat, C 0) [((6 + n)%nat, C 0); ((8 + n)%nat, C 0); ((10 + n)%nat, C 0)];
  Do2 "" (fun _ vs => match vs with [a0; a1] => bits_mul64 (u64 (2 * a0)) a1 | _ => (0, 0) end) ((12 + n)%nat, C 0) ((13 + n)%nat, C 0) [((0 + n)%nat, C 0); ((1 + n)%nat, C 0)];
  Do2 "" (fun _ vs => match vs with [a2; a4_38] => bits_mul64 a2 a4_38 | _ => (0, 0) end) ((8 + n)%nat, C 0) ((9 + n)%nat, C 0) [((2 + n)%nat, C 0); ((5 + n)%nat, C 0)];
  Do2 "" (fun _ vs => match vs with [c1l; l] => bits_add64 c1l l 0 | _ => (0, 0) end) ((13 + n)%nat, C 0) ((10 + n)%nat, C 0) [((13 + n)%nat, C 0); ((9 + n)%nat, C 0)];
  Do2 "" (fun _ vs => match vs with [c1h; h; carry] => bits_add64 c1h h carry | _ => (0, 0) end) ((12 + n)%nat, C 0) ((11 + n)%nat, C 0) [((12 + n)%nat, C 0); ((8 + n)%nat, C 0); ((10 + n)%nat, C 0)];
  Do2 "" (fun _ vs => match vs with [a3] => bits_mul64 (u64 (a3 * 19)) a3 | _ => (0, 0) end) ((8 + n)%nat, C 0) ((9 + n)%nat, C 0) [((3 + n)%nat, C 0)];
  Do2 "" (fun _ vs => match vs with [c1l; l] => bits_add64 c1l l 0 | _ => (0, 0) end) ((13 + n)%nat, C 0) ((10 + n)%nat, C 0) [((13 + n)%nat, C 0); ((9 + n)%nat, C 0)];
  Do2 "" (fun _ vs => match vs with [c1h; h; carry] => bits_add64 c1h h carry | _ => (0, 0) end) ((12 + n)%nat, C 0) ((11 + n)%nat, C 0) [((12 + n)%nat, C 0); ((8 + n)%nat, C 0); ((10 + n)%nat, C 0)];
  Do2 "" (fun _ vs => match vs with [c0l; c0h; c1l] => bits_add64 (Z.lor (Z.shiftr c0l 51) (u64 (Z.shiftl c0h 13))) c1l 0 | _ => (0, 0) end) ((13 + n)%nat, C 0) ((10 + n)%nat, C 0) [((7 + n)%nat, C 0); ((6 + n)%nat, C 0); ((13 + n)%nat, C 0)];
  Do2 "" (fun _ vs => match vs with [c1h; carry] => bits_add64 c1h 0 carry | _ => (0, 0) end) ((12 + n)%nat, C 0) ((11 + n)%nat, C 0) [((12 + n)%nat, C 0); ((10 + n)%nat, C 0)];
  Do "" (fun _ vs => match vs with [c0l] => Z.land c0l 2251799813685247 | _ => 0 end) ((7 + n)%nat, C 0) [((7 + n)%nat, C 0)];
  Do2 "" (fun _ vs => match vs with [a0; a2] => bits_mul64 a0 (u64 (2 * a2)) | _ => (0, 0) end) ((14 + n)%nat, C 0) ((15 + n)%nat, C 0) [((0 + n)%nat, C 0); ((2 + n)%nat, C 0)];
  Do2 "" (fun _ vs => match vs with [a1] => bits_mul64 a1 a1 | _ => (0, 0) end) ((8 + n)%nat, C 0) ((9 + n)%nat, C 0) [((1 + n)%nat, C 0)];
  Do2 "" (fun _ vs => match vs with [c2l; l] => bits_add64 c2l l 0 | _ => (0, 0) end) ((15 + n)%nat, C 0) ((10 + n)%nat, C 0) [((15 + n)%nat, C 0); ((9 + n)%nat, C 0)];
  Do2 "" (fun _ vs => match vs with [c2h; h; carry] => bits_add64 c2h h carry | _ => (0, 0) end) ((14 + n)%nat, C 0) ((11 + n)%nat, C 0) [((14 + n)%nat, C 0); ((8 + n)%nat, C 0); ((10 + n)%nat, C 0)];
  Do2 "" (fun _ vs => match vs with [a4_38; a3] => bits_mul64 a4_38 a3 | _ => (0, 0) end) ((8 + n)%nat, C 0) ((9 + n)%nat, C 0) [((5 + n)%nat, C 0); ((3 + n)%nat, C 0)];
  Do2 "" (fun _ vs => match vs with [c2l; l] => bits_add64 c2l l 0 | _ => (0, 0) end) ((15 + n)%nat, C 0) ((10 + n)%nat, C 0) [((15 + n)%nat, C 0); ((9 + n)%nat, C 0)];
  Do2 "" (fun _ vs => match vs with [c2h; h; carry] => bits_add64 c2h h carry | _ => (0, 0) end) ((14 + n)%nat, C 0) ((11 + n)%nat, C 0) [((14 + n)%nat, C 0); ((8 + n)%nat, C 0); ((10 + n)%nat, C 0)];
  Do2 "" (fun _ vs => match vs with [c1l; c1h; c2l] => bits_add64 (Z.lor (Z.shiftr c1l 51) (u64 (Z.shiftl c1h 13))) c2l 0 | _ => (0, 0) end) ((15 + n)%nat, C 0) ((10 + n)%nat, C 0) [((13 + n)%nat, C 0); ((12 + n)%nat, C 0); ((15 + n)%nat, C 0)];
  Do2 "" (fun _ vs => match vs with [c2h; carry] => bits_add64 c2h 0 carry | _ => (0, 0) end) ((14 + n)%nat, C 0) ((11 + n)%nat, C 0) [((14 + n)%nat, C 0); ((10 + n)%nat, C 0)];
  Do "" (fun _ vs => match vs with [c1l] => Z.land c1l 2251799813685247 | _ => 0 end) ((13 + n)%nat, C 0) [((13 + n)%nat, C 0)];
  Do2 "" (fun _ vs => match vs with [a0; a3] => bits_mul64 a0 (u64 (2 * a3)) | _ => (0, 0) end) ((16 + n)%nat, C 0) ((17 + n)%nat, C 0) [((0 + n)%nat, C 0); ((3 + n)%nat, C 0)];
  Do2 "" (fun _ vs => match vs with [a1; a2] => bits_mul64 (u64 (2 * a1)) a2 | _ => (0, 0) end) ((8 + n)%nat, C 0) ((9 + n)%nat, C 0) [((1 + n)%nat, C 0); ((2 + n)%nat, C 0)];
  Do2 "" (fun _ vs => match vs with [c3l; l] => bits_add64 c3l l 0 | _ => (0, 0) end) ((17 + n)%nat, C 0) ((10 + n)%nat, C 0) [((17 + n)%nat, C 0); ((9 + n)%nat, C 0)];
  Do2 "" (fun _ vs => match vs with [c3h; h; carry] => bits_add64 c3h h carry | _ => (0, 0) end) ((16 + n)%nat, C 0) ((11 + n)%nat, C 0) [((16 + n)%nat, C 0); ((8 + n)%nat, C 0); ((10 + n)%nat, C 0)];
  Do2 "" (fun _ vs => match vs with [a4] => bits_mul64 (u64 (a4 * 19)) a4 | _ => (0, 0) end) ((8 + n)%nat, C 0) ((9 + n)%nat, C 0) [((4 + n)%nat, C 0)];
  Do2 "" (fun _ vs => match vs with [c3l; l] => bits_add64 c3l l 0 | _ => (0, 0) end) ((17 + n)%nat, C 0) ((10 + n)%nat, C 0) [((17 + n)%nat, C 0); ((9 + n)%nat, C 0)];
  Do2 "" (fun _ vs => match vs with [c3h; h; carry] => bits_add64 c3h h carry | _ => (0, 0) end) ((16 + n)%nat, C 0) ((11 + n)%nat, C 0) [((16 + n)%nat, C 0); ((8 + n)%nat, C 0); ((10 + n)%nat, C 0)];
  Do2 "" (fun _ vs => match vs with [c2l; c2h; c3l] => bits_add64 (Z.lor (Z.shiftr c2l 51) (u64 (Z.shiftl c2h 13))) c3l 0 | _ => (0, 0) end) ((17 + n)%nat, C 0) ((10 + n)%nat, C 0) [((15 + n)%nat, C 0); ((14 + n)%nat, C 0); ((17 + n)%nat, C 0)];
  Do2 "" (fun _ vs => match vs with [c3h; carry] => bits_add64 c3h 0 carry | _ => (0, 0) end) ((16 + n)%nat, C 0) ((11 + n)%nat, C 0) [((16 + n)%nat, C 0); ((10 + n)%nat, C 0)];
  Do "" (fun _ vs => match vs with [c2l] => Z.land c2l 2251799813685247 | _ => 0 end) ((15 + n)%nat, C 0) [((15 + n)%nat, C 0)];
  Do2 "" (fun _ vs => match vs with [a0; a4] => bits_mul64 a0 (u64 (2 * a4)) | _ => (0, 0) end) ((18 + n)%nat, C 0) ((19 + n)%nat, C 0) [((0 + n)%nat, C 0); ((4 + n)%nat, C 0)];
  Do2 "" (fun _ vs => match vs with [a2] => bits_mul64 a2 a2 | _ => (0, 0) end) ((8 + n)%nat, C 0) ((9 + n)%nat, C 0) [((2 + n)%nat, C 0)];
  Do2 "" (fun _ vs => match vs with [c4l; l] => bits_add64 c4l l 0 | _ => (0, 0) end) ((19 + n)%nat, C 0) ((10 + n)%nat, C 0) [((19 + n)%nat, C 0); ((9 + n)%nat, C 0)];
  Do2 "" (fun _ vs => match vs with [c4h; h; carry] => bits_add64 c4h h carry | _ => (0, 0) end) ((18 + n)%nat, C 0) ((11 + n)%nat, C 0) [((18 + n)%nat, C 0); ((8 + n)%nat, C 0); ((10 + n)%nat, C 0)];
  Do2 "" (fun _ vs => match vs with [a3; a1] => bits_mul64 a3 (u64 (2 * a1)) | _ => (0, 0) end) ((8 + n)%nat, C 0) ((9 + n)%nat, C 0) [((3 + n)%nat, C 0); ((1 + n)%nat, C 0)];
  Do2 "" (fun _ vs => match vs with [c4l; l] => bits_add64 c4l l 0 | _ => (0, 0) end) ((19 + n)%nat, C 0) ((10 + n)%nat, C 0) [((19 + n)%nat, C 0); ((9 + n)%nat, C 0)];
  Do2 "" (fun _ vs => match vs with [c4h; h; carry] => bits_add64 c4h h carry | _ => (0, 0) end) ((18 + n)%nat, C 0) ((11 + n)%nat, C 0) [((18 + n)%nat, C 0); ((8 + n)%nat, C 0); ((10 + n)%nat, C 0)];
  Do2 "" (fun _ vs => match vs with [c3l; c3h; c4l] => bits_add64 (Z.lor (Z.shiftr c3l 51) (u64 (Z.shiftl c3h 13))) c4l 0 | _ => (0, 0) end) ((19 + n)%nat, C 0) ((10 + n)%nat, C 0) [((17 + n)%nat, C 0); ((16 + n)%nat, C 0); ((19 + n)%nat, C 0)];
  Do2 "" (fun _ vs => match vs with [c4h; carry] => bits_add64 c4h 0 carry | _ => (0, 0) end) ((18 + n)%nat, C 0) ((11 + n)%nat, C 0) [((18 + n)%nat, C 0); ((10 + n)%nat, C 0)];
  Do "" (fun _ vs => match vs with [c3l] => Z.land c3l 2251799813685247 | _ => 0 end) ((17 + n)%nat, C 0) [((17 + n)%nat, C 0)];
  Do "" (fun _ vs => match vs with [c4l; c4h] => Z.lor (Z.shiftr c4l 51) (u64 (Z.shiftl c4h 13)) | _ => 0 end) ((10 + n)%nat, C 0) [((19 + n)%nat, C 0); ((18 + n)%nat, C 0)];
  Do "" (fun _ vs => match vs with [c0l; carry] => u64 (c0l + (u64 (carry * 19))) | _ => 0 end) ((7 + n)%nat, C 0) [((7 + n)%nat, C 0); ((10 + n)%nat, C 0)];
  Do "" (fun _ vs => match vs with [c4l] => Z.land c4l 2251799813685247 | _ => 0 end) ((19 + n)%nat, C 0) [((19 + n)%nat, C 0)];
  Do "" (fun _ vs => match vs with [c1l; c0l] => u64 (c1l + (Z.shiftr c0l 51)) | _ => 0 end) ((13 + n)%nat, C 0) [((13 + n)%nat, C 0); ((7 + n)%nat, C 0)];
  Do "" (fun _ vs => match vs with [c0l] => Z.land c0l 2251799813685247 | _ => 0 end) ((7 + n)%nat, C 0) [((7 + n)%nat, C 0)];
  Do "" (fun _ vs => match vs with [c0l] => c0l | _ => 0 end) (fe, C 0) [((7 + n)%nat, C 0)];
  Do "" (fun _ vs => match vs with [c1l] => c1l | _ => 0 end) (fe, C 1) [((13 + n)%nat, C 0)];
  Do "" (fun _ vs => match vs with [c2l] => c2l | _ => 0 end) (fe, C 2) [((15 + n)%nat, C 0)];
  Do "" (fun _ vs => match vs with [c3l] => c3l | _ => 0 end) (fe, C 3) [((17 + n)%nat, C 0)];
  Do "" (fun _ vs => match vs with [c4l] => c4l | _ => 0 end) (fe, C 4) [((19 + n)%nat, C 0)]].

(** [DoubledSquare]: /repo/edwards25519/field_mul64.go:214-297; locals from [n] on: a0, a1, a2, a3, a4, a0_2, a1_2, a2_2, a3_38, a4_38, c0h, c0l, h, l, carry, _, c1h, c1l, c2h, c2l, c3h, c3l, c4h, c4l *)
Definition d_r51_doubledSquare (fe a n : nat) : stmt Z := prog [
  Do "" (fun _ vs => match vs with [a_0] => a_0 | _ => 0 end) ((0 + n)%nat, C 0) [(a, C 0)];
  Do "" (fun _ vs => match vs with [a_1] => a_1 | _ => 0 end) ((1 + n)%nat, C 0) [(a, C 1)];
  Do "" (fun _ vs => match vs with [a_2] => a_2 | _ => 0 end) ((2 + n)%nat, C 0) [(a, C 2)];
  Do "" (fun _ vs => match vs with [a_3] => a_3 | _ => 0 end) ((3 + n)%nat, C 0) [(a, C 3)];
  Do "" (fun _ vs => match vs with [a_4] => a_4 | _ => 0 end) ((4 + n)%nat, C 0) [(a, C 4)];
  Do "" (fun _ vs => match vs with [a0] => u64 (a0 * 2) | _ => 0 end) ((5 + n)%nat, C 0) [((0 + n)%nat, C 0)];
  Do "" (fun _ vs => match vs with [a1] => u64 (a1 * 2) | _ => 0 end) ((6 + n)%nat, C 0) [((1 + n)%nat, C 0)];
  Do "" (fun _ vs => match vs with [a2] => u64 (a2 * 2) | _ => 0 end) ((7 + n)%nat, C 0) [((2 + n)%nat, C 0)];
  Do "" (fun _ vs => match vs with [a3] => u64 (a3 * 38) | _ => 0 end) ((8 + n)%nat, C 0) [((3 + n)%nat, C 0)];
  Do "" (fun _ vs => match vs with [a4] => u64 (a4 * 38) | _ => 0 end) ((9 + n)%nat, C 0) [((4 + n)%nat, C 0)];
  Do2 "" (fun _ vs => match vs with [a0; a0_2] => bits_mul64 a0 a0_2 | _ => (0, 0) end) ((10 + n)%nat, C 0) ((11 + n)%nat, C 0) [((0 + n)%nat, C 0); ((5 + n)%nat, C 0)];
  Do2 "" (fun _ vs => match vs with [a4_38; a1_2] => bits_mul64 a4_38 a1_2 | _ => (0, 0) end) ((12 + n)%nat, C 0) ((13 + n)%nat, C 0) [((9 + n)%nat, C 0); ((6 + n)%nat, C 0)];
  Do2 "" (fun _ vs => match vs with [c0l; l] => bits_add64 c0l l 0 | _ => (0, 0) end) ((11 + n)%nat, C 0) ((14 + n)%nat, C 0) [((11 + n)%nat, C 0); ((13 + n)%nat, C 0)];
  Do2 "" (fun _ vs => match vs with [c0h; h; carry] => bits_add64 c0h h carry | _ => (0, 0) end) ((10 + n)%nat, C 0) ((15 + n)%nat, C 0) [((10 + n)%nat, C 0); ((12 + n)%nat, C 0); ((14 + n)%nat, C 0)];
  Do2 "" (fun _ vs => match vs with [a2_2; a3_38] => bits_mul64 a2_2 a3_38 | _ => (0, 0) end) ((12 + n)%nat, C 0) ((13 + n)%nat, C 0) [((7 + n)%nat, C 0); ((8 + n)%nat, C 0)];
  Do2 "" (fun _ vs => match vs with [c0l; l] => bits_add64 c0l l 0 | _ => (0, 0) end) ((11 + n)%nat, C 0) ((14 + n)%nat, C 0) [((11 + n)%nat, C 0); ((13 + n)%nat, C 0)];
  Do2 "" (fun _ vs => match vs with [c0h; h; carry] => bits_add64 c0h h carry | _ => (0, 0) end) ((10 + n)%nat, C 0) ((15 + n)%nat, C 0) [((10 + n)%nat, C 0); ((12 + n)%nat, C 0); ((14 + n)%nat, C 0)];
  Do2 "" (fun _ vs => match vs with [a0_2; a1_2] => bits_mul64 a0_2 a1_2 | _ => (0, 0) end) ((16 + n)%nat, C 0) ((17 + n)%nat, C 0) [((5 + n)%nat, C 0); ((6 + n)%nat, C 0)];
  Do2 "" (fun _ vs => match vs with [a2_2; a4_38] => bits_mul64 a2_2 a4_38 | _ => (0, 0) end) ((12 + n)%nat, C 0) ((13 + n)%nat, C 0) [((7 + n)%nat, C 0); ((9 + n)%nat, C 0)];
  Do2 "" (fun _ vs => match vs with [c1l; l] => bits_add64 c1l l 0 | _ => (0, 0) end) ((17 + n)%nat, C 0) ((14 + n)%nat, C 0) [((17 + n)%nat, C 0); ((13 + n)%nat, C 0)];
  Do2 "" (fun _ vs => match vs with [c1h; h; carry] => bits_add64 c1h h carry | _ => (0, 0) end) ((16 + n)%nat, C 0) ((15 + n)%nat, C 0) [((16 + n)%nat, C 0); ((12 + n)%nat, C 0); ((14 + n)%nat, C 0)];
  Do2 "" (fun _ vs => match vs with [a3_38; a3] => bits_mul64 a3_38 a3 | _ => (0, 0) end) ((12 + n)%nat, C 0) ((13 + n)%nat, C 0) [((8 + n)%nat, C 0); ((3 + n)%nat, C 0)];
  Do2 "" (fun _ vs => match vs with [c1l; l] => bits_add64 c1l l 0 | _ => (0, 0) end) ((17 + n)%nat, C 0) ((14 + n)%nat, C 0) [((17 + n)%nat, C 0); ((13 + n)%nat, C 0)];
  Do2 "" (fun _ vs => match vs with [c1h; h; carry] => bits_add64 c1h h carry | _ => (0, 0) end) ((16 + n)%nat, C 0) ((15 + n)%nat, C 0) [((16 + n)%nat, C 0); ((12 + n)%nat, C 0); ((14 + n)%nat, C 0)];
  Do2 "" (fun _ vs => match vs with [c0l; c0h; c1l] => bits_add64 (Z.lor (Z.shiftr c0l 51) (u64 (Z.shiftl c0h 13))) c1l 0 | _ => (0, 0) end) ((17 + n)%nat, C 0) ((14 + n)%nat, C 0) [((11 + n)%nat, C 0); ((10 + n)%nat, C 0); ((17 + n)%nat, C 0)];
  Do2 "" (fun _ vs => match vs with [c1h; carry] => bits_add64 c1h 0 carry | _ => (0, 0) end) ((16 + n)%nat, C 0) ((15 + n)%nat, C 0) [((16 + n)%nat, C 0); ((14 + n)%nat, C 0)];
  Do "" (fun _ vs => match vs with [c0l] => Z.land c0l 2251799813685247 | _ => 0 end) ((11 + n)%nat, C 0) [((11 + n)%nat, C 0)];
  Do2 "" (fun _ vs => match vs with [a0_2; a2_2] => bits_mul64 a0_2 a2_2 | _ => (0, 0) end) ((18 + n)%nat, C 0) ((19 + n)%nat, C 0) [((5 + n)%nat, C 0); ((7 + n)%nat, C 0)];
  Do2 "" (fun _ vs => match vs with [a1_2; a1] => bits_mul64 a1_2 a1 | _ => (0, 0) end) ((12 + n)%nat, C 0) ((13 + n)%nat, C 0) [((6 + n)%nat, C 0); ((1 + n)%nat, C 0)];
  Do2 "" (fun _ vs => match vs with [c2l; l] => bits_add64 c2l l 0 | _ => (0, 0) end) ((19 + n)%nat, C 0) ((14 + n)%nat, C 0) [((19 + n)%nat, C 0); ((13 + n)%nat, C 0)];
  Do2 "" (fun _ vs => match vs with [c2h; h; carry] => bits_add64 c2h h carry | _ => (0, 0) end) ((18 + n)%nat, C 0) ((15 + n)%nat, C 0) [((18 + n)%nat, C 0); ((12 + n)%nat, C 0); ((14 + n)%nat, C 0)];
  Do2 "" (fun _ vs => match vs with [a4_38; a3] => bits_mul64 a4_38 (u64 (a3 * 2)) | _ => (0, 0) end) ((12 + n)%nat, C 0) ((13 + n)%nat, C 0) [((9 + n)%nat, C 0); ((3 + n)%nat, C 0)];
  Do2 "" (fun _ vs => match vs with [c2l; l] => bits_add64 c2l l 0 | _ => (0, 0) end) ((19 + n)%nat, C 0) ((14 + n)%nat, C 0) [((19 + n)%nat, C 0); ((13 + n)%nat, C 0)];
  Do2 "" (fun _ vs => match vs with [c2h; h; carry] => bits_add64 c2h h carry | _ => (0, 0) end) ((18 + n)%nat, C 0) ((15 + n)%nat, C 0) [((18 + n)%nat, C 0); ((12 + n)%nat, C 0); ((14 + n)%nat, C 0)];
  Do2 "" (fun _ vs => match vs with [c1l; c1h; c2l] => bits_add64 (Z.lor (Z.shiftr c1l 51) (u64 (Z.shiftl c1h 13))) c2l 0 | _ => (0, 0) end) ((19 + n)%nat, C 0) ((14 + n)%nat, C 0) [((17 + n)%nat, C 0); ((16 + n)%nat, C 0); ((19 + n)%nat, C 0)];
  Do2 "" (fun _ vs => match vs with [c2h; carry] => bits_add64 c2h 0 carry | _ => (0, 0) end) ((18 + n)%nat, C 0) ((15 + n)%nat, C 0) [((18 + n)%nat, C 0); ((14 + n)%nat, C 0)];
  Do "" (fun _ vs => match vs with [c1l] => Z.land c1l 2251799813685247 | _ => 0 end) ((17 + n)%nat, C 0) [((17 + n)%nat, C 0)];
  Do2 "" (fun _ vs => match vs with [a0_2; a3] => bits_mul64 a0_2 (u64 (2 * a3)) | _ => (0, 0) end) ((20 + n)%nat, C 0) ((21 + n)%nat, C 0) [((5 + n)%nat, C 0); ((3 + n)%nat, C 0)];
  Do2 "" (fun _ vs => match vs with [a1_2; a2_2] => bits_mul64 a1_2 a2_2 | _ => (0, 0) end) ((12 + n)%nat, C 0) ((13 + n)%nat, C 0) [((6 + n)%nat, C 0); ((7 + n)%nat, C 0)];
  Do2 "" (fun _ vs => match vs with [c3l; l] => bits_add64 c3l l 0 | _ => (0, 0) end) ((21 + n)%nat, C 0) ((14 + n)%nat, C 0) [((21 + n)%nat, C 0); ((13 + n)%nat, C 0)];
  Do2 "" (fun _ vs => match vs with [c3h; h; carry] => bits_add64 c3h h carry | _ => (0, 0) end) ((20 + n)%nat, C 0) ((15 + n)%nat, C 0) [((20 + n)%nat, C 0); ((12 + n)%nat, C 0); ((14 + n)%nat, C 0)];
  Do2 "" (fun _ vs => match vs with [a4_38; a4] => bits_mul64 a4_38 a4 | _ => (0, 0) end) ((12 + n)%nat, C 0) ((13 + n)%nat, C 0) [((9 + n)%nat, C 0); ((4 + n)%nat, C 0)];
  Do2 "" (fun _ vs => match vs with [c3l; l] => bits_add64 c3l l 0 | _ => (0, 0) end) ((21 + n)%nat, C 0) ((14 + n)%nat, C 0) [((21 + n)%nat, C 0); ((13 + n)%nat, C 0)];
  Do2 "" (fun _ vs => match vs with [c3h; h; carry] => bits_add64 c3h h carry | _ => (0, 0) end) ((20 + n)%nat, C 0) ((15 + n)%nat, C 0) [((20 + n)%nat, C 0); ((12 + n)%nat, C 0); ((14 + n)%nat, C 0)];
  Do2 "" (fun _ vs => match vs with [c2l; c2h; c3l] => bits_add64 (Z.lor (Z.shiftr c2l 51) (u64 (Z.shiftl c2h 13))) c3l 0 | _ => (0, 0) end) ((21 + n)%nat, C 0) ((14 + n)%nat, C 0) [((19 + n)%nat, C 0); ((18 + n)%nat, C 0); ((21 + n)%nat, C 0)];
  Do2 "" (fun _ vs => match vs with [c3h; carry] => bits_add64 c3h 0 carry | _ => (0, 0) end) ((20 + n)%nat, C 0) ((15 + n)%nat, C 0) [((20 + n)%nat, C 0); ((14 + n)%nat, C 0)];
  Do "" (fun _ vs => match vs with [c2l] => Z.land c2l 2251799813685247 | _ => 0 end) ((19 + n)%nat, C 0) [((19 + n)%nat, C 0)];
  Do2 "" (fun _ vs => match vs with [a0_2; a4] => bits_mul64 a0_2 (u64 (2 * a4)) | _ => (0, 0) end) ((22 + n)%nat, C 0) ((23 + n)%nat, C 0) [((5 + n)%nat, C 0); ((4 + n)%nat, C 0)];
  Do2 "" (fun _ vs => match vs with [a2_2; a2] => bits_mul64 a2_2 a2 | _ => (0, 0) end) ((12 + n)%nat, C 0) ((13 + n)%nat, C 0) [((7 + n)%nat, C 0); ((2 + n)%nat, C 0)];
  Do2 "" (fun _ vs => match vs with [c4l; l] => bits_add64 c4l l 0 | _ => (0, 0) end) ((23 + n)%nat, C 0) ((14 + n)%nat, C 0) [((23 + n)%nat, C 0); ((13 + n)%nat, C 0)];
  Do2 "" (fun _ vs => match vs with [c4h; h; carry] => bits_add64 c4h h carry | _ => (0, 0) end) ((22 + n)%nat, C 0) ((15 + n)%nat, C 0) [((22 + n)%nat, C 0); ((12 + n)%nat, C 0); ((14 + n)%nat, C 0)];
  Do2 "" (fun _ vs => match vs with [a3; a1_2] => bits_mul64 (u64 (2 * a3)) a1_2 | _ => (0, 0) end) ((12 + n)%nat, C 0) ((13 + n)%nat, C 0) [((3 + n)%nat, C 0); ((6 + n)%nat, C 0)];
  Do2 "" (fun _ vs => match vs with [c4l; l] => bits_add64 c4l l 0 | _ => (0, 0) end) ((23 + n)%nat, C 0) ((14 + n)%nat, C 0) [((23 + n)%nat, C 0); ((13 + n)%nat, C 0)];
  Do2 "" (fun _ vs => match vs with [c4h; h; carry] => bits_add64 c4h h carry | _ => (0, 0) end) ((22 + n)%nat, C 0) ((15 + n)%nat, C 0) [((22 + n)%nat, C 0); ((12 + n)%nat, C 0); ((14 + n)%nat, C 0)];
  Do2 "" (fun _ vs => match vs with [c3l; c3h; c4l] => bits_add64 (Z.lor (Z.shiftr c3l 51) (u64 (Z.shiftl c3h 13))) c4l 0 | _ => (0, 0) end) ((23 + n)%nat, C 0) ((14 + n)%nat, C 0) [((21 + n)%nat, C 0); ((20 + n)%nat, C 0); ((23 + n)%nat, C 0)];
  Do2 "" (fun _ vs => match vs with [c4h; carry] => bits_add64 c4h 0 carry | _ => (0, 0) end) ((22 + n)%nat, C 0) ((15 + n)%nat, C 0) [((22 + n)%nat, C 0); ((14 + n)%nat, C 0)];
  Do "" (fun _ vs => match vs with [c3l] => Z.land c3l 2251799813685247 | _ => 0 end) ((21 + n)%nat, C 0) [((21 + n)%nat, C 0)];
  Do "" (fun _ vs => match vs with [c4l; c4h] => Z.lor (Z.shiftr c4l 51) (u64 (Z.shiftl c4h 13)) | _ => 0 end) ((14 + n)%nat, C 0) [((23 + n)%nat, C 0); ((22 + n)%nat, C 0)];
  Do "" (fun _ vs => match vs with [c0l; carry] => u64 (c0l + (u64 (carry * 19))) | _ => 0 end) ((11 + n)%nat, C 0) [((11 + n)%nat, C 0); ((14 + n)%nat, C 0)];
  Do "" (fun _ vs => match vs with [c4l] => Z.land c4l 2251799813685247 | _ => 0 end) ((23 + n)%nat, C 0) [((23 + n)%nat, C 0)];
  Do "" (fun _ vs => match vs with [c1l; c0l] => u64 (c1l + (Z.shiftr c0l 51)) | _ => 0 end) ((17 + n)%nat, C 0) [((17 + n)%nat, C 0); ((11 + n)%nat, C 0)];
  Do "" (fun _ vs => match vs with [c0l] => Z.land c0l 2251799813685247 | _ => 0 end) ((11 + n)%nat, C 0) [((11 + n)%nat, C 0)];
  Do "" (fun _ vs => match vs with [c0l] => c0l | _ => 0 end) (fe, C 0) [((11 + n)%nat, C 0)];
  Do "" (fun _ vs => match vs with [c1l] => c1l | _ => 0 end) (fe, C 1) [((17 + n)%nat, C 0)];
  Do "" (fun _ vs => match vs with [c2l] => c2l | _ => 0 end) (fe, C 2) [((19 + n)%nat, C 0)];
  Do "" (fun _ vs => match vs with [c3l] => c3l | _ => 0 end) (fe, C 3) [((21 + n)%nat, C 0)];
  Do "" (fun _ vs => match vs with [c4l] => c4l | _ => 0 end) (fe, C 4) [((23 + n)%nat, C 0)]].

(** [Neg]: /repo/edwards25519/field_generic.go:101-113; locals from [n] on: none *)
Definition d_g25_neg (fe a n : nat) : stmt Z := prog [
  Do "" (fun _ vs => match vs with [a_0] => i32 (- a_0) | _ => 0 end) (fe, C 0) [(a, C 0)];
  Do "" (fun _ vs => match vs with [a_1] => i32 (- a_1) | _ => 0 end) (fe, C 1) [(a, C 1)];
  Do "" (fun _ vs => match vs with [a_2] => i32 (- a_2) | _ => 0 end) (fe, C 2) [(a, C 2)];
  Do "" (fun _ vs => match vs with [a_3] => i32 (- a_3) | _ => 0 end) (fe, C 3) [(a, C 3)];
  Do "" (fun _ vs => match vs with [a_4] => i32 (- a_4) | _ => 0 end) (fe, C 4) [(a, C 4)];
  Do "" (fun _ vs => match vs with [a_5] => i32 (- a_5) | _ => 0 end) (fe, C 5) [(a, C 5)];
  Do "" (fun _ vs => match vs with [a_6] => i32 (- a_6) | _ => 0 end) (fe, C 6) [(a, C 6)];
  Do "" (fun _ vs => match vs with [a_7] => i32 (- a_7) | _ => 0 end) (fe, C 7) [(a, C 7)];
  Do "" (fun _ vs => match vs with [a_8] => i32 (- a_8) | _ => 0 end) (fe, C 8) [(a, C 8)];
  Do "" (fun _ vs => match vs with [a_9] => i32 (- a_9) | _ => 0 end) (fe, C 9) [(a, C 9)]].

(** [add]: /repo/edwards25519/field_generic.go:116-128; locals from [n] on: none *)
Definition d_g25_add (fe a b n : nat) : stmt Z := prog [
  Do "" (fun _ vs => match vs with [a_0; b_0] => i32 (a_0 + b_0) | _ => 0 end) (fe, C 0) [(a, C 0); (b, C 0)];
  Do "" (fun _ vs => match vs with [a_1; b_1] => i32 (a_1 + b_1) | _ => 0 end) (fe, C 1) [(a, C 1); (b, C 1)];
  Do "" (fun _ vs => match vs with [a_2; b_2] => i32 (a_2 + b_2) | _ => 0 end) (fe, C 2) [(a, C 2); (b, C 2)];
  Do "" (fun _ vs => match vs with [a_3; b_3] => i32 (a_3 + b_3) | _ => 0 end) (fe, C 3) [(a, C 3); (b, C 3)];
  Do "" (fun _ vs => match vs with [a_4; b_4] => i32 (a_4 + b_4) | _ => 0 end) (fe, C 4) [(a, C 4); (b, C 4)];
  Do "" (fun _ vs => match vs with [a_5; b_5] => i32 (a_5 + b_5) | _ => 0 end) (fe, C 5) [(a, C 5); (b, C 5)];
  Do "" (fun _ vs => match vs with [a_6; b_6] => i32 (a_6 + b_6) | _ => 0 end) (fe, C 6) [(a, C 6); (b, C 6)];
  Do "" (fun _ vs => match vs with [a_7; b_7] => i32 (a_7 + b_7) | _ => 0 end) (fe, C 7) [(a, C 7); (b, C 7)];
  Do "" (fun _ vs => match vs with [a_8; b_8] => i32 (a_8 + b_8) | _ => 0 end) (fe, C 8) [(a, C 8); (b, C 8)];
  Do "" (fun _ vs => match vs with [a_9; b_9] => i32 (a_9 + b_9) | _ => 0 end) (fe, C 9) [(a, C 9); (b, C 9)]].

(** [sub]: /repo/edwards25519/field_generic.go:131-143; locals from [n] on: none *)
Definition d_g25_sub (fe a b n : nat) : stmt Z := prog [
  Do "" (fun _ vs => match vs with [a_0; b_0] => i32 (a_0 - b_0) | _ => 0 end) (fe, C 0) [(a, C 0); (b, C 0)];
  Do "" (fun _ vs => match vs with [a_1; b_1] => i32 (a_1 - b_1) | _ => 0 end) (fe, C 1) [(a, C 1); (b, C 1)];
  Do "" (fun _ vs => match vs with [a_2; b_2] => i32 (a_2 - b_2) | _ => 0 end) (fe, C 2) [(a, C 2); (b, C 2)];
  Do "" (fun _ vs => match vs with [a_3; b_3] => i32 (a_3 - b_3) | _ => 0 end) (fe, C 3) [(a, C 3); (b, C 3)];
  Do "" (fun _ vs => match vs with [a_4; b_4] => i32 (a_4 - b_4) | _ => 0 end) (fe, C 4) [(a, C 4); (b, C 4)];
  Do "" (fun _ vs => match vs with [a_5; b_5] => i32 (a_5 - b_5) | _ => 0 end) (fe, C 5) [(a, C 5); (b, C 5)];
  Do "" (fun _ vs => match vs with [a_6; b_6] => i32 (a_6 - b_6) | _ => 0 end) (fe, C 6) [(a, C 6); (b, C 6)];
  Do "" (fun _ vs => match vs with [a_7; b_7] => i32 (a_7 - b_7) | _ => 0 end) (fe, C 7) [(a, C 7); (b, C 7)];
  Do "" (fun _ vs => match vs with [a_8; b_8] => i32 (a_8 - b_8) | _ => 0 end) (fe, C 8) [(a, C 8); (b, C 8)];
  Do "" (fun _ vs => match vs with [a_9; b_9] => i32 (a_9 - b_9) | _ => 0 end) (fe, C 9) [(a, C 9); (b, C 9)]].

(** [setReduced]: /repo/edwards25519/field_generic.go:174-233; locals from [n] on: c0, c4, c1, c5, c2, c6, c3, c7, c8, c9 *)
Definition d_g25_setReduced (fe h0 h1 h2 h3 h4 h5 h6 h7 h8 h9 n : nat) : stmt Z := prog [
  Do "" (fun _ vs => match vs with [h0] => Z.shiftr (i64 (h0 + 33554432)) 26 | _ => 0 end) ((0 + n)%nat, C 0) [(h0, C 0)];
  Do "" (fun _ vs => match vs with [h1; c0] => i64 (h1 + c0) | _ => 0 end) (h1, C 0) [(h1, C 0); ((0 + n)%nat, C 0)];
  Do "" (fun _ vs => match vs with [h0; c0] => i64 (h0 - (i64 (Z.shiftl c0 26))) | _ => 0 end) (h0, C 0) [(h0, C 0); ((0 + n)%nat, C 0)];
  Do "" (fun _ vs => match vs with [h4] => Z.shiftr (i64 (h4 + 33554432)) 26 | _ => 0 end) ((1 + n)%nat, C 0) [(h4, C 0)];
  Do "" (fun _ vs => match vs with [h5; c4] => i64 (h5 + c4) | _ => 0 end) (h5, C 0) [(h5, C 0); ((1 + n)%nat, C 0)];
  Do "" (fun _ vs => match vs with [h4; c4] => i64 (h4 - (i64 (Z.shiftl c4 26))) | _ => 0 end) (h4, C 0) [(h4, C 0); ((1 + n)%nat, C 0)];
  Do "" (fun _ vs => match vs with [h1] => Z.shiftr (i64 (h1 + 16777216)) 25 | _ => 0 end) ((2 + n)%nat, C 0) [(h1, C 0)];
  Do "" (fun _ vs => match vs with [h2; c1] => i64 (h2 + c1) | _ => 0 end) (h2, C 0) [(h2, C 0); ((2 + n)%nat, C 0)];
  Do "" (fun _ vs => match vs with [h1; c1] => i64 (h1 - (i64 (Z.shiftl c1 25))) | _ => 0 end) (h1, C 0) [(h1, C 0); ((2 + n)%nat, C 0)];
  Do "" (fun _ vs => match vs with [h5] => Z.shiftr (i64 (h5 + 16777216)) 25 | _ => 0 end) ((3 + n)%nat, C 0) [(h5, C 0)];
  Do "" (fun _ vs => match vs with [h6; c5] => i64 (h6 + c5) | _ => 0 end) (h6, C 0) [(h6, C 0); ((3 + n)%nat, C 0)];
  Do "" (fun _ vs => match vs with [h5; c5] => i64 (h5 - (i64 (Z.shiftl c5 25))) | _ => 0 end) (h5, C 0) [(h5, C 0); ((3 + n)%nat, C 0)];
  Do "" (fun _ vs => match vs with [h2] => Z.shiftr (i64 (h2 + 33554432)) 26 | _ => 0 end) ((4 + n)%nat, C 0) [(h2, C 0)];
  Do "" (fun _ vs => match vs with [h3; c2] => i64 (h3 + c2) | _ => 0 end) (h3, C 0) [(h3, C 0); ((4 + n)%nat, C 0)];
  Do "" (fun _ vs => match vs with [h2; c2] => i64 (h2 - (i64 (Z.shiftl c2 26))) | _ => 0 end) (h2, C 0) [(h2, C 0); ((4 + n)%nat, C 0)];
  Do "" (fun _ vs => match vs with [h6] => Z.shiftr (i64 (h6 + 33554432)) 26 | _ => 0 end) ((5 + n)%nat, C 0) [(h6, C 0)];
  Do "" (fun _ vs => match vs with [h7; c6] => i64 (h7 + c6) | _ => 0 end) (h7, C 0) [(h7, C 0); ((5 + n)%nat, C 0)];
  Do "" (fun _ vs => match vs with [h6; c6] => i64 (h6 - (i64 (Z.shiftl c6 26))) | _ => 0 end) (h6, C 0) [(h6, C 0); ((5 + n)%nat, C 0)];
  Do "" (fun _ vs => match vs with [h3] => Z.shiftr (i64 (h3 + 16777216)) 25 | _ => 0 end) ((6 + n)%nat, C 0) [(h3, C 0)];
  Do "" (fun _ vs => match vs with [h4; c3] => i64 (h4 + c3) | _ => 0 end) (h4, C 0) [(h4, C 0); ((6 + n)%nat, C 0)];
  Do "" (fun _ vs => match vs with [h3; c3] => i64 (h3 - (i64 (Z.shiftl c3 25))) | _ => 0 end) (h3, C 0) [(h3, C 0); ((6 + n)%nat, C 0)];
  Do "" (fun _ vs => match vs with [h7] => Z.shiftr (i64 (h7 + 16777216)) 25 | _ => 0 end) ((7 + n)%nat, C 0) [(h7, C 0)];
  Do "" (fun _ vs => match vs with [h8; c7] => i64 (h8 + c7) | _ => 0 end) (h8, C 0) [(h8, C 0); ((7 + n)%nat, C 0)];
  Do "" (fun _ vs => match vs with [h7; c7] => i64 (h7 - (i64 (Z.shiftl c7 25))) | _ => 0 end) (h7, C 0) [(h7, C 0); ((7 + n)%nat, C 0)];
  Do "" (fun _ vs => match vs with [h4] => Z.shiftr (i64 (h4 + 33554432)) 26 | _ => 0 end) ((1 + n)%nat, C 0) [(h4, C 0)];
  Do "" (fun _ vs => match vs with [h5; c4] => i64 (h5 + c4) | _ => 0 end) (h5, C 0) [(h5, C 0); ((1 + n)%nat, C 0)];
  Do "" (fun _ vs => match vs with [h4; c4] => i64 (h4 - (i64 (Z.shiftl c4 26))) | _ => 0 end) (h4, C 0) [(h4, C 0); ((1 + n)%nat, C 0)];
  Do "" (fun _ vs => match vs with [h8] => Z.shiftr (i64 (h8 + 33554432)) 26 | _ => 0 end) ((8 + n)%nat, C 0) [(h8, C 0)];
  Do "" (fun _ vs => match vs with [h9; c8] => i64 (h9 + c8) | _ => 0 end) (h9, C 0) [(h9, C 0); ((8 + n)%nat, C 0)];
  Do "" (fun _ vs => match vs with [h8; c8] => i64 (h8 - (i64 (Z.shiftl c8 26))) | _ => 0 end) (h8, C 0) [(h8, C 0); ((8 + n)%nat, C 0)];
  Do "" (fun _ vs => match vs with [h9] => Z.shiftr (i64 (h9 + 16777216)) 25 | _ => 0 end) ((9 + n)%nat, C 0) [(h9, C 0)];
  Do "" (fun _ vs => match vs with [h0; c9] => i64 (h0 + (i64 (c9 * 19))) | _ => 0 end) (h0, C 0) [(h0, C 0); ((9 + n)%nat, C 0)];
  Do "" (fun _ vs => match vs with [h9; c9] => i64 (h9 - (i64 (Z.shiftl c9 25))) | _ => 0 end) (h9, C 0) [(h9, C 0); ((9 + n)%nat, C 0)];
  Do "" (fun _ vs => match vs with [h0] => Z.shiftr (i64 (h0 + 33554432)) 26 | _ => 0 end) ((0 + n)%nat, C 0) [(h0, C 0)];
  Do "" (fun _ vs => match vs with [h1; c0] => i64 (h1 + c0) | _ => 0 end) (h1, C 0) [(h1, C 0); ((0 + n)%nat, C 0)];
  Do "" (fun _ vs => match vs with [h0; c0] => i64 (h0 - (i64 (Z.shiftl c0 26))) | _ => 0 end) (h0, C 0) [(h0, C 0); ((0 + n)%nat, C 0)];
  Do "" (fun _ vs => match vs with [h0] => i32 h0 | _ => 0 end) (fe, C 0) [(h0, C 0)];
  Do "" (fun _ vs => match vs with [h1] => i32 h1 | _ => 0 end) (fe, C 1) [(h1, C 0)];
  Do "" (fun _ vs => match vs with [h2] => i32 h2 | _ => 0 end) (fe, C 2) [(h2, C 0)];
  Do "" (fun _ vs => match vs with [h3] => i32 h3 | _ => 0 end) (fe, C 3) [(h3, C 0)];
  Do "" (fun _ vs => match vs with [h4] => i32 h4 | _ => 0 end) (fe, C 4) [(h4, C 0)];
  Do "" (fun _ vs => match vs with [h5] => i32 h5 | _ => 0 end) (fe, C 5) [(h5, C 0)];
  Do "" (fun _ vs => match vs with [h6] => i32 h6 | _ => 0 end) (fe, C 6) [(h6, C 0)];
  Do "" (fun _ vs => match vs with [h7] => i32 h7 | _ => 0 end) (fe, C 7) [(h7, C 0)];
  Do "" (fun _ vs => match vs with [h8] => i32 h8 | _ => 0 end) (fe, C 8) [(h8, C 0)];
  Do "" (fun _ vs => match vs with [h9] => i32 h9 | _ => 0 end) (fe, C 9) [(h9, C 0)]].

(** [normalize]: /repo/edwards25519/field_generic.go:166-170; locals from [n] on: arg0, arg1, arg2, arg3, arg4, arg5, arg6, arg7, arg8, arg9 *)
Definition d_g25_normalize (fe n : nat) : stmt Z := prog [
  Do "" (fun _ vs => match vs with [fe_0] => fe_0 | _ => 0 end) ((0 + n)%nat, C 0) [(fe, C 0)];
  Do "" (fun _ vs => match vs with [fe_1] => fe_1 | _ => 0 end) ((1 + n)%nat, C 0) [(fe, C 1)];
  Do "" (fun _ vs => match vs with [fe_2] => fe_2 | _ => 0 end) ((2 + n)%nat, C 0) [(fe, C 2)];
  Do "" (fun _ vs => match vs with [fe_3] => fe_3 | _ => 0 end) ((3 + n)%nat, C 0) [(fe, C 3)];
  Do "" (fun _ vs => match vs with [fe_4] => fe_4 | _ => 0 end) ((4 + n)%nat, C 0) [(fe, C 4)];
  Do "" (fun _ vs => match vs with [fe_5] => fe_5 | _ => 0 end) ((5 + n)%nat, C 0) [(fe, C 5)];
  Do "" (fun _ vs => match vs with [fe_6] => fe_6 | _ => 0 end) ((6 + n)%nat, C 0) [(fe, C 6)];
  Do "" (fun _ vs => match vs with [fe_7] => fe_7 | _ => 0 end) ((7 + n)%nat, C 0) [(fe, C 7)];
  Do "" (fun _ vs => match vs with [fe_8] => fe_8 | _ => 0 end) ((8 + n)%nat, C 0) [(fe, C 8)];
  Do "" (fun _ vs => match vs with [fe_9] => fe_9 | _ => 0 end) ((9 + n)%nat, C 0) [(fe, C 9)];
  d_g25_setReduced fe (0 + n)%nat (1 + n)%nat (2 + n)%nat (3 + n)%nat (4 + n)%nat (5 + n)%nat (6 + n)%nat (7 + n)%nat (8 + n)%nat (9 + n)%nat (10 + n)%nat].

(** [ConditionalSet]: /repo/edwards25519/field_generic.go:236-248; locals from [n] on: none *)
Definition d_g25_condSet (fe a b n : nat) : stmt Z := prog [
  Do "" (fun _ vs => match vs with [b] => i32 (- b) | _ => 0 end) (b, C 0) [(b, C 0)];
  Do "" (fun _ vs => match vs with [fe_0; b; a_0] => Z.lxor fe_0 (Z.land b (Z.lxor fe_0 a_0)) | _ => 0 end) (fe, C 0) [(fe, C 0); (b, C 0); (a, C 0)];
  Do "" (fun _ vs => match vs with [fe_1; b; a_1] => Z.lxor fe_1 (Z.land b (Z.lxor fe_1 a_1)) | _ => 0 end) (fe, C 1) [(fe, C 1); (b, C 0); (a, C 1)];
  Do "" (fun _ vs => match vs with [fe_2; b; a_2] => Z.lxor fe_2 (Z.land b (Z.lxor fe_2 a_2)) | _ => 0 end) (fe, C 2) [(fe, C 2); (b, C 0); (a, C 2)];
  Do "" (fun _ vs => match vs with [fe_3; b; a_3] => Z.lxor fe_3 (Z.land b (Z.lxor fe_3 a_3)) | _ => 0 end) (fe, C 3) [(fe, C 3); (b, C 0); (a, C 3)];
  Do "" (fun _ vs => match vs with [fe_4; b; a_4] => Z.lxor fe_4 (Z.land b (Z.lxor fe_4 a_4)) | _ => 0 end) (fe, C 4) [(fe, C 4); (b, C 0); (a, C 4)];
  Do "" (fun _ vs => match vs with [fe_5; b; a_5] => Z.lxor fe_5 (Z.land b (Z.lxor fe_5 a_5)) | _ => 0 end) (fe, C 5) [(fe, C 5); (b, C 0); (a, C 5)];
  Do "" (fun _ vs => match vs with [fe_6; b; a_6] => Z.lxor fe_6 (Z.land b (Z.lxor fe_6 a_6)) | _ => 0 end) (fe, C 6) [(fe, C 6); (b, C 0); (a, C 6)];
  Do "" (fun _ vs => match vs with [fe_7; b; a_7] => Z.lxor fe_7 (Z.land b (Z.lxor fe_7 a_7)) | _ => 0 end) (fe, C 7) [(fe, C 7); (b, C 0); (a, C 7)];
  Do "" (fun _ vs => match vs with [fe_8; b; a_8] => Z.lxor fe_8 (Z.land b (Z.lxor fe_8 a_8)) | _ => 0 end) (fe, C 8) [(fe, C 8); (b, C 0); (a, C 8)];
  Do "" (fun _ vs => match vs with [fe_9; b; a_9] => Z.lxor fe_9 (Z.land b (Z.lxor fe_9 a_9)) | _ => 0 end) (fe, C 9) [(fe, C 9); (b, C 0); (a, C 9)]].

(** [BytesInto]: /repo/edwards25519/field_generic.go:251-331; locals from [n] on: q, carry *)
Definition d_g25_bytes (fe s n : nat) : stmt Z := prog [
  Do "" (fun _ vs => match vs with [fe_9] => Z.shiftr (i32 ((i32 (19 * fe_9)) + 16777216)) 25 | _ => 0 end) ((0 + n)%nat, C 0) [(fe, C 9)];
  Do "" (fun _ vs => match vs with [fe_0; q] => Z.shiftr (i32 (fe_0 + q)) 26 | _ => 0 end) ((0 + n)%nat, C 0) [(fe, C 0); ((0 + n)%nat, C 0)];
  Do "" (fun _ vs => match vs with [fe_1; q] => Z.shiftr (i32 (fe_1 + q)) 25 | _ => 0 end) ((0 + n)%nat, C 0) [(fe, C 1); ((0 + n)%nat, C 0)];
  Do "" (fun _ vs => match vs with [fe_2; q] => Z.shiftr (i32 (fe_2 + q)) 26 | _ => 0 end) ((0 + n)%nat, C 0) [(fe, C 2); ((0 + n)%nat, C 0)];
  Do "" (fun _ vs => match vs with [fe_3; q] => Z.shiftr (i32 (fe_3 + q)) 25 | _ => 0 end) ((0 + n)%nat, C 0) [(fe, C 3); ((0 + n)%nat, C 0)];
  Do "" (fun _ vs => match vs with [fe_4; q] => Z.shiftr (i32 (fe_4 + q)) 26 | _ => 0 end) ((0 + n)%nat, C 0) [(fe, C 4); ((0 + n)%nat, C 0)];
  Do "" (fun _ vs => match vs with [fe_5; q] => Z.shiftr (i32 (fe_5 + q)) 25 | _ => 0 end) ((0 + n)%nat, C 0) [(fe, C 5); ((0 + n)%nat, C 0)];
  Do "" (fun _ vs => match vs with [fe_6; q] => Z.shiftr (i32 (fe_6 + q)) 26 | _ => 0 end) ((0 + n)%nat, C 0) [(fe, C 6); ((0 + n)%nat, C 0)];
  Do "" (fun _ vs => match vs with [fe_7; q] => Z.shiftr (i32 (fe_7 + q)) 25 | _ => 0 end) ((0 + n)%nat, C 0) [(fe, C 7); ((0 + n)%nat, C 0)];
  Do "" (fun _ vs => match vs with [fe_8; q] => Z.shiftr (i32 (fe_8 + q)) 26 | _ => 0 end) ((0 + n)%nat, C 0) [(fe, C 8); ((0 + n)%nat, C 0)];
  Do "" (fun _ vs => match vs with [fe_9; q] => Z.shiftr (i32 (fe_9 + q)) 25 | _ => 0 end) ((0 + n)%nat, C 0) [(fe, C 9); ((0 + n)%nat, C 0)];
  Do "" (fun _ vs => match vs with [fe_0; q] => i32 (fe_0 + (i32 (19 * q))) | _ => 0 end) (fe, C 0) [(fe, C 0); ((0 + n)%nat, C 0)];
  Do "" (fun _ vs => match vs with [fe_0] => Z.shiftr fe_0 26 | _ => 0 end) ((1 + n)%nat, C 0) [(fe, C 0)];
  Do "" (fun _ vs => match vs with [fe_1; carry_0] => i32 (fe_1 + carry_0) | _ => 0 end) (fe, C 1) [(fe, C 1); ((1 + n)%nat, C 0)];
  Do "" (fun _ vs => match vs with [fe_0; carry_0] => i32 (fe_0 - (i32 (Z.shiftl carry_0 26))) | _ => 0 end) (fe, C 0) [(fe, C 0); ((1 + n)%nat, C 0)];
  Do "" (fun _ vs => match vs with [fe_1] => Z.shiftr fe_1 25 | _ => 0 end) ((1 + n)%nat, C 1) [(fe, C 1)];
  Do "" (fun _ vs => match vs with [fe_2; carry_1] => i32 (fe_2 + carry_1) | _ => 0 end) (fe, C 2) [(fe, C 2); ((1 + n)%nat, C 1)];
  Do "" (fun _ vs => match vs with [fe_1; carry_1] => i32 (fe_1 - (i32 (Z.shiftl carry_1 25))) | _ => 0 end) (fe, C 1) [(fe, C 1); ((1 + n)%nat, C 1)];
  Do "" (fun _ vs => match vs with [fe_2] => Z.shiftr fe_2 26 | _ => 0 end) ((1 + n)%nat, C 2) [(fe, C 2)];
  Do "" (fun _ vs => match vs with [fe_3; carry_2] => i32 (fe_3 + carry_2) | _ => 0 end) (fe, C 3) [(fe, C 3); ((1 + n)%nat, C 2)];
  Do "" (fun _ vs => match vs with [fe_2; carry_2] => i32 (fe_2 - (i32 (Z.shiftl carry_2 26))) | _ => 0 end) (fe, C 2) [(fe, C 2); ((1 + n)%nat, C 2)];
  Do "" (fun _ vs => match vs with [fe_3] => Z.shiftr fe_3 25 | _ => 0 end) ((1 + n)%nat, C 3) [(fe, C 3)];
  Do "" (fun _ vs => match vs with [fe_4; carry_3] => i32 (fe_4 + carry_3) | _ => 0 end) (fe, C 4) [(fe, C 4); ((1 + n)%nat, C 3)];
  Do "" (fun _ vs => match vs with [fe_3; carry_3] => i32 (fe_3 - (i32 (Z.shiftl carry_3 25))) | _ => 0 end) (fe, C 3) [(fe, C 3); ((1 + n)%nat, C 3)];
  Do "" (fun _ vs => match vs with [fe_4] => Z.shiftr fe_4 26 | _ => 0 end) ((1 + n)%nat, C 4) [(fe, C 4)];
  Do "" (fun _ vs => match vs with [fe_5; carry_4] => i32 (fe_5 + carry_4) | _ => 0 end) (fe, C 5) [(fe, C 5); ((1 + n)%nat, C 4)];
  Do "" (fun _ vs => match vs with [fe_4; carry_4] => i32 (fe_4 - (i32 (Z.shiftl carry_4 26))) | _ => 0 end) (fe, C 4) [(fe, C 4); ((1 + n)%nat, C 4)];
  Do "" (fun _ vs => match vs with [fe_5] => Z.shiftr fe_5 25 | _ => 0 end) ((1 + n)%nat, C 5) [(fe, C 5)];
  Do "" (fun _ vs => match vs with [fe_6; carry_5] => i32 (fe_6 + carry_5) | _ => 0 end) (fe, C 6) [(fe, C 6); ((1 + n)%nat, C 5)];
  Do "" (fun _ vs => match vs with [fe_5; carry_5] => i32 (fe_5 - (i32 (Z.shiftl carry_5 25))) | _ => 0 end) (fe, C 5) [(fe, C 5); ((1 + n)%nat, C 5)];
  Do "" (fun _ vs => match vs with [fe_6] => Z.shiftr fe_6 26 | _ => 0 end) ((1 + n)%nat, C 6) [(fe, C 6)];
  Do "" (fun _ vs => match vs with [fe_7; carry_6] => i32 (fe_7 + carry_6) | _ => 0 end) (fe, C 7) [(fe, C 7); ((1 + n)%nat, C 6)];
  Do "" (fun _ vs => match vs with [fe_6; carry_6] => i32 (fe_6 - (i32 (Z.shiftl carry_6 26))) | _ => 0 end) (fe, C 6) [(fe, C 6); ((1 + n)%nat, C 6)];
  Do "" (fun _ vs => match vs with [fe_7] => Z.shiftr fe_7 25 | _ => 0 end) ((1 + n)%nat, C 7) [(fe, C 7)];
  Do "" (fun _ vs => match vs with [fe_8; carry_7] => i32 (fe_8 + carry_7) | _ => 0 end) (fe, C 8) [(fe, C 8); ((1 + n)%nat, C 7)];
  Do "" (fun _ vs => match vs with [fe_7; carry_7] => i32 (fe_7 - (i32 (Z.shiftl carry_7 25))) | _ => 0 end) (fe, C 7) [(fe, C 7); ((1 + n)%nat, C 7)];
  Do "" (fun _ vs => match vs with [fe_8] => Z.shiftr fe_8 26 | _ => 0 end) ((1 + n)%nat, C 8) [(fe, C 8)];
  Do "" (fun _ vs => match vs with [fe_9; carry_8] => i32 (fe_9 + carry_8) | _ => 0 end) (fe, C 9) [(fe, C 9); ((1 + n)%nat, C 8)];
  Do "" (fun _ vs => match vs with [fe_8; carry_8] => i32 (fe_8 - (i32 (Z.shiftl carry_8 26))) | _ => 0 end) (fe, C 8) [(fe, C 8); ((1 + n)%nat, C 8)];
  Do "" (fun _ vs => match vs with [fe_9] => Z.shiftr fe_9 25 | _ => 0 end) ((1 + n)%nat, C 9) [(fe, C 9)];
  Do "" (fun _ vs => match vs with [fe_9; carry_9] => i32 (fe_9 - (i32 (Z.shiftl carry_9 25))) | _ => 0 end) (fe, C 9) [(fe, C 9); ((1 + n)%nat, C 9)];
  Do "" (fun _ vs => match vs with [fe_0] => u8 (Z.shiftr fe_0 0) | _ => 0 end) (s, C 0) [(fe, C 0)];
  Do "" (fun _ vs => match vs with [fe_0] => u8 (Z.shiftr fe_0 8) | _ => 0 end) (s, C 1) [(fe, C 0)];
  Do "" (fun _ vs => match vs with [fe_0] => u8 (Z.shiftr fe_0 16) | _ => 0 end) (s, C 2) [(fe, C 0)];
  Do "" (fun _ vs => match vs with [fe_0; fe_1] => u8 (Z.lor (Z.shiftr fe_0 24) (i32 (Z.shiftl fe_1 2))) | _ => 0 end) (s, C 3) [(fe, C 0); (fe, C 1)];
  Do "" (fun _ vs => match vs with [fe_1] => u8 (Z.shiftr fe_1 6) | _ => 0 end) (s, C 4) [(fe, C 1)];
  Do "" (fun _ vs => match vs with [fe_1] => u8 (Z.shiftr fe_1 14) | _ => 0 end) (s, C 5) [(fe, C 1)];
  Do "" (fun _ vs => match vs with [fe_1; fe_2] => u8 (Z.lor (Z.shiftr fe_1 22) (i32 (Z.shiftl fe_2 3))) | _ => 0 end) (s, C 6) [(fe, C 1); (fe, C 2)];
  Do "" (fun _ vs => match vs with [fe_2] => u8 (Z.shiftr fe_2 5) | _ => 0 end) (s, C 7) [(fe, C 2)];
  Do "" (fun _ vs => match vs with [fe_2] => u8 (Z.shiftr fe_2 13) | _ => 0 end) (s, C 8) [(fe, C 2)];
  Do "" (fun _ vs => match vs with [fe_2; fe_3] => u8 (Z.lor (Z.shiftr fe_2 21) (i32 (Z.shiftl fe_3 5))) | _ => 0 end) (s, C 9) [(fe, C 2); (fe, C 3)];
  Do "" (fun _ vs => match vs with [fe_3] => u8 (Z.shiftr fe_3 3) | _ => 0 end) (s, C 10) [(fe, C 3)];
  Do "" (fun _ vs => match vs with [fe_3] => u8 (Z.shiftr fe_3 11) | _ => 0 end) (s, C 11) [(fe, C 3)];
  Do "" (fun _ vs => match vs with [fe_3; fe_4] => u8 (Z.lor (Z.shiftr fe_3 19) (i32 (Z.shiftl fe_4 6))) | _ => 0 end) (s, C 12) [(fe, C 3); (fe, C 4)];
  Do "" (fun _ vs => match vs with [fe_4] => u8 (Z.shiftr fe_4 2) | _ => 0 end) (s, C 13) [(fe, C 4)];
  Do "" (fun _ vs => match vs with [fe_4] => u8 (Z.shiftr fe_4 10) | _ => 0 end) (s, C 14) [(fe, C 4)];
  Do "" (fun _ vs => match vs with [fe_4] => u8 (Z.shiftr fe_4 18) | _ => 0 end) (s, C 15) [(fe, C 4)];
  Do "" (fun _ vs => match vs with [fe_5] => u8 (Z.shiftr fe_5 0) | _ => 0 end) (s, C 16) [(fe, C 5)];
  Do "" (fun _ vs => match vs with [fe_5] => u8 (Z.shiftr fe_5 8) | _ => 0 end) (s, C 17) [(fe, C 5)];
  Do "" (fun _ vs => match vs with [fe_5] => u8 (Z.shiftr fe_5 16) | _ => 0 end) (s, C 18) [(fe, C 5)];
  Do "" (fun _ vs => match vs with [fe_5; fe_6] => u8 (Z.lor (Z.shiftr fe_5 24) (i32 (Z.shiftl fe_6 1))) | _ => 0 end) (s, C 19) [(fe, C 5); (fe, C 6)];
  Do "" (fun _ vs => match vs with [fe_6] => u8 (Z.shiftr fe_6 7) | _ => 0 end) (s, C 20) [(fe, C 6)];
  Do "" (fun _ vs => match vs with [fe_6] => u8 (Z.shiftr fe_6 15) | _ => 0 end) (s, C 21) [(fe, C 6)];
  Do "" (fun _ vs => match vs with [fe_6; fe_7] => u8 (Z.lor (Z.shiftr fe_6 23) (i32 (Z.shiftl fe_7 3))) | _ => 0 end) (s, C 22) [(fe, C 6); (fe, C 7)];
  Do "" (fun _ vs => match vs with [fe_7] => u8 (Z.shiftr fe_7 5) | _ => 0 end) (s, C 23) [(fe, C 7)];
  Do "" (fun _ vs => match vs with [fe_7] => u8 (Z.shiftr fe_7 13) | _ => 0 end) (s, C 24) [(fe, C 7)];
  Do "" (fun _ vs => match vs with [fe_7; fe_8] => u8 (Z.lor (Z.shiftr fe_7 21) (i32 (Z.shiftl fe_8 4))) | _ => 0 end) (s, C 25) [(fe, C 7); (fe, C 8)];
  Do "" (fun _ vs => match vs with [fe_8] => u8 (Z.shiftr fe_8 4) | _ => 0 end) (s, C 26) [(fe, C 8)];
  Do "" (fun _ vs => match vs with [fe_8] => u8 (Z.shiftr fe_8 12) | _ => 0 end) (s, C 27) [(fe, C 8)];
  Do "" (fun _ vs => match vs with [fe_8; fe_9] => u8 (Z.lor (Z.shiftr fe_8 20) (i32 (Z.shiftl fe_9 6))) | _ => 0 end) (s, C 28) [(fe, C 8); (fe, C 9)];
  Do "" (fun _ vs => match vs with [fe_9] => u8 (Z.shiftr fe_9 2) | _ => 0 end) (s, C 29) [(fe, C 9)];
  Do "" (fun _ vs => match vs with [fe_9] => u8 (Z.shiftr fe_9 10) | _ => 0 end) (s, C 30) [(fe, C 9)];
  Do "" (fun _ vs => match vs with [fe_9] => u8 (Z.shiftr fe_9 18) | _ => 0 end) (s, C 31) [(fe, C 9)]].

(** [SetBytes]: /repo/edwards25519/field_generic.go:335-348; locals from [n] on: arg0, arg1, arg2, arg3, arg4, arg5, arg6, arg7, arg8, arg9 *)
Definition d_g25_setBytes (fe buf n : nat) : stmt Z := prog [
  Do "" (fun _ vs => match vs with [buf_0; buf_1; buf_2; buf_3] => g_load4 [buf_0; buf_1; buf_2; buf_3] | _ => 0 end) ((0 + n)%nat, C 0) [(buf, C 0); (buf, C 1); (buf, C 2); (buf, C 3)];
  Do "" (fun _ vs => match vs with [buf_4; buf_5; buf_6] => i64 (Z.shiftl (g_load3 [buf_4; buf_5; buf_6]) 6) | _ => 0 end) ((1 + n)%nat, C 0) [(buf, C 4); (buf, C 5); (buf, C 6)];
  Do "" (fun _ vs => match vs with [buf_7; buf_8; buf_9] => i64 (Z.shiftl (g_load3 [buf_7; buf_8; buf_9]) 5) | _ => 0 end) ((2 + n)%nat, C 0) [(buf, C 7); (buf, C 8); (buf, C 9)];
  Do "" (fun _ vs => match vs with [buf_10; buf_11; buf_12] => i64 (Z.shiftl (g_load3 [buf_10; buf_11; buf_12]) 3) | _ => 0 end) ((3 + n)%nat, C 0) [(buf, C 10); (buf, C 11); (buf, C 12)];
  Do "" (fun _ vs => match vs with [buf_13; buf_14; buf_15] => i64 (Z.shiftl (g_load3 [buf_13; buf_14; buf_15]) 2) | _ => 0 end) ((4 + n)%nat, C 0) [(buf, C 13); (buf, C 14); (buf, C 15)];
  Do "" (fun _ vs => match vs with [buf_16; buf_17; buf_18; buf_19] => g_load4 [buf_16; buf_17; buf_18; buf_19] | _ => 0 end) ((5 + n)%nat, C 0) [(buf, C 16); (buf, C 17); (buf, C 18); (buf, C 19)];
  Do "" (fun _ vs => match vs with [buf_20; buf_21; buf_22] => i64 (Z.shiftl (g_load3 [buf_20; buf_21; buf_22]) 7) | _ => 0 end) ((6 + n)%nat, C 0) [(buf, C 20); (buf, C 21); (buf, C 22)];
  Do "" (fun _ vs => match vs with [buf_23; buf_24; buf_25] => i64 (Z.shiftl (g_load3 [buf_23; buf_24; buf_25]) 5) | _ => 0 end) ((7 + n)%nat, C 0) [(buf, C 23); (buf, C 24); (buf, C 25)];
  Do "" (fun _ vs => match vs with [buf_26; buf_27; buf_28] => i64 (Z.shiftl (g_load3 [buf_26; buf_27; buf_28]) 4) | _ => 0 end) ((8 + n)%nat, C 0) [(buf, C 26); (buf, C 27); (buf, C 28)];
  Do "" (fun _ vs => match vs with [buf_29; buf_30; buf_31] => i64 (Z.shiftl (Z.land (g_load3 [buf_29; buf_30; buf_31]) 8388607) 2) | _ => 0 end) ((9 + n)%nat, C 0) [(buf, C 29); (buf, C 30); (buf, C 31)];
  d_g25_setReduced fe (0 + n)%nat (1 + n)%nat (2 + n)%nat (3 + n)%nat (4 + n)%nat (5 + n)%nat (6 + n)%nat (7 + n)%nat (8 + n)%nat (9 + n)%nat (10 + n)%nat].

(** [Mul]: /repo/edwards25519/field_generic.go:351-402; locals from [n] on: a0, a1, a2, a3, a4, a5, a6, a7, a8, a9, a1_2, a3_2, a5_2, a7_2, a9_2, b0, b1, b2, b3, b4, b5, b6, b7, b8, b9, b1_19, b2_19, b3_19, b4_19, b5_19, b6_19, b7_19, b8_19, b9_19, h0, h1, h2, h3, h4, h5, h6, h7, h8, h9, arg0, arg1, arg2, arg3, arg4, arg5, arg6, arg7, arg8, arg9 *)
Definition d_g25_mul (fe a b n : nat) : stmt Z := prog [
  Do "" (fun _ vs => match vs with [a_0] => a_0 | _ => 0 end) ((0 + n)%nat, C 0) [(a, C 0)];
  Do "" (fun _ vs => match vs with [a_1] => a_1 | _ => 0 end) ((1 + n)%nat, C 0) [(a, C 1)];
  Do "" (fun _ vs => match vs with [a_2] => a_2 | _ => 0 end) ((2 + n)%nat, C 0) [(a, C 2)];
  Do "" (fun _ vs => match vs with [a_3] => a_3 | _ => 0 end) ((3 + n)%nat, C 0) [(a, C 3)];
  Do "" (fun _ vs => match vs with [a_4] => a_4 | _ => 0 end) ((4 + n)%nat, C 0) [(a, C 4)];
  Do "" (fun _ vs => match vs with [a_5] => a_5 | _ => 0 end) ((5 + n)%nat, C 0) [(a, C 5)];
  Do "" (fun _ vs => match vs with [a_6] => a_6 | _ => 0 end) ((6 + n)%nat, C 0) [(a, C 6)];
  Do "" (fun _ vs => match vs with [a_7] => a_7 | _ => 0 end) ((7 + n)%nat, C 0) [(a, C 7)];
  Do "" (fun _ vs => match vs with [a_8] => a_8 | _ => 0 end) ((8 + n)%nat, C 0) [(a, C 8)];
  Do "" (fun _ vs => match vs with [a_9] => a_9 | _ => 0 end) ((9 + n)%nat, C 0) [(a, C 9)];
  Do "" (fun _ vs => match vs with [a_1] => i32 (2 * a_1) | _ => 0 end) ((10 + n)%nat, C 0) [(a, C 1)];
  Do "" (fun _ vs => match vs with [a_3] => i32 (2 * a_3) | _ => 0 end) ((11 + n)%nat, C 0) [(a, C 3)];
  Do "" (fun _ vs => match vs with [a_5] => i32 (2 * a_5) | _ => 0 end) ((12 + n)%nat, C 0) [(a, C 5)];
  Do "" (fun _ vs => match vs with [a_7] => i32 (2 * a_7) | _ => 0 end) ((13 + n)%nat, C 0) [(a, C 7)];
  Do "" (fun _ vs => match vs with [a_9] => i32 (2 * a_9) | _ => 0 end) ((14 + n)%nat, C 0) [(a, C 9)];
  Do "" (fun _ vs => match vs with [b_0] => b_0 | _ => 0 end) ((15 + n)%nat, C 0) [(b, C 0)];
  Do "" (fun _ vs => match vs with [b_1] => b_1 | _ => 0 end) ((16 + n)%nat, C 0) [(b, C 1)];
  Do "" (fun _ vs => match vs with [b_2] => b_2 | _ => 0 end) ((17 + n)%nat, C 0) [(b, C 2)];
  Do "" (fun _ vs => match vs with [b_3] => b_3 | _ => 0 end) ((18 + n)%nat, C 0) [(b, C 3)];
  Do "" (fun _ vs => match vs with [b_4] => b_4 | _ => 0 end) ((19 + n)%nat, C 0) [(b, C 4)];
  Do "" (fun _ vs => match vs with [b_5] => b_5 | _ => 0 end) ((20 + n)%nat, C 0) [(b, C 5)];
  Do "" (fun _ vs => match vs with [b_6] => b_6 | _ => 0 end) ((21 + n)%nat, C 0) [(b, C 6)];
  Do "" (fun _ vs => match vs with [b_7] => b_7 | _ => 0 end) ((22 + n)%nat, C 0) [(b, C 7)];
  Do "" (fun _ vs => match vs with [b_8] => b_8 | _ => 0 end) ((23 + n)%nat, C 0) [(b, C 8)];
  Do "" (fun _ vs => match vs with [b_9] => b_9 | _ => 0 end) ((24 + n)%nat, C 0) [(b, C 9)];
  Do "" (fun _ vs => match vs with [b_1] => i32 (19 * b_1) | _ => 0 end) ((25 + n)%nat, C 0) [(b, C 1)];
  Do "" (fun _ vs => match vs with [b_2] => i32 (19 * b_2) | _ => 0 end) ((26 + n)%nat, C 0) [(b, C 2)];
  Do "" (fun _ vs => match vs with [b_3] => i32 (19 * b_3) | _ => 0 end) ((27 + n)%nat, C 0) [(b, C 3)];
  Do "" (fun _ vs => match vs with [b_4] => i32 (19 * b_4) | _ => 0 end) ((28 + n)%nat, C 0) [(b, C 4)];
  Do "" (fun _ vs => match vs with [b_5] => i32 (19 * b_5) | _ => 0 end) ((29 + n)%nat, C 0) [(b, C 5)];
  Do "" (fun _ vs => match vs with [b_6] => i32 (19 * b_6) | _ => 0 end) ((30 + n)%nat, C 0) [(b, C 6)];
  Do "" (fun _ vs => match vs with [b_7] => i32 (19 * b_7) | _ => 0 end) ((31 + n)%nat, C 0) [(b, C 7)];
  Do "" (fun _ vs => match vs with [b_8] => i32 (19 * b_8) | _ => 0 end) ((32 + n)%nat, C 0) [(b, C 8)];
  Do "" (fun _ vs => match vs with [b_9] => i32 (19 * b_9) | _ => 0 end) ((33 + n)%nat, C 0) [(b, C 9)];
  Do "" (fun _ vs => match vs with [a0; b0; a1_2; b9_19; a2; b8_19; a3_2; b7_19; a4; b6_19; a5_2; b5_19; a6; b4_19; a7_2; b3_19; a8; b2_19; a9_2; b1_19] => i64 ((i64 ((i64 ((i64 ((i64 ((i64 ((i64 ((i64 ((i64 ((i64 (a0 * b0)) + (i64 (a1_2 * b9_19)))) + (i64 (a2 * b8_19)))) + (i64 (a3_2 * b7_19)))) + (i64 (a4 * b6_19)))) + (i64 (a5_2 * b5_19)))) + (i64 (a6 * b4_19)))) + (i64 (a7_2 * b3_19)))) + (i64 (a8 * b2_19)))) + (i64 (a9_2 * b1_19))) | _ => 0 end) ((34 + n)%nat, C 0) [((0 + n)%nat, C 0); ((15 + n)%nat, C 0); ((10 + n)%nat, C 0); ((33 + n)%nat, C 0); ((2 + n)%nat, C 0); ((32 + n)%nat, C 0); ((11 + n)%nat, C 0); ((31 + n)%nat, C 0); ((4 + n)%nat, C 0); ((30 + n)%nat, C 0); ((12 + n)%nat, C 0); ((29 + n)%nat, C 0); ((6 + n)%nat, C 0); ((28 + n)%nat, C 0); ((13 + n)%nat, C 0); ((27 + n)%nat, C 0); ((8 + n)%nat, C 0); ((26 + n)%nat, C 0); ((14 + n)%nat, C 0); ((25 + n)%nat, C 0)];
  Do "" (fun _ vs => match vs with [a0; b1; a1; b0; a2; b9_19; a3; b8_19; a4; b7_19; a5; b6_19; a6; b5_19; a7; b4_19; a8; b3_19; a9; b2_19] => i64 ((i64 ((i64 ((i64 ((i64 ((i64 ((i64 ((i64 ((i64 ((i64 (a0 * b1)) + (i64 (a1 * b0)))) + (i64 (a2 * b9_19)))) + (i64 (a3 * b8_19)))) + (i64 (a4 * b7_19)))) + (i64 (a5 * b6_19)))) + (i64 (a6 * b5_19)))) + (i64 (a7 * b4_19)))) + (i64 (a8 * b3_19)))) + (i64 (a9 * b2_19))) | _ => 0 end) ((35 + n)%nat, C 0) [((0 + n)%nat, C 0); ((16 + n)%nat, C 0); ((1 + n)%nat, C 0); ((15 + n)%nat, C 0); ((2 + n)%nat, C 0); ((33 + n)%nat, C 0); ((3 + n)%nat, C 0); ((32 + n)%nat, C 0); ((4 + n)%nat, C 0); ((31 + n)%nat, C 0); ((5 + n)%nat, C 0); ((30 + n)%nat, C 0); ((6 + n)%nat, C 0); ((29 + n)%nat, C 0); ((7 + n)%nat, C 0); ((28 + n)%nat, C 0); ((8 + n)%nat, C 0); ((27 + n)%nat, C 0); ((9 + n)%nat, C 0); ((26 + n)%nat, C 0)];
  Do "" (fun _ vs => match vs with [a0; b2; a1_2; b1; a2; b0; a3_2; b9_19; a4; b8_19; a5_2; b7_19; a6; b6_19; a7_2; b5_19; a8; b4_19; a9_2; b3_19] => i64 ((i64 ((i64 ((i64 ((i64 ((i64 ((i64 ((i64 ((i64 ((i64 (a0 * b2)) + (i64 (a1_2 * b1)))) + (i64 (a2 * b0)))) + (i64 (a3_2 * b9_19)))) + (i64 (a4 * b8_19)))) + (i64 (a5_2 * b7_19)))) + (i64 (a6 * b6_19)))) + (i64 (a7_2 * b5_19)))) + (i64 (a8 * b4_19)))) + (i64 (a9_2 * b3_19))) | _ => 0 end) ((36 + n)%nat, C 0) [((0 + n)%nat, C 0); ((17 + n)%nat, C 0); ((10 + n)%nat, C 0); ((16 + n)%nat, C 0); ((2 + n)%nat, C 0); ((15 + n)%nat, C 0); ((11 + n)%nat, C 0); ((33 + n)%nat, C 0); ((4 + n)%nat, C 0); ((32 + n)%nat, C 0); ((12 + n)%nat, C 0); ((31 + n)%nat, C 0); ((6 + n)%nat, C 0); ((30 + n)%nat, C 0); ((13 + n)%nat, C 0); ((29 + n)%nat, C 0); ((8 + n)%nat, C 0); ((28 + n)%nat, C 0); ((14 + n)%nat, C 0); ((27 + n)%nat, C 0)];
  Do "" (fun _ vs => match vs with [a0; b3; a1; b2; a2; b1; a3; b0; a4; b9_19; a5; b8_19; a6; b7_19; a7; b6_19; a8; b5_19; a9; b4_19] => i64 ((i64 ((i64 ((i64 ((i64 ((i64 ((i64 ((i64 ((i64 ((i64 (a0 * b3)) + (i64 (a1 * b2)))) + (i64 (a2 * b1)))) + (i64 (a3 * b0)))) + (i64 (a4 * b9_19)))) + (i64 (a5 * b8_19)))) + (i64 (a6 * b7_19)))) + (i64 (a7 * b6_19)))) + (i64 (a8 * b5_19)))) + (i64 (a9 * b4_19))) | _ => 0 end) ((37 + n)%nat, C 0) [((0 + n)%nat, C 0); ((18 + n)%nat, C 0); ((1 + n)%nat, C 0); ((17 + n)%nat, C 0); ((2 + n)%nat, C 0); ((16 + n)%nat, C 0); ((3 + n)%nat, C 0); ((15 + n)%nat, C 0); ((4 + n)%nat, C 0); ((33 + n)%nat, C 0); ((5 + n)%nat, C 0); ((32 + n)%nat, C 0); ((6 + n)%nat, C 0); ((31 + n)%nat, C 0); ((7 + n)%nat, C 0); ((30 + n)%nat, C 0); ((8 + n)%nat, C 0); ((29 + n)%nat, C 0); ((9 + n)%nat, C 0); ((28 + n)%nat, C 0)];
  Do "" (fun _ vs => match vs with [a0; b4; a1_2; b3; a2; b2; a3_2; b1; a4; b0; a5_2; b9_19; a6; b8_19; a7_2; b7_19; a8; b6_19; a9_2; b5_19] => i64 ((i64 ((i64 ((i64 ((i64 ((i64 ((i64 ((i64 ((i64 ((i64 (a0 * b4)) + (i64 (a1_2 * b3)))) + (i64 (a2 * b2)))) + (i64 (a3_2 * b1)))) + (i64 (a4 * b0)))) + (i64 (a5_2 * b9_19)))) + (i64 (a6 * b8_19)))) + (i64 (a7_2 * b7_19)))) + (i64 (a8 * b6_19)))) + (i64 (a9_2 * b5_19))) | _ => 0 end) ((38 + n)%nat, C 0) [((0 + n)%nat, C 0); ((19 + n)%nat, C 0); ((10 + n)%nat, C 0); ((18 + n)%nat, C 0); ((2 + n)%nat, C 0); ((17 + n)%nat, C 0); ((11 + n)%nat, C 0); ((16 + n)%nat, C 0); ((4 + n)%nat, C 0); ((15 + n)%nat, C 0); ((12 + n)%nat, C 0); ((33 + n)%nat, C 0); ((6 + n)%nat, C 0); ((32 + n)%nat, C 0); ((13 + n)%nat, C 0); ((31 + n)%nat, C 0); ((8 + n)%nat, C 0); ((30 + n)%nat, C 0); ((14 + n)%nat, C 0); ((29 + n)%nat, C 0)];
  Do "" (fun _ vs => match vs with [a0; b5; a1; b4; a2; b3; a3; b2; a4; b1; a5; b0; a6; b9_19; a7; b8_19; a8; b7_19; a9; b6_19] => i64 ((i64 ((i64 ((i64 ((i64 ((i64 ((i64 ((i64 ((i64 ((i64 (a0 * b5)) + (i64 (a1 * b4)))) + (i64 (a2 * b3)))) + (i64 (a3 * b2)))) + (i64 (a4 * b1)))) + (i64 (a5 * b0)))) + (i64 (a6 * b9_19)))) + (i64 (a7 * b8_19)))) + (i64 (a8 * b7_19)))) + (i64 (a9 * b6_19))) | _ => 0 end) ((39 + n)%nat, C 0) [((0 + n)%nat, C 0); ((20 + n)%nat, C 0); ((1 + n)%nat, C 0); ((19 + n)%nat, C 0); ((2 + n)%nat, C 0); ((18 + n)%nat, C 0); ((3 + n)%nat, C 0); ((17 + n)%nat, C 0); ((4 + n)%nat, C 0); ((16 + n)%nat, C 0); ((5 + n)%nat, C 0); ((15 + n)%nat, C 0); ((6 + n)%nat, C 0); ((33 + n)%nat, C 0); ((7 + n)%nat, C 0); ((32 + n)%nat, C 0); ((8 + n)%nat, C 0); ((31 + n)%nat, C 0); ((9 + n)%nat, C 0); ((30 + n)%nat, C 0)];
  Do "" (fun _ vs => match vs with [a0; b6; a1_2; b5; a2; b4; a3_2; b3; a4; b2; a5_2; b1; a6; b0; a7_2; b9_19; a8; b8_19; a9_2; b7_19] => i64 ((i64 ((i64 ((i64 ((i64 ((i64 ((i64 ((i64 ((i64 ((i64 (a0 * b6)) + (i64 (a1_2 * b5)))) + (i64 (a2 * b4)))) + (i64 (a3_2 * b3)))) + (i64 (a4 * b2)))) + (i64 (a5_2 * b1)))) + (i64 (a6 * b0)))) + (i64 (a7_2 * b9_19)))) + (i64 (a8 * b8_19)))) + (i64 (a9_2 * b7_19))) | _ => 0 end) ((40 + n)%nat, C 0) [((0 + n)%nat, C 0); ((21 + n)%nat, C 0); ((10 + n)%nat, C 0); ((20 + n)%nat, C 0); ((2 + n)%nat, C 0); ((19 + n)%nat, C 0); ((11 + n)%nat, C 0); ((18 + n)%nat, C 0); ((4 + n)%nat, C 0); ((17 + n)%nat, C 0); ((12 + n)%nat, C 0); ((16 + n)%nat, C 0); ((6 + n)%nat, C 0); ((15 + n)%nat, C 0); ((13 + n)%nat, C 0); ((33 + n)%nat, C 0); ((8 + n)%nat, C 0); ((32 + n)%nat, C 0); ((14 + n)%nat, C 0); ((31 + n)%nat, C 0)];
  Do "" (fun _ vs => match vs with [a0; b7; a1; b6; a2; b5; a3; b4; a4; b3; a5; b2; a6; b1; a7; b0; a8; b9_19; a9; b8_19] => i64 ((i64 ((i64 ((i64 ((i64 ((i64 ((i64 ((i64 ((i64 ((i64 (a0 * b7)) + (i64 (a1 * b6)))) + (i64 (a2 * b5)))) + (i64 (a3 * b4)))) + (i64 (a4 * b3)))) + (i64 (a5 * b2)))) + (i64 (a6 * b1)))) + (i64 (a7 * b0)))) + (i64 (a8 * b9_19)))) + (i64 (a9 * b8_19))) | _ => 0 end) ((41 + n)%nat, C 0) [((0 + n)%nat, C 0); ((22 + n)%nat, C 0); ((1 + n)%nat, C 0); ((21 + n)%nat, C 0); ((2 + n)%nat, C 0); ((20 + n)%nat, C 0); ((3 + n)%nat, C 0); ((19 + n)%nat, C 0); ((4 + n)%nat, C 0); ((18 + n)%nat, C 0); ((5 + n)%nat, C 0); ((17 + n)%nat, C 0); ((6 + n)%nat, C 0); ((16 + n)%nat, C 0); ((7 + n)%nat, C 0); ((15 + n)%nat, C 0); ((8 + n)%nat, C 0); ((33 + n)%nat, C 0); ((9 + n)%nat, C 0); ((32 + n)%nat, C 0)];
  Do "" (fun _ vs => match vs with [a0; b8; a1_2; b7; a2; b6; a3_2; b5; a4; b4; a5_2; b3; a6; b2; a7_2; b1; a8; b0; a9_2; b9_19] => i64 ((i64 ((i64 ((i64 ((i64 ((i64 ((i64 ((i64 ((i64 ((i64 (a0 * b8)) + (i64 (a1_2 * b7)))) + (i64 (a2 * b6)))) + (i64 (a3_2 * b5)))) + (i64 (a4 * b4)))) + (i64 (a5_2 * b3)))) + (i64 (a6 * b2)))) + (i64 (a7_2 * b1)))) + (i64 (a8 * b0)))) + (i64 (a9_2 * b9_19))) | _ => 0 end) ((42 + n)%nat, C 0) [((0 + n)%nat, C 0); ((23 + n)%nat, C 0); ((10 + n)%nat, C 0); ((22 + n)%nat, C 0); ((2 + n)%nat, C 0); ((21 + n)%nat, C 0); ((11 + n)%nat, C 0); ((20 + n)%nat, C 0); ((4 + n)%nat, C 0); ((19 + n)%nat, C 0); ((12 + n)%nat, C 0); ((18 + n)%nat, C 0); ((6 + n)%nat, C 0); ((17 + n)%nat, C 0); ((13 + n)%nat, C 0); ((16 + n)%nat, C 0); ((8 + n)%nat, C 0); ((15 + n)%nat, C 0); ((14 + n)%nat, C 0); ((33 + n)%nat, C 0)];
  Do "" (fun _ vs => match vs with [a0; b9; a1; b8; a2; b7; a3; b6; a4; b5; a5; b4; a6; b3; a7; b2; a8; b1; a9; b0] => i64 ((i64 ((i64 ((i64 ((i64 ((i64 ((i64 ((i64 ((i64 ((i64 (a0 * b9)) + (i64 (a1 * b8)))) + (i64 (a2 * b7)))) + (i64 (a3 * b6)))) + (i64 (a4 * b5)))) + (i64 (a5 * b4)))) + (i64 (a6 * b3)))) + (i64 (a7 * b2)))) + (i64 (a8 * b1)))) + (i64 (a9 * b0))) | _ => 0 end) ((43 + n)%nat, C 0) [((0 + n)%nat, C 0); ((24 + n)%nat, C 0); ((1 + n)%nat, C 0); ((23 + n)%nat, C 0); ((2 + n)%nat, C 0); ((22 + n)%nat, C 0); ((3 + n)%nat, C 0); ((21 + n)%nat, C 0); ((4 + n)%nat, C 0); ((20 + n)%nat, C 0); ((5 + n)%nat, C 0); ((19 + n)%nat, C 0); ((6 + n)%nat, C 0); ((18 + n)%nat, C 0); ((7 + n)%nat, C 0); ((17 + n)%nat, C 0); ((8 + n)%nat, C 0); ((16 + n)%nat, C 0); ((9 + n)%nat, C 0); ((15 + n)%nat, C 0)];
  Do "" (fun _ vs => match vs with [h0] => h0 | _ => 0 end) ((44 + n)%nat, C 0) [((34 + n)%nat, C 0)];
  Do "" (fun _ vs => match vs with [h1] => h1 | _ => 0 end) ((45 + n)%nat, C 0) [((35 + n)%nat, C 0)];
  Do "" (fun _ vs => match vs with [h2] => h2 | _ => 0 end) ((46 + n)%nat, C 0) [((36 + n)%nat, C 0)];
  Do "" (fun _ vs => match vs with [h3] => h3 | _ => 0 end) ((47 + n)%nat, C 0) [((37 + n)%nat, C 0)];
  Do "" (fun _ vs => match vs with [h4] => h4 | _ => 0 end) ((48 + n)%nat, C 0) [((38 + n)%nat, C 0)];
  Do "" (fun _ vs => match vs with [h5] => h5 | _ => 0 end) ((49 + n)%nat, C 0) [((39 + n)%nat, C 0)];
  Do "" (fun _ vs => match vs with [h6] => h6 | _ => 0 end) ((50 + n)%nat, C 0) [((40 + n)%nat, C 0)];
  Do "" (fun _ vs => match vs with [h7] => h7 | _ => 0 end) ((51 + n)%nat, C 0) [((41 + n)%nat, C 0)];
  Do "" (fun _ vs => match vs with [h8] => h8 | _ => 0 end) ((52 + n)%nat, C 0) [((42 + n)%nat, C 0)];
  Do "" (fun _ vs => match vs with [h9] => h9 | _ => 0 end) ((53 + n)%nat, C 0) [((43 + n)%nat, C 0)];
  d_g25_setReduced fe (44 + n)%nat (45 + n)%nat (46 + n)%nat (47 + n)%nat (48 + n)%nat (49 + n)%nat (50 + n)%nat (51 + n)%nat (52 + n)%nat (53 + n)%nat (54 + n)%nat].

(** [square]: /repo/edwards25519/field_generic.go:405-442; locals from [n] on: f0, f1, f2, f3, f4, f5, f6, f7, f8, f9, f0_2, f1_2, f2_2, f3_2, f4_2, f5_2, f6_2, f7_2, f5_38, f6_19, f7_38, f8_19, f9_38 *)
Definition d_g25_squareRaw (fe h0 h1 h2 h3 h4 h5 h6 h7 h8 h9 n : nat) : stmt Z := prog [
  Do "" (fun _ vs => match vs with [fe_0] => fe_0 | _ => 0 end) ((0 + n)%nat, C 0) [(fe, C 0)];
  Do "" (fun _ vs => match vs with [fe_1] => fe_1 | _ => 0 end) ((1 + n)%nat, C 0) [(fe, C 1)];
  Do "" (fun _ vs => match vs with [fe_2] => fe_2 | _ => 0 end) ((2 + n)%nat, C 0) [(fe, C 2)];
  Do "" (fun _ vs => match vs with [fe_3] => fe_3 | _ => 0 end) ((3 + n)%nat, C 0) [(fe, C 3)];
  Do "" (fun _ vs => match vs with [fe_4] => fe_4 | _ => 0 end) ((4 + n)%nat, C 0) [(fe, C 4)];
  Do "" (fun _ vs => match vs with [fe_5] => fe_5 | _ => 0 end) ((5 + n)%nat, C 0) [(fe, C 5)];
  Do "" (fun _ vs => match vs with [fe_6] => fe_6 | _ => 0 end) ((6 + n)%nat, C 0) [(fe, C 6)];
  Do "" (fun _ vs => match vs with [fe_7] => fe_7 | _ => 0 end) ((7 + n)%nat, C 0) [(fe, C 7)];
  Do "" (fun _ vs => match vs with [fe_8] => fe_8 | _ => 0 end) ((8 + n)%nat, C 0) [(fe, C 8)];
  Do "" (fun _ vs => match vs with [fe_9] => fe_9 | _ => 0 end) ((9 + n)%nat, C 0) [(fe, C 9)];
  Do "" (fun _ vs => match vs with [fe_0] => i32 (2 * fe_0) | _ => 0 end) ((10 + n)%nat, C 0) [(fe, C 0)];
  Do "" (fun _ vs => match vs with [fe_1] => i32 (2 * fe_1) | _ => 0 end) ((11 + n)%nat, C 0) [(fe, C 1)];
  Do "" (fun _ vs => match vs with [fe_2] => i32 (2 * fe_2) | _ => 0 end) ((12 + n)%nat, C 0) [(fe, C 2)];
  Do "" (fun _ vs => match vs with [fe_3] => i32 (2 * fe_3) | _ => 0 end) ((13 + n)%nat, C 0) [(fe, C 3)];
  Do "" (fun _ vs => match vs with [fe_4] => i32 (2 * fe_4) | _ => 0 end) ((14 + n)%nat, C 0) [(fe, C 4)];
  Do "" (fun _ vs => match vs with [fe_5] => i32 (2 * fe_5) | _ => 0 end) ((15 + n)%nat, C 0) [(fe, C 5)];
  Do "" (fun _ vs => match vs with [fe_6] => i32 (2 * fe_6) | _ => 0 end) ((16 + n)%nat, C 0) [(fe, C 6)];
  Do "" (fun _ vs => match vs with [fe_7] => i32 (2 * fe_7) | _ => 0 end) ((17 + n)%nat, C 0) [(fe, C 7)];
  Do "" (fun _ vs => match vs with [f5] => i64 (38 * f5) | _ => 0 end) ((18 + n)%nat, C 0) [((5 + n)%nat, C 0)];
  Do "" (fun _ vs => match vs with [f6] => i64 (19 * f6) | _ => 0 end) ((19 + n)%nat, C 0) [((6 + n)%nat, C 0)];
  Do "" (fun _ vs => match vs with [f7] => i64 (38 * f7) | _ => 0 end) ((20 + n)%nat, C 0) [((7 + n)%nat, C 0)];
  Do "" (fun _ vs => match vs with [f8] => i64 (19 * f8) | _ => 0 end) ((21 + n)%nat, C 0) [((8 + n)%nat, C 0)];
  Do "" (fun _ vs => match vs with [f9] => i64 (38 * f9) | _ => 0 end) ((22 + n)%nat, C 0) [((9 + n)%nat, C 0)];
  Do "" (fun _ vs => match vs with [f0; f1_2; f9_38; f2_2; f8_19; f3_2; f7_38; f4_2; f6_19; f5; f5_38] => i64 ((i64 ((i64 ((i64 ((i64 ((i64 (f0 * f0)) + (i64 (f1_2 * f9_38)))) + (i64 (f2_2 * f8_19)))) + (i64 (f3_2 * f7_38)))) + (i64 (f4_2 * f6_19)))) + (i64 (f5 * f5_38))) | _ => 0 end) (h0, C 0) [((0 + n)%nat, C 0); ((11 + n)%nat, C 0); ((22 + n)%nat, C 0); ((12 + n)%nat, C 0); ((21 + n)%nat, C 0); ((13 + n)%nat, C 0); ((20 + n)%nat, C 0); ((14 + n)%nat, C 0); ((19 + n)%nat, C 0); ((5 + n)%nat, C 0); ((18 + n)%nat, C 0)];
  Do "" (fun _ vs => match vs with [f0_2; f1; f2; f9_38; f3_2; f8_19; f4; f7_38; f5_2; f6_19] => i64 ((i64 ((i64 ((i64 ((i64 (f0_2 * f1)) + (i64 (f2 * f9_38)))) + (i64 (f3_2 * f8_19)))) + (i64 (f4 * f7_38)))) + (i64 (f5_2 * f6_19))) | _ => 0 end) (h1, C 0) [((10 + n)%nat, C 0); ((1 + n)%nat, C 0); ((2 + n)%nat, C 0); ((22 + n)%nat, C 0); ((13 + n)%nat, C 0); ((21 + n)%nat, C 0); ((4 + n)%nat, C 0); ((20 + n)%nat, C 0); ((15 + n)%nat, C 0); ((19 + n)%nat, C 0)];
  Do "" (fun _ vs => match vs with [f0_2; f2; f1_2; f1; f3_2; f9_38; f4_2; f8_19; f5_2; f7_38; f6; f6_19] => i64 ((i64 ((i64 ((i64 ((i64 ((i64 (f0_2 * f2)) + (i64 (f1_2 * f1)))) + (i64 (f3_2 * f9_38)))) + (i64 (f4_2 * f8_19)))) + (i64 (f5_2 * f7_38)))) + (i64 (f6 * f6_19))) | _ => 0 end) (h2, C 0) [((10 + n)%nat, C 0); ((2 + n)%nat, C 0); ((11 + n)%nat, C 0); ((1 + n)%nat, C 0); ((13 + n)%nat, C 0); ((22 + n)%nat, C 0); ((14 + n)%nat, C 0); ((21 + n)%nat, C 0); ((15 + n)%nat, C 0); ((20 + n)%nat, C 0); ((6 + n)%nat, C 0); ((19 + n)%nat, C 0)];
  Do "" (fun _ vs => match vs with [f0_2; f3; f1_2; f2; f4; f9_38; f5_2; f8_19; f6; f7_38] => i64 ((i64 ((i64 ((i64 ((i64 (f0_2 * f3)) + (i64 (f1_2 * f2)))) + (i64 (f4 * f9_38)))) + (i64 (f5_2 * f8_19)))) + (i64 (f6 * f7_38))) | _ => 0 end) (h3, C 0) [((10 + n)%nat, C 0); ((3 + n)%nat, C 0); ((11 + n)%nat, C 0); ((2 + n)%nat, C 0); ((4 + n)%nat, C 0); ((22 + n)%nat, C 0); ((15 + n)%nat, C 0); ((21 + n)%nat, C 0); ((6 + n)%nat, C 0); ((20 + n)%nat, C 0)];
  Do "" (fun _ vs => match vs with [f0_2; f4; f1_2; f3_2; f2; f5_2; f9_38; f6_2; f8_19; f7; f7_38] => i64 ((i64 ((i64 ((i64 ((i64 ((i64 (f0_2 * f4)) + (i64 (f1_2 * f3_2)))) + (i64 (f2 * f2)))) + (i64 (f5_2 * f9_38)))) + (i64 (f6_2 * f8_19)))) + (i64 (f7 * f7_38))) | _ => 0 end) (h4, C 0) [((10 + n)%nat, C 0); ((4 + n)%nat, C 0); ((11 + n)%nat, C 0); ((13 + n)%nat, C 0); ((2 + n)%nat, C 0); ((15 + n)%nat, C 0); ((22 + n)%nat, C 0); ((16 + n)%nat, C 0); ((21 + n)%nat, C 0); ((7 + n)%nat, C 0); ((20 + n)%nat, C 0)];
  Do "" (fun _ vs => match vs with [f0_2; f5; f1_2; f4; f2_2; f3; f6; f9_38; f7_2; f8_19] => i64 ((i64 ((i64 ((i64 ((i64 (f0_2 * f5)) + (i64 (f1_2 * f4)))) + (i64 (f2_2 * f3)))) + (i64 (f6 * f9_38)))) + (i64 (f7_2 * f8_19))) | _ => 0 end) (h5, C 0) [((10 + n)%nat, C 0); ((5 + n)%nat, C 0); ((11 + n)%nat, C 0); ((4 + n)%nat, C 0); ((12 + n)%nat, C 0); ((3 + n)%nat, C 0); ((6 + n)%nat, C 0); ((22 + n)%nat, C 0); ((17 + n)%nat, C 0); ((21 + n)%nat, C 0)];
  Do "" (fun _ vs => match vs with [f0_2; f6; f1_2; f5_2; f2_2; f4; f3_2; f3; f7_2; f9_38; f8; f8_19] => i64 ((i64 ((i64 ((i64 ((i64 ((i64 (f0_2 * f6)) + (i64 (f1_2 * f5_2)))) + (i64 (f2_2 * f4)))) + (i64 (f3_2 * f3)))) + (i64 (f7_2 * f9_38)))) + (i64 (f8 * f8_19))) | _ => 0 end) (h6, C 0) [((10 + n)%nat, C 0); ((6 + n)%nat, C 0); ((11 + n)%nat, C 0); ((15 + n)%nat, C 0); ((12 + n)%nat, C 0); ((4 + n)%nat, C 0); ((13 + n)%nat, C 0); ((3 + n)%nat, C 0); ((17 + n)%nat, C 0); ((22 + n)%nat, C 0); ((8 + n)%nat, C 0); ((21 + n)%nat, C 0)];
  Do "" (fun _ vs => match vs with [f0_2; f7; f1_2; f6; f2_2; f5; f3_2; f4; f8; f9_38] => i64 ((i64 ((i64 ((i64 ((i64 (f0_2 * f7)) + (i64 (f1_2 * f6)))) + (i64 (f2_2 * f5)))) + (i64 (f3_2 * f4)))) + (i64 (f8 * f9_38))) | _ => 0 end) (h7, C 0) [((10 + n)%nat, C 0); ((7 + n)%nat, C 0); ((11 + n)%nat, C 0); ((6 + n)%nat, C 0); ((12 + n)%nat, C 0); ((5 + n)%nat, C 0); ((13 + n)%nat, C 0); ((4 + n)%nat, C 0); ((8 + n)%nat, C 0); ((22 + n)%nat, C 0)];
  Do "" (fun _ vs => match vs with [f0_2; f8; f1_2; f7_2; f2_2; f6; f3_2; f5_2; f4; f9; f9_38] => i64 ((i64 ((i64 ((i64 ((i64 ((i64 (f0_2 * f8)) + (i64 (f1_2 * f7_2)))) + (i64 (f2_2 * f6)))) + (i64 (f3_2 * f5_2)))) + (i64 (f4 * f4)))) + (i64 (f9 * f9_38))) | _ => 0 end) (h8, C 0) [((10 + n)%nat, C 0); ((8 + n)%nat, C 0); ((11 + n)%nat, C 0); ((17 + n)%nat, C 0); ((12 + n)%nat, C 0); ((6 + n)%nat, C 0); ((13 + n)%nat, C 0); ((15 + n)%nat, C 0); ((4 + n)%nat, C 0); ((9 + n)%nat, C 0); ((22 + n)%nat, C 0)];
  Do "" (fun _ vs => match vs with [f0_2; f9; f1_2; f8; f2_2; f7; f3_2; f6; f4_2; f5] => i64 ((i64 ((i64 ((i64 ((i64 (f0_2 * f9)) + (i64 (f1_2 * f8)))) + (i64 (f2_2 * f7)))) + (i64 (f3_2 * f6)))) + (i64 (f4_2 * f5))) | _ => 0 end) (h9, C 0) [((10 + n)%nat, C 0); ((9 + n)%nat, C 0); ((11 + n)%nat, C 0); ((8 + n)%nat, C 0); ((12 + n)%nat, C 0); ((7 + n)%nat, C 0); ((13 + n)%nat, C 0); ((6 + n)%nat, C 0); ((14 + n)%nat, C 0); ((5 + n)%nat, C 0)]].

(** [Square]: /repo/edwards25519/field_generic.go:445-448; locals from [n] on: h0, h1, h2, h3, h4, h5, h6, h7, h8, h9, arg0, arg1, arg2, arg3, arg4, arg5, arg6, arg7, arg8, arg9 *)
Definition d_g25_square (fe a n : nat) : stmt Z := prog [
  d_g25_squareRaw a (0 + n)%nat (1 + n)%nat (2 + n)%nat (3 + n)%nat (4 + n)%nat (5 + n)%nat (6 + n)%nat (7 + n)%nat (8 + n)%nat (9 + n)%nat (20 + n)%nat;
  Do "" (fun _ vs => match vs with [h0] => h0 | _ => 0 end) ((10 + n)%nat, C 0) [((0 + n)%nat, C 0)];
  Do "" (fun _ vs => match vs with [h1] => h1 | _ => 0 end) ((11 + n)%nat, C 0) [((1 + n)%nat, C 0)];
  Do "" (fun _ vs => match vs with [h2] => h2 | _ => 0 end) ((12 + n)%nat, C 0) [((2 + n)%nat, C 0)];
  Do "" (fun _ vs => match vs with [h3] => h3 | _ => 0 end) ((13 + n)%nat, C 0) [((3 + n)%nat, C 0)];
  Do "" (fun _ vs => match vs with [h4] => h4 | _ => 0 end) ((14 + n)%nat, C 0) [((4 + n)%nat, C 0)];
  Do "" (fun _ vs => match vs with [h5] => h5 | _ => 0 end) ((15 + n)%nat, C 0) [((5 + n)%nat, C 0)];
  Do "" (fun _ vs => match vs with [h6] => h6 | _ => 0 end) ((16 + n)%nat, C 0) [((6 + n)%nat, C 0)];
  Do "" (fun _ vs => match vs with [h7] => h7 | _ => 0 end) ((17 + n)%nat, C 0) [((7 + n)%nat, C 0)];
  Do "" (fun _ vs => match vs with [h8] => h8 | _ => 0 end) ((18 + n)%nat, C 0) [((8 + n)%nat, C 0)];
  Do "" (fun _ vs => match vs with [h9] => h9 | _ => 0 end) ((19 + n)%nat, C 0) [((9 + n)%nat, C 0)];
  d_g25_setReduced fe (10 + n)%nat (11 + n)%nat (12 + n)%nat (13 + n)%nat (14 + n)%nat (15 + n)%nat (16 + n)%nat (17 + n)%nat (18 + n)%nat (19 + n)%nat (20 + n)%nat].

(** [DoubledSquare]: /repo/edwards25519/field_generic.go:451-464; locals from [n] on: h0, h1, h2, h3, h4, h5, h6, h7, h8, h9, arg0, arg1, arg2, arg3, arg4, arg5, arg6, arg7, arg8, arg9 *)
Definition d_g25_doubledSquare (fe a n : nat) : stmt Z := prog [
  d_g25_squareRaw a (0 + n)%nat (1 + n)%nat (2 + n)%nat (3 + n)%nat (4 + n)%nat (5 + n)%nat (6 + n)%nat (7 + n)%nat (8 + n)%nat (9 + n)%nat (20 + n)%nat;
  Do "" (fun _ vs => match vs with [h0] => i64 (h0 + h0) | _ => 0 end) ((0 + n)%nat, C 0) [((0 + n)%nat, C 0)];
  Do "" (fun _ vs => match vs with [h1] => i64 (h1 + h1) | _ => 0 end) ((1 + n)%nat, C 0) [((1 + n)%nat, C 0)];
  Do "" (fun _ vs => match vs with [h2] => i64 (h2 + h2) | _ => 0 end) ((2 + n)%nat, C 0) [((2 + n)%nat, C 0)];
  Do "" (fun _ vs => match vs with [h3] => i64 (h3 + h3) | _ => 0 end) ((3 + n)%nat, C 0) [((3 + n)%nat, C 0)];
  Do "" (fun _ vs => match vs with [h4] => i64 (h4 + h4) | _ => 0 end) ((4 + n)%nat, C 0) [((4 + n)%nat, C 0)];
  Do "" (fun _ vs => match vs with [h5] => i64 (h5 + h5) | _ => 0 end) ((5 + n)%nat, C 0) [((5 + n)%nat, C 0)];
  Do "" (fun _ vs => match vs with [h6] => i64 (h6 + h6) | _ => 0 end) ((6 + n)%nat, C 0) [((6 + n)%nat, C 0)];
  Do "" (fun _ vs => match vs with [h7] => i64 (h7 + h7) | _ => 0 end) ((7 + n)%nat, C 0) [((7 + n)%nat, C 0)];
  Do "" (fun _ vs => match vs with [h8] => i64 (h8 + h8) | _ => 0 end) ((8 + n)%nat, C 0) [((8 + n)%nat, C 0)];
  Do "" (fun _ vs => match vs with [h9] => i64 (h9 + h9) | _ => 0 end) ((9 + n)%nat, C 0) [((9 + n)%nat, C 0)];
  Do "" (fun _ vs => match vs with [h0] => h0 | _ => 0 end) ((10 + n)%nat, C 0) [((0 + n)%nat, C 0)];
  Do "" (fun _ vs => match vs with [h1] => h1 | _ => 0 end) ((11 + n)%nat, C 0) [((1 + n)%nat, C 0)];
  Do "" (fun _ vs => match vs with [h2] => h2 | _ => 0 end) ((12 + n)%nat, C 0) [((2 + n)%nat, C 0)];
  Do "" (fun _ vs => match vs with [h3] => h3 | _ => 0 end) ((13 + n)%nat, C 0) [((3 + n)%nat, C 0)];
  Do "" (fun _ vs => match vs with [h4] => h4 | _ => 0 end) ((14 + n)%nat, C 0) [((4 + n)%nat, C 0)];
  Do "" (fun _ vs => match vs with [h5] => h5 | _ => 0 end) ((15 + n)%nat, C 0) [((5 + n)%nat, C 0)];
  Do "" (fun _ vs => match vs with [h6] => h6 | _ => 0 end) ((16 + n)%nat, C 0) [((6 + n)%nat, C 0)];
  Do "" (fun _ vs => match vs with [h7] => h7 | _ => 0 end) ((17 + n)%nat, C 0) [((7 + n)%nat, C 0)];
  Do "" (fun _ vs => match vs with [h8] => h8 | _ => 0 end) ((18 + n)%nat, C 0) [((8 + n)%nat, C 0)];
  Do "" (fun _ vs => match vs with [h9] => h9 | _ => 0 end) ((19 + n)%nat, C 0) [((9 + n)%nat, C 0)];
  d_g25_setReduced fe (10 + n)%nat (11 + n)%nat (12 + n)%nat (13 + n)%nat (14 + n)%nat (15 + n)%nat (16 + n)%nat (17 + n)%nat (18 + n)%nat (19 + n)%nat (20 + n)%nat].

