(** Generated by tools/c2coq.py from /repo/cref/cref.c; do not edit. *)
From Coq Require Import ZArith List.
From Verif Require Import Words CLang Fe25Code.
Import ListNotations.
Open Scope Z_scope.

(** [fe25519_zero]: /repo/cref/cref.c:602 *)
Definition c_zero : fe25 := Fe25 0 0 0 0 0 0 0 0 0 0.
(** [fe25519_one]: /repo/cref/cref.c:603 *)
Definition c_one : fe25 := Fe25 1 0 0 0 0 0 0 0 0 0.
(** [fe25519_sqrtm1]: /repo/cref/cref.c:605 *)
Definition c_sqrtm1 : fe25 := Fe25 (-32595792) (-7943725) 9377950 3500415 12389472 (-272473) (-25146209) (-2005654) 326686 11406482.
(** [fe25519_m1]: /repo/cref/cref.c:607 *)
Definition c_m1 : fe25 := Fe25 (-1) 0 0 0 0 0 0 0 0 0.
(** [ge25519_ecd]: /repo/cref/cref.c:2019 *)
Definition c_ecd : fe25 := Fe25 (-10913610) 13857413 (-15372611) 6949391 114729 (-8787816) (-6275908) (-3247719) (-18696448) (-12055116).
(** [ge25519_ec2d]: /repo/cref/cref.c:2020 *)
Definition c_ec2d : fe25 := Fe25 (-21827239) (-5839606) (-30745221) 13898782 229458 15978800 (-12551817) (-6495438) 29715968 9444199.
(** [ge25519_magic]: /repo/cref/cref.c:2021 *)
Definition c_magic : fe25 := Fe25 (-6111485) (-4156064) 27798727 (-12243468) 25904040 (-120897) (-20826367) 7060776 (-6093568) 1986012.

(** [fe25519_unpack]: /repo/cref/cref.c:640-685 *)
Definition p_unpack : cfun := CFun [
  (* h0 *) Cast I64 (Bin Or U64 (Bin Or U64 (Bin Or U64 (Cast U64 (Var 0)) (Shl U64 (Cast U64 (Var 1)) 8)) (Shl U64 (Cast U64 (Var 2)) 16)) (Shl U64 (Cast U64 (Var 3)) 24));
  (* h1 *) Cast I64 (Shl U64 (Bin Or U64 (Bin Or U64 (Cast U64 (Var 4)) (Shl U64 (Cast U64 (Var 5)) 8)) (Shl U64 (Cast U64 (Var 6)) 16)) 6);
  (* h2 *) Cast I64 (Shl U64 (Bin Or U64 (Bin Or U64 (Cast U64 (Var 7)) (Shl U64 (Cast U64 (Var 8)) 8)) (Shl U64 (Cast U64 (Var 9)) 16)) 5);
  (* h3 *) Cast I64 (Shl U64 (Bin Or U64 (Bin Or U64 (Cast U64 (Var 10)) (Shl U64 (Cast U64 (Var 11)) 8)) (Shl U64 (Cast U64 (Var 12)) 16)) 3);
  (* h4 *) Cast I64 (Shl U64 (Bin Or U64 (Bin Or U64 (Cast U64 (Var 13)) (Shl U64 (Cast U64 (Var 14)) 8)) (Shl U64 (Cast U64 (Var 15)) 16)) 2);
  (* h5 *) Cast I64 (Bin Or U64 (Bin Or U64 (Bin Or U64 (Cast U64 (Var 16)) (Shl U64 (Cast U64 (Var 17)) 8)) (Shl U64 (Cast U64 (Var 18)) 16)) (Shl U64 (Cast U64 (Var 19)) 24));
  (* h6 *) Cast I64 (Shl U64 (Bin Or U64 (Bin Or U64 (Cast U64 (Var 20)) (Shl U64 (Cast U64 (Var 21)) 8)) (Shl U64 (Cast U64 (Var 22)) 16)) 7);
  (* h7 *) Cast I64 (Shl U64 (Bin Or U64 (Bin Or U64 (Cast U64 (Var 23)) (Shl U64 (Cast U64 (Var 24)) 8)) (Shl U64 (Cast U64 (Var 25)) 16)) 5);
  (* h8 *) Cast I64 (Shl U64 (Bin Or U64 (Bin Or U64 (Cast U64 (Var 26)) (Shl U64 (Cast U64 (Var 27)) 8)) (Shl U64 (Cast U64 (Var 28)) 16)) 4);
  (* h9 *) Cast I64 (Shl U64 (Bin And U64 (Bin Or U64 (Bin Or U64 (Cast U64 (Var 29)) (Shl U64 (Cast U64 (Var 30)) 8)) (Shl U64 (Cast U64 (Var 31)) 16)) (Cst 8388607)) 2);
  (* carry9 *) Shr I64 (Bin Add I64 (Var 41) (Cst 16777216)) 25;
  (* h0 *) Bin Add I64 (Var 32) (Bin Mul I64 (Var 42) (Cst 19));
  (* h9 *) Bin Sub I64 (Var 41) (Shl I64 (Var 42) 25);
  (* carry1 *) Shr I64 (Bin Add I64 (Var 33) (Cst 16777216)) 25;
  (* h2 *) Bin Add I64 (Var 34) (Var 45);
  (* h1 *) Bin Sub I64 (Var 33) (Shl I64 (Var 45) 25);
  (* carry3 *) Shr I64 (Bin Add I64 (Var 35) (Cst 16777216)) 25;
  (* h4 *) Bin Add I64 (Var 36) (Var 48);
  (* h3 *) Bin Sub I64 (Var 35) (Shl I64 (Var 48) 25);
  (* carry5 *) Shr I64 (Bin Add I64 (Var 37) (Cst 16777216)) 25;
  (* h6 *) Bin Add I64 (Var 38) (Var 51);
  (* h5 *) Bin Sub I64 (Var 37) (Shl I64 (Var 51) 25);
  (* carry7 *) Shr I64 (Bin Add I64 (Var 39) (Cst 16777216)) 25;
  (* h8 *) Bin Add I64 (Var 40) (Var 54);
  (* h7 *) Bin Sub I64 (Var 39) (Shl I64 (Var 54) 25);
  (* carry0 *) Shr I64 (Bin Add I64 (Var 43) (Cst 33554432)) 26;
  (* h1 *) Bin Add I64 (Var 47) (Var 57);
  (* h0 *) Bin Sub I64 (Var 43) (Shl I64 (Var 57) 26);
  (* carry2 *) Shr I64 (Bin Add I64 (Var 46) (Cst 33554432)) 26;
  (* h3 *) Bin Add I64 (Var 50) (Var 60);
  (* h2 *) Bin Sub I64 (Var 46) (Shl I64 (Var 60) 26);
  (* carry4 *) Shr I64 (Bin Add I64 (Var 49) (Cst 33554432)) 26;
  (* h5 *) Bin Add I64 (Var 53) (Var 63);
  (* h4 *) Bin Sub I64 (Var 49) (Shl I64 (Var 63) 26);
  (* carry6 *) Shr I64 (Bin Add I64 (Var 52) (Cst 33554432)) 26;
  (* h7 *) Bin Add I64 (Var 56) (Var 66);
  (* h6 *) Bin Sub I64 (Var 52) (Shl I64 (Var 66) 26);
  (* carry8 *) Shr I64 (Bin Add I64 (Var 55) (Cst 33554432)) 26;
  (* h9 *) Bin Add I64 (Var 44) (Var 69);
  (* h8 *) Bin Sub I64 (Var 55) (Shl I64 (Var 69) 26);
  (* out0 *) Cast I32 (Var 59);
  (* out1 *) Cast I32 (Var 58);
  (* out2 *) Cast I32 (Var 62);
  (* out3 *) Cast I32 (Var 61);
  (* out4 *) Cast I32 (Var 65);
  (* out5 *) Cast I32 (Var 64);
  (* out6 *) Cast I32 (Var 68);
  (* out7 *) Cast I32 (Var 67);
  (* out8 *) Cast I32 (Var 71);
  (* out9 *) Cast I32 (Var 70)
  ]%list [72; 73; 74; 75; 76; 77; 78; 79; 80; 81]%nat%list.

(** [fe25519_pack]: /repo/cref/cref.c:713-804 *)
Definition p_pack : cfun := CFun [
  (* h0 *) Var 0;
  (* h1 *) Var 1;
  (* h2 *) Var 2;
  (* h3 *) Var 3;
  (* h4 *) Var 4;
  (* h5 *) Var 5;
  (* h6 *) Var 6;
  (* h7 *) Var 7;
  (* h8 *) Var 8;
  (* h9 *) Var 9;
  (* q *) Shr I32 (Bin Add I32 (Bin Mul I32 (Cst 19) (Var 19)) (Cst 16777216)) 25;
  (* q *) Shr I32 (Bin Add I32 (Var 10) (Var 20)) 26;
  (* q *) Shr I32 (Bin Add I32 (Var 11) (Var 21)) 25;
  (* q *) Shr I32 (Bin Add I32 (Var 12) (Var 22)) 26;
  (* q *) Shr I32 (Bin Add I32 (Var 13) (Var 23)) 25;
  (* q *) Shr I32 (Bin Add I32 (Var 14) (Var 24)) 26;
  (* q *) Shr I32 (Bin Add I32 (Var 15) (Var 25)) 25;
  (* q *) Shr I32 (Bin Add I32 (Var 16) (Var 26)) 26;
  (* q *) Shr I32 (Bin Add I32 (Var 17) (Var 27)) 25;
  (* q *) Shr I32 (Bin Add I32 (Var 18) (Var 28)) 26;
  (* q *) Shr I32 (Bin Add I32 (Var 19) (Var 29)) 25;
  (* h0 *) Bin Add I32 (Var 10) (Bin Mul I32 (Cst 19) (Var 30));
  (* carry0 *) Shr I32 (Var 31) 26;
  (* h1 *) Bin Add I32 (Var 11) (Var 32);
  (* h0 *) Bin Sub I32 (Var 31) (Shl I32 (Var 32) 26);
  (* carry1 *) Shr I32 (Var 33) 25;
  (* h2 *) Bin Add I32 (Var 12) (Var 35);
  (* h1 *) Bin Sub I32 (Var 33) (Shl I32 (Var 35) 25);
  (* carry2 *) Shr I32 (Var 36) 26;
  (* h3 *) Bin Add I32 (Var 13) (Var 38);
  (* h2 *) Bin Sub I32 (Var 36) (Shl I32 (Var 38) 26);
  (* carry3 *) Shr I32 (Var 39) 25;
  (* h4 *) Bin Add I32 (Var 14) (Var 41);
  (* h3 *) Bin Sub I32 (Var 39) (Shl I32 (Var 41) 25);
  (* carry4 *) Shr I32 (Var 42) 26;
  (* h5 *) Bin Add I32 (Var 15) (Var 44);
  (* h4 *) Bin Sub I32 (Var 42) (Shl I32 (Var 44) 26);
  (* carry5 *) Shr I32 (Var 45) 25;
  (* h6 *) Bin Add I32 (Var 16) (Var 47);
  (* h5 *) Bin Sub I32 (Var 45) (Shl I32 (Var 47) 25);
  (* carry6 *) Shr I32 (Var 48) 26;
  (* h7 *) Bin Add I32 (Var 17) (Var 50);
  (* h6 *) Bin Sub I32 (Var 48) (Shl I32 (Var 50) 26);
  (* carry7 *) Shr I32 (Var 51) 25;
  (* h8 *) Bin Add I32 (Var 18) (Var 53);
  (* h7 *) Bin Sub I32 (Var 51) (Shl I32 (Var 53) 25);
  (* carry8 *) Shr I32 (Var 54) 26;
  (* h9 *) Bin Add I32 (Var 19) (Var 56);
  (* h8 *) Bin Sub I32 (Var 54) (Shl I32 (Var 56) 26);
  (* carry9 *) Shr I32 (Var 57) 25;
  (* h9 *) Bin Sub I32 (Var 57) (Shl I32 (Var 59) 25);
  (* out0 *) Cast U8 (Shr I32 (Var 34) 0);
  (* out1 *) Cast U8 (Shr I32 (Var 34) 8);
  (* out2 *) Cast U8 (Shr I32 (Var 34) 16);
  (* out3 *) Cast U8 (Bin Or I32 (Shr I32 (Var 34) 24) (Shl I32 (Var 37) 2));
  (* out4 *) Cast U8 (Shr I32 (Var 37) 6);
  (* out5 *) Cast U8 (Shr I32 (Var 37) 14);
  (* out6 *) Cast U8 (Bin Or I32 (Shr I32 (Var 37) 22) (Shl I32 (Var 40) 3));
  (* out7 *) Cast U8 (Shr I32 (Var 40) 5);
  (* out8 *) Cast U8 (Shr I32 (Var 40) 13);
  (* out9 *) Cast U8 (Bin Or I32 (Shr I32 (Var 40) 21) (Shl I32 (Var 43) 5));
  (* out10 *) Cast U8 (Shr I32 (Var 43) 3);
  (* out11 *) Cast U8 (Shr I32 (Var 43) 11);
  (* out12 *) Cast U8 (Bin Or I32 (Shr I32 (Var 43) 19) (Shl I32 (Var 46) 6));
  (* out13 *) Cast U8 (Shr I32 (Var 46) 2);
  (* out14 *) Cast U8 (Shr I32 (Var 46) 10);
  (* out15 *) Cast U8 (Shr I32 (Var 46) 18);
  (* out16 *) Cast U8 (Shr I32 (Var 49) 0);
  (* out17 *) Cast U8 (Shr I32 (Var 49) 8);
  (* out18 *) Cast U8 (Shr I32 (Var 49) 16);
  (* out19 *) Cast U8 (Bin Or I32 (Shr I32 (Var 49) 24) (Shl I32 (Var 52) 1));
  (* out20 *) Cast U8 (Shr I32 (Var 52) 7);
  (* out21 *) Cast U8 (Shr I32 (Var 52) 15);
  (* out22 *) Cast U8 (Bin Or I32 (Shr I32 (Var 52) 23) (Shl I32 (Var 55) 3));
  (* out23 *) Cast U8 (Shr I32 (Var 55) 5);
  (* out24 *) Cast U8 (Shr I32 (Var 55) 13);
  (* out25 *) Cast U8 (Bin Or I32 (Shr I32 (Var 55) 21) (Shl I32 (Var 58) 4));
  (* out26 *) Cast U8 (Shr I32 (Var 58) 4);
  (* out27 *) Cast U8 (Shr I32 (Var 58) 12);
  (* out28 *) Cast U8 (Bin Or I32 (Shr I32 (Var 58) 20) (Shl I32 (Var 60) 6));
  (* out29 *) Cast U8 (Shr I32 (Var 60) 2);
  (* out30 *) Cast U8 (Shr I32 (Var 60) 10);
  (* out31 *) Cast U8 (Shr I32 (Var 60) 18)
  ]%list [61; 62; 63; 64; 65; 66; 67; 68; 69; 70; 71; 72; 73; 74; 75; 76; 77; 78; 79; 80; 81; 82; 83; 84; 85; 86; 87; 88; 89; 90; 91; 92]%nat%list.

(** [fe25519_neg]: /repo/cref/cref.c:919-951 *)
Definition p_neg : cfun := CFun [
  (* f0 *) Var 0;
  (* f1 *) Var 1;
  (* f2 *) Var 2;
  (* f3 *) Var 3;
  (* f4 *) Var 4;
  (* f5 *) Var 5;
  (* f6 *) Var 6;
  (* f7 *) Var 7;
  (* f8 *) Var 8;
  (* f9 *) Var 9;
  (* h0 *) Opp I32 (Var 10);
  (* h1 *) Opp I32 (Var 11);
  (* h2 *) Opp I32 (Var 12);
  (* h3 *) Opp I32 (Var 13);
  (* h4 *) Opp I32 (Var 14);
  (* h5 *) Opp I32 (Var 15);
  (* h6 *) Opp I32 (Var 16);
  (* h7 *) Opp I32 (Var 17);
  (* h8 *) Opp I32 (Var 18);
  (* h9 *) Opp I32 (Var 19);
  (* out0 *) Var 20;
  (* out1 *) Var 21;
  (* out2 *) Var 22;
  (* out3 *) Var 23;
  (* out4 *) Var 24;
  (* out5 *) Var 25;
  (* out6 *) Var 26;
  (* out7 *) Var 27;
  (* out8 *) Var 28;
  (* out9 *) Var 29
  ]%list [30; 31; 32; 33; 34; 35; 36; 37; 38; 39]%nat%list.

(** [fe25519_add]: /repo/cref/cref.c:971-1013 *)
Definition p_add : cfun := CFun [
  (* f0 *) Var 0;
  (* f1 *) Var 1;
  (* f2 *) Var 2;
  (* f3 *) Var 3;
  (* f4 *) Var 4;
  (* f5 *) Var 5;
  (* f6 *) Var 6;
  (* f7 *) Var 7;
  (* f8 *) Var 8;
  (* f9 *) Var 9;
  (* g0 *) Var 10;
  (* g1 *) Var 11;
  (* g2 *) Var 12;
  (* g3 *) Var 13;
  (* g4 *) Var 14;
  (* g5 *) Var 15;
  (* g6 *) Var 16;
  (* g7 *) Var 17;
  (* g8 *) Var 18;
  (* g9 *) Var 19;
  (* h0 *) Bin Add I32 (Var 20) (Var 30);
  (* h1 *) Bin Add I32 (Var 21) (Var 31);
  (* h2 *) Bin Add I32 (Var 22) (Var 32);
  (* h3 *) Bin Add I32 (Var 23) (Var 33);
  (* h4 *) Bin Add I32 (Var 24) (Var 34);
  (* h5 *) Bin Add I32 (Var 25) (Var 35);
  (* h6 *) Bin Add I32 (Var 26) (Var 36);
  (* h7 *) Bin Add I32 (Var 27) (Var 37);
  (* h8 *) Bin Add I32 (Var 28) (Var 38);
  (* h9 *) Bin Add I32 (Var 29) (Var 39);
  (* out0 *) Var 40;
  (* out1 *) Var 41;
  (* out2 *) Var 42;
  (* out3 *) Var 43;
  (* out4 *) Var 44;
  (* out5 *) Var 45;
  (* out6 *) Var 46;
  (* out7 *) Var 47;
  (* out8 *) Var 48;
  (* out9 *) Var 49
  ]%list [50; 51; 52; 53; 54; 55; 56; 57; 58; 59]%nat%list.

(** [fe25519_sub]: /repo/cref/cref.c:1037-1079 *)
Definition p_sub : cfun := CFun [
  (* f0 *) Var 0;
  (* f1 *) Var 1;
  (* f2 *) Var 2;
  (* f3 *) Var 3;
  (* f4 *) Var 4;
  (* f5 *) Var 5;
  (* f6 *) Var 6;
  (* f7 *) Var 7;
  (* f8 *) Var 8;
  (* f9 *) Var 9;
  (* g0 *) Var 10;
  (* g1 *) Var 11;
  (* g2 *) Var 12;
  (* g3 *) Var 13;
  (* g4 *) Var 14;
  (* g5 *) Var 15;
  (* g6 *) Var 16;
  (* g7 *) Var 17;
  (* g8 *) Var 18;
  (* g9 *) Var 19;
  (* h0 *) Bin Sub I32 (Var 20) (Var 30);
  (* h1 *) Bin Sub I32 (Var 21) (Var 31);
  (* h2 *) Bin Sub I32 (Var 22) (Var 32);
  (* h3 *) Bin Sub I32 (Var 23) (Var 33);
  (* h4 *) Bin Sub I32 (Var 24) (Var 34);
  (* h5 *) Bin Sub I32 (Var 25) (Var 35);
  (* h6 *) Bin Sub I32 (Var 26) (Var 36);
  (* h7 *) Bin Sub I32 (Var 27) (Var 37);
  (* h8 *) Bin Sub I32 (Var 28) (Var 38);
  (* h9 *) Bin Sub I32 (Var 29) (Var 39);
  (* out0 *) Var 40;
  (* out1 *) Var 41;
  (* out2 *) Var 42;
  (* out3 *) Var 43;
  (* out4 *) Var 44;
  (* out5 *) Var 45;
  (* out6 *) Var 46;
  (* out7 *) Var 47;
  (* out8 *) Var 48;
  (* out9 *) Var 49
  ]%list [50; 51; 52; 53; 54; 55; 56; 57; 58; 59]%nat%list.

(** [fe25519_mul]: /repo/cref/cref.c:1114-1331 *)
Definition p_mul : cfun := CFun [
  (* f0 *) Var 0;
  (* f1 *) Var 1;
  (* f2 *) Var 2;
  (* f3 *) Var 3;
  (* f4 *) Var 4;
  (* f5 *) Var 5;
  (* f6 *) Var 6;
  (* f7 *) Var 7;
  (* f8 *) Var 8;
  (* f9 *) Var 9;
  (* g0 *) Var 10;
  (* g1 *) Var 11;
  (* g2 *) Var 12;
  (* g3 *) Var 13;
  (* g4 *) Var 14;
  (* g5 *) Var 15;
  (* g6 *) Var 16;
  (* g7 *) Var 17;
  (* g8 *) Var 18;
  (* g9 *) Var 19;
  (* g1_19 *) Bin Mul I32 (Cst 19) (Var 31);
  (* g2_19 *) Bin Mul I32 (Cst 19) (Var 32);
  (* g3_19 *) Bin Mul I32 (Cst 19) (Var 33);
  (* g4_19 *) Bin Mul I32 (Cst 19) (Var 34);
  (* g5_19 *) Bin Mul I32 (Cst 19) (Var 35);
  (* g6_19 *) Bin Mul I32 (Cst 19) (Var 36);
  (* g7_19 *) Bin Mul I32 (Cst 19) (Var 37);
  (* g8_19 *) Bin Mul I32 (Cst 19) (Var 38);
  (* g9_19 *) Bin Mul I32 (Cst 19) (Var 39);
  (* f1_2 *) Bin Mul I32 (Cst 2) (Var 21);
  (* f3_2 *) Bin Mul I32 (Cst 2) (Var 23);
  (* f5_2 *) Bin Mul I32 (Cst 2) (Var 25);
  (* f7_2 *) Bin Mul I32 (Cst 2) (Var 27);
  (* f9_2 *) Bin Mul I32 (Cst 2) (Var 29);
  (* f0g0 *) Bin Mul I64 (Var 20) (Var 30);
  (* f0g1 *) Bin Mul I64 (Var 20) (Var 31);
  (* f0g2 *) Bin Mul I64 (Var 20) (Var 32);
  (* f0g3 *) Bin Mul I64 (Var 20) (Var 33);
  (* f0g4 *) Bin Mul I64 (Var 20) (Var 34);
  (* f0g5 *) Bin Mul I64 (Var 20) (Var 35);
  (* f0g6 *) Bin Mul I64 (Var 20) (Var 36);
  (* f0g7 *) Bin Mul I64 (Var 20) (Var 37);
  (* f0g8 *) Bin Mul I64 (Var 20) (Var 38);
  (* f0g9 *) Bin Mul I64 (Var 20) (Var 39);
  (* f1g0 *) Bin Mul I64 (Var 21) (Var 30);
  (* f1g1_2 *) Bin Mul I64 (Var 49) (Var 31);
  (* f1g2 *) Bin Mul I64 (Var 21) (Var 32);
  (* f1g3_2 *) Bin Mul I64 (Var 49) (Var 33);
  (* f1g4 *) Bin Mul I64 (Var 21) (Var 34);
  (* f1g5_2 *) Bin Mul I64 (Var 49) (Var 35);
  (* f1g6 *) Bin Mul I64 (Var 21) (Var 36);
  (* f1g7_2 *) Bin Mul I64 (Var 49) (Var 37);
  (* f1g8 *) Bin Mul I64 (Var 21) (Var 38);
  (* f1g9_38 *) Bin Mul I64 (Var 49) (Var 48);
  (* f2g0 *) Bin Mul I64 (Var 22) (Var 30);
  (* f2g1 *) Bin Mul I64 (Var 22) (Var 31);
  (* f2g2 *) Bin Mul I64 (Var 22) (Var 32);
  (* f2g3 *) Bin Mul I64 (Var 22) (Var 33);
  (* f2g4 *) Bin Mul I64 (Var 22) (Var 34);
  (* f2g5 *) Bin Mul I64 (Var 22) (Var 35);
  (* f2g6 *) Bin Mul I64 (Var 22) (Var 36);
  (* f2g7 *) Bin Mul I64 (Var 22) (Var 37);
  (* f2g8_19 *) Bin Mul I64 (Var 22) (Var 47);
  (* f2g9_19 *) Bin Mul I64 (Var 22) (Var 48);
  (* f3g0 *) Bin Mul I64 (Var 23) (Var 30);
  (* f3g1_2 *) Bin Mul I64 (Var 50) (Var 31);
  (* f3g2 *) Bin Mul I64 (Var 23) (Var 32);
  (* f3g3_2 *) Bin Mul I64 (Var 50) (Var 33);
  (* f3g4 *) Bin Mul I64 (Var 23) (Var 34);
  (* f3g5_2 *) Bin Mul I64 (Var 50) (Var 35);
  (* f3g6 *) Bin Mul I64 (Var 23) (Var 36);
  (* f3g7_38 *) Bin Mul I64 (Var 50) (Var 46);
  (* f3g8_19 *) Bin Mul I64 (Var 23) (Var 47);
  (* f3g9_38 *) Bin Mul I64 (Var 50) (Var 48);
  (* f4g0 *) Bin Mul I64 (Var 24) (Var 30);
  (* f4g1 *) Bin Mul I64 (Var 24) (Var 31);
  (* f4g2 *) Bin Mul I64 (Var 24) (Var 32);
  (* f4g3 *) Bin Mul I64 (Var 24) (Var 33);
  (* f4g4 *) Bin Mul I64 (Var 24) (Var 34);
  (* f4g5 *) Bin Mul I64 (Var 24) (Var 35);
  (* f4g6_19 *) Bin Mul I64 (Var 24) (Var 45);
  (* f4g7_19 *) Bin Mul I64 (Var 24) (Var 46);
  (* f4g8_19 *) Bin Mul I64 (Var 24) (Var 47);
  (* f4g9_19 *) Bin Mul I64 (Var 24) (Var 48);
  (* f5g0 *) Bin Mul I64 (Var 25) (Var 30);
  (* f5g1_2 *) Bin Mul I64 (Var 51) (Var 31);
  (* f5g2 *) Bin Mul I64 (Var 25) (Var 32);
  (* f5g3_2 *) Bin Mul I64 (Var 51) (Var 33);
  (* f5g4 *) Bin Mul I64 (Var 25) (Var 34);
  (* f5g5_38 *) Bin Mul I64 (Var 51) (Var 44);
  (* f5g6_19 *) Bin Mul I64 (Var 25) (Var 45);
  (* f5g7_38 *) Bin Mul I64 (Var 51) (Var 46);
  (* f5g8_19 *) Bin Mul I64 (Var 25) (Var 47);
  (* f5g9_38 *) Bin Mul I64 (Var 51) (Var 48);
  (* f6g0 *) Bin Mul I64 (Var 26) (Var 30);
  (* f6g1 *) Bin Mul I64 (Var 26) (Var 31);
  (* f6g2 *) Bin Mul I64 (Var 26) (Var 32);
  (* f6g3 *) Bin Mul I64 (Var 26) (Var 33);
  (* f6g4_19 *) Bin Mul I64 (Var 26) (Var 43);
  (* f6g5_19 *) Bin Mul I64 (Var 26) (Var 44);
  (* f6g6_19 *) Bin Mul I64 (Var 26) (Var 45);
  (* f6g7_19 *) Bin Mul I64 (Var 26) (Var 46);
  (* f6g8_19 *) Bin Mul I64 (Var 26) (Var 47);
  (* f6g9_19 *) Bin Mul I64 (Var 26) (Var 48);
  (* f7g0 *) Bin Mul I64 (Var 27) (Var 30);
  (* f7g1_2 *) Bin Mul I64 (Var 52) (Var 31);
  (* f7g2 *) Bin Mul I64 (Var 27) (Var 32);
  (* f7g3_38 *) Bin Mul I64 (Var 52) (Var 42);
  (* f7g4_19 *) Bin Mul I64 (Var 27) (Var 43);
  (* f7g5_38 *) Bin Mul I64 (Var 52) (Var 44);
  (* f7g6_19 *) Bin Mul I64 (Var 27) (Var 45);
  (* f7g7_38 *) Bin Mul I64 (Var 52) (Var 46);
  (* f7g8_19 *) Bin Mul I64 (Var 27) (Var 47);
  (* f7g9_38 *) Bin Mul I64 (Var 52) (Var 48);
  (* f8g0 *) Bin Mul I64 (Var 28) (Var 30);
  (* f8g1 *) Bin Mul I64 (Var 28) (Var 31);
  (* f8g2_19 *) Bin Mul I64 (Var 28) (Var 41);
  (* f8g3_19 *) Bin Mul I64 (Var 28) (Var 42);
  (* f8g4_19 *) Bin Mul I64 (Var 28) (Var 43);
  (* f8g5_19 *) Bin Mul I64 (Var 28) (Var 44);
  (* f8g6_19 *) Bin Mul I64 (Var 28) (Var 45);
  (* f8g7_19 *) Bin Mul I64 (Var 28) (Var 46);
  (* f8g8_19 *) Bin Mul I64 (Var 28) (Var 47);
  (* f8g9_19 *) Bin Mul I64 (Var 28) (Var 48);
  (* f9g0 *) Bin Mul I64 (Var 29) (Var 30);
  (* f9g1_38 *) Bin Mul I64 (Var 53) (Var 40);
  (* f9g2_19 *) Bin Mul I64 (Var 29) (Var 41);
  (* f9g3_38 *) Bin Mul I64 (Var 53) (Var 42);
  (* f9g4_19 *) Bin Mul I64 (Var 29) (Var 43);
  (* f9g5_38 *) Bin Mul I64 (Var 53) (Var 44);
  (* f9g6_19 *) Bin Mul I64 (Var 29) (Var 45);
  (* f9g7_38 *) Bin Mul I64 (Var 53) (Var 46);
  (* f9g8_19 *) Bin Mul I64 (Var 29) (Var 47);
  (* f9g9_38 *) Bin Mul I64 (Var 53) (Var 48);
  (* h0 *) Bin Add I64 (Bin Add I64 (Bin Add I64 (Bin Add I64 (Bin Add I64 (Bin Add I64 (Bin Add I64 (Bin Add I64 (Bin Add I64 (Var 54) (Var 73)) (Var 82)) (Var 91)) (Var 100)) (Var 109)) (Var 118)) (Var 127)) (Var 136)) (Var 145);
  (* h1 *) Bin Add I64 (Bin Add I64 (Bin Add I64 (Bin Add I64 (Bin Add I64 (Bin Add I64 (Bin Add I64 (Bin Add I64 (Bin Add I64 (Var 55) (Var 64)) (Var 83)) (Var 92)) (Var 101)) (Var 110)) (Var 119)) (Var 128)) (Var 137)) (Var 146);
  (* h2 *) Bin Add I64 (Bin Add I64 (Bin Add I64 (Bin Add I64 (Bin Add I64 (Bin Add I64 (Bin Add I64 (Bin Add I64 (Bin Add I64 (Var 56) (Var 65)) (Var 74)) (Var 93)) (Var 102)) (Var 111)) (Var 120)) (Var 129)) (Var 138)) (Var 147);
  (* h3 *) Bin Add I64 (Bin Add I64 (Bin Add I64 (Bin Add I64 (Bin Add I64 (Bin Add I64 (Bin Add I64 (Bin Add I64 (Bin Add I64 (Var 57) (Var 66)) (Var 75)) (Var 84)) (Var 103)) (Var 112)) (Var 121)) (Var 130)) (Var 139)) (Var 148);
  (* h4 *) Bin Add I64 (Bin Add I64 (Bin Add I64 (Bin Add I64 (Bin Add I64 (Bin Add I64 (Bin Add I64 (Bin Add I64 (Bin Add I64 (Var 58) (Var 67)) (Var 76)) (Var 85)) (Var 94)) (Var 113)) (Var 122)) (Var 131)) (Var 140)) (Var 149);
  (* h5 *) Bin Add I64 (Bin Add I64 (Bin Add I64 (Bin Add I64 (Bin Add I64 (Bin Add I64 (Bin Add I64 (Bin Add I64 (Bin Add I64 (Var 59) (Var 68)) (Var 77)) (Var 86)) (Var 95)) (Var 104)) (Var 123)) (Var 132)) (Var 141)) (Var 150);
  (* h6 *) Bin Add I64 (Bin Add I64 (Bin Add I64 (Bin Add I64 (Bin Add I64 (Bin Add I64 (Bin Add I64 (Bin Add I64 (Bin Add I64 (Var 60) (Var 69)) (Var 78)) (Var 87)) (Var 96)) (Var 105)) (Var 114)) (Var 133)) (Var 142)) (Var 151);
  (* h7 *) Bin Add I64 (Bin Add I64 (Bin Add I64 (Bin Add I64 (Bin Add I64 (Bin Add I64 (Bin Add I64 (Bin Add I64 (Bin Add I64 (Var 61) (Var 70)) (Var 79)) (Var 88)) (Var 97)) (Var 106)) (Var 115)) (Var 124)) (Var 143)) (Var 152);
  (* h8 *) Bin Add I64 (Bin Add I64 (Bin Add I64 (Bin Add I64 (Bin Add I64 (Bin Add I64 (Bin Add I64 (Bin Add I64 (Bin Add I64 (Var 62) (Var 71)) (Var 80)) (Var 89)) (Var 98)) (Var 107)) (Var 116)) (Var 125)) (Var 134)) (Var 153);
  (* h9 *) Bin Add I64 (Bin Add I64 (Bin Add I64 (Bin Add I64 (Bin Add I64 (Bin Add I64 (Bin Add I64 (Bin Add I64 (Bin Add I64 (Var 63) (Var 72)) (Var 81)) (Var 90)) (Var 99)) (Var 108)) (Var 117)) (Var 126)) (Var 135)) (Var 144);
  (* carry0 *) Shr I64 (Bin Add I64 (Var 154) (Cst 33554432)) 26;
  (* h1 *) Bin Add I64 (Var 155) (Var 164);
  (* h0 *) Bin Sub I64 (Var 154) (Shl I64 (Var 164) 26);
  (* carry4 *) Shr I64 (Bin Add I64 (Var 158) (Cst 33554432)) 26;
  (* h5 *) Bin Add I64 (Var 159) (Var 167);
  (* h4 *) Bin Sub I64 (Var 158) (Shl I64 (Var 167) 26);
  (* carry1 *) Shr I64 (Bin Add I64 (Var 165) (Cst 16777216)) 25;
  (* h2 *) Bin Add I64 (Var 156) (Var 170);
  (* h1 *) Bin Sub I64 (Var 165) (Shl I64 (Var 170) 25);
  (* carry5 *) Shr I64 (Bin Add I64 (Var 168) (Cst 16777216)) 25;
  (* h6 *) Bin Add I64 (Var 160) (Var 173);
  (* h5 *) Bin Sub I64 (Var 168) (Shl I64 (Var 173) 25);
  (* carry2 *) Shr I64 (Bin Add I64 (Var 171) (Cst 33554432)) 26;
  (* h3 *) Bin Add I64 (Var 157) (Var 176);
  (* h2 *) Bin Sub I64 (Var 171) (Shl I64 (Var 176) 26);
  (* carry6 *) Shr I64 (Bin Add I64 (Var 174) (Cst 33554432)) 26;
  (* h7 *) Bin Add I64 (Var 161) (Var 179);
  (* h6 *) Bin Sub I64 (Var 174) (Shl I64 (Var 179) 26);
  (* carry3 *) Shr I64 (Bin Add I64 (Var 177) (Cst 16777216)) 25;
  (* h4 *) Bin Add I64 (Var 169) (Var 182);
  (* h3 *) Bin Sub I64 (Var 177) (Shl I64 (Var 182) 25);
  (* carry7 *) Shr I64 (Bin Add I64 (Var 180) (Cst 16777216)) 25;
  (* h8 *) Bin Add I64 (Var 162) (Var 185);
  (* h7 *) Bin Sub I64 (Var 180) (Shl I64 (Var 185) 25);
  (* carry4 *) Shr I64 (Bin Add I64 (Var 183) (Cst 33554432)) 26;
  (* h5 *) Bin Add I64 (Var 175) (Var 188);
  (* h4 *) Bin Sub I64 (Var 183) (Shl I64 (Var 188) 26);
  (* carry8 *) Shr I64 (Bin Add I64 (Var 186) (Cst 33554432)) 26;
  (* h9 *) Bin Add I64 (Var 163) (Var 191);
  (* h8 *) Bin Sub I64 (Var 186) (Shl I64 (Var 191) 26);
  (* carry9 *) Shr I64 (Bin Add I64 (Var 192) (Cst 16777216)) 25;
  (* h0 *) Bin Add I64 (Var 166) (Bin Mul I64 (Var 194) (Cst 19));
  (* h9 *) Bin Sub I64 (Var 192) (Shl I64 (Var 194) 25);
  (* carry0 *) Shr I64 (Bin Add I64 (Var 195) (Cst 33554432)) 26;
  (* h1 *) Bin Add I64 (Var 172) (Var 197);
  (* h0 *) Bin Sub I64 (Var 195) (Shl I64 (Var 197) 26);
  (* out0 *) Cast I32 (Var 199);
  (* out1 *) Cast I32 (Var 198);
  (* out2 *) Cast I32 (Var 178);
  (* out3 *) Cast I32 (Var 184);
  (* out4 *) Cast I32 (Var 190);
  (* out5 *) Cast I32 (Var 189);
  (* out6 *) Cast I32 (Var 181);
  (* out7 *) Cast I32 (Var 187);
  (* out8 *) Cast I32 (Var 193);
  (* out9 *) Cast I32 (Var 196)
  ]%list [200; 201; 202; 203; 204; 205; 206; 207; 208; 209]%nat%list.

(** [fe25519_square]: /repo/cref/cref.c:1343-1473 *)
Definition p_square : cfun := CFun [
  (* f0 *) Var 0;
  (* f1 *) Var 1;
  (* f2 *) Var 2;
  (* f3 *) Var 3;
  (* f4 *) Var 4;
  (* f5 *) Var 5;
  (* f6 *) Var 6;
  (* f7 *) Var 7;
  (* f8 *) Var 8;
  (* f9 *) Var 9;
  (* f0_2 *) Bin Mul I32 (Cst 2) (Var 10);
  (* f1_2 *) Bin Mul I32 (Cst 2) (Var 11);
  (* f2_2 *) Bin Mul I32 (Cst 2) (Var 12);
  (* f3_2 *) Bin Mul I32 (Cst 2) (Var 13);
  (* f4_2 *) Bin Mul I32 (Cst 2) (Var 14);
  (* f5_2 *) Bin Mul I32 (Cst 2) (Var 15);
  (* f6_2 *) Bin Mul I32 (Cst 2) (Var 16);
  (* f7_2 *) Bin Mul I32 (Cst 2) (Var 17);
  (* f5_38 *) Bin Mul I32 (Cst 38) (Var 15);
  (* f6_19 *) Bin Mul I32 (Cst 19) (Var 16);
  (* f7_38 *) Bin Mul I32 (Cst 38) (Var 17);
  (* f8_19 *) Bin Mul I32 (Cst 19) (Var 18);
  (* f9_38 *) Bin Mul I32 (Cst 38) (Var 19);
  (* f0f0 *) Bin Mul I64 (Var 10) (Var 10);
  (* f0f1_2 *) Bin Mul I64 (Var 20) (Var 11);
  (* f0f2_2 *) Bin Mul I64 (Var 20) (Var 12);
  (* f0f3_2 *) Bin Mul I64 (Var 20) (Var 13);
  (* f0f4_2 *) Bin Mul I64 (Var 20) (Var 14);
  (* f0f5_2 *) Bin Mul I64 (Var 20) (Var 15);
  (* f0f6_2 *) Bin Mul I64 (Var 20) (Var 16);
  (* f0f7_2 *) Bin Mul I64 (Var 20) (Var 17);
  (* f0f8_2 *) Bin Mul I64 (Var 20) (Var 18);
  (* f0f9_2 *) Bin Mul I64 (Var 20) (Var 19);
  (* f1f1_2 *) Bin Mul I64 (Var 21) (Var 11);
  (* f1f2_2 *) Bin Mul I64 (Var 21) (Var 12);
  (* f1f3_4 *) Bin Mul I64 (Var 21) (Var 23);
  (* f1f4_2 *) Bin Mul I64 (Var 21) (Var 14);
  (* f1f5_4 *) Bin Mul I64 (Var 21) (Var 25);
  (* f1f6_2 *) Bin Mul I64 (Var 21) (Var 16);
  (* f1f7_4 *) Bin Mul I64 (Var 21) (Var 27);
  (* f1f8_2 *) Bin Mul I64 (Var 21) (Var 18);
  (* f1f9_76 *) Bin Mul I64 (Var 21) (Var 32);
  (* f2f2 *) Bin Mul I64 (Var 12) (Var 12);
  (* f2f3_2 *) Bin Mul I64 (Var 22) (Var 13);
  (* f2f4_2 *) Bin Mul I64 (Var 22) (Var 14);
  (* f2f5_2 *) Bin Mul I64 (Var 22) (Var 15);
  (* f2f6_2 *) Bin Mul I64 (Var 22) (Var 16);
  (* f2f7_2 *) Bin Mul I64 (Var 22) (Var 17);
  (* f2f8_38 *) Bin Mul I64 (Var 22) (Var 31);
  (* f2f9_38 *) Bin Mul I64 (Var 12) (Var 32);
  (* f3f3_2 *) Bin Mul I64 (Var 23) (Var 13);
  (* f3f4_2 *) Bin Mul I64 (Var 23) (Var 14);
  (* f3f5_4 *) Bin Mul I64 (Var 23) (Var 25);
  (* f3f6_2 *) Bin Mul I64 (Var 23) (Var 16);
  (* f3f7_76 *) Bin Mul I64 (Var 23) (Var 30);
  (* f3f8_38 *) Bin Mul I64 (Var 23) (Var 31);
  (* f3f9_76 *) Bin Mul I64 (Var 23) (Var 32);
  (* f4f4 *) Bin Mul I64 (Var 14) (Var 14);
  (* f4f5_2 *) Bin Mul I64 (Var 24) (Var 15);
  (* f4f6_38 *) Bin Mul I64 (Var 24) (Var 29);
  (* f4f7_38 *) Bin Mul I64 (Var 14) (Var 30);
  (* f4f8_38 *) Bin Mul I64 (Var 24) (Var 31);
  (* f4f9_38 *) Bin Mul I64 (Var 14) (Var 32);
  (* f5f5_38 *) Bin Mul I64 (Var 15) (Var 28);
  (* f5f6_38 *) Bin Mul I64 (Var 25) (Var 29);
  (* f5f7_76 *) Bin Mul I64 (Var 25) (Var 30);
  (* f5f8_38 *) Bin Mul I64 (Var 25) (Var 31);
  (* f5f9_76 *) Bin Mul I64 (Var 25) (Var 32);
  (* f6f6_19 *) Bin Mul I64 (Var 16) (Var 29);
  (* f6f7_38 *) Bin Mul I64 (Var 16) (Var 30);
  (* f6f8_38 *) Bin Mul I64 (Var 26) (Var 31);
  (* f6f9_38 *) Bin Mul I64 (Var 16) (Var 32);
  (* f7f7_38 *) Bin Mul I64 (Var 17) (Var 30);
  (* f7f8_38 *) Bin Mul I64 (Var 27) (Var 31);
  (* f7f9_76 *) Bin Mul I64 (Var 27) (Var 32);
  (* f8f8_19 *) Bin Mul I64 (Var 18) (Var 31);
  (* f8f9_38 *) Bin Mul I64 (Var 18) (Var 32);
  (* f9f9_38 *) Bin Mul I64 (Var 19) (Var 32);
  (* h0 *) Bin Add I64 (Bin Add I64 (Bin Add I64 (Bin Add I64 (Bin Add I64 (Var 33) (Var 51)) (Var 58)) (Var 64)) (Var 69)) (Var 73);
  (* h1 *) Bin Add I64 (Bin Add I64 (Bin Add I64 (Bin Add I64 (Var 34) (Var 59)) (Var 65)) (Var 70)) (Var 74);
  (* h2 *) Bin Add I64 (Bin Add I64 (Bin Add I64 (Bin Add I64 (Bin Add I64 (Var 35) (Var 43)) (Var 66)) (Var 71)) (Var 75)) (Var 78);
  (* h3 *) Bin Add I64 (Bin Add I64 (Bin Add I64 (Bin Add I64 (Var 36) (Var 44)) (Var 72)) (Var 76)) (Var 79);
  (* h4 *) Bin Add I64 (Bin Add I64 (Bin Add I64 (Bin Add I64 (Bin Add I64 (Var 37) (Var 45)) (Var 52)) (Var 77)) (Var 80)) (Var 82);
  (* h5 *) Bin Add I64 (Bin Add I64 (Bin Add I64 (Bin Add I64 (Var 38) (Var 46)) (Var 53)) (Var 81)) (Var 83);
  (* h6 *) Bin Add I64 (Bin Add I64 (Bin Add I64 (Bin Add I64 (Bin Add I64 (Var 39) (Var 47)) (Var 54)) (Var 60)) (Var 84)) (Var 85);
  (* h7 *) Bin Add I64 (Bin Add I64 (Bin Add I64 (Bin Add I64 (Var 40) (Var 48)) (Var 55)) (Var 61)) (Var 86);
  (* h8 *) Bin Add I64 (Bin Add I64 (Bin Add I64 (Bin Add I64 (Bin Add I64 (Var 41) (Var 49)) (Var 56)) (Var 62)) (Var 67)) (Var 87);
  (* h9 *) Bin Add I64 (Bin Add I64 (Bin Add I64 (Bin Add I64 (Var 42) (Var 50)) (Var 57)) (Var 63)) (Var 68);
  (* carry0 *) Shr I64 (Bin Add I64 (Var 88) (Cst 33554432)) 26;
  (* h1 *) Bin Add I64 (Var 89) (Var 98);
  (* h0 *) Bin Sub I64 (Var 88) (Shl I64 (Var 98) 26);
  (* carry4 *) Shr I64 (Bin Add I64 (Var 92) (Cst 33554432)) 26;
  (* h5 *) Bin Add I64 (Var 93) (Var 101);
  (* h4 *) Bin Sub I64 (Var 92) (Shl I64 (Var 101) 26);
  (* carry1 *) Shr I64 (Bin Add I64 (Var 99) (Cst 16777216)) 25;
  (* h2 *) Bin Add I64 (Var 90) (Var 104);
  (* h1 *) Bin Sub I64 (Var 99) (Shl I64 (Var 104) 25);
  (* carry5 *) Shr I64 (Bin Add I64 (Var 102) (Cst 16777216)) 25;
  (* h6 *) Bin Add I64 (Var 94) (Var 107);
  (* h5 *) Bin Sub I64 (Var 102) (Shl I64 (Var 107) 25);
  (* carry2 *) Shr I64 (Bin Add I64 (Var 105) (Cst 33554432)) 26;
  (* h3 *) Bin Add I64 (Var 91) (Var 110);
  (* h2 *) Bin Sub I64 (Var 105) (Shl I64 (Var 110) 26);
  (* carry6 *) Shr I64 (Bin Add I64 (Var 108) (Cst 33554432)) 26;
  (* h7 *) Bin Add I64 (Var 95) (Var 113);
  (* h6 *) Bin Sub I64 (Var 108) (Shl I64 (Var 113) 26);
  (* carry3 *) Shr I64 (Bin Add I64 (Var 111) (Cst 16777216)) 25;
  (* h4 *) Bin Add I64 (Var 103) (Var 116);
  (* h3 *) Bin Sub I64 (Var 111) (Shl I64 (Var 116) 25);
  (* carry7 *) Shr I64 (Bin Add I64 (Var 114) (Cst 16777216)) 25;
  (* h8 *) Bin Add I64 (Var 96) (Var 119);
  (* h7 *) Bin Sub I64 (Var 114) (Shl I64 (Var 119) 25);
  (* carry4 *) Shr I64 (Bin Add I64 (Var 117) (Cst 33554432)) 26;
  (* h5 *) Bin Add I64 (Var 109) (Var 122);
  (* h4 *) Bin Sub I64 (Var 117) (Shl I64 (Var 122) 26);
  (* carry8 *) Shr I64 (Bin Add I64 (Var 120) (Cst 33554432)) 26;
  (* h9 *) Bin Add I64 (Var 97) (Var 125);
  (* h8 *) Bin Sub I64 (Var 120) (Shl I64 (Var 125) 26);
  (* carry9 *) Shr I64 (Bin Add I64 (Var 126) (Cst 16777216)) 25;
  (* h0 *) Bin Add I64 (Var 100) (Bin Mul I64 (Var 128) (Cst 19));
  (* h9 *) Bin Sub I64 (Var 126) (Shl I64 (Var 128) 25);
  (* carry0 *) Shr I64 (Bin Add I64 (Var 129) (Cst 33554432)) 26;
  (* h1 *) Bin Add I64 (Var 106) (Var 131);
  (* h0 *) Bin Sub I64 (Var 129) (Shl I64 (Var 131) 26);
  (* out0 *) Cast I32 (Var 133);
  (* out1 *) Cast I32 (Var 132);
  (* out2 *) Cast I32 (Var 112);
  (* out3 *) Cast I32 (Var 118);
  (* out4 *) Cast I32 (Var 124);
  (* out5 *) Cast I32 (Var 123);
  (* out6 *) Cast I32 (Var 115);
  (* out7 *) Cast I32 (Var 121);
  (* out8 *) Cast I32 (Var 127);
  (* out9 *) Cast I32 (Var 130)
  ]%list [134; 135; 136; 137; 138; 139; 140; 141; 142; 143]%nat%list.

(** [fe25519_square_double]: /repo/cref/cref.c:1833-1974 *)
Definition p_square_double : cfun := CFun [
  (* f0 *) Var 0;
  (* f1 *) Var 1;
  (* f2 *) Var 2;
  (* f3 *) Var 3;
  (* f4 *) Var 4;
  (* f5 *) Var 5;
  (* f6 *) Var 6;
  (* f7 *) Var 7;
  (* f8 *) Var 8;
  (* f9 *) Var 9;
  (* f0_2 *) Bin Mul I32 (Cst 2) (Var 10);
  (* f1_2 *) Bin Mul I32 (Cst 2) (Var 11);
  (* f2_2 *) Bin Mul I32 (Cst 2) (Var 12);
  (* f3_2 *) Bin Mul I32 (Cst 2) (Var 13);
  (* f4_2 *) Bin Mul I32 (Cst 2) (Var 14);
  (* f5_2 *) Bin Mul I32 (Cst 2) (Var 15);
  (* f6_2 *) Bin Mul I32 (Cst 2) (Var 16);
  (* f7_2 *) Bin Mul I32 (Cst 2) (Var 17);
  (* f5_38 *) Bin Mul I32 (Cst 38) (Var 15);
  (* f6_19 *) Bin Mul I32 (Cst 19) (Var 16);
  (* f7_38 *) Bin Mul I32 (Cst 38) (Var 17);
  (* f8_19 *) Bin Mul I32 (Cst 19) (Var 18);
  (* f9_38 *) Bin Mul I32 (Cst 38) (Var 19);
  (* f0f0 *) Bin Mul I64 (Var 10) (Var 10);
  (* f0f1_2 *) Bin Mul I64 (Var 20) (Var 11);
  (* f0f2_2 *) Bin Mul I64 (Var 20) (Var 12);
  (* f0f3_2 *) Bin Mul I64 (Var 20) (Var 13);
  (* f0f4_2 *) Bin Mul I64 (Var 20) (Var 14);
  (* f0f5_2 *) Bin Mul I64 (Var 20) (Var 15);
  (* f0f6_2 *) Bin Mul I64 (Var 20) (Var 16);
  (* f0f7_2 *) Bin Mul I64 (Var 20) (Var 17);
  (* f0f8_2 *) Bin Mul I64 (Var 20) (Var 18);
  (* f0f9_2 *) Bin Mul I64 (Var 20) (Var 19);
  (* f1f1_2 *) Bin Mul I64 (Var 21) (Var 11);
  (* f1f2_2 *) Bin Mul I64 (Var 21) (Var 12);
  (* f1f3_4 *) Bin Mul I64 (Var 21) (Var 23);
  (* f1f4_2 *) Bin Mul I64 (Var 21) (Var 14);
  (* f1f5_4 *) Bin Mul I64 (Var 21) (Var 25);
  (* f1f6_2 *) Bin Mul I64 (Var 21) (Var 16);
  (* f1f7_4 *) Bin Mul I64 (Var 21) (Var 27);
  (* f1f8_2 *) Bin Mul I64 (Var 21) (Var 18);
  (* f1f9_76 *) Bin Mul I64 (Var 21) (Var 32);
  (* f2f2 *) Bin Mul I64 (Var 12) (Var 12);
  (* f2f3_2 *) Bin Mul I64 (Var 22) (Var 13);
  (* f2f4_2 *) Bin Mul I64 (Var 22) (Var 14);
  (* f2f5_2 *) Bin Mul I64 (Var 22) (Var 15);
  (* f2f6_2 *) Bin Mul I64 (Var 22) (Var 16);
  (* f2f7_2 *) Bin Mul I64 (Var 22) (Var 17);
  (* f2f8_38 *) Bin Mul I64 (Var 22) (Var 31);
  (* f2f9_38 *) Bin Mul I64 (Var 12) (Var 32);
  (* f3f3_2 *) Bin Mul I64 (Var 23) (Var 13);
  (* f3f4_2 *) Bin Mul I64 (Var 23) (Var 14);
  (* f3f5_4 *) Bin Mul I64 (Var 23) (Var 25);
  (* f3f6_2 *) Bin Mul I64 (Var 23) (Var 16);
  (* f3f7_76 *) Bin Mul I64 (Var 23) (Var 30);
  (* f3f8_38 *) Bin Mul I64 (Var 23) (Var 31);
  (* f3f9_76 *) Bin Mul I64 (Var 23) (Var 32);
  (* f4f4 *) Bin Mul I64 (Var 14) (Var 14);
  (* f4f5_2 *) Bin Mul I64 (Var 24) (Var 15);
  (* f4f6_38 *) Bin Mul I64 (Var 24) (Var 29);
  (* f4f7_38 *) Bin Mul I64 (Var 14) (Var 30);
  (* f4f8_38 *) Bin Mul I64 (Var 24) (Var 31);
  (* f4f9_38 *) Bin Mul I64 (Var 14) (Var 32);
  (* f5f5_38 *) Bin Mul I64 (Var 15) (Var 28);
  (* f5f6_38 *) Bin Mul I64 (Var 25) (Var 29);
  (* f5f7_76 *) Bin Mul I64 (Var 25) (Var 30);
  (* f5f8_38 *) Bin Mul I64 (Var 25) (Var 31);
  (* f5f9_76 *) Bin Mul I64 (Var 25) (Var 32);
  (* f6f6_19 *) Bin Mul I64 (Var 16) (Var 29);
  (* f6f7_38 *) Bin Mul I64 (Var 16) (Var 30);
  (* f6f8_38 *) Bin Mul I64 (Var 26) (Var 31);
  (* f6f9_38 *) Bin Mul I64 (Var 16) (Var 32);
  (* f7f7_38 *) Bin Mul I64 (Var 17) (Var 30);
  (* f7f8_38 *) Bin Mul I64 (Var 27) (Var 31);
  (* f7f9_76 *) Bin Mul I64 (Var 27) (Var 32);
  (* f8f8_19 *) Bin Mul I64 (Var 18) (Var 31);
  (* f8f9_38 *) Bin Mul I64 (Var 18) (Var 32);
  (* f9f9_38 *) Bin Mul I64 (Var 19) (Var 32);
  (* h0 *) Bin Add I64 (Bin Add I64 (Bin Add I64 (Bin Add I64 (Bin Add I64 (Var 33) (Var 51)) (Var 58)) (Var 64)) (Var 69)) (Var 73);
  (* h1 *) Bin Add I64 (Bin Add I64 (Bin Add I64 (Bin Add I64 (Var 34) (Var 59)) (Var 65)) (Var 70)) (Var 74);
  (* h2 *) Bin Add I64 (Bin Add I64 (Bin Add I64 (Bin Add I64 (Bin Add I64 (Var 35) (Var 43)) (Var 66)) (Var 71)) (Var 75)) (Var 78);
  (* h3 *) Bin Add I64 (Bin Add I64 (Bin Add I64 (Bin Add I64 (Var 36) (Var 44)) (Var 72)) (Var 76)) (Var 79);
  (* h4 *) Bin Add I64 (Bin Add I64 (Bin Add I64 (Bin Add I64 (Bin Add I64 (Var 37) (Var 45)) (Var 52)) (Var 77)) (Var 80)) (Var 82);
  (* h5 *) Bin Add I64 (Bin Add I64 (Bin Add I64 (Bin Add I64 (Var 38) (Var 46)) (Var 53)) (Var 81)) (Var 83);
  (* h6 *) Bin Add I64 (Bin Add I64 (Bin Add I64 (Bin Add I64 (Bin Add I64 (Var 39) (Var 47)) (Var 54)) (Var 60)) (Var 84)) (Var 85);
  (* h7 *) Bin Add I64 (Bin Add I64 (Bin Add I64 (Bin Add I64 (Var 40) (Var 48)) (Var 55)) (Var 61)) (Var 86);
  (* h8 *) Bin Add I64 (Bin Add I64 (Bin Add I64 (Bin Add I64 (Bin Add I64 (Var 41) (Var 49)) (Var 56)) (Var 62)) (Var 67)) (Var 87);
  (* h9 *) Bin Add I64 (Bin Add I64 (Bin Add I64 (Bin Add I64 (Var 42) (Var 50)) (Var 57)) (Var 63)) (Var 68);
  (* h0 *) Bin Add I64 (Var 88) (Var 88);
  (* h1 *) Bin Add I64 (Var 89) (Var 89);
  (* h2 *) Bin Add I64 (Var 90) (Var 90);
  (* h3 *) Bin Add I64 (Var 91) (Var 91);
  (* h4 *) Bin Add I64 (Var 92) (Var 92);
  (* h5 *) Bin Add I64 (Var 93) (Var 93);
  (* h6 *) Bin Add I64 (Var 94) (Var 94);
  (* h7 *) Bin Add I64 (Var 95) (Var 95);
  (* h8 *) Bin Add I64 (Var 96) (Var 96);
  (* h9 *) Bin Add I64 (Var 97) (Var 97);
  (* carry0 *) Shr I64 (Bin Add I64 (Var 98) (Cst 33554432)) 26;
  (* h1 *) Bin Add I64 (Var 99) (Var 108);
  (* h0 *) Bin Sub I64 (Var 98) (Shl I64 (Var 108) 26);
  (* carry4 *) Shr I64 (Bin Add I64 (Var 102) (Cst 33554432)) 26;
  (* h5 *) Bin Add I64 (Var 103) (Var 111);
  (* h4 *) Bin Sub I64 (Var 102) (Shl I64 (Var 111) 26);
  (* carry1 *) Shr I64 (Bin Add I64 (Var 109) (Cst 16777216)) 25;
  (* h2 *) Bin Add I64 (Var 100) (Var 114);
  (* h1 *) Bin Sub I64 (Var 109) (Shl I64 (Var 114) 25);
  (* carry5 *) Shr I64 (Bin Add I64 (Var 112) (Cst 16777216)) 25;
  (* h6 *) Bin Add I64 (Var 104) (Var 117);
  (* h5 *) Bin Sub I64 (Var 112) (Shl I64 (Var 117) 25);
  (* carry2 *) Shr I64 (Bin Add I64 (Var 115) (Cst 33554432)) 26;
  (* h3 *) Bin Add I64 (Var 101) (Var 120);
  (* h2 *) Bin Sub I64 (Var 115) (Shl I64 (Var 120) 26);
  (* carry6 *) Shr I64 (Bin Add I64 (Var 118) (Cst 33554432)) 26;
  (* h7 *) Bin Add I64 (Var 105) (Var 123);
  (* h6 *) Bin Sub I64 (Var 118) (Shl I64 (Var 123) 26);
  (* carry3 *) Shr I64 (Bin Add I64 (Var 121) (Cst 16777216)) 25;
  (* h4 *) Bin Add I64 (Var 113) (Var 126);
  (* h3 *) Bin Sub I64 (Var 121) (Shl I64 (Var 126) 25);
  (* carry7 *) Shr I64 (Bin Add I64 (Var 124) (Cst 16777216)) 25;
  (* h8 *) Bin Add I64 (Var 106) (Var 129);
  (* h7 *) Bin Sub I64 (Var 124) (Shl I64 (Var 129) 25);
  (* carry4 *) Shr I64 (Bin Add I64 (Var 127) (Cst 33554432)) 26;
  (* h5 *) Bin Add I64 (Var 119) (Var 132);
  (* h4 *) Bin Sub I64 (Var 127) (Shl I64 (Var 132) 26);
  (* carry8 *) Shr I64 (Bin Add I64 (Var 130) (Cst 33554432)) 26;
  (* h9 *) Bin Add I64 (Var 107) (Var 135);
  (* h8 *) Bin Sub I64 (Var 130) (Shl I64 (Var 135) 26);
  (* carry9 *) Shr I64 (Bin Add I64 (Var 136) (Cst 16777216)) 25;
  (* h0 *) Bin Add I64 (Var 110) (Bin Mul I64 (Var 138) (Cst 19));
  (* h9 *) Bin Sub I64 (Var 136) (Shl I64 (Var 138) 25);
  (* carry0 *) Shr I64 (Bin Add I64 (Var 139) (Cst 33554432)) 26;
  (* h1 *) Bin Add I64 (Var 116) (Var 141);
  (* h0 *) Bin Sub I64 (Var 139) (Shl I64 (Var 141) 26);
  (* out0 *) Cast I32 (Var 143);
  (* out1 *) Cast I32 (Var 142);
  (* out2 *) Cast I32 (Var 122);
  (* out3 *) Cast I32 (Var 128);
  (* out4 *) Cast I32 (Var 134);
  (* out5 *) Cast I32 (Var 133);
  (* out6 *) Cast I32 (Var 125);
  (* out7 *) Cast I32 (Var 131);
  (* out8 *) Cast I32 (Var 137);
  (* out9 *) Cast I32 (Var 140)
  ]%list [144; 145; 146; 147; 148; 149; 150; 151; 152; 153]%nat%list.

