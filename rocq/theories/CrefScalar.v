(** The scalars of /repo/cref/cref.c:1-600.  A [group_scalar] is [uint32_t v[32]] (/repo/cref/cref.h:84-88), here a list of
    32 numbers.  All arithmetic is on unsigned types unless said otherwise; [u32] wraps it.  Arrays that C leaves
    uninitialised start as zeros (every entry is written before it is read). *)
From Coq Require Import ZArith List.
From Verif Require Import Words FieldModel ScalarCode.
Import ListNotations.
Open Scope Z_scope.

(** [m], [mu]: /repo/cref/cref.c:9-13 *)
Definition cm : list Z := [0xED; 0xD3; 0xF5; 0x5C; 0x1A; 0x63; 0x12; 0x58; 0xD6; 0x9C; 0xF7; 0xA2; 0xDE; 0xF9; 0xDE; 0x14;
  0x00; 0x00; 0x00; 0x00; 0x00; 0x00; 0x00; 0x00; 0x00; 0x00; 0x00; 0x00; 0x00; 0x00; 0x00; 0x10].
Definition cmu : list Z := [0x1B; 0x13; 0x2C; 0x0A; 0xA3; 0xE5; 0x9C; 0xED; 0xA7; 0x29; 0x63; 0x08; 0x5D; 0x21; 0x06; 0x21;
  0xEB; 0xFF; 0xFF; 0xFF; 0xFF; 0xFF; 0xFF; 0xFF; 0xFF; 0xFF; 0xFF; 0xFF; 0xFF; 0xFF; 0xFF; 0xFF; 0x0F].

(** [lt]: /repo/cref/cref.c:15-21 *)
Definition c_lt (a b : Z) : Z := Z.shiftr (u32 (a - b)) 31.

(** the body of the loop that subtracts [s] from [r] with borrow, storing with conversion [st]; [pb] is also the variable
    [b] after the iteration: /repo/cref/cref.c:33-39 (with [m], storing to unsigned char) and 77-83 (with [r2]) *)
Definition sub_step (st : Z -> Z) (r s : list Z) (i : nat) (x : list Z * Z) : list Z * Z :=
  let '(t, pb) := x in
  let pb := u32 (pb + at_ s i) in
  let b := c_lt (at_ r i) pb in
  (upd t i (st (u32 (at_ r i - pb + u32 (Z.shiftl b 8)))), b).

(** [reduce_add_sub]: /repo/cref/cref.c:24-42 *)
Definition reduce_add_sub (r : list Z) : list Z :=
  let '(t, b) := for_up 32 (sub_step u8 r cm) (repeat 0 32, 0) in
  let mask := u32 (b - 1) in
  for_up 32 (fun i r => upd r i (Z.lxor (at_ r i) (Z.land mask (Z.lxor (at_ r i) (at_ t i))))) r.

(** the loop body [r[i+1] += r[i] >> 8; r[i] &= 0xff] with an [int carry] (/repo/cref/cref.c:145-150, 187-192) or an
    unsigned one (70-75): the converted value is below 2^24 in either case *)
Definition carry_step (i : nat) (r : list Z) : list Z :=
  let carry := Z.shiftr (at_ r i) 8 in
  let r := upd r (i + 1) (u32 (at_ r (i + 1) + carry)) in
  upd r i (Z.land (at_ r i) 255).

(** [for (i...) for (j...) if (cond) t[i+j] += a[i] * b[j]]: /repo/cref/cref.c:60-62, 66-69, 183-185 *)
Definition acc_loop (n1 n2 : nat) (cond : nat -> nat -> bool) (a b : nat -> Z) (t : list Z) : list Z :=
  for_up n1 (fun i t => for_up n2 (fun j t =>
    if cond i j then upd t (i + j) (u32 (at_ t (i + j) + u32 (a i * b j))) else t) t) t.

(** [barrett_reduce], the estimate [q3] of the quotient, which starts at index 33 of this array:
    /repo/cref/cref.c:57-65 *)
Definition b_q (x : list Z) : list Z :=
  dlet q2 := acc_loop 33 33 (fun i j => Nat.leb 31 (i + j)) (at_ cmu) (fun j => at_ x (j + 31)) (repeat 0 66) in
  dlet q2 := upd q2 32 (u32 (at_ q2 32 + Z.shiftr (at_ q2 31) 8)) in
  upd q2 33 (u32 (at_ q2 33 + Z.shiftr (at_ q2 32) 8)).
(** the low part of the product of [q3] and [m]: /repo/cref/cref.c:58, 68-77 *)
Definition b_r2 (q2 : list Z) : list Z :=
  for_up 32 carry_step (acc_loop 32 33 (fun i j => Nat.ltb (i + j) 33) (at_ cm) (fun j => at_ q2 (33 + j)) (repeat 0 33)).
(** [barrett_reduce]: /repo/cref/cref.c:45-94 *)
Definition barrett_reduce (x : list Z) : list Z :=
  dlet r1 := firstn 33 x in
  dlet r2 := b_r2 (b_q x) in
  dlet r := fst (for_up 32 (sub_step (fun v => v) r1 r2) (repeat 0 32, 0)) in
  reduce_add_sub (reduce_add_sub r).

(** [group_scalar_unpack]: /repo/cref/cref.c:96-104 *)
Definition cs_unpack (x : list Z) : list Z := reduce_add_sub (upd x 31 (Z.land (at_ x 31) 0x1f)).
(** [group_scalar_pack]: /repo/cref/cref.c:106-111 *)
Definition cs_pack (x : list Z) : list Z := map u8 x.
(** [group_scalar_setzero], [group_scalar_setone]: /repo/cref/cref.c:113-126 *)
Definition cs_zero : list Z := repeat 0 32.
Definition cs_one : list Z := 1 :: repeat 0 31.

(** [group_scalar_add]: /repo/cref/cref.c:141-152 *)
Definition cs_add (x y : list Z) : list Z :=
  dlet r := map (fun i => u32 (at_ x i + at_ y i)) (seq 0 32) in
  dlet r := for_up 31 carry_step r in
  reduce_add_sub r.

(** [group_scalar_sub]: /repo/cref/cref.c:154-168 *)
Definition cs_sub_step (y : list Z) (i : nat) (x : list Z * Z) : list Z * Z :=
  let '(d, b) := x in
  let t := u32 (at_ cm i - at_ y i - b) in
  (upd d i (Z.land t 255), Z.land (Z.shiftr t 8) 1).
Definition cs_sub (x y : list Z) : list Z :=
  dlet d := fst (for_up 32 (cs_sub_step y) (repeat 0 32, 0)) in cs_add x d.

(** [group_scalar_negate]: /repo/cref/cref.c:170-175 *)
Definition cs_negate (x : list Z) : list Z := cs_sub cs_zero x.

(** [group_scalar_mul]: /repo/cref/cref.c:177-196; [group_scalar_square]: 198-201 *)
Definition cs_mul (x y : list Z) : list Z :=
  dlet t := acc_loop 32 32 (fun _ _ => true) (at_ x) (at_ y) (repeat 0 64) in
  dlet t := for_up 63 carry_step t in
  barrett_reduce t.
Definition cs_square (x : list Z) : list Z := cs_mul x x.

(** [1 - ((-r) >> 63)] for an unsigned long long *)
Definition is0_ull (r : Z) : Z := i32 (u64 (1 - Z.shiftr (u64 (- r)) 63)).
(** [group_scalar_isone], [group_scalar_iszero], [group_scalar_equals]: /repo/cref/cref.c:409-436 *)
Definition cs_isone (x : list Z) : Z := is0_ull (fold_left (fun r i => Z.lor r (at_ x i)) (seq 1 31) (u32 (1 - at_ x 0))).
Definition cs_iszero (x : list Z) : Z := is0_ull (fold_left (fun r i => Z.lor r (at_ x i)) (seq 0 32) 0).
Definition cs_equals (x y : list Z) : Z := is0_ull (fold_left (fun r i => Z.lor r (Z.lxor (at_ x i) (at_ y i))) (seq 0 32) 0).

(** [scalar_tstbit]: /repo/cref/cref.c:439-442; [pos] below 256 *)
Definition cs_tstbit (x : list Z) (pos : Z) : Z :=
  Z.shiftr (Z.land (at_ x (Z.to_nat (Z.shiftr pos 3))) (Z.shiftl 1 (Z.land pos 7))) (Z.land pos 7).

(** [scalar_bitlen]: /repo/cref/cref.c:444-461; the masks 128, 64, ..., 1 of the inner loop.  [||] gives 0 or 1. *)
Definition bitlen_step (v : Z) (st : Z * Z) (mask : Z) : Z * Z :=
  let '(ctr, found) := st in
  let found := if negb (found =? 0) then 1 else if negb (Z.land mask v =? 0) then 1 else 0 in
  let t := ctr - 1 in
  (Z.lxor (found * ctr) ((1 - found) * t), found).
Definition cs_bitlen (x : list Z) : Z :=
  fst (fold_left (fun st i => fold_left (bitlen_step (at_ x i)) [128; 64; 32; 16; 8; 4; 2; 1] st) (rev (seq 0 32)) (256, 0)).

(** [scalar_window3]: /repo/cref/cref.c:463-498.  [carry] has type char, which may be unsigned; it holds 0 or 1.
    [r[k] ^= e] converts [r[k]] to unsigned, and the result back to signed char. *)
Definition win3_raw (s : list Z) : list Z :=
  let lo b k := i8 (Z.land (Z.shiftr b k) 7) in
  let x a b k m := i8 (Z.lxor (u32 (lo a k)) (Z.land (u32 (Z.shiftl b m)) 7)) in
  let b k := at_ s k in
  flat_map (fun i =>
    [ i8 (Z.land (b (3*i+0)%nat) 7); lo (b (3*i+0)%nat) 3; x (b (3*i+0)%nat) (b (3*i+1)%nat) 6 2;
      lo (b (3*i+1)%nat) 1; lo (b (3*i+1)%nat) 4; x (b (3*i+1)%nat) (b (3*i+2)%nat) 7 1;
      lo (b (3*i+2)%nat) 2; lo (b (3*i+2)%nat) 5 ]) (seq 0 10)
  ++ [ i8 (Z.land (b 30%nat) 7); lo (b 30%nat) 3; x (b 30%nat) (b 31%nat) 6 2; lo (b 31%nat) 1; lo (b 31%nat) 4 ].
(** the loop body, /repo/cref/cref.c:490-496 and 528-534, with [w] = 3 or 5 bits *)
Definition win_step (w : Z) (i : nat) (st : list Z * Z) : list Z * Z :=
  let '(r, carry) := st in
  let r := upd r i (i8 (at_ r i + carry)) in
  let r := upd r (i + 1) (i8 (at_ r (i + 1) + Z.shiftr (at_ r i) w)) in
  let r := upd r i (i8 (Z.land (at_ r i) (2 ^ w - 1))) in
  let carry := i8 (Z.shiftr (at_ r i) (w - 1)) in
  let r := upd r i (i8 (at_ r i - Z.shiftl carry w)) in
  (r, carry).
Definition cs_window3 (s : list Z) : list Z :=
  let '(r, carry) := for_up 84 (win_step 3) (win3_raw s, 0) in
  upd r 84 (i8 (at_ r 84 + carry)).

(** [scalar_window5]: /repo/cref/cref.c:500-536 *)
Definition win5_raw (s : list Z) : list Z :=
  let lo b k := i8 (Z.land (Z.shiftr b k) 31) in
  let x a b k m := i8 (Z.lxor (u32 (lo a k)) (Z.land (u32 (Z.shiftl b m)) 31)) in
  let b k := at_ s k in
  flat_map (fun i =>
    [ i8 (Z.land (b (5*i+0)%nat) 31); x (b (5*i+0)%nat) (b (5*i+1)%nat) 5 3; lo (b (5*i+1)%nat) 2;
      x (b (5*i+1)%nat) (b (5*i+2)%nat) 7 1; x (b (5*i+2)%nat) (b (5*i+3)%nat) 4 4; lo (b (5*i+3)%nat) 1;
      x (b (5*i+3)%nat) (b (5*i+4)%nat) 6 2; lo (b (5*i+4)%nat) 3 ]) (seq 0 6)
  ++ [ i8 (Z.land (b 30%nat) 31); x (b 30%nat) (b 31%nat) 5 3; lo (b 31%nat) 2 ].
Definition cs_window5 (s : list Z) : list Z :=
  let '(r, carry) := for_up 50 (win_step 5) (win5_raw s, 0) in
  upd r 50 (i8 (at_ r 50 + carry)).

(** [scalar_from64bytes]: /repo/cref/cref.c:590-596 *)
Definition cs_from64bytes (h : list Z) : list Z := barrett_reduce h.
