(** Generated by tools/c2coq.py from /repo/cref/cref.c; do not edit.

    A function that assigns through a pointer returns the new value; [None] is undefined behaviour.  A pointer cast between
    struct types reads and writes the common initial fields. *)
From Coq Require Import ZArith List.
From Verif Require Import Words Fe25Code CrefFeCode CrefFe.
Import ListNotations.
Open Scope Z_scope.

(** [fe25519_invert]: /repo/cref/cref.c:1476-1645 *)
Definition c_invert (z : fe25) : option fe25 :=
  let* t0 := c_square z in
  let* t1 := c_square t0 in
  let* t1 := c_iter 1 c_square t1 in
  let* t1 := c_mul z t1 in
  let* t0 := c_mul t0 t1 in
  let* t2 := c_square t0 in
  let* t1 := c_mul t1 t2 in
  let* t2 := c_square t1 in
  let* t2 := c_iter 4 c_square t2 in
  let* t1 := c_mul t2 t1 in
  let* t2 := c_square t1 in
  let* t2 := c_iter 9 c_square t2 in
  let* t2 := c_mul t2 t1 in
  let* t3 := c_square t2 in
  let* t3 := c_iter 19 c_square t3 in
  let* t2 := c_mul t3 t2 in
  let* t2 := c_square t2 in
  let* t2 := c_iter 9 c_square t2 in
  let* t1 := c_mul t2 t1 in
  let* t2 := c_square t1 in
  let* t2 := c_iter 49 c_square t2 in
  let* t2 := c_mul t2 t1 in
  let* t3 := c_square t2 in
  let* t3 := c_iter 99 c_square t3 in
  let* t2 := c_mul t3 t2 in
  let* t2 := c_square t2 in
  let* t2 := c_iter 49 c_square t2 in
  let* t1 := c_mul t2 t1 in
  let* t1 := c_square t1 in
  let* t1 := c_iter 4 c_square t1 in
  let* out := c_mul t1 t0 in
  Some out.

(** [fe25519_pow2523]: /repo/cref/cref.c:1648-1817 *)
Definition c_pow2523 (z : fe25) : option fe25 :=
  let* t0 := c_square z in
  let* t1 := c_square t0 in
  let* t1 := c_iter 1 c_square t1 in
  let* t1 := c_mul z t1 in
  let* t0 := c_mul t0 t1 in
  let* t0 := c_square t0 in
  let* t0 := c_mul t1 t0 in
  let* t1 := c_square t0 in
  let* t1 := c_iter 4 c_square t1 in
  let* t0 := c_mul t1 t0 in
  let* t1 := c_square t0 in
  let* t1 := c_iter 9 c_square t1 in
  let* t1 := c_mul t1 t0 in
  let* t2 := c_square t1 in
  let* t2 := c_iter 19 c_square t2 in
  let* t1 := c_mul t2 t1 in
  let* t1 := c_square t1 in
  let* t1 := c_iter 9 c_square t1 in
  let* t0 := c_mul t1 t0 in
  let* t1 := c_square t0 in
  let* t1 := c_iter 49 c_square t1 in
  let* t1 := c_mul t1 t0 in
  let* t2 := c_square t1 in
  let* t2 := c_iter 99 c_square t2 in
  let* t1 := c_mul t2 t1 in
  let* t1 := c_square t1 in
  let* t1 := c_iter 49 c_square t1 in
  let* t0 := c_mul t1 t0 in
  let* t0 := c_square t0 in
  let* t0 := c_iter 1 c_square t0 in
  let* out := c_mul t0 z in
  Some out.

(** [fe25519_invsqrt]: /repo/cref/cref.c:1983-2003 *)
Definition c_invsqrt (x : fe25) : option fe25 :=
  let* den2 := c_square x in
  let* den3 := c_mul den2 x in
  let* den4 := c_square den2 in
  let* den6 := c_mul den2 den4 in
  let* t := c_mul den6 x in
  let* t := c_pow2523 t in
  let* t := c_mul t den3 in
  let* chk := c_square t in
  let* chk := c_mul chk x in
  let* tst1 := c_isone chk in
  let* t := if tst1 =? 0 then c_mul t c_sqrtm1 else Some t in
  let r := t in
  Some r.

(** [fe25519_sqrt]: /repo/cref/cref.c:1976-1981 *)
Definition c_sqrt (x : fe25) : option fe25 :=
  let* t := c_invsqrt x in
  let* r := c_mul t x in
  Some r.

(** [fe25519_abs]: /repo/cref/cref.c:2281-2287 *)
Definition c_abs (y : fe25) : option fe25 :=
  let x := y in
  let* negY := c_neg y in
  let* tst1 := c_isnegative x in
  let x := c_cmov x negY (tst1) in
  Some x.

(** [fe25519_invsqrti]: /repo/cref/cref.c:2303-2338 *)
Definition c_invsqrti (x : fe25) : option (Z * fe25) :=
  let* den2 := c_square x in
  let* den3 := c_mul den2 x in
  let* den4 := c_square den2 in
  let* den6 := c_mul den2 den4 in
  let* t := c_mul den6 x in
  let* t := c_pow2523 t in
  let* t := c_mul t den3 in
  let* chk := c_square t in
  let* chk := c_mul chk x in
  let* tst1 := c_isone chk in
  let inCaseA := tst1 in
  let* tst2 := c_iseq chk c_sqrtm1 in
  let inCaseD := tst2 in
  let* chk := c_neg chk in
  let* tst3 := c_isone chk in
  let inCaseB := tst3 in
  let corr := c_one in
  let corr := c_cmov corr c_sqrtm1 (inCaseB + inCaseD) in
  let* t := c_mul t corr in
  let r := t in
  Some ((inCaseA + inCaseB), r).

(** [fe25519_sqrti]: /repo/cref/cref.c:2290-2300 *)
Definition c_sqrti (x : fe25) : option (Z * fe25) :=
  let* (b, t) := c_invsqrti x in
  let corr := c_one in
  let corr := c_cmov corr c_sqrtm1 (1 - b) in
  let* t := c_mul t corr in
  let* r := c_mul t x in
  Some ((b), r).

(** [ge25519_mixadd2]: /repo/cref/cref.c:2057-2078 *)
Definition g_mixadd2 (r : ge) (q : aff) : option ge :=
  let '(Ge r_x r_y r_z r_t) := r in
  let '(Aff q_x q_y) := q in
  let* qt := c_mul q_x q_y in
  let* a := c_sub r_y r_x in
  let* b := c_add r_y r_x in
  let* t1 := c_sub q_y q_x in
  let* t2 := c_add q_y q_x in
  let* a := c_mul a t1 in
  let* b := c_mul b t2 in
  let* e := c_sub b a in
  let* h := c_add b a in
  let* c := c_mul r_t qt in
  let* c := c_mul c c_ec2d in
  let* d := c_add r_z r_z in
  let* f := c_sub d c in
  let* g := c_add d c in
  let* r_x := c_mul e f in
  let* r_y := c_mul h g in
  let* r_z := c_mul g f in
  let* r_t := c_mul e h in
  Some (Ge r_x r_y r_z r_t).

(** [p1p1_to_p2]: /repo/cref/cref.c:2080-2085 *)
Definition g_p1p1_to_p2 (p : p1p1) : option p2 :=
  let '(P1p1 p_x p_z p_y p_t) := p in
  let* r_x := c_mul p_x p_t in
  let* r_y := c_mul p_y p_z in
  let* r_z := c_mul p_z p_t in
  Some (P2 r_x r_y r_z).

(** [p1p1_to_p3]: /repo/cref/cref.c:2087-2091 *)
Definition g_p1p1_to_p3 (p : p1p1) : option ge :=
  let '(P1p1 p_x p_z p_y p_t) := p in
  let* (P2 r_x r_y r_z) := g_p1p1_to_p2 (P1p1 p_x p_z p_y p_t) in
  let* r_t := c_mul p_x p_y in
  Some (Ge r_x r_y r_z r_t).

(** [add_p1p1]: /repo/cref/cref.c:2093-2111 *)
Definition g_add_p1p1 (p : ge) (q : ge) : option p1p1 :=
  let '(Ge p_x p_y p_z p_t) := p in
  let '(Ge q_x q_y q_z q_t) := q in
  let* a := c_sub p_y p_x in
  let* t := c_sub q_y q_x in
  let* a := c_mul a t in
  let* b := c_add p_x p_y in
  let* t := c_add q_x q_y in
  let* b := c_mul b t in
  let* c := c_mul p_t q_t in
  let* c := c_mul c c_ec2d in
  let* d := c_mul p_z q_z in
  let* d := c_add d d in
  let* r_x := c_sub b a in
  let* r_t := c_sub d c in
  let* r_z := c_add d c in
  let* r_y := c_add b a in
  Some (P1p1 r_x r_z r_y r_t).

(** [dbl_p1p1]: /repo/cref/cref.c:2114-2129 *)
Definition g_dbl_p1p1 (p : p2) : option p1p1 :=
  let '(P2 p_x p_y p_z) := p in
  let* a := c_square p_x in
  let* b := c_square p_y in
  let* c := c_square_double p_z in
  let* d := c_neg a in
  let* r_x := c_add p_x p_y in
  let* r_x := c_square r_x in
  let* r_x := c_sub r_x a in
  let* r_x := c_sub r_x b in
  let* r_z := c_add d b in
  let* r_t := c_sub r_z c in
  let* r_y := c_sub d b in
  Some (P1p1 r_x r_z r_y r_t).

(** [group_ge_unpack]: /repo/cref/cref.c:2206-2278 *)
Definition g_unpack (x : list Z) : option (Z * ge) :=
  let* s := c_unpack x in
  let* tst1 := c_isnegative s in
  let ret := tst1 in
  let* s2 := c_square s in
  let* yden := c_add c_one s2 in
  let* ynum := c_sub c_one s2 in
  let* yden2 := c_square yden in
  let* xden2 := c_square ynum in
  let* xden2 := c_mul xden2 c_ecd in
  let* xden2 := c_add xden2 yden2 in
  let* xden2 := c_neg xden2 in
  let* t := c_mul xden2 yden2 in
  let* isr := c_invsqrt t in
  let* chk := c_square isr in
  let* chk := c_mul chk t in
  let* tst2 := c_isone chk in
  let ret := Z.lor ret ((Z.b2z (tst2 =? 0))) in
  let* xdeninv := c_mul isr yden in
  let* ydeninv := c_mul xdeninv isr in
  let* ydeninv := c_mul ydeninv xden2 in
  let* r_x := c_mul s xdeninv in
  let* r_x := c_double r_x in
  let* tst3 := c_isnegative r_x in
  let b := u8 (tst3) in
  let* t := c_neg r_x in
  let r_x := c_cmov r_x t (b) in
  let* r_y := c_mul ynum ydeninv in
  let r_z := c_one in
  let* r_t := c_mul r_x r_y in
  let* tst4 := c_isnegative r_t in
  let ret := Z.lor ret (tst4) in
  let* tst5 := c_iszero r_y in
  let ret := Z.lor ret (tst5) in
  let r_x := c_cmov r_x c_zero (ret) in
  let r_y := c_cmov r_y c_zero (ret) in
  let r_z := c_cmov r_z c_zero (ret) in
  let r_t := c_cmov r_t c_zero (ret) in
  Some ((- ret), (Ge r_x r_y r_z r_t)).

(** [group_ge_pack]: /repo/cref/cref.c:2341-2399 *)
Definition g_pack (x : ge) : option (list Z) :=
  let '(Ge x_x x_y x_z x_t) := x in
  let* d := c_add x_z x_y in
  let* u1 := c_sub x_z x_y in
  let* u1 := c_mul u1 d in
  let* u2 := c_mul x_x x_y in
  let* isr := c_square u2 in
  let* isr := c_mul isr u1 in
  let* isr := c_invsqrt isr in
  let* i1 := c_mul isr u1 in
  let* i2 := c_mul isr u2 in
  let* zinv := c_mul i1 i2 in
  let* zinv := c_mul zinv x_t in
  let* d := c_mul zinv x_t in
  let* tst1 := c_isnegative d in
  let b := u8 ((Z.b2z (tst1 =? 0))) in
  let* nx := c_mul x_y c_sqrtm1 in
  let* ny := c_mul x_x c_sqrtm1 in
  let* deninv := c_mul c_magic i1 in
  let nx := c_cmov nx x_x (b) in
  let ny := c_cmov ny x_y (b) in
  let deninv := c_cmov deninv i2 (b) in
  let* d := c_mul nx zinv in
  let* tst2 := c_isnegative d in
  let b := u8 (tst2) in
  let* d := c_neg ny in
  let ny := c_cmov ny d (b) in
  let* s := c_sub x_z ny in
  let* s := c_mul s deninv in
  let* tst3 := c_isnegative s in
  let b := u8 (tst3) in
  let* d := c_neg s in
  let s := c_cmov s d (b) in
  let* r := c_pack s in
  Some r.

(** [group_ge_add]: /repo/cref/cref.c:2401-2406 *)
Definition g_add (x : ge) (y : ge) : option ge :=
  let '(Ge x_x x_y x_z x_t) := x in
  let '(Ge y_x y_y y_z y_t) := y in
  let* (P1p1 t_x t_z t_y t_t) := g_add_p1p1 (Ge x_x x_y x_z x_t) (Ge y_x y_y y_z y_t) in
  let* (Ge r_x r_y r_z r_t) := g_p1p1_to_p3 (P1p1 t_x t_z t_y t_t) in
  Some (Ge r_x r_y r_z r_t).

(** [group_ge_double]: /repo/cref/cref.c:2408-2413 *)
Definition g_double (x : ge) : option ge :=
  let '(Ge x_x x_y x_z x_t) := x in
  let* (P1p1 t_x t_z t_y t_t) := g_dbl_p1p1 (P2 x_x x_y x_z) in
  let* (Ge r_x r_y r_z r_t) := g_p1p1_to_p3 (P1p1 t_x t_z t_y t_t) in
  Some (Ge r_x r_y r_z r_t).

(** [group_ge_negate]: /repo/cref/cref.c:2415-2421 *)
Definition g_negate (x : ge) : option ge :=
  let '(Ge x_x x_y x_z x_t) := x in
  let* r_x := c_neg x_x in
  let r_y := x_y in
  let r_z := x_z in
  let* r_t := c_neg x_t in
  Some (Ge r_x r_y r_z r_t).

(** [group_ge_equals]: /repo/cref/cref.c:2482-2498 *)
Definition g_equals (x : ge) (y : ge) : option Z :=
  let '(Ge x_x x_y x_z x_t) := x in
  let '(Ge y_x y_y y_z y_t) := y in
  let* x1y2 := c_mul x_x y_y in
  let* x2y1 := c_mul y_x x_y in
  let* tst1 := c_iseq x1y2 x2y1 in
  let r := tst1 in
  let* x1x2 := c_mul x_x y_x in
  let* y1y2 := c_mul x_y y_y in
  let* tst2 := c_iseq x1x2 y1y2 in
  let r := Z.lor r (tst2) in
  Some (r).

(** [group_ge_isneutral]: /repo/cref/cref.c:2500-2513 *)
Definition g_isneutral (x : ge) : option Z :=
  let '(Ge x_x x_y x_z x_t) := x in
  let* (Ge t_x t_y t_z t_t) := g_double (Ge x_x x_y x_z x_t) in
  let* (Ge t_x t_y t_z t_t) := g_double (Ge t_x t_y t_z t_t) in
  let* (Ge t_x t_y t_z t_t) := g_double (Ge t_x t_y t_z t_t) in
  let* tst1 := c_iszero t_x in
  let r := 1-tst1 in
  let* tst2 := c_iseq t_y t_z in
  let r := Z.lor r (1-tst2) in
  Some (1-r).

(** [group_ge_from_jacobi_quartic]: /repo/cref/cref.c:2571-2592 *)
Definition g_from_jacobi_quartic (s : fe25) (t : fe25) : option ge :=
  let* s2 := c_square s in
  let* res_x := c_double s in
  let* res_x := c_mul res_x c_magic in
  let res_z := t in
  let* res_y := c_sub c_one s2 in
  let* res_t := c_add c_one s2 in
  let* (Ge x_x x_y x_z x_t) := g_p1p1_to_p3 (P1p1 res_x res_z res_y res_t) in
  Some (Ge x_x x_y x_z x_t).

(** [group_ge_elligator]: /repo/cref/cref.c:2596-2649 *)
Definition g_elligator (r0 : fe25) : option ge :=
  let* r0i := c_mul r0 c_sqrtm1 in
  let* r := c_mul r0 r0i in
  let* rPlusD := c_add c_ecd r in
  let* D := c_mul c_ecd r in
  let* D := c_add D c_one in
  let* D := c_mul D rPlusD in
  let* D := c_neg D in
  let* ecd2 := c_square c_ecd in
  let* N := c_sub ecd2 c_one in
  let* N := c_neg N in
  let* rPlusOne := c_add r c_one in
  let* N := c_mul N rPlusOne in
  let* ND := c_mul N D in
  let* (b, sqrt) := c_invsqrti ND in
  let* sqrt := c_abs sqrt in
  let twiddle := c_one in
  let twiddle := c_cmov twiddle r0i (1 - b) in
  let sgn := c_one in
  let sgn := c_cmov sgn c_m1 (1 - b) in
  let* sqrt := c_mul sqrt twiddle in
  let* s := c_mul sqrt N in
  let* t := c_neg sgn in
  let* t := c_mul sqrt t in
  let* t := c_mul s t in
  let* dMinusOneSquared := c_sub c_ecd c_one in
  let* dMinusOneSquared := c_square dMinusOneSquared in
  let* t := c_mul dMinusOneSquared t in
  let* rSubOne := c_sub r c_one in
  let* t := c_mul rSubOne t in
  let* t := c_sub t c_one in
  let* sNeg := c_neg s in
  let* tst1 := c_isnegative s in
  let s := c_cmov s sNeg (Z.b2z (tst1 =? b)) in
  let* (Ge x_x x_y x_z x_t) := g_from_jacobi_quartic s t in
  Some (Ge x_x x_y x_z x_t).

