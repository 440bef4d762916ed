(** Generated by tools/c2coq.py from /repo/cref/cref.c; do not edit.

    The functions of CrefCode.v on a memory (CrefPtr.v): a parameter is the address an argument points to, the locals of a
    function are at [n], [n + 1], ..., and each statement is one access after the other.  The field operations read their
    arguments before they write (CrefLimbs.v). *)
From Coq Require Import ZArith List.
From Verif Require Import Words ScalarCode CLang Fe25Code CrefFeCode CrefFe CrefCode CrefPtr.
Open Scope Z_scope.

(** [fe25519_double]: /repo/cref/cref.c:1016-1018 *)
Definition m_c_double (r x n : nat) (m : cmem) : option cmem :=
  let* v := c_add (m x) (m x) in
  dlet m := st m r v in
  Some m.

(** [fe25519_triple]: /repo/cref/cref.c:1020-1023 *)
Definition m_c_triple (r x n : nat) (m : cmem) : option cmem :=
  let* v := c_add (m x) (m x) in
  dlet m := st m r v in
  let* v := c_add (m r) (m x) in
  dlet m := st m r v in
  Some m.

(** [fe25519_invert]: /repo/cref/cref.c:1476-1645 *)
Definition m_c_invert (out z n : nat) (m : cmem) : option cmem :=
  let t0 := (n + 0)%nat in
  let t1 := (n + 1)%nat in
  let t2 := (n + 2)%nat in
  let t3 := (n + 3)%nat in
  let* v := c_square (m z) in
  dlet m := st m t0 v in
  let* v := c_square (m t0) in
  dlet m := st m t1 v in
  let* m := iter_o 1 (fun m => let* v := c_square (m t1) in Some (st m t1 v)) m in
  let* v := c_mul (m z) (m t1) in
  dlet m := st m t1 v in
  let* v := c_mul (m t0) (m t1) in
  dlet m := st m t0 v in
  let* v := c_square (m t0) in
  dlet m := st m t2 v in
  let* v := c_mul (m t1) (m t2) in
  dlet m := st m t1 v in
  let* v := c_square (m t1) in
  dlet m := st m t2 v in
  let* m := iter_o 4 (fun m => let* v := c_square (m t2) in Some (st m t2 v)) m in
  let* v := c_mul (m t2) (m t1) in
  dlet m := st m t1 v in
  let* v := c_square (m t1) in
  dlet m := st m t2 v in
  let* m := iter_o 9 (fun m => let* v := c_square (m t2) in Some (st m t2 v)) m in
  let* v := c_mul (m t2) (m t1) in
  dlet m := st m t2 v in
  let* v := c_square (m t2) in
  dlet m := st m t3 v in
  let* m := iter_o 19 (fun m => let* v := c_square (m t3) in Some (st m t3 v)) m in
  let* v := c_mul (m t3) (m t2) in
  dlet m := st m t2 v in
  let* v := c_square (m t2) in
  dlet m := st m t2 v in
  let* m := iter_o 9 (fun m => let* v := c_square (m t2) in Some (st m t2 v)) m in
  let* v := c_mul (m t2) (m t1) in
  dlet m := st m t1 v in
  let* v := c_square (m t1) in
  dlet m := st m t2 v in
  let* m := iter_o 49 (fun m => let* v := c_square (m t2) in Some (st m t2 v)) m in
  let* v := c_mul (m t2) (m t1) in
  dlet m := st m t2 v in
  let* v := c_square (m t2) in
  dlet m := st m t3 v in
  let* m := iter_o 99 (fun m => let* v := c_square (m t3) in Some (st m t3 v)) m in
  let* v := c_mul (m t3) (m t2) in
  dlet m := st m t2 v in
  let* v := c_square (m t2) in
  dlet m := st m t2 v in
  let* m := iter_o 49 (fun m => let* v := c_square (m t2) in Some (st m t2 v)) m in
  let* v := c_mul (m t2) (m t1) in
  dlet m := st m t1 v in
  let* v := c_square (m t1) in
  dlet m := st m t1 v in
  let* m := iter_o 4 (fun m => let* v := c_square (m t1) in Some (st m t1 v)) m in
  let* v := c_mul (m t1) (m t0) in
  dlet m := st m out v in
  Some m.

(** [fe25519_pow2523]: /repo/cref/cref.c:1648-1817 *)
Definition m_c_pow2523 (out z n : nat) (m : cmem) : option cmem :=
  let t0 := (n + 0)%nat in
  let t1 := (n + 1)%nat in
  let t2 := (n + 2)%nat in
  let* v := c_square (m z) in
  dlet m := st m t0 v in
  let* v := c_square (m t0) in
  dlet m := st m t1 v in
  let* m := iter_o 1 (fun m => let* v := c_square (m t1) in Some (st m t1 v)) m in
  let* v := c_mul (m z) (m t1) in
  dlet m := st m t1 v in
  let* v := c_mul (m t0) (m t1) in
  dlet m := st m t0 v in
  let* v := c_square (m t0) in
  dlet m := st m t0 v in
  let* v := c_mul (m t1) (m t0) in
  dlet m := st m t0 v in
  let* v := c_square (m t0) in
  dlet m := st m t1 v in
  let* m := iter_o 4 (fun m => let* v := c_square (m t1) in Some (st m t1 v)) m in
  let* v := c_mul (m t1) (m t0) in
  dlet m := st m t0 v in
  let* v := c_square (m t0) in
  dlet m := st m t1 v in
  let* m := iter_o 9 (fun m => let* v := c_square (m t1) in Some (st m t1 v)) m in
  let* v := c_mul (m t1) (m t0) in
  dlet m := st m t1 v in
  let* v := c_square (m t1) in
  dlet m := st m t2 v in
  let* m := iter_o 19 (fun m => let* v := c_square (m t2) in Some (st m t2 v)) m in
  let* v := c_mul (m t2) (m t1) in
  dlet m := st m t1 v in
  let* v := c_square (m t1) in
  dlet m := st m t1 v in
  let* m := iter_o 9 (fun m => let* v := c_square (m t1) in Some (st m t1 v)) m in
  let* v := c_mul (m t1) (m t0) in
  dlet m := st m t0 v in
  let* v := c_square (m t0) in
  dlet m := st m t1 v in
  let* m := iter_o 49 (fun m => let* v := c_square (m t1) in Some (st m t1 v)) m in
  let* v := c_mul (m t1) (m t0) in
  dlet m := st m t1 v in
  let* v := c_square (m t1) in
  dlet m := st m t2 v in
  let* m := iter_o 99 (fun m => let* v := c_square (m t2) in Some (st m t2 v)) m in
  let* v := c_mul (m t2) (m t1) in
  dlet m := st m t1 v in
  let* v := c_square (m t1) in
  dlet m := st m t1 v in
  let* m := iter_o 49 (fun m => let* v := c_square (m t1) in Some (st m t1 v)) m in
  let* v := c_mul (m t1) (m t0) in
  dlet m := st m t0 v in
  let* v := c_square (m t0) in
  dlet m := st m t0 v in
  let* m := iter_o 1 (fun m => let* v := c_square (m t0) in Some (st m t0 v)) m in
  let* v := c_mul (m t0) (m z) in
  dlet m := st m out v in
  Some m.

(** [fe25519_invsqrt]: /repo/cref/cref.c:1983-2003 *)
Definition m_c_invsqrt (r x n : nat) (m : cmem) : option cmem :=
  let den2 := (n + 0)%nat in
  let den3 := (n + 1)%nat in
  let den4 := (n + 2)%nat in
  let den6 := (n + 3)%nat in
  let chk := (n + 4)%nat in
  let t := (n + 5)%nat in
  let* v := c_square (m x) in
  dlet m := st m den2 v in
  let* v := c_mul (m den2) (m x) in
  dlet m := st m den3 v in
  let* v := c_square (m den2) in
  dlet m := st m den4 v in
  let* v := c_mul (m den2) (m den4) in
  dlet m := st m den6 v in
  let* v := c_mul (m den6) (m x) in
  dlet m := st m t v in
  let* m := m_c_pow2523 t t (n + 6) m in
  let* v := c_mul (m t) (m den3) in
  dlet m := st m t v in
  let* v := c_square (m t) in
  dlet m := st m chk v in
  let* v := c_mul (m chk) (m x) in
  dlet m := st m chk v in
  let* tst1 := c_isone (m chk) in
  let* m := if tst1 =? 0 then (let* v := c_mul (m t) c_sqrtm1 in Some (st m t v)) else Some m in
  dlet m := st m r (m t) in
  Some m.

(** [fe25519_sqrt]: /repo/cref/cref.c:1976-1981 *)
Definition m_c_sqrt (r x n : nat) (m : cmem) : option cmem :=
  let t := (n + 0)%nat in
  let* m := m_c_invsqrt t x (n + 1) m in
  let* v := c_mul (m t) (m x) in
  dlet m := st m r v in
  Some m.

(** [fe25519_abs]: /repo/cref/cref.c:2281-2287 *)
Definition m_c_abs (x y n : nat) (m : cmem) : option cmem :=
  let negY := (n + 0)%nat in
  dlet m := st m x (m y) in
  let* v := c_neg (m y) in
  dlet m := st m negY v in
  let* tst1 := c_isnegative (m x) in
  dlet m := st m x (c_cmov (m x) (m negY) (tst1)) in
  Some m.

(** [fe25519_invsqrti]: /repo/cref/cref.c:2303-2338 *)
Definition m_c_invsqrti (r x n : nat) (m : cmem) : option (Z * cmem) :=
  let den2 := (n + 0)%nat in
  let den3 := (n + 1)%nat in
  let den4 := (n + 2)%nat in
  let den6 := (n + 3)%nat in
  let chk := (n + 4)%nat in
  let t := (n + 5)%nat in
  let corr := (n + 6)%nat in
  let* v := c_square (m x) in
  dlet m := st m den2 v in
  let* v := c_mul (m den2) (m x) in
  dlet m := st m den3 v in
  let* v := c_square (m den2) in
  dlet m := st m den4 v in
  let* v := c_mul (m den2) (m den4) in
  dlet m := st m den6 v in
  let* v := c_mul (m den6) (m x) in
  dlet m := st m t v in
  let* m := m_c_pow2523 t t (n + 7) m in
  let* v := c_mul (m t) (m den3) in
  dlet m := st m t v in
  let* v := c_square (m t) in
  dlet m := st m chk v in
  let* v := c_mul (m chk) (m x) in
  dlet m := st m chk v in
  let* tst1 := c_isone (m chk) in
  let inCaseA := tst1 in
  let* tst2 := c_iseq (m chk) c_sqrtm1 in
  let inCaseD := tst2 in
  let* v := c_neg (m chk) in
  dlet m := st m chk v in
  let* tst3 := c_isone (m chk) in
  let inCaseB := tst3 in
  dlet m := st m corr c_one in
  dlet m := st m corr (c_cmov (m corr) c_sqrtm1 (inCaseB + inCaseD)) in
  let* v := c_mul (m t) (m corr) in
  dlet m := st m t v in
  dlet m := st m r (m t) in
  Some ((inCaseA + inCaseB), m).

(** [fe25519_sqrti]: /repo/cref/cref.c:2290-2300 *)
Definition m_c_sqrti (r x n : nat) (m : cmem) : option (Z * cmem) :=
  let t := (n + 0)%nat in
  let corr := (n + 1)%nat in
  let* (b, m) := m_c_invsqrti t x (n + 2) m in
  dlet m := st m corr c_one in
  dlet m := st m corr (c_cmov (m corr) c_sqrtm1 (1 - b)) in
  let* v := c_mul (m t) (m corr) in
  dlet m := st m t v in
  let* v := c_mul (m t) (m x) in
  dlet m := st m r v in
  Some ((b), m).

(** [ge25519_mixadd2]: /repo/cref/cref.c:2057-2078 *)
Definition m_g_mixadd2 (r q n : nat) (m : cmem) : option cmem :=
  let a := (n + 0)%nat in
  let b := (n + 1)%nat in
  let t1 := (n + 2)%nat in
  let t2 := (n + 3)%nat in
  let c := (n + 4)%nat in
  let d := (n + 5)%nat in
  let e := (n + 6)%nat in
  let f := (n + 7)%nat in
  let g := (n + 8)%nat in
  let h := (n + 9)%nat in
  let qt := (n + 10)%nat in
  let* v := c_mul (m (q + 0)%nat) (m (q + 1)%nat) in
  dlet m := st m qt v in
  let* v := c_sub (m (r + 1)%nat) (m (r + 0)%nat) in
  dlet m := st m a v in
  let* v := c_add (m (r + 1)%nat) (m (r + 0)%nat) in
  dlet m := st m b v in
  let* v := c_sub (m (q + 1)%nat) (m (q + 0)%nat) in
  dlet m := st m t1 v in
  let* v := c_add (m (q + 1)%nat) (m (q + 0)%nat) in
  dlet m := st m t2 v in
  let* v := c_mul (m a) (m t1) in
  dlet m := st m a v in
  let* v := c_mul (m b) (m t2) in
  dlet m := st m b v in
  let* v := c_sub (m b) (m a) in
  dlet m := st m e v in
  let* v := c_add (m b) (m a) in
  dlet m := st m h v in
  let* v := c_mul (m (r + 3)%nat) (m qt) in
  dlet m := st m c v in
  let* v := c_mul (m c) c_ec2d in
  dlet m := st m c v in
  let* v := c_add (m (r + 2)%nat) (m (r + 2)%nat) in
  dlet m := st m d v in
  let* v := c_sub (m d) (m c) in
  dlet m := st m f v in
  let* v := c_add (m d) (m c) in
  dlet m := st m g v in
  let* v := c_mul (m e) (m f) in
  dlet m := st m (r + 0)%nat v in
  let* v := c_mul (m h) (m g) in
  dlet m := st m (r + 1)%nat v in
  let* v := c_mul (m g) (m f) in
  dlet m := st m (r + 2)%nat v in
  let* v := c_mul (m e) (m h) in
  dlet m := st m (r + 3)%nat v in
  Some m.

(** [p1p1_to_p2]: /repo/cref/cref.c:2080-2085 *)
Definition m_g_p1p1_to_p2 (r p n : nat) (m : cmem) : option cmem :=
  let* v := c_mul (m (p + 0)%nat) (m (p + 3)%nat) in
  dlet m := st m (r + 0)%nat v in
  let* v := c_mul (m (p + 2)%nat) (m (p + 1)%nat) in
  dlet m := st m (r + 1)%nat v in
  let* v := c_mul (m (p + 1)%nat) (m (p + 3)%nat) in
  dlet m := st m (r + 2)%nat v in
  Some m.

(** [p1p1_to_p3]: /repo/cref/cref.c:2087-2091 *)
Definition m_g_p1p1_to_p3 (r p n : nat) (m : cmem) : option cmem :=
  let* m := m_g_p1p1_to_p2 r p (n + 0) m in
  let* v := c_mul (m (p + 0)%nat) (m (p + 2)%nat) in
  dlet m := st m (r + 3)%nat v in
  Some m.

(** [add_p1p1]: /repo/cref/cref.c:2093-2111 *)
Definition m_g_add_p1p1 (r p q n : nat) (m : cmem) : option cmem :=
  let a := (n + 0)%nat in
  let b := (n + 1)%nat in
  let c := (n + 2)%nat in
  let d := (n + 3)%nat in
  let t := (n + 4)%nat in
  let* v := c_sub (m (p + 1)%nat) (m (p + 0)%nat) in
  dlet m := st m a v in
  let* v := c_sub (m (q + 1)%nat) (m (q + 0)%nat) in
  dlet m := st m t v in
  let* v := c_mul (m a) (m t) in
  dlet m := st m a v in
  let* v := c_add (m (p + 0)%nat) (m (p + 1)%nat) in
  dlet m := st m b v in
  let* v := c_add (m (q + 0)%nat) (m (q + 1)%nat) in
  dlet m := st m t v in
  let* v := c_mul (m b) (m t) in
  dlet m := st m b v in
  let* v := c_mul (m (p + 3)%nat) (m (q + 3)%nat) in
  dlet m := st m c v in
  let* v := c_mul (m c) c_ec2d in
  dlet m := st m c v in
  let* v := c_mul (m (p + 2)%nat) (m (q + 2)%nat) in
  dlet m := st m d v in
  let* v := c_add (m d) (m d) in
  dlet m := st m d v in
  let* v := c_sub (m b) (m a) in
  dlet m := st m (r + 0)%nat v in
  let* v := c_sub (m d) (m c) in
  dlet m := st m (r + 3)%nat v in
  let* v := c_add (m d) (m c) in
  dlet m := st m (r + 1)%nat v in
  let* v := c_add (m b) (m a) in
  dlet m := st m (r + 2)%nat v in
  Some m.

(** [dbl_p1p1]: /repo/cref/cref.c:2114-2129 *)
Definition m_g_dbl_p1p1 (r p n : nat) (m : cmem) : option cmem :=
  let a := (n + 0)%nat in
  let b := (n + 1)%nat in
  let c := (n + 2)%nat in
  let d := (n + 3)%nat in
  let* v := c_square (m (p + 0)%nat) in
  dlet m := st m a v in
  let* v := c_square (m (p + 1)%nat) in
  dlet m := st m b v in
  let* v := c_square_double (m (p + 2)%nat) in
  dlet m := st m c v in
  let* v := c_neg (m a) in
  dlet m := st m d v in
  let* v := c_add (m (p + 0)%nat) (m (p + 1)%nat) in
  dlet m := st m (r + 0)%nat v in
  let* v := c_square (m (r + 0)%nat) in
  dlet m := st m (r + 0)%nat v in
  let* v := c_sub (m (r + 0)%nat) (m a) in
  dlet m := st m (r + 0)%nat v in
  let* v := c_sub (m (r + 0)%nat) (m b) in
  dlet m := st m (r + 0)%nat v in
  let* v := c_add (m d) (m b) in
  dlet m := st m (r + 1)%nat v in
  let* v := c_sub (m (r + 1)%nat) (m c) in
  dlet m := st m (r + 3)%nat v in
  let* v := c_sub (m d) (m b) in
  dlet m := st m (r + 2)%nat v in
  Some m.

(** [group_ge_add]: /repo/cref/cref.c:2401-2406 *)
Definition m_g_add (r x y n : nat) (m : cmem) : option cmem :=
  let t := (n + 0)%nat in
  let* m := m_g_add_p1p1 t x y (n + 4) m in
  let* m := m_g_p1p1_to_p3 r t (n + 4) m in
  Some m.

(** [group_ge_double]: /repo/cref/cref.c:2408-2413 *)
Definition m_g_double (r x n : nat) (m : cmem) : option cmem :=
  let t := (n + 0)%nat in
  let* m := m_g_dbl_p1p1 t x (n + 4) m in
  let* m := m_g_p1p1_to_p3 r t (n + 4) m in
  Some m.

(** [group_ge_negate]: /repo/cref/cref.c:2415-2421 *)
Definition m_g_negate (r x n : nat) (m : cmem) : option cmem :=
  let* v := c_neg (m (x + 0)%nat) in
  dlet m := st m (r + 0)%nat v in
  dlet m := st m (r + 1)%nat (m (x + 1)%nat) in
  dlet m := st m (r + 2)%nat (m (x + 2)%nat) in
  let* v := c_neg (m (x + 3)%nat) in
  dlet m := st m (r + 3)%nat v in
  Some m.

(** [group_ge_equals]: /repo/cref/cref.c:2482-2498 *)
Definition m_g_equals (x y n : nat) (m : cmem) : option (Z * cmem) :=
  let x1y2 := (n + 0)%nat in
  let x2y1 := (n + 1)%nat in
  let x1x2 := (n + 2)%nat in
  let y1y2 := (n + 3)%nat in
  let* v := c_mul (m (x + 0)%nat) (m (y + 1)%nat) in
  dlet m := st m x1y2 v in
  let* v := c_mul (m (y + 0)%nat) (m (x + 1)%nat) in
  dlet m := st m x2y1 v in
  let* tst1 := c_iseq (m x1y2) (m x2y1) in
  let r := tst1 in
  let* v := c_mul (m (x + 0)%nat) (m (y + 0)%nat) in
  dlet m := st m x1x2 v in
  let* v := c_mul (m (x + 1)%nat) (m (y + 1)%nat) in
  dlet m := st m y1y2 v in
  let* tst2 := c_iseq (m x1x2) (m y1y2) in
  let r := Z.lor r (tst2) in
  Some ((r), m).

(** [group_ge_isneutral]: /repo/cref/cref.c:2500-2513 *)
Definition m_g_isneutral (x n : nat) (m : cmem) : option (Z * cmem) :=
  let t := (n + 0)%nat in
  let* m := m_g_double t x (n + 4) m in
  let* m := m_g_double t t (n + 4) m in
  let* m := m_g_double t t (n + 4) m in
  let* tst1 := c_iszero (m (t + 0)%nat) in
  let r := 1-tst1 in
  let* tst2 := c_iseq (m (t + 1)%nat) (m (t + 2)%nat) in
  let r := Z.lor r (1-tst2) in
  Some ((1-r), m).

(** [group_ge_from_jacobi_quartic]: /repo/cref/cref.c:2571-2592 *)
Definition m_g_from_jacobi_quartic (x s t n : nat) (m : cmem) : option cmem :=
  let res := (n + 0)%nat in
  let s2 := (n + 4)%nat in
  let* v := c_square (m s) in
  dlet m := st m s2 v in
  let* m := m_c_double (res + 0)%nat s (n + 5) m in
  let* v := c_mul (m (res + 0)%nat) c_magic in
  dlet m := st m (res + 0)%nat v in
  dlet m := st m (res + 1)%nat (m t) in
  let* v := c_sub c_one (m s2) in
  dlet m := st m (res + 2)%nat v in
  let* v := c_add c_one (m s2) in
  dlet m := st m (res + 3)%nat v in
  let* m := m_g_p1p1_to_p3 x res (n + 5) m in
  Some m.

(** [group_ge_elligator]: /repo/cref/cref.c:2596-2649 *)
Definition m_g_elligator (x r0 n : nat) (m : cmem) : option cmem :=
  let r := (n + 0)%nat in
  let rPlusD := (n + 1)%nat in
  let rPlusOne := (n + 2)%nat in
  let ecd2 := (n + 3)%nat in
  let D := (n + 4)%nat in
  let N := (n + 5)%nat in
  let ND := (n + 6)%nat in
  let sqrt := (n + 7)%nat in
  let twiddle := (n + 8)%nat in
  let sgn := (n + 9)%nat in
  let s := (n + 10)%nat in
  let t := (n + 11)%nat in
  let dMinusOneSquared := (n + 12)%nat in
  let rSubOne := (n + 13)%nat in
  let r0i := (n + 14)%nat in
  let sNeg := (n + 15)%nat in
  let* v := c_mul (m r0) c_sqrtm1 in
  dlet m := st m r0i v in
  let* v := c_mul (m r0) (m r0i) in
  dlet m := st m r v in
  let* v := c_add c_ecd (m r) in
  dlet m := st m rPlusD v in
  let* v := c_mul c_ecd (m r) in
  dlet m := st m D v in
  let* v := c_add (m D) c_one in
  dlet m := st m D v in
  let* v := c_mul (m D) (m rPlusD) in
  dlet m := st m D v in
  let* v := c_neg (m D) in
  dlet m := st m D v in
  let* v := c_square c_ecd in
  dlet m := st m ecd2 v in
  let* v := c_sub (m ecd2) c_one in
  dlet m := st m N v in
  let* v := c_neg (m N) in
  dlet m := st m N v in
  let* v := c_add (m r) c_one in
  dlet m := st m rPlusOne v in
  let* v := c_mul (m N) (m rPlusOne) in
  dlet m := st m N v in
  let* v := c_mul (m N) (m D) in
  dlet m := st m ND v in
  let* (b, m) := m_c_invsqrti sqrt ND (n + 16) m in
  let* m := m_c_abs sqrt sqrt (n + 16) m in
  dlet m := st m twiddle c_one in
  dlet m := st m twiddle (c_cmov (m twiddle) (m r0i) (1 - b)) in
  dlet m := st m sgn c_one in
  dlet m := st m sgn (c_cmov (m sgn) c_m1 (1 - b)) in
  let* v := c_mul (m sqrt) (m twiddle) in
  dlet m := st m sqrt v in
  let* v := c_mul (m sqrt) (m N) in
  dlet m := st m s v in
  let* v := c_neg (m sgn) in
  dlet m := st m t v in
  let* v := c_mul (m sqrt) (m t) in
  dlet m := st m t v in
  let* v := c_mul (m s) (m t) in
  dlet m := st m t v in
  let* v := c_sub c_ecd c_one in
  dlet m := st m dMinusOneSquared v in
  let* v := c_square (m dMinusOneSquared) in
  dlet m := st m dMinusOneSquared v in
  let* v := c_mul (m dMinusOneSquared) (m t) in
  dlet m := st m t v in
  let* v := c_sub (m r) c_one in
  dlet m := st m rSubOne v in
  let* v := c_mul (m rSubOne) (m t) in
  dlet m := st m t v in
  let* v := c_sub (m t) c_one in
  dlet m := st m t v in
  let* v := c_neg (m s) in
  dlet m := st m sNeg v in
  let* tst1 := c_isnegative (m s) in
  dlet m := st m s (c_cmov (m s) (m sNeg) (Z.b2z (tst1 =? b))) in
  let* m := m_g_from_jacobi_quartic x s t (n + 16) m in
  Some m.

