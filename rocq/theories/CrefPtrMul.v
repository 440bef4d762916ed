(** Scalar multiplication in /repo/cref/cref.c on the memory of CrefPtr.v.  [for_upo], the conditions and the table are those
    of CrefMul.v; scalars and digits of scalars are values here, as no pointer to a point can point to them. *)
From Coq Require Import ZArith List.
From Verif Require Import Words ScalarCode CLang Fe25Code CrefFeCode CrefFe CrefCode CrefScalar CrefTable CrefMul CrefPtr CrefPtrCode.
Import ListNotations.
Open Scope Z_scope.

(** [cmov_aff], here with a pointer into the constant table: /repo/cref/cref.c:2132-2136 *)
Definition m_cmov_aff (r : nat) (q : aff) (b : Z) (m : cmem) : option cmem :=
  let '(Aff qx qy) := q in
  dlet m := st m (r + 0)%nat (c_cmov (m (r + 0)%nat) qx b) in
  dlet m := st m (r + 1)%nat (c_cmov (m (r + 1)%nat) qy b) in
  Some m.

(** [choose_t_aff]: /repo/cref/cref.c:2156-2166 *)
Definition m_choose_aff (t pos : nat) (b : Z) (n : nat) (m : cmem) : option cmem :=
  let v := (n + 0)%nat in
  let* (Aff qx qy) := aff_at (5 * pos + 0) in
  dlet m := st m (t + 0)%nat qx in
  dlet m := st m (t + 1)%nat qy in
  let* q := aff_at (5 * pos + 1) in
  let* m := m_cmov_aff t q (Z.lor (g_static_equal b 1) (g_static_equal b (-1))) m in
  let* q := aff_at (5 * pos + 2) in
  let* m := m_cmov_aff t q (Z.lor (g_static_equal b 2) (g_static_equal b (-2))) m in
  let* q := aff_at (5 * pos + 3) in
  let* m := m_cmov_aff t q (Z.lor (g_static_equal b 3) (g_static_equal b (-3))) m in
  let* q := aff_at (5 * pos + 4) in
  let* m := m_cmov_aff t q (g_static_equal b (-4)) m in
  let* w := c_neg (m (t + 0)%nat) in
  dlet m := st m v w in
  dlet m := st m (t + 0)%nat (c_cmov (m (t + 0)%nat) (m v) (g_negative b)) in
  Some m.

(** [choose_t], the body of its loop with [j = k + 1] first: /repo/cref/cref.c:2169-2189 *)
Definition m_choose_step (t pre : nat) (b : Z) (k : nat) (m : cmem) : option cmem :=
  let c := Z.lor (g_static_equal b (Z.of_nat (k + 1))) (g_static_equal (i8 (- b)) (Z.of_nat (k + 1))) in
  let q := (pre + 4 * (k + 1))%nat in
  dlet m := st m (t + 0)%nat (c_cmov (m (t + 0)%nat) (m (q + 0)%nat) c) in
  dlet m := st m (t + 1)%nat (c_cmov (m (t + 1)%nat) (m (q + 1)%nat) c) in
  dlet m := st m (t + 2)%nat (c_cmov (m (t + 2)%nat) (m (q + 2)%nat) c) in
  dlet m := st m (t + 3)%nat (c_cmov (m (t + 3)%nat) (m (q + 3)%nat) c) in
  Some m.
Definition m_choose (t pre : nat) (b : Z) (n : nat) (m : cmem) : option cmem :=
  let v := (n + 0)%nat in
  let* m := for_upo 16 (m_choose_step t pre b) (st_ge m t (ge_at m pre)) in
  let* w := c_neg (m (t + 0)%nat) in
  dlet m := st m v w in
  dlet m := st m (t + 0)%nat (c_cmov (m (t + 0)%nat) (m v) (g_negative b)) in
  let* w := c_neg (m (t + 3)%nat) in
  dlet m := st m v w in
  dlet m := st m (t + 3)%nat (c_cmov (m (t + 3)%nat) (m v) (g_negative b)) in
  Some m.

(** [group_ge_scalarmult]: /repo/cref/cref.c:2423-2450.  The array [precomp] is at [n], [t] after it.  First the body of the
    loop of the precomputation, lines 2434-2438, for [i = 2 k + 2], and that of the main loop, lines 2444-2448, for
    [i = 50 - k]. *)
Definition m_pre_step (pre n k : nat) (m : cmem) : option cmem :=
  let i := (2 * k + 2)%nat in
  let* m := m_g_double (pre + 4 * i) (pre + 4 * Nat.div i 2) n m in
  m_g_add (pre + 4 * (i + 1)) (pre + 4 * i) (pre + 4 * 1) n m.
Definition m_sm_step (r pre t : nat) (w : list Z) (n : nat) (i : nat) (m : cmem) : option cmem :=
  let* m := for_upo 5 (fun _ m => m_g_double r r n m) m in
  let* m := m_choose t pre (at_ w i) n m in
  m_g_add r r t n m.
Definition m_scalarmult (r x : nat) (s : list Z) (n : nat) (m : cmem) : option cmem :=
  let pre := n in
  let t := (n + 68)%nat in
  let n := (n + 72)%nat in
  let m := st_ge m (pre + 4 * 0) g_neutral in
  let m := st_ge m (pre + 4 * 1) (ge_at m x) in
  let* m := for_upo 7 (m_pre_step pre n) m in
  let* m := m_g_double (pre + 4 * 16) (pre + 4 * 8) n m in
  let m := st_ge m r g_neutral in
  for_upo 51 (fun k m => m_sm_step r pre t (cs_window5 s) n (50 - k) m) m.

(** [group_ge_scalarmult_base]: /repo/cref/cref.c:2452-2467 *)
Definition m_scalarmult_base (r : nat) (s : list Z) (n : nat) (m : cmem) : option cmem :=
  let t := n in
  let n := (n + 2)%nat in
  let b := cs_window3 s in
  let* m := m_choose_aff r 0 (at_ b 0) n m in
  dlet m := st m (r + 2)%nat c_one in
  let* v := c_mul (m (r + 0)%nat) (m (r + 1)%nat) in
  dlet m := st m (r + 3)%nat v in
  for_upo 84 (fun k m => let* m := m_choose_aff t (k + 1) (at_ b (k + 1)) n m in m_g_mixadd2 r t n m) m.

(** [group_ge_multiscalarmult]: /repo/cref/cref.c:2469-2480.  [ss] is the array of scalars; [xlen] its length. *)
Definition m_multi_step (r x : nat) (ss : list (list Z)) (n i : nat) (m : cmem) : option cmem :=
  let t := n in
  let* m := m_scalarmult t (x + 4 * i) (nth i ss []) (n + 4) m in
  m_g_add r r t (n + 4) m.
Definition m_multiscalarmult (r x : nat) (ss : list (list Z)) (n : nat) (m : cmem) : option cmem :=
  for_upo (length ss) (m_multi_step r x ss n) (st_ge m r g_neutral).
