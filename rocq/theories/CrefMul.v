(** Scalar multiplication in /repo/cref/cref.c.  [None] is undefined behaviour. *)
From Coq Require Import ZArith List.
From Verif Require Import Words CLang Fe25Code CrefFeCode CrefFe CrefCode CrefScalar CrefTable.
Import ListNotations.
Open Scope Z_scope.

(** [for (i = 0; i < n; i++) x = f(i, x)] for a body that can have undefined behaviour *)
Fixpoint for_upo {A : Type} (n : nat) (f : nat -> A -> option A) (x : A) : option A :=
  match n with O => Some x | S m => let* y := for_upo m f x in f m y end.

(** [cmov_aff]: /repo/cref/cref.c:2132-2136 *)
Definition cmov_aff (r q : aff) (b : Z) : aff :=
  let '(Aff rx ry) := r in let '(Aff px py) := q in Aff (c_cmov rx px b) (c_cmov ry py b).

(** [group_c_static_equal]: /repo/cref/cref.c:2138-2147 *)
Definition g_static_equal (b c : Z) : Z := u8 (Z.shiftr (u32 (Z.lxor (u8 b) (u8 c) - 1)) 31).
(** [negative]: /repo/cref/cref.c:2149-2154 *)
Definition g_negative (b : Z) : Z := u8 (Z.shiftr (u64 b) 63).

(** an entry of [ge25519_base_multiples_affine]; an index out of bounds is undefined behaviour *)
Definition aff_at (i : nat) : option aff := nth_error base_multiples i.

(** [choose_t_aff]: /repo/cref/cref.c:2156-2166 *)
Definition g_choose_aff (pos : nat) (b : Z) : option aff :=
  let* t := aff_at (5 * pos + 0) in
  let* q := aff_at (5 * pos + 1) in
  let t := cmov_aff t q (Z.lor (g_static_equal b 1) (g_static_equal b (-1))) in
  let* q := aff_at (5 * pos + 2) in
  let t := cmov_aff t q (Z.lor (g_static_equal b 2) (g_static_equal b (-2))) in
  let* q := aff_at (5 * pos + 3) in
  let t := cmov_aff t q (Z.lor (g_static_equal b 3) (g_static_equal b (-3))) in
  let* q := aff_at (5 * pos + 4) in
  let '(Aff tx ty) := cmov_aff t q (g_static_equal b (-4)) in
  let* v := c_neg tx in
  Some (Aff (c_cmov tx v (g_negative b)) ty).

(** the body of the loop of [choose_t], /repo/cref/cref.c:2178-2183, for [j = k + 1]; [- b] is converted to signed char *)
Definition cmov_ge (r q : ge) (c : Z) : ge :=
  let '(Ge rx ry rz rt) := r in let '(Ge px py pz pt) := q in
  Ge (c_cmov rx px c) (c_cmov ry py c) (c_cmov rz pz c) (c_cmov rt pt c).
Definition g_choose_step (pre : list ge) (b : Z) (k : nat) (t : ge) : option ge :=
  let* q := nth_error pre (k + 1) in
  Some (cmov_ge t q (Z.lor (g_static_equal b (Z.of_nat (k + 1))) (g_static_equal (i8 (- b)) (Z.of_nat (k + 1))))).
(** [choose_t]: /repo/cref/cref.c:2169-2189 *)
Definition g_choose (pre : list ge) (b : Z) : option ge :=
  let* t := nth_error pre 0 in
  let* (Ge tx ty tz tt_) := for_upo 16 (g_choose_step pre b) t in
  let* v := c_neg tx in
  let tx := c_cmov tx v (g_negative b) in
  let* v := c_neg tt_ in
  let tt_ := c_cmov tt_ v (g_negative b) in
  Some (Ge tx ty tz tt_).

(** the body of the precomputation loop, /repo/cref/cref.c:2434-2438, for [i = 2 k + 2] *)
Definition g_pre_step (k : nat) (pre : list ge) : option (list ge) :=
  let* a := nth_error pre (Nat.div (2 * k + 2) 2) in
  let* d := g_double a in
  let pre := upd pre (2 * k + 2) d in
  let* a := nth_error pre (2 * k + 2) in
  let* b := nth_error pre 1 in
  let* e := g_add a b in
  Some (upd pre (2 * k + 2 + 1) e).
(** the precomputation of [group_ge_scalarmult], /repo/cref/cref.c:2431-2439.  The array starts uninitialised; here it is
    filled with copies of the neutral element.  No entry is read before it is written. *)
Definition g_pre (x : ge) : option (list ge) :=
  let* pre := for_upo 7 g_pre_step (upd (repeat g_neutral 17) 1 x) in
  let* a := nth_error pre 8 in
  let* d := g_double a in
  Some (upd pre 16 d).

(** the body of the main loop of [group_ge_scalarmult] with [i] fixed: /repo/cref/cref.c:2444-2448 *)
Definition g_sm_step (pre : list ge) (w : list Z) (i : nat) (r : ge) : option ge :=
  let* r := for_upo 5 (fun _ r => g_double r) r in
  let* t := g_choose pre (at_ w i) in
  g_add r t.
(** [group_ge_scalarmult]: /repo/cref/cref.c:2423-2450.  The result may be the same object as x: x is only read by the
    precomputation. *)
Definition g_scalarmult (x : ge) (s : list Z) : option ge :=
  let* pre := g_pre x in
  for_upo 51 (fun k r => g_sm_step pre (cs_window5 s) (50 - k) r) g_neutral.

(** [group_ge_scalarmult_base]: /repo/cref/cref.c:2452-2467.  The cast of r to ge25519_aff gives its fields x and y. *)
Definition g_scalarmult_base (s : list Z) : option ge :=
  let b := cs_window3 s in
  let* (Aff rx ry) := g_choose_aff 0 (at_ b 0) in
  let* rt := c_mul rx ry in
  for_upo 84 (fun k r => let* t := g_choose_aff (k + 1) (at_ b (k + 1)) in g_mixadd2 r t) (Ge rx ry c_one rt).

(** [group_ge_multiscalarmult]: /repo/cref/cref.c:2469-2480, on [xlen] pairs; r is none of the points *)
Definition g_multiscalarmult (xs : list (ge * list Z)) : option ge :=
  fold_left (fun r xs => let* r := r in let* t := g_scalarmult (fst xs) (snd xs) in g_add r t) xs (Some g_neutral).

(** the functions [..._publicinputs], /repo/cref/cref.c:2518-2560, only call the functions without the suffix *)
