(** The functions of /repo/cref/cref.c that its callers do not use: [scalar_slide] and the wrappers. *)
From Coq Require Import ZArith List Bool.
From Verif Require Import Words FieldModel ScalarCode CLang Fe25Code CrefFeCode CrefFe CrefCode CrefScalar CrefMul.
Import ListNotations.
Open Scope Z_scope.

(** [scalar_slide], the bits of the scalar: /repo/cref/cref.c:542-552 *)
Definition slide_bits (s : list Z) : list Z :=
  flat_map (fun i => map (fun k => i8 (Z.land (Z.shiftr (at_ s i) k) 1)) [0; 1; 2; 3; 4; 5; 6; 7]) (seq 0 32).

(** the loop [for (k = j + b; k < soplen; ++k)], [n] iterations left: /repo/cref/cref.c:567-574 *)
Fixpoint slide_carry (n : nat) (k : nat) (r : list Z) : list Z :=
  match n with
  | O => r
  | S n' => if at_ r k =? 0 then upd r k 1 else slide_carry n' (k + 1) (upd r k 0)
  end.

(** the loop on [b], at most [n] iterations (7 are never reached): /repo/cref/cref.c:559-579.  The entries [r[j + b]] are 0
    or 1, so that no shift overflows. *)
Fixpoint slide_digit (m : Z) (j : nat) (n : nat) (b : nat) (r : list Z) : list Z :=
  match n with
  | O => r
  | S n' =>
    if (b <? 256 - j)%nat && (b <=? 6)%nat then
      let t := Z.shiftl (at_ r (j + b)) (Z.of_nat b) in
      if at_ r j + t <=? m then slide_digit m j n' (b + 1) (upd (upd r j (i8 (at_ r j + t))) (j + b) 0)
      else if - m <=? at_ r j - t then
        slide_digit m j n' (b + 1) (slide_carry (256 - (j + b)) (j + b) (upd r j (i8 (at_ r j - t))))
      else if negb (at_ r (j + b) =? 0) then r
      else slide_digit m j n' (b + 1) r
    else r
  end.

(** [scalar_slide]: /repo/cref/cref.c:538-580.  [swindowsize] has to lie between 1 and 31 (otherwise the shift in line 540 is
    undefined or overflows). *)
Definition cs_slide (s : list Z) (w : Z) : list Z :=
  let m := Z.shiftl 1 (w - 1) - 1 in
  for_up 256 (fun j r => if at_ r j =? 0 then r else slide_digit m j 7 1 r) (slide_bits s).

(** [fe25519_setone], [fe25519_setzero]: /repo/cref/cref.c:876-888, 894-906 *)
Definition c_setone : fe25 := Fe25 1 0 0 0 0 0 0 0 0 0.
Definition c_setzero : fe25 := Fe25 0 0 0 0 0 0 0 0 0 0.
(** [fe25519_iseq_vartime]: /repo/cref/cref.c:852-854 *)
Definition c_iseq_vartime (x y : fe25) : option Z := c_iseq x y.
(** [fe25519_getparity]: /repo/cref/cref.c:954-956; the result is converted to unsigned char *)
Definition c_getparity (x : fe25) : option Z := let* r := c_isnegative x in Some (u8 r).

(** the functions on public inputs: /repo/cref/cref.c:2518-2560 *)
Definition g_add_publicinputs (x y : ge) : option ge := g_add x y.
Definition g_double_publicinputs (x : ge) : option ge := g_double x.
Definition g_negate_publicinputs (x : ge) : option ge := g_negate x.
Definition g_scalarmult_publicinputs (x : ge) (s : list Z) : option ge := g_scalarmult x s.
Definition g_scalarmult_base_publicinputs (s : list Z) : option ge := g_scalarmult_base s.
Definition g_multiscalarmult_publicinputs (xs : list (ge * list Z)) : option ge := g_multiscalarmult xs.
Definition g_equals_publicinputs (x y : ge) : option Z := g_equals x y.
Definition g_isneutral_publicinputs (x : ge) : option Z := g_isneutral x.
