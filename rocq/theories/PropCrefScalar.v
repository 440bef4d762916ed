(** Property C48: the scalars of the C reference implementation /repo/cref/cref.c.

    A [group_scalar] holds 32 numbers; [bytes 32 s] says that they are bytes, [csc s] that also [le_val s < l].  The code uses
    unsigned arithmetic, which wraps; nothing in it is undefined on such arguments. *)
From Coq Require Import ZArith List Lia Bool.
From Verif Require Import Words Primes ScalarCode ScalarModel ScalarReduce ScalarSub ScalarFacts WindowProofs CrefScalar CrefInvert CrefScalarProofs CrefScalarOps CrefWindow CrefScalarFacts.
Import ListNotations.
Open Scope Z_scope.

Theorem C48_unpack : forall x, bytes 32 x -> csc (cs_unpack x) /\ le_val (cs_unpack x) = (le_val x mod 2 ^ 253) mod l.
Proof. exact cs_unpack_ok. Qed.
Print Assumptions C48_unpack.

Theorem C48_pack : forall x, bytes 32 x -> cs_pack x = x.
Proof. exact cs_pack_ok. Qed.
Print Assumptions C48_pack.

Theorem C48_from64bytes : forall x, bytes 64 x -> csc (cs_from64bytes x) /\ le_val (cs_from64bytes x) = le_val x mod l.
Proof. exact cs_from64bytes_ok. Qed.
Print Assumptions C48_from64bytes.

Theorem C48_constants : (csc cs_zero /\ le_val cs_zero = 0) /\ (csc cs_one /\ le_val cs_one = 1).
Proof. exact (conj cs_zero_ok cs_one_ok). Qed.
Print Assumptions C48_constants.

Theorem C48_add : forall x y, csc x -> csc y -> csc (cs_add x y) /\ le_val (cs_add x y) = (le_val x + le_val y) mod l.
Proof. exact cs_add_ok. Qed.
Print Assumptions C48_add.

Theorem C48_sub : forall x y, csc x -> csc y -> csc (cs_sub x y) /\ le_val (cs_sub x y) = (le_val x - le_val y) mod l.
Proof. exact cs_sub_ok. Qed.
Print Assumptions C48_sub.

Theorem C48_negate : forall x, csc x -> csc (cs_negate x) /\ le_val (cs_negate x) = (- le_val x) mod l.
Proof. exact cs_negate_ok. Qed.
Print Assumptions C48_negate.

Theorem C48_mul : forall x y, bytes 32 x -> bytes 32 y -> csc (cs_mul x y) /\ le_val (cs_mul x y) = (le_val x * le_val y) mod l.
Proof. exact cs_mul_ok. Qed.
Print Assumptions C48_mul.

Theorem C48_square : forall x, bytes 32 x -> csc (cs_square x) /\ le_val (cs_square x) = (le_val x * le_val x) mod l.
Proof. exact cs_square_ok. Qed.
Print Assumptions C48_square.

Theorem C48_invert : forall t, csc t -> csc (cs_invert t) /\ (le_val t <> 0 -> (le_val (cs_invert t) * le_val t) mod l = 1) /\
  (le_val t = 0 -> le_val (cs_invert t) = 0).
Proof. exact cs_invert_ok. Qed.
Print Assumptions C48_invert.

Theorem C48_tests : (forall x y, bytes 32 x -> bytes 32 y -> cs_equals x y = Z.b2z (le_val x =? le_val y)) /\
  (forall x, bytes 32 x -> cs_iszero x = Z.b2z (le_val x =? 0)) /\ (forall x, bytes 32 x -> cs_isone x = Z.b2z (le_val x =? 1)).
Proof. exact (conj cs_equals_ok (conj cs_iszero_ok cs_isone_ok)). Qed.
Print Assumptions C48_tests.

Theorem C48_tstbit : forall x pos, bytes 32 x -> 0 <= pos < 256 -> cs_tstbit x pos = Z.b2z (Z.testbit (le_val x) pos).
Proof. exact cs_tstbit_ok. Qed.
Print Assumptions C48_tstbit.

Theorem C48_bitlen : forall x, bytes 32 x -> le_val x < 2 ^ cs_bitlen x /\ (0 < le_val x -> 2 ^ (cs_bitlen x - 1) <= le_val x) /\ 0 <= cs_bitlen x.
Proof. exact cs_bitlen_spec. Qed.
Print Assumptions C48_bitlen.

(** The signed digits: [dval B d] is the sum of the [d_i B^i]. *)
Theorem C48_window3 : forall s, bytes 32 s -> le_val s < 2 ^ 254 ->
  length (cs_window3 s) = 85%nat /\ digits_in (-4) 4 (cs_window3 s) /\ dval 8 (cs_window3 s) = le_val s /\
  (forall i, (i < 84)%nat -> -4 <= at_ (cs_window3 s) i <= 3) /\ 0 <= at_ (cs_window3 s) 84 <= at_ s 31 / 16 + 1.
Proof. exact cs_window3_ok. Qed.
Print Assumptions C48_window3.

Theorem C48_window5 : forall s, bytes 32 s -> le_val s < 2 ^ 254 ->
  length (cs_window5 s) = 51%nat /\ digits_in (-16) 16 (cs_window5 s) /\ dval 32 (cs_window5 s) = le_val s.
Proof. exact cs_window5_ok. Qed.
Print Assumptions C48_window5.

(** Agreement with the Go code: on the encodings of reduced scalars, and on all strings, the two compute the same bytes. *)
Theorem C48_go : (forall a b, reduced a -> reduced b ->
    cs_add (sc_Bytes a) (sc_Bytes b) = sc_Bytes (sc_add a b) /\ cs_sub (sc_Bytes a) (sc_Bytes b) = sc_Bytes (sc_sub a b) /\
    cs_mul (sc_Bytes a) (sc_Bytes b) = sc_Bytes (sc_mul a b)) /\
  (forall a, reduced a -> cs_negate (sc_Bytes a) = sc_Bytes (sc_neg a) /\ cs_square (sc_Bytes a) = sc_Bytes (sc_square a) /\
    cs_invert (sc_Bytes a) = sc_Bytes (sc_inverse a)) /\
  (forall x, bytes 32 x -> cs_unpack x = sc_Bytes (sc_setBytes x)) /\
  (forall x, bytes 64 x -> cs_from64bytes x = sc_Bytes (sc_setReduced x)).
Proof. exact cs_go. Qed.
Print Assumptions C48_go.

(** ** Examples: l - 1 *)
Definition cs_lm1 : list Z := 0xEC :: tl cm.
Lemma cs_lm1_ok : csc cs_lm1 /\ le_val cs_lm1 = l - 1.
Proof.
  assert (e : le_val cs_lm1 = l - 1) by (vm_compute; reflexivity).
  refine (conj (conj (conj eq_refl _) _) e); [|rewrite e; lia]. cbv [cs_lm1 cm tl]. repeat (apply Forall_cons; [unfold is_byte; lia|]). apply Forall_nil.
Qed.
Example C48_ex_add : csc cs_lm1 /\ le_val (cs_add cs_lm1 cs_lm1) = l - 2 /\ cs_mul cs_lm1 cs_lm1 = cs_one /\ cs_negate cs_lm1 = cs_one.
Proof. refine (conj (proj1 cs_lm1_ok) (conj _ (conj _ _))); vm_compute; reflexivity. Qed.
Example C48_ex_windows : le_val cs_lm1 < 2 ^ 254 /\ firstn 6 (cs_window3 cs_lm1) = [-4; -2; 0; 2; -3; -4] /\ at_ (cs_window3 cs_lm1) 84 = 1 /\
  firstn 6 (cs_window5 cs_lm1) = [12; -1; -11; 12; 15; 14] /\ at_ (cs_window5 cs_lm1) 50 = 4 /\ cs_bitlen cs_lm1 = 253 /\ cs_tstbit cs_lm1 252 = 1.
Proof. refine (conj _ (conj _ (conj _ (conj _ (conj _ (conj _ _)))))); vm_compute; reflexivity. Qed.
(** Without the bound the top digit does not fit: the scalar 2^255 - 1 *)
Example C48_ex_window_bound : let s := repeat 255 31 ++ [127] in bytes 32 s /\ dval 8 (cs_window3 s) = le_val s /\ at_ (cs_window3 s) 84 = 8.
Proof. refine (conj (conj eq_refl _) (conj _ _)); [cbv [repeat app]; repeat (apply Forall_cons; [unfold is_byte; lia|]); apply Forall_nil| |]; vm_compute; reflexivity. Qed.
Example C48_ex_from64 : bytes 64 (repeat 255 64) /\ le_val (cs_from64bytes (repeat 255 64)) = (2 ^ 512 - 1) mod l.
Proof. refine (conj (conj eq_refl _) _); [cbv [repeat app]; repeat (apply Forall_cons; [unfold is_byte; lia|]); apply Forall_nil|]. vm_compute. reflexivity. Qed.
Example C48_ex_go : reduced (Sc 5 0 0 0 0 0 0 0) /\ cs_mul (sc_Bytes (Sc 5 0 0 0 0 0 0 0)) (sc_Bytes (Sc 5 0 0 0 0 0 0 0)) = 25 :: repeat 0 31.
Proof. split; [unfold reduced; rewrite l_lit; cbn [sc_words scv]; lia | vm_compute; reflexivity]. Qed.
