(** Machine words of Go as integers with explicit wrap-around, little-endian byte
    strings, with basic facts. *)
From Coq Require Import ZArith List Lia Bool.
Import ListNotations.
Open Scope Z_scope.

(** Conversions to the fixed-size integer types of Go.  The Go specification
    says: for unsigned integers, +, -, * and << are computed modulo 2^n; signed
    operations wrap in two's complement; conversion truncates or sign-extends. *)
Definition u8 (x : Z) : Z := x mod 256.
Definition u16 (x : Z) : Z := x mod 65536.
Definition u32 (x : Z) : Z := x mod 4294967296.
Definition u64 (x : Z) : Z := x mod 18446744073709551616.
Definition i8 (x : Z) : Z := (x + 128) mod 256 - 128.
Definition i32 (x : Z) : Z := (x + 2147483648) mod 4294967296 - 2147483648.
Definition i64 (x : Z) : Z := (x + 9223372036854775808) mod 18446744073709551616 - 9223372036854775808.

(** math/bits.Mul64: full 128-bit product (hi, lo). *)
Definition bits_mul64 (x y : Z) : Z * Z :=
  ((x * y) / 18446744073709551616, (x * y) mod 18446744073709551616).

(** math/bits.Add64: sum with carry (sum, carryOut). *)
Definition bits_add64 (x y c : Z) : Z * Z :=
  ((x + y + c) mod 18446744073709551616, (x + y + c) / 18446744073709551616).

(** [at_ s i] is s[i] for an array of known length. *)
Definition at_ (s : list Z) (i : nat) : Z := nth i s 0.

(** s[i] = x *)
Fixpoint upd {A : Type} (s : list A) (i : nat) (x : A) : list A :=
  match s, i with
  | [], _ => []
  | _ :: t, O => x :: t
  | y :: t, S j => y :: upd t j x
  end.

(** Byte strings. *)
Definition is_byte (b : Z) : Prop := 0 <= b < 256.
Definition bytes (n : nat) (s : list Z) : Prop := length s = n /\ Forall is_byte s.

Fixpoint le_val (s : list Z) : Z :=
  match s with
  | [] => 0
  | b :: t => b + 256 * le_val t
  end.

Fixpoint le_bytes (n : nat) (v : Z) : list Z :=
  match n with
  | O => []
  | S m => v mod 256 :: le_bytes m (v / 256)
  end.

(** ** Facts about byte strings *)

Lemma le_val_range s : Forall is_byte s -> 0 <= le_val s < 256 ^ Z.of_nat (length s).
Proof.
  induction 1 as [|b t hb ht IH]; [cbn; lia|].
  cbn [le_val length]. rewrite Nat2Z.inj_succ, Z.pow_succ_r by lia. unfold is_byte in hb. lia.
Qed.

Lemma le_bytes_length n v : length (le_bytes n v) = n.
Proof. revert v; induction n; intro v; cbn; [reflexivity | now rewrite IHn]. Qed.

Lemma le_bytes_bytes n v : bytes n (le_bytes n v).
Proof.
  split; [apply le_bytes_length|].
  revert v; induction n; intro v; cbn; constructor; auto.
  apply Z.mod_pos_bound; lia.
Qed.

Lemma le_val_le_bytes n v : 0 <= v < 256 ^ Z.of_nat n -> le_val (le_bytes n v) = v.
Proof.
  revert v; induction n; intros v h; cbn [le_bytes le_val].
  - cbn in h; lia.
  - rewrite Nat2Z.inj_succ, Z.pow_succ_r in h by lia.
    rewrite IHn.
    + pose proof (Z.div_mod v 256); lia.
    + split; [apply Z.div_pos; lia | apply Z.div_lt_upper_bound; lia].
Qed.

Lemma le_bytes_le_val s : Forall is_byte s -> le_bytes (length s) (le_val s) = s.
Proof.
  induction 1 as [|b t hb ht IH]; [reflexivity|].
  cbn [length le_bytes le_val]. unfold is_byte in hb.
  replace (b + 256 * le_val t) with (b + le_val t * 256) by ring.
  rewrite Z.mod_add, Z.div_add by lia.
  rewrite Z.mod_small, Z.div_small by lia. cbn. now rewrite IH.
Qed.

Lemma le_val_inj s t : Forall is_byte s -> Forall is_byte t -> length s = length t ->
  le_val s = le_val t -> s = t.
Proof.
  intros hs ht hl hv. rewrite <- (le_bytes_le_val s hs), <- (le_bytes_le_val t ht).
  now rewrite hl, hv.
Qed.

Lemma le_val_app s t : le_val (s ++ t) = le_val s + 256 ^ Z.of_nat (length s) * le_val t.
Proof.
  induction s as [|b s IH]; [cbn [app le_val length]; change (256 ^ Z.of_nat 0) with 1; ring|].
  cbn [app le_val length]. rewrite IH, Nat2Z.inj_succ, Z.pow_succ_r by lia. ring.
Qed.

(** ** Wrapping facts *)

Lemma u64_small x : 0 <= x < 18446744073709551616 -> u64 x = x.
Proof. apply Z.mod_small. Qed.
Lemma u32_small x : 0 <= x < 4294967296 -> u32 x = x.
Proof. apply Z.mod_small. Qed.
Lemma u16_small x : 0 <= x < 65536 -> u16 x = x.
Proof. apply Z.mod_small. Qed.
Lemma u8_small x : 0 <= x < 256 -> u8 x = x.
Proof. apply Z.mod_small. Qed.
Lemma i64_small x : -9223372036854775808 <= x < 9223372036854775808 -> i64 x = x.
Proof. intro h; unfold i64; rewrite Z.mod_small by lia; lia. Qed.
Lemma i32_small x : -2147483648 <= x < 2147483648 -> i32 x = x.
Proof. intro h; unfold i32; rewrite Z.mod_small by lia; lia. Qed.
Lemma i8_small x : -128 <= x < 128 -> i8 x = x.
Proof. intro h; unfold i8; rewrite Z.mod_small by lia; lia. Qed.

Lemma u64_range x : 0 <= u64 x <= 18446744073709551615.
Proof. unfold u64; pose proof (Z.mod_pos_bound x 18446744073709551616); lia. Qed.
Lemma u32_range x : 0 <= u32 x <= 4294967295.
Proof. unfold u32; pose proof (Z.mod_pos_bound x 4294967296); lia. Qed.
Lemma i32_range x : -2147483648 <= i32 x <= 2147483647.
Proof. unfold i32; pose proof (Z.mod_pos_bound (x + 2147483648) 4294967296); lia. Qed.
Lemma i64_range x : -9223372036854775808 <= i64 x <= 9223372036854775807.
Proof. unfold i64; pose proof (Z.mod_pos_bound (x + 9223372036854775808) 18446744073709551616); lia. Qed.

