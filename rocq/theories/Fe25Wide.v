(** BytesInto of the generic backend on differences of two values that BytesInto has left in their variables: limbs
    up to 2^27, one unit more than in Fe25Proofs.v. *)
From Coq Require Import ZArith List Lia Bool.
From Verif Require Import Words WordsTac Fe51Proofs Fe25Code Fe25Proofs.
Import ListNotations.
Open Scope Z_scope.

(** the quotient by 2^255 - 19, estimated from the top coefficient *)
Lemma g25_quotient4 r x9 x q v : v = r + 1725436586697640946858688965569256363112777243042596638790631055949824 * x9 ->
  - 6901746346790563787434755862277025452451108972170386555162524223799296 <= r <= 6901746346790563787434755862277025452451108972170386555162524223799296 ->
  33554432 * x <= 19 * x9 + 16777216 < 33554432 * x + 33554432 ->
  T255 * q <= v + x < T255 * q + T255 -> -3 <= q <= 2 -> P25519 * q <= v < P25519 * q + P25519.
Proof.
  unfold T255, P25519. intros -> hr hx hq hq2.
  assert (q = -3 \/ q = -2 \/ q = -1 \/ q = 0 \/ q = 1 \/ q = 2) as [-> | [-> | [-> | [-> | [-> | ->]]]]] by lia; lia.
Qed.

Lemma g25_bytes_ok4 x : bnd25 134217728 67779952 x ->
  fst (g25_bytes x) = le_bytes 32 (v25 x mod P25519) /\
  v25 (snd (g25_bytes x)) = v25 x mod P25519 /\ bnd25 67108863 33554431 (snd (g25_bytes x)).
Proof.
  destruct x as [x0 x1 x2 x3 x4 x5 x6 x7 x8 x9]. intros ha.
  unfold bnd25 in ha. change (- (134217728)) with (-134217728) in ha. change (- (67779952)) with (-67779952) in ha.
  destruct ha as (? & ? & ? & ? & ? & ? & ? & ? & ? & ?).
  remember (v25 (Fe25 x0 x1 x2 x3 x4 x5 x6 x7 x8 x9)) as v eqn:ev_.
  ev_open g25_bytes (g25_bytes (Fe25 x0 x1 x2 x3 x4 x5 x6 x7 x8 x9)).
  do 11 ev_step.
  match goal with hx : ?x = (19 * x9 + 16777216) / 33554432, hq : ?q = (x9 + _) / 33554432 |- _ =>
    assert (hm : P25519 * q <= v < P25519 * q + P25519) end.
  { clear PP. subst v.
    match goal with hx : ?x = (19 * x9 + 16777216) / 33554432, hq : ?q = (x9 + _) / 33554432 |- _ =>
      apply (g25_quotient4 (v10 x0 x1 x2 x3 x4 x5 x6 x7 x8 0) x9 x q) end.
    - unfold v25, v10. ring.
    - unfold v10. clear - H H0 H1 H2 H3 H4 H5 H6 H7. lia.
    - match goal with hx : ?x = (19 * x9 + 16777216) / 33554432 |- 33554432 * ?x <= _ < _ => rewrite hx at 1 2 end.
      apply quot_bnd. reflexivity.
    - quot_facts. clear H H0 H1 H2 H3 H4 H5 H6 H7 H8 H10 H12 H14 H16 H18 H20 H22 H24 H26 H28 H30. subst. unfold v25, v10, T255. lia.
    - assumption. }
  match goal with hx : ?x = (19 * x9 + 16777216) / 33554432, hq : ?q = (x9 + _) / 33554432, hb : _ <= ?q <= _ |- _ =>
    revert hm; revert q hq hb end.
  intros q _ hq hm. clear H9 H10 x H11 H12 x10 H13 H14 x11 H15 H16 x12 H17 H18 x13 H19 H20 x14 H21 H22 x15 H23 H24 x16 H25 H26 x17 H27 H28 x18.
  ev_step. do 10 floor_step.
  assert (hv : v25 (Fe25 x' x'0 x'1 x'2 x'3 x'4 x'5 x'6 x'7 x'8) = v mod P25519).
  { clear PP.
    assert (E : v25 (Fe25 x' x'0 x'1 x'2 x'3 x'4 x'5 x'6 x'7 x'8) = v + 19 * q - T255 * c8) by (subst; unfold v25, v10, T255; ring).
    assert (R : 0 <= v25 (Fe25 x' x'0 x'1 x'2 x'3 x'4 x'5 x'6 x'7 x'8) < T255) by (clear ev_ E hm; unfold v25, v10, T255; lia).
    revert E R. generalize (v25 (Fe25 x' x'0 x'1 x'2 x'3 x'4 x'5 x'6 x'7 x'8)). intros w E R. clear -hm E R.
    assert (c8 = q) as -> by (unfold P25519, T255 in *; lia).
    apply (Z.mod_unique _ _ q); unfold P25519, T255 in *; lia. }
  do 32 byte_step. subst PP. cbv beta. cbn [fst snd]. rewrite <- hv. refine (conj _ (conj eq_refl _)).
  2: { unfold bnd25. clear ev_. pack25; lia. }
  clear hm hv.
  match goal with |- ?l = _ =>
    assert (hb : Forall is_byte l) by
      (repeat (constructor; [unfold is_byte; match goal with |- 0 <= ?x < 256 => assert (0 <= x <= 255) by bnd end; lia |]); constructor);
    change l with (id l); rewrite <- (le_bytes_le_val l hb : le_bytes 32 (le_val l) = l); unfold id
  end.
  f_equal. clear hb. merge_quots. rewrite !Z.div_1_r in *.
  rewrite (Z.div_small x'3 67108864) in * by lia. rewrite (Z.div_small x'8 67108864) in * by lia.
  clear_quots. cbn [le_val]. unfold v25, v10. subst. ring.
Qed.
