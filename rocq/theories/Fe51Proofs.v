(** Correctness of the radix-2^51 limb code (Fe51Code.v) over the integers. *)
From Coq Require Import ZArith List Lia Bool Ring.
From Verif Require Import Words WordsTac Fe51Code.
Import ListNotations.
Open Scope Z_scope.

Definition P25519 : Z := 57896044618658097711785492504343953926634992332820282019728792003956564819949.

Definition v51 (x : fe51) : Z :=
  match x with Fe51 a b c d e =>
    a + 2251799813685248 * b + 5070602400912917605986812821504 * c
    + 11417981541647679048466287755595961091061972992 * d
    + 25711008708143844408671393477458601640355247900524685364822016 * e end.

(** every limb is at most [m] *)
Definition bnd51 (m : Z) (x : fe51) : Prop :=
  match x with Fe51 a b c d e =>
    (0 <= a <= m) /\ (0 <= b <= m) /\ (0 <= c <= m) /\ (0 <= d <= m) /\ (0 <= e <= m) end.

Lemma bnd51_le m n x : m <= n -> bnd51 m x -> bnd51 n x.
Proof. destruct x; unfold bnd51; lia. Qed.

Ltac unb := repeat match goal with H : bnd51 _ (Fe51 _ _ _ _ _) |- _ => destruct H as (? & ? & ? & ? & ?) end.
Ltac bnd51_go := unfold bnd51; refine (conj _ (conj _ (conj _ (conj _ _)))); bnd.

Lemma r51_mul_ok a b : bnd51 18014398509481983 a -> bnd51 18014398509481983 b ->
  bnd51 2251799813693440 (r51_mul a b) /\ (exists k, v51 a * v51 b = v51 (r51_mul a b) + P25519 * k).
Proof.
  destruct a as [a0 a1 a2 a3 a4], b as [b0 b1 b2 b3 b4]. intros ha hb. unb.
  ev_open r51_mul (r51_mul (Fe51 a0 a1 a2 a3 a4) (Fe51 b0 b1 b2 b3 b4)).
  repeat ev_step.
  clear_quots. subst PP. cbv beta. refine (conj _ _).
  - bnd51_go.
  - match goal with H : ?x = _ + _ * 8192 |- _ =>
      exists (x + (a1 * b4 + a2 * b3 + a3 * b2 + a4 * b1) + 2251799813685248 * (a2 * b4 + a3 * b3 + a4 * b2)
       + 5070602400912917605986812821504 * (a3 * b4 + a4 * b3) + 11417981541647679048466287755595961091061972992 * (a4 * b4)) end.
    unfold P25519, v51. subst. ring.
Qed.

Lemma r51_square_ok a : bnd51 18014398509481983 a ->
  bnd51 2251799813693440 (r51_square a) /\ (exists k, v51 a * v51 a = v51 (r51_square a) + P25519 * k).
Proof.
  destruct a as [a0 a1 a2 a3 a4]. intros ha. unb.
  ev_open r51_square (r51_square (Fe51 a0 a1 a2 a3 a4)).
  repeat ev_step.
  clear_quots. subst PP. cbv beta. refine (conj _ _).
  - bnd51_go.
  - match goal with H : ?x = _ + _ * 8192 |- _ =>
      exists (x + (a1 * a4 + a2 * a3 + a3 * a2 + a4 * a1) + 2251799813685248 * (a2 * a4 + a3 * a3 + a4 * a2)
       + 5070602400912917605986812821504 * (a3 * a4 + a4 * a3) + 11417981541647679048466287755595961091061972992 * (a4 * a4)) end.
    unfold P25519, v51. subst. ring.
Qed.

Lemma r51_doubledSquare_ok a : bnd51 9007199254773760 a ->
  bnd51 2251799813693440 (r51_doubledSquare a) /\
  (exists k, 2 * (v51 a * v51 a) = v51 (r51_doubledSquare a) + P25519 * k).
Proof.
  destruct a as [a0 a1 a2 a3 a4]. intros ha. unb.
  ev_open r51_doubledSquare (r51_doubledSquare (Fe51 a0 a1 a2 a3 a4)).
  repeat ev_step.
  clear_quots. subst PP. cbv beta. refine (conj _ _).
  - bnd51_go.
  - match goal with H : ?x = _ + _ * 8192 |- _ =>
      exists (x + 2 * ((a1 * a4 + a2 * a3 + a3 * a2 + a4 * a1) + 2251799813685248 * (a2 * a4 + a3 * a3 + a4 * a2)
       + 5070602400912917605986812821504 * (a3 * a4 + a4 * a3) + 11417981541647679048466287755595961091061972992 * (a4 * a4))) end.
    unfold P25519, v51. subst. ring.
Qed.

Lemma r51_add_ok m n a b : bnd51 m a -> bnd51 n b -> m + n < 18446744073709551616 ->
  bnd51 (m + n) (r51_add a b) /\ v51 (r51_add a b) = v51 a + v51 b.
Proof.
  destruct a as [a0 a1 a2 a3 a4], b as [b0 b1 b2 b3 b4]. intros ha hb hmn. unb.
  cbn [r51_add]. rewrite !u64_small by lia. unfold bnd51, v51. split; [lia | ring].
Qed.

(** the carry pass shared by Neg and sub *)
Lemma r51_neg_ok a : bnd51 9223372036854775807 a ->
  bnd51 4503599627370494 (r51_neg a) /\ (exists k, v51 (r51_neg a) = - v51 a + P25519 * k).
Proof.
  destruct a as [a0 a1 a2 a3 a4]. intros ha. unb.
  ev_open r51_neg (r51_neg (Fe51 a0 a1 a2 a3 a4)).
  repeat ev_step.
  clear_quots. subst PP. cbv beta. refine (conj _ _).
  - bnd51_go.
  - match goal with H : ?x = 25711008708143844408671393477458601640355247900524685364822016 |- _ => idtac | _ => idtac end.
    match goal with H : _ = _ + ?q * 19 |- _ => exists (2 + q) end.
    unfold P25519, v51. subst. ring.
Qed.

Lemma r51_sub_ok m a b : bnd51 m a -> m <= 9223372036854775807 -> bnd51 9223372036854775807 b ->
  bnd51 (m + 4503599627370494) (r51_sub a b) /\ (exists k, v51 (r51_sub a b) = v51 a - v51 b + P25519 * k).
Proof.
  destruct a as [a0 a1 a2 a3 a4], b as [b0 b1 b2 b3 b4]. intros ha hm hb. unb.
  assert (0 <= a0 <= 9223372036854775807) by lia.
  assert (0 <= a1 <= 9223372036854775807) by lia.
  assert (0 <= a2 <= 9223372036854775807) by lia.
  assert (0 <= a3 <= 9223372036854775807) by lia.
  assert (0 <= a4 <= 9223372036854775807) by lia.
  ev_open r51_sub (r51_sub (Fe51 a0 a1 a2 a3 a4) (Fe51 b0 b1 b2 b3 b4)).
  repeat ev_step.
  clear_quots. subst PP. cbv beta. refine (conj _ _).
  - unfold bnd51. lia.
  - match goal with H : _ = _ + ?q * 19 |- _ => exists (2 + q) end.
    unfold P25519, v51. subst. ring.
Qed.

Lemma r51_setReduced_ok a : bnd51 9223372036854775807 a ->
  bnd51 2251799813685247 (r51_setReduced a) /\ v51 (r51_setReduced a) = v51 a mod P25519.
Proof.
  destruct a as [a0 a1 a2 a3 a4]. intros ha. unb.
  ev_open r51_setReduced (r51_setReduced (Fe51 a0 a1 a2 a3 a4)).
  repeat ev_step.
  subst PP. cbv beta. refine (conj _ _); [bnd51_go|]. quot_facts.
  match goal with |- v51 (Fe51 ?y0 ?y1 ?y2 ?y3 ?y4) = _ =>
    match goal with Hq : y4 = _ - _ * ?q, H9 : _ = _ + ?q9 * 19 |- _ =>
      assert (0 <= v51 (Fe51 y0 y1 y2 y3 y4) < P25519 /\
              v51 (Fe51 a0 a1 a2 a3 a4) = P25519 * (q9 + q) + v51 (Fe51 y0 y1 y2 y3 y4)) as [hr he]
    end end.
  { unfold v51, P25519. lia. }
  rewrite he. rewrite Z.mul_comm, Z.add_comm, Z.mod_add by (unfold P25519; lia).
  rewrite Z.mod_small by exact hr. reflexivity.
Qed.

Lemma P25519_pos : 0 < P25519.
Proof. reflexivity. Qed.

Lemma r51_bytes_ok a : bnd51 9223372036854775807 a ->
  r51_bytes a = le_bytes 32 (v51 a mod P25519).
Proof.
  intro ha. destruct (r51_setReduced_ok a ha) as [hr he].
  destruct a as [a0 a1 a2 a3 a4].
  rewrite <- he. clear he ha. set (x := r51_setReduced (Fe51 a0 a1 a2 a3 a4)) in *.
  set (g := le_bytes 32 (v51 x)).
  ev_open r51_bytes (r51_bytes (Fe51 a0 a1 a2 a3 a4)). fold x.
  clearbody x. destruct x as [t0 t1 t2 t3 t4]. unb. cbv iota.
  repeat ev_step. subst PP g. cbv beta.
  match goal with |- ?l = _ =>
    assert (hb : Forall is_byte l) by
      (repeat (constructor; [unfold is_byte; match goal with |- 0 <= ?x < 256 => assert (0 <= x <= 255) by bnd end; lia |]); constructor);
    change l with (id l); rewrite <- (le_bytes_le_val l hb : le_bytes 32 (le_val l) = l); unfold id
  end.
  f_equal. clear hb. merge_quots. clear_quots. cbn [le_val]. unfold v51. subst. ring.
Qed.

Lemma r51_setBytes_ok s : bytes 32 s ->
  bnd51 2251799813685247 (r51_setBytes s) /\ v51 (r51_setBytes s) = le_val s mod 2 ^ 255.
Proof.
  intro hs. split_bytes hs.
  match goal with |- context [r51_setBytes ?s] => set (x := s) at 1 2 end.
  match goal with |- context [r51_setBytes ?s] => pattern (r51_setBytes s) end.
  match goal with |- ?P _ => set (PP := P) end. subst x.
  match goal with |- _ ?t => let y := eval cbv beta iota delta [r51_setBytes at_ nth] in t in change (PP y) end.
  repeat ev_step. subst PP; cbv beta. refine (conj _ _); [bnd51_go|].
  match goal with |- v51 ?r = _ => assert (0 <= v51 r < 2 ^ 255) as hr by (unfold v51; clear -H0 H2 H4 H6 H8; lia) end.
  rewrite <- (Z.mod_small _ _ hr). symmetry.
  merge_quots. clear_quots. 
  match goal with H : context [_ - 128 * ?q] |- _ => 
  match goal with |- ?a mod _ = ?b mod _ => replace a with (b + q * 2 ^ 255) end end.
  - apply Z.mod_add. lia.
  - cbn [le_val]; unfold v51; subst. change (2 ^ 255) with 57896044618658097711785492504343953926634992332820282019728792003956564819968. ring.
Qed.

