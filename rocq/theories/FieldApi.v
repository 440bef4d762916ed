(** The theorems of PropFieldApi.v. *)
From Coq Require Import ZArith List Lia Bool.
From Verif Require Import Words Primes Fp FieldModel FieldLaws StringModel StringFacts Backends FieldApiModel FieldApiSpec FieldApiProofs.
Import ListNotations.
Open Scope Z_scope.

Lemma q_isri a : 0 <= a < p -> 0 <= z_isri a < p /\ (z_flag a = true <-> a <> 0 /\ z_square a) /\ (a = 0 -> z_isri a = 0) /\
  (a <> 0 -> z_square a -> (z_isri a * z_isri a * a) mod p = 1) /\
  (a <> 0 -> ~ z_square a -> (z_isri a * z_isri a * ((fval Fi * a) mod p)) mod p = 1).
Proof.
  intro h. destruct (isri_val_spec (of_Z a)) as (s1 & s2 & s3). unfold z_isri, z_flag. rewrite (z_square_ok a h), (of_Z_0 a h) in *.
  refine (conj (fval_range _) (conj _ (conj _ (conj _ _)))).
  - split.
    + intro e. destruct (Z.eq_dec a 0) as [z|z]; [destruct (s1 z) as [e1 _]; rewrite e1 in e; discriminate e|]. split; [exact z|].
      destruct (is_sq_dec (of_Z a)) as [q|q]; [exact q|]. destruct (s3 z q) as [e1 _]. rewrite e1 in e. discriminate e.
    + intros [z q]. exact (proj1 (s2 z q)).
  - intro e. rewrite (proj2 (s1 e)). exact fv_F0.
  - intros z q. rewrite <- (sq_val _ a h), (proj2 (s2 z q)). exact fv_F1.
  - intros z q. pose proof (proj2 (s3 z q)) as e. rewrite <- fv_F1, <- e, fv_mul, (fv_mul Fi), (zval _ a h eq_refl), fv_mul, Zmult_mod_idemp_l.
    reflexivity.
Qed.

Lemma q_im : 0 <= fval Fi < p /\ (fval Fi * fval Fi) mod p = p - 1 /\ Z.even (fval Fi) = true.
Proof. refine (conj (fval_range _) (conj _ _)); vm_compute; reflexivity. Qed.

Lemma q_all : exists im inv isr isri flag dec,
  (0 <= im < p /\ (im * im) mod p = p - 1 /\ Z.even im = true) /\
  (forall a, 0 <= a < p -> 0 <= inv a < p /\ (a <> 0 -> (inv a * a) mod p = 1) /\ (a = 0 -> inv a = 0)) /\
  (forall a, 0 <= a < p -> 0 <= isr a < p /\ (a = 0 -> isr a = 0) /\ (a <> 0 -> ((isr a * isr a * a) mod p = 1 <-> z_square a))) /\
  (forall a, 0 <= a < p -> 0 <= isri a < p /\ (flag a = true <-> a <> 0 /\ z_square a) /\ (a = 0 -> isri a = 0) /\
    (a <> 0 -> z_square a -> (isri a * isri a * a) mod p = 1) /\
    (a <> 0 -> ~ z_square a -> (isri a * isri a * ((im * a) mod p)) mod p = 1)) /\
  (forall a, 0 <= a < p -> number (dec a) = a /\ Forall digit (dec a) /\ ((a = 0 /\ dec a = [48]) \/ exists c r, dec a = c :: r /\ c <> 48)) /\
  forall b prog, Forall q_typed prog ->
    fst (q_run (ops b) prog (q_init (ops b))) = fst (z_run im inv isr isri flag dec prog (fun _ => 0)) /\
    forall i, limbs b 2 (snd (q_run (ops b) prog (q_init (ops b))) i) /\
      value b (snd (q_run (ops b) prog (q_init (ops b))) i) mod p = snd (z_run im inv isr isri flag dec prog (fun _ => 0)) i.
Proof.
  exists (fval Fi), z_inv, z_isr, z_isri, z_flag, decimal.
  refine (conj q_im (conj q_inv (conj q_isr (conj q_isri (conj decimal_ok _))))).
  intros b prog ht. destruct (run_ok (laws b) (room b) prog _ _ ht (init_ok (laws b))) as [e1 e2]. refine (conj e1 _).
  intro i. destruct (e2 i) as (f & hf & ef). rewrite rel_iff in hf. destruct hf as [hb hv]. refine (conj hb _).
  rewrite ef, <- hv. symmetry. apply fval_of_Z.
Qed.

Lemma q_same b c prog : Forall q_typed prog ->
  fst (q_run (ops b) prog (q_init (ops b))) = fst (q_run (ops c) prog (q_init (ops c))).
Proof.
  intro ht. destruct (run_ok (laws b) (room b) prog _ _ ht (init_ok (laws b))) as [e1 _].
  destruct (run_ok (laws c) (room c) prog _ _ ht (init_ok (laws c))) as [e2 _]. rewrite e1, e2. reflexivity.
Qed.

(** -1 and 2 written to variables and serialised, then subtracted without normalisation by Equals, added, and squared *)
Definition q_prog : list qcall :=
  [QSetBigInt 0 (-1); QBytesInto 0; QSetBytes 1 (2 :: repeat 0 31); QBytes 1; QEquals 0 1; QSub 2 0 1; QBigInt 2; QAdd 2 2 2; QNeg 2 2; QAbs 2 2;
   QIsNegativeI 2; QMul 3 0 0; QIsOneI 3; QCond 3 1 true; QEqualsI 3 1; QDoubledSquare 3 1; QString 3].
Definition q_seen : list qobs :=
  [QNone; QBuf (236 :: repeat 255 30 ++ [127]); QNone; QBuf (2 :: repeat 0 31); QBool false; QNone;
   QInt 57896044618658097711785492504343953926634992332820282019728792003956564819946; QNone; QNone; QNone; QInt 0; QNone; QInt 1; QNone; QInt 1; QNone; QText [56]].
Lemma q_case : Forall q_typed q_prog /\ forall b, fst (q_run (ops b) q_prog (q_init (ops b))) = q_seen.
Proof.
  split.
  - unfold q_prog. repeat (constructor; [first [exact Logic.I | split; [reflexivity | repeat (constructor; [unfold is_byte; lia|]); constructor]]|]). constructor.
  - intros [| |]; vm_compute; reflexivity.
Qed.
