(** Properties C01 to C10: the type [Scalar].

    [scv s] is the integer value of the eight 32-bit words of [s], [sc_words s] says that
    each word is in the range of uint32, [reduced s] adds [0 <= scv s < l]; [le_val] is the
    little-endian value of a byte string and [bytes n x] says that [x] has [n] bytes. *)
From Coq Require Import ZArith List Lia Bool.
From Verif Require Import Words Primes ScalarCode ScalarModel ScalarReduce ScalarSub ScalarFacts.
Import ListNotations.
Open Scope Z_scope.

(** Sample scalars for the examples: l - 1, and the largest word array. *)
Definition sc_lm1 : sc := Sc 0x5cf5d3ec 0x5812631a 0xa2f79cd6 0x14def9de 0 0 0 0x10000000.
Definition sc_max : sc := Sc 0xffffffff 0xffffffff 0xffffffff 0xffffffff 0xffffffff 0xffffffff 0xffffffff 0xffffffff.

Lemma sc_lm1_reduced : reduced sc_lm1 /\ scv sc_lm1 = l - 1.
Proof. unfold reduced. rewrite l_lit. cbn [sc_lm1 sc_words scv]. lia. Qed.
Lemma sc_max_words : sc_words sc_max.
Proof. cbn [sc_max sc_words]. lia. Qed.

(** ** C01 *)

Theorem C01_add : forall a b, reduced a -> reduced b ->
  reduced (sc_add a b) /\ scv (sc_add a b) = (scv a + scv b) mod l.
Proof. exact add_spec. Qed.
Print Assumptions C01_add.

Theorem C01_sub : forall a b, reduced a -> reduced b ->
  reduced (sc_sub a b) /\ scv (sc_sub a b) = (scv a - scv b) mod l.
Proof. exact sub_spec. Qed.
Print Assumptions C01_sub.

Theorem C01_neg : forall a, reduced a -> reduced (sc_neg a) /\ scv (sc_neg a) = (- scv a) mod l.
Proof. exact neg_spec. Qed.
Print Assumptions C01_neg.

(** Exactly what [Sub] and [Add] do to words that need not be reduced. *)
Theorem C01_sub_words : forall a b, sc_words a -> sc_words b -> sc_words (sc_sub a b) /\
  scv (sc_sub a b) = if scv a <? scv b then (scv a - scv b + l) mod 2 ^ 256 else scv a - scv b.
Proof. intros a b ha hb. rewrite l_lit. exact (sub_ok a b ha hb). Qed.
Print Assumptions C01_sub_words.

Theorem C01_add_words : forall a b, sc_words a -> sc_words b -> sc_words (sc_add a b) /\
  scv (sc_add a b) = let t := (scv a + scv b) mod 2 ^ 256 in if t <? l then t else t - l.
Proof. intros a b ha hb. rewrite l_lit. exact (add_ok a b ha hb). Qed.
Print Assumptions C01_add_words.

Example C01_ex : reduced sc_lm1 /\ sc_add sc_lm1 sc_lm1 = Sc 0x5cf5d3eb 0x5812631a 0xa2f79cd6 0x14def9de 0 0 0 0x10000000
  /\ sc_add sc_lm1 scOne = scZero /\ sc_sub scZero scOne = sc_lm1 /\ sc_neg sc_lm1 = scOne.
Proof. split; [exact (proj1 sc_lm1_reduced)|]. vm_compute. auto. Qed.

(** ** C02 *)

Theorem C02_mul : forall a b, sc_words a -> sc_words b ->
  reduced (sc_mul a b) /\ scv (sc_mul a b) = (scv a * scv b) mod l.
Proof. exact mul_spec. Qed.
Print Assumptions C02_mul.

Theorem C02_square : forall a, sc_words a -> reduced (sc_square a) /\ scv (sc_square a) = (scv a * scv a) mod l.
Proof. exact square_spec. Qed.
Print Assumptions C02_square.

Theorem C02_mulAdd : forall a b c, sc_words a -> sc_words b -> sc_words c ->
  reduced (sc_mulAdd a b c) /\ scv (sc_mulAdd a b c) = (scv a * scv b + scv c) mod l.
Proof. exact mulAdd_spec. Qed.
Print Assumptions C02_mulAdd.

Theorem C02_mulSub : forall a b c, sc_words a -> sc_words b -> sc_words c ->
  reduced (sc_mulSub a b c) /\ scv (sc_mulSub a b c) = (scv a * scv b - scv c) mod l.
Proof. exact mulSub_spec. Qed.
Print Assumptions C02_mulSub.

Example C02_ex : sc_words sc_max /\ scv (sc_mul sc_max sc_max) = ((2 ^ 256 - 1) * (2 ^ 256 - 1)) mod l
  /\ sc_mul sc_lm1 sc_lm1 = scOne /\ scv (sc_mulSub sc_max sc_max sc_max) = ((2 ^ 256 - 1) * (2 ^ 256 - 2)) mod l.
Proof. split; [exact sc_max_words|]. vm_compute. auto. Qed.

(** ** C03 *)

Theorem C03_setReduced : forall t, bytes 64 t -> reduced (sc_setReduced t) /\ scv (sc_setReduced t) = le_val t mod l.
Proof. exact setReduced_spec. Qed.
Print Assumptions C03_setReduced.

(** [Rand] and [Derive], for whatever the random source or the hash returns. *)
Theorem C03_rand : forall buf, bytes 64 buf -> reduced (sc_rand buf) /\ scv (sc_rand buf) = le_val buf mod l.
Proof. exact setReduced_spec. Qed.
Print Assumptions C03_rand.

Theorem C03_derive : forall (sha512 : list Z -> list Z) buf, bytes 64 (sha512 buf) ->
  reduced (sc_derive sha512 buf) /\ scv (sc_derive sha512 buf) = le_val (sha512 buf) mod l.
Proof. intros sha512 buf h. exact (setReduced_spec _ h). Qed.
Print Assumptions C03_derive.

Example C03_ex : bytes 64 (repeat 255 64) /\ scv (sc_setReduced (repeat 255 64)) = (2 ^ 512 - 1) mod l.
Proof.
  split; [|vm_compute; reflexivity]. split; [reflexivity|]. apply Forall_forall. intros b hb. apply repeat_spec in hb.
  subst. unfold is_byte. lia.
Qed.

(** ** C04 *)

Theorem C04_inverse : forall t, sc_words t -> reduced (sc_inverse t) /\
  (scv t mod l <> 0 -> (scv (sc_inverse t) * scv t) mod l = 1) /\
  (scv t mod l = 0 -> scv (sc_inverse t) = 0).
Proof. exact inverse_spec. Qed.
Print Assumptions C04_inverse.

Example C04_ex : scv (Sc 2 0 0 0 0 0 0 0) mod l <> 0 /\
  (scv (sc_inverse (Sc 2 0 0 0 0 0 0 0)) * 2) mod l = 1 /\ scv (sc_inverse scL) = 0.
Proof.
  assert (h : scv (Sc 2 0 0 0 0 0 0 0) mod l <> 0) by (vm_compute; discriminate).
  split; [exact h|]. split.
  - exact (proj1 (proj2 (C04_inverse (Sc 2 0 0 0 0 0 0 0) ltac:(cbn [sc_words]; lia))) h).
  - refine (proj2 (proj2 (C04_inverse scL (proj2 scL_ok))) _). vm_compute. reflexivity.
Qed.

(** ** C05 *)

Theorem C05_setBytes : forall x, bytes 32 x ->
  reduced (sc_setBytes x) /\ scv (sc_setBytes x) = (le_val x mod 2 ^ 253) mod l.
Proof. exact setBytes_spec. Qed.
Print Assumptions C05_setBytes.

Theorem C05_unmarshalBinary : forall s data, Forall is_byte data ->
  (length data = 32%nat -> exists r, sc_unmarshalBinary s data = (r, true) /\ reduced r /\
     scv r = (le_val data mod 2 ^ 253) mod l) /\
  (length data <> 32%nat -> sc_unmarshalBinary s data = (s, false)).
Proof.
  intros s data hf. unfold sc_unmarshalBinary. split; intro hl.
  - rewrite hl, Nat.eqb_refl. exists (sc_setBytes data).
    exact (conj eq_refl (setBytes_spec data (conj hl hf))).
  - apply Nat.eqb_neq in hl. rewrite hl. reflexivity.
Qed.
Print Assumptions C05_unmarshalBinary.

Example C05_ex : bytes 32 (repeat 255 32) /\ scv (sc_setBytes (repeat 255 32)) = 2 ^ 253 - 1 - l.
Proof.
  split; [|vm_compute; reflexivity]. split; [reflexivity|]. apply Forall_forall. intros b hb. apply repeat_spec in hb.
  subst. unfold is_byte. lia.
Qed.

(** ** C06 *)

Theorem C06_setBytesStrict : forall s x, bytes 32 x ->
  (le_val x < l -> exists r, sc_setBytesStrict s x = (r, true) /\ reduced r /\ scv r = le_val x) /\
  (l <= le_val x -> sc_setBytesStrict s x = (s, false)).
Proof.
  intros s x hx. rewrite (setBytesStrict_ok s x hx). split; intro h.
  - apply Z.ltb_lt in h as h'. rewrite h'. exists (load_words x). destruct (load_words_ok x hx) as [h1 h2].
    split; [reflexivity|]. rewrite <- h2. split; [split; [exact h1|]|reflexivity].
    pose proof (scv_range _ h1). lia.
  - apply Z.ltb_ge in h. rewrite h. reflexivity.
Qed.
Print Assumptions C06_setBytesStrict.

Example C06_ex : snd (sc_setBytesStrict scZero (le_bytes 32 (l - 1))) = true
  /\ snd (sc_setBytesStrict scZero (le_bytes 32 l)) = false.
Proof. vm_compute. auto. Qed.

(** ** C07 *)

Theorem C07_bytes : forall s, sc_words s -> bytes 32 (sc_Bytes s) /\ le_val (sc_Bytes s) = scv s
  /\ sc_marshalBinary s = sc_Bytes s.
Proof. intros s hs. exact (conj (proj1 (sc_bytes_ok s hs)) (conj (proj2 (sc_bytes_ok s hs)) eq_refl)). Qed.
Print Assumptions C07_bytes.

Theorem C07_round_trip : forall s r, reduced s ->
  sc_setBytes (sc_Bytes s) = s /\ sc_setBytesStrict r (sc_Bytes s) = (s, true) /\
  sc_unmarshalBinary r (sc_marshalBinary s) = (s, true).
Proof.
  intros s r hs. pose proof (setBytes_bytes s hs) as e. destruct hs as [hw hr].
  destruct (sc_bytes_ok s hw) as [h1 h2]. split; [exact e|]. split.
  - unfold sc_Bytes. rewrite (setBytesStrict_ok r _ h1), h2. rewrite (proj2 (Z.ltb_lt _ _)) by apply hr.
    now rewrite load_words_bytes.
  - unfold sc_unmarshalBinary, sc_marshalBinary, sc_Bytes. rewrite (proj1 h1), Nat.eqb_refl.
    unfold sc_Bytes in e. rewrite e. reflexivity.
Qed.
Print Assumptions C07_round_trip.

(** and the other way round: what a canonical string decodes to encodes to that string *)
Theorem C07_canonical : forall x, bytes 32 x -> le_val x < l -> sc_Bytes (sc_setBytes x) = x.
Proof. exact bytes_setBytes. Qed.
Print Assumptions C07_canonical.

Theorem C07_injective : forall a b, sc_words a -> sc_words b -> sc_Bytes a = sc_Bytes b -> a = b.
Proof.
  intros a b ha hb e. apply scv_inj; auto. rewrite <- (proj2 (sc_bytes_ok a ha)), <- (proj2 (sc_bytes_ok b hb)).
  unfold sc_Bytes in e. now rewrite e.
Qed.
Print Assumptions C07_injective.

Example C07_ex : reduced sc_lm1 /\ sc_Bytes sc_lm1 =
  [0xec; 0xd3; 0xf5; 0x5c; 0x1a; 0x63; 0x12; 0x58; 0xd6; 0x9c; 0xf7; 0xa2; 0xde; 0xf9; 0xde; 0x14;
   0; 0; 0; 0; 0; 0; 0; 0; 0; 0; 0; 0; 0; 0; 0; 0x10].
Proof. split; [apply sc_lm1_reduced|]. vm_compute. reflexivity. Qed.

(** ** C08 *)

Theorem C08_setBigInt : forall x, reduced (sc_setBigInt x) /\ scv (sc_setBigInt x) = x mod l.
Proof. exact setBigInt_spec. Qed.
Print Assumptions C08_setBigInt.

Theorem C08_bigInt : forall s, sc_words s -> sc_bigInt s = scv s.
Proof. exact bigInt_ok. Qed.
Print Assumptions C08_bigInt.

Theorem C08_setUint64 : forall x, 0 <= x < 2 ^ 64 -> reduced (sc_setUint64 x) /\ scv (sc_setUint64 x) = x.
Proof. exact setUint64_spec. Qed.
Print Assumptions C08_setUint64.

Theorem C08_deriveShort : forall (sha512 : list Z -> list Z) buf, bytes 64 (sha512 buf) ->
  reduced (sc_deriveShort sha512 buf) /\ scv (sc_deriveShort sha512 buf) = le_val (firstn 16 (sha512 buf)).
Proof. exact deriveShort_spec. Qed.
Print Assumptions C08_deriveShort.

Theorem C08_set : (reduced sc_setZero /\ scv sc_setZero = 0) /\ (reduced sc_setOne /\ scv sc_setOne = 1) /\
  (forall t, sc_set t = t).
Proof. exact (conj scZero_ok (conj scOne_ok (fun t => eq_refl))). Qed.
Print Assumptions C08_set.

Example C08_ex : scv (sc_setBigInt (-1)) = l - 1 /\ scv (sc_setBigInt (2 ^ 300)) = 2 ^ 300 mod l
  /\ sc_bigInt sc_lm1 = l - 1 /\ scv (sc_setUint64 (2 ^ 64 - 1)) = 2 ^ 64 - 1.
Proof. vm_compute. auto. Qed.

(** ** C09 *)

Theorem C09_isNonZeroI : forall s, sc_words s ->
  (sc_isNonZeroI s = 0 <-> s = scZero) /\ (sc_isNonZeroI s = 1 <-> s <> scZero).
Proof.
  intros s hs. rewrite (isNonZeroI_ok s hs).
  assert (H : scv s = 0 <-> s = scZero).
  { split; [|intros ->; reflexivity]. intro h. apply scv_inj; auto; apply scZero_ok. }
  destruct (Z.eqb_spec (scv s) 0) as [e|e]; cbn; rewrite H in e; split; split; intro h; try congruence; try lia; contradiction.
Qed.
Print Assumptions C09_isNonZeroI.

Theorem C09_equals : forall a b, reduced a -> reduced b ->
  (sc_equals a b = true <-> scv a = scv b) /\ (sc_equalsI a b = 1 <-> scv a = scv b) /\
  (sc_equalsI a b = 0 <-> scv a <> scv b).
Proof.
  intros a b ha hb. pose proof (equals_spec a b ha hb) as H.
  rewrite (equalsI_b2z a b (reduced_words a ha) (reduced_words b hb)).
  split; [exact H|]. destruct (sc_equals a b); cbn; split; split; intro h; try congruence; try lia;
    try (apply H; reflexivity); try (apply H in h; congruence).
Qed.
Print Assumptions C09_equals.

(** Words that are not reduced: [Equals] also accepts a right operand larger by l. *)
Theorem C09_equals_words : forall a b, sc_words a -> sc_words b ->
  (sc_equals a b = true <-> scv a = scv b \/ scv b = scv a + l).
Proof. exact equals_words. Qed.
Print Assumptions C09_equals_words.

Example C09_ex : sc_isNonZeroI (Sc 0 0 0 0 0 0 0 0x80000000) = 1 /\ sc_equals sc_lm1 sc_lm1 = true
  /\ sc_equals sc_lm1 scZero = false /\ sc_equals scZero scL = true /\ sc_equals scL scZero = false.
Proof. vm_compute. auto. Qed.

(** ** C10: the scalar part *)

Theorem C10_scalar : forall s t b, sc_words s -> sc_words t -> b = 0 \/ b = 1 ->
  sc_condSet s t b = if b =? 1 then t else s.
Proof.
  intros s t b hs ht [-> | ->].
  - exact (condSet_ok s t false hs ht).
  - exact (condSet_ok s t true hs ht).
Qed.
Print Assumptions C10_scalar.

Example C10_ex : sc_condSet sc_max sc_lm1 1 = sc_lm1 /\ sc_condSet sc_max sc_lm1 0 = sc_max.
Proof. vm_compute. auto. Qed.
