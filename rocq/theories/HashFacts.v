(** Derive, DeriveShort and DeriveDalek with SHA-512. *)
From Coq Require Import ZArith List Lia Bool.
From Verif Require Import Words Primes Fp Edwards GroupOrder RistrettoSpec FieldModel CurveModel FieldLaws EncodeProofs
  RistrettoModel RistrettoFacts ElligatorSpec ElligatorMath LizardProofs Backends RfcProofs RfcFacts RfcExamples
  ScalarCode ScalarModel ScalarReduce ScalarFacts Sha512.
From Verif Require Rfc9496 Points51 Generic25.
Import ListNotations.
Open Scope Z_scope.

Lemma hash_bytes x : bytes 64 x -> bytes 32 (firstn 32 x) /\ bytes 32 (skipn 32 x).
Proof.
  intros [hl hb]. rewrite <- (firstn_skipn 32 x) in hb. apply Forall_app in hb. destruct hb as [h1 h2].
  split; split; [rewrite firstn_length, hl; reflexivity | exact h1 | rewrite skipn_length, hl; reflexivity | exact h2].
Qed.

Lemma b_zero_bytes b : pt_Bytes (ops b) (pt_SetZero (ops b)) = repeat 0 32.
Proof.
  pose proof (proj1 (proj1 (b_const b))) as h. pose proof (point_stands b _ _ h) as hs.
  rewrite (r_encode b _ E0 _ h (same_stands _ _ E0 hs hs)), (enc_class _ E0 hs even_0 F0 E0 Generic25.encodes_0 (Req_refl E0)).
  vm_compute. reflexivity.
Qed.

(** Derive agrees with the derivation of the RFC exactly when the second half of the hash maps to the identity. *)
Lemma derive_agrees b h buf : bytes 64 (h buf) ->
  (pt_Bytes (ops b) (pt_Derive (ops b) h buf) = Rfc9496.ENCODE (Rfc9496.DERIVE (h buf)) <->
   Rfc9496.ENCODE (Rfc9496.MAP (Rfc9496.mask255 (skipn 32 (h buf)))) = repeat 0 32).
Proof.
  intro hh. destruct (hash_bytes _ hh) as [h1 h2].
  destruct (r_derive b h buf hh) as (_ & <- & _). unfold pt_Derive, pt_DeriveDalek. cbv zeta.
  destruct (b_elligator b _ h1) as (A & hA & mA). destruct (b_elligator b _ h2) as (B & hB & mB).
  destruct (b_add b _ _ A B (proj1 hA) hB) as [[hP _] _].
  rewrite <- (r_encode b _ B _ (proj1 hB) (r_map b _ h2)).
  rewrite (proj2 (b_bytes b b _ _ _ _ (proj1 hA) hP)), <- (b_zero_bytes b), (proj2 (b_bytes b b _ _ _ _ (proj1 hB) (proj1 (proj1 (b_const b))))).
  rewrite <- !Points51.Req_torsion. unfold Req, Esub.
  replace (Eadd A (Eopp (Eadd A B))) with (Eopp B) by (rewrite Eopp_add, Eadd_assoc, Eadd_opp, Eadd_0_l; reflexivity).
  rewrite Eopp_0, Eadd_0_r. rewrite Emul_opp_r. split; intro e; [rewrite <- (Eopp_opp (Emul 4 B)), e; apply Eopp_0 | rewrite e; apply Eopp_0].
Qed.

(** The hash of "test1" *)
Lemma sha_test1 : sha512 [116; 101; 115; 116; 49] =
  [177; 110; 215; 210; 75; 62; 203; 212; 22; 77; 205; 173; 55; 78; 8; 192; 171; 117; 24; 170; 7; 249; 211; 104; 63; 52; 194; 179; 198; 122; 21; 131; 2; 104; 203; 74; 86; 193; 255; 111; 84; 200; 229; 74; 121; 95; 91; 135; 192; 134; 104; 181; 31; 130; 208; 9; 63; 123; 174; 231; 210; 152; 17; 129].
Proof. vm_compute. reflexivity. Qed.

Lemma map_test1 A : rfc_map (of_Z 483404000116928062063973440917280500222903798403758648087645707545608939522) A -> ~ In A [E0; T2; T4; T4'].
Proof.
  intros h hi. assert (hA : ex A = F0 \/ ey A = F0).
  { apply E4_iff. apply E4_list. destruct hi as [<-|[<-|[<-|[<-|[]]]]]; auto. }
  destruct (rfc_ell _ A h) as (s & t & he & hb & hx & hy).
  assert (s0 : s <> F0).
  { intro e. apply (ell_s0 _ s t he) in e. destruct e as [e|[e|e]]; apply (f_equal fval) in e; vm_compute in e; discriminate e. }
  destruct hA as [hA|hA].
  - apply s0. apply (below_x0 s t A (conj hb (conj hx hy)) hA).
  - rewrite hA in hy. assert (e : (s * s)%F = F1).
    { symmetry. apply Fsub_0. rewrite <- hy. ring. }
    destruct he as [(_ & e1 & _)|[(_ & _ & _ & e1 & _)|(_ & _ & _ & e1 & _)]]; [destruct (s0 e1) | |];
      rewrite e in e1; apply (f_equal fval) in e1; vm_compute in e1; discriminate e1.
Qed.

Lemma derive_no_sha b : let m := [116; 101; 115; 116; 49] in
  pt_Bytes (ops b) (pt_Derive (ops b) sha512 m) <> Rfc9496.ENCODE (Rfc9496.DERIVE (sha512 m)).
Proof.
  cbv zeta. set (m := [116; 101; 115; 116; 49]). intro e0. pose proof (proj1 (derive_agrees b sha512 m (sha512_bytes m)) e0) as e. clear e0.
  destruct (hash_bytes _ (sha512_bytes m)) as [_ h2]. destruct (b_elligator b _ h2) as (B & hB & mB).
  rewrite <- (r_encode b _ B _ (proj1 hB) (r_map b _ h2)), <- (b_zero_bytes b) in e.
  apply (b_bytes b b _ _ _ _ (proj1 hB) (proj1 (proj1 (b_const b)))) in e. rewrite Eopp_0, Eadd_0_r in e.
  apply (map_test1 B); [|exact e].
  replace (of_Z _) with (fe_of (skipn 32 (sha512 m))); [exact mB|]. unfold m. rewrite sha_test1. apply F_eq. vm_compute. reflexivity.
Qed.

Lemma scalar_sha m :
  reduced (sc_derive sha512 m) /\ scv (sc_derive sha512 m) = le_val (sha512 m) mod Primes.l /\
  reduced (sc_deriveShort sha512 m) /\ scv (sc_deriveShort sha512 m) = le_val (firstn 16 (sha512 m)).
Proof. destruct (setReduced_spec _ (sha512_bytes m)) as [h1 h2]. destruct (deriveShort_spec sha512 m (sha512_bytes m)) as [h3 h4]. exact (conj h1 (conj h2 (conj h3 h4))). Qed.

Lemma point_sha b m :
  pt_Bytes (ops b) (pt_DeriveDalek (ops b) sha512 m) = Rfc9496.ENCODE (Rfc9496.DERIVE (sha512 m)) /\
  pt_Bytes (ops b) (pt_Derive (ops b) sha512 m) = Rfc9496.ENCODE (Rfc9496.MAP (Rfc9496.mask255 (firstn 32 (sha512 m)))).
Proof.
  destruct (r_derive b sha512 m (sha512_bytes m)) as (_ & e & h). split; [exact e|].
  destruct (hash_bytes _ (sha512_bytes m)) as [h1 _]. destruct (b_elligator b _ h1) as (A & hA & _).
  exact (r_encode b _ A _ (proj1 hA) h).
Qed.

(** the vectors of TestScDerive and TestScDeriveShort, /repo/scalar_test.go:264-290, for "test1" *)
Lemma derive_test1 :
  sc_bytes (sc_derive sha512 [116; 101; 115; 116; 49]) =
    [244; 242; 186; 14; 204; 192; 86; 195; 34; 65; 181; 231; 246; 72; 255; 230; 191; 135; 7; 115; 224; 145; 4; 240; 253; 44; 40; 251; 215; 252; 84; 2] /\
  sc_bytes (sc_deriveShort sha512 [116; 101; 115; 116; 49]) =
    [177; 110; 215; 210; 75; 62; 203; 212; 22; 77; 205; 173; 55; 78; 8; 192; 0; 0; 0; 0; 0; 0; 0; 0; 0; 0; 0; 0; 0; 0; 0; 0].
Proof. unfold sc_derive, sc_deriveShort. rewrite sha_test1. split; vm_compute; reflexivity. Qed.
