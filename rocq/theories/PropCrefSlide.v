(** Property C54: the functions of /repo/cref/cref.c that nothing calls: scalar_slide and the wrappers.  [dval 2 r] is the sum
    of the r[i] 2^i, [at_ r i] is r[i]. *)
From Coq Require Import ZArith List Lia Bool.
From Verif Require Import Words Primes Fp Edwards GroupOrder RistrettoSpec FieldModel CurveModel WindowProofs Fe25Code Fe25Proofs
  CrefFe CrefCode CrefFacts CrefTable CrefMul CrefMulFacts CrefSlide CrefSlideFacts.
Import ListNotations.
Open Scope Z_scope.

(** scalar_slide: the digits are 0, or odd and below 2^(w-1), and followed by w - 1 zeros (6 zeros for w above 7, where
    digits do not exceed 127).  Their sum is the scalar below 2^255; above, a carry may be lost. *)
Theorem C54_slide : forall s w, bytes 32 s -> 2 <= w ->
  let r := cs_slide s w in
  length r = 256%nat /\
  (forall i, at_ r i = 0 \/ (Z.odd (at_ r i) = true /\ Z.abs (at_ r i) < 2 ^ (w - 1) /\ -64 < at_ r i < 128)) /\
  (forall i k, at_ r i <> 0 -> (i < k)%nat -> Z.of_nat k < Z.of_nat i + Z.min w 7 -> at_ r k = 0) /\
  (dval 2 r = le_val s \/ dval 2 r = le_val s - 2 ^ 256) /\
  (le_val s < 2 ^ 255 -> dval 2 r = le_val s).
Proof. exact CrefSlideProofs.cs_slide_spec. Qed.
Print Assumptions C54_slide.

(** For w up to 7 this determines the digits. *)
Theorem C54_slide_unique : forall s w r, bytes 32 s -> 2 <= w <= 7 -> le_val s < 2 ^ 255 -> length r = 256%nat ->
  (forall i, at_ r i = 0 \/ (Z.odd (at_ r i) = true /\ Z.abs (at_ r i) < 2 ^ (w - 1))) /\
  (forall i k, at_ r i <> 0 -> (i < k)%nat -> Z.of_nat k < Z.of_nat i + w -> at_ r k = 0) ->
  dval 2 r = le_val s -> r = cs_slide s w.
Proof. exact slide_unique. Qed.
Print Assumptions C54_slide_unique.

(** The digits that the Go function computeScalar5NAF writes are non-adjacent as well, and the same for the scalars that can
    be multiplied. *)
Theorem C54_go_naf : forall s r, bytes 32 s -> computeScalar5NAF s = Some r -> length r = 256%nat /\
  (forall i, at_ r i = 0 \/ (Z.odd (at_ r i) = true /\ Z.abs (at_ r i) < 2 ^ (5 - 1))) /\
  (forall i k, at_ r i <> 0 -> (i < k)%nat -> Z.of_nat k < Z.of_nat i + 5 -> at_ r k = 0).
Proof. exact go_is_naf. Qed.
Print Assumptions C54_go_naf.

Theorem C54_slide_go : forall s, bytes 32 s -> le_val s < 2 ^ 255 -> computeScalar5NAF s = Some (cs_slide s 5).
Proof. exact slide_go. Qed.
Print Assumptions C54_slide_go.

(** A window of one bit gives digits with another sum. *)
Theorem C54_slide_1_refuted : exists s, bytes 32 s /\ le_val s = 1 /\ dval 2 (cs_slide s 1) = 2 ^ 256 - 1.
Proof. exact slide_1_bad. Qed.
Print Assumptions C54_slide_1_refuted.

Theorem C54_slide_large_refuted : exists s, bytes 32 s /\ dval 2 (cs_slide s 5) = le_val s - 2 ^ 256.
Proof. exact slide_lost. Qed.
Print Assumptions C54_slide_large_refuted.

Theorem C54_field : v25 c_setone = 1 /\ v25 c_setzero = 0 /\ forall x y, bnd25 33554432 16944988 x -> bnd25 67108864 33889976 y ->
  c_iseq_vartime x y = Some (Z.b2z (v25 x mod p =? v25 y mod p)) /\ c_getparity x = Some ((v25 x mod p) mod 2).
Proof. exact rest_fe. Qed.
Print Assumptions C54_field.

Theorem C54_publicinputs : forall P Q A B s, cpoint P A -> cpoint Q B -> bytes 32 s -> le_val s < l ->
  (exists R, g_add_publicinputs P Q = Some R /\ cpoint R (Eadd A B)) /\
  (exists R, g_double_publicinputs P = Some R /\ cpoint R (Eadd A A)) /\
  (exists R, g_negate_publicinputs P = Some R /\ cpoint R (Eopp A)) /\
  (exists R, g_scalarmult_publicinputs P s = Some R /\ cpoint R (Emul (le_val s) A)) /\
  (exists R, g_scalarmult_base_publicinputs s = Some R /\ cpoint R (Emul (le_val s) EB)) /\
  (exists R, g_multiscalarmult_publicinputs [(P, s)] = Some R /\ cpoint R (Emul (le_val s) A)) /\
  (exists r, g_equals_publicinputs P Q = Some (Z.b2z r) /\ (r = true <-> In (Eadd A (Eopp B)) [E0; T2; T4; T4'])) /\
  (exists r, g_isneutral_publicinputs P = Some (Z.b2z r) /\ (r = true <-> Emul 8 A = E0)).
Proof. exact rest_group. Qed.
Print Assumptions C54_publicinputs.

(** 2^255 - 1 = -1 + 2^255 *)
Example C54_case : let s := le_bytes 32 (2 ^ 255 - 1) in bytes 32 s /\ le_val s < 2 ^ 255 /\ at_ (cs_slide s 5) 0 = -1 /\ at_ (cs_slide s 5) 255 = 1 /\
  cpoint g_base EB.
Proof. split; [apply le_bytes_bytes|]. split; [vm_compute; reflexivity|]. split; [vm_compute; reflexivity|]. split; [vm_compute; reflexivity|]. exact (proj1 cp_base). Qed.
