(** Integer conversions of field elements over a lawful backend. *)
From Coq Require Import ZArith List Lia Bool.
From Verif Require Import Words Primes Fp ScalarModel ScalarFacts FieldModel FieldLaws.
Import ListNotations.
Open Scope Z_scope.

Section Facts.
Context {K : FeOps} (L : FeLaws K).

Lemma fe_BigInt_ok n x f : rel L n x f -> n <= cL L ->
  exists x', fe_BigInt K x = (fval f, x') /\ rel L (Z.max n (cB L)) x' f.
Proof.
  intros h hn. destruct (law_bytes K L n x f h hn) as (x' & e & h'). exists x'. split; [|exact h'].
  unfold fe_BigInt, big_SetBytes. rewrite e. apply (f_equal (fun v => (v, x'))).
  transitivity (le_val (le_bytes 32 (fval f))); [|apply le_val_le_bytes, fval_256]. apply (f_equal le_val).
  etransitivity; [|exact (map_nth_seq (le_bytes 32 (fval f)))]. rewrite le_bytes_length. rewrite <- map_rev. reflexivity.
Qed.

Lemma fe_SetBigInt_ok x : rel L 1 (fe_SetBigInt K x) (of_Z x).
Proof.
  unfold fe_SetBigInt. cbv zeta.
  assert (ep : 0x7fffffffffffffffffffffffffffffffffffffffffffffffffffffffffffffed = p) by (vm_compute; reflexivity).
  rewrite ep. pose proof p_pos as hp. pose proof (Z.mod_pos_bound x p hp) as hm.
  assert (hp2 : p < 2 ^ 255) by (vm_compute; reflexivity).
  rewrite setBigInt_list by lia.
  pose proof (law_setBytes K L (le_bytes 32 (x mod p)) (le_bytes_bytes _ _)) as h.
  rewrite le_val_le_bytes in h by (change (256 ^ Z.of_nat 32) with (2 ^ 256); lia).
  rewrite (Z.mod_small (x mod p)) in h by lia. rewrite of_Z_mod in h. exact h.
Qed.

End Facts.
