(** Theorems about the package cref (CrefGo.v). *)
From Coq Require Import ZArith Znumtheory List Lia Bool Ring Field.
From Verif Require Import Words Primes Fp Edwards GroupOrder RistrettoSpec Fe25Code Fe25Proofs Fe25Laws FieldModel CurveModel FieldLaws CurveProofs EncodeProofs
  RistrettoModel RistrettoFacts Backends BackendsMore ScalarCode ScalarModel ScalarReduce ScalarFacts ElligatorSpec ElligatorMath LizardProofs
  CLang CrefFe CrefCode CrefFacts CrefScalarOps CrefPtr ApiModel ApiSpec ApiProofs ApiIdeal BijFacts CrefGo CrefGoSpec CrefGoProofs.
From Verif Require Points51.
Import ListNotations.
Open Scope Z_scope.

(** ** Histories *)
Section Run.
Context (enc : Z -> list Z) (dec : list Z -> option Z) (ell : list Z -> Z) (coords : Z -> Z -> Z -> Z -> option Z).
Context (HG : go_functions enc dec ell) (HC : forall x y z t m, coords x y z t = Some m -> has_coords x y z t m).

Lemma kg_history np nf prog os k : Forall (c_typed np nf) prog -> krun enc dec ell coords prog kinit = Some (os, k) ->
  exists s, crun np nf prog cinit = Some (os, s).
Proof.
  intros ht e. destruct (krun_ok enc dec ell coords HG HC np nf prog cinit kinit os k (CrefGoProofs.corr_init np nf) ht e) as (s & e1 & _). exists s. exact e1.
Qed.

Lemma pack_of np nf f s v : cstep np nf (FePack f) s = Some (OBytes v, s) <-> c_pack (c_mem s (fe_addr np f)) = Some v.
Proof.
  unfold cstep. generalize (c_pack (c_mem s (fe_addr np f))). intros [o|]; split; intro h; try discriminate h; [injection h as ->|injection h as ->]; reflexivity.
Qed.

Lemma kg_coords np nf prog os k g m : Forall (c_typed np nf) prog -> krun enc dec ell coords prog kinit = Some (os, k) -> (g < np)%nat -> k_val coords k g = Some m ->
  exists s x y z t, crun np nf prog cinit = Some (os, s) /\ has_coords x y z t m /\
    (cstep np nf (FePack (FX g)) s = Some (OBytes (le_bytes 32 x), s) /\ cstep np nf (FePack (FY g)) s = Some (OBytes (le_bytes 32 y), s) /\
     cstep np nf (FePack (FZ g)) s = Some (OBytes (le_bytes 32 z), s) /\ cstep np nf (FePack (FT g)) s = Some (OBytes (le_bytes 32 t), s)).
Proof.
  intros ht e hg hm. destruct (krun_ok enc dec ell coords HG HC np nf prog cinit kinit os k (CrefGoProofs.corr_init np nf) ht e) as (s & e1 & hc).
  destruct (val_ok coords HC np nf s k g m hc hg hm) as (A & hA & hd). exists s.
  destruct hA as ((b1 & b2 & b3 & b4) & h0 & h1 & h2 & h3).
  exists (v25 (c_mem s (ge_addr g + 0)%nat) mod p), (v25 (c_mem s (ge_addr g + 1)%nat) mod p), (v25 (c_mem s (ge_addr g + 2)%nat) mod p), (v25 (c_mem s (ge_addr g + 3)%nat) mod p).
  refine (conj e1 (conj _ _)).
  - exists A. rewrite !Fp.of_Z_mod. refine (conj (conj h0 (conj h1 (conj h2 h3))) (conj (proj1 hd) _)). apply Points51.Req_torsion. exact (proj2 hd).
  - rewrite !pack_of. cbn [fe_addr]. unfold ge_addr in *.
    refine (conj _ (conj _ (conj _ _))); apply cf_pack;
    [apply (bnd25_le 67108864 33889976); [lia|lia|exact b1] | apply (bnd25_le 33554432 16944988); [lia|lia|exact b2]
    | apply (bnd25_le 33554432 16944988); [lia|lia|exact b3] | apply (bnd25_le 33554432 16944988); [lia|lia|exact b4]].
Qed.
End Run.

(** ** The functions exist *)
Lemma kg_functions : go_functions enc dec ell.
Proof.
  split; [|split; [exact dec_ok|]].
  - intros b s hs. pose proof (mult_point b s hs) as hp. destruct (b_encodes b _ _ hp) as (t & e & ht). rewrite e.
    apply (enc_encodes t (Emul (scv s) EBc)); [exact ht|]. apply dlog_base. exact (proj2 hs).
  - intros b buf hb. destruct (b_elligator b buf hb) as (A & [hA _] & rA). pose proof (ell_ok buf A hb rA) as hd. split; [exact (proj1 hd)|].
    destruct (b_encodes b _ _ hA) as (t & e & ht). rewrite e. exact (enc_encodes t A _ ht hd).
Qed.

Lemma bounded (P : Z -> Prop) (d : forall m, {P m} + {~ P m}) : forall N, {m | 0 <= m < Z.of_nat N /\ P m} + {forall m, 0 <= m < Z.of_nat N -> ~ P m}.
Proof.
  induction N as [|N IH]; [right; lia|]. destruct IH as [(m & h1 & h2)|h].
  - left. exists m. split; [lia | exact h2].
  - destruct (d (Z.of_nat N)) as [y|n]; [left; exists (Z.of_nat N); split; [lia|exact y]|]. right. intros m hm.
    destruct (Z.eq_dec m (Z.of_nat N)) as [->|ne]; [exact n | apply h; lia].
Qed.

Lemma has_dec x y z t m : {has_coords x y z t m} + {~ has_coords x y z t m}.
Proof.
  destruct (F_dec (of_Z z) F0) as [h0|h0]; [right; intros (A & (h & _) & _); exact (h h0)|].
  set (u := (of_Z x / of_Z z)%F). set (v := (of_Z y / of_Z z)%F).
  assert (huv : forall A, of_Z x = (ex A * of_Z z)%F -> of_Z y = (ey A * of_Z z)%F -> ex A = u /\ ey A = v).
  { intros A e1 e2. unfold u, v. rewrite e1, e2. split; field; exact h0. }
  destruct (bool_dec (on_curveb u v) true) as [hc|hc]; [|right; intros (A & (_ & e1 & e2 & _) & _); destruct (huv A e1 e2) as [<- <-]; exact (hc (eok A))].
  set (A := mkE u v hc).
  assert (hA : forall B, of_Z x = (ex B * of_Z z)%F -> of_Z y = (ey B * of_Z z)%F -> B = A).
  { intros B e1 e2. destruct (huv B e1 e2) as [e3 e4]. apply E_eq; [exact e3 | exact e4]. }
  assert (e1 : of_Z x = (ex A * of_Z z)%F) by (cbn [ex A]; unfold u; field; exact h0).
  assert (e2 : of_Z y = (ey A * of_Z z)%F) by (cbn [ey A]; unfold v; field; exact h0).
  clearbody A. clear huv hc. clearbody u v.
  destruct (F_dec (of_Z t) (ex A * ey A * of_Z z)%F) as [h3|h3]; [|right; intros (B & (_ & g1 & g2 & g3) & _); rewrite (hA B g1 g2) in g3; exact (h3 g3)].
  destruct (Z_le_dec 0 m) as [m1|m1]; [|right; intros (B & _ & [g _] & _); exact (m1 g)].
  destruct (Z_lt_dec m l) as [m2|m2]; [|right; intros (B & _ & [_ g] & _); exact (m2 g)].
  destruct (in_dec E_dec (Eadd A (Eopp (Emul m EB))) [E0; T2; T4; T4']) as [hi|hi].
  - left. exists A. exact (conj (conj h0 (conj e1 (conj e2 h3))) (conj (conj m1 m2) hi)).
  - right. intros (B & (_ & g1 & g2 & _) & _ & g). rewrite (hA B g1 g2) in g. exact (hi g).
Qed.

Lemma Fmul_cancel_r x y a : a <> F0 -> (x * a = y * a)%F -> x = y.
Proof. intros h e. apply (Fmul_cancel_l a); [exact h|]. transitivity (x * a)%F; [ring|]. rewrite e. ring. Qed.
Lemma has_unique x y z t m n : has_coords x y z t m -> has_coords x y z t n -> m = n.
Proof.
  intros (A & (h0 & h1 & h2 & h3) & hm & hA) (B & (_ & g1 & g2 & g3) & hn & hB).
  assert (e : A = B).
  { apply E_eq; apply (Fmul_cancel_r _ _ (of_Z z) h0); [rewrite <- h1; exact g1 | rewrite <- h2; exact g2]. }
  subst B. apply Points51.Req_torsion in hA, hB. exact (R_cyclic_unique A m n hm hn hA hB).
Qed.

Lemma kg_coords_ex : exists coords, forall x y z t m, coords x y z t = Some m <-> has_coords x y z t m.
Proof.
  exists (fun x y z t => match bounded (has_coords x y z t) (has_dec x y z t) (Z.to_nat l) with inleft m => Some (proj1_sig m) | inright _ => None end).
  intros x y z t m. assert (hl : Z.of_nat (Z.to_nat l) = l) by (apply Z2Nat.id; pose proof ScalarFacts.l_pos; lia).
  destruct (bounded (has_coords x y z t) (has_dec x y z t) (Z.to_nat l)) as [(n & hn & h)|h].
  - cbn [proj1_sig]. split; [intro e; assert (n = m) by congruence; subst n; exact h|]. intro g. rewrite (has_unique x y z t n m h g). reflexivity.
  - split; [intro e; discriminate e|]. intro g. destruct (h m); [|exact g]. rewrite hl. destruct g as (A & _ & hm & _). exact hm.
Qed.

Lemma kg_both : exists enc dec ell lizenc lizdec inv coords,
  go_functions enc dec ell /\ (forall x y z t m, coords x y z t = Some m <-> has_coords x y z t m) /\
  (forall b prog os s', Forall well_typed prog -> irun enc dec ell lizenc lizdec inv prog iinit = Some (os, s') ->
     b <> Generic \/ tracks prog (fun _ => true) = true -> exists st', run (ops b) (baseTable b) prog (init (ops b)) = Some (os, st')) /\
  (forall np nf prog os k, Forall (c_typed np nf) prog -> krun enc dec ell coords prog kinit = Some (os, k) -> exists s, crun np nf prog cinit = Some (os, s)).
Proof.
  destruct kg_coords_ex as (coords & hc). exists enc, dec, ell, lizenc, lizdec, inv, coords.
  refine (conj kg_functions (conj hc (conj b_history _))). apply kg_history; [exact kg_functions|]. intros x y z t m h. apply hc. exact h.
Qed.

Definition prog_ex : list ccall_go :=
  [FeUnpack (FX 0) (le_bytes 32 7); FePack (FX 0); GeElligator 0 (FX 0); GeAdd 1 0 0; GeDouble 0 0; GePack 0; GePack 1;
   ScUnpack 0 (le_bytes 32 3); ScPack 0; GeScalarMult 0 0 0; GeNeg 0 0; GePack 0; GeUnpack 0 (le_bytes 32 1)].
Lemma num_7 : num (le_bytes 32 7) = 7.
Proof. vm_compute. reflexivity. Qed.
Lemma num_1 : num (le_bytes 32 1) = 1.
Proof. vm_compute. reflexivity. Qed.
Lemma scal_3 : (le_val (le_bytes 32 3) mod 2 ^ 253) mod l = 3.
Proof. vm_compute. reflexivity. Qed.
Lemma kg_case : Forall (c_typed 2 0) prog_ex /\
  forall enc dec ell coords, dec (le_bytes 32 1) = None -> exists k, krun enc dec ell coords prog_ex kinit = Some (
    let m := ell (le_bytes 32 7) in
    [ONone; OBytes (le_bytes 32 7); ONone; ONone; ONone; OBytes (enc ((2 * m) mod l)); OBytes (enc ((m + m) mod l));
     ONone; OBytes (le_bytes 32 3); ONone; ONone; OBytes (enc ((- ((3 * ((2 * m) mod l)) mod l)) mod l)); OInt (-1)], k).
Proof.
  split.
  - unfold prog_ex. repeat (apply Forall_cons; [cbn [c_typed fe_typed]; repeat split; try (apply le_bytes_bytes); try (repeat constructor)|]); apply Forall_nil.
  - intros enc dec ell coords h. unfold prog_ex. eexists. cbv zeta.
    cbv [krun kstep k_val kP k_fe k_pt k_sc kinit owner fptr_eqb set_coords set_ Nat.eqb]. rewrite num_7, num_1, scal_3, h. reflexivity.
Qed.
