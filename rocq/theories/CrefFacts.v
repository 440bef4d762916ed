(** The results on /repo/cref/cref.c in terms of limbs, integers and curve points, and its agreement with the Go code. *)
From Coq Require Import ZArith Znumtheory List Lia Bool.
From Verif Require Import Words Primes Fp Edwards GroupOrder RistrettoSpec Fe25Code Fe25Proofs FieldModel CurveModel FieldLaws
  EncodeProofs RistrettoModel RistrettoFacts Fe25Laws ElligatorSpec ElligatorMath LizardProofs Backends
  CLang CrefFeCode CrefFe CrefCode CrefFeProofs CrefSeqProofs CrefGroupProofs.
From Verif Require Points51.
Import ListNotations.
Open Scope Z_scope.

(** The limbs of [P] (group_ge, /repo/cref/cref.h:124-130) are in bounds and (x : y : z : t) are extended coordinates of
    the affine point [A]. *)
Definition cpoint (P : ge) (A : E) : Prop :=
  let '(Ge X Y Zc T) := P in let f := fun x => of_Z (v25 x) in
  (bnd25 67108864 33889976 X /\ bnd25 33554432 16944988 Y /\ bnd25 33554432 16944988 Zc /\ bnd25 33554432 16944988 T) /\
  f Zc <> F0 /\ f X = (ex A * f Zc)%F /\ f Y = (ey A * f Zc)%F /\ f T = (ex A * ey A * f Zc)%F.

(** the 32 bytes with the top bit cleared and the number reduced modulo p *)
Definition canonical_bytes (buf : list Z) : list Z := le_bytes 32 ((le_val buf mod 2 ^ 255) mod p).

(** ** Proofs *)
Lemma cpoint_cge P A : cpoint P A <-> cge P A.
Proof.
  destruct P as [X Y Zc T]. unfold cpoint, cge, rel25. split.
  - intros ((b1 & b2 & b3 & b4) & hz & h1 & h2 & h3). exists (of_Z (v25 Zc)). refine (conj hz _).
    exact (conj (conj b1 h1) (conj (conj b2 h2) (conj (conj b3 eq_refl) (conj b4 h3)))).
  - intros (z & hz & (b1 & h1) & (b2 & h2) & (b3 & h3) & (b4 & h4)). subst z.
    exact (conj (conj b1 (conj b2 (conj b3 b4))) (conj hz (conj h1 (conj h2 h4)))).
Qed.

Lemma rel_self n e o x : bnd25 e o x -> n * UE = e -> n * UO = o -> rel25 n x (of_Z (v25 x)).
Proof. intros h <- <-. split; [exact h | reflexivity]. Qed.
Lemma of_Z_mod x f : of_Z x = f -> x mod p = fval f.
Proof. intros <-. symmetry. apply fval_of_Z. Qed.
Ltac unrel h := let b := fresh "b" in let e := fresh "e" in destruct h as [b e]; apply of_Z_mod in e.

Lemma cf_mul a b : bnd25 134217728 67779952 a -> bnd25 100663296 50834964 b ->
  exists z, c_mul a b = Some z /\ bnd25 33554432 16944988 z /\ v25 z mod p = (v25 a * v25 b) mod p.
Proof.
  intros h g. apply (rel_self 4) in h; [|reflexivity|reflexivity]. apply (rel_self 3) in g; [|reflexivity|reflexivity].
  destruct (c_mul_ok 4 3 a b _ _ h g ltac:(lia) ltac:(lia)) as (z & ez & hz). exists z. unrel hz.
  rewrite <- of_Z_mul, fval_of_Z in e. exact (conj ez (conj b0 e)).
Qed.
Lemma cf_square a : bnd25 100663296 50834964 a -> exists z, c_square a = Some z /\ bnd25 33554432 16944988 z /\ v25 z mod p = (v25 a * v25 a) mod p.
Proof.
  intros h. apply (rel_self 3) in h; [|reflexivity|reflexivity].
  destruct (c_square_ok 3 a _ h ltac:(lia)) as (z & ez & hz). exists z. unrel hz.
  rewrite <- of_Z_mul, fval_of_Z in e. exact (conj ez (conj b e)).
Qed.
Lemma cf_square_double a : bnd25 100663296 50834964 a ->
  exists z, c_square_double a = Some z /\ bnd25 33554432 16944988 z /\ v25 z mod p = (2 * (v25 a * v25 a)) mod p.
Proof.
  intros h. apply (rel_self 3) in h; [|reflexivity|reflexivity].
  destruct (c_square_double_ok 3 a _ h ltac:(lia)) as (z & ez & hz). exists z. unrel hz.
  rewrite <- !of_Z_mul, fval_of_Z in e. exact (conj ez (conj b e)).
Qed.

(** addition, subtraction and negation are exact as long as the limbs stay below 2^30 *)
Lemma cf_add x y : bnd25 MX MX x -> bnd25 MX MX y -> exists z, c_add x y = Some z /\ v25 z = v25 x + v25 y.
Proof.
  destruct x as [x0 x1 x2 x3 x4 x5 x6 x7 x8 x9], y as [y0 y1 y2 y3 y4 y5 y6 y7 y8 y9]. intros h g.
  rewrite (c_add_eq x0 x1 x2 x3 x4 x5 x6 x7 x8 x9 y0 y1 y2 y3 y4 y5 y6 y7 y8 y9 h g). eexists. split; [reflexivity|]. unfold v25, v10. ring.
Qed.
Lemma cf_sub x y : bnd25 MX MX x -> bnd25 MX MX y -> exists z, c_sub x y = Some z /\ v25 z = v25 x - v25 y.
Proof.
  destruct x as [x0 x1 x2 x3 x4 x5 x6 x7 x8 x9], y as [y0 y1 y2 y3 y4 y5 y6 y7 y8 y9]. intros h g.
  rewrite (c_sub_eq x0 x1 x2 x3 x4 x5 x6 x7 x8 x9 y0 y1 y2 y3 y4 y5 y6 y7 y8 y9 h g). eexists. split; [reflexivity|]. unfold v25, v10. ring.
Qed.
Lemma cf_neg x : bnd25 MX MX x -> exists z, c_neg x = Some z /\ v25 z = - v25 x.
Proof.
  destruct x as [x0 x1 x2 x3 x4 x5 x6 x7 x8 x9]. intros h.
  rewrite (c_neg_eq x0 x1 x2 x3 x4 x5 x6 x7 x8 x9 h). eexists. split; [reflexivity|]. unfold v25, v10. ring.
Qed.
Lemma cf_cmov r x b : bnd25 MX MX r -> bnd25 MX MX x -> c_cmov r x (Z.b2z b) = if b then x else r.
Proof. apply c_cmov_eq. Qed.
Lemma cf_unpack s : bytes 32 s -> exists z, c_unpack s = Some z /\ bnd25 33554432 16944988 z /\ v25 z mod p = (le_val s mod 2 ^ 255) mod p.
Proof.
  intro h. destruct (c_unpack_ok s h) as (z & ez & hz). exists z. unrel hz. rewrite fval_of_Z in e. exact (conj ez (conj b e)).
Qed.
Lemma cf_pack x : bnd25 100663296 50834964 x -> c_pack x = Some (le_bytes 32 (v25 x mod p)).
Proof.
  intro h. apply (rel_self 3) in h; [|reflexivity|reflexivity]. rewrite (c_pack_ok 3 x _ h ltac:(lia)), fval_of_Z. reflexivity.
Qed.
Lemma Feqb_mod x y : Feqb (of_Z x) (of_Z y) = (x mod p =? y mod p).
Proof.
  destruct (x mod p =? y mod p) eqn:e.
  - apply Z.eqb_eq in e. apply Feqb_eq. apply of_Z_eq. exact e.
  - apply Z.eqb_neq in e. destruct (Feqb (of_Z x) (of_Z y)) eqn:h; [|reflexivity]. apply Feqb_eq in h. destruct e.
    apply (f_equal fval) in h. rewrite !fval_of_Z in h. exact h.
Qed.
Lemma cf_tests x y : bnd25 33554432 16944988 x -> bnd25 67108864 33889976 y ->
  c_iszero x = Some (Z.b2z (v25 x mod p =? 0)) /\ c_isnegative x = Some ((v25 x mod p) mod 2) /\
  c_iseq x y = Some (Z.b2z (v25 x mod p =? v25 y mod p)) /\ c_isone x = Some (Z.b2z (v25 x mod p =? 1)).
Proof.
  intros h g. apply (rel_self 1) in h; [|reflexivity|reflexivity]. apply (rel_self 2) in g; [|reflexivity|reflexivity].
  refine (conj _ (conj _ (conj _ _))).
  - rewrite (c_iszero_ok 1 x _ h ltac:(lia)). change F0 with (of_Z 0). rewrite Feqb_mod. reflexivity.
  - rewrite (c_isnegative_ok 1 x _ h ltac:(lia)). unfold Fneg. rewrite fval_of_Z. f_equal. rewrite Zodd_mod. 
    pose proof (Z.mod_pos_bound (v25 x mod p) 2 ltac:(lia)). destruct (Zeq_bool _ 1) eqn:e.
    + apply Zeq_bool_eq in e. rewrite e. reflexivity.
    + apply Zeq_bool_neq in e. replace ((v25 x mod p) mod 2) with 0 by lia. reflexivity.
  - rewrite (c_iseq_ok 1 2 x y _ _ h g ltac:(lia)). rewrite Feqb_mod. reflexivity.
  - rewrite (c_isone_ok 1 x _ h ltac:(lia)). change F1 with (of_Z 1). rewrite Feqb_mod. reflexivity.
Qed.
Lemma cf_invert x : bnd25 100663296 50834964 x -> exists z, c_invert x = Some z /\ bnd25 33554432 16944988 z /\
  (v25 x mod p = 0 -> v25 z mod p = 0) /\ (v25 x mod p <> 0 -> (v25 z * v25 x) mod p = 1).
Proof.
  intros h. apply (rel_self 3) in h; [|reflexivity|reflexivity].
  destruct (c_invert_ok 3 x _ h ltac:(lia)) as (z & ez & hz). exists z. destruct hz as [b e]. refine (conj ez (conj b (conj _ _))); intro hx.
  - apply of_Z_mod in e. rewrite e. replace (of_Z (v25 x)) with F0; [rewrite Finv_0; reflexivity|]. apply of_Z_eq. rewrite hx. reflexivity.
  - rewrite <- fval_of_Z, of_Z_mul, e. rewrite Finv_l; [reflexivity|]. intro h0. apply (f_equal fval) in h0. rewrite fval_of_Z in h0. exact (hx h0).
Qed.

(** ** Points *)
Lemma cp_add P Q A B : cpoint P A -> cpoint Q B -> exists R, g_add P Q = Some R /\ cpoint R (Eadd A B).
Proof. intros h g. apply cpoint_cge in h, g. destruct (g_add_ok P Q A B h g) as (R & e & hR). exists R. split; [exact e | apply cpoint_cge; exact hR]. Qed.
Lemma cp_double P A : cpoint P A -> exists R, g_double P = Some R /\ cpoint R (Eadd A A).
Proof. intros h. apply cpoint_cge in h. destruct (g_double_ok P A h) as (R & e & hR). exists R. split; [exact e | apply cpoint_cge; exact hR]. Qed.
Lemma cp_negate P A : cpoint P A -> exists R, g_negate P = Some R /\ cpoint R (Eopp A).
Proof. intros h. apply cpoint_cge in h. destruct (g_negate_ok P A h) as (R & e & hR). exists R. split; [exact e | apply cpoint_cge; exact hR]. Qed.
Lemma cp_equals P Q A B : cpoint P A -> cpoint Q B ->
  exists r, g_equals P Q = Some (Z.b2z r) /\ (r = true <-> In (Eadd A (Eopp B)) [E0; T2; T4; T4']).
Proof.
  intros h g. apply cpoint_cge in h, g. destruct (g_equals_iff P Q A B h g) as (r & e & hr). exists r.
  rewrite <- Points51.Req_torsion. exact (conj e hr).
Qed.
Lemma cp_isneutral P A : cpoint P A -> exists r, g_isneutral P = Some (Z.b2z r) /\ (r = true <-> Emul 8 A = E0).
Proof. intro h. apply cpoint_cge in h. exact (g_isneutral_ok P A h). Qed.

(** ** Encodings, against those of the Go code *)
Lemma cp_pack b P Q A B : cpoint P A -> even A -> point b Q B ->
  exists s, g_pack P = Some s /\ bytes 32 s /\ (s = pt_Bytes (ops b) Q <-> In (Eadd A (Eopp B)) [E0; T2; T4; T4']).
Proof.
  intros h he g. apply cpoint_cge in h. destruct (g_pack_ok P A h he) as (s & e & hs). exists (le_bytes 32 (fval s)).
  refine (conj e (conj (le_bytes_bytes _ _) _)). destruct (b_encodes b Q B g) as (t & -> & ht). rewrite <- Points51.Req_torsion. split; intro E.
  - apply le_bytes_fval_inj in E. subst t. apply (encodes_inj s); assumption.
  - rewrite (encodes_unique s t A B hs ht E). reflexivity.
Qed.
Lemma canonical_bytes_fval buf : canonical_bytes buf = le_bytes 32 (fval (of_Z (le_val buf mod 2 ^ 255))).
Proof. unfold canonical_bytes. rewrite fval_of_Z. reflexivity. Qed.
Lemma cp_unpack b buf : bytes 32 buf ->
  (exists P A Q B, g_unpack buf = Some (0, P) /\ cpoint P A /\ even A /\ g_pack P = Some (canonical_bytes buf) /\
     pt_SetBytes (ops b) (canonical_bytes buf) = (true, Q) /\ point b Q B /\ A = B) \/
  (g_unpack buf = Some (-1, Ge c_zero c_zero c_zero c_zero) /\
     pt_SetBytes (ops b) (canonical_bytes buf) = (false, ep_zerovalue (ops b))).
Proof.
  intro hb. pose proof (g_unpack_ok buf hb) as hu. cbv zeta in hu. set (s := of_Z (le_val buf mod 2 ^ 255)) in *.
  assert (ec : canonical_bytes buf = le_bytes 32 (fval s)) by apply canonical_bytes_fval.
  assert (hc : bytes 32 (canonical_bytes buf)) by (rewrite ec; apply le_bytes_bytes).
  pose proof (ep_SetRistretto_ok (laws b) (canonical_bytes buf) hc) as hg. cbv zeta in hg.
  assert (es : of_Z (le_val (canonical_bytes buf) mod 2 ^ 255) = s) by (rewrite ec; apply fval_le_bytes).
  rewrite es in hg. unfold pt_SetBytes. destruct hu as [(A & P & e & hP & hA)|[e hn]].
  - left. assert (eA : encodes s A) by (exists A; split; [apply Req_refl | exact hA]). pose proof (encodes_even _ _ eA) as hev.
    destruct hg as [(B & Q & e' & hQ & hB & _)|[_ hn]]; [|destruct (hn A hA ec)].
    exists P, A, Q, B. refine (conj e (conj (proj2 (cpoint_cge P A) hP) (conj hev (conj _ (conj e' (conj _ _)))))).
    + destruct (g_pack_ok P A hP hev) as (s' & -> & hs'). rewrite ec, (encodes_unique s' s A A hs' eA (Req_refl A)). reflexivity.
    + apply pt_dpoint. split; [exact hQ|]. apply (encodes_even s). exists B. split; [apply Req_refl | exact hB].
    + exact (canonical_rep_P_unique s A B hA hB).
  - right. refine (conj e _). destruct hg as [(B & Q & e' & hQ & hB & _)|[e' _]]; [destruct (hn B hB)|exact e'].
Qed.
Lemma cp_elligator b buf : bytes 32 buf -> exists r P, c_unpack buf = Some r /\ g_elligator r = Some P /\
  g_pack P = Some (pt_Bytes (ops b) (pt_SetElligator (ops b) buf)).
Proof.
  intro hb. destruct (b_elligator b buf hb) as (A & [hA _] & hm). destruct (c_unpack_ok buf hb) as (r & e & hr).
  destruct (g_elligator_ok r _ A hr hm) as (P & eP & hP). exists r, P. refine (conj e (conj eP _)).
  destruct (cp_pack b P _ A A (proj2 (cpoint_cge P A) hP) (rfc_map_even _ _ hm) hA) as (s & -> & _ & h).
  f_equal. apply h. rewrite <- Points51.Req_torsion. apply Req_refl.
Qed.

(** ** Roots *)
Lemma cf_invsqrt x : bnd25 100663296 50834964 x -> exists z, c_invsqrt x = Some z /\ bnd25 33554432 16944988 z /\
  let f := of_Z (v25 x) in let g := of_Z (v25 z) in
  (f = F0 -> g = F0) /\ (f <> F0 -> is_sq f -> (g * g * f = F1)%F) /\ (f <> F0 -> ~ is_sq f -> (g * g * f <> F1)%F).
Proof.
  intros h. apply (rel_self 3) in h; [|reflexivity|reflexivity].
  destruct (c_invsqrt_ok 3 x _ h ltac:(lia)) as (z & ez & hz & e). exists z. refine (conj ez (conj hz _)). cbv zeta. rewrite e. apply isr_val_spec.
Qed.
Lemma cf_sqrt x : bnd25 100663296 50834964 x -> exists z, c_sqrt x = Some z /\ bnd25 33554432 16944988 z /\
  let f := of_Z (v25 x) in let g := of_Z (v25 z) in is_sq f -> (g * g = f)%F.
Proof.
  intros h. apply (rel_self 3) in h; [|reflexivity|reflexivity].
  destruct (c_sqrt_ok 3 x _ h ltac:(lia)) as (z & ez & hz & e). exists z. refine (conj ez (conj hz _)). cbv zeta. rewrite e. intro hs.
  destruct (isr_val_spec (of_Z (v25 x))) as (s0 & s1 & _). set (f := of_Z (v25 x)) in *. destruct (Feqb f F0) eqn:E0'; [apply Feqb_eq in E0'; rename E0' into E | assert (N : f <> F0) by (intro E; rewrite E, Feqb_refl' in E0'; discriminate E0')].
  - rewrite (s0 E), E. ring.
  - transitivity ((isr_val f * isr_val f * f) * f)%F; [ring|]. rewrite (s1 N hs). ring.
Qed.
Lemma cf_invsqrti x : bnd25 100663296 50834964 x -> exists b z, c_invsqrti x = Some (Z.b2z b, z) /\ bnd25 33554432 16944988 z /\
  let f := of_Z (v25 x) in let g := of_Z (v25 z) in
  (f = F0 -> b = false /\ g = F0) /\ (f <> F0 -> is_sq f -> b = true /\ (g * g * f = F1)%F) /\
  (f <> F0 -> ~ is_sq f -> b = false /\ (g * g * (Fi * f) = F1)%F).
Proof.
  intros h. apply (rel_self 3) in h; [|reflexivity|reflexivity].
  destruct (c_invsqrti_ok 3 x _ h ltac:(lia)) as ((b & z) & ez & eb & hz & e). cbn [fst snd] in eb, hz, e. subst b.
  exists (isri_flag (of_Z (v25 x))), z. refine (conj ez (conj hz _)). cbv zeta. rewrite e. apply isri_val_spec.
Qed.
Lemma cf_sqrti x : bnd25 100663296 50834964 x -> exists b z, c_sqrti x = Some (Z.b2z b, z) /\ bnd25 33554432 16944988 z /\
  let f := of_Z (v25 x) in let g := of_Z (v25 z) in
  (f = F0 -> b = false /\ g = F0) /\ (f <> F0 -> is_sq f -> b = true /\ (g * g = f)%F) /\
  (f <> F0 -> ~ is_sq f -> b = false /\ (g * g = Fi * f)%F).
Proof.
  intros h. apply (rel_self 3) in h; [|reflexivity|reflexivity].
  destruct (c_sqrti_ok 3 x _ h ltac:(lia)) as ((b & z) & ez & eb & hz & e). cbn [fst snd] in eb, hz, e. subst b.
  exists (isri_flag (of_Z (v25 x))), z. refine (conj ez (conj hz _)). cbv zeta. rewrite e.
  destruct (isri_val_spec (of_Z (v25 x))) as (s0 & s1 & s2). set (f := of_Z (v25 x)) in *. set (g := isri_val f) in *.
  refine (conj _ (conj _ _)).
  - intro E. destruct (s0 E) as [-> _]. split; [reflexivity|]. rewrite E. ring.
  - intros N hs. destruct (s1 N hs) as [-> E]. split; [reflexivity|]. transitivity (g * g * f * f)%F; [ring|]. rewrite E. ring.
  - intros N hs. destruct (s2 N hs) as [-> E]. split; [reflexivity|]. transitivity (g * g * (Fi * f) * (Fi * f))%F; [ring|]. rewrite E. ring.
Qed.
Lemma cf_abs x : bnd25 100663296 50834964 x -> exists z, c_abs x = Some z /\ bnd25 100663296 50834964 z /\
  v25 z mod p = (if Z.even (v25 x mod p) then v25 x mod p else (- v25 x) mod p).
Proof.
  intros h. apply (rel_self 3) in h; [|reflexivity|reflexivity].
  destruct (c_abs_ok 3 x _ h ltac:(lia)) as (z & ez & hz & e). exists z. refine (conj ez (conj hz _)).
  apply of_Z_mod in e. rewrite e. unfold Fabs, Fneg. rewrite fval_of_Z, <- Z.negb_even. destruct (Z.even (v25 x mod p)); cbn [negb].
  - apply fval_of_Z.
  - rewrite <- of_Z_opp. apply fval_of_Z.
Qed.

(** ** Undefined behaviour of ISO C11 *)
Definition fe_k (k : Z) : fe25 := Fe25 k 0 0 0 0 0 0 0 0 0.
Lemma cf_strict : exists a b, bnd25 8192 0 a /\ bnd25 8192 0 b /\ ccall true p_mul (limbs_of a ++ limbs_of b) = None /\
  exists z, c_mul a b = Some z.
Proof.
  exists (fe_k (-8192)), (fe_k 8192). refine (conj _ (conj _ (conj _ _))).
  - cbn. lia.
  - cbn. lia.
  - vm_compute. reflexivity.
  - eexists. vm_compute. reflexivity.
Qed.
Lemma cf_strict_pack : exists s x, bytes 32 s /\ c_unpack s = Some x /\ ccall true p_pack (limbs_of x) = None.
Proof.
  exists (repeat 0 15 ++ [128] ++ repeat 0 16). eexists. refine (conj _ (conj _ _)).
  - split; [reflexivity|]. repeat (apply Forall_cons; [unfold is_byte; lia|]). apply Forall_nil.
  - vm_compute. reflexivity.
  - vm_compute. reflexivity.
Qed.

(** ** Decoding of encodings that are not canonical *)
Lemma cp_unpack_loose b : exists buf P, bytes 32 buf /\ g_unpack buf = Some (0, P) /\ fst (pt_SetBytes (ops b) buf) = false.
Proof.
  pose (buf := repeat 0 31 ++ [128]). assert (hb : bytes 32 buf).
  { split; [reflexivity|]. repeat (apply Forall_cons; [unfold is_byte; lia|]). apply Forall_nil. }
  exists buf. 
  assert (ec : canonical_bytes buf = repeat 0 32) by (unfold canonical_bytes; rewrite p_eq; vm_compute; reflexivity).
  destruct (b_decode b buf hb) as [(Q & B & e & hQ & h)|[e h]].
  - exfalso. destruct (b_encodes b Q B hQ) as (s & es & _). rewrite es in h.
    assert (E : le_val (le_bytes 32 (fval s)) = le_val buf) by (rewrite h; reflexivity).
    rewrite le_val_le_bytes in E by (pose proof (fval_range s) as r; rewrite p_eq in r; split; [apply r|]; apply Z.lt_trans with (1 := proj2 r); vm_compute; reflexivity).
    pose proof (fval_range s) as r. rewrite E, p_eq in r. revert r. vm_compute. intros [_ r]. discriminate r.
  - destruct (cp_unpack b buf hb) as [(P & A & Q & B & e1 & _)|[_ e1]].
    + exists P. rewrite e. exact (conj hb (conj e1 eq_refl)).
    + exfalso. rewrite ec in e1. destruct (b_const b) as [[h0 _] _]. 
      destruct (b_decode b (repeat 0 32)) as [(Q & B & e2 & _)|[_ hn]].
      * split; [reflexivity|]. repeat (apply Forall_cons; [unfold is_byte; lia|]). apply Forall_nil.
      * rewrite e1 in e2. discriminate e2.
      * destruct (b_encodes b _ _ h0) as (s & es & hs). apply (hn b _ _ h0). rewrite es.
        rewrite (encodes_unique s F0 E0 E0 hs Generic25.encodes_0 (Req_refl E0)). vm_compute. reflexivity.
Qed.

Lemma even_8 A : even A -> (Emul 8 A = E0 <-> Req A E0).
Proof.
  intro he. destruct (EG_generates A) as (k & _ & ->). apply even_index in he. rewrite Req_4, Emul_E0, <- !Emul_mul, !EG_mul_0.
  apply Z.even_spec in he. destruct he as [m ->]. split; intros [c h].
  - assert (d : (l | 2 * m)) by (exists c; lia). apply Gauss in d; [|apply rel_prime_sym; apply rel_prime_div with (p := 2)].
    + destruct d as [q ->]. exists q. ring.
    + apply bezout_rel_prime. apply (Bezout_intro 2 l 1 (- ((l - 1) / 2)) 1). rewrite ScalarFacts.l_lit. vm_compute. reflexivity.
    + exists 1. reflexivity.
  - exists (2 * c). lia.
Qed.
Lemma cp_isneutral_even P A : cpoint P A -> even A -> exists r, g_isneutral P = Some (Z.b2z r) /\ (r = true <-> In A [E0; T2; T4; T4']).
Proof.
  intros h he. destruct (cp_isneutral P A h) as (r & e & hr). exists r. refine (conj e _). rewrite hr, (even_8 A he), Points51.Req_torsion.
  rewrite Eopp_0, Eadd_0_r. reflexivity.
Qed.
