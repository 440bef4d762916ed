(** The group operations of /repo/cref/cref.c on the curve. *)
From Coq Require Import ZArith List Lia Bool Ring.
From Verif Require Import Words WordsTac NumTheory Primes Fp AbGroup Edwards GroupOrder RistrettoSpec Fe51Proofs Fe51Laws Fe25Code Fe25Proofs FieldModel BitFold FieldLaws
  Fe25Laws CurveProofs EncodeProofs ElligatorSpec ElligatorMath CLang CLangFacts CrefFeCode CrefFe CrefFeProofs CrefCode CrefSeqProofs.
Import ListNotations.
Open Scope Z_scope.

(** ** What the structures of the C code stand for *)

(** [P] represents the curve point [A]: (X : Y : Z : T) = (x z, y z, z, x y z), z <> 0 *)
Definition cge (P : ge) (A : E) : Prop :=
  let '(Ge X Y Zc T) := P in exists z, z <> F0 /\ rel25 2 X (ex A * z)%F /\ rel25 1 Y (ey A * z)%F /\ rel25 1 Zc z /\ rel25 1 T (ex A * ey A * z)%F.
Definition cp2 (P : p2) (A : E) : Prop :=
  let '(P2 X Y Zc) := P in exists z, z <> F0 /\ rel25 2 X (ex A * z)%F /\ rel25 1 Y (ey A * z)%F /\ rel25 1 Zc z.
(** x = X / Z, y = Y / T *)
Definition cp1 (P : p1p1) (A : E) : Prop :=
  let '(P1p1 X Zc Y T) := P in exists z t, z <> F0 /\ t <> F0 /\
    rel25 3 X (ex A * z)%F /\ rel25 3 Y (ey A * t)%F /\ rel25 3 Zc z /\ rel25 3 T t.
Definition caff (P : aff) (A : E) : Prop := let '(Aff X Y) := P in rel25 1 X (ex A) /\ rel25 1 Y (ey A).

Lemma rel_feq n m x f g : rel25 n x f -> n <= m -> f = g -> rel25 m x g.
Proof. intros h hn <-. exact (rel_weak n m x f hn h). Qed.

Ltac crel h := refine (rel_feq _ _ _ _ _ h _ _); [clit|].

Lemma cge_p2 X Y Zc T A : cge (Ge X Y Zc T) A -> cp2 (P2 X Y Zc) A.
Proof. intros (z & hz & h1 & h2 & h3 & h4). exists z. exact (conj hz (conj h1 (conj h2 h3))). Qed.

Lemma g_p1p1_to_p2_ok P A : cp1 P A -> ok (g_p1p1_to_p2 P) (fun Q => cp2 Q A).
Proof.
  destruct P as [x zc y t']. intros (z & t & hz & ht & h1 & h2 & h3 & h4). cbv beta iota zeta delta [g_p1p1_to_p2].
  cn a. cn b. cn c. apply ok_ret. exists (z * t)%F. refine (conj (Fmul_nz _ _ hz ht) (conj _ (conj _ _))).
  - crel h_a. subst; ring.
  - crel h_b. subst; ring.
  - crel h_c. subst; ring.
Qed.

Lemma g_p1p1_to_p3_ok P A : cp1 P A -> ok (g_p1p1_to_p3 P) (fun Q => cge Q A).
Proof.
  destruct P as [x zc y t']. intros (z & t & hz & ht & h1 & h2 & h3 & h4). cbv beta iota zeta delta [g_p1p1_to_p3 g_p1p1_to_p2].
  destruct (c_mul_ok 3 3 x t' _ _ h1 h4 ltac:(clit) ltac:(clit)) as (a & -> & ha).
  destruct (c_mul_ok 3 3 y zc _ _ h2 h3 ltac:(clit) ltac:(clit)) as (b & -> & hb).
  destruct (c_mul_ok 3 3 zc t' _ _ h3 h4 ltac:(clit) ltac:(clit)) as (c & -> & hc).
  cbv beta iota. cn d. apply ok_ret. exists (z * t)%F. refine (conj (Fmul_nz _ _ hz ht) (conj _ (conj _ (conj _ _)))).
  - crel ha. ring.
  - crel hb. ring.
  - crel hc. ring.
  - crel h_d. subst; ring.
Qed.

Lemma g_add_p1p1_ok P Q A B : cge P A -> cge Q B -> ok (g_add_p1p1 P Q) (fun R => cp1 R (Eadd A B)).
Proof.
  destruct P as [px py pz pt], Q as [qx qy qz qt]. intros (z & hz & h1 & h2 & h3 & h4) (w & hw & k1 & k2 & k3 & k4).
  cbv beta iota zeta delta [g_add_p1p1]. pose proof r_2d as hd.
  cn a0. cn t0. cn a. cn b0. cn t1. cn b. cn c0. cn c. cn d0. cn d. cn rx. cn rt. cn rz. cn ry.
  apply ok_ret.
  exists (of_Z 2 * (z * w) * (F1 + Fd * prodxy A B))%F, (of_Z 2 * (z * w) * (F1 - Fd * prodxy A B))%F.
  refine (conj (F2z _ _ (Fmul_nz _ _ hz hw) (add_nzp A B)) (conj (F2z _ _ (Fmul_nz _ _ hz hw) (add_nzm A B)) _)).
  refine (conj _ (conj _ (conj _ _))).
  - crel h_rx. transitivity (of_Z 2 * (z * w) * (ex A * ey B + ex B * ey A))%F; [subst; ring|]. rewrite <- ex_add. ring.
  - crel h_ry. transitivity (of_Z 2 * (z * w) * (ey A * ey B + ex A * ex B))%F; [subst; ring|]. rewrite <- ey_add. ring.
  - crel h_rz. unfold prodxy. subst; ring.
  - crel h_rt. unfold prodxy. subst; ring.
Qed.

Lemma g_dbl_p1p1_ok P A : cp2 P A -> ok (g_dbl_p1p1 P) (fun R => cp1 R (Eadd A A)).
Proof.
  destruct P as [px py pz]. intros (z & hz & h1 & h2 & h3). pose proof (Fmul_nz _ _ hz hz) as hzz.
  cbv beta iota zeta delta [g_dbl_p1p1].
  cn a. cn b. cn c. cn d. cn x0. cn x1. cn x2. cn rx. cn rz. cn rt. cn ry. apply ok_ret.
  exists ((z * z) * (F1 + Fd * prodxy A A))%F, (- ((z * z) * (F1 - Fd * prodxy A A)))%F.
  refine (conj (Fmul_nz _ _ hzz (add_nzp A A)) (conj _ _)).
  { intro h. apply (proj1 (Fopp_0_iff _)) in h. exact (Fmul_nz _ _ hzz (add_nzm A A) h). }
  refine (conj _ (conj _ (conj _ _))).
  - crel h_rx. transitivity ((z * z) * (ex A * ey A + ex A * ey A))%F; [subst; ring|]. rewrite <- ex_add. ring.
  - crel h_ry. transitivity (- ((z * z) * (ey A * ey A + ex A * ex A)))%F; [subst; ring|]. rewrite <- ey_add. ring.
  - crel h_rz. rewrite dbl_den. subst; ring.
  - crel h_rt. rewrite dbl_den. subst; ring.
Qed.

Lemma g_mixadd2_ok P Q A B : cge P A -> caff Q B -> ok (g_mixadd2 P Q) (fun R => cge R (Eadd A B)).
Proof.
  destruct P as [px py pz pt], Q as [qx qy]. intros (z & hz & h1 & h2 & h3 & h4) (k1 & k2).
  cbv beta iota zeta delta [g_mixadd2]. pose proof r_2d as hd.
  cn qt. cn a0. cn b0. cn t1. cn t2. cn a. cn b. cn e. cn h. cn c0. cn c. cn d. cn f. cn g. cn rx. cn ry. cn rz. cn rt.
  apply ok_ret.
  set (G := (of_Z 2 * z * (F1 + Fd * prodxy A B))%F). set (H := (of_Z 2 * z * (F1 - Fd * prodxy A B))%F).
  assert (eg : g_g = G) by (subst; unfold G, prodxy; ring). assert (ef : g_f = H) by (subst; unfold H, prodxy; ring).
  assert (ee : g_e = (ex (Eadd A B) * G)%F).
  { transitivity (of_Z 2 * z * (ex A * ey B + ex B * ey A))%F; [subst; ring|]. rewrite <- ex_add. unfold G. ring. }
  assert (eh : g_h = (ey (Eadd A B) * H)%F).
  { transitivity (of_Z 2 * z * (ey A * ey B + ex A * ex B))%F; [subst; ring|]. rewrite <- ey_add. unfold H. ring. }
  exists (G * H)%F. refine (conj (Fmul_nz _ _ (F2z _ _ hz (add_nzp A B)) (F2z _ _ hz (add_nzm A B))) _).
  clearbody G H. refine (conj _ (conj _ (conj _ _))).
  - crel h_rx. rewrite e_rx, ee, ef. ring.
  - crel h_ry. rewrite e_ry, eh, eg. ring.
  - crel h_rz. rewrite e_rz, eg, ef. ring.
  - crel h_rt. rewrite e_rt, ee, eh. ring.
Qed.

Lemma ok_let_p1 (o : option p1p1) (k : p1p1 -> option ge) P A Q : ok o (fun R => cp1 R A) -> (forall R, cp1 R A -> ok (k R) Q) ->
  P = match o with Some R => k R | None => None end -> ok P Q.
Proof. intros (v & -> & hv) h ->. exact (h v hv). Qed.

Lemma g_add_ok P Q A B : cge P A -> cge Q B -> ok (g_add P Q) (fun R => cge R (Eadd A B)).
Proof.
  intros hP hQ. pose proof (g_add_p1p1_ok P Q A B hP hQ) as (R & e & hR).
  destruct (g_p1p1_to_p3_ok R _ hR) as (S & e' & hS). exists S. split; [|exact hS].
  destruct P, Q, R, S. unfold g_add. rewrite e, e'. reflexivity.
Qed.
Lemma g_double_ok P A : cge P A -> ok (g_double P) (fun R => cge R (Eadd A A)).
Proof.
  destruct P as [x y z t]. intro hP. pose proof (g_dbl_p1p1_ok (P2 x y z) A (cge_p2 _ _ _ _ _ hP)) as (R & e & hR).
  destruct (g_p1p1_to_p3_ok R _ hR) as (S & e' & hS). exists S. split; [|exact hS].
  destruct R, S. unfold g_double. rewrite e, e'. reflexivity.
Qed.
Lemma g_negate_ok P A : cge P A -> ok (g_negate P) (fun R => cge R (Eopp A)).
Proof.
  destruct P as [x y zc t]. intros (z & hz & h1 & h2 & h3 & h4). cbv beta iota zeta delta [g_negate]. cn a. cn b. apply ok_ret.
  exists z. rewrite ex_opp, ey_opp. refine (conj hz (conj _ (conj h2 (conj h3 _)))).
  - crel h_a. subst; ring.
  - crel h_b. subst; ring.
Qed.

(** ** Equality *)

Lemma lor_b2z' a b : Z.lor (Z.b2z a) (Z.b2z b) = Z.b2z (a || b).
Proof. destruct a, b; reflexivity. Qed.

Lemma g_equals_ok P Q A B : cge P A -> cge Q B ->
  g_equals P Q = Some (Z.b2z (Feqb (ex A * ey B)%F (ex B * ey A)%F || Feqb (ex A * ex B)%F (ey A * ey B)%F)).
Proof.
  destruct P as [px py pz pt], Q as [qx qy qz qt]. intros (z & hz & h1 & h2 & h3 & h4) (w & hw & k1 & k2 & k3 & k4).
  enough (ok (g_equals (Ge px py pz pt) (Ge qx qy qz qt)) (fun r => r = Z.b2z (Feqb (ex A * ey B)%F (ex B * ey A)%F || Feqb (ex A * ex B)%F (ey A * ey B)%F)))
    as (r & -> & ->) by reflexivity.
  cbv beta iota delta [g_equals]. cn a. cn b. cis. cn c. cn d. cis. apply ok_ret. rewrite lor_b2z'.
  assert (hzw : (z * w)%F <> F0) by (apply Fmul_nz; assumption).
  assert (C : forall a b, Feqb (z * w * a)%F (z * w * b)%F = Feqb a b).
  { intros u v. apply eq_true_iff_eq. rewrite !Feqb_eq. split; [apply Fmul_cancel_l, hzw | congruence]. }
  subst. rewrite <- (C (ex A * ey B)%F), <- (C (ex A * ex B)%F). f_equal. f_equal; f_equal; ring.
Qed.
Lemma g_equals_iff P Q A B : cge P A -> cge Q B -> exists r, g_equals P Q = Some (Z.b2z r) /\ (r = true <-> Req A B).
Proof.
  intros hP hQ. eexists. split; [exact (g_equals_ok P Q A B hP hQ)|]. rewrite Req_coords, orb_true_iff, !Feqb_eq. reflexivity.
Qed.

Lemma E0_coords A : A = E0 <-> ex A = F0 /\ ey A = F1.
Proof. split; [intros ->; split; reflexivity|]. intros [h1 h2]. apply E_eq; assumption. Qed.

(** the test is about 8 A: it accepts every point of the 8-torsion, odd ones included *)
Lemma g_isneutral_ok P A : cge P A -> exists r, g_isneutral P = Some (Z.b2z r) /\ (r = true <-> Emul 8 A = E0).
Proof.
  intro hP. destruct (g_double_ok P A hP) as (P1 & e1 & h1). destruct (g_double_ok P1 _ h1) as (P2' & e2 & h2).
  destruct (g_double_ok P2' _ h2) as (P3 & e3 & h3). set (A8 := Eadd (Eadd (Eadd A A) (Eadd A A)) (Eadd (Eadd A A) (Eadd A A))) in *.
  assert (E8 : Emul 8 A = A8) by (unfold A8; change 8 with (4 + 4); rewrite Emul_add, Emul_4; reflexivity).
  destruct P as [p1 p2 p3 p4], P1 as [q1 q2 q3 q4], P2' as [s1 s2 s3 s4], P3 as [t1 t2 t3 t4].
  unfold g_isneutral. rewrite e1, e2, e3. destruct h3 as (z & hz & k1 & k2 & k3 & k4).
  rewrite (c_iszero_ok _ _ _ k1) by clit. rewrite (c_iseq_ok _ _ _ _ _ _ k2 k3) by clit. cbv beta zeta iota.
  exists (Feqb (ex A8 * z)%F F0 && Feqb (ey A8 * z)%F z)%bool. split.
  - destruct (Feqb (ex A8 * z)%F F0), (Feqb (ey A8 * z)%F z); reflexivity.
  - rewrite E8, E0_coords, andb_true_iff, !Feqb_eq. split; intros [u v]; split.
    + apply Fmul_0 in u. destruct u as [u|u]; [exact u | destruct (hz u)].
    + apply (Fmul_cancel_l z); [exact hz|]. transitivity (ey A8 * z)%F; [ring|]. rewrite v. ring.
    + rewrite u. ring.
    + rewrite v. ring.
Qed.

(** ** Encoding *)

Lemma bind_b {B : Type} (e : Z) (k : Z -> option B) (b : bool) (P : B -> Prop) :
  e = Z.b2z b -> (forall v, v = Z.b2z b -> ok (k v) P) -> ok (let x := e in k x) P.
Proof. intros hv h. exact (h e hv). Qed.
Ltac cb x b tac :=
  lazymatch goal with |- ok (let y := ?e in @?k y) ?P => refine (bind_b e k b P _ _); [tac|] end;
  cbv beta; let E := fresh "e_" x in intros x E.
Ltac ctl lem :=
  lazymatch goal with |- ok (match ?e with Some x => @?k x | None => None end) ?P =>
    refine (bind_eq e k _ P lem _); cbv beta end.
(** a test, leaving the following [let]s alone *)
Ltac cisl :=
  lazymatch goal with
  | |- ok (match c_isnegative ?x with Some _ => _ | None => _ end) _ =>
    match goal with hx : rel25 ?n x ?f |- _ => ctl (c_isnegative_ok n x f hx ltac:(clit)) end
  | |- ok (match c_iszero ?x with Some _ => _ | None => _ end) _ =>
    match goal with hx : rel25 ?n x ?f |- _ => ctl (c_iszero_ok n x f hx ltac:(clit)) end
  | |- ok (match c_isone ?x with Some _ => _ | None => _ end) _ =>
    match goal with hx : rel25 ?n x ?f |- _ => ctl (c_isone_ok n x f hx ltac:(clit)) end
  end.
(** a copy *)
Ltac cl x h :=
  lazymatch goal with |- ok (let y := ?e in @?k y) ?P => refine (bind_let e k _ _ P h _) end;
  let g := fresh "g_" x in let E := fresh "e_" x in let h' := fresh "h_" x in intros x g E h'; cbv beta.
(** a function that is not a single arithmetic operation *)
Ltac cf x lem :=
  lazymatch goal with |- ok (match ?e with Some y => @?k y | None => None end) ?P => refine (bind_rel e k _ _ P lem _) end;
  let g := fresh "g_" x in let e := fresh "e_" x in let h := fresh "h_" x in intros x g e h; cbv beta.

Lemma g_pack_ok P A : cge P A -> even A -> exists s, g_pack P = Some (le_bytes 32 (fval s)) /\ encodes s A.
Proof.
  intros hP hA. enough (ok (g_pack P) (fun r => exists s, r = le_bytes 32 (fval s) /\ encodes s A)) as (r & -> & s & -> & hs)
    by (exists s; split; [reflexivity | exact hs]).
  destruct P as [X Y Zc T]. destruct hP as (z & hz & h1 & h2 & h3 & h4).
  pose proof (enc_encodes A z hA hz) as HE. cbv zeta in HE. pose proof r_i as hi_. pose proof r_magic as hm_.
  cbv beta iota delta [g_pack].
  cn d0. cn u1a. cn u1. cn u2. cn isra. cn isrb. cf isr (c_invsqrt_ok _ _ _ h_isrb ltac:(clit)).
  cn i1. cn i2. cn zInva. cn zInv. cn d1. cisl.
  cb b (negb (Fneg g_d1)) ltac:(destruct (Fneg g_d1); reflexivity).
  cn nx0. cn ny0. cn den0.
  cm nx (negb (Fneg g_d1)) ltac:(exact e_b).
  cm ny1 (negb (Fneg g_d1)) ltac:(exact e_b).
  cm den (negb (Fneg g_d1)) ltac:(exact e_b).
  cn d3. cisl. cb b2 (Fneg g_d3) ltac:(destruct (Fneg g_d3); reflexivity).
  cn d5. cm ny (Fneg g_d3) ltac:(exact e_b2).
  cn s0. cn s1. cisl. cb b3 (Fneg g_s1) ltac:(destruct (Fneg g_s1); reflexivity).
  cn d6. cm s (Fneg g_s1) ltac:(exact e_b3).
  ctl (c_pack_ok _ _ _ h_s ltac:(clit)). apply ok_ret.
  exists g_s. split; [reflexivity|].
  rewrite e_s, e_d6. fold (Fabs g_s1).
  match goal with |- encodes ?a _ => match type of HE with encodes ?b _ => replace a with b; [exact HE|] end end.
  f_equal.
  assert (E1 : g_u1 = (z * z * (F1 - ey A * ey A))%F) by (subst; ring).
  assert (E2 : g_u2 = (z * z * (ex A * ey A))%F) by (subst; ring).
  assert (Ei : g_isr = isr_val ((z * z * (ex A * ey A)) * (z * z * (ex A * ey A)) * (z * z * (F1 - ey A * ey A)))%F).
  { rewrite e_isr, e_isrb, e_isra, E1, E2. reflexivity. }
  rewrite <- Ei, <- E1, <- E2.
  assert (Ez : g_zInv = (g_isr * g_u1 * (g_isr * g_u2) * (ex A * ey A * z))%F) by (rewrite e_zInv, e_zInva, e_i1, e_i2; ring).
  rewrite <- Ez, <- e_d1.
  rewrite e_s1, e_s0.
  assert (En : g_ny1 = (if Fneg g_d1 then Fi * (ex A * z) else ey A * z)%F).
  { rewrite e_ny1, e_ny0. destruct (Fneg g_d1); cbn [negb]; ring. }
  assert (Ex : g_nx = (if Fneg g_d1 then Fi * (ey A * z) else ex A * z)%F).
  { rewrite e_nx, e_nx0. destruct (Fneg g_d1); cbn [negb]; ring. }
  assert (Ed : g_den = (if Fneg g_d1 then Fisdm1 * (g_isr * g_u1) else g_isr * g_u2)%F).
  { rewrite e_den, e_den0, e_i1, e_i2. destruct (Fneg g_d1); cbn [negb]; reflexivity. }
  rewrite <- En, <- Ex, <- Ed. rewrite <- e_d3. rewrite e_ny, e_d5. reflexivity.
Qed.

(** ** Decoding *)

(** the bytes with the top bit cleared, read as a field element (not necessarily reduced: neither is checked) *)
Lemma g_unpack_ok buf : bytes 32 buf ->
  let s := of_Z (le_val buf mod 2 ^ 255) in
  (exists A P, g_unpack buf = Some (0, P) /\ cge P A /\ canonical_rep s A) \/
  (g_unpack buf = Some (-1, Ge c_zero c_zero c_zero c_zero) /\ forall A, ~ canonical_rep s A).
Proof.
  intros hb s.
  enough (ok (g_unpack buf) (fun r => (exists A P, r = (0, P) /\ cge P A /\ canonical_rep s A) \/
    (r = (-1, Ge c_zero c_zero c_zero c_zero) /\ forall A, ~ canonical_rep s A))) as (r & -> & [(A & P & -> & h)|[-> h]])
    by (first [left; exists A, P; split; [reflexivity | exact h] | right; split; [reflexivity | exact h]]).
  pose proof r_one as h1_. pose proof r_zero as h0_. pose proof r_d as hd_.
  cbv beta iota delta [g_unpack]. cf s0 (c_unpack_ok buf hb). fold s in e_s0. clearbody s. subst g_s0.
  cisl. cb r0 (Fneg s) ltac:(reflexivity).
  cn s2. cn yDen. cn yNum. cn yDen2. cn xDen2a. cn xDen2b. cn xDen2c. cn xDen2. cn t. cf isr (c_invsqrt_ok _ _ _ h_t ltac:(clit)).
  cn chka. cn chk. cisl.
  cb r1 (Fneg s || negb (Feqb g_chk F1))%bool ltac:(rewrite e_r0; destruct (Fneg s), (Feqb g_chk F1); reflexivity).
  cn xDenInv. cn yDenInva. cn yDenInv. cn Xa. cn Xb. cisl. cb b (Fneg g_Xb) ltac:(destruct (Fneg g_Xb); reflexivity).
  cn nX. cm X (Fneg g_Xb) ltac:(exact e_b). cn Y.
  cl Zo h1_.
  cn T. cisl. cb r2 (Fneg s || negb (Feqb g_chk F1) || Fneg g_T)%bool ltac:(rewrite e_r1; apply lor_b2z').
  cisl. cb r3 (Fneg s || negb (Feqb g_chk F1) || Fneg g_T || Feqb g_Y F0)%bool ltac:(rewrite e_r2; apply lor_b2z').
  match type of e_r3 with _ = Z.b2z ?b => set (bad := b) in * end.
  cbv zeta. apply ok_ret. rewrite e_r3.
  rewrite !c_cmov_eq by (first [apply (rel_MX _ _ _ h_X); clit | apply (rel_MX _ _ _ h_Y); clit | apply (rel_MX _ _ _ h_Zo); clit
    | apply (rel_MX _ _ _ h_T); clit | apply (rel_MX _ _ _ h0_); clit]).
  set (tt := (dec_v s * ((F1 + s * s) * (F1 + s * s)))%F).
  assert (Et : g_t = tt) by (subst; unfold tt, dec_v; ring).
  assert (Ei : g_isr = isr_val tt) by (rewrite e_isr, Et; reflexivity).
  assert (Ec : g_chk = (isr_val tt * isr_val tt * tt)%F) by (rewrite e_chk, e_chka, Ei, Et; reflexivity).
  assert (EX : g_X = Fabs (s * (isr_val tt * (F1 + s * s)) + s * (isr_val tt * (F1 + s * s)))%F).
  { rewrite e_X, e_nX. fold (Fabs g_Xb). f_equal. rewrite e_Xb, e_Xa, e_xDenInv, Ei, e_yDen, e_s2. reflexivity. }
  assert (EY : g_Y = ((F1 - s * s) * (isr_val tt * (F1 + s * s) * isr_val tt * dec_v s))%F).
  { rewrite e_Y, e_yNum, e_yDenInv, e_yDenInva, e_xDenInv, Ei, e_yDen, e_s2.
    assert (g_xDen2 = dec_v s) as -> by (subst; unfold dec_v; ring). reflexivity. }
  destruct (isr_val_spec tt) as (_ & isr1 & _).
  destruct bad eqn:Eb; unfold bad in Eb; cbn [Z.b2z Z.opp]; [right | left].
  - split; [reflexivity|]. intros A hA. pose proof hA as (c1 & c2 & c3 & c4 & c5).
    rewrite c1 in Eb. cbn [orb] in Eb.
    destruct (dec_complete s A c2) as [t0 tsq]. specialize (isr1 t0 tsq).
    rewrite Ec, isr1, Feqb_refl' in Eb. cbn [negb orb] in Eb.
    destruct (dec_sound s (isr_val tt) (dec_v s) eq_refl isr1) as [on yeq].
    rewrite <- EY in yeq. rewrite <- EY, <- EX in on.
    assert (ey A = g_Y) as hY.
    { apply (Fmul_cancel_l (F1 + s * s)%F); [exact (s_denom A s c2)|].
      transitivity (ey A * (F1 + s * s))%F; [ring|]. rewrite c2, <- yeq. ring. }
    assert (ex A = g_X) as hX.
    { apply Fnonneg_sq_unique; [exact c3 | rewrite EX; apply Fabs_nonneg |].
      pose proof (dec_x s A c2) as x1.
      pose proof (dec_x s (mkE' g_X g_Y on) yeq) as x2. cbn [mkE' ex] in x2.
      apply (Fmul_cancel_l (dec_v s)).
      - intro h0. apply t0. unfold tt. rewrite h0. ring.
      - transitivity (ex A * ex A * dec_v s)%F; [ring|]. rewrite x1, <- x2. ring. }
    rewrite e_T, <- hX, <- hY, c4 in Eb. cbn [orb] in Eb. apply Feqb_eq in Eb. exact (c5 Eb).
  - apply orb_false_iff in Eb. destruct Eb as [Eb b4]. apply orb_false_iff in Eb. destruct Eb as [Eb b3].
    apply orb_false_iff in Eb. destruct Eb as [b1 b2].
    apply negb_false_iff in b2. apply Feqb_eq in b2. rewrite Ec in b2.
    destruct (dec_sound s (isr_val tt) (dec_v s) eq_refl b2) as [on yeq].
    rewrite <- EY in yeq. rewrite <- EY, <- EX in on.
    exists (mkE' g_X g_Y on). eexists. split; [reflexivity|]. split.
    + exists F1. split; [exact F1_neq_0|]. cbn [mkE' ex ey].
      refine (conj _ (conj _ (conj _ _))).
      * crel h_X. ring.
      * crel h_Y. ring.
      * crel h_Zo. exact e_Zo.
      * crel h_T. rewrite e_T. ring.
    + unfold canonical_rep. cbn [mkE' ex ey]. refine (conj b1 (conj yeq (conj _ (conj _ _)))).
      * rewrite EX. apply Fabs_nonneg.
      * rewrite <- e_T. exact b3.
      * apply Feqb_false, b4.
Qed.

(** ** Elligator *)

Lemma g_from_jacobi_quartic_ok s0 t0 s t A : rel25 1 s0 s -> rel25 2 t0 t -> ElligatorSpec.below s t A -> ok (g_from_jacobi_quartic s0 t0) (fun P => cge P A).
Proof.
  intros hS hT (hJ & hx & hy). pose proof (J_t_nz s t hJ) as n1. pose proof (J_den_nz s t hJ) as n2.
  pose proof r_one as h1_. pose proof r_magic as hm_.
  cbv beta iota delta [g_from_jacobi_quartic]. cn s2. cn x0. cn x. cl zc hT. cn y. cn td. subst g_zc.
  assert (h : cp1 (P1p1 x zc y td) A).
  { exists t, (F1 + s * s)%F. refine (conj n1 (conj n2 (conj _ (conj _ (conj _ _))))).
    - crel h_x. rewrite hx, e_x, e_x0. ring.
    - crel h_y. rewrite hy, e_y, e_s2. reflexivity.
    - crel h_zc. reflexivity.
    - crel h_td. rewrite e_td, e_s2. reflexivity. }
  destruct (g_p1p1_to_p3_ok _ _ h) as ([a b c d] & -> & hQ). apply ok_ret. exact hQ.
Qed.

Lemma g_elligator_ok r0 f A : rel25 1 r0 f -> rfc_map f A -> ok (g_elligator r0) (fun P => cge P A).
Proof.
  intros hf hA. pose proof (ell_value f) as HV. cbv zeta in HV. destruct (rfc_ell f A hA) as (s & t & he & hB).
  pose proof r_one as h1_. pose proof r_m1 as hm1_. pose proof r_i as hi_. pose proof r_d as hd_.
  cbv beta iota delta [g_elligator].
  cn r0i. cn r. cn rPlusD. cn Da. cn Db. cn Dc. cn Dd. cn d2. cn Na. cn Nb. cn rPlusOne. cn Nn. cn ND.
  destruct (c_invsqrti_ok _ ND g_ND h_ND ltac:(clit)) as ((bz & sq) & -> & hb & h_sq). cbn [fst snd] in hb, h_sq. cbv beta iota.
  set (b := isri_flag g_ND) in *.
  cf sq1 (c_abs_ok _ _ _ h_sq ltac:(clit)).
  assert (h1b : 1 - bz = Z.b2z (negb b)) by (rewrite hb; destruct b; reflexivity).
  cl tw0 h1_. cm tw (negb b) ltac:(exact h1b). cl sgn0 h1_. cm sgn (negb b) ltac:(exact h1b).
  cn sq2. cn S0. cn Ta. cn Tb. cn Tc. cn dm. cn dms. cn Td. cn rSubOne. cn Te. cn T. cn sNeg. cisl.
  cm S2 (Bool.eqb (Fneg g_S0) b) ltac:(rewrite hb; destruct (Fneg g_S0), b; reflexivity).
  assert (Er : g_r = ell_r f) by (rewrite e_r, e_r0i; unfold ell_r; ring).
  assert (En : g_Nn = ell_N (ell_r f)) by (rewrite e_Nn, e_rPlusOne, e_Nb, e_Na, e_d2, Er; unfold ell_N; ring).
  assert (Ed : g_Dd = ell_D (ell_r f)) by (rewrite e_Dd, e_Dc, e_Db, e_Da, e_rPlusD, Er; unfold ell_D; ring).
  assert (Eb : b = isri_flag (ell_N (ell_r f) * ell_D (ell_r f))%F) by (unfold b; rewrite e_ND, En, Ed; reflexivity).
  assert (Ew : g_sq2 = (Fabs (isri_val (ell_N (ell_r f) * ell_D (ell_r f))) * (if b then F1 else f * Fi))%F).
  { rewrite e_sq2, e_sq1, e_tw, e_tw0, e_r0i, e_ND, En, Ed. destruct b; reflexivity. }
  rewrite <- Eb, <- Ew, <- En, <- e_S0 in HV.
  assert (Es : g_S2 = (if Bool.eqb (Fneg g_S0) b then - g_S0 else g_S0)%F).
  { rewrite e_S2, e_sNeg. reflexivity. }
  assert (Et : g_T = ((ell_r f - F1) * ((Fd - F1) * (Fd - F1) * (g_S0 * (g_sq2 * - (if b then F1 else - F1)))) - F1)%F).
  { rewrite e_T, e_Te, e_rSubOne, e_Td, e_dms, e_dm, e_Tc, e_Tb, e_Ta, e_sgn, e_sgn0, Er. destruct b; reflexivity. }
  rewrite <- Es, <- Et in HV. destruct (ell_unique f s t _ _ he HV) as [E1 E2].
  rewrite E1 in h_S2. rewrite E2 in h_T.
  destruct (g_from_jacobi_quartic_ok S2 T s t A h_S2 h_T hB) as ([x1 x2 x3 x4] & -> & hQ). apply ok_ret. exact hQ.
Qed.
