(** The curve group is cyclic of order 8l; the ristretto quotient 2E/E[4] has prime
    order l and is generated by the base point (specification; no code). *)
From Coq Require Import ZArith Znumtheory Lia Bool List Field.
From Verif Require Import NumTheory DigitTables Digits Primes Fp DigitsP AbGroup Edwards.
Import ListNotations.
Local Open Scope Z_scope.

(** ** Executable projective addition on digits mod p, used only to check constants *)
Definition zpt : Type := (list dg * list dg * list dg)%type.
Definition dD : list dg := dig 37095705934669439343138083508754565189542113879843219016388785533085940283555.
(** p - d *)
Definition ndD : list dg := dig 20800338683988658368647408995589388737092878452977063003340006470870624536394.
Definition zadd (P Q : zpt) : zpt :=
  let '(X1, Y1, Z1) := P in let '(X2, Y2, Z2) := Q in
  let A := mulp Z1 Z2 in let B := mulp A A in let C := mulp X1 X2 in let D := mulp Y1 Y2 in
  let CD := mulp C D in
  let F := addp B (mulp ndD CD) in let G := addp B (mulp dD CD) in
  (mulp (mulp A F) (addp (mulp X1 Y2) (mulp X2 Y1)), mulp (mulp A G) (addp D C), mulp F G).

Definition fv (x : list dg) : F := of_Z (val x).

Definition rep (z : zpt) (P : E) : Prop :=
  let '(X, Y, Z) := z in
  fv Z <> F0 /\ (fv X = ex P * fv Z)%F /\ (fv Y = ey P * fv Z)%F.

Lemma fv_mul a b : fv (mulp a b) = (fv a * fv b)%F.
Proof. apply mulp_ok. Qed.
Lemma fv_add a b : fv (addp a b) = (fv a + fv b)%F.
Proof. apply addp_ok. Qed.
Lemma fv_dD : fv dD = Fd.
Proof. unfold fv, dD. rewrite dig_ok by (split; [discriminate|reflexivity]). reflexivity. Qed.
Lemma fv_ndD : fv ndD = (- Fd)%F.
Proof. unfold fv, ndD. rewrite dig_ok by (split; [discriminate|reflexivity]). apply F_eq. vm_compute. reflexivity. Qed.

Lemma rep_add z1 z2 P Q : rep z1 P -> rep z2 Q -> rep (zadd z1 z2) (Eadd P Q).
Proof.
  destruct z1 as [[X1 Y1] Z1], z2 as [[X2 Y2] Z2]. unfold rep, zadd. cbv zeta.
  intros (Hz1 & Hx1 & Hy1) (Hz2 & Hx2 & Hy2).
  repeat rewrite ?fv_mul, ?fv_add, ?fv_dD, ?fv_ndD.
  rewrite Hx1, Hy1, Hx2, Hy2.
  cbn [ex ey Eadd mkE']. unfold addx, addy.
  pose proof (complete_p _ _ _ _ (E_on P) (E_on Q)) as Dp.
  pose proof (complete_m _ _ _ _ (E_on P) (E_on Q)) as Dm.
  set (a := ex P) in *. set (b := ey P) in *. set (c := ex Q) in *. set (d := ey Q) in *.
  set (z := fv Z1) in *. set (w := fv Z2) in *. clearbody a b c d z w.
  set (Pm := (F1 + Fd * a * c * b * d)%F) in *. set (Mm := (F1 - Fd * a * c * b * d)%F) in *.
  assert (E1 : (z * w * (z * w) + - Fd * (a * z * (c * w) * (b * z * (d * w))) = z * w * (z * w) * Mm)%F) by (unfold Mm; ring).
  assert (E2 : (z * w * (z * w) + Fd * (a * z * (c * w) * (b * z * (d * w))) = z * w * (z * w) * Pm)%F) by (unfold Pm; ring).
  rewrite E1, E2. clearbody Pm Mm. repeat split.
  - repeat apply Fmul_nz; assumption.
  - field; assumption.
  - field; assumption.
Qed.

Lemma rep_mul n : forall z P, rep z P -> rep (Pos.iter_op zadd n z) (Emul (Zpos n) P).
Proof.
  assert (G : forall z P, rep z P -> rep (Pos.iter_op zadd n z) (Pos.iter_op Eadd n P)).
  { induction n as [n IH|n IH|]; intros z P H; cbn [Pos.iter_op].
    - apply rep_add; [assumption|]. apply IH, rep_add; assumption.
    - apply IH, rep_add; assumption.
    - assumption. }
  intros z P H. exact (G z P H).
Qed.

(** Affine comparison with (x, y) *)
Definition zis (z : zpt) (x y : Z) : bool :=
  let '(X, Y, Z) := z in ((x * val Z - val X) mod p =? 0) && ((y * val Z - val Y) mod p =? 0).

Lemma zis_iff z P x y : rep z P -> (zis z x y = true <-> (ex P = of_Z x /\ ey P = of_Z y)).
Proof.
  destruct z as [[X Y] Z]. unfold rep, zis. intros (Hz & Hx & Hy).
  assert (K : forall u U v, fv U = (v * fv Z)%F -> ((u * val Z - val U) mod p =? 0) = true <-> v = of_Z u).
  { intros u U v HU. rewrite Z.eqb_eq.
    assert (A : (u * val Z - val U) mod p = 0 <-> (of_Z u * fv Z = fv U)%F).
    { unfold fv. rewrite <- of_Z_mul, of_Z_eq. pose proof p_pos as Pp. split; intros H.
      - apply Z.mod_divide in H; [|lia]. destruct H as [c Hc].
        replace (u * val Z) with (val U + c * p) by lia. apply Z.mod_add. lia.
      - rewrite Zminus_mod, H, Z.sub_diag. apply Z.mod_0_l. lia. }
    rewrite A, HU. split; intros H; [|rewrite H; reflexivity].
    apply (Fmul_cancel_l (fv Z) _ _ Hz). transitivity (v * fv Z)%F; [ring|]. rewrite <- H. ring. }
  rewrite andb_true_iff, (K x X (ex P) Hx), (K y Y (ey P) Hy). reflexivity.
Qed.

(** ** Special points *)
Lemma on_curve_of_Z x y : on_curveb (of_Z x) (of_Z y) = true -> on_curve (of_Z x) (of_Z y).
Proof. apply on_curveb_ok. Qed.

(** The base point: y = 4/5, x even. *)
Definition Bx : Z := 15112221349535400772501151409588531511454012693041857206046113283949847762202.
Definition By : Z := 46316835694926478169428394003475163141307993866256225615783033603165251855960.
Lemma B_on : on_curveb (of_Z Bx) (of_Z By) = true. Proof. vm_compute. reflexivity. Qed.
Definition EB : E := mkE (of_Z Bx) (of_Z By) B_on.

Lemma EB_def : (ey EB * #5 = #4)%F /\ Fneg (ex EB) = false.
Proof. split; [apply F_eq|]; vm_compute; reflexivity. Qed.

(** A point of order 8. *)
Definition T8x : Z := 14399317868200118260347934320527232580618823971194345261214217575416788799818.
Definition T8y : Z := 55188659117513257062467267217118295137698188065244968500265048394206261417927.
Lemma T8_on : on_curveb (of_Z T8x) (of_Z T8y) = true. Proof. vm_compute. reflexivity. Qed.
Definition ET8 : E := mkE (of_Z T8x) (of_Z T8y) T8_on.

Lemma E_is_0 P : ex P = F0 -> ey P = F1 -> P = E0.
Proof. intros; apply E_eq; assumption. Qed.

Definition mulchk (n : Z) (x y : Z) : bool :=
  match n with Zpos q => zis (Pos.iter_op zadd q (dig x, dig y, [d1])) 0 1 | _ => false end.

Lemma rep_affZ x y H : 0 <= x < 2 ^ 264 -> 0 <= y < 2 ^ 264 ->
  rep (dig x, dig y, [d1]) (mkE (of_Z x) (of_Z y) H).
Proof.
  intros Hx Hy. unfold rep. cbn [ex ey]. unfold fv. rewrite !dig_ok by assumption.
  change (of_Z (val [d1])) with F1. repeat split; [exact F1_neq_0|ring|ring].
Qed.

Lemma mulchk_iff n x y H : 0 <= x < 2 ^ 264 -> 0 <= y < 2 ^ 264 -> 0 < n ->
  (mulchk n x y = true <-> Emul n (mkE (of_Z x) (of_Z y) H) = E0).
Proof.
  intros Hx Hy Hn. destruct n as [|n|n]; try lia. unfold mulchk.
  rewrite (zis_iff _ _ _ _ (rep_mul n _ _ (rep_affZ x y H Hx Hy))).
  split.
  - intros [A B]. apply E_is_0; assumption.
  - intros ->. split; reflexivity.
Qed.

Lemma Bx_range : 0 <= Bx < 2 ^ 264. Proof. split; [discriminate|reflexivity]. Qed.
Lemma By_range : 0 <= By < 2 ^ 264. Proof. split; [discriminate|reflexivity]. Qed.
Lemma T8x_range : 0 <= T8x < 2 ^ 264. Proof. split; [discriminate|reflexivity]. Qed.
Lemma T8y_range : 0 <= T8y < 2 ^ 264. Proof. split; [discriminate|reflexivity]. Qed.

Lemma l_pos : 0 < l. Proof. vm_compute. reflexivity. Qed.
Lemma l_gt : 1000 < l. Proof. vm_compute. reflexivity. Qed.

Lemma EB_order_chk : mulchk l Bx By = true.
Proof. vm_cast_no_check (eq_refl true). Qed.
Lemma ET8_8_chk : mulchk 8 T8x T8y = true.
Proof. vm_cast_no_check (eq_refl true). Qed.
Lemma ET8_4_chk : mulchk 4 T8x T8y = false.
Proof. vm_cast_no_check (eq_refl false). Qed.

Lemma EB_order : Emul l EB = E0.
Proof. exact (proj1 (mulchk_iff l Bx By B_on Bx_range By_range l_pos) EB_order_chk). Qed.
Lemma EB_nz : EB <> E0.
Proof. intros H. apply (f_equal (fun P => fval (ex P))) in H. vm_compute in H. discriminate. Qed.
Lemma ET8_8 : Emul 8 ET8 = E0.
Proof. exact (proj1 (mulchk_iff 8 T8x T8y T8_on T8x_range T8y_range eq_refl) ET8_8_chk). Qed.
Lemma ET8_4 : Emul 4 ET8 <> E0.
Proof.
  intros H. apply (proj2 (mulchk_iff 4 T8x T8y T8_on T8x_range T8y_range eq_refl)) in H.
  rewrite ET8_4_chk in H. discriminate.
Qed.

Lemma Emul_div m k P : Emul m P = E0 -> (m | k) -> Emul k P = E0.
Proof. intros H [c ->]. rewrite Emul_mul, H. apply Emul_E0. Qed.

Lemma EB_mul_0 k : Emul k EB = E0 <-> (l | k).
Proof.
  split; intros H; [|apply (Emul_div l); auto using EB_order].
  destruct (Zdivide_dec l k) as [D|D]; auto. exfalso.
  assert (R : rel_prime k l) by (apply rel_prime_sym, prime_rel_prime; auto using prime_l).
  apply rel_prime_bezout in R. destruct R as [u v E1].
  apply EB_nz. rewrite <- (Emul_1 EB), <- E1, Emul_add, !Emul_mul, H, EB_order, !Emul_E0. apply Eadd_0_l.
Qed.

Lemma ET8_mul_0 k : Emul k ET8 = E0 <-> (8 | k).
Proof.
  split; intros H; [|apply (Emul_div 8); auto using ET8_8].
  apply Z.mod_divide; [lia|].
  assert (K : Emul (k mod 8) ET8 = E0) by (rewrite (Emul_mod k 8); auto using ET8_8; lia).
  assert (Hr : 0 <= k mod 8 < 8) by (apply Z.mod_pos_bound; lia).
  destruct (Z.eq_dec (k mod 8) 0) as [|N]; auto. exfalso. apply ET8_4.
  assert (D : exists c, (c * (k mod 8)) mod 8 = 4).
  { assert (C : k mod 8 = 1 \/ k mod 8 = 2 \/ k mod 8 = 3 \/ k mod 8 = 4 \/ k mod 8 = 5 \/ k mod 8 = 6 \/ k mod 8 = 7) by lia.
    destruct C as [->|[->|[->|[->|[->|[->| ->]]]]]];
    [exists 4|exists 2|exists 4|exists 1|exists 4|exists 2|exists 4]; reflexivity. }
  destruct D as [c D]. rewrite <- D. rewrite Emul_mod; [|lia|apply ET8_8].
  rewrite Emul_mul, K. apply Emul_E0.
Qed.

(** A generator *)
Definition EG : E := Eadd EB ET8.

Lemma EG_mul_0 k : Emul k EG = E0 <-> (8 * l | k).
Proof.
  unfold EG. rewrite Emul_add_r. split; intros H.
  - assert (L : (l | k)).
    { apply (Gauss l 8).
      - apply EB_mul_0. assert (A : Emul 8 (Eadd (Emul k EB) (Emul k ET8)) = E0) by (rewrite H; apply Emul_E0).
        rewrite Emul_add_r, <- !Emul_mul in A.
        rewrite (Z.mul_comm 8 k), (Emul_mul k 8 ET8), ET8_8, Emul_E0, Eadd_0_r in A.
        rewrite Z.mul_comm. exact A.
      - apply prime_rel_prime; [exact prime_l|]. intros D. apply Z.divide_pos_le in D; [|lia]. pose proof l_gt. lia. }
    assert (B0 : Emul k EB = E0) by (apply EB_mul_0; exact L).
    rewrite B0, Eadd_0_l in H. apply ET8_mul_0 in H.
    destruct L as [c ->]. rewrite Z.mul_comm in H. apply Gauss in H.
    + destruct H as [e ->]. exists e. ring.
    + apply rel_prime_sym, prime_rel_prime; [exact prime_l|].
      intros D. apply Z.divide_pos_le in D; [|lia]. pose proof l_gt. lia.
  - rewrite (proj2 (EB_mul_0 k)), (proj2 (ET8_mul_0 k)).
    + apply Eadd_0_l.
    + eapply Z.divide_trans; [|exact H]. exists l. ring.
    + eapply Z.divide_trans; [|exact H]. exists 8. ring.
Qed.

Lemma EG_mul_inj a b : Emul a EG = Emul b EG <-> (8 * l | a - b).
Proof. rewrite <- EG_mul_0, Emul_sub, Esub_0. tauto. Qed.

(** ** Counting: |E| <= 2p *)
Lemma pigeonhole (n m : Z) (f : Z -> Z) : 0 <= n -> 0 <= m ->
  (forall x, 0 <= x < n -> 0 <= f x < m) ->
  (forall x y, 0 <= x < n -> 0 <= y < n -> f x = f y -> x = y) -> n <= m.
Proof.
  intros Hn Hm Hr Hi.
  set (L := map Z.of_nat (seq 0 (Z.to_nat n))). set (M := map Z.of_nat (seq 0 (Z.to_nat m))).
  assert (HL : forall x, In x L <-> 0 <= x < n).
  { intros x. unfold L. rewrite in_map_iff. split.
    - intros (k & <- & Hk). apply in_seq in Hk. lia.
    - intros H. exists (Z.to_nat x). rewrite in_seq. lia. }
  assert (HM : forall x, 0 <= x < m -> In x M).
  { intros x H. unfold M. rewrite in_map_iff. exists (Z.to_nat x). rewrite in_seq. lia. }
  assert (ND : NoDup (map f L)).
  { assert (NL : NoDup L).
    { unfold L. apply FinFun.Injective_map_NoDup; [intros a b; lia|apply seq_NoDup]. }
    assert (HL' : forall x, In x L -> 0 <= x < n) by (intros; apply HL; auto).
    clear HL. clearbody L. induction L as [|x L IH]; cbn; [constructor|].
    inversion NL; subst. constructor.
    - rewrite in_map_iff. intros (y & E & Hy). apply Hi in E; [subst; auto| |]; apply HL'; cbn; auto.
    - apply IH; auto. intros; apply HL'; cbn; auto. }
  assert (I : incl (map f L) M).
  { intros x Hx. apply in_map_iff in Hx. destruct Hx as (y & <- & Hy). apply HM, Hr, HL, Hy. }
  pose proof (NoDup_incl_length ND I) as Len.
  unfold L, M in Len. rewrite !map_length, !seq_length in Len. lia.
Qed.

Lemma denom_x_nz y : (F1 + Fd * (y * y) <> F0)%F.
Proof.
  intros H. assert (S : is_sq Fd).
  { destruct (F_dec y F0) as [->|Hy].
    - exfalso. apply F1_neq_0. rewrite <- H. ring.
    - exists (Fi / y)%F. transitivity ((Fi * Fi) / (y * y))%F; [field; assumption|]. rewrite Fi_sq.
      transitivity ((F1 + Fd * (y * y) - F1) / (y * y))%F; [rewrite H; field; assumption|field; assumption]. }
  exact (Fd_nsq S).
Qed.

Lemma curve_x_sq P : (ex P * ex P = (ey P * ey P - F1) / (F1 + Fd * (ey P * ey P)))%F.
Proof.
  pose proof (denom_x_nz (ey P)) as D. pose proof (E_on P) as H. unfold on_curve in H.
  assert (K : (ex P * ex P * (F1 + Fd * (ey P * ey P)) = ey P * ey P - F1)%F).
  { transitivity (F1 + Fd * (ex P * ex P) * (ey P * ey P) - F1 + ex P * ex P)%F; [ring|]. rewrite <- H. ring. }
  rewrite <- K. field. exact D.
Qed.

Definition eindex (P : E) : Z := 2 * fval (ey P) + (if Fneg (ex P) then 1 else 0).

Lemma eindex_range P : 0 <= eindex P < 2 * p.
Proof. unfold eindex. pose proof (fval_range (ey P)). destruct (Fneg (ex P)); lia. Qed.

Lemma eindex_inj P Q : eindex P = eindex Q -> P = Q.
Proof.
  unfold eindex. intros H.
  assert (Hy : ey P = ey Q) by (apply F_eq; destruct (Fneg (ex P)), (Fneg (ex Q)); lia).
  assert (Hs : Fneg (ex P) = Fneg (ex Q)).
  { rewrite Hy in H. destruct (Fneg (ex P)), (Fneg (ex Q)); auto; lia. }
  apply E_eq; [|exact Hy].
  assert (S : (ex P * ex P = ex Q * ex Q)%F) by (rewrite !curve_x_sq, Hy; reflexivity).
  apply Fsq_eq in S. destruct S as [S|S]; [exact S|].
  destruct (F_dec (ex Q) F0) as [Z|Z]; [rewrite S, Z; ring|].
  rewrite S, Fneg_opp in Hs by exact Z. destruct (Fneg (ex Q)); discriminate.
Qed.

Lemma bounded_dec (P : Z -> Prop) (dec : forall k, {P k} + {~ P k}) n :
  {exists k, 0 <= k < n /\ P k} + {~ exists k, 0 <= k < n /\ P k}.
Proof.
  assert (G : forall m : nat, {exists k, 0 <= k < Z.of_nat m /\ P k} + {~ exists k, 0 <= k < Z.of_nat m /\ P k}).
  { induction m as [|m IH].
    - right. intros (k & Hk & _). lia.
    - destruct IH as [Y|N].
      + left. destruct Y as (k & Hk & H). exists k. split; [lia|exact H].
      + destruct (dec (Z.of_nat m)) as [Y'|N'].
        * left. exists (Z.of_nat m). split; [lia|exact Y'].
        * right. intros (k & Hk & H). destruct (Z.eq_dec k (Z.of_nat m)) as [->|]; [auto|].
          apply N. exists k. split; [lia|exact H]. }
  destruct (Z_le_gt_dec 0 n) as [Hn|Hn].
  - specialize (G (Z.to_nat n)). rewrite Z2Nat.id in G by exact Hn. exact G.
  - right. intros (k & Hk & _). lia.
Qed.

Lemma l16_gt : 2 * p < 16 * l. Proof. vm_compute. reflexivity. Qed.

Theorem EG_generates Q : exists k, 0 <= k < 8 * l /\ Q = Emul k EG.
Proof.
  destruct (bounded_dec (fun k => Q = Emul k EG) (fun k => E_dec _ _) (8 * l)) as [Y|N]; [exact Y|].
  exfalso.
  pose (f := fun k => eindex (if k <? 8 * l then Emul k EG else Eadd Q (Emul (k - 8 * l) EG))).
  assert (L : 16 * l <= 2 * p); [|pose proof l16_gt; lia].
  pose proof l_pos.
  apply (pigeonhole (16 * l) (2 * p) f); [lia|pose proof p_pos; lia|intros; apply eindex_range|].
  intros x y Hx Hy E. unfold f in E. apply eindex_inj in E.
  assert (AUX : forall a b, 0 <= a < 8 * l -> 0 <= b < 8 * l -> (8 * l | a - b) -> a = b).
  { intros a b Ha Hb [c Hc]. assert (c = 0) by nia. subst c. lia. }
  assert (NOQ : forall a b, Emul a EG = Eadd Q (Emul b EG) -> False).
  { intros a b C. apply N. exists ((a - b) mod (8 * l)). split; [apply Z.mod_pos_bound; lia|].
    rewrite Emul_mod; [|lia|apply EG_mul_0, Z.divide_refl].
    rewrite Emul_sub, C. unfold Esub. rewrite <- Eadd_assoc, Eadd_opp, Eadd_0_r. reflexivity. }
  destruct (Z.ltb_spec x (8 * l)), (Z.ltb_spec y (8 * l)).
  - apply EG_mul_inj in E. apply AUX; auto; lia.
  - destruct (NOQ _ _ E).
  - symmetry in E. destruct (NOQ _ _ E).
  - apply Eadd_cancel_l in E. apply EG_mul_inj in E. apply AUX in E; lia.
Qed.

Theorem E_exponent Q : Emul (8 * l) Q = E0.
Proof.
  destruct (EG_generates Q) as (k & _ & ->). rewrite <- Emul_mul, Z.mul_comm, Emul_mul.
  rewrite (proj2 (EG_mul_0 (8 * l)) (Z.divide_refl _)). apply Emul_E0.
Qed.

(** ** The ristretto group 2E / E[4] *)
Definition even (P : E) : Prop := exists R, P = Eadd R R.
(** Two points are identified when their difference is killed by 4. *)
Definition Req (P Q : E) : Prop := Emul 4 (Esub P Q) = E0.

Lemma Req_refl P : Req P P.
Proof. unfold Req. rewrite (proj2 (Esub_0 P P) eq_refl). apply Emul_E0. Qed.
Lemma Req_4 P Q : Req P Q <-> Emul 4 P = Emul 4 Q.
Proof. unfold Req, Esub. rewrite Emul_add_r, Emul_opp_r. apply (Esub_0 (Emul 4 P) (Emul 4 Q)). Qed.
Lemma Req_sym P Q : Req P Q -> Req Q P.
Proof. rewrite !Req_4. congruence. Qed.
Lemma Req_trans P Q R : Req P Q -> Req Q R -> Req P R.
Proof. rewrite !Req_4. congruence. Qed.
Lemma Req_add P P' Q Q' : Req P P' -> Req Q Q' -> Req (Eadd P Q) (Eadd P' Q').
Proof. rewrite !Req_4, !Emul_add_r. congruence. Qed.
Lemma Req_opp P P' : Req P P' -> Req (Eopp P) (Eopp P').
Proof. rewrite !Req_4, !Emul_opp_r. congruence. Qed.
Lemma Req_mul k P P' : Req P P' -> Req (Emul k P) (Emul k P').
Proof. rewrite !Req_4, <- !Emul_mul, (Z.mul_comm 4), !Emul_mul. congruence. Qed.

Lemma even_add P Q : even P -> even Q -> even (Eadd P Q).
Proof. intros [R ->] [S ->]. exists (Eadd R S). apply Eadd_swap. Qed.
Lemma even_opp P : even P -> even (Eopp P).
Proof. intros [R ->]. exists (Eopp R). apply Eopp_add. Qed.
Lemma even_0 : even E0.
Proof. exists E0. symmetry. apply Eadd_0_l. Qed.
Lemma even_double P : even (Eadd P P).
Proof. exists P. reflexivity. Qed.
Lemma even_mul k P : even P -> even (Emul k P).
Proof. intros [R ->]. exists (Emul k R). apply Emul_add_r. Qed.
Lemma even_B : even EB.
Proof.
  exists (Emul ((l + 1) / 2) EB). rewrite <- Emul_add.
  replace ((l + 1) / 2 + (l + 1) / 2) with (l + 1) by (vm_compute; reflexivity).
  rewrite Emul_succ, EB_order, Eadd_0_l. reflexivity.
Qed.

Lemma even_index k : even (Emul k EG) <-> Z.even k = true.
Proof.
  split.
  - intros [R H]. destruct (EG_generates R) as (j & _ & ->). rewrite <- Emul_add in H.
    apply EG_mul_inj in H. destruct H as [c H].
    replace k with (2 * (j + c * 4 * l)) by lia. apply Z.even_spec. eexists; reflexivity.
  - intros H. apply Z.even_spec in H. destruct H as [j ->].
    exists (Emul j EG). rewrite <- Emul_add. f_equal. lia.
Qed.

(** l kills every element of the ristretto group. *)
Theorem R_exponent P : even P -> Req (Emul l P) E0.
Proof.
  intros [R ->]. apply Req_4. rewrite Emul_E0. rewrite <- Emul_mul, <- Emul_2, <- Emul_mul.
  replace (4 * l * 2) with (8 * l) by ring. apply E_exponent.
Qed.

Lemma EB_index : exists j, EB = Emul (8 * j) EG /\ rel_prime (4 * j) l.
Proof.
  destruct (EG_generates EB) as (k & Hk & E1).
  assert (D : (8 * l | l * k)) by (apply EG_mul_0; rewrite Emul_mul, <- E1; apply EB_order).
  destruct D as [c D]. pose proof l_pos.
  assert (Ek : k = 8 * c) by nia. subst k. exists c. split; [exact E1|].
  apply rel_prime_sym, prime_rel_prime; [exact prime_l|]. intros Dv.
  apply prime_mult in Dv; [|exact prime_l]. destruct Dv as [Dv|Dv].
  - apply Z.divide_pos_le in Dv; [pose proof l_gt; lia|lia].
  - apply EB_nz. rewrite E1. apply EG_mul_0. destruct Dv as [e ->]. exists e. ring.
Qed.

Theorem R_cyclic P : even P -> exists m, 0 <= m < l /\ Req P (Emul m EB).
Proof.
  intros Hev. destruct (EG_generates P) as (k & _ & ->). apply even_index in Hev.
  apply Z.even_spec in Hev. destruct Hev as [h ->].
  destruct EB_index as (j & -> & RP). apply rel_prime_bezout in RP. destruct RP as [u v E1].
  exists ((u * h) mod l). pose proof l_pos. split; [apply Z.mod_pos_bound; lia|].
  apply Req_4. rewrite <- !Emul_mul. apply EG_mul_inj.
  (* 8h - 32 j (u h mod l) is a multiple of 8 l *)
  rewrite (Z.mod_eq (u * h) l) by lia.
  exists (v * h + 4 * j * (u * h / l)).
  replace (4 * (2 * h)) with (8 * h * (u * (4 * j) + v * l)) by (rewrite E1; ring). ring.
Qed.

Theorem R_order_B m n : Req (Emul m EB) (Emul n EB) <-> (l | m - n).
Proof.
  rewrite Req_4, <- !Emul_mul. split; intros H.
  - apply (proj2 (Esub_0 _ _)) in H. rewrite <- Emul_sub in H. apply EB_mul_0 in H.
    replace (4 * m - 4 * n) with (4 * (m - n)) in H by ring.
    apply Gauss in H; [exact H|]. apply prime_rel_prime; [exact prime_l|].
    intros D. apply Z.divide_pos_le in D; [|lia]. pose proof l_gt. lia.
  - apply Esub_0. rewrite <- Emul_sub. apply EB_mul_0. replace (4 * m - 4 * n) with (4 * (m - n)) by ring.
    apply Z.divide_mul_r, H.
Qed.

Theorem R_cyclic_unique P m n : 0 <= m < l -> 0 <= n < l ->
  Req P (Emul m EB) -> Req P (Emul n EB) -> m = n.
Proof.
  intros Hm Hn A B. assert (C : Req (Emul m EB) (Emul n EB)) by (apply (Req_trans _ P); [apply Req_sym; exact A|exact B]).
  apply R_order_B in C. destruct C as [c C]. assert (c = 0) by nia. subst c. lia.
Qed.

(** In the ristretto group scalars only matter modulo l. *)
Lemma R_mul_mod k P : even P -> Req (Emul (k mod l) P) (Emul k P).
Proof.
  intros He. pose proof l_pos. rewrite (Z.mod_eq k l) by lia.
  rewrite Emul_sub, Z.mul_comm, Emul_mul.
  apply (Req_trans _ (Esub (Emul k P) E0)).
  - apply Req_add; [apply Req_refl|]. apply Req_opp.
    apply (Req_trans _ (Emul (k / l) E0)); [apply Req_mul, R_exponent, He|rewrite Emul_E0; apply Req_refl].
  - unfold Esub. rewrite Eopp_0, Eadd_0_r. apply Req_refl.
Qed.
