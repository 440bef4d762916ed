(** The functions of CheckedModel.v never leave the arrays, and compute what the other model files say. *)
From Coq Require Import ZArith List Bool Lia.
From Verif Require Import Words ScalarCode ScalarModel FieldModel CurveModel RistrettoModel ScalarMultProofs WindowProofs AllScalars Backends CheckedModel.
Import ListNotations.
Open Scope Z_scope.

Lemma get_nth {A : Type} (a : list A) k d : (k < length a)%nat -> get a (Z.of_nat k) = Some (nth k a d).
Proof.
  intro h. unfold get. rewrite (proj2 (Z.leb_le 0 (Z.of_nat k))) by lia. rewrite Nat2Z.id. apply nth_error_nth', h.
Qed.
Lemma get_at a k : (k < length a)%nat -> get a (Z.of_nat k) = Some (at_ a k).
Proof. apply get_nth. Qed.
Lemma get_nth_error {A : Type} (a : list A) i : 0 <= i -> get a i = nth_error a (Z.to_nat i).
Proof. intro h. unfold get. rewrite (proj2 (Z.leb_le 0 i)) by lia. reflexivity. Qed.
Lemma set_upd {A : Type} (a : list A) k x : (k < length a)%nat -> set a (Z.of_nat k) x = Some (upd a k x).
Proof.
  intro h. unfold set. rewrite (proj2 (Z.leb_le 0 (Z.of_nat k))), (proj2 (Z.ltb_lt (Z.of_nat k) _)) by lia.
  rewrite Nat2Z.id. reflexivity.
Qed.
Lemma add_at_upd a k x : (k < length a)%nat -> add_at a (Z.of_nat k) x = Some (upd a k (i8 (at_ a k + x))).
Proof. intro h. unfold add_at. rewrite get_at by exact h. apply set_upd, h. Qed.
Lemma slice_ok s i j : (i <= j <= length s)%nat -> sub_slice s (Z.of_nat i) (Z.of_nat j) = Some (slice s i j).
Proof.
  intro h. unfold sub_slice, slice. rewrite (proj2 (Z.leb_le 0 _)), (proj2 (Z.leb_le (Z.of_nat i) _)), (proj2 (Z.leb_le (Z.of_nat j) _)) by lia.
  cbn [andb]. rewrite <- Nat2Z.inj_sub, !Nat2Z.id by lia. reflexivity.
Qed.

(** loops *)
Lemma ck_for_rel {A B : Type} (R : nat -> A -> B -> Prop) n f g a b : R 0%nat a b ->
  (forall k x y, (k < n)%nat -> R k x y -> exists x', f (Z.of_nat k) x = Some x' /\ R (S k) x' (g k y)) ->
  exists a', ck_for n f a = Some a' /\ R n a' (for_up n g b).
Proof.
  intros h0. induction n as [|n IH]; intros hs; cbn [ck_for for_up]; [exists a; auto|].
  destruct IH as (a1 & e & h); [intros k x y hk; apply hs; lia|]. rewrite e.
  apply hs; [lia|exact h].
Qed.
Lemma ck_for_eq {A : Type} (P : nat -> A -> Prop) n f g a : P 0%nat a ->
  (forall k x, (k < n)%nat -> P k x -> f (Z.of_nat k) x = Some (g k x) /\ P (S k) (g k x)) ->
  ck_for n f a = Some (for_up n g a) /\ P n (for_up n g a).
Proof.
  intros h0 hs. destruct (ck_for_rel (fun k x y => x = y /\ P k y) n f g a a) as (a' & e & -> & h).
  - split; [reflexivity|exact h0].
  - intros k x y hk [-> hx]. destruct (hs k y hk hx) as [e h]. exists (g k y). auto.
  - split; [exact e|exact h].
Qed.
Lemma ck_for_eq' {A : Type} n f g (a : A) :
  (forall k x, (k < n)%nat -> f (Z.of_nat k) x = Some (g k x)) -> ck_for n f a = Some (for_up n g a).
Proof.
  intro hs. refine (proj1 (ck_for_eq (fun _ _ => True) n f g a Logic.I _)). intros k x hk _. split; [apply hs, hk|exact Logic.I].
Qed.

(** filling an array from the left *)
Lemma set_pre {A : Type} (pre : list A) y rest x : set (pre ++ y :: rest) (Z.of_nat (length pre)) x = Some ((pre ++ [x]) ++ rest).
Proof.
  rewrite set_upd by (rewrite app_length; cbn [length]; lia). f_equal.
  rewrite <- app_assoc. induction pre as [|z pre IH]; cbn [length app upd]; [reflexivity|]. rewrite IH. reflexivity.
Qed.
Lemma set_pre' {A : Type} k (pre : list A) y rest x : length pre = k -> set (pre ++ y :: rest) (Z.of_nat k) x = Some ((pre ++ [x]) ++ rest).
Proof. intros <-. apply set_pre. Qed.
Lemma fill {A : Type} n (f : Z -> list A -> option (list A)) (v : nat -> A) (arr : list A) : length arr = n ->
  (forall k a, (k < n)%nat -> length a = n -> f (Z.of_nat k) a = set a (Z.of_nat k) (v k)) ->
  ck_for n f arr = Some (map v (seq 0 n)).
Proof.
  intros hl hf.
  assert (H : forall k, (k <= n)%nat -> ck_for k f arr = Some (map v (seq 0 k) ++ skipn k arr)).
  { induction k as [|k IH]; intro hk; [reflexivity|]. cbn [ck_for]. rewrite IH by lia.
    assert (L : length (map v (seq 0 k)) = k) by (rewrite map_length, seq_length; reflexivity).
    rewrite hf; [|lia|rewrite app_length, L, skipn_length; lia].
    destruct (skipn k arr) as [|y rest] eqn:E; [pose proof (skipn_length k arr) as h; rewrite E in h; cbn [length] in h; lia|].
    rewrite (set_pre' k) by exact L. rewrite seq_S, map_app. cbn [map Nat.add]. do 2 apply f_equal.
    assert (S1 : forall (l : list A) j z zs, skipn j l = z :: zs -> skipn (S j) l = zs).
    { induction l as [|a0 l IHl]; intros [|j] z zs e; cbn [skipn] in *; try discriminate; [congruence|]. destruct l; [destruct j; discriminate|]. apply (IHl j z zs e). }
    symmetry. apply (S1 _ _ _ _ E). }
  rewrite H by lia. rewrite <- hl, skipn_all, app_nil_r. reflexivity.
Qed.

(** ** scalar.go, field.go *)
Lemma reverse_ok buf : length buf = 32%nat -> ck_reverse buf = Some (map (fun i => at_ buf (31 - i)) (seq 0 32)).
Proof.
  intro h. unfold ck_reverse. apply fill; [reflexivity|]. intros k a hk ha.
  replace (31 - Z.of_nat k) with (Z.of_nat (31 - k)) by lia. rewrite get_at by lia. reflexivity.
Qed.
Lemma copy_reverse_ok buf :
  ck_copy_reverse buf = Some (map (fun i => if (i <? length buf)%nat then at_ buf (length buf - i - 1) else 0) (seq 0 32)).
Proof.
  unfold ck_copy_reverse. set (g := fun i => if (i <? length buf)%nat then at_ buf (length buf - i - 1) else 0).
  assert (H : forall k, (k <= 32)%nat -> ck_for k (fun i rBuf =>
    if i <? Z.of_nat (length buf) then let? b := get buf (Z.of_nat (length buf) - i - 1) in set rBuf i b
    else Some rBuf) (repeat 0 32) = Some (map g (seq 0 k) ++ repeat 0 (32 - k))).
  { induction k as [|k IH]; intro hk; [reflexivity|]. cbn [ck_for]. rewrite IH by lia.
    assert (L : length (map g (seq 0 k)) = k) by (rewrite map_length, seq_length; reflexivity).
    rewrite seq_S, map_app. cbn [map Nat.add]. unfold g at 4.
    replace (32 - k)%nat with (S (32 - S k)) by lia. cbn [repeat].
    destruct (Nat.ltb k (length buf)) eqn:E.
    - apply Nat.ltb_lt in E. rewrite (proj2 (Z.ltb_lt (Z.of_nat k) _)) by lia.
      replace (Z.of_nat (length buf) - Z.of_nat k - 1) with (Z.of_nat (length buf - k - 1)) by lia.
      rewrite get_at by lia. rewrite (set_pre' k) by exact L. reflexivity.
    - apply Nat.ltb_ge in E. rewrite (proj2 (Z.ltb_ge (Z.of_nat k) _)) by lia. rewrite <- app_assoc. reflexivity. }
  rewrite H by lia. change (32 - 32)%nat with 0%nat. cbn [repeat]. rewrite app_nil_r. reflexivity.
Qed.

(** ** windows *)
Ltac destr32 s h := do 32 (destruct s as [|? s]; [discriminate h|]); destruct s; [|discriminate h].
Lemma window5_raw_ck s w : length s = 32%nat -> length w = 51%nat -> ck_window5_raw s w = Some (window5_raw s).
Proof.
  intros hs hw. destr32 s hs. do 51 (destruct w as [|? w]; [discriminate hw|]). destruct w; [|discriminate hw].
  lazy -[Z.land Z.lxor Z.shiftr Z.shiftl u8 i8]. reflexivity.
Qed.
Lemma window5_step_ck w c k : length w = 51%nat -> (k < 50)%nat ->
  ck_window5_step (Z.of_nat k) (w, c) = Some (window5_step k (w, c)) /\ length (fst (window5_step k (w, c))) = 51%nat.
Proof.
  intros hw hk. split; [|cbn [window5_step fst]; rewrite !upd_length; exact hw].
  cbn [ck_window5_step window5_step]. rewrite add_at_upd by lia. rewrite get_at by (rewrite upd_length; lia).
  replace (Z.of_nat k + 1) with (Z.of_nat (k + 1)) by lia. rewrite add_at_upd by (rewrite upd_length; lia).
  rewrite get_at by (rewrite !upd_length; lia). rewrite set_upd by (rewrite !upd_length; lia).
  rewrite get_at by (rewrite !upd_length; lia). rewrite set_upd by (rewrite !upd_length; lia). reflexivity.
Qed.
Lemma window5_raw_len s : length s = 32%nat -> length (window5_raw s) = 51%nat.
Proof. reflexivity. Qed.
Lemma window5_ck s w : length s = 32%nat -> length w = 51%nat ->
  ck_computeScalarWindow5 s w = Some (computeScalarWindow5 s) /\ length (computeScalarWindow5 s) = 51%nat.
Proof.
  intros hs hw. unfold ck_computeScalarWindow5, computeScalarWindow5. rewrite window5_raw_ck by assumption.
  destruct (ck_for_eq (fun _ (st : list Z * Z) => length (fst st) = 51%nat) 50 ck_window5_step window5_step (window5_raw s, 0)) as [e h].
  - apply window5_raw_len, hs.
  - intros k [a c] hk ha. cbn [fst] in ha. apply window5_step_ck; assumption.
  - rewrite e. destruct (for_up 50 window5_step (window5_raw s, 0)) as [a c]. cbn [fst snd] in *.
    change 50 with (Z.of_nat 50) at 1. rewrite add_at_upd by lia. split; [reflexivity|rewrite upd_length; exact h].
Qed.

Lemma window4_raw_ck s w : length s = 32%nat -> length w = 64%nat -> ck_for 32 (fun i w =>
    let? a := get s i in let? w := set w (2 * i) (i8 (Z.land a 15)) in
    let? a := get s i in set w (2 * i + 1) (i8 (Z.land (Z.shiftr a 4) 15))) w = Some (window4_raw s).
Proof.
  intros hs hw. destr32 s hs. do 64 (destruct w as [|? w]; [discriminate hw|]). destruct w; [|discriminate hw].
  lazy -[Z.land Z.lxor Z.shiftr Z.shiftl u8 i8]. reflexivity.
Qed.
Lemma window4_step_ck w c k : length w = 64%nat -> (k < 63)%nat ->
  ck_window4_step (Z.of_nat k) (w, c) = Some (window4_step k (w, c)) /\ length (fst (window4_step k (w, c))) = 64%nat.
Proof.
  intros hw hk. split; [|cbn [window4_step fst]; rewrite !upd_length; exact hw].
  cbn [ck_window4_step window4_step]. rewrite add_at_upd by lia. rewrite !get_at by (rewrite upd_length; lia).
  rewrite set_upd by (rewrite !upd_length; lia). reflexivity.
Qed.
Lemma window4_ck s w : length s = 32%nat -> length w = 64%nat ->
  ck_computeScalarWindow4 s w = Some (computeScalarWindow4 s) /\ length (computeScalarWindow4 s) = 64%nat.
Proof.
  intros hs hw. unfold ck_computeScalarWindow4, computeScalarWindow4. rewrite window4_raw_ck by assumption.
  destruct (ck_for_eq (fun _ (st : list Z * Z) => length (fst st) = 64%nat) 63 ck_window4_step window4_step (window4_raw s, 0)) as [e h].
  - reflexivity.
  - intros k [a c] hk ha. cbn [fst] in ha. apply window4_step_ck; assumption.
  - rewrite e. destruct (for_up 63 window4_step (window4_raw s, 0)) as [a c]. cbn [fst snd] in *.
    change 63 with (Z.of_nat 63) at 1. rewrite add_at_upd by lia. split; [reflexivity|rewrite upd_length; exact h].
Qed.

(** ** the non-adjacent form *)
Lemma load8u_ck s : length s = 8%nat -> ck_load8u s = Some (load8u s).
Proof. intro h. do 8 (destruct s as [|? s]; [discriminate h|]). destruct s; [reflexivity|discriminate h]. Qed.
Lemma naf_loop_ck fuel : forall x pos c naf, length x = 5%nat -> length naf = 256%nat -> (pos <= 260)%nat ->
  ck_naf_loop fuel x (Z.of_nat pos) c naf = naf_loop fuel x pos c naf.
Proof.
  induction fuel as [|fuel IH]; intros x pos c naf hx hn hp.
  { cbn [ck_naf_loop naf_loop]. destruct (Nat.ltb pos 256) eqn:E.
    - apply Nat.ltb_lt in E. rewrite (proj2 (Z.ltb_lt _ _)) by lia. reflexivity.
    - apply Nat.ltb_ge in E. rewrite (proj2 (Z.ltb_ge _ _)) by lia. reflexivity. }
  cbn [ck_naf_loop naf_loop]. destruct (Nat.ltb pos 256) eqn:E.
  2: { apply Nat.ltb_ge in E. rewrite (proj2 (Z.ltb_ge _ _)) by lia. reflexivity. }
  apply Nat.ltb_lt in E. rewrite (proj2 (Z.ltb_lt _ _)) by lia. cbv zeta.
  change 64 with (Z.of_nat 64). rewrite <- Nat2Z.inj_div, <- Nat2Z.inj_mod.
  assert (hd : (pos / 64 < 4)%nat) by (apply Nat.div_lt_upper_bound; lia).
  assert (hu : forall k, (k <= 5)%nat -> u16 (Z.of_nat pos + Z.of_nat k) = Z.of_nat (pos + k)).
  { intros k hk. unfold u16. rewrite Z.mod_small by lia. lia. }
  replace (1 + Z.of_nat (pos / 64)) with (Z.of_nat (1 + pos / 64)) by lia.
  rewrite !get_at by lia.
  assert (B : forall m, (if Z.of_nat m <? 59 then Some (Z.shiftr (at_ x (pos / 64)) (Z.of_nat m))
     else Some (Z.lor (Z.shiftr (at_ x (pos / 64)) (Z.of_nat m)) (u64 (Z.shiftl (at_ x (1 + pos / 64)) (Z.of_nat 64 - Z.of_nat m))))) =
    Some (if Nat.ltb m 59 then Z.shiftr (at_ x (pos / 64)) (Z.of_nat m)
      else Z.lor (Z.shiftr (at_ x (pos / 64)) (Z.of_nat m)) (u64 (Z.shiftl (at_ x (1 + pos / 64)) (Z.of_nat 64 - Z.of_nat m))))).
  { intro m. destruct (Nat.ltb m 59) eqn:F.
    - apply Nat.ltb_lt in F. rewrite (proj2 (Z.ltb_lt _ _)) by lia. reflexivity.
    - apply Nat.ltb_ge in F. rewrite (proj2 (Z.ltb_ge _ _)) by lia. reflexivity. }
  rewrite B. clear B.
  match goal with |- context [Z.land (u64 (c + Z.land ?b 31)) 1] => generalize (u64 (c + Z.land b 31)) end. intro win.
  change 1 with (Z.of_nat 1) at 2. change 5 with (Z.of_nat 5). rewrite !hu by lia.
  rewrite !set_upd by lia.
  destruct (Z.land win 1 =? 0); [apply IH; lia|].
  destruct (win <? 16); apply IH; try lia; rewrite upd_length; lia.
Qed.
Lemma naf_ck s : length s = 32%nat -> ck_computeScalar5NAF s = computeScalar5NAF s.
Proof.
  intro hs. unfold ck_computeScalar5NAF, computeScalar5NAF.
  assert (E : ck_for 4 (fun i x =>
    let? b := sub_slice s (i * 8) ((i + 1) * 8) in let? v := ck_load8u b in set x i v) (repeat 0 5) =
    Some (map (fun i => load8u (slice s (i * 8) ((i + 1) * 8))) (seq 0 4) ++ [0])).
  { destr32 s hs. lazy -[Z.lor Z.shiftl u64]. reflexivity. }
  rewrite E. cbv zeta. change 0 with (Z.of_nat 0) at 2. apply naf_loop_ck; [reflexivity|apply repeat_length|lia].
Qed.

Section Curve.
Context (K : FeOps).
Notation FE := (fe K).
Notation EXT := (ext FE).
Notation NIELS := (niels FE).
Notation zv := (ep_zerovalue K).

Lemma fe_BigInt_ck x : length (fst (o_bytes K x)) = 32%nat -> ck_fe_BigInt K x = Some (fe_BigInt K x).
Proof.
  intro h. unfold ck_fe_BigInt, fe_BigInt. rewrite reverse_ok by exact h. destruct (o_bytes K x). reflexivity.
Qed.
Lemma fe_SetBigInt_ck x : ck_fe_SetBigInt K x = Some (fe_SetBigInt K x).
Proof. unfold ck_fe_SetBigInt. rewrite copy_reverse_ok. reflexivity. Qed.

Lemma sm_lut_ck q : ck_sm_lut K q = Some (sm_lut K q) /\ length (sm_lut K q) = 17%nat.
Proof.
  unfold ck_sm_lut, sm_lut.
  change 0 with (Z.of_nat 0). change 1 with (Z.of_nat 1). rewrite set_upd by (rewrite repeat_length; lia).
  rewrite set_upd by (rewrite upd_length, repeat_length; lia).
  set (l0 := upd (upd (repeat zv 17) 0 (ep_SetZero K)) 1 q).
  assert (h0 : length l0 = 17%nat) by (unfold l0; rewrite !upd_length, repeat_length; reflexivity). clearbody l0.
  match goal with |- context [ck_for 7 ?f _] => match goal with |- context [for_up 7 ?g _] =>
    destruct (ck_for_eq (fun _ l => length l = 17%nat) 7 f g l0 h0) as [e h] end end.
  { intros k l hk hl. cbv beta zeta. split; [|rewrite !upd_length; exact hl].
    replace (2 * Z.of_nat k + 2) with (Z.of_nat (2 * k + 2)) by lia.
    replace (Z.shiftr (Z.of_nat (2 * k + 2)) (Z.of_nat 1)) with (Z.of_nat ((2 * k + 2) / 2)).
    2: { rewrite Nat2Z.inj_div. change (Z.of_nat 1) with 1. rewrite Z.shiftr_div_pow2 by lia. reflexivity. }
    assert ((2 * k + 2) / 2 = k + 1)%nat as -> by (replace (2 * k + 2)%nat with ((k + 1) * 2)%nat by lia; apply Nat.div_mul; lia).
    rewrite (get_nth l (k + 1) zv) by lia. rewrite set_upd by lia.
    rewrite (get_nth _ (2 * k + 2) zv) by (rewrite upd_length; lia).
    replace (Z.of_nat (2 * k + 2) + Z.of_nat 1) with (Z.of_nat (2 * k + 2 + 1)) by lia.
    rewrite set_upd by (rewrite upd_length; lia). reflexivity. }
  rewrite e. match goal with |- context [for_up 7 ?g l0] => set (l1 := for_up 7 g l0) in * end. clearbody l1.
  change 8 with (Z.of_nat 8). change 16 with (Z.of_nat 16). rewrite (get_nth _ 8 zv) by lia. rewrite set_upd by lia.
  split; [reflexivity|rewrite upd_length; exact h].
Qed.
Lemma sm_select_ck lut b : length lut = 17%nat -> ck_sm_select K lut b = Some (sm_select K lut b).
Proof.
  intro hl. unfold ck_sm_select, sm_select. change 0 with (Z.of_nat 0) at 1. rewrite (get_nth _ 0 zv) by lia.
  match goal with |- context [ck_for 16 ?f ?a] => match goal with |- context [for_up 16 ?g _] =>
    rewrite (ck_for_eq' 16 f g a) end end; [reflexivity|].
  intros k t hk. cbv beta zeta. replace (Z.of_nat k + 1) with (Z.of_nat (k + 1)) by lia.
  rewrite (get_nth _ (k + 1) zv) by lia. reflexivity.
Qed.
Lemma ep_ScalarMult_ck q s : length s = 32%nat -> ck_ep_ScalarMult K q s = Some (ep_ScalarMult K q s).
Proof.
  intro hs. unfold ck_ep_ScalarMult, ep_ScalarMult.
  destruct (window5_ck s (repeat 0 51) hs (repeat_length _ _)) as [e hw]. rewrite e.
  destruct (sm_lut_ck q) as [el hl]. rewrite el. generalize dependent (sm_lut K q). intros lut _ hl.
  generalize dependent (computeScalarWindow5 s). intros w _ hw. apply ck_for_eq'.
  intros k p hk. replace (50 - Z.of_nat k) with (Z.of_nat (50 - k)) by lia. rewrite get_at by lia.
  cbv zeta. rewrite sm_select_ck by exact hl. reflexivity.
Qed.

Lemma vt_lut_ck q : ck_vt_lut K q = Some (vt_lut K q) /\ length (vt_lut K q) = 8%nat.
Proof.
  unfold ck_vt_lut, vt_lut. change 0 with (Z.of_nat 0). rewrite set_upd by (rewrite repeat_length; lia).
  set (l0 := upd (repeat zv 8) 0 q).
  assert (h0 : length l0 = 8%nat) by (unfold l0; rewrite !upd_length, repeat_length; reflexivity). clearbody l0.
  apply (ck_for_eq (fun _ l => length l = 8%nat)); [exact h0|].
  intros k l hk hl. cbv beta zeta. split; [|rewrite upd_length; exact hl].
  replace (Z.of_nat k + 1) with (Z.of_nat (k + 1)) by lia. replace (Z.of_nat (k + 1) - 1) with (Z.of_nat (k + 1 - 1)) by lia.
  rewrite (get_nth l _ zv) by lia. rewrite set_upd by lia. reflexivity.
Qed.
Lemma vt_skip_ck naf : length naf = 256%nat -> forall n, (n <= 256)%nat -> forall fuel, (n < fuel)%nat ->
  ck_vt_skip fuel naf (Z.of_nat n - 1) = Some (Z.of_nat (vt_skip naf n) - 1).
Proof.
  intro hl. induction n as [|n IH]; intros hn [|fuel] hf; try lia; cbn [ck_vt_skip vt_skip].
  - reflexivity.
  - replace (Z.of_nat (S n) - 1) with (Z.of_nat n) by lia. rewrite (proj2 (Z.leb_le _ _)) by lia.
    rewrite get_at by lia. destruct (at_ naf n =? 0); cbn [negb]; [apply IH; lia|].
    do 1 apply f_equal. lia.
Qed.
Lemma vt_inner_ck naf : length naf = 256%nat -> forall i, (i < 256)%nat -> forall fuel cp, (i < fuel)%nat ->
  ck_vt_inner K fuel naf (Z.of_nat i) cp = Some (Z.of_nat (fst (vt_inner K naf i cp)), snd (vt_inner K naf i cp)) /\
  (fst (vt_inner K naf i cp) <= i)%nat.
Proof.
  intro hl. induction i as [|i IH]; intros hi [|fuel] cp hf; try lia; cbn [ck_vt_inner vt_inner].
  - split; [reflexivity|cbn [fst]; lia].
  - rewrite (proj2 (Z.eqb_neq (Z.of_nat (S i)) 0)) by lia. rewrite get_at by lia.
    destruct (at_ naf (S i) =? 0); cbn [negb].
    + replace (Z.of_nat (S i) - 1) with (Z.of_nat i) by lia.
      destruct (IH ltac:(lia) fuel (cp_DoubleProjective K (pp_SetCompleted K cp)) ltac:(lia)) as [e h]. split; [exact e|lia].
    + split; [reflexivity|cbn [fst]; lia].
Qed.
Lemma vt_loop_ck lut naf : length lut = 8%nat -> length naf = 256%nat -> Forall naf_digit naf ->
  forall fuel i p, (i < 256)%nat -> (i < fuel)%nat -> at_ naf i <> 0 ->
  exists r, ck_vt_loop K fuel lut naf (Z.of_nat i) p = Some r /\ vt_loop K fuel lut naf i p = Some r.
Proof.
  intros hll hl hd. induction fuel as [|fuel IH]; intros i p hi hf hn; [lia|].
  cbn [ck_vt_loop vt_loop]. rewrite get_at by lia. cbv zeta.
  assert (hdd : -15 <= at_ naf i <= 15).
  { rewrite Forall_forall in hd. destruct (hd (at_ naf i)) as [h|h]; [apply nth_In; lia|contradiction|apply h]. }
  revert hn hdd. generalize (at_ naf i). intros d hn hdd.
  assert (CP : exists cp, (if 0 <? d then let? a := get lut (i8 (Z.quot (i8 (d + 1)) 2 - 1)) in Some (cp_AddExtended K p a)
      else let? a := get lut (i8 (Z.quot (i8 (1 - d)) 2 - 1)) in Some (cp_SubExtended K p a)) = Some cp /\
      (if 0 <? d then
         match nth_error lut (Z.to_nat (i8 (Z.quot (i8 (d + 1)) 2 - 1))) with
         | Some r => Some (cp_AddExtended K p r) | None => None end
       else
         match nth_error lut (Z.to_nat (i8 (Z.quot (i8 (1 - d)) 2 - 1))) with
         | Some r => Some (cp_SubExtended K p r) | None => None end) = Some cp).
  { destruct (0 <? d) eqn:E.
    - apply Z.ltb_lt in E. rewrite (i8_sm (d + 1)) by lia. rewrite Z.quot_div_nonneg by lia.
      assert (0 <= (d + 1) / 2 - 1 < 8) by (pose proof (Z.div_mod (d + 1) 2); pose proof (Z.mod_pos_bound (d + 1) 2); lia).
      rewrite i8_sm by lia. rewrite get_nth_error by lia. rewrite (nth_error_nth' lut zv) by lia. eexists. split; reflexivity.
    - apply Z.ltb_ge in E. rewrite (i8_sm (1 - d)) by lia. rewrite Z.quot_div_nonneg by lia.
      assert (0 <= (1 - d) / 2 - 1 < 8) by (pose proof (Z.div_mod (1 - d) 2); pose proof (Z.mod_pos_bound (1 - d) 2); lia).
      rewrite i8_sm by lia. rewrite get_nth_error by lia. rewrite (nth_error_nth' lut zv) by lia. eexists. split; reflexivity. }
  destruct CP as (cp & e1 & e2). rewrite e1, e2. destruct i as [|i]; [eexists; split; reflexivity|].
  rewrite (proj2 (Z.eqb_neq (Z.of_nat (S i)) 0)) by lia. replace (Z.of_nat (S i) - 1) with (Z.of_nat i) by lia.
  destruct (vt_inner_ck naf hl i ltac:(lia) 257%nat (cp_DoubleProjective K (pp_SetCompleted K cp)) ltac:(lia)) as [e h].
  rewrite e. destruct (vt_inner K naf i _) as [j cp']. cbn [fst snd] in *. rewrite get_at by lia.
  destruct (at_ naf j =? 0) eqn:E; [eexists; split; reflexivity|]. apply Z.eqb_neq in E. apply IH; [lia|lia|exact E].
Qed.
Lemma ep_VarTimeScalarMult_ck q s : bytes 32 s ->
  exists r, ck_ep_VarTimeScalarMult K q s = Some r /\ ep_VarTimeScalarMult K q s = Some r.
Proof.
  intro hs. unfold ck_ep_VarTimeScalarMult, ep_VarTimeScalarMult. destruct (vt_lut_ck q) as [e hl]. rewrite e, naf_ck by apply hs.
  destruct (computeScalar5NAF_all s hs) as (naf & c & -> & hn & hd & _). cbv zeta.
  change 255 with (Z.of_nat 256 - 1). rewrite vt_skip_ck by lia.
  destruct (vt_skip naf 256) as [|i] eqn:E; [eexists; split; reflexivity|].
  assert (H : forall n i, vt_skip naf n = S i -> (i < n)%nat /\ at_ naf i <> 0).
  { induction n as [|n IH]; intros j h; cbn [vt_skip] in h; [discriminate|]. destruct (at_ naf n =? 0) eqn:F.
    - destruct (IH j h). split; [lia|assumption].
    - injection h as <-. apply Z.eqb_neq in F. split; [lia|exact F]. }
  destruct (H _ _ E) as [h1 h2]. rewrite (proj2 (Z.eqb_neq _ _)) by lia. replace (Z.of_nat (S i) - 1) with (Z.of_nat i) by lia.
  apply vt_loop_ck; try assumption; lia.
Qed.

(** ** tables *)
Definition shape (t : list (list NIELS)) : Prop := length t = 32%nat /\ Forall (fun r => length r = 8%nat) t.

Lemma get2_ok t i v : shape t -> (i < 32)%nat -> (v < 8)%nat -> get2 K t (Z.of_nat i) (Z.of_nat v) = Some (tbl_at K t i v).
Proof.
  intros [hl hr] hi hv. unfold get2, tbl_at. rewrite (get_nth t i []) by lia. apply get_nth.
  rewrite Forall_forall in hr. rewrite (hr (nth i t [])); [exact hv|apply nth_In; lia].
Qed.
Lemma row_len t i : shape t -> (i < 32)%nat -> length (nth i t []) = 8%nat.
Proof. intros [hl hr] hi. rewrite Forall_forall in hr. apply hr, nth_In. lia. Qed.

Lemma tbl_select_ck t i b : shape t -> (i < 32)%nat -> ck_tbl_select K t (Z.of_nat i) b = Some (tbl_select K t i b).
Proof.
  intros ht hi. unfold ck_tbl_select, tbl_select. cbv zeta.
  match goal with |- context [ck_for 8 ?f ?a] => match goal with |- context [for_up 8 ?g _] =>
    rewrite (ck_for_eq' 8 f g a) end end; [reflexivity|].
  intros k p hk. cbv beta. rewrite get2_ok by assumption. reflexivity.
Qed.
Lemma tbl_ScalarMult_ck t s : shape t -> length s = 32%nat -> ck_tbl_ScalarMult K t s = Some (tbl_ScalarMult K t s).
Proof.
  intros ht hs. unfold ck_tbl_ScalarMult, tbl_ScalarMult. destruct (window4_ck s (repeat 0 64) hs (repeat_length _ _)) as [e hw]. rewrite e.
  generalize dependent (computeScalarWindow4 s). intros w _ hw.
  match goal with |- context [ck_for 32 ?f (ep_SetZero K)] => match goal with |- context [for_up 32 ?g (ep_SetZero K)] =>
    rewrite (ck_for_eq' 32 f g (ep_SetZero K)) end end.
  - apply ck_for_eq'. intros k p hk. replace (2 * Z.of_nat k) with (Z.of_nat (2 * k)) by lia. rewrite get_at by lia.
    rewrite tbl_select_ck by assumption. reflexivity.
  - intros k p hk. replace (2 * Z.of_nat k + 1) with (Z.of_nat (2 * k + 1)) by lia. rewrite get_at by lia.
    rewrite tbl_select_ck by assumption. reflexivity.
Qed.

Lemma vtSelect_ck t i b : shape t -> (i < 32)%nat -> -128 <= b < 128 -> ck_tbl_vtSelect K t (Z.of_nat i) b = tbl_vtSelect K t i b.
Proof.
  intros ht hi hb. unfold ck_tbl_vtSelect, tbl_vtSelect, get2. rewrite (get_nth t i []) by (destruct ht; lia). cbv zeta.
  destruct (b =? 0) eqn:E0; [reflexivity|]. apply Z.eqb_neq in E0.
  assert (S32 : forall x, -200 <= x <= 200 -> i32 x = x) by (intros x hx; unfold i32; rewrite Z.mod_small; lia).
  destruct (b <? 0) eqn:E.
  - apply Z.ltb_lt in E. rewrite (S32 (- b)), S32 by lia. rewrite get_nth_error by lia. reflexivity.
  - apply Z.ltb_ge in E. rewrite S32 by lia. rewrite get_nth_error by lia. reflexivity.
Qed.
Lemma vtStep_ck t i b p : shape t -> (i < 32)%nat -> -128 <= b < 128 -> ck_tbl_vtStep K t (Z.of_nat i) b p = tbl_vtStep K t i b (Some p).
Proof.
  intros ht hi hb. unfold ck_tbl_vtStep, tbl_vtStep. rewrite vtSelect_ck by assumption. destruct (tbl_vtSelect K t i b) as [[n|]|]; reflexivity.
Qed.
Lemma ck_for_opt {A : Type} n (f : Z -> A -> option A) (g : nat -> option A -> option A) x :
  (forall k y, (k < n)%nat -> f (Z.of_nat k) y = g k (Some y)) -> (forall k, g k None = None) ->
  ck_for n f x = for_up n g (Some x).
Proof.
  intros h0 hN. induction n as [|n IH]; cbn [ck_for for_up]; [reflexivity|].
  rewrite IH by (intros k y hk; apply h0; lia). destruct (for_up n g (Some x)) as [y|]; [apply h0; lia|symmetry; apply hN].
Qed.
Lemma for_up_None {A : Type} n (g : nat -> option A -> option A) : (forall k, g k None = None) -> for_up n g None = None.
Proof. intro h. induction n as [|n IH]; cbn [for_up]; [reflexivity|]. rewrite IH. apply h. Qed.
Lemma tbl_VarTimeScalarMult_ck t s : shape t -> bytes 32 s -> ck_tbl_VarTimeScalarMult K t s = tbl_VarTimeScalarMult K t s.
Proof.
  intros ht hs. unfold ck_tbl_VarTimeScalarMult, tbl_VarTimeScalarMult.
  destruct (window4_ck s (repeat 0 64) (proj1 hs) (repeat_length _ _)) as [e _]. rewrite e. clear e.
  destruct (window4_all s hs) as (hw & hd & hd' & _).
  generalize dependent (computeScalarWindow4 s). intros w hw hd hd'.
  assert (hb : forall i, (i < 64)%nat -> -128 <= at_ w i < 128).
  { intros i hi. destruct (Nat.eq_dec i 63) as [->|n]; [lia|]. specialize (hd i ltac:(lia)). lia. }
  cbv zeta. rewrite (ck_for_opt 32 _ (fun i p => tbl_vtStep K t i (at_ w (2 * i + 1)) p)); [|intros k y hk|reflexivity].
  2: { replace (2 * Z.of_nat k + 1) with (Z.of_nat (2 * k + 1)) by lia. rewrite get_at by lia. apply vtStep_ck; [exact ht|exact hk|apply hb; lia]. }
  destruct (for_up 32 (fun i p => tbl_vtStep K t i (at_ w (2 * i + 1)) p) (Some (ep_SetZero K))) as [p|]; cbn [option_map].
  - apply (ck_for_opt 32); [intros k y hk|reflexivity].
    replace (2 * Z.of_nat k) with (Z.of_nat (2 * k)) by lia. rewrite get_at by lia. apply vtStep_ck; [exact ht|exact hk|apply hb; lia].
  - symmetry. apply for_up_None. reflexivity.
Qed.

(** which scalars make VarTimeScalarMult of a table panic, whatever is in the table *)
Lemma vtStep_some t i b p : shape t -> (i < 32)%nat -> -8 <= b <= 8 -> exists r, tbl_vtStep K t i b (Some p) = Some r.
Proof.
  intros ht hi hb. unfold tbl_vtStep, tbl_vtSelect. cbv zeta. pose proof (row_len t i ht hi) as hr.
  assert (S32 : forall x, -200 <= x <= 200 -> i32 x = x) by (intros x hx; unfold i32; rewrite Z.mod_small; lia).
  destruct (b =? 0) eqn:E0; [eexists; reflexivity|]. apply Z.eqb_neq in E0. destruct (b <? 0) eqn:E.
  - apply Z.ltb_lt in E. rewrite (S32 (- b)), S32 by lia.
    rewrite (nth_error_nth' (nth i t []) (np_zerovalue K)) by lia. eexists; reflexivity.
  - apply Z.ltb_ge in E. rewrite S32 by lia.
    rewrite (nth_error_nth' (nth i t []) (np_zerovalue K)) by lia. eexists; reflexivity.
Qed.
Lemma vtPass_some t w off p : shape t -> (off <= 1)%nat -> (forall i, (i < 64)%nat -> -8 <= at_ w i <= 8) ->
  exists r, for_up 32 (fun i p => tbl_vtStep K t i (at_ w (2 * i + off)) p) (Some p) = Some r.
Proof.
  intros ht ho hw. assert (H : forall k, (k <= 32)%nat -> exists r, for_up k (fun i p => tbl_vtStep K t i (at_ w (2 * i + off)) p) (Some p) = Some r).
  { induction k as [|k IH]; intro hk; [eexists; reflexivity|]. cbn [for_up]. destruct (IH ltac:(lia)) as [r ->].
    apply vtStep_some; [exact ht|lia|apply hw; lia]. }
  apply H. lia.
Qed.
Lemma tbl_VarTime_panic t s : shape t -> bytes 32 s ->
  (tbl_VarTimeScalarMult K t s = None <-> 2 ^ 255 + 7 * ((2 ^ 252 - 1) / 15) < le_val s).
Proof.
  intros ht hs. destruct (window4_all s hs) as (wl & wd & wt & wv).
  destruct (top_digit 16 63 8 _ _ wl wd ltac:(lia) wv) as [td _]. unfold tbl_VarTimeScalarMult. cbv zeta.
  set (w := computeScalarWindow4 s) in *. clearbody w. set (n := le_val s) in *.
  destruct ones16 as [o1 o2]. rewrite o1, o2 in td. set (r := (2 ^ 252 - 1) / 15) in *.
  assert (hr : 15 * r + 1 = 2 ^ 252) by (vm_compute; reflexivity).
  destruct (Z.le_gt_cases n (2 ^ 255 + 7 * r)) as [E|E].
  - split; [|lia]. intro H. exfalso.
    assert (ht8 : at_ w 63 <= 8).
    { rewrite td. apply Z.lt_succ_r. apply Z.div_lt_upper_bound; [lia|]. change (2 ^ 255) with (8 * 2 ^ 252) in E. lia. }
    assert (wd8 : forall i, (i < 64)%nat -> -8 <= at_ w i <= 8).
    { intros i hi. destruct (Nat.eq_dec i 63) as [->|]; [lia|]. specialize (wd i ltac:(lia)). lia. }
    destruct (vtPass_some t w 1 (ep_SetZero K) ht (le_n 1) wd8) as [r1 e1]. rewrite e1 in H. cbn [option_map] in H.
    destruct (vtPass_some t w 0 (tbl_dbl4 K r1) ht (Nat.le_0_1) wd8) as [r2 e2].
    assert (EX : forall p k, for_up k (fun i p => tbl_vtStep K t i (at_ w (2 * i + 0)) p) p =
       for_up k (fun i p => tbl_vtStep K t i (at_ w (2 * i)) p) p).
    { intros p k. induction k as [|k IH]; [reflexivity|]. cbn [for_up]. rewrite IH, Nat.add_0_r. reflexivity. }
    rewrite <- EX, e2 in H. discriminate H.
  - split; [intros _; exact E|intros _].
    assert (ht9 : 9 <= at_ w 63).
    { rewrite td. apply Z.div_le_lower_bound; [lia|]. change (2 ^ 255) with (8 * 2 ^ 252) in E. lia. }
    assert (P1 : for_up 32 (fun i p => tbl_vtStep K t i (at_ w (2 * i + 1)) p) (Some (ep_SetZero K)) = None).
    { change (for_up 32 ?f ?x) with (f 31%nat (for_up 31 f x)). cbn beta. change (2 * 31 + 1)%nat with 63%nat.
      destruct (for_up 31 (fun i p => tbl_vtStep K t i (at_ w (2 * i + 1)) p) (Some (ep_SetZero K))) as [p0|]; [|reflexivity].
      unfold tbl_vtStep, tbl_vtSelect. pose proof (row_len t 31 ht ltac:(lia)) as hl.
      replace (at_ w 63 =? 0) with false by (symmetry; apply Z.eqb_neq; lia).
      replace (at_ w 63 <? 0) with false by (symmetry; apply Z.ltb_ge; lia).
      rewrite i32_sm by lia. cbv zeta.
      rewrite (proj2 (nth_error_None (nth 31 t []) (Z.to_nat (at_ w 63 - 1)))) by lia. reflexivity. }
    rewrite P1. cbn [option_map]. apply for_up_None. reflexivity.
Qed.

(** the table is filled row by row *)
Lemma upd_pre {A : Type} (pre : list A) y rest x : upd (pre ++ y :: rest) (length pre) x = pre ++ x :: rest.
Proof. induction pre as [|z pre IH]; cbn [length app upd]; [reflexivity|]. rewrite IH. reflexivity. Qed.
Lemma set2_ok pre row rest v x : (v < length row)%nat ->
  set2 K (pre ++ row :: rest) (Z.of_nat (length pre)) (Z.of_nat v) x = Some (pre ++ upd row v x :: rest).
Proof.
  intro h. unfold set2. rewrite (get_nth _ (length pre) []) by (rewrite app_length; cbn [length]; lia).
  rewrite app_nth2 by lia. rewrite Nat.sub_diag. cbn [nth]. rewrite set_upd by exact h.
  rewrite set_upd by (rewrite app_length; cbn [length]; lia). rewrite upd_pre. reflexivity.
Qed.
Lemma row_ck pre row rest cp : length row = 8%nat ->
  ck_for 8 (fun v (st : list (list NIELS) * EXT) =>
      let (t, c) := st in
      let c := ep_Add K c cp in
      let? t := set2 K t (Z.of_nat (length pre)) v (np_SetExtended K c) in
      Some (t, c)) (pre ++ row :: rest, ep_SetZero K) = Some (pre ++ fst (tbl_row K cp) :: rest, snd (tbl_row K cp)).
Proof.
  intro hr. unfold tbl_row.
  match goal with |- context [ck_for 8 ?f _] => match goal with |- context [for_up 8 ?g _] =>
    destruct (ck_for_rel (fun k (x : list (list NIELS) * EXT) (y : list NIELS * EXT) => exists tl, length (fst y) = k /\ length (fst y ++ tl) = 8%nat /\
       x = (pre ++ (fst y ++ tl) :: rest, snd y)) 8 f g (pre ++ row :: rest, ep_SetZero K) ([], ep_SetZero K)) as (a & e & tl & h1 & h2 & ->) end end.
  - exists row. cbn [fst app]. auto.
  - intros k x [y c] hk (tl & h1 & h2 & ->). cbn [fst snd] in *. cbv zeta. rewrite set2_ok by lia.
    eexists. split; [reflexivity|]. destruct tl as [|z tl]; [rewrite app_nil_r in h2; lia|].
    exists tl. rewrite <- h1. rewrite upd_pre. rewrite !app_length in *. cbn [length] in *. split; [lia|]. split; [lia|].
    cbn [fst snd]. rewrite <- app_assoc. reflexivity.
  - rewrite e. rewrite app_length, h1 in h2. destruct tl; [|cbn [length] in h2; lia]. rewrite app_nil_r. reflexivity.
Qed.
Lemma tbl_row_len cp : length (fst (tbl_row K cp)) = 8%nat.
Proof.
  unfold tbl_row. match goal with |- context [for_up 8 ?g ?a] =>
    assert (H : forall n, length (fst (for_up n g a)) = n) end.
  { induction n as [|n IH]; [reflexivity|]. cbn [for_up]. match goal with |- context [for_up n ?g ?a] => destruct (for_up n g a) as [r c] end.
    cbn [fst] in *. rewrite app_length, IH. cbn [length]. lia. }
  apply H.
Qed.
Lemma tbl_Compute_ck t p : shape t -> ck_tbl_Compute K t p = Some (tbl_Compute K p) /\ shape (tbl_Compute K p).
Proof.
  intros [ht hr]. unfold ck_tbl_Compute, tbl_Compute.
  match goal with |- context [ck_for 32 ?f _] => match goal with |- context [for_up 32 ?g _] =>
    destruct (ck_for_rel (fun k (x y : list (list NIELS) * EXT) => exists tl, length (fst y) = k /\ length (fst y ++ tl) = 32%nat /\
       Forall (fun r => length r = 8%nat) (fst y ++ tl) /\
       x = (fst y ++ tl, snd y)) 32 f g (t, p) ([], p)) as (a & e & tl & h1 & h2 & h3 & ->) end end.
  - exists t. cbn [fst app]. auto.
  - intros k x [y c] hk (tl & h1 & h2 & h3 & ->). cbn [fst snd] in *. cbv beta.
    destruct tl as [|z tl]; [rewrite app_nil_r in h2; lia|].
    apply Forall_app in h3. destruct h3 as [h3 h4]. inversion h4 as [|? ? h5 h6]; subst.
    rewrite row_ck by exact h5. pose proof (tbl_row_len c) as hl. destruct (tbl_row K c) as [row c']. cbn [fst snd] in *.
    eexists. split; [reflexivity|]. exists tl. cbn [fst snd]. rewrite !app_length in *. cbn [length] in *. split; [lia|]. split; [lia|].
    split; [|rewrite <- app_assoc; reflexivity]. rewrite <- app_assoc. apply Forall_app. split; [exact h3|]. constructor; assumption.
  - rewrite e. clear e. match goal with |- context [for_up 32 ?g ?b] => generalize dependent (for_up 32 g b) end.
    intros [y c] h1 h2 h3. cbn [fst snd] in *. rewrite app_length, h1 in h2. destruct tl; [|cbn [length] in h2; lia].
    rewrite app_nil_r in *. split; [reflexivity|]. split; [exact h1|exact h3].
Qed.

(** ** elligator.go *)
Lemma jac_len p : length (fst (ep_ToJacobiQuarticRistretto K p)) = 4%nat.
Proof.
  unfold ep_ToJacobiQuarticRistretto. cbv zeta. destruct (fe_IsNonZeroI K (eX p)). destruct (fe_IsNonZeroI K (eY p)). reflexivity.
Qed.
Lemma ell_inv_ck p fes : length fes = 8%nat ->
  ck_ep_RistrettoElligator2Inverse K p fes = Some (ep_RistrettoElligator2Inverse K p) /\
  length (snd (fst (ep_RistrettoElligator2Inverse K p))) = 8%nat.
Proof.
  intro hf. unfold ck_ep_RistrettoElligator2Inverse, ep_RistrettoElligator2Inverse.
  pose proof (jac_len p) as hj. destruct (ep_ToJacobiQuarticRistretto K p) as [jcs p']. cbn [fst] in hj.
  destruct (ck_for_rel (fun k (x : Z * list (jacobi FE) * list FE) (y : Z * list FE) => exists tl,
       length (snd y) = (2 * k)%nat /\ length (snd y ++ tl) = 8%nat /\ length (snd (fst x)) = 4%nat /\
       (forall j d, (k <= j)%nat -> nth j (snd (fst x)) d = nth j jcs d) /\
       fst (fst x) = fst y /\ snd x = snd y ++ tl) 4 (ck_ell_inv_step K) (ell_inv_step K jcs) (0, jcs, fes) (0, []))
    as (a & e & tl & h1 & h2 & h3 & _ & h5 & h6).
  - exists fes. cbn [fst snd app]. repeat split; auto.
  - intros k [[m js] fs] [m' fs'] hk (tl & h1 & h2 & h3 & h4 & h5 & h6). cbn [fst snd] in *. subst m' fs.
    cbn [ck_ell_inv_step ell_inv_step].
    set (zj := mkJac (k_zero K) (k_zero K)).
    rewrite (get_nth js k zj) by lia. rewrite (h4 k zj) by lia.
    destruct (jc_elligator2Inverse K (nth k jcs zj)) as [[r f] q]. rewrite set_upd by lia.
    destruct tl as [|x0 tl]; [rewrite app_nil_r in h2; lia|]. destruct tl as [|x1 tl]; [rewrite app_length in h2; cbn [length] in h2; lia|].
    replace (2 * Z.of_nat k) with (Z.of_nat (2 * k)) by lia. rewrite <- h1. rewrite set_pre.
    rewrite (get_nth _ k zj) by (rewrite upd_length; lia). rewrite nth_upd_eq by lia.
    destruct (jc_elligator2Inverse K (jc_Dual K q)) as [[r' f'] q'].
    replace (Z.of_nat (length fs') + 1) with (Z.of_nat (length (fs' ++ [f]))) by (rewrite app_length; cbn [length]; lia).
    rewrite set_pre. eexists. split; [reflexivity|]. exists tl. cbn [fst snd].
    rewrite !app_length in *. cbn [length] in *. rewrite upd_length.
    replace (length fs' + 1)%nat with (2 * k + 1)%nat by lia. rewrite h1.
    split; [lia|]. split; [lia|]. split; [exact h3|]. split; [|split; reflexivity].
    intros j d hjk. rewrite nth_upd_neq by lia. apply h4. lia.
  - rewrite e. destruct (for_up 4 (ell_inv_step K jcs) (0, [])) as [m fs]. cbn [fst snd] in *. rewrite app_length, h1 in h2.
    destruct tl; [|cbn [length] in h2; lia]. rewrite app_nil_r in h6. rewrite h5, h6. split; [reflexivity|exact h1].
Qed.

(** ** ristretto.go *)
Lemma lizard_buf_ck sha d : length (sha d) = 32%nat -> length d = 16%nat -> ck_lizard_buf sha d = Some (lizard_buf sha d) .
Proof.
  intros hs hd. unfold ck_lizard_buf, lizard_buf. cbv zeta. generalize dependent (sha d). intros h hh.
  destr32 h hh. do 16 (destruct d as [|? d]; [discriminate hd|]). destruct d; [|discriminate hd].
  lazy -[Z.land]. reflexivity.
Qed.
Lemma lizard_step_ck sha mask fes buf n k : (forall d, length (sha d) = 32%nat) -> (forall x, length (fst (o_bytes K x)) = 32%nat) ->
  length fes = 8%nat -> length buf = 16%nat -> (k < 8)%nat ->
  ck_lizard_step K sha mask fes (Z.of_nat k) (buf, n) = Some (lizard_step K sha mask fes k (buf, n)) /\
  length (fst (lizard_step K sha mask fes k (buf, n))) = 16%nat.
Proof.
  intros hsha hb hf hl hk. cbn [ck_lizard_step lizard_step]. rewrite (get_nth fes k (k_zero K)) by lia.
  specialize (hb (nth k fes (k_zero K))). generalize dependent (fst (o_bytes K (nth k fes (k_zero K)))). intros b2 hb.
  cbv zeta. change 8 with (Z.of_nat 8). change 24 with (Z.of_nat 24). rewrite slice_ok by lia.
  assert (hs : length (slice b2 8 24) = 16%nat) by (unfold slice; rewrite firstn_length, skipn_length, hb; reflexivity).
  rewrite lizard_buf_ck by (exact hs || apply hsha). rewrite hs, hl. cbn [Nat.eqb fst].
  split; [reflexivity|]. match goal with |- context [if ?b then _ else _] => destruct b end; assumption.
Qed.
Lemma LizardInto_ck sha p buf : (forall d, length (sha d) = 32%nat) -> (forall x, length (fst (o_bytes K x)) = 32%nat) -> length buf = 16%nat ->
  ck_pt_LizardInto K sha p buf = Some (pt_LizardInto K sha p buf).
Proof.
  intros hsha hb hl. unfold ck_pt_LizardInto, pt_LizardInto. destruct (ell_inv_ck p (repeat (k_zero K) 8) (repeat_length _ _)) as [e h]. rewrite e.
  destruct (ep_RistrettoElligator2Inverse K p) as [[m fes] p']. cbn [fst snd] in *.
  destruct (ck_for_eq (fun _ (st : list Z * Z) => length (fst st) = 16%nat) 8 (ck_lizard_step K sha m fes) (lizard_step K sha m fes) (buf, 0)) as [e' _].
  - exact hl.
  - intros k [b n] hk hbl. cbn [fst] in hbl. apply lizard_step_ck; assumption.
  - rewrite e'. destruct (for_up 8 _ (buf, 0)) as [b n]. reflexivity.
Qed.
Lemma SetLizard_ck sha d : length (sha d) = 32%nat -> length d = 16%nat -> ck_pt_SetLizard K sha d = Some (pt_SetLizard K sha d).
Proof. intros h1 h2. unfold ck_pt_SetLizard. rewrite lizard_buf_ck by assumption. reflexivity. Qed.
End Curve.

Lemma o_bytes_len b : forall x, length (fst (o_bytes (ops b) x)) = 32%nat.
Proof. destruct b; intros x; destruct x; reflexivity. Qed.
Lemma sc_bytes_len x : length (sc_bytes x) = 32%nat.
Proof. destruct x; reflexivity. Qed.
Lemma sc_bigInt_ck x : ck_sc_bigInt x = Some (sc_bigInt x).
Proof. unfold ck_sc_bigInt. rewrite reverse_ok by apply sc_bytes_len. reflexivity. Qed.
Lemma sc_setBigInt_ck x : ck_sc_setBigInt x = Some (sc_setBigInt x).
Proof. unfold ck_sc_setBigInt. rewrite copy_reverse_ok. reflexivity. Qed.

Lemma base_shape b : shape (ops b) (baseTable b).
Proof.
  assert (H : forall b, Nat.eqb (length (baseTable b)) 32 && forallb (fun r => Nat.eqb (length r) 8) (baseTable b) = true)
    by (intros []; vm_compute; reflexivity).
  specialize (H b). apply andb_true_iff in H. destruct H as [h1 h2]. split; [apply Nat.eqb_eq, h1|].
  rewrite forallb_forall in h2. apply Forall_forall. intros r hr. apply Nat.eqb_eq, h2, hr.
Qed.
Lemma tblVT_ck b t s : shape (ops b) t -> bytes 32 s ->
  ck_tbl_VarTimeScalarMult (ops b) t s = tbl_VarTimeScalarMult (ops b) t s /\
  (ck_tbl_VarTimeScalarMult (ops b) t s = None <-> 2 ^ 255 + 7 * ((2 ^ 252 - 1) / 15) < le_val s).
Proof.
  intros ht hs. rewrite tbl_VarTimeScalarMult_ck by assumption. split; [reflexivity|]. apply tbl_VarTime_panic; assumption.
Qed.
Lemma tblVT_panics b t : shape (ops b) t -> ck_tbl_VarTimeScalarMult (ops b) t (repeat 255 32) = None.
Proof.
  intro ht. assert (hb : bytes 32 (repeat 255 32)).
  { split; [apply repeat_length|]. apply Forall_forall. intros x hx. apply repeat_spec in hx. subst x. unfold is_byte. lia. }
  apply (tblVT_ck b t _ ht hb). vm_compute. reflexivity.
Qed.
Lemma lizard_ck b sha p buf : (forall d, length (sha d) = 32%nat) -> length buf = 16%nat ->
  ck_pt_LizardInto (ops b) sha p buf = Some (pt_LizardInto (ops b) sha p buf).
Proof. intros h1 h2. apply LizardInto_ck; [exact h1|apply o_bytes_len|exact h2]. Qed.
Lemma fe_bigInt_ck b x : ck_fe_BigInt (ops b) x = Some (fe_BigInt (ops b) x).
Proof. apply fe_BigInt_ck, o_bytes_len. Qed.
