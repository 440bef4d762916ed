(** Which error each text gives, and which bytes a text stands for. *)
From Coq Require Import ZArith List Lia Bool String.
From Verif Require Import Words Primes Fp Edwards RistrettoSpec FieldModel CurveModel FieldLaws ScalarCode ScalarModel ScalarReduce ScalarSub ScalarFacts
  TextCodec TextProofs RistrettoModel Text51 StringModel StringFacts ErrorModel Backends BackendsMore ErrorFacts.
Import ListNotations.
Open Scope Z_scope.
Local Notation length := List.length.

(** a number written in base [B], the most significant digit first *)
Definition be (B : Z) (ds : list Z) : Z := fold_left (fun n d => B * n + d) ds 0.
(** digits *)
Definition digit64 (c v : Z) : Prop :=
  0 <= v < 64 /\ nth (Z.to_nat v) (codes "ABCDEFGHIJKLMNOPQRSTUVWXYZabcdefghijklmnopqrstuvwxyz0123456789-_") 0 = c.
Definition digit16 (c v : Z) : Prop :=
  0 <= v < 16 /\ (nth (Z.to_nat v) (codes "0123456789abcdef") 0 = c \/ nth (Z.to_nat v) (codes "0123456789ABCDEF") 0 = c).
(** the bytes that a text stands for: 64 hexadecimal digits, or 43 sextets of which the last two bits are dropped *)
Definition hex_text (txt buf : list Z) : Prop :=
  exists vs, Forall2 digit16 txt vs /\ length vs = 64%nat /\ bytes 32 buf /\ be 256 buf = be 16 vs.
Definition b64_text (txt buf : list Z) : Prop :=
  exists vs, Forall2 digit64 (without_crlf txt) vs /\ length vs = 43%nat /\ bytes 32 buf /\ be 256 buf = be 64 vs / 4.
Definition text_bytes (txt buf : list Z) : Prop := hex_text txt buf \/ (~ hex64 txt /\ b64_text txt buf).

Lemma be_app B ds es : fold_left (fun n d => B * n + d) (ds ++ es) 0 = fold_left (fun n d => B * n + d) es (be B ds).
Proof. rewrite fold_left_app. reflexivity. Qed.
Lemma be_acc B ds : forall a, fold_left (fun n d => B * n + d) ds a = a * B ^ Z.of_nat (length ds) + be B ds.
Proof.
  unfold be. induction ds as [|d ds IH]; intro a; [cbn; ring|]. cbn [fold_left length]. rewrite (IH (B * a + d)), (IH (B * 0 + d)).
  rewrite Nat2Z.inj_succ, Z.pow_succ_r by lia. ring.
Qed.
Lemma be_cons B d ds : be B (d :: ds) = d * B ^ Z.of_nat (length ds) + be B ds.
Proof. unfold be at 1. cbn [fold_left]. rewrite be_acc. ring. Qed.
Lemma be_range B ds : 0 < B -> Forall (fun d => 0 <= d < B) ds -> 0 <= be B ds < B ^ Z.of_nat (length ds).
Proof.
  intros hB. induction ds as [|d ds IH]; intro h; [cbn; lia|]. inversion h as [|? ? h1 h2]; subst. rewrite be_cons. cbn [length]. rewrite Nat2Z.inj_succ, Z.pow_succ_r by lia.
  specialize (IH h2). nia.
Qed.
Lemma be_inj B ds : 0 < B -> forall es, Forall (fun d => 0 <= d < B) ds -> Forall (fun d => 0 <= d < B) es -> length ds = length es -> be B ds = be B es -> ds = es.
Proof.
  intro hB. induction ds as [|d ds IH]; intros [|e es] h1 h2 hl he; try discriminate hl; [reflexivity|].
  inversion h1 as [|? ? a1 a2]; inversion h2 as [|? ? b1 b2]; subst. rewrite !be_cons in he. injection hl as hl. rewrite hl in he.
  pose proof (be_range B ds hB a2) as r1. pose proof (be_range B es hB b2) as r2. rewrite hl in r1.
  assert (M : 0 < B ^ Z.of_nat (length es)) by (apply Z.pow_pos_nonneg; lia).
  assert (d = e) by nia. subst e. f_equal. apply IH; try assumption. nia.
Qed.
Lemma byte_rng buf : bytes 32 buf -> Forall (fun d => 0 <= d < 256) buf.
Proof. intros [_ h]. exact h. Qed.

(** sextets to bytes *)
Lemma bits4 a b c d v : 0 <= a < 64 -> 0 <= b < 64 -> 0 <= c < 64 -> 0 <= d < 64 -> v = a * 2 ^ 18 + b * 2 ^ 12 + c * 2 ^ 6 + d ->
  65536 * (v / 2 ^ 16 mod 256) + 256 * (v / 2 ^ 8 mod 256) + v mod 256 = v.
Proof.
  intros. assert (0 <= v < 16777216) by lia. change (2 ^ 16) with 65536. change (2 ^ 8) with 256.
  rewrite (Z.mod_small (v / 65536)) by (split; [apply Z.div_pos; lia | apply Z.div_lt_upper_bound; lia]).
  assert (e : v / 65536 = v / 256 / 256) by (rewrite Z.div_div by lia; reflexivity). rewrite e.
  pose proof (Z.div_mod (v / 256) 256 ltac:(lia)). pose proof (Z.div_mod v 256 ltac:(lia)). lia.
Qed.
Lemma unsext_be k : forall vs, length vs = (4 * k + 3)%nat -> Forall (fun v => 0 <= v < 64) vs -> be 256 (unsext vs) = be 64 vs / 4 /\ length (unsext vs) = (3 * k + 2)%nat.
Proof.
  induction k as [|k IH]; intros vs hl hr.
  - destruct vs as [|a [|b [|c [|]]]]; try discriminate hl. repeat match goal with H : Forall _ (_ :: _) |- _ => inversion H; clear H; subst end.
    split; [|reflexivity]. cbn [unsext]. unfold be. cbn [fold_left].
    pose proof (bits4 a b c 0 (a * 2 ^ 18 + b * 2 ^ 12 + c * 2 ^ 6) ltac:(lia) ltac:(lia) ltac:(lia) ltac:(lia) ltac:(ring)) as B4.
    set (v := a * 2 ^ 18 + b * 2 ^ 12 + c * 2 ^ 6) in *.
    replace (64 * (64 * (64 * 0 + a) + b) + c) with (v / 64) by (unfold v; symmetry; apply Z.div_unique with 0; lia).
    rewrite Z.div_div by lia. change (64 * 4) with 256.
    assert (ev : v = 256 * (v / 256) + v mod 256) by (apply Z.div_mod; lia). lia.
  - destruct vs as [|a [|b [|c [|d r]]]]; cbn [length] in hl; try lia.
    repeat match goal with H : Forall _ (_ :: _) |- _ => inversion H; clear H; subst end.
    destruct (IH r ltac:(lia) ltac:(assumption)) as [e1 e2]. clear IH.
    pose proof (bits4 a b c d (a * 2 ^ 18 + b * 2 ^ 12 + c * 2 ^ 6 + d) ltac:(lia) ltac:(lia) ltac:(lia) ltac:(lia) eq_refl) as B4.
    cbn [unsext]. set (v := a * 2 ^ 18 + b * 2 ^ 12 + c * 2 ^ 6 + d) in *. cbv zeta. split; [|cbn [length]; lia].
    rewrite !be_cons. cbn [length]. rewrite e2, e1. replace (length r) with (4 * k + 3)%nat by lia.
    rewrite !Nat2Z.inj_succ, !Z.pow_succ_r by lia.
    replace (Z.of_nat (3 * k + 2)) with (3 * Z.of_nat k + 2) by lia. replace (Z.of_nat (4 * k + 3)) with (4 * Z.of_nat k + 3) by lia.
    assert (P1 : 256 ^ (3 * Z.of_nat k + 2) = (2 ^ 24) ^ Z.of_nat k * 65536).
    { rewrite Z.pow_add_r by lia. rewrite Z.pow_mul_r by lia. reflexivity. }
    assert (P2 : 64 ^ (4 * Z.of_nat k + 3) = (2 ^ 24) ^ Z.of_nat k * 262144).
    { rewrite Z.pow_add_r by lia. rewrite Z.pow_mul_r by lia. reflexivity. }
    rewrite P1, P2. set (M := (2 ^ 24) ^ Z.of_nat k) in *.
    match goal with |- _ = (?X) / 4 => replace X with (be 64 r + (v * M * 65536) * 4) by (unfold v; ring) end.
    rewrite Z.div_add by lia. rewrite <- B4 at 4. ring.
Qed.

(** digits *)
Lemma digit64_val c v : digit64 c v <-> b64_val c = Some v.
Proof.
  split.
  - intros [h <-].
    assert (T : forallb (fun n => match b64_val (nth n (codes "ABCDEFGHIJKLMNOPQRSTUVWXYZabcdefghijklmnopqrstuvwxyz0123456789-_") 0) with
      Some w => w =? Z.of_nat n | None => false end) (seq 0 64) = true) by (vm_compute; reflexivity).
    rewrite forallb_forall in T. specialize (T (Z.to_nat v) ltac:(apply in_seq; lia)).
    match goal with |- b64_val ?x = _ => destruct (b64_val x) as [w|]; [|discriminate T] end. apply Z.eqb_eq in T. f_equal. lia.
  - intro h. assert (R : 0 <= v < 64) by (pose proof (sextet_range c) as r; unfold sextet in r; rewrite h in r; exact r). split; [exact R|].
    assert (C : 0 <= c < 128).
    { unfold b64_val in h. destruct ((65 <=? c) && (c <=? 90))%bool eqn:E1; [apply andb_prop in E1; lia|].
      destruct ((97 <=? c) && (c <=? 122))%bool eqn:E2; [apply andb_prop in E2; lia|].
      destruct ((48 <=? c) && (c <=? 57))%bool eqn:E3; [apply andb_prop in E3; lia|].
      destruct (Z.eqb_spec c 45); [lia|]. destruct (Z.eqb_spec c 95); [lia | discriminate h]. }
    assert (T : forallb (fun n => match b64_val (Z.of_nat n) with
      | Some w => nth (Z.to_nat w) (codes "ABCDEFGHIJKLMNOPQRSTUVWXYZabcdefghijklmnopqrstuvwxyz0123456789-_") 0 =? Z.of_nat n | None => true end) (seq 0 128) = true) by (vm_compute; reflexivity).
    rewrite forallb_forall in T. specialize (T (Z.to_nat c) ltac:(apply in_seq; lia)). rewrite Z2Nat.id, h in T by lia. apply Z.eqb_eq in T. exact T.
Qed.
Lemma digit16_val c v : digit16 c v <-> hex_val c = Some v.
Proof.
  split.
  - intros [h hc].
    assert (T : forallb (fun n => match hex_val (nth n (codes "0123456789abcdef") 0), hex_val (nth n (codes "0123456789ABCDEF") 0) with
      Some w, Some w' => (w =? Z.of_nat n) && (w' =? Z.of_nat n) | _, _ => false end) (seq 0 16) = true) by (vm_compute; reflexivity).
    rewrite forallb_forall in T. specialize (T (Z.to_nat v) ltac:(apply in_seq; lia)).
    destruct hc as [<-|<-]; destruct (hex_val (nth (Z.to_nat v) (codes "0123456789abcdef") 0)) as [w|]; try discriminate T;
      destruct (hex_val (nth (Z.to_nat v) (codes "0123456789ABCDEF") 0)) as [w'|]; try discriminate T; apply andb_prop in T; rewrite !Z.eqb_eq in T; f_equal; lia.
  - intro h. pose proof (hex_val_range c v h) as R. split; [exact R|].
    assert (C : 0 <= c < 128).
    { unfold hex_val in h. destruct ((48 <=? c) && (c <=? 57))%bool eqn:E1; [apply andb_prop in E1; lia|].
      destruct ((97 <=? c) && (c <=? 102))%bool eqn:E2; [apply andb_prop in E2; lia|].
      destruct ((65 <=? c) && (c <=? 70))%bool eqn:E3; [apply andb_prop in E3; lia | discriminate h]. }
    assert (T : forallb (fun n => match hex_val (Z.of_nat n) with
      | Some w => (nth (Z.to_nat w) (codes "0123456789abcdef") 0 =? Z.of_nat n) || (nth (Z.to_nat w) (codes "0123456789ABCDEF") 0 =? Z.of_nat n)
      | None => true end) (seq 0 128) = true) by (vm_compute; reflexivity).
    rewrite forallb_forall in T. specialize (T (Z.to_nat c) ltac:(apply in_seq; lia)). rewrite Z2Nat.id, h in T by lia.
    apply orb_true_iff in T. rewrite !Z.eqb_eq in T. exact T.
Qed.
Lemma digits64 s vs : Forall2 digit64 s vs <-> forallb b64_ok s = true /\ vs = map sextet s.
Proof.
  revert vs. induction s as [|c s IH]; intros vs; split.
  - intro h. inversion h. split; reflexivity.
  - intros [_ ->]. constructor.
  - intro h. inversion h as [|? v ? vs' h1 h2]; subst. apply IH in h2. destruct h2 as [h2 ->]. apply digit64_val in h1. cbn [forallb map].
    unfold b64_ok at 1, sextet at 2. rewrite h1, h2. split; reflexivity.
  - intros [h ->]. cbn [forallb] in h. apply andb_prop in h. destruct h as [h1 h2]. cbn [map]. constructor; [|apply IH; split; [exact h2 | reflexivity]].
    apply digit64_val. unfold b64_ok in h1. unfold sextet. destruct (b64_val c); [reflexivity | discriminate h1].
Qed.
Definition hexdig (c : Z) : Z := match hex_val c with Some v => v | None => 0 end.
Lemma digits16 s vs : Forall2 digit16 s vs <-> forallb hex_ok s = true /\ vs = map hexdig s.
Proof.
  revert vs. induction s as [|c s IH]; intros vs; split.
  - intro h. inversion h. split; reflexivity.
  - intros [_ ->]. constructor.
  - intro h. inversion h as [|? v ? vs' h1 h2]; subst. apply IH in h2. destruct h2 as [h2 ->]. apply digit16_val in h1. cbn [forallb map].
    unfold hex_ok at 1, hexdig at 2. rewrite h1, h2. split; reflexivity.
  - intros [h ->]. cbn [forallb] in h. apply andb_prop in h. destruct h as [h1 h2]. cbn [map]. constructor; [|apply IH; split; [exact h2 | reflexivity]].
    apply digit16_val. unfold hex_ok in h1. unfold hexdig. destruct (hex_val c); [reflexivity | discriminate h1].
Qed.
Lemma unhex_be k : forall s, length s = (2 * k)%nat -> forallb hex_ok s = true -> be 256 (unhex s) = be 16 (map hexdig s) /\ length (unhex s) = k.
Proof.
  induction k as [|k IH]; intros s hl ho; [destruct s; [split; reflexivity | discriminate hl]|].
  destruct s as [|x [|y s]]; cbn [length] in hl; try lia. cbn [forallb] in ho. apply andb_prop in ho. destruct ho as [h1 ho]. apply andb_prop in ho. destruct ho as [h2 h3].
  destruct (IH s ltac:(lia) h3) as [e1 e2]. cbn [unhex map]. unfold hex_ok in h1, h2. unfold hexdig at 1 2. destruct (hex_val x) as [a|]; [|discriminate h1]. destruct (hex_val y) as [b|]; [|discriminate h2].
  rewrite !be_cons. cbn [length]. rewrite e1, e2, map_length. split; [|reflexivity]. replace (length s) with (2 * k)%nat by lia.
  rewrite Nat2Z.inj_succ, Z.pow_succ_r by lia. replace (Z.of_nat (2 * k)) with (2 * Z.of_nat k) by lia. rewrite (Z.pow_mul_r 16 2) by lia. change (16 ^ 2) with 256. ring.
Qed.

(** the bytes of a text *)
Lemma b64_text_iff txt buf : b64_text txt buf <-> text_43 txt /\ buf = unsext (map sextet (strip txt)).
Proof.
  assert (R : forall s, Forall (fun v => 0 <= v < 64) (map sextet s)).
  { intro s. apply Forall_forall. intros v hv. apply in_map_iff in hv. destruct hv as (c & <- & _). apply sextet_range. }
  split.
  - intros (vs & h1 & h2 & h3 & h4). apply digits64 in h1. destruct h1 as [h1 ->]. rewrite map_length in h2. change (without_crlf txt) with (strip txt) in *.
    split; [split; assumption|]. destruct (unsext_be 10 (map sextet (strip txt)) ltac:(rewrite map_length; lia) (R _)) as [e1 e2].
    apply (be_inj 256); [lia | apply byte_rng, h3 | apply unsext_bytes | rewrite e2; apply h3 | rewrite e1; exact h4].
  - intros [[h1 h2] ->]. destruct (unsext_be 10 (map sextet (strip txt)) ltac:(rewrite map_length; lia) (R _)) as [e1 e2].
    exists (map sextet (strip txt)). refine (conj _ (conj _ (conj (conj e2 (unsext_bytes _)) e1))).
    + apply digits64. split; [exact h2 | reflexivity].
    + rewrite map_length. exact h1.
Qed.
Lemma hex_text_iff txt buf : hex_text txt buf <-> text_hex txt /\ buf = unhex txt.
Proof.
  split.
  - intros (vs & h1 & h2 & h3 & h4). apply digits16 in h1. destruct h1 as [h1 ->]. rewrite map_length in h2.
    split; [split; assumption|]. destruct (unhex_be 32 txt ltac:(lia) h1) as [e1 e2].
    apply (be_inj 256); [lia | apply byte_rng, h3 | apply unhex_bytes | rewrite e2; apply h3 | rewrite e1; exact h4].
  - intros [[h1 h2] ->]. destruct (unhex_be 32 txt ltac:(lia) h2) as [e1 e2].
    exists (map hexdig txt). refine (conj _ (conj _ (conj (conj e2 (unhex_bytes _)) e1))).
    + apply digits16. split; [exact h2 | reflexivity].
    + rewrite map_length. exact h1.
Qed.
Lemma text_bytes_iff d txt buf : length d = 32%nat -> (textToBuf d txt = Done buf <-> text_bytes txt buf).
Proof.
  intro hd. rewrite (text_done d txt buf hd). unfold text_bytes. rewrite hex_text_iff, b64_text_iff, hex64_eq. tauto.
Qed.
Lemma b64_bytes_iff d txt buf : length d = 32%nat -> (b64_to_buf d txt = Done buf <-> b64_text txt buf).
Proof. intro hd. rewrite (buf_done d txt buf hd), b64_text_iff. reflexivity. Qed.

(** the cases exclude each other *)
Lemma fine_split u c v u' c' v' : u ++ c :: v = u' ++ c' :: v' -> Forall fine u -> ~ fine c -> Forall fine u' -> ~ fine c' -> length u = length u'.
Proof.
  revert u'. induction u as [|x u IH]; intros [|y u'] e h1 h2 h3 h4; cbn [app length] in *; [reflexivity| | |].
  - injection e as e1 e2. subst. inversion h3. contradiction.
  - injection e as e1 e2. subst. inversion h1. contradiction.
  - injection e as e1 e2. inversion h1; inversion h3; subst. f_equal. apply (IH u'); assumption.
Qed.
Lemma not_all_fine u c v : ~ fine c -> ~ Forall fine (u ++ c :: v).
Proof. intros h1 h2. apply Forall_app in h2. destruct h2 as [_ h2]. inversion h2. contradiction. Qed.
Lemma corrupt_unique i j txt : corrupt_at i txt -> corrupt_at j txt -> i = j.
Proof.
  intros [(u & c & v & h1 & h2 & h3 & h4)|(h1 & h2 & h3)] [(u' & c' & v' & k1 & k2 & k3 & k4)|(k1 & k2 & k3)].
  - rewrite h1 in k1. rewrite h4, k4. exact (fine_split _ _ _ _ _ _ k1 h2 h3 k2 k3).
  - rewrite h1 in k1. destruct (not_all_fine _ _ _ h3 k1).
  - rewrite k1 in h1. destruct (not_all_fine _ _ _ k3 h1).
  - lia.
Qed.
Lemma corrupt_size i n txt : corrupt_at i txt -> b64_size n txt -> False.
Proof.
  intros [(u & c & v & h1 & h2 & h3 & h4)|(h1 & h2 & h3)] (k1 & k2 & k3); [rewrite h1 in k1; exact (not_all_fine _ _ _ h3 k1) | exact (k2 h2)].
Qed.
Lemma b64_text_size txt buf : b64_text txt buf -> b64_size 32 txt.
Proof.
  intro h. apply b64_text_iff in h. destruct h as [[h1 h2] _]. split; [apply strip_fine_all; exact h2|]. change (without_crlf txt) with (strip txt). rewrite h1. split; [discriminate | reflexivity].
Qed.
Lemma size_text txt : b64_size 32 txt -> exists buf, b64_text txt buf.
Proof.
  intros (h1 & h2 & h3). exists (unsext (map sextet (strip txt))). apply b64_text_iff. refine (conj (conj _ _) eq_refl); [|apply strip_fine_all; exact h1].
  change (without_crlf txt) with (strip txt) in *. pose proof (Nat.div_mod (length (strip txt) * 3) 4 ltac:(lia)) as DM. rewrite <- h3 in DM.
  pose proof (Nat.mod_upper_bound (length (strip txt) * 3) 4 ltac:(lia)). lia.
Qed.
(** every text is described *)
Lemma all_fine_dec txt : Forall fine txt \/ exists u c v, txt = u ++ c :: v /\ Forall fine u /\ ~ fine c.
Proof.
  induction txt as [|c txt IH]; [left; constructor|]. destruct (b64_ok c || negb (not_crlf c))%bool eqn:e.
  - apply fine_dec in e. destruct IH as [h|(u & c' & v & h1 & h2 & h3)]; [left; constructor; assumption|]. right. exists (c :: u), c', v. rewrite h1. repeat split; [constructor; assumption | exact h3].
  - right. exists [], c, txt. repeat split; [constructor|]. intro h. apply fine_dec in h. rewrite h in e. discriminate e.
Qed.
Lemma text_cases txt : (exists i, corrupt_at i txt) \/ exists n, b64_size n txt.
Proof.
  destruct (all_fine_dec txt) as [h|(u & c & v & h1 & h2 & h3)]; [|left; exists (length u); left; exists u, c, v; repeat split; assumption].
  destruct (Nat.eq_dec (length (without_crlf txt) mod 4) 1) as [e|n]; [|right; exists (length (without_crlf txt) * 3 / 4)%nat; repeat split; assumption].
  left. destruct txt as [|c txt]; [discriminate e|]. exists (length txt). right. repeat split; assumption.
Qed.

(** the base64 part: a complete description *)
Lemma to_buf_ret size d txt r err : length d = 32%nat -> (forall i n, size n <> CorruptInput i) -> (forall n m, size n = size m -> n = m) ->
  er_to_buf size d txt = Ret r err ->
  (err = None <-> exists buf, b64_text txt buf) /\ (err = None -> b64_text txt r) /\
  (forall i, err = Some (CorruptInput i) <-> corrupt_at i txt) /\
  (forall n, err = Some (size n) <-> b64_size n txt /\ n <> 32%nat) /\
  (forall e, err = Some e -> (exists i, e = CorruptInput i) \/ (exists n, e = size n)).
Proof.
  intros hd hs hi E. pose proof (to_buf_err size d txt r err hd E) as H. pose proof (erase_to_buf size d txt) as Z0. rewrite E in Z0.
  assert (N1 : err = None -> b64_text txt r).
  { intro en. rewrite en in Z0. cbn [erase] in Z0. apply (b64_bytes_iff d txt r hd). symmetry. exact Z0. }
  assert (N2 : forall e, err = Some e -> ~ exists buf, b64_text txt buf).
  { intros e en [buf hb]. rewrite en in Z0. cbn [erase] in Z0. apply (b64_bytes_iff d txt buf hd) in hb. rewrite hb in Z0. discriminate Z0. }
  destruct err as [e|].
  - refine (conj _ (conj _ (conj _ (conj _ _)))).
    + split; [discriminate | intro h; destruct (N2 e eq_refl h)].
    + discriminate.
    + intro i. split.
      * intro h. assert (e = CorruptInput i) by congruence. subst e. destruct H as [(j & h1 & h2)|(n & _ & _ & h2)]; [injection h2 as ->; exact h1 | symmetry in h2; destruct (hs i n h2)].
      * intro h. destruct H as [(j & h1 & h2)|(n & h1 & _ & _)]; [rewrite h2, (corrupt_unique i j txt h h1); reflexivity | destruct (corrupt_size i n txt h h1)].
    + intro n. split.
      * intro h. assert (e = size n) by congruence. subst e. destruct H as [(j & h1 & h2)|(m & h1 & h3 & h2)]; [destruct (hs j n h2)|]. apply hi in h2. subst m. split; assumption.
      * intros [h1 h2]. destruct H as [(j & k1 & k2)|(m & k1 & k3 & k2)]; [destruct (corrupt_size j n txt k1 h1)|]. rewrite k2. f_equal. f_equal.
        destruct h1 as (_ & _ & ->), k1 as (_ & _ & ->). reflexivity.
    + intros e' h. assert (e' = e) by congruence. subst e'. destruct H as [(j & _ & h2)|(m & _ & _ & h2)]; [left; exists j | right; exists m]; exact h2.
  - specialize (N1 eq_refl). pose proof (b64_text_size txt r N1) as S32. refine (conj _ (conj (fun _ => N1) (conj _ (conj _ _)))).
    + split; [intros _; exists r; exact N1 | reflexivity].
    + intro i. split; [discriminate | intro h; destruct (corrupt_size i 32 txt h S32)].
    + intro n. split; [discriminate|]. intros [h1 h2]. destruct h2. destruct h1 as (_ & _ & ->), S32 as (_ & _ & <-). reflexivity.
    + discriminate.
Qed.
