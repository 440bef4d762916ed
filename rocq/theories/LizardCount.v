(** Proofs of C65, continued: sums over all hash functions. *)
From Coq Require Import ZArith Znumtheory List Lia Bool.
From Verif Require Import Words Primes Fp Edwards GroupOrder RistrettoSpec FieldModel CurveModel BitFold FieldLaws CurveProofs EncodeProofs ScalarCode ScalarModel TextCodec RistrettoModel
  RistrettoFacts ElligatorMath LizardProofs FiniteFunctions LizardChance.
From Verif Require Elligator51 EllGen Backends Sha256.
Import ListNotations.
Open Scope Z_scope.
Local Notation hash32 := Elligator51.hash32.

(** [xs] holds the strings of [n] bytes, each once *)
Definition all_strings (n : nat) (xs : list (list Z)) : Prop := NoDup xs /\ forall t, In t xs <-> bytes n t.
(** all functions from the strings in [D] to the strings in [V] *)
Definition hashes (V D : list (list Z)) : list (list Z -> list Z) := functions (list_eq_dec Z.eq_dec) (repeat 0 32) V D.
(** how many of the functions satisfy [b], and how many there are *)
Definition number (b : (list Z -> list Z) -> bool) (hs : list (list Z -> list Z)) : Z := Z.of_nat (length (filter b hs)).

(** the part of a hash value that [lizard_buf] drops *)
Definition free_bits (y : list Z) : Z := at_ y 0 mod 2 + 2 * (at_ y 31 / 64 + 4 * le_val (slice y 8 24)).
Lemma free_range y : bytes 32 y -> 0 <= free_bits y < 2 ^ 131.
Proof.
  intro hy. unfold free_bits. pose proof (Z.mod_pos_bound (at_ y 0) 2 ltac:(lia)).
  assert (h31 : 0 <= at_ y 31 / 64 < 4).
  { destruct hy as [h1 h2]. unfold at_. assert (g : is_byte (nth 31 y 0)) by (apply (proj1 (Forall_forall _ _) h2), nth_In; rewrite h1; lia).
    unfold is_byte in g. split; [apply Z.div_pos; lia | apply Z.div_lt_upper_bound; lia]. }
  assert (hs : 0 <= le_val (slice y 8 24) < 2 ^ 128).
  { pose proof (le_val_range (slice y 8 24) (slice_bytes y 8 24 (proj2 hy))) as g.
    rewrite slice_len in g by (try lia; rewrite (proj1 hy); lia). exact g. }
  change (2 ^ 131) with (8 * 2 ^ 128). lia.
Qed.
Lemma land_254 x y : is_byte x -> is_byte y -> Z.land x 254 = Z.land y 254 -> x mod 2 = y mod 2 -> x = y.
Proof.
  assert (E : forall a, is_byte a -> a = Z.land a 254 + a mod 2).
  { intros a ha. unfold is_byte in ha. 
    assert (g : forallb (fun k => let a := Z.of_nat k in a =? Z.land a 254 + a mod 2) (seq 0 256) = true) by (vm_compute; reflexivity).
    rewrite forallb_forall in g. specialize (g (Z.to_nat a)). cbv zeta in g. rewrite Z2Nat.id in g by lia. apply Z.eqb_eq, g, in_seq. lia. }
  intros hx hy h1 h2. rewrite (E x hx), (E y hy), h1, h2. reflexivity.
Qed.
Lemma land_63 x y : is_byte x -> is_byte y -> Z.land x 63 = Z.land y 63 -> x / 64 = y / 64 -> x = y.
Proof.
  intros hx hy. change 63 with (Z.ones 6). rewrite !Z.land_ones by lia. change (2 ^ 6) with 64. intros h1 h2.
  rewrite (Z.div_mod x 64), (Z.div_mod y 64), h1, h2 by lia. reflexivity.
Qed.
Lemma free_inj d x y : bytes 16 d -> bytes 32 x -> bytes 32 y ->
  lizard_buf (fun _ => x) d = lizard_buf (fun _ => y) d -> free_bits x = free_bits y -> x = y.
Proof.
  intros [ld bd] hx hy e f.
  assert (hf : at_ x 0 mod 2 = at_ y 0 mod 2 /\ at_ x 31 / 64 = at_ y 31 / 64 /\ slice x 8 24 = slice y 8 24).
  { unfold free_bits in f. pose proof (Z.mod_pos_bound (at_ x 0) 2 ltac:(lia)). pose proof (Z.mod_pos_bound (at_ y 0) 2 ltac:(lia)).
    assert (h31 : forall w, bytes 32 w -> 0 <= at_ w 31 / 64 < 4).
    { intros w [h1 h2]. unfold at_. assert (g : is_byte (nth 31 w 0)) by (apply (proj1 (Forall_forall _ _) h2), nth_In; rewrite h1; lia).
      unfold is_byte in g. split; [apply Z.div_pos; lia | apply Z.div_lt_upper_bound; lia]. }
    pose proof (h31 x hx). pose proof (h31 y hy).
    assert (e1 : at_ x 0 mod 2 = at_ y 0 mod 2) by lia. assert (e2 : at_ x 31 / 64 = at_ y 31 / 64) by lia.
    assert (e3 : le_val (slice x 8 24) = le_val (slice y 8 24)) by lia.
    refine (conj e1 (conj e2 _)).
    assert (sl : forall w, bytes 32 w -> length (slice w 8 24) = 16%nat) by (intros w hw; rewrite slice_len by (try lia; rewrite (proj1 hw); lia); reflexivity).
    rewrite <- (le_bytes_le_val (slice x 8 24)), <- (le_bytes_le_val (slice y 8 24)) by (apply slice_bytes; [apply hx + apply hy]).
    rewrite !sl, e3 by assumption. reflexivity. }
  clear f. destruct hf as (f0 & f31 & fm). destruct hx as [lx bx], hy as [ly by_]. revert e. unfold lizard_buf. cbv zeta.
  do 32 (destruct x as [|? x]; [discriminate lx|]). destruct x; [|discriminate lx].
  do 32 (destruct y as [|? y]; [discriminate ly|]). destruct y; [|discriminate ly].
  do 16 (destruct d as [|? d]; [discriminate ld|]). destruct d; [|discriminate ld].
  cbn [firstn skipn app upd at_ nth slice Nat.sub] in *. unfold at_ in *. cbn [nth] in *. intro e. 
  repeat match goal with G : Forall is_byte (_ :: _) |- _ => inversion G; clear G; subst end.
  injection fm; intros. injection e; intros. subst.
  match goal with h : Z.land ?a 254 = Z.land ?b 254 |- _ => assert (a = b) by (apply land_254; assumption) end.
  match goal with h : Z.land ?a 63 = Z.land ?b 63 |- _ => assert (a = b) by (apply land_63; assumption) end.
  subst. reflexivity.
Qed.
(** at most [2^131] of the hash values of [d] lead to a given buffer *)
Lemma check_count V d t : all_strings 32 V -> bytes 16 d ->
  tot (fun y => Z.b2z (if list_eqb_spec (lizard_buf (fun _ => y) d) t then true else false)) V <= 2 ^ 131.
Proof.
  intros [hn hV] hd. rewrite <- tot_count. rewrite <- (map_length free_bits).
  assert (B : forall y, In y (filter (fun y => if list_eqb_spec (lizard_buf (fun _ => y) d) t then true else false) V) -> bytes 32 y /\ lizard_buf (fun _ => y) d = t).
  { intros y hy. apply filter_In in hy. destruct hy as [h1 h2]. split; [apply hV, h1|]. destruct (list_eqb_spec (lizard_buf (fun _ => y) d) t); [assumption | discriminate]. }
  apply nodup_range.
  - revert B. apply (NoDup_filter (fun y => if list_eqb_spec (lizard_buf (fun _ => y) d) t then true else false)) in hn. revert hn.
    generalize (filter (fun y => if list_eqb_spec (lizard_buf (fun _ => y) d) t then true else false) V). intros ys hn B.
    induction hn as [|y ys h hn IH]; [constructor|]. cbn [map]. constructor; [|apply IH; intros x hx; apply B; right; exact hx].
    intro hi. apply in_map_iff in hi. destruct hi as (x & e & hx). apply h.
    destruct (B x (or_intror hx)) as [x1 x2]. destruct (B y (or_introl eq_refl)) as [y1 y2].
    assert (x = y); [|subst; exact hx]. apply (free_inj d x y hd x1 y1); [rewrite x2, y2; reflexivity | exact e].
  - apply Z.pow_nonneg. lia.
  - intros x hx. apply in_map_iff in hx. destruct hx as (y & <- & hy). apply free_range, B, hy.
Qed.

Lemma all_length n xs : all_strings n xs -> Z.of_nat (length xs) = 256 ^ Z.of_nat n.
Proof.
  intros [hn hx]. assert (h0 : 0 <= 256 ^ Z.of_nat n) by (apply Z.pow_nonneg; lia). apply Z.le_antisymm.
  - rewrite <- (map_length le_val). apply nodup_range; [|exact h0|].
    + assert (B : forall t, In t xs -> bytes n t) by (intros t ht; apply hx, ht). clear hx h0. induction hn as [|y ys h hn IH]; [constructor|].
      cbn [map]. constructor; [|apply IH; intros t ht; apply B; right; exact ht].
      intro hi. apply in_map_iff in hi. destruct hi as (x & e & hi). apply h.
      assert (x = y); [|subst; exact hi]. destruct (B x (or_intror hi)) as [x1 x2]. destruct (B y (or_introl eq_refl)) as [y1 y2].
      rewrite <- (le_bytes_le_val x x2), <- (le_bytes_le_val y y2), x1, y1, e. reflexivity.
    + intros v hv. apply in_map_iff in hv. destruct hv as (t & <- & ht). apply hx in ht. destruct ht as [t1 t2]. rewrite <- t1. apply le_val_range, t2.
  - rewrite <- (Z2Nat.id _ h0). apply Nat2Z.inj_le. rewrite <- (seq_length (Z.to_nat (256 ^ Z.of_nat n)) 0), <- (map_length (fun k => le_bytes n (Z.of_nat k))).
    apply NoDup_incl_length.
    + assert (g : forall k, In k (seq 0 (Z.to_nat (256 ^ Z.of_nat n))) -> 0 <= Z.of_nat k < 256 ^ Z.of_nat n) by (intros k hk; apply in_seq in hk; lia).
      revert g. generalize (seq_NoDup (Z.to_nat (256 ^ Z.of_nat n)) 0). generalize (seq 0 (Z.to_nat (256 ^ Z.of_nat n))). intros ks hk g.
      induction hk as [|k ks h hk IH]; [constructor|]. cbn [map]. constructor; [|apply IH; intros j hj; apply g; right; exact hj].
      intro hi. apply in_map_iff in hi. destruct hi as (j & e & hj). apply h. assert (j = k); [|subst; exact hj].
      apply (f_equal le_val) in e. rewrite !le_val_le_bytes in e; [lia | apply g; left; reflexivity | apply g; right; exact hj].
    + intros t ht. apply in_map_iff in ht. destruct ht as (k & <- & _). apply hx. split; [apply le_bytes_length | apply le_bytes_bytes].
Qed.
Lemma all_exists n : exists xs, all_strings n xs.
Proof.
  assert (h0 : 0 <= 256 ^ Z.of_nat n) by (apply Z.pow_nonneg; lia).
  exists (map (fun k => le_bytes n (Z.of_nat k)) (seq 0 (Z.to_nat (256 ^ Z.of_nat n)))). split.
  - assert (g : forall k, In k (seq 0 (Z.to_nat (256 ^ Z.of_nat n))) -> 0 <= Z.of_nat k < 256 ^ Z.of_nat n) by (intros k hk; apply in_seq in hk; lia).
    revert g. generalize (seq_NoDup (Z.to_nat (256 ^ Z.of_nat n)) 0). generalize (seq 0 (Z.to_nat (256 ^ Z.of_nat n))). intros ks hk g.
    induction hk as [|k ks h hk IH]; [constructor|]. cbn [map]. constructor; [|apply IH; intros j hj; apply g; right; exact hj].
    intro hi. apply in_map_iff in hi. destruct hi as (j & e & hj). apply h. assert (j = k); [|subst; exact hj].
    apply (f_equal le_val) in e. rewrite !le_val_le_bytes in e; [lia | apply g; left; reflexivity | apply g; right; exact hj].
  - intro t. split.
    + intro ht. apply in_map_iff in ht. destruct ht as (k & <- & _). split; [apply le_bytes_length | apply le_bytes_bytes].
    + intros [h1 h2]. pose proof (le_val_range t h2) as g. rewrite h1 in g. apply in_map_iff. exists (Z.to_nat (le_val t)).
      rewrite Z2Nat.id by lia. split; [rewrite <- h1; apply le_bytes_le_val, h2|]. apply in_seq. lia.
Qed.

(** ** The sums *)
Section Main.
Context {K : FeOps} (L : FeLaws K).
Variables V D : list (list Z).
Hypothesis hV : all_strings 32 V.
Hypothesis hD : all_strings 16 D.
Local Notation hs := (hashes V D).
Local Notation n := (Z.of_nat (length V)).
Local Notation N := (n ^ Z.of_nat (length D)).
Local Notation lbuf v d := (lizard_buf (fun _ => v) d).
Local Notation same a b := (Z.b2z (if list_eqb_spec a b then true else false)).

Lemma hashes_32 h : In h hs -> hash32 h.
Proof.
  intros hh d. destruct (functions_values (list_eq_dec Z.eq_dec) (repeat 0 32) V D h hh) as [h1 h2].
  destruct (in_dec (list_eq_dec Z.eq_dec) d D) as [hi|hi].
  - apply hV, h1, hi.
  - rewrite (h2 d hi). split; [reflexivity|]. apply Forall_forall. intros x hx. apply repeat_spec in hx. subst x. unfold is_byte. lia.
Qed.
Lemma n_val : n = 2 ^ 256.
Proof. rewrite (all_length 32 V hV). reflexivity. Qed.

Definition oth (d v : list Z) : list (list Z) := if special (lbuf v d) then [] else others (K := K) d v.
Lemma oth_ok d v : bytes 16 d -> bytes 32 v -> Z.of_nat (length (oth d v)) <= 7 /\
  forall t, In t (oth d v) -> bytes 16 (slice t 8 24) /\ slice t 8 24 <> d.
Proof.
  intros hd hv. unfold oth. destruct (special (lbuf v d)) eqn:e; [split; [cbn [length]; lia | intros t []]|].
  destruct (decoded_iff L (fun _ => v) (fun _ => hv) d hd e) as (h1 & h2 & _). split; [lia|].
  intros t ht. split; [|apply (others_data d v t ht)]. specialize (h2 t ht). split; [rewrite slice_len by (try lia; rewrite (proj1 h2); lia); reflexivity | apply slice_bytes, h2].
Qed.
Definition hits (d : list Z) (h : list Z -> list Z) : Z :=
  tot (fun v => same v (h d) * tot (fun t => same (lbuf (h (slice t 8 24)) (slice t 8 24)) t) (oth d v)) V.
Lemma same_nonneg a b : 0 <= same a b.
Proof. destruct (list_eqb_spec a b); cbn; lia. Qed.
Lemma hits_val d h : In h hs -> bytes 16 d -> hits d h = tot (fun t => same (lbuf (h (slice t 8 24)) (slice t 8 24)) t) (oth d (h d)).
Proof.
  intros hh hd. unfold hits.
  apply (tot_pick (fun v => if list_eqb_spec v (h d) then true else false) (h d) (fun v => tot (fun t => same (lbuf (h (slice t 8 24)) (slice t 8 24)) t) (oth d v))).
  - apply hV.
  - apply hV, hashes_32, hh.
  - destruct (list_eqb_spec (h d) (h d)) as [|x]; [reflexivity | destruct (x eq_refl)].
  - intros v e. destruct (list_eqb_spec v (h d)); [assumption | discriminate].
Qed.
Lemma tot_in {A} (f : A -> Z) x xs : (forall y, 0 <= f y) -> In x xs -> f x <= tot f xs.
Proof.
  intros h0 hi. induction xs as [|y xs IH]; [destruct hi|]. cbn [tot fold_right]. fold (tot f xs).
  pose proof (tot_nonneg f xs h0). pose proof (h0 y). destruct hi as [->|hi]; [lia|]. pose proof (IH hi). lia.
Qed.
Lemma bound_h d h : In h hs -> bytes 16 d ->
  Z.b2z (negb (decoded K h d)) <= Z.b2z (special (lizard_buf h d)) + hits d h.
Proof.
  intros hh hd. rewrite (hits_val d h hh hd). pose proof (hashes_32 h hh) as h32.
  assert (h0 : 0 <= tot (fun t => same (lbuf (h (slice t 8 24)) (slice t 8 24)) t) (oth d (h d))) by (apply tot_nonneg; intro; apply same_nonneg).
  unfold oth in *. change (lbuf (h d) d) with (lizard_buf h d) in *. destruct (special (lizard_buf h d)) eqn:e.
  - cbn [Z.b2z]. destruct (decoded K h d); cbn [negb Z.b2z]; lia.
  - destruct (decoded_iff L h h32 d hd e) as (_ & _ & hx). destruct (decoded K h d); cbn [negb Z.b2z]; [lia|].
    destruct (proj1 hx eq_refl) as (t & ht & et).
    pose proof (tot_in (fun t => same (lbuf (h (slice t 8 24)) (slice t 8 24)) t) t (others d (h d)) (fun t => same_nonneg _ _) ht) as g.
    cbv beta in g. change (lbuf (h (slice t 8 24)) (slice t 8 24)) with (lizard_buf h (slice t 8 24)) in g. rewrite et in g.
    destruct (list_eqb_spec t t) as [|x]; [|destruct (x eq_refl)]. cbn [Z.b2z] in g. lia.
Qed.
Lemma N_nonneg : 0 <= N.
Proof. apply Z.pow_nonneg. lia. Qed.
Lemma pair_sum d v t : bytes 16 d -> bytes 16 (slice t 8 24) -> slice t 8 24 <> d -> In v V ->
  tot (fun h => same v (h d) * same (lbuf (h (slice t 8 24)) (slice t 8 24)) t) hs * (n * n) <= 2 ^ 131 * N.
Proof.
  intros hd ht hne hv. unfold hashes.
  rewrite (tot_two_args (list_eq_dec Z.eq_dec) (repeat 0 32) V D d (slice t 8 24) (fun x y => same v x * same (lbuf y (slice t 8 24)) t) (proj1 hD) (proj2 (proj2 hD d) hd)
    (proj2 (proj2 hD (slice t 8 24)) ht) (fun e => hne (eq_sym e))).
  apply Z.mul_le_mono_nonneg_r; [apply N_nonneg|].
  rewrite (tot_eq _ (fun x => (if list_eqb_spec v x then 1 else 0) * tot (fun y => same (lbuf y (slice t 8 24)) t) V)).
  2:{ intros x _. rewrite <- tot_mul. apply tot_eq. intros y _. destruct (list_eqb_spec v x); reflexivity. }
  rewrite (tot_eq _ (fun x => same v x * tot (fun y => same (lbuf y (slice t 8 24)) t) V)) by (intros x _; destruct (list_eqb_spec v x); reflexivity).
  rewrite (tot_pick (fun x => if list_eqb_spec v x then true else false) v (fun _ => tot (fun y => same (lbuf y (slice t 8 24)) t) V)).
  - apply check_count; assumption.
  - apply hV.
  - exact hv.
  - destruct (list_eqb_spec v v) as [|x]; [reflexivity | destruct (x eq_refl)].
  - intros x e. destruct (list_eqb_spec v x); [symmetry; assumption | discriminate].
Qed.
Lemma tot_mul_r {A} (f : A -> Z) c xs : tot f xs * c = tot (fun x => f x * c) xs.
Proof. rewrite Z.mul_comm, <- tot_mul. apply tot_eq. intros x _. apply Z.mul_comm. Qed.
Lemma hits_sum d : bytes 16 d -> tot (hits d) hs * 2 ^ 125 <= 7 * N.
Proof.
  intro hd. 
  assert (G : tot (hits d) hs * (n * n) <= 7 * n * (2 ^ 131 * N)).
  { unfold hits. rewrite (tot_swap (fun h v => same v (h d) * tot (fun t => same (lbuf (h (slice t 8 24)) (slice t 8 24)) t) (oth d v))).
    rewrite tot_mul_r.
    transitivity (tot (fun _ => 7 * (2 ^ 131 * N)) V); [|rewrite tot_const; lia].
    apply tot_le. intros v hv. destruct (oth_ok d v hd (proj1 (proj2 hV v) hv)) as [l7 ho].
    rewrite (tot_eq _ (fun h => tot (fun t => same v (h d) * same (lbuf (h (slice t 8 24)) (slice t 8 24)) t) (oth d v))) by (intros h _; rewrite tot_mul; reflexivity).
    rewrite (tot_swap (fun h t => same v (h d) * same (lbuf (h (slice t 8 24)) (slice t 8 24)) t)), tot_mul_r.
    transitivity (tot (fun _ => 2 ^ 131 * N) (oth d v)).
    - apply tot_le. intros t ht. destruct (ho t ht) as [h1 h2]. apply pair_sum; assumption.
    - rewrite tot_const, Z.mul_comm. apply Z.mul_le_mono_nonneg_r; [|exact l7]. pose proof N_nonneg. apply Z.mul_nonneg_nonneg; [apply Z.pow_nonneg; lia | assumption]. }
  pose proof n_val as e. pose proof N_nonneg as hN. set (m := N) in *. clearbody m. rewrite e in G. clear e.
  change (2 ^ 256) with (2 ^ 125 * 2 ^ 131) in G. 
  assert (p131 : 0 < 2 ^ 131) by lia. set (a := 2 ^ 131) in *. set (b := 2 ^ 125) in *. assert (hb : 0 < b) by (unfold b; lia). clearbody a b.
  set (s := tot (hits d) hs) in *. clearbody s. clear - G p131 hb hN.
  assert (G' : (b * a * a) * (s * b) <= (b * a * a) * (7 * m)) by nia.
  apply Z.mul_le_mono_pos_l in G'; [exact G' | nia].
Qed.
Lemma special_one s : bytes 32 s -> tot (fun d => tot (fun h => same (lbuf (h d) d) s) hs) D * 2 ^ 125 <= N.
Proof.
  intro hs32. rewrite tot_mul_r. apply (tot_one _ (slice s 8 24)).
  - apply hD.
  - apply N_nonneg.
  - assert (hd : bytes 16 (slice s 8 24)) by (split; [rewrite slice_len by (try lia; rewrite (proj1 hs32); lia); reflexivity | apply slice_bytes, hs32]).
    set (d := slice s 8 24) in *. 
    pose proof (tot_one_arg (list_eq_dec Z.eq_dec) (repeat 0 32) V D d (fun y => same (lbuf y d) s) (proj1 hD) (proj2 (proj2 hD d) hd)) as e. fold (hashes V D) in e. cbv beta in e.
    pose proof (check_count V d s hV hd) as c. pose proof N_nonneg as hN. pose proof n_val as en.
    set (m := N) in *. clearbody m. rewrite en in e. change (2 ^ 256) with (2 ^ 125 * 2 ^ 131) in e. 
    set (q := tot (fun y => same (lbuf y d) s) V) in *. set (x := tot (fun h => same (lbuf (h d) d) s) hs) in *. clearbody q x.
    assert (p131 : 0 < 2 ^ 131) by lia. set (a := 2 ^ 131) in *. set (b := 2 ^ 125) in *. clearbody a b. clear - e c hN p131.
    assert (g : a * (x * b) <= a * m) by nia. apply Z.mul_le_mono_pos_l in g; assumption.
  - intros d hi hne. rewrite (tot_eq _ (fun _ => 0)), tot_zero; [reflexivity|]. intros h hh.
    destruct (list_eqb_spec (lbuf (h d) d) s) as [e|]; [|reflexivity]. exfalso. apply hne. rewrite <- e. symmetry.
    apply (lizard_buf_ok (fun _ => h d) (fun _ => hashes_32 h hh d) d). apply hD, hi.
  - apply list_eq_dec, Z.eq_dec.
Qed.
Lemma special_sum : tot (fun d => tot (fun h => Z.b2z (special (lizard_buf h d))) hs) D * 2 ^ 125 <= 3 * N.
Proof.
  assert (B : forall f, bytes 32 (le_bytes 32 (fval f))) by (intro; split; [apply le_bytes_length | apply le_bytes_bytes]).
  pose proof (special_one _ (B F0)) as s1. pose proof (special_one _ (B Fsqrt_id)) as s2. pose proof (special_one _ (B Fsqrt_iod)) as s3.
  assert (U : tot (fun d => tot (fun h => Z.b2z (special (lizard_buf h d))) hs) D <=
    tot (fun d => tot (fun h => same (lbuf (h d) d) (le_bytes 32 (fval F0))) hs) D +
    (tot (fun d => tot (fun h => same (lbuf (h d) d) (le_bytes 32 (fval Fsqrt_id))) hs) D +
    tot (fun d => tot (fun h => same (lbuf (h d) d) (le_bytes 32 (fval Fsqrt_iod))) hs) D)).
  { rewrite <- !tot_add. apply tot_le. intros d _. rewrite <- !tot_add. apply tot_le. intros h _.
    change (lbuf (h d) d) with (lizard_buf h d). generalize (lizard_buf h d). intro t. unfold special, specials. cbn [map existsb].
    generalize (le_bytes 32 (fval F0)), (le_bytes 32 (fval Fsqrt_id)), (le_bytes 32 (fval Fsqrt_iod)). intros a b c.
    pose proof (same_nonneg t a). pose proof (same_nonneg t b). pose proof (same_nonneg t c).
    destruct (list_eqb_spec a t) as [->|]; [destruct (list_eqb_spec t t) as [|x]; [|destruct (x eq_refl)]; cbn [orb Z.b2z] in *; lia|].
    destruct (list_eqb_spec b t) as [->|]; [destruct (list_eqb_spec t t) as [|x]; [|destruct (x eq_refl)]; cbn [orb Z.b2z] in *; lia|].
    destruct (list_eqb_spec c t) as [->|]; [destruct (list_eqb_spec t t) as [|x]; [|destruct (x eq_refl)]; cbn [orb Z.b2z] in *; lia|].
    cbn [orb Z.b2z] in *. lia. }
  assert (hb : 0 <= 2 ^ 125) by lia. set (b := 2 ^ 125) in *. clearbody b. set (m := N) in *. clearbody m. revert U s1 s2 s3.
  generalize (tot (fun d => tot (fun h => Z.b2z (special (lizard_buf h d))) hs) D).
  generalize (tot (fun d => tot (fun h => same (lbuf (h d) d) (le_bytes 32 (fval F0))) hs) D).
  generalize (tot (fun d => tot (fun h => same (lbuf (h d) d) (le_bytes 32 (fval Fsqrt_id))) hs) D).
  generalize (tot (fun d => tot (fun h => same (lbuf (h d) d) (le_bytes 32 (fval Fsqrt_iod))) hs) D).
  clear - hb. intros. nia.
Qed.

(** one input *)
Lemma single_bound d : bytes 16 d ->
  number (fun h => negb (decoded K h d)) hs * 2 ^ 125 <= 7 * number (fun _ => true) hs + number (fun h => special (lizard_buf h d)) hs * 2 ^ 125.
Proof.
  intro hd. unfold number. rewrite !tot_count.
  assert (e : tot (fun _ => Z.b2z true) hs = N) by (rewrite tot_const; unfold hashes; rewrite functions_length; cbn [Z.b2z]; lia).
  rewrite e. pose proof (hits_sum d hd) as g.
  assert (u : tot (fun h => Z.b2z (negb (decoded K h d))) hs <= tot (fun h => Z.b2z (special (lizard_buf h d))) hs + tot (hits d) hs).
  { rewrite <- tot_add. apply tot_le. intros h hh. apply bound_h; assumption. }
  assert (hb : 0 <= 2 ^ 125) by lia. set (b := 2 ^ 125) in *. clearbody b. set (m := N) in *. clearbody m. revert g u.
  generalize (tot (fun h => Z.b2z (negb (decoded K h d))) hs), (tot (fun h => Z.b2z (special (lizard_buf h d))) hs), (tot (hits d) hs).
  clear - hb. intros. nia.
Qed.
(** all inputs *)
Lemma total_bound :
  tot (fun h => Z.of_nat (length (filter (fun d => negb (decoded K h d)) D))) hs * 2 ^ 125 <= (7 * 2 ^ 128 + 3) * number (fun _ => true) hs.
Proof.
  rewrite (tot_eq _ (fun h => tot (fun d => Z.b2z (negb (decoded K h d))) D)) by (intros h _; apply tot_count).
  rewrite (tot_swap (fun h d => Z.b2z (negb (decoded K h d)))), tot_mul_r.
  pose proof special_sum as sp. rewrite tot_mul_r in sp.
  assert (e : number (fun _ => true) hs = N) by (unfold number; rewrite tot_count, tot_const; unfold hashes; rewrite functions_length; cbn [Z.b2z]; lia).
  assert (u : tot (fun d => tot (fun h => Z.b2z (negb (decoded K h d))) hs * 2 ^ 125) D <=
    tot (fun _ => 7 * N) D + tot (fun d => tot (fun h => Z.b2z (special (lizard_buf h d))) hs * 2 ^ 125) D).
  { rewrite <- tot_add. apply tot_le. intros d hd. pose proof (single_bound d (proj1 (proj2 hD d) hd)) as g. rewrite e in g. unfold number in g. rewrite !tot_count in g. exact g. }
  rewrite tot_const in u. rewrite e. pose proof (all_length 16 D hD) as eD.
  set (m := N) in *. clearbody m. rewrite eD in u. change (256 ^ Z.of_nat 16) with (2 ^ 128) in u. revert u sp.
  generalize (tot (fun d => tot (fun h => Z.b2z (negb (decoded K h d))) hs * 2 ^ 125) D).
  generalize (tot (fun d => tot (fun h => Z.b2z (special (lizard_buf h d))) hs * 2 ^ 125) D). 
  set (c := 2 ^ 128). clearbody c. clear. intros. nia.
Qed.
End Main.

(** ** For the builds *)
Lemma others_reported {K} (L : FeLaws K) H d t : hash32 H -> bytes 16 d -> In t (others (K := K) d (H d)) -> pt_Equals K (pt_SetElligator K t) (pt_SetLizard K H d) = true.
Proof.
  intros hH hd hi. refine (proj2 (EllGen.inverse_sound L (pt_SetLizard K H d) t (EllGen.lizard_valid L H d hH hd) _)).
  revert hi. unfold others, EllGen.reported_bytes. change (pt_SetLizard K (fun _ => H d) d) with (pt_SetLizard K H d).
  destruct (ep_RistrettoElligator2Inverse K (pt_SetLizard K H d)) as [[mask fes] P'].
  intro hi. apply filter_In in hi. destruct hi as [hi _]. apply in_map_iff in hi. destruct hi as (j & ej & hj). apply filter_In in hj. destruct hj as [hj hb].
  apply in_seq in hj. exists j. split; [lia|]. split; [|symmetry; exact ej]. apply (Elligator51.mask_testbit mask j true). apply Z.eqb_eq, hb.
Qed.
Lemma not_alone {K} (L : FeLaws K) H d : hash32 H -> bytes 16 d -> special (lizard_buf H d) = false -> decoded K H d = false ->
  exists e, bytes 16 e /\ e <> d /\ decoded K H e = false.
Proof.
  intros hH hd hs hf. destruct (decoded_iff L H hH d hd hs) as (_ & h32 & hx). destruct (proj1 hx hf) as (t & ht & et).
  pose proof (others_reported L H d t hH hd ht) as hq. pose proof (others_data d (H d) t ht) as hne. specialize (h32 t ht).
  exists (slice t 8 24). assert (he : bytes 16 (slice t 8 24)) by (split; [rewrite slice_len by (try lia; rewrite (proj1 h32); lia); reflexivity | apply slice_bytes, h32]).
  refine (conj he (conj hne _)). set (e := slice t 8 24) in *.
  assert (nd : lz H d <> Fsqrt_iod) by (intro x; assert (y : special (lizard_buf H d) = true) by (apply (special_iff H d hH hd); auto); rewrite hs in y; discriminate y).
  assert (hq' : pt_Equals K (pt_SetLizard K H e) (pt_SetLizard K H d) = true).
  { change (pt_SetLizard K H e) with (pt_SetElligator K (lizard_buf H e)). rewrite et. exact hq. }
  clear hq ht hx hf hs.
  destruct (EllGen.lizard_map L H e hH he) as (A & hA & mA). destruct (EllGen.lizard_map L H d hH hd) as (B & hB & mB).
  apply (EllGen.lizard_eq L H e _ B hH he hB) in hq'. destruct hq' as (A' & mA' & hR). rewrite (rfc_map_unique _ A' A mA' mA) in hR. clear A' mA'.
  destruct (LizardInto_ok L H hH (pt_SetLizard K H e) A (repeat 0 16) hA) as (ds & P' & _ & eq & _ & hc & _).
  specialize (hc d B hd mB (Req_sym _ _ hR) nd). unfold decoded, pt_Lizard. rewrite eq.
  destruct ds as [|x [|y r]]; [destruct hc | | reflexivity]. destruct hc as [->|[]]. cbn [last].
  destruct (list_eqb_spec d e) as [x|]; [destruct (hne (eq_sym x)) | reflexivity].
Qed.

Lemma b_exact b d v : bytes 16 d -> bytes 32 v -> special (lizard_buf (fun _ => v) d) = false ->
  exists ts, (length ts <= 7)%nat /\ (forall t, In t ts -> bytes 32 t /\ slice t 8 24 <> d) /\
  forall H, hash32 H -> H d = v -> (decoded (Backends.ops b) H d = false <-> exists t, In t ts /\ lizard_buf H (slice t 8 24) = t).
Proof.
  intros hd hv hs. exists (others (K := Backends.ops b) d v).
  destruct (decoded_iff (Backends.laws b) (fun _ => v) (fun _ => hv) d hd hs) as (h1 & h2 & _).
  refine (conj h1 (conj (fun t ht => conj (h2 t ht) (others_data d v t ht)) _)).
  intros H hH e. subst v. exact (proj2 (proj2 (decoded_iff (Backends.laws b) H hH d hd hs))).
Qed.
Lemma b_check V d t : all_strings 32 V -> bytes 16 d ->
  Z.of_nat (length (filter (fun v => if list_eqb_spec (lizard_buf (fun _ => v) d) t then true else false) V)) <= 2 ^ 131.
Proof. intros hV hd. rewrite tot_count. apply check_count; assumption. Qed.
Lemma b_single b V D d : all_strings 32 V -> all_strings 16 D -> bytes 16 d -> ~ In d (map (fun s => slice s 8 24) specials) ->
  2 ^ 125 * number (fun h => negb (decoded (Backends.ops b) h d)) (hashes V D) <= 7 * number (fun _ => true) (hashes V D).
Proof.
  intros hV hD hd hn. pose proof (single_bound (Backends.laws b) V D hV hD d hd) as g.
  assert (e : number (fun h => special (lizard_buf h d)) (hashes V D) = 0).
  { unfold number. rewrite tot_count, (tot_eq _ (fun _ => 0)), tot_zero; [reflexivity|]. intros h hh.
    destruct (special (lizard_buf h d)) eqn:x; [|reflexivity]. exfalso. apply hn. unfold special in x. apply existsb_exists in x. destruct x as (s & hs & x).
    destruct (list_eqb_spec s (lizard_buf h d)) as [->|]; [|discriminate]. apply in_map_iff. exists (lizard_buf h d). split; [|exact hs].
    apply (lizard_buf_ok h (hashes_32 V D hV h hh) d hd). }
  rewrite e in g. rewrite Z.mul_comm. revert g.
  generalize (number (fun h => negb (decoded (Backends.ops b) h d)) (hashes V D)), (number (fun _ => true) (hashes V D)).
  clear. intros. lia.
Qed.
Lemma b_total b V D : all_strings 32 V -> all_strings 16 D ->
  2 ^ 125 * tot (fun h => Z.of_nat (length (filter (fun d => negb (decoded (Backends.ops b) h d)) D))) (hashes V D) <= (7 * 2 ^ 128 + 3) * number (fun _ => true) (hashes V D).
Proof. intros hV hD. rewrite Z.mul_comm. exact (total_bound (Backends.laws b) V D hV hD). Qed.
Lemma b_hashes V D : all_strings 32 V -> all_strings 16 D ->
  (forall h, In h (hashes V D) -> hash32 h) /\
  (forall H, hash32 H -> exists h, In h (hashes V D) /\ forall d, bytes 16 d -> h d = H d) /\
  ForallOrdPairs (fun h k => exists d, bytes 16 d /\ h d <> k d) (hashes V D).
Proof.
  intros hV hD. refine (conj (hashes_32 V D hV) (conj _ _)).
  - intros H hH. destruct (functions_all (list_eq_dec Z.eq_dec) (repeat 0 32) V D H (fun x _ => proj2 (proj2 hV _) (hH x))) as (h & h1 & h2).
    exists h. split; [exact h1|]. intros d hd. apply h2, hD, hd.
  - pose proof (functions_once (list_eq_dec Z.eq_dec) (repeat 0 32) V D (proj1 hV) (proj1 hD)) as g. fold (hashes V D) in g.
    induction g as [|h l hh g IH]; [constructor|]. constructor; [|exact IH]. apply Forall_forall. intros k hk.
    destruct (proj1 (Forall_forall _ _) hh k hk) as (x & hx & hne). exists x. split; [apply hD, hx | exact hne].
Qed.
Lemma b_not_alone b H d : hash32 H -> bytes 16 d -> special (lizard_buf H d) = false -> decoded (Backends.ops b) H d = false ->
  exists e, bytes 16 e /\ e <> d /\ decoded (Backends.ops b) H e = false.
Proof. exact (not_alone (Backends.laws b) H d). Qed.
Lemma b_special b H d : hash32 H -> bytes 16 d -> special (lizard_buf H d) = true -> decoded (Backends.ops b) H d = false.
Proof. intros hH hd. exact (decoded_special (Backends.laws b) H hH d hd). Qed.
(** with SHA-256 the special buffers do not occur *)
Lemma sha_not_special d : bytes 16 d -> special (lizard_buf Sha256.sha256 d) = false.
Proof.
  intro hd. destruct (special (lizard_buf Sha256.sha256 d)) eqn:e; [|reflexivity]. exfalso.
  apply (special_iff Sha256.sha256 d Sha256.sha256_bytes hd) in e. destruct (Elligator51.sha256_special d hd) as (h1 & h2 & h3).
  destruct e as [e|[e|e]]; [exact (h1 e) | exact (h2 e) | exact (h3 e)].
Qed.
Lemma b_sha b d : bytes 16 d -> decoded (Backends.ops b) Sha256.sha256 d = false ->
  exists e, bytes 16 e /\ e <> d /\ decoded (Backends.ops b) Sha256.sha256 e = false.
Proof. intros hd. exact (b_not_alone b Sha256.sha256 d Sha256.sha256_bytes hd (sha_not_special d hd)). Qed.
Lemma specials_val : specials = [le_bytes 32 0; le_bytes 32 2578418914173623657462452400132853037496623284081085243786733881681055062952;
  le_bytes 32 347587707554176910664335222571809819192038173877021618066561357284830225728].
Proof. vm_compute. reflexivity. Qed.
Lemma count_case : (exists V D, all_strings 32 V /\ all_strings 16 D) /\ hash32 Sha256.sha256 /\ bytes 16 (le_bytes 16 5) /\
  special (lizard_buf Sha256.sha256 (le_bytes 16 5)) = false /\ ~ In (le_bytes 16 5) (map (fun s => slice s 8 24) specials).
Proof.
  assert (h5 : bytes 16 (le_bytes 16 5)) by (split; [apply le_bytes_length | apply le_bytes_bytes]).
  refine (conj _ (conj Sha256.sha256_bytes (conj h5 (conj (sha_not_special _ h5) _)))).
  - destruct (all_exists 32) as [V hV], (all_exists 16) as [D hD]. exists V, D. split; assumption.
  - rewrite specials_val. intro h. vm_compute in h. destruct h as [h|[h|[h|h]]]; [discriminate h | discriminate h | discriminate h | exact h].
Qed.
