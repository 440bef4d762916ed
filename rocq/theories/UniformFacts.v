(** Proofs of C44: how many inputs the maps from bytes to scalars and points send to one value. *)
From Coq Require Import ZArith List Lia Bool.
From Verif Require Import Words Primes Fp Fe51Code FieldModel CurveModel ScalarCode ScalarModel ScalarReduce ScalarSub ScalarFacts Fe51Laws RistrettoModel Points51 LizardProofs Elligator51.
Import ListNotations.
Open Scope Z_scope.

(** [n] and [f] enumerate the lists that satisfy [S], each once. *)
Definition enumerates (n : Z) (f : Z -> list Z) (S : list Z -> Prop) : Prop :=
  (forall k, 0 <= k < n -> S (f k)) /\ (forall t, S t -> exists! k, 0 <= k < n /\ f k = t).

Lemma strings_enum n : enumerates (256 ^ Z.of_nat n) (le_bytes n) (bytes n).
Proof.
  split.
  - intros k hk. apply le_bytes_bytes.
  - intros t [hl hf]. exists (le_val t). split.
    + split; [rewrite <- hl; apply le_val_range, hf | rewrite <- hl; apply le_bytes_le_val, hf].
    + intros k [hk e]. rewrite <- e. apply le_val_le_bytes, hk.
Qed.

(** residues: the numbers below [B] that are [r] modulo [q] are [r + k * q] *)
Lemma residues B q r : 0 < q -> 0 <= r < q -> 0 <= B ->
  exists n, (n = B / q \/ n = B / q + 1) /\ forall v, 0 <= v < B /\ v mod q = r <-> exists k, 0 <= k < n /\ v = r + k * q.
Proof.
  intros hq hr hB. pose proof (Z.div_mod B q ltac:(lia)) as e. pose proof (Z.mod_pos_bound B q hq) as hm.
  set (d := B / q) in *. set (c := B mod q) in *. clearbody d c.
  exists (if r <? c then d + 1 else d). destruct (Z.ltb_spec r c) as [h|h].
  - split; [right; reflexivity|]. intro v. split.
    + intros [hv hv2]. exists (v / q). pose proof (Z.div_mod v q ltac:(lia)) as ev. rewrite hv2 in ev.
      split; [|nia]. nia.
    + intros (k & hk & ->). split; [nia|]. rewrite Z.mod_add by lia. apply Z.mod_small, hr.
  - split; [left; reflexivity|]. intro v. split.
    + intros [hv hv2]. exists (v / q). pose proof (Z.div_mod v q ltac:(lia)) as ev. rewrite hv2 in ev.
      split; [|nia]. nia.
    + intros (k & hk & ->). split; [nia|]. rewrite Z.mod_add by lia. apply Z.mod_small, hr.
Qed.

Lemma enum_residue n q r (g : list Z -> Z) : 0 < q -> 0 <= r < q -> (forall t, bytes n t -> g t = le_val t mod q) ->
  exists c, (c = 256 ^ Z.of_nat n / q \/ c = 256 ^ Z.of_nat n / q + 1) /\
  enumerates c (fun k => le_bytes n (r + k * q)) (fun t => bytes n t /\ g t = r).
Proof.
  intros hq hr hg. destruct (residues (256 ^ Z.of_nat n) q r hq hr) as (c & hc & hi).
  { apply Z.pow_nonneg; lia. }
  exists c. split; [exact hc|]. split.
  - intros k hk. destruct (proj2 (hi (r + k * q)) (ex_intro _ k (conj hk eq_refl))) as [h1 h2].
    split; [apply le_bytes_bytes|]. rewrite hg by apply le_bytes_bytes. rewrite le_val_le_bytes by exact h1. exact h2.
  - intros t [[hl hf] e]. rewrite hg in e by (split; assumption).
    assert (hr' : 0 <= le_val t < 256 ^ Z.of_nat n) by (rewrite <- hl; apply le_val_range, hf).
    destruct (proj1 (hi (le_val t)) (conj hr' e)) as (k & hk & ek).
    exists k. split.
    + split; [exact hk|]. rewrite <- ek. rewrite <- hl. apply le_bytes_le_val, hf.
    + intros j [hj ej]. apply (f_equal le_val) in ej.
      rewrite le_val_le_bytes in ej by (apply (proj2 (hi (r + j * q))); exists j; split; [exact hj|reflexivity]).
      nia.
Qed.

Lemma l_gt0 : 0 < l. Proof. vm_compute. reflexivity. Qed.
Lemma reduced_count r : 0 <= r < l -> exists c, (c = 2 ^ 512 / l \/ c = 2 ^ 512 / l + 1) /\
  exists f, enumerates c f (fun t => bytes 64 t /\ scv (sc_setReduced t) = r).
Proof.
  intro hr. destruct (enum_residue 64 l r (fun t => scv (sc_setReduced t)) l_gt0 hr) as (c & hc & he).
  - intros t ht. apply setReduced_spec, ht.
  - exists c. split; [exact hc|]. eexists. exact he.
Qed.

(** 253-bit strings: [le_val t mod 2^253 mod l]; the three ignored bits give a factor 8 *)
Lemma setBytes_count r : 0 <= r < l -> exists c, c = (if r <? 2 ^ 253 - l then 16 else 8) /\
  exists f, enumerates c f (fun t => bytes 32 t /\ scv (sc_setBytes t) = r).
Proof.
  intro hr. eexists. split; [reflexivity|].
  assert (hl : 2 ^ 252 < l /\ l < 2 ^ 253) by (rewrite l_lit; lia).
  exists (fun k => le_bytes 32 (r + (k mod 8) * 2 ^ 253 + (k / 8) * l)).
  assert (hb : forall k, 0 <= k < (if r <? 2 ^ 253 - l then 16 else 8) ->
    0 <= r + k mod 8 * 2 ^ 253 + k / 8 * l < 256 ^ Z.of_nat 32 /\
    (r + k mod 8 * 2 ^ 253 + k / 8 * l) mod 2 ^ 253 = r + k / 8 * l /\ (r + k / 8 * l) mod l = r).
  { intros k hk. pose proof (Z.mod_pos_bound k 8 ltac:(lia)) as h8. pose proof (Z.div_mod k 8 ltac:(lia)) as e8.
    set (a := k mod 8) in *. set (b := k / 8) in *. clearbody a b.
    change (256 ^ Z.of_nat 32) with (8 * 2 ^ 253).
    assert (hb : 0 <= r + b * l < 2 ^ 253 /\ (b = 0 \/ b = 1)).
    { destruct (Z.ltb_spec r (2 ^ 253 - l)) as [h|h].
      - assert (b = 0 \/ b = 1) as [-> | ->] by lia; lia.
      - assert (b = 0) as -> by lia. lia. }
    destruct hb as [hb1 hb2]. refine (conj _ (conj _ _)).
    - generalize dependent (b * l). intros. lia.
    - replace (r + a * 2 ^ 253 + b * l) with (r + b * l + a * 2 ^ 253) by ring. rewrite Z.mod_add by lia. apply Z.mod_small, hb1.
    - rewrite Z.mod_add by lia. apply Z.mod_small, hr. }
  split.
  - intros k hk. split; [apply le_bytes_bytes|]. rewrite (proj2 (setBytes_spec _ (le_bytes_bytes 32 _))).
    destruct (hb k hk) as (h1 & h2 & h3). rewrite le_val_le_bytes by exact h1. rewrite h2. exact h3.
  - intros t [ht e]. rewrite (proj2 (setBytes_spec t ht)) in e. destruct ht as [hlen hf].
    assert (hv : 0 <= le_val t < 8 * 2 ^ 253) by (pose proof (le_val_range t hf) as hv; rewrite hlen in hv; exact hv).
    pose proof (Z.div_mod (le_val t) (2 ^ 253) ltac:(lia)) as e1. pose proof (Z.mod_pos_bound (le_val t) (2 ^ 253) ltac:(lia)) as h1.
    set (a := le_val t / 2 ^ 253) in *. set (w := le_val t mod 2 ^ 253) in *.
    pose proof (Z.div_mod w l ltac:(lia)) as e2. rewrite e in e2. set (b := w / l) in *.
    assert (ha : 0 <= a < 8) by (clearbody a w; lia).
    assert (hb' : b = 0 \/ b = 1 /\ r < 2 ^ 253 - l) by (clearbody a w b; clear - e2 h1 hr hl; nia).
    exists (a + 8 * b). split.
    + split.
      * destruct (Z.ltb_spec r (2 ^ 253 - l)); clearbody a b w; lia.
      * replace ((a + 8 * b) mod 8) with a by (clearbody a b; rewrite (Z.mul_comm 8), Z.mod_add by lia; symmetry; apply Z.mod_small; exact ha).
        replace ((a + 8 * b) / 8) with b by (clearbody a b; rewrite (Z.mul_comm 8), Z.div_add by lia; rewrite Z.div_small by exact ha; reflexivity).
        replace (r + a * 2 ^ 253 + b * l) with (le_val t) by (rewrite e1, e2; ring).
        rewrite <- hlen. apply le_bytes_le_val, hf.
    + intros k [hk ek]. apply (f_equal le_val) in ek. destruct (hb k hk) as (k1 & k2 & k3).
      rewrite le_val_le_bytes in ek by exact k1.
      assert (ew : w = r + k / 8 * l) by (unfold w; rewrite <- ek; exact k2).
      assert (ea : a = k mod 8).
      { unfold a. rewrite <- ek. replace (r + k mod 8 * 2 ^ 253 + k / 8 * l) with (r + k / 8 * l + k mod 8 * 2 ^ 253) by ring.
        rewrite Z.div_add by lia. rewrite Z.div_small; [ring|]. rewrite <- ew. exact h1. }
      assert (eb : b = k / 8).
      { unfold b. rewrite ew. rewrite Z.div_add by lia. rewrite Z.div_small by exact hr. ring. }
      rewrite ea, eb. pose proof (Z.div_mod k 8 ltac:(lia)). lia.
Qed.

(** Points: at most six buffers have a given field element up to sign. *)
Definition six (b : list Z) : list (list Z) :=
  let v := le_val b in
  flat_map (fun w => [le_bytes 32 w; le_bytes 32 (w + 2 ^ 255)]) [v; p - v; if v <? 19 then v + p else 2 * p - v].

Lemma canonical_of t : bytes 32 t -> exists b, nonneg_bytes b /\ (fe_of t = fe_of b \/ fe_of t = Fopp (fe_of b)) /\ In t (six b).
Proof.
  intros [hlen hf].
  assert (hp : p = 2 ^ 255 - 19) by (vm_compute; reflexivity).
  assert (hv : 0 <= le_val t < 2 * 2 ^ 255) by (pose proof (le_val_range t hf) as hv; rewrite hlen in hv; exact hv).
  pose proof (Z.div_mod (le_val t) (2 ^ 255) ltac:(lia)) as e1. pose proof (Z.mod_pos_bound (le_val t) (2 ^ 255) ltac:(lia)) as h1.
  set (w := le_val t mod 2 ^ 255) in *. set (a := le_val t / 2 ^ 255) in *.
  assert (ha : a = 0 \/ a = 1) by (clearbody a w; lia).
  pose proof (Z.mod_pos_bound w p ltac:(lia)) as h2. pose proof (Z.div_mod w p ltac:(lia)) as e2.
  set (u := w mod p) in *. set (c := w / p) in *.
  assert (hc : c = 0 \/ c = 1 /\ u < 19) by (clearbody u c; clear - e2 h1 h2 hp; nia).
  (* the even representative *)
  set (v := if Z.even u then u else p - u).
  assert (hv0 : 0 <= v < p /\ Z.even v = true /\ (v = u \/ v = p - u /\ u <> 0)).
  { unfold v. destruct (Z.even u) eqn:eu.
    - refine (conj h2 (conj eu (or_introl eq_refl))).
    - assert (u <> 0) by (intro z0; rewrite z0 in eu; discriminate eu).
      refine (conj _ (conj _ (or_intror (conj eq_refl _)))); [lia| |assumption].
      rewrite Z.even_sub, eu. rewrite hp. reflexivity. }
  destruct hv0 as (hv1 & hv2 & hv3). clearbody v.
  assert (eb : le_val (le_bytes 32 v) = v) by (apply le_val_le_bytes; change (256 ^ Z.of_nat 32) with (2 * 2 ^ 255); lia).
  assert (et : t = le_bytes 32 (w + a * 2 ^ 255)).
  { transitivity (le_bytes 32 (le_val t)); [rewrite <- hlen; symmetry; apply le_bytes_le_val, hf|]. f_equal. clearbody a w. lia. }
  exists (le_bytes 32 v). refine (conj _ (conj _ _)).
  - refine (conj (le_bytes_bytes 32 v) _). rewrite eb. split; [lia|exact hv2].
  - assert (f1 : fe_of t = of_Z u) by (unfold fe_of; fold w; apply of_Z_eq; unfold u; rewrite Z.mod_mod by lia; reflexivity).
    assert (f2 : fe_of (le_bytes 32 v) = of_Z v).
    { unfold fe_of. rewrite eb. rewrite (Z.mod_small v) by (clear - hv1 hp; lia). reflexivity. }
    rewrite f1, f2. destruct hv3 as [-> | [-> hu]]; [left; reflexivity|right].
    rewrite <- of_Z_opp. apply of_Z_eq. replace (- (p - u)) with (u + (-1) * p) by ring. rewrite Z.mod_add by lia. reflexivity.
  - unfold six. rewrite eb. rewrite et. cbn [flat_map app].
    assert (hw : w = v \/ w = p - v \/ w = (if v <? 19 then v + p else 2 * p - v)).
    { destruct hc as [hc | [hc hu]].
      - rewrite hc in e2. destruct hv3 as [-> | [-> _]]; [left|right; left]; clearbody u w; lia.
      - rewrite hc in e2. right. destruct hv3 as [-> | [-> hu0]].
        + right. destruct (Z.ltb_spec u 19); clearbody u w; lia.
        + right. destruct (Z.ltb_spec (p - u) 19); clearbody u w; lia. }
    clear et. destruct ha as [-> | ->]; [rewrite Z.add_0_r | rewrite Z.mul_1_l];
      (destruct hw as [-> | [-> | ->]]); cbn [In]; auto 8.
Qed.

Opaque missed.
Lemma elligator_count P : valid P -> exists bs, (length bs <= 54)%nat /\
  forall t, bytes 32 t -> pt_Equals R51 (pt_SetElligator R51 t) P = true -> In t bs.
Proof.
  intro hP. destruct (reported_at_most_8 P) as (rs & hr & hi).
  exists (flat_map six (missed :: rs)). split.
  - assert (e : forall bs, length (flat_map six bs) = (6 * length bs)%nat).
    { induction bs as [|x bs IH]; [reflexivity|]. cbn [flat_map]. rewrite app_length, IH. cbn [length]. change (length (six x)) with 6%nat. lia. }
    rewrite e. cbn [length]. lia.
  - intros t ht e. destruct (canonical_of t ht) as (b & hb & hs & h6). apply in_flat_map. exists b. split; [|exact h6].
    destruct (list_eq_dec Z.eq_dec b missed) as [eb | n]; [rewrite eb; apply in_eq|apply in_cons].
    apply (proj1 (hi b)). apply inverse_complete; [exact hP|exact hb| |exact n].
    assert (vt : valid (pt_SetElligator R51 t)) by (apply elligator_valid, ht).
    assert (vb : valid (pt_SetElligator R51 b)) by (apply elligator_valid, hb).
    refine (Equals_trans _ _ _ vb vt hP _ e). rewrite (Equals_sym _ _ vb vt).
    exact (proj1 (elligator_same t b ht (proj1 hb) hs)).
Qed.
Lemma rand_count r : 0 <= r < l -> exists c, Z.abs (c * l - 2 ^ 512) < l /\
  exists f, enumerates c f (fun t => bytes 64 t /\ scv (sc_rand t) = r).
Proof.
  intro hr. destruct (reduced_count r hr) as (c & hc & he). exists c. split; [|exact he].
  pose proof l_gt0 as hl. pose proof (Z.div_mod (2 ^ 512) l ltac:(lia)) as e. pose proof (Z.mod_pos_bound (2 ^ 512) l hl) as hm.
  assert (hn : 2 ^ 512 mod l <> 0) by (vm_compute; discriminate).
  set (B := 2 ^ 512) in *. clearbody B. set (d := B / l) in *. clearbody d. set (m := B mod l) in *. clearbody m.
  destruct hc as [-> | ->]; lia.
Qed.
Lemma uniform_example : 0 <= l - 1 < l /\ 2 ^ 253 - l <= l - 1 /\ 2 ^ 512 / l > 2 ^ 259 /\ valid (pt_SetBase R51).
Proof. refine (conj _ (conj _ (conj _ valid_Base))); rewrite l_lit; vm_compute; intuition discriminate. Qed.
