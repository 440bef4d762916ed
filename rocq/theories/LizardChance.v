(** Proofs of C65: how many of the inputs to SetLizard cannot be decoded. *)
From Coq Require Import ZArith Znumtheory List Lia Bool.
From Verif Require Import Words Primes Fp Edwards GroupOrder RistrettoSpec FieldModel CurveModel BitFold FieldLaws
  CurveProofs EncodeProofs ScalarCode ScalarModel TextCodec RistrettoModel RistrettoFacts
  ElligatorSpec ElligatorMath ElligatorProofs LizardProofs FiniteFunctions.
From Verif Require Elligator51 EllGen Backends.
Import ListNotations.
Open Scope Z_scope.
Local Notation hash32 := Elligator51.hash32.

(** Lizard() on SetLizard(d) returns [d] *)
Definition decoded (K : FeOps) (H : list Z -> list Z) (d : list Z) : bool :=
  match pt_Lizard K H (pt_SetLizard K H d) with
  | (Some r, _) => if list_eqb_spec r d then true else false
  | (None, _) => false
  end.
(** three field elements, all mapped to the identity: 0 and the square roots of i*d and of i/d *)
Definition specials : list (list Z) := map (fun f => le_bytes 32 (fval f)) [F0; Fsqrt_id; Fsqrt_iod].
Definition special (buf : list Z) : bool := existsb (fun s => if list_eqb_spec s buf then true else false) specials.

Lemma special_iff H d : hash32 H -> bytes 16 d ->
  (special (lizard_buf H d) = true <-> lz H d = F0 \/ lz H d = Fsqrt_id \/ lz H d = Fsqrt_iod).
Proof.
  intros hH hd. unfold special. rewrite existsb_exists. unfold specials. destruct (lz_ok H hH d hd) as [e _]. split.
  - intros (s & hs & h). destruct (list_eqb_spec s (lizard_buf H d)) as [->|]; [|discriminate].
    apply in_map_iff in hs. destruct hs as (f & ef & hf). apply (lz_inj H hH f d hd) in ef. subst f.
    destruct hf as [h1|[h1|[h1|[]]]]; rewrite <- h1; auto.
  - intro h. exists (lizard_buf H d). split; [|destruct (list_eqb_spec (lizard_buf H d) (lizard_buf H d)) as [|n]; [reflexivity | destruct (n eq_refl)]].
    rewrite <- e. apply (in_map (fun f => le_bytes 32 (fval f))). destruct h as [h|[h|h]]; rewrite h; cbn [In]; auto.
Qed.

Section Chance.
Context {K : FeOps} (L : FeLaws K).
Local Notation FE := (fe K).

(** the other buffers with the same point as the buffer made of [d] and its hash value [v] *)
Definition others (d v : list Z) : list (list Z) :=
  let '(mask, fes, _) := ep_RistrettoElligator2Inverse K (pt_SetLizard K (fun _ => v) d) in
  filter (fun t => if list_eqb_spec (slice t 8 24) d then false else true)
    (map (fun j => fst (o_bytes K (nth j fes (k_zero K)))) (filter (fun j => mask_bit mask j =? 1) (seq 0 8))).

Lemma others_data d v t : In t (others d v) -> slice t 8 24 <> d.
Proof.
  unfold others. destruct (ep_RistrettoElligator2Inverse K (pt_SetLizard K (fun _ => v) d)) as [[mask fes] P'].
  intro h. apply filter_In in h. destruct h as [_ h]. destruct (list_eqb_spec (slice t 8 24) d); [discriminate | assumption].
Qed.

Variable H : list Z -> list Z.
Hypothesis hH : hash32 H.
Lemma nodup_same {A} (c : A) (xs : list A) : NoDup xs -> In c xs -> (forall x, In x xs -> x = c) -> xs = [c].
Proof.
  intros hn hi hx. destruct xs as [|x [|y xs]]; [destruct hi | rewrite (hx x (or_introl eq_refl)); reflexivity|].
  exfalso. inversion hn as [|? ? h _]; subst. apply h. left.
  rewrite (hx x (or_introl eq_refl)), (hx y (or_intror (or_introl eq_refl))). reflexivity.
Qed.
Lemma filter_map {A B} (f : A -> B) (b : B -> bool) (xs : list A) : filter b (map f xs) = map f (filter (fun x => b (f x)) xs).
Proof. induction xs as [|x xs IH]; [reflexivity|]. cbn [map filter]. rewrite IH. destruct (b (f x)); reflexivity. Qed.
Lemma filter_filter {A} (b c : A -> bool) (xs : list A) : filter b (filter c xs) = filter (fun x => c x && b x) xs.
Proof. induction xs as [|x xs IH]; [reflexivity|]. cbn [filter]. destruct (c x); cbn [filter andb]; rewrite IH; reflexivity. Qed.

(** which inputs cannot be decoded *)
Lemma decoded_iff d : bytes 16 d -> special (lizard_buf H d) = false ->
  (length (others d (H d)) <= 7)%nat /\
  (forall t, In t (others d (H d)) -> bytes 32 t) /\
  (decoded K H d = false <-> exists t, In t (others d (H d)) /\ lizard_buf H (slice t 8 24) = t).
Proof.
  intros hd hs. destruct (EllGen.lizard_map L H d hH hd) as (A & hP & mA). pose proof (proj2 hP) as hA.
  assert (n1 : lz H d <> F0 /\ lz H d <> Fsqrt_id /\ lz H d <> Fsqrt_iod).
  { refine (conj _ (conj _ _)); intro h; assert (x : special (lizard_buf H d) = true) by (apply (special_iff H d hH hd); auto); rewrite hs in x; discriminate x. }
  clear hs. destruct n1 as (n1 & n2 & n3).
  unfold others. change (pt_SetLizard K (fun _ => H d) d) with (pt_SetLizard K H d). unfold decoded, pt_Lizard.
  set (P := pt_SetLizard K H d) in *. clearbody P.
  destruct (inverse_ok L P A hP) as (z & mask & fes & P' & hz & e & hP' & hlen & hq).
  set (bit := fun j => let q := nth j (jq8 A z) (F0, F0) in inv_ret (fst q) (snd q)).
  set (out := fun j => let q := nth j (jq8 A z) (F0, F0) in inv_out (fst q) (snd q)).
  assert (Hbit : forall j, (j < 8)%nat -> mask_bit mask j = Z.b2z (bit j)) by (intros j hj; apply (hq j hj)).
  assert (Hout : forall j, (j < 8)%nat -> fst (o_bytes K (nth j fes (k_zero K))) = le_bytes 32 (fval (out j))) by (intros j hj; apply (hq j hj)).
  assert (D : forall j k, (j < 8)%nat -> (k < 8)%nat -> bit j = true -> bit k = true -> out j = lz H d -> out k = lz H d -> j = k).
  { intros j k hj hk bj bk ej ek. destruct (Nat.lt_trichotomy j k) as [lt|[eq|lt]]; [|exact eq|].
    - destruct (out_distinct A z hA hz j k (conj lt hk) bj bk) as [x|x]; [exact (eq_trans ej (eq_sym ek))| |]; fold (out j) in x; rewrite ej in x; [destruct (n1 x) | destruct (n2 x)].
    - destruct (out_distinct A z hA hz k j (conj lt hj) bk bj) as [x|x]; [exact (eq_trans ek (eq_sym ej))| |]; fold (out k) in x; rewrite ek in x; [destruct (n1 x) | destruct (n2 x)]. }
  destruct (lz_ok H hH d hd) as [ez nz].
  assert (J : exists j, (j < 8)%nat /\ bit j = true /\ out j = lz H d).
  { destruct (reported_complete A z hA hz (lz H d) A nz mA (Req_refl A) n3) as (s & t & hin & r1 & r2).
    apply (In_nth _ _ (F0, F0)) in hin. destruct hin as (j & hj & ej). change (length (jq8 A z)) with 8%nat in hj.
    exists j. unfold bit, out. rewrite ej. auto. }
  destruct J as (j0 & hj0 & bj0 & oj0).
  destruct (loop_found H hH mask fes bit out Hbit Hout 8 (repeat 0 16) (le_n 8)) as [el hl].
  unfold pt_LizardInto. rewrite e, el. clear el e hq hlen.
  set (fd := found H bit out 8) in *.
  assert (OK : forall j, In j fd <-> (j < 8)%nat /\ bit j = true /\ lizard_buf H (data_at out j) = le_bytes 32 (fval (out j))).
  { intro j. unfold fd, found. rewrite filter_In, in_seq. unfold ok_at. rewrite andb_true_iff.
    destruct (list_eqb_spec (lizard_buf H (data_at out j)) (le_bytes 32 (fval (out j)))) as [h|h].
    - split; [intros (h1 & h2 & _); split; [lia | auto] | intros (h1 & h2 & _); split; [lia | auto]].
    - split; [intros (h1 & h2 & h3); discriminate h3 | intros (h1 & h2 & h3); destruct (h h3)]. }
  assert (ed : data_at out j0 = d) by (unfold data_at; rewrite oj0, ez; apply lizard_buf_ok; assumption).
  assert (I0 : In j0 fd) by (apply OK; rewrite ed, oj0, ez; auto).
  assert (ND : NoDup fd) by (apply NoDup_filter, seq_NoDup).
  assert (U : forall j, In j fd -> data_at out j = d -> j = j0).
  { intros j hj edj. apply OK in hj. destruct hj as (h1 & h2 & h3). apply D; try assumption. apply (lz_inj H hH); [exact hd|]. rewrite <- h3, edj. reflexivity. }
  assert (EQ : filter (fun t => if list_eqb_spec (slice t 8 24) d then false else true)
      (map (fun j => fst (o_bytes K (nth j fes (k_zero K)))) (filter (fun j => mask_bit mask j =? 1) (seq 0 8))) =
    map (fun j => le_bytes 32 (fval (out j))) (filter (fun j => bit j && (if list_eqb_spec (data_at out j) d then false else true)) (seq 0 8))).
  { rewrite filter_map, filter_filter. 
    rewrite (filter_ext_in _ (fun j => bit j && (if list_eqb_spec (data_at out j) d then false else true))).
    - apply map_ext_in. intros j hj. apply filter_In in hj. destruct hj as [hj _]. apply in_seq in hj. apply Hout. lia.
    - intros j hj. apply in_seq in hj. rewrite Hbit, Hout by lia. unfold data_at. destruct (bit j); reflexivity. }
  rewrite EQ. clear EQ.
  set (fo := filter (fun j => bit j && (if list_eqb_spec (data_at out j) d then false else true)) (seq 0 8)).
  assert (FO : forall j, In j fo <-> (j < 8)%nat /\ bit j = true /\ data_at out j <> d).
  { intro j. unfold fo. rewrite filter_In, in_seq, andb_true_iff. destruct (list_eqb_spec (data_at out j) d) as [h|h].
    - split; [intros (h1 & h2 & h3); discriminate h3 | intros (h1 & h2 & h3); destruct (h3 h)].
    - split; [intros (h1 & h2 & _); split; [lia | auto] | intros (h1 & h2 & _); split; [lia | auto]]. }
  clearbody fd. refine (conj _ (conj _ _)).
  - rewrite map_length. apply le_S_n. change (S (length fo)) with (length (j0 :: fo)). change 8%nat with (length (seq 0 8)).
    apply NoDup_incl_length.
    + constructor; [|apply NoDup_filter, seq_NoDup]. intro h. apply FO in h. apply h. exact ed.
    + intros j [<-|h]; apply in_seq; [lia|]. apply FO in h. lia.
  - intros t ht. apply in_map_iff in ht. destruct ht as (j & <- & _). split; [apply le_bytes_length | apply le_bytes_bytes].
  - clearbody fo. clear n1 n2 n3 mA hA hP' hP D Hbit Hout.
    assert (E : (exists t, In t (map (fun j => le_bytes 32 (fval (out j))) fo) /\ lizard_buf H (slice t 8 24) = t) <-> exists j, In j fd /\ data_at out j <> d).
    { split.
      - intros (t & ht & h). apply in_map_iff in ht. destruct ht as (j & <- & hj). exists j. apply FO in hj. destruct hj as (h1 & h2 & h3).
        split; [|exact h3]. apply OK. auto.
      - intros (j & hj & hn). apply OK in hj. destruct hj as (h1 & h2 & h3). exists (le_bytes 32 (fval (out j))). split; [|exact h3].
        apply (in_map (fun j => le_bytes 32 (fval (out j)))). apply FO. auto. }
    rewrite E. clear E FO. destruct fd as [|a [|b r]]; cbn [length map Nat.eqb].
    + destruct I0.
    + change (Z.of_nat 1 =? 1) with true. cbn [last]. destruct I0 as [->|[]]. rewrite ed.
      destruct (list_eqb_spec d d) as [_|n]; [|destruct (n eq_refl)]. split; [discriminate|]. intros (j & [<-|[]] & hn). destruct (hn ed).
    + replace (Z.of_nat (S (S (length r))) =? 1) with false by (symmetry; apply Z.eqb_neq; lia).
      replace (Z.of_nat (S (S (length r))) =? 0) with false by (symmetry; apply Z.eqb_neq; lia).
      split; [intros _ | reflexivity]. 
      destruct (list_eqb_spec (data_at out a) d) as [ea|ea]; [|exists a; split; [left; reflexivity | exact ea]].
      exists b. split; [right; left; reflexivity|]. intro eb.
      pose proof (U a (or_introl eq_refl) ea) as ua. pose proof (U b (or_intror (or_introl eq_refl)) eb) as ub.
      inversion ND as [|? ? hx _]; subst. apply hx. left. congruence.
Qed.

(** the special ones *)
Lemma decoded_special d : bytes 16 d -> special (lizard_buf H d) = true -> decoded K H d = false.
Proof.
  intros hd hs. apply (special_iff H d hH hd) in hs. destruct (EllGen.lizard_map L H d hH hd) as (A & hP & mA). pose proof (proj2 hP) as hA.
  unfold decoded, pt_Lizard. set (P := pt_SetLizard K H d) in *. clearbody P.
  destruct (inverse_ok L P A hP) as (z & mask & fes & P' & hz & e & hP' & hlen & hq).
  set (bit := fun j => let q := nth j (jq8 A z) (F0, F0) in inv_ret (fst q) (snd q)).
  set (out := fun j => let q := nth j (jq8 A z) (F0, F0) in inv_out (fst q) (snd q)).
  assert (Hbit : forall j, (j < 8)%nat -> mask_bit mask j = Z.b2z (bit j)) by (intros j hj; apply (hq j hj)).
  assert (Hout : forall j, (j < 8)%nat -> fst (o_bytes K (nth j fes (k_zero K))) = le_bytes 32 (fval (out j))) by (intros j hj; apply (hq j hj)).
  destruct (lz_ok H hH d hd) as [ez nz].
  destruct (loop_found H hH mask fes bit out Hbit Hout 8 (repeat 0 16) (le_n 8)) as [el hl].
  unfold pt_LizardInto. rewrite e, el. clear el e hq hlen.
  set (fd := found H bit out 8) in *.
  assert (OK : forall j, In j fd <-> (j < 8)%nat /\ bit j = true /\ lizard_buf H (data_at out j) = le_bytes 32 (fval (out j))).
  { intro j. unfold fd, found. rewrite filter_In, in_seq. unfold ok_at. rewrite andb_true_iff.
    destruct (list_eqb_spec (lizard_buf H (data_at out j)) (le_bytes 32 (fval (out j)))) as [h|h].
    - split; [intros (h1 & h2 & _); split; [lia | auto] | intros (h1 & h2 & _); split; [lia | auto]].
    - split; [intros (h1 & h2 & h3); discriminate h3 | intros (h1 & h2 & h3); destruct (h h3)]. }
  assert (IN : forall j, (j < 8)%nat -> bit j = true -> out j = lz H d -> In j fd).
  { intros j hj hb ho. apply OK. refine (conj hj (conj hb _)). unfold data_at. rewrite ho, ez. rewrite (proj1 (proj2 (lizard_buf_ok H hH d hd))). reflexivity. }
  assert (E0A : ex A = F0 \/ ey A = F0).
  { apply Req_E0_coords. apply Req_sym. replace E0 with A; [apply Req_refl|]. apply (rfc_map_unique (lz H d)); [exact mA|]. apply rfc_E0.
    destruct hs as [h|[h|h]]; rewrite h; [left; reflexivity | right; left; exact Fsqrt_id_sq | right; right; exact Fsqrt_iod_sq]. }
  assert (TWO : forall j k, In j fd -> In k fd -> j <> k -> (2 <= length fd)%nat).
  { intros j k hj hk hjk. clear - hj hk hjk. destruct fd as [|a [|b r]]; [destruct hj | | cbn; lia]. destruct hj as [hj|[]], hk as [hk|[]]. congruence. }
  assert (S0 : forall j, (j = 0 \/ j = 2)%nat -> bit j = true /\ out j = Fsqrt_id).
  { intros j hj. unfold bit, out, jq8. rewrite (jq_zero A z E0A). destruct (inv_s0 F1) as [e1 e2]. rewrite (Feqb_refl' F1) in e2.
    destruct hj as [->| ->]; cbn [flat_map app nth fst snd]; split; assumption. }
  assert (S1 : forall j, (j = 1 \/ j = 3)%nat -> bit j = true /\ out j = F0).
  { intros j hj. unfold bit, out, jq8. rewrite (jq_zero A z E0A). destruct (inv_s0 (Fopp F1)) as [e1 e2].
    rewrite (Feqb_neq (Fopp F1) F1) in e2 by (intro h; exact (F1_neq_opp (eq_sym h))).
    destruct hj as [->| ->]; cbn [flat_map app nth fst snd]; replace (Fopp F0) with F0 by (vm_compute; reflexivity); split; assumption. }
  assert (M : (2 <= length fd)%nat -> match (if Z.of_nat (length fd) =? 1 then lizard_nil else if Z.of_nat (length fd) =? 0 then lizard_none else lizard_multiple) with lizard_nil => false | _ => true end = true).
  { intro h. replace (Z.of_nat (length fd) =? 1) with false by (symmetry; apply Z.eqb_neq; lia).
    replace (Z.of_nat (length fd) =? 0) with false by (symmetry; apply Z.eqb_neq; lia). reflexivity. }
  destruct hs as [h|[h|h]].
  - destruct (S1 1%nat (or_introl eq_refl)) as [b1 o1], (S1 3%nat (or_intror eq_refl)) as [b3 o3]. rewrite <- h in o1, o3.
    specialize (TWO 1%nat 3%nat (IN 1%nat ltac:(lia) b1 o1) (IN 3%nat ltac:(lia) b3 o3) ltac:(lia)). specialize (M TWO).
    destruct (Z.of_nat (length fd) =? 1); [discriminate M|]. destruct (Z.of_nat (length fd) =? 0); reflexivity.
  - destruct (S0 0%nat (or_introl eq_refl)) as [b1 o1], (S0 2%nat (or_intror eq_refl)) as [b3 o3]. rewrite <- h in o1, o3.
    specialize (TWO 0%nat 2%nat (IN 0%nat ltac:(lia) b1 o1) (IN 2%nat ltac:(lia) b3 o3) ltac:(lia)). specialize (M TWO).
    destruct (Z.of_nat (length fd) =? 1); [discriminate M|]. destruct (Z.of_nat (length fd) =? 0); reflexivity.
  - assert (NI : forall j, In j fd -> data_at out j <> d).
    { intros j hj ej. apply OK in hj. destruct hj as (h1 & h2 & h3). rewrite ej in h3. symmetry in h3. apply (lz_inj H hH) in h3; [|exact hd].
      rewrite h in h3. apply (iod_not_reported A z hA hz). exists (fst (nth j (jq8 A z) (F0, F0))), (snd (nth j (jq8 A z) (F0, F0))).
      refine (conj _ (conj h2 h3)). rewrite <- surjective_pairing. apply nth_In. exact h1. }
    clear - NI. destruct fd as [|a [|b r]]; cbn [length map]; [reflexivity| |].
    + change (Z.of_nat 1 =? 1) with true. cbn [last]. destruct (list_eqb_spec (data_at out a) d) as [x|]; [destruct (NI a (or_introl eq_refl) x) | reflexivity].
    + replace (Z.of_nat (S (S (length r))) =? 1) with false by (symmetry; apply Z.eqb_neq; lia).
      replace (Z.of_nat (S (S (length r))) =? 0) with false by (symmetry; apply Z.eqb_neq; lia). reflexivity.
Qed.
End Chance.
