(** The errors of the methods, on the three builds. *)
From Coq Require Import ZArith List Lia Bool String.
From Verif Require Import Words Primes Fp Edwards RistrettoSpec FieldModel CurveModel FieldLaws ScalarCode ScalarModel ScalarReduce ScalarSub ScalarFacts
  TextCodec TextProofs RistrettoModel RistrettoFacts Sha256 Text51 StringModel StringFacts ErrorModel Backends BackendsMore ErrorFacts ErrorText.
From Verif Require Elligator51 EllGen.
Import ListNotations.
Open Scope Z_scope.
Local Notation length := List.length.

(** no error value is missing, and the states are those of the models without errors *)
Lemma x_erase b P s data txt H buf :
  erase (er_pt_UnmarshalBinary (ops b) P data) = (let r := pt_UnmarshalBinary (ops b) P data in if fst r then Done (snd r) else Fail (snd r)) /\
  erase (er_pt_UnmarshalText (ops b) P txt) = pt_UnmarshalText (ops b) P txt /\
  erase (er_sc_UnmarshalBinary s data) = (let r := sc_unmarshalBinary s data in if snd r then Done (fst r) else Fail (fst r)) /\
  erase (er_sc_UnmarshalText s txt) = sc_UnmarshalText s txt /\
  erase (er_pt_LizardInto (ops b) H P buf) =
    (let '(e, d, Q) := pt_LizardInto (ops b) H P buf in match e with lizard_nil => Done (d, Q) | _ => Fail (d, Q) end).
Proof.
  refine (conj _ (conj _ (conj _ (conj _ _)))).
  - unfold er_pt_UnmarshalBinary, pt_UnmarshalBinary. destruct (negb (Nat.eqb (length data) 32)); [reflexivity|].
    destruct (pt_SetBytes (ops b) data) as [[|] Q]; reflexivity.
  - unfold er_pt_UnmarshalText, pt_UnmarshalText. rewrite <- erase_textToBuf. destruct (er_textToBuf (repeat 0 32) txt) as [r [e|]|]; cbn [erase]; [reflexivity| |reflexivity].
    destruct (pt_SetBytes (ops b) r) as [[|] Q]; reflexivity.
  - unfold er_sc_UnmarshalBinary, sc_unmarshalBinary. destruct (negb (Nat.eqb (length data) 32)); reflexivity.
  - unfold er_sc_UnmarshalText, sc_UnmarshalText. rewrite <- (erase_to_buf ScalarSize). destruct (er_to_buf ScalarSize (repeat 0 32) txt) as [r [e|]|]; reflexivity.
  - unfold er_pt_LizardInto, pt_LizardInto. destruct (ep_RistrettoElligator2Inverse (ops b) P) as [[mask fes] Q].
    destruct (for_up 8 (lizard_step (ops b) H mask fes) (buf, 0)) as [d n]. destruct (n =? 1); [reflexivity|]. destruct (n =? 0); reflexivity.
Qed.

(** UnmarshalBinary *)
Lemma x_sc_binary s data : length data <> 32%nat -> er_sc_UnmarshalBinary s data = Ret s (Some (ScalarSize (length data))).
Proof. intro h. unfold er_sc_UnmarshalBinary. apply Nat.eqb_neq in h. rewrite h. reflexivity. Qed.
Lemma x_sc_binary_ok s data : bytes 32 data -> exists r, er_sc_UnmarshalBinary s data = Ret r None /\ reduced r /\ scv r = (le_val data mod 2 ^ 253) mod l.
Proof.
  intro h. exists (sc_setBytes data). unfold er_sc_UnmarshalBinary. rewrite (proj1 h). split; [reflexivity|]. exact (setBytes_spec data h).
Qed.
Lemma x_pt_binary b P data : length data <> 32%nat -> er_pt_UnmarshalBinary (ops b) P data = Ret P (Some (PointSize (length data))).
Proof. intro h. unfold er_pt_UnmarshalBinary. apply Nat.eqb_neq in h. rewrite h. reflexivity. Qed.
Lemma x_pt_binary_ok b P data : bytes 32 data ->
  (exists Q A, er_pt_UnmarshalBinary (ops b) P data = Ret Q None /\ point b Q A /\ pt_Bytes (ops b) Q = data) \/
  (er_pt_UnmarshalBinary (ops b) P data = Ret (ep_zerovalue (ops b)) (Some NotAPoint) /\ forall c Q B, point c Q B -> pt_Bytes (ops c) Q <> data).
Proof.
  intro h. unfold er_pt_UnmarshalBinary. rewrite (proj1 h). cbn [Nat.eqb negb]. destruct (b_decode b data h) as [(Q & A & e & h1 & h2)|[e h1]].
  - left. exists Q, A. rewrite e. exact (conj eq_refl (conj h1 h2)).
  - right. rewrite e. exact (conj eq_refl h1).
Qed.

(** UnmarshalText of scalars *)
Lemma size_sc : (forall i n, ScalarSize n <> CorruptInput i) /\ (forall n m, ScalarSize n = ScalarSize m -> n = m).
Proof. split; [discriminate | intros n m h; injection h as h; exact h]. Qed.
Lemma size_pt : (forall i n, PointSize n <> CorruptInput i) /\ (forall n m, PointSize n = PointSize m -> n = m).
Proof. split; [discriminate | intros n m h; injection h as h; exact h]. Qed.
Lemma erase_panics {A} (r : result A) : r = Panics <-> erase r = Panic.
Proof. destruct r as [a [e|]|]; cbn; split; try discriminate; reflexivity. Qed.
Lemma to_buf_panics size d txt : length d = 32%nat -> (er_to_buf size d txt = Panics <-> over_long txt).
Proof. intro hd. rewrite erase_panics, erase_to_buf, (buf_panic d txt hd). apply over_long_eq. Qed.

Lemma x_sc_text s txt :
  (er_sc_UnmarshalText s txt = Panics <-> over_long txt) /\
  forall r err, er_sc_UnmarshalText s txt = Ret r err ->
    (forall i, err = Some (CorruptInput i) <-> corrupt_at i txt) /\
    (forall n, err = Some (ScalarSize n) <-> b64_size n txt /\ n <> 32%nat) /\
    (err = None <-> exists buf, b64_text txt buf) /\
    (err <> None -> r = s /\ ((exists i, err = Some (CorruptInput i)) \/ (exists n, err = Some (ScalarSize n)))) /\
    (forall buf, b64_text txt buf -> reduced r /\ scv r = (le_val buf mod 2 ^ 253) mod l).
Proof.
  unfold er_sc_UnmarshalText. pose proof (to_buf_panics ScalarSize (repeat 0 32) txt len0) as HP.
  pose proof (fun r err => to_buf_ret ScalarSize (repeat 0 32) txt r err len0 (proj1 size_sc) (proj2 size_sc)) as HR.
  destruct (er_to_buf ScalarSize (repeat 0 32) txt) as [d [e|]|].
  - split; [split; [discriminate | intro h; apply HP in h; discriminate h]|]. intros r err h. assert (er : r = s) by congruence. assert (ee : err = Some e) by congruence. subst r err.
    destruct (HR d (Some e) eq_refl) as (a1 & a2 & a3 & a4 & a5). refine (conj a3 (conj a4 (conj a1 (conj _ _)))).
    + intros _. split; [reflexivity|]. destruct (a5 e eq_refl) as [[i ->]|[n ->]]; [left; exists i | right; exists n]; reflexivity.
    + intros buf hb. assert (X : Some e = None) by (apply a1; exists buf; exact hb). discriminate X.
  - split; [split; [discriminate | intro h; apply HP in h; discriminate h]|]. intros r err h. assert (er : r = sc_setBytes d) by congruence. assert (ee : err = None) by congruence. subst r err.
    destruct (HR d None eq_refl) as (a1 & a2 & a3 & a4 & a5). refine (conj a3 (conj a4 (conj a1 (conj _ _)))).
    + intro h2. destruct (h2 eq_refl).
    + intros buf hb. specialize (a2 eq_refl). apply b64_text_iff in a2, hb. destruct a2 as [[k1 k2] a2], hb as [_ hb]. rewrite <- hb in a2. subst d.
      apply setBytes_spec. rewrite hb. split; [rewrite unsext_len, map_length, k1; reflexivity | apply unsext_bytes].
  - split; [split; [intros _; apply HP; reflexivity | reflexivity]|]. discriminate.
Qed.

(** UnmarshalText of points *)
Lemma er_text_cases txt :
  (hex64 txt /\ er_textToBuf (repeat 0 32) txt = Ret (unhex txt) None) \/
  (~ hex64 txt /\ exists d, length d = 32%nat /\ er_textToBuf (repeat 0 32) txt = er_to_buf PointSize d txt).
Proof.
  unfold er_textToBuf. destruct (Nat.eqb_spec (length txt) 64) as [e|n].
  - pose proof (hex_spec 32 (repeat 0 32) 0 txt eq_refl ltac:(lia)) as H. unfold hex_Decode. destruct (forallb hex_ok txt) eqn:eo.
    + left. split; [apply hex64_eq; split; assumption|]. destruct H as [h1 h2]. rewrite h1. change (Nat.eqb (0 + 32) 32) with true. cbv iota. f_equal.
      unfold wr. rewrite h2, skipn_all2 by (rewrite repeat_length; lia). cbn [firstn app]. apply app_nil_r.
    + right. split; [intro h; apply hex64_eq in h; destruct h as [_ h]; rewrite eo in h; discriminate h|]. destruct H as (d & m & h1 & h2). rewrite h1. exists d. split; [rewrite h2; apply len0 | reflexivity].
  - right. split; [intros [h _]; destruct (n h)|]. exists (repeat 0 32). split; reflexivity.
Qed.

Lemma x_pt_text b P txt :
  (er_pt_UnmarshalText (ops b) P txt = Panics <-> ~ hex64 txt /\ over_long txt) /\
  forall Q err, er_pt_UnmarshalText (ops b) P txt = Ret Q err ->
    (forall i, err = Some (CorruptInput i) <-> ~ hex64 txt /\ corrupt_at i txt) /\
    (forall n, err = Some (PointSize n) <-> ~ hex64 txt /\ b64_size n txt /\ n <> 32%nat) /\
    (err = Some NotAPoint <-> exists buf, text_bytes txt buf /\ forall c R B, point c R B -> pt_Bytes (ops c) R <> buf) /\
    (err = None <-> exists buf R B, text_bytes txt buf /\ point b R B /\ pt_Bytes (ops b) R = buf) /\
    match err with
    | None => exists A, point b Q A /\ text_bytes txt (pt_Bytes (ops b) Q)
    | Some NotAPoint => Q = ep_zerovalue (ops b)
    | Some (CorruptInput _) | Some (PointSize _) => Q = P
    | _ => False
    end.
Proof.
  (* the text stands for [d] *)
  assert (OK : forall d, text_bytes txt d -> (hex64 txt \/ b64_text txt d) -> (forall e, text_bytes txt e -> e = d) -> bytes 32 d ->
    er_textToBuf (repeat 0 32) txt = Ret d None -> 
    forall Q err, er_pt_UnmarshalText (ops b) P txt = Ret Q err ->
    (forall i, err = Some (CorruptInput i) <-> ~ hex64 txt /\ corrupt_at i txt) /\
    (forall n, err = Some (PointSize n) <-> ~ hex64 txt /\ b64_size n txt /\ n <> 32%nat) /\
    (err = Some NotAPoint <-> exists buf, text_bytes txt buf /\ forall c R B, point c R B -> pt_Bytes (ops c) R <> buf) /\
    (err = None <-> exists buf R B, text_bytes txt buf /\ point b R B /\ pt_Bytes (ops b) R = buf) /\
    match err with
    | None => exists A, point b Q A /\ text_bytes txt (pt_Bytes (ops b) Q)
    | Some NotAPoint => Q = ep_zerovalue (ops b)
    | Some (CorruptInput _) | Some (PointSize _) => Q = P
    | _ => False
    end).
  { intros d hd hcase huniq hb e Q err. unfold er_pt_UnmarshalText. rewrite e. clear e.
    assert (NC : forall i, ~ (~ hex64 txt /\ corrupt_at i txt)).
    { intros i [h1 h2]. destruct hcase as [h|h]; [destruct (h1 h) | exact (corrupt_size i 32 txt h2 (b64_text_size txt d h))]. }
    assert (NS : forall n, ~ (~ hex64 txt /\ b64_size n txt /\ n <> 32%nat)).
    { intros n (h1 & h2 & h3). destruct hcase as [h|h]; [destruct (h1 h)|]. apply b64_text_size in h. apply h3. destruct h2 as (_ & _ & ->), h as (_ & _ & <-). reflexivity. }
    destruct (b_decode b d hb) as [(R & A & e & hR & hv)|[e hv]]; rewrite e; cbn [negb]; clear e; intro h.
    - assert (eQ : Q = R) by congruence. assert (ee : err = None) by congruence. subst Q err. refine (conj _ (conj _ (conj _ (conj _ _)))).
      + intro i. split; [discriminate | intro g; destruct (NC i g)].
      + intro n. split; [discriminate | intro g; destruct (NS n g)].
      + split; [discriminate|]. intros (buf & g1 & g2). destruct (g2 b R A hR). rewrite hv. symmetry. apply huniq, g1.
      + split; [intros _; exists d, R, A; exact (conj hd (conj hR hv)) | reflexivity].
      + exists A. rewrite hv. exact (conj hR hd).
    - assert (eQ : Q = ep_zerovalue (ops b)) by congruence. assert (ee : err = Some NotAPoint) by congruence. subst Q err. refine (conj _ (conj _ (conj _ (conj _ _)))).
      + intro i. split; [discriminate | intro g; destruct (NC i g)].
      + intro n. split; [discriminate | intro g; destruct (NS n g)].
      + split; [intros _; exists d; exact (conj hd hv) | reflexivity].
      + split; [discriminate|]. intros (buf & R & B & g1 & g2 & g3). destruct (hv b R B g2). rewrite g3. apply huniq, g1.
      + reflexivity. }
  assert (U : forall d e, text_bytes txt d -> text_bytes txt e -> e = d).
  { intros d e h1 h2. apply (text_bytes_iff (repeat 0 32) txt _ len0) in h1, h2. rewrite h1 in h2. congruence. }
  destruct (er_text_cases txt) as [[hx e]|[hx (d0 & hd0 & e)]].
  - assert (T : text_bytes txt (unhex txt)) by (left; apply hex_text_iff; split; [apply hex64_eq; exact hx | reflexivity]).
    assert (B : bytes 32 (unhex txt)).
    { apply hex64_eq in hx. destruct hx as [x1 x2]. split; [apply (unhex_be 32 txt); [lia | exact x2] | apply unhex_bytes]. }
    split; [|exact (OK _ T (or_introl hx) (fun e' => U _ e' T) B e)]. split; [|intros [h _]; destruct (h hx)].
    unfold er_pt_UnmarshalText. rewrite e. destruct (pt_SetBytes (ops b) (unhex txt)) as [[|] Q]; discriminate.
  - pose proof (to_buf_panics PointSize d0 txt hd0) as HP.
    pose proof (fun r err => to_buf_ret PointSize d0 txt r err hd0 (proj1 size_pt) (proj2 size_pt)) as HR.
    destruct (er_to_buf PointSize d0 txt) as [d [er|]|].
    + unfold er_pt_UnmarshalText. rewrite e. split; [split; [discriminate | intros [_ h]; apply HP in h; discriminate h]|].
      intros Q err h. assert (eQ : Q = P) by congruence. assert (ee : err = Some er) by congruence. subst Q err. clear h.
      destruct (HR d (Some er) eq_refl) as (a1 & a2 & a3 & a4 & a5).
      assert (NT : forall buf, ~ text_bytes txt buf).
      { intros buf [h|[_ h]]; [apply hex_text_iff in h; apply hx, hex64_eq, h|]. assert (X : Some er = None) by (apply a1; exists buf; exact h). discriminate X. }
      refine (conj _ (conj _ (conj _ (conj _ _)))).
      * intro i. rewrite a3. split; [intro h; exact (conj hx h) | intros [_ h]; exact h].
      * intro n. rewrite a4. split; [intro h; exact (conj hx h) | intros [_ h]; exact h].
      * split; [|intros (buf & h & _); destruct (NT buf h)]. intro h. destruct (a5 er eq_refl) as [[i ->]|[n ->]]; discriminate h.
      * split; [discriminate | intros (buf & R & B & h & _); destruct (NT buf h)].
      * destruct (a5 er eq_refl) as [[i ->]|[n ->]]; reflexivity.
    + destruct (HR d None eq_refl) as (a1 & a2 & a3 & a4 & a5). specialize (a2 eq_refl).
      assert (T : text_bytes txt d) by (right; exact (conj hx a2)).
      assert (B : bytes 32 d).
      { destruct a2 as (vs & _ & _ & h & _). exact h. }
      split; [|exact (OK d T (or_intror a2) (fun e' => U _ e' T) B e)].
      split; [|intros [_ h]; apply HP in h; discriminate h].
      unfold er_pt_UnmarshalText. rewrite e. destruct (pt_SetBytes (ops b) d) as [[|] Q]; discriminate.
    + unfold er_pt_UnmarshalText. rewrite e. split; [split; [intros _; split; [exact hx | apply HP; reflexivity] | reflexivity]|]. discriminate.
Qed.

(** Lizard *)
Definition holds b (P : ext (fe (ops b))) (d : list Z) : Prop := bytes 16 d /\ pt_Equals (ops b) (pt_SetLizard (ops b) sha256 d) P = true.
Lemma x_lizard b P A buf : point b P A -> exists d P' err, er_pt_LizardInto (ops b) sha256 P buf = Ret (d, P') err /\
  (err = None <-> exists d0, holds b P d0 /\ forall d1, holds b P d1 -> d1 = d0) /\
  (err = Some NoPreimage <-> forall d0, ~ holds b P d0) /\
  (err = Some ManyPreimages <-> exists d0 d1, holds b P d0 /\ holds b P d1 /\ d0 <> d1) /\
  (err = Some NoPreimage -> d = buf) /\ (err <> Some NoPreimage -> holds b P d).
Proof.
  intro h. apply pt_dpoint in h.
  destruct (EllGen.lizard_list (laws b) sha256 P A buf sha256_bytes h (or_intror Elligator51.sha256_special)) as (ds & P' & e & nd & hi).
  fold (holds b P) in hi. assert (HI : forall d, In d ds <-> holds b P d) by exact hi. clear hi.
  assert (E : er_pt_LizardInto (ops b) sha256 P buf = Ret (last ds buf, P') (match ds with [] => Some NoPreimage | [_] => None | _ => Some ManyPreimages end)).
  { unfold pt_LizardInto in e. unfold er_pt_LizardInto. destruct (ep_RistrettoElligator2Inverse (ops b) P) as [[mask fes] Q].
    destruct (for_up 8 (lizard_step (ops b) sha256 mask fes) (buf, 0)) as [d n].
    assert (e1 : d = last ds buf) by exact (f_equal (fun z => snd (fst z)) e). assert (e2 : Q = P') by exact (f_equal snd e).
    assert (e3 := f_equal (fun z => fst (fst z)) e). cbn [fst] in e3. subst d Q.
    destruct (n =? 1); [|destruct (n =? 0)]; destruct ds as [|x [|y r]]; try discriminate e3; reflexivity. }
  exists (last ds buf), P'. eexists. split; [exact E|]. clear E e.
  destruct ds as [|x [|y r]].
  - refine (conj _ (conj _ (conj _ (conj (fun _ => eq_refl) _)))).
    + split; [discriminate | intros (d0 & g & _); apply HI in g; destruct g].
    + split; [intros _ d0 g; apply HI in g; destruct g | reflexivity].
    + split; [discriminate | intros (d0 & d1 & g & _); apply HI in g; destruct g].
    + intro g. destruct (g eq_refl).
  - assert (hx : holds b P x) by (apply HI; left; reflexivity).
    refine (conj _ (conj _ (conj _ (conj _ _)))).
    + split; [intros _; exists x; split; [exact hx|]; intros d1 g; apply HI in g; destruct g as [<-|[]]; reflexivity | reflexivity].
    + split; [discriminate | intro g; destruct (g x hx)].
    + split; [discriminate|]. intros (d0 & d1 & g0 & g1 & g2). apply HI in g0, g1. destruct g0 as [<-|[]], g1 as [<-|[]]. destruct (g2 eq_refl).
    + discriminate.
    + intros _. exact hx.
  - assert (hx : holds b P x) by (apply HI; left; reflexivity). assert (hy : holds b P y) by (apply HI; right; left; reflexivity).
    assert (nxy : x <> y) by (intro g; subst y; inversion nd as [|? ? n1 n2]; apply n1; left; reflexivity).
    refine (conj _ (conj _ (conj _ (conj _ _)))).
    + split; [discriminate|]. intros (d0 & g0 & g1). destruct nxy. rewrite (g1 x hx), (g1 y hy). reflexivity.
    + split; [discriminate | intro g; destruct (g x hx)].
    + split; [intros _; exists x, y; exact (conj hx (conj hy nxy)) | reflexivity].
    + discriminate.
    + intros _. apply HI. cbn [last]. clear. revert y. induction r as [|z r IH]; intro y; [right; left; reflexivity|]. cbn [last]. 
      destruct (IH z) as [g|g]; [|right; right; exact g]. left. exact g.
Qed.

(** messages *)
Definition small (e : error) : Prop := match e with PointSize n | ScalarSize n | CorruptInput n => Z.of_nat n < 2 ^ 63 | _ => True end.
Lemma p63 : 2 ^ 63 < p. Proof. vm_compute. reflexivity. Qed.
Lemma x_message e e' : small e -> small e' -> message e = message e' -> e = e'.
Proof.
  intros h h' m. pose proof p63 as P.
  destruct e, e'; cbn [small] in h, h'; unfold message in m; try reflexivity;
    try (apply app_inv_head in m; apply decimal_inj in m; [|lia|lia]; f_equal; lia);
    exfalso; revert m; repeat match goal with |- context [decimal ?x] => generalize (decimal x) end; intros; 
    match goal with H : _ = _ |- _ => apply (f_equal (fun s => (nth 0 s 0, nth 10 s 0))) in H; vm_compute in H; discriminate H end.
Qed.
