(** The errors of the decoding methods. *)
From Coq Require Import ZArith List Lia Bool String.
From Verif Require Import Words Primes Fp Edwards RistrettoSpec FieldModel CurveModel FieldLaws ScalarCode ScalarModel ScalarReduce ScalarSub ScalarFacts
  TextCodec TextProofs RistrettoModel Text51 StringModel StringFacts ErrorModel Backends BackendsMore.
Import ListNotations.
Open Scope Z_scope.
Local Notation length := List.length.

(** what is left when the error is forgotten *)
Definition erase {A} (r : result A) : outcome A :=
  match r with Panics => Panic | Ret a None => Done a | Ret a (Some _) => Fail a end.

(** characters that the base64 decoder accepts or skips *)
Definition fine (c : Z) : Prop := alphabet c \/ c = 10 \/ c = 13.
(** the base64 decoder stops at index [i]: the first character that is not accepted, or the last character of a text
    whose number of sextets leaves remainder 1 modulo 4 *)
Definition corrupt_at (i : nat) (txt : list Z) : Prop :=
  (exists u c v, txt = u ++ c :: v /\ Forall fine u /\ ~ fine c /\ i = length u) \/
  (Forall fine txt /\ (length (without_crlf txt) mod 4 = 1)%nat /\ S i = length txt).
(** the text stands for [n] bytes *)
Definition b64_size (n : nat) (txt : list Z) : Prop :=
  Forall fine txt /\ (length (without_crlf txt) mod 4 <> 1)%nat /\ n = (length (without_crlf txt) * 3 / 4)%nat.

Lemma fine_dec c : (b64_ok c || negb (not_crlf c) = true)%bool <-> fine c.
Proof.
  unfold fine. rewrite orb_true_iff, ok_alphabet. unfold not_crlf. rewrite negb_involutive, orb_true_iff, !Z.eqb_eq. tauto.
Qed.

Lemma store_ok d n dbuf : b64_store d n dbuf = Panic \/ exists d', b64_store d n dbuf = Done d'.
Proof.
  assert (P : forall o i v, o = Panic \/ (exists d', o = Done d') -> b64_put o i v = Panic \/ exists d', b64_put o i v = Done d').
  { intros o i v [->|[d' ->]]; [left; reflexivity|]. cbn [b64_put]. destruct (Nat.ltb i (length d')); [right; eexists; reflexivity | left; reflexivity]. }
  unfold b64_store. apply P. destruct (Nat.leb 3 (length dbuf)); [apply P|]; (destruct (Nat.eqb (length dbuf) 4); [apply P|]); right; exists d; reflexivity.
Qed.

Lemma er_collect_ok src : forall dbuf si, (length dbuf <= 4)%nat -> (length dbuf <= si)%nat ->
  match er_collect dbuf src si with
  | inl (db, src', si') => b64_collect dbuf src = Some (db, src') /\ length db <> 1%nat /\
      exists u, src = u ++ src' /\ si' = (si + length u)%nat /\ Forall fine u
  | inr off => (b64_collect dbuf src = None /\ exists u c v, src = u ++ c :: v /\ Forall fine u /\ ~ fine c /\ off = (si + length u)%nat) \/
      (exists x, b64_collect dbuf src = Some ([x], []) /\ Forall fine src /\ S off = (si + length src)%nat)
  end.
Proof.
  induction src as [|c src IH]; intros dbuf si hd hs.
  - cbn [er_collect b64_collect]. destruct (Nat.eqb_spec (length dbuf) 4) as [e|n].
    + split; [reflexivity|]. split; [lia|]. exists []. cbn. repeat split; [lia | constructor].
    + destruct (Nat.eqb_spec (length dbuf) 1) as [e1|n1].
      * right. destruct dbuf as [|x [|y r]]; cbn in e1; try discriminate e1. exists x. cbn in hs |- *. repeat split; [constructor | lia].
      * split; [reflexivity|]. split; [exact n1|]. exists []. cbn. repeat split; [lia | constructor].
  - cbn [er_collect b64_collect]. destruct (Nat.eqb_spec (length dbuf) 4) as [e|n].
    + split; [reflexivity|]. split; [lia|]. exists []. cbn. repeat split; [lia | constructor].
    + assert (step : forall db, (length db <= 4)%nat -> (length db <= S si)%nat -> fine c ->
        match er_collect db src (S si) with
        | inl (db', src', si') => b64_collect db src = Some (db', src') /\ length db' <> 1%nat /\
            exists u, c :: src = u ++ src' /\ si' = (si + length u)%nat /\ Forall fine u
        | inr off => (b64_collect db src = None /\ exists u c0 v, c :: src = u ++ c0 :: v /\ Forall fine u /\ ~ fine c0 /\ off = (si + length u)%nat) \/
            (exists x, b64_collect db src = Some ([x], []) /\ Forall fine (c :: src) /\ S off = (si + length (c :: src))%nat)
        end).
      { intros db h1 h2 hc. specialize (IH db (S si) h1 h2). destruct (er_collect db src (S si)) as [[[db' src'] si']|off].
        - destruct IH as (a1 & a2 & u & a3 & a4 & a5). refine (conj a1 (conj a2 _)). exists (c :: u). cbn [app length]. rewrite a3.
          repeat split; [lia | constructor; assumption].
        - destruct IH as [(a1 & u & c0 & v & a2 & a3 & a4 & a5)|(x & a1 & a2 & a3)].
          + left. split; [exact a1|]. exists (c :: u), c0, v. cbn [app length]. rewrite a2. repeat split; [constructor; assumption | exact a4 | lia].
          + right. exists x. cbn [length]. repeat split; [exact a1 | constructor; assumption | lia]. }
      destruct (b64_val c) as [v|] eqn:ev.
      * apply step; [rewrite app_length; cbn; lia | rewrite app_length; cbn; lia|]. left. apply ok_alphabet. unfold b64_ok. rewrite ev. reflexivity.
      * destruct ((c =? 10) || (c =? 13))%bool eqn:ec.
        -- apply step; [exact hd | lia|]. right. apply orb_true_iff in ec. rewrite !Z.eqb_eq in ec. exact ec.
        -- left. split; [reflexivity|]. exists [], c, src. cbn [app length]. repeat split; [constructor| |lia].
           intro h. apply fine_dec in h. unfold b64_ok, not_crlf in h. rewrite ev, ec in h. discriminate h.
Qed.

Lemma strip_len_app u v : length (strip (u ++ v)) = (length (strip u) + length (strip v))%nat.
Proof. unfold strip. rewrite filter_app, app_length. reflexivity. Qed.

Lemma er_decode_ok fuel : forall d n src si, (length src < fuel)%nat ->
  match er_decode fuel d n src si with
  | Panics => b64_decode fuel d n src = Panic
  | Ret r None => b64_decode fuel d n src = Done r /\ Forall fine src
  | Ret r (Some e) => b64_decode fuel d n src = Fail r /\ exists i, corrupt_at i src /\ e = CorruptInput (si + i)
  end.
Proof.
  induction fuel as [|fuel IH]; intros d n src si hf; [reflexivity|].
  destruct (list_eq_dec Z.eq_dec src []) as [->|hne]; [split; [reflexivity | constructor]|]. rewrite (decode_cons fuel d n src hne).
  replace (er_decode (S fuel) d n src si) with
    (match er_collect [] src si with
     | inr offset => Ret (d, n) (Some (CorruptInput offset))
     | inl (dbuf, src, si) =>
        if Nat.eqb (length dbuf) 0 then Ret (d, n) None
        else match b64_store d n dbuf with
        | Done d => er_decode fuel d (n + (length dbuf - 1)) src si
        | _ => Panics
        end
     end) by (destruct src as [|c src]; [destruct (hne eq_refl) | reflexivity]).
  pose proof (er_collect_ok src [] si ltac:(cbn; lia) ltac:(cbn; lia)) as HE.
  pose proof (collect_clean [] src ltac:(cbn; lia)) as HC. cbv zeta in HC. cbn [length Nat.sub app] in HC.
  destruct (er_collect [] src si) as [[[db src'] si']|off].
  - destruct HE as (h1 & h2 & u & h3 & h4 & h5).
    destruct (forallb b64_ok (firstn 4 (strip src))) eqn:EV; [|rewrite HC in h1; discriminate h1].
    destruct HC as (q & k1 & k2 & k3 & k4). rewrite k1 in h1. assert (eq1 : map sextet (firstn 4 (strip src)) = db) by congruence. assert (eq2 : q = src') by congruence.
    subst q. clear h1. rewrite k1, eq1. specialize (k4 ltac:(lia) hne).
    destruct db as [|x [|y r]].
    + cbn. split; [reflexivity|]. assert (ns : strip src = []) by (destruct (strip src) as [|a t]; [reflexivity | discriminate eq1]).
      apply Forall_forall. intros c hc. apply fine_dec. destruct (not_crlf c) eqn:ec; [|apply orb_true_r].
      assert (hi : In c (strip src)) by (apply filter_In; split; assumption). rewrite ns in hi. destruct hi.
    + destruct (h2 eq_refl).
    + cbn [length Nat.eqb]. rewrite <- eq1. clear h2.
      replace (S (S (length r)) - 1)%nat with (S (length r)) by lia.
      destruct (store_ok d n (map sextet (firstn 4 (strip src)))) as [E|[d' E]]; rewrite E; [reflexivity|].
      specialize (IH d' (n + S (length r))%nat src' si' ltac:(lia)).
      destruct (er_decode fuel d' (n + S (length r)) src' si') as [[d2 n2] [e|]|]; [| |exact IH].
      * destruct IH as (i1 & i & i2 & i3). split; [exact i1|]. exists (length u + i)%nat. split; [|rewrite i3, h4; f_equal; lia].
        destruct i2 as [(u2 & c & v & j1 & j2 & j3 & j4)|(j1 & j2 & j3)].
        -- left. exists (u ++ u2), c, v. rewrite h3, j1, <- app_assoc. repeat split; [apply Forall_app; split; assumption | exact j3 | rewrite app_length; lia].
        -- right. rewrite h3. repeat split; [apply Forall_app; split; assumption| |rewrite app_length; lia].
           change (without_crlf (u ++ src')) with (strip (u ++ src')). change (without_crlf src') with (strip src') in j2.
           rewrite <- h3. rewrite k2 in j2. rewrite skipn_length in j2.
           assert (L4 : (4 <= length (strip src))%nat).
           { destruct (Nat.le_gt_cases 4 (length (strip src))) as [g|g]; [exact g|]. replace (length (strip src) - 4)%nat with 0%nat in j2 by lia. discriminate j2. }
           replace (length (strip src)) with ((length (strip src) - 4) + 1 * 4)%nat by lia. rewrite Nat.mod_add by lia. exact j2.
      * destruct IH as (i1 & i2). split; [exact i1|]. rewrite h3. apply Forall_app; split; assumption.
  - destruct HE as [(h1 & u & c & v & h2 & h3 & h4 & h5)|(x & h1 & h2 & h3)].
    + rewrite h1. split; [reflexivity|]. exists (length u). split; [|rewrite h5; reflexivity]. left. exists u, c, v. repeat split; assumption.
    + rewrite h1. split; [reflexivity|]. destruct src as [|c0 src0]; [destruct (hne eq_refl)|]. exists (length src0). cbn [length] in h3.
      split; [|f_equal; lia]. right. repeat split; [exact h2|].
      change (without_crlf (c0 :: src0)) with (strip (c0 :: src0)).
      destruct (forallb b64_ok (firstn 4 (strip (c0 :: src0)))); [|rewrite HC in h1; discriminate h1].
      destruct HC as (q & k1 & k2 & _). rewrite k1 in h1. assert (e1 : map sextet (firstn 4 (strip (c0 :: src0))) = [x]) by congruence.
      assert (e2 : q = []) by congruence.
      apply (f_equal (@length Z)) in e1. rewrite map_length, firstn_length in e1. cbn [length] in e1. replace (length (strip (c0 :: src0))) with 1%nat by lia. reflexivity.
Qed.

Lemma erase_to_buf size d txt : erase (er_to_buf size d txt) = b64_to_buf d txt.
Proof.
  unfold er_to_buf, b64_to_buf, er_Decode, b64_Decode. pose proof (er_decode_ok (S (length txt)) d 0 txt 0 ltac:(lia)) as H.
  destruct (er_decode (S (length txt)) d 0 txt 0) as [[d' n] [e|]|].
  - destruct H as [-> _]. reflexivity.
  - destruct H as [-> _]. destruct (negb (Nat.eqb n 32)); reflexivity.
  - rewrite H. reflexivity.
Qed.
Lemma erase_textToBuf d txt : erase (er_textToBuf d txt) = textToBuf d txt.
Proof.
  unfold er_textToBuf, textToBuf. destruct (Nat.eqb (length txt) 64); [|apply erase_to_buf].
  destruct (hex_Decode d txt) as [[d' n]|[d' n]|]; [destruct (Nat.eqb n 32); [reflexivity | apply erase_to_buf] | apply erase_to_buf | reflexivity].
Qed.

(** the errors of the base64 part *)
Lemma strip_fine_all txt : forallb b64_ok (strip txt) = true <-> Forall fine txt.
Proof.
  rewrite forallb_forall, Forall_forall. split.
  - intros h c hc. apply fine_dec. destruct (not_crlf c) eqn:e; [|apply orb_true_r]. rewrite h; [reflexivity|]. apply filter_In. split; assumption.
  - intros h c hc. apply filter_In in hc. destruct hc as [h1 h2]. specialize (h c h1). apply fine_dec in h. rewrite h2 in h. cbn [negb] in h. rewrite orb_false_r in h. exact h.
Qed.
Lemma to_buf_err size d txt r err : length d = 32%nat -> er_to_buf size d txt = Ret r err ->
  match err with
  | None => True
  | Some e => (exists i, corrupt_at i txt /\ e = CorruptInput i) \/ (exists n, b64_size n txt /\ n <> 32%nat /\ e = size n)
  end.
Proof.
  intros hd. unfold er_to_buf, er_Decode. pose proof (er_decode_ok (S (length txt)) d 0 txt 0 ltac:(lia)) as H.
  pose proof (decode_spec 10 (S (length txt)) d 0 txt ltac:(lia) ltac:(lia)) as D. cbv zeta in D. change (4 * 10 + 4)%nat with 44%nat in D.
  destruct (er_decode (S (length txt)) d 0 txt 0) as [[d' n] [e|]|]; [| |discriminate].
  - intro h. assert (ee : err = Some e) by congruence. rewrite ee. left. destruct H as (_ & i & h1 & h2). exists i. split; assumption.
  - destruct H as [h1 h2]. destruct (Nat.eqb_spec n 32) as [e|ne]; cbn [negb]; intro h; [assert (ee : err = None) by congruence; rewrite ee; exact I|].
    assert (ee : err = Some (size n)) by congruence. rewrite ee. right. exists n. refine (conj _ (conj ne eq_refl)).
    apply strip_fine_all in h2 as h3.
    destruct (forallb b64_ok (firstn 44 (strip txt))) eqn:EV.
    + destruct (44 <=? length (strip txt))%nat; [rewrite h1 in D; discriminate D|]. destruct (Nat.eqb_spec (length (strip txt) mod 4) 1) as [e1|n1].
      * destruct D as (x & y & D & _). rewrite h1 in D. discriminate D.
      * rewrite h1 in D. assert (en : n = (0 + length (unsext (map sextet (strip txt))))%nat) by congruence. rewrite unsext_len, map_length in en.
        refine (conj h2 (conj n1 en)).
    + destruct D as (x & y & D & _). rewrite h1 in D. discriminate D.
Qed.
