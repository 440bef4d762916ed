(** Text marshaling of Points (64-bit backend) and Scalars: API-level lemmas. *)
From Coq Require Import ZArith List Lia Bool.
From Verif Require Import Words Primes Fp Edwards RistrettoSpec Fe51Code FieldModel CurveModel ScalarCode ScalarModel ScalarReduce ScalarSub ScalarFacts
  TextCodec TextProofs FieldLaws Fe51Laws RistrettoModel Points51.
Import ListNotations.
Open Scope Z_scope.

(** the base64url alphabet A-Z a-z 0-9 - _ and the hexadecimal digits, as character codes *)
Definition alphabet (c : Z) : Prop := 65 <= c <= 90 \/ 97 <= c <= 122 \/ 48 <= c <= 57 \/ c = 45 \/ c = 95.
Definition hex_digit (c : Z) : Prop := 48 <= c <= 57 \/ 97 <= c <= 102 \/ 65 <= c <= 70.
(** the text without carriage returns and line feeds *)
Definition without_crlf (s : list Z) : list Z := filter (fun c => negb ((c =? 10) || (c =? 13))) s.

Lemma ok_alphabet c : b64_ok c = true <-> alphabet c.
Proof.
  unfold b64_ok, b64_val, alphabet. 
  destruct (Z.leb_spec 65 c), (Z.leb_spec c 90), (Z.leb_spec 97 c), (Z.leb_spec c 122), (Z.leb_spec 48 c), (Z.leb_spec c 57), (Z.eqb_spec c 45), (Z.eqb_spec c 95); cbn [andb]; split; intro h; try reflexivity; try discriminate h; lia.
Qed.
Lemma ok_hex c : hex_ok c = true <-> hex_digit c.
Proof.
  unfold hex_ok, hex_val, hex_digit. 
  destruct (Z.leb_spec 48 c), (Z.leb_spec c 57), (Z.leb_spec 97 c), (Z.leb_spec c 102), (Z.leb_spec 65 c), (Z.leb_spec c 70); cbn [andb]; split; intro h; try reflexivity; try discriminate h; lia.
Qed.
Lemma all_ok l : forallb b64_ok l = true <-> Forall alphabet l.
Proof. rewrite forallb_forall, Forall_forall. split; intros h x hx; apply ok_alphabet, h, hx. Qed.
Lemma all_hex l : forallb hex_ok l = true <-> Forall hex_digit l.
Proof. rewrite forallb_forall, Forall_forall. split; intros h x hx; apply ok_hex, h, hx. Qed.

Definition hex64 (txt : list Z) : Prop := length txt = 64%nat /\ Forall hex_digit txt.
Definition over_long (txt : list Z) : Prop := (44 <= length (without_crlf txt))%nat /\ Forall alphabet (firstn 44 (without_crlf txt)).
Definition base64_43 (txt : list Z) : Prop := length (without_crlf txt) = 43%nat /\ Forall alphabet (without_crlf txt).
Lemma hex64_eq txt : text_hex txt <-> hex64 txt.
Proof. unfold text_hex, hex64. rewrite all_hex. reflexivity. Qed.
Lemma over_long_eq txt : text_long txt <-> over_long txt.
Proof. unfold text_long, over_long. rewrite all_ok. reflexivity. Qed.
Lemma base64_43_eq txt : text_43 txt <-> base64_43 txt.
Proof. unfold text_43, base64_43. rewrite all_ok. reflexivity. Qed.

Lemma len0 : length (repeat 0 32) = 32%nat. Proof. reflexivity. Qed.

Lemma scalar_text_roundtrip s r : reduced s -> sc_UnmarshalText r (sc_MarshalText s) = Done s /\ length (sc_MarshalText s) = 43%nat.
Proof.
  intro h. destruct (encode_roundtrip (repeat 0 32) (sc_bytes s) len0 (proj1 (sc_bytes_ok s (proj1 h)))) as [e L]. split; [|exact L].
  unfold sc_UnmarshalText, sc_MarshalText. rewrite e, (setBytes_bytes s h). reflexivity.
Qed.
Lemma not_hex_43 txt : length txt = 43%nat -> ~ text_hex txt.
Proof. intros h [h' _]. rewrite h in h'. discriminate h'. Qed.
Lemma point_text_roundtrip P R : valid P -> length (pt_MarshalText R51 P) = 43%nat /\
  exists Q, pt_UnmarshalText R51 R (pt_MarshalText R51 P) = Done Q /\ valid Q /\ pt_Equals R51 Q P = true.
Proof.
  intro h. destruct (encode_roundtrip (repeat 0 32) (pt_Bytes R51 P) len0 (enc_length P h)) as [e L]. split; [exact L|].
  destruct (dec_enc P h) as (Q & hQ & vQ & eQ). exists Q. refine (conj _ (conj vQ eQ)).
  unfold pt_UnmarshalText, pt_MarshalText. unfold textToBuf. rewrite L. cbn [Nat.eqb]. rewrite e, hQ. reflexivity.
Qed.
Lemma point_hex up P R : valid P -> exists Q, pt_UnmarshalText R51 R (hex_encode up (pt_Bytes R51 P)) = Done Q /\ valid Q /\ pt_Equals R51 Q P = true.
Proof.
  intro h. destruct (enc_length P h) as [hl hb]. destruct (hex_encode_ok up (pt_Bytes R51 P) hb) as (h1 & h2 & h3).
  destruct (dec_enc P h) as (Q & hQ & vQ & eQ). exists Q. refine (conj _ (conj vQ eQ)).
  assert (e : textToBuf (repeat 0 32) (hex_encode up (pt_Bytes R51 P)) = Done (pt_Bytes R51 P)).
  { apply (text_done _ _ _ len0). left. split; [split; [rewrite h1, hl; reflexivity | exact h2] | symmetry; exact h3]. }
  unfold pt_UnmarshalText. rewrite e, hQ. reflexivity.
Qed.

Lemma point_panics P txt : pt_UnmarshalText R51 P txt = Panic <-> ~ hex64 txt /\ over_long txt.
Proof.
  rewrite <- hex64_eq, <- over_long_eq, <- (text_panic (repeat 0 32) txt len0). unfold pt_UnmarshalText.
  destruct (textToBuf (repeat 0 32) txt) as [b|b|]; [|split; discriminate | split; reflexivity].
  destruct (pt_SetBytes R51 b) as [[] Q]; cbn [negb]; split; discriminate.
Qed.
Lemma scalar_panics s txt : sc_UnmarshalText s txt = Panic <-> over_long txt.
Proof.
  rewrite <- over_long_eq, <- (buf_panic (repeat 0 32) txt len0). unfold sc_UnmarshalText.
  destruct (b64_to_buf (repeat 0 32) txt) as [b|b|]; split; try discriminate; reflexivity.
Qed.
Lemma filter_len_le (f : Z -> bool) l : (length (filter f l) <= length l)%nat.
Proof. induction l as [|a l IH]; cbn; [lia|]. destruct (f a); cbn; lia. Qed.
Lemma short_no_panic P s txt : (length txt <= 43)%nat -> pt_UnmarshalText R51 P txt <> Panic /\ sc_UnmarshalText s txt <> Panic.
Proof.
  intro h. assert (n : ~ over_long txt).
  { intros [h1 _]. pose proof (filter_len_le (fun c => negb ((c =? 10) || (c =? 13))) txt). unfold without_crlf in h1. lia. }
  split; intro e; [apply point_panics in e; exact (n (proj2 e)) | apply scalar_panics in e; exact (n e)].
Qed.
(** success *)
Lemma point_done P txt Q : pt_UnmarshalText R51 P txt = Done Q -> valid Q /\ (hex64 txt \/ base64_43 txt).
Proof.
  unfold pt_UnmarshalText. destruct (textToBuf (repeat 0 32) txt) as [b|b|] eqn:E; try discriminate.
  pose proof (text_done_bytes _ _ _ len0 E) as hb. destruct (pt_SetBytes R51 b) as [[] R] eqn:ES; cbn [negb]; [|discriminate].
  intro h. assert (e : R = Q) by congruence. subst R. split; [exact (proj1 (dec_sound b Q hb ES))|].
  apply (text_done _ _ _ len0) in E. rewrite <- hex64_eq, <- base64_43_eq. destruct E as [[h1 _]|[_ [h1 _]]]; [left | right]; exact h1.
Qed.
Lemma scalar_done s txt r : sc_UnmarshalText s txt = Done r -> reduced r /\ base64_43 txt.
Proof.
  unfold sc_UnmarshalText. destruct (b64_to_buf (repeat 0 32) txt) as [b|b|] eqn:E; try discriminate.
  intro h. assert (e : sc_setBytes b = r) by congruence. subst r. split; [exact (proj1 (setBytes_spec b (buf_done_bytes _ _ _ len0 E)))|].
  apply (buf_done _ _ _ len0) in E. rewrite <- base64_43_eq. apply E.
Qed.
(** failure: the receiver is unchanged, or zeroed by SetBytes *)
Lemma point_fail P txt Q : pt_UnmarshalText R51 P txt = Fail Q -> Q = P \/ Q = ep_zerovalue R51.
Proof.
  unfold pt_UnmarshalText. destruct (textToBuf (repeat 0 32) txt) as [b|b|] eqn:E; try discriminate.
  - pose proof (text_done_bytes _ _ _ len0 E) as hb. pose proof (dec_fail b hb) as D. destruct (pt_SetBytes R51 b) as [[] R]; cbn [negb fst snd] in *; [discriminate|].
    intro h. right. rewrite <- (D eq_refl). congruence.
  - intro h. left. congruence.
Qed.
Lemma scalar_fail s txt r : sc_UnmarshalText s txt = Fail r -> r = s.
Proof. unfold sc_UnmarshalText. destruct (b64_to_buf (repeat 0 32) txt); try discriminate. congruence. Qed.
Lemma aaaa : over_long (repeat 65 44) /\ ~ hex64 (repeat 65 44).
Proof.
  split; [split; [cbn; lia|] | intros [h _]; discriminate h]. cbn. unfold alphabet. repeat constructor; lia.
Qed.
(** every 43-character text over the alphabet decodes *)
Lemma scalar_accepts s txt : base64_43 txt -> exists r, sc_UnmarshalText s txt = Done r.
Proof.
  intro h. apply base64_43_eq in h. unfold sc_UnmarshalText.
  rewrite (proj2 (buf_done (repeat 0 32) txt (unsext (map sextet (strip txt))) len0) (conj h eq_refl)). eexists. reflexivity.
Qed.
Lemma text_refuted : exists txt, forall P s, pt_UnmarshalText R51 P txt = Panic /\ sc_UnmarshalText s txt = Panic.
Proof.
  exists (repeat 65 44). intros P s. split; [apply point_panics; split; apply aaaa | apply scalar_panics, aaaa].
Qed.
