(** More on the three builds: hashing, text, and sequences of calls. *)
From Coq Require Import ZArith Znumtheory List Lia Bool.
From Verif Require Import Words Primes Fp Edwards GroupOrder RistrettoSpec FieldModel CurveModel FieldLaws
  ScalarCode ScalarModel ScalarFacts TextCodec TextProofs RistrettoModel Sha256 ElligatorSpec ElligatorMath LizardProofs
  ApiModel ApiSpec ApiProofs ApiIdeal Generic25 RistrettoFacts Fe51Laws Fe25Laws Amd64Laws Backends.
From Verif Require Text51 Points51.
Import ListNotations.
Open Scope Z_scope.

Lemma same_bytes b c P Q A : point b P A -> point c Q A -> pt_Bytes (ops b) P = pt_Bytes (ops c) Q.
Proof. intros h1 h2. apply (b_bytes b c P Q A A h1 h2). rewrite Eadd_opp. left. reflexivity. Qed.
Lemma b_elligator_same b c buf : bytes 32 buf ->
  pt_Bytes (ops b) (pt_SetElligator (ops b) buf) = pt_Bytes (ops c) (pt_SetElligator (ops c) buf).
Proof.
  intro hb. destruct (b_elligator b buf hb) as (A & [hA _] & rA), (b_elligator c buf hb) as (B & [hB _] & rB).
  rewrite <- (rfc_map_unique _ A B rA rB) in hB. exact (same_bytes b c _ _ A hA hB).
Qed.
Lemma b_lizard_same b c H data : Elligator51.hash32 H -> bytes 16 data ->
  pt_Bytes (ops b) (pt_SetLizard (ops b) H data) = pt_Bytes (ops c) (pt_SetLizard (ops c) H data).
Proof.
  intros hH hd. destruct (rfc_map_exists (lz H data)) as [A hA].
  apply (same_bytes b c _ _ A); [apply (sm_point b)|apply (sm_point c)]; apply point_SetLizard; assumption.
Qed.

(** text *)
Lemma b_text_roundtrip b c P A R up : point b P A -> length (pt_MarshalText (ops b) P) = 43%nat /\
  exists Q B, pt_UnmarshalText (ops c) R (pt_MarshalText (ops b) P) = Done Q /\
    pt_UnmarshalText (ops c) R (hex_encode up (pt_Bytes (ops b) P)) = Done Q /\ point c Q B /\ In (Eadd B (Eopp A)) [E0; T2; T4; T4'].
Proof.
  intro h. destruct (b_bytes b b P P A A h h) as [hb _]. destruct (encode_roundtrip (repeat 0 32) _ Text51.len0 hb) as [e L]. split; [exact L|].
  destruct (b_roundtrip b c P A h) as (Q & B & eQ & hQ & hr). exists Q, B. refine (conj _ (conj _ (conj hQ hr))).
  - unfold pt_UnmarshalText, pt_MarshalText, textToBuf. rewrite L. cbn [Nat.eqb]. rewrite e, eQ. reflexivity.
  - destruct hb as [hl hb]. destruct (hex_encode_ok up (pt_Bytes (ops b) P) hb) as (h1 & h2 & h3).
    assert (e' : textToBuf (repeat 0 32) (hex_encode up (pt_Bytes (ops b) P)) = Done (pt_Bytes (ops b) P)).
    { apply (text_done _ _ _ Text51.len0). left. split; [split; [rewrite h1, hl; reflexivity | exact h2] | symmetry; exact h3]. }
    unfold pt_UnmarshalText. rewrite e', eQ. reflexivity.
Qed.
Lemma b_text_cases b P txt :
  match pt_UnmarshalText (ops b) P txt with
  | Panic => ~ Text51.hex64 txt /\ Text51.over_long txt
  | Done Q => (exists A, point b Q A) /\ (Text51.hex64 txt \/ Text51.base64_43 txt)
  | Fail Q => (Q = P \/ Q = ep_zerovalue (ops b)) /\ (Text51.hex64 txt \/ ~ Text51.over_long txt)
  end.
Proof.
  pose proof (Text51.hex64_eq txt) as eh. pose proof (Text51.over_long_eq txt) as el. pose proof (Text51.base64_43_eq txt) as eb.
  pose proof (text_panic (repeat 0 32) txt Text51.len0) as hp. unfold pt_UnmarshalText.
  assert (hd : text_hex txt \/ ~ text_hex txt).
  { unfold text_hex. destruct (Nat.eq_dec (length txt) 64), (forallb hex_ok txt); [left; split; auto | right; intros [_ h]; discriminate h | right; intros [h _]; auto | right; intros [h _]; auto]. }
  assert (hn : textToBuf (repeat 0 32) txt <> Panic -> Text51.hex64 txt \/ ~ Text51.over_long txt).
  { intro hn. destruct hd as [h|h]; [left; apply eh; exact h|right]. intro g. apply hn, hp. split; [exact h|apply el; exact g]. }
  destruct (textToBuf (repeat 0 32) txt) as [buf|buf|] eqn:E.
  - pose proof (text_done_bytes _ _ _ Text51.len0 E) as hb. destruct (b_decode b buf hb) as [(Q & A & e & hQ & _)|[e _]]; rewrite e; cbn [negb].
    + split; [exists A; exact hQ|]. apply (text_done _ _ _ Text51.len0) in E. destruct E as [[h1 _]|[_ [h1 _]]]; [left; apply eh | right; apply eb]; exact h1.
    + split; [right; reflexivity|]. apply hn. discriminate.
  - split; [left; reflexivity|]. apply hn. discriminate.
  - destruct (proj1 hp eq_refl) as [h1 h2]. split; [intro g; apply h1, eh; exact g|apply el; exact h2].
Qed.

(** sequences of calls *)
Lemma b_safe b prog : b <> Generic -> forall st, safe (laws b) (baseTable b) prog st.
Proof.
  intro hb. induction prog as [|i prog IH]; intro st; [exact Logic.I|]. split; [|intros o st' _; apply IH].
  destruct b; [| |destruct (hb eq_refl)]; destruct i; exact Logic.I.
Qed.
Lemma b_history b prog os s' : Forall well_typed prog -> irun enc dec ell lizenc lizdec inv prog iinit = Some (os, s') ->
  b <> Generic \/ tracks prog (fun _ => true) = true ->
  exists st', run (ops b) (baseTable b) prog (init (ops b)) = Some (os, st').
Proof.
  intros hw h ht. assert (hs : safe (laws b) (baseTable b) prog (init (ops b))).
  { destruct ht as [hb|ht]; [exact (b_safe b prog hb _)|].
    apply (tracks_safe _ _ _ _ _ _ ideal (laws b) (baseTable b) (base_ok b) prog _ (init (ops b)) iinit (corr_init (laws b)) (clean_init (laws b) _) hw ht).
    rewrite h. discriminate. }
  destruct (run_ok _ _ _ _ _ _ ideal (laws b) (baseTable b) (base_ok b) prog _ _ os s' (corr_init (laws b)) hw hs h) as (st' & e & _).
  exists st'. exact e.
Qed.
Theorem b_history_ex : exists enc dec ell lizenc lizdec inv,
  ((forall m, bytes 32 (enc m)) /\ (forall m n, 0 <= m < l -> 0 <= n < l -> enc m = enc n -> m = n) /\
   (forall b m, dec b = Some m <-> 0 <= m < l /\ enc m = b) /\
   (forall b, bytes 32 b -> 0 <= ell b < l) /\ (forall d, bytes 16 d -> 0 <= lizenc d < l) /\
   (forall m d, 0 <= m < l -> (lizdec m = Some d <-> bytes 16 d /\ lizenc d = m /\ forall d', bytes 16 d' -> lizenc d' = m -> d' = d)) /\
   (forall a, 0 <= a < l -> 0 <= inv a < l /\ (a <> 0 -> (inv a * a) mod l = 1) /\ (a = 0 -> inv a = 0))) /\
  forall b prog os s', Forall well_typed prog -> irun enc dec ell lizenc lizdec inv prog iinit = Some (os, s') ->
    b <> Generic \/ tracks prog (fun _ => true) = true ->
    exists st', run (ops b) (baseTable b) prog (init (ops b)) = Some (os, st').
Proof.
  exists enc, dec, ell, lizenc, lizdec, inv.
  exact (conj (conj enc_bytes (conj enc_inj (conj dec_ok (conj ell_range (conj lizenc_range (conj lizdec_ok inv_ok)))))) b_history).
Qed.
