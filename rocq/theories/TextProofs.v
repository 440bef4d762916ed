(** The text codecs: base64 and hex decoding into a 32-byte buffer. *)
From Coq Require Import ZArith List Lia Bool Arith.
From Verif Require Import Words BitFold TextCodec.
Import ListNotations.
Open Scope Z_scope.

(** a character of the base64url alphabet, and the text without CR and LF *)
Definition b64_ok (c : Z) : bool := match b64_val c with Some _ => true | None => false end.
Definition not_crlf (c : Z) : bool := negb ((c =? 10) || (c =? 13)).
Definition strip (s : list Z) : list Z := filter not_crlf s.
Definition sextet (c : Z) : Z := match b64_val c with Some v => v | None => 0 end.

Lemma crlf_not_ok c : not_crlf c = false -> b64_val c = None.
Proof.
  unfold not_crlf. intro h. apply negb_false_iff, orb_true_iff in h. rewrite !Z.eqb_eq in h. destruct h as [-> | ->]; reflexivity.
Qed.

Lemma collect_clean dbuf src : (length dbuf <= 4)%nat -> let k := (4 - length dbuf)%nat in
  if forallb b64_ok (firstn k (strip src)) then
    exists src', b64_collect dbuf src = Some (dbuf ++ map sextet (firstn k (strip src)), src') /\ strip src' = skipn k (strip src) /\
      (length src' <= length src)%nat /\ ((k <> 0)%nat -> src <> [] -> (length src' < length src)%nat)
  else b64_collect dbuf src = None.
Proof.
  revert dbuf. induction src as [|c src IH]; intros dbuf hl k.
  - unfold strip. cbn [filter]. rewrite firstn_nil, skipn_nil. cbn [forallb map]. rewrite app_nil_r. exists [].
    cbn [b64_collect]. destruct (Nat.eqb (length dbuf) 4); refine (conj eq_refl (conj eq_refl (conj _ _))); try (cbn; lia); intros _ h; destruct (h eq_refl).
  - cbn [b64_collect]. destruct (Nat.eqb_spec (length dbuf) 4) as [e|ne].
    + assert (k0 : k = 0%nat) by (unfold k; lia). rewrite k0. cbn [firstn skipn forallb map]. rewrite app_nil_r. exists (c :: src).
      refine (conj eq_refl (conj eq_refl (conj _ _))); [lia|]. intro h. destruct (h eq_refl).
    + assert (kS : k = S (4 - S (length dbuf))) by (unfold k; lia).
      unfold strip. cbn [filter]. fold (strip src). destruct (not_crlf c) eqn:ec.
      * rewrite kS. cbn [firstn forallb skipn map]. unfold b64_ok at 1, sextet at 1. destruct (b64_val c) as [v|] eqn:ev.
        -- specialize (IH (dbuf ++ [v])). rewrite app_length in IH. cbn [length] in IH. rewrite Nat.add_1_r in IH. specialize (IH ltac:(lia)).
           cbv zeta in IH. cbn [andb]. destruct (forallb b64_ok (firstn (4 - S (length dbuf)) (strip src))); [|exact IH].
           destruct IH as (src' & h1 & h2 & h3 & h4). exists src'. rewrite h1, <- app_assoc. refine (conj eq_refl (conj h2 (conj _ _))); cbn [length]; lia.
        -- cbn [andb]. unfold not_crlf in ec. apply negb_true_iff in ec. rewrite ec. reflexivity.
      * rewrite (crlf_not_ok c ec). unfold not_crlf in ec. apply negb_false_iff in ec. rewrite ec.
        specialize (IH dbuf hl). cbv zeta in IH. fold k in IH. destruct (forallb b64_ok (firstn k (strip src))); [|exact IH].
        destruct IH as (src' & h1 & h2 & h3 & h4). exists src'. refine (conj h1 (conj h2 (conj _ _))); cbn [length]; lia.
Qed.

(** the bytes of a list of sextets *)
Fixpoint unsext (l : list Z) : list Z :=
  match l with
  | a :: b :: c :: d :: r => let v := a * 2 ^ 18 + b * 2 ^ 12 + c * 2 ^ 6 + d in v / 2 ^ 16 mod 256 :: v / 2 ^ 8 mod 256 :: v mod 256 :: unsext r
  | [a; b; c] => let v := a * 2 ^ 18 + b * 2 ^ 12 + c * 2 ^ 6 in [v / 2 ^ 16 mod 256; v / 2 ^ 8 mod 256]
  | [a; b] => let v := a * 2 ^ 18 + b * 2 ^ 12 in [v / 2 ^ 16 mod 256]
  | _ => []
  end.

Lemma sextet_range c : 0 <= sextet c < 64.
Proof.
  unfold sextet, b64_val. destruct ((65 <=? c) && (c <=? 90))%bool eqn:E1; [apply andb_prop in E1; lia|].
  destruct ((97 <=? c) && (c <=? 122))%bool eqn:E2; [apply andb_prop in E2; lia|].
  destruct ((48 <=? c) && (c <=? 57))%bool eqn:E3; [apply andb_prop in E3; lia|].
  destruct (c =? 45); [lia|]. destruct (c =? 95); lia.
Qed.

Lemma lor_add a b n : 0 <= n -> 0 <= b < 2 ^ n -> Z.lor (Z.shiftl a n) b = a * 2 ^ n + b.
Proof.
  intros hn hb. assert (hi : forall i, n <= i -> Z.testbit b i = false).
  { intros i h. apply Z.testbit_false; [lia|]. rewrite Z.div_small; [reflexivity|]. split; [lia|]. apply Z.lt_le_trans with (2 ^ n); [lia | apply Z.pow_le_mono_r; lia]. }
  assert (D : Z.land (Z.shiftl a n) b = 0).
  { apply Z.bits_inj'. intros i h0. rewrite Z.land_spec, Z.bits_0.
    destruct (Z.ltb_spec i n); [rewrite Z.shiftl_spec_low by lia; reflexivity|]. rewrite hi by lia. apply andb_false_r. }
  rewrite <- Z.shiftl_mul_pow2 by lia. rewrite Z.add_nocarry_lxor by exact D. symmetry. apply Z.lxor_lor. exact D.
Qed.

Lemma quad_val a b c d : 0 <= a < 64 -> 0 <= b < 64 -> 0 <= c < 64 -> 0 <= d < 64 ->
  Z.lor (Z.lor (Z.lor (Z.shiftl a 18) (Z.shiftl b 12)) (Z.shiftl c 6)) d = a * 2 ^ 18 + b * 2 ^ 12 + c * 2 ^ 6 + d.
Proof.
  intros. assert (eb : Z.shiftl b 12 = b * 4096) by (rewrite Z.shiftl_mul_pow2 by lia; reflexivity).
  assert (ec : Z.shiftl c 6 = c * 64) by (rewrite Z.shiftl_mul_pow2 by lia; reflexivity).
  rewrite (lor_add a (Z.shiftl b 12) 18) by lia.
  replace (a * 2 ^ 18 + Z.shiftl b 12) with (Z.shiftl (a * 64 + b) 12) by (rewrite Z.shiftl_mul_pow2 by lia; lia).
  rewrite (lor_add (a * 64 + b) (Z.shiftl c 6) 12) by lia.
  replace ((a * 64 + b) * 2 ^ 12 + Z.shiftl c 6) with (Z.shiftl ((a * 64 + b) * 64 + c) 6) by (rewrite Z.shiftl_mul_pow2 by lia; lia).
  rewrite lor_add by lia. lia.
Qed.

(** writing [w] into [d] at position [n] *)
Definition wr (d : list Z) (n : nat) (w : list Z) : list Z := firstn n d ++ w ++ skipn (n + length w) d.
Lemma wr_len d n w : (n + length w <= length d)%nat -> length (wr d n w) = length d.
Proof. intro h. unfold wr. rewrite !app_length, firstn_length, skipn_length. lia. Qed.
Lemma wr_nil d n : wr d n [] = d.
Proof. unfold wr. cbn. rewrite Nat.add_0_r. apply firstn_skipn. Qed.
Lemma skipn_skipn' {X} (l : list X) : forall a b, skipn a (skipn b l) = skipn (b + a) l.
Proof. induction l as [|x l IH]; intros a [|b]; cbn [skipn Nat.add]; rewrite ?skipn_nil; try reflexivity. apply IH. Qed.
Lemma wr_wr d n u w : (n + length u + length w <= length d)%nat -> wr (wr d n u) (n + length u) w = wr d n (u ++ w).
Proof.
  intro h. unfold wr. rewrite firstn_app, !firstn_length, Nat.min_l by lia. replace (n + length u - n)%nat with (length u) by lia.
  rewrite firstn_firstn, Nat.min_r by lia. rewrite firstn_app, firstn_all, Nat.sub_diag. cbn [firstn]. rewrite app_nil_r.
  rewrite skipn_app, skipn_app, !firstn_length, !Nat.min_l by lia. rewrite (skipn_all2 (firstn n d)) by (rewrite firstn_length; lia).
  rewrite (skipn_all2 u) by lia. rewrite skipn_skipn', app_length. cbn [app]. rewrite <- !app_assoc. do 3 f_equal. match goal with |- skipn ?a _ = skipn ?b _ => replace a with b by lia; reflexivity end.
Qed.
Lemma upd_wr d n v : (n < length d)%nat -> upd d n v = wr d n [v].
Proof.
  revert n. induction d as [|x d IH]; intros [|n] h; cbn in h; try lia; [reflexivity|]. cbn [upd]. rewrite IH by lia. reflexivity.
Qed.
Lemma put_ok d i v : (i < length d)%nat -> b64_put (Done d) i v = Done (wr d i [v]).
Proof. intro h. unfold b64_put. rewrite (proj2 (Nat.ltb_lt _ _) h), upd_wr by lia. reflexivity. Qed.
Lemma put_panic d i v : (length d <= i)%nat -> b64_put (Done d) i v = Panic.
Proof. intro h. unfold b64_put. rewrite (proj2 (Nat.ltb_ge _ _) h). reflexivity. Qed.
Lemma wr3 d n x y z : (n + 3 <= length d)%nat -> wr (wr (wr d (n + 2) [z]) (n + 1) [y]) n [x] = wr d n [x; y; z].
Proof.
  intro h. apply nth_ext with (d := 0) (d' := 0).
  - rewrite !wr_len; cbn [length]; rewrite ?wr_len; cbn [length]; rewrite ?wr_len; cbn [length]; lia.
  - intros i hi. assert (G : forall e m u, (m + length u <= length e)%nat -> forall i, nth i (wr e m u) 0 =
        if (i <? m)%nat then nth i e 0 else if (i <? m + length u)%nat then nth (i - m) u 0 else nth i e 0).
    { intros e m u hm j. unfold wr. destruct (Nat.ltb_spec j m) as [h1|h1].
      - rewrite app_nth1 by (rewrite firstn_length; lia). rewrite <- (firstn_skipn m e) at 2. rewrite app_nth1 by (rewrite firstn_length; lia). reflexivity.
      - rewrite app_nth2 by (rewrite firstn_length; lia). rewrite firstn_length, Nat.min_l by lia. destruct (Nat.ltb_spec j (m + length u)) as [h2|h2].
        + rewrite app_nth1 by lia. reflexivity.
        + rewrite app_nth2 by lia. rewrite <- (firstn_skipn (m + length u) e) at 2. rewrite app_nth2 by (rewrite firstn_length; lia).
          rewrite firstn_length, Nat.min_l by lia. f_equal. lia. }
    rewrite !G; cbn [length]; rewrite ?wr_len; cbn [length]; rewrite ?wr_len; cbn [length]; try lia.
    destruct (Nat.ltb_spec i n); destruct (Nat.ltb_spec i (n + 1)); destruct (Nat.ltb_spec i (n + 2)); destruct (Nat.ltb_spec i (n + 3));
      destruct (Nat.ltb_spec i (n + 1 + 1)); destruct (Nat.ltb_spec i (n + 2 + 1)); try lia;
      try reflexivity;
      (try (replace i with n by lia; rewrite !Nat.sub_diag; reflexivity));
      (try (replace i with (n + 1)%nat by lia; replace (n + 1 - n)%nat with 1%nat by lia; rewrite !Nat.sub_diag; reflexivity));
      (try (replace i with (n + 2)%nat by lia; replace (n + 2 - n)%nat with 2%nat by lia; rewrite !Nat.sub_diag; reflexivity)).
Qed.
Lemma wr2 d n x y : (n + 2 <= length d)%nat -> wr (wr d (n + 1) [y]) n [x] = wr d n [x; y].
Proof.
  intro h. unfold wr. cbn [length]. rewrite firstn_app, firstn_firstn, Nat.min_l, firstn_length, Nat.min_l by lia.
  replace (n - (n + 1))%nat with 0%nat by lia. cbn [firstn app]. rewrite app_nil_r. f_equal. f_equal.
  rewrite skipn_app, firstn_length, Nat.min_l, (skipn_all2 (firstn (n + 1) d)) by (rewrite ?firstn_length; lia).
  replace (n + 1 - (n + 1))%nat with 0%nat by lia. cbn [skipn app]. f_equal. f_equal. lia.
Qed.

Lemma u8_mod x : u8 x = x mod 256. Proof. reflexivity. Qed.
Lemma store4 d n a b c e : 0 <= a < 64 -> 0 <= b < 64 -> 0 <= c < 64 -> 0 <= e < 64 ->
  b64_store d n [a; b; c; e] = if (n + 3 <=? length d)%nat then Done (wr d n (unsext [a; b; c; e])) else Panic.
Proof.
  intros. unfold b64_store. cbn [length at_ nth Nat.eqb Nat.leb]. change (at_ [a; b; c; e] 0) with a. change (at_ [a; b; c; e] 1) with b. change (at_ [a; b; c; e] 2) with c. change (at_ [a; b; c; e] 3) with e.
  rewrite quad_val by lia. cbn [unsext]. destruct (Nat.leb_spec (n + 3) (length d)) as [h|h].
  - rewrite put_ok by lia. rewrite put_ok by (rewrite wr_len; cbn [length]; lia). rewrite put_ok by (rewrite !wr_len; cbn [length]; rewrite ?wr_len; cbn [length]; lia).
    rewrite wr3 by lia. rewrite !u8_mod, !Z.shiftr_div_pow2 by lia. reflexivity.
  - rewrite put_panic by lia. reflexivity.
Qed.
Lemma store3 d n a b c : 0 <= a < 64 -> 0 <= b < 64 -> 0 <= c < 64 -> (n + 2 <= length d)%nat ->
  b64_store d n [a; b; c] = Done (wr d n (unsext [a; b; c])).
Proof.
  intros. unfold b64_store. cbn [length Nat.eqb Nat.leb]. change (at_ [a; b; c] 0) with a. change (at_ [a; b; c] 1) with b. change (at_ [a; b; c] 2) with c. change (at_ [a; b; c] 3) with 0.
  rewrite quad_val by lia. cbn [unsext]. rewrite put_ok by lia. rewrite put_ok by (rewrite !wr_len; cbn [length]; rewrite ?wr_len; cbn [length]; lia).
  rewrite wr2 by lia. rewrite !u8_mod, !Z.shiftr_div_pow2, Z.add_0_r by lia. reflexivity.
Qed.
Lemma store2 d n a b : 0 <= a < 64 -> 0 <= b < 64 -> (n + 1 <= length d)%nat -> b64_store d n [a; b] = Done (wr d n (unsext [a; b])).
Proof.
  intros. unfold b64_store. cbn [length Nat.eqb Nat.leb]. change (at_ [a; b] 0) with a. change (at_ [a; b] 1) with b. change (at_ [a; b] 2) with 0. change (at_ [a; b] 3) with 0.
  rewrite quad_val by lia. cbn [unsext]. rewrite put_ok by lia. rewrite !u8_mod, !Z.shiftr_div_pow2, !Z.add_0_r by lia. reflexivity.
Qed.

Lemma decode_cons fuel d n src : src <> [] -> b64_decode (S fuel) d n src =
  match b64_collect [] src with
  | None => Fail (d, n)
  | Some (dbuf, src) =>
    match length dbuf with
    | O => Done (d, n)
    | S O => Fail (d, n)
    | S m => match b64_store d n dbuf with Panic => Panic | Fail d => Fail (d, n) | Done d => b64_decode fuel d (n + m) src end
    end
  end.
Proof. intro h. destruct src as [|c src]; [destruct (h eq_refl)|]. reflexivity. Qed.
Lemma decode_end fuel d n src : strip src = [] -> b64_decode (S fuel) d n src = Done (d, n).
Proof.
  intro hs. destruct (list_eq_dec Z.eq_dec src []) as [->|hne]; [reflexivity|]. rewrite decode_cons by exact hne.
  pose proof (collect_clean [] src ltac:(cbn; lia)) as HC. cbv zeta in HC. rewrite hs, firstn_nil in HC. cbn in HC.
  destruct HC as (q & hq & _). rewrite hq. reflexivity.
Qed.
(** the decoder, with room for [3 k + 2] more bytes *)
Lemma decode_spec k : forall fuel d n src, (length src < fuel)%nat -> (n + 3 * k + 2 = length d)%nat ->
  let s := strip src in
  if forallb b64_ok (firstn (4 * k + 4) s) then
    if (4 * k + 4 <=? length s)%nat then b64_decode fuel d n src = Panic
    else if Nat.eqb (length s mod 4) 1 then exists d' m, b64_decode fuel d n src = Fail (d', m) /\ length d' = length d
    else b64_decode fuel d n src = Done (wr d n (unsext (map sextet s)), (n + length (unsext (map sextet s)))%nat)
  else exists d' m, b64_decode fuel d n src = Fail (d', m) /\ length d' = length d.
Proof.
  induction k as [|k IH]; intros fuel d n src hf hn s.
  all: destruct fuel as [|fuel]; [lia|].
  all: destruct (list_eq_dec Z.eq_dec src []) as [Esrc|hne]; [subst src; unfold s; cbn; rewrite ?firstn_nil; cbn; rewrite wr_nil, Nat.add_0_r; reflexivity|].
  all: rewrite (decode_cons fuel d n src hne).
  all: pose proof (collect_clean [] src ltac:(cbn; lia)) as HC; cbv zeta in HC; cbn [length Nat.sub app] in HC; fold s in HC.
  - change (4 * 0 + 4)%nat with 4%nat. destruct (forallb b64_ok (firstn 4 s)) eqn:EV; [|rewrite HC; exists d, n; split; reflexivity].
    destruct HC as (src' & h1 & h2 & h3 & h4). specialize (h4 ltac:(lia) hne). rewrite h1.
    pose proof sextet_range as SR.
    destruct s as [|a [|b [|c [|e r]]]] eqn:Es; cbn [firstn map length Nat.leb Nat.eqb].
    + rewrite wr_nil, Nat.add_0_r. reflexivity.
    + exists d, n. split; reflexivity.
    + change (2 mod 4)%nat with 2%nat. cbn [Nat.eqb]. rewrite store2 by (try apply SR; lia). destruct fuel as [|fuel]; [lia|].
      rewrite (decode_end fuel _ _ src' h2). reflexivity.
    + change (3 mod 4)%nat with 3%nat. cbn [Nat.eqb]. rewrite store3 by (try apply SR; lia). destruct fuel as [|fuel]; [lia|].
      rewrite (decode_end fuel _ _ src' h2). reflexivity.
    + rewrite store4 by apply SR. rewrite (proj2 (Nat.leb_gt _ _)) by lia. reflexivity.
  - replace (4 * S k + 4)%nat with (4 + (4 * k + 4))%nat by lia.
    assert (SP : firstn (4 + (4 * k + 4)) s = firstn 4 s ++ firstn (4 * k + 4) (skipn 4 s)).
    { clear. destruct s as [|a [|b [|c [|e r]]]]; cbn; rewrite ?firstn_nil; reflexivity. }
    rewrite SP, forallb_app. clear SP. destruct (forallb b64_ok (firstn 4 s)) eqn:EV; cbn [andb]; [|rewrite HC; exists d, n; split; reflexivity].
    destruct HC as (src' & h1 & h2 & h3 & h4). specialize (h4 ltac:(lia) hne). rewrite h1.
    pose proof sextet_range as SR.
    destruct s as [|a [|b [|c [|e r]]]] eqn:Es; cbn [firstn map length skipn].
    + rewrite firstn_nil. cbn [forallb]. rewrite (proj2 (Nat.leb_gt _ _)) by (cbn; lia). cbn. rewrite wr_nil, Nat.add_0_r. reflexivity.
    + rewrite firstn_nil. cbn [forallb]. rewrite (proj2 (Nat.leb_gt _ _)) by (cbn; lia). cbn. exists d, n. split; reflexivity.
    + rewrite firstn_nil. cbn [forallb]. rewrite (proj2 (Nat.leb_gt _ _)) by (cbn; lia). change (2 mod 4)%nat with 2%nat. cbn [Nat.eqb].
      rewrite store2 by (try apply SR; lia). destruct fuel as [|fuel]; [lia|].
      rewrite (decode_end fuel _ _ src' h2). reflexivity.
    + rewrite firstn_nil. cbn [forallb]. rewrite (proj2 (Nat.leb_gt _ _)) by (cbn; lia). change (3 mod 4)%nat with 3%nat. cbn [Nat.eqb].
      rewrite store3 by (try apply SR; lia). destruct fuel as [|fuel]; [lia|].
      rewrite (decode_end fuel _ _ src' h2). reflexivity.
    + rewrite store4 by apply SR. rewrite (proj2 (Nat.leb_le (n + 3) (length d))) by lia.
      set (w := unsext [sextet a; sextet b; sextet c; sextet e]). assert (lw : length w = 3%nat) by reflexivity.
      assert (hs : strip src' = r) by exact h2.
      specialize (IH fuel (wr d n w) (n + 3)%nat src' ltac:(lia)). rewrite wr_len in IH by lia. specialize (IH ltac:(lia)). cbv zeta in IH. rewrite hs in IH.
      destruct (forallb b64_ok (firstn (4 * k + 4) r)); [|exact IH].
      change (4 + (4 * k + 4) <=? S (S (S (S (length r)))))%nat with (4 * k + 4 <=? length r)%nat.
      destruct (4 * k + 4 <=? length r)%nat eqn:EL; [exact IH|].
      replace (S (S (S (S (length r)))) mod 4)%nat with (length r mod 4)%nat.
      2:{ replace (S (S (S (S (length r))))) with (length r + 1 * 4)%nat by lia. rewrite Nat.mod_add by lia. reflexivity. }
      destruct (Nat.eqb (length r mod 4) 1); [exact IH|]. rewrite IH. 
      assert (LU : forall l, (length (unsext l) * 4 <= length l * 3)%nat).
      { clear. fix F 1. intros [|x [|y [|z [|t l]]]]; cbn [unsext length]; try lia. specialize (F l). lia. }
      change (unsext (sextet a :: sextet b :: sextet c :: sextet e :: map sextet r)) with (w ++ unsext (map sextet r)).
      rewrite <- lw at 1. rewrite wr_wr.
      * rewrite app_length, lw. rewrite Nat.add_assoc. reflexivity.
      * rewrite lw. specialize (LU (map sextet r)). rewrite map_length in LU. apply Nat.leb_gt in EL. lia.
Qed.

(** all of a 32-byte buffer *)
Definition text_long (txt : list Z) : Prop := (44 <= length (strip txt))%nat /\ forallb b64_ok (firstn 44 (strip txt)) = true.
Definition text_43 (txt : list Z) : Prop := length (strip txt) = 43%nat /\ forallb b64_ok (strip txt) = true.

Lemma unsext_len l : length (unsext l) = (length l * 3 / 4)%nat.
Proof.
  revert l. fix F 1. intros [|x [|y [|z [|t l]]]]; try reflexivity. cbn [unsext length]. rewrite (F l).
  replace (S (S (S (S (length l)))) * 3)%nat with (length l * 3 + 3 * 4)%nat by lia. rewrite Nat.div_add by lia. lia.
Qed.

Lemma buf_panic dst txt : length dst = 32%nat -> (b64_to_buf dst txt = Panic <-> text_long txt).
Proof.
  intro hd. pose proof (decode_spec 10 (S (length txt)) dst 0 txt ltac:(lia) ltac:(lia)) as D. cbv zeta in D. change (4 * 10 + 4)%nat with 44%nat in D.
  unfold b64_to_buf, b64_Decode, text_long. destruct (forallb b64_ok (firstn 44 (strip txt))).
  - destruct (Nat.leb_spec 44 (length (strip txt))) as [h|h]; [rewrite D; split; [intros _; split; [exact h | reflexivity] | reflexivity]|].
    destruct (Nat.eqb (length (strip txt) mod 4) 1).
    + destruct D as (d' & m & D & _). rewrite D. split; [discriminate | lia].
    + rewrite D. destruct (negb _); split; try discriminate; lia.
  - destruct D as (d' & m & D & _). rewrite D. split; [discriminate | intros [_ h]; discriminate h].
Qed.
Lemma buf_done dst txt d : length dst = 32%nat -> (b64_to_buf dst txt = Done d <-> text_43 txt /\ d = unsext (map sextet (strip txt))).
Proof.
  intro hd. pose proof (decode_spec 10 (S (length txt)) dst 0 txt ltac:(lia) ltac:(lia)) as D. cbv zeta in D. change (4 * 10 + 4)%nat with 44%nat in D.
  unfold b64_to_buf, b64_Decode, text_43. pose proof (unsext_len (map sextet (strip txt))) as LU. rewrite map_length in LU.
  destruct (forallb b64_ok (firstn 44 (strip txt))) eqn:EV.
  - destruct (Nat.leb_spec 44 (length (strip txt))) as [h|h]; [rewrite D; split; [discriminate | lia]|].
    rewrite firstn_all2 in EV by lia. destruct (Nat.eqb_spec (length (strip txt) mod 4) 1) as [e1|n1].
    + destruct D as (d' & m & D & _). rewrite D. split; [discriminate|]. intros ((h1 & _) & _). rewrite h1 in e1. discriminate e1.
    + rewrite D. rewrite Nat.add_0_l. destruct (Nat.eqb_spec (length (unsext (map sextet (strip txt)))) 32) as [e|n]; cbn [negb].
      * assert (W : wr dst 0 (unsext (map sextet (strip txt))) = unsext (map sextet (strip txt))).
        { unfold wr. cbn [firstn app]. rewrite skipn_all2 by lia. apply app_nil_r. }
        rewrite W. split.
        -- intro h1. assert (e2 : unsext (map sextet (strip txt)) = d) by congruence. split; [|symmetry; exact e2]. split; [|exact EV].
           rewrite e in LU. symmetry in LU. pose proof (Nat.div_mod (length (strip txt) * 3) 4 ltac:(lia)) as DM. rewrite LU in DM.
           pose proof (Nat.mod_upper_bound (length (strip txt) * 3) 4 ltac:(lia)). lia.
        -- intros [_ ->]. reflexivity.
      * split; [discriminate|]. intros ((h1 & _) & _). rewrite h1 in LU. destruct (n LU).
  - destruct D as (d' & m & D & _). rewrite D. split; [discriminate|]. intros ((h1 & h2) & _). rewrite firstn_all2, h2 in EV by lia. discriminate EV.
Qed.

(** ** encoding *)
Lemma char_val v : 0 <= v < 64 -> b64_val (b64_char v) = Some v.
Proof.
  intro h. assert (T : forallb (fun n => match b64_val (b64_char (Z.of_nat n)) with Some w => w =? Z.of_nat n | None => false end) (seq 0 64) = true) by reflexivity.
  rewrite forallb_forall in T. specialize (T (Z.to_nat v) ltac:(apply in_seq; lia)). rewrite Z2Nat.id in T by lia.
  destruct (b64_val (b64_char v)) as [w|]; [|discriminate T]. apply Z.eqb_eq in T. f_equal. exact T.
Qed.
Lemma char_clean v : 0 <= v < 64 -> not_crlf (b64_char v) = true.
Proof.
  intro h. destruct (not_crlf (b64_char v)) eqn:E; [reflexivity|]. apply crlf_not_ok in E. rewrite char_val in E by lia. discriminate E.
Qed.
Lemma land63 x k : 0 <= k -> Z.land (Z.shiftr x k) 63 = x / 2 ^ k mod 64.
Proof. intro. change 63 with (Z.ones 6). rewrite Z.land_ones, Z.shiftr_div_pow2 by lia. reflexivity. Qed.
Lemma land63' x : Z.land x 63 = x mod 64.
Proof. change 63 with (Z.ones 6). rewrite Z.land_ones by lia. reflexivity. Qed.
Lemma triple_val a b c : is_byte a -> is_byte b -> is_byte c ->
  Z.lor (Z.lor (Z.shiftl a 16) (Z.shiftl b 8)) c = a * 2 ^ 16 + b * 2 ^ 8 + c.
Proof.
  unfold is_byte. intros. assert (eb : Z.shiftl b 8 = b * 256) by (rewrite Z.shiftl_mul_pow2 by lia; reflexivity).
  rewrite (lor_add a (Z.shiftl b 8) 16) by lia.
  replace (a * 2 ^ 16 + Z.shiftl b 8) with (Z.shiftl (a * 256 + b) 8) by (rewrite Z.shiftl_mul_pow2 by lia; lia).
  rewrite lor_add by lia. lia.
Qed.
Lemma clean_cons v l : 0 <= v < 64 -> strip (b64_char v :: l) = b64_char v :: strip l.
Proof. intro h. unfold strip. cbn [filter]. rewrite char_clean by exact h. reflexivity. Qed.
Lemma sextet_char v : 0 <= v < 64 -> sextet (b64_char v) = v.
Proof. intro h. unfold sextet. rewrite char_val by exact h. reflexivity. Qed.
Lemma ok_char v : 0 <= v < 64 -> b64_ok (b64_char v) = true.
Proof. intro h. unfold b64_ok. rewrite char_val by exact h. reflexivity. Qed.

Lemma encode_clean : forall l, Forall is_byte l ->
  strip (b64_encode l) = b64_encode l /\ forallb b64_ok (b64_encode l) = true /\ unsext (map sextet (b64_encode l)) = l.
Proof.
  fix F 1. intros [|a [|b [|c l]]] h.
  - repeat split.
  - apply Forall_cons_iff in h. destruct h as [ha _]. unfold is_byte in ha. cbn [b64_encode]. rewrite !land63 by lia. rewrite Z.shiftl_mul_pow2 by lia.
    set (v := a * 2 ^ 16). assert (H0 : 0 <= v / 2 ^ 18 mod 64 < 64) by (apply Z.mod_pos_bound; lia). assert (H1 : 0 <= v / 2 ^ 12 mod 64 < 64) by (apply Z.mod_pos_bound; lia).
    rewrite !clean_cons by assumption. cbn [map forallb]. rewrite !sextet_char, !ok_char by assumption. refine (conj eq_refl (conj eq_refl _)).
    cbn [unsext]. f_equal. unfold v. clear - ha. Z.div_mod_to_equations. lia.
  - apply Forall_cons_iff in h. destruct h as [ha h]. apply Forall_cons_iff in h. destruct h as [hb _]. cbn [b64_encode]. rewrite !land63 by lia.
    replace (Z.lor (Z.shiftl a 16) (Z.shiftl b 8)) with (a * 2 ^ 16 + b * 2 ^ 8 + 0) by (rewrite <- triple_val by (assumption || (unfold is_byte; lia)); apply Z.lor_0_r).
    unfold is_byte in ha, hb. set (v := a * 2 ^ 16 + b * 2 ^ 8 + 0). assert (H0 : 0 <= v / 2 ^ 18 mod 64 < 64) by (apply Z.mod_pos_bound; lia). assert (H1 : 0 <= v / 2 ^ 12 mod 64 < 64) by (apply Z.mod_pos_bound; lia).
    assert (H2 : 0 <= v / 2 ^ 6 mod 64 < 64) by (apply Z.mod_pos_bound; lia).
    rewrite !clean_cons by assumption. cbn [map forallb]. rewrite !sextet_char, !ok_char by assumption. refine (conj eq_refl (conj eq_refl _)).
    cbn [unsext]. assert (E : v / 2 ^ 18 mod 64 * 2 ^ 18 + v / 2 ^ 12 mod 64 * 2 ^ 12 + v / 2 ^ 6 mod 64 * 2 ^ 6 = v) by (unfold v; clear - ha hb; Z.div_mod_to_equations; lia).
    rewrite E. unfold v. f_equal; [|f_equal]; clear - ha hb; Z.div_mod_to_equations; lia.
  - apply Forall_cons_iff in h. destruct h as [ha h]. apply Forall_cons_iff in h. destruct h as [hb h]. apply Forall_cons_iff in h. destruct h as [hc hl].
    specialize (F l hl). destruct F as (F1 & F2 & F3). cbn [b64_encode]. rewrite !land63, land63' by lia. rewrite triple_val by assumption.
    unfold is_byte in ha, hb, hc. set (v := a * 2 ^ 16 + b * 2 ^ 8 + c). assert (H0 : 0 <= v / 2 ^ 18 mod 64 < 64) by (apply Z.mod_pos_bound; lia). assert (H1 : 0 <= v / 2 ^ 12 mod 64 < 64) by (apply Z.mod_pos_bound; lia).
    assert (H2 : 0 <= v / 2 ^ 6 mod 64 < 64) by (apply Z.mod_pos_bound; lia). assert (H3 : 0 <= v mod 64 < 64) by (apply Z.mod_pos_bound; lia).
    rewrite !clean_cons by assumption. cbn [map forallb]. rewrite !sextet_char, !ok_char by assumption. rewrite F1, F2. refine (conj eq_refl (conj eq_refl _)).
    cbn [unsext]. rewrite F3.
    assert (E : v / 2 ^ 18 mod 64 * 2 ^ 18 + v / 2 ^ 12 mod 64 * 2 ^ 12 + v / 2 ^ 6 mod 64 * 2 ^ 6 + v mod 64 = v) by (unfold v; clear - ha hb hc; Z.div_mod_to_equations; lia).
    rewrite E. unfold v. f_equal; [|f_equal; [|f_equal]]; clear - ha hb hc; Z.div_mod_to_equations; lia.
Qed.
Lemma encode_len l : length (b64_encode l) = ((length l * 4 + 2) / 3)%nat.
Proof.
  revert l. fix F 1. intros [|x [|y [|z l]]]; try reflexivity. cbn [b64_encode length]. rewrite (F l).
  replace (S (S (S (length l))) * 4 + 2)%nat with (length l * 4 + 2 + 4 * 3)%nat by lia. rewrite Nat.div_add by lia. lia.
Qed.
Lemma encode_roundtrip dst b : length dst = 32%nat -> bytes 32 b -> b64_to_buf dst (b64_encode b) = Done b /\ length (b64_encode b) = 43%nat.
Proof.
  intros hd [hl hb]. destruct (encode_clean b hb) as (h1 & h2 & h3). pose proof (encode_len b) as L. rewrite hl in L. change ((32 * 4 + 2) / 3)%nat with 43%nat in L.
  split; [|exact L]. apply (buf_done dst _ b hd). rewrite h1, h3. refine (conj (conj _ _) eq_refl); [rewrite h1; exact L | rewrite h1; exact h2].
Qed.

(** ** hex *)
Definition hex_ok (c : Z) : bool := match hex_val c with Some _ => true | None => false end.
(** a hexadecimal digit, in lower or upper case *)
Definition hex_char (up : bool) (v : Z) : Z := if v <? 10 then 48 + v else if up then 55 + v else 87 + v.
Fixpoint hex_encode (up : bool) (l : list Z) : list Z :=
  match l with [] => [] | b :: l => hex_char up (b / 16) :: hex_char up (b mod 16) :: hex_encode up l end.
Lemma hex_char_val up v : 0 <= v < 16 -> hex_val (hex_char up v) = Some v.
Proof.
  intro h. assert (C : v = 0 \/ v = 1 \/ v = 2 \/ v = 3 \/ v = 4 \/ v = 5 \/ v = 6 \/ v = 7 \/ v = 8 \/ v = 9 \/ v = 10 \/ v = 11 \/ v = 12 \/ v = 13 \/ v = 14 \/ v = 15) by lia.
  destruct up; repeat (destruct C as [-> | C]; [reflexivity|]); rewrite C; reflexivity.
Qed.
Lemma hex_val_range c v : hex_val c = Some v -> 0 <= v < 16.
Proof.
  unfold hex_val. destruct ((48 <=? c) && (c <=? 57))%bool eqn:E1; [apply andb_prop in E1; intro h; assert (c - 48 = v) by congruence; lia|].
  destruct ((97 <=? c) && (c <=? 102))%bool eqn:E2; [apply andb_prop in E2; intro h; assert (c - 87 = v) by congruence; lia|].
  destruct ((65 <=? c) && (c <=? 70))%bool eqn:E3; [apply andb_prop in E3; intro h; assert (c - 55 = v) by congruence; lia | discriminate].
Qed.
(** the bytes of a hexadecimal text *)
Fixpoint unhex (l : list Z) : list Z :=
  match l with
  | p :: q :: l => match hex_val p, hex_val q with Some a, Some b => 16 * a + b :: unhex l | _, _ => [] end
  | _ => []
  end.
Lemma hex_spec k : forall dst i src, (i + k = length dst)%nat -> length src = (2 * k)%nat ->
  if forallb hex_ok src then hex_decode dst i src = Done (wr dst i (unhex src), (i + k)%nat) /\ length (unhex src) = k
  else exists d m, hex_decode dst i src = Fail (d, m) /\ length d = length dst.
Proof.
  induction k as [|k IH]; intros dst i src hi hs.
  - destruct src; [|discriminate hs]. cbn. rewrite wr_nil, Nat.add_0_r. split; reflexivity.
  - destruct src as [|p [|q src]]; cbn [length] in hs; try lia. cbn [forallb hex_decode unhex]. unfold hex_ok at 1 2.
    destruct (hex_val p) as [a|] eqn:Ea; [|cbn [andb]; exists dst, i; split; reflexivity].
    destruct (hex_val q) as [b|] eqn:Eb; [|cbn [andb]; exists dst, i; split; reflexivity]. cbn [andb].
    apply hex_val_range in Ea, Eb. rewrite (proj2 (Nat.ltb_lt i (length dst))) by lia.
    assert (E : Z.lor (u8 (Z.shiftl a 4)) b = 16 * a + b).
    { rewrite u8_mod, Z.mod_small by (rewrite Z.shiftl_mul_pow2 by lia; lia). rewrite lor_add by lia. lia. }
    rewrite E, upd_wr by lia. specialize (IH (wr dst i [16 * a + b]) (S i) src). rewrite wr_len in IH by (cbn [length]; lia).
    specialize (IH ltac:(lia) ltac:(lia)). destruct (forallb hex_ok src); [|exact IH]. destruct IH as [h1 h2]. rewrite h1. cbn [length]. split; [|lia].
    f_equal. f_equal; [|lia]. replace (S i) with (i + length [(16 * a + b)%Z])%nat by (cbn [length]; lia). rewrite wr_wr by (cbn [length]; lia). reflexivity.
Qed.
Definition text_hex (txt : list Z) : Prop := length txt = 64%nat /\ forallb hex_ok txt = true.
Lemma hex_encode_ok up b : Forall is_byte b -> length (hex_encode up b) = (2 * length b)%nat /\ forallb hex_ok (hex_encode up b) = true /\ unhex (hex_encode up b) = b.
Proof.
  induction b as [|x b IH]; intro h; [repeat split|]. apply Forall_cons_iff in h. destruct h as [hx hb]. unfold is_byte in hx. destruct (IH hb) as (h1 & h2 & h3).
  cbn [hex_encode length forallb unhex]. unfold hex_ok at 1 2.
  assert (H0 : 0 <= x / 16 < 16) by (split; [apply Z.div_pos; lia | apply Z.div_lt_upper_bound; lia]).
  assert (H1 : 0 <= x mod 16 < 16) by (apply Z.mod_pos_bound; lia).
  rewrite !hex_char_val by assumption. cbn [andb]. rewrite h2, h3, h1. refine (conj _ (conj eq_refl _)); [lia|]. f_equal. symmetry. apply Z.div_mod. lia.
Qed.

(** ** textToBuf *)
Lemma textToBuf_cases dst txt : length dst = 32%nat ->
  (text_hex txt /\ textToBuf dst txt = Done (unhex txt)) \/
  (~ text_hex txt /\ exists d, length d = 32%nat /\ textToBuf dst txt = b64_to_buf d txt).
Proof.
  intro hd. unfold textToBuf, text_hex. destruct (Nat.eqb_spec (length txt) 64) as [e|n].
  - pose proof (hex_spec 32 dst 0 txt ltac:(lia) ltac:(lia)) as H. unfold hex_Decode. destruct (forallb hex_ok txt).
    + left. destruct H as [h1 h2]. rewrite h1. split; [split; [exact e | reflexivity]|]. change (Nat.eqb (0 + 32) 32) with true. cbv iota. f_equal.
      unfold wr. rewrite h2, skipn_all2 by lia. cbn [firstn app]. apply app_nil_r.
    + right. destruct H as (d & m & h1 & h2). rewrite h1. split; [intros [_ h]; discriminate h|]. exists d. split; [lia | reflexivity].
  - right. split; [intros [h _]; destruct (n h)|]. exists dst. split; [exact hd | reflexivity].
Qed.
Lemma text_panic dst txt : length dst = 32%nat -> (textToBuf dst txt = Panic <-> ~ text_hex txt /\ text_long txt).
Proof.
  intro hd. destruct (textToBuf_cases dst txt hd) as [[h1 h2]|[h1 (d & h2 & h3)]].
  - rewrite h2. split; [discriminate | intros [h _]; destruct (h h1)].
  - rewrite h3, (buf_panic d txt h2). split; [intro h; split; [exact h1 | exact h] | intros [_ h]; exact h].
Qed.
Lemma text_done dst txt b : length dst = 32%nat ->
  (textToBuf dst txt = Done b <-> (text_hex txt /\ b = unhex txt) \/ (~ text_hex txt /\ text_43 txt /\ b = unsext (map sextet (strip txt)))).
Proof.
  intro hd. destruct (textToBuf_cases dst txt hd) as [[h1 h2]|[h1 (d & h2 & h3)]].
  - rewrite h2. split; [intro h; left; split; [exact h1 | congruence]|]. intros [[_ ->]|[h _]]; [reflexivity | destruct (h h1)].
  - rewrite h3, (buf_done d txt b h2). split; [intro h; right; split; [exact h1 | exact h]|]. intros [[h _]|[_ h]]; [destruct (h1 h) | exact h].
Qed.
Lemma unsext_bytes : forall l, Forall is_byte (unsext l).
Proof.
  assert (M : forall x, is_byte (x mod 256)) by (intro x; unfold is_byte; apply Z.mod_pos_bound; lia).
  fix F 1. intros [|x [|y [|z [|t l]]]]; cbn [unsext]; repeat (apply Forall_cons; [apply M|]); try apply Forall_nil. apply F.
Qed.
Lemma unhex_bytes : forall l, Forall is_byte (unhex l).
Proof.
  fix F 1. intros [|x [|y l]]; cbn [unhex]; try apply Forall_nil. destruct (hex_val x) as [a|] eqn:Ea; [|apply Forall_nil]. destruct (hex_val y) as [b|] eqn:Eb; [|apply Forall_nil].
  apply hex_val_range in Ea, Eb. apply Forall_cons; [unfold is_byte; lia | apply F].
Qed.
Lemma text_done_bytes dst txt b : length dst = 32%nat -> textToBuf dst txt = Done b -> bytes 32 b.
Proof.
  intros hd h. apply (text_done dst txt b hd) in h. destruct h as [[[hl ho] ->]|[_ [[hl ho] ->]]].
  - pose proof (hex_spec 32 dst 0 txt ltac:(lia) ltac:(lia)) as H. rewrite ho in H. split; [apply H | apply unhex_bytes].
  - split; [rewrite unsext_len, map_length, hl; reflexivity | apply unsext_bytes].
Qed.
Lemma buf_done_bytes dst txt b : length dst = 32%nat -> b64_to_buf dst txt = Done b -> bytes 32 b.
Proof.
  intros hd h. apply (buf_done dst txt b hd) in h. destruct h as [[hl ho] ->].
  split; [rewrite unsext_len, map_length, hl; reflexivity | apply unsext_bytes].
Qed.
