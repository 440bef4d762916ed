(** The String methods determine their receivers; the El'Gamal example. *)
From Coq Require Import ZArith Znumtheory List Lia Bool String Ascii.
From Verif Require Import Words Primes Fp Edwards GroupOrder RistrettoSpec FieldModel CurveModel FieldLaws FieldFacts
  CurveProofs EncodeProofs ScalarCode ScalarModel ScalarReduce ScalarSub ScalarFacts TextCodec TextProofs RistrettoModel RistrettoFacts Backends BackendsMore BijFacts StringModel.
From Verif Require Points51 Text51.
Import ListNotations.
Open Scope Z_scope.

(** the number written in decimal *)
Definition number (ds : list Z) : Z := fold_left (fun n c => 10 * n + (c - 48)) ds 0.
Definition digit (c : Z) : Prop := 48 <= c <= 57.

Lemma go_number fuel : forall x acc, 0 <= x < 10 ^ Z.of_nat (S fuel) ->
  fold_left (fun n c => 10 * n + (c - 48)) (decimal_go (S fuel) x acc) 0 = fold_left (fun n c => 10 * n + (c - 48)) acc x.
Proof.
  induction fuel as [|f IH]; intros x acc hx.
  - cbn [decimal_go]. change (10 ^ Z.of_nat 1) with 10 in hx. replace (x <? 10) with true by (symmetry; apply Z.ltb_lt; lia). cbn [fold_left].
    f_equal. rewrite Z.mod_small by lia. lia.
  - change (decimal_go (S (S f)) x acc) with (if x <? 10 then (48 + x mod 10) :: acc else decimal_go (S f) (x / 10) ((48 + x mod 10) :: acc)).
    destruct (Z.ltb_spec x 10) as [h|h].
    + cbn [fold_left]. f_equal. rewrite Z.mod_small by lia. lia.
    + rewrite IH.
      * cbn [fold_left]. f_equal. pose proof (Z.div_mod x 10). lia.
      * split; [apply Z.div_pos; lia|]. apply Z.div_lt_upper_bound; [lia|].
        rewrite (Nat2Z.inj_succ (S f)), Z.pow_succ_r in hx by lia. lia.
Qed.
Lemma go_digits fuel : forall x acc, 0 <= x -> Forall digit acc -> Forall digit (decimal_go fuel x acc).
Proof.
  induction fuel as [|f IH]; intros x acc hx ha; [exact ha|]. cbn [decimal_go].
  assert (h : Forall digit ((48 + x mod 10) :: acc)) by (constructor; [unfold digit; pose proof (Z.mod_pos_bound x 10); lia | exact ha]).
  destruct (x <? 10); [exact h|]. apply IH; [apply Z.div_pos; lia | exact h].
Qed.
Lemma go_first fuel : forall x acc, 0 < x < 10 ^ Z.of_nat (S fuel) -> exists c r, decimal_go (S fuel) x acc = c :: r /\ c <> 48.
Proof.
  induction fuel as [|f IH]; intros x acc hx.
  - cbn [decimal_go]. change (10 ^ Z.of_nat 1) with 10 in hx. replace (x <? 10) with true by (symmetry; apply Z.ltb_lt; lia).
    eexists. eexists. split; [reflexivity|]. rewrite Z.mod_small by lia. lia.
  - change (decimal_go (S (S f)) x acc) with (if x <? 10 then (48 + x mod 10) :: acc else decimal_go (S f) (x / 10) ((48 + x mod 10) :: acc)).
    destruct (Z.ltb_spec x 10) as [h|h].
    + eexists. eexists. split; [reflexivity|]. rewrite Z.mod_small by lia. lia.
    + apply IH. split; [pose proof (Z.div_le_lower_bound x 10 1); lia|]. apply Z.div_lt_upper_bound; [lia|].
      rewrite (Nat2Z.inj_succ (S f)), Z.pow_succ_r in hx by lia. lia.
Qed.
Lemma big10 x : 0 <= x < p -> x < 10 ^ Z.of_nat 80.
Proof. intro h. apply (Z.lt_trans _ p); [lia|]. vm_compute. reflexivity. Qed.

Lemma decimal_ok x : 0 <= x < p -> number (decimal x) = x /\ Forall digit (decimal x) /\
  ((x = 0 /\ decimal x = [48]) \/ exists c r, decimal x = c :: r /\ c <> 48).
Proof.
  intro h. pose proof (big10 x h) as h2. unfold decimal, number. refine (conj _ (conj _ _)).
  - rewrite (go_number 79 x []) by (change (S 79) with 80%nat; lia). reflexivity.
  - apply go_digits; [lia | constructor].
  - destruct (Z.eq_dec x 0) as [->|hx]; [left; split; reflexivity|]. right. apply (go_first 79). change (S 79) with 80%nat. lia.
Qed.
Lemma decimal_inj x y : 0 <= x < p -> 0 <= y < p -> decimal x = decimal y -> x = y.
Proof. intros hx hy e. destruct (decimal_ok x hx) as [<- _]. destruct (decimal_ok y hy) as [<- _]. rewrite e. reflexivity. Qed.

Lemma hex_ok16 v : 0 <= v < 16 -> at_ hextable (Z.to_nat v) = hex_char false v.
Proof.
  intro h. assert (C : v = 0 \/ v = 1 \/ v = 2 \/ v = 3 \/ v = 4 \/ v = 5 \/ v = 6 \/ v = 7 \/ v = 8 \/ v = 9 \/ v = 10 \/ v = 11 \/ v = 12 \/ v = 13 \/ v = 14 \/ v = 15) by lia.
  repeat (destruct C as [-> | C]; [reflexivity|]); rewrite C; reflexivity.
Qed.
Lemma hex_ok_all bs : Forall (fun x => 0 <= x < 256) bs -> hex_EncodeToString bs = hex_encode false bs.
Proof.
  induction 1 as [|v r hv hr IH]; [reflexivity|].
  change (hex_EncodeToString (v :: r)) with (at_ hextable (Z.to_nat (Z.shiftr v 4)) :: at_ hextable (Z.to_nat (Z.land v 15)) :: hex_EncodeToString r).
  cbn [hex_encode]. rewrite IH. rewrite Z.shiftr_div_pow2 by lia. change 15 with (Z.ones 4). rewrite Z.land_ones by lia. change (2 ^ 4) with 16.
  rewrite !hex_ok16; [reflexivity | apply Z.mod_pos_bound; lia | split; [apply Z.div_pos; lia | apply Z.div_lt_upper_bound; lia]].
Qed.

(** splitting at the first character that is not a digit *)
Lemma split_digits a b c r r' : Forall digit a -> Forall digit b -> ~ digit c -> a ++ c :: r = b ++ c :: r' -> a = b /\ r = r'.
Proof.
  intros ha; revert b. induction ha as [|x a hx ha IH]; intros b hb hc e.
  - destruct hb as [|y b hy hb]; cbn [app] in e.
    + split; [reflexivity|]. apply (f_equal (@tl Z)) in e. exact e.
    + apply (f_equal (fun u => hd 0 u)) in e. cbn [hd] in e. subst y. destruct (hc hy).
  - destruct hb as [|y b hy hb]; cbn [app] in e.
    + apply (f_equal (fun u => hd 0 u)) in e. cbn [hd] in e. subst x. destruct (hc hx).
    + pose proof (f_equal (fun u => hd 0 u) e) as e1. pose proof (f_equal (@tl Z) e) as e2. cbn [hd tl] in e1, e2. subst y.
      destruct (IH b hb hc e2) as [-> ->]. split; reflexivity.
Qed.

Lemma s_fe b x : limbs b 3 x -> fe_String (ops b) x = decimal (value b x mod p).
Proof.
  intro h. destruct (fe_BigInt_ok (laws b) 3 x _ (rel_elt b 3 x h) (cL3 b)) as (x' & e & _). unfold fe_String. rewrite e. cbn [fst]. unfold elt.
  rewrite fval_of_Z. reflexivity.
Qed.
Lemma val_rng x : 0 <= x mod p < p.
Proof. apply Z.mod_pos_bound. vm_compute. reflexivity. Qed.
Lemma s_fe_digits b x : limbs b 3 x -> Forall digit (fe_String (ops b) x).
Proof. intro h. rewrite (s_fe b x h). apply decimal_ok, val_rng. Qed.
Lemma s_fe_inj b c x y : limbs b 3 x -> limbs c 3 y -> (fe_String (ops b) x = fe_String (ops c) y <-> elt b x = elt c y).
Proof.
  intros hx hy. rewrite (s_fe b x hx), (s_fe c y hy). unfold elt. split; intro e.
  - apply F_eq. rewrite !fval_of_Z. apply decimal_inj; [apply val_rng | apply val_rng | exact e].
  - apply (f_equal fval) in e. rewrite !fval_of_Z in e. rewrite e. reflexivity.
Qed.

Lemma limbs_le b n m x : limbs b n x -> n <= m -> limbs b m x.
Proof. intros h hm. pose proof (rel_le _ (laws b) n m x _ hm (rel_elt b n x h)) as h2. apply rel_iff in h2. exact (proj1 h2). Qed.
Lemma pt_limbs b P A : point b P A -> limbs b 3 (eX P) /\ limbs b 3 (eY P) /\ limbs b 3 (eZ P) /\ limbs b 3 (eT P).
Proof.
  intros [((h1 & h2 & h3 & h4) & _) _]. refine (conj _ (conj _ (conj _ _))); [exact (limbs_le b 2 3 _ h1 ltac:(lia)) | exact (limbs_le b 2 3 _ h2 ltac:(lia)) | | exact (limbs_le b 2 3 _ h4 ltac:(lia))].
  destruct b; [exact (limbs_le PureGo64 2 3 _ h3 ltac:(lia)) | exact (limbs_le Amd64 1 3 _ h3 ltac:(lia)) | exact (limbs_le Generic 1 3 _ h3 ltac:(lia))].
Qed.
Lemma not_comma : ~ digit 44.
Proof. unfold digit. lia. Qed.
Lemma not_semi : ~ digit 59.
Proof. unfold digit. lia. Qed.
Lemma not_paren : ~ digit 41.
Proof. unfold digit. lia. Qed.

Lemma four_inj pre a1 a2 a3 a4 b1 b2 b3 b4 r r' : Forall digit a1 -> Forall digit a2 -> Forall digit a3 -> Forall digit a4 ->
  Forall digit b1 -> Forall digit b2 -> Forall digit b3 -> Forall digit b4 ->
  pre ++ a1 ++ codes ", " ++ a2 ++ codes ", " ++ a3 ++ codes ", " ++ a4 ++ codes "; " ++ r =
  pre ++ b1 ++ codes ", " ++ b2 ++ codes ", " ++ b3 ++ codes ", " ++ b4 ++ codes "; " ++ r' ->
  a1 = b1 /\ a2 = b2 /\ a3 = b3 /\ a4 = b4 /\ r = r'.
Proof.
  intros h1 h2 h3 h4 g1 g2 g3 g4 e. apply app_inv_head in e. change (codes ", ") with [44; 32] in e. change (codes "; ") with [59; 32] in e. cbn [app] in e.
  apply split_digits in e; [|assumption|assumption|exact not_comma]. destruct e as [e1 e]. apply (f_equal (@tl Z)) in e. cbn [tl] in e.
  apply split_digits in e; [|assumption|assumption|exact not_comma]. destruct e as [e2 e]. apply (f_equal (@tl Z)) in e. cbn [tl] in e.
  apply split_digits in e; [|assumption|assumption|exact not_comma]. destruct e as [e3 e]. apply (f_equal (@tl Z)) in e. cbn [tl] in e.
  apply split_digits in e; [|assumption|assumption|exact not_semi]. destruct e as [e4 e]. apply (f_equal (@tl Z)) in e. cbn [tl] in e.
  exact (conj e1 (conj e2 (conj e3 (conj e4 e)))).
Qed.

Lemma same_point b c P Q A B : point b P A -> point c Q B -> elt b (eX P) = elt c (eX Q) -> elt b (eY P) = elt c (eY Q) ->
  elt b (eZ P) = elt c (eZ Q) -> A = B.
Proof.
  intros [(_ & hz & h1 & h2 & _) _] [(_ & hw & g1 & g2 & _) _] e1 e2 e3. unfold elt in *. rewrite <- e3 in hw, g1, g2. rewrite <- e1 in g1. rewrite <- e2 in g2.
  apply E_eq.
  - apply (Fmul_cancel_l _ _ _ hz). transitivity (ex A * of_Z (value b (eZ P)))%F; [ring|]. rewrite <- h1, g1. ring.
  - apply (Fmul_cancel_l _ _ _ hz). transitivity (ey A * of_Z (value b (eZ P)))%F; [ring|]. rewrite <- h2, g2. ring.
Qed.
Lemma s_ep b c P Q A B : point b P A -> point c Q B -> (ep_String (ops b) P = ep_String (ops c) Q <->
  elt b (eX P) = elt c (eX Q) /\ elt b (eY P) = elt c (eY Q) /\ elt b (eZ P) = elt c (eZ Q) /\ elt b (eT P) = elt c (eT Q)).
Proof.
  intros hP hQ. destruct (pt_limbs b P A hP) as (h1 & h2 & h3 & h4). destruct (pt_limbs c Q B hQ) as (g1 & g2 & g3 & g4). unfold ep_String. split.
  - intro e. apply four_inj in e; try (apply s_fe_digits; assumption). destruct e as (e1 & e2 & e3 & e4 & _).
    rewrite <- !s_fe_inj by assumption. exact (conj e1 (conj e2 (conj e3 e4))).
  - intros (e1 & e2 & e3 & e4). pose proof (same_point b c P Q A B hP hQ e1 e2 e3) as eA. subst B.
    apply (s_fe_inj b c) in e1, e2, e3, e4; try assumption. rewrite e1, e2, e3, e4.
    pose proof (proj2 (same_enc b c P Q A A hP hQ) (Req_refl A)) as eb. unfold pt_Bytes in eb. rewrite eb. reflexivity.
Qed.
Lemma s_cp b c P Q : limbs b 3 (cX P) -> limbs b 3 (cY P) -> limbs b 3 (cZ P) -> limbs b 3 (cT P) ->
  limbs c 3 (cX Q) -> limbs c 3 (cY Q) -> limbs c 3 (cZ Q) -> limbs c 3 (cT Q) -> cp_String (ops b) P = cp_String (ops c) Q ->
  elt b (cX P) = elt c (cX Q) /\ elt b (cY P) = elt c (cY Q) /\ elt b (cZ P) = elt c (cZ Q) /\ elt b (cT P) = elt c (cT Q).
Proof.
  intros h1 h2 h3 h4 g1 g2 g3 g4 e. unfold cp_String in e. cbv zeta in e. apply four_inj in e; try (apply s_fe_digits; assumption).
  destruct e as (e1 & e2 & e3 & e4 & _). rewrite <- !s_fe_inj by assumption. exact (conj e1 (conj e2 (conj e3 e4))).
Qed.
(** completed coordinates: x = X/Z, y = Y/T *)
Definition completed (b : build) (C : compl (fe (ops b))) (A : E) : Prop :=
  (limbs b 3 (cX C) /\ limbs b 3 (cY C) /\ limbs b 3 (cZ C) /\ limbs b 3 (cT C)) /\ even A /\ elt b (cZ C) <> F0 /\ elt b (cT C) <> F0 /\
  elt b (cX C) = (ex A * elt b (cZ C))%F /\ elt b (cY C) = (ey A * elt b (cT C))%F.
Lemma cp_point b C A : completed b C A -> point b (ep_SetCompleted (ops b) C) A.
Proof.
  intros ((l1 & l2 & l3 & l4) & he & hz & ht & e1 & e2). apply pt_dpoint. refine (conj _ he). apply (rf_rd (laws b)), rpt_1, rct_ext.
  pose proof (cL_ge _ (laws b)) as hc. pose proof (cN_rng _ (laws b)) as hn. exists (elt b (cZ C)), (elt b (cT C)).
  refine (conj hz (conj ht (conj _ (conj _ (conj _ _))))); (eapply (rel_le _ (laws b) 3); [lia|]); apply rel_iff.
  - exact (conj l1 e1).
  - exact (conj l2 e2).
  - exact (conj l3 eq_refl).
  - exact (conj l4 eq_refl).
Qed.
Lemma hex_bytes b Q A : point b Q A -> hex_EncodeToString (ep_RistrettoInto (ops b) Q) = hex_encode false (pt_Bytes (ops b) Q).
Proof. intro h. apply hex_ok_all. exact (proj2 (proj1 (b_bytes b b Q Q A A h h))). Qed.
(** the five parts of the strings; the last is the encoding, also by another build *)
Lemma s_parts b c P A Q : point b P A -> point c Q A -> ep_String (ops b) P =
  (codes "ExtendedPoint(" ++ fe_String (ops b) (eX P) ++ codes ", " ++ fe_String (ops b) (eY P) ++ codes ", " ++ fe_String (ops b) (eZ P) ++
   codes ", " ++ fe_String (ops b) (eT P) ++ codes "; " ++ hex_encode false (pt_Bytes (ops c) Q) ++ codes ")")%list.
Proof.
  intros h g. unfold ep_String. rewrite (hex_bytes b P A h), (proj2 (same_enc b c P Q A A h g) (Req_refl A)). reflexivity.
Qed.
Lemma s_cparts b c P A Q : completed b P A -> point c Q A -> cp_String (ops b) P =
  (codes "CompletedPoint(" ++ fe_String (ops b) (cX P) ++ codes ", " ++ fe_String (ops b) (cY P) ++ codes ", " ++ fe_String (ops b) (cZ P) ++
   codes ", " ++ fe_String (ops b) (cT P) ++ codes "; " ++ hex_encode false (pt_Bytes (ops c) Q) ++ codes ")")%list.
Proof.
  intros h g. apply cp_point in h. unfold cp_String. cbv zeta. rewrite (hex_bytes b _ A h), (proj2 (same_enc b c _ Q A A h g) (Req_refl A)). reflexivity.
Qed.
Lemma completed_zero b : completed b (mkCompl (k_zero (ops b)) (k_one (ops b)) (k_one (ops b)) (k_one (ops b))) E0.
Proof.
  pose proof (law_zero _ (laws b)) as h0. pose proof (law_one _ (laws b)) as h1. apply rel_iff in h0, h1. destruct h0 as [b0 v0], h1 as [b1 v1].
  assert (c0 : limbs b 3 (k_zero (ops b))) by (apply (limbs_le b 1); [exact b0 | lia]).
  assert (c1 : limbs b 3 (k_one (ops b))) by (apply (limbs_le b 1); [exact b1 | lia]).
  unfold completed, elt. cbn [cX cY cZ cT]. rewrite v0, v1. refine (conj (conj c0 (conj c1 (conj c1 c1))) (conj _ (conj F1_neq_0 (conj F1_neq_0 (conj _ _))))).
  - exists E0. symmetry. apply Eadd_0_l.
  - change (ex E0) with F0. ring.
  - change (ey E0) with F1. ring.
Qed.
Lemma s_jc b c P Q : limbs b 3 (jS P) -> limbs b 3 (jT P) -> limbs c 3 (jS Q) -> limbs c 3 (jT Q) ->
  (jc_String (ops b) P = jc_String (ops c) Q <-> elt b (jS P) = elt c (jS Q) /\ elt b (jT P) = elt c (jT Q)).
Proof.
  intros h1 h2 g1 g2. unfold jc_String. rewrite <- !(s_fe_inj b c) by assumption. split.
  - intro e. apply app_inv_head in e. change (codes ", ") with [44; 32] in e. change (codes ")") with [41] in e. cbn [app] in e.
    apply split_digits in e; [|apply s_fe_digits; assumption|apply s_fe_digits; assumption|exact not_comma]. destruct e as [e1 e]. apply (f_equal (@tl Z)) in e. cbn [tl] in e.
    apply split_digits in e; [|apply s_fe_digits; assumption|apply s_fe_digits; assumption|exact not_paren]. exact (conj e1 (proj1 e)).
  - intros [-> ->]. reflexivity.
Qed.

Lemma b64_inj a c : bytes 32 a -> bytes 32 c -> b64_encode a = b64_encode c -> a = c.
Proof.
  intros ha hc e. destruct (encode_roundtrip (repeat 0 32) a Text51.len0 ha) as [e1 _]. destruct (encode_roundtrip (repeat 0 32) c Text51.len0 hc) as [e2 _].
  rewrite e, e2 in e1. apply (f_equal (fun o => match o with Done x => x | _ => [] end)) in e1. symmetry. exact e1.
Qed.
Lemma s_pt b c P Q A B : point b P A -> point c Q B -> List.length (pt_String (ops b) P) = 43%nat /\
  (pt_String (ops b) P = pt_String (ops c) Q <-> In (Eadd A (Eopp B)) [E0; T2; T4; T4']).
Proof.
  intros hP hQ. destruct (b_bytes b c P Q A B hP hQ) as [hb hi]. destruct (b_bytes c c Q Q B B hQ hQ) as [hc _].
  split; [exact (proj1 (b_text_roundtrip b b P A P false hP))|]. rewrite <- hi. unfold pt_String, pt_MarshalText. split; [apply b64_inj; assumption | intros ->; reflexivity].
Qed.
Lemma s_sc s t : reduced s -> reduced t -> (sc_String s = sc_String t <-> s = t).
Proof.
  intros hs ht. split; [|intros ->; reflexivity]. intro e. destruct (Text51.scalar_text_roundtrip s s hs) as [e1 _]. destruct (Text51.scalar_text_roundtrip t s ht) as [e2 _].
  unfold sc_String in e. rewrite e, e2 in e1. apply (f_equal (fun o => match o with Done x => x | _ => t end)) in e1. symmetry. exact e1.
Qed.

(** ** El'Gamal *)
Lemma g_encrypt b PK P A B r : summand b PK A -> summand b P B -> reduced r ->
  exists c1 c2, elgamal_encrypt (ops b) (baseTable b) PK P r = Some (c1, c2) /\ summand b c1 (Eadd (Emul (scv r) A) B) /\ summand b c2 (Emul (scv r) EBc).
Proof.
  intros hK hP hr. destruct (b_scalarMult b PK A r hK hr) as [_ (R & e & hR)]. unfold elgamal_encrypt. cbv zeta. rewrite e. eexists. eexists. split; [reflexivity|].
  split; [exact (proj1 (b_add b R P _ B (proj1 hR) hP))|]. rewrite EBc_eq. exact (proj1 (b_baseMult b r hr)).
Qed.
Lemma g_decrypt b c1 c2 A B C s : reduced s -> point b c1 C -> summand b c2 B -> Req C (Eadd (Emul (scv s) B) A) ->
  exists D, point b (elgamal_decrypt (ops b) c1 c2 s) D /\ Req D A.
Proof.
  intros hs h1 h2 e. unfold elgamal_decrypt. cbv zeta. destruct (b_scalarMult b c2 B s h2 hs) as [h3 _]. destruct (b_add b c1 _ C _ h1 h3) as [_ h4].
  eexists. split; [exact (proj1 h4)|]. apply (Req_trans _ (Eadd (Eadd (Emul (scv s) B) A) (Eopp (Emul (scv s) B)))); [apply Req_add; [exact e | apply Req_refl]|].
  rewrite (Eadd_comm (Emul (scv s) B) A), <- Eadd_assoc, Eadd_opp, Eadd_0_r. apply Req_refl.
Qed.
Lemma key_summand b s : reduced s -> summand b (elgamal_key (ops b) (baseTable b) s) (Emul (scv s) EBc).
Proof. intro hs. rewrite EBc_eq. exact (proj1 (b_baseMult b s hs)). Qed.
Lemma mask_comm s r B : Eadd (Emul r (Emul s EBc)) B = Eadd (Emul s (Emul r EBc)) B.
Proof. rewrite <- !Emul_mul, (Z.mul_comm r s). reflexivity. Qed.

Lemma g_roundtrip b s r P B : reduced s -> reduced r -> summand b P B ->
  exists c1 c2, elgamal_encrypt (ops b) (baseTable b) (elgamal_key (ops b) (baseTable b) s) P r = Some (c1, c2) /\
  pt_Bytes (ops b) (elgamal_decrypt (ops b) c1 c2 s) = pt_Bytes (ops b) P.
Proof.
  intros hs hr hP. destruct (g_encrypt b _ P _ B r (key_summand b s hs) hP hr) as (c1 & c2 & e & h1 & h2). exists c1, c2. split; [exact e|].
  destruct (g_decrypt b c1 c2 B _ _ s hs (proj1 h1) h2) as (D & hD & hR); [rewrite mask_comm; apply Req_refl|].
  apply (same_enc b b _ _ _ _ hD (proj1 hP)). exact hR.
Qed.
Lemma g_example b r1 r2 r3 : bytes 64 r1 -> bytes 32 r2 -> bytes 64 r3 -> elgamal_example (ops b) (baseTable b) r1 r2 r3 = Some true.
Proof.
  intros h1 h2 h3. destruct (setReduced_spec r1 h1) as [hs _]. destruct (setReduced_spec r3 h3) as [hr _]. destruct (b_elligator b r2 h2) as (A & hA & _).
  unfold elgamal_example. cbv zeta. destruct (g_roundtrip b (sc_rand r1) (sc_rand r3) (pt_Rand (ops b) r2) A hs hr hA) as (c1 & c2 & e & eb).
  rewrite e, eb. destruct (list_eq_dec Z.eq_dec _ _) as [_|n]; [reflexivity | destruct (n eq_refl)].
Qed.

(** the key, then the ciphertext, sent as bytes between two builds *)
Lemma g_sent b c s r P B : b <> Generic -> c <> Generic -> reduced s -> reduced r -> point b P B ->
  exists PK c1 c2 d1 d2, pt_SetBytes (ops b) (pt_Bytes (ops c) (elgamal_key (ops c) (baseTable c) s)) = (true, PK) /\
  elgamal_encrypt (ops b) (baseTable b) PK P r = Some (c1, c2) /\
  pt_SetBytes (ops c) (pt_Bytes (ops b) c1) = (true, d1) /\ pt_SetBytes (ops c) (pt_Bytes (ops b) c2) = (true, d2) /\
  pt_Bytes (ops c) (elgamal_decrypt (ops c) d1 d2 s) = pt_Bytes (ops b) P.
Proof.
  intros hb hc hs hr hP.
  destruct (b_roundtrip c b _ _ (proj1 (key_summand c s hs))) as (PK & A & e1 & hK & hA). apply Points51.Req_torsion in hA.
  destruct (g_encrypt b PK P A B r (b_summand64 b _ _ hb hK) (b_summand64 b _ _ hb hP) hr) as (c1 & c2 & e2 & h1 & h2).
  destruct (b_roundtrip b c c1 _ (proj1 h1)) as (d1 & C1 & e3 & g1 & f1). apply Points51.Req_torsion in f1.
  destruct (b_roundtrip b c c2 _ (proj1 h2)) as (d2 & C2 & e4 & g2 & f2). apply Points51.Req_torsion in f2.
  exists PK, c1, c2, d1, d2. refine (conj e1 (conj e2 (conj e3 (conj e4 _)))).
  destruct (g_decrypt c d1 d2 B C2 C1 s hs g1 (b_summand64 c _ _ hc g2)) as (D & hD & hR).
  { apply (Req_trans _ _ _ f1). apply Req_add; [|apply Req_refl].
    apply (Req_trans _ (Emul (scv r) (Emul (scv s) EBc))); [apply Req_mul; exact hA|]. rewrite <- Emul_mul, Z.mul_comm, Emul_mul. apply Req_mul, Req_sym. exact f2. }
  apply (same_enc c b _ _ _ _ hD hP). exact hR.
Qed.

Lemma s_field b x : limbs b 3 x -> number (fe_String (ops b) x) = value b x mod p /\ Forall digit (fe_String (ops b) x) /\
  ((value b x mod p = 0 /\ fe_String (ops b) x = codes "0") \/ exists c r, fe_String (ops b) x = c :: r /\ c <> 48).
Proof. intro h. rewrite (s_fe b x h). exact (decimal_ok _ (val_rng _)). Qed.
Lemma string_ex : fe_String (ops PureGo64) (k_minusOne Fe51Laws.R51) =
    codes "57896044618658097711785492504343953926634992332820282019728792003956564819948" /\ limbs PureGo64 3 (k_minusOne Fe51Laws.R51) /\
  fe_String (ops Generic) (k_zero (ops Generic)) = codes "0" /\ hex_EncodeToString [0; 10; 255] = codes "000aff" /\
  jc_String (ops Generic) (mkJac (k_one (ops Generic)) (k_zero (ops Generic))) = codes "JacobiPoint(1, 0)".
Proof.
  refine (conj _ (conj _ (conj _ (conj _ _)))); try (vm_compute; reflexivity). cbn. vm_compute. repeat split; discriminate.
Qed.
Lemma elgamal_ex : bytes 64 (repeat 7 64) /\ bytes 32 (repeat 9 32) /\ summand Generic (pt_SetBase (ops Generic)) (Eadd EB T4').
Proof.
  refine (conj _ (conj _ (proj2 (b_const Generic)))); (split; [reflexivity|]); apply Forall_forall; intros x hx; apply repeat_spec in hx; subst x; unfold is_byte; lia.
Qed.
