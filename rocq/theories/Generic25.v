(** The generic (10 limbs, int32) backend: field operations, the literal base point table, and the
    point API. *)
From Coq Require Import ZArith Znumtheory List Lia Bool.
From Verif Require Import Words Primes NumTheory Fp Edwards GroupOrder RistrettoSpec Fe51Code Fe51Proofs Fe25Code Fe25Proofs FieldModel CurveModel FieldLaws
  CurveProofs EncodeProofs ScalarMultProofs ScalarCode ScalarModel ScalarReduce ScalarSub ScalarFacts TextCodec RistrettoModel Sha256
  RistrettoFacts Fe51Laws Fe25Laws BaseTable51 BaseTable25 BaseTableProofs Points51 LizardProofs ElligatorProofs ElligatorMath ElligatorSpec ApiModel ApiSpec ApiProofs ApiIdeal.
Import ListNotations.
Open Scope Z_scope.

(** ** field operations *)
Lemma modp a b k : a = b + P25519 * k -> b mod p = a mod p.
Proof. intros ->. rewrite P25519_p, Z.mul_comm. symmetry. apply Z_mod_plus_full. Qed.

Lemma f25_mul a b : bnd25 268435456 268435456 a -> bnd25 113025455 113025455 b ->
  bnd25 33554432 16944988 (g25_mul a b) /\ v25 (g25_mul a b) mod p = (v25 a * v25 b) mod p.
Proof. intros ha hb. destruct (g25_mul_ok a b ha hb) as [h [k e]]. exact (conj h (modp _ _ k e)). Qed.
Lemma f25_square a : bnd25 134217728 134217728 a ->
  bnd25 33554432 16944988 (g25_square a) /\ v25 (g25_square a) mod p = (v25 a * v25 a) mod p.
Proof. intros ha. destruct (g25_square_ok a ha) as [h [k e]]. exact (conj h (modp _ _ k e)). Qed.
Lemma f25_doubledSquare a : bnd25 129000000 129000000 a ->
  bnd25 33554432 16944988 (g25_doubledSquare a) /\ v25 (g25_doubledSquare a) mod p = (2 * (v25 a * v25 a)) mod p.
Proof. intros ha. destruct (g25_doubledSquare_ok a ha) as [h [k e]]. exact (conj h (modp _ _ k e)). Qed.
Lemma f25_normalize a : bnd25 2147483648 2147483648 a ->
  bnd25 33554432 16944988 (g25_normalize a) /\ v25 (g25_normalize a) mod p = v25 a mod p.
Proof. intros ha. destruct (g25_normalize_ok a ha) as [h [k e]]. exact (conj h (eq_sym (modp _ _ k e))). Qed.
Lemma f25_setBytes s : bytes 32 s ->
  bnd25 33554432 16944988 (g25_setBytes s) /\ v25 (g25_setBytes s) mod p = (le_val s mod 2 ^ 255) mod p.
Proof. intros ha. destruct (g25_setBytes_ok s ha) as [h [k e]]. exact (conj h (eq_sym (modp _ _ k e))). Qed.
Lemma f25_bytes x : bnd25 101669928 50834964 x ->
  fst (g25_bytes x) = le_bytes 32 (v25 x mod p) /\
  v25 (snd (g25_bytes x)) = v25 x mod p /\ bnd25 67108863 33554431 (snd (g25_bytes x)).
Proof. rewrite <- P25519_p. exact (g25_bytes_ok x). Qed.

(** ** the base point table *)
Definition lift25 (x : fe25) : Z := let v := v25 x in if v <? 0 then v + Pc else v.
Definition trip25 (n : niels fe25) : ntrip := (lift25 (nYpX n), lift25 (nYmX n), lift25 (nXY2D n)).
Lemma tables_agree : map (map trip25) r25_baseTable = rows51.
Proof. vm_compute. reflexivity. Qed.

Definition small25 (x : fe25) : bool :=
  let '(Fe25 a b c d e f g h i j) := x in
  forallb (fun z => (-33554432 <=? z) && (z <=? 33554432)) [a; c; e; g; i] && forallb (fun z => (-16944988 <=? z) && (z <=? 16944988)) [b; d; f; h; j].
Lemma base25_small : forallb (forallb (fun n => small25 (nYpX n) && small25 (nYmX n) && small25 (nXY2D n))) r25_baseTable = true.
Proof. vm_compute. reflexivity. Qed.
Lemma small25_bnd x : small25 x = true -> bnd25 (1 * UE) (1 * UO) x.
Proof.
  destruct x as [a b c d e f g h i j]. cbn [small25 forallb]. rewrite !andb_true_iff, !Z.leb_le.
  unfold bnd25, UE, UO. lia.
Qed.
Lemma of_Z_lift x y : lift25 x = y -> of_Z (v25 x) = of_Z y.
Proof.
  intros <-. unfold lift25. destruct (v25 x <? 0); [|reflexivity]. rewrite <- (Z.mul_1_l Pc). symmetry. apply of_Z_Pc.
Qed.

Theorem base25_ok : tbl_ok L25 1 r25_baseTable EBc.
Proof.
  destruct base51_ok as [l51 h51]. split; [reflexivity|]. intros i hi. destruct (h51 i hi) as [li hj].
  assert (E : map trip25 (nth i r25_baseTable []) = map trip51 (nth i r51_baseTable [])).
  { pose proof (f_equal (fun t => nth i t []) tables_agree) as e. cbv beta in e. unfold rows51 in e.
    change (@nil ntrip) with (map trip25 []) in e at 1. rewrite map_nth in e.
    change (@nil ntrip) with (map trip51 []) in e. rewrite map_nth in e. exact e. }
  assert (ll : length (nth i r25_baseTable []) = 8%nat).
  { pose proof (f_equal (@length _) E) as e. rewrite !map_length in e. rewrite e. exact li. }
  split; [exact ll|]. intros j hj'. specialize (hj j hj').
  assert (hsm : small25 (nYpX (tbl_at R25 r25_baseTable i j)) && small25 (nYmX (tbl_at R25 r25_baseTable i j)) && small25 (nXY2D (tbl_at R25 r25_baseTable i j)) = true).
  { pose proof base25_small as hb. rewrite forallb_forall in hb. specialize (hb (nth i r25_baseTable []) (nth_In r25_baseTable [] (hi : (i < length r25_baseTable)%nat))).
    rewrite forallb_forall in hb. apply hb. unfold tbl_at. apply nth_In. change (fe R25) with fe25. rewrite ll. exact hj'. }
  assert (Ej : trip25 (tbl_at R25 r25_baseTable i j) = trip51 (tbl_at R51 r51_baseTable i j)).
  { pose proof (f_equal (fun t => nth j t nt0) E) as e. cbv beta in e.
    rewrite (nth_indep _ nt0 (trip25 (np_zerovalue R25))), map_nth in e by (rewrite map_length, ll; exact hj').
    rewrite (nth_indep (map trip51 _) nt0 (trip51 (np_zerovalue R51))), map_nth in e by (rewrite map_length; change fe51 with (fe R51); rewrite li; exact hj').
    exact e. }
  clear E. set (N := tbl_at R25 r25_baseTable i j) in *. clearbody N. set (M := tbl_at R51 r51_baseTable i j) in *. clearbody M.
  rewrite !andb_true_iff in hsm. destruct hsm as [[s1 s2] s3]. apply small25_bnd in s1, s2, s3.
  unfold trip25, trip51 in Ej. 
  pose proof (f_equal (fun t => fst (fst t)) Ej) as e1. pose proof (f_equal (fun t => snd (fst t)) Ej) as e2. pose proof (f_equal snd Ej) as e3.
  cbn [fst snd] in e1, e2, e3. apply of_Z_lift in e1, e2, e3.
  destruct hj as ((_ & h1) & (_ & h2) & (_ & h3)).
  exact (conj (conj s1 (eq_trans e1 h1)) (conj (conj s2 (eq_trans e2 h2)) (conj s3 (eq_trans e3 h3)))).
Qed.

(** ** the API *)
Theorem run25 prog st s os s' : corr L25 st s -> Forall well_typed prog -> safe L25 r25_baseTable prog st ->
  irun enc dec ell lizenc lizdec inv prog s = Some (os, s') ->
  exists st', run R25 r25_baseTable prog st = Some (os, st') /\ corr L25 st' s'.
Proof. intros hc hw hs h. exact (run_ok _ _ _ _ _ _ ideal L25 r25_baseTable base25_ok prog st s os s' hc hw hs h). Qed.

(** ** from the initial state *)
Local Notation irun' := (irun enc dec ell lizenc lizdec inv).

Theorem init51 prog os s' : Forall well_typed prog -> irun' prog iinit = Some (os, s') ->
  exists st', run R51 r51_baseTable prog (init R51) = Some (os, st').
Proof. intros hw h. destruct (run51 prog _ _ os s' (corr_init L51) hw h) as (st' & e & _). exists st'. exact e. Qed.

Theorem init25 prog os s' : Forall well_typed prog -> safe L25 r25_baseTable prog (init R25) ->
  irun' prog iinit = Some (os, s') -> exists st', run R25 r25_baseTable prog (init R25) = Some (os, st').
Proof. intros hw hs h. destruct (run25 prog _ _ os s' (corr_init L25) hw hs h) as (st' & e & _). exists st'. exact e. Qed.

Theorem static25 prog os s' : Forall well_typed prog -> tracks prog (fun _ => true) = true ->
  irun' prog iinit = Some (os, s') -> exists st', run R25 r25_baseTable prog (init R25) = Some (os, st').
Proof.
  intros hw ht h. apply (init25 prog os s' hw); [|exact h].
  apply (tracks_safe _ _ _ _ _ _ ideal L25 r25_baseTable base25_ok prog _ (init R25) iinit (corr_init L25) (clean_init L25 _) hw ht).
  rewrite h. discriminate.
Qed.

(** ** a decoded point that is added to itself *)
Definition bad_prog : list call := [PSetBytes 0 (le_bytes 32 152); PAdd 1 0 0; PDouble 2 0; PEquals 1 2].
Lemma bad_typed : Forall well_typed bad_prog.
Proof.
  constructor; [exact (le_bytes_bytes 32 152)|]. repeat (constructor; [exact Logic.I|]). constructor.
Qed.
(** the decoded point, the sum and the double: literals *)
Definition bad_D : ext fe25 := mkExt
  (Fe25 (-42554703) (-8544573) (-51138489) (-9840776) (-64077951) (-30473908) (-60355832) (-33402149) (-2024528) (-2875255))
  (Fe25 59815612 30064654 32379554 339828 60939670 32767307 19451549 27347479 66220081 15810737)
  (Fe25 1 0 0 0 0 0 0 0 0 0)
  (Fe25 17249768 9444234 56643931 911439 32430597 29681242 39002408 10132625 16517893 10477579).
Lemma bad_decode : pt_SetBytes R25 (le_bytes 32 152) = (true, bad_D).
Proof. vm_cast_no_check (eq_refl (true, bad_D)). Qed.
Lemma bad_equals : pt_Equals R25 (pt_Add R25 bad_D bad_D) (pt_Double R25 bad_D) = false.
Proof. vm_cast_no_check (eq_refl false). Qed.

Lemma bad25 : option_map fst (run R25 r25_baseTable bad_prog (init R25)) = Some [OBool true; ONone; ONone; OBool false].
Proof.
  unfold bad_prog. cbn [run step]. rewrite bad_decode. unfold okP. cbn [setP pts set_ Nat.eqb init]. rewrite bad_equals. reflexivity.
Qed.

Lemma bad_dec : exists m, dec (le_bytes 32 152) = Some m.
Proof.
  assert (hb : bytes 32 (le_bytes 32 152)) by (split; [apply le_bytes_length | apply le_bytes_bytes]).
  destruct (SetBytes_dlog _ _ _ _ _ _ ideal L25 r25_baseTable base25_ok _ hb) as (Q & eQ & _).
  rewrite bad_decode in eQ. apply (f_equal fst) in eQ. cbn [fst] in eQ.
  destruct (dec (le_bytes 32 152)) as [m|]; [exists m; reflexivity | discriminate eQ].
Qed.
Lemma bad_irun : exists s', irun' bad_prog iinit = Some ([OBool true; ONone; ONone; OBool true], s').
Proof.
  destruct bad_dec as [m hm]. unfold bad_prog. cbn [irun istep]. rewrite hm. cbn [i1 i2 ipts iP set_ Nat.eqb iinit].
  rewrite <- Z.add_diag. rewrite Z.eqb_refl. eexists. reflexivity.
Qed.
Lemma bad51 : option_map fst (run R51 r51_baseTable bad_prog (init R51)) = Some [OBool true; ONone; ONone; OBool true].
Proof. destruct bad_irun as [s' e]. destruct (init51 _ _ _ bad_typed e) as [st' ->]. reflexivity. Qed.

(** ** what the read-only methods write *)
Lemma isNonZeroI_receiver (K : FeOps) x : snd (fe_IsNonZeroI K x) = snd (o_bytes K x).
Proof. unfold fe_IsNonZeroI. destruct (o_bytes K x). reflexivity. Qed.
Lemma isNegativeI_receiver (K : FeOps) x : snd (fe_IsNegativeI K x) = snd (o_bytes K x).
Proof. unfold fe_IsNegativeI. destruct (o_bytes K x). reflexivity. Qed.
Lemma jacobi_receiver (K : FeOps) P : snd (ep_ToJacobiQuarticRistretto K P) =
  mkExt (snd (o_bytes K (eX P))) (snd (o_bytes K (eY P))) (eZ P) (eT P).
Proof.
  rewrite <- !isNonZeroI_receiver. unfold ep_ToJacobiQuarticRistretto.
  destruct (fe_IsNonZeroI K (eX P)) as [a X], (fe_IsNonZeroI K (eY P)) as [b Y]. reflexivity.
Qed.
Lemma elligatorInverse_receiver (K : FeOps) P : snd (ep_RistrettoElligator2Inverse K P) =
  mkExt (snd (o_bytes K (eX P))) (snd (o_bytes K (eY P))) (eZ P) (eT P).
Proof.
  rewrite <- jacobi_receiver. unfold ep_RistrettoElligator2Inverse. destruct (ep_ToJacobiQuarticRistretto K P) as [jcs q].
  destruct (for_up 4 _ _). reflexivity.
Qed.
Lemma lizardInto_receiver (K : FeOps) h P buf : snd (pt_LizardInto K h P buf) =
  mkExt (snd (o_bytes K (eX P))) (snd (o_bytes K (eY P))) (eZ P) (eT P).
Proof.
  rewrite <- elligatorInverse_receiver. unfold pt_LizardInto. destruct (ep_RistrettoElligator2Inverse K P) as [[mask fes] q].
  destruct (for_up 8 _ _). reflexivity.
Qed.
Lemma lizard_receiver (K : FeOps) h P : snd (pt_Lizard K h P) =
  mkExt (snd (o_bytes K (eX P))) (snd (o_bytes K (eY P))) (eZ P) (eT P).
Proof.
  rewrite <- (lizardInto_receiver K h P (repeat 0 16)). unfold pt_Lizard. destruct (pt_LizardInto K h P (repeat 0 16)) as [[[] b] q]; reflexivity.
Qed.
Lemma receiver51 (P : ext fe51) : mkExt (snd (o_bytes R51 (eX P))) (snd (o_bytes R51 (eY P))) (eZ P) (eT P) = P.
Proof. destruct P. reflexivity. Qed.

Lemma lizard25_base h : snd (pt_Lizard R25 h (pt_SetBase R25)) <> pt_SetBase R25.
Proof. rewrite lizard_receiver. intro e. apply (f_equal eX) in e. cbn [eX] in e. vm_compute in e. discriminate e. Qed.

Lemma lizard25_same P A : dpoint L25 P A -> dpoint L25 (snd (pt_Lizard R25 sha256 P)) A.
Proof.
  intro hP. destruct (LizardInto_ok L25 sha256 sha256_bytes P A (repeat 0 16) hP) as (ds & Q & hQ & e & _).
  assert (E : snd (pt_Lizard R25 sha256 P) = Q).
  { rewrite lizard_receiver, <- (lizardInto_receiver R25 sha256 P (repeat 0 16)), e. destruct ds as [|x [|y r]]; reflexivity. }
  rewrite E. split; [exact hQ | exact (proj2 hP)].
Qed.
Lemma lizard25_same_bytes P A : dpoint L25 P A -> pt_Bytes R25 (snd (pt_Lizard R25 sha256 P)) = pt_Bytes R25 P.
Proof.
  intro hP. destruct (Bytes_dpoint L25 _ _ hP) as (s & -> & hs). destruct (Bytes_dpoint L25 _ _ (lizard25_same P A hP)) as (t & -> & ht).
  f_equal. f_equal. exact (encodes_unique t s A A ht hs (Req_refl A)).
Qed.

(** ** sharpness, constants *)
Lemma mul_sharp : let a := Fe25 0 1 0 0 0 0 0 0 0 0 in let b := Fe25 0 0 0 0 0 0 0 0 0 113025456 in
  v25 (g25_mul a b) mod p <> (v25 a * v25 b) mod p.
Proof. vm_compute. discriminate. Qed.
Lemma constants_agree :
  map (fun x => v25 x mod p) [k_zero R25; k_one R25; k_minusOne R25; k_I R25; k_minusI R25; k_D R25; k_2D R25;
    k_invSqrtMinusDMinusOne R25; k_doubleInvSqrtMinusDMinusOne R25; k_doubleIInvSqrtMinusDMinusOne R25; k_dMinusOneSquared R25;
    k_oneMinusDSquared R25; k_dp1OverDm1 R25; k_sqrtID R25; k_invSqrt1pD R25; k_baseX R25; k_baseY R25; k_baseT R25] =
  map (fun x => v51 x mod p) [k_zero R51; k_one R51; k_minusOne R51; k_I R51; k_minusI R51; k_D R51; k_2D R51;
    k_invSqrtMinusDMinusOne R51; k_doubleInvSqrtMinusDMinusOne R51; k_doubleIInvSqrtMinusDMinusOne R51; k_dMinusOneSquared R51;
    k_oneMinusDSquared R51; k_dp1OverDm1 R51; k_sqrtID R51; k_invSqrt1pD R51; k_baseX R51; k_baseY R51; k_baseT R51].
Proof. vm_compute. reflexivity. Qed.

(** ** statements *)
Lemma ell_range b : bytes 32 b -> 0 <= ell b < l.
Proof. intro h. destruct (rfc_map_exists (fe_of b)) as [A hA]. exact (proj1 (ell_ok b A h hA)). Qed.
Lemma lizenc_range d : bytes 16 d -> 0 <= lizenc d < l.
Proof. intro h. destruct (rfc_map_exists (lz sha256 d)) as [A hA]. exact (proj1 (lizenc_ok d A h hA)). Qed.

Theorem history51 : exists enc dec ell lizenc lizdec inv,
  ((forall m, bytes 32 (enc m)) /\ (forall m n, 0 <= m < l -> 0 <= n < l -> enc m = enc n -> m = n) /\
   (forall b m, dec b = Some m <-> 0 <= m < l /\ enc m = b) /\
   (forall b, bytes 32 b -> 0 <= ell b < l) /\ (forall d, bytes 16 d -> 0 <= lizenc d < l) /\
   (forall m d, 0 <= m < l -> (lizdec m = Some d <-> bytes 16 d /\ lizenc d = m /\ forall d', bytes 16 d' -> lizenc d' = m -> d' = d)) /\
   (forall a, 0 <= a < l -> 0 <= inv a < l /\ (a <> 0 -> (inv a * a) mod l = 1) /\ (a = 0 -> inv a = 0))) /\
  forall prog os s', Forall well_typed prog -> irun enc dec ell lizenc lizdec inv prog iinit = Some (os, s') ->
    exists st', run R51 r51_baseTable prog (init R51) = Some (os, st').
Proof.
  exists enc, dec, ell, lizenc, lizdec, inv.
  exact (conj (conj enc_bytes (conj enc_inj (conj dec_ok (conj ell_range (conj lizenc_range (conj lizdec_ok inv_ok)))))) init51).
Qed.

Lemma bad_refutes : exists prog, Forall well_typed prog /\
  option_map fst (run R51 r51_baseTable prog (init R51)) = Some [OBool true; ONone; ONone; OBool true] /\
  option_map fst (run R25 r25_baseTable prog (init R25)) = Some [OBool true; ONone; ONone; OBool false].
Proof. exists bad_prog. exact (conj bad_typed (conj bad51 bad25)). Qed.

Lemma bad_add : exists buf D, bytes 32 buf /\ pt_SetBytes R25 buf = (true, D) /\
  pt_Equals R25 (pt_Add R25 D D) (pt_Double R25 D) = false.
Proof. exists (le_bytes 32 152), bad_D. exact (conj (conj (le_bytes_length 32 152) (proj2 (le_bytes_bytes 32 152))) (conj bad_decode bad_equals)). Qed.

Theorem agree_safe prog : Forall well_typed prog -> irun' prog iinit <> None -> safe L25 r25_baseTable prog (init R25) ->
  exists os, option_map fst (run R25 r25_baseTable prog (init R25)) = Some os /\
             option_map fst (run R51 r51_baseTable prog (init R51)) = Some os.
Proof.
  intros hw hi hs. destruct (irun' prog iinit) as [[os s']|] eqn:e; [|destruct (hi eq_refl)]. exists os.
  destruct (init25 prog os s' hw hs e) as [st1 ->], (init51 prog os s' hw e) as [st2 ->]. split; reflexivity.
Qed.
Theorem agree_static prog : Forall well_typed prog -> irun' prog iinit <> None -> tracks prog (fun _ => true) = true ->
  exists os, option_map fst (run R25 r25_baseTable prog (init R25)) = Some os /\
             option_map fst (run R51 r51_baseTable prog (init R51)) = Some os.
Proof.
  intros hw hi hs. destruct (irun' prog iinit) as [[os s']|] eqn:e; [|destruct (hi eq_refl)]. exists os.
  destruct (static25 prog os s' hw hs e) as [st1 ->], (init51 prog os s' hw e) as [st2 ->]. split; reflexivity.
Qed.

Lemma mul_sharp_ex : exists a b, bnd25 1 1 a /\ bnd25 113025456 113025456 b /\ v25 (g25_mul a b) mod p <> (v25 a * v25 b) mod p.
Proof.
  exists (Fe25 0 1 0 0 0 0 0 0 0 0), (Fe25 0 0 0 0 0 0 0 0 0 113025456).
  refine (conj _ (conj _ mul_sharp)); unfold bnd25; lia.
Qed.
Lemma read_only51 (x : fe51) : snd (o_bytes R51 x) = x /\ snd (fe_IsNegativeI R51 x) = x /\ snd (fe_IsNonZeroI R51 x) = x.
Proof. rewrite isNegativeI_receiver, isNonZeroI_receiver. repeat split. Qed.
Lemma lizard51_receiver h (P : ext fe51) buf :
  snd (ep_RistrettoElligator2Inverse R51 P) = P /\ snd (pt_LizardInto R51 h P buf) = P /\ snd (pt_Lizard R51 h P) = P.
Proof. rewrite elligatorInverse_receiver, lizardInto_receiver, lizard_receiver. exact (conj (receiver51 P) (conj (receiver51 P) (receiver51 P))). Qed.
Lemma read_only25_refuted : (exists x, bnd25 33554432 16944988 x /\ snd (g25_bytes x) <> x) /\
  forall h : list Z -> list Z, snd (pt_Lizard R25 h (pt_SetBase R25)) <> pt_SetBase R25.
Proof.
  refine (conj _ lizard25_base). exists (Fe25 (-1) 0 0 0 0 0 0 0 0 0). split; [unfold bnd25; lia|]. vm_compute. discriminate.
Qed.
Lemma bytes25_value x : bnd25 101669928 50834964 x -> v25 (snd (g25_bytes x)) mod p = v25 x mod p.
Proof. intro h. destruct (f25_bytes x h) as (_ & -> & _). apply Z.mod_mod. pose proof p_pos. lia. Qed.
Lemma lizard25_value P A : dpoint L25 P A ->
  dpoint L25 (snd (pt_Lizard R25 sha256 P)) A /\ pt_Bytes R25 (snd (pt_Lizard R25 sha256 P)) = pt_Bytes R25 P.
Proof. intro h. exact (conj (lizard25_same P A h) (lizard25_same_bytes P A h)). Qed.

Definition case_prog : list call :=
  [SSetUint64 0 5; PScalarMultBase 0 0; PSetElligator 1 (repeat 7 32); PAdd 2 0 1; PSetBytes 3 (repeat 0 32);
   PAdd 4 3 2; PDouble 5 3; PBytes 4; PEquals 4 2; TCompute 0 4; PScalarMultTable 6 0 0; PNeg 6 6; PSub 7 3 6; PBytes 7].
Lemma encodes_0 : encodes F0 E0.
Proof.
  exists E0. split; [apply Req_refl|]. destruct torsion_coords as [[ex0 ey0] _]. unfold canonical_rep. rewrite ex0, ey0.
  assert (h : Fneg F0 = false) by (vm_compute; reflexivity).
  refine (conj h (conj _ (conj h (conj _ (fun e => F1_neq_0 e))))); [ring|]. rewrite <- h. f_equal; ring.
Qed.
Lemma enc_0 : enc 0 = repeat 0 32.
Proof. rewrite (enc_encodes F0 E0 0 encodes_0 dlog_0). vm_compute. reflexivity. Qed.
Lemma dec_0 : dec (repeat 0 32) = Some 0.
Proof. apply dec_ok. split; [pose proof ScalarFacts.l_pos; lia | exact enc_0]. Qed.
Lemma case_prog_ok : exists os, Forall well_typed case_prog /\ irun' case_prog iinit <> None /\ tracks case_prog (fun _ => true) = true /\ option_map fst (irun' case_prog iinit) = Some os.
Proof.
  assert (e : exists os s, irun' case_prog iinit = Some (os, s)).
  { unfold case_prog. cbn [irun istep]. rewrite dec_0. cbn [i1 i2 ipts itbs iP iS iT set_ Nat.eqb iinit]. eexists. eexists. reflexivity. }
  destruct e as (os & s & e). exists os. refine (conj _ (conj _ (conj eq_refl _))).
  - unfold case_prog, well_typed. repeat constructor; cbn; unfold is_byte; repeat constructor; try lia.
  - rewrite e. discriminate.
  - rewrite e. reflexivity.
Qed.

Definition red3 (t : ntrip) : ntrip := let '(a, b, c) := t in (a mod p, b mod p, c mod p).
Lemma lift25_mod x : lift25 x mod p = v25 x mod p.
Proof.
  unfold lift25. destruct (v25 x <? 0); [|reflexivity]. replace Pc with (1 * p) by (rewrite Z.mul_1_l; vm_compute; reflexivity).
  apply Z_mod_plus_full.
Qed.
Lemma tables_mod :
  map (map (fun n => (v25 (nYpX n) mod p, v25 (nYmX n) mod p, v25 (nXY2D n) mod p))) r25_baseTable =
  map (map (fun n => (v51 (nYpX n) mod p, v51 (nYmX n) mod p, v51 (nXY2D n) mod p))) r51_baseTable.
Proof.
  pose proof (f_equal (map (map red3)) tables_agree) as e. unfold rows51 in e. rewrite !map_map in e.
  rewrite (map_ext _ (map (fun n => (v25 (nYpX n) mod p, v25 (nYmX n) mod p, v25 (nXY2D n) mod p)))) in e.
  2:{ intro r. rewrite map_map. apply map_ext. intro n. unfold red3, trip25. rewrite !lift25_mod. reflexivity. }
  rewrite (map_ext (fun x => map red3 (map trip51 x)) (map (fun n => (v51 (nYpX n) mod p, v51 (nYmX n) mod p, v51 (nXY2D n) mod p)))) in e.
  2:{ intro r. rewrite map_map. apply map_ext. intro n. reflexivity. }
  exact e.
Qed.

(** ** any state *)
Definition holds (st : state R51) (s : istate) : Prop :=
  (forall i m, ipts s i = Some m -> exists A, element (pts R51 st i) A /\ 0 <= m < l /\ Req A (Emul m EB)) /\
  (forall i, reduced (scs R51 st i) /\ scv (scs R51 st i) = iscs s i) /\
  (forall i m, itbs s i = Some m -> hasT L51 (tbs R51 st i) m).

Lemma holds_corr st s : holds st s <-> corr L51 st s.
Proof.
  unfold holds, corr, hasP, dlog, hasS. split; intros (h1 & h2 & h3); refine (conj _ (conj h2 h3)); intros i m e;
    destruct (h1 i m e) as (A & hA & h); exists A; (split; [|exact h]).
  - apply point_d. apply elt_point. exact hA.
  - apply elt_point. exact (conj (conj (proj1 hA) Logic.I) (proj2 hA)).
Qed.
Theorem states51 prog st s os s' : holds st s -> Forall well_typed prog -> irun' prog s = Some (os, s') ->
  exists st', run R51 r51_baseTable prog st = Some (os, st') /\ holds st' s'.
Proof.
  intros hc hw h. destruct (run51 prog st s os s' (proj1 (holds_corr st s) hc) hw h) as (st' & e & hc').
  exists st'. exact (conj e (proj2 (holds_corr st' s') hc')).
Qed.
Lemma holds_init : holds (init R51) iinit.
Proof. exact (proj2 (holds_corr _ _) (corr_init L51)). Qed.
Lemma enc_iff_eq m n : 0 <= m < l -> 0 <= n < l -> (enc m = enc n <-> m = n).
Proof. intros hm hn. split; [exact (enc_inj m n hm hn) | intros ->; reflexivity]. Qed.
