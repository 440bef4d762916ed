(** The decoders and comparisons on limbs compute the functions of the model. *)
From Coq Require Import ZArith List String Bool Lia.
From Verif Require Import Words ScalarCode ScalarModel Fe51Code Fe25Code FieldModel Fe51Laws Fe25Laws GoLang GoLangFacts GoLimbCode GoLimbFacts GoLimbTests GoViews.
Import ListNotations.
Open Scope Z_scope.

Ltac red_bytes :=
  cbv beta iota delta [at_ nth skipn load3 load4 load4u32 g_load3 g_load4 runk prog fold_right vals map fst snd ixval upd Nat.eqb Nat.add andb rho0 sc_of fe51_of fe25_of bytes_of seq].
Definition bytes64_of (c : nat -> Z) : list Z := map c (seq 0 64).

Lemma link_sc_setBytes nu : sc_of (nu 2%nat) = scL ->
  runk (E:=Empty_set) nosub rho0 (d_sc_setBytes 0 1 2 3) nu (fun m => sc_of (m 0%nat)) = sc_setBytes (bytes_of (nu 1%nat)).
Proof. unfold sc_setBytes. intro h. rewrite <- h. unfold d_sc_setBytes, d_sc_sub, sc_sub. red_bytes. reflexivity. Qed.
Lemma link_sc_setReduced nu : 
  runk (E:=Empty_set) nosub rho0 (d_sc_setReduced 0 1 2) nu (fun m => sc_of (m 0%nat)) = sc_setReduced (bytes64_of (nu 1%nat)).
Proof. unfold d_sc_setReduced, sc_setReduced, bytes64_of. red_bytes. reflexivity. Qed.
Lemma link_r51_setBytes nu : 
  runk (E:=Empty_set) nosub rho0 (d_r51_setBytes 0 1 2) nu (fun m => fe51_of (m 0%nat)) = r51_setBytes (bytes_of (nu 1%nat)).

Proof. unfold d_r51_setBytes, r51_setBytes. red_bytes. reflexivity. Qed.
Lemma link_g25_setBytes nu : 
  runk (E:=Empty_set) nosub rho0 (d_g25_setBytes 0 1 2) nu (fun m => fe25_of (m 0%nat)) = g25_setBytes (bytes_of (nu 1%nat)).
Proof. unfold d_g25_setBytes, g25_setBytes, d_g25_setReduced, g25_setReduced. red_bytes. reflexivity. Qed.

Local Strategy 3000 [i32 Z.lor Z.shiftr Z.land le_val slice].
Lemma link_sc_isNonZeroI nu :
  runk (E:=Empty_set) nosub rho0 (d_sc_isNonZeroI 0 1 2) nu (fun m => m 1%nat 0%nat) = sc_isNonZeroI (sc_of (nu 0%nat)).
Proof. unfold d_sc_isNonZeroI, sc_isNonZeroI. red_bytes. cbv beta zeta delta [LetIn]. reflexivity. Qed.

(** calls of sub with a local destination *)
Lemma sub_sc_3 nu : sc_of (final (E:=Empty_set) nosub (fun a => a) rho0 (d_sc_sub 3 0 1 5) nu 3%nat) = sc_sub (sc_of (nu 0%nat)) (sc_of (nu 1%nat)).
Proof. rewrite <- (runk_ok (E:=Empty_set) nosub _ _ _ (fun m => sc_of (m 3%nat))). unfold d_sc_sub, sc_sub. red_bytes. reflexivity. Qed.
Lemma link_sc_equalsI nu :
  runk (E:=Empty_set) nosub rho0 (d_sc_equalsI 0 1 2 3) nu (fun m => m 2%nat 0%nat) = sc_equalsI (sc_of (nu 0%nat)) (sc_of (nu 1%nat)).
Proof.
  rewrite runk_ok. unfold d_sc_equalsI. rewrite final_cons. change (0 + 3)%nat with 3%nat. change (2 + 3)%nat with 5%nat. change (1 + 3)%nat with 4%nat.
  unfold sc_equalsI. rewrite <- (sub_sc_3 nu). set (m1 := final _ _ _ (d_sc_sub 3 0 1 5) nu). clearbody m1.
  rewrite <- (runk_ok (E:=Empty_set) nosub _ _ _ (fun m => m 2%nat 0%nat)). unfold d_sc_isNonZeroI, sc_isNonZeroI. red_bytes. cbv beta zeta delta [LetIn]. reflexivity.
Qed.

(** ** field elements *)
Section Tests.
Context (K : FeOps) (view : (nat -> Z) -> fe K) (bytes : nat -> nat -> nat -> stmt Z) (sub : nat -> nat -> nat -> nat -> stmt Z).
Notation FIN := (final (E:=Empty_set) nosub (fun a => a) rho0).
Context (bytes_0_2_3 : forall nu, let m := FIN (bytes 0%nat 2%nat 3%nat) nu in (bytes_of (m 2%nat), view (m 0%nat)) = o_bytes K (view (nu 0%nat))).
Context (bytes_0_2_4 : forall nu, let m := FIN (bytes 0%nat 2%nat 4%nat) nu in (bytes_of (m 2%nat), view (m 0%nat)) = o_bytes K (view (nu 0%nat))).
Context (bytes_3_5_7 : forall nu, let m := FIN (bytes 3%nat 5%nat 7%nat) nu in (bytes_of (m 5%nat), view (m 3%nat)) = o_bytes K (view (nu 3%nat))).
Context (sub_3_0_1 : forall nu, view (FIN (sub 3%nat 0%nat 1%nat 5%nat) nu 3%nat) = o_sub K (view (nu 0%nat)) (view (nu 1%nat))).

Lemma link_IsNegativeI nu : let m := FIN (d_fe_IsNegativeI bytes 0 1 2) nu in (m 1%nat 0%nat, view (m 0%nat)) = fe_IsNegativeI K (view (nu 0%nat)).
Proof.
  cbv zeta. unfold d_fe_IsNegativeI. rewrite final_cons. change (0 + 2)%nat with 2%nat. change (1 + 2)%nat with 3%nat.
  pose proof (bytes_0_2_3 nu) as h. cbv zeta in h. set (m1 := FIN (bytes 0%nat 2%nat 3%nat) nu) in *. clearbody m1.
  unfold fe_IsNegativeI. rewrite <- h. rewrite <- (runk_ok (E:=Empty_set) nosub _ _ _ (fun m => (m 1%nat 0%nat, view (m 0%nat)))). reflexivity.
Qed.
Lemma link_IsNonZeroI nu : let m := FIN (d_fe_IsNonZeroI bytes 0 1 2) nu in (m 1%nat 0%nat, view (m 0%nat)) = fe_IsNonZeroI K (view (nu 0%nat)).
Proof.
  cbv zeta. unfold d_fe_IsNonZeroI. rewrite final_cons. change (0 + 2)%nat with 2%nat. change (1 + 2)%nat with 3%nat. change (2 + 2)%nat with 4%nat.
  pose proof (bytes_0_2_4 nu) as h. cbv zeta in h. set (m1 := FIN (bytes 0%nat 2%nat 4%nat) nu) in *. clearbody m1.
  unfold fe_IsNonZeroI. rewrite <- h. clear h. rewrite <- (runk_ok (E:=Empty_set) nosub _ _ _ (fun m => (m 1%nat 0%nat, view (m 0%nat)))).
  red_bytes. cbv beta zeta delta [LetIn]. reflexivity.
Qed.
Lemma link_EqualsI nu : let m := FIN (d_fe_EqualsI bytes sub 0 1 2 3) nu in m 2%nat 0%nat = fe_EqualsI K (view (nu 0%nat)) (view (nu 1%nat)).
Proof.
  cbv zeta. unfold d_fe_EqualsI, fe_EqualsI. rewrite final_cons. change (0 + 3)%nat with 3%nat. change (1 + 3)%nat with 4%nat. change (2 + 3)%nat with 5%nat.
  rewrite <- sub_3_0_1. set (m1 := FIN (sub _ _ _ _) nu). clearbody m1.
  unfold d_fe_IsNonZeroI. change (0 + 5)%nat with 5%nat. change (1 + 5)%nat with 6%nat. change (2 + 5)%nat with 7%nat.
  rewrite final_cons, (final_cons nosub (bytes 3%nat 5%nat 7%nat)).
  pose proof (bytes_3_5_7 m1) as h. cbv zeta in h. set (m2 := FIN (bytes 3%nat 5%nat 7%nat) m1) in *. clearbody m2.
  unfold fe_IsNonZeroI. rewrite <- h. clear h. cbv beta zeta iota delta [fst].
  rewrite <- (runk_ok (E:=Empty_set) nosub _ _ _ (fun m => m 2%nat 0%nat)). rewrite <- (runk_ok (E:=Empty_set) nosub _ _ _ (fun m => runk nosub rho0 _ m _)).
  red_bytes. cbv beta zeta delta [LetIn]. reflexivity.
Qed.
End Tests.

(** the two Go backends *)
Notation FIN := (final (E:=Empty_set) nosub (fun a => a) rho0).
Lemma bytes51_gen a b n nu : (a, b, n) = (0%nat, 2%nat, 3%nat) \/ (a, b, n) = (0%nat, 2%nat, 4%nat) \/ (a, b, n) = (3%nat, 5%nat, 7%nat) ->
  let m := FIN (d_r51_bytes a b n) nu in (bytes_of (m b), fe51_of (m a)) = o_bytes R51 (fe51_of (nu a)).
Proof.
  intro h. cbv zeta. rewrite <- (runk_ok (E:=Empty_set) nosub _ _ _ (fun m => (bytes_of (m b), fe51_of (m a)))).
  change (o_bytes R51 (fe51_of (nu a))) with (r51_bytes (fe51_of (nu a)), fe51_of (nu a)).
  destruct h as [h|[h|h]]; injection h as -> -> ->; unfold d_r51_bytes, r51_bytes, d_r51_setReduced, r51_setReduced; red_prog; reflexivity.
Qed.
Lemma bytes25_gen a b n nu : (a, b, n) = (0%nat, 2%nat, 3%nat) \/ (a, b, n) = (0%nat, 2%nat, 4%nat) \/ (a, b, n) = (3%nat, 5%nat, 7%nat) ->
  let m := FIN (d_g25_bytes a b n) nu in (bytes_of (m b), fe25_of (m a)) = o_bytes R25 (fe25_of (nu a)).
Proof.
  intro h. cbv zeta. rewrite <- (runk_ok (E:=Empty_set) nosub _ _ _ (fun m => (bytes_of (m b), fe25_of (m a)))).
  change (o_bytes R25 (fe25_of (nu a))) with (g25_bytes (fe25_of (nu a))).
  destruct h as [h|[h|h]]; injection h as -> -> ->; unfold d_g25_bytes, g25_bytes; red_prog; reflexivity.
Qed.
Lemma sub51_3 nu : fe51_of (FIN (d_r51_sub 3 0 1 5) nu 3%nat) = o_sub R51 (fe51_of (nu 0%nat)) (fe51_of (nu 1%nat)).
Proof. rewrite <- (runk_ok (E:=Empty_set) nosub _ _ _ (fun m => fe51_of (m 3%nat))). change (o_sub R51) with r51_sub. unfold d_r51_sub, r51_sub. red_prog. reflexivity. Qed.
Lemma sub25_3 nu : fe25_of (FIN (d_g25_sub 3 0 1 5) nu 3%nat) = o_sub R25 (fe25_of (nu 0%nat)) (fe25_of (nu 1%nat)).
Proof. rewrite <- (runk_ok (E:=Empty_set) nosub _ _ _ (fun m => fe25_of (m 3%nat))). change (o_sub R25) with g25_sub. unfold d_g25_sub, g25_sub. red_prog. reflexivity. Qed.

Lemma link51_IsNegativeI nu : let m := FIN (d_fe_IsNegativeI d_r51_bytes 0 1 2) nu in (m 1%nat 0%nat, fe51_of (m 0%nat)) = fe_IsNegativeI R51 (fe51_of (nu 0%nat)).
Proof. apply (link_IsNegativeI R51 fe51_of d_r51_bytes). intro nu'. apply bytes51_gen. left. reflexivity. Qed.
Lemma link51_IsNonZeroI nu : let m := FIN (d_fe_IsNonZeroI d_r51_bytes 0 1 2) nu in (m 1%nat 0%nat, fe51_of (m 0%nat)) = fe_IsNonZeroI R51 (fe51_of (nu 0%nat)).
Proof. apply (link_IsNonZeroI R51 fe51_of d_r51_bytes). intro nu'. apply bytes51_gen. right. left. reflexivity. Qed.
Lemma link51_EqualsI nu : let m := FIN (d_fe_EqualsI d_r51_bytes d_r51_sub 0 1 2 3) nu in m 2%nat 0%nat = fe_EqualsI R51 (fe51_of (nu 0%nat)) (fe51_of (nu 1%nat)).
Proof. apply (link_EqualsI R51 fe51_of d_r51_bytes d_r51_sub). - intro nu'. apply bytes51_gen. right. right. reflexivity. - exact sub51_3. Qed.
Lemma link25_IsNegativeI nu : let m := FIN (d_fe_IsNegativeI d_g25_bytes 0 1 2) nu in (m 1%nat 0%nat, fe25_of (m 0%nat)) = fe_IsNegativeI R25 (fe25_of (nu 0%nat)).
Proof. apply (link_IsNegativeI R25 fe25_of d_g25_bytes). intro nu'. apply bytes25_gen. left. reflexivity. Qed.
Lemma link25_IsNonZeroI nu : let m := FIN (d_fe_IsNonZeroI d_g25_bytes 0 1 2) nu in (m 1%nat 0%nat, fe25_of (m 0%nat)) = fe_IsNonZeroI R25 (fe25_of (nu 0%nat)).
Proof. apply (link_IsNonZeroI R25 fe25_of d_g25_bytes). intro nu'. apply bytes25_gen. right. left. reflexivity. Qed.
Lemma link25_EqualsI nu : let m := FIN (d_fe_EqualsI d_g25_bytes d_g25_sub 0 1 2 3) nu in m 2%nat 0%nat = fe_EqualsI R25 (fe25_of (nu 0%nat)) (fe25_of (nu 1%nat)).
Proof. apply (link_EqualsI R25 fe25_of d_g25_bytes d_g25_sub). - intro nu'. apply bytes25_gen. right. right. reflexivity. - exact sub25_3. Qed.

(** ** SetBytesStrict *)
Notation TR := (trace (E:=Empty_set) nosub (fun a => a) rho0).
Lemma trace_Seq {V E} (sub : string -> list V -> list E) sg rho a b m :
  trace sub sg rho (Seq a b) m = (trace sub sg rho a m ++ trace sub sg rho b (final sub sg rho a m))%list.
Proof. unfold trace, final. cbn [exec]. destruct (exec sub sg rho a m) as [x t]. cbn [fst snd]. destruct (exec sub sg rho b x). reflexivity. Qed.
Lemma final_If (c : list Z -> bool) args s1 s2 m : FIN (If c args s1 s2) m = if c (vals rho0 m args) then FIN s1 m else FIN s2 m.
Proof.
  unfold final. cbn [exec]. rewrite <- (vals_ok (E:=Empty_set)). destruct (fetches (fun a => a) rho0 m args) as [vs t]. cbn [fst].
  destruct (c vs); [destruct (exec nosub (fun a => a) rho0 s1 m)|destruct (exec nosub (fun a => a) rho0 s2 m)]; reflexivity.
Qed.
Lemma trace_If (c : list Z -> bool) args s1 s2 m :
  TR (If c args s1 s2) m = (snd (fetches (fun a => a) rho0 m args) ++ Branch (c (vals rho0 m args)) :: if c (vals rho0 m args) then TR s1 m else TR s2 m)%list.
Proof.
  unfold trace. cbn [exec]. rewrite <- (vals_ok (E:=Empty_set)). destruct (fetches (fun a => a) rho0 m args) as [vs t]. cbn [fst snd].
  destruct (c vs); [destruct (exec nosub (fun a => a) rho0 s1 m)|destruct (exec nosub (fun a => a) rho0 s2 m)]; reflexivity.
Qed.
Definition strict_T (x : list Z) : sc :=
  Sc (load4u32 (skipn 0 x)) (load4u32 (skipn 4 x)) (load4u32 (skipn 8 x)) (load4u32 (skipn 12 x))
     (load4u32 (skipn 16 x)) (load4u32 (skipn 20 x)) (load4u32 (skipn 24 x)) (load4u32 (skipn 28 x)).
Definition strict_load : stmt Z :=
  prog (map (fun i => Do "" (fun _ vs => load4u32 vs) (4%nat, C i) [(1%nat, C (4 * i)); (1%nat, C (4 * i + 1)); (1%nat, C (4 * i + 2)); (1%nat, C (4 * i + 3))]) (seq 0 8)).
Lemma strict_mid nu : sc_of (nu 2%nat) = scL ->
  let m := FIN (d_sc_sub 5 4 2 6) (FIN strict_load nu) in
  (sc_of (m 4%nat), sc_of (m 5%nat), sc_of (m 0%nat)) = (strict_T (bytes_of (nu 1%nat)), sc_sub (strict_T (bytes_of (nu 1%nat))) scL, sc_of (nu 0%nat)).
Proof.
  cbv zeta. intro h. rewrite <- h. clear h. set (m1 := FIN strict_load nu).
  assert (h1 : (sc_of (m1 4%nat), sc_of (m1 2%nat), sc_of (m1 0%nat)) = (strict_T (bytes_of (nu 1%nat)), sc_of (nu 2%nat), sc_of (nu 0%nat))).
  { unfold m1, strict_load. rewrite <- (runk_ok (E:=Empty_set) nosub _ _ _ (fun m => (sc_of (m 4%nat), sc_of (m 2%nat), sc_of (m 0%nat)))). unfold strict_T. red_bytes. reflexivity. }
  clearbody m1.
  assert (e1 := f_equal (fun x => fst (fst x)) h1). assert (e2 := f_equal (fun x => snd (fst x)) h1). assert (e3 := f_equal snd h1). cbn [fst snd] in e1, e2, e3.
  rewrite <- e1, <- e2, <- e3. rewrite <- (runk_ok (E:=Empty_set) nosub _ _ _ (fun m => (sc_of (m 4%nat), sc_of (m 5%nat), sc_of (m 0%nat)))).
  unfold d_sc_sub, sc_sub. red_bytes. reflexivity.
Qed.
Lemma strict_test a b : forallb (fun p => fst p =? snd p) (combine (map a (seq 0 8)) (map b (seq 0 8))) = sc_eqb (sc_of a) (sc_of b).
Proof. cbn [map seq combine forallb fst snd sc_of sc_eqb]. rewrite !andb_assoc, andb_true_r. reflexivity. Qed.

Lemma strict_vals (m : mem Z) :
  let vs := vals rho0 m (map (fun i => (5%nat, C i)) (seq 0 8) ++ map (fun i => (4%nat, C i)) (seq 0 8)) in
  combine (firstn 8 vs) (skipn 8 vs) = combine (map (m 5%nat) (seq 0 8)) (map (m 4%nat) (seq 0 8)).
Proof. reflexivity. Qed.

Definition strict_if : stmt Z :=
  If (fun vs => negb (forallb (fun p => fst p =? snd p) (combine (firstn 8 vs) (skipn 8 vs)))) (map (fun i => (5%nat, C i)) (seq 0 8) ++ map (fun i => (4%nat, C i)) (seq 0 8))
    (Do "" (fun _ _ => 0) (3%nat, C 0) [])
    (prog [prog (map (fun i => Do "=" (fun _ vs => nth 0 vs 0) (0%nat, C i) [(4%nat, C i)]) (seq 0 8));
           Do "" (fun _ _ => 1) (3%nat, C 0) []]).
Lemma strict_parts : d_sc_setBytesStrict 0 1 2 3 4 = prog [strict_load; d_sc_sub 5 4 2 6; strict_if].
Proof. reflexivity. Qed.
Lemma strict_tail m1 : let m := FIN strict_if m1 in (sc_of (m 0%nat), m 3%nat 0%nat =? 1) =
  if negb (sc_eqb (sc_of (m1 5%nat)) (sc_of (m1 4%nat))) then (sc_of (m1 0%nat), false) else (sc_of (m1 4%nat), true).
Proof.
  cbv zeta. unfold strict_if. rewrite final_If. cbv beta. rewrite (strict_vals m1), strict_test.
  destruct (sc_eqb (sc_of (m1 5%nat)) (sc_of (m1 4%nat))); cbv beta iota delta [negb].
  - rewrite <- (runk_ok (E:=Empty_set) nosub _ _ _ (fun m => (sc_of (m 0%nat), m 3%nat 0%nat =? 1))). reflexivity.
  - rewrite <- (runk_ok (E:=Empty_set) nosub _ _ _ (fun m => (sc_of (m 0%nat), m 3%nat 0%nat =? 1))). reflexivity.
Qed.
Lemma link_sc_setBytesStrict nu : sc_of (nu 2%nat) = scL ->
  let m := FIN (d_sc_setBytesStrict 0 1 2 3 4) nu in
  (sc_of (m 0%nat), m 3%nat 0%nat =? 1) = sc_setBytesStrict (sc_of (nu 0%nat)) (bytes_of (nu 1%nat)).
Proof.
  cbv zeta. intro h. pose proof (strict_mid nu h) as hm. cbv zeta in hm. rewrite strict_parts, !final_cons, final_nil.
  rewrite strict_tail. set (m1 := FIN (d_sc_sub _ _ _ _) _) in *. 
  assert (e1 := f_equal (fun x => fst (fst x)) hm). assert (e2 := f_equal (fun x => snd (fst x)) hm). assert (e3 := f_equal snd hm). cbn [fst snd] in e1, e2, e3.
  rewrite e1, e2, e3. reflexivity.
Qed.

Lemma strict_skip (m : mem Z) : TR Skip m = [].
Proof. reflexivity. Qed.
Lemma ct_eq (s : stmt Z) m m' : ct s = true -> TR s m = TR s m'.
Proof. intro h. apply ct_trace; [reflexivity|exact h]. Qed.
Lemma strict_trace_tail m1 m1' : sc_eqb (sc_of (m1 5%nat)) (sc_of (m1 4%nat)) = sc_eqb (sc_of (m1' 5%nat)) (sc_of (m1' 4%nat)) -> TR strict_if m1 = TR strict_if m1'.
Proof.
  intro e. unfold strict_if. rewrite !trace_If. cbv beta. rewrite (strict_vals m1), (strict_vals m1'), !strict_test, e.
  refine (f_equal2 (@app _) _ _); [apply ct_fetches; vm_compute; reflexivity|]. apply (f_equal (cons _)).
  destruct (sc_eqb (sc_of (m1' 5%nat)) (sc_of (m1' 4%nat))); cbv beta iota delta [negb]; apply ct_eq; vm_compute; reflexivity.
Qed.
Lemma trace_sc_setBytesStrict m m' : sc_of (m 2%nat) = scL -> sc_of (m' 2%nat) = scL ->
  snd (sc_setBytesStrict (sc_of (m 0%nat)) (bytes_of (m 1%nat))) = snd (sc_setBytesStrict (sc_of (m' 0%nat)) (bytes_of (m' 1%nat))) ->
  TR (d_sc_setBytesStrict 0 1 2 3 4) m = TR (d_sc_setBytesStrict 0 1 2 3 4) m'.
Proof.
  intros h h'. pose proof (strict_mid m h) as hm. pose proof (strict_mid m' h') as hm'. cbv zeta in hm, hm'.
  unfold sc_setBytesStrict. fold (strict_T (bytes_of (m 1%nat))). fold (strict_T (bytes_of (m' 1%nat))). cbv zeta.
  assert (e1 := f_equal (fun x => fst (fst x)) hm). assert (e2 := f_equal (fun x => snd (fst x)) hm). cbn [fst snd] in e1, e2.
  assert (e1' := f_equal (fun x => fst (fst x)) hm'). assert (e2' := f_equal (fun x => snd (fst x)) hm'). cbn [fst snd] in e1', e2'.
  rewrite <- e2, <- e1, <- e2', <- e1'. clear e1 e2 e1' e2' hm hm'.
  rewrite strict_parts. change (prog [?A; ?B; ?c]) with (Seq A (Seq B (Seq c Skip))). rewrite !trace_Seq.
  set (A := strict_load). set (B := d_sc_sub 5 4 2 6).
  rewrite (ct_trace (E:=Empty_set) nosub (fun a => a) (fun _ _ _ => eq_refl) A rho0 m m') by (vm_compute; reflexivity).
  rewrite (ct_trace (E:=Empty_set) nosub (fun a => a) (fun _ _ _ => eq_refl) B rho0 (FIN A m) (FIN A m')) by (vm_compute; reflexivity).
  set (m1 := FIN B (FIN A m)). set (m1' := FIN B (FIN A m')). clearbody m1 m1'.
  intro e. rewrite (strict_trace_tail m1 m1'); [rewrite !strict_skip; reflexivity|].
  destruct (sc_eqb (sc_of (m1 5%nat)) (sc_of (m1 4%nat))), (sc_eqb (sc_of (m1' 5%nat)) (sc_of (m1' 4%nat))); cbv beta iota delta [negb snd] in e; first [reflexivity|discriminate e].
Qed.
