(** Primality of p = 2^255-19 and l = 2^252+27742317777372353535851937790883648493
    by Pocklington certificates checked by the kernel (Montgomery arithmetic on digits). *)
From Coq Require Import ZArith Znumtheory Zpow_facts List Lia Bool.
From Verif Require Import NumTheory DigitTables Digits PrimeCerts.
Import ListNotations.
Local Open Scope Z_scope.

(** ** Montgomery reduction *)
Fixpoint mont (k : nat) (n : list dg) (n' : dg) (t : list dg) : option (list dg) :=
  match k with
  | O => Some t
  | S k =>
    match t with
    | [] => Some []
    | t0 :: _ =>
      match mac (snd (dmul t0 n')) n t d0 with
      | d0 :: t' => mont k n n' t'
      | _ => None
      end
    end
  end.

Lemma mont_ok n n' k : forall t r, mont k n n' t = Some r ->
  exists j, val r * 64 ^ Z.of_nat k = val t + j * val n.
Proof.
  induction k as [|k IH]; intros t r H; cbn [mont] in H.
  - injection H as <-. exists 0. cbn. lia.
  - destruct t as [|t0 t]; [injection H as <-; exists 0; cbn [val]; lia|].
    set (m := snd (dmul t0 n')) in *. pose proof (mac_ok m n (t0 :: t) d0) as E.
    destruct (mac m n (t0 :: t) d0) as [|a t'] eqn:M; [discriminate|].
    destruct a; try discriminate. destruct (IH _ _ H) as [j Hj].
    change (dv d0) with 0 in E. cbn [val] in E |- *. change (dv d0) with 0 in E.
    rewrite Nat2Z.inj_succ, Z.pow_succ_r by lia. exists (dv m + 64 * j).
    replace (val r * (64 * 64 ^ Z.of_nat k)) with (64 * (val r * 64 ^ Z.of_nat k)) by ring.
    rewrite Hj. lia.
Qed.

Section Pow.
Variables (k : nat) (nd Rn : list dg) (n' a : dg).

Fixpoint powm (e : positive) : option (list dg) :=
  match e with
  | xH => Some (trim (mac a Rn [] d0))
  | xO e => match powm e with Some P => option_map trim (mont k nd n' (mul P P)) | None => None end
  | xI e => match powm e with
            | Some P => match mont k nd n' (mul P P) with Some Q => Some (trim (mac a Q [] d0)) | None => None end
            | None => None end
  end.
End Pow.

Lemma powm_ok k nd Rn n' a e : rel_prime (64 ^ Z.of_nat k) (val nd) ->
  (val nd | val Rn - 64 ^ Z.of_nat k) ->
  forall P, powm k nd Rn n' a e = Some P -> (val nd | val P - dv a ^ Zpos e * 64 ^ Z.of_nat k).
Proof.
  intros RP HRn. set (R := 64 ^ Z.of_nat k) in *. set (n := val nd) in *.
  assert (SQ : forall e P Q, (n | val P - dv a ^ Zpos e * R) -> mont k nd n' (mul P P) = Some Q ->
     (n | val Q - dv a ^ (Zpos e + Zpos e) * R)).
  { clear e. intros e P Q [c Hc] HQ. apply mont_ok in HQ. destruct HQ as [j Hj]. rewrite mul_ok in Hj.
    fold R in Hj. fold n in Hj.
    apply (Gauss n R); [|apply rel_prime_sym, RP].
    rewrite Z.pow_add_r by lia. set (A := dv a ^ Z.pos e) in *.
    exists (j + c * (val P + A * R)).
    replace (R * (val Q - A * A * R)) with (val Q * R - (A * R) * (A * R)) by ring.
    rewrite Hj. replace (val P) with (c * n + A * R) by lia. ring. }
  induction e as [e IH|e IH|]; intros P H; cbn [powm] in H.
  - destruct (powm k nd Rn n' a e) as [P0|]; [|discriminate]. specialize (IH _ eq_refl).
    destruct (mont k nd n' (mul P0 P0)) as [Q|] eqn:M; [|discriminate]. injection H as <-.
    specialize (SQ _ _ _ IH M). rewrite trim_ok, mac_ok. cbn [val]. change (dv d0) with 0.
    rewrite Pos2Z.inj_xI. replace (2 * Z.pos e + 1) with (Z.pos e + Z.pos e + 1) by lia.
    rewrite (Z.pow_add_r _ (Z.pos e + Z.pos e) 1), Z.pow_1_r by lia.
    destruct SQ as [c Hc]. exists (dv a * c).
    replace (dv a * c * n) with (dv a * (c * n)) by ring. rewrite <- Hc. ring.
  - destruct (powm k nd Rn n' a e) as [P0|]; [|discriminate]. specialize (IH _ eq_refl).
    destruct (mont k nd n' (mul P0 P0)) as [Q|] eqn:M; [|discriminate]. cbn in H. injection H as <-.
    specialize (SQ _ _ _ IH M). rewrite trim_ok.
    rewrite Pos2Z.inj_xO. replace (2 * Z.pos e) with (Z.pos e + Z.pos e) by lia. exact SQ.
  - injection H as <-. rewrite trim_ok, mac_ok. cbn [val]. change (dv d0) with 0.
    destruct HRn as [c Hc]. exists (dv a * c). rewrite Z.pow_1_r.
    replace (dv a * c * n) with (dv a * (c * n)) by ring. rewrite <- Hc. ring.
Qed.

(** ** The checker *)
Definition powchk (c : cert) (nd Rn : list dg) (R e : Z) (chk : Z -> bool) : bool :=
  match e with
  | Zpos e => match powm (c_k c) nd Rn (c_n' c) (c_a c) e with Some P => chk (val P - R) | None => false end
  | _ => false
  end.

Definition check1 (known : list Z) (c : cert) : bool :=
  let n := c_n c in
  let nd := of_Zfuel (c_k c) n in
  let R := 64 ^ Z.of_nat (c_k c) in
  let Rn := of_Zfuel (c_k c) (R mod n) in
  let F := zprod (map fst (c_fs c)) in
  (1 <? n) && (val Rn =? R mod n) && Z.odd n && (val nd =? n)
  && forallb (fun q => existsb (Z.eqb (fst q)) known) (c_fs c)
  && ((n - 1) mod F =? 0) && (n <? F * F) && (0 <? F)
  && powchk c nd Rn R (n - 1) (fun x => x mod n =? 0)
  && forallb (fun q => powchk c nd Rn R ((n - 1) / fst q) (fun x => (x * snd q) mod n =? 1)) (c_fs c).

Fixpoint check (known : list Z) (cs : list cert) : bool :=
  match cs with
  | [] => true
  | c :: cs => check1 known c && check (c_n c :: known) cs
  end.

Lemma check1_ok known c : (forall q, In q known -> prime q) -> check1 known c = true -> prime (c_n c).
Proof.
  intros Hk H. unfold check1 in H. cbv zeta in H. rewrite !andb_true_iff in H.
  destruct H as (((((((((H1 & H0) & H2) & H3) & H4) & H5) & H6) & H7) & H8) & H9).
  apply Z.ltb_lt in H1. apply Z.eqb_eq in H0. apply Z.eqb_eq in H3. apply Z.eqb_eq in H5. apply Z.ltb_lt in H6. apply Z.ltb_lt in H7.
  rewrite forallb_forall in H4, H9.
  set (nd := of_Zfuel (c_k c) (c_n c)) in *. set (R := 64 ^ Z.of_nat (c_k c)) in *. set (n := c_n c) in *.
  set (Rn := of_Zfuel (c_k c) (R mod n)) in *.
  assert (HRn : (val nd | val Rn - R)).
  { rewrite H0, H3. rewrite Z.mod_eq by lia. exists (- (R / n)). ring. }
  assert (RP : rel_prime R (val nd)).
  { rewrite H3. unfold R. apply rel_prime_sym, rel_prime_Zpower_r; [lia|]. change 64 with (2 ^ 6). apply rel_prime_Zpower_r; [lia|].
    apply rel_prime_sym, prime_rel_prime; [exact prime_2|]. intros [e E].
    rewrite E, Z.odd_mul in H2. rewrite andb_comm in H2. discriminate. }
  assert (POW : forall e chk, powchk c nd Rn R e chk = true -> exists x, (n | x - (dv (c_a c) ^ e - 1) * R) /\ chk x = true).
  { intros e chk H. unfold powchk in H. destruct e as [|e|e]; try discriminate.
    destruct (powm (c_k c) nd Rn (c_n' c) (c_a c) e) as [P|] eqn:EP; [|discriminate].
    apply powm_ok in EP; [|exact RP|exact HRn]. fold R in EP. rewrite H3 in EP.
    exists (val P - R). split; [|exact H].
    replace (val P - R - (dv (c_a c) ^ Z.pos e - 1) * R) with (val P - dv (c_a c) ^ Z.pos e * R) by ring. exact EP. }
  assert (RPn : rel_prime n R) by (apply rel_prime_sym; rewrite <- H3; exact RP).
  apply (pocklington n (dv (c_a c)) (map fst (c_fs c))); auto.
  - intros q Hq. apply in_map_iff in Hq. destruct Hq as ([q' u] & <- & Hq). apply H4 in Hq.
    apply existsb_exists in Hq. destruct Hq as (x & Hx & E). apply Z.eqb_eq in E. rewrite E. auto.
  - apply Z.mod_divide; [lia|exact H5].
  - destruct (POW _ _ H8) as (x & D & C). apply Z.eqb_eq in C. apply Z.mod_divide in C; [|lia].
    assert (D' : (n | (dv (c_a c) ^ (n - 1) - 1) * R)).
    { destruct D as [u Hu]. destruct C as [v Hv]. exists (v - u). lia. }
    rewrite Z.mul_comm in D'. apply Gauss in D'; [|exact RPn].
    destruct D' as [u Hu]. replace (dv (c_a c) ^ (n - 1)) with (1 + u * n) by lia.
    rewrite Z.mod_add by lia. apply Z.mod_small; lia.
  - intros q Hq. apply in_map_iff in Hq. destruct Hq as ([q' u] & <- & Hq). apply H9 in Hq. cbn [fst snd] in *.
    destruct (POW _ _ Hq) as (x & D & C). apply Z.eqb_eq in C.
    apply Zgcd_1_rel_prime. apply bezout_rel_prime.
    destruct D as [v Hv]. set (A := dv (c_a c) ^ ((n - 1) / q') - 1) in *.
    pose proof (Z.div_mod (x * u) n ltac:(lia)) as DM. rewrite C in DM.
    apply (Bezout_intro A n 1 (R * u) (v * u - x * u / n)).
    replace x with (v * n + A * R) in DM at 1 by lia. lia.
Qed.

Lemma check_ok cs : forall known, (forall q, In q known -> prime q) -> check known cs = true ->
  forall c, In c cs -> prime (c_n c).
Proof.
  induction cs as [|c cs IH]; intros known Hk H c' Hc'; [destruct Hc'|].
  cbn [check] in H. apply andb_true_iff in H. destruct H as [Ha Hb].
  pose proof (check1_ok known c Hk Ha) as P.
  destruct Hc' as [<-|Hc']; auto.
  apply (IH (c_n c :: known)); auto.
  intros q [<-|Hq]; auto.
Qed.

(** The field prime (edwards25519/field.go) and the group order (scalar.go:14-18). *)
Definition p : Z := 57896044618658097711785492504343953926634992332820282019728792003956564819949.
Definition l : Z := 7237005577332262213973186563042994240857116359379907606001950938285454250989.

Lemma p_eq : p = 2 ^ 255 - 19.
Proof. reflexivity. Qed.
Lemma l_eq : l = 2 ^ 252 + 27742317777372353535851937790883648493.
Proof. reflexivity. Qed.

Lemma certs_ok : check [2] certs = true.
Proof. vm_cast_no_check (eq_refl true). Qed.

Lemma prime_from_cert n : existsb (fun c => Z.eqb n (c_n c)) certs = true -> prime n.
Proof.
  intros H. apply existsb_exists in H. destruct H as (c & Hc & E).
  apply Z.eqb_eq in E. subst n.
  refine (check_ok certs [2] _ certs_ok c Hc).
  intros q [<-|[]]. exact prime_2.
Qed.

Theorem prime_p : prime p.
Proof. apply prime_from_cert. vm_compute. reflexivity. Qed.

Theorem prime_l : prime l.
Proof. apply prime_from_cert. vm_compute. reflexivity. Qed.

Global Opaque p l.
