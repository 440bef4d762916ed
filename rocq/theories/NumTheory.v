(** Elementary number theory used by the specification (no code is modelled here):
    Fermat's little theorem and a Lucas/Pocklington style primality criterion with
    a boolean certificate checker. *)
From Coq Require Import ZArith Znumtheory Zpow_facts List Lia Permutation Bool.
Import ListNotations.
Local Open Scope Z_scope.

(** ** Modular exponentiation (executable) *)
Fixpoint zpowmod (a : Z) (e : positive) (n : Z) : Z :=
  match e with
  | xH => a mod n
  | xO e => let r := zpowmod a e n in (r * r) mod n
  | xI e => let r := zpowmod a e n in (((r * r) mod n) * a) mod n
  end.

Lemma zpowmod_ok a e n : n <> 0 -> zpowmod a e n = (a ^ Zpos e) mod n.
Proof.
  intros Hn. induction e as [e IH|e IH|]; cbn [zpowmod].
  - rewrite IH. rewrite Pos2Z.inj_xI.
    replace (2 * Z.pos e + 1) with (Z.pos e + Z.pos e + 1) by lia.
    rewrite !Z.pow_add_r by lia. rewrite Z.pow_1_r.
    rewrite <- Zmult_mod. rewrite Zmult_mod_idemp_l. reflexivity.
  - rewrite IH. rewrite Pos2Z.inj_xO.
    replace (2 * Z.pos e) with (Z.pos e + Z.pos e) by lia.
    rewrite !Z.pow_add_r by lia.
    rewrite <- Zmult_mod. reflexivity.
  - rewrite Z.pow_1_r. reflexivity.
Qed.

(** ** Fermat *)
Definition residues (p : Z) : list Z := map Z.of_nat (seq 1 (Z.to_nat (p - 1))).

Lemma residues_in p x : 1 < p -> In x (residues p) <-> 1 <= x < p.
Proof.
  intros Hp. unfold residues. rewrite in_map_iff. split.
  - intros (k & <- & Hk). apply in_seq in Hk. lia.
  - intros H. exists (Z.to_nat x). rewrite in_seq. lia.
Qed.

Lemma residues_NoDup p : NoDup (residues p).
Proof.
  unfold residues. apply FinFun.Injective_map_NoDup; [|apply seq_NoDup].
  intros a b; lia.
Qed.

Definition zprod (l : list Z) : Z := fold_right Z.mul 1 l.

Lemma zprod_perm l l' : Permutation l l' -> zprod l = zprod l'.
Proof. induction 1; unfold zprod in *; cbn [fold_right] in *; [lia|nia|ring|congruence]. Qed.

Lemma zprod_map_mul a p l :
  0 < p -> zprod (map (fun x => (a * x) mod p) l) mod p
   = (a ^ Z.of_nat (length l) * zprod l) mod p.
Proof.
  intros Hp. induction l as [|x l IH]; [reflexivity|].
  cbn [map length zprod fold_right]. fold (zprod (map (fun x => (a * x) mod p) l)). fold (zprod l).
  rewrite Zmult_mod_idemp_l. rewrite Zmult_mod, IH, <- Zmult_mod.
  rewrite Nat2Z.inj_succ, Z.pow_succ_r by lia. f_equal. ring.
Qed.

Lemma prime_not_divide_prod p l :
  prime p -> (forall x, In x l -> ~ (p | x)) -> ~ (p | zprod l).
Proof.
  intros Hp. induction l as [|x l IH]; cbn; intros H D.
  - pose proof (prime_ge_2 p Hp). apply Z.divide_1_r in D. lia.
  - apply prime_mult in D; auto. destruct D as [D|D].
    + apply (H x); auto.
    + apply IH; auto.
Qed.

Theorem fermat p a : prime p -> ~ (p | a) -> (a ^ (p - 1)) mod p = 1.
Proof.
  intros Hp Ha. pose proof (prime_ge_2 p Hp) as H2.
  set (L := residues p). set (M := map (fun x => (a * x) mod p) L).
  assert (HM : forall x, In x M -> In x L).
  { intros x Hx. unfold M in Hx. apply in_map_iff in Hx. destruct Hx as (y & <- & Hy).
    apply residues_in in Hy; [|lia]. apply residues_in; [lia|].
    pose proof (Z.mod_pos_bound (a * y) p ltac:(lia)).
    assert ((a * y) mod p <> 0); [|lia]. intros E.
    apply Z.mod_divide in E; [|lia]. apply prime_mult in E; auto.
    destruct E as [E|E]; [auto|]. apply Z.divide_pos_le in E; lia. }
  assert (ND : NoDup M).
  { unfold M. clear HM M.
    assert (HL : forall x, In x L -> 1 <= x < p) by (intros x Hx; apply (residues_in p x); [lia|assumption]).
    pose proof (residues_NoDup p) as HN. fold L in HN. clearbody L.
    induction L as [|x L IH]; cbn; [constructor|].
    inversion HN; subst. constructor; [|apply IH; auto; intros; apply HL; right; auto].
    rewrite in_map_iff. intros (y & E & Hy).
    assert (D : (p | a * (x - y))).
    { apply Z.mod_divide; [lia|]. rewrite Z.mul_sub_distr_l.
      rewrite Zminus_mod, <- E, Z.sub_diag. apply Z.mod_0_l; lia. }
    apply prime_mult in D; auto. destruct D as [D|D]; [auto|].
    assert (x = y); [|congruence].
    assert (1 <= x < p) by (apply HL; left; auto). assert (1 <= y < p) by (apply HL; right; auto).
    destruct D as [k Hk]. assert (k = 0) by nia. subst. lia. }
  assert (P : Permutation M L).
  { apply NoDup_Permutation_bis; auto. unfold M. rewrite map_length. lia. }
  apply zprod_perm in P.
  pose proof (zprod_map_mul a p L ltac:(lia)) as E. fold M in E. rewrite P in E.
  assert (HLn : ~ (p | zprod L)).
  { apply prime_not_divide_prod; auto. intros x Hx D.
    apply residues_in in Hx; [|lia]. apply Z.divide_pos_le in D; lia. }
  assert (LL : Z.of_nat (length L) = p - 1).
  { unfold L, residues. rewrite map_length, seq_length. lia. }
  rewrite LL in E.
  assert (D : (p | (a ^ (p-1) - 1) * zprod L)).
  { apply Z.mod_divide; [lia|].
    replace ((a ^ (p - 1) - 1) * zprod L) with (a ^ (p - 1) * zprod L - zprod L) by ring.
    rewrite Zminus_mod, <- E, Z.sub_diag. apply Z.mod_0_l; lia. }
  apply prime_mult in D; auto. destruct D as [D|D]; [|contradiction].
  destruct D as [k Hk].
  replace (a ^ (p-1)) with (1 + k * p) by lia.
  rewrite Z.mod_add by lia. apply Z.mod_small; lia.
Qed.

(** ** Powers modulo n and gcd of exponents *)
Lemma pow_one_mod a n x y : 1 < n -> 0 <= x -> 0 <= y ->
  a ^ x mod n = 1 -> a ^ (x * y) mod n = 1.
Proof.
  intros Hn Hx Hy H. rewrite Z.pow_mul_r by lia.
  rewrite Zpower_mod, H by lia. rewrite Z.pow_1_l by lia. apply Z.mod_small; lia.
Qed.

Lemma pow_cancel_mod a n x y : 1 < n -> 0 <= x -> 0 <= y ->
  a ^ y mod n = 1 -> a ^ (x + y) mod n = 1 -> a ^ x mod n = 1.
Proof.
  intros Hn Hx Hy H1 H2. rewrite Z.pow_add_r in H2 by lia.
  rewrite Zmult_mod, H1, Z.mul_1_r, Z.mod_mod in H2 by lia. exact H2.
Qed.

Lemma pow_gcd_mod a n x y : 1 < n -> 0 < x -> 0 < y ->
  a ^ x mod n = 1 -> a ^ y mod n = 1 -> a ^ (Z.gcd x y) mod n = 1.
Proof.
  intros Hn Hx Hy H1 H2.
  destruct (Z.gcd_bezout x y _ eq_refl) as (u & v & E).
  (* make the coefficients have known signs: u + k y >= 0 , k x - v >= 0 *)
  pose (k := Z.abs u + Z.abs v).
  apply (pow_cancel_mod a n (Z.gcd x y) (y * (k * x - v))).
  - lia.
  - apply Z.gcd_nonneg.
  - unfold k. nia.
  - apply pow_one_mod; unfold k; try lia; nia.
  - replace (Z.gcd x y + y * (k * x - v)) with (x * (u + k * y)) by (rewrite <- E; ring).
    apply pow_one_mod; unfold k; try lia; nia.
Qed.

(** Any integer > 1 has a prime divisor. *)
Lemma prime_divisor_exists n : 1 < n -> exists r, prime r /\ (r | n).
Proof.
  intros Hn. assert (G : forall m, 0 <= m -> forall n, 1 < n <= m -> exists r, prime r /\ (r | n)).
  { intros m Hm. pattern m. apply natlike_ind; [| |exact Hm].
    - intros; lia.
    - clear. intros m Hm IH n Hn. destruct (prime_dec n) as [P|P].
      + exists n. split; auto. apply Z.divide_refl.
      + apply not_prime_divide in P; [|lia]. destruct P as (q & Hq & D).
        destruct (IH q) as (r & Hr & D'); [lia|]. exists r. split; auto.
        eapply Z.divide_trans; eauto. }
  apply (G n); lia.
Qed.

Lemma prime_divides_zprod q fs : prime q -> (forall x, In x fs -> prime x) -> (q | zprod fs) -> In q fs.
Proof.
  intros Hq. induction fs as [|x fs IH]; intros H D.
  - cbn in D. apply Z.divide_1_r in D. pose proof (prime_ge_2 q Hq). lia.
  - change (zprod (x :: fs)) with (x * zprod fs) in D. apply prime_mult in D; auto.
    destruct D as [D|D].
    + left. symmetry. apply prime_div_prime; auto. apply H. left; auto.
    + right. apply IH; auto. intros; apply H; right; auto.
Qed.

(** ** Pocklington's criterion: a factored part F of n-1 with F^2 > n suffices. *)
Theorem pocklington n a fs :
  1 < n -> (forall q, In q fs -> prime q) -> (zprod fs | n - 1) -> n < zprod fs * zprod fs -> 0 < zprod fs ->
  a ^ (n - 1) mod n = 1 ->
  (forall q, In q fs -> Z.gcd (a ^ ((n - 1) / q) - 1) n = 1) ->
  prime n.
Proof.
  intros Hn Hfs Hprod Hbig Fpos H1 Hq. set (F := zprod fs) in *.
  (* every prime divisor of n exceeds F *)
  assert (KEY : forall r, prime r -> (r | n) -> F < r).
  { intros r Hr Dr. pose proof (prime_ge_2 r Hr) as R2.
    assert (H1r : a ^ (n - 1) mod r = 1).
    { rewrite (Zmod_div_mod r n) by (lia || assumption). rewrite H1. apply Z.mod_small; lia. }
    destruct (Z.eq_dec n 2) as [->|N2].
    { exfalso. change (2 - 1) with 1 in Hprod. apply Z.divide_1_r_nonneg in Hprod; [|lia]. rewrite Hprod in Hbig. lia. }
    assert (Hra : ~ (r | a)).
    { intros [k ->]. rewrite Z.pow_mul_l in H1r.
      replace (n - 1) with (Z.succ (n - 2)) in H1r by lia.
      rewrite (Z.pow_succ_r r) in H1r by lia.
      replace (k ^ Z.succ (n - 2) * (r * r ^ (n - 2))) with (k ^ Z.succ (n - 2) * r ^ (n - 2) * r) in H1r by ring.
      rewrite Z.mod_mul in H1r by lia. lia. }
    pose proof (fermat r a Hr Hra) as HF.
    set (g := Z.gcd (n - 1) (r - 1)).
    assert (Hg : a ^ g mod r = 1) by (apply pow_gcd_mod; lia || assumption).
    assert (g0 : 0 < g).
    { pose proof (Z.gcd_nonneg (n - 1) (r - 1)). unfold g.
      destruct (Z.eq_dec (Z.gcd (n-1) (r-1)) 0) as [E|E]; [|lia]. apply Z.gcd_eq_0 in E. lia. }
    destruct (Z.gcd_divide_l (n - 1) (r - 1)) as [m Hm]. fold g in Hm.
    (* F divides g *)
    assert (DF : (F | g)).
    { set (h := Z.gcd F g).
      assert (h0 : 0 < h).
      { pose proof (Z.gcd_nonneg F g). unfold h. destruct (Z.eq_dec (Z.gcd F g) 0) as [E|E]; [|lia].
        apply Z.gcd_eq_0 in E. lia. }
      destruct (Z.gcd_divide_l F g) as [F' HF']. fold h in HF'.
      destruct (Z.gcd_divide_r F g) as [g' Hg']. fold h in Hg'.
      destruct (Z.eq_dec F' 1) as [E|NE]; [exists g'; rewrite HF', E, Z.mul_1_l; exact Hg'|].
      exfalso. assert (1 < F') by nia.
      assert (RP : rel_prime F' g').
      { apply Zgcd_1_rel_prime.
        assert (E : h = h * Z.gcd F' g').
        { unfold h at 1. rewrite HF', Hg', Z.gcd_mul_mono_r_nonneg by lia. ring. }
        clear -E h0; nia. }
      assert (Dm : (F' | m)).
      { apply (Gauss F' g' m); [|exact RP].
        destruct Hprod as [c Hc]. exists c.
        assert (E : g' * m * h = c * F' * h) by (rewrite <- (Z.mul_assoc c), <- HF', <- Hc, Hm, Hg'; ring).
        clear -E h0; nia. }
      destruct (prime_divisor_exists F') as (q & Pq & Dq); [lia|].
      pose proof (prime_ge_2 q Pq) as Q2.
      assert (Iq : In q fs).
      { apply prime_divides_zprod; auto. fold F. rewrite HF'. apply Z.divide_mul_l, Dq. }
      destruct (Z.divide_trans _ _ _ Dq Dm) as [m' Hm'].
      specialize (Hq q Iq).
      assert (E : (n - 1) / q = g * m').
      { rewrite Hm, Hm'. replace (m' * q * g) with (g * m' * q) by ring. apply Z.div_mul; lia. }
      rewrite E in Hq.
      assert (m0 : 0 < m) by (clear -Hm g0 Hn; nia).
      assert (m' >= 0) by (clear -m0 Hm' Q2; nia).
      assert (X : a ^ (g * m') mod r = 1) by (apply pow_one_mod; lia || assumption).
      assert (D : (r | a ^ (g * m') - 1)).
      { apply Z.mod_divide; [lia|]. rewrite Zminus_mod.
        rewrite X, (Z.mod_small 1 r) by lia. rewrite Z.sub_diag. apply Z.mod_0_l; lia. }
      assert (D1 : (r | 1)). { rewrite <- Hq. apply Z.gcd_greatest; assumption. }
      apply Z.divide_1_r in D1. lia. }
    assert (D : (F | r - 1)). { eapply Z.divide_trans; [exact DF|apply Z.gcd_divide_r]. }
    apply Z.divide_pos_le in D; lia. }
  destruct (prime_dec n) as [P|P]; [exact P|exfalso].
  apply not_prime_divide in P; [|lia]. destruct P as (q & Hq1 & [q' Hq2]).
  assert (1 < q') by nia.
  destruct (prime_divisor_exists q) as (r & Pr & Dr); [lia|].
  destruct (prime_divisor_exists q') as (r' & Pr' & Dr'); [lia|].
  assert (F < r) by (apply KEY; auto; rewrite Hq2; apply Z.divide_mul_r, Dr).
  assert (F < r') by (apply KEY; auto; rewrite Hq2; apply Z.divide_mul_l, Dr').
  apply Z.divide_pos_le in Dr; [|lia]. apply Z.divide_pos_le in Dr'; [|lia]. nia.
Qed.

Definition powmod (a e n : Z) : Z :=
  match e with Zpos e => zpowmod a e n | _ => 1 mod n end.

Lemma powmod_ok a e n : 1 < n -> 0 <= e -> powmod a e n = a ^ e mod n.
Proof.
  intros Hn He. destruct e as [|e|e]; [reflexivity| |lia].
  apply zpowmod_ok; lia.
Qed.

