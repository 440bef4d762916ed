(** A point that no buffer is mapped to: 16 times the base point.  The points of the quartic above its coset are listed
    with the square roots that show that none of them is the image of a field element. *)
From Coq Require Import ZArith List Lia Bool Field.
From Verif Require Import Words Primes Fp Edwards GroupOrder RistrettoSpec ElligatorSpec ElligatorMath FieldLaws FieldModel CurveModel RistrettoModel Backends.
From Verif Require Points51 UniformFacts.
Import ListNotations.
Open Scope Z_scope.
Open Scope F_scope.

Lemma add_coords P Q x y : x * (F1 + Fd * ex P * ex Q * ey P * ey Q) = ex P * ey Q + ex Q * ey P ->
  y * (F1 - Fd * ex P * ex Q * ey P * ey Q) = ey P * ey Q + ex P * ex Q -> ex (Eadd P Q) = x /\ ey (Eadd P Q) = y.
Proof.
  intros h1 h2. pose proof (complete_p _ _ _ _ (E_on P) (E_on Q)) as n1. pose proof (complete_m _ _ _ _ (E_on P) (E_on Q)) as n2.
  cbn [Eadd mkE' ex ey]. unfold addx, addy. split.
  - apply (Fmul_cancel_l (F1 + Fd * ex P * ex Q * ey P * ey Q)); [exact n1|]. transitivity (x * (F1 + Fd * ex P * ex Q * ey P * ey Q)); [rewrite h1; field; exact n1 | ring].
  - apply (Fmul_cancel_l (F1 - Fd * ex P * ex Q * ey P * ey Q)); [exact n2|]. transitivity (y * (F1 - Fd * ex P * ex Q * ey P * ey Q)); [rewrite h2; field; exact n2 | ring].
Qed.
(** the coordinates of 2 P, with the products that both have in common *)
Definition dblb (x y x' y' : F) : bool :=
  let xy := x * y in let k := Fd * (xy * xy) in
  Feqb (x' * (F1 + k)) (xy + xy) && Feqb (y' * (F1 - k)) (y * y + x * x).
Lemma dbl_coords P x y x' y' : ex P = x -> ey P = y -> dblb x y x' y' = true -> ex (Eadd P P) = x' /\ ey (Eadd P P) = y'.
Proof.
  intros <- <- h. unfold dblb in h. cbv zeta in h. apply andb_prop in h. destruct h as [h1 h2]. apply Feqb_eq in h1, h2. apply add_coords.
  - transitivity (x' * (F1 + Fd * (ex P * ey P * (ex P * ey P)))); [ring|]. rewrite h1. ring.
  - transitivity (y' * (F1 - Fd * (ex P * ey P * (ex P * ey P)))); [ring|]. rewrite h2. ring.
Qed.

Definition ux2 : F := of_Z 24727413235106541002554574571675588834622768167397638456726423682521233608206.
Definition uy2 : F := of_Z 15549675580280190176352668710449542251549572066445060580507079593062643049417.
Definition ux4 : F := of_Z 14582954232372986451776170844943001818709880559417862259286374126315108956272.
Definition uy4 : F := of_Z 32483318716863467900234833297694612235682047836132991208333042722294373421359.
Definition ux8 : F := of_Z 46706390780465557264338673484185971070529246228527338942042475661633188627656.
Definition uy8 : F := of_Z 15299170165656271974649334809062094114079726227711063015095704409550798436788.
Definition ux16 : F := of_Z 16121637619009607773439840283436156467545443443832420589584197780484295031288.
Definition uy16 : F := of_Z 50925107901044861941301590032293890690813323578124472818968980802518735333355.
Lemma u2 : dblb (of_Z Bx) (of_Z By) ux2 uy2 = true. Proof. vm_compute. reflexivity. Qed.
Lemma u4 : dblb ux2 uy2 ux4 uy4 = true. Proof. vm_compute. reflexivity. Qed.
Lemma u8 : dblb ux4 uy4 ux8 uy8 = true. Proof. vm_compute. reflexivity. Qed.
Lemma u16 : dblb ux8 uy8 ux16 uy16 = true. Proof. vm_compute. reflexivity. Qed.
Definition twice (A : E) : E := Eadd A A.
Definition U : E := twice (twice (twice (twice EB))).
Lemma U_coords : ex U = ux16 /\ ey U = uy16.
Proof.
  destruct (dbl_coords EB _ _ _ _ eq_refl eq_refl u2) as [a1 b1]. destruct (dbl_coords _ _ _ _ _ a1 b1 u4) as [a2 b2].
  destruct (dbl_coords _ _ _ _ _ a2 b2 u8) as [a3 b3]. exact (dbl_coords _ _ _ _ _ a3 b3 u16).
Qed.

(** (s, t) is above the point (x, y), and w1, w2 are square roots for (s, t) and (-s, -t) *)
Definition aboveb (x y s t w1 w2 : F) : bool :=
  let s2 := s * s in let s4 := s2 * s2 in let a1 := inv_a t in let a2 := inv_a (- t) in
  negb (Feqb s F0) && negb (Feqb x F0) && Feqb (x * t) (of_Z 2 * Fisdm1 * s) && Feqb (y * (F1 + s2)) (F1 - s2) &&
  Feqb (w1 * w1) (s4 - a1 * a1) && Feqb (w2 * w2) (s4 - a2 * a2).
Lemma above_none A x y s t w1 w2 f : ex A = x -> ey A = y -> aboveb x y s t w1 w2 = true -> rfc_map f A -> False.
Proof.
  intros hx hy h hm. unfold aboveb in h. cbv zeta in h.
  apply andb_prop in h; destruct h as [h h6]. apply andb_prop in h; destruct h as [h h5]. apply andb_prop in h; destruct h as [h h4].
  apply andb_prop in h; destruct h as [h h3]. apply andb_prop in h; destruct h as [h1 h2].
  apply Feqb_eq in h3, h4, h5, h6. apply negb_true_iff in h1, h2.
  assert (s0 : s <> F0) by (intro e; rewrite e in h1; rewrite (Feqb_refl' F0) in h1; discriminate h1).
  assert (x0 : ex A <> F0) by (intro e; rewrite <- hx, e in h2; rewrite (Feqb_refl' F0) in h2; discriminate h2).
  rewrite <- hx in h3. rewrite <- hy in h4. pose proof (below_intro A s t x0 h3 h4) as hb.
  destruct (rfc_ell f A hm) as (s' & t' & he & hb').
  destruct (below_same s t s' t' A hb hb' s0) as [[e1 e2]|[e1 e2]]; rewrite e1, e2 in he.
  - destruct (inv_complete s t (inv_a t) f he s0 (inv_a_eq t)) as [_ q]. apply q. exists w1. exact h5.
  - assert (s0' : - s <> F0) by (intro e; apply s0; transitivity (- - s); [ring|]; rewrite e; ring).
    destruct (inv_complete (- s) (- t) (inv_a (- t)) f he s0' (inv_a_eq (- t))) as [_ q]. apply q. exists w2. rewrite h6. ring.
Qed.

Lemma above0 : aboveb ux16 uy16 (of_Z 50105645323530451446831155173533281175465062187103132836010844684154050470600) (of_Z 37424540659319827765671633050749032849925189223380621815105906866760662708590)
  (of_Z 51214689973697650430205603396089162981392958702981909135706307430827395831434) (of_Z 35640746359310638639417383285693252141769260798765902818804100683235179072616) = true.
Proof. vm_compute. reflexivity. Qed.
Lemma above1 : aboveb (- ux16) (- uy16) (of_Z 17408090980971518313074674966188396445361412219526729326800431603326981850230) (of_Z 12538264929148461052904117822015680875688128532294688480915735724198138861775)
  (of_Z 1014315403169034193228516678533732110736396901038990640226567270866274021066) (of_Z 30277126798280900027674595146128893124860783201660808252027038192866120167866) = true.
Proof. vm_compute. reflexivity. Qed.
Lemma above2 : aboveb (Fi * uy16) (Fi * ux16) (of_Z 24441594585581887561869161375209913798490276770346900760474363088685378881318) (of_Z 11999313256060400319024290182486260498090855417068983556692398857081012342834)
  (of_Z 7033700247320198658265695049196312488357115152800947693362314105960153977460) (of_Z 13040268983573706179650767130974891083239976148734050782596987200216833918638) = true.
Proof. vm_compute. reflexivity. Qed.
Lemma above3 : aboveb (- Fi * uy16) (- Fi * ux16) (of_Z 31231289462097185161213843278370146732638870484119527591618352119261012276748) (of_Z 18105451493798134987584819061724810340922921452354772328586315329513177742503)
  (of_Z 18921260675940471117426737823198078547961178675693581583857101436570756704052) (of_Z 35390453512127908619402772564171572579471299901385927989710506605328230285854) = true.
Proof. vm_compute. reflexivity. Qed.

Theorem U_none f A : rfc_map f A -> ~ Req A U.
Proof.
  intros hm hR. apply Req_coset in hR. destruct U_coords as [ux uy]. destruct hR as [e|[e|[e|e]]].
  - apply (above_none A _ _ _ _ _ _ f (eq_trans (f_equal ex e) ux) (eq_trans (f_equal ey e) uy) above0 hm).
  - destruct (add_coords U T2 (- ux16) (- uy16)) as [a b]; [cbn [T2 mkE' ex ey]; rewrite ux, uy; ring | cbn [T2 mkE' ex ey]; rewrite ux, uy; ring|].
    apply (above_none A _ _ _ _ _ _ f (eq_trans (f_equal ex e) a) (eq_trans (f_equal ey e) b) above1 hm).
  - destruct (add_coords U T4 (Fi * uy16) (Fi * ux16)) as [a b]; [cbn [T4 mkE' ex ey]; rewrite ux, uy; ring | cbn [T4 mkE' ex ey]; rewrite ux, uy; ring|].
    apply (above_none A _ _ _ _ _ _ f (eq_trans (f_equal ex e) a) (eq_trans (f_equal ey e) b) above2 hm).
  - destruct (add_coords U T4' (- Fi * uy16) (- Fi * ux16)) as [a b]; [cbn [T4' mkE' ex ey]; rewrite ux, uy; ring | cbn [T4' mkE' ex ey]; rewrite ux, uy; ring|].
    apply (above_none A _ _ _ _ _ _ f (eq_trans (f_equal ex e) a) (eq_trans (f_equal ey e) b) above3 hm).
Qed.

Definition sixteen b := pt_Double (ops b) (pt_Double (ops b) (pt_Double (ops b) (pt_Double (ops b) (pt_SetBase (ops b))))).
Lemma twice_Req A B : Req A B -> Req (twice A) (twice B).
Proof. intro h. apply Req_add; exact h. Qed.
Lemma dbl_step b P V : (exists A, point b P A /\ Req A V) -> exists A, point b (pt_Double (ops b) P) A /\ Req A (twice V).
Proof. intros (A & h & e). exists (twice A). split; [exact (proj1 (b_double b P A h)) | exact (twice_Req A V e)]. Qed.
Lemma base_step b : exists A, point b (pt_SetBase (ops b)) A /\ Req A EB.
Proof. exists (Eadd EB T4'). split; [exact (proj1 (proj2 (b_const b)))|]. apply Req_coset. right. right. right. reflexivity. Qed.
Lemma sixteen_pt b : exists A, point b (sixteen b) A /\ Req A U.
Proof. exact (dbl_step b _ _ (dbl_step b _ _ (dbl_step b _ _ (dbl_step b _ _ (base_step b))))). Qed.
(** C44_elligator for all builds *)
Lemma elligator_count b P A : point b P A -> exists bs, (length bs <= 54)%nat /\
  forall t, bytes 32 t -> pt_Equals (ops b) (pt_SetElligator (ops b) t) P = true -> In t bs.
Proof.
  intro h. destruct (b_roundtrip b PureGo64 P A h) as (Q & C & _ & hQ & hin). apply Points51.Req_torsion in hin.
  assert (hv : Points51.valid Q) by (exists C; apply Points51.elt_point; apply (sm_point PureGo64 Q C); exact (conj hQ I)).
  destruct (UniformFacts.elligator_count Q hv) as (bs & hl & hi). exists bs. split; [exact hl|]. intros t ht e. apply (hi t ht).
  destruct (b_elligator b t ht) as (D & hD & hm). destruct (b_elligator PureGo64 t ht) as (D' & hD' & hm').
  rewrite (rfc_map_unique _ _ _ hm' hm) in hD'.
  apply (proj1 (b_equals b _ _ D A (proj1 hD) h)) in e. apply Points51.Req_torsion in e.
  apply (proj1 (b_equals PureGo64 _ _ D C (proj1 hD') hQ)). apply Points51.Req_torsion. exact (Req_trans _ _ _ e (Req_sym _ _ hin)).
Qed.
Theorem rand_misses b t : bytes 32 t -> pt_Equals (ops b) (pt_Rand (ops b) t) (sixteen b) = false.
Proof.
  intro ht. destruct (b_elligator b t ht) as (A & hA & hm). destruct (sixteen_pt b) as (C & hC & hR).
  destruct (pt_Equals (ops b) (pt_Rand (ops b) t) (sixteen b)) eqn:e; [exfalso|reflexivity].
  apply (proj1 (b_equals b _ _ A C (proj1 hA) hC)) in e. apply Points51.Req_torsion in e. exact (U_none _ A hm (Req_trans _ _ _ e hR)).
Qed.
Theorem derive_misses b h m : bytes 64 (h m) -> pt_Equals (ops b) (pt_Derive (ops b) h m) (sixteen b) = false.
Proof.
  intros [hl hf]. apply (rand_misses b). rewrite <- (firstn_skipn 32 (h m)) in hf. apply Forall_app in hf. split; [|exact (proj1 hf)].
  rewrite firstn_length, hl. reflexivity.
Qed.
Theorem not_onto b : exists P A, point b P A /\
  (forall t, bytes 32 t -> pt_Equals (ops b) (pt_Rand (ops b) t) P = false) /\
  (forall h m, bytes 64 (h m) -> pt_Equals (ops b) (pt_Derive (ops b) h m) P = false).
Proof. destruct (sixteen_pt b) as (A & h & _). exists (sixteen b), A. exact (conj h (conj (rand_misses b) (derive_misses b))). Qed.
