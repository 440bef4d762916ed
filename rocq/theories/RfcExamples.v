(** Test vectors of RFC 9496, appendix A, for the transcription in Rfc9496.v; and a case where Derive differs from
    the derivation of the RFC. *)
From Coq Require Import ZArith List Lia Bool.
From Verif Require Import Words Primes Fp Edwards GroupOrder RistrettoSpec FieldModel CurveModel FieldLaws EncodeProofs
  RistrettoModel RistrettoFacts ElligatorSpec ElligatorMath LizardProofs Backends RfcProofs RfcFacts.
From Verif Require Rfc9496 Points51.
Import ListNotations.
Open Scope Z_scope.

(** A certificate for a vector: the canonical representative of the class. *)
Lemma vector n s x y (on : on_curveb (of_Z x) (of_Z y) = true) :
  Fneg (of_Z s) = false -> (of_Z y * (F1 + of_Z s * of_Z s))%F = (F1 - of_Z s * of_Z s)%F ->
  Fneg (of_Z x) = false -> Fneg (of_Z x * of_Z y)%F = false -> of_Z y <> F0 ->
  Rfc9496.EQUALS (Rfc9496.MULT n Rfc9496.GENERATOR) (x, y, 1, Rfc9496.fmul x y) = true ->
  Rfc9496.ENCODE (Rfc9496.MULT n Rfc9496.GENERATOR) = le_bytes 32 (s mod p).
Proof.
  intros h1 h2 h3 h4 h5 he. set (A := mkE (of_Z x) (of_Z y) on).
  assert (sA : stands (x, y, 1, Rfc9496.fmul x y) A).
  { cbn [stands]. rewrite z_mul. change (ex A) with (of_Z x). change (ey A) with (of_Z y). change (of_Z 1) with F1.
    refine (conj F1_neq_0 (conj _ (conj _ _))); ring. }
  apply (equals_ok _ _ _ A (mult_ok n _ EB generator_ok) sA) in he.
  rewrite <- fval_of_Z. apply (enc_class _ _ (mult_ok n _ EB generator_ok) (even_mul _ _ even_B) (of_Z s) A); [|exact he].
  exists A. split; [apply Req_refl|]. exact (conj h1 (conj h2 (conj h3 (conj h4 h5)))).
Qed.

(** Appendix A.1: multiples of the generator *)
Lemma rfc_vectors :
  Rfc9496.ENCODE (Rfc9496.MULT 1 Rfc9496.GENERATOR) =
    [0xe2; 0xf2; 0xae; 0x0a; 0x6a; 0xbc; 0x4e; 0x71; 0xa8; 0x84; 0xa9; 0x61; 0xc5; 0x00; 0x51; 0x5f; 0x58; 0xe3; 0x0b; 0x6a; 0xa5; 0x82; 0xdd; 0x8d; 0xb6; 0xa6; 0x59; 0x45; 0xe0; 0x8d; 0x2d; 0x76] /\
  Rfc9496.ENCODE (Rfc9496.MULT 2 Rfc9496.GENERATOR) =
    [0x6a; 0x49; 0x32; 0x10; 0xf7; 0x49; 0x9c; 0xd1; 0x7f; 0xec; 0xb5; 0x10; 0xae; 0x0c; 0xea; 0x23; 0xa1; 0x10; 0xe8; 0xd5; 0xb9; 0x01; 0xf8; 0xac; 0xad; 0xd3; 0x09; 0x5c; 0x73; 0xa3; 0xb9; 0x19] /\
  Rfc9496.ENCODE (Rfc9496.MULT 3 Rfc9496.GENERATOR) =
    [0x94; 0x74; 0x1f; 0x5d; 0x5d; 0x52; 0x75; 0x5e; 0xce; 0x4f; 0x23; 0xf0; 0x44; 0xee; 0x27; 0xd5; 0xd1; 0xea; 0x1e; 0x2b; 0xd1; 0x96; 0xb4; 0x62; 0x16; 0x6b; 0x16; 0x15; 0x2a; 0x9d; 0x02; 0x59].
Proof.
  refine (conj _ (conj _ _)).
  - assert (on : on_curveb (of_Z 7413488746097234319268533557746747958297143720389000677696299943083562100178) (of_Z 9771384041963202563870679428059935816164187996444183106833894008023910952347) = true) by (vm_compute; reflexivity).
    rewrite (vector 1 53453403443306840533278073560698739391446669128918427283046925944918568268514 _ _ on) by (first [apply F_eq; vm_compute; reflexivity | vm_compute; reflexivity | intro h; apply (f_equal fval) in h; vm_compute in h; discriminate h]). vm_compute. reflexivity.
  - assert (on : on_curveb (of_Z 14442684866168677974544021779551810609798007706242310888508277935369581306166) (of_Z 49796076677914003689339522779362816288045996896718414853865740410528934845924) = true) by (vm_compute; reflexivity).
    rewrite (vector 2 11635816016306827767395297108041383048417969937796188516319649271592942455146 _ _ on) by (first [apply F_eq; vm_compute; reflexivity | vm_compute; reflexivity | intro h; apply (f_equal fval) in h; vm_compute in h; discriminate h]). vm_compute. reflexivity.
  - assert (on : on_curveb (of_Z 46896733464454938657123544595386787789046198280132665686241321779790909858396) (of_Z 8324843778533443976490377120369201138301417226297555316741202210403726505172) = true) by (vm_compute; reflexivity).
    rewrite (vector 3 40260461926755251955718706939243089925229788613177830462037219643110335673492 _ _ on) by (first [apply F_eq; vm_compute; reflexivity | vm_compute; reflexivity | intro h; apply (f_equal fval) in h; vm_compute in h; discriminate h]). vm_compute. reflexivity.
Qed.

(** Appendix A.2: some invalid encodings, non-canonical or negative *)
Lemma rfc_invalid : Forall (fun b => Rfc9496.DECODE b = None) [
  [0x00; 0xff; 0xff; 0xff; 0xff; 0xff; 0xff; 0xff; 0xff; 0xff; 0xff; 0xff; 0xff; 0xff; 0xff; 0xff; 0xff; 0xff; 0xff; 0xff; 0xff; 0xff; 0xff; 0xff; 0xff; 0xff; 0xff; 0xff; 0xff; 0xff; 0xff; 0xff];
  [0xff; 0xff; 0xff; 0xff; 0xff; 0xff; 0xff; 0xff; 0xff; 0xff; 0xff; 0xff; 0xff; 0xff; 0xff; 0xff; 0xff; 0xff; 0xff; 0xff; 0xff; 0xff; 0xff; 0xff; 0xff; 0xff; 0xff; 0xff; 0xff; 0xff; 0xff; 0x7f];
  [0xf3; 0xff; 0xff; 0xff; 0xff; 0xff; 0xff; 0xff; 0xff; 0xff; 0xff; 0xff; 0xff; 0xff; 0xff; 0xff; 0xff; 0xff; 0xff; 0xff; 0xff; 0xff; 0xff; 0xff; 0xff; 0xff; 0xff; 0xff; 0xff; 0xff; 0xff; 0x7f];
  [0xed; 0xff; 0xff; 0xff; 0xff; 0xff; 0xff; 0xff; 0xff; 0xff; 0xff; 0xff; 0xff; 0xff; 0xff; 0xff; 0xff; 0xff; 0xff; 0xff; 0xff; 0xff; 0xff; 0xff; 0xff; 0xff; 0xff; 0xff; 0xff; 0xff; 0xff; 0x7f];
  [0x01; 0x00; 0x00; 0x00; 0x00; 0x00; 0x00; 0x00; 0x00; 0x00; 0x00; 0x00; 0x00; 0x00; 0x00; 0x00; 0x00; 0x00; 0x00; 0x00; 0x00; 0x00; 0x00; 0x00; 0x00; 0x00; 0x00; 0x00; 0x00; 0x00; 0x00; 0x00];
  [0x01; 0xff; 0xff; 0xff; 0xff; 0xff; 0xff; 0xff; 0xff; 0xff; 0xff; 0xff; 0xff; 0xff; 0xff; 0xff; 0xff; 0xff; 0xff; 0xff; 0xff; 0xff; 0xff; 0xff; 0xff; 0xff; 0xff; 0xff; 0xff; 0xff; 0xff; 0x7f]].
Proof. repeat constructor. Qed.

(** ** Derive *)
Lemma map_1 A : rfc_map (of_Z 1) A -> ~ In A [E0; T2; T4; T4'].
Proof.
  intros h hi. assert (hA : ex A = F0 \/ ey A = F0).
  { apply E4_iff. apply E4_list. destruct hi as [<-|[<-|[<-|[<-|[]]]]]; auto. }
  destruct (rfc_ell _ A h) as (s & t & he & hb & hx & hy).
  assert (s0 : s <> F0).
  { intro e. apply (ell_s0 _ s t he) in e. destruct e as [e|[e|e]]; apply (f_equal fval) in e; vm_compute in e; discriminate e. }
  destruct hA as [hA|hA].
  - apply s0. apply (below_x0 s t A (conj hb (conj hx hy)) hA).
  - rewrite hA in hy. assert (e : (s * s)%F = F1).
    { symmetry. apply Fsub_0. rewrite <- hy. ring. }
    destruct he as [(_ & e1 & _)|[(_ & _ & _ & e1 & _)|(_ & _ & _ & e1 & _)]]; [destruct (s0 e1) | |];
      rewrite e in e1; apply (f_equal fval) in e1; vm_compute in e1; discriminate e1.
Qed.
Lemma r_derive_no b : exists h buf, bytes 64 (h buf) /\ pt_Bytes (ops b) (pt_Derive (ops b) h buf) <> Rfc9496.ENCODE (Rfc9496.DERIVE (h buf)).
Proof.
  set (f := le_bytes 32 1). assert (hf : bytes 32 f) by apply le_bytes_bytes.
  exists (fun _ => f ++ f), []. cbv beta.
  assert (hff : bytes 64 (f ++ f)) by (split; [reflexivity | apply Forall_app; split; apply hf]).
  refine (conj hff _).
  destruct (r_derive b (fun _ => f ++ f) [] hff) as (_ & <- & _). unfold pt_Derive, pt_DeriveDalek. cbv zeta beta.
  change (firstn 32 (f ++ f)) with f. change (skipn 32 (f ++ f)) with f.
  destruct (b_elligator b f hf) as (A & hA & mA). destruct (b_add b _ _ A A (proj1 hA) hA) as [[hP _] _].
  intro e. apply (b_bytes b b _ _ _ _ (proj1 hA) hP) in e. rewrite <- Points51.Req_torsion in e. apply Req_sym in e. unfold Req, Esub in e.
  rewrite <- Eadd_assoc, Eadd_opp, Eadd_0_r in e. apply (map_1 A).
  - replace (of_Z 1) with (fe_of f) by (apply F_eq; vm_compute; reflexivity). exact mA.
  - apply E4_list in e. cbn [In]. destruct e as [->|[->|[->| ->]]]; auto.
Qed.
