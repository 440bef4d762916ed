(** Property C63: the errors that UnmarshalBinary, UnmarshalText and LizardInto return.

    ErrorModel.v has the errors ([PointSize], [ScalarSize], [NotAPoint], [CorruptInput], [NoPreimage], [ManyPreimages]) and
    the result of a call: [Ret state error], with [None] for nil, or [Panics].
    ErrorFacts.v: [erase] forgets the error; [fine] characters are accepted or skipped by the base64 decoder; [corrupt_at i]
    says that [i] is the index of the first other character, or of the last character if the number of base64 characters is 1
    modulo 4; [b64_size n] that the text decodes to [n] bytes.
    ErrorText.v: [digit64] and [digit16] read characters as digits, [be] reads digits as a number, and [text_bytes txt buf]
    says that the text stands for the bytes [buf]: as a number in hexadecimal, or in base 64 without the last two bits.
    [holds b P d]: SetLizard maps the data [d] to [P]. *)
From Coq Require Import ZArith List Lia Bool String.
From Verif Require Import Words Primes Fp Edwards RistrettoSpec FieldModel CurveModel FieldLaws ScalarCode ScalarModel ScalarReduce ScalarSub ScalarFacts
  TextCodec RistrettoModel RistrettoFacts Sha256 Text51 StringModel ErrorModel Backends ErrorFacts ErrorText ErrorProofs.
Import ListNotations.
Open Scope Z_scope.
Local Notation length := List.length.

(** An error is returned exactly where the models of C12, C33, C34 and C32 say that the call fails, with the same state. *)
Theorem C63_erase : forall b P s data txt H buf,
  erase (er_pt_UnmarshalBinary (ops b) P data) = (let r := pt_UnmarshalBinary (ops b) P data in if fst r then Done (snd r) else Fail (snd r)) /\
  erase (er_pt_UnmarshalText (ops b) P txt) = pt_UnmarshalText (ops b) P txt /\
  erase (er_sc_UnmarshalBinary s data) = (let r := sc_unmarshalBinary s data in if snd r then Done (fst r) else Fail (fst r)) /\
  erase (er_sc_UnmarshalText s txt) = sc_UnmarshalText s txt /\
  erase (er_pt_LizardInto (ops b) H P buf) =
    (let '(e, d, Q) := pt_LizardInto (ops b) H P buf in match e with lizard_nil => Done (d, Q) | _ => Fail (d, Q) end).
Proof. exact x_erase. Qed.
Print Assumptions C63_erase.

(** Scalar.UnmarshalBinary *)
Theorem C63_scalar_size : forall s data, length data <> 32%nat -> er_sc_UnmarshalBinary s data = Ret s (Some (ScalarSize (length data))).
Proof. exact x_sc_binary. Qed.
Print Assumptions C63_scalar_size.

Theorem C63_scalar_binary : forall s data, bytes 32 data ->
  exists r, er_sc_UnmarshalBinary s data = Ret r None /\ reduced r /\ scv r = (le_val data mod 2 ^ 253) mod l.
Proof. exact x_sc_binary_ok. Qed.
Print Assumptions C63_scalar_binary.

(** Point.UnmarshalBinary *)
Theorem C63_point_size : forall b P data, length data <> 32%nat -> er_pt_UnmarshalBinary (ops b) P data = Ret P (Some (PointSize (length data))).
Proof. exact x_pt_binary. Qed.
Print Assumptions C63_point_size.

Theorem C63_point_binary : forall b P data, bytes 32 data ->
  (exists Q A, er_pt_UnmarshalBinary (ops b) P data = Ret Q None /\ point b Q A /\ pt_Bytes (ops b) Q = data) \/
  (er_pt_UnmarshalBinary (ops b) P data = Ret (ep_zerovalue (ops b)) (Some NotAPoint) /\ forall c Q B, point c Q B -> pt_Bytes (ops c) Q <> data).
Proof. exact x_pt_binary_ok. Qed.
Print Assumptions C63_point_binary.

(** Scalar.UnmarshalText: the panic of C34; otherwise exactly one of the two errors, or the scalar that the text stands for. *)
Theorem C63_scalar_text : forall s txt,
  (er_sc_UnmarshalText s txt = Panics <-> over_long txt) /\
  forall r err, er_sc_UnmarshalText s txt = Ret r err ->
    (forall i, err = Some (CorruptInput i) <-> corrupt_at i txt) /\
    (forall n, err = Some (ScalarSize n) <-> b64_size n txt /\ n <> 32%nat) /\
    (err = None <-> exists buf, b64_text txt buf) /\
    (err <> None -> r = s /\ ((exists i, err = Some (CorruptInput i)) \/ (exists n, err = Some (ScalarSize n)))) /\
    (forall buf, b64_text txt buf -> reduced r /\ scv r = (le_val buf mod 2 ^ 253) mod l).
Proof. exact x_sc_text. Qed.
Print Assumptions C63_scalar_text.

(** Point.UnmarshalText *)
Theorem C63_point_text : forall b P txt,
  (er_pt_UnmarshalText (ops b) P txt = Panics <-> ~ hex64 txt /\ over_long txt) /\
  forall Q err, er_pt_UnmarshalText (ops b) P txt = Ret Q err ->
    (forall i, err = Some (CorruptInput i) <-> ~ hex64 txt /\ corrupt_at i txt) /\
    (forall n, err = Some (PointSize n) <-> ~ hex64 txt /\ b64_size n txt /\ n <> 32%nat) /\
    (err = Some NotAPoint <-> exists buf, text_bytes txt buf /\ forall c R B, point c R B -> pt_Bytes (ops c) R <> buf) /\
    (err = None <-> exists buf R B, text_bytes txt buf /\ point b R B /\ pt_Bytes (ops b) R = buf) /\
    match err with
    | None => exists A, point b Q A /\ text_bytes txt (pt_Bytes (ops b) Q)
    | Some NotAPoint => Q = ep_zerovalue (ops b)
    | Some (CorruptInput _) | Some (PointSize _) => Q = P
    | _ => False
    end.
Proof. exact x_pt_text. Qed.
Print Assumptions C63_point_text.

(** LizardInto, with SHA-256: nil for exactly one preimage, and the two errors for none and for several.  The buffer is left
    alone if there is none, and otherwise holds a preimage, even when an error is returned. *)
Theorem C63_lizard : forall b P A buf, point b P A -> exists d P' err, er_pt_LizardInto (ops b) sha256 P buf = Ret (d, P') err /\
  (err = None <-> exists d0, holds b P d0 /\ forall d1, holds b P d1 -> d1 = d0) /\
  (err = Some NoPreimage <-> forall d0, ~ holds b P d0) /\
  (err = Some ManyPreimages <-> exists d0 d1, holds b P d0 /\ holds b P d1 /\ d0 <> d1) /\
  (err = Some NoPreimage -> d = buf) /\ (err <> Some NoPreimage -> holds b P d).
Proof. exact x_lizard. Qed.
Print Assumptions C63_lizard.

(** Different errors have different messages (lengths and offsets are int). *)
Theorem C63_message : forall e e', small e -> small e' -> message e = message e' -> e = e'.
Proof. exact x_message. Qed.
Print Assumptions C63_message.

(** The texts of the messages (/repo/ristretto.go:300, 302, 340, 345, 381, 393, /repo/scalar.go:1043, 1075, and CorruptInputError of encoding/base64); [decimal] is C57. *)
Theorem C63_wording : message NotAPoint = codes "Buffer does not encode a ristretto.Point" /\
  message NoPreimage = codes "No Lizard preimage" /\ message ManyPreimages = codes "Multiple Lizard preimages" /\
  forall n, message (PointSize n) = codes "ristretto.Point should be 32 bytes; not " ++ decimal (Z.of_nat n) /\
    message (ScalarSize n) = codes "ristretto.Scalar should be 32 bytes; not " ++ decimal (Z.of_nat n) /\
    message (CorruptInput n) = codes "illegal base64 data at input byte " ++ decimal (Z.of_nat n).
Proof. exact (conj eq_refl (conj eq_refl (conj eq_refl (fun n => conj eq_refl (conj eq_refl eq_refl))))). Qed.
Print Assumptions C63_wording.

(** The message of Scalar.UnmarshalText for the text of a Scalar that is cut short; a character outside the alphabet; the
    offset for a lone sextet at the end is that of the last character, even if that is a newline; a text that is too long. *)
Example C63_ex : forall s,
  er_sc_UnmarshalText s (codes "AAAA") = Ret s (Some (ScalarSize 3)) /\
  message (ScalarSize 3) = codes "ristretto.Scalar should be 32 bytes; not 3" /\
  er_sc_UnmarshalText s (codes "AB*D") = Ret s (Some (CorruptInput 2)) /\
  message (CorruptInput 2) = codes "illegal base64 data at input byte 2" /\
  er_sc_UnmarshalText s (codes "AAAAA" ++ [10; 10]) = Ret s (Some (CorruptInput 6)) /\
  er_sc_UnmarshalText s (repeat 65 44) = Panics /\
  (forall b P, er_pt_UnmarshalText (ops b) P (codes "AA=") = Ret P (Some (CorruptInput 2))) /\
  (forall b P, er_pt_UnmarshalBinary (ops b) P (repeat 0 33) = Ret P (Some (PointSize 33))).
Proof.
  intro s. refine (conj _ (conj _ (conj _ (conj _ (conj _ (conj _ (conj _ _))))))).
  1-6: vm_compute; reflexivity.
  - intros b P. unfold er_pt_UnmarshalText.
    assert (e : er_textToBuf (repeat 0 32) (codes "AA=") = Ret (repeat 0 32) (Some (CorruptInput 2))) by (vm_compute; reflexivity).
    rewrite e. reflexivity.
  - intros b P. apply x_pt_binary. discriminate.
Qed.

(** 64 zeros are 32 zero bytes in hexadecimal, and 43 letters A in base 64; the last two bits of a text do not count. *)
Example C63_texts : text_bytes (repeat 48 64) (repeat 0 32) /\ text_bytes (repeat 65 43) (repeat 0 32) /\ text_bytes (repeat 65 42 ++ [68]) (repeat 0 32).
Proof.
  assert (B0 : bytes 32 (repeat 0 32)) by (split; [reflexivity|]; apply Forall_forall; intros x hx; apply repeat_spec in hx; subst x; unfold is_byte; lia).
  assert (D : forall c v, digit64 c v -> forall n, Forall2 digit64 (repeat c n) (repeat v n)) by (intros c v h n; induction n; cbn; constructor; assumption).
  assert (D' : forall c v, digit16 c v -> forall n, Forall2 digit16 (repeat c n) (repeat v n)) by (intros c v h n; induction n; cbn; constructor; assumption).
  assert (d0 : digit64 65 0) by (split; [lia | reflexivity]). assert (d3 : digit64 68 3) by (split; [lia | reflexivity]).
  refine (conj _ (conj _ _)).
  - left. exists (repeat 0 64). refine (conj (D' _ _ _ _) (conj eq_refl (conj B0 eq_refl))). split; [lia | left; reflexivity].
  - right. split; [intros [h _]; discriminate h|]. exists (repeat 0 43). exact (conj (D _ _ d0 43%nat) (conj eq_refl (conj B0 eq_refl))).
  - right. split; [intros [h _]; discriminate h|]. exists (repeat 0 42 ++ [3]).
    refine (conj _ (conj eq_refl (conj B0 eq_refl))). exact (Forall2_app (D _ _ d0 42%nat) (Forall2_cons _ _ d3 (Forall2_nil _))).
Qed.
