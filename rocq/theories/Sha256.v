(** SHA-256 (FIPS 180-4), which /repo/ristretto.go uses in SetLizard and LizardInto through
    crypto/sha256 (ristretto.go:250 and 287).  Models the standard, not Go's implementation of it. *)
From Coq Require Import ZArith List Lia Bool.
From Verif Require Import Words.
Import ListNotations.
Open Scope Z_scope.

(** FIPS 180-4, section 3.2 and 4.1.2 *)
Definition m32 (x : Z) : Z := Z.land x 4294967295.
Definition shr (n x : Z) : Z := Z.shiftr x n.
Definition rotr (n x : Z) : Z := Z.lor (Z.shiftr x n) (m32 (Z.shiftl x (32 - n))).
Definition Ch (x y z : Z) : Z := Z.lxor (Z.land x y) (Z.land (Z.lxor x 4294967295) z).
Definition Maj (x y z : Z) : Z := Z.lxor (Z.lxor (Z.land x y) (Z.land x z)) (Z.land y z).
Definition Sig0 (x : Z) : Z := Z.lxor (Z.lxor (rotr 2 x) (rotr 13 x)) (rotr 22 x).
Definition Sig1 (x : Z) : Z := Z.lxor (Z.lxor (rotr 6 x) (rotr 11 x)) (rotr 25 x).
Definition sig0 (x : Z) : Z := Z.lxor (Z.lxor (rotr 7 x) (rotr 18 x)) (shr 3 x).
Definition sig1 (x : Z) : Z := Z.lxor (Z.lxor (rotr 17 x) (rotr 19 x)) (shr 10 x).

(** section 4.2.2 *)
Definition K256 : list Z := [
  1116352408; 1899447441; 3049323471; 3921009573; 961987163; 1508970993; 2453635748; 2870763221;
  3624381080; 310598401; 607225278; 1426881987; 1925078388; 2162078206; 2614888103; 3248222580;
  3835390401; 4022224774; 264347078; 604807628; 770255983; 1249150122; 1555081692; 1996064986;
  2554220882; 2821834349; 2952996808; 3210313671; 3336571891; 3584528711; 113926993; 338241895;
  666307205; 773529912; 1294757372; 1396182291; 1695183700; 1986661051; 2177026350; 2456956037;
  2730485921; 2820302411; 3259730800; 3345764771; 3516065817; 3600352804; 4094571909; 275423344;
  430227734; 506948616; 659060556; 883997877; 958139571; 1322822218; 1537002063; 1747873779;
  1955562222; 2024104815; 2227730452; 2361852424; 2428436474; 2756734187; 3204031479; 3329325298].

(** section 5.3.3 *)
Definition H256 : list Z := [
  1779033703; 3144134277; 1013904242; 2773480762; 1359893119; 2600822924; 528734635; 1541459225].

(** section 5.1.1: the padded message *)
Definition pad (m : list Z) : list Z :=
  let n := length m in
  let z := ((119 - n mod 64) mod 64)%nat in
  m ++ [128] ++ repeat 0 z ++ rev (le_bytes 8 (8 * Z.of_nat n)).

(** big-endian words *)
Fixpoint be_words (n : nat) (s : list Z) : list Z :=
  match n with
  | O => []
  | S k => le_val (rev (firstn 4 s)) :: be_words k (skipn 4 s)
  end.

(** section 6.2.2, step 1: the message schedule, last word first *)
Fixpoint schedule (n : nat) (w : list Z) : list Z :=
  match n with
  | O => w
  | S k => schedule k (m32 (sig1 (nth 1 w 0) + nth 6 w 0 + sig0 (nth 14 w 0) + nth 15 w 0) :: w)
  end.

(** step 3 *)
Definition round (st : list Z) (kw : Z * Z) : list Z :=
  match st with
  | [a; b; c; d; e; f; g; h] =>
    let T1 := h + Sig1 e + Ch e f g + fst kw + snd kw in
    let T2 := Sig0 a + Maj a b c in
    [m32 (T1 + T2); a; b; c; m32 (d + T1); e; f; g]
  | _ => st
  end.

(** steps 1-4 for one block *)
Definition compress (hs : list Z) (block : list Z) : list Z :=
  let w := rev (schedule 48 (rev (be_words 16 block))) in
  map (fun xy => m32 (fst xy + snd xy)) (combine (fold_left round (combine K256 w) hs) hs).

Fixpoint blocks (n : nat) (hs s : list Z) : list Z :=
  match n with
  | O => hs
  | S k => blocks k (compress hs (firstn 64 s)) (skipn 64 s)
  end.

(** section 6.2: the hash *)
Definition sha256 (m : list Z) : list Z :=
  let s := pad m in
  flat_map (fun w => rev (le_bytes 4 w)) (firstn 8 (blocks (length s / 64) H256 s)).

Lemma round_length st kw : length st = 8%nat -> length (round st kw) = 8%nat.
Proof. intro h. do 8 (destruct st as [|? st]; [discriminate|]). destruct st; [reflexivity | discriminate]. Qed.
Lemma rounds_length kws st : length st = 8%nat -> length (fold_left round kws st) = 8%nat.
Proof. revert st. induction kws as [|kw kws IH]; intros st h; [exact h|]. cbn [fold_left]. apply IH, round_length, h. Qed.
Lemma compress_length hs b : length hs = 8%nat -> length (compress hs b) = 8%nat.
Proof. intro h. unfold compress. rewrite map_length, combine_length, rounds_length, h by exact h. reflexivity. Qed.
Lemma blocks_length n hs s : length hs = 8%nat -> length (blocks n hs s) = 8%nat.
Proof. revert hs s. induction n as [|n IH]; intros hs s h; [exact h|]. cbn [blocks]. apply IH, compress_length, h. Qed.
Lemma sha256_bytes m : bytes 32 (sha256 m).
Proof.
  unfold sha256. pose proof (blocks_length (length (pad m) / 64) H256 (pad m) eq_refl) as h.
  set (s := blocks _ _ _) in *. clearbody s. do 8 (destruct s as [|? s]; [discriminate|]). destruct s; [|discriminate].
  cbn [firstn flat_map]. split.
  - rewrite !app_length, !rev_length, !le_bytes_length. reflexivity.
  - repeat (apply Forall_app; split; [apply Forall_rev, le_bytes_bytes|]). apply Forall_nil.
Qed.

(** FIPS 180-4 example: "abc" *)
Example sha256_abc : sha256 [97; 98; 99] =
  [186;120;22;191;143;1;207;234;65;65;64;222;93;174;34;35;176;3;97;163;150;23;122;156;180;16;255;97;242;0;21;173].
Proof. vm_compute. reflexivity. Qed.
(** two blocks: "abcdbcdecdefdefgefghfghighijhijkijkljklmklmnlmnomnopnopq" *)
Example sha256_two : sha256 [97;98;99;100;98;99;100;101;99;100;101;102;100;101;102;103;101;102;103;104;102;103;104;105;103;104;105;106;104;105;106;107;105;106;107;108;106;107;108;109;107;108;109;110;108;109;110;111;109;110;111;112;110;111;112;113] = [36;141;106;97;210;6;56;184;229;192;38;147;12;62;96;57;163;60;228;89;100;255;33;103;246;236;237;212;25;219;6;193].
Proof. vm_compute. reflexivity. Qed.
