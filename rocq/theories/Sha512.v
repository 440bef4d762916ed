(** SHA-512 (FIPS 180-4), which /repo/scalar.go (DeriveShort and Derive, lines 383-404) and /repo/ristretto.go (Derive and
    DeriveDalek, lines 204-211 and 325-335) use through crypto/sha512.  Models the standard, not Go's implementation of it. *)
From Coq Require Import ZArith List Lia Bool.
From Verif Require Import Words.
Import ListNotations.
Open Scope Z_scope.

(** FIPS 180-4, section 3.2 and 4.1.3 *)
Definition m64 (x : Z) : Z := Z.land x 18446744073709551615.
Definition shr (n x : Z) : Z := Z.shiftr x n.
Definition rotr (n x : Z) : Z := Z.lor (Z.shiftr x n) (m64 (Z.shiftl x (64 - n))).
Definition Ch (x y z : Z) : Z := Z.lxor (Z.land x y) (Z.land (Z.lxor x 18446744073709551615) z).
Definition Maj (x y z : Z) : Z := Z.lxor (Z.lxor (Z.land x y) (Z.land x z)) (Z.land y z).
Definition Sig0 (x : Z) : Z := Z.lxor (Z.lxor (rotr 28 x) (rotr 34 x)) (rotr 39 x).
Definition Sig1 (x : Z) : Z := Z.lxor (Z.lxor (rotr 14 x) (rotr 18 x)) (rotr 41 x).
Definition sig0 (x : Z) : Z := Z.lxor (Z.lxor (rotr 1 x) (rotr 8 x)) (shr 7 x).
Definition sig1 (x : Z) : Z := Z.lxor (Z.lxor (rotr 19 x) (rotr 61 x)) (shr 6 x).

(** section 4.2.3 *)
Definition K512 : list Z := [
  4794697086780616226; 8158064640168781261; 13096744586834688815; 16840607885511220156;
  4131703408338449720; 6480981068601479193; 10538285296894168987; 12329834152419229976;
  15566598209576043074; 1334009975649890238; 2608012711638119052; 6128411473006802146;
  8268148722764581231; 9286055187155687089; 11230858885718282805; 13951009754708518548;
  16472876342353939154; 17275323862435702243; 1135362057144423861; 2597628984639134821;
  3308224258029322869; 5365058923640841347; 6679025012923562964; 8573033837759648693;
  10970295158949994411; 12119686244451234320; 12683024718118986047; 13788192230050041572;
  14330467153632333762; 15395433587784984357; 489312712824947311; 1452737877330783856;
  2861767655752347644; 3322285676063803686; 5560940570517711597; 5996557281743188959;
  7280758554555802590; 8532644243296465576; 9350256976987008742; 10552545826968843579;
  11727347734174303076; 12113106623233404929; 14000437183269869457; 14369950271660146224;
  15101387698204529176; 15463397548674623760; 17586052441742319658; 1182934255886127544;
  1847814050463011016; 2177327727835720531; 2830643537854262169; 3796741975233480872;
  4115178125766777443; 5681478168544905931; 6601373596472566643; 7507060721942968483;
  8399075790359081724; 8693463985226723168; 9568029438360202098; 10144078919501101548;
  10430055236837252648; 11840083180663258601; 13761210420658862357; 14299343276471374635;
  14566680578165727644; 15097957966210449927; 16922976911328602910; 17689382322260857208;
  500013540394364858; 748580250866718886; 1242879168328830382; 1977374033974150939;
  2944078676154940804; 3659926193048069267; 4368137639120453308; 4836135668995329356;
  5532061633213252278; 6448918945643986474; 6902733635092675308; 7801388544844847127].

(** section 5.3.5 *)
Definition H512 : list Z := [
  7640891576956012808; 13503953896175478587; 4354685564936845355; 11912009170470909681;
  5840696475078001361; 11170449401992604703; 2270897969802886507; 6620516959819538809].

(** section 5.1.2: the padded message; messages are shorter than 2^125 bytes *)
Definition pad (m : list Z) : list Z :=
  let n := length m in
  let z := ((239 - n mod 128) mod 128)%nat in
  m ++ [128] ++ repeat 0 z ++ rev (le_bytes 16 (8 * Z.of_nat n)).

(** big-endian words *)
Fixpoint be_words (n : nat) (s : list Z) : list Z :=
  match n with
  | O => []
  | S k => le_val (rev (firstn 8 s)) :: be_words k (skipn 8 s)
  end.

(** section 6.4.2, step 1: the message schedule, last word first *)
Fixpoint schedule (n : nat) (w : list Z) : list Z :=
  match n with
  | O => w
  | S k => schedule k (m64 (sig1 (nth 1 w 0) + nth 6 w 0 + sig0 (nth 14 w 0) + nth 15 w 0) :: w)
  end.

(** step 3 *)
Definition round (st : list Z) (kw : Z * Z) : list Z :=
  match st with
  | [a; b; c; d; e; f; g; h] =>
    let T1 := h + Sig1 e + Ch e f g + fst kw + snd kw in
    let T2 := Sig0 a + Maj a b c in
    [m64 (T1 + T2); a; b; c; m64 (d + T1); e; f; g]
  | _ => st
  end.

(** steps 1-4 for one block *)
Definition compress (hs : list Z) (block : list Z) : list Z :=
  let w := rev (schedule 64 (rev (be_words 16 block))) in
  map (fun xy => m64 (fst xy + snd xy)) (combine (fold_left round (combine K512 w) hs) hs).

Fixpoint blocks (n : nat) (hs s : list Z) : list Z :=
  match n with
  | O => hs
  | S k => blocks k (compress hs (firstn 128 s)) (skipn 128 s)
  end.

(** section 6.4: the hash *)
Definition sha512 (m : list Z) : list Z :=
  let s := pad m in
  flat_map (fun w => rev (le_bytes 8 w)) (firstn 8 (blocks (length s / 128) H512 s)).

Lemma round_length st kw : length st = 8%nat -> length (round st kw) = 8%nat.
Proof. intro h. do 8 (destruct st as [|? st]; [discriminate|]). destruct st; [reflexivity | discriminate]. Qed.
Lemma rounds_length kws st : length st = 8%nat -> length (fold_left round kws st) = 8%nat.
Proof. revert st. induction kws as [|kw kws IH]; intros st h; [exact h|]. cbn [fold_left]. apply IH, round_length, h. Qed.
Lemma compress_length hs b : length hs = 8%nat -> length (compress hs b) = 8%nat.
Proof. intro h. unfold compress. rewrite map_length, combine_length, rounds_length, h by exact h. reflexivity. Qed.
Lemma blocks_length n hs s : length hs = 8%nat -> length (blocks n hs s) = 8%nat.
Proof. revert hs s. induction n as [|n IH]; intros hs s h; [exact h|]. cbn [blocks]. apply IH, compress_length, h. Qed.
Lemma sha512_bytes m : bytes 64 (sha512 m).
Proof.
  unfold sha512. pose proof (blocks_length (length (pad m) / 128) H512 (pad m) eq_refl) as h.
  set (s := blocks _ _ _) in *. clearbody s. do 8 (destruct s as [|? s]; [discriminate|]). destruct s; [|discriminate].
  cbn [firstn flat_map]. split.
  - rewrite !app_length, !rev_length, !le_bytes_length. reflexivity.
  - repeat (apply Forall_app; split; [apply Forall_rev, le_bytes_bytes|]). apply Forall_nil.
Qed.

(** FIPS 180-4 example: "abc" *)
Example sha512_abc : sha512 [97; 98; 99] =
  [221; 175; 53; 161; 147; 97; 122; 186; 204; 65; 115; 73; 174; 32; 65; 49; 18; 230; 250; 78; 137; 169; 126; 162; 10; 158; 238; 230; 75; 85; 211; 154; 33; 146; 153; 42; 39; 79; 193; 168; 54; 186; 60; 35; 163; 254; 235; 189; 69; 77; 68; 35; 100; 60; 232; 14; 42; 154; 201; 79; 165; 76; 164; 159].
Proof. vm_compute. reflexivity. Qed.
(** two blocks: "abcdefghbcdefghicdefghijdefghijkefghijklfghijklmghijklmnhijklmnoijklmnopjklmnopqklmnopqrlmnopqrsmnopqrstnopqrstu" *)
Example sha512_two : sha512 [97; 98; 99; 100; 101; 102; 103; 104; 98; 99; 100; 101; 102; 103; 104; 105; 99; 100; 101; 102; 103; 104; 105; 106; 100; 101; 102; 103; 104; 105; 106; 107; 101; 102; 103; 104; 105; 106; 107; 108; 102; 103; 104; 105; 106; 107; 108; 109; 103; 104; 105; 106; 107; 108; 109; 110; 104; 105; 106; 107; 108; 109; 110; 111; 105; 106; 107; 108; 109; 110; 111; 112; 106; 107; 108; 109; 110; 111; 112; 113; 107; 108; 109; 110; 111; 112; 113; 114; 108; 109; 110; 111; 112; 113; 114; 115; 109; 110; 111; 112; 113; 114; 115; 116; 110; 111; 112; 113; 114; 115; 116; 117] =
  [142; 149; 155; 117; 218; 227; 19; 218; 140; 244; 247; 40; 20; 252; 20; 63; 143; 119; 121; 198; 235; 159; 127; 161; 114; 153; 174; 173; 182; 136; 144; 24; 80; 29; 40; 158; 73; 0; 247; 228; 51; 27; 153; 222; 196; 181; 67; 58; 199; 211; 41; 238; 182; 221; 38; 84; 94; 150; 229; 91; 135; 75; 233; 9].
Proof. vm_compute. reflexivity. Qed.
