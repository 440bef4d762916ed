(** Property C65: which inputs to SetLizard cannot be decoded, and how many there are.

    [decoded K H d] (LizardChance.v): Lizard(), called on the point SetLizard(d), returns d; [H] stands for SHA-256, and
    [hash32 H] says that its results have 32 bytes.  [lizard_buf H d] (RistrettoModel.v) are the 32 bytes that SetLizard hands
    to Elligator.  [specials] are three of the buffers that Elligator maps to the identity; [special t] says that [t] is one of
    them.  [all_strings n xs] (LizardCount.v): [xs] holds the strings of [n] bytes, each once.  [hashes V D] are the functions from [D] to [V],
    [number b hs] counts those that satisfy [b], and [tot f hs] is the sum of [f] over them. *)
From Coq Require Import ZArith List Lia Bool.
From Verif Require Import Words BitFold ScalarCode FieldModel CurveModel ScalarModel RistrettoModel Elligator51 Sha256 FiniteFunctions LizardChance LizardCount.
From Verif Require Backends.
Import ListNotations.
Open Scope Z_scope.

(** The hash value of [d] fixes at most seven other buffers, and [d] cannot be decoded exactly if one of them is what SetLizard
    makes of its own middle bytes. *)
Theorem C65_exact : forall b d v, bytes 16 d -> bytes 32 v -> special (lizard_buf (fun _ => v) d) = false ->
  exists ts, (length ts <= 7)%nat /\ (forall t, In t ts -> bytes 32 t /\ slice t 8 24 <> d) /\
  forall H, hash32 H -> H d = v ->
    (decoded (Backends.ops b) H d = false <-> exists t, In t ts /\ lizard_buf H (slice t 8 24) = t).
Proof. exact b_exact. Qed.
Print Assumptions C65_exact.

(** The special buffers are never decoded: two of them are found twice, the third is not found. *)
Theorem C65_special : forall b H d, hash32 H -> bytes 16 d -> special (lizard_buf H d) = true -> decoded (Backends.ops b) H d = false.
Proof. exact b_special. Qed.
Print Assumptions C65_special.

(** One such check is passed by at most [2^131] of the [2^256] hash values: there are 125 check bits. *)
Theorem C65_check_bits : forall V d t, all_strings 32 V -> bytes 16 d ->
  Z.of_nat (length (filter (fun v => if list_eqb_spec (lizard_buf (fun _ => v) d) t then true else false) V)) <= 2 ^ 131.
Proof. exact b_check. Qed.
Print Assumptions C65_check_bits.

(** For a random hash function, an input is undecodable with a probability of at most [7 * 2^-125]. *)
Theorem C65_single : forall b V D d, all_strings 32 V -> all_strings 16 D -> bytes 16 d -> ~ In d (map (fun s => slice s 8 24) specials) ->
  2 ^ 125 * number (fun h => negb (decoded (Backends.ops b) h d)) (hashes V D) <= 7 * number (fun _ => true) (hashes V D).
Proof. exact b_single. Qed.
Print Assumptions C65_single.

(** The mean number of undecodable inputs is at most [56 + 3 * 2^-125]. *)
Theorem C65_mean : forall b V D, all_strings 32 V -> all_strings 16 D ->
  2 ^ 125 * tot (fun h => Z.of_nat (length (filter (fun d => negb (decoded (Backends.ops b) h d)) D))) (hashes V D) <=
  (7 * 2 ^ 128 + 3) * number (fun _ => true) (hashes V D).
Proof. exact b_total. Qed.
Print Assumptions C65_mean.

(** What the sums are over: every hash function, once. *)
Theorem C65_hashes : forall V D, all_strings 32 V -> all_strings 16 D ->
  (forall h, In h (hashes V D) -> hash32 h) /\
  (forall H, hash32 H -> exists h, In h (hashes V D) /\ forall d, bytes 16 d -> h d = H d) /\
  ForallOrdPairs (fun h k => exists d, bytes 16 d /\ h d <> k d) (hashes V D).
Proof. exact b_hashes. Qed.
Print Assumptions C65_hashes.

(** But undecodable inputs do not come alone, so that their number is not binomially distributed: it is never one. *)
Theorem C65_not_alone : forall b H d, hash32 H -> bytes 16 d -> special (lizard_buf H d) = false -> decoded (Backends.ops b) H d = false ->
  exists e, bytes 16 e /\ e <> d /\ decoded (Backends.ops b) H e = false.
Proof. exact b_not_alone. Qed.
Print Assumptions C65_not_alone.
Theorem C65_sha256 : forall b d, bytes 16 d -> decoded (Backends.ops b) sha256 d = false ->
  exists e, bytes 16 e /\ e <> d /\ decoded (Backends.ops b) sha256 e = false.
Proof. exact b_sha. Qed.
Print Assumptions C65_sha256.

Theorem C65_specials : specials = [le_bytes 32 0; le_bytes 32 2578418914173623657462452400132853037496623284081085243786733881681055062952;
  le_bytes 32 347587707554176910664335222571809819192038173877021618066561357284830225728].
Proof. exact specials_val. Qed.
Print Assumptions C65_specials.

Example C65_case : (exists V D, all_strings 32 V /\ all_strings 16 D) /\ hash32 sha256 /\ bytes 16 (le_bytes 16 5) /\
  special (lizard_buf sha256 (le_bytes 16 5)) = false /\ ~ In (le_bytes 16 5) (map (fun s => slice s 8 24) specials).
Proof. exact count_case. Qed.
