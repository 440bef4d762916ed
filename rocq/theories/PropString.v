(** Properties C57 (the String methods) and C58 (the El'Gamal example).  [number] reads a decimal number, [digit] are the
    codes of 0 to 9. *)
From Coq Require Import ZArith List String.
From Verif Require Import Words Primes Fp Edwards GroupOrder RistrettoSpec FieldModel CurveModel ScalarCode ScalarModel TextCodec TextProofs RistrettoModel
  Fe51Laws Backends StringModel StringFacts.
From Verif Require ScalarFacts Text51.
Import ListNotations.
Open Scope Z_scope.

(** ** C57 *)
(** FieldElement: the value modulo p in decimal, without leading zeros *)
Theorem C57_field : forall b x, limbs b 3 x -> number (fe_String (ops b) x) = value b x mod p /\ Forall digit (fe_String (ops b) x) /\
  ((value b x mod p = 0 /\ fe_String (ops b) x = codes "0") \/ exists c r, fe_String (ops b) x = c :: r /\ c <> 48).
Proof. exact s_field. Qed.
Print Assumptions C57_field.
Theorem C57_field_eq : forall b c x y, limbs b 3 x -> limbs c 3 y -> (fe_String (ops b) x = fe_String (ops c) y <-> elt b x = elt c y).
Proof. exact s_fe_inj. Qed.
Print Assumptions C57_field_eq.
(** Point and Scalar: equal strings exactly for equal elements, also between builds *)
Theorem C57_point : forall b c P Q A B, point b P A -> point c Q B -> List.length (pt_String (ops b) P) = 43%nat /\
  (pt_String (ops b) P = pt_String (ops c) Q <-> In (Eadd A (Eopp B)) [E0; T2; T4; T4']).
Proof. exact s_pt. Qed.
Print Assumptions C57_point.
Theorem C57_scalar : forall s t, ScalarFacts.reduced s -> ScalarFacts.reduced t -> (sc_String s = sc_String t <-> s = t).
Proof. exact s_sc. Qed.
Print Assumptions C57_scalar.
(** the points of the package edwards25519: equal strings exactly for equal coordinates *)
Theorem C57_extended : forall b c P Q A B, point b P A -> point c Q B -> (ep_String (ops b) P = ep_String (ops c) Q <->
  elt b (eX P) = elt c (eX Q) /\ elt b (eY P) = elt c (eY Q) /\ elt b (eZ P) = elt c (eZ Q) /\ elt b (eT P) = elt c (eT Q)).
Proof. exact s_ep. Qed.
Print Assumptions C57_extended.
Theorem C57_completed : forall b c P Q, limbs b 3 (cX P) -> limbs b 3 (cY P) -> limbs b 3 (cZ P) -> limbs b 3 (cT P) ->
  limbs c 3 (cX Q) -> limbs c 3 (cY Q) -> limbs c 3 (cZ Q) -> limbs c 3 (cT Q) -> cp_String (ops b) P = cp_String (ops c) Q ->
  elt b (cX P) = elt c (cX Q) /\ elt b (cY P) = elt c (cY Q) /\ elt b (cZ P) = elt c (cZ Q) /\ elt b (cT P) = elt c (cT Q).
Proof. exact s_cp. Qed.
Print Assumptions C57_completed.
(** the parts of these strings: the coordinates in decimal, and the encoding of the point that [P] represents, whichever
    build and coordinates it is computed with, in hexadecimal *)
Theorem C57_extended_parts : forall b c P A Q, point b P A -> point c Q A -> ep_String (ops b) P =
  (codes "ExtendedPoint(" ++ fe_String (ops b) (eX P) ++ codes ", " ++ fe_String (ops b) (eY P) ++ codes ", " ++ fe_String (ops b) (eZ P) ++
   codes ", " ++ fe_String (ops b) (eT P) ++ codes "; " ++ hex_encode false (pt_Bytes (ops c) Q) ++ codes ")")%list.
Proof. exact s_parts. Qed.
Print Assumptions C57_extended_parts.
Theorem C57_completed_parts : forall b c P A Q, completed b P A -> point c Q A -> cp_String (ops b) P =
  (codes "CompletedPoint(" ++ fe_String (ops b) (cX P) ++ codes ", " ++ fe_String (ops b) (cY P) ++ codes ", " ++ fe_String (ops b) (cZ P) ++
   codes ", " ++ fe_String (ops b) (cT P) ++ codes "; " ++ hex_encode false (pt_Bytes (ops c) Q) ++ codes ")")%list.
Proof. exact s_cparts. Qed.
Print Assumptions C57_completed_parts.
Example C57_parts_ex : forall b, completed b (mkCompl (k_zero (ops b)) (k_one (ops b)) (k_one (ops b)) (k_one (ops b))) E0 /\ point b (pt_SetZero (ops b)) E0.
Proof. exact (fun b => conj (completed_zero b) (proj1 (proj1 (b_const b)))). Qed.
Theorem C57_jacobi : forall b c P Q, limbs b 3 (jS P) -> limbs b 3 (jT P) -> limbs c 3 (jS Q) -> limbs c 3 (jT Q) ->
  (jc_String (ops b) P = jc_String (ops c) Q <-> elt b (jS P) = elt c (jS Q) /\ elt b (jT P) = elt c (jT Q)).
Proof. exact s_jc. Qed.
Print Assumptions C57_jacobi.
(** the last part of the strings of ExtendedPoint: the encoding in lower case hexadecimal *)
Theorem C57_hex : forall bs, Forall (fun x => 0 <= x < 256) bs -> hex_EncodeToString bs = hex_encode false bs.
Proof. exact hex_ok_all. Qed.
Print Assumptions C57_hex.

Example C57_ex : fe_String (ops PureGo64) (k_minusOne R51) =
    codes "57896044618658097711785492504343953926634992332820282019728792003956564819948" /\ limbs PureGo64 3 (k_minusOne R51) /\
  fe_String (ops Generic) (k_zero (ops Generic)) = codes "0" /\ hex_EncodeToString [0; 10; 255] = codes "000aff" /\
  jc_String (ops Generic) (mkJac (k_one (ops Generic)) (k_zero (ops Generic))) = codes "JacobiPoint(1, 0)".
Proof. exact string_ex. Qed.

(** ** C58 *)
(** the program of elgamal_test.go prints true, whatever Rand reads *)
Theorem C58_example : forall b r1 r2 r3, bytes 64 r1 -> bytes 32 r2 -> bytes 64 r3 ->
  elgamal_example (ops b) (baseTable b) r1 r2 r3 = Some true.
Proof. exact g_example. Qed.
Print Assumptions C58_example.
(** all keys, all messages *)
Theorem C58_roundtrip : forall b s r P B, ScalarFacts.reduced s -> ScalarFacts.reduced r -> summand b P B ->
  exists c1 c2, elgamal_encrypt (ops b) (baseTable b) (elgamal_key (ops b) (baseTable b) s) P r = Some (c1, c2) /\
  pt_Bytes (ops b) (elgamal_decrypt (ops b) c1 c2 s) = pt_Bytes (ops b) P.
Proof. exact g_roundtrip. Qed.
Print Assumptions C58_roundtrip.
(** key and ciphertext sent as bytes between two 64-bit builds (generic builds: see C56_dh_generic_refuted) *)
Theorem C58_sent : forall b c s r P B, b <> Generic -> c <> Generic -> ScalarFacts.reduced s -> ScalarFacts.reduced r -> point b P B ->
  exists PK c1 c2 d1 d2, pt_SetBytes (ops b) (pt_Bytes (ops c) (elgamal_key (ops c) (baseTable c) s)) = (true, PK) /\
  elgamal_encrypt (ops b) (baseTable b) PK P r = Some (c1, c2) /\
  pt_SetBytes (ops c) (pt_Bytes (ops b) c1) = (true, d1) /\ pt_SetBytes (ops c) (pt_Bytes (ops b) c2) = (true, d2) /\
  pt_Bytes (ops c) (elgamal_decrypt (ops c) d1 d2 s) = pt_Bytes (ops b) P.
Proof. exact g_sent. Qed.
Print Assumptions C58_sent.

Example C58_ex : bytes 64 (repeat 7 64) /\ bytes 32 (repeat 9 32) /\ summand Generic (pt_SetBase (ops Generic)) (Eadd EB T4').
Proof. exact elgamal_ex. Qed.
