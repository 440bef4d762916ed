(** Model of the text codecs used by MarshalText and UnmarshalText: the parts of
    encoding/base64 (RawURLEncoding) and encoding/hex of the Go standard library that
    /repo/ristretto.go:357-401 and /repo/scalar.go:1058-1084 call.  Texts and buffers are lists of bytes. *)
From Coq Require Import ZArith List Bool.
From Verif Require Import Words.
Import ListNotations.
Open Scope Z_scope.

(** What a call that may panic returns. *)
Inductive outcome (A : Type) : Type :=
| Done (a : A)    (* normal return *)
| Fail (a : A)    (* returned an error; the state after the call *)
| Panic.          (* index out of range *)
Arguments Done {A}. Arguments Fail {A}. Arguments Panic {A}.

(** encoding/base64, [encodeURL]: A-Z a-z 0-9 - _ *)
Definition b64_char (v : Z) : Z :=
  if v <? 26 then 65 + v
  else if v <? 52 then 97 + (v - 26)
  else if v <? 62 then 48 + (v - 52)
  else if v =? 62 then 45 else 95.

(** encoding/base64, [decodeMap]: the inverse of [encodeURL]; [None] is 0xff *)
Definition b64_val (c : Z) : option Z :=
  if (65 <=? c) && (c <=? 90) then Some (c - 65)
  else if (97 <=? c) && (c <=? 122) then Some (c - 97 + 26)
  else if (48 <=? c) && (c <=? 57) then Some (c - 48 + 52)
  else if c =? 45 then Some 62
  else if c =? 95 then Some 63
  else None.

(** Encoding.Encode of encoding/base64 without padding: three bytes to four characters, the last
    one or two bytes to two or three characters *)
Fixpoint b64_encode (src : list Z) : list Z :=
  match src with
  | a :: b :: c :: rest =>
    let val := Z.lor (Z.lor (Z.shiftl a 16) (Z.shiftl b 8)) c in
    b64_char (Z.land (Z.shiftr val 18) 63) :: b64_char (Z.land (Z.shiftr val 12) 63)
      :: b64_char (Z.land (Z.shiftr val 6) 63) :: b64_char (Z.land val 63) :: b64_encode rest
  | [a; b] =>
    let val := Z.lor (Z.shiftl a 16) (Z.shiftl b 8) in
    [b64_char (Z.land (Z.shiftr val 18) 63); b64_char (Z.land (Z.shiftr val 12) 63);
     b64_char (Z.land (Z.shiftr val 6) 63)]
  | [a] =>
    let val := Z.shiftl a 16 in
    [b64_char (Z.land (Z.shiftr val 18) 63); b64_char (Z.land (Z.shiftr val 12) 63)]
  | [] => []
  end.

(** the loop of decodeQuantum: reads sextets into [dbuf] (here in order) until four are read or the
    source ends, skipping CR and LF; [None] is CorruptInputError (there is no padding character) *)
Fixpoint b64_collect (dbuf : list Z) (src : list Z) : option (list Z * list Z) :=
  if Nat.eqb (length dbuf) 4 then Some (dbuf, src)
  else match src with
  | [] => Some (dbuf, [])
  | c :: src =>
    match b64_val c with
    | Some v => b64_collect (dbuf ++ [v]) src
    | None => if (c =? 10) || (c =? 13) then b64_collect dbuf src else None
    end
  end.

(** [dst[n + i] = v], or a panic *)
Definition b64_put (dst : outcome (list Z)) (i : nat) (v : Z) : outcome (list Z) :=
  match dst with
  | Done d => if Nat.ltb i (length d) then Done (upd d i v) else Panic
  | o => o
  end.

(** the end of decodeQuantum: [dst[2], dst[1], dst[0]] are written in this order, as many as [dlen] says *)
Definition b64_store (dst : list Z) (n : nat) (dbuf : list Z) : outcome (list Z) :=
  let val := Z.lor (Z.lor (Z.lor (Z.shiftl (at_ dbuf 0) 18) (Z.shiftl (at_ dbuf 1) 12))
                          (Z.shiftl (at_ dbuf 2) 6)) (at_ dbuf 3) in
  let d := Done dst in
  let d := if Nat.eqb (length dbuf) 4 then b64_put d (n + 2) (u8 val) else d in
  let d := if Nat.leb 3 (length dbuf) then b64_put d (n + 1) (u8 (Z.shiftr val 8)) else d in
  b64_put d n (u8 (Z.shiftr val 16)).

(** Encoding.Decode of encoding/base64 (no padding, not strict); the result is the destination and
    the number of bytes written.  Simplification: the branches assembling 8 or 4 valid characters at
    once are optimisations of decodeQuantum and are not modelled separately (they can only differ in
    destination bytes beyond the returned count). *)
Fixpoint b64_decode (fuel : nat) (dst : list Z) (n : nat) (src : list Z) : outcome (list Z * nat) :=
  match fuel with
  | O => Panic
  | S fuel =>
    match src with
    | [] => Done (dst, n)
    | _ :: _ =>
      match b64_collect [] src with
      | None => Fail (dst, n)
      | Some (dbuf, src) =>
        match length dbuf with
        | O => Done (dst, n)
        | S O => Fail (dst, n)
        | S m =>
          match b64_store dst n dbuf with
          | Panic => Panic
          | Fail d => Fail (d, n)
          | Done d => b64_decode fuel d (n + m) src
          end
        end
      end
    end
  end.

Definition b64_Decode (dst src : list Z) : outcome (list Z * nat) := b64_decode (S (length src)) dst 0 src.

(** encoding/hex, [reverseHexTable] *)
Definition hex_val (c : Z) : option Z :=
  if (48 <=? c) && (c <=? 57) then Some (c - 48)
  else if (97 <=? c) && (c <=? 102) then Some (c - 87)
  else if (65 <=? c) && (c <=? 70) then Some (c - 55)
  else None.

(** encoding/hex.Decode; the source is read two characters at a time *)
Fixpoint hex_decode (dst : list Z) (i : nat) (src : list Z) : outcome (list Z * nat) :=
  match src with
  | [] => Done (dst, i)
  | [_] => Fail (dst, i)
  | p :: q :: src =>
    match hex_val p, hex_val q with
    | Some a, Some b =>
      if Nat.ltb i (length dst) then hex_decode (upd dst i (Z.lor (u8 (Z.shiftl a 4)) b)) (S i) src else Panic
    | _, _ => Fail (dst, i)
    end
  end.

Definition hex_Decode (dst src : list Z) : outcome (list Z * nat) := hex_decode dst 0 src.

(** the base64 part of [textToBuf], and the whole of the decoding in Scalar.UnmarshalText:
    /repo/ristretto.go:375-383, /repo/scalar.go:1068-1076 *)
Definition b64_to_buf (dst src : list Z) : outcome (list Z) :=
  match b64_Decode dst src with
  | Panic => Panic
  | Fail (d, _) => Fail d
  | Done (d, n) => if negb (Nat.eqb n 32) then Fail d else Done d
  end.

(** [textToBuf]: /repo/ristretto.go:366-384; the result is [dst] after the call *)
Definition textToBuf (dst src : list Z) : outcome (list Z) :=
  if Nat.eqb (length src) 64 then
    match hex_Decode dst src with
    | Panic => Panic
    | Done (d, n) => if Nat.eqb n 32 then Done d else b64_to_buf d src
    | Fail (d, n) => b64_to_buf d src
    end
  else b64_to_buf dst src.
