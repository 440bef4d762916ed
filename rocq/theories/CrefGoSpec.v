(** The ideal machine for the calls of CrefGo.v: points are exponents modulo l of a generator, field elements numbers modulo p,
    scalars numbers modulo l.  Models no code. *)
From Coq Require Import ZArith List Bool.
From Verif Require Import Words Primes ApiModel CrefGo.
Import ListNotations.
Open Scope Z_scope.

Section Ideal.
Context (enc : Z -> list Z) (dec : list Z -> option Z) (ell : list Z -> Z).
(** the exponent of the point with the extended coordinates x, y, z, t, if this is one *)
Context (coords : Z -> Z -> Z -> Z -> option Z).

(** [k_fe]: the number, unless the field element is a coordinate that a method computed;
    [k_pt]: the exponent, unless a coordinate was written since the point was computed *)
Record kstate : Type := mkKstate { k_fe : fptr -> option Z; k_pt : nat -> option Z; k_sc : nat -> Z }.
Definition kinit : kstate := mkKstate (fun _ => Some 0) (fun _ => None) (fun _ => 0).

(** the GroupGe whose coordinate [f] is *)
Definition owner (f : fptr) : option nat := match f with FVar _ => None | FX g | FY g | FZ g | FT g => Some g end.
Definition fptr_eqb (a b : fptr) : bool :=
  match a, b with
  | FVar i, FVar j | FX i, FX j | FY i, FY j | FZ i, FZ j | FT i, FT j => Nat.eqb i j
  | _, _ => false
  end.
(** forget, or set to [v], the coordinates of [g] *)
Definition set_coords (F : fptr -> option Z) (g : nat) (v : option Z) : fptr -> option Z :=
  fun f => match owner f with Some h => if Nat.eqb h g then v else F f | None => F f end.
(** the exponent of a GroupGe *)
Definition k_val (s : kstate) (g : nat) : option Z :=
  match k_pt s g with
  | Some m => Some m
  | None => match k_fe s (FX g), k_fe s (FY g), k_fe s (FZ g), k_fe s (FT g) with Some x, Some y, Some z, Some t => coords x y z t | _, _, _, _ => None end
  end.
(** a computed point *)
Definition kP (s : kstate) (g : nat) (m : Z) : kstate := mkKstate (set_coords (k_fe s) g None) (set_ (k_pt s) g (Some m)) (k_sc s).

(** the number in 32 bytes without the top bit, modulo p *)
Definition num (buf : list Z) : Z := (le_val buf mod 2 ^ 255) mod p.

(** One call; [None] when it uses a GroupGe or an Fe25519 of which no value is known. *)
Definition kstep (i : ccall_go) (s : kstate) : option (obs * kstate) :=
  match i with
  | FeUnpack f buf => Some (ONone, mkKstate (fun f' => if fptr_eqb f' f then Some (num buf) else k_fe s f')
                                            (match owner f with Some g => set_ (k_pt s) g None | None => k_pt s end) (k_sc s))
  | FePack f => match k_fe s f with Some v => Some (OBytes (le_bytes 32 v), s) | None => None end
  | GePack g => match k_val s g with Some m => Some (OBytes (enc m), s) | None => None end
  | GeUnpack g buf => Some (match dec (le_bytes 32 (num buf)) with
                            | Some m => (OInt 0, kP s g m)
                            | None => (OInt (-1), mkKstate (set_coords (k_fe s) g (Some 0)) (set_ (k_pt s) g None) (k_sc s))
                            end)
  | GeElligator g f => match k_fe s f with Some v => Some (ONone, kP s g (ell (le_bytes 32 v))) | None => None end
  | GeNeg g x => match k_val s x with Some m => Some (ONone, kP s g ((- m) mod l)) | None => None end
  | GeAdd g x y => match k_val s x, k_val s y with Some m, Some n => Some (ONone, kP s g ((m + n) mod l)) | _, _ => None end
  | GeDouble g x => match k_val s x with Some m => Some (ONone, kP s g ((2 * m) mod l)) | None => None end
  | GeScalarMult g x k => match k_val s x with Some m => Some (ONone, kP s g ((k_sc s k * m) mod l)) | None => None end
  | ScUnpack k buf => Some (ONone, mkKstate (k_fe s) (k_pt s) (set_ (k_sc s) k ((le_val buf mod 2 ^ 253) mod l)))
  | ScPack k => Some (OBytes (le_bytes 32 (k_sc s k)), s)
  end.

Fixpoint krun (prog : list ccall_go) (s : kstate) : option (list obs * kstate) :=
  match prog with
  | [] => Some ([], s)
  | i :: rest =>
    match kstep i s with
    | None => None
    | Some (o, s) => match krun rest s with None => None | Some (os, s) => Some (o :: os, s) end
    end
  end.
End Ideal.
