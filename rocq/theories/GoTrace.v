(** What happens inside the operations of the programs of GoCurveCode.v, for the statements
    about the branches and memory accesses of the scalar multiplications. *)
From Coq Require Import ZArith List String Bool.
From Verif Require Import Words FieldModel GoLang GoLimbCode GoLimbTests GoCurveCode GoCodecCode GoInverseCode Amd64Model Amd64Code Amd64Field Amd64Trace.
Import ListNotations.
Open Scope string_scope.

Fixpoint lookup {A : Type} (t : string) (l : list (string * A)) : option A :=
  match l with [] => None | (u, a) :: l => if String.eqb u t then Some a else lookup t l end.

(** the operations a program uses *)
Fixpoint tags {V : Type} (s : stmt V) : list string :=
  match s with
  | Skip => []
  | Seq s1 s2 => tags s1 ++ tags s2
  | Do t _ _ _ | Do2 t _ _ _ _ | DoN t _ _ _ => [t]
  | For _ _ s | While _ _ _ s => tags s
  | If _ _ s1 s2 => tags s1 ++ tags s2
  end.

(** [*fe = *a] for an array of [n] words: /repo/edwards25519/field.go:45-48 *)
Definition d_copy (n : nat) : stmt Z :=
  prog (map (fun i => Do "=" (fun _ vs => nth 0 vs 0%Z) (0%nat, C i) [(1%nat, C i)]) (seq 0 n)).

(** The methods of a backend that are not assembly, as programs on limbs: radix 51
    (/repo/edwards25519/field_radix51.go, field_mul64.go) and generic (field_generic.go). *)
Definition code51 : list (string * stmt Z) :=
  [("add", d_r51_add 0 1 2 3); ("sub", d_r51_sub 0 1 2 3); ("Mul", d_r51_mul 0 1 2 3); ("Square", d_r51_square 0 1 2);
   ("DoubledSquare", d_r51_doubledSquare 0 1 2); ("Neg", d_r51_neg 0 1 2); ("ConditionalSet", d_r51_condSet 0 1 2 3);
   ("normalize", d_r51_setReduced 0 0 1); ("Set", d_copy 5); ("SetBytes", d_r51_setBytes 0 1 2); ("BytesInto", d_r51_bytes 0 1 2);
   ("IsNegativeI", d_fe_IsNegativeI d_r51_bytes 0 1 2); ("IsNonZeroI", d_fe_IsNonZeroI d_r51_bytes 0 1 2);
   ("IsOneI", d_fe_EqualsI d_r51_bytes d_r51_sub 0 1 2 3); ("EqualsI", d_fe_EqualsI d_r51_bytes d_r51_sub 0 1 2 3)].
Definition code25 : list (string * stmt Z) :=
  [("add", d_g25_add 0 1 2 3); ("sub", d_g25_sub 0 1 2 3); ("Mul", d_g25_mul 0 1 2 3); ("Square", d_g25_square 0 1 2);
   ("DoubledSquare", d_g25_doubledSquare 0 1 2); ("Neg", d_g25_neg 0 1 2); ("ConditionalSet", d_g25_condSet 0 1 2 3);
   ("normalize", d_g25_normalize 0 1); ("Set", d_copy 10); ("SetBytes", d_g25_setBytes 0 1 2); ("BytesInto", d_g25_bytes 0 1 2);
   ("IsNegativeI", d_fe_IsNegativeI d_g25_bytes 0 1 2); ("IsNonZeroI", d_fe_IsNonZeroI d_g25_bytes 0 1 2);
   ("IsOneI", d_fe_EqualsI d_g25_bytes d_g25_sub 0 1 2 3); ("EqualsI", d_fe_EqualsI d_g25_bytes d_g25_sub 0 1 2 3)].

(** [t] is what some execution of the method [tag] does.  "int" stands for an integer expression
    on local variables; nothing happens inside it. *)
Definition method (code : list (string * stmt Z)) (tag : string) (t : list (event Empty_set)) : Prop :=
  match lookup tag code with
  | Some s => exists m, t = trace nosub (fun a => a) rho0 s m
  | None => tag = "int" -> t = []
  end.

(** The same for the amd64 backend, where Mul and Square are assembly and DoubledSquare calls
    Square and add (/repo/edwards25519/field_amd64.go:13-28). *)
Definition code64 : list (string * stmt Z) :=
  [("add", d_r51_add 0 1 2 3); ("sub", d_r51_sub 0 1 2 3); ("Neg", d_r51_neg 0 1 2); ("ConditionalSet", d_r51_condSet 0 1 2 3);
   ("normalize", d_r51_setReduced 0 0 1); ("Set", d_copy 5); ("SetBytes", d_r51_setBytes 0 1 2); ("BytesInto", d_r51_bytes 0 1 2);
   ("IsNegativeI", d_fe_IsNegativeI d_r51_bytes 0 1 2); ("IsNonZeroI", d_fe_IsNonZeroI d_r51_bytes 0 1 2);
   ("IsOneI", d_fe_EqualsI d_r51_bytes d_r51_sub 0 1 2 3); ("EqualsI", d_fe_EqualsI d_r51_bytes d_r51_sub 0 1 2 3)].
Definition method64 (tag : string) (t : list (access + event Empty_set)) : Prop :=
  match lookup tag code64 with
  | Some s => exists m, t = map inr (trace nosub (fun a => a) rho0 s m)
  | None =>
      if String.eqb tag "Mul" then exists s, t = map inl (accesses args_init asm_feMul s)
      else if String.eqb tag "Square" then exists s, t = map inl (accesses args_init asm_feSquare s)
      else if String.eqb tag "DoubledSquare" then
        exists s m, t = (map inl (accesses args_init asm_feSquare s) ++
                         map inr (trace nosub (fun a => match a with 1%nat | 2%nat => 0%nat | a => a end) rho0 (d_r51_add 0 1 2 3) m))%list
      else tag = "int" -> t = []
  end.

(** For contrast, [varTimeSelectPoint]: /repo/edwards25519/table.go:207-217 (used by the Public
    methods only).  The result is [true] in every case but the first and is left out. *)
Definition g_tb_varTimeSelectPoint (K : FeOps) (t p : place (fe K * Z)) (pos : ix (fe K * Z)) (b : nat) : stmt (fe K * Z) :=
  let val := fun vs : list (fe K * Z) => match vs with [x] => snd x | _ => 0%Z end in
  let at_ := fun f : Z -> Z => elt (elt t 24 pos) 3 (Data (fun x => Z.to_nat (f (snd x))) b (C 0)) in
  If (fun vs => Z.eqb (val vs) 0) [(b, C 0)] Skip
    (If (fun vs => Z.ltb (val vs) 0) [(b, C 0)]
      (g_np_Neg K p (at_ (fun x => - x - 1)%Z) 0 0)
      (g_np_Set K p (at_ (fun x => x - 1)%Z) 0 0)).
