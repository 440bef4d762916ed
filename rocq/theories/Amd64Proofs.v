(** Correctness of the assembly of field_amd64.s, for every placement of operands and result. *)
From Coq Require Import ZArith List Lia Bool.
From Verif Require Import Words WordsTac Fe51Code Fe51Proofs FieldModel Amd64Model Amd64Code Amd64Field.
Import ListNotations.
Open Scope Z_scope.

(** the memory holds the limbs of [x] at [a], a+8, .., a+32 *)
Definition fe_at (m : Z -> Z) (a : Z) (x : fe51) : Prop :=
  match x with Fe51 x0 x1 x2 x3 x4 =>
    m a = x0 /\ m (a + 8) = x1 /\ m (a + 16) = x2 /\ m (a + 24) = x3 /\ m (a + 32) = x4 end.

(** [a] is the address of a field element *)
Definition ptr (a : Z) : Prop := 0 <= a < 2 ^ 64 - 40.

Lemma u64_ptr a k : ptr a -> 0 <= k <= 32 -> u64 (a + k) = a + k.
Proof. unfold ptr. intros h hk. apply u64_small. change (2 ^ 64) with 18446744073709551616 in h. lia. Qed.
Lemma u64_ptr0 a : ptr a -> u64 (a + 0) = a.
Proof. intro h. rewrite u64_ptr by (assumption || lia). lia. Qed.

(** the addresses of the words of a field element *)
Definition in_fe (a : Z) (x : Z) : Prop :=
  x = a \/ x = a + 8 \/ x = a + 16 \/ x = a + 24 \/ x = a + 32.

(** memory after the five stores at the end of the functions *)
Definition store5 (m : Z -> Z) (a0 a1 a2 a3 a4 v0 v1 v2 v3 v4 : Z) : Z -> Z :=
  fun x => if x =? a4 then v4 else if x =? a3 then v3 else if x =? a2 then v2 else if x =? a1 then v1
           else if x =? a0 then v0 else m x.

Lemma store5_at m a v0 v1 v2 v3 v4 : ptr a ->
  fe_at (store5 m (u64 (a + 0)) (u64 (a + 8)) (u64 (a + 16)) (u64 (a + 24)) (u64 (a + 32)) v0 v1 v2 v3 v4) a
    (Fe51 v0 v1 v2 v3 v4).
Proof.
  intro h. rewrite u64_ptr0, !u64_ptr by (assumption || lia). unfold fe_at, store5.
  repeat match goal with |- context [?x =? ?y] => destruct (Z.eqb_spec x y); try lia end.
Qed.

Lemma store5_other m a v0 v1 v2 v3 v4 x : ptr a -> ~ in_fe a x ->
  store5 m (u64 (a + 0)) (u64 (a + 8)) (u64 (a + 16)) (u64 (a + 24)) (u64 (a + 32)) v0 v1 v2 v3 v4 x = m x.
Proof.
  intros h hx. rewrite u64_ptr0, !u64_ptr by (assumption || lia). unfold in_fe in hx. unfold store5.
  repeat match goal with |- context [?x =? ?y] => destruct (Z.eqb_spec x y); [exfalso; lia|] end.
  reflexivity.
Qed.

Lemma fe_at_inj m a x y : fe_at m a x -> fe_at m a y -> x = y.
Proof. destruct x, y. unfold fe_at. intros (<- & <- & <- & <- & <-) (<- & <- & <- & <- & <-). reflexivity. Qed.

Lemma fe_at_words m a x : ptr a -> fe_at m a x ->
  match x with Fe51 x0 x1 x2 x3 x4 => m (u64 (a + 0)) = x0 /\ m (u64 (a + 8)) = x1 /\ m (u64 (a + 16)) = x2
    /\ m (u64 (a + 24)) = x3 /\ m (u64 (a + 32)) = x4 end.
Proof. intros h hx. rewrite u64_ptr0, !u64_ptr by (assumption || lia). exact hx. Qed.

Ltac run_red := cbv beta iota delta [run asm_feMul asm_feSquare getr setr setmem addr read
  rAX rBX rCX rDX rSI rDI rBP rR8 rR9 rR10 rR11 rR12 rR13 rR14 rR15 cf mem].


(** the final state's memory: the limbs [v] at the first argument *)
Definition stored (args : Z -> Z) (m : Z -> Z) (v : fe51) (r : option mach) : Prop :=
  match v with Fe51 v0 v1 v2 v3 v4 =>
  exists s', r = Some s' /\ mem s' = store5 m (u64 (args 0 + 0)) (u64 (args 0 + 8)) (u64 (args 0 + 16))
    (u64 (args 0 + 24)) (u64 (args 0 + 32)) v0 v1 v2 v3 v4 end.

Lemma stored_at args m v r : ptr (args 0) -> stored args m v r ->
  exists s', r = Some s' /\ fe_at (mem s') (args 0) v /\ (forall a, ~ in_fe (args 0) a -> mem s' a = m a).
Proof.
  destruct v as [v0 v1 v2 v3 v4]. intros h (s' & -> & e). exists s'. rewrite e.
  refine (conj eq_refl (conj (store5_at _ _ _ _ _ _ _ h) _)). intros a ha. apply store5_other; assumption.
Qed.

(** The limbs stored by the code depend on the operand limbs only, not on where operands and
    result lie, nor on the registers. *)
Lemma feMul_det args s args' t x y :
  ptr (args 8) -> ptr (args 16) -> fe_at (mem s) (args 8) x -> fe_at (mem s) (args 16) y ->
  ptr (args' 8) -> ptr (args' 16) -> fe_at (mem t) (args' 8) x -> fe_at (mem t) (args' 16) y ->
  exists v, stored args (mem s) v (run args asm_feMul s) /\ stored args' (mem t) v (run args' asm_feMul t).
Proof.
  intros p1 p2 hx hy p1' p2' hx' hy'.
  apply fe_at_words in hx; [|exact p1]. apply fe_at_words in hy; [|exact p2].
  apply fe_at_words in hx'; [|exact p1']. apply fe_at_words in hy'; [|exact p2'].
  destruct x as [x0 x1 x2 x3 x4], y as [y0 y1 y2 y3 y4].
  destruct s as [? ? ? ? ? ? ? ? ? ? ? ? ? ? ? ? m], t as [? ? ? ? ? ? ? ? ? ? ? ? ? ? ? ? m']. cbn [mem] in hx, hy, hx', hy'.
  destruct hx as (e0 & e1 & e2 & e3 & e4), hy as (f0 & f1 & f2 & f3 & f4).
  destruct hx' as (g0 & g1 & g2 & g3 & g4), hy' as (i0 & i1 & i2 & i3 & i4).
  unfold stored. run_red.
  rewrite e0, e1, e2, e3, e4, f0, f1, f2, f3, f4, g0, g1, g2, g3, g4, i0, i1, i2, i3, i4. cbv zeta.
  repeat match goal with |- context [let (_, _) := bits_mul64 ?a ?b in _] => destruct (bits_mul64 a b) 
    | |- context [let (_, _) := bits_add64 ?a ?b ?c in _] => destruct (bits_add64 a b c) end.
  eexists (Fe51 _ _ _ _ _). refine (conj _ _); eexists; refine (conj eq_refl _); reflexivity.
Qed.

Lemma feSquare_det args s args' t x :
  ptr (args 8) -> fe_at (mem s) (args 8) x -> ptr (args' 8) -> fe_at (mem t) (args' 8) x ->
  exists v, stored args (mem s) v (run args asm_feSquare s) /\ stored args' (mem t) v (run args' asm_feSquare t).
Proof.
  intros p1 hx p1' hx'.
  apply fe_at_words in hx; [|exact p1]. apply fe_at_words in hx'; [|exact p1'].
  destruct x as [x0 x1 x2 x3 x4].
  destruct s as [? ? ? ? ? ? ? ? ? ? ? ? ? ? ? ? m], t as [? ? ? ? ? ? ? ? ? ? ? ? ? ? ? ? m']. cbn [mem] in hx, hx'.
  destruct hx as (e0 & e1 & e2 & e3 & e4), hx' as (g0 & g1 & g2 & g3 & g4).
  unfold stored. run_red.
  rewrite e0, e1, e2, e3, e4, g0, g1, g2, g3, g4. cbv zeta.
  repeat match goal with |- context [let (_, _) := bits_mul64 ?a ?b in _] => destruct (bits_mul64 a b) 
    | |- context [let (_, _) := bits_add64 ?a ?b ?c in _] => destruct (bits_add64 a b c) end.
  eexists (Fe51 _ _ _ _ _). refine (conj _ _); eexists; refine (conj eq_refl _); reflexivity.
Qed.

Definition B4 : Z := 18014398509744128. (* 4 (2^52 + 2^16) *)

Lemma feMul_value args s x y : ptr (args 8) -> ptr (args 16) ->
  fe_at (mem s) (args 8) x -> fe_at (mem s) (args 16) y -> bnd51 B4 x -> bnd51 B4 y ->
  exists v, stored args (mem s) v (run args asm_feMul s) /\ bnd51 2251799813718016 v /\
    exists k, v51 x * v51 y = v51 v + P25519 * k.
Proof.
  intros p1 p2 hx hy bx by_. apply fe_at_words in hx; [|exact p1]. apply fe_at_words in hy; [|exact p2].
  destruct x as [x0 x1 x2 x3 x4], y as [y0 y1 y2 y3 y4].
  destruct s as [? ? ? ? ? ? ? ? ? ? ? ? ? ? ? ? m]. cbn [mem] in hx, hy.
  destruct hx as (e0 & e1 & e2 & e3 & e4), hy as (f0 & f1 & f2 & f3 & f4). unfold B4 in bx, by_.
  unb. unfold stored.
  match goal with |- context [run args asm_feMul ?s] => pattern (run args asm_feMul s) end.
  match goal with |- ?P ?r => set (PP := P) end. run_red.
  rewrite e0, e1, e2, e3, e4, f0, f1, f2, f3, f4.
  repeat ev_step.
  clear_quots. subst PP. cbv beta.
  match goal with |- context [Mach _ _ _ _ ?v0 _ _ ?v1 _ ?v2 _ ?v3 _ ?v4 _ _ _] => exists (Fe51 v0 v1 v2 v3 v4) end.
  refine (conj _ (conj _ _)).
  - eexists. refine (conj eq_refl _). reflexivity.
  - bnd51_go.
  - match goal with H : ?a = ?b * 19, H2 : _ = _ + _ * 8192, H3 : ?c = ?d * 19 |- _ =>
      lazymatch b with x1 => fail | x2 => fail | x3 => fail | x4 => fail | _ => idtac end;
      lazymatch d with x1 => fail | x2 => fail | x3 => fail | x4 => fail | b => fail | _ => idtac end;
      exists (b + d + (x1 * y4 + x2 * y3 + x3 * y2 + x4 * y1) + 2251799813685248 * (x2 * y4 + x3 * y3 + x4 * y2)
       + 5070602400912917605986812821504 * (x3 * y4 + x4 * y3) + 11417981541647679048466287755595961091061972992 * (x4 * y4)) end.
    unfold P25519, v51. subst. ring.
Qed.

Lemma feSquare_value args s x : ptr (args 8) -> fe_at (mem s) (args 8) x -> bnd51 B4 x ->
  exists v, stored args (mem s) v (run args asm_feSquare s) /\ bnd51 2251799813718016 v /\
    exists k, v51 x * v51 x = v51 v + P25519 * k.
Proof.
  intros p1 hx bx. apply fe_at_words in hx; [|exact p1].
  destruct x as [x0 x1 x2 x3 x4].
  destruct s as [? ? ? ? ? ? ? ? ? ? ? ? ? ? ? ? m]. cbn [mem] in hx.
  destruct hx as (e0 & e1 & e2 & e3 & e4). unfold B4 in bx.
  unb. unfold stored.
  match goal with |- context [run args asm_feSquare ?s] => pattern (run args asm_feSquare s) end.
  match goal with |- ?P ?r => set (PP := P) end. run_red.
  rewrite e0, e1, e2, e3, e4.
  repeat ev_step.
  clear_quots. subst PP. cbv beta.
  match goal with |- context [Mach _ _ ?v0 _ _ _ _ _ ?v1 _ ?v2 _ ?v3 _ ?v4 _ _] => exists (Fe51 v0 v1 v2 v3 v4) end.
  refine (conj _ (conj _ _)).
  - eexists. refine (conj eq_refl _). reflexivity.
  - bnd51_go.
  - match goal with H : ?a = ?b * 19, H2 : _ = _ + _ * 8192, H3 : ?c = ?d * 19 |- _ =>
      lazymatch b with x1 => fail | x2 => fail | x3 => fail | x4 => fail | _ => idtac end;
      lazymatch d with x1 => fail | x2 => fail | x3 => fail | x4 => fail | b => fail | _ => idtac end;
      exists (b + d + (x1 * x4 + x2 * x3 + x3 * x2 + x4 * x1) + 2251799813685248 * (x2 * x4 + x3 * x3 + x4 * x2)
       + 5070602400912917605986812821504 * (x3 * x4 + x4 * x3) + 11417981541647679048466287755595961091061972992 * (x4 * x4)) end.
    unfold P25519, v51. subst. ring.
Qed.

(** ** The field operations *)

Lemma mem_init_x x y : fe_at (mem (mach_init x y)) (args_init 8) x.
Proof. destruct x, y. cbn [mach_init mem]. change (args_init 8) with 4096. repeat split. Qed.
Lemma mem_init_y x y : fe_at (mem (mach_init x y)) (args_init 16) y.
Proof. destruct x, y. cbn [mach_init mem]. change (args_init 16) with 8192. repeat split. Qed.
Lemma ptr_init k : ptr (args_init k).
Proof. unfold args_init, ptr. destruct (k =? 0), (k =? 8), (k =? 16); split; (lia || reflexivity). Qed.

Lemma stored_result m v r : stored args_init m v r -> result r = v.
Proof.
  intro h. apply stored_at in h; [|apply ptr_init]. destruct h as (s' & -> & h & _).
  unfold result. apply (fe_at_inj (mem s') 12288); [|exact h]. repeat split.
Qed.

Lemma feMul_any_placement args s x y :
  ptr (args 0) -> ptr (args 8) -> ptr (args 16) -> fe_at (mem s) (args 8) x -> fe_at (mem s) (args 16) y ->
  exists s', run args asm_feMul s = Some s' /\ fe_at (mem s') (args 0) (amd64_mul x y) /\
    forall a, ~ in_fe (args 0) a -> mem s' a = mem s a.
Proof.
  intros p0 p1 p2 hx hy.
  destruct (feMul_det args s args_init (mach_init x y) x y p1 p2 hx hy (ptr_init 8) (ptr_init 16) (mem_init_x x y) (mem_init_y x y))
    as (v & hv & hv'). apply stored_result in hv'. apply stored_at; [exact p0|]. unfold amd64_mul. rewrite hv'. exact hv.
Qed.

Lemma feSquare_any_placement args s x :
  ptr (args 0) -> ptr (args 8) -> fe_at (mem s) (args 8) x ->
  exists s', run args asm_feSquare s = Some s' /\ fe_at (mem s') (args 0) (amd64_square x) /\
    forall a, ~ in_fe (args 0) a -> mem s' a = mem s a.
Proof.
  intros p0 p1 hx.
  destruct (feSquare_det args s args_init (mach_init x x) x p1 hx (ptr_init 8) (mem_init_x x x))
    as (v & hv & hv'). apply stored_result in hv'. apply stored_at; [exact p0|]. unfold amd64_square. rewrite hv'. exact hv.
Qed.

Lemma amd64_mul_ok x y : bnd51 B4 x -> bnd51 B4 y ->
  bnd51 2251799813718016 (amd64_mul x y) /\ exists k, v51 x * v51 y = v51 (amd64_mul x y) + P25519 * k.
Proof.
  intros bx by_. destruct (feMul_value args_init (mach_init x y) x y (ptr_init 8) (ptr_init 16) (mem_init_x x y) (mem_init_y x y) bx by_)
    as (v & hv & hb & hk). apply stored_result in hv. unfold amd64_mul. rewrite hv. exact (conj hb hk).
Qed.

Lemma amd64_square_ok x : bnd51 B4 x ->
  bnd51 2251799813718016 (amd64_square x) /\ exists k, v51 x * v51 x = v51 (amd64_square x) + P25519 * k.
Proof.
  intros bx. destruct (feSquare_value args_init (mach_init x x) x (ptr_init 8) (mem_init_x x x) bx)
    as (v & hv & hb & hk). apply stored_result in hv. unfold amd64_square. rewrite hv. exact (conj hb hk).
Qed.

Global Opaque amd64_mul amd64_square.

Lemma amd64_doubledSquare_ok x : bnd51 B4 x ->
  bnd51 4503599627436032 (amd64_doubledSquare x) /\
  exists k, 2 * (v51 x * v51 x) = v51 (amd64_doubledSquare x) + P25519 * k.
Proof.
  intros bx. destruct (amd64_square_ok x bx) as [hb [k hk]]. unfold amd64_doubledSquare. cbv zeta.
  destruct (r51_add_ok _ _ _ _ hb hb eq_refl) as [h1 h2]. refine (conj h1 _). exists (2 * k). rewrite h2, hk.
  generalize (v51 (amd64_square x)). intro w. ring.
Qed.
