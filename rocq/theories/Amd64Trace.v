(** The memory accesses of the assembly of /repo/edwards25519/field_amd64.s. *)
From Coq Require Import ZArith List Bool Lia.
From Verif Require Import Words Amd64Model.
Import ListNotations.
Open Scope Z_scope.

(** an access to the stack argument at an offset, or to a word of memory *)
Inductive access : Type := Stack (off : Z) | Word (a : Z).

Definition touched_op (o : operand) (s : mach) : list access :=
  match o with Mem off b => [Word (addr off b s)] | Arg off => [Stack off] | _ => [] end.
Definition touched (i : instr) (s : mach) : list access :=
  match i with
  | MOVQ a b => touched_op a s ++ touched_op b s
  | MULQ a => touched_op a s
  | _ => []
  end.

(** The accesses of an execution, in order.  The code has no jumps (Amd64Model.v, [run]). *)
Fixpoint accesses (args : Z -> Z) (code : list instr) (s : mach) : list access :=
  match code with
  | [] => []
  | i :: rest => touched i s ++ match run args [i; RET] s with Some s' => accesses args rest s' | None => [] end
  end.

(** ** A static approximation: registers known to hold a stack argument, and whether the carry is known *)

Definition reg_eqb (a b : reg) : bool :=
  match a, b with
  | AX, AX | BX, BX | CX, CX | DX, DX | SI, SI | DI, DI | BP, BP | R8, R8 | R9, R9 | R10, R10 | R11, R11
  | R12, R12 | R13, R13 | R14, R14 | R15, R15 => true
  | _, _ => false
  end.
Fixpoint look (r : reg) (k : list (reg * Z)) : option Z :=
  match k with [] => None | (a, o) :: k => if reg_eqb a r then Some o else look r k end.
Fixpoint kill (r : reg) (k : list (reg * Z)) : list (reg * Z) :=
  match k with [] => [] | (a, o) :: k => if reg_eqb a r then kill r k else (a, o) :: kill r k end.

Inductive sacc : Type := SStack (off : Z) | SWord (arg off : Z).
Definition sop (o : operand) (k : list (reg * Z)) : option (list sacc) :=
  match o with
  | Mem off b => match look b k with Some a => Some [SWord a off] | None => None end
  | Arg off => Some [SStack off]
  | _ => Some []
  end.
Definition put (l : option (list sacc)) (r : option (list sacc)) : option (list sacc) :=
  match l, r with Some a, Some b => Some (a ++ b) | _, _ => None end.
Fixpoint static (k : list (reg * Z)) (c : bool) (code : list instr) : option (list sacc) :=
  match code with
  | [] => Some []
  | i :: rest =>
    match i with
    | MOVQ src (Reg r) =>
        put (sop src k) (static (match src with Arg o => (r, o) :: kill r k | _ => kill r k end) c rest)
    | MOVQ (Reg r) (Mem off b) => put (sop (Mem off b) k) (static k c rest)
    | MOVQ _ _ => None
    | MULQ src => put (sop src k) (static (kill AX (kill DX k)) false rest)
    | IMUL3Q _ _ d => static (kill d k) false rest
    | ADDQ _ d | ANDQ _ d => static (kill d k) true rest
    | ADCQ _ d => if c then static (kill d k) true rest else None
    | SHLQ _ d | SHLDQ _ _ d | SHRQ _ d => static (kill d k) false rest
    | RET => static k c rest
    end
  end.
Definition sval (args : Z -> Z) (a : sacc) : access :=
  match a with SStack o => Stack o | SWord a o => Word (u64 (args a + o)) end.

Definition Known (args : Z -> Z) (k : list (reg * Z)) (s : mach) : Prop :=
  forall r o, look r k = Some o -> getr r s = args o.

Lemma reg_eqb_ok a b : reg_eqb a b = true <-> a = b.
Proof. split; [destruct a, b; cbn; intro h; (reflexivity || discriminate h)|intros ->; destruct b; reflexivity]. Qed.
Lemma look_kill r r' k : look r' (kill r k) = if reg_eqb r r' then None else look r' k.
Proof.
  induction k as [|[a o] k IH]; [destruct (reg_eqb r r'); reflexivity|]. cbn [kill look].
  destruct (reg_eqb a r) eqn:E1.
  - apply reg_eqb_ok in E1. subst a. rewrite IH. destruct (reg_eqb r r'); reflexivity.
  - cbn [look]. rewrite IH. destruct (reg_eqb a r') eqn:E2; [|reflexivity].
    apply reg_eqb_ok in E2. subst a. destruct (reg_eqb r r') eqn:E3; [|reflexivity].
    apply reg_eqb_ok in E3. subst r'. assert (h : reg_eqb r r = true) by (apply reg_eqb_ok; reflexivity).
    rewrite h in E1. discriminate E1.
Qed.
Lemma getr_setr r r' v c s : getr r' (setr r v c s) = if reg_eqb r r' then v else getr r' s.
Proof. destruct s, r, r'; reflexivity. Qed.
Lemma getr_setmem r a v s : getr r (setmem a v s) = getr r s.
Proof. destruct s, r; reflexivity. Qed.
Lemma cf_setr r v c s : cf (setr r v c s) = c.
Proof. destruct s, r; reflexivity. Qed.
Lemma cf_setmem a v s : cf (setmem a v s) = cf s.
Proof. destruct s; reflexivity. Qed.
Lemma Known_setr args k s r v c : Known args k s -> Known args (kill r k) (setr r v c s).
Proof.
  intros h r' o. rewrite look_kill, getr_setr. destruct (reg_eqb r r'); [discriminate|]. apply h.
Qed.
Lemma Known_setmem args k s a v : Known args k s -> Known args k (setmem a v s).
Proof. intros h r o e. rewrite getr_setmem. apply h, e. Qed.
Lemma Known_arg args k s r o c : Known args k s -> Known args ((r, o) :: kill r k) (setr r (args o) c s).
Proof.
  intros h r' o'. cbn [look]. rewrite getr_setr. destruct (reg_eqb r r') eqn:E; [intro e; injection e as <-; reflexivity|].
  rewrite look_kill, E. apply h.
Qed.
Lemma sop_ok args k s o l : Known args k s -> sop o k = Some l -> touched_op o s = map (sval args) l.
Proof.
  intros h. destruct o as [r|n|off b|off]; cbn [sop touched_op].
  - intro e. injection e as <-. reflexivity.
  - intro e. injection e as <-. reflexivity.
  - destruct (look b k) as [a|] eqn:E; [|discriminate]. intro e. injection e as <-. cbn [map sval]. unfold addr.
    rewrite (h b a E). reflexivity.
  - intro e. injection e as <-. reflexivity.
Qed.
Lemma put_inv l r x : put l r = Some x -> exists a b, l = Some a /\ r = Some b /\ x = a ++ b.
Proof. destruct l as [a|], r as [b|]; try discriminate. intro e. injection e as <-. exists a, b. repeat split. Qed.

Lemma static_ok args code : forall k c s l, Known args k s -> (c = true -> cf s <> None) ->
  static k c code = Some l -> accesses args code s = map (sval args) l.
Proof.
  induction code as [|i code IH]; intros k c s l hk hc; cbn [static accesses]; [intro e; injection e as <-; reflexivity|].
  destruct i as [src dst|src|n r d|r d|r d|r d|n d|n r d|n d|].
  - destruct dst as [r|n|off b|off].
    + intro e. assert (e' : put (sop src k) (static (match src with Arg o => (r, o) :: kill r k | _ => kill r k end) c code) = Some l)
        by (destruct src; exact e). clear e. apply put_inv in e' as (a & b & e1 & e2 & ->).
      assert (er : run args [MOVQ src (Reg r); RET] s = Some (setr r (read args src s) (cf s) s)) by (destruct src; reflexivity).
      rewrite er, map_app. cbn [touched touched_op]. rewrite app_nil_r.
      rewrite (sop_ok args k s src a hk e1). f_equal. destruct src as [r'|n|off' b'|off'].
      * apply (IH (kill r k) c); [apply Known_setr, hk|rewrite cf_setr; exact hc|exact e2].
      * apply (IH (kill r k) c); [apply Known_setr, hk|rewrite cf_setr; exact hc|exact e2].
      * apply (IH (kill r k) c); [apply Known_setr, hk|rewrite cf_setr; exact hc|exact e2].
      * apply (IH ((r, off') :: kill r k) c); [apply Known_arg, hk|rewrite cf_setr; exact hc|exact e2].
    + destruct src; discriminate.
    + destruct src as [r'|n|off' b'|off']; try discriminate.
      intro e. apply put_inv in e as (x & y & e1 & e2 & ->). rewrite map_app. cbn [touched run].
      rewrite (sop_ok args k s (Mem off b) x hk e1). cbn [touched_op app]. f_equal.
      apply (IH k c); [apply Known_setmem, hk|rewrite cf_setmem; exact hc|exact e2].
    + destruct src; discriminate.
  - intro e. apply put_inv in e as (a & b & e1 & e2 & ->). rewrite map_app. cbn [touched run].
    rewrite (sop_ok args k s src a hk e1). f_equal. destruct (bits_mul64 (getr AX s) (read args src s)) as [x y].
    apply (IH (kill AX (kill DX k)) false); [apply Known_setr, Known_setr, hk|discriminate|exact e2].
  - cbn [touched run app]. apply IH; [apply Known_setr, hk|discriminate].
  - cbn [touched run app]. destruct (bits_add64 _ _ _) as [v cc]. apply IH; [apply Known_setr, hk|rewrite cf_setr; discriminate].
  - destruct c; [|discriminate]. cbn [touched run app]. destruct (cf s) as [c0|] eqn:E; [|elim (hc eq_refl); reflexivity].
    destruct (bits_add64 _ _ _) as [v cc]. apply IH; [apply Known_setr, hk|rewrite cf_setr; discriminate].
  - cbn [touched run app]. apply IH; [apply Known_setr, hk|rewrite cf_setr; discriminate].
  - cbn [touched run app]. apply IH; [apply Known_setr, hk|discriminate].
  - cbn [touched run app]. apply IH; [apply Known_setr, hk|discriminate].
  - cbn [touched run app]. apply IH; [apply Known_setr, hk|discriminate].
  - cbn [touched run app]. apply IH; [exact hk|exact hc].
Qed.

(** Code accepted by [static] accesses the same addresses whatever the registers and the memory hold. *)
Lemma accesses_const args code : static [] false code <> None -> forall s s', accesses args code s = accesses args code s'.
Proof.
  intro h. destruct (static [] false code) as [l|] eqn:E; [|elim h; reflexivity]. intros s s'.
  assert (a : forall s, accesses args code s = map (sval args) l).
  { intro t. apply (static_ok args code [] false t l); [intros r o e; discriminate e|discriminate|exact E]. }
  rewrite (a s), (a s'). reflexivity.
Qed.
