(** A model of the x86-64 instructions used by /repo/edwards25519/field_amd64.s, and the
    [FieldElement] operations that /repo/edwards25519/field_amd64.go builds from them.
    Registers and memory words are 64-bit; memory is addressed by the address of the word (the
    code uses aligned 8-byte accesses only, at 0, 8, .., 32 bytes from a pointer argument). *)
From Coq Require Import ZArith List.
From Verif Require Import Words.
Import ListNotations.
Open Scope Z_scope.

(** the registers named in field_amd64.s:7-341 *)
Inductive reg : Type := AX | BX | CX | DX | SI | DI | BP | R8 | R9 | R10 | R11 | R12 | R13 | R14 | R15.

(** operands: register, immediate [$n], memory [n(r)], stack argument [name+n(FP)] *)
Inductive operand : Type := Reg (r : reg) | Imm (n : Z) | Mem (off : Z) (r : reg) | Arg (off : Z).

(** Go assembler order: sources first, destination last.  [SHLDQ] is the three-operand form
    of SHLQ, the x86 instruction SHLD (field_amd64.s:151 and others). *)
Inductive instr : Type :=
| MOVQ (s d : operand)
| MULQ (s : operand)
| IMUL3Q (k : Z) (s d : reg)
| ADDQ (s d : reg)
| ADCQ (s d : reg)
| ANDQ (s d : reg)
| SHLQ (k : Z) (d : reg)
| SHLDQ (k : Z) (s d : reg)
| SHRQ (k : Z) (d : reg)
| RET.

(** The machine: registers used by the code, the carry flag ([None] when the last instruction
    leaves it undefined or when the model does not follow it) and the memory. *)
Record mach : Type := Mach {
  rAX : Z; rBX : Z; rCX : Z; rDX : Z; rSI : Z; rDI : Z; rBP : Z;
  rR8 : Z; rR9 : Z; rR10 : Z; rR11 : Z; rR12 : Z; rR13 : Z; rR14 : Z; rR15 : Z;
  cf : option Z; mem : Z -> Z }.

Definition getr (r : reg) (s : mach) : Z :=
  match r with
  | AX => rAX s | BX => rBX s | CX => rCX s | DX => rDX s | SI => rSI s | DI => rDI s | BP => rBP s
  | R8 => rR8 s | R9 => rR9 s | R10 => rR10 s | R11 => rR11 s | R12 => rR12 s | R13 => rR13 s
  | R14 => rR14 s | R15 => rR15 s
  end.

Definition setr (r : reg) (v : Z) (c : option Z) (s : mach) : mach :=
  match s with Mach a b c0 d si di bp r8 r9 r10 r11 r12 r13 r14 r15 _ m =>
  match r with
  | AX => Mach v b c0 d si di bp r8 r9 r10 r11 r12 r13 r14 r15 c m
  | BX => Mach a v c0 d si di bp r8 r9 r10 r11 r12 r13 r14 r15 c m
  | CX => Mach a b v d si di bp r8 r9 r10 r11 r12 r13 r14 r15 c m
  | DX => Mach a b c0 v si di bp r8 r9 r10 r11 r12 r13 r14 r15 c m
  | SI => Mach a b c0 d v di bp r8 r9 r10 r11 r12 r13 r14 r15 c m
  | DI => Mach a b c0 d si v bp r8 r9 r10 r11 r12 r13 r14 r15 c m
  | BP => Mach a b c0 d si di v r8 r9 r10 r11 r12 r13 r14 r15 c m
  | R8 => Mach a b c0 d si di bp v r9 r10 r11 r12 r13 r14 r15 c m
  | R9 => Mach a b c0 d si di bp r8 v r10 r11 r12 r13 r14 r15 c m
  | R10 => Mach a b c0 d si di bp r8 r9 v r11 r12 r13 r14 r15 c m
  | R11 => Mach a b c0 d si di bp r8 r9 r10 v r12 r13 r14 r15 c m
  | R12 => Mach a b c0 d si di bp r8 r9 r10 r11 v r13 r14 r15 c m
  | R13 => Mach a b c0 d si di bp r8 r9 r10 r11 r12 v r14 r15 c m
  | R14 => Mach a b c0 d si di bp r8 r9 r10 r11 r12 r13 v r15 c m
  | R15 => Mach a b c0 d si di bp r8 r9 r10 r11 r12 r13 r14 v c m
  end end.

Definition setmem (a v : Z) (s : mach) : mach :=
  match s with Mach ax b c0 d si di bp r8 r9 r10 r11 r12 r13 r14 r15 c m =>
  Mach ax b c0 d si di bp r8 r9 r10 r11 r12 r13 r14 r15 c (fun x => if x =? a then v else m x) end.

(** The address of [n(r)]. *)
Definition addr (off : Z) (r : reg) (s : mach) : Z := u64 (getr r s + off).

Definition read (args : Z -> Z) (o : operand) (s : mach) : Z :=
  match o with
  | Reg r => getr r s
  | Imm n => n
  | Mem off r => mem s (addr off r s)
  | Arg off => args off
  end.

(** Execution to RET.  [None]: a carry flag that is not known is used, an operand form that
    does not exist is used, or the code ends without RET.  ADDQ/ADCQ set the carry flag to the
    carry out, ANDQ clears it, MOVQ keeps it; after the multiplications and shifts the model
    treats it as unknown. *)
Fixpoint run (args : Z -> Z) (code : list instr) (s : mach) : option mach :=
  match code with
  | [] => None
  | i :: rest =>
    match i with
    | MOVQ src (Reg r) => run args rest (setr r (read args src s) (cf s) s)
    | MOVQ (Reg r) (Mem off b) => run args rest (setmem (addr off b s) (getr r s) s)
    | MOVQ _ _ => None
    | MULQ src =>
        let (h, l) := bits_mul64 (getr AX s) (read args src s) in
        run args rest (setr AX l None (setr DX h None s))
    | IMUL3Q k r d =>
        let v := u64 (getr r s * k) in run args rest (setr d v None s)
    | ADDQ r d =>
        let (v, c) := bits_add64 (getr d s) (getr r s) 0 in run args rest (setr d v (Some c) s)
    | ADCQ r d =>
        match cf s with
        | Some c0 => let (v, c) := bits_add64 (getr d s) (getr r s) c0 in run args rest (setr d v (Some c) s)
        | None => None
        end
    | ANDQ r d =>
        let v := Z.land (getr d s) (getr r s) in run args rest (setr d v (Some 0) s)
    | SHLQ k d =>
        let v := u64 (Z.shiftl (getr d s) k) in run args rest (setr d v None s)
    | SHLDQ k r d =>
        let v := Z.lor (Z.shiftr (getr r s) (64 - k)) (u64 (Z.shiftl (getr d s) k)) in
        run args rest (setr d v None s)
    | SHRQ k d =>
        let v := Z.shiftr (getr d s) k in run args rest (setr d v None s)
    | RET => Some s
    end
  end.
