#!/usr/bin/env python3
"""Translate /repo/edwards25519/field_amd64.s, one instruction per line, into the instruction
lists of theories/Amd64Code.v.  Usage: asm2coq.py > rocq/theories/Amd64Code.v"""
import re
SRC = "/repo/edwards25519/field_amd64.s"
REGS = "AX BX CX DX SI DI BP R8 R9 R10 R11 R12 R13 R14 R15".split()

def operand(s):
    s = s.strip()
    if s in REGS: return "Reg %s" % s
    m = re.fullmatch(r"\$(\d+)", s)
    if m: return "Imm %s" % m.group(1)
    m = re.fullmatch(r"(\d+)\((\w+)\)", s)
    if m and m.group(2) in REGS: return "Mem %s %s" % (m.group(1), m.group(2))
    m = re.fullmatch(r"\w+\+(\d+)\(FP\)", s)
    if m: return "Arg %s" % m.group(1)
    raise SystemExit("operand " + s)

def instr(op, args):
    par = lambda o: o if " " not in o else "(" + o + ")"
    a = [operand(x) for x in args]
    reg = lambda o: o[4:] if o.startswith("Reg ") else bad(o)
    imm = lambda o: o[4:] if o.startswith("Imm ") else bad(o)
    def bad(o): raise SystemExit("bad operand %s in %s %s" % (o, op, args))
    if op == "RET": return "RET"
    if op in ("MOVQ",): return "MOVQ %s %s" % (par(a[0]), par(a[1]))
    if op == "MULQ": return "MULQ %s" % par(a[0])
    if op == "IMUL3Q": return "IMUL3Q %s %s %s" % (imm(a[0]), reg(a[1]), reg(a[2]))
    if op in ("ADDQ", "ADCQ", "ANDQ"): return "%s %s %s" % (op, reg(a[0]), reg(a[1]))
    if op == "SHLQ" and len(a) == 2: return "SHLQ %s %s" % (imm(a[0]), reg(a[1]))
    if op == "SHLQ" and len(a) == 3: return "SHLDQ %s %s %s" % (imm(a[0]), reg(a[1]), reg(a[2]))
    if op == "SHRQ": return "SHRQ %s %s" % (imm(a[0]), reg(a[1]))
    bad(op)

funcs, cur = [], None
for n, line in enumerate(open(SRC), 1):
    t = line.split("//")[0].strip()
    if not t or t.startswith("#"): continue
    if t.startswith("TEXT"):
        name = re.match(r"TEXT ·(\w+)\(SB\),NOSPLIT,\$0$", t).group(1)
        cur = [name, n, n, []]; funcs.append(cur); continue
    op, _, rest = t.partition(" ")
    cur[2] = n
    cur[3].append((n, instr(op, [x for x in rest.split(",")] if rest.strip() else [])))

print('''(** Generated by tools/asm2coq.py from /repo/edwards25519/field_amd64.s: one list element per
    instruction, in the order of the file; the trailing comment is the source line. *)
From Coq Require Import ZArith List.
From Verif Require Import Amd64Model.
Import ListNotations.
Open Scope Z_scope.
''')
for name, a, b, ins in funcs:
    print("(** [%s]: /repo/edwards25519/field_amd64.s:%d-%d *)" % (name, a, b))
    print("Definition asm_%s : list instr := [" % name)
    for i, (n, s) in enumerate(ins):
        print("  %s%s (* %d *)" % (s, ";" if i + 1 < len(ins) else "", n))
    print("].\n")
