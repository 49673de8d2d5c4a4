#!/usr/bin/env python3
"""Transcribe the inline assembly blocks of /repo/src into Coq instruction
lists (rocq/theories/Asm25519.v, Asm448.v, AsmSign255.v).  The translation is
purely syntactic: gas macros are expanded, every instruction becomes one
constructor of X86.instr, AT&T operand order is kept."""
import re, sys
REPO = "/repo/src/"

REGS = {}
for r in "rax rbx rcx rdx rsi rdi rbp r8 r9 r10 r11 r12 r13 r14 r15".split():
    REGS[r] = (r.upper(), 64)
for r in "eax ebx ecx edx esi edi ebp".split():
    REGS[r] = ("R" + r[1:].upper(), 32)
for r in range(8, 16):
    REGS["r%dd" % r] = ("R%d" % r, 32)
REGS["cl"] = ("RCX", 8)

def strip_comments(s):
    return re.sub(r"/\*.*?\*/", "", s, flags=re.S)

def asm_text(fname, line):
    """The concatenated string literals of the asm statement at fname:line."""
    src = open(REPO + fname).read().split("\n")
    txt = "\n".join(src[line - 1:])
    i = txt.index("__asm__")
    i = txt.index("(", i)
    depth, j, instr = 0, i, False
    while True:
        c = txt[j]
        if instr:
            if c == "\\": j += 1
            elif c == '"': instr = False
        elif txt.startswith("/*", j):
            j = txt.index("*/", j) + 1
        elif c == '"': instr = True
        elif c == "(": depth += 1
        elif c == ")":
            depth -= 1
            if depth == 0: break
        j += 1
    end_line = line + txt[:j].count("\n")
    body = strip_comments(txt[i + 1:j])
    lits, k = [], 0
    while k < len(body):
        c = body[k]
        if c in " \t\n\\": k += 1; continue
        if c == '"':
            m = re.match(r'"((?:[^"\\]|\\.)*)"', body[k:])
            lits.append(m.group(1)); k += m.end(); continue
        if c == ":": break
        raise SystemExit("unexpected %r in %s:%d" % (body[k:k+20], fname, line))
    s = "".join(lits).replace("\\n", "\n").replace("\\t", " ").replace("\\\\", "\\")
    ins = [x.strip() for x in re.split(r"[;\n]", s)]
    return [x for x in ins if x], end_line

def expand(ins):
    out, macros, cur = [], {}, None
    for x in ins:
        if x.startswith(".macro"):
            w = x[6:].strip().split(None, 1)
            cur = w[0]; macros[cur] = ([p.strip() for p in w[1].split(",")] if len(w) > 1 else [], [])
        elif x.startswith(".endm"): cur = None
        elif x.startswith(".purgem"): pass
        elif cur: macros[cur][1].append(x)
        else:
            w = x.split(None, 1)
            if w[0] in macros:
                ps, body = macros[w[0]]
                args = [a.strip() for a in w[1].split(",")] if len(w) > 1 else []
                assert len(ps) == len(args)
                for b in body:
                    for p, a in sorted(zip(ps, args), key=lambda t: -len(t[0])):
                        b = b.replace("\\" + p, a)
                    out.append(b)
            else: out.append(x)
    return out

def operand(o):
    """-> (coq, width)"""
    o = o.strip()
    m = re.match(r"^\$(0x[0-9a-fA-F]+|-?\d+)$", o)
    if m: return "Im (%d)" % int(m.group(1), 0), None
    m = re.match(r"^%%(\w+)$", o)
    if m:
        r, w = REGS[m.group(1)]; return "R %s" % r, w
    m = re.match(r"^(-?\d*)\(%(\d)\)$", o)
    if m: return "A %s %d" % (m.group(2), int(m.group(1) or 0)), 64
    m = re.match(r"^%(k?)(\d)$", o)
    if m: return "D %s" % m.group(2), 32 if m.group(1) else None
    raise SystemExit("operand " + o)

def par(s): return "(" + s + ")"

def tr(x, int_ops=()):
    w = x.split(None, 1)
    op = w[0]
    ops = [operand(o) for o in w[1].split(",")] if len(w) > 1 else []
    a = [par(o[0]) for o in ops]
    widths = {o[1] for o in ops if o[1]}
    is32 = 32 in widths
    if op in ("movq", "mov", "movl"):
        if is32 and not ops[0][0].startswith("Im"): return "MOV32 %s %s" % tuple(a)
        if op == "movl" or is32: assert ops[0][0].startswith("Im") and int(ops[0][0][4:-1]) >= 0
        return "MOV %s %s" % tuple(a)
    simple = {"addq": "ADD", "adcq": "ADC", "subq": "SUB", "sbbq": "SBB", "adcx": "ADCX", "adox": "ADOX",
              "andq": "AND", "orq": "OR"}
    if op in simple:
        assert not is32, x
        return "%s %s %s" % ((simple[op],) + tuple(a))
    if op == "mulx": assert not is32; return "MULX %s %s %s" % tuple(a)
    if op == "mulq": return "MULQ %s" % a[0]
    if op in ("imul", "imulq"):
        assert not is32
        return ("IMUL %s %s" if len(a) == 2 else "IMUL3 %s %s %s") % tuple(a)
    if op in ("xorl", "xorq"): assert a[0] == a[1], x; return "ZERO %s" % a[0]
    if op == "shlq": return "SHL %s %s" % (a[0].replace("Im ", ""), a[1])
    if op in ("shldq", "shrdq"): return "%s %s %s %s" % (op[:4].upper(), a[0].replace("Im ", "").replace("((","(").replace("))",")"), a[1], a[2])
    if op == "cmovc": return ("CMOVC32 %s %s" if is32 else "CMOVC %s %s") % tuple(a)
    if op == "cmovncl": return "CMOVNC32 %s %s" % tuple(a)
    if op == "cmovnsl": return "CMOVNS32 %s %s" % tuple(a)
    if op == "cmovnz": assert not is32; return "CMOVNZ %s %s" % tuple(a)
    if op == "test":
        assert a[0] == a[1]
        return ("TEST32 %s" if int(ops[0][0][2:]) in int_ops else "TEST %s") % a[0]
    if op == "clc": return "CLC"
    if op == "btrq": return "BTR %s %s" % (a[0].replace("Im ", ""), a[1])
    if op == "setc": return "SETC %s" % a[0]
    if op == "btl": assert a[0] == "(Im (0))"; return "BT0 %s" % a[1]
    raise SystemExit("mnemonic " + x)

def emit(out, fname, line, name, desc, int_ops=()):
    ins, end = asm_text(fname, line)
    ins = expand(ins)
    out.append("(** %s, /repo/src/%s:%d-%d. *)" % (desc, fname, line, end))
    out.append("Definition %s : list instr := [" % name)
    t = [tr(x, int_ops) for x in ins]
    out.append("  " + ";\n  ".join(t))
    out.append("].\n")

HEAD = """(** Inline assembly of /repo/src transcribed by tools/asm2coq.py (one
    constructor per instruction, gas macros expanded).  Generated file. *)
From Coq Require Import ZArith List.
From Verif Require Import Uop X86.
Import ListNotations.
Open Scope Z_scope.
"""
def table(fname, coqfile, rows):
    out = [HEAD]
    for r in rows: emit(out, fname if isinstance(r[0], int) else r[0], *(r if isinstance(r[0], int) else r[1:]))
    open("/verif/rocq/theories/" + coqfile, "w").write("\n".join(out))

F = "eltfp25519_1w_fullradix.c"
table(F, "Asm25519.v", [
 (25, "asm_intmul2_mulxadx", "intmul2_Fp255 (BMI2+ADX)"),
 (90, "asm_intmul2_mulx", "intmul2_Fp255 (BMI2)"),
 (184, "asm_intmul2_mulq", "intmul2_Fp255 (base)"),
 (335, "asm_intsqr2_mulxadx", "intsqr2_Fp255 (BMI2+ADX)"),
 (410, "asm_intsqr2_mulx", "intsqr2_Fp255 (BMI2)"),
 (512, "asm_intsqr2_mulq", "intsqr2_Fp255 (base)"),
 (616, "asm_reduce2_mulxadx", "reduce2_Fp255 (BMI2+ADX)"),
 (652, "asm_reduce2_mulx", "reduce2_Fp255 (BMI2)"),
 (698, "asm_reduce2_mulq", "reduce2_Fp255 (base)"),
 (794, "asm_modp", "modp_Fp255: operands %0..%3 are the words of c, %4 %5 scratch"),
 (850, "asm_intmul_mulxadx", "intmul_Fp255 (BMI2+ADX)"),
 (886, "asm_intmul_mulx", "intmul_Fp255 (BMI2)"),
 (937, "asm_intmul_mulq", "intmul_Fp255 (base)"),
 (1009, "asm_intsqr_mulxadx", "intsqr_Fp255 (BMI2+ADX)"),
 (1050, "asm_intsqr_mulx", "intsqr_Fp255 (BMI2)"),
 (1105, "asm_intsqr_mulq", "intsqr_Fp255 (base)"),
 (1167, "asm_reduce_mulxadx", "reduce_Fp255 (BMI2+ADX)"),
 (1189, "asm_reduce_mulx", "reduce_Fp255 (BMI2)"),
 (1216, "asm_reduce_mulq", "reduce_Fp255 (base)"),
 (1259, "asm_add_adx", "add_Fp255 (ADX)"),
 (1282, "asm_add_adc", "add_Fp255 (base)"),
 (1312, "asm_sub", "sub_Fp255"),
 (1334, "asm_cmv", "cmv_Fp255; operand %3 is an int", (3,)),
 (1524, "asm_mula24_mulx", "mula24_Fp255 (BMI2)"),
 (1548, "asm_mula24_mulq", "mula24_Fp255 (base)"),
 ("eltfp25519_1w_redradix.c", 329, "asm_ser_1w_redradix", "carry part of ser_Fp255_1w_redradix"),
 ("ladder255.c", 96, "asm_select_cmov_x64", "select_cmov_x64"),
])
F = "eltfp448_1w_fullradix.c"
table(F, "Asm448.v", [
 (63, "asm448_sub", "sub_Fp448"),
 (118, "asm448_cmv", "cmv_Fp448; operand %3 is an int", (3,)),
 (185, "asm448_intmul_mulxadx", "intmul_Fp448 (BMI2+ADX)"),
 (236, "asm448_intmul_mulx", "intmul_Fp448 (BMI2)"),
 (281, "asm448_intmul_mulq", "intmul_Fp448 (base)"),
 (337, "asm448_intsqr_mulxadx", "intsqr_Fp448 (BMI2+ADX)"),
 (442, "asm448_intsqr_mulx", "intsqr_Fp448 (BMI2)"),
 (573, "asm448_intsqr_mulq", "intsqr_Fp448 (base)"),
 (697, "asm448_reduce_adx", "reduce_Fp448 (ADX)"),
 (779, "asm448_reduce_leg", "reduce_Fp448 (base)"),
 (937, "asm448_add_adx", "add_Fp448 (ADX)"),
 (992, "asm448_add_adc", "add_Fp448 (base)"),
 (1146, "asm448_mula24_mulx", "mula24_Fp448 (BMI2)"),
 (1187, "asm448_mula24_mulq", "mula24_Fp448 (base)"),
])
table("sign255.c", "AsmSign255.v", [
 (76, "asm_reduce256bits", "reduce256bits"),
 (191, "asm_reduce64bits", "reduce64bits"),
 ("bytestring.c", 80, "asm_mul64x64", "mul64x64: operands %0..%2 are Z[0..2], %3 %4 point to X, Y"),
 ("edwards448.c", 914, "asm_SUB512", "SUB512"),
 ("edwards255.c", 1154, "asm_SUB256", "SUB256: operands %0..%3 are r3..r0, %4..%7 are b3..b0"),
])
