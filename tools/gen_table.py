#!/usr/bin/env python3
"""Generate theories/Table255.v: the look-up tables of edwards25519 copied word
by word from the headers of /repo, and the points that the certificate of
TableProofs255.v needs besides the tables (doublings, partial sums).  The
certificate is checked in Coq, so the hints need not be trusted; the copied
words are trusted to be the words of the headers."""
import re, sys, os
REPO = sys.argv[1] if len(sys.argv) > 1 else "/repo"
OUT = os.path.join(os.path.dirname(os.path.abspath(__file__)), "..", "rocq", "theories", "Table255.v")

def words(path, name):
    t = open(os.path.join(REPO, path)).read()
    m = re.search(name + r"\s*\[[^=]*\]\s*=\s*\{(.*?)\};", t, re.S)
    body = re.sub(r"/\*.*?\*/", "", m.group(1), flags=re.S)
    line = t[:m.start()].count("\n") + 1
    return [int(x, 0) for x in re.findall(r"0x[0-9a-fA-F]+|\b\d+\b", body)], line, line + m.group(0).count("\n")

p = 2**255 - 19
d = -121665 * pow(121666, p - 2, p) % p
l = 2**252 + 27742317777372353535851937790883648493
B = (15112221349535400772501151409588531511454012693041857206046113283949847762202,
     46316835694926478169428394003475163141307993866256225615783033603165251855960)
def add(P, Q):
    t = d * P[0] * P[1] * Q[0] * Q[1] % p
    return ((P[0] * Q[1] + P[1] * Q[0]) * pow(1 + t, p - 2, p) % p, (P[1] * Q[1] + P[0] * Q[0]) * pow(1 - t, p - 2, p) % p)
def pts(L): return "[" + "; ".join("(0x%x, 0x%x)" % P for P in L) + "]"
def ws(L, n=4):
    return "[\n" + ";\n".join("  " + "; ".join("0x%016x" % w for w in L[i:i + n]) for i in range(0, len(L), n)) + "]"

sign, s0, s1 = words("include/table_sign_w4_24k_ed25519.h", r"TableSign_w4_24k")
verf, v0, v1 = words("include/table_verf_w7_ed25519.h", r"TableVerif_static_w7_Ed25519")
assert len(sign) == 3072 and len(verf) == 384
o = ['(** Generated by tools/gen_table.py from /repo/include; do not edit. *)',
     'From Coq Require Import ZArith List.', 'Import ListNotations.', 'Open Scope Z_scope.', '']
o.append('(** TableSign_w4_24k, include/table_sign_w4_24k_ed25519.h:%d-%d *)' % (s0, s1))
o.append('Definition TableSign_w4_24k : list Z := ' + ws(sign) + '.')
o.append('(** TableVerif_static_w7_Ed25519, include/table_verf_w7_ed25519.h:%d-%d *)' % (v0, v1))
o.append('Definition TableVerif_static_w7_Ed25519 : list Z := ' + ws(verf) + '.')
# hints: for each of the 32 bases b = 256^k B the points 16b, 32b, 64b, 128b
D = [B]
for i in range(255): D.append(add(D[-1], D[-1]))
o.append('(** Hints: 2^(8k+4) B, ..., 2^(8k+7) B for k < 32 *)')
o.append('Definition dbl_hints : list (list (Z * Z)) := [\n  ' + ';\n  '.join(pts(D[8*k+4:8*k+8]) for k in range(32)) + '].')
# partial sums of l B, over the set bits of l from low to high
acc, sums = None, []
for i in range(l.bit_length()):
    if l >> i & 1:
        acc = D[i] if acc is None else add(acc, D[i])
        sums.append(acc)
assert acc == (0, 1)
o.append('(** Hints: partial sums of the order times B, over its set bits *)')
o.append('Definition order_hints : list (Z * Z) := ' + pts(sums[1:]) + '.')
open(OUT, "w").write("\n".join(o) + "\n")
# sanity: layout
for i in range(16):
    for h in range(2):
        P = D[8 * (i + 16 * h)]; Q = P
        for m in range(8):
            w = lambda c: sum(sign[192 * i + 2 * (24 * j + 3 * m + c) + h] << 64 * j for j in range(4))
            assert w(0) == (Q[1] + Q[0]) % p and w(1) == (Q[1] - Q[0]) % p and w(2) == 2 * d * Q[0] * Q[1] % p, (i, h, m)
            assert w(2) % 2**26 <= 0x3ffffed
            Q = add(Q, P)
Q = B
for j in range(32):
    w = lambda c: sum(verf[12 * j + 4 * c + k] << 64 * k for k in range(4))
    r = (w(0) == (Q[1] + Q[0]) % p, w(1) == (Q[1] - Q[0]) % p, w(2) == 2 * d * Q[0] * Q[1] % p)
    if r != (True, True, True): print("verif", j, r)
    Q = add(Q, D[1])
