#!/usr/bin/env python3
"""Generate theories/Table448.v: the look-up tables of edwards448 copied word
by word from the headers of /repo, and the multiples of the base point that the
certificate of TableProofs448.v needs.  The certificate is checked in Coq, so
the hints need not be trusted; the copied words are trusted to be the words of
the headers."""
import re, sys, os
REPO = sys.argv[1] if len(sys.argv) > 1 else "/repo"
OUT = os.path.join(os.path.dirname(os.path.abspath(__file__)), "..", "rocq", "theories", "Table448.v")

def words(path, name):
    t = open(os.path.join(REPO, path)).read()
    m = re.search(name + r"\s*\[[^=]*\]\s*=\s*\{(.*?)\};", t, re.S)
    body = re.sub(r"/\*.*?\*/", "", m.group(1), flags=re.S)
    line = t[:m.start()].count("\n") + 1
    return [int(x, 0) for x in re.findall(r"0x[0-9a-fA-F]+|\b\d+\b", body)], line, line + m.group(0).count("\n")

p = 2**448 - 2**224 - 1
d = -39081 % p
l = 2**446 - 0x8335dc163bb124b65129c96fde933d8d723a70aadc873d6d54a7bb0d
B = (224580040295924300187604334099896036246789641632564134246125461686950415467406032909029192869357953282578032075146446173674602635247710,
     298819210078481492676017930443930673437544040154080242095928241372331506189835876003536878655418784733982303233503462500531545062832660)
def add(P, Q):
    t = d * P[0] * P[1] * Q[0] * Q[1] % p
    return ((P[0] * Q[1] + P[1] * Q[0]) * pow(1 + t, p - 2, p) % p, (P[1] * Q[1] - P[0] * Q[0]) * pow(1 - t, p - 2, p) % p)
def phi(P):
    x, y = P
    return (2 * x * y * pow(y * y - x * x, p - 2, p) % p, (x * x + y * y) * pow(2 - x * x - y * y, p - 2, p) % p)
def pts(L): return "[" + "; ".join("(0x%x, 0x%x)" % P for P in L) + "]"
def ws(L, n=4):
    return "[\n" + ";\n".join("  " + "; ".join("0x%016x" % w for w in L[i:i + n]) for i in range(0, len(L), n)) + "]"

sign, s0, s1 = words("include/table_sign_w4_3675k_ed448.h", r"TableSign_w4_3675k")
verf, v0, v1 = words("include/table_verf_w7_ed448.h", r"TableVerif_static_w7_Ed448")
assert len(sign) == 28 * 168 and len(verf) == 32 * 21
o = ['(** Generated by tools/gen_table448.py from /repo/include; do not edit. *)',
     'From Coq Require Import ZArith List.', 'Import ListNotations.', 'Open Scope Z_scope.', '']
o.append('(** TableSign_w4_3675k, include/table_sign_w4_3675k_ed448.h:%d-%d *)' % (s0, s1))
o.append('Definition TableSign_w4_3675k : list Z := ' + ws(sign) + '.')
o.append('(** TableVerif_static_w7_Ed448, include/table_verf_w7_ed448.h:%d-%d *)' % (v0, v1))
o.append('Definition TableVerif_static_w7_Ed448 : list Z := ' + ws(verf) + '.')
def mul(k, P):
    R = (0, 1)
    while k:
        if k & 1: R = add(R, P)
        P = add(P, P); k >>= 1
    return R
M4 = mul(pow(4, -1, l), B)
D = [M4]
for i in range(450): D.append(add(D[-1], D[-1]))
assert D[2] == B
PD = [phi(P) for P in D]
o.append('(** Hints: a quarter of the base point *)')
o.append('Definition quarter448 : Z * Z := (0x%x, 0x%x).' % M4)
o.append('(** Hints: the images of the quarter and of its double on the isogenous curve *)')
o.append('Definition first448 : list (Z * Z) := ' + pts(PD[:2]) + '.')
o.append('(** Hints: the images of 2^(16k+i) B, 4 <= i < 16, for k < 28 *)')
o.append('Definition dbl448 : list (list (Z * Z)) := [\n  ' + ';\n  '.join(pts(PD[16 * k + 6:16 * k + 18]) for k in range(28)) + '].')
# signed digits of 2^446 - l, and the partial sums of the order times a quarter of the base point
c, naf, i = 2**446 - l, [], 0
while c:
    if c & 1:
        z = 2 - c % 4
        naf.append((i, z)); c -= z
    c >>= 1; i += 1
acc, sums = D[446], []
for i, z in naf:
    acc = add(acc, D[i] if z < 0 else (-D[i][0] % p, D[i][1]))
    sums.append(phi(acc))
assert acc == (0, 1)
o.append('(** Hints: the signed binary digits of the order below 2^446, and the images of the partial sums *)')
o.append('Definition digits448 : list (nat * bool) := [' + '; '.join("(%d%%nat, %s)" % (i, "true" if z < 0 else "false") for i, z in naf) + '].')
o.append('Definition order448 : list (Z * Z) := ' + pts(sums) + '.')
def multiples(P):
    L = [P]
    for _ in range(7): L.append(add(L[-1], P))
    return L
M = [multiples(D[16 * k + 2]) for k in range(28)]
V = [B]
for j in range(31): V.append(add(V[-1], D[3]))
open(OUT, "w").write("\n".join(o) + "\n")
# sanity: layout
for k in range(28):
    for m in range(8):
        w = lambda c: sum(sign[168 * k + 24 * j + 3 * m + c] << 64 * j for j in range(7))
        F = phi(M[k][m])
        assert w(0) == (F[1] + F[0]) % p and w(1) == (F[1] - F[0]) % p and w(2) == 2 * (d - 1) * F[0] * F[1] % p
for j in range(32):
    w = lambda c: sum(verf[21 * j + 7 * c + k] << 64 * k for k in range(7))
    F = phi(V[j])
    assert w(0) == (F[1] + F[0]) % p and w(1) == (F[1] - F[0]) % p and w(2) == 2 * (d - 1) * F[0] * F[1] % p
