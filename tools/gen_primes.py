#!/usr/bin/env python3
"""Writes ../rocq/theories/Primes.v: primality proofs by Pocklington certificates."""
import math, os, random
random.seed(1)
def isp(n, k=20):
    if n < 2: return False
    for q in [2,3,5,7,11,13,17,19,23,29,31,37]:
        if n % q == 0: return n == q
    d, s = n-1, 0
    while d % 2 == 0: d //= 2; s += 1
    for _ in range(k):
        x = pow(random.randrange(2, n-1), d, n)
        if x in (1, n-1): continue
        for _ in range(s-1):
            x = x*x % n
            if x == n-1: break
        else: return False
    return True
def rho(n):
    while True:
        x = y = random.randrange(n); c = random.randrange(1, n); g = 1
        while g == 1:
            x = (x*x+c) % n; y = (y*y+c) % n; y = (y*y+c) % n
            g = math.gcd(abs(x-y), n)
        if g < n: return g
KNOWN = {
 2**255-20: [2,2,3,65147,74058212732561358302231226437062788676166966415465897661863160754340907],
 74058212732561358302231226437062788676166966415465897661863160754340906:
  [2,3,353,57467,132049,1923133,31757755568855353,75445702479781427272750846543864801],
 2**448-2**224-2: [2,641,6700417,18287,196687,1466449,2916841,1469495262398780123809,596242599987116128415063],
 2**252+27742317777372353535851937790883648492: [2,2,3,11,198211423230930754013084525763697,276602624281642239937218680557139826668747],
}
def factor(n):
    if n in KNOWN: return KNOWN[n]
    if n == 1: return []
    if isp(n): return [n]
    for q in range(2, 30000):
        if n % q == 0: return [q] + factor(n//q)
    g = rho(n)
    return sorted(factor(g) + factor(n//g))
out = []
done = set()
K = 0
def mN(N):
    if N == 2**255-19: return "fun q => sh 255 q - 19 * q"
    if N == 2**448-2**224-1: return "fun q => sh 448 q - sh 224 q - q"
    return "fun q => %d * q" % N
def prove(N):
    if N in done: return
    done.add(N)
    name = "prime_%d" % N
    if N < 2**22:
        out.append("Lemma %s : prime %d.\nProof. apply (trial_prime 3000); [lia|vm_compute; reflexivity]. Qed.\n" % (name, N))
        return
    fs = sorted(set(factor(N-1)), reverse=True)
    assert all(isp(f) and (N-1) % f == 0 for f in fs)
    qs, F = [], 1
    for f in fs:
        qs.append(f); F *= f
        if (F+1)**2 > N: break
    assert (F+1)**2 > N
    for q in qs: prove(q)
    a = 2
    while not (pow(a, N-1, N) == 1 and all(math.gcd(pow(a, (N-1)//q, N)-1, N) == 1 for q in qs)): a += 1
    # power table: entry 0 is a; then a^((N-1)/F); then a tree
    steps, ents = [], [(1, a)]
    def add(i, f):
        steps.append((i, f)); ents.append((ents[i][0]*f, pow(ents[i][1], f, N))); return len(ents)-1
    root = add(0, (N-1)//F) if F != N-1 else 0
    leaf = {}
    def tree(i, l):
        if len(l) == 1: leaf[l[0]] = i; return
        # split to balance bit lengths
        l = sorted(l, reverse=True); A, B = [], []
        for q in l:
            (A if sum(x.bit_length() for x in A) <= sum(x.bit_length() for x in B) else B).append(q)
        pa = math.prod(A); pb = math.prod(B)
        tree(add(i, pb), A); tree(add(i, pa), B)
    tree(root, qs)
    small = min(qs); add(leaf[small], small)
    assert ents[-1] == (N-1, 1)
    qd = []
    for q in qs:
        e, y = ents[leaf[q]]; assert e*q == N-1
        u = pow(y-1, -1, N); v = ((y-1)*u-1)//N
        qd.append("(%d, %d%%nat, %d, %d)" % (q, leaf[q], u, v))
    st = "; ".join("(%d%%nat, %d%%positive)" % s for s in steps)
    global K; K += 1; k = K
    out.append("Definition mN_%d : Z -> Z := %s." % (k, mN(N)))
    out.append("Definition steps_%d : list (nat * positive) := [%s]." % (k, st))
    out.append("Definition qs_%d : list (Z * nat * Z * Z) := [%s]." % (k, "; ".join(qd)))
    out.append("Definition certs_%d : list (list (Z * Z)) := Eval vm_compute in table_cert %d steps_%d [%d]." % (k, N, k, a))
    tac = "intros q Hq; unfold mN_%d; rewrite ?sh_eq by auto; try ring." % k
    if N in (2**255-19, 2**448-2**224-1):
        tac = "intros q Hq; unfold mN_%d; rewrite !sh_eq by auto; ring." % k
    else: tac = "reflexivity."
    out.append("Lemma %s : prime %d.\nProof.\n  apply (poc_sound %d mN_%d %d steps_%d certs_%d qs_%d).\n  - %s\n  - vm_cast_no_check (eq_refl true).\n  - reflexivity.\n  - unfold qs_%d; cbn [map fst]; repeat (apply Forall_cons; [first [%s]|]); apply Forall_nil.\nQed.\n"
      % (name, N, N, k, a, k, k, k, tac, k, "|".join("apply prime_%d" % q for q in qs)))
P = [("prime_p25519", 2**255-19, "2 ^ 255 - 19"), ("prime_p448", 2**448-2**224-1, "2 ^ 448 - 2 ^ 224 - 1"),
     ("prime_ell25519", 2**252+27742317777372353535851937790883648493, "2 ^ 252 + 27742317777372353535851937790883648493")]
for nm, N, txt in P:
    prove(N)
    out.append("Theorem %s : prime (%s).\nProof. exact prime_%d. Qed.\n" % (nm, txt, N))
hdr = """(** Generated by tools/gen_primes.py: primality of the field and group orders. *)
From Coq Require Import ZArith Znumtheory List Lia.
From Verif Require Import Primality.
Import ListNotations.
Open Scope Z_scope.

"""
open(os.path.join(os.path.dirname(__file__), "../rocq/theories/Primes.v"), "w").write(hdr + "\n".join(out))
