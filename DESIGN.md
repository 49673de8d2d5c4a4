# Design of the formal model of faz_ecc_avx2 (fld-ecc-vec)

## Trusted base
* The Coq 8.16.1 kernel, including `vm_compute`.
* What `Print Assumptions` prints under each theorem.  Every theorem named in
  MANIFEST.json prints "Closed under the global context": no axiom is used.
  (`coqchk` over all loaded libraries also lists seven constants of
  `Coq.ssr.ssrunder` and the like that the standard library declares; no
  theorem depends on them.)
* The reading of the source: the model is a transcription of `/repo`.
  The assembly blocks, the bodies of the vector routines, the tables and the
  unrolled hash rounds are produced by text rewriting scripts
  (`tools/asm2coq.py`, `simd2coq.py`, `gen_table.py`, `gen_table448.py`,
  `gen_sha512.py`, `gen_sha3.py`).  Their output is committed and is what the
  theorems are about; that the output matches the C text is trusted.  Errors
  there would show up as theorems that fail to prove or as odd refutations; each
  refutation below was re-read in the C text.
  (`tools/gen_primes.py` writes primality certificates, which Coq checks.)
  Everything else is written by hand, each definition citing its lines.
* The semantics given to x86-64 and AVX2 instructions (`Uop.v`, `X86.v`,
  `Simd.v`, and the list versions in `Edwards255.v`, `Fixed255.v`).

Sanity checks done outside Coq: the model run as a Python transcription
reproduces RFC 8032 vectors for Ed25519 and Ed448 and RFC 7748 vectors.
They are no part of the proofs.

## Layers

### L0  words and micro-operations (`Uop.v`, `X86.v`, `Simd.v`)
A store maps locations (numbers) to integers.  Registers, flags and 64-bit
memory words are locations.  Every x86 instruction and every lane of an AVX2
intrinsic is a short list of *micro-operations* (add with carry, subtract with
borrow, 64x64->128 product, 32x32->64 product, shifts, masks, logic, select),
each with an explicit `mod 2^64`.  `run : list uop -> store -> store` is total
and computable.  A flag that the manual leaves undefined gets the value 2, which
no flag can hold.  Vector instructions read all lanes before they write any.
Simplification: shuffles and blends of 32-bit halves are supported for immediates
that keep the two halves of a 64-bit lane together (every use in the library).

### L0' verified symbolic execution (`Poly.v`, `Sym.v`, `Engine.v`, `Check.v`, `Lanes.v`)
A reflective executor maps each location to a polynomial over the initial words
and over fresh quotient atoms (carries, borrows, shifted-out parts), with an
interval for each.  Soundness theorem: the final store is the value of the final
polynomials under some valuation of the atoms satisfying all recorded division
constraints.  Congruence modulo p is then a check that all coefficients of a
difference polynomial are divisible by p; absence of lost carries is an interval
check.  All of this is done once, by `vm_compute`, *for all inputs*: the
statement quantifies over the store.

### L1  field routines (`Asm*.v`, `Simd255.v`, `Simd448.v`, `Fp*Full.v`, `Fp*Red.v`)
For each routine of `eltfp25519_*` / `eltfp448_*`: program = transcription,
specification = congruence modulo p of little-endian/radix values + limb bounds.
A call (`Engine.call`) places the arguments in a store with arbitrary other
contents `st0` and reads the result; every theorem quantifies over `st0`, so no
result depends on uninitialised memory unless stated (`junk`, `K0`, `S0` are
explicit where the code does read or keep it).  Aliasing calls: `Alias.v`,
`InPlace.v`.

### L2  number theory (`Primality.v`, `Primes.v`, `FpType.v`)
Primality of 2^255-19 and 2^448-2^224-1 (Pocklington certificates), Fermat,
Euler criterion; inversion and square roots.

### L3  curves (`EdwardsGroup.v`, `AbGroup.v`, `CurveLadder.v`, `EdPoint.v`, `EdInst*.v`, `Iso*.v`, `Elligator.v`, `Birational.v`)
Complete twisted Edwards law with associativity, Montgomery ladder, the
2-isogenies between the twisted curve of the code and edwards448, Elligator 2.
Specifications from RFC 7748, 8032, 9380, FIPS 180-4 and 202 are in `Spec*.v`
and mention no definition of the model (only limb layouts in `SpecVec.v`,
`SpecEdVec.v`, `SpecEd448Vec.v`).

### L4  API (`Ladder.v`, `Keygen255.v`, `Keygen448X.v`, `Sign255.v`, `Sign448.v`, `Hash255.v`, `Sha512.v`, `Sha3.v`)
In the signature theorems the hash is an arbitrary function from byte lists to
digests of the right length; C57, C67 and C68 are about the hash code itself.
`SignHash.v` has the same functions with the calls of the hash code; C82 joins the two.

### Properties
`Props*.v` contain only the theorems, each with an `Example` that meets its
hypotheses and with `Print Assumptions`.

## What is modelled, file by file
| source | modelled | not modelled |
|---|---|---|
| eltfp25519_1w_fullradix.c | all arithmetic blocks in their three CPU variants, modp, inv, srt/invsqrt, cmp, sgn, cmv, ser/unser | print, rand |
| eltfp25519_{1,2,4}w_redradix.c | add, sub, neg, addsub, mul, sqr, compress*, mula24 of the ladder, cmv, inter/deinter, ser/unser, cmp, inv, pow, srt | print, rand, disabled preprocessor branches |
| eltfp448_*.c | the same for Fp448 | the same |
| fp255.c, fp448.c, ed*.c, dh*.c | which routine each entry of the structures points to (C29) | structure initialisation itself |
| ladder255.c, ladder448.c | shared secret (x64, avx2), key generation of X25519 and X448 | random keys |
| edwards255.c | 1-way full-radix, four-way mixed addition, two-way addition and doubling used by the library, tables, query (LUT_24KB), recodings, fixed-base multiplication, encoding, decoding, 4-lane double multiplication | other LOOKUP_TABLE_SIZE values, unused 2-lane double multiplication (:1301-1425; only its buffers: C40) |
| edwards448.c | the same for Ed448, with decoding and 4-lane double multiplication | unused 2-lane double multiplication |
| sign255.c, sign448.c | key generation, signing, verification, all entry points | random keys, printing, allocation |
| hash255.c | h2c25519_x64, isOnCurve, areEqual; hash_to_field_2w (`Hash255x2.v`); h2c25519_avx2 and its two-lane map (`Map255x2.v`) | nothing proved about h2c25519_avx2 after the map |
| third_party/sha512_2way.c | sha512_2w_avx (`Sha512x2.v`) | sha512_2w_avx_256b (in no header, never called) |
| bytestring.c | 64-bit multipliers, comparison, copies used above | printing, hex conversion |
| third_party/sha512.c, sha3.c | what the library calls | Final/Hash/Hash2 of sha3.c, SHA-384, random.c |
| target.c | - | CPU detection (every theorem quantifies over the variant) |

Not modelled at all: timing and constant-time behaviour, the C compiler, register
allocation and clobber lists of inline assembly, alignment faults, memory
allocation failures, overlapping caller buffers except where a theorem says so.

## Per property plan
| id | what is modelled | how it is proved |
|----|------------------|------------------|
| C01 C02 | asm of add (adx and adc), sub | symbolic execution; aliasing patterns as separate instantiations |
| C03 C04 C06 | asm of intmul, intsqr, intmul2, intsqr2, three variants | symbolic execution with carry hints |
| C05 | asm of reduce (2 variants), mul, sqr | symbolic execution, composition |
| C07 | asm of mula24 | symbolic execution |
| C08 C09 | asm of modp, ser, cmp, cmp_bytes | symbolic execution + linear arithmetic |
| C10 | addition chain of inv over the store model | exponent bookkeeping + Fermat |
| C11 | cmv in its three variants | direct |
| C12 C13 | unser, ser of the 1-way vector code | symbolic execution; C13 refuted with exact condition |
| C14-C18 | vector routines, lane by lane | symbolic execution; non-interference from the polynomial form |
| C19 | cmp (masked) | refuted: counterexample; exact condition |
| C20 | invsqrt/srt | chain exponents + Euler; aliasing bug refuted |
| C21-C27 | the same for Fp448 | the same |
| C28 C29 C30 | ser, prime, intmul2... of Fp448 | refuted with witnesses and exact conditions |
| C31 C32 C35 C36 | ladder loops over the field model | refinement to RFC 7748 spec, loop invariant |
| C33 | abstract ladder | group law on Edwards/Montgomery form |
| C34 | keygen | fixed-base multiplication + birational map |
| C37 C38 | X448 likewise | likewise; wrong exactly on a sparse set |
| C39 C40 | recodings, wNAF loops | induction over digits / loop invariant |
| C41 C42 C54 | asm of reduce256bits, reduce64bits, word64_multiplier, modular_reduction | symbolic execution; exact failing condition |
| C43 C46 | point formulas, fixed-base multiplication | field identities, completeness; limb bounds by the engine |
| C44 C45 C63 | table query, tables | finite exhaustive computation lifted with forallb_forall, symbolic selection; certificates for points |
| C47 C48 | point_decoding | Euler criterion; C48 refuted |
| C49 C64 C65 C66 | sign/verify over abstract hash | composition of C41-C47 with the group law; counterexamples by exact evaluation |
| C50 C51 | argument checks and hash input strings | direct; injectivity of the framing |
| C52 C53 | verify | refuted: malleation constructed for every signature |
| C55 C56 C69 C70 | elligator, hash_to_field, comparison | field identities; C56 refuted |
| C57 C67 C68 | sph_sha512, sha3 | induction over the chunk list; refinement to FIPS |
| C58 | calls of the full-radix routines | independence of the initial store |
| C59-C62 | vector inversion, root, comparison, mixed lanes | exponent bookkeeping; lane slicing |
| C71 C72 C73 | Ed448 formulas, tables, encoding | isogeny, field identities, certificates |
| C74 C75 | Ed448 keygen and sign | conditional: signed digits outside five pairs, carries kept |
| C76 C77 | Ed448 point decoding | square-root chain and Euler criterion for regular coordinates; a wrap of the lowest limb refutes C76, unread bits refute C77 |
| C78 C79 C80 | Ed448 verify and round trip | composition of C39, C54, C71, C72, C73, C75, C76 with the group law, under their conditions; C80 refuted |
| C81 | X448 key generation | C74 and the map (x, y) -> y^2/x^2, which carries edwards448 to the Montgomery ladder (`Map448.v`); refuted in general |
| C82 | signature functions with their calls of the hash code (`SignHash.v`) | C57, C67, C68 applied to the pieces; equality with the functions over SHA512_fips, SHAKE256_fips |
| C83 | two-way SHA-512 on registers of two lanes, the array of 80 registers with arbitrary contents (`Sha512x2.v`) | each lane of the 80 rounds and of the schedule is the one of FIPS 180-4; induction on the blocks; the two padding cases |
| C84 | hash_to_field_2w (`Hash255x2.v`) | C83 and C57; the length modulo 2^32 |
| C85 | map_to_curve_2w and what it calls (`Map255x2.v`) | per-lane values in the field with the comparison as equality of byte parities (`Map255x2Ops.v`, `Map255x2Proofs.v`); right when the comparisons cannot err; refuted by a message found by search, with the converse of the rational map (`EllConverse.v`) |

## What was found wrong in the code
Each item is a theorem ending in `_refuted` (or an exact characterisation):
C13/C28 conversion to bytes loses a carry on a sparse set of non-canonical (255) or
canonical (448) values, hence C37, C73; C19 the 255 vector comparison looks at
one bit per byte; C20 a root computed in place; C29 the exported prime of Fp448;
C40 buffers of an unused routine; C41/C42/C54 reductions that drop a carry
or leave S above the order; C43/C49/C64/C71 the four-lane mixed addition of
verification subtracts without enough slack (2^34 p where 2^35 p is meant);
C46 scalars from 0x77..78; C48 decoding never fails; C52 S not compared
with the order; C53 last signature byte never read; C56 hash_to_field reduces
modulo the group order; C66 wrong S for nonce residues 2^252; C76 the Ed448 public key with y = 2^16 is valid and
refused; C77 seven bits of an Ed448 public key are not read;
C80 Ed448 verification accepts S above the order; C84 the two-way hash to the field takes the message length modulo 2^32;
C85 the two-way Elligator map takes the wrong branch for the message e6 57 51 35 00 00 00 00 and leaves the curve, because it uses the comparison of C19;
C74/C81 the division of the scalar by four loses a carry, so that the key 2^447 + 2^321 - 2^127
gets the public key of another scalar (X448 key generation, Ed448 fixed-base multiplication).

Observed by simulation only (not a theorem): about one honest Ed25519 signature
in 10^4 is rejected by verification, because each of the about 81 mixed additions
underflows with probability about 1.3e-6.  With SHA-512, the empty message and
the private key equal to n as 32 little-endian bytes, this happens for
n = 5012, 16146, 32063, 39612 and no other n below 40000.
C49_refuted proves that it happens for one key and hash function.

## Partial results
MANIFEST.json says for each partial property which theorem is proved and what is
missing.  The common cause is a condition on sparse bad values (`carry_lost`,
lost carries of a scalar reduction, borrow in a mixed addition): the full
statement is false, the theorem is the statement with the exact condition.

## Seeded bugs
`seeded/LOG.jsonl`: one line per wrong program tried on a scratch copy: the
definition edited, the claim broken, the theorems that stopped proving.
