#!/usr/bin/env python3
"""Writes ../properties.jsonl (one JSON object per line)."""
import json, os
P = []
def prop(title, statement, quantifier, why, anchors):
    P.append(dict(id="C%02d" % (len(P)+1), title=title, statement=statement,
                  quantifier=quantifier, why_tests_cant=why, anchors=anchors))

SPACE = "The input space has 2^512 points; random tests practically never hit the carry patterns (probability 2^-64 and below) on which carry-chain bugs live."

# ---------------------------------------------------------------- Fp25519 full radix
prop("Fp25519 full-radix addition is addition mod p",
 "Fp25519._1w_full.arith.add(c,a,b) stores in c a 256-bit number congruent to a+b modulo p=2^255-19, also when c, a and b are the same buffer, in both code paths (adx and adc).",
 "all 256-bit a and b, all aliasing patterns of c with a and b", SPACE,
 ["src/eltfp25519_1w_fullradix.c:add"])
prop("Fp25519 full-radix subtraction and negation are exact mod p",
 "Fp25519._1w_full.arith.sub(c,a,b) stores a 256-bit number congruent to a-b mod p, and neg(c) one congruent to -c; outputs may alias inputs.",
 "all 256-bit a and b, all aliasing patterns", SPACE,
 ["src/eltfp25519_1w_fullradix.c:sub,neg"])
prop("Fp25519 full-radix integer multiplier is exact",
 "Fp25519._1w_full.arithex.intmul(c,a,b) stores the exact 512-bit product a*b, for each of the three instruction variants (mulx+adx, mulx, mul); no carry is ever lost.",
 "all 256-bit a and b", SPACE,
 ["src/eltfp25519_1w_fullradix.c:intmul"])
prop("Fp25519 full-radix squaring is exact",
 "Fp25519._1w_full.arithex.intsqr(c,a) stores the exact 512-bit square of a, for each instruction variant.",
 "all 256-bit a", SPACE, ["src/eltfp25519_1w_fullradix.c:intsqr"])
prop("Fp25519 full-radix reduction and modular multiplication",
 "arithex.reduce(c,a) maps any 512-bit a to a 256-bit c congruent to a mod p; hence arith.mul(c,a,b) is congruent to a*b and arith.sqr(c) to c^2 for all 256-bit operands, including in-place use.",
 "all 512-bit a; all 256-bit operands of mul and sqr; all aliasing patterns", SPACE,
 ["src/eltfp25519_1w_fullradix.c:reduce,mul,sqr"])
prop("Fp25519 two-lane multiplier, squarer and reducer",
 "arithex.intmul2, intsqr2 and reduce2 compute, on each of the two packed operands independently, the exact product, the exact square, and a 256-bit residue congruent to the 512-bit input.",
 "all pairs of 256-bit operands; all pairs of 512-bit inputs", SPACE,
 ["src/eltfp25519_1w_fullradix.c:intmul2,intsqr2,reduce2"])
prop("Fp25519 multiplication by the curve constant",
 "arithex.mula24(c,a) stores a 256-bit number congruent to 121666*a mod p.",
 "all 256-bit a", SPACE, ["src/eltfp25519_1w_fullradix.c:mula24"])
prop("Fp25519 serialisation is canonical",
 "Fp25519._1w_full.arith.misc.ser writes the 32-byte little-endian encoding of a mod p, the unique representative in [0,p), for every 256-bit a (including the non-canonical values p..2^256-1).",
 "all 256-bit a", "Only 2^-250 of the inputs exercise the boundaries p, 2p, 2^255, 2^256-1.",
 ["src/eltfp25519_1w_fullradix.c:modp,ser"])
prop("Fp25519 full-radix comparison decides congruence",
 "Fp25519._1w_full.arith.cmp(a,b) returns 0 exactly when a and b are congruent mod p.",
 "all pairs of 256-bit numbers",
 "A false equality can hide on a set of vanishing density; tests only compare random values.",
 ["src/eltfp25519_1w_fullradix.c:cmp","src/bytestring.c:cmp_bytes"])
prop("Fp25519 inversion",
 "Fp25519._1w_full.arith.inv(c,a) returns the multiplicative inverse: a*c = 1 mod p whenever a is not 0 mod p, and c = 0 mod p when a = 0 mod p.",
 "all 256-bit a",
 "Needs the primality of p and an argument about a 254-squaring addition chain; samples cannot establish the exponent for all a.",
 ["src/eltfp25519_1w_fullradix.c:inv"])
prop("Fp25519 conditional move",
 "arith.cmv(bit,c,a,b) copies a to c when bit is 0 and b when bit is 1, without changing a and b, for the full-radix, 1-way and 2-way variants.",
 "all operands and both bit values", "Must hold for every operand word; a mask error in one lane shows only for particular words.",
 ["src/eltfp25519_1w_fullradix.c:cmv","src/eltfp25519_1w_redradix.c:cmv","src/eltfp25519_2w_redradix.c:cmv"])

# ---------------------------------------------------------------- Fp25519 reduced radix
prop("Fp25519 vector load/store round trip",
 "Fp25519._1w_red: unser followed by ser returns the canonical encoding of the input mod p, and unser stores limbs below 2^26/2^25 whose radix-2^25.5 value is the input mod p.",
 "all 32-byte inputs", SPACE, ["src/eltfp25519_1w_redradix.c:unser,ser"])
prop("Fp25519 vector serialisation of any element the API can produce",
 "Fp25519._1w_red.arith.misc.ser writes the canonical encoding of the value represented by the limbs for every element produced by add, sub or neg of two loaded elements.",
 "all elements reachable by add/sub/neg from loaded elements",
 "The failing carry pattern has probability about 2^-64 under random testing.",
 ["src/eltfp25519_1w_redradix.c:ser"])
prop("Fp25519 vector addition, subtraction, negation",
 "For 1-, 2- and 4-way elements with reduced limbs, add, sub, neg and addsub return, in each lane, limbs that neither overflow nor underflow and whose value is congruent to a+b, a-b, -a mod p.",
 "all limb vectors within the reduced bounds, all lanes", "Underflow of one 64-bit lane happens only for extreme limb combinations.",
 ["src/eltfp25519_1w_redradix.c:add,sub,neg,addsub","src/eltfp25519_2w_redradix.c:add,sub,neg,addsub","src/eltfp25519_4w_redradix.c:add,sub,addsub"])
prop("Fp25519 vector multiplication never overflows and is correct mod p",
 "For 1-, 2- and 4-way elements with limbs within the documented headroom, mul returns reduced limbs (again within the input bounds, so operations can be chained for ever) whose value is congruent to a*b mod p in every lane; no 64-bit lane overflows in between.",
 "all limb vectors within bounds, all lanes, any number of chained operations",
 "Overflow needs many limbs to be simultaneously near their maximum, which random values never do.",
 ["src/eltfp25519_1w_redradix.c:intmul,compress,mul","src/eltfp25519_2w_redradix.c:intmul,compress,mul","src/eltfp25519_4w_redradix.c:intmul,compress,mul"])
prop("Fp25519 vector squaring",
 "sqr of the 1-, 2- and 4-way representations agrees with mul(a,a) mod p lane by lane and returns reduced limbs.",
 "all limb vectors within bounds", SPACE,
 ["src/eltfp25519_1w_redradix.c:sqrn","src/eltfp25519_2w_redradix.c:intsqr","src/eltfp25519_4w_redradix.c:intsqr"])
prop("Fp25519 vector carry propagation keeps the value",
 "compress, compress2 and compressfast keep the represented value mod p and bring limbs back under the reduced bound, for every limb vector a multiplication can produce.",
 "all limb vectors below the stated headroom", SPACE,
 ["src/eltfp25519_1w_redradix.c:compress,compressfast","src/eltfp25519_2w_redradix.c:compress,compress2,compressfast","src/eltfp25519_4w_redradix.c:compress,compress2,compressfast,new_compressfast2"])
prop("Fp25519 vector lanes do not interfere",
 "The result in lane i of every 2-way and 4-way arithmetic operation depends only on lane i of its operands (and inter/deinter, zip/unzip move lanes without changing them).",
 "all operands, all lanes", "Non-interference is a statement about pairs of executions.",
 ["src/eltfp25519_2w_redradix.c","src/eltfp25519_4w_redradix.c"])
prop("Fp25519 vector comparison decides equality",
 "Fp25519._1w_red.arith.cmp(a,b) (and its 2-way and 4-way forms per lane) is 0 exactly when a and b are congruent mod p.",
 "all pairs of reduced elements", "The tests compare random values, where the masked comparison errs with probability 2^-32.",
 ["src/eltfp25519_1w_redradix.c:cmp","src/eltfp25519_2w_redradix.c:cmp","src/eltfp25519_4w_redradix.c:cmp"])
prop("Fp25519 square roots",
 "arith.srt(c,a) returns a square root of a (or of its inverse) whenever one exists, for 1-way full, 1-way vector and 4-way vector variants.",
 "all quadratic residues", "Correctness depends on the residue class of a fourth root; existence is a number-theoretic statement.",
 ["src/eltfp25519_1w_fullradix.c:srt,invsqrt","src/eltfp25519_1w_redradix.c:srt,invsqrt","src/eltfp25519_4w_redradix.c:srt,invsqrt"])

# ---------------------------------------------------------------- Fp448
prop("Fp448 full-radix addition, subtraction, negation",
 "Fp448._1w_full.arith.add/sub/neg return a 448-bit number congruent to a+b, a-b, -a modulo p=2^448-2^224-1, including in-place use, in both code paths.",
 "all 448-bit a and b, all aliasing patterns", SPACE, ["src/eltfp448_1w_fullradix.c:add,sub,neg"])
prop("Fp448 full-radix multiplication, squaring and reduction",
 "intmul and intsqr return the exact 896-bit product and square in every instruction variant; reduce maps any 896-bit number to a congruent 448-bit number; so mul and sqr are correct mod p.",
 "all 448-bit operands, all 896-bit inputs of reduce", SPACE,
 ["src/eltfp448_1w_fullradix.c:intmul,intsqr,reduce,mul,sqr"])
prop("Fp448 serialisation and comparison are canonical",
 "Fp448._1w_full ser writes a mod p for every 448-bit a; cmp returns 0 exactly for congruent arguments.",
 "all 448-bit inputs", "Boundary values have negligible density.", ["src/eltfp448_1w_fullradix.c:modp,ser,cmp"])
prop("Fp448 inversion",
 "Fp448._1w_full.arith.inv(c,a) satisfies a*c = 1 mod p for a not 0 mod p, and c = 0 for a = 0.",
 "all 448-bit a", "Needs primality of p and the exponent of a long addition chain.",
 ["src/eltfp448_1w_fullradix.c:inv,invsqrt"])
prop("Fp448 multiplication by the curve constant",
 "Fp448._1w_full.arithex.mula24(c,a) stores a 448-bit number congruent to 39082*a mod p.",
 "all 448-bit a", SPACE, ["src/eltfp448_1w_fullradix.c:mula24"])
prop("Fp448 vector multiplication and squaring (Karatsuba) never overflow and are correct mod p",
 "For 1-, 2- and 4-way elements within the limb headroom, mul and sqr return reduced limbs congruent to the product/square in each lane, the modular wrap-around of intermediate 64-bit lanes being harmless.",
 "all limb vectors within bounds, all lanes", "Karatsuba intermediate values wrap modulo 2^64; that the final lanes do not is a universal bound.",
 ["src/eltfp448_1w_redradix.c:intmul,compress","src/eltfp448_2w_redradix.c:intmul,intsqr,compress","src/eltfp448_4w_redradix.c:intmul,intsqr,compress"])
prop("Fp448 vector addition, subtraction and carry propagation",
 "add, sub, neg, addsub, compress, compress2 and compressfast of the 1-, 2- and 4-way representations keep the value mod p lane by lane and respect the limb bounds.",
 "all limb vectors within bounds", SPACE, ["src/eltfp448_1w_redradix.c","src/eltfp448_2w_redradix.c","src/eltfp448_4w_redradix.c"])
prop("Fp448 vector serialisation",
 "Fp448._1w_red.arith.misc.ser writes the canonical encoding of the represented value for every element the API can produce by add or sub of loaded elements.",
 "all reachable elements", "The failing carry pattern has negligible probability under random testing.",
 ["src/eltfp448_1w_redradix.c:ser"])
prop("prime() returns the field modulus",
 "arith.prime(c) of each representation stores limbs whose value is the modulus of the field.",
 "all four representations", "No test calls it for the Fp448 vector representation.",
 ["src/eltfp25519_1w_fullradix.c:prime","src/eltfp25519_1w_redradix.c:prime","src/eltfp448_1w_fullradix.c:prime","src/eltfp448_1w_redradix.c:prime"])
prop("Fp448 two-lane helpers stay inside their buffers",
 "Fp448._1w_full.arithex.intmul2, intsqr2 and reduce2 read and write only inside the two-element buffers a caller passes.",
 "all calls with buffers of two elements", "Out-of-bounds accesses may go unnoticed in a test process.",
 ["src/eltfp448_1w_fullradix.c:intmul2,intsqr2,reduce2"])

# ---------------------------------------------------------------- X25519 / X448
prop("X25519.shared implements the RFC 7748 function",
 "X25519.shared(out,u,k) writes the RFC 7748 X25519(k,u) for every 32-byte k and u, including non-canonical u, u with the top bit set, and low-order points.",
 "all 2^512 pairs of byte strings", "The function is a 255-step loop over a 2^255 field; vectors cover a handful of inputs.",
 ["src/ladder255.c:x25519_shared_avx2,step_ladder_x25519","src/dh255.c"])
prop("X25519 vector and 64-bit implementations agree",
 "X25519.shared and X25519_x64.shared return the same bytes on the same inputs.",
 "all pairs of byte strings", "Equality of two different programs on 2^512 inputs.",
 ["src/ladder255.c:x25519_shared_avx2,x25519_shared_x64"])
prop("X25519 Diffie-Hellman agreement",
 "For any secret keys a and b and any common starting u: shared(shared(u,b),a) equals shared(shared(u,a),b).",
 "all secret keys and all u on the curve or its twist", "Commutativity of scalar multiplication for all scalars.",
 ["src/ladder255.c:x25519_shared_avx2"])
prop("X25519 key generation matches the ladder",
 "X25519.keygen(pub,k) writes the same bytes as X25519.shared applied to k and the base point u=9.",
 "all 32-byte k", "Two unrelated algorithms (fixed-base comb on an isomorphic Edwards curve and Montgomery ladder) must agree on 2^251 scalars.",
 ["src/ladder255.c:x25519_keygen_avx2,point_Edwards2Montgomery_ed25519"])
prop("X25519 clamping and masking",
 "The result does not depend on bits 0,1,2,255 of k nor on bit 255 of u, bit 254 of k is treated as set, and the caller's key buffers are not modified.",
 "all k and u and all settings of those bits", "Statement about pairs of executions over the entire key space.",
 ["src/ladder255.c:x25519_shared_avx2,x25519_shared_x64,x25519_keygen_avx2"])
prop("X25519 small-order inputs give the all-zero secret",
 "If u encodes a point of order dividing 8 (u in {0,1,p-1,the two order-8 values} plus non-canonical aliases), shared writes 32 zero bytes for every k.",
 "all k, all small-order u", "Quantifies over every secret key.", ["src/ladder255.c"])
prop("X448.shared implements the RFC 7748 function",
 "X448.shared(out,u,k) writes the RFC 7748 X448(k,u) for every 56-byte k and u.",
 "all pairs of byte strings", "448-step loop over a 2^448 field.", ["src/ladder448.c:x448_shared_avx2,step_ladder_x448"])
prop("X448 Diffie-Hellman agreement",
 "shared(shared(u,b),a) equals shared(shared(u,a),b).",
 "all secret keys and all u", "Commutativity for all scalars.", ["src/ladder448.c"])

# ---------------------------------------------------------------- scalars, recodings
prop("Fixed-base recoding preserves the scalar",
 "The signed radix-16 recodings used by fixed-base multiplication return digits from -8 to 7 (64 for Ed25519/X25519, 112 for Ed448/X448) whose weighted sum is the scalar for every scalar below 0x77...78, and the scalar minus 2^256 (2^448) from there on; no write leaves the digit arrays.",
 "all 256-bit and 448-bit scalars", "Carry ripple over 64 digits; dropped final carry only shows for extreme scalars.",
 ["src/edwards255.c:recoding_signed_scalar_fold2w4","src/edwards448.c:recoding_signed_scalar_fold4w4_448"])
prop("wNAF recoding preserves the scalar and stays in its buffer",
 "The width-w NAF used in verification returns digits that are 0 or odd with absolute value below 2^(w-1), any two non-zero digits at least w apart, with weighted sum equal to the scalar, at most 257 digits for 256-bit and 457 for 456-bit scalars, so that the buffers of 260 and 460 digits used in verification are never over-indexed; within 2^(w-1) of 2^256 the sum is the scalar minus 2^256.",
 "all scalars, all widths from 2 to 8", "Buffer bounds and the invariant must hold for every scalar, w=5 and w=7.",
 ["src/edwards255.c:wnaf_256bits","src/edwards448.c:wnaf_448bits"])
prop("Scalar reduction modulo the group order (Ed25519)",
 "The reduction applied to every 512-bit hash value returns a value congruent to it modulo the group order and, except when the remaining low part is smaller than the subtracted multiple, below 2^252.",
 "all 512-bit inputs", "The exceptional set has density 2^-122.",
 ["src/sign255.c:reduce256bits,reduce64bits,modular_reduction_ed25519"])
prop("Signature scalar s = r + k*a modulo the group order",
 "The scalar half of a signature is congruent to r + k*a modulo the group order for all r, k and a (Ed25519 and Ed448).",
 "all r, k, a", "A carry out of the third limb in the accumulator is lost only with probability about 2^-64.",
 ["src/sign255.c:calculate_s_ed25519","src/sign448.c:calculate_s_ed448","src/bytestring.c:word64_multiplier"])

# ---------------------------------------------------------------- Edwards points
prop("Ed25519 point arithmetic is the group law",
 "Each point addition and doubling routine (1-way full radix, 2-way, 4-way, mixed and full) returns the sum of its arguments under the complete twisted Edwards addition law, for every pair of curve points including equal, opposite and neutral ones.",
 "all pairs of points on the curve in all projective representations", "Exceptional cases are the classic failure and random points never hit them.",
 ["src/edwards255.c:_1way_fulladd_1w_full,_1way_doubling_1w_full,_1way_mixadd_2w_H0H5,_1way_doubling_2w_H0H5,_4way_mixadd_25519"])
prop("Ed25519 secret table lookup selects the signed multiple",
 "The constant-time table query returns, for digit d in [-8,8], the precomputed triple of |d| times the table point, negated when d<0, and the neutral element when d=0, in each of the four lanes.",
 "all digits, all signs, all table indices, all four lanes jointly", "17^4 digit combinations times 32 tables, and selection must not depend on other lanes.",
 ["src/edwards255.c:query_table_fold2w4"])
prop("Precomputed Ed25519 tables contain the right multiples of the base point",
 "Entry j of sub-table i of the signing table is (y+x, y-x, 2dxy) of (j+1)*16^(2i)*B and entry j of the verification table is that of (2j+1)*B, B being the RFC 8032 base point.",
 "all table entries", "Only a full recomputation with an independent group law checks every word.",
 ["include/table_sign_w4_24k_ed25519.h","include/table_verf_w7_ed25519.h"])
prop("Ed25519 fixed-base multiplication",
 "Key generation and signing compute the scalar multiple [k]B of the base point for every scalar.",
 "all 256-bit scalars", "Induction over the comb digits and the group law.",
 ["src/edwards255.c:point_multiplication_ed25519,point_multiplication_fold2w4"])
prop("Ed25519 public-key decompression",
 "For every 32-byte string that encodes a curve point, decompression yields (minus) that point, with the encoded sign of x.",
 "all encodings of curve points", "Square-root extraction depends on the residue class; sign handling on parity.",
 ["src/edwards255.c:point_decoding_ed25519"])
prop("Invalid Ed25519 public keys are rejected",
 "Verification under a 32-byte public key that encodes no curve point returns EDDSA_ERROR_PUBLICKEY.",
 "all strings that are not point encodings", "Half of all strings; the tests never try one.",
 ["src/edwards255.c:point_decoding_ed25519","src/sign255.c:ed25519_verify_all"])

# ---------------------------------------------------------------- signatures
prop("Ed25519 signatures verify",
 "For every private key, message and (where allowed) context of at most 255 bytes, a signature made by sign with the matching public key is accepted by the corresponding verify (Pure, Context and PreHash).",
 "all keys, messages, contexts", "Universal statement over unbounded messages.",
 ["src/sign255.c:ed25519_sign_all,ed25519_verify_all"])
prop("Over-long contexts are refused",
 "Sign and verify of the Context and PreHash variants (Ed25519 and Ed448) return EDDSA_ERROR_CONTEXT and write no signature exactly when the context is longer than 255 bytes.",
 "all contexts of any length up to 2^64-1", "Lengths around 2^8, 2^32 and 2^64 cannot all be tried.",
 ["src/sign255.c:ed25519_sign_all,ed25519_verify_all","src/sign448.c:ed448_sign_all,ed448_verify_all"])
prop("Hash inputs of the signature variants are domain separated",
 "The byte strings fed to the hash by sign/verify are those of RFC 8032 dom2/dom4, and for the Context and PreHash variants (and any two contexts) they never coincide unless variant, context and remaining fields coincide.",
 "all messages, contexts, keys", "Injectivity over unbounded strings.",
 ["src/sign255.c:ed25519_sign_all","src/sign448.c:ed448_sign_all"])
prop("Ed25519 verification enforces a canonical scalar",
 "Verification rejects a signature whose scalar half S is not below the group order (so signatures are not malleable).",
 "all signatures", "The accepting malleated signature must be constructed, never sampled.",
 ["src/sign255.c:ed25519_verify_all"])
prop("Every bit of an Ed448 signature is significant",
 "Changing the last byte of a valid Ed448 signature makes verification fail.",
 "all valid signatures, all values of the last byte", "Statement over pairs of executions for all keys and messages.",
 ["src/edwards448.c:div4","src/sign448.c:ed448_verify_all"])
prop("Ed448 scalar reduction and division by four",
 "The reduction of 114-byte hash values and the division by 4 modulo the group order return a 56-byte value congruent to the mathematical one, independent of uninitialised stack words.",
 "all 912-bit inputs and all initial stack contents", "Uninitialised reads and lost carries are invisible to tests.",
 ["src/edwards448.c:modular_reduction_ed448,div4"])
# ---------------------------------------------------------------- hash to curve
prop("Hash-to-curve returns a curve point",
 "h2c25519_x64(P,msg,len) stores a point satisfying the edwards25519 equation for every message, so isOnCurve returns 1.",
 "all messages", "Elligator has exceptional inputs that random messages never hit.",
 ["src/hash255.c:h2c25519_x64,elligator2_edwards25519,map_to_curve"])
prop("Hash-to-field reduces modulo the field prime",
 "The field elements derived from a message are the hash value modulo p=2^255-19, as a hash-to-field must.",
 "all messages", "A wrong modulus still yields valid-looking field elements.",
 ["src/hash255.c:hash_to_field,hash_to_field_2w"])
prop("Incremental hashing does not depend on chunking",
 "Feeding SHA-512 (and SHAKE256) a message in any sequence of pieces gives the same digest as feeding it at once.",
 "all messages, all ways to split them", "Unbounded families of splits; block-boundary cases multiply.",
 ["third_party/sha512.c:sph_sha512","third_party/sha3.c:Update,Final2"])
# ---------------------------------------------------------------- additions
prop("Full-radix results do not depend on uninitialised state",
 "The result of every full-radix primitive is a function of its arguments alone: register, flag and memory contents before the call never influence it; mula24 may run in place.",
 "all arguments and all pairs of initial machine states", "A stale carry flag or register is set to a benign value in nearly every test run.",
 ["src/eltfp25519_1w_fullradix.c","src/eltfp448_1w_fullradix.c"])

prop("Vector inversion",
 "arith.inv of the 1-way vector representations of both fields returns reduced limbs of the inverse of a nonzero element and of 0 for 0.",
 "all reduced elements", "Exceptional and boundary limb patterns are never sampled.",
 ["src/eltfp25519_1w_redradix.c:inv_EltFp25519_1w_redradix","src/eltfp448_1w_redradix.c:inv_EltFp448_1w_redradix"])
prop("Fp448 vector square root is the inverse square root",
 "arith.srt of the 1-way vector representation of Fp448 returns x with a*x^2=1 for every nonzero square a.",
 "all nonzero squares", "The result has to hold for 2^447 inputs.",
 ["src/eltfp448_1w_redradix.c"])
prop("Fp448 vector comparison decides equality of loaded elements",
 "Fp448 vector cmp of two loaded elements is 0 exactly when their encodings are congruent mod p, also for non-canonical encodings; the 2-way and 4-way forms compare lane by lane.",
 "all pairs of 56-byte encodings", "Equality must be decided on 2^896 pairs; non-canonical pairs are never sampled.",
 ["src/eltfp448_1w_redradix.c","src/eltfp448_2w_redradix.c","src/eltfp448_4w_redradix.c"])
prop("Vector operations whose lanes differ",
 "ngz negates the first element of a pair and keeps the second (4-way: exchanges the first two elements, negates the third, keeps the fourth); the add/subtract of a pair yields the difference in the first and the sum in the second element; results stay within the limb bounds the multiplier accepts.",
 "all reduced elements in all lanes, both fields", "A wrong constant only shows for limb values near the bounds, or in one lane.",
 ["include/faz_fp_avx2.h:ngz","src/eltfp25519_2w_redradix.c","src/eltfp25519_4w_redradix.c","src/eltfp448_2w_redradix.c","src/eltfp448_4w_redradix.c"])
prop("Order of the edwards25519 base point",
     "The base point used by key generation, signing and verification lies on edwards25519, is killed by the published group order, and by no number coprime to it.",
     "all integers coprime to the group order",
     "The order is a 253-bit number; a test cannot enumerate multiples.",
     ["include/table_sign_w4_24k_ed25519.h", "src/edwards255.c:point_multiplication_ed25519"])
prop("Ed25519 verification decides the verification equation",
 "For every public key that encodes a point A, verify accepts exactly the signatures (R,S) for which R is the encoding of S*B - k*A, k being the challenge of RFC 8032.",
 "all curve points as keys, all 64-byte signatures, messages and contexts", "Both acceptance and rejection have to be right on 2^512 signatures.",
 ["src/sign255.c:ed25519_verify_all","src/edwards255.c:double_point_mult_4w_ed25519"])
prop("Ed25519 public keys are those of RFC 8032",
 "Key generation returns, for every private key, the encoding of s*B where s is the clamped first half of the hash of the private key.",
 "all private keys, any hash function", "Key space of 2^256; the scalar, comb and encoding steps interact.",
 ["src/sign255.c:ed25519_keygen"])
prop("Ed25519 signatures are those of RFC 8032",
 "Signing returns the deterministic signature (R,S) of RFC 8032 for the three variants, with S reduced modulo the group order.",
 "all private keys, messages and contexts, any hash function", "Agreement on test vectors says nothing about rare reductions and carries.",
 ["src/sign255.c:ed25519_sign_all,calculate_s_ed25519"])
prop("SHA-512 is the function of FIPS 180-4",
 "For every message of fewer than 2^64 bytes, given in any sequence of pieces to a context with any previous contents, the digest is the FIPS 180-4 SHA-512 of the message, and the context can be used again afterwards.",
 "all messages below 2^64 bytes, all ways to split them, all contexts", "Unbounded messages; padding corner cases and long-message paths are sampled only.",
 ["third_party/sha512.c:sph_sha512_init,sph_sha512,sph_sha512_close,sha3_round"])
prop("SHAKE256 is the function of FIPS 202",
 "For every message and output length, the one-shot SHAKE256 (and SHAKE128) and the incremental interface give the FIPS 202 output.",
 "all messages (below 2^61 bytes for the incremental interface), all output lengths, all ways to split the message", "Unbounded messages and outputs; an error in one lane of the unrolled permutation needs the right state.",
 ["third_party/sha3.c:SHAKE256,SHAKE128,Init,Update,Final2,KeccakF2"])
prop("Hash-to-curve applies the map of RFC 9380",
 "h2c25519_x64 returns 8*(M(u0)+M(u1)), where u0, u1 are the two field elements derived from the message and M is the Elligator 2 map of RFC 9380 for edwards25519, including its exceptional inputs and the choice of sign.",
 "all messages, all field elements", "2^255 field elements; the exceptional ones and each square-root branch have to be right.",
 ["src/hash255.c:h2c25519_x64,map_to_curve,elligator2_curve25519,elligator2_edwards25519,clear_cofactor,toAffine"])
prop("Point comparison and curve membership decide correctly",
 "isOnCurve returns 1 exactly for coordinates that satisfy the edwards25519 equation and areEqual returns 1 exactly for equal points, whatever the representation of the coordinates; both return only 0 or 1.",
 "all pairs of coordinates in 4x64-bit form, including values of p and above", "2^512 inputs; non-canonical coordinates rarely occur by chance.",
 ["src/hash255.c:isOnCurve,areEqual"])
prop("Ed448 point arithmetic is the group law",
 "The point doublings and additions used by Ed448 compute the edwards448 group law (on the images of the points under the isogeny to the twisted curve), and the way back yields four times the point, for every pair of points and every representation.",
 "all points, all projective representations, all uninitialised state", "2^896 point pairs; exceptional points and limb borrows are never sampled.",
 ["src/edwards448.c:_1way_doubling_2w_H0H8,_1way_fulladd_2w_H0H8,_1way_mixadd_4w_H0H8,_1way_doubling_4w_H0H8"])
prop("Precomputed Ed448 tables contain the right multiples of the base point",
 "Every entry of the Ed448 signing and verification tables is the stated multiple of the base point, and the base point has the order modulo which scalars are reduced.",
 "all 224 comb entries and all 32 verification entries", "A wrong entry shows only for scalars with the right digit.",
 ["include/table_sign_w4_3675k_ed448.h:TableSign_w4_3675k","include/table_verf_w7_ed448.h:TableVerif_static_w7_Ed448"])
prop("Ed448 point encoding is that of RFC 8032",
 "The 57-byte encoding of a point is its y coordinate in canonical form and the parity of its x coordinate, for every projective representation.",
 "all points and all representations", "Serialisation errors affect a sparse set of field elements.",
 ["src/edwards448.c:point_encoding_ed448"])
prop("Ed448 public keys are those of RFC 8032",
 "Key generation returns, for every private key, the encoding of s*B where s is the clamped first half of the hash of the private key.",
 "all private keys, any hash function", "Key space of 2^456; scalar division by four, recoding, comb, isogeny and encoding interact.",
 ["src/sign448.c:ed448_keygen","src/edwards448.c:fixed_point_multiplication_ed448,query_table_fold4w4_ed448,recoding_signed_scalar_fold4w4_448,_4way_mixadd_ed448"])
prop("Ed448 signatures are those of RFC 8032",
 "Signing returns the deterministic signature (R,S) of RFC 8032 for Ed448 and Ed448ph: R encodes r*B and S is r + k*s modulo the group order.",
 "all private keys, messages and contexts, any hash function", "Agreement on test vectors says nothing about rare reductions, carries and borrows.",
 ["src/sign448.c:ed448_sign_all,calculate_s_ed448"])
prop("Ed448 verification decompresses every valid public key",
 "ed448_verify (with or without context, prehashed or not) never returns EDDSA_ERROR_PUBLICKEY for a public key that is the RFC 8032 encoding of a point of edwards448, and works with that point.",
 "all points of the curve, messages, contexts and signatures, any hash function", "Random keys never meet the exceptional coordinates; the square root, the comparison and the wrap of the subtraction of one depend on the representation of y^2.",
 ["src/edwards448.c:point_decoding", "src/sign448.c:ed448_verify_all"])
prop("Ed448 verification refuses public keys that encode no point",
 "ed448_verify returns EDDSA_ERROR_PUBLICKEY when the 57 bytes of the public key are the RFC 8032 encoding of no point of edwards448.",
 "all strings of 57 bytes, messages, contexts and signatures, any hash function", "Half of all strings have no point, but tests try a handful; that a non-square is always recognised is a fact about the square-root chain for every input.",
 ["src/edwards448.c:point_decoding", "src/sign448.c:ed448_verify_all"])
prop("Ed448 verification decides the verification equation",
 "For a public key encoding a point A, ed448_verify returns OK exactly when R is the encoding of S*B - k*A, k being the hash of R, the key and the message, and the invalid-signature code otherwise.",
 "all keys, messages, contexts and signatures, any hash function", "Both directions quantify over 2^912 signatures; the rejecting direction is the security claim and has no finite witness.",
 ["src/sign448.c:ed448_verify_all", "src/edwards448.c:double_point_mult_4w_ed448,point_decoding,div4"])
prop("Ed448 signatures made by the library verify",
 "A signature returned by ed448_sign (any instance) for a key returned by ed448_keygen is accepted by ed448_verify with the same message and context.",
 "all private keys, messages and contexts, any hash function", "Random round trips miss inputs where a limb borrows or a carry is lost.",
 ["src/sign448.c:ed448_sign_all,ed448_verify_all"])
prop("Ed448 verification enforces a canonical scalar",
 "ed448_verify rejects a signature whose scalar half S is not below the group order.",
 "all signatures", "The accepting signature must be constructed, never sampled.",
 ["src/sign448.c:ed448_verify_all"])
prop("X448 public keys are those of RFC 7748",
 "For every 56-byte secret key, X448 key generation returns X448(key, 5), the same string that the shared-secret function returns for the base point; so two parties who exchange generated keys end with the same secret.",
 "all secret keys, all machine states", "Key generation uses another algorithm (comb on edwards448, division of the scalar by four, map to the Montgomery curve) than the ladder; rare lost carries show for a sparse set of keys only.",
 ["src/ladder448.c:x448_keygen_avx2,point_Edwards2Montgomery_ed448","src/edwards448.c:fixed_point_multiplication_ed448,div4"])
prop("The signature functions hash with SHA-512 and SHAKE256 the strings of RFC 8032",
 "With the library's own hash code, fed in several calls through contexts with arbitrary earlier contents, ed25519_keygen returns the RFC 8032 public key for SHA-512 of FIPS 180-4, signing returns its R, and signing and verification of Ed25519 (all three variants) and Ed448 (both variants) behave as with one application of SHA-512 or SHAKE256 of the standards to the RFC strings.",
 "all keys, messages (below 2^64 - 1000 or 2^61 - 1000 bytes), contexts, signatures and initial contents of the hash contexts", "Test vectors cover a few message lengths; how the pieces fall into hash blocks depends on the lengths of message and context.",
 ["src/sign255.c:ed25519_keygen,ed25519_sign_all,ed25519_verify_all","src/sign448.c:ed448_keygen,ed448_sign_all,ed448_verify_all","third_party/sha512.c:sph_sha512,sph_sha512_close","third_party/sha3.c:Update,Final2,SHAKE256"])
prop("The two-way SHA-512 returns both SHA-512 digests",
 "sha512_2w_avx writes, for two messages of the same length, SHA-512 of FIPS 180-4 of the first and of the second message, whatever the two messages are and whatever the stack contained; neither digest depends on the other message.",
 "all pairs of messages, all lengths below 2^32, all initial contents of the work arrays", "The lanes share every register; a mistake in the padding shows only for some lengths modulo 128, a mixed lane only if the messages differ.",
 ["third_party/sha512_2way.c:sha512_2w_avx,sha512_permutation,msg_schedule,computeT1,computeT2","third_party/multi_hash.h:KSHA512"])
prop("Hash to curve: the AVX2 code and the portable code hash to the same field elements",
 "The two field elements from which h2c25519_avx2 starts are those from which h2c25519_x64 starts, for every message.",
 "all messages below 2^64 - 1 bytes", "A test would need a message of 4 GiB to see that the length is passed as a 32-bit number.",
 ["src/hash255.c:hash_to_field_2w,hash_to_field","third_party/sha512_2way.c:sha512_2w_avx"])
prop("Hash to curve: the AVX2 code maps both field elements to the curve as RFC 9380 prescribes",
 "In h2c25519_avx2 each of the two lanes maps its field element to the point of edwards25519 that Elligator 2 of RFC 9380 assigns to it; in particular the points it adds up are on the curve.",
 "all messages, both lanes, all machine states", "The lanes compare field elements by one bit of each byte: a wrong branch needs a coincidence of 32 bits and is met by about one message in 2^32.",
 ["src/hash255.c:h2c25519_avx2,map_to_curve_2w,elligator2_edwards25519_2w,elligator2_curve25519_2w","src/eltfp25519_2w_redradix.c:cmp"])
out = os.path.join(os.path.dirname(os.path.abspath(__file__)), "..", "properties.jsonl")
with open(out, "w") as f:
    for p in P: f.write(json.dumps(p) + "\n")
print(len(P))
