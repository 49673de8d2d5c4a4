{"id": "C01", "title": "Fp25519 full-radix addition is addition mod p", "statement": "Fp25519._1w_full.arith.add(c,a,b) stores in c a 256-bit number congruent to a+b modulo p=2^255-19, also when c, a and b are the same buffer, in both code paths (adx and adc).", "quantifier": "all 256-bit a and b, all aliasing patterns of c with a and b", "why_tests_cant": "The input space has 2^512 points; random tests practically never hit the carry patterns (probability 2^-64 and below) on which carry-chain bugs live.", "anchors": ["src/eltfp25519_1w_fullradix.c:add"]}
{"id": "C02", "title": "Fp25519 full-radix subtraction and negation are exact mod p", "statement": "Fp25519._1w_full.arith.sub(c,a,b) stores a 256-bit number congruent to a-b mod p, and neg(c) one congruent to -c; outputs may alias inputs.", "quantifier": "all 256-bit a and b, all aliasing patterns", "why_tests_cant": "The input space has 2^512 points; random tests practically never hit the carry patterns (probability 2^-64 and below) on which carry-chain bugs live.", "anchors": ["src/eltfp25519_1w_fullradix.c:sub,neg"]}
{"id": "C03", "title": "Fp25519 full-radix integer multiplier is exact", "statement": "Fp25519._1w_full.arithex.intmul(c,a,b) stores the exact 512-bit product a*b, for each of the three instruction variants (mulx+adx, mulx, mul); no carry is ever lost.", "quantifier": "all 256-bit a and b", "why_tests_cant": "The input space has 2^512 points; random tests practically never hit the carry patterns (probability 2^-64 and below) on which carry-chain bugs live.", "anchors": ["src/eltfp25519_1w_fullradix.c:intmul"]}
{"id": "C04", "title": "Fp25519 full-radix squaring is exact", "statement": "Fp25519._1w_full.arithex.intsqr(c,a) stores the exact 512-bit square of a, for each instruction variant.", "quantifier": "all 256-bit a", "why_tests_cant": "The input space has 2^512 points; random tests practically never hit the carry patterns (probability 2^-64 and below) on which carry-chain bugs live.", "anchors": ["src/eltfp25519_1w_fullradix.c:intsqr"]}
{"id": "C05", "title": "Fp25519 full-radix reduction and modular multiplication", "statement": "arithex.reduce(c,a) maps any 512-bit a to a 256-bit c congruent to a mod p; hence arith.mul(c,a,b) is congruent to a*b and arith.sqr(c) to c^2 for all 256-bit operands, including in-place use.", "quantifier": "all 512-bit a; all 256-bit operands of mul and sqr; all aliasing patterns", "why_tests_cant": "The input space has 2^512 points; random tests practically never hit the carry patterns (probability 2^-64 and below) on which carry-chain bugs live.", "anchors": ["src/eltfp25519_1w_fullradix.c:reduce,mul,sqr"]}
{"id": "C06", "title": "Fp25519 two-lane multiplier, squarer and reducer", "statement": "arithex.intmul2, intsqr2 and reduce2 compute, on each of the two packed operands independently, the exact product, the exact square, and a 256-bit residue congruent to the 512-bit input.", "quantifier": "all pairs of 256-bit operands; all pairs of 512-bit inputs", "why_tests_cant": "The input space has 2^512 points; random tests practically never hit the carry patterns (probability 2^-64 and below) on which carry-chain bugs live.", "anchors": ["src/eltfp25519_1w_fullradix.c:intmul2,intsqr2,reduce2"]}
{"id": "C07", "title": "Fp25519 multiplication by the curve constant", "statement": "arithex.mula24(c,a) stores a 256-bit number congruent to 121666*a mod p.", "quantifier": "all 256-bit a", "why_tests_cant": "The input space has 2^512 points; random tests practically never hit the carry patterns (probability 2^-64 and below) on which carry-chain bugs live.", "anchors": ["src/eltfp25519_1w_fullradix.c:mula24"]}
{"id": "C08", "title": "Fp25519 serialisation is canonical", "statement": "Fp25519._1w_full.arith.misc.ser writes the 32-byte little-endian encoding of a mod p, the unique representative in [0,p), for every 256-bit a (including the non-canonical values p..2^256-1).", "quantifier": "all 256-bit a", "why_tests_cant": "Only 2^-250 of the inputs exercise the boundaries p, 2p, 2^255, 2^256-1.", "anchors": ["src/eltfp25519_1w_fullradix.c:modp,ser"]}
{"id": "C09", "title": "Fp25519 full-radix comparison decides congruence", "statement": "Fp25519._1w_full.arith.cmp(a,b) returns 0 exactly when a and b are congruent mod p.", "quantifier": "all pairs of 256-bit numbers", "why_tests_cant": "A false equality can hide on a set of vanishing density; tests only compare random values.", "anchors": ["src/eltfp25519_1w_fullradix.c:cmp", "src/bytestring.c:cmp_bytes"]}
{"id": "C10", "title": "Fp25519 inversion", "statement": "Fp25519._1w_full.arith.inv(c,a) returns the multiplicative inverse: a*c = 1 mod p whenever a is not 0 mod p, and c = 0 mod p when a = 0 mod p.", "quantifier": "all 256-bit a", "why_tests_cant": "Needs the primality of p and an argument about a 254-squaring addition chain; samples cannot establish the exponent for all a.", "anchors": ["src/eltfp25519_1w_fullradix.c:inv"]}
{"id": "C11", "title": "Fp25519 conditional move", "statement": "arith.cmv(bit,c,a,b) copies a to c when bit is 0 and b when bit is 1, without changing a and b, for the full-radix, 1-way and 2-way variants.", "quantifier": "all operands and both bit values", "why_tests_cant": "Must hold for every operand word; a mask error in one lane shows only for particular words.", "anchors": ["src/eltfp25519_1w_fullradix.c:cmv", "src/eltfp25519_1w_redradix.c:cmv", "src/eltfp25519_2w_redradix.c:cmv"]}
{"id": "C12", "title": "Fp25519 vector load/store round trip", "statement": "Fp25519._1w_red: unser followed by ser returns the canonical encoding of the input mod p, and unser stores limbs below 2^26/2^25 whose radix-2^25.5 value is the input mod p.", "quantifier": "all 32-byte inputs", "why_tests_cant": "The input space has 2^512 points; random tests practically never hit the carry patterns (probability 2^-64 and below) on which carry-chain bugs live.", "anchors": ["src/eltfp25519_1w_redradix.c:unser,ser"]}
{"id": "C13", "title": "Fp25519 vector serialisation of any element the API can produce", "statement": "Fp25519._1w_red.arith.misc.ser writes the canonical encoding of the value represented by the limbs for every element produced by add, sub or neg of two loaded elements.", "quantifier": "all elements reachable by add/sub/neg from loaded elements", "why_tests_cant": "The failing carry pattern has probability about 2^-64 under random testing.", "anchors": ["src/eltfp25519_1w_redradix.c:ser"]}
{"id": "C14", "title": "Fp25519 vector addition, subtraction, negation", "statement": "For 1-, 2- and 4-way elements with reduced limbs, add, sub, neg and addsub return, in each lane, limbs that neither overflow nor underflow and whose value is congruent to a+b, a-b, -a mod p.", "quantifier": "all limb vectors within the reduced bounds, all lanes", "why_tests_cant": "Underflow of one 64-bit lane happens only for extreme limb combinations.", "anchors": ["src/eltfp25519_1w_redradix.c:add,sub,neg,addsub", "src/eltfp25519_2w_redradix.c:add,sub,neg,addsub", "src/eltfp25519_4w_redradix.c:add,sub,addsub"]}
{"id": "C15", "title": "Fp25519 vector multiplication never overflows and is correct mod p", "statement": "For 1-, 2- and 4-way elements with limbs within the documented headroom, mul returns reduced limbs (again within the input bounds, so operations can be chained for ever) whose value is congruent to a*b mod p in every lane; no 64-bit lane overflows in between.", "quantifier": "all limb vectors within bounds, all lanes, any number of chained operations", "why_tests_cant": "Overflow needs many limbs to be simultaneously near their maximum, which random values never do.", "anchors": ["src/eltfp25519_1w_redradix.c:intmul,compress,mul", "src/eltfp25519_2w_redradix.c:intmul,compress,mul", "src/eltfp25519_4w_redradix.c:intmul,compress,mul"]}
{"id": "C16", "title": "Fp25519 vector squaring", "statement": "sqr of the 1-, 2- and 4-way representations agrees with mul(a,a) mod p lane by lane and returns reduced limbs.", "quantifier": "all limb vectors within bounds", "why_tests_cant": "The input space has 2^512 points; random tests practically never hit the carry patterns (probability 2^-64 and below) on which carry-chain bugs live.", "anchors": ["src/eltfp25519_1w_redradix.c:sqrn", "src/eltfp25519_2w_redradix.c:intsqr", "src/eltfp25519_4w_redradix.c:intsqr"]}
{"id": "C17", "title": "Fp25519 vector carry propagation keeps the value", "statement": "compress, compress2 and compressfast keep the represented value mod p and bring limbs back under the reduced bound, for every limb vector a multiplication can produce.", "quantifier": "all limb vectors below the stated headroom", "why_tests_cant": "The input space has 2^512 points; random tests practically never hit the carry patterns (probability 2^-64 and below) on which carry-chain bugs live.", "anchors": ["src/eltfp25519_1w_redradix.c:compress,compressfast", "src/eltfp25519_2w_redradix.c:compress,compress2,compressfast", "src/eltfp25519_4w_redradix.c:compress,compress2,compressfast,new_compressfast2"]}
{"id": "C18", "title": "Fp25519 vector lanes do not interfere", "statement": "The result in lane i of every 2-way and 4-way arithmetic operation depends only on lane i of its operands (and inter/deinter, zip/unzip move lanes without changing them).", "quantifier": "all operands, all lanes", "why_tests_cant": "Non-interference is a statement about pairs of executions.", "anchors": ["src/eltfp25519_2w_redradix.c", "src/eltfp25519_4w_redradix.c"]}
{"id": "C19", "title": "Fp25519 vector comparison decides equality", "statement": "Fp25519._1w_red.arith.cmp(a,b) (and its 2-way and 4-way forms per lane) is 0 exactly when a and b are congruent mod p.", "quantifier": "all pairs of reduced elements", "why_tests_cant": "The tests compare random values, where the masked comparison errs with probability 2^-32.", "anchors": ["src/eltfp25519_1w_redradix.c:cmp", "src/eltfp25519_2w_redradix.c:cmp", "src/eltfp25519_4w_redradix.c:cmp"]}
{"id": "C20", "title": "Fp25519 square roots", "statement": "arith.srt(c,a) returns a square root of a (or of its inverse) whenever one exists, for 1-way full, 1-way vector and 4-way vector variants.", "quantifier": "all quadratic residues", "why_tests_cant": "Correctness depends on the residue class of a fourth root; existence is a number-theoretic statement.", "anchors": ["src/eltfp25519_1w_fullradix.c:srt,invsqrt", "src/eltfp25519_1w_redradix.c:srt,invsqrt", "src/eltfp25519_4w_redradix.c:srt,invsqrt"]}
{"id": "C21", "title": "Fp448 full-radix addition, subtraction, negation", "statement": "Fp448._1w_full.arith.add/sub/neg return a 448-bit number congruent to a+b, a-b, -a modulo p=2^448-2^224-1, including in-place use, in both code paths.", "quantifier": "all 448-bit a and b, all aliasing patterns", "why_tests_cant": "The input space has 2^512 points; random tests practically never hit the carry patterns (probability 2^-64 and below) on which carry-chain bugs live.", "anchors": ["src/eltfp448_1w_fullradix.c:add,sub,neg"]}
{"id": "C22", "title": "Fp448 full-radix multiplication, squaring and reduction", "statement": "intmul and intsqr return the exact 896-bit product and square in every instruction variant; reduce maps any 896-bit number to a congruent 448-bit number; so mul and sqr are correct mod p.", "quantifier": "all 448-bit operands, all 896-bit inputs of reduce", "why_tests_cant": "The input space has 2^512 points; random tests practically never hit the carry patterns (probability 2^-64 and below) on which carry-chain bugs live.", "anchors": ["src/eltfp448_1w_fullradix.c:intmul,intsqr,reduce,mul,sqr"]}
{"id": "C23", "title": "Fp448 serialisation and comparison are canonical", "statement": "Fp448._1w_full ser writes a mod p for every 448-bit a; cmp returns 0 exactly for congruent arguments.", "quantifier": "all 448-bit inputs", "why_tests_cant": "Boundary values have negligible density.", "anchors": ["src/eltfp448_1w_fullradix.c:modp,ser,cmp"]}
{"id": "C24", "title": "Fp448 inversion", "statement": "Fp448._1w_full.arith.inv(c,a) satisfies a*c = 1 mod p for a not 0 mod p, and c = 0 for a = 0.", "quantifier": "all 448-bit a", "why_tests_cant": "Needs primality of p and the exponent of a long addition chain.", "anchors": ["src/eltfp448_1w_fullradix.c:inv,invsqrt"]}
{"id": "C25", "title": "Fp448 multiplication by the curve constant", "statement": "Fp448._1w_full.arithex.mula24(c,a) stores a 448-bit number congruent to 39082*a mod p.", "quantifier": "all 448-bit a", "why_tests_cant": "The input space has 2^512 points; random tests practically never hit the carry patterns (probability 2^-64 and below) on which carry-chain bugs live.", "anchors": ["src/eltfp448_1w_fullradix.c:mula24"]}
{"id": "C26", "title": "Fp448 vector multiplication and squaring (Karatsuba) never overflow and are correct mod p", "statement": "For 1-, 2- and 4-way elements within the limb headroom, mul and sqr return reduced limbs congruent to the product/square in each lane, the modular wrap-around of intermediate 64-bit lanes being harmless.", "quantifier": "all limb vectors within bounds, all lanes", "why_tests_cant": "Karatsuba intermediate values wrap modulo 2^64; that the final lanes do not is a universal bound.", "anchors": ["src/eltfp448_1w_redradix.c:intmul,compress", "src/eltfp448_2w_redradix.c:intmul,intsqr,compress", "src/eltfp448_4w_redradix.c:intmul,intsqr,compress"]}
{"id": "C27", "title": "Fp448 vector addition, subtraction and carry propagation", "statement": "add, sub, neg, addsub, compress, compress2 and compressfast of the 1-, 2- and 4-way representations keep the value mod p lane by lane and respect the limb bounds.", "quantifier": "all limb vectors within bounds", "why_tests_cant": "The input space has 2^512 points; random tests practically never hit the carry patterns (probability 2^-64 and below) on which carry-chain bugs live.", "anchors": ["src/eltfp448_1w_redradix.c", "src/eltfp448_2w_redradix.c", "src/eltfp448_4w_redradix.c"]}
{"id": "C28", "title": "Fp448 vector serialisation", "statement": "Fp448._1w_red.arith.misc.ser writes the canonical encoding of the represented value for every element the API can produce by add or sub of loaded elements.", "quantifier": "all reachable elements", "why_tests_cant": "The failing carry pattern has negligible probability under random testing.", "anchors": ["src/eltfp448_1w_redradix.c:ser"]}
{"id": "C29", "title": "prime() returns the field modulus", "statement": "arith.prime(c) of each representation stores limbs whose value is the modulus of the field.", "quantifier": "all four representations", "why_tests_cant": "No test calls it for the Fp448 vector representation.", "anchors": ["src/eltfp25519_1w_fullradix.c:prime", "src/eltfp25519_1w_redradix.c:prime", "src/eltfp448_1w_fullradix.c:prime", "src/eltfp448_1w_redradix.c:prime"]}
{"id": "C30", "title": "Fp448 two-lane helpers stay inside their buffers", "statement": "Fp448._1w_full.arithex.intmul2, intsqr2 and reduce2 read and write only inside the two-element buffers a caller passes.", "quantifier": "all calls with buffers of two elements", "why_tests_cant": "Out-of-bounds accesses may go unnoticed in a test process.", "anchors": ["src/eltfp448_1w_fullradix.c:intmul2,intsqr2,reduce2"]}
{"id": "C31", "title": "X25519.shared implements the RFC 7748 function", "statement": "X25519.shared(out,u,k) writes the RFC 7748 X25519(k,u) for every 32-byte k and u, including non-canonical u, u with the top bit set, and low-order points.", "quantifier": "all 2^512 pairs of byte strings", "why_tests_cant": "The function is a 255-step loop over a 2^255 field; vectors cover a handful of inputs.", "anchors": ["src/ladder255.c:x25519_shared_avx2,step_ladder_x25519", "src/dh255.c"]}
{"id": "C32", "title": "X25519 vector and 64-bit implementations agree", "statement": "X25519.shared and X25519_x64.shared return the same bytes on the same inputs.", "quantifier": "all pairs of byte strings", "why_tests_cant": "Equality of two different programs on 2^512 inputs.", "anchors": ["src/ladder255.c:x25519_shared_avx2,x25519_shared_x64"]}
{"id": "C33", "title": "X25519 Diffie-Hellman agreement", "statement": "For any secret keys a and b and any common starting u: shared(shared(u,b),a) equals shared(shared(u,a),b).", "quantifier": "all secret keys and all u on the curve or its twist", "why_tests_cant": "Commutativity of scalar multiplication for all scalars.", "anchors": ["src/ladder255.c:x25519_shared_avx2"]}
{"id": "C34", "title": "X25519 key generation matches the ladder", "statement": "X25519.keygen(pub,k) writes the same bytes as X25519.shared applied to k and the base point u=9.", "quantifier": "all 32-byte k", "why_tests_cant": "Two unrelated algorithms (fixed-base comb on an isomorphic Edwards curve and Montgomery ladder) must agree on 2^251 scalars.", "anchors": ["src/ladder255.c:x25519_keygen_avx2,point_Edwards2Montgomery_ed25519"]}
{"id": "C35", "title": "X25519 clamping and masking", "statement": "The result does not depend on bits 0,1,2,255 of k nor on bit 255 of u, bit 254 of k is treated as set, and the caller's key buffers are not modified.", "quantifier": "all k and u and all settings of those bits", "why_tests_cant": "Statement about pairs of executions over the entire key space.", "anchors": ["src/ladder255.c:x25519_shared_avx2,x25519_shared_x64,x25519_keygen_avx2"]}
{"id": "C36", "title": "X25519 small-order inputs give the all-zero secret", "statement": "If u encodes a point of order dividing 8 (u in {0,1,p-1,the two order-8 values} plus non-canonical aliases), shared writes 32 zero bytes for every k.", "quantifier": "all k, all small-order u", "why_tests_cant": "Quantifies over every secret key.", "anchors": ["src/ladder255.c"]}
{"id": "C37", "title": "X448.shared implements the RFC 7748 function", "statement": "X448.shared(out,u,k) writes the RFC 7748 X448(k,u) for every 56-byte k and u.", "quantifier": "all pairs of byte strings", "why_tests_cant": "448-step loop over a 2^448 field.", "anchors": ["src/ladder448.c:x448_shared_avx2,step_ladder_x448"]}
{"id": "C38", "title": "X448 Diffie-Hellman agreement", "statement": "shared(shared(u,b),a) equals shared(shared(u,a),b).", "quantifier": "all secret keys and all u", "why_tests_cant": "Commutativity for all scalars.", "anchors": ["src/ladder448.c"]}
{"id": "C39", "title": "Fixed-base recoding preserves the scalar", "statement": "The signed radix-16 recodings used by fixed-base multiplication return digits from -8 to 7 (64 for Ed25519/X25519, 112 for Ed448/X448) whose weighted sum is the scalar for every scalar below 0x77...78, and the scalar minus 2^256 (2^448) from there on; no write leaves the digit arrays.", "quantifier": "all 256-bit and 448-bit scalars", "why_tests_cant": "Carry ripple over 64 digits; dropped final carry only shows for extreme scalars.", "anchors": ["src/edwards255.c:recoding_signed_scalar_fold2w4", "src/edwards448.c:recoding_signed_scalar_fold4w4_448"]}
{"id": "C40", "title": "wNAF recoding preserves the scalar and stays in its buffer", "statement": "The width-w NAF used in verification returns digits that are 0 or odd with absolute value below 2^(w-1), any two non-zero digits at least w apart, with weighted sum equal to the scalar, at most 257 digits for 256-bit and 457 for 456-bit scalars, so that the buffers of 260 and 460 digits used in verification are never over-indexed; within 2^(w-1) of 2^256 the sum is the scalar minus 2^256.", "quantifier": "all scalars, all widths from 2 to 8", "why_tests_cant": "Buffer bounds and the invariant must hold for every scalar, w=5 and w=7.", "anchors": ["src/edwards255.c:wnaf_256bits", "src/edwards448.c:wnaf_448bits"]}
{"id": "C41", "title": "Scalar reduction modulo the group order (Ed25519)", "statement": "The reduction applied to every 512-bit hash value returns a value congruent to it modulo the group order and, except when the remaining low part is smaller than the subtracted multiple, below 2^252.", "quantifier": "all 512-bit inputs", "why_tests_cant": "The exceptional set has density 2^-122.", "anchors": ["src/sign255.c:reduce256bits,reduce64bits,modular_reduction_ed25519"]}
{"id": "C42", "title": "Signature scalar s = r + k*a modulo the group order", "statement": "The scalar half of a signature is congruent to r + k*a modulo the group order for all r, k and a (Ed25519 and Ed448).", "quantifier": "all r, k, a", "why_tests_cant": "A carry out of the third limb in the accumulator is lost only with probability about 2^-64.", "anchors": ["src/sign255.c:calculate_s_ed25519", "src/sign448.c:calculate_s_ed448", "src/bytestring.c:word64_multiplier"]}
{"id": "C43", "title": "Ed25519 point arithmetic is the group law", "statement": "Each point addition and doubling routine (1-way full radix, 2-way, 4-way, mixed and full) returns the sum of its arguments under the complete twisted Edwards addition law, for every pair of curve points including equal, opposite and neutral ones.", "quantifier": "all pairs of points on the curve in all projective representations", "why_tests_cant": "Exceptional cases are the classic failure and random points never hit them.", "anchors": ["src/edwards255.c:_1way_fulladd_1w_full,_1way_doubling_1w_full,_1way_mixadd_2w_H0H5,_1way_doubling_2w_H0H5,_4way_mixadd_25519"]}
{"id": "C44", "title": "Ed25519 secret table lookup selects the signed multiple", "statement": "The constant-time table query returns, for digit d in [-8,8], the precomputed triple of |d| times the table point, negated when d<0, and the neutral element when d=0, in each of the four lanes.", "quantifier": "all digits, all signs, all table indices, all four lanes jointly", "why_tests_cant": "17^4 digit combinations times 32 tables, and selection must not depend on other lanes.", "anchors": ["src/edwards255.c:query_table_fold2w4"]}
{"id": "C45", "title": "Precomputed Ed25519 tables contain the right multiples of the base point", "statement": "Entry j of sub-table i of the signing table is (y+x, y-x, 2dxy) of (j+1)*16^(2i)*B and entry j of the verification table is that of (2j+1)*B, B being the RFC 8032 base point.", "quantifier": "all table entries", "why_tests_cant": "Only a full recomputation with an independent group law checks every word.", "anchors": ["include/table_sign_w4_24k_ed25519.h", "include/table_verf_w7_ed25519.h"]}
{"id": "C46", "title": "Ed25519 fixed-base multiplication", "statement": "Key generation and signing compute the scalar multiple [k]B of the base point for every scalar.", "quantifier": "all 256-bit scalars", "why_tests_cant": "Induction over the comb digits and the group law.", "anchors": ["src/edwards255.c:point_multiplication_ed25519,point_multiplication_fold2w4"]}
{"id": "C47", "title": "Ed25519 public-key decompression", "statement": "For every 32-byte string that encodes a curve point, decompression yields (minus) that point, with the encoded sign of x.", "quantifier": "all encodings of curve points", "why_tests_cant": "Square-root extraction depends on the residue class; sign handling on parity.", "anchors": ["src/edwards255.c:point_decoding_ed25519"]}
{"id": "C48", "title": "Invalid Ed25519 public keys are rejected", "statement": "Verification under a 32-byte public key that encodes no curve point returns EDDSA_ERROR_PUBLICKEY.", "quantifier": "all strings that are not point encodings", "why_tests_cant": "Half of all strings; the tests never try one.", "anchors": ["src/edwards255.c:point_decoding_ed25519", "src/sign255.c:ed25519_verify_all"]}
{"id": "C49", "title": "Ed25519 signatures verify", "statement": "For every private key, message and (where allowed) context of at most 255 bytes, a signature made by sign with the matching public key is accepted by the corresponding verify (Pure, Context and PreHash).", "quantifier": "all keys, messages, contexts", "why_tests_cant": "Universal statement over unbounded messages.", "anchors": ["src/sign255.c:ed25519_sign_all,ed25519_verify_all"]}
{"id": "C50", "title": "Over-long contexts are refused", "statement": "Sign and verify of the Context and PreHash variants (Ed25519 and Ed448) return EDDSA_ERROR_CONTEXT and write no signature exactly when the context is longer than 255 bytes.", "quantifier": "all contexts of any length up to 2^64-1", "why_tests_cant": "Lengths around 2^8, 2^32 and 2^64 cannot all be tried.", "anchors": ["src/sign255.c:ed25519_sign_all,ed25519_verify_all", "src/sign448.c:ed448_sign_all,ed448_verify_all"]}
{"id": "C51", "title": "Hash inputs of the signature variants are domain separated", "statement": "The byte strings fed to the hash by sign/verify are those of RFC 8032 dom2/dom4, and for the Context and PreHash variants (and any two contexts) they never coincide unless variant, context and remaining fields coincide.", "quantifier": "all messages, contexts, keys", "why_tests_cant": "Injectivity over unbounded strings.", "anchors": ["src/sign255.c:ed25519_sign_all", "src/sign448.c:ed448_sign_all"]}
{"id": "C52", "title": "Ed25519 verification enforces a canonical scalar", "statement": "Verification rejects a signature whose scalar half S is not below the group order (so signatures are not malleable).", "quantifier": "all signatures", "why_tests_cant": "The accepting malleated signature must be constructed, never sampled.", "anchors": ["src/sign255.c:ed25519_verify_all"]}
{"id": "C53", "title": "Every bit of an Ed448 signature is significant", "statement": "Changing the last byte of a valid Ed448 signature makes verification fail.", "quantifier": "all valid signatures, all values of the last byte", "why_tests_cant": "Statement over pairs of executions for all keys and messages.", "anchors": ["src/edwards448.c:div4", "src/sign448.c:ed448_verify_all"]}
{"id": "C54", "title": "Ed448 scalar reduction and division by four", "statement": "The reduction of 114-byte hash values and the division by 4 modulo the group order return a 56-byte value congruent to the mathematical one, independent of uninitialised stack words.", "quantifier": "all 912-bit inputs and all initial stack contents", "why_tests_cant": "Uninitialised reads and lost carries are invisible to tests.", "anchors": ["src/edwards448.c:modular_reduction_ed448,div4"]}
{"id": "C55", "title": "Hash-to-curve returns a curve point", "statement": "h2c25519_x64(P,msg,len) stores a point satisfying the edwards25519 equation for every message, so isOnCurve returns 1.", "quantifier": "all messages", "why_tests_cant": "Elligator has exceptional inputs that random messages never hit.", "anchors": ["src/hash255.c:h2c25519_x64,elligator2_edwards25519,map_to_curve"]}
{"id": "C56", "title": "Hash-to-field reduces modulo the field prime", "statement": "The field elements derived from a message are the hash value modulo p=2^255-19, as a hash-to-field must.", "quantifier": "all messages", "why_tests_cant": "A wrong modulus still yields valid-looking field elements.", "anchors": ["src/hash255.c:hash_to_field,hash_to_field_2w"]}
{"id": "C57", "title": "Incremental hashing does not depend on chunking", "statement": "Feeding SHA-512 (and SHAKE256) a message in any sequence of pieces gives the same digest as feeding it at once.", "quantifier": "all messages, all ways to split them", "why_tests_cant": "Unbounded families of splits; block-boundary cases multiply.", "anchors": ["third_party/sha512.c:sph_sha512", "third_party/sha3.c:Update,Final2"]}
{"id": "C58", "title": "Full-radix results do not depend on uninitialised state", "statement": "The result of every full-radix primitive is a function of its arguments alone: register, flag and memory contents before the call never influence it; mula24 may run in place.", "quantifier": "all arguments and all pairs of initial machine states", "why_tests_cant": "A stale carry flag or register is set to a benign value in nearly every test run.", "anchors": ["src/eltfp25519_1w_fullradix.c", "src/eltfp448_1w_fullradix.c"]}
{"id": "C59", "title": "Vector inversion", "statement": "arith.inv of the 1-way vector representations of both fields returns reduced limbs of the inverse of a nonzero element and of 0 for 0.", "quantifier": "all reduced elements", "why_tests_cant": "Exceptional and boundary limb patterns are never sampled.", "anchors": ["src/eltfp25519_1w_redradix.c:inv_EltFp25519_1w_redradix", "src/eltfp448_1w_redradix.c:inv_EltFp448_1w_redradix"]}
{"id": "C60", "title": "Fp448 vector square root is the inverse square root", "statement": "arith.srt of the 1-way vector representation of Fp448 returns x with a*x^2=1 for every nonzero square a.", "quantifier": "all nonzero squares", "why_tests_cant": "The result has to hold for 2^447 inputs.", "anchors": ["src/eltfp448_1w_redradix.c"]}
{"id": "C61", "title": "Fp448 vector comparison decides equality of loaded elements", "statement": "Fp448 vector cmp of two loaded elements is 0 exactly when their encodings are congruent mod p, also for non-canonical encodings; the 2-way and 4-way forms compare lane by lane.", "quantifier": "all pairs of 56-byte encodings", "why_tests_cant": "Equality must be decided on 2^896 pairs; non-canonical pairs are never sampled.", "anchors": ["src/eltfp448_1w_redradix.c", "src/eltfp448_2w_redradix.c", "src/eltfp448_4w_redradix.c"]}
{"id": "C62", "title": "Vector operations whose lanes differ", "statement": "ngz negates the first element of a pair and keeps the second (4-way: exchanges the first two elements, negates the third, keeps the fourth); the add/subtract of a pair yields the difference in the first and the sum in the second element; results stay within the limb bounds the multiplier accepts.", "quantifier": "all reduced elements in all lanes, both fields", "why_tests_cant": "A wrong constant only shows for limb values near the bounds, or in one lane.", "anchors": ["include/faz_fp_avx2.h:ngz", "src/eltfp25519_2w_redradix.c", "src/eltfp25519_4w_redradix.c", "src/eltfp448_2w_redradix.c", "src/eltfp448_4w_redradix.c"]}
{"id": "C63", "title": "Order of the edwards25519 base point", "statement": "The base point used by key generation, signing and verification lies on edwards25519, is killed by the published group order, and by no number coprime to it.", "quantifier": "all integers coprime to the group order", "why_tests_cant": "The order is a 253-bit number; a test cannot enumerate multiples.", "anchors": ["include/table_sign_w4_24k_ed25519.h", "src/edwards255.c:point_multiplication_ed25519"]}
{"id": "C64", "title": "Ed25519 verification decides the verification equation", "statement": "For every public key that encodes a point A, verify accepts exactly the signatures (R,S) for which R is the encoding of S*B - k*A, k being the challenge of RFC 8032.", "quantifier": "all curve points as keys, all 64-byte signatures, messages and contexts", "why_tests_cant": "Both acceptance and rejection have to be right on 2^512 signatures.", "anchors": ["src/sign255.c:ed25519_verify_all", "src/edwards255.c:double_point_mult_4w_ed25519"]}
{"id": "C65", "title": "Ed25519 public keys are those of RFC 8032", "statement": "Key generation returns, for every private key, the encoding of s*B where s is the clamped first half of the hash of the private key.", "quantifier": "all private keys, any hash function", "why_tests_cant": "Key space of 2^256; the scalar, comb and encoding steps interact.", "anchors": ["src/sign255.c:ed25519_keygen"]}
{"id": "C66", "title": "Ed25519 signatures are those of RFC 8032", "statement": "Signing returns the deterministic signature (R,S) of RFC 8032 for the three variants, with S reduced modulo the group order.", "quantifier": "all private keys, messages and contexts, any hash function", "why_tests_cant": "Agreement on test vectors says nothing about rare reductions and carries.", "anchors": ["src/sign255.c:ed25519_sign_all,calculate_s_ed25519"]}
{"id": "C67", "title": "SHA-512 is the function of FIPS 180-4", "statement": "For every message of fewer than 2^64 bytes, given in any sequence of pieces to a context with any previous contents, the digest is the FIPS 180-4 SHA-512 of the message, and the context can be used again afterwards.", "quantifier": "all messages below 2^64 bytes, all ways to split them, all contexts", "why_tests_cant": "Unbounded messages; padding corner cases and long-message paths are sampled only.", "anchors": ["third_party/sha512.c:sph_sha512_init,sph_sha512,sph_sha512_close,sha3_round"]}
{"id": "C68", "title": "SHAKE256 is the function of FIPS 202", "statement": "For every message and output length, the one-shot SHAKE256 (and SHAKE128) and the incremental interface give the FIPS 202 output.", "quantifier": "all messages (below 2^61 bytes for the incremental interface), all output lengths, all ways to split the message", "why_tests_cant": "Unbounded messages and outputs; an error in one lane of the unrolled permutation needs the right state.", "anchors": ["third_party/sha3.c:SHAKE256,SHAKE128,Init,Update,Final2,KeccakF2"]}
{"id": "C69", "title": "Hash-to-curve applies the map of RFC 9380", "statement": "h2c25519_x64 returns 8*(M(u0)+M(u1)), where u0, u1 are the two field elements derived from the message and M is the Elligator 2 map of RFC 9380 for edwards25519, including its exceptional inputs and the choice of sign.", "quantifier": "all messages, all field elements", "why_tests_cant": "2^255 field elements; the exceptional ones and each square-root branch have to be right.", "anchors": ["src/hash255.c:h2c25519_x64,map_to_curve,elligator2_curve25519,elligator2_edwards25519,clear_cofactor,toAffine"]}
{"id": "C70", "title": "Point comparison and curve membership decide correctly", "statement": "isOnCurve returns 1 exactly for coordinates that satisfy the edwards25519 equation and areEqual returns 1 exactly for equal points, whatever the representation of the coordinates; both return only 0 or 1.", "quantifier": "all pairs of coordinates in 4x64-bit form, including values of p and above", "why_tests_cant": "2^512 inputs; non-canonical coordinates rarely occur by chance.", "anchors": ["src/hash255.c:isOnCurve,areEqual"]}
{"id": "C71", "title": "Ed448 point arithmetic is the group law", "statement": "The point doublings and additions used by Ed448 compute the edwards448 group law (on the images of the points under the isogeny to the twisted curve), and the way back yields four times the point, for every pair of points and every representation.", "quantifier": "all points, all projective representations, all uninitialised state", "why_tests_cant": "2^896 point pairs; exceptional points and limb borrows are never sampled.", "anchors": ["src/edwards448.c:_1way_doubling_2w_H0H8,_1way_fulladd_2w_H0H8,_1way_mixadd_4w_H0H8,_1way_doubling_4w_H0H8"]}
{"id": "C72", "title": "Precomputed Ed448 tables contain the right multiples of the base point", "statement": "Every entry of the Ed448 signing and verification tables is the stated multiple of the base point, and the base point has the order modulo which scalars are reduced.", "quantifier": "all 224 comb entries and all 32 verification entries", "why_tests_cant": "A wrong entry shows only for scalars with the right digit.", "anchors": ["include/table_sign_w4_3675k_ed448.h:TableSign_w4_3675k", "include/table_verf_w7_ed448.h:TableVerif_static_w7_Ed448"]}
{"id": "C73", "title": "Ed448 point encoding is that of RFC 8032", "statement": "The 57-byte encoding of a point is its y coordinate in canonical form and the parity of its x coordinate, for every projective representation.", "quantifier": "all points and all representations", "why_tests_cant": "Serialisation errors affect a sparse set of field elements.", "anchors": ["src/edwards448.c:point_encoding_ed448"]}
{"id": "C74", "title": "Ed448 public keys are those of RFC 8032", "statement": "Key generation returns, for every private key, the encoding of s*B where s is the clamped first half of the hash of the private key.", "quantifier": "all private keys, any hash function", "why_tests_cant": "Key space of 2^456; scalar division by four, recoding, comb, isogeny and encoding interact.", "anchors": ["src/sign448.c:ed448_keygen", "src/edwards448.c:fixed_point_multiplication_ed448,query_table_fold4w4_ed448,recoding_signed_scalar_fold4w4_448,_4way_mixadd_ed448"]}
{"id": "C75", "title": "Ed448 signatures are those of RFC 8032", "statement": "Signing returns the deterministic signature (R,S) of RFC 8032 for Ed448 and Ed448ph: R encodes r*B and S is r + k*s modulo the group order.", "quantifier": "all private keys, messages and contexts, any hash function", "why_tests_cant": "Agreement on test vectors says nothing about rare reductions, carries and borrows.", "anchors": ["src/sign448.c:ed448_sign_all,calculate_s_ed448"]}
{"id": "C76", "title": "Ed448 verification decompresses every valid public key", "statement": "ed448_verify (with or without context, prehashed or not) never returns EDDSA_ERROR_PUBLICKEY for a public key that is the RFC 8032 encoding of a point of edwards448, and works with that point.", "quantifier": "all points of the curve, messages, contexts and signatures, any hash function", "why_tests_cant": "Random keys never meet the exceptional coordinates; the square root, the comparison and the wrap of the subtraction of one depend on the representation of y^2.", "anchors": ["src/edwards448.c:point_decoding", "src/sign448.c:ed448_verify_all"]}
{"id": "C77", "title": "Ed448 verification refuses public keys that encode no point", "statement": "ed448_verify returns EDDSA_ERROR_PUBLICKEY when the 57 bytes of the public key are the RFC 8032 encoding of no point of edwards448.", "quantifier": "all strings of 57 bytes, messages, contexts and signatures, any hash function", "why_tests_cant": "Half of all strings have no point, but tests try a handful; that a non-square is always recognised is a fact about the square-root chain for every input.", "anchors": ["src/edwards448.c:point_decoding", "src/sign448.c:ed448_verify_all"]}
{"id": "C78", "title": "Ed448 verification decides the verification equation", "statement": "For a public key encoding a point A, ed448_verify returns OK exactly when R is the encoding of S*B - k*A, k being the hash of R, the key and the message, and the invalid-signature code otherwise.", "quantifier": "all keys, messages, contexts and signatures, any hash function", "why_tests_cant": "Both directions quantify over 2^912 signatures; the rejecting direction is the security claim and has no finite witness.", "anchors": ["src/sign448.c:ed448_verify_all", "src/edwards448.c:double_point_mult_4w_ed448,point_decoding,div4"]}
{"id": "C79", "title": "Ed448 signatures made by the library verify", "statement": "A signature returned by ed448_sign (any instance) for a key returned by ed448_keygen is accepted by ed448_verify with the same message and context.", "quantifier": "all private keys, messages and contexts, any hash function", "why_tests_cant": "Random round trips miss inputs where a limb borrows or a carry is lost.", "anchors": ["src/sign448.c:ed448_sign_all,ed448_verify_all"]}
{"id": "C80", "title": "Ed448 verification enforces a canonical scalar", "statement": "ed448_verify rejects a signature whose scalar half S is not below the group order.", "quantifier": "all signatures", "why_tests_cant": "The accepting signature must be constructed, never sampled.", "anchors": ["src/sign448.c:ed448_verify_all"]}
{"id": "C81", "title": "X448 public keys are those of RFC 7748", "statement": "For every 56-byte secret key, X448 key generation returns X448(key, 5), the same string that the shared-secret function returns for the base point; so two parties who exchange generated keys end with the same secret.", "quantifier": "all secret keys, all machine states", "why_tests_cant": "Key generation uses another algorithm (comb on edwards448, division of the scalar by four, map to the Montgomery curve) than the ladder; rare lost carries show for a sparse set of keys only.", "anchors": ["src/ladder448.c:x448_keygen_avx2,point_Edwards2Montgomery_ed448", "src/edwards448.c:fixed_point_multiplication_ed448,div4"]}
{"id": "C82", "title": "The signature functions hash with SHA-512 and SHAKE256 the strings of RFC 8032", "statement": "With the library's own hash code, fed in several calls through contexts with arbitrary earlier contents, ed25519_keygen returns the RFC 8032 public key for SHA-512 of FIPS 180-4, signing returns its R, and signing and verification of Ed25519 (all three variants) and Ed448 (both variants) behave as with one application of SHA-512 or SHAKE256 of the standards to the RFC strings.", "quantifier": "all keys, messages (below 2^64 - 1000 or 2^61 - 1000 bytes), contexts, signatures and initial contents of the hash contexts", "why_tests_cant": "Test vectors cover a few message lengths; how the pieces fall into hash blocks depends on the lengths of message and context.", "anchors": ["src/sign255.c:ed25519_keygen,ed25519_sign_all,ed25519_verify_all", "src/sign448.c:ed448_keygen,ed448_sign_all,ed448_verify_all", "third_party/sha512.c:sph_sha512,sph_sha512_close", "third_party/sha3.c:Update,Final2,SHAKE256"]}
{"id": "C83", "title": "The two-way SHA-512 returns both SHA-512 digests", "statement": "sha512_2w_avx writes, for two messages of the same length, SHA-512 of FIPS 180-4 of the first and of the second message, whatever the two messages are and whatever the stack contained; neither digest depends on the other message.", "quantifier": "all pairs of messages, all lengths below 2^32, all initial contents of the work arrays", "why_tests_cant": "The lanes share every register; a mistake in the padding shows only for some lengths modulo 128, a mixed lane only if the messages differ.", "anchors": ["third_party/sha512_2way.c:sha512_2w_avx,sha512_permutation,msg_schedule,computeT1,computeT2", "third_party/multi_hash.h:KSHA512"]}
{"id": "C84", "title": "Hash to curve: the AVX2 code and the portable code hash to the same field elements", "statement": "The two field elements from which h2c25519_avx2 starts are those from which h2c25519_x64 starts, for every message.", "quantifier": "all messages below 2^64 - 1 bytes", "why_tests_cant": "A test would need a message of 4 GiB to see that the length is passed as a 32-bit number.", "anchors": ["src/hash255.c:hash_to_field_2w,hash_to_field", "third_party/sha512_2way.c:sha512_2w_avx"]}
{"id": "C85", "title": "Hash to curve: the AVX2 code maps both field elements to the curve as RFC 9380 prescribes", "statement": "In h2c25519_avx2 each of the two lanes maps its field element to the point of edwards25519 that Elligator 2 of RFC 9380 assigns to it; in particular the points it adds up are on the curve.", "quantifier": "all messages, both lanes, all machine states", "why_tests_cant": "The lanes compare field elements by one bit of each byte: a wrong branch needs a coincidence of 32 bits and is met by about one message in 2^32.", "anchors": ["src/hash255.c:h2c25519_avx2,map_to_curve_2w,elligator2_edwards25519_2w,elligator2_curve25519_2w", "src/eltfp25519_2w_redradix.c:cmp"]}
