#!/usr/bin/env python3
"""Writes ../MANIFEST.json and checks that every named theorem exists."""
import json, os, re
ROOT = os.path.join(os.path.dirname(os.path.abspath(__file__)), "..")
C = []
def claim(prop, status, theorems, note):
    C.append(dict(property=prop, status=status, theorems=theorems.split(), note=note))

claim("C01", "proved", "C01_add C01_add_aliased", "Transcribed assembly, both code paths, all overlaps of the three arrays.")
claim("C02", "proved", "C02_sub C02_sub_aliased C02_neg", "")
claim("C03", "proved", "C03_intmul", "Three instruction variants (selection k).")
claim("C04", "proved", "C04_intsqr", "")
claim("C05", "proved", "C05_reduce C05_mul C05_sqr C05_mul_aliased", "")
claim("C06", "proved", "C06_intmul2 C06_intsqr2 C06_reduce2", "")
claim("C07", "proved", "C07_mula24", "")
claim("C08", "proved", "C08_ser C08_unser C08_ser_unique", "")
claim("C09", "proved", "C09_cmp C09_sgn", "")
claim("C10", "proved", "C10_inv", "Uses the certified primality of 2^255-19.")
claim("C11", "proved", "C11_cmv_full C11_cmv_full448 C11_cmv_1w C11_cmv_2w", "")
claim("C20", "proved", "C20_invsqrt_full C20_srt_refuted C20_invsqrt_1w C20_srt_1w_refuted C20_roots_4w_refuted", "REFUTED for the one-argument API function srt (full and vector) and for the 4-way root; the two-argument root (full and 1-way) is right.")
claim("C21", "proved", "C21_add C21_add_aliased C21_sub C21_sub_aliased C21_neg", "")
claim("C22", "proved", "C22_intmul C22_intsqr C22_reduce C22_mul C22_sqr", "")
claim("C23", "proved", "C23_ser C23_unser C23_cmp C23_sgn", "")
claim("C24", "proved", "C24_inv", "Uses the certified primality of 2^448-2^224-1.")
claim("C25", "proved", "C25_mula24", "")
claim("C29", "proved", "C29_prime_full C29_prime_1w C29_prime448_1w_refuted", "REFUTED for the vector representation of 2^448-2^224-1; right for the other three.")
claim("C30", "proved", "C30_refuted", "Refuted: every such call leaves the buffers (byte sizes used as word offsets).")
claim("C58", "proved", "C58_state_independent C58_state_independent448 C58_mula24_inplace C58_mula24_inplace448", "")
claim("C12", "proved", "C12_unser_1w C12_ser_1w C12_unser_2w C12_ser_2w C12_unser_4w C12_ser_4w C12_round_trip_1w C12_round_trip_2w C12_round_trip_4w", "")
claim("C13", "proved", "C13_refuted C13_sub_exact C13_add C13_neg C13_exact", "REFUTED: the encoding of a difference of two loaded elements can be wrong (lost carry); exact condition proved, sums and opposites proved right.")
claim("C14", "proved", "C14_add_1w C14_sub_1w C14_neg_1w C14_addsub_1_1w C14_addsub_2_1w C14_add_2w C14_sub_2w C14_neg_2w C14_addsub_1_2w C14_addsub_2_2w C14_add_4w C14_sub_4w C14_neg_4w C14_addsub_1_4w C14_addsub_2_4w C14_api_neg_4w_refuted", "All widths. The 4-way negation reachable through the API table is bound to the 2-way routine: refuted separately; the 4-way routine itself is right.")
claim("C15", "proved", "C15_mul_1w C15_mul_2w C15_mul_4w C15_chain_1w C15_chain_2w C15_chain_4w", "All widths, any chain of operations.")
claim("C16", "proved", "C16_sqr_1w C16_sqr_2w C16_sqr_4w", "")
claim("C17", "proved", "C17_compress_1w C17_compressfast_1w C17_compress_2w C17_compressfast_2w C17_compress2_1_2w C17_compress2_2_2w C17_compress_4w C17_compressfast_4w C17_compress2_1_4w C17_compress2_2_4w C17_new_compressfast2_1_4w C17_new_compressfast2_2_4w", "")
claim("C18", "proved", "C18_add_2w C18_sub_2w C18_neg_2w C18_addsub_1_2w C18_addsub_2_2w C18_intmul_2w C18_intsqr_2w C18_compress_2w C18_compressfast_2w C18_compress2_1_2w C18_compress2_2_2w C18_mul_2w C18_sqr_2w C18_add_4w C18_sub_4w C18_neg_4w C18_addsub_1_4w C18_addsub_2_4w C18_intmul_4w C18_intsqr_4w C18_compress_4w C18_compressfast_4w C18_compress2_1_4w C18_compress2_2_4w C18_mul_4w C18_sqr_4w C18_add448_2w C18_sub448_2w C18_addsub448_1_2w C18_addsub448_2_2w C18_intmul448_2w C18_intsqr448_2w C18_compress448_2w C18_compressfast448_2w C18_compress2448_1_2w C18_compress2448_2_2w C18_mul448_2w C18_sqr448_2w C18_add448_4w C18_sub448_4w C18_addsub448_1_4w C18_addsub448_2_4w C18_intmul448_4w C18_intsqr448_4w C18_compress448_4w C18_compressfast448_4w C18_compress2448_1_4w C18_compress2448_2_4w C18_mul448_4w C18_sqr448_4w C18_moves C18_moves448", "Both fields; lane positions are interchangeable and the initial state is irrelevant.")
claim("C19", "proved", "C19_refuted C19_decides C19_lanes", "REFUTED: only the low bits of the bytes are compared; exact description proved.")
claim("C26", "proved", "C26_mul_1w C26_mul_1w_difference_left C26_mul_1w_difference_right C26_sqr_1w C26_mul_2w C26_mul_2w_difference_left C26_mul_2w_difference_right C26_sqr_2w C26_mul_4w C26_mul_4w_difference_left C26_mul_4w_difference_right C26_sqr_4w C26_difference_times_difference_refuted", "Products of two sums, and of a difference by a reduced element, are right; the product of two differences is REFUTED.")
claim("C27", "proved", "C27_add_1w C27_sub_1w C27_neg_1w C27_addsub_1_1w C27_addsub_2_1w C27_compress_1w C27_compressfast_1w C27_add_2w C27_sub_2w C27_addsub_1_2w C27_addsub_2_2w C27_compress_2w C27_compressfast_2w C27_compress2_1_2w C27_compress2_2_2w C27_add_4w C27_sub_4w C27_addsub_1_4w C27_addsub_2_4w C27_compress_4w C27_compressfast_4w C27_compress2_1_4w C27_compress2_2_4w C27_new_compressfast_1w C27_new_compressfast2_1_4w C27_new_compressfast2_2_4w", "")
claim("C28", "proved", "C28_refuted C28_exact C28_unser_1w C28_ser_1w C28_round_trip_1w C28_unser_2w C28_ser_2w C28_round_trip_2w C28_unser_4w C28_ser_4w C28_round_trip_4w", "REFUTED for sums of loaded elements; exact condition and round trip proved.")
claim("C59", "proved", "C59_inv_1w C59_inv448_1w", "")
claim("C60", "proved", "C60_srt448_1w", "")
claim("C61", "proved", "C61_cmp448 C61_lanes", "")

claim("C41", "proved", "C41_reduction C41_refuted C41_secret_scalar",
      "The result is the residue, or the residue minus the order modulo 2^256 (only for residues of at least 2^252-42c, c = order-2^252). REFUTED as a universal congruence: every residue from 2^252 on comes out wrong (C41_refuted).")
claim("C42", "proved", "C42_s25519 C42_s25519_right C42_refuted C42_s448 C42_refuted448",
      "Exact value with the carries the multiplier drops; right whenever no carry is dropped and the residue is not among the 43c largest. REFUTED for all r, k, a: C42_refuted and C42_refuted448 give reduced r, k and clamped a with a wrong s.")
claim("C54", "proved", "C54_reduction C54_uninitialised C54_div4 C54_not_canonical C54_refuted",
      "Congruent when no carry is dropped, always independent of the uninitialised words. REFUTED for all inputs by C54_refuted (a dropped carry); the result need not be canonical (C54_not_canonical).")
claim("C39", "proved", "C39_ed25519 C39_ed448", "The exact range in which the final carry is dropped is part of the statement.")
claim("C40", "proved", "C40_ed25519 C40_ed448 C40_buffer256_refuted", "The 256-digit buffers of the (unused) two-way double multiplication are too small: C40_buffer256_refuted.")

claim("C62", "proved", "C62_ngz_2w C62_subadd_2w C62_ngz_4w C62_ngz448_2w C62_subadd448_2w C62_ngz448_4w", "")
claim("C31", "proved", "C31_avx2 C31_x64", "For every 32-byte key and every 32-byte u-coordinate, canonical or not.")
claim("C32", "proved", "C32_agree", "")
claim("C35", "proved", "C35_bits C35_buffers_avx2 C35_buffers_x64", "Shared secret functions of X25519; the X448 counterpart is C37_buffers.")
claim("C36", "proved", "C36_spec C36_shared", "")
claim("C37", "proved", "C37_affine C37_exact C37_shared_partial C37_refuted C37_wrong_bytes C37_small C37_buffers", "REFUTED: C37_refuted and C37_wrong_bytes exhibit a public key for which the bytes written are not the X448 result (a carry lost by the encoding). The ladder value itself is right for all inputs (C37_affine); the bytes are right unless the value is in the explicit set of C37_exact, C37_shared_partial.")

claim("C33", "proved", "C33_spec C33_agree C33_mixed", "For every u, including twist points, small-order points and non-canonical encodings; also across the two implementations.")
claim("C34", "proved", "C34_keygen_spec C34_keygen_shared C34_exchange", "For every 32-byte key; equality with both implementations of the shared-secret function applied to u = 9, and with the RFC 7748 function; plus the complete key exchange between two parties.")
claim("C38", "partial", "C38_spec C38_shared_partial", "Unconditional for the RFC 7748 function (C38_spec). For the code it holds unless one of the three values is in the sparse set carry_lost for which the output conversion loses a carry (see C37_refuted); that an actual disagreement occurs is not exhibited.")

claim("C43", "partial", "C43_group C43_doubling_1w_full C43_fulladd_1w_full C43_mixadd_4way C43_fulladd_2way C43_doubling_2w C43_fulladd_2w C43_mixadd_2w C43_doubling_4w C43_mixadd_4w_refuted C43_mixadd_4w_partial",
      "All routines of key generation and signing are right for all points. REFUTED for the four-lane mixed addition of verification (C43_mixadd_4w_refuted: the constant is 2^34 p instead of 2^35 p); right under an explicit no-borrow condition. The two-way doubling of the AVX2 hash-to-curve is not covered.")

claim("C44", "proved", "C44_query", "All four lanes at once, digits 0..8 with sign words, every sub-table. Timing (which addresses are read) is not modelled; the model reads every entry as the code does.")
claim("C45", "proved", "C45_sign_table C45_verify_table", "All 256 comb entries and all 32 verification entries, as words of the generated copy of the tables.")
claim("C46", "proved", "C46_exact C46_multiple C46_large_refuted C46_encoding C46_encoded", "REFUTED for all 256-bit scalars: from 0x77...78 on the result is [k - 2^256]B (C46_large_refuted). Right for every scalar below, which includes every reduced scalar. Default table size (LUT_24KB) only.")
claim("C63", "proved", "C63_base_order", "")

claim("C47", "proved", "C47_decompression", "For canonical encodings; both limb layouts that the routine returns.")
claim("C48", "proved", "C48_refuted C48_never", "REFUTED: the decoder never reports failure (C48_never), and a key that encodes no point accepts a signature (C48_refuted, with an explicit hash function argument).")
claim("C49", "partial", "C49_roundtrip_partial C49_refuted", "REFUTED in general: C49_refuted gives a key, message and hash function for which a correct signature is rejected, because a limb of the four-lane mixed addition underflows. Holds under explicit conditions (C49_roundtrip_partial).")
claim("C50", "proved", "C50_sign255 C50_verify255 C50_sign448 C50_verify448", "")
claim("C51", "proved", "C51_sign255 C51_verify255 C51_separated255 C51_sign448 C51_verify448 C51_separated448", "The result is unchanged when the hash function is changed anywhere except at the RFC inputs.")
claim("C52", "proved", "C52_refuted C52_malleable", "REFUTED: S = 2^253 is accepted (C52_refuted); adding the order to S keeps a signature valid (C52_malleable, if no addition borrows).")
claim("C64", "partial", "C64_verify_partial C64_refuted C49_refuted", "REFUTED in general, in both directions; holds when S < 2^256-256, the challenge is below top_residue and no mixed addition borrows.")
claim("C65", "proved", "C65_keygen", "")
claim("C66", "partial", "C66_signature_partial C66_first_half C66_refuted", "REFUTED in general (nonce residue 2^252). R is always right; S is right under explicit conditions on residues and the dropped carry.")

claim("C57", "proved", "C57_sha512 C57_shake256", "any two divisions of a message below 2^64 bytes; the incremental SHAKE256 equals the one-shot function")
claim("C67", "proved", "C67_sha512 C67_again", "the specification computes the constants from cube and square roots of primes")
claim("C68", "proved", "C68_shake256 C68_incremental C68_shake128", "the specification computes rotation offsets and round constants from their definition")
claim("C55", "proved", "C55_on_curve", "every message below 2^64-1 bytes")
claim("C56", "proved", "C56_refuted C56_exact", "REFUTED: the digest is reduced modulo the group order, not modulo p (C56_refuted, empty message, real SHA-512); the exact values and the range that never occurs are in C56_exact.")
claim("C69", "proved", "C69_point C69_map C69_unique", "the specification is a relation; C69_unique shows that it determines the point")
claim("C70", "proved", "C70_decisions", "")
claim("C53", "proved", "C53_last_byte_ignored C53_refuted",
      "REFUTED: verification never reads the last byte (C53_last_byte_ignored, every signature); C53_refuted gives a key and a signature accepted with every last byte, for an explicit hash function argument.")
claim("C71", "partial", "C71_doubling_2w C71_fulladd_2w C71_isogeny C71_doubling_4w C71_mixadd_4w_refuted C71_mixadd_4w_partial",
      "Doublings, the addition and the isogeny are right for all points and representations. REFUTED for the four-lane mixed addition of verification (C71_mixadd_4w_refuted); right under an explicit no-borrow condition. The four-way mixed addition of signing is treated inside C74.")
claim("C72", "proved", "C72_sign_table C72_verify_table C72_base_order", "All entries, as words of the generated copy of the tables.")
claim("C73", "partial", "C73_encoding_partial", "Missing: the points with a coordinate in the sparse set carry_lost (about 2^-185 of the field), where the conversion to bytes is wrong (C28).")
claim("C74", "partial", "C74_fixed_base_partial C74_keygen_partial C74_meaning C74_refuted",
      "REFUTED in general: for the clamped scalar 2^447 + 2^321 - 2^127 the fixed-base multiplication returns another multiple of B (C74_refuted; the division by four loses a carry). Holds for every private key whose scalar keeps its carries in the division by four, whose signed digits avoid five (block, digit) pairs, and whose public key has no coordinate in carry_lost. Missing: the scalars with one of the five digits (about one in four), for which the absence of a borrow is not shown; C54 shows that lost carries do make the division wrong.")
claim("C75", "partial", "C75_signature_partial", "R and S are right under the conditions of C74 on the nonce and the absence of lost carries in the two reductions and the sum; S can be at or above the order (C54), so canonical S is not guaranteed.")
claim("C76", "partial", "C76_accepted_partial C76_decompression_partial C76_refuted", "REFUTED in general: the key with y = 2^16 encodes a point and is refused (C76_refuted; the subtraction of 1 from the lowest limb of y^2 wraps). Holds for points with regular coordinates. Missing: y^2 or d y^2 near a multiple of p or with low 28 bits 0, 1, 2; x near a multiple of p; for the value, x with a limb below 2^12 or a square above 2p in a limb.")
claim("C77", "partial", "C77_refused_partial C77_refuted", "REFUTED in general: bits 448 to 454 of the string are not read, so strings that encode no point are taken. Holds for strings whose y is regular and is the coordinate of no point.")
claim("C78", "partial", "C78_verify_partial", "Both directions, under conditions: regular key in the prime-order subgroup (C76), S below 2^448, no lost carry in the scalar arithmetic (C54) or in the encoding (C73), no borrow in a mixed addition (C71). Missing: keys and inputs outside these conditions.")
claim("C79", "partial", "C79_roundtrip_partial", "Under the conditions of C75 and C78.")
claim("C80", "proved", "C80_refuted", "REFUTED: S = 2^448 is accepted for a constructed key and hash function.")
claim("C81", "partial", "C81_keygen_partial C81_meaning C81_exchange_partial C81_refuted", "REFUTED in general: for the key 2^447 + 2^321 - 2^127 the public key belongs to another scalar (C81_refuted). Holds for keys whose clamped scalar meets good_scalar (C74) and whose public key is not in sqr_carry_lost; the exchange theorem also needs C37's condition on the secret. Missing: scalars with one of the five digits of C74.")
claim("C82", "proved", "C82_keygen25519 C82_R25519 C82_sign25519 C82_verify25519 C82_keygen448 C82_sign448 C82_verify448", "Key generation of Ed25519 and R of its signatures end to end with SHA-512; for the other functions, equality with the same function with the standard hash, to which C48-C53, C64, C66, C74-C80 apply.")
claim("C83", "proved", "C83_sha512_2w", "All message pairs and all 32-bit lengths; refinement to SHA512_fips, lane by lane.")
claim("C84", "proved", "C84_equal C84_long C84_refuted", "REFUTED for messages of 2^32 - 1 bytes or more: the length is truncated to 32 bits, so only a prefix is hashed (C84_long), and all messages of 2^32 - 1 bytes give the same pair of equal elements (C84_refuted). Equality for all shorter messages: C84_equal.")
claim("C85", "proved", "C85_refuted C85_map_partial", "REFUTED: for the message e6 57 51 35 00 00 00 00 the first lane is no point of the curve, because the comparison looks at one bit of each byte and takes the wrong branch (C85_refuted; the two lanes after the map, before the cofactor is cleared and the lanes are added). C85_map_partial: the lane is the point of RFC 9380 whenever g(x1) is a square, or the numerator of g(x1) has other byte parities than its products by the square roots of -1, and the test for the exceptional case is not fooled. The rest of h2c25519_avx2 (clearing the cofactor, adding the lanes) is modelled but nothing is proved about it.")
names = set()
for f in os.listdir(os.path.join(ROOT, "rocq/theories")):
    if f.endswith(".v"):
        names |= set(re.findall(r"^(?:Theorem|Lemma)\s+(\S+)", open(os.path.join(ROOT, "rocq/theories", f)).read(), re.M))
ids = [json.loads(l)["id"] for l in open(os.path.join(ROOT, "properties.jsonl"))]
for c in C:
    assert c["property"] in ids, c
    for t in c["theorems"]: assert t in names, t
print("claims", len(C), "missing", [i for i in ids if i not in [c["property"] for c in C]])
json.dump({"claims": C}, open(os.path.join(ROOT, "MANIFEST.json"), "w"), indent=1)
