{
 "claims": [
  {
   "property": "C01",
   "status": "proved",
   "theorems": [
    "C01_add",
    "C01_add_aliased"
   ],
   "note": "Transcribed assembly, both code paths, all overlaps of the three arrays."
  },
  {
   "property": "C02",
   "status": "proved",
   "theorems": [
    "C02_sub",
    "C02_sub_aliased",
    "C02_neg"
   ],
   "note": ""
  },
  {
   "property": "C03",
   "status": "proved",
   "theorems": [
    "C03_intmul"
   ],
   "note": "Three instruction variants (selection k)."
  },
  {
   "property": "C04",
   "status": "proved",
   "theorems": [
    "C04_intsqr"
   ],
   "note": ""
  },
  {
   "property": "C05",
   "status": "proved",
   "theorems": [
    "C05_reduce",
    "C05_mul",
    "C05_sqr",
    "C05_mul_aliased"
   ],
   "note": ""
  },
  {
   "property": "C06",
   "status": "proved",
   "theorems": [
    "C06_intmul2",
    "C06_intsqr2",
    "C06_reduce2"
   ],
   "note": ""
  },
  {
   "property": "C07",
   "status": "proved",
   "theorems": [
    "C07_mula24"
   ],
   "note": ""
  },
  {
   "property": "C08",
   "status": "proved",
   "theorems": [
    "C08_ser",
    "C08_unser",
    "C08_ser_unique"
   ],
   "note": ""
  },
  {
   "property": "C09",
   "status": "proved",
   "theorems": [
    "C09_cmp",
    "C09_sgn"
   ],
   "note": ""
  },
  {
   "property": "C10",
   "status": "proved",
   "theorems": [
    "C10_inv"
   ],
   "note": "Uses the certified primality of 2^255-19."
  },
  {
   "property": "C11",
   "status": "proved",
   "theorems": [
    "C11_cmv_full",
    "C11_cmv_full448",
    "C11_cmv_1w",
    "C11_cmv_2w"
   ],
   "note": ""
  },
  {
   "property": "C20",
   "status": "proved",
   "theorems": [
    "C20_invsqrt_full",
    "C20_srt_refuted",
    "C20_invsqrt_1w",
    "C20_srt_1w_refuted",
    "C20_roots_4w_refuted"
   ],
   "note": "REFUTED for the one-argument API function srt (full and vector) and for the 4-way root; the two-argument root (full and 1-way) is right."
  },
  {
   "property": "C21",
   "status": "proved",
   "theorems": [
    "C21_add",
    "C21_add_aliased",
    "C21_sub",
    "C21_sub_aliased",
    "C21_neg"
   ],
   "note": ""
  },
  {
   "property": "C22",
   "status": "proved",
   "theorems": [
    "C22_intmul",
    "C22_intsqr",
    "C22_reduce",
    "C22_mul",
    "C22_sqr"
   ],
   "note": ""
  },
  {
   "property": "C23",
   "status": "proved",
   "theorems": [
    "C23_ser",
    "C23_unser",
    "C23_cmp",
    "C23_sgn"
   ],
   "note": ""
  },
  {
   "property": "C24",
   "status": "proved",
   "theorems": [
    "C24_inv"
   ],
   "note": "Uses the certified primality of 2^448-2^224-1."
  },
  {
   "property": "C25",
   "status": "proved",
   "theorems": [
    "C25_mula24"
   ],
   "note": ""
  },
  {
   "property": "C29",
   "status": "proved",
   "theorems": [
    "C29_prime_full",
    "C29_prime_1w",
    "C29_prime448_1w_refuted"
   ],
   "note": "REFUTED for the vector representation of 2^448-2^224-1; right for the other three."
  },
  {
   "property": "C30",
   "status": "proved",
   "theorems": [
    "C30_refuted"
   ],
   "note": "Refuted: every such call leaves the buffers (byte sizes used as word offsets)."
  },
  {
   "property": "C58",
   "status": "proved",
   "theorems": [
    "C58_state_independent",
    "C58_state_independent448",
    "C58_mula24_inplace",
    "C58_mula24_inplace448"
   ],
   "note": ""
  },
  {
   "property": "C12",
   "status": "proved",
   "theorems": [
    "C12_unser_1w",
    "C12_ser_1w",
    "C12_unser_2w",
    "C12_ser_2w",
    "C12_unser_4w",
    "C12_ser_4w",
    "C12_round_trip_1w",
    "C12_round_trip_2w",
    "C12_round_trip_4w"
   ],
   "note": ""
  },
  {
   "property": "C13",
   "status": "proved",
   "theorems": [
    "C13_refuted",
    "C13_sub_exact",
    "C13_add",
    "C13_neg",
    "C13_exact"
   ],
   "note": "REFUTED: the encoding of a difference of two loaded elements can be wrong (lost carry); exact condition proved, sums and opposites proved right."
  },
  {
   "property": "C14",
   "status": "proved",
   "theorems": [
    "C14_add_1w",
    "C14_sub_1w",
    "C14_neg_1w",
    "C14_addsub_1_1w",
    "C14_addsub_2_1w",
    "C14_add_2w",
    "C14_sub_2w",
    "C14_neg_2w",
    "C14_addsub_1_2w",
    "C14_addsub_2_2w",
    "C14_add_4w",
    "C14_sub_4w",
    "C14_neg_4w",
    "C14_addsub_1_4w",
    "C14_addsub_2_4w",
    "C14_api_neg_4w_refuted"
   ],
   "note": "All widths. The 4-way negation reachable through the API table is bound to the 2-way routine: refuted separately; the 4-way routine itself is right."
  },
  {
   "property": "C15",
   "status": "proved",
   "theorems": [
    "C15_mul_1w",
    "C15_mul_2w",
    "C15_mul_4w",
    "C15_chain_1w",
    "C15_chain_2w",
    "C15_chain_4w"
   ],
   "note": "All widths, any chain of operations."
  },
  {
   "property": "C16",
   "status": "proved",
   "theorems": [
    "C16_sqr_1w",
    "C16_sqr_2w",
    "C16_sqr_4w"
   ],
   "note": ""
  },
  {
   "property": "C17",
   "status": "proved",
   "theorems": [
    "C17_compress_1w",
    "C17_compressfast_1w",
    "C17_compress_2w",
    "C17_compressfast_2w",
    "C17_compress2_1_2w",
    "C17_compress2_2_2w",
    "C17_compress_4w",
    "C17_compressfast_4w",
    "C17_compress2_1_4w",
    "C17_compress2_2_4w",
    "C17_new_compressfast2_1_4w",
    "C17_new_compressfast2_2_4w"
   ],
   "note": ""
  },
  {
   "property": "C18",
   "status": "proved",
   "theorems": [
    "C18_add_2w",
    "C18_sub_2w",
    "C18_neg_2w",
    "C18_addsub_1_2w",
    "C18_addsub_2_2w",
    "C18_intmul_2w",
    "C18_intsqr_2w",
    "C18_compress_2w",
    "C18_compressfast_2w",
    "C18_compress2_1_2w",
    "C18_compress2_2_2w",
    "C18_mul_2w",
    "C18_sqr_2w",
    "C18_add_4w",
    "C18_sub_4w",
    "C18_neg_4w",
    "C18_addsub_1_4w",
    "C18_addsub_2_4w",
    "C18_intmul_4w",
    "C18_intsqr_4w",
    "C18_compress_4w",
    "C18_compressfast_4w",
    "C18_compress2_1_4w",
    "C18_compress2_2_4w",
    "C18_mul_4w",
    "C18_sqr_4w",
    "C18_add448_2w",
    "C18_sub448_2w",
    "C18_addsub448_1_2w",
    "C18_addsub448_2_2w",
    "C18_intmul448_2w",
    "C18_intsqr448_2w",
    "C18_compress448_2w",
    "C18_compressfast448_2w",
    "C18_compress2448_1_2w",
    "C18_compress2448_2_2w",
    "C18_mul448_2w",
    "C18_sqr448_2w",
    "C18_add448_4w",
    "C18_sub448_4w",
    "C18_addsub448_1_4w",
    "C18_addsub448_2_4w",
    "C18_intmul448_4w",
    "C18_intsqr448_4w",
    "C18_compress448_4w",
    "C18_compressfast448_4w",
    "C18_compress2448_1_4w",
    "C18_compress2448_2_4w",
    "C18_mul448_4w",
    "C18_sqr448_4w",
    "C18_moves",
    "C18_moves448"
   ],
   "note": "Both fields; lane positions are interchangeable and the initial state is irrelevant."
  },
  {
   "property": "C19",
   "status": "proved",
   "theorems": [
    "C19_refuted",
    "C19_decides",
    "C19_lanes"
   ],
   "note": "REFUTED: only the low bits of the bytes are compared; exact description proved."
  },
  {
   "property": "C26",
   "status": "proved",
   "theorems": [
    "C26_mul_1w",
    "C26_mul_1w_difference_left",
    "C26_mul_1w_difference_right",
    "C26_sqr_1w",
    "C26_mul_2w",
    "C26_mul_2w_difference_left",
    "C26_mul_2w_difference_right",
    "C26_sqr_2w",
    "C26_mul_4w",
    "C26_mul_4w_difference_left",
    "C26_mul_4w_difference_right",
    "C26_sqr_4w",
    "C26_difference_times_difference_refuted"
   ],
   "note": "Products of two sums, and of a difference by a reduced element, are right; the product of two differences is REFUTED."
  },
  {
   "property": "C27",
   "status": "proved",
   "theorems": [
    "C27_add_1w",
    "C27_sub_1w",
    "C27_neg_1w",
    "C27_addsub_1_1w",
    "C27_addsub_2_1w",
    "C27_compress_1w",
    "C27_compressfast_1w",
    "C27_add_2w",
    "C27_sub_2w",
    "C27_addsub_1_2w",
    "C27_addsub_2_2w",
    "C27_compress_2w",
    "C27_compressfast_2w",
    "C27_compress2_1_2w",
    "C27_compress2_2_2w",
    "C27_add_4w",
    "C27_sub_4w",
    "C27_addsub_1_4w",
    "C27_addsub_2_4w",
    "C27_compress_4w",
    "C27_compressfast_4w",
    "C27_compress2_1_4w",
    "C27_compress2_2_4w",
    "C27_new_compressfast_1w",
    "C27_new_compressfast2_1_4w",
    "C27_new_compressfast2_2_4w"
   ],
   "note": ""
  },
  {
   "property": "C28",
   "status": "proved",
   "theorems": [
    "C28_refuted",
    "C28_exact",
    "C28_unser_1w",
    "C28_ser_1w",
    "C28_round_trip_1w",
    "C28_unser_2w",
    "C28_ser_2w",
    "C28_round_trip_2w",
    "C28_unser_4w",
    "C28_ser_4w",
    "C28_round_trip_4w"
   ],
   "note": "REFUTED for sums of loaded elements; exact condition and round trip proved."
  },
  {
   "property": "C59",
   "status": "proved",
   "theorems": [
    "C59_inv_1w",
    "C59_inv448_1w"
   ],
   "note": ""
  },
  {
   "property": "C60",
   "status": "proved",
   "theorems": [
    "C60_srt448_1w"
   ],
   "note": ""
  },
  {
   "property": "C61",
   "status": "proved",
   "theorems": [
    "C61_cmp448",
    "C61_lanes"
   ],
   "note": ""
  },
  {
   "property": "C41",
   "status": "proved",
   "theorems": [
    "C41_reduction",
    "C41_refuted",
    "C41_secret_scalar"
   ],
   "note": "The result is the residue, or the residue minus the order modulo 2^256 (only for residues of at least 2^252-42c, c = order-2^252). REFUTED as a universal congruence: every residue from 2^252 on comes out wrong (C41_refuted)."
  },
  {
   "property": "C42",
   "status": "proved",
   "theorems": [
    "C42_s25519",
    "C42_s25519_right",
    "C42_refuted",
    "C42_s448",
    "C42_refuted448"
   ],
   "note": "Exact value with the carries the multiplier drops; right whenever no carry is dropped and the residue is not among the 43c largest. REFUTED for all r, k, a: C42_refuted and C42_refuted448 give reduced r, k and clamped a with a wrong s."
  },
  {
   "property": "C54",
   "status": "proved",
   "theorems": [
    "C54_reduction",
    "C54_uninitialised",
    "C54_div4",
    "C54_not_canonical",
    "C54_refuted"
   ],
   "note": "Congruent when no carry is dropped, always independent of the uninitialised words. REFUTED for all inputs by C54_refuted (a dropped carry); the result need not be canonical (C54_not_canonical)."
  },
  {
   "property": "C39",
   "status": "proved",
   "theorems": [
    "C39_ed25519",
    "C39_ed448"
   ],
   "note": "The exact range in which the final carry is dropped is part of the statement."
  },
  {
   "property": "C40",
   "status": "proved",
   "theorems": [
    "C40_ed25519",
    "C40_ed448",
    "C40_buffer256_refuted"
   ],
   "note": "The 256-digit buffers of the (unused) two-way double multiplication are too small: C40_buffer256_refuted."
  },
  {
   "property": "C62",
   "status": "proved",
   "theorems": [
    "C62_ngz_2w",
    "C62_subadd_2w",
    "C62_ngz_4w",
    "C62_ngz448_2w",
    "C62_subadd448_2w",
    "C62_ngz448_4w"
   ],
   "note": ""
  },
  {
   "property": "C31",
   "status": "proved",
   "theorems": [
    "C31_avx2",
    "C31_x64"
   ],
   "note": "For every 32-byte key and every 32-byte u-coordinate, canonical or not."
  },
  {
   "property": "C32",
   "status": "proved",
   "theorems": [
    "C32_agree"
   ],
   "note": ""
  },
  {
   "property": "C35",
   "status": "proved",
   "theorems": [
    "C35_bits",
    "C35_buffers_avx2",
    "C35_buffers_x64"
   ],
   "note": "Shared secret functions of X25519; the X448 counterpart is C37_buffers."
  },
  {
   "property": "C36",
   "status": "proved",
   "theorems": [
    "C36_spec",
    "C36_shared"
   ],
   "note": ""
  },
  {
   "property": "C37",
   "status": "proved",
   "theorems": [
    "C37_affine",
    "C37_exact",
    "C37_shared_partial",
    "C37_refuted",
    "C37_wrong_bytes",
    "C37_small",
    "C37_buffers"
   ],
   "note": "REFUTED: C37_refuted and C37_wrong_bytes exhibit a public key for which the bytes written are not the X448 result (a carry lost by the encoding). The ladder value itself is right for all inputs (C37_affine); the bytes are right unless the value is in the explicit set of C37_exact, C37_shared_partial."
  },
  {
   "property": "C33",
   "status": "proved",
   "theorems": [
    "C33_spec",
    "C33_agree",
    "C33_mixed"
   ],
   "note": "For every u, including twist points, small-order points and non-canonical encodings; also across the two implementations."
  },
  {
   "property": "C34",
   "status": "proved",
   "theorems": [
    "C34_keygen_spec",
    "C34_keygen_shared",
    "C34_exchange"
   ],
   "note": "For every 32-byte key; equality with both implementations of the shared-secret function applied to u = 9, and with the RFC 7748 function; plus the complete key exchange between two parties."
  },
  {
   "property": "C38",
   "status": "partial",
   "theorems": [
    "C38_spec",
    "C38_shared_partial"
   ],
   "note": "Unconditional for the RFC 7748 function (C38_spec). For the code it holds unless one of the three values is in the sparse set carry_lost for which the output conversion loses a carry (see C37_refuted); that an actual disagreement occurs is not exhibited."
  },
  {
   "property": "C43",
   "status": "partial",
   "theorems": [
    "C43_group",
    "C43_doubling_1w_full",
    "C43_fulladd_1w_full",
    "C43_mixadd_4way",
    "C43_fulladd_2way",
    "C43_doubling_2w",
    "C43_fulladd_2w",
    "C43_mixadd_2w",
    "C43_doubling_4w",
    "C43_mixadd_4w_refuted",
    "C43_mixadd_4w_partial"
   ],
   "note": "All routines of key generation and signing are right for all points. REFUTED for the four-lane mixed addition of verification (C43_mixadd_4w_refuted: the constant is 2^34 p instead of 2^35 p); right under an explicit no-borrow condition. The two-way doubling of the AVX2 hash-to-curve is not covered."
  },
  {
   "property": "C44",
   "status": "proved",
   "theorems": [
    "C44_query"
   ],
   "note": "All four lanes at once, digits 0..8 with sign words, every sub-table. Timing (which addresses are read) is not modelled; the model reads every entry as the code does."
  },
  {
   "property": "C45",
   "status": "proved",
   "theorems": [
    "C45_sign_table",
    "C45_verify_table"
   ],
   "note": "All 256 comb entries and all 32 verification entries, as words of the generated copy of the tables."
  },
  {
   "property": "C46",
   "status": "proved",
   "theorems": [
    "C46_exact",
    "C46_multiple",
    "C46_large_refuted",
    "C46_encoding",
    "C46_encoded"
   ],
   "note": "REFUTED for all 256-bit scalars: from 0x77...78 on the result is [k - 2^256]B (C46_large_refuted). Right for every scalar below, which includes every reduced scalar. Default table size (LUT_24KB) only."
  },
  {
   "property": "C63",
   "status": "proved",
   "theorems": [
    "C63_base_order"
   ],
   "note": ""
  },
  {
   "property": "C47",
   "status": "proved",
   "theorems": [
    "C47_decompression"
   ],
   "note": "For canonical encodings; both limb layouts that the routine returns."
  },
  {
   "property": "C48",
   "status": "proved",
   "theorems": [
    "C48_refuted",
    "C48_never"
   ],
   "note": "REFUTED: the decoder never reports failure (C48_never), and a key that encodes no point accepts a signature (C48_refuted, with an explicit hash function argument)."
  },
  {
   "property": "C49",
   "status": "partial",
   "theorems": [
    "C49_roundtrip_partial",
    "C49_refuted"
   ],
   "note": "REFUTED in general: C49_refuted gives a key, message and hash function for which a correct signature is rejected, because a limb of the four-lane mixed addition underflows. Holds under explicit conditions (C49_roundtrip_partial)."
  },
  {
   "property": "C50",
   "status": "proved",
   "theorems": [
    "C50_sign255",
    "C50_verify255",
    "C50_sign448",
    "C50_verify448"
   ],
   "note": ""
  },
  {
   "property": "C51",
   "status": "proved",
   "theorems": [
    "C51_sign255",
    "C51_verify255",
    "C51_separated255",
    "C51_sign448",
    "C51_verify448",
    "C51_separated448"
   ],
   "note": "The result is unchanged when the hash function is changed anywhere except at the RFC inputs."
  },
  {
   "property": "C52",
   "status": "proved",
   "theorems": [
    "C52_refuted",
    "C52_malleable"
   ],
   "note": "REFUTED: S = 2^253 is accepted (C52_refuted); adding the order to S keeps a signature valid (C52_malleable, if no addition borrows)."
  },
  {
   "property": "C64",
   "status": "partial",
   "theorems": [
    "C64_verify_partial",
    "C64_refuted",
    "C49_refuted"
   ],
   "note": "REFUTED in general, in both directions; holds when S < 2^256-256, the challenge is below top_residue and no mixed addition borrows."
  },
  {
   "property": "C65",
   "status": "proved",
   "theorems": [
    "C65_keygen"
   ],
   "note": ""
  },
  {
   "property": "C66",
   "status": "partial",
   "theorems": [
    "C66_signature_partial",
    "C66_first_half",
    "C66_refuted"
   ],
   "note": "REFUTED in general (nonce residue 2^252). R is always right; S is right under explicit conditions on residues and the dropped carry."
  },
  {
   "property": "C57",
   "status": "proved",
   "theorems": [
    "C57_sha512",
    "C57_shake256"
   ],
   "note": "any two divisions of a message below 2^64 bytes; the incremental SHAKE256 equals the one-shot function"
  },
  {
   "property": "C67",
   "status": "proved",
   "theorems": [
    "C67_sha512",
    "C67_again"
   ],
   "note": "the specification computes the constants from cube and square roots of primes"
  },
  {
   "property": "C68",
   "status": "proved",
   "theorems": [
    "C68_shake256",
    "C68_incremental",
    "C68_shake128"
   ],
   "note": "the specification computes rotation offsets and round constants from their definition"
  },
  {
   "property": "C55",
   "status": "proved",
   "theorems": [
    "C55_on_curve"
   ],
   "note": "every message below 2^64-1 bytes"
  },
  {
   "property": "C56",
   "status": "proved",
   "theorems": [
    "C56_refuted",
    "C56_exact"
   ],
   "note": "REFUTED: the digest is reduced modulo the group order, not modulo p (C56_refuted, empty message, real SHA-512); the exact values and the range that never occurs are in C56_exact."
  },
  {
   "property": "C69",
   "status": "proved",
   "theorems": [
    "C69_point",
    "C69_map",
    "C69_unique"
   ],
   "note": "the specification is a relation; C69_unique shows that it determines the point"
  },
  {
   "property": "C70",
   "status": "proved",
   "theorems": [
    "C70_decisions"
   ],
   "note": ""
  },
  {
   "property": "C53",
   "status": "proved",
   "theorems": [
    "C53_last_byte_ignored",
    "C53_refuted"
   ],
   "note": "REFUTED: verification never reads the last byte (C53_last_byte_ignored, every signature); C53_refuted gives a key and a signature accepted with every last byte, for an explicit hash function argument."
  },
  {
   "property": "C71",
   "status": "partial",
   "theorems": [
    "C71_doubling_2w",
    "C71_fulladd_2w",
    "C71_isogeny",
    "C71_doubling_4w",
    "C71_mixadd_4w_refuted",
    "C71_mixadd_4w_partial"
   ],
   "note": "Doublings, the addition and the isogeny are right for all points and representations. REFUTED for the four-lane mixed addition of verification (C71_mixadd_4w_refuted); right under an explicit no-borrow condition. The four-way mixed addition of signing is treated inside C74."
  },
  {
   "property": "C72",
   "status": "proved",
   "theorems": [
    "C72_sign_table",
    "C72_verify_table",
    "C72_base_order"
   ],
   "note": "All entries, as words of the generated copy of the tables."
  },
  {
   "property": "C73",
   "status": "partial",
   "theorems": [
    "C73_encoding_partial"
   ],
   "note": "Missing: the points with a coordinate in the sparse set carry_lost (about 2^-185 of the field), where the conversion to bytes is wrong (C28)."
  },
  {
   "property": "C74",
   "status": "partial",
   "theorems": [
    "C74_fixed_base_partial",
    "C74_keygen_partial",
    "C74_meaning",
    "C74_refuted"
   ],
   "note": "REFUTED in general: for the clamped scalar 2^447 + 2^321 - 2^127 the fixed-base multiplication returns another multiple of B (C74_refuted; the division by four loses a carry). Holds for every private key whose scalar keeps its carries in the division by four, whose signed digits avoid five (block, digit) pairs, and whose public key has no coordinate in carry_lost. Missing: the scalars with one of the five digits (about one in four), for which the absence of a borrow is not shown; C54 shows that lost carries do make the division wrong."
  },
  {
   "property": "C75",
   "status": "partial",
   "theorems": [
    "C75_signature_partial"
   ],
   "note": "R and S are right under the conditions of C74 on the nonce and the absence of lost carries in the two reductions and the sum; S can be at or above the order (C54), so canonical S is not guaranteed."
  },
  {
   "property": "C76",
   "status": "partial",
   "theorems": [
    "C76_accepted_partial",
    "C76_decompression_partial",
    "C76_refuted"
   ],
   "note": "REFUTED in general: the key with y = 2^16 encodes a point and is refused (C76_refuted; the subtraction of 1 from the lowest limb of y^2 wraps). Holds for points with regular coordinates. Missing: y^2 or d y^2 near a multiple of p or with low 28 bits 0, 1, 2; x near a multiple of p; for the value, x with a limb below 2^12 or a square above 2p in a limb."
  },
  {
   "property": "C77",
   "status": "partial",
   "theorems": [
    "C77_refused_partial",
    "C77_refuted"
   ],
   "note": "REFUTED in general: bits 448 to 454 of the string are not read, so strings that encode no point are taken. Holds for strings whose y is regular and is the coordinate of no point."
  },
  {
   "property": "C78",
   "status": "partial",
   "theorems": [
    "C78_verify_partial"
   ],
   "note": "Both directions, under conditions: regular key in the prime-order subgroup (C76), S below 2^448, no lost carry in the scalar arithmetic (C54) or in the encoding (C73), no borrow in a mixed addition (C71). Missing: keys and inputs outside these conditions."
  },
  {
   "property": "C79",
   "status": "partial",
   "theorems": [
    "C79_roundtrip_partial"
   ],
   "note": "Under the conditions of C75 and C78."
  },
  {
   "property": "C80",
   "status": "proved",
   "theorems": [
    "C80_refuted"
   ],
   "note": "REFUTED: S = 2^448 is accepted for a constructed key and hash function."
  },
  {
   "property": "C81",
   "status": "partial",
   "theorems": [
    "C81_keygen_partial",
    "C81_meaning",
    "C81_exchange_partial",
    "C81_refuted"
   ],
   "note": "REFUTED in general: for the key 2^447 + 2^321 - 2^127 the public key belongs to another scalar (C81_refuted). Holds for keys whose clamped scalar meets good_scalar (C74) and whose public key is not in sqr_carry_lost; the exchange theorem also needs C37's condition on the secret. Missing: scalars with one of the five digits of C74."
  },
  {
   "property": "C82",
   "status": "proved",
   "theorems": [
    "C82_keygen25519",
    "C82_R25519",
    "C82_sign25519",
    "C82_verify25519",
    "C82_keygen448",
    "C82_sign448",
    "C82_verify448"
   ],
   "note": "Key generation of Ed25519 and R of its signatures end to end with SHA-512; for the other functions, equality with the same function with the standard hash, to which C48-C53, C64, C66, C74-C80 apply."
  },
  {
   "property": "C83",
   "status": "proved",
   "theorems": [
    "C83_sha512_2w"
   ],
   "note": "All message pairs and all 32-bit lengths; refinement to SHA512_fips, lane by lane."
  },
  {
   "property": "C84",
   "status": "proved",
   "theorems": [
    "C84_equal",
    "C84_long",
    "C84_refuted"
   ],
   "note": "REFUTED for messages of 2^32 - 1 bytes or more: the length is truncated to 32 bits, so only a prefix is hashed (C84_long), and all messages of 2^32 - 1 bytes give the same pair of equal elements (C84_refuted). Equality for all shorter messages: C84_equal."
  },
  {
   "property": "C85",
   "status": "proved",
   "theorems": [
    "C85_refuted",
    "C85_map_partial"
   ],
   "note": "REFUTED: for the message e6 57 51 35 00 00 00 00 the first lane is no point of the curve, because the comparison looks at one bit of each byte and takes the wrong branch (C85_refuted; the two lanes after the map, before the cofactor is cleared and the lanes are added). C85_map_partial: the lane is the point of RFC 9380 whenever g(x1) is a square, or the numerator of g(x1) has other byte parities than its products by the square roots of -1, and the test for the exceptional case is not fooled. The rest of h2c25519_avx2 (clearing the cofactor, adding the lanes) is modelled but nothing is proved about it."
  }
 ]
}