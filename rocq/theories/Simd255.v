(** Generated by tools/simd2coq.py from /repo/src: the vector code of the
    reduced-radix field arithmetic.  One instruction per intrinsic call; the
    number in a comment is the source line.  Arguments are placed at 1024,
    2048, 3072, ... in the order of the C parameters. *)
From Coq Require Import ZArith List.
From Verif Require Import Simd.
Import ListNotations.
Open Scope Z_scope.

(** src/eltfp25519_1w_redradix.c:30 *)
Definition v255_1w_compress : list vinstr := [
  VMov 2 8192 (VL 1024); (* 40 *)
  VMov 2 8196 (VL 1026); (* 41 *)
  VMov 2 8200 (VL 1028); (* 42 *)
  VMov 2 8204 (VL 1030); (* 43 *)
  VMov 2 8208 (VL 1032); (* 44 *)
  VShrv [26; 25] 8212 (VL 8192); (* 48 *)
  VBin OAnd 2 8192 (VL 8192) (VC [67108863; 33554431]); (* 49 *)
  VBin OAdd 2 8196 (VL 8196) (VL 8212); (* 50 *)
  VShrv [25; 26] 8216 (VL 8196); (* 52 *)
  VBin OAnd 2 8196 (VL 8196) (VC [33554431; 67108863]); (* 53 *)
  VBin OAdd 2 8200 (VL 8200) (VL 8216); (* 54 *)
  VShrv [26; 25] 8220 (VL 8200); (* 56 *)
  VBin OAnd 2 8200 (VL 8200) (VC [67108863; 33554431]); (* 57 *)
  VBin OAdd 2 8204 (VL 8204) (VL 8220); (* 58 *)
  VShrv [25; 26] 8224 (VL 8204); (* 60 *)
  VBin OAnd 2 8204 (VL 8204) (VC [33554431; 67108863]); (* 61 *)
  VBin OAdd 2 8208 (VL 8208) (VL 8224); (* 62 *)
  VShrv [26; 25] 8228 (VL 8208); (* 64 *)
  VBin OAnd 2 8208 (VL 8208) (VC [67108863; 33554431]); (* 65 *)
  VShlv [64; 4] 8232 (VL 8228); (* 67 *)
  VShlv [64; 1] 8236 (VL 8228);
  VBin OAdd 2 8240 (VL 8232) (VL 8236);
  VBin OAdd 2 8244 (VL 8240) (VL 8228);
  VShuf32 2 78 8228 (VL 8244);
  VBin OAdd 2 8192 (VL 8192) (VL 8228); (* 69 *)
  VShrv [26; 25] 8212 (VL 8192); (* 71 *)
  VBin OAnd 2 8192 (VL 8192) (VC [67108863; 33554431]); (* 72 *)
  VBin OAdd 2 8196 (VL 8196) (VL 8212); (* 73 *)
  VMov 2 1024 (VL 8192); (* 75 *)
  VMov 2 1026 (VL 8196); (* 76 *)
  VMov 2 1028 (VL 8200); (* 77 *)
  VMov 2 1030 (VL 8204); (* 78 *)
  VMov 2 1032 (VL 8208) (* 79 *)].

(** src/eltfp25519_1w_redradix.c:82 *)
Definition v255_1w_compressfast : list vinstr := [
  VMov 2 8192 (VL 1024); (* 94 *)
  VMov 2 8194 (VL 1026); (* 95 *)
  VMov 2 8196 (VL 1028); (* 96 *)
  VMov 2 8198 (VL 1030); (* 97 *)
  VMov 2 8200 (VL 1032); (* 98 *)
  VBin OAnd 2 8204 (VL 8192) (VC [67108863; 33554431]); (* 100 *)
  VBin OAnd 2 8206 (VL 8194) (VC [33554431; 67108863]); (* 101 *)
  VBin OAnd 2 8208 (VL 8196) (VC [67108863; 33554431]); (* 102 *)
  VBin OAnd 2 8210 (VL 8198) (VC [33554431; 67108863]); (* 103 *)
  VBin OAnd 2 8212 (VL 8200) (VC [67108863; 33554431]); (* 104 *)
  VShrv [26; 25] 8216 (VL 8192); (* 106 *)
  VShrv [25; 26] 8218 (VL 8194); (* 107 *)
  VShrv [26; 25] 8220 (VL 8196); (* 108 *)
  VShrv [25; 26] 8222 (VL 8198); (* 109 *)
  VShrv [26; 25] 8224 (VL 8200); (* 110 *)
  VShlv [64; 4] 8228 (VL 8224); (* 112 *)
  VShlv [64; 1] 8232 (VL 8224);
  VBin OAdd 2 8236 (VL 8228) (VL 8232);
  VBin OAdd 2 8240 (VL 8236) (VL 8224);
  VShuf32 2 78 8224 (VL 8240);
  VBin OAdd 2 8192 (VL 8204) (VL 8224); (* 114 *)
  VBin OAdd 2 8194 (VL 8206) (VL 8216); (* 115 *)
  VBin OAdd 2 8196 (VL 8208) (VL 8218); (* 116 *)
  VBin OAdd 2 8198 (VL 8210) (VL 8220); (* 117 *)
  VBin OAdd 2 8200 (VL 8212) (VL 8222); (* 118 *)
  VMov 2 1024 (VL 8192); (* 120 *)
  VMov 2 1026 (VL 8194); (* 121 *)
  VMov 2 1028 (VL 8196); (* 122 *)
  VMov 2 1030 (VL 8198); (* 123 *)
  VMov 2 1032 (VL 8200) (* 124 *)].

(** src/eltfp25519_1w_redradix.c:127 *)
Definition v255_1w_sqrn1 : list vinstr := [
  VMov 2 8216 (VL 1024); (* 144 *)
  VMov 2 8220 (VL 1026); (* 145 *)
  VMov 2 8224 (VL 1028); (* 146 *)
  VMov 2 8228 (VL 1030); (* 147 *)
  VMov 2 8232 (VL 1032); (* 148 *)
  VMov 2 8276 (VL 8216); (* 155 *)
  VMov 2 8280 (VL 8220); (* 156 *)
  VMov 2 8284 (VL 8224); (* 157 *)
  VMov 2 8288 (VL 8228); (* 158 *)
  VMov 2 8292 (VL 8232); (* 159 *)
  VShuf32 2 68 8192 (VL 8276); (* 160 *)
  VBin OAdd 2 8196 (VL 8192) (VL 8192);
  VShuf32 2 68 8208 (VL 8280); (* 161 *)
  VBin OAdd 2 8212 (VL 8208) (VL 8208);
  VBlend32 2 3 8316 (VL 8208) (VL 8212); (* 162 *)
  VMov 2 8208 (VL 8316);
  VBin OAdd 2 8204 (VL 8208) (VL 8208);
  VShuf32 2 78 8200 (VL 8204); (* 163 *)
  VShuf32 2 78 8252 (VL 8232); (* 165 *)
  VBin OMul32 2 8252 (VL 8252) (VC [19; 1]); (* 166 *)
  VBin OMul32 2 8256 (VL 8216) (VL 8192); (* 168 *)
  VBin OMul32 2 8320 (VL 8252) (VL 8204);
  VBin OAdd 2 8256 (VL 8256) (VL 8320);
  VBin OMul32 2 8260 (VL 8220) (VL 8196); (* 169 *)
  VBin OMul32 2 8264 (VL 8224) (VL 8196); (* 170 *)
  VBin OMul32 2 8324 (VL 8220) (VL 8208);
  VBin OAdd 2 8264 (VL 8264) (VL 8324);
  VBin OMul32 2 8268 (VL 8228) (VL 8196); (* 171 *)
  VBin OMul32 2 8328 (VL 8224) (VL 8200);
  VBin OAdd 2 8268 (VL 8268) (VL 8328);
  VBin OMul32 2 8272 (VL 8232) (VL 8196); (* 172 *)
  VBin OMul32 2 8332 (VL 8228) (VL 8204);
  VBin OAdd 2 8272 (VL 8272) (VL 8332);
  VShuf32 2 68 8192 (VL 8284); (* 174 *)
  VBin OAdd 2 8196 (VL 8192) (VL 8192);
  VShuf32 2 68 8208 (VL 8288); (* 175 *)
  VBin OAdd 2 8212 (VL 8208) (VL 8208);
  VBlend32 2 12 8336 (VL 8208) (VL 8212); (* 176 *)
  VMov 2 8208 (VL 8336);
  VBin OAdd 2 8204 (VL 8208) (VL 8208);
  VShuf32 2 78 8340 (VL 8204); (* 177 *)
  VMov 2 8204 (VL 8340);
  VShuf32 2 78 8248 (VL 8228); (* 179 *)
  VShuf32 2 78 8244 (VL 8224); (* 180 *)
  VBin OMul32 2 8248 (VL 8248) (VC [19; 1]); (* 182 *)
  VBin OMul32 2 8244 (VL 8244) (VC [19; 1]); (* 183 *)
  VBin OMul32 2 8344 (VL 8248) (VL 8196); (* 184 *)
  VBin OAdd 2 8256 (VL 8256) (VL 8344);
  VBin OMul32 2 8348 (VL 8252) (VL 8196); (* 185 *)
  VBin OAdd 2 8260 (VL 8260) (VL 8348);
  VBin OMul32 2 8352 (VL 8248) (VL 8208);
  VBin OAdd 2 8260 (VL 8260) (VL 8352);
  VBin OMul32 2 8356 (VL 8252) (VL 8204); (* 186 *)
  VBin OAdd 2 8264 (VL 8264) (VL 8356);
  VBin OMul32 2 8360 (VL 8224) (VL 8192); (* 188 *)
  VBin OAdd 2 8272 (VL 8272) (VL 8360);
  VShuf32 2 68 8192 (VL 8292); (* 190 *)
  VShuf32 2 238 8196 (VL 8276); (* 191 *)
  VBin OAdd 2 8208 (VL 8196) (VL 8196); (* 192 *)
  VBin OAdd 2 8212 (VL 8208) (VL 8208); (* 193 *)
  VBlend32 2 3 8364 (VL 8196) (VL 8208); (* 194 *)
  VMov 2 8196 (VL 8364);
  VBlend32 2 12 8204 (VL 8208) (VL 8212); (* 195 *)
  VBlend32 2 3 8200 (VL 8208) (VL 8212); (* 196 *)
  VShuf32 2 78 8240 (VL 8220); (* 198 *)
  VShuf32 2 78 8236 (VL 8216); (* 199 *)
  VBin OMul32 2 8240 (VL 8240) (VC [19; 1]); (* 200 *)
  VBin OMul32 2 8236 (VL 8236) (VC [19; 1]); (* 201 *)
  VBin OMul32 2 8368 (VL 8236) (VL 8196); (* 202 *)
  VBin OAdd 2 8256 (VL 8256) (VL 8368);
  VBin OMul32 2 8372 (VL 8240) (VL 8204); (* 203 *)
  VBin OAdd 2 8260 (VL 8260) (VL 8372);
  VBin OMul32 2 8376 (VL 8244) (VL 8200); (* 204 *)
  VBin OAdd 2 8264 (VL 8264) (VL 8376);
  VBin OMul32 2 8380 (VL 8252) (VL 8192); (* 205 *)
  VBin OAdd 2 8268 (VL 8268) (VL 8380);
  VBin OMul32 2 8384 (VL 8248) (VL 8204);
  VBin OAdd 2 8268 (VL 8268) (VL 8384);
  VBin OMul32 2 8388 (VL 8252) (VL 8200); (* 206 *)
  VBin OAdd 2 8272 (VL 8272) (VL 8388);
  VShuf32 2 238 8192 (VL 8280); (* 208 *)
  VBin OAdd 2 8196 (VL 8192) (VL 8192);
  VShuf32 2 238 8208 (VL 8284); (* 209 *)
  VBin OAdd 2 8212 (VL 8208) (VL 8208);
  VBlend32 2 3 8392 (VL 8208) (VL 8212); (* 210 *)
  VMov 2 8208 (VL 8392);
  VBin OAdd 2 8204 (VL 8208) (VL 8208);
  VShuf32 2 78 8200 (VL 8204); (* 211 *)
  VShuf32 2 78 8232 (VL 8252); (* 213 *)
  VShuf32 2 78 8228 (VL 8248); (* 214 *)
  VBin OMul32 2 8232 (VL 8232) (VC [19; 1]); (* 215 *)
  VBin OMul32 2 8228 (VL 8228) (VC [19; 1]); (* 216 *)
  VBin OMul32 2 8396 (VL 8232) (VL 8196); (* 217 *)
  VBin OAdd 2 8256 (VL 8256) (VL 8396);
  VBin OMul32 2 8400 (VL 8228) (VL 8204);
  VBin OAdd 2 8256 (VL 8256) (VL 8400);
  VBin OMul32 2 8404 (VL 8232) (VL 8200); (* 218 *)
  VBin OAdd 2 8260 (VL 8260) (VL 8404);
  VBin OMul32 2 8408 (VL 8240) (VL 8192); (* 219 *)
  VBin OAdd 2 8264 (VL 8264) (VL 8408);
  VBin OMul32 2 8412 (VL 8244) (VL 8196); (* 220 *)
  VBin OAdd 2 8268 (VL 8268) (VL 8412);
  VBin OMul32 2 8416 (VL 8248) (VL 8196); (* 221 *)
  VBin OAdd 2 8272 (VL 8272) (VL 8416);
  VBin OMul32 2 8420 (VL 8244) (VL 8208);
  VBin OAdd 2 8272 (VL 8272) (VL 8420);
  VShuf32 2 238 8192 (VL 8288); (* 223 *)
  VBin OAdd 2 8196 (VL 8192) (VL 8192);
  VShuf32 2 238 8208 (VL 8292); (* 224 *)
  VBin OAdd 2 8212 (VL 8208) (VL 8208);
  VBlend32 2 12 8200 (VL 8208) (VL 8212); (* 225 *)
  VBin OMul32 2 8424 (VL 8228) (VL 8192); (* 228 *)
  VBin OAdd 2 8260 (VL 8260) (VL 8424);
  VBin OMul32 2 8428 (VL 8232) (VL 8196); (* 229 *)
  VBin OAdd 2 8264 (VL 8264) (VL 8428);
  VBin OMul32 2 8432 (VL 8232) (VL 8200); (* 230 *)
  VBin OAdd 2 8268 (VL 8268) (VL 8432);
  VShrv [26; 25] 8296 (VL 8256); (* 234 *)
  VBin OAnd 2 8256 (VL 8256) (VC [67108863; 33554431]); (* 235 *)
  VBin OAdd 2 8260 (VL 8260) (VL 8296); (* 236 *)
  VShrv [25; 26] 8300 (VL 8260); (* 238 *)
  VBin OAnd 2 8260 (VL 8260) (VC [33554431; 67108863]); (* 239 *)
  VBin OAdd 2 8264 (VL 8264) (VL 8300); (* 240 *)
  VShrv [26; 25] 8304 (VL 8264); (* 242 *)
  VBin OAnd 2 8264 (VL 8264) (VC [67108863; 33554431]); (* 243 *)
  VBin OAdd 2 8268 (VL 8268) (VL 8304); (* 244 *)
  VShrv [25; 26] 8308 (VL 8268); (* 246 *)
  VBin OAnd 2 8268 (VL 8268) (VC [33554431; 67108863]); (* 247 *)
  VBin OAdd 2 8272 (VL 8272) (VL 8308); (* 248 *)
  VShrv [26; 25] 8312 (VL 8272); (* 250 *)
  VBin OAnd 2 8272 (VL 8272) (VC [67108863; 33554431]); (* 251 *)
  VShlv [64; 4] 8436 (VL 8312); (* 253 *)
  VShlv [64; 1] 8440 (VL 8312);
  VBin OAdd 2 8444 (VL 8436) (VL 8440);
  VBin OAdd 2 8448 (VL 8444) (VL 8312);
  VShuf32 2 78 8312 (VL 8448);
  VBin OAdd 2 8256 (VL 8256) (VL 8312); (* 255 *)
  VShrv [26; 25] 8296 (VL 8256); (* 257 *)
  VBin OAnd 2 8256 (VL 8256) (VC [67108863; 33554431]); (* 258 *)
  VBin OAdd 2 8260 (VL 8260) (VL 8296); (* 259 *)
  VShrv [25; 26] 8300 (VL 8260); (* 261 *)
  VBin OAnd 2 8260 (VL 8260) (VC [33554431; 67108863]); (* 262 *)
  VBin OAdd 2 8264 (VL 8264) (VL 8300); (* 263 *)
  VMov 2 8216 (VL 8256); (* 265 *)
  VMov 2 8220 (VL 8260); (* 266 *)
  VMov 2 8224 (VL 8264); (* 267 *)
  VMov 2 8228 (VL 8268); (* 268 *)
  VMov 2 8232 (VL 8272); (* 269 *)
  VMov 2 1024 (VL 8216); (* 272 *)
  VMov 2 1026 (VL 8220); (* 273 *)
  VMov 2 1028 (VL 8224); (* 274 *)
  VMov 2 1030 (VL 8228); (* 275 *)
  VMov 2 1032 (VL 8232) (* 276 *)].

(** src/eltfp25519_1w_redradix.c:281 — from the words left in pA by modp *)
Definition v255_1w_unser_limbs : list vinstr := [
  VMov 2 8192 (VL 2048); (* 294 *)
  VMov 2 8196 (VL 2050); (* 295 *)
  VShr 1 48 8256 (VL 8192); (* 297 *)
  VShl 1 16 8260 (VL 8193);
  VBin OOr 1 8252 (VL 8256) (VL 8260);
  VShr 1 48 8253 (VL 8193);
  VShr 2 3 8224 (VL 8252);
  VShr 1 48 8268 (VL 8196); (* 298 *)
  VShl 1 16 8272 (VL 8197);
  VBin OOr 1 8264 (VL 8268) (VL 8272);
  VShr 1 48 8265 (VL 8197);
  VShr 2 3 8240 (VL 8264);
  VShr 1 32 8276 (VL 8193); (* 299 *)
  VMov 1 8277 (VC [0]);
  VShr 2 6 8232 (VL 8276);
  VShr 1 32 8280 (VL 8197); (* 300 *)
  VMov 1 8281 (VC [0]);
  VShr 2 6 8248 (VL 8280);
  VShr 2 26 8220 (VL 8192); (* 302 *)
  VShr 2 25 8236 (VL 8196); (* 303 *)
  VShr 2 26 8228 (VL 8224); (* 304 *)
  VShr 2 25 8244 (VL 8240); (* 305 *)
  VUnpkl 2 8200 (VL 8192) (VL 8196); (* 307 *)
  VUnpkl 2 8204 (VL 8220) (VL 8236); (* 308 *)
  VUnpkl 2 8208 (VL 8224) (VL 8240); (* 309 *)
  VUnpkl 2 8212 (VL 8228) (VL 8244); (* 310 *)
  VUnpkl 2 8216 (VL 8232) (VL 8248); (* 311 *)
  VBin OAnd 2 8200 (VL 8200) (VC [67108863; 33554431]); (* 313 *)
  VBin OAnd 2 8204 (VL 8204) (VC [33554431; 67108863]); (* 314 *)
  VBin OAnd 2 8208 (VL 8208) (VC [67108863; 33554431]); (* 315 *)
  VBin OAnd 2 8212 (VL 8212) (VC [33554431; 67108863]); (* 316 *)
  VBin OAnd 2 8216 (VL 8216) (VC [67108863; 33554431]); (* 317 *)
  VMov 2 1024 (VL 8200); (* 319 *)
  VMov 2 1026 (VL 8204); (* 320 *)
  VMov 2 1028 (VL 8208); (* 321 *)
  VMov 2 1030 (VL 8212); (* 322 *)
  VMov 2 1032 (VL 8216); (* 323 *)
  VMov 2 1034 (VC [0; 0]) (* 324 *)].

(** src/eltfp25519_1w_redradix.c:459 *)
Definition v255_1w_add : list vinstr := [
  VMov 4 8192 (VL 2048); (* 460 *)
  VMov 4 8196 (VL 2052); (* 461 *)
  VMov 4 8200 (VL 2056); (* 462 *)
  VMov 4 8204 (VL 3072); (* 464 *)
  VMov 4 8208 (VL 3076); (* 465 *)
  VMov 4 8212 (VL 3080); (* 466 *)
  VBin OAdd 4 8216 (VL 8192) (VL 8204); (* 468 *)
  VBin OAdd 4 8224 (VL 8196) (VL 8208); (* 469 *)
  VBin OAdd 4 8232 (VL 8200) (VL 8212); (* 470 *)
  VMov 4 1024 (VL 8216); (* 472 *)
  VMov 4 1028 (VL 8224); (* 473 *)
  VMov 4 1032 (VL 8232) (* 474 *)].

(** src/eltfp25519_1w_redradix.c:477 *)
Definition v255_1w_sub : list vinstr := [
  VMov 4 8192 (VL 2048); (* 482 *)
  VMov 4 8196 (VL 2052); (* 483 *)
  VMov 4 8200 (VL 2056); (* 484 *)
  VMov 4 8204 (VL 3072); (* 486 *)
  VMov 4 8208 (VL 3076); (* 487 *)
  VMov 4 8212 (VL 3080); (* 488 *)
  VBin OSub 4 8216 (VC [134217690; 67108862; 67108862; 134217726]) (VL 8204); (* 490 *)
  VBin OSub 4 8224 (VC [134217726; 67108862; 67108862; 134217726]) (VL 8208); (* 491 *)
  VBin OSub 4 8232 (VC [134217726; 67108862; 0; 0]) (VL 8212); (* 492 *)
  VBin OAdd 4 8216 (VL 8192) (VL 8216); (* 494 *)
  VBin OAdd 4 8224 (VL 8196) (VL 8224); (* 495 *)
  VBin OAdd 4 8232 (VL 8200) (VL 8232); (* 496 *)
  VMov 4 1024 (VL 8216); (* 498 *)
  VMov 4 1028 (VL 8224); (* 499 *)
  VMov 4 1032 (VL 8232) (* 500 *)].

(** src/eltfp25519_1w_redradix.c:503 *)
Definition v255_1w_addsub : list vinstr := [
  VMov 4 8192 (VL 1024); (* 511 *)
  VMov 4 8196 (VL 2048); (* 512 *)
  VBin OAdd 4 8200 (VL 8192) (VL 8196); (* 513 *)
  VBin OSub 4 8208 (VC [134217690; 67108862; 67108862; 134217726]) (VL 8196); (* 514 *)
  VBin OAdd 4 8212 (VL 8192) (VL 8208);
  VMov 4 1024 (VL 8200); (* 515 *)
  VMov 4 2048 (VL 8212); (* 516 *)
  VMov 4 8220 (VL 1028); (* 511 *)
  VMov 4 8224 (VL 2052); (* 512 *)
  VBin OAdd 4 8228 (VL 8220) (VL 8224); (* 513 *)
  VBin OSub 4 8236 (VC [134217726; 67108862; 67108862; 134217726]) (VL 8224); (* 514 *)
  VBin OAdd 4 8240 (VL 8220) (VL 8236);
  VMov 4 1028 (VL 8228); (* 515 *)
  VMov 4 2052 (VL 8240); (* 516 *)
  VMov 4 8248 (VL 1032); (* 511 *)
  VMov 4 8252 (VL 2056); (* 512 *)
  VBin OAdd 4 8256 (VL 8248) (VL 8252); (* 513 *)
  VBin OSub 4 8264 (VC [134217726; 67108862; 0; 0]) (VL 8252); (* 514 *)
  VBin OAdd 4 8268 (VL 8248) (VL 8264);
  VMov 4 1032 (VL 8256); (* 515 *)
  VMov 4 2056 (VL 8268) (* 516 *)].

(** src/eltfp25519_1w_redradix.c:520 *)
Definition v255_1w_neg : list vinstr := [
  VMov 4 8192 (VL 1024); (* 525 *)
  VMov 4 8196 (VL 1028); (* 526 *)
  VMov 4 8200 (VL 1032); (* 527 *)
  VBin OSub 4 8204 (VC [134217690; 67108862; 67108862; 134217726]) (VL 8192); (* 529 *)
  VBin OSub 4 8212 (VC [134217726; 67108862; 67108862; 134217726]) (VL 8196); (* 530 *)
  VBin OSub 4 8220 (VC [134217726; 67108862; 0; 0]) (VL 8200); (* 531 *)
  VMov 4 1024 (VL 8204); (* 533 *)
  VMov 4 1028 (VL 8212); (* 534 *)
  VMov 4 1032 (VL 8220) (* 535 *)].

(** src/eltfp25519_1w_redradix.c:538 *)
Definition v255_1w_intmul_sb : list vinstr := [
  VMov 4 8204 (VL 3072); (* 549 *)
  VMov 4 8208 (VL 3076); (* 550 *)
  VMov 4 8212 (VL 3080); (* 551 *)
  VPerm64 20 8216 (VL 8204); (* 553 *)
  VPerm64 190 8220 (VL 8204); (* 554 *)
  VPerm64 20 8224 (VL 8208); (* 555 *)
  VPerm64 190 8228 (VL 8208); (* 556 *)
  VPerm64 20 8232 (VL 8212); (* 557 *)
  VBin OMul32 4 8216 (VL 8216) (VC [1; 1; 19; 1]); (* 559 *)
  VBin OMul32 4 8220 (VL 8220) (VC [1; 1; 19; 1]); (* 560 *)
  VBin OMul32 4 8224 (VL 8224) (VC [1; 1; 19; 1]); (* 561 *)
  VBin OMul32 4 8228 (VL 8228) (VC [1; 1; 19; 1]); (* 562 *)
  VBin OMul32 4 8232 (VL 8232) (VC [1; 1; 19; 1]); (* 563 *)
  VPerm64 80 8192 (VL 2048); (* 565 *)
  VBin OAdd 4 8196 (VL 8192) (VL 8192); (* 566 *)
  VBlend32 4 48 8200 (VL 8192) (VL 8196); (* 567 *)
  VBlend32 4 192 8292 (VL 8192) (VL 8196); (* 568 *)
  VMov 4 8196 (VL 8292);
  VBin OMul32 4 8252 (VL 8216) (VL 8200); (* 570 *)
  VBin OMul32 4 8256 (VL 8220) (VL 8196); (* 571 *)
  VBin OMul32 4 8260 (VL 8224) (VL 8200); (* 572 *)
  VBin OMul32 4 8264 (VL 8228) (VL 8196); (* 573 *)
  VBin OMul32 4 8268 (VL 8232) (VL 8200); (* 574 *)
  VPerm64 250 8192 (VL 2048); (* 576 *)
  VBin OAdd 4 8196 (VL 8192) (VL 8192); (* 577 *)
  VBlend32 4 3 8200 (VL 8192) (VL 8196); (* 578 *)
  VBlend32 4 12 8296 (VL 8192) (VL 8196); (* 579 *)
  VMov 4 8196 (VL 8296);
  VShuf32 4 78 8248 (VL 8232); (* 581 *)
  VBin OMul32 4 8248 (VL 8248) (VC [19; 1; 19; 1]); (* 582 *)
  VBin OMul32 4 8300 (VL 8248) (VL 8200); (* 584 *)
  VBin OAdd 4 8252 (VL 8252) (VL 8300);
  VBin OMul32 4 8304 (VL 8216) (VL 8196); (* 585 *)
  VBin OAdd 4 8256 (VL 8256) (VL 8304);
  VBin OMul32 4 8308 (VL 8220) (VL 8200); (* 586 *)
  VBin OAdd 4 8260 (VL 8260) (VL 8308);
  VBin OMul32 4 8312 (VL 8224) (VL 8196); (* 587 *)
  VBin OAdd 4 8264 (VL 8264) (VL 8312);
  VBin OMul32 4 8316 (VL 8228) (VL 8200); (* 588 *)
  VBin OAdd 4 8268 (VL 8268) (VL 8316);
  VPerm64 80 8192 (VL 2052); (* 590 *)
  VBin OAdd 4 8196 (VL 8192) (VL 8192); (* 591 *)
  VBlend32 4 48 8200 (VL 8192) (VL 8196); (* 592 *)
  VBlend32 4 192 8320 (VL 8192) (VL 8196); (* 593 *)
  VMov 4 8196 (VL 8320);
  VShuf32 4 78 8244 (VL 8228); (* 595 *)
  VBin OMul32 4 8244 (VL 8244) (VC [19; 1; 19; 1]); (* 596 *)
  VBin OMul32 4 8324 (VL 8244) (VL 8200); (* 598 *)
  VBin OAdd 4 8252 (VL 8252) (VL 8324);
  VBin OMul32 4 8328 (VL 8248) (VL 8196); (* 599 *)
  VBin OAdd 4 8256 (VL 8256) (VL 8328);
  VBin OMul32 4 8332 (VL 8216) (VL 8200); (* 600 *)
  VBin OAdd 4 8260 (VL 8260) (VL 8332);
  VBin OMul32 4 8336 (VL 8220) (VL 8196); (* 601 *)
  VBin OAdd 4 8264 (VL 8264) (VL 8336);
  VBin OMul32 4 8340 (VL 8224) (VL 8200); (* 602 *)
  VBin OAdd 4 8268 (VL 8268) (VL 8340);
  VPerm64 250 8192 (VL 2052); (* 604 *)
  VBin OAdd 4 8196 (VL 8192) (VL 8192); (* 605 *)
  VBlend32 4 3 8200 (VL 8192) (VL 8196); (* 606 *)
  VBlend32 4 12 8344 (VL 8192) (VL 8196); (* 607 *)
  VMov 4 8196 (VL 8344);
  VShuf32 4 78 8240 (VL 8224); (* 609 *)
  VBin OMul32 4 8240 (VL 8240) (VC [19; 1; 19; 1]); (* 610 *)
  VBin OMul32 4 8348 (VL 8240) (VL 8200); (* 612 *)
  VBin OAdd 4 8252 (VL 8252) (VL 8348);
  VBin OMul32 4 8352 (VL 8244) (VL 8196); (* 613 *)
  VBin OAdd 4 8256 (VL 8256) (VL 8352);
  VBin OMul32 4 8356 (VL 8248) (VL 8200); (* 614 *)
  VBin OAdd 4 8260 (VL 8260) (VL 8356);
  VBin OMul32 4 8360 (VL 8216) (VL 8196); (* 615 *)
  VBin OAdd 4 8264 (VL 8264) (VL 8360);
  VBin OMul32 4 8364 (VL 8220) (VL 8200); (* 616 *)
  VBin OAdd 4 8268 (VL 8268) (VL 8364);
  VPerm64 80 8192 (VL 2056); (* 618 *)
  VBin OAdd 4 8196 (VL 8192) (VL 8192); (* 619 *)
  VBlend32 4 48 8200 (VL 8192) (VL 8196); (* 620 *)
  VBlend32 4 192 8368 (VL 8192) (VL 8196); (* 621 *)
  VMov 4 8196 (VL 8368);
  VShuf32 4 78 8236 (VL 8220); (* 623 *)
  VBin OMul32 4 8236 (VL 8236) (VC [19; 1; 19; 1]); (* 624 *)
  VBin OMul32 4 8372 (VL 8236) (VL 8200); (* 626 *)
  VBin OAdd 4 8252 (VL 8252) (VL 8372);
  VBin OMul32 4 8376 (VL 8240) (VL 8196); (* 627 *)
  VBin OAdd 4 8256 (VL 8256) (VL 8376);
  VBin OMul32 4 8380 (VL 8244) (VL 8200); (* 628 *)
  VBin OAdd 4 8260 (VL 8260) (VL 8380);
  VBin OMul32 4 8384 (VL 8248) (VL 8196); (* 629 *)
  VBin OAdd 4 8264 (VL 8264) (VL 8384);
  VBin OMul32 4 8388 (VL 8216) (VL 8200); (* 630 *)
  VBin OAdd 4 8268 (VL 8268) (VL 8388);
  VBin OAdd 2 8272 (VL 8254) (VL 8252); (* 632 *)
  VBin OAdd 2 8276 (VL 8258) (VL 8256); (* 633 *)
  VBin OAdd 2 8280 (VL 8262) (VL 8260); (* 634 *)
  VBin OAdd 2 8284 (VL 8266) (VL 8264); (* 635 *)
  VBin OAdd 2 8288 (VL 8270) (VL 8268); (* 636 *)
  VMov 2 8392 (VL 8272); (* 638 *)
  VInsr 1 8252 (VL 8392) (VL 8276);
  VMov 2 8396 (VL 8280); (* 639 *)
  VInsr 1 8256 (VL 8396) (VL 8284);
  VMov 2 8400 (VL 8288); (* 640 *)
  VMov 4 8260 (VL 8400);
  VMov 4 1024 (VL 8252); (* 642 *)
  VMov 4 1028 (VL 8256); (* 643 *)
  VMov 4 1032 (VL 8260) (* 644 *)].

(** src/eltfp25519_1w_redradix.c:660 *)
Definition v255_1w_copy : list vinstr := [
  VMov 4 1024 (VL 2048); (* 661 *)
  VMov 4 1028 (VL 2052); (* 662 *)
  VMov 4 1032 (VL 2056) (* 663 *)].

(** src/eltfp25519_1w_redradix.c:823 *)
Definition v255_1w_prime : list vinstr := [
  VMov 1 1024 (VC [67108845]); (* 824 *)
  VMov 1 1025 (VC [33554431]); (* 825 *)
  VMov 1 1026 (VC [33554431]); (* 826 *)
  VMov 1 1027 (VC [67108863]); (* 827 *)
  VMov 1 1028 (VC [67108863]); (* 828 *)
  VMov 1 1029 (VC [33554431]); (* 829 *)
  VMov 1 1030 (VC [33554431]); (* 830 *)
  VMov 1 1031 (VC [67108863]); (* 831 *)
  VMov 1 1032 (VC [67108863]); (* 832 *)
  VMov 1 1033 (VC [33554431]) (* 833 *)].

(** src/eltfp25519_1w_redradix.c:836 *)
Definition v255_1w_zero : list vinstr := [
  VMov 4 1024 (VC [0; 0; 0; 0]); (* 837 *)
  VMov 4 1028 (VC [0; 0; 0; 0]); (* 838 *)
  VMov 4 1032 (VC [0; 0; 0; 0]) (* 839 *)].

(** src/eltfp25519_1w_redradix.c:842 *)
Definition v255_1w_naddsub : list vinstr := [
  VMov 4 8192 (VL 3072); (* 850 *)
  VMov 4 8196 (VL 4096); (* 851 *)
  VBin OSub 4 8200 (VC [134217690; 67108862; 67108862; 134217726]) (VL 8192); (* 852 *)
  VBin OSub 4 8208 (VL 8200) (VL 8196); (* 853 *)
  VBin OAdd 4 8216 (VL 8200) (VL 8196); (* 854 *)
  VMov 4 1024 (VL 8208); (* 855 *)
  VMov 4 2048 (VL 8216); (* 856 *)
  VMov 4 8224 (VL 3076); (* 850 *)
  VMov 4 8228 (VL 4100); (* 851 *)
  VBin OSub 4 8232 (VC [134217726; 67108862; 67108862; 134217726]) (VL 8224); (* 852 *)
  VBin OSub 4 8240 (VL 8232) (VL 8228); (* 853 *)
  VBin OAdd 4 8248 (VL 8232) (VL 8228); (* 854 *)
  VMov 4 1028 (VL 8240); (* 855 *)
  VMov 4 2052 (VL 8248); (* 856 *)
  VMov 4 8256 (VL 3080); (* 850 *)
  VMov 4 8260 (VL 4104); (* 851 *)
  VBin OSub 4 8264 (VC [134217726; 67108862; 0; 0]) (VL 8256); (* 852 *)
  VBin OSub 4 8272 (VL 8264) (VL 8260); (* 853 *)
  VBin OAdd 4 8280 (VL 8264) (VL 8260); (* 854 *)
  VMov 4 1032 (VL 8272); (* 855 *)
  VMov 4 2056 (VL 8280) (* 856 *)].

(** src/eltfp25519_2w_redradix.c:24 *)
Definition v255_2w_copy : list vinstr := [
  VMov 4 1024 (VL 2048); (* 27 *)
  VMov 4 1028 (VL 2052);
  VMov 4 1032 (VL 2056);
  VMov 4 1036 (VL 2060);
  VMov 4 1040 (VL 2064)].

(** src/eltfp25519_2w_redradix.c:31 *)
Definition v255_2w_zero : list vinstr := [
  VMov 4 1024 (VC [0; 0; 0; 0]); (* 34 *)
  VMov 4 1028 (VC [0; 0; 0; 0]);
  VMov 4 1032 (VC [0; 0; 0; 0]);
  VMov 4 1036 (VC [0; 0; 0; 0]);
  VMov 4 1040 (VC [0; 0; 0; 0])].

(** src/eltfp25519_2w_redradix.c:44 *)
Definition v255_2w_inter : list vinstr := [
  VMov 4 8192 (VL 2048); (* 45 *)
  VMov 4 8196 (VL 2052); (* 46 *)
  VMov 4 8200 (VL 2056); (* 47 *)
  VMov 4 8204 (VL 3072); (* 48 *)
  VMov 4 8208 (VL 3076); (* 49 *)
  VMov 4 8212 (VL 3080); (* 50 *)
  VPerm128 32 1024 (VL 8192) (VL 8204); (* 52 *)
  VPerm128 49 1028 (VL 8192) (VL 8204); (* 53 *)
  VPerm128 32 1032 (VL 8196) (VL 8208); (* 54 *)
  VPerm128 49 1036 (VL 8196) (VL 8208); (* 55 *)
  VPerm128 32 1040 (VL 8200) (VL 8212) (* 56 *)].

(** src/eltfp25519_2w_redradix.c:65 *)
Definition v255_2w_deinter : list vinstr := [
  VPerm128 32 1024 (VL 3072) (VL 3076); (* 66 *)
  VPerm128 49 2048 (VL 3072) (VL 3076); (* 67 *)
  VPerm128 32 1028 (VL 3080) (VL 3084); (* 68 *)
  VPerm128 49 2052 (VL 3080) (VL 3084); (* 69 *)
  VMov 4 1032 (VL 3088); (* 70 *)
  VMov 2 8192 (VL 3090); (* 71 *)
  VMov 4 2056 (VL 8192)].

(** src/eltfp25519_2w_redradix.c:89 *)
Definition v255_2w_add : list vinstr := [
  VBin OAdd 4 1024 (VL 2048) (VL 3072); (* 92 *)
  VBin OAdd 4 1028 (VL 2052) (VL 3076);
  VBin OAdd 4 1032 (VL 2056) (VL 3080);
  VBin OAdd 4 1036 (VL 2060) (VL 3084);
  VBin OAdd 4 1040 (VL 2064) (VL 3088)].

(** src/eltfp25519_2w_redradix.c:118 *)
Definition v255_2w_sub : list vinstr := [
  VBin OSub 4 8192 (VC [134217690; 67108862; 134217690; 67108862]) (VL 3072); (* 122 *)
  VBin OAdd 4 1024 (VL 2048) (VL 8192);
  VBin OSub 4 8196 (VC [67108862; 134217726; 67108862; 134217726]) (VL 3076);
  VBin OAdd 4 1028 (VL 2052) (VL 8196);
  VBin OSub 4 8200 (VC [134217726; 67108862; 134217726; 67108862]) (VL 3080);
  VBin OAdd 4 1032 (VL 2056) (VL 8200);
  VBin OSub 4 8204 (VC [67108862; 134217726; 67108862; 134217726]) (VL 3084);
  VBin OAdd 4 1036 (VL 2060) (VL 8204);
  VBin OSub 4 8208 (VC [134217726; 67108862; 134217726; 67108862]) (VL 3088);
  VBin OAdd 4 1040 (VL 2064) (VL 8208)].

(** src/eltfp25519_2w_redradix.c:142 *)
Definition v255_2w_subadd0 : list vinstr := [
  VPerm64 78 8192 (VL 2048); (* 148 *)
  VMov 4 8196 (VL 2048); (* 150 *)
  VMov 4 8200 (VL 8192); (* 151 *)
  VBin OAdd 4 8204 (VL 8196) (VC [134217690; 67108862; 0; 0]); (* 156 *)
  VBin OXor 4 8208 (VL 8200) (VC [18446744073709551615; 18446744073709551615; 0; 0]);
  VBin OSub 4 8212 (VL 8208) (VC [18446744073709551615; 18446744073709551615; 0; 0]);
  VBin OAdd 4 1024 (VL 8204) (VL 8212);
  VPerm64 78 8216 (VL 2052); (* 148 *)
  VMov 4 8220 (VL 2052); (* 150 *)
  VMov 4 8224 (VL 8216); (* 151 *)
  VBin OAdd 4 8228 (VL 8220) (VC [67108862; 134217726; 0; 0]); (* 156 *)
  VBin OXor 4 8232 (VL 8224) (VC [18446744073709551615; 18446744073709551615; 0; 0]);
  VBin OSub 4 8236 (VL 8232) (VC [18446744073709551615; 18446744073709551615; 0; 0]);
  VBin OAdd 4 1028 (VL 8228) (VL 8236);
  VPerm64 78 8240 (VL 2056); (* 148 *)
  VMov 4 8244 (VL 2056); (* 150 *)
  VMov 4 8248 (VL 8240); (* 151 *)
  VBin OAdd 4 8252 (VL 8244) (VC [134217726; 67108862; 0; 0]); (* 156 *)
  VBin OXor 4 8256 (VL 8248) (VC [18446744073709551615; 18446744073709551615; 0; 0]);
  VBin OSub 4 8260 (VL 8256) (VC [18446744073709551615; 18446744073709551615; 0; 0]);
  VBin OAdd 4 1032 (VL 8252) (VL 8260);
  VPerm64 78 8264 (VL 2060); (* 148 *)
  VMov 4 8268 (VL 2060); (* 150 *)
  VMov 4 8272 (VL 8264); (* 151 *)
  VBin OAdd 4 8276 (VL 8268) (VC [67108862; 134217726; 0; 0]); (* 156 *)
  VBin OXor 4 8280 (VL 8272) (VC [18446744073709551615; 18446744073709551615; 0; 0]);
  VBin OSub 4 8284 (VL 8280) (VC [18446744073709551615; 18446744073709551615; 0; 0]);
  VBin OAdd 4 1036 (VL 8276) (VL 8284);
  VPerm64 78 8288 (VL 2064); (* 148 *)
  VMov 4 8292 (VL 2064); (* 150 *)
  VMov 4 8296 (VL 8288); (* 151 *)
  VBin OAdd 4 8300 (VL 8292) (VC [134217726; 67108862; 0; 0]); (* 156 *)
  VBin OXor 4 8304 (VL 8296) (VC [18446744073709551615; 18446744073709551615; 0; 0]);
  VBin OSub 4 8308 (VL 8304) (VC [18446744073709551615; 18446744073709551615; 0; 0]);
  VBin OAdd 4 1040 (VL 8300) (VL 8308)].

(** src/eltfp25519_2w_redradix.c:142 *)
Definition v255_2w_subadd1 : list vinstr := [
  VPerm64 78 8192 (VL 2048); (* 148 *)
  VMov 4 8196 (VL 2048); (* 153 *)
  VMov 4 8200 (VL 8192); (* 154 *)
  VBin OAdd 4 8204 (VL 8200) (VC [134217690; 67108862; 0; 0]); (* 156 *)
  VBin OXor 4 8208 (VL 8196) (VC [18446744073709551615; 18446744073709551615; 0; 0]);
  VBin OSub 4 8212 (VL 8208) (VC [18446744073709551615; 18446744073709551615; 0; 0]);
  VBin OAdd 4 1024 (VL 8204) (VL 8212);
  VPerm64 78 8216 (VL 2052); (* 148 *)
  VMov 4 8220 (VL 2052); (* 153 *)
  VMov 4 8224 (VL 8216); (* 154 *)
  VBin OAdd 4 8228 (VL 8224) (VC [67108862; 134217726; 0; 0]); (* 156 *)
  VBin OXor 4 8232 (VL 8220) (VC [18446744073709551615; 18446744073709551615; 0; 0]);
  VBin OSub 4 8236 (VL 8232) (VC [18446744073709551615; 18446744073709551615; 0; 0]);
  VBin OAdd 4 1028 (VL 8228) (VL 8236);
  VPerm64 78 8240 (VL 2056); (* 148 *)
  VMov 4 8244 (VL 2056); (* 153 *)
  VMov 4 8248 (VL 8240); (* 154 *)
  VBin OAdd 4 8252 (VL 8248) (VC [134217726; 67108862; 0; 0]); (* 156 *)
  VBin OXor 4 8256 (VL 8244) (VC [18446744073709551615; 18446744073709551615; 0; 0]);
  VBin OSub 4 8260 (VL 8256) (VC [18446744073709551615; 18446744073709551615; 0; 0]);
  VBin OAdd 4 1032 (VL 8252) (VL 8260);
  VPerm64 78 8264 (VL 2060); (* 148 *)
  VMov 4 8268 (VL 2060); (* 153 *)
  VMov 4 8272 (VL 8264); (* 154 *)
  VBin OAdd 4 8276 (VL 8272) (VC [67108862; 134217726; 0; 0]); (* 156 *)
  VBin OXor 4 8280 (VL 8268) (VC [18446744073709551615; 18446744073709551615; 0; 0]);
  VBin OSub 4 8284 (VL 8280) (VC [18446744073709551615; 18446744073709551615; 0; 0]);
  VBin OAdd 4 1036 (VL 8276) (VL 8284);
  VPerm64 78 8288 (VL 2064); (* 148 *)
  VMov 4 8292 (VL 2064); (* 153 *)
  VMov 4 8296 (VL 8288); (* 154 *)
  VBin OAdd 4 8300 (VL 8296) (VC [134217726; 67108862; 0; 0]); (* 156 *)
  VBin OXor 4 8304 (VL 8292) (VC [18446744073709551615; 18446744073709551615; 0; 0]);
  VBin OSub 4 8308 (VL 8304) (VC [18446744073709551615; 18446744073709551615; 0; 0]);
  VBin OAdd 4 1040 (VL 8300) (VL 8308)].

(** src/eltfp25519_2w_redradix.c:168 *)
Definition v255_2w_ngz : list vinstr := [
  VBin OXor 4 8192 (VL 2048) (VC [18446744073709551615; 18446744073709551615; 0; 0]); (* 173 *)
  VBin OSub 4 8196 (VL 8192) (VC [18446744073709551615; 18446744073709551615; 0; 0]);
  VBin OAdd 4 1024 (VC [134217690; 67108862; 0; 0]) (VL 8196);
  VBin OXor 4 8200 (VL 2052) (VC [18446744073709551615; 18446744073709551615; 0; 0]);
  VBin OSub 4 8204 (VL 8200) (VC [18446744073709551615; 18446744073709551615; 0; 0]);
  VBin OAdd 4 1028 (VC [67108862; 134217726; 0; 0]) (VL 8204);
  VBin OXor 4 8208 (VL 2056) (VC [18446744073709551615; 18446744073709551615; 0; 0]);
  VBin OSub 4 8212 (VL 8208) (VC [18446744073709551615; 18446744073709551615; 0; 0]);
  VBin OAdd 4 1032 (VC [134217726; 67108862; 0; 0]) (VL 8212);
  VBin OXor 4 8216 (VL 2060) (VC [18446744073709551615; 18446744073709551615; 0; 0]);
  VBin OSub 4 8220 (VL 8216) (VC [18446744073709551615; 18446744073709551615; 0; 0]);
  VBin OAdd 4 1036 (VC [67108862; 134217726; 0; 0]) (VL 8220);
  VBin OXor 4 8224 (VL 2064) (VC [18446744073709551615; 18446744073709551615; 0; 0]);
  VBin OSub 4 8228 (VL 8224) (VC [18446744073709551615; 18446744073709551615; 0; 0]);
  VBin OAdd 4 1040 (VC [134217726; 67108862; 0; 0]) (VL 8228)].

(** src/eltfp25519_2w_redradix.c:177 *)
Definition v255_2w_addsub : list vinstr := [
  VBin OAdd 4 8192 (VL 1024) (VL 2048); (* 182 *)
  VBin OSub 4 8200 (VC [134217690; 67108862; 134217690; 67108862]) (VL 2048); (* 183 *)
  VBin OAdd 4 8196 (VL 1024) (VL 8200);
  VMov 4 1024 (VL 8192); (* 184 *)
  VMov 4 2048 (VL 8196); (* 185 *)
  VBin OAdd 4 8192 (VL 1028) (VL 2052); (* 182 *)
  VBin OSub 4 8204 (VC [67108862; 134217726; 67108862; 134217726]) (VL 2052); (* 183 *)
  VBin OAdd 4 8196 (VL 1028) (VL 8204);
  VMov 4 1028 (VL 8192); (* 184 *)
  VMov 4 2052 (VL 8196); (* 185 *)
  VBin OAdd 4 8192 (VL 1032) (VL 2056); (* 182 *)
  VBin OSub 4 8208 (VC [134217726; 67108862; 134217726; 67108862]) (VL 2056); (* 183 *)
  VBin OAdd 4 8196 (VL 1032) (VL 8208);
  VMov 4 1032 (VL 8192); (* 184 *)
  VMov 4 2056 (VL 8196); (* 185 *)
  VBin OAdd 4 8192 (VL 1036) (VL 2060); (* 182 *)
  VBin OSub 4 8212 (VC [67108862; 134217726; 67108862; 134217726]) (VL 2060); (* 183 *)
  VBin OAdd 4 8196 (VL 1036) (VL 8212);
  VMov 4 1036 (VL 8192); (* 184 *)
  VMov 4 2060 (VL 8196); (* 185 *)
  VBin OAdd 4 8192 (VL 1040) (VL 2064); (* 182 *)
  VBin OSub 4 8216 (VC [134217726; 67108862; 134217726; 67108862]) (VL 2064); (* 183 *)
  VBin OAdd 4 8196 (VL 1040) (VL 8216);
  VMov 4 1040 (VL 8192); (* 184 *)
  VMov 4 2064 (VL 8196) (* 185 *)].

(** src/eltfp25519_2w_redradix.c:193 *)
Definition v255_2w_intmul2 : list vinstr := [
  VMov 4 8208 (VL 4096); (* 209 *)
  VMov 4 8212 (VL 4100); (* 210 *)
  VMov 4 8216 (VL 4104); (* 211 *)
  VMov 4 8220 (VL 4108); (* 212 *)
  VMov 4 8224 (VL 4112); (* 213 *)
  VBin OMul32 4 8248 (VL 8208) (VC [19; 19; 19; 19]); (* 215 *)
  VShufpd 4 5 8348 (VL 8248) (VL 8208);
  VMov 4 8228 (VL 8348);
  VBin OMul32 4 8252 (VL 8212) (VC [19; 19; 19; 19]); (* 216 *)
  VShufpd 4 5 8352 (VL 8252) (VL 8212);
  VMov 4 8232 (VL 8352);
  VBin OMul32 4 8256 (VL 8216) (VC [19; 19; 19; 19]); (* 217 *)
  VShufpd 4 5 8356 (VL 8256) (VL 8216);
  VMov 4 8236 (VL 8356);
  VBin OMul32 4 8260 (VL 8220) (VC [19; 19; 19; 19]); (* 218 *)
  VShufpd 4 5 8360 (VL 8260) (VL 8220);
  VMov 4 8240 (VL 8360);
  VBin OMul32 4 8264 (VL 8224) (VC [19; 19; 19; 19]); (* 219 *)
  VShufpd 4 5 8364 (VL 8264) (VL 8224);
  VMov 4 8244 (VL 8364);
  VShuf32 4 68 8192 (VL 3072); (* 221 *)
  VPerm64 10 8200 (VL 3072);
  VBin OMul32 4 8268 (VL 8208) (VL 8192); (* 222 *)
  VBin OMul32 4 8288 (VL 8208) (VL 8200);
  VBin OMul32 4 8272 (VL 8212) (VL 8192); (* 223 *)
  VBin OMul32 4 8292 (VL 8212) (VL 8200);
  VBin OMul32 4 8276 (VL 8216) (VL 8192); (* 224 *)
  VBin OMul32 4 8296 (VL 8216) (VL 8200);
  VBin OMul32 4 8280 (VL 8220) (VL 8192); (* 225 *)
  VBin OMul32 4 8300 (VL 8220) (VL 8200);
  VBin OMul32 4 8284 (VL 8224) (VL 8192); (* 226 *)
  VBin OMul32 4 8304 (VL 8224) (VL 8200);
  VShuf32 4 68 8192 (VL 3080); (* 228 *)
  VPerm64 10 8200 (VL 3080);
  VBin OMul32 4 8368 (VL 8240) (VL 8192); (* 229 *)
  VBin OAdd 4 8268 (VL 8268) (VL 8368);
  VBin OMul32 4 8372 (VL 8240) (VL 8200);
  VBin OAdd 4 8288 (VL 8288) (VL 8372);
  VBin OMul32 4 8376 (VL 8244) (VL 8192); (* 230 *)
  VBin OAdd 4 8272 (VL 8272) (VL 8376);
  VBin OMul32 4 8380 (VL 8244) (VL 8200);
  VBin OAdd 4 8292 (VL 8292) (VL 8380);
  VBin OMul32 4 8384 (VL 8208) (VL 8192); (* 231 *)
  VBin OAdd 4 8276 (VL 8276) (VL 8384);
  VBin OMul32 4 8388 (VL 8208) (VL 8200);
  VBin OAdd 4 8296 (VL 8296) (VL 8388);
  VBin OMul32 4 8392 (VL 8212) (VL 8192); (* 232 *)
  VBin OAdd 4 8280 (VL 8280) (VL 8392);
  VBin OMul32 4 8396 (VL 8212) (VL 8200);
  VBin OAdd 4 8300 (VL 8300) (VL 8396);
  VBin OMul32 4 8400 (VL 8216) (VL 8192); (* 233 *)
  VBin OAdd 4 8284 (VL 8284) (VL 8400);
  VBin OMul32 4 8404 (VL 8216) (VL 8200);
  VBin OAdd 4 8304 (VL 8304) (VL 8404);
  VShuf32 4 68 8192 (VL 3088); (* 235 *)
  VPerm64 10 8200 (VL 3088);
  VBin OMul32 4 8408 (VL 8232) (VL 8192); (* 236 *)
  VBin OAdd 4 8268 (VL 8268) (VL 8408);
  VBin OMul32 4 8412 (VL 8232) (VL 8200);
  VBin OAdd 4 8288 (VL 8288) (VL 8412);
  VBin OMul32 4 8416 (VL 8236) (VL 8192); (* 237 *)
  VBin OAdd 4 8272 (VL 8272) (VL 8416);
  VBin OMul32 4 8420 (VL 8236) (VL 8200);
  VBin OAdd 4 8292 (VL 8292) (VL 8420);
  VBin OMul32 4 8424 (VL 8240) (VL 8192); (* 238 *)
  VBin OAdd 4 8276 (VL 8276) (VL 8424);
  VBin OMul32 4 8428 (VL 8240) (VL 8200);
  VBin OAdd 4 8296 (VL 8296) (VL 8428);
  VBin OMul32 4 8432 (VL 8244) (VL 8192); (* 239 *)
  VBin OAdd 4 8280 (VL 8280) (VL 8432);
  VBin OMul32 4 8436 (VL 8244) (VL 8200);
  VBin OAdd 4 8300 (VL 8300) (VL 8436);
  VBin OMul32 4 8440 (VL 8208) (VL 8192); (* 240 *)
  VBin OAdd 4 8284 (VL 8284) (VL 8440);
  VBin OMul32 4 8444 (VL 8208) (VL 8200);
  VBin OAdd 4 8304 (VL 8304) (VL 8444);
  VShuf32 4 238 8192 (VL 3076); (* 242 *)
  VPerm64 95 8200 (VL 3076);
  VBin OMul32 4 8448 (VL 8264) (VL 8192); (* 243 *)
  VBin OAdd 4 8268 (VL 8268) (VL 8448);
  VBin OMul32 4 8452 (VL 8264) (VL 8200);
  VBin OAdd 4 8288 (VL 8288) (VL 8452);
  VBin OMul32 4 8456 (VL 8228) (VL 8192); (* 244 *)
  VBin OAdd 4 8272 (VL 8272) (VL 8456);
  VBin OMul32 4 8460 (VL 8228) (VL 8200);
  VBin OAdd 4 8292 (VL 8292) (VL 8460);
  VBin OMul32 4 8464 (VL 8232) (VL 8192); (* 245 *)
  VBin OAdd 4 8276 (VL 8276) (VL 8464);
  VBin OMul32 4 8468 (VL 8232) (VL 8200);
  VBin OAdd 4 8296 (VL 8296) (VL 8468);
  VBin OMul32 4 8472 (VL 8236) (VL 8192); (* 246 *)
  VBin OAdd 4 8280 (VL 8280) (VL 8472);
  VBin OMul32 4 8476 (VL 8236) (VL 8200);
  VBin OAdd 4 8300 (VL 8300) (VL 8476);
  VBin OMul32 4 8480 (VL 8240) (VL 8192); (* 247 *)
  VBin OAdd 4 8284 (VL 8284) (VL 8480);
  VBin OMul32 4 8484 (VL 8240) (VL 8200);
  VBin OAdd 4 8304 (VL 8304) (VL 8484);
  VShuf32 4 238 8192 (VL 3084); (* 249 *)
  VPerm64 95 8200 (VL 3084);
  VBin OMul32 4 8488 (VL 8256) (VL 8192); (* 250 *)
  VBin OAdd 4 8268 (VL 8268) (VL 8488);
  VBin OMul32 4 8492 (VL 8256) (VL 8200);
  VBin OAdd 4 8288 (VL 8288) (VL 8492);
  VBin OMul32 4 8496 (VL 8260) (VL 8192); (* 251 *)
  VBin OAdd 4 8272 (VL 8272) (VL 8496);
  VBin OMul32 4 8500 (VL 8260) (VL 8200);
  VBin OAdd 4 8292 (VL 8292) (VL 8500);
  VBin OMul32 4 8504 (VL 8264) (VL 8192); (* 252 *)
  VBin OAdd 4 8276 (VL 8276) (VL 8504);
  VBin OMul32 4 8508 (VL 8264) (VL 8200);
  VBin OAdd 4 8296 (VL 8296) (VL 8508);
  VBin OMul32 4 8512 (VL 8228) (VL 8192); (* 253 *)
  VBin OAdd 4 8280 (VL 8280) (VL 8512);
  VBin OMul32 4 8516 (VL 8228) (VL 8200);
  VBin OAdd 4 8300 (VL 8300) (VL 8516);
  VBin OMul32 4 8520 (VL 8232) (VL 8192); (* 254 *)
  VBin OAdd 4 8284 (VL 8284) (VL 8520);
  VBin OMul32 4 8524 (VL 8232) (VL 8200);
  VBin OAdd 4 8304 (VL 8304) (VL 8524);
  VMov 4 1024 (VL 8268); (* 256 *)
  VMov 4 2048 (VL 8288);
  VMov 4 1028 (VL 8272); (* 257 *)
  VMov 4 2052 (VL 8292);
  VMov 4 1032 (VL 8276); (* 258 *)
  VMov 4 2056 (VL 8296);
  VMov 4 1036 (VL 8280); (* 259 *)
  VMov 4 2060 (VL 8300);
  VMov 4 1040 (VL 8284); (* 260 *)
  VMov 4 2064 (VL 8304);
  VShuf32 4 68 8196 (VL 3076); (* 262 *)
  VPerm64 10 8204 (VL 3076);
  VBin OMul32 4 8308 (VL 8244) (VL 8196); (* 263 *)
  VBin OMul32 4 8328 (VL 8244) (VL 8204);
  VBin OMul32 4 8312 (VL 8208) (VL 8196); (* 264 *)
  VBin OMul32 4 8332 (VL 8208) (VL 8204);
  VBin OMul32 4 8316 (VL 8212) (VL 8196); (* 265 *)
  VBin OMul32 4 8336 (VL 8212) (VL 8204);
  VBin OMul32 4 8320 (VL 8216) (VL 8196); (* 266 *)
  VBin OMul32 4 8340 (VL 8216) (VL 8204);
  VBin OMul32 4 8324 (VL 8220) (VL 8196); (* 267 *)
  VBin OMul32 4 8344 (VL 8220) (VL 8204);
  VShuf32 4 68 8196 (VL 3084); (* 269 *)
  VPerm64 10 8204 (VL 3084);
  VBin OMul32 4 8528 (VL 8236) (VL 8196); (* 270 *)
  VBin OAdd 4 8308 (VL 8308) (VL 8528);
  VBin OMul32 4 8532 (VL 8236) (VL 8204);
  VBin OAdd 4 8328 (VL 8328) (VL 8532);
  VBin OMul32 4 8536 (VL 8240) (VL 8196); (* 271 *)
  VBin OAdd 4 8312 (VL 8312) (VL 8536);
  VBin OMul32 4 8540 (VL 8240) (VL 8204);
  VBin OAdd 4 8332 (VL 8332) (VL 8540);
  VBin OMul32 4 8544 (VL 8244) (VL 8196); (* 272 *)
  VBin OAdd 4 8316 (VL 8316) (VL 8544);
  VBin OMul32 4 8548 (VL 8244) (VL 8204);
  VBin OAdd 4 8336 (VL 8336) (VL 8548);
  VBin OMul32 4 8552 (VL 8208) (VL 8196); (* 273 *)
  VBin OAdd 4 8320 (VL 8320) (VL 8552);
  VBin OMul32 4 8556 (VL 8208) (VL 8204);
  VBin OAdd 4 8340 (VL 8340) (VL 8556);
  VBin OMul32 4 8560 (VL 8212) (VL 8196); (* 274 *)
  VBin OAdd 4 8324 (VL 8324) (VL 8560);
  VBin OMul32 4 8564 (VL 8212) (VL 8204);
  VBin OAdd 4 8344 (VL 8344) (VL 8564);
  VShuf32 4 238 8196 (VL 3072); (* 276 *)
  VPerm64 95 8204 (VL 3072);
  VBin OMul32 4 8568 (VL 8228) (VL 8196); (* 277 *)
  VBin OAdd 4 8308 (VL 8308) (VL 8568);
  VBin OMul32 4 8572 (VL 8228) (VL 8204);
  VBin OAdd 4 8328 (VL 8328) (VL 8572);
  VBin OMul32 4 8576 (VL 8232) (VL 8196); (* 278 *)
  VBin OAdd 4 8312 (VL 8312) (VL 8576);
  VBin OMul32 4 8580 (VL 8232) (VL 8204);
  VBin OAdd 4 8332 (VL 8332) (VL 8580);
  VBin OMul32 4 8584 (VL 8236) (VL 8196); (* 279 *)
  VBin OAdd 4 8316 (VL 8316) (VL 8584);
  VBin OMul32 4 8588 (VL 8236) (VL 8204);
  VBin OAdd 4 8336 (VL 8336) (VL 8588);
  VBin OMul32 4 8592 (VL 8240) (VL 8196); (* 280 *)
  VBin OAdd 4 8320 (VL 8320) (VL 8592);
  VBin OMul32 4 8596 (VL 8240) (VL 8204);
  VBin OAdd 4 8340 (VL 8340) (VL 8596);
  VBin OMul32 4 8600 (VL 8244) (VL 8196); (* 281 *)
  VBin OAdd 4 8324 (VL 8324) (VL 8600);
  VBin OMul32 4 8604 (VL 8244) (VL 8204);
  VBin OAdd 4 8344 (VL 8344) (VL 8604);
  VShuf32 4 238 8196 (VL 3080); (* 283 *)
  VPerm64 95 8204 (VL 3080);
  VBin OMul32 4 8608 (VL 8260) (VL 8196); (* 284 *)
  VBin OAdd 4 8308 (VL 8308) (VL 8608);
  VBin OMul32 4 8612 (VL 8260) (VL 8204);
  VBin OAdd 4 8328 (VL 8328) (VL 8612);
  VBin OMul32 4 8616 (VL 8264) (VL 8196); (* 285 *)
  VBin OAdd 4 8312 (VL 8312) (VL 8616);
  VBin OMul32 4 8620 (VL 8264) (VL 8204);
  VBin OAdd 4 8332 (VL 8332) (VL 8620);
  VBin OMul32 4 8624 (VL 8228) (VL 8196); (* 286 *)
  VBin OAdd 4 8316 (VL 8316) (VL 8624);
  VBin OMul32 4 8628 (VL 8228) (VL 8204);
  VBin OAdd 4 8336 (VL 8336) (VL 8628);
  VBin OMul32 4 8632 (VL 8232) (VL 8196); (* 287 *)
  VBin OAdd 4 8320 (VL 8320) (VL 8632);
  VBin OMul32 4 8636 (VL 8232) (VL 8204);
  VBin OAdd 4 8340 (VL 8340) (VL 8636);
  VBin OMul32 4 8640 (VL 8236) (VL 8196); (* 288 *)
  VBin OAdd 4 8324 (VL 8324) (VL 8640);
  VBin OMul32 4 8644 (VL 8236) (VL 8204);
  VBin OAdd 4 8344 (VL 8344) (VL 8644);
  VShuf32 4 238 8196 (VL 3088); (* 290 *)
  VPerm64 95 8204 (VL 3088);
  VBin OMul32 4 8648 (VL 8252) (VL 8196); (* 291 *)
  VBin OAdd 4 8308 (VL 8308) (VL 8648);
  VBin OMul32 4 8652 (VL 8252) (VL 8204);
  VBin OAdd 4 8328 (VL 8328) (VL 8652);
  VBin OMul32 4 8656 (VL 8256) (VL 8196); (* 292 *)
  VBin OAdd 4 8312 (VL 8312) (VL 8656);
  VBin OMul32 4 8660 (VL 8256) (VL 8204);
  VBin OAdd 4 8332 (VL 8332) (VL 8660);
  VBin OMul32 4 8664 (VL 8260) (VL 8196); (* 293 *)
  VBin OAdd 4 8316 (VL 8316) (VL 8664);
  VBin OMul32 4 8668 (VL 8260) (VL 8204);
  VBin OAdd 4 8336 (VL 8336) (VL 8668);
  VBin OMul32 4 8672 (VL 8264) (VL 8196); (* 294 *)
  VBin OAdd 4 8320 (VL 8320) (VL 8672);
  VBin OMul32 4 8676 (VL 8264) (VL 8204);
  VBin OAdd 4 8340 (VL 8340) (VL 8676);
  VBin OMul32 4 8680 (VL 8228) (VL 8196); (* 295 *)
  VBin OAdd 4 8324 (VL 8324) (VL 8680);
  VBin OMul32 4 8684 (VL 8228) (VL 8204);
  VBin OAdd 4 8344 (VL 8344) (VL 8684);
  VShlv [1; 0; 1; 0] 8688 (VL 8308); (* 297 *)
  VBin OAdd 4 1024 (VL 1024) (VL 8688);
  VShlv [1; 0; 1; 0] 8692 (VL 8328);
  VBin OAdd 4 2048 (VL 2048) (VL 8692);
  VShlv [0; 1; 0; 1] 8696 (VL 8312); (* 298 *)
  VBin OAdd 4 1028 (VL 1028) (VL 8696);
  VShlv [0; 1; 0; 1] 8700 (VL 8332);
  VBin OAdd 4 2052 (VL 2052) (VL 8700);
  VShlv [1; 0; 1; 0] 8704 (VL 8316); (* 299 *)
  VBin OAdd 4 1032 (VL 1032) (VL 8704);
  VShlv [1; 0; 1; 0] 8708 (VL 8336);
  VBin OAdd 4 2056 (VL 2056) (VL 8708);
  VShlv [0; 1; 0; 1] 8712 (VL 8320); (* 300 *)
  VBin OAdd 4 1036 (VL 1036) (VL 8712);
  VShlv [0; 1; 0; 1] 8716 (VL 8340);
  VBin OAdd 4 2060 (VL 2060) (VL 8716);
  VShlv [1; 0; 1; 0] 8720 (VL 8324); (* 301 *)
  VBin OAdd 4 1040 (VL 1040) (VL 8720);
  VShlv [1; 0; 1; 0] 8724 (VL 8344);
  VBin OAdd 4 2064 (VL 2064) (VL 8724)].

(** src/eltfp25519_2w_redradix.c:304 *)
Definition v255_2w_intmul : list vinstr := [
  VMov 4 8200 (VL 3072); (* 317 *)
  VMov 4 8204 (VL 3076); (* 318 *)
  VMov 4 8208 (VL 3080); (* 319 *)
  VMov 4 8212 (VL 3084); (* 320 *)
  VMov 4 8216 (VL 3088); (* 321 *)
  VBin OMul32 4 8256 (VL 8216) (VC [19; 19; 19; 19]); (* 323 *)
  VShufpd 4 5 8320 (VL 8256) (VL 8216);
  VMov 4 8236 (VL 8320);
  VBin OMul32 4 8252 (VL 8212) (VC [19; 19; 19; 19]); (* 324 *)
  VShufpd 4 5 8324 (VL 8252) (VL 8212);
  VMov 4 8232 (VL 8324);
  VBin OMul32 4 8248 (VL 8208) (VC [19; 19; 19; 19]); (* 325 *)
  VShufpd 4 5 8328 (VL 8248) (VL 8208);
  VMov 4 8228 (VL 8328);
  VBin OMul32 4 8244 (VL 8204) (VC [19; 19; 19; 19]); (* 326 *)
  VShufpd 4 5 8332 (VL 8244) (VL 8204);
  VMov 4 8224 (VL 8332);
  VBin OMul32 4 8240 (VL 8200) (VC [19; 19; 19; 19]); (* 327 *)
  VShufpd 4 5 8336 (VL 8240) (VL 8200);
  VMov 4 8220 (VL 8336);
  VShuf32 4 68 8192 (VL 2048); (* 329 *)
  VShuf32 4 68 8196 (VL 2052);
  VBin OMul32 4 8260 (VL 8200) (VL 8192); (* 330 *)
  VBin OMul32 4 8280 (VL 8236) (VL 8196);
  VBin OMul32 4 8264 (VL 8204) (VL 8192); (* 331 *)
  VBin OMul32 4 8284 (VL 8200) (VL 8196);
  VBin OMul32 4 8268 (VL 8208) (VL 8192); (* 332 *)
  VBin OMul32 4 8288 (VL 8204) (VL 8196);
  VBin OMul32 4 8272 (VL 8212) (VL 8192); (* 333 *)
  VBin OMul32 4 8292 (VL 8208) (VL 8196);
  VBin OMul32 4 8276 (VL 8216) (VL 8192); (* 334 *)
  VBin OMul32 4 8296 (VL 8212) (VL 8196);
  VShuf32 4 68 8192 (VL 2056); (* 336 *)
  VShuf32 4 68 8196 (VL 2060);
  VBin OMul32 4 8340 (VL 8232) (VL 8192); (* 337 *)
  VBin OAdd 4 8260 (VL 8260) (VL 8340);
  VBin OMul32 4 8344 (VL 8228) (VL 8196);
  VBin OAdd 4 8280 (VL 8280) (VL 8344);
  VBin OMul32 4 8348 (VL 8236) (VL 8192); (* 338 *)
  VBin OAdd 4 8264 (VL 8264) (VL 8348);
  VBin OMul32 4 8352 (VL 8232) (VL 8196);
  VBin OAdd 4 8284 (VL 8284) (VL 8352);
  VBin OMul32 4 8356 (VL 8200) (VL 8192); (* 339 *)
  VBin OAdd 4 8268 (VL 8268) (VL 8356);
  VBin OMul32 4 8360 (VL 8236) (VL 8196);
  VBin OAdd 4 8288 (VL 8288) (VL 8360);
  VBin OMul32 4 8364 (VL 8204) (VL 8192); (* 340 *)
  VBin OAdd 4 8272 (VL 8272) (VL 8364);
  VBin OMul32 4 8368 (VL 8200) (VL 8196);
  VBin OAdd 4 8292 (VL 8292) (VL 8368);
  VBin OMul32 4 8372 (VL 8208) (VL 8192); (* 341 *)
  VBin OAdd 4 8276 (VL 8276) (VL 8372);
  VBin OMul32 4 8376 (VL 8204) (VL 8196);
  VBin OAdd 4 8296 (VL 8296) (VL 8376);
  VShuf32 4 68 8192 (VL 2064); (* 343 *)
  VShuf32 4 238 8196 (VL 2048);
  VBin OMul32 4 8380 (VL 8224) (VL 8192); (* 344 *)
  VBin OAdd 4 8260 (VL 8260) (VL 8380);
  VBin OMul32 4 8384 (VL 8220) (VL 8196);
  VBin OAdd 4 8280 (VL 8280) (VL 8384);
  VBin OMul32 4 8388 (VL 8228) (VL 8192); (* 345 *)
  VBin OAdd 4 8264 (VL 8264) (VL 8388);
  VBin OMul32 4 8392 (VL 8224) (VL 8196);
  VBin OAdd 4 8284 (VL 8284) (VL 8392);
  VBin OMul32 4 8396 (VL 8232) (VL 8192); (* 346 *)
  VBin OAdd 4 8268 (VL 8268) (VL 8396);
  VBin OMul32 4 8400 (VL 8228) (VL 8196);
  VBin OAdd 4 8288 (VL 8288) (VL 8400);
  VBin OMul32 4 8404 (VL 8236) (VL 8192); (* 347 *)
  VBin OAdd 4 8272 (VL 8272) (VL 8404);
  VBin OMul32 4 8408 (VL 8232) (VL 8196);
  VBin OAdd 4 8292 (VL 8292) (VL 8408);
  VBin OMul32 4 8412 (VL 8200) (VL 8192); (* 348 *)
  VBin OAdd 4 8276 (VL 8276) (VL 8412);
  VBin OMul32 4 8416 (VL 8236) (VL 8196);
  VBin OAdd 4 8296 (VL 8296) (VL 8416);
  VShuf32 4 238 8192 (VL 2052); (* 350 *)
  VShuf32 4 238 8196 (VL 2056);
  VBin OMul32 4 8420 (VL 8256) (VL 8192); (* 351 *)
  VBin OAdd 4 8260 (VL 8260) (VL 8420);
  VBin OMul32 4 8424 (VL 8252) (VL 8196);
  VBin OAdd 4 8280 (VL 8280) (VL 8424);
  VBin OMul32 4 8428 (VL 8220) (VL 8192); (* 352 *)
  VBin OAdd 4 8264 (VL 8264) (VL 8428);
  VBin OMul32 4 8432 (VL 8256) (VL 8196);
  VBin OAdd 4 8284 (VL 8284) (VL 8432);
  VBin OMul32 4 8436 (VL 8224) (VL 8192); (* 353 *)
  VBin OAdd 4 8268 (VL 8268) (VL 8436);
  VBin OMul32 4 8440 (VL 8220) (VL 8196);
  VBin OAdd 4 8288 (VL 8288) (VL 8440);
  VBin OMul32 4 8444 (VL 8228) (VL 8192); (* 354 *)
  VBin OAdd 4 8272 (VL 8272) (VL 8444);
  VBin OMul32 4 8448 (VL 8224) (VL 8196);
  VBin OAdd 4 8292 (VL 8292) (VL 8448);
  VBin OMul32 4 8452 (VL 8232) (VL 8192); (* 355 *)
  VBin OAdd 4 8276 (VL 8276) (VL 8452);
  VBin OMul32 4 8456 (VL 8228) (VL 8196);
  VBin OAdd 4 8296 (VL 8296) (VL 8456);
  VShuf32 4 238 8192 (VL 2060); (* 357 *)
  VShuf32 4 238 8196 (VL 2064);
  VBin OMul32 4 8460 (VL 8248) (VL 8192); (* 358 *)
  VBin OAdd 4 8260 (VL 8260) (VL 8460);
  VBin OMul32 4 8464 (VL 8244) (VL 8196);
  VBin OAdd 4 8280 (VL 8280) (VL 8464);
  VBin OMul32 4 8468 (VL 8252) (VL 8192); (* 359 *)
  VBin OAdd 4 8264 (VL 8264) (VL 8468);
  VBin OMul32 4 8472 (VL 8248) (VL 8196);
  VBin OAdd 4 8284 (VL 8284) (VL 8472);
  VBin OMul32 4 8476 (VL 8256) (VL 8192); (* 360 *)
  VBin OAdd 4 8268 (VL 8268) (VL 8476);
  VBin OMul32 4 8480 (VL 8252) (VL 8196);
  VBin OAdd 4 8288 (VL 8288) (VL 8480);
  VBin OMul32 4 8484 (VL 8220) (VL 8192); (* 361 *)
  VBin OAdd 4 8272 (VL 8272) (VL 8484);
  VBin OMul32 4 8488 (VL 8256) (VL 8196);
  VBin OAdd 4 8292 (VL 8292) (VL 8488);
  VBin OMul32 4 8492 (VL 8224) (VL 8192); (* 362 *)
  VBin OAdd 4 8276 (VL 8276) (VL 8492);
  VBin OMul32 4 8496 (VL 8220) (VL 8196);
  VBin OAdd 4 8296 (VL 8296) (VL 8496);
  VShlv [1; 0; 1; 0] 8300 (VL 8280); (* 364 *)
  VShlv [0; 1; 0; 1] 8304 (VL 8284); (* 365 *)
  VShlv [1; 0; 1; 0] 8308 (VL 8288); (* 366 *)
  VShlv [0; 1; 0; 1] 8312 (VL 8292); (* 367 *)
  VShlv [1; 0; 1; 0] 8316 (VL 8296); (* 368 *)
  VBin OAdd 4 1024 (VL 8260) (VL 8300); (* 370 *)
  VBin OAdd 4 1028 (VL 8264) (VL 8304); (* 371 *)
  VBin OAdd 4 1032 (VL 8268) (VL 8308); (* 372 *)
  VBin OAdd 4 1036 (VL 8272) (VL 8312); (* 373 *)
  VBin OAdd 4 1040 (VL 8276) (VL 8316) (* 374 *)].

(** src/eltfp25519_2w_redradix.c:377 *)
Definition v255_2w_intsqr : list vinstr := [
  VMov 4 8208 (VL 1024); (* 390 *)
  VMov 4 8212 (VL 1028); (* 391 *)
  VMov 4 8216 (VL 1032); (* 392 *)
  VMov 4 8220 (VL 1036); (* 393 *)
  VMov 4 8224 (VL 1040); (* 394 *)
  VBin OMul32 4 8264 (VL 8224) (VC [19; 19; 19; 19]); (* 396 *)
  VShufpd 4 5 8328 (VL 8264) (VL 8224);
  VMov 4 8244 (VL 8328);
  VBin OMul32 4 8260 (VL 8220) (VC [19; 19; 19; 19]); (* 397 *)
  VShufpd 4 5 8332 (VL 8260) (VL 8220);
  VMov 4 8240 (VL 8332);
  VBin OMul32 4 8256 (VL 8216) (VC [19; 19; 19; 19]); (* 398 *)
  VShufpd 4 5 8336 (VL 8256) (VL 8216);
  VMov 4 8236 (VL 8336);
  VBin OMul32 4 8252 (VL 8212) (VC [19; 19; 19; 19]); (* 399 *)
  VShufpd 4 5 8340 (VL 8252) (VL 8212);
  VMov 4 8232 (VL 8340);
  VBin OMul32 4 8248 (VL 8208) (VC [19; 19; 19; 19]); (* 400 *)
  VShufpd 4 5 8344 (VL 8248) (VL 8208);
  VMov 4 8228 (VL 8344);
  VShuf32 4 68 8192 (VL 1024); (* 402 *)
  VShuf32 4 68 8196 (VL 1028);
  VBin OAdd 4 8200 (VL 8192) (VL 8192); (* 403 *)
  VBin OAdd 4 8204 (VL 8196) (VL 8196);
  VBin OMul32 4 8268 (VL 8208) (VL 8192); (* 404 *)
  VBin OMul32 4 8288 (VL 8244) (VL 8204);
  VBin OMul32 4 8272 (VL 8212) (VL 8200); (* 405 *)
  VBin OMul32 4 8276 (VL 8216) (VL 8200); (* 406 *)
  VBin OMul32 4 8296 (VL 8212) (VL 8196);
  VBin OMul32 4 8280 (VL 8220) (VL 8200); (* 407 *)
  VBin OMul32 4 8300 (VL 8216) (VL 8204);
  VBin OMul32 4 8284 (VL 8224) (VL 8200); (* 408 *)
  VBin OMul32 4 8304 (VL 8220) (VL 8204);
  VShuf32 4 68 8192 (VL 1032); (* 410 *)
  VShuf32 4 68 8196 (VL 1036);
  VBin OAdd 4 8200 (VL 8192) (VL 8192); (* 411 *)
  VBin OAdd 4 8204 (VL 8196) (VL 8196);
  VBin OMul32 4 8348 (VL 8240) (VL 8200); (* 412 *)
  VBin OAdd 4 8268 (VL 8268) (VL 8348);
  VBin OMul32 4 8352 (VL 8244) (VL 8200); (* 413 *)
  VBin OAdd 4 8272 (VL 8272) (VL 8352);
  VBin OMul32 4 8292 (VL 8240) (VL 8196);
  VBin OMul32 4 8356 (VL 8244) (VL 8204); (* 414 *)
  VBin OAdd 4 8296 (VL 8296) (VL 8356);
  VBin OMul32 4 8360 (VL 8216) (VL 8192); (* 416 *)
  VBin OAdd 4 8284 (VL 8284) (VL 8360);
  VShuf32 4 68 8192 (VL 1040); (* 418 *)
  VShuf32 4 238 8196 (VL 1024);
  VBin OAdd 4 8200 (VL 8192) (VL 8192); (* 419 *)
  VBin OAdd 4 8204 (VL 8196) (VL 8196);
  VBin OMul32 4 8364 (VL 8228) (VL 8196); (* 420 *)
  VBin OAdd 4 8288 (VL 8288) (VL 8364);
  VBin OMul32 4 8368 (VL 8232) (VL 8204); (* 421 *)
  VBin OAdd 4 8292 (VL 8292) (VL 8368);
  VBin OMul32 4 8372 (VL 8236) (VL 8204); (* 422 *)
  VBin OAdd 4 8296 (VL 8296) (VL 8372);
  VBin OMul32 4 8376 (VL 8244) (VL 8192); (* 423 *)
  VBin OAdd 4 8280 (VL 8280) (VL 8376);
  VBin OMul32 4 8380 (VL 8240) (VL 8204);
  VBin OAdd 4 8300 (VL 8300) (VL 8380);
  VBin OMul32 4 8384 (VL 8244) (VL 8204); (* 424 *)
  VBin OAdd 4 8304 (VL 8304) (VL 8384);
  VShuf32 4 238 8192 (VL 1028); (* 426 *)
  VShuf32 4 238 8196 (VL 1032);
  VBin OAdd 4 8200 (VL 8192) (VL 8192); (* 427 *)
  VBin OAdd 4 8204 (VL 8196) (VL 8196);
  VBin OMul32 4 8388 (VL 8264) (VL 8200); (* 428 *)
  VBin OAdd 4 8268 (VL 8268) (VL 8388);
  VBin OMul32 4 8392 (VL 8260) (VL 8204);
  VBin OAdd 4 8288 (VL 8288) (VL 8392);
  VBin OMul32 4 8396 (VL 8264) (VL 8204); (* 429 *)
  VBin OAdd 4 8292 (VL 8292) (VL 8396);
  VBin OMul32 4 8400 (VL 8232) (VL 8192); (* 430 *)
  VBin OAdd 4 8276 (VL 8276) (VL 8400);
  VBin OMul32 4 8404 (VL 8236) (VL 8200); (* 431 *)
  VBin OAdd 4 8280 (VL 8280) (VL 8404);
  VBin OMul32 4 8408 (VL 8240) (VL 8200); (* 432 *)
  VBin OAdd 4 8284 (VL 8284) (VL 8408);
  VBin OMul32 4 8412 (VL 8236) (VL 8196);
  VBin OAdd 4 8304 (VL 8304) (VL 8412);
  VShuf32 4 238 8192 (VL 1036); (* 434 *)
  VShuf32 4 238 8196 (VL 1040);
  VBin OAdd 4 8200 (VL 8192) (VL 8192); (* 435 *)
  VBin OMul32 4 8416 (VL 8260) (VL 8192); (* 437 *)
  VBin OAdd 4 8272 (VL 8272) (VL 8416);
  VBin OMul32 4 8420 (VL 8264) (VL 8200); (* 438 *)
  VBin OAdd 4 8276 (VL 8276) (VL 8420);
  VBin OMul32 4 8424 (VL 8264) (VL 8196); (* 439 *)
  VBin OAdd 4 8300 (VL 8300) (VL 8424);
  VShlv [1; 0; 1; 0] 8308 (VL 8288); (* 442 *)
  VShlv [0; 1; 0; 1] 8312 (VL 8292); (* 443 *)
  VShlv [1; 0; 1; 0] 8316 (VL 8296); (* 444 *)
  VShlv [0; 1; 0; 1] 8320 (VL 8300); (* 445 *)
  VShlv [1; 0; 1; 0] 8324 (VL 8304); (* 446 *)
  VBin OAdd 4 1024 (VL 8268) (VL 8308); (* 448 *)
  VBin OAdd 4 1028 (VL 8272) (VL 8312); (* 449 *)
  VBin OAdd 4 1032 (VL 8276) (VL 8316); (* 450 *)
  VBin OAdd 4 1036 (VL 8280) (VL 8320); (* 451 *)
  VBin OAdd 4 1040 (VL 8284) (VL 8324) (* 452 *)].

(** src/eltfp25519_2w_redradix.c:472 *)
Definition v255_2w_compress : list vinstr := [
  VMov 4 8192 (VL 1024); (* 478 *)
  VMov 4 8196 (VL 1028); (* 479 *)
  VMov 4 8200 (VL 1032); (* 480 *)
  VMov 4 8204 (VL 1036); (* 481 *)
  VMov 4 8208 (VL 1040); (* 482 *)
  VShrv [26; 25; 26; 25] 8212 (VL 8192); (* 486 *)
  VBin OAnd 4 8192 (VL 8192) (VC [67108863; 33554431; 67108863; 33554431]); (* 487 *)
  VBin OAdd 4 8196 (VL 8196) (VL 8212); (* 488 *)
  VShrv [25; 26; 25; 26] 8216 (VL 8196); (* 490 *)
  VBin OAnd 4 8196 (VL 8196) (VC [33554431; 67108863; 33554431; 67108863]); (* 491 *)
  VBin OAdd 4 8200 (VL 8200) (VL 8216); (* 492 *)
  VShrv [26; 25; 26; 25] 8220 (VL 8200); (* 494 *)
  VBin OAnd 4 8200 (VL 8200) (VC [67108863; 33554431; 67108863; 33554431]); (* 495 *)
  VBin OAdd 4 8204 (VL 8204) (VL 8220); (* 496 *)
  VShrv [25; 26; 25; 26] 8224 (VL 8204); (* 498 *)
  VBin OAnd 4 8204 (VL 8204) (VC [33554431; 67108863; 33554431; 67108863]); (* 499 *)
  VBin OAdd 4 8208 (VL 8208) (VL 8224); (* 500 *)
  VShrv [26; 25; 26; 25] 8228 (VL 8208); (* 502 *)
  VBin OAnd 4 8208 (VL 8208) (VC [67108863; 33554431; 67108863; 33554431]); (* 503 *)
  VShlv [64; 4; 64; 4] 8232 (VL 8228); (* 505 *)
  VShlv [64; 1; 64; 1] 8236 (VL 8228);
  VBin OAdd 4 8240 (VL 8232) (VL 8236);
  VBin OAdd 4 8244 (VL 8240) (VL 8228);
  VShuf32 4 78 8228 (VL 8244);
  VBin OAdd 4 8192 (VL 8192) (VL 8228); (* 507 *)
  VShrv [26; 25; 26; 25] 8212 (VL 8192); (* 509 *)
  VBin OAnd 4 8192 (VL 8192) (VC [67108863; 33554431; 67108863; 33554431]); (* 510 *)
  VBin OAdd 4 8196 (VL 8196) (VL 8212); (* 511 *)
  VMov 4 1024 (VL 8192); (* 513 *)
  VMov 4 1028 (VL 8196); (* 514 *)
  VMov 4 1032 (VL 8200); (* 515 *)
  VMov 4 1036 (VL 8204); (* 516 *)
  VMov 4 1040 (VL 8208) (* 517 *)].

(** src/eltfp25519_2w_redradix.c:520 *)
Definition v255_2w_compress2 : list vinstr := [
  VMov 4 8192 (VL 1024); (* 526 *)
  VMov 4 8196 (VL 2048); (* 527 *)
  VMov 4 8200 (VL 1028); (* 528 *)
  VMov 4 8204 (VL 2052); (* 529 *)
  VMov 4 8208 (VL 1032); (* 530 *)
  VMov 4 8212 (VL 2056); (* 531 *)
  VMov 4 8216 (VL 1036); (* 532 *)
  VMov 4 8220 (VL 2060); (* 533 *)
  VMov 4 8224 (VL 1040); (* 534 *)
  VMov 4 8228 (VL 2064); (* 535 *)
  VShrv [26; 25; 26; 25] 8232 (VL 8192); (* 540 *)
  VShrv [26; 25; 26; 25] 8252 (VL 8196); (* 541 *)
  VBin OAnd 4 8192 (VL 8192) (VC [67108863; 33554431; 67108863; 33554431]); (* 542 *)
  VBin OAnd 4 8196 (VL 8196) (VC [67108863; 33554431; 67108863; 33554431]); (* 543 *)
  VBin OAdd 4 8200 (VL 8200) (VL 8232); (* 544 *)
  VBin OAdd 4 8204 (VL 8204) (VL 8252); (* 545 *)
  VShrv [25; 26; 25; 26] 8236 (VL 8200); (* 547 *)
  VShrv [25; 26; 25; 26] 8256 (VL 8204); (* 548 *)
  VBin OAnd 4 8200 (VL 8200) (VC [33554431; 67108863; 33554431; 67108863]); (* 549 *)
  VBin OAnd 4 8204 (VL 8204) (VC [33554431; 67108863; 33554431; 67108863]); (* 550 *)
  VBin OAdd 4 8208 (VL 8208) (VL 8236); (* 551 *)
  VBin OAdd 4 8212 (VL 8212) (VL 8256); (* 552 *)
  VShrv [26; 25; 26; 25] 8240 (VL 8208); (* 554 *)
  VShrv [26; 25; 26; 25] 8260 (VL 8212); (* 555 *)
  VBin OAnd 4 8208 (VL 8208) (VC [67108863; 33554431; 67108863; 33554431]); (* 556 *)
  VBin OAnd 4 8212 (VL 8212) (VC [67108863; 33554431; 67108863; 33554431]); (* 557 *)
  VBin OAdd 4 8216 (VL 8216) (VL 8240); (* 558 *)
  VBin OAdd 4 8220 (VL 8220) (VL 8260); (* 559 *)
  VShrv [25; 26; 25; 26] 8244 (VL 8216); (* 561 *)
  VShrv [25; 26; 25; 26] 8264 (VL 8220); (* 562 *)
  VBin OAnd 4 8216 (VL 8216) (VC [33554431; 67108863; 33554431; 67108863]); (* 563 *)
  VBin OAnd 4 8220 (VL 8220) (VC [33554431; 67108863; 33554431; 67108863]); (* 564 *)
  VBin OAdd 4 8224 (VL 8224) (VL 8244); (* 565 *)
  VBin OAdd 4 8228 (VL 8228) (VL 8264); (* 566 *)
  VShrv [26; 25; 26; 25] 8248 (VL 8224); (* 568 *)
  VShrv [26; 25; 26; 25] 8268 (VL 8228); (* 569 *)
  VBin OAnd 4 8224 (VL 8224) (VC [67108863; 33554431; 67108863; 33554431]); (* 570 *)
  VBin OAnd 4 8228 (VL 8228) (VC [67108863; 33554431; 67108863; 33554431]); (* 571 *)
  VShlv [64; 4; 64; 4] 8272 (VL 8248); (* 573 *)
  VShlv [64; 1; 64; 1] 8276 (VL 8248);
  VBin OAdd 4 8280 (VL 8272) (VL 8276);
  VBin OAdd 4 8284 (VL 8280) (VL 8248);
  VShuf32 4 78 8248 (VL 8284);
  VShlv [64; 4; 64; 4] 8288 (VL 8268); (* 574 *)
  VShlv [64; 1; 64; 1] 8292 (VL 8268);
  VBin OAdd 4 8296 (VL 8288) (VL 8292);
  VBin OAdd 4 8300 (VL 8296) (VL 8268);
  VShuf32 4 78 8268 (VL 8300);
  VBin OAdd 4 8192 (VL 8192) (VL 8248); (* 576 *)
  VBin OAdd 4 8196 (VL 8196) (VL 8268); (* 577 *)
  VShrv [26; 25; 26; 25] 8232 (VL 8192); (* 579 *)
  VShrv [26; 25; 26; 25] 8252 (VL 8196); (* 580 *)
  VBin OAnd 4 8192 (VL 8192) (VC [67108863; 33554431; 67108863; 33554431]); (* 581 *)
  VBin OAnd 4 8196 (VL 8196) (VC [67108863; 33554431; 67108863; 33554431]); (* 582 *)
  VBin OAdd 4 8200 (VL 8200) (VL 8232); (* 583 *)
  VBin OAdd 4 8204 (VL 8204) (VL 8252); (* 584 *)
  VMov 4 1024 (VL 8192); (* 586 *)
  VMov 4 2048 (VL 8196); (* 587 *)
  VMov 4 1028 (VL 8200); (* 588 *)
  VMov 4 2052 (VL 8204); (* 589 *)
  VMov 4 1032 (VL 8208); (* 590 *)
  VMov 4 2056 (VL 8212); (* 591 *)
  VMov 4 1036 (VL 8216); (* 592 *)
  VMov 4 2060 (VL 8220); (* 593 *)
  VMov 4 1040 (VL 8224); (* 594 *)
  VMov 4 2064 (VL 8228) (* 595 *)].

(** src/eltfp25519_2w_redradix.c:598 *)
Definition v255_2w_compressfast : list vinstr := [
  VBin OAnd 4 8192 (VL 1024) (VC [67108863; 33554431; 67108863; 33554431]); (* 606 *)
  VBin OAnd 4 8196 (VL 1028) (VC [33554431; 67108863; 33554431; 67108863]); (* 607 *)
  VBin OAnd 4 8200 (VL 1032) (VC [67108863; 33554431; 67108863; 33554431]); (* 608 *)
  VBin OAnd 4 8204 (VL 1036) (VC [33554431; 67108863; 33554431; 67108863]); (* 609 *)
  VBin OAnd 4 8208 (VL 1040) (VC [67108863; 33554431; 67108863; 33554431]); (* 610 *)
  VShrv [26; 25; 26; 25] 8212 (VL 1024); (* 612 *)
  VShrv [25; 26; 25; 26] 8216 (VL 1028); (* 613 *)
  VShrv [26; 25; 26; 25] 8220 (VL 1032); (* 614 *)
  VShrv [25; 26; 25; 26] 8224 (VL 1036); (* 615 *)
  VShrv [26; 25; 26; 25] 8228 (VL 1040); (* 616 *)
  VShlv [64; 4; 64; 4] 8232 (VL 8228); (* 618 *)
  VShlv [64; 1; 64; 1] 8236 (VL 8228);
  VBin OAdd 4 8240 (VL 8232) (VL 8236);
  VBin OAdd 4 8244 (VL 8240) (VL 8228);
  VShuf32 4 78 8228 (VL 8244);
  VBin OAdd 4 1024 (VL 8192) (VL 8228); (* 620 *)
  VBin OAdd 4 1028 (VL 8196) (VL 8212); (* 621 *)
  VBin OAdd 4 1032 (VL 8200) (VL 8216); (* 622 *)
  VBin OAdd 4 1036 (VL 8204) (VL 8220); (* 623 *)
  VBin OAdd 4 1040 (VL 8208) (VL 8224) (* 624 *)].

(** src/eltfp25519_2w_redradix.c:629 *)
Definition v255_2w_neg : list vinstr := [
  VBin OSub 4 1024 (VC [134217690; 67108862; 134217690; 67108862]) (VL 1024); (* 633 *)
  VBin OSub 4 1028 (VC [67108862; 134217726; 67108862; 134217726]) (VL 1028);
  VBin OSub 4 1032 (VC [134217726; 67108862; 134217726; 67108862]) (VL 1032);
  VBin OSub 4 1036 (VC [67108862; 134217726; 67108862; 134217726]) (VL 1036);
  VBin OSub 4 1040 (VC [134217726; 67108862; 134217726; 67108862]) (VL 1040);
  VMov 4 8192 (VL 1024); (* 478 *)
  VMov 4 8196 (VL 1028); (* 479 *)
  VMov 4 8200 (VL 1032); (* 480 *)
  VMov 4 8204 (VL 1036); (* 481 *)
  VMov 4 8208 (VL 1040); (* 482 *)
  VShrv [26; 25; 26; 25] 8212 (VL 8192); (* 486 *)
  VBin OAnd 4 8192 (VL 8192) (VC [67108863; 33554431; 67108863; 33554431]); (* 487 *)
  VBin OAdd 4 8196 (VL 8196) (VL 8212); (* 488 *)
  VShrv [25; 26; 25; 26] 8216 (VL 8196); (* 490 *)
  VBin OAnd 4 8196 (VL 8196) (VC [33554431; 67108863; 33554431; 67108863]); (* 491 *)
  VBin OAdd 4 8200 (VL 8200) (VL 8216); (* 492 *)
  VShrv [26; 25; 26; 25] 8220 (VL 8200); (* 494 *)
  VBin OAnd 4 8200 (VL 8200) (VC [67108863; 33554431; 67108863; 33554431]); (* 495 *)
  VBin OAdd 4 8204 (VL 8204) (VL 8220); (* 496 *)
  VShrv [25; 26; 25; 26] 8224 (VL 8204); (* 498 *)
  VBin OAnd 4 8204 (VL 8204) (VC [33554431; 67108863; 33554431; 67108863]); (* 499 *)
  VBin OAdd 4 8208 (VL 8208) (VL 8224); (* 500 *)
  VShrv [26; 25; 26; 25] 8228 (VL 8208); (* 502 *)
  VBin OAnd 4 8208 (VL 8208) (VC [67108863; 33554431; 67108863; 33554431]); (* 503 *)
  VShlv [64; 4; 64; 4] 8232 (VL 8228); (* 505 *)
  VShlv [64; 1; 64; 1] 8236 (VL 8228);
  VBin OAdd 4 8240 (VL 8232) (VL 8236);
  VBin OAdd 4 8244 (VL 8240) (VL 8228);
  VShuf32 4 78 8228 (VL 8244);
  VBin OAdd 4 8192 (VL 8192) (VL 8228); (* 507 *)
  VShrv [26; 25; 26; 25] 8212 (VL 8192); (* 509 *)
  VBin OAnd 4 8192 (VL 8192) (VC [67108863; 33554431; 67108863; 33554431]); (* 510 *)
  VBin OAdd 4 8196 (VL 8196) (VL 8212); (* 511 *)
  VMov 4 1024 (VL 8192); (* 513 *)
  VMov 4 1028 (VL 8196); (* 514 *)
  VMov 4 1032 (VL 8200); (* 515 *)
  VMov 4 1036 (VL 8204); (* 516 *)
  VMov 4 1040 (VL 8208) (* 517 *)].

(** src/eltfp25519_2w_redradix.c:707 *)
Definition v255_2w_naddsub : list vinstr := [
  VBin OSub 4 8192 (VC [134217690; 67108862; 134217690; 67108862]) (VL 3072); (* 713 *)
  VBin OSub 4 1024 (VL 8192) (VL 4096); (* 714 *)
  VBin OAdd 4 2048 (VL 8192) (VL 4096); (* 715 *)
  VBin OSub 4 8200 (VC [67108862; 134217726; 67108862; 134217726]) (VL 3076); (* 713 *)
  VBin OSub 4 1028 (VL 8200) (VL 4100); (* 714 *)
  VBin OAdd 4 2052 (VL 8200) (VL 4100); (* 715 *)
  VBin OSub 4 8208 (VC [134217726; 67108862; 134217726; 67108862]) (VL 3080); (* 713 *)
  VBin OSub 4 1032 (VL 8208) (VL 4104); (* 714 *)
  VBin OAdd 4 2056 (VL 8208) (VL 4104); (* 715 *)
  VBin OSub 4 8216 (VC [67108862; 134217726; 67108862; 134217726]) (VL 3084); (* 713 *)
  VBin OSub 4 1036 (VL 8216) (VL 4108); (* 714 *)
  VBin OAdd 4 2060 (VL 8216) (VL 4108); (* 715 *)
  VBin OSub 4 8224 (VC [134217726; 67108862; 134217726; 67108862]) (VL 3088); (* 713 *)
  VBin OSub 4 1040 (VL 8224) (VL 4112); (* 714 *)
  VBin OAdd 4 2064 (VL 8224) (VL 4112) (* 715 *)].

(** src/eltfp25519_4w_redradix.c:44 *)
Definition v255_4w_copy : list vinstr := [
  VMov 4 1024 (VL 2048); (* 47 *)
  VMov 4 1028 (VL 2052);
  VMov 4 1032 (VL 2056);
  VMov 4 1036 (VL 2060);
  VMov 4 1040 (VL 2064);
  VMov 4 1044 (VL 2068);
  VMov 4 1048 (VL 2072);
  VMov 4 1052 (VL 2076);
  VMov 4 1056 (VL 2080);
  VMov 4 1060 (VL 2084)].

(** src/eltfp25519_4w_redradix.c:51 *)
Definition v255_4w_zero : list vinstr := [
  VMov 4 1024 (VC [0; 0; 0; 0]); (* 54 *)
  VMov 4 1028 (VC [0; 0; 0; 0]);
  VMov 4 1032 (VC [0; 0; 0; 0]);
  VMov 4 1036 (VC [0; 0; 0; 0]);
  VMov 4 1040 (VC [0; 0; 0; 0]);
  VMov 4 1044 (VC [0; 0; 0; 0]);
  VMov 4 1048 (VC [0; 0; 0; 0]);
  VMov 4 1052 (VC [0; 0; 0; 0]);
  VMov 4 1056 (VC [0; 0; 0; 0]);
  VMov 4 1060 (VC [0; 0; 0; 0])].

(** src/eltfp25519_4w_redradix.c:58 *)
Definition v255_4w_zip : list vinstr := [
  VMov 4 8192 (VL 2048); (* 66 *)
  VMov 4 8196 (VL 3072); (* 67 *)
  VMov 4 8200 (VL 4096); (* 68 *)
  VMov 4 8204 (VL 5120); (* 69 *)
  VPerm128 32 8208 (VL 8192) (VL 8200); (* 71 *)
  VPerm128 32 8212 (VL 8196) (VL 8204); (* 72 *)
  VPerm128 49 8216 (VL 8192) (VL 8200); (* 73 *)
  VPerm128 49 8220 (VL 8196) (VL 8204); (* 74 *)
  VUnpkl 4 1024 (VL 8208) (VL 8212); (* 76 *)
  VUnpkh 4 1028 (VL 8208) (VL 8212); (* 77 *)
  VUnpkl 4 1032 (VL 8216) (VL 8220); (* 78 *)
  VUnpkh 4 1036 (VL 8216) (VL 8220); (* 79 *)
  VMov 4 8224 (VL 2052); (* 81 *)
  VMov 4 8228 (VL 3076); (* 82 *)
  VMov 4 8232 (VL 4100); (* 83 *)
  VMov 4 8236 (VL 5124); (* 84 *)
  VPerm128 32 8240 (VL 8224) (VL 8232); (* 86 *)
  VPerm128 32 8244 (VL 8228) (VL 8236); (* 87 *)
  VPerm128 49 8248 (VL 8224) (VL 8232); (* 88 *)
  VPerm128 49 8252 (VL 8228) (VL 8236); (* 89 *)
  VUnpkl 4 1040 (VL 8240) (VL 8244); (* 91 *)
  VUnpkh 4 1044 (VL 8240) (VL 8244); (* 92 *)
  VUnpkl 4 1048 (VL 8248) (VL 8252); (* 93 *)
  VUnpkh 4 1052 (VL 8248) (VL 8252); (* 94 *)
  VMov 4 8256 (VL 2056); (* 96 *)
  VMov 4 8260 (VL 3080); (* 97 *)
  VMov 4 8264 (VL 4104); (* 98 *)
  VMov 4 8268 (VL 5128); (* 99 *)
  VPerm128 32 8272 (VL 8256) (VL 8264); (* 101 *)
  VPerm128 32 8276 (VL 8260) (VL 8268); (* 102 *)
  VUnpkl 4 1056 (VL 8272) (VL 8276); (* 104 *)
  VUnpkh 4 1060 (VL 8272) (VL 8276) (* 105 *)].

(** src/eltfp25519_4w_redradix.c:108 *)
Definition v255_4w_unzip : list vinstr := [
  VPerm128 32 8192 (VL 5120) (VL 5128); (* 112 *)
  VPerm128 32 8196 (VL 5124) (VL 5132); (* 113 *)
  VPerm128 49 8200 (VL 5120) (VL 5128); (* 114 *)
  VPerm128 49 8204 (VL 5124) (VL 5132); (* 115 *)
  VUnpkl 4 8208 (VL 8192) (VL 8196); (* 116 *)
  VUnpkh 4 8212 (VL 8192) (VL 8196); (* 117 *)
  VUnpkl 4 8216 (VL 8200) (VL 8204); (* 118 *)
  VUnpkh 4 8220 (VL 8200) (VL 8204); (* 119 *)
  VMov 4 1024 (VL 8208); (* 121 *)
  VMov 4 2048 (VL 8212); (* 122 *)
  VMov 4 3072 (VL 8216); (* 123 *)
  VMov 4 4096 (VL 8220); (* 124 *)
  VPerm128 32 8224 (VL 5136) (VL 5144); (* 126 *)
  VPerm128 32 8228 (VL 5140) (VL 5148); (* 127 *)
  VPerm128 49 8232 (VL 5136) (VL 5144); (* 128 *)
  VPerm128 49 8236 (VL 5140) (VL 5148); (* 129 *)
  VUnpkl 4 8240 (VL 8224) (VL 8228); (* 130 *)
  VUnpkh 4 8244 (VL 8224) (VL 8228); (* 131 *)
  VUnpkl 4 8248 (VL 8232) (VL 8236); (* 132 *)
  VUnpkh 4 8252 (VL 8232) (VL 8236); (* 133 *)
  VMov 4 1028 (VL 8240); (* 135 *)
  VMov 4 2052 (VL 8244); (* 136 *)
  VMov 4 3076 (VL 8248); (* 137 *)
  VMov 4 4100 (VL 8252); (* 138 *)
  VUnpkl 4 8256 (VL 5152) (VL 5156); (* 140 *)
  VUnpkh 4 8260 (VL 5152) (VL 5156); (* 141 *)
  VMov 2 8264 (VL 8256); (* 143 *)
  VMov 4 1032 (VL 8264);
  VMov 2 8268 (VL 8260); (* 144 *)
  VMov 4 2056 (VL 8268);
  VMov 2 8272 (VL 8258); (* 145 *)
  VMov 4 3080 (VL 8272);
  VMov 2 8276 (VL 8262); (* 146 *)
  VMov 4 4104 (VL 8276)].

(** src/eltfp25519_4w_redradix.c:149 *)
Definition v255_4w_add : list vinstr := [
  VBin OAdd 4 1024 (VL 2048) (VL 3072); (* 153 *)
  VBin OAdd 4 1028 (VL 2052) (VL 3076);
  VBin OAdd 4 1032 (VL 2056) (VL 3080);
  VBin OAdd 4 1036 (VL 2060) (VL 3084);
  VBin OAdd 4 1040 (VL 2064) (VL 3088);
  VBin OAdd 4 1044 (VL 2068) (VL 3092);
  VBin OAdd 4 1048 (VL 2072) (VL 3096);
  VBin OAdd 4 1052 (VL 2076) (VL 3100);
  VBin OAdd 4 1056 (VL 2080) (VL 3104);
  VBin OAdd 4 1060 (VL 2084) (VL 3108)].

(** src/eltfp25519_4w_redradix.c:157 *)
Definition v255_4w_sub : list vinstr := [
  VBin OSub 4 8192 (VC [134217690; 134217690; 134217690; 134217690]) (VL 3072); (* 168 *)
  VBin OAdd 4 1024 (VL 2048) (VL 8192);
  VBin OSub 4 8196 (VC [67108862; 67108862; 67108862; 67108862]) (VL 3076);
  VBin OAdd 4 1028 (VL 2052) (VL 8196);
  VBin OSub 4 8200 (VC [67108862; 67108862; 67108862; 67108862]) (VL 3080);
  VBin OAdd 4 1032 (VL 2056) (VL 8200);
  VBin OSub 4 8204 (VC [134217726; 134217726; 134217726; 134217726]) (VL 3084);
  VBin OAdd 4 1036 (VL 2060) (VL 8204);
  VBin OSub 4 8208 (VC [134217726; 134217726; 134217726; 134217726]) (VL 3088);
  VBin OAdd 4 1040 (VL 2064) (VL 8208);
  VBin OSub 4 8212 (VC [67108862; 67108862; 67108862; 67108862]) (VL 3092);
  VBin OAdd 4 1044 (VL 2068) (VL 8212);
  VBin OSub 4 8216 (VC [67108862; 67108862; 67108862; 67108862]) (VL 3096);
  VBin OAdd 4 1048 (VL 2072) (VL 8216);
  VBin OSub 4 8220 (VC [134217726; 134217726; 134217726; 134217726]) (VL 3100);
  VBin OAdd 4 1052 (VL 2076) (VL 8220);
  VBin OSub 4 8224 (VC [134217726; 134217726; 134217726; 134217726]) (VL 3104);
  VBin OAdd 4 1056 (VL 2080) (VL 8224);
  VBin OSub 4 8228 (VC [67108862; 67108862; 67108862; 67108862]) (VL 3108);
  VBin OAdd 4 1060 (VL 2084) (VL 8228)].

(** src/eltfp25519_4w_redradix.c:172 *)
Definition v255_4w_neg : list vinstr := [
  VBin OSub 4 1024 (VC [134217690; 134217690; 134217690; 134217690]) (VL 1024); (* 182 *)
  VBin OSub 4 1028 (VC [67108862; 67108862; 67108862; 67108862]) (VL 1028);
  VBin OSub 4 1032 (VC [67108862; 67108862; 67108862; 67108862]) (VL 1032);
  VBin OSub 4 1036 (VC [134217726; 134217726; 134217726; 134217726]) (VL 1036);
  VBin OSub 4 1040 (VC [134217726; 134217726; 134217726; 134217726]) (VL 1040);
  VBin OSub 4 1044 (VC [67108862; 67108862; 67108862; 67108862]) (VL 1044);
  VBin OSub 4 1048 (VC [67108862; 67108862; 67108862; 67108862]) (VL 1048);
  VBin OSub 4 1052 (VC [134217726; 134217726; 134217726; 134217726]) (VL 1052);
  VBin OSub 4 1056 (VC [134217726; 134217726; 134217726; 134217726]) (VL 1056);
  VBin OSub 4 1060 (VC [67108862; 67108862; 67108862; 67108862]) (VL 1060)].

(** src/eltfp25519_4w_redradix.c:186 *)
Definition v255_4w_addsub : list vinstr := [
  VBin OAdd 4 1024 (VL 3072) (VL 4096); (* 197 *)
  VBin OSub 4 8192 (VC [134217690; 134217690; 134217690; 134217690]) (VL 4096); (* 198 *)
  VBin OAdd 4 2048 (VL 3072) (VL 8192);
  VBin OAdd 4 1028 (VL 3076) (VL 4100); (* 197 *)
  VBin OSub 4 8196 (VC [67108862; 67108862; 67108862; 67108862]) (VL 4100); (* 198 *)
  VBin OAdd 4 2052 (VL 3076) (VL 8196);
  VBin OAdd 4 1032 (VL 3080) (VL 4104); (* 197 *)
  VBin OSub 4 8200 (VC [67108862; 67108862; 67108862; 67108862]) (VL 4104); (* 198 *)
  VBin OAdd 4 2056 (VL 3080) (VL 8200);
  VBin OAdd 4 1036 (VL 3084) (VL 4108); (* 197 *)
  VBin OSub 4 8204 (VC [134217726; 134217726; 134217726; 134217726]) (VL 4108); (* 198 *)
  VBin OAdd 4 2060 (VL 3084) (VL 8204);
  VBin OAdd 4 1040 (VL 3088) (VL 4112); (* 197 *)
  VBin OSub 4 8208 (VC [134217726; 134217726; 134217726; 134217726]) (VL 4112); (* 198 *)
  VBin OAdd 4 2064 (VL 3088) (VL 8208);
  VBin OAdd 4 1044 (VL 3092) (VL 4116); (* 197 *)
  VBin OSub 4 8212 (VC [67108862; 67108862; 67108862; 67108862]) (VL 4116); (* 198 *)
  VBin OAdd 4 2068 (VL 3092) (VL 8212);
  VBin OAdd 4 1048 (VL 3096) (VL 4120); (* 197 *)
  VBin OSub 4 8216 (VC [67108862; 67108862; 67108862; 67108862]) (VL 4120); (* 198 *)
  VBin OAdd 4 2072 (VL 3096) (VL 8216);
  VBin OAdd 4 1052 (VL 3100) (VL 4124); (* 197 *)
  VBin OSub 4 8220 (VC [134217726; 134217726; 134217726; 134217726]) (VL 4124); (* 198 *)
  VBin OAdd 4 2076 (VL 3100) (VL 8220);
  VBin OAdd 4 1056 (VL 3104) (VL 4128); (* 197 *)
  VBin OSub 4 8224 (VC [134217726; 134217726; 134217726; 134217726]) (VL 4128); (* 198 *)
  VBin OAdd 4 2080 (VL 3104) (VL 8224);
  VBin OAdd 4 1060 (VL 3108) (VL 4132); (* 197 *)
  VBin OSub 4 8228 (VC [67108862; 67108862; 67108862; 67108862]) (VL 4132); (* 198 *)
  VBin OAdd 4 2084 (VL 3108) (VL 8228)].

(** src/eltfp25519_4w_redradix.c:202 *)
Definition v255_4w_addsublar : list vinstr := [
  VBin OAdd 4 8192 (VL 1024) (VL 2048); (* 213 *)
  VBin OSub 4 8200 (VC [2305842356378664960; 2305842356378664960; 2305842356378664960; 2305842356378664960]) (VL 2048); (* 214 *)
  VBin OAdd 4 8204 (VL 1024) (VL 8200);
  VMov 4 1024 (VL 8192); (* 215 *)
  VMov 4 2048 (VL 8204); (* 216 *)
  VBin OAdd 4 8212 (VL 1028) (VL 2052); (* 213 *)
  VBin OSub 4 8220 (VC [1152921470247108608; 1152921470247108608; 1152921470247108608; 1152921470247108608]) (VL 2052); (* 214 *)
  VBin OAdd 4 8224 (VL 1028) (VL 8220);
  VMov 4 1028 (VL 8212); (* 215 *)
  VMov 4 2052 (VL 8224); (* 216 *)
  VBin OAdd 4 8232 (VL 1032) (VL 2056); (* 213 *)
  VBin OSub 4 8240 (VC [1152921470247108608; 1152921470247108608; 1152921470247108608; 1152921470247108608]) (VL 2056); (* 214 *)
  VBin OAdd 4 8244 (VL 1032) (VL 8240);
  VMov 4 1032 (VL 8232); (* 215 *)
  VMov 4 2056 (VL 8244); (* 216 *)
  VBin OAdd 4 8252 (VL 1036) (VL 2060); (* 213 *)
  VBin OSub 4 8260 (VC [2305842974853955584; 2305842974853955584; 2305842974853955584; 2305842974853955584]) (VL 2060); (* 214 *)
  VBin OAdd 4 8264 (VL 1036) (VL 8260);
  VMov 4 1036 (VL 8252); (* 215 *)
  VMov 4 2060 (VL 8264); (* 216 *)
  VBin OAdd 4 8272 (VL 1040) (VL 2064); (* 213 *)
  VBin OSub 4 8280 (VC [2305842974853955584; 2305842974853955584; 2305842974853955584; 2305842974853955584]) (VL 2064); (* 214 *)
  VBin OAdd 4 8284 (VL 1040) (VL 8280);
  VMov 4 1040 (VL 8272); (* 215 *)
  VMov 4 2064 (VL 8284); (* 216 *)
  VBin OAdd 4 8292 (VL 1044) (VL 2068); (* 213 *)
  VBin OSub 4 8300 (VC [1152921470247108608; 1152921470247108608; 1152921470247108608; 1152921470247108608]) (VL 2068); (* 214 *)
  VBin OAdd 4 8304 (VL 1044) (VL 8300);
  VMov 4 1044 (VL 8292); (* 215 *)
  VMov 4 2068 (VL 8304); (* 216 *)
  VBin OAdd 4 8312 (VL 1048) (VL 2072); (* 213 *)
  VBin OSub 4 8320 (VC [1152921470247108608; 1152921470247108608; 1152921470247108608; 1152921470247108608]) (VL 2072); (* 214 *)
  VBin OAdd 4 8324 (VL 1048) (VL 8320);
  VMov 4 1048 (VL 8312); (* 215 *)
  VMov 4 2072 (VL 8324); (* 216 *)
  VBin OAdd 4 8332 (VL 1052) (VL 2076); (* 213 *)
  VBin OSub 4 8340 (VC [2305842974853955584; 2305842974853955584; 2305842974853955584; 2305842974853955584]) (VL 2076); (* 214 *)
  VBin OAdd 4 8344 (VL 1052) (VL 8340);
  VMov 4 1052 (VL 8332); (* 215 *)
  VMov 4 2076 (VL 8344); (* 216 *)
  VBin OAdd 4 8352 (VL 1056) (VL 2080); (* 213 *)
  VBin OSub 4 8360 (VC [2305842974853955584; 2305842974853955584; 2305842974853955584; 2305842974853955584]) (VL 2080); (* 214 *)
  VBin OAdd 4 8364 (VL 1056) (VL 8360);
  VMov 4 1056 (VL 8352); (* 215 *)
  VMov 4 2080 (VL 8364); (* 216 *)
  VBin OAdd 4 8372 (VL 1060) (VL 2084); (* 213 *)
  VBin OSub 4 8380 (VC [1152921470247108608; 1152921470247108608; 1152921470247108608; 1152921470247108608]) (VL 2084); (* 214 *)
  VBin OAdd 4 8384 (VL 1060) (VL 8380);
  VMov 4 1060 (VL 8372); (* 215 *)
  VMov 4 2084 (VL 8384) (* 216 *)].

(** src/eltfp25519_4w_redradix.c:220 *)
Definition v255_4w_ngz : list vinstr := [
  VShuf32 4 78 8192 (VL 2048); (* 238 *)
  VBin OXor 4 8200 (VL 2048) (VC [0; 0; 18446744073709551615; 0]); (* 239 *)
  VBin OSub 4 8204 (VL 8200) (VC [0; 0; 18446744073709551615; 0]);
  VBin OAdd 4 8208 (VC [0; 0; 134217690; 0]) (VL 8204);
  VBlend32 4 240 1024 (VL 8192) (VL 8208); (* 240 *)
  VShuf32 4 78 8216 (VL 2052); (* 238 *)
  VBin OXor 4 8224 (VL 2052) (VC [0; 0; 18446744073709551615; 0]); (* 239 *)
  VBin OSub 4 8228 (VL 8224) (VC [0; 0; 18446744073709551615; 0]);
  VBin OAdd 4 8232 (VC [0; 0; 67108862; 0]) (VL 8228);
  VBlend32 4 240 1028 (VL 8216) (VL 8232); (* 240 *)
  VShuf32 4 78 8240 (VL 2056); (* 238 *)
  VBin OXor 4 8248 (VL 2056) (VC [0; 0; 18446744073709551615; 0]); (* 239 *)
  VBin OSub 4 8252 (VL 8248) (VC [0; 0; 18446744073709551615; 0]);
  VBin OAdd 4 8256 (VC [0; 0; 67108862; 0]) (VL 8252);
  VBlend32 4 240 1032 (VL 8240) (VL 8256); (* 240 *)
  VShuf32 4 78 8264 (VL 2060); (* 238 *)
  VBin OXor 4 8272 (VL 2060) (VC [0; 0; 18446744073709551615; 0]); (* 239 *)
  VBin OSub 4 8276 (VL 8272) (VC [0; 0; 18446744073709551615; 0]);
  VBin OAdd 4 8280 (VC [0; 0; 134217726; 0]) (VL 8276);
  VBlend32 4 240 1036 (VL 8264) (VL 8280); (* 240 *)
  VShuf32 4 78 8288 (VL 2064); (* 238 *)
  VBin OXor 4 8296 (VL 2064) (VC [0; 0; 18446744073709551615; 0]); (* 239 *)
  VBin OSub 4 8300 (VL 8296) (VC [0; 0; 18446744073709551615; 0]);
  VBin OAdd 4 8304 (VC [0; 0; 134217726; 0]) (VL 8300);
  VBlend32 4 240 1040 (VL 8288) (VL 8304); (* 240 *)
  VShuf32 4 78 8312 (VL 2068); (* 238 *)
  VBin OXor 4 8320 (VL 2068) (VC [0; 0; 18446744073709551615; 0]); (* 239 *)
  VBin OSub 4 8324 (VL 8320) (VC [0; 0; 18446744073709551615; 0]);
  VBin OAdd 4 8328 (VC [0; 0; 67108862; 0]) (VL 8324);
  VBlend32 4 240 1044 (VL 8312) (VL 8328); (* 240 *)
  VShuf32 4 78 8336 (VL 2072); (* 238 *)
  VBin OXor 4 8344 (VL 2072) (VC [0; 0; 18446744073709551615; 0]); (* 239 *)
  VBin OSub 4 8348 (VL 8344) (VC [0; 0; 18446744073709551615; 0]);
  VBin OAdd 4 8352 (VC [0; 0; 67108862; 0]) (VL 8348);
  VBlend32 4 240 1048 (VL 8336) (VL 8352); (* 240 *)
  VShuf32 4 78 8360 (VL 2076); (* 238 *)
  VBin OXor 4 8368 (VL 2076) (VC [0; 0; 18446744073709551615; 0]); (* 239 *)
  VBin OSub 4 8372 (VL 8368) (VC [0; 0; 18446744073709551615; 0]);
  VBin OAdd 4 8376 (VC [0; 0; 134217726; 0]) (VL 8372);
  VBlend32 4 240 1052 (VL 8360) (VL 8376); (* 240 *)
  VShuf32 4 78 8384 (VL 2080); (* 238 *)
  VBin OXor 4 8392 (VL 2080) (VC [0; 0; 18446744073709551615; 0]); (* 239 *)
  VBin OSub 4 8396 (VL 8392) (VC [0; 0; 18446744073709551615; 0]);
  VBin OAdd 4 8400 (VC [0; 0; 134217726; 0]) (VL 8396);
  VBlend32 4 240 1056 (VL 8384) (VL 8400); (* 240 *)
  VShuf32 4 78 8408 (VL 2084); (* 238 *)
  VBin OXor 4 8416 (VL 2084) (VC [0; 0; 18446744073709551615; 0]); (* 239 *)
  VBin OSub 4 8420 (VL 8416) (VC [0; 0; 18446744073709551615; 0]);
  VBin OAdd 4 8424 (VC [0; 0; 67108862; 0]) (VL 8420);
  VBlend32 4 240 1060 (VL 8408) (VL 8424) (* 240 *)].

(** src/eltfp25519_4w_redradix.c:244 *)
Definition v255_4w_intmul_sb : list vinstr := [
  VMov 4 8268 (VL 3072); (* 251 *)
  VMov 4 8288 (VL 3076);
  VMov 4 8272 (VL 3080); (* 252 *)
  VMov 4 8292 (VL 3084);
  VMov 4 8276 (VL 3088); (* 253 *)
  VMov 4 8296 (VL 3092);
  VMov 4 8280 (VL 3096); (* 254 *)
  VMov 4 8300 (VL 3100);
  VMov 4 8284 (VL 3104); (* 255 *)
  VMov 4 8304 (VL 3108);
  VMov 4 8308 (VL 2048); (* 257 *)
  VBin OMul32 4 8192 (VL 8308) (VL 8268); (* 258 *)
  VBin OMul32 4 8212 (VL 8308) (VL 8288);
  VBin OMul32 4 8196 (VL 8308) (VL 8272); (* 259 *)
  VBin OMul32 4 8216 (VL 8308) (VL 8292);
  VBin OMul32 4 8200 (VL 8308) (VL 8276); (* 260 *)
  VBin OMul32 4 8220 (VL 8308) (VL 8296);
  VBin OMul32 4 8204 (VL 8308) (VL 8280); (* 261 *)
  VBin OMul32 4 8224 (VL 8308) (VL 8300);
  VBin OMul32 4 8208 (VL 8308) (VL 8284); (* 262 *)
  VBin OMul32 4 8228 (VL 8308) (VL 8304);
  VMov 4 8308 (VL 2056); (* 264 *)
  VBin OAdd 4 8312 (VL 2056) (VL 2056); (* 265 *)
  VBin OMul32 4 8264 (VL 8304) (VC [19; 19; 19; 19]); (* 266 *)
  VBin OMul32 4 8316 (VL 8312) (VL 8264); (* 267 *)
  VBin OAdd 4 8192 (VL 8192) (VL 8316);
  VBin OMul32 4 8320 (VL 8308) (VL 8284);
  VBin OAdd 4 8212 (VL 8212) (VL 8320);
  VBin OMul32 4 8324 (VL 8308) (VL 8268); (* 268 *)
  VBin OAdd 4 8196 (VL 8196) (VL 8324);
  VBin OMul32 4 8328 (VL 8312) (VL 8288);
  VBin OAdd 4 8216 (VL 8216) (VL 8328);
  VBin OMul32 4 8332 (VL 8312) (VL 8272); (* 269 *)
  VBin OAdd 4 8200 (VL 8200) (VL 8332);
  VBin OMul32 4 8336 (VL 8308) (VL 8292);
  VBin OAdd 4 8220 (VL 8220) (VL 8336);
  VBin OMul32 4 8340 (VL 8308) (VL 8276); (* 270 *)
  VBin OAdd 4 8204 (VL 8204) (VL 8340);
  VBin OMul32 4 8344 (VL 8312) (VL 8296);
  VBin OAdd 4 8224 (VL 8224) (VL 8344);
  VBin OMul32 4 8348 (VL 8312) (VL 8280); (* 271 *)
  VBin OAdd 4 8208 (VL 8208) (VL 8348);
  VBin OMul32 4 8352 (VL 8308) (VL 8300);
  VBin OAdd 4 8228 (VL 8228) (VL 8352);
  VMov 4 8308 (VL 2064); (* 273 *)
  VBin OMul32 4 8260 (VL 8300) (VC [19; 19; 19; 19]); (* 274 *)
  VBin OMul32 4 8356 (VL 8308) (VL 8260); (* 275 *)
  VBin OAdd 4 8192 (VL 8192) (VL 8356);
  VBin OMul32 4 8360 (VL 8308) (VL 8280);
  VBin OAdd 4 8212 (VL 8212) (VL 8360);
  VBin OMul32 4 8364 (VL 8308) (VL 8264); (* 276 *)
  VBin OAdd 4 8196 (VL 8196) (VL 8364);
  VBin OMul32 4 8368 (VL 8308) (VL 8284);
  VBin OAdd 4 8216 (VL 8216) (VL 8368);
  VBin OMul32 4 8372 (VL 8308) (VL 8268); (* 277 *)
  VBin OAdd 4 8200 (VL 8200) (VL 8372);
  VBin OMul32 4 8376 (VL 8308) (VL 8288);
  VBin OAdd 4 8220 (VL 8220) (VL 8376);
  VBin OMul32 4 8380 (VL 8308) (VL 8272); (* 278 *)
  VBin OAdd 4 8204 (VL 8204) (VL 8380);
  VBin OMul32 4 8384 (VL 8308) (VL 8292);
  VBin OAdd 4 8224 (VL 8224) (VL 8384);
  VBin OMul32 4 8388 (VL 8308) (VL 8276); (* 279 *)
  VBin OAdd 4 8208 (VL 8208) (VL 8388);
  VBin OMul32 4 8392 (VL 8308) (VL 8296);
  VBin OAdd 4 8228 (VL 8228) (VL 8392);
  VMov 4 8308 (VL 2072); (* 281 *)
  VBin OAdd 4 8312 (VL 2072) (VL 2072); (* 282 *)
  VBin OMul32 4 8256 (VL 8296) (VC [19; 19; 19; 19]); (* 283 *)
  VBin OMul32 4 8396 (VL 8312) (VL 8256); (* 284 *)
  VBin OAdd 4 8192 (VL 8192) (VL 8396);
  VBin OMul32 4 8400 (VL 8308) (VL 8276);
  VBin OAdd 4 8212 (VL 8212) (VL 8400);
  VBin OMul32 4 8404 (VL 8308) (VL 8260); (* 285 *)
  VBin OAdd 4 8196 (VL 8196) (VL 8404);
  VBin OMul32 4 8408 (VL 8312) (VL 8280);
  VBin OAdd 4 8216 (VL 8216) (VL 8408);
  VBin OMul32 4 8412 (VL 8312) (VL 8264); (* 286 *)
  VBin OAdd 4 8200 (VL 8200) (VL 8412);
  VBin OMul32 4 8416 (VL 8308) (VL 8284);
  VBin OAdd 4 8220 (VL 8220) (VL 8416);
  VBin OMul32 4 8420 (VL 8308) (VL 8268); (* 287 *)
  VBin OAdd 4 8204 (VL 8204) (VL 8420);
  VBin OMul32 4 8424 (VL 8312) (VL 8288);
  VBin OAdd 4 8224 (VL 8224) (VL 8424);
  VBin OMul32 4 8428 (VL 8312) (VL 8272); (* 288 *)
  VBin OAdd 4 8208 (VL 8208) (VL 8428);
  VBin OMul32 4 8432 (VL 8308) (VL 8292);
  VBin OAdd 4 8228 (VL 8228) (VL 8432);
  VMov 4 8308 (VL 2080); (* 290 *)
  VBin OMul32 4 8252 (VL 8292) (VC [19; 19; 19; 19]); (* 291 *)
  VBin OMul32 4 8436 (VL 8308) (VL 8252); (* 292 *)
  VBin OAdd 4 8192 (VL 8192) (VL 8436);
  VBin OMul32 4 8440 (VL 8308) (VL 8272);
  VBin OAdd 4 8212 (VL 8212) (VL 8440);
  VBin OMul32 4 8444 (VL 8308) (VL 8256); (* 293 *)
  VBin OAdd 4 8196 (VL 8196) (VL 8444);
  VBin OMul32 4 8448 (VL 8308) (VL 8276);
  VBin OAdd 4 8216 (VL 8216) (VL 8448);
  VBin OMul32 4 8452 (VL 8308) (VL 8260); (* 294 *)
  VBin OAdd 4 8200 (VL 8200) (VL 8452);
  VBin OMul32 4 8456 (VL 8308) (VL 8280);
  VBin OAdd 4 8220 (VL 8220) (VL 8456);
  VBin OMul32 4 8460 (VL 8308) (VL 8264); (* 295 *)
  VBin OAdd 4 8204 (VL 8204) (VL 8460);
  VBin OMul32 4 8464 (VL 8308) (VL 8284);
  VBin OAdd 4 8224 (VL 8224) (VL 8464);
  VBin OMul32 4 8468 (VL 8308) (VL 8268); (* 296 *)
  VBin OAdd 4 8208 (VL 8208) (VL 8468);
  VBin OMul32 4 8472 (VL 8308) (VL 8288);
  VBin OAdd 4 8228 (VL 8228) (VL 8472);
  VMov 4 8308 (VL 2052); (* 298 *)
  VBin OAdd 4 8312 (VL 2052) (VL 2052); (* 299 *)
  VBin OMul32 4 8248 (VL 8288) (VC [19; 19; 19; 19]); (* 300 *)
  VBin OMul32 4 8476 (VL 8312) (VL 8248); (* 301 *)
  VBin OAdd 4 8192 (VL 8192) (VL 8476);
  VBin OMul32 4 8480 (VL 8308) (VL 8268);
  VBin OAdd 4 8212 (VL 8212) (VL 8480);
  VBin OMul32 4 8484 (VL 8308) (VL 8252); (* 302 *)
  VBin OAdd 4 8196 (VL 8196) (VL 8484);
  VBin OMul32 4 8488 (VL 8312) (VL 8272);
  VBin OAdd 4 8216 (VL 8216) (VL 8488);
  VBin OMul32 4 8492 (VL 8312) (VL 8256); (* 303 *)
  VBin OAdd 4 8200 (VL 8200) (VL 8492);
  VBin OMul32 4 8496 (VL 8308) (VL 8276);
  VBin OAdd 4 8220 (VL 8220) (VL 8496);
  VBin OMul32 4 8500 (VL 8308) (VL 8260); (* 304 *)
  VBin OAdd 4 8204 (VL 8204) (VL 8500);
  VBin OMul32 4 8504 (VL 8312) (VL 8280);
  VBin OAdd 4 8224 (VL 8224) (VL 8504);
  VBin OMul32 4 8508 (VL 8312) (VL 8264); (* 305 *)
  VBin OAdd 4 8208 (VL 8208) (VL 8508);
  VBin OMul32 4 8512 (VL 8308) (VL 8284);
  VBin OAdd 4 8228 (VL 8228) (VL 8512);
  VMov 4 8308 (VL 2060); (* 307 *)
  VBin OMul32 4 8244 (VL 8284) (VC [19; 19; 19; 19]); (* 308 *)
  VBin OMul32 4 8516 (VL 8308) (VL 8244); (* 309 *)
  VBin OAdd 4 8192 (VL 8192) (VL 8516);
  VBin OMul32 4 8520 (VL 8308) (VL 8264);
  VBin OAdd 4 8212 (VL 8212) (VL 8520);
  VBin OMul32 4 8524 (VL 8308) (VL 8248); (* 310 *)
  VBin OAdd 4 8196 (VL 8196) (VL 8524);
  VBin OMul32 4 8528 (VL 8308) (VL 8268);
  VBin OAdd 4 8216 (VL 8216) (VL 8528);
  VBin OMul32 4 8532 (VL 8308) (VL 8252); (* 311 *)
  VBin OAdd 4 8200 (VL 8200) (VL 8532);
  VBin OMul32 4 8536 (VL 8308) (VL 8272);
  VBin OAdd 4 8220 (VL 8220) (VL 8536);
  VBin OMul32 4 8540 (VL 8308) (VL 8256); (* 312 *)
  VBin OAdd 4 8204 (VL 8204) (VL 8540);
  VBin OMul32 4 8544 (VL 8308) (VL 8276);
  VBin OAdd 4 8224 (VL 8224) (VL 8544);
  VBin OMul32 4 8548 (VL 8308) (VL 8260); (* 313 *)
  VBin OAdd 4 8208 (VL 8208) (VL 8548);
  VBin OMul32 4 8552 (VL 8308) (VL 8280);
  VBin OAdd 4 8228 (VL 8228) (VL 8552);
  VMov 4 8308 (VL 2068); (* 315 *)
  VBin OAdd 4 8312 (VL 2068) (VL 2068); (* 316 *)
  VBin OMul32 4 8240 (VL 8280) (VC [19; 19; 19; 19]); (* 317 *)
  VBin OMul32 4 8556 (VL 8312) (VL 8240); (* 318 *)
  VBin OAdd 4 8192 (VL 8192) (VL 8556);
  VBin OMul32 4 8560 (VL 8308) (VL 8260);
  VBin OAdd 4 8212 (VL 8212) (VL 8560);
  VBin OMul32 4 8564 (VL 8308) (VL 8244); (* 319 *)
  VBin OAdd 4 8196 (VL 8196) (VL 8564);
  VBin OMul32 4 8568 (VL 8312) (VL 8264);
  VBin OAdd 4 8216 (VL 8216) (VL 8568);
  VBin OMul32 4 8572 (VL 8312) (VL 8248); (* 320 *)
  VBin OAdd 4 8200 (VL 8200) (VL 8572);
  VBin OMul32 4 8576 (VL 8308) (VL 8268);
  VBin OAdd 4 8220 (VL 8220) (VL 8576);
  VBin OMul32 4 8580 (VL 8308) (VL 8252); (* 321 *)
  VBin OAdd 4 8204 (VL 8204) (VL 8580);
  VBin OMul32 4 8584 (VL 8312) (VL 8272);
  VBin OAdd 4 8224 (VL 8224) (VL 8584);
  VBin OMul32 4 8588 (VL 8312) (VL 8256); (* 322 *)
  VBin OAdd 4 8208 (VL 8208) (VL 8588);
  VBin OMul32 4 8592 (VL 8308) (VL 8276);
  VBin OAdd 4 8228 (VL 8228) (VL 8592);
  VMov 4 8308 (VL 2076); (* 324 *)
  VBin OMul32 4 8236 (VL 8276) (VC [19; 19; 19; 19]); (* 325 *)
  VBin OMul32 4 8596 (VL 8308) (VL 8236); (* 326 *)
  VBin OAdd 4 8192 (VL 8192) (VL 8596);
  VBin OMul32 4 8600 (VL 8308) (VL 8256);
  VBin OAdd 4 8212 (VL 8212) (VL 8600);
  VBin OMul32 4 8604 (VL 8308) (VL 8240); (* 327 *)
  VBin OAdd 4 8196 (VL 8196) (VL 8604);
  VBin OMul32 4 8608 (VL 8308) (VL 8260);
  VBin OAdd 4 8216 (VL 8216) (VL 8608);
  VBin OMul32 4 8612 (VL 8308) (VL 8244); (* 328 *)
  VBin OAdd 4 8200 (VL 8200) (VL 8612);
  VBin OMul32 4 8616 (VL 8308) (VL 8264);
  VBin OAdd 4 8220 (VL 8220) (VL 8616);
  VBin OMul32 4 8620 (VL 8308) (VL 8248); (* 329 *)
  VBin OAdd 4 8204 (VL 8204) (VL 8620);
  VBin OMul32 4 8624 (VL 8308) (VL 8268);
  VBin OAdd 4 8224 (VL 8224) (VL 8624);
  VBin OMul32 4 8628 (VL 8308) (VL 8252); (* 330 *)
  VBin OAdd 4 8208 (VL 8208) (VL 8628);
  VBin OMul32 4 8632 (VL 8308) (VL 8272);
  VBin OAdd 4 8228 (VL 8228) (VL 8632);
  VMov 4 8308 (VL 2084); (* 332 *)
  VBin OAdd 4 8312 (VL 2084) (VL 2084); (* 333 *)
  VBin OMul32 4 8232 (VL 8272) (VC [19; 19; 19; 19]); (* 334 *)
  VBin OMul32 4 8636 (VL 8312) (VL 8232); (* 335 *)
  VBin OAdd 4 8192 (VL 8192) (VL 8636);
  VBin OMul32 4 8640 (VL 8308) (VL 8252);
  VBin OAdd 4 8212 (VL 8212) (VL 8640);
  VBin OMul32 4 8644 (VL 8308) (VL 8236); (* 336 *)
  VBin OAdd 4 8196 (VL 8196) (VL 8644);
  VBin OMul32 4 8648 (VL 8312) (VL 8256);
  VBin OAdd 4 8216 (VL 8216) (VL 8648);
  VBin OMul32 4 8652 (VL 8312) (VL 8240); (* 337 *)
  VBin OAdd 4 8200 (VL 8200) (VL 8652);
  VBin OMul32 4 8656 (VL 8308) (VL 8260);
  VBin OAdd 4 8220 (VL 8220) (VL 8656);
  VBin OMul32 4 8660 (VL 8308) (VL 8244); (* 338 *)
  VBin OAdd 4 8204 (VL 8204) (VL 8660);
  VBin OMul32 4 8664 (VL 8312) (VL 8264);
  VBin OAdd 4 8224 (VL 8224) (VL 8664);
  VBin OMul32 4 8668 (VL 8312) (VL 8248); (* 339 *)
  VBin OAdd 4 8208 (VL 8208) (VL 8668);
  VBin OMul32 4 8672 (VL 8308) (VL 8268);
  VBin OAdd 4 8228 (VL 8228) (VL 8672);
  VMov 4 1024 (VL 8192); (* 341 *)
  VMov 4 1028 (VL 8212);
  VMov 4 1032 (VL 8196); (* 342 *)
  VMov 4 1036 (VL 8216);
  VMov 4 1040 (VL 8200); (* 343 *)
  VMov 4 1044 (VL 8220);
  VMov 4 1048 (VL 8204); (* 344 *)
  VMov 4 1052 (VL 8224);
  VMov 4 1056 (VL 8208); (* 345 *)
  VMov 4 1060 (VL 8228)].

(** src/eltfp25519_4w_redradix.c:352 *)
Definition v255_4w_intsqr : list vinstr := [
  VMov 4 8260 (VL 1024); (* 359 *)
  VMov 4 8280 (VL 1028);
  VMov 4 8264 (VL 1032); (* 360 *)
  VMov 4 8284 (VL 1036);
  VMov 4 8268 (VL 1040); (* 361 *)
  VMov 4 8288 (VL 1044);
  VMov 4 8272 (VL 1048); (* 362 *)
  VMov 4 8292 (VL 1052);
  VMov 4 8276 (VL 1056); (* 363 *)
  VMov 4 8296 (VL 1060);
  VMov 4 8300 (VL 1024); (* 365 *)
  VBin OAdd 4 8304 (VL 8300) (VL 8300); (* 366 *)
  VBin OMul32 4 8192 (VL 8300) (VL 8260); (* 367 *)
  VBin OMul32 4 8212 (VL 8300) (VL 8280);
  VBin OMul32 4 8196 (VL 8304) (VL 8264); (* 368 *)
  VBin OMul32 4 8216 (VL 8304) (VL 8284);
  VBin OMul32 4 8200 (VL 8304) (VL 8268); (* 369 *)
  VBin OMul32 4 8220 (VL 8304) (VL 8288);
  VBin OMul32 4 8204 (VL 8304) (VL 8272); (* 370 *)
  VBin OMul32 4 8224 (VL 8304) (VL 8292);
  VBin OMul32 4 8208 (VL 8304) (VL 8276); (* 371 *)
  VBin OMul32 4 8228 (VL 8304) (VL 8296);
  VMov 4 8300 (VL 1032); (* 373 *)
  VBin OAdd 4 8304 (VL 8300) (VL 8300); (* 374 *)
  VBin OAdd 4 8308 (VL 8304) (VL 8304); (* 375 *)
  VBin OMul32 4 8256 (VL 8296) (VC [19; 19; 19; 19]); (* 376 *)
  VBin OMul32 4 8312 (VL 8308) (VL 8256); (* 377 *)
  VBin OAdd 4 8192 (VL 8192) (VL 8312);
  VBin OMul32 4 8316 (VL 8304) (VL 8276);
  VBin OAdd 4 8212 (VL 8212) (VL 8316);
  VBin OMul32 4 8320 (VL 8304) (VL 8264); (* 379 *)
  VBin OAdd 4 8200 (VL 8200) (VL 8320);
  VBin OMul32 4 8324 (VL 8300) (VL 8284);
  VBin OAdd 4 8220 (VL 8220) (VL 8324);
  VBin OMul32 4 8328 (VL 8304) (VL 8268); (* 380 *)
  VBin OAdd 4 8204 (VL 8204) (VL 8328);
  VBin OMul32 4 8332 (VL 8308) (VL 8288);
  VBin OAdd 4 8224 (VL 8224) (VL 8332);
  VBin OMul32 4 8336 (VL 8308) (VL 8272); (* 381 *)
  VBin OAdd 4 8208 (VL 8208) (VL 8336);
  VBin OMul32 4 8340 (VL 8304) (VL 8292);
  VBin OAdd 4 8228 (VL 8228) (VL 8340);
  VMov 4 8300 (VL 1040); (* 383 *)
  VBin OAdd 4 8304 (VL 8300) (VL 8300); (* 384 *)
  VBin OAdd 4 8308 (VL 8304) (VL 8304); (* 385 *)
  VBin OMul32 4 8252 (VL 8292) (VC [19; 19; 19; 19]); (* 386 *)
  VBin OMul32 4 8344 (VL 8304) (VL 8252); (* 387 *)
  VBin OAdd 4 8192 (VL 8192) (VL 8344);
  VBin OMul32 4 8348 (VL 8304) (VL 8272);
  VBin OAdd 4 8212 (VL 8212) (VL 8348);
  VBin OMul32 4 8352 (VL 8304) (VL 8256); (* 388 *)
  VBin OAdd 4 8196 (VL 8196) (VL 8352);
  VBin OMul32 4 8356 (VL 8304) (VL 8276);
  VBin OAdd 4 8216 (VL 8216) (VL 8356);
  VBin OMul32 4 8360 (VL 8300) (VL 8268); (* 391 *)
  VBin OAdd 4 8208 (VL 8208) (VL 8360);
  VBin OMul32 4 8364 (VL 8300) (VL 8288);
  VBin OAdd 4 8228 (VL 8228) (VL 8364);
  VMov 4 8300 (VL 1048); (* 393 *)
  VBin OAdd 4 8304 (VL 8300) (VL 8300); (* 394 *)
  VBin OAdd 4 8308 (VL 8304) (VL 8304); (* 395 *)
  VBin OMul32 4 8248 (VL 8288) (VC [19; 19; 19; 19]); (* 396 *)
  VBin OMul32 4 8368 (VL 8300) (VL 8252); (* 398 *)
  VBin OAdd 4 8196 (VL 8196) (VL 8368);
  VBin OMul32 4 8372 (VL 8304) (VL 8272);
  VBin OAdd 4 8216 (VL 8216) (VL 8372);
  VBin OMul32 4 8376 (VL 8308) (VL 8256); (* 399 *)
  VBin OAdd 4 8200 (VL 8200) (VL 8376);
  VBin OMul32 4 8380 (VL 8304) (VL 8276);
  VBin OAdd 4 8220 (VL 8220) (VL 8380);
  VMov 4 8300 (VL 1056); (* 403 *)
  VBin OAdd 4 8304 (VL 8300) (VL 8300); (* 404 *)
  VBin OAdd 4 8308 (VL 8304) (VL 8304); (* 405 *)
  VBin OMul32 4 8244 (VL 8284) (VC [19; 19; 19; 19]); (* 406 *)
  VBin OMul32 4 8384 (VL 8300) (VL 8256); (* 410 *)
  VBin OAdd 4 8204 (VL 8204) (VL 8384);
  VBin OMul32 4 8388 (VL 8300) (VL 8276);
  VBin OAdd 4 8224 (VL 8224) (VL 8388);
  VMov 4 8300 (VL 1028); (* 413 *)
  VBin OAdd 4 8304 (VL 8300) (VL 8300); (* 414 *)
  VBin OAdd 4 8308 (VL 8304) (VL 8304); (* 415 *)
  VBin OMul32 4 8240 (VL 8280) (VC [19; 19; 19; 19]); (* 416 *)
  VBin OMul32 4 8392 (VL 8304) (VL 8240); (* 417 *)
  VBin OAdd 4 8192 (VL 8192) (VL 8392);
  VBin OMul32 4 8396 (VL 8300) (VL 8260);
  VBin OAdd 4 8212 (VL 8212) (VL 8396);
  VBin OMul32 4 8400 (VL 8304) (VL 8244); (* 418 *)
  VBin OAdd 4 8196 (VL 8196) (VL 8400);
  VBin OMul32 4 8404 (VL 8308) (VL 8264);
  VBin OAdd 4 8216 (VL 8216) (VL 8404);
  VBin OMul32 4 8408 (VL 8308) (VL 8248); (* 419 *)
  VBin OAdd 4 8200 (VL 8200) (VL 8408);
  VBin OMul32 4 8412 (VL 8304) (VL 8268);
  VBin OAdd 4 8220 (VL 8220) (VL 8412);
  VBin OMul32 4 8416 (VL 8304) (VL 8252); (* 420 *)
  VBin OAdd 4 8204 (VL 8204) (VL 8416);
  VBin OMul32 4 8420 (VL 8308) (VL 8272);
  VBin OAdd 4 8224 (VL 8224) (VL 8420);
  VBin OMul32 4 8424 (VL 8308) (VL 8256); (* 421 *)
  VBin OAdd 4 8208 (VL 8208) (VL 8424);
  VBin OMul32 4 8428 (VL 8304) (VL 8276);
  VBin OAdd 4 8228 (VL 8228) (VL 8428);
  VMov 4 8300 (VL 1036); (* 423 *)
  VBin OAdd 4 8304 (VL 8300) (VL 8300); (* 424 *)
  VBin OAdd 4 8308 (VL 8304) (VL 8304); (* 425 *)
  VBin OMul32 4 8236 (VL 8276) (VC [19; 19; 19; 19]); (* 426 *)
  VBin OMul32 4 8432 (VL 8304) (VL 8236); (* 427 *)
  VBin OAdd 4 8192 (VL 8192) (VL 8432);
  VBin OMul32 4 8436 (VL 8304) (VL 8256);
  VBin OAdd 4 8212 (VL 8212) (VL 8436);
  VBin OMul32 4 8440 (VL 8300) (VL 8244); (* 429 *)
  VBin OAdd 4 8200 (VL 8200) (VL 8440);
  VBin OMul32 4 8444 (VL 8300) (VL 8264);
  VBin OAdd 4 8220 (VL 8220) (VL 8444);
  VBin OMul32 4 8448 (VL 8304) (VL 8248); (* 430 *)
  VBin OAdd 4 8204 (VL 8204) (VL 8448);
  VBin OMul32 4 8452 (VL 8304) (VL 8268);
  VBin OAdd 4 8224 (VL 8224) (VL 8452);
  VBin OMul32 4 8456 (VL 8304) (VL 8252); (* 431 *)
  VBin OAdd 4 8208 (VL 8208) (VL 8456);
  VBin OMul32 4 8460 (VL 8304) (VL 8272);
  VBin OAdd 4 8228 (VL 8228) (VL 8460);
  VMov 4 8300 (VL 1044); (* 433 *)
  VBin OAdd 4 8304 (VL 8300) (VL 8300); (* 434 *)
  VBin OAdd 4 8308 (VL 8304) (VL 8304); (* 435 *)
  VBin OMul32 4 8232 (VL 8272) (VC [19; 19; 19; 19]); (* 436 *)
  VBin OMul32 4 8464 (VL 8308) (VL 8232); (* 437 *)
  VBin OAdd 4 8192 (VL 8192) (VL 8464);
  VBin OMul32 4 8468 (VL 8304) (VL 8252);
  VBin OAdd 4 8212 (VL 8212) (VL 8468);
  VBin OMul32 4 8472 (VL 8304) (VL 8236); (* 438 *)
  VBin OAdd 4 8196 (VL 8196) (VL 8472);
  VBin OMul32 4 8476 (VL 8308) (VL 8256);
  VBin OAdd 4 8216 (VL 8216) (VL 8476);
  VBin OMul32 4 8480 (VL 8304) (VL 8248); (* 441 *)
  VBin OAdd 4 8208 (VL 8208) (VL 8480);
  VBin OMul32 4 8484 (VL 8300) (VL 8268);
  VBin OAdd 4 8228 (VL 8228) (VL 8484);
  VMov 4 8300 (VL 1052); (* 443 *)
  VBin OAdd 4 8304 (VL 8300) (VL 8300); (* 444 *)
  VBin OMul32 4 8488 (VL 8300) (VL 8232); (* 447 *)
  VBin OAdd 4 8196 (VL 8196) (VL 8488);
  VBin OMul32 4 8492 (VL 8300) (VL 8252);
  VBin OAdd 4 8216 (VL 8216) (VL 8492);
  VBin OMul32 4 8496 (VL 8304) (VL 8236); (* 448 *)
  VBin OAdd 4 8200 (VL 8200) (VL 8496);
  VBin OMul32 4 8500 (VL 8304) (VL 8256);
  VBin OAdd 4 8220 (VL 8220) (VL 8500);
  VMov 4 8300 (VL 1060); (* 452 *)
  VBin OAdd 4 8304 (VL 8300) (VL 8300); (* 453 *)
  VBin OMul32 4 8504 (VL 8300) (VL 8236); (* 458 *)
  VBin OAdd 4 8204 (VL 8204) (VL 8504);
  VBin OMul32 4 8508 (VL 8304) (VL 8256);
  VBin OAdd 4 8224 (VL 8224) (VL 8508);
  VMov 4 1024 (VL 8192); (* 461 *)
  VMov 4 1028 (VL 8212);
  VMov 4 1032 (VL 8196); (* 462 *)
  VMov 4 1036 (VL 8216);
  VMov 4 1040 (VL 8200); (* 463 *)
  VMov 4 1044 (VL 8220);
  VMov 4 1048 (VL 8204); (* 464 *)
  VMov 4 1052 (VL 8224);
  VMov 4 1056 (VL 8208); (* 465 *)
  VMov 4 1060 (VL 8228)].

(** src/eltfp25519_4w_redradix.c:470 *)
Definition v255_4w_compress : list vinstr := [
  VMov 4 8192 (VL 1024); (* 476 *)
  VMov 4 8196 (VL 1028);
  VMov 4 8200 (VL 1032); (* 477 *)
  VMov 4 8204 (VL 1036);
  VMov 4 8208 (VL 1040); (* 478 *)
  VMov 4 8212 (VL 1044);
  VMov 4 8216 (VL 1048); (* 479 *)
  VMov 4 8220 (VL 1052);
  VMov 4 8224 (VL 1056); (* 480 *)
  VMov 4 8228 (VL 1060);
  VShr 4 26 8232 (VL 8192); (* 484 *)
  VBin OAnd 4 8192 (VL 8192) (VC [67108863; 67108863; 67108863; 67108863]); (* 485 *)
  VBin OAdd 4 8200 (VL 8200) (VL 8232); (* 486 *)
  VShr 4 25 8236 (VL 8200); (* 488 *)
  VBin OAnd 4 8200 (VL 8200) (VC [33554431; 33554431; 33554431; 33554431]); (* 489 *)
  VBin OAdd 4 8208 (VL 8208) (VL 8236); (* 490 *)
  VShr 4 26 8240 (VL 8208); (* 492 *)
  VBin OAnd 4 8208 (VL 8208) (VC [67108863; 67108863; 67108863; 67108863]); (* 493 *)
  VBin OAdd 4 8216 (VL 8216) (VL 8240); (* 494 *)
  VShr 4 25 8244 (VL 8216); (* 496 *)
  VBin OAnd 4 8216 (VL 8216) (VC [33554431; 33554431; 33554431; 33554431]); (* 497 *)
  VBin OAdd 4 8224 (VL 8224) (VL 8244); (* 498 *)
  VShr 4 26 8248 (VL 8224); (* 500 *)
  VBin OAnd 4 8224 (VL 8224) (VC [67108863; 67108863; 67108863; 67108863]); (* 501 *)
  VBin OAdd 4 8196 (VL 8196) (VL 8248); (* 502 *)
  VShr 4 25 8252 (VL 8196); (* 504 *)
  VBin OAnd 4 8196 (VL 8196) (VC [33554431; 33554431; 33554431; 33554431]); (* 505 *)
  VBin OAdd 4 8204 (VL 8204) (VL 8252); (* 506 *)
  VShr 4 26 8256 (VL 8204); (* 508 *)
  VBin OAnd 4 8204 (VL 8204) (VC [67108863; 67108863; 67108863; 67108863]); (* 509 *)
  VBin OAdd 4 8212 (VL 8212) (VL 8256); (* 510 *)
  VShr 4 25 8260 (VL 8212); (* 512 *)
  VBin OAnd 4 8212 (VL 8212) (VC [33554431; 33554431; 33554431; 33554431]); (* 513 *)
  VBin OAdd 4 8220 (VL 8220) (VL 8260); (* 514 *)
  VShr 4 26 8264 (VL 8220); (* 516 *)
  VBin OAnd 4 8220 (VL 8220) (VC [67108863; 67108863; 67108863; 67108863]); (* 517 *)
  VBin OAdd 4 8228 (VL 8228) (VL 8264); (* 518 *)
  VShr 4 25 8268 (VL 8228); (* 520 *)
  VBin OAnd 4 8228 (VL 8228) (VC [33554431; 33554431; 33554431; 33554431]); (* 521 *)
  VBin OAdd 4 8272 (VL 8268) (VL 8268); (* 522 *)
  VShl 4 4 8276 (VL 8268);
  VBin OAdd 4 8280 (VL 8272) (VL 8276);
  VBin OAdd 4 8284 (VL 8268) (VL 8280);
  VBin OAdd 4 8192 (VL 8192) (VL 8284);
  VShr 4 26 8232 (VL 8192); (* 524 *)
  VBin OAnd 4 8192 (VL 8192) (VC [67108863; 67108863; 67108863; 67108863]); (* 525 *)
  VBin OAdd 4 8200 (VL 8200) (VL 8232); (* 526 *)
  VMov 4 1024 (VL 8192); (* 528 *)
  VMov 4 1028 (VL 8196);
  VMov 4 1032 (VL 8200); (* 529 *)
  VMov 4 1036 (VL 8204);
  VMov 4 1040 (VL 8208); (* 530 *)
  VMov 4 1044 (VL 8212);
  VMov 4 1048 (VL 8216); (* 531 *)
  VMov 4 1052 (VL 8220);
  VMov 4 1056 (VL 8224); (* 532 *)
  VMov 4 1060 (VL 8228)].

(** src/eltfp25519_4w_redradix.c:535 *)
Definition v255_4w_compress2 : list vinstr := [
  VMov 4 8192 (VL 1024); (* 541 *)
  VMov 4 8196 (VL 1028);
  VMov 4 8200 (VL 2048);
  VMov 4 8204 (VL 2052);
  VMov 4 8208 (VL 1032); (* 542 *)
  VMov 4 8212 (VL 1036);
  VMov 4 8216 (VL 2056);
  VMov 4 8220 (VL 2060);
  VMov 4 8224 (VL 1040); (* 543 *)
  VMov 4 8228 (VL 1044);
  VMov 4 8232 (VL 2064);
  VMov 4 8236 (VL 2068);
  VMov 4 8240 (VL 1048); (* 544 *)
  VMov 4 8244 (VL 1052);
  VMov 4 8248 (VL 2072);
  VMov 4 8252 (VL 2076);
  VMov 4 8256 (VL 1056); (* 545 *)
  VMov 4 8260 (VL 1060);
  VMov 4 8264 (VL 2080);
  VMov 4 8268 (VL 2084);
  VShr 4 26 8272 (VL 8192); (* 549 *)
  VShr 4 26 8312 (VL 8200);
  VBin OAnd 4 8192 (VL 8192) (VC [67108863; 67108863; 67108863; 67108863]); (* 550 *)
  VBin OAnd 4 8200 (VL 8200) (VC [67108863; 67108863; 67108863; 67108863]);
  VBin OAdd 4 8208 (VL 8208) (VL 8272); (* 551 *)
  VBin OAdd 4 8216 (VL 8216) (VL 8312);
  VShr 4 25 8276 (VL 8208); (* 553 *)
  VShr 4 25 8316 (VL 8216);
  VBin OAnd 4 8208 (VL 8208) (VC [33554431; 33554431; 33554431; 33554431]); (* 554 *)
  VBin OAnd 4 8216 (VL 8216) (VC [33554431; 33554431; 33554431; 33554431]);
  VBin OAdd 4 8224 (VL 8224) (VL 8276); (* 555 *)
  VBin OAdd 4 8232 (VL 8232) (VL 8316);
  VShr 4 26 8280 (VL 8224); (* 557 *)
  VShr 4 26 8320 (VL 8232);
  VBin OAnd 4 8224 (VL 8224) (VC [67108863; 67108863; 67108863; 67108863]); (* 558 *)
  VBin OAnd 4 8232 (VL 8232) (VC [67108863; 67108863; 67108863; 67108863]);
  VBin OAdd 4 8240 (VL 8240) (VL 8280); (* 559 *)
  VBin OAdd 4 8248 (VL 8248) (VL 8320);
  VShr 4 25 8284 (VL 8240); (* 561 *)
  VShr 4 25 8324 (VL 8248);
  VBin OAnd 4 8240 (VL 8240) (VC [33554431; 33554431; 33554431; 33554431]); (* 562 *)
  VBin OAnd 4 8248 (VL 8248) (VC [33554431; 33554431; 33554431; 33554431]);
  VBin OAdd 4 8256 (VL 8256) (VL 8284); (* 563 *)
  VBin OAdd 4 8264 (VL 8264) (VL 8324);
  VShr 4 26 8288 (VL 8256); (* 565 *)
  VShr 4 26 8328 (VL 8264);
  VBin OAnd 4 8256 (VL 8256) (VC [67108863; 67108863; 67108863; 67108863]); (* 566 *)
  VBin OAnd 4 8264 (VL 8264) (VC [67108863; 67108863; 67108863; 67108863]);
  VBin OAdd 4 8196 (VL 8196) (VL 8288); (* 567 *)
  VBin OAdd 4 8204 (VL 8204) (VL 8328);
  VShr 4 25 8292 (VL 8196); (* 569 *)
  VShr 4 25 8332 (VL 8204);
  VBin OAnd 4 8196 (VL 8196) (VC [33554431; 33554431; 33554431; 33554431]); (* 570 *)
  VBin OAnd 4 8204 (VL 8204) (VC [33554431; 33554431; 33554431; 33554431]);
  VBin OAdd 4 8212 (VL 8212) (VL 8292); (* 571 *)
  VBin OAdd 4 8220 (VL 8220) (VL 8332);
  VShr 4 26 8296 (VL 8212); (* 573 *)
  VShr 4 26 8336 (VL 8220);
  VBin OAnd 4 8212 (VL 8212) (VC [67108863; 67108863; 67108863; 67108863]); (* 574 *)
  VBin OAnd 4 8220 (VL 8220) (VC [67108863; 67108863; 67108863; 67108863]);
  VBin OAdd 4 8228 (VL 8228) (VL 8296); (* 575 *)
  VBin OAdd 4 8236 (VL 8236) (VL 8336);
  VShr 4 25 8300 (VL 8228); (* 577 *)
  VShr 4 25 8340 (VL 8236);
  VBin OAnd 4 8228 (VL 8228) (VC [33554431; 33554431; 33554431; 33554431]); (* 578 *)
  VBin OAnd 4 8236 (VL 8236) (VC [33554431; 33554431; 33554431; 33554431]);
  VBin OAdd 4 8244 (VL 8244) (VL 8300); (* 579 *)
  VBin OAdd 4 8252 (VL 8252) (VL 8340);
  VShr 4 26 8304 (VL 8244); (* 581 *)
  VShr 4 26 8344 (VL 8252);
  VBin OAnd 4 8244 (VL 8244) (VC [67108863; 67108863; 67108863; 67108863]); (* 582 *)
  VBin OAnd 4 8252 (VL 8252) (VC [67108863; 67108863; 67108863; 67108863]);
  VBin OAdd 4 8260 (VL 8260) (VL 8304); (* 583 *)
  VBin OAdd 4 8268 (VL 8268) (VL 8344);
  VShr 4 25 8308 (VL 8260); (* 585 *)
  VShr 4 25 8348 (VL 8268);
  VBin OAnd 4 8260 (VL 8260) (VC [33554431; 33554431; 33554431; 33554431]); (* 586 *)
  VBin OAnd 4 8268 (VL 8268) (VC [33554431; 33554431; 33554431; 33554431]);
  VBin OAdd 4 8352 (VL 8308) (VL 8308); (* 587 *)
  VShl 4 4 8356 (VL 8308);
  VBin OAdd 4 8360 (VL 8352) (VL 8356);
  VBin OAdd 4 8364 (VL 8308) (VL 8360);
  VBin OAdd 4 8192 (VL 8192) (VL 8364);
  VBin OAdd 4 8368 (VL 8348) (VL 8348);
  VShl 4 4 8372 (VL 8348);
  VBin OAdd 4 8376 (VL 8368) (VL 8372);
  VBin OAdd 4 8380 (VL 8348) (VL 8376);
  VBin OAdd 4 8200 (VL 8200) (VL 8380);
  VShr 4 26 8272 (VL 8192); (* 589 *)
  VShr 4 26 8312 (VL 8200);
  VBin OAnd 4 8192 (VL 8192) (VC [67108863; 67108863; 67108863; 67108863]); (* 590 *)
  VBin OAnd 4 8200 (VL 8200) (VC [67108863; 67108863; 67108863; 67108863]);
  VBin OAdd 4 8208 (VL 8208) (VL 8272); (* 591 *)
  VBin OAdd 4 8216 (VL 8216) (VL 8312);
  VMov 4 1024 (VL 8192); (* 593 *)
  VMov 4 1028 (VL 8196);
  VMov 4 2048 (VL 8200);
  VMov 4 2052 (VL 8204);
  VMov 4 1032 (VL 8208); (* 594 *)
  VMov 4 1036 (VL 8212);
  VMov 4 2056 (VL 8216);
  VMov 4 2060 (VL 8220);
  VMov 4 1040 (VL 8224); (* 595 *)
  VMov 4 1044 (VL 8228);
  VMov 4 2064 (VL 8232);
  VMov 4 2068 (VL 8236);
  VMov 4 1048 (VL 8240); (* 596 *)
  VMov 4 1052 (VL 8244);
  VMov 4 2072 (VL 8248);
  VMov 4 2076 (VL 8252);
  VMov 4 1056 (VL 8256); (* 597 *)
  VMov 4 1060 (VL 8260);
  VMov 4 2080 (VL 8264);
  VMov 4 2084 (VL 8268)].

(** src/eltfp25519_4w_redradix.c:600 *)
Definition v255_4w_compressfast : list vinstr := [
  VMov 4 8192 (VL 1024); (* 607 *)
  VMov 4 8196 (VL 1028);
  VMov 4 8200 (VL 1032); (* 608 *)
  VMov 4 8204 (VL 1036);
  VMov 4 8208 (VL 1040); (* 609 *)
  VMov 4 8212 (VL 1044);
  VMov 4 8216 (VL 1048); (* 610 *)
  VMov 4 8220 (VL 1052);
  VMov 4 8224 (VL 1056); (* 611 *)
  VMov 4 8228 (VL 1060);
  VShr 4 26 8272 (VL 8192); (* 617 *)
  VShr 4 25 8276 (VL 8200); (* 618 *)
  VShr 4 26 8280 (VL 8208); (* 619 *)
  VShr 4 25 8284 (VL 8216); (* 620 *)
  VShr 4 26 8288 (VL 8224); (* 621 *)
  VShr 4 25 8292 (VL 8196); (* 622 *)
  VShr 4 26 8296 (VL 8204); (* 623 *)
  VShr 4 25 8300 (VL 8212); (* 624 *)
  VShr 4 26 8304 (VL 8220); (* 625 *)
  VShr 4 25 8308 (VL 8228); (* 626 *)
  VBin OAnd 4 8232 (VL 8192) (VC [67108863; 67108863; 67108863; 67108863]); (* 628 *)
  VBin OAnd 4 8236 (VL 8200) (VC [33554431; 33554431; 33554431; 33554431]); (* 629 *)
  VBin OAnd 4 8240 (VL 8208) (VC [67108863; 67108863; 67108863; 67108863]); (* 630 *)
  VBin OAnd 4 8244 (VL 8216) (VC [33554431; 33554431; 33554431; 33554431]); (* 631 *)
  VBin OAnd 4 8248 (VL 8224) (VC [67108863; 67108863; 67108863; 67108863]); (* 632 *)
  VBin OAnd 4 8252 (VL 8196) (VC [33554431; 33554431; 33554431; 33554431]); (* 633 *)
  VBin OAnd 4 8256 (VL 8204) (VC [67108863; 67108863; 67108863; 67108863]); (* 634 *)
  VBin OAnd 4 8260 (VL 8212) (VC [33554431; 33554431; 33554431; 33554431]); (* 635 *)
  VBin OAnd 4 8264 (VL 8220) (VC [67108863; 67108863; 67108863; 67108863]); (* 636 *)
  VBin OAnd 4 8268 (VL 8228) (VC [33554431; 33554431; 33554431; 33554431]); (* 637 *)
  VBin OAnd 4 8272 (VL 8272) (VC [33554431; 33554431; 33554431; 33554431]); (* 639 *)
  VBin OAnd 4 8276 (VL 8276) (VC [67108863; 67108863; 67108863; 67108863]); (* 640 *)
  VBin OAnd 4 8280 (VL 8280) (VC [33554431; 33554431; 33554431; 33554431]); (* 641 *)
  VBin OAnd 4 8284 (VL 8284) (VC [67108863; 67108863; 67108863; 67108863]); (* 642 *)
  VBin OAnd 4 8288 (VL 8288) (VC [33554431; 33554431; 33554431; 33554431]); (* 643 *)
  VBin OAnd 4 8292 (VL 8292) (VC [67108863; 67108863; 67108863; 67108863]); (* 644 *)
  VBin OAnd 4 8296 (VL 8296) (VC [33554431; 33554431; 33554431; 33554431]); (* 645 *)
  VBin OAnd 4 8300 (VL 8300) (VC [67108863; 67108863; 67108863; 67108863]); (* 646 *)
  VBin OAnd 4 8304 (VL 8304) (VC [33554431; 33554431; 33554431; 33554431]); (* 647 *)
  VShr 4 51 8312 (VL 8192); (* 649 *)
  VShr 4 51 8316 (VL 8200); (* 650 *)
  VShr 4 51 8320 (VL 8208); (* 651 *)
  VShr 4 51 8324 (VL 8216); (* 652 *)
  VShr 4 51 8328 (VL 8224); (* 653 *)
  VShr 4 51 8332 (VL 8196); (* 654 *)
  VShr 4 51 8336 (VL 8204); (* 655 *)
  VShr 4 51 8340 (VL 8212); (* 656 *)
  VShr 4 51 8344 (VL 8220); (* 657 *)
  VBin OAdd 4 8308 (VL 8308) (VL 8344); (* 659 *)
  VBin OMul32 4 8352 (VL 8308) (VC [19; 19; 19; 19]); (* 660 *)
  VBin OAnd 4 8308 (VL 8352) (VC [67108863; 67108863; 67108863; 67108863]); (* 661 *)
  VShr 4 26 8348 (VL 8352); (* 662 *)
  VBin OAdd 4 8192 (VL 8232) (VL 8308); (* 664 *)
  VBin OAdd 4 8360 (VL 8236) (VL 8272); (* 665 *)
  VBin OAdd 4 8200 (VL 8360) (VL 8348);
  VBin OAdd 4 8364 (VL 8240) (VL 8276); (* 666 *)
  VBin OAdd 4 8208 (VL 8364) (VL 8312);
  VBin OAdd 4 8368 (VL 8244) (VL 8280); (* 667 *)
  VBin OAdd 4 8216 (VL 8368) (VL 8316);
  VBin OAdd 4 8372 (VL 8248) (VL 8284); (* 668 *)
  VBin OAdd 4 8224 (VL 8372) (VL 8320);
  VBin OAdd 4 8376 (VL 8252) (VL 8288); (* 669 *)
  VBin OAdd 4 8196 (VL 8376) (VL 8324);
  VBin OAdd 4 8380 (VL 8256) (VL 8292); (* 670 *)
  VBin OAdd 4 8204 (VL 8380) (VL 8328);
  VBin OAdd 4 8384 (VL 8260) (VL 8296); (* 671 *)
  VBin OAdd 4 8212 (VL 8384) (VL 8332);
  VBin OAdd 4 8388 (VL 8264) (VL 8300); (* 672 *)
  VBin OAdd 4 8220 (VL 8388) (VL 8336);
  VBin OAdd 4 8392 (VL 8268) (VL 8304); (* 673 *)
  VBin OAdd 4 8228 (VL 8392) (VL 8340);
  VMov 4 1024 (VL 8192); (* 675 *)
  VMov 4 1028 (VL 8196);
  VMov 4 1032 (VL 8200); (* 676 *)
  VMov 4 1036 (VL 8204);
  VMov 4 1040 (VL 8208); (* 677 *)
  VMov 4 1044 (VL 8212);
  VMov 4 1048 (VL 8216); (* 678 *)
  VMov 4 1052 (VL 8220);
  VMov 4 1056 (VL 8224); (* 679 *)
  VMov 4 1060 (VL 8228)].

(** src/eltfp25519_4w_redradix.c:682 *)
Definition v255_4w_new_compressfast2 : list vinstr := [
  VMov 4 8192 (VL 1024); (* 689 *)
  VMov 4 8196 (VL 1028);
  VMov 4 8200 (VL 2048);
  VMov 4 8204 (VL 2052);
  VMov 4 8208 (VL 1032); (* 690 *)
  VMov 4 8212 (VL 1036);
  VMov 4 8216 (VL 2056);
  VMov 4 8220 (VL 2060);
  VMov 4 8224 (VL 1040); (* 691 *)
  VMov 4 8228 (VL 1044);
  VMov 4 8232 (VL 2064);
  VMov 4 8236 (VL 2068);
  VMov 4 8240 (VL 1048); (* 692 *)
  VMov 4 8244 (VL 1052);
  VMov 4 8248 (VL 2072);
  VMov 4 8252 (VL 2076);
  VMov 4 8256 (VL 1056); (* 693 *)
  VMov 4 8260 (VL 1060);
  VMov 4 8264 (VL 2080);
  VMov 4 8268 (VL 2084);
  VShr 4 26 8352 (VL 8192); (* 698 *)
  VShr 4 26 8392 (VL 8200);
  VShr 4 25 8356 (VL 8208); (* 699 *)
  VShr 4 25 8396 (VL 8216);
  VShr 4 26 8360 (VL 8224); (* 700 *)
  VShr 4 26 8400 (VL 8232);
  VShr 4 25 8364 (VL 8240); (* 701 *)
  VShr 4 25 8404 (VL 8248);
  VShr 4 26 8368 (VL 8256); (* 702 *)
  VShr 4 26 8408 (VL 8264);
  VShr 4 25 8372 (VL 8196); (* 703 *)
  VShr 4 25 8412 (VL 8204);
  VShr 4 26 8376 (VL 8212); (* 704 *)
  VShr 4 26 8416 (VL 8220);
  VShr 4 25 8380 (VL 8228); (* 705 *)
  VShr 4 25 8420 (VL 8236);
  VShr 4 26 8384 (VL 8244); (* 706 *)
  VShr 4 26 8424 (VL 8252);
  VShr 4 25 8388 (VL 8260); (* 707 *)
  VShr 4 25 8428 (VL 8268);
  VBin OAnd 4 8272 (VL 8192) (VC [67108863; 67108863; 67108863; 67108863]); (* 709 *)
  VBin OAnd 4 8312 (VL 8200) (VC [67108863; 67108863; 67108863; 67108863]);
  VBin OAnd 4 8276 (VL 8208) (VC [33554431; 33554431; 33554431; 33554431]); (* 710 *)
  VBin OAnd 4 8316 (VL 8216) (VC [33554431; 33554431; 33554431; 33554431]);
  VBin OAnd 4 8280 (VL 8224) (VC [67108863; 67108863; 67108863; 67108863]); (* 711 *)
  VBin OAnd 4 8320 (VL 8232) (VC [67108863; 67108863; 67108863; 67108863]);
  VBin OAnd 4 8284 (VL 8240) (VC [33554431; 33554431; 33554431; 33554431]); (* 712 *)
  VBin OAnd 4 8324 (VL 8248) (VC [33554431; 33554431; 33554431; 33554431]);
  VBin OAnd 4 8288 (VL 8256) (VC [67108863; 67108863; 67108863; 67108863]); (* 713 *)
  VBin OAnd 4 8328 (VL 8264) (VC [67108863; 67108863; 67108863; 67108863]);
  VBin OAnd 4 8292 (VL 8196) (VC [33554431; 33554431; 33554431; 33554431]); (* 714 *)
  VBin OAnd 4 8332 (VL 8204) (VC [33554431; 33554431; 33554431; 33554431]);
  VBin OAnd 4 8296 (VL 8212) (VC [67108863; 67108863; 67108863; 67108863]); (* 715 *)
  VBin OAnd 4 8336 (VL 8220) (VC [67108863; 67108863; 67108863; 67108863]);
  VBin OAnd 4 8300 (VL 8228) (VC [33554431; 33554431; 33554431; 33554431]); (* 716 *)
  VBin OAnd 4 8340 (VL 8236) (VC [33554431; 33554431; 33554431; 33554431]);
  VBin OAnd 4 8304 (VL 8244) (VC [67108863; 67108863; 67108863; 67108863]); (* 717 *)
  VBin OAnd 4 8344 (VL 8252) (VC [67108863; 67108863; 67108863; 67108863]);
  VBin OAnd 4 8308 (VL 8260) (VC [33554431; 33554431; 33554431; 33554431]); (* 718 *)
  VBin OAnd 4 8348 (VL 8268) (VC [33554431; 33554431; 33554431; 33554431]);
  VBin OMul32 4 8432 (VL 8388) (VC [19; 19; 19; 19]); (* 720 *)
  VBin OAdd 4 8192 (VL 8272) (VL 8432);
  VBin OMul32 4 8436 (VL 8428) (VC [19; 19; 19; 19]);
  VBin OAdd 4 8200 (VL 8312) (VL 8436);
  VBin OAdd 4 8208 (VL 8276) (VL 8352); (* 721 *)
  VBin OAdd 4 8216 (VL 8316) (VL 8392);
  VBin OAdd 4 8224 (VL 8280) (VL 8356); (* 722 *)
  VBin OAdd 4 8232 (VL 8320) (VL 8396);
  VBin OAdd 4 8240 (VL 8284) (VL 8360); (* 723 *)
  VBin OAdd 4 8248 (VL 8324) (VL 8400);
  VBin OAdd 4 8256 (VL 8288) (VL 8364); (* 724 *)
  VBin OAdd 4 8264 (VL 8328) (VL 8404);
  VBin OAdd 4 8196 (VL 8292) (VL 8368); (* 725 *)
  VBin OAdd 4 8204 (VL 8332) (VL 8408);
  VBin OAdd 4 8212 (VL 8296) (VL 8372); (* 726 *)
  VBin OAdd 4 8220 (VL 8336) (VL 8412);
  VBin OAdd 4 8228 (VL 8300) (VL 8376); (* 727 *)
  VBin OAdd 4 8236 (VL 8340) (VL 8416);
  VBin OAdd 4 8244 (VL 8304) (VL 8380); (* 728 *)
  VBin OAdd 4 8252 (VL 8344) (VL 8420);
  VBin OAdd 4 8260 (VL 8308) (VL 8384); (* 729 *)
  VBin OAdd 4 8268 (VL 8348) (VL 8424);
  VMov 4 1024 (VL 8192); (* 731 *)
  VMov 4 1028 (VL 8196);
  VMov 4 2048 (VL 8200);
  VMov 4 2052 (VL 8204);
  VMov 4 1032 (VL 8208); (* 732 *)
  VMov 4 1036 (VL 8212);
  VMov 4 2056 (VL 8216);
  VMov 4 2060 (VL 8220);
  VMov 4 1040 (VL 8224); (* 733 *)
  VMov 4 1044 (VL 8228);
  VMov 4 2064 (VL 8232);
  VMov 4 2068 (VL 8236);
  VMov 4 1048 (VL 8240); (* 734 *)
  VMov 4 1052 (VL 8244);
  VMov 4 2072 (VL 8248);
  VMov 4 2076 (VL 8252);
  VMov 4 1056 (VL 8256); (* 735 *)
  VMov 4 1060 (VL 8260);
  VMov 4 2080 (VL 8264);
  VMov 4 2084 (VL 8268)].
