(** Generated by tools/simd2coq.py from /repo/src: the vector code of the
    reduced-radix field arithmetic.  One instruction per intrinsic call; the
    number in a comment is the source line.  Arguments are placed at 1024,
    2048, 3072, ... in the order of the C parameters. *)
From Coq Require Import ZArith List.
From Verif Require Import Simd.
Import ListNotations.
Open Scope Z_scope.

(** src/eltfp448_1w_redradix.c:24 *)
Definition v448_1w_compress : list vinstr := [
  VMov 2 8192 (VL 1024); (* 28 *)
  VMov 2 8196 (VL 1026); (* 29 *)
  VMov 2 8200 (VL 1028); (* 30 *)
  VMov 2 8204 (VL 1030); (* 31 *)
  VMov 2 8208 (VL 1032); (* 32 *)
  VMov 2 8212 (VL 1034); (* 33 *)
  VMov 2 8216 (VL 1036); (* 34 *)
  VMov 2 8220 (VL 1038); (* 35 *)
  VShr 2 28 8224 (VL 8192); (* 40 *)
  VBin OAnd 2 8192 (VL 8192) (VC [268435455; 268435455]); (* 41 *)
  VBin OAdd 2 8196 (VL 8196) (VL 8224); (* 42 *)
  VShr 2 28 8228 (VL 8196); (* 44 *)
  VBin OAnd 2 8196 (VL 8196) (VC [268435455; 268435455]); (* 45 *)
  VBin OAdd 2 8200 (VL 8200) (VL 8228); (* 46 *)
  VShr 2 28 8232 (VL 8200); (* 48 *)
  VBin OAnd 2 8200 (VL 8200) (VC [268435455; 268435455]); (* 49 *)
  VBin OAdd 2 8204 (VL 8204) (VL 8232); (* 50 *)
  VShr 2 28 8236 (VL 8204); (* 52 *)
  VBin OAnd 2 8204 (VL 8204) (VC [268435455; 268435455]); (* 53 *)
  VBin OAdd 2 8208 (VL 8208) (VL 8236); (* 54 *)
  VShr 2 28 8240 (VL 8208); (* 56 *)
  VBin OAnd 2 8208 (VL 8208) (VC [268435455; 268435455]); (* 57 *)
  VBin OAdd 2 8212 (VL 8212) (VL 8240); (* 58 *)
  VShr 2 28 8244 (VL 8212); (* 60 *)
  VBin OAnd 2 8212 (VL 8212) (VC [268435455; 268435455]); (* 61 *)
  VBin OAdd 2 8216 (VL 8216) (VL 8244); (* 62 *)
  VShr 2 28 8248 (VL 8216); (* 64 *)
  VBin OAnd 2 8216 (VL 8216) (VC [268435455; 268435455]); (* 65 *)
  VBin OAdd 2 8220 (VL 8220) (VL 8248); (* 66 *)
  VShr 2 28 8252 (VL 8220); (* 68 *)
  VBin OAnd 2 8220 (VL 8220) (VC [268435455; 268435455]); (* 69 *)
  VBlend32 2 3 8256 (VL 8252) (VC [0; 0]); (* 75 *)
  VBin OAdd 2 8192 (VL 8192) (VL 8256);
  VShuf32 2 78 8260 (VL 8252); (* 80 *)
  VBin OAdd 2 8192 (VL 8192) (VL 8260);
  VShr 2 28 8224 (VL 8192); (* 82 *)
  VBin OAnd 2 8192 (VL 8192) (VC [268435455; 268435455]); (* 83 *)
  VBin OAdd 2 8196 (VL 8196) (VL 8224); (* 84 *)
  VMov 2 1024 (VL 8192); (* 86 *)
  VMov 2 1026 (VL 8196); (* 87 *)
  VMov 2 1028 (VL 8200); (* 88 *)
  VMov 2 1030 (VL 8204); (* 89 *)
  VMov 2 1032 (VL 8208); (* 90 *)
  VMov 2 1034 (VL 8212); (* 91 *)
  VMov 2 1036 (VL 8216); (* 92 *)
  VMov 2 1038 (VL 8220) (* 93 *)].

(** src/eltfp448_1w_redradix.c:96 *)
Definition v448_1w_compressfast : list vinstr := [
  VMov 4 8192 (VL 1024); (* 107 *)
  VMov 4 8196 (VL 1028); (* 108 *)
  VMov 4 8200 (VL 1032); (* 109 *)
  VMov 4 8204 (VL 1036); (* 110 *)
  VBin OAnd 4 8208 (VL 8192) (VC [268435455; 268435455; 268435455; 268435455]); (* 112 *)
  VBin OAnd 4 8212 (VL 8196) (VC [268435455; 268435455; 268435455; 268435455]); (* 113 *)
  VBin OAnd 4 8216 (VL 8200) (VC [268435455; 268435455; 268435455; 268435455]); (* 114 *)
  VBin OAnd 4 8220 (VL 8204) (VC [268435455; 268435455; 268435455; 268435455]); (* 115 *)
  VShr 4 28 8224 (VL 8192); (* 117 *)
  VShr 4 28 8228 (VL 8196); (* 118 *)
  VShr 4 28 8232 (VL 8200); (* 119 *)
  VShr 4 28 8236 (VL 8204); (* 120 *)
  VBin OAnd 4 8224 (VL 8224) (VC [268435455; 268435455; 268435455; 268435455]); (* 122 *)
  VBin OAnd 4 8228 (VL 8228) (VC [268435455; 268435455; 268435455; 268435455]); (* 123 *)
  VBin OAnd 4 8232 (VL 8232) (VC [268435455; 268435455; 268435455; 268435455]); (* 124 *)
  VBin OAnd 4 8236 (VL 8236) (VC [268435455; 268435455; 268435455; 268435455]); (* 125 *)
  VShr 4 56 8256 (VL 8192); (* 127 *)
  VShr 4 56 8260 (VL 8196); (* 128 *)
  VShr 4 56 8264 (VL 8200); (* 129 *)
  VShr 4 56 8268 (VL 8204); (* 130 *)
  VSrl8 4 8288 (VL 8236); (* 132 *)
  VBin OAdd 4 8292 (VL 8236) (VL 8288);
  VShuf32 4 78 8252 (VL 8292);
  VSrl8 4 8296 (VL 8268); (* 133 *)
  VBin OAdd 4 8300 (VL 8268) (VL 8296);
  VShuf32 4 78 8268 (VL 8300);
  VPerm128 33 8240 (VL 8252) (VL 8224); (* 135 *)
  VPerm128 33 8244 (VL 8224) (VL 8228); (* 136 *)
  VPerm128 33 8248 (VL 8228) (VL 8232); (* 137 *)
  VPerm128 33 8252 (VL 8232) (VL 8236); (* 138 *)
  VBin OAdd 4 8272 (VL 8208) (VL 8240); (* 140 *)
  VBin OAdd 4 8276 (VL 8212) (VL 8244); (* 141 *)
  VBin OAdd 4 8280 (VL 8216) (VL 8248); (* 142 *)
  VBin OAdd 4 8284 (VL 8220) (VL 8252); (* 143 *)
  VBin OAdd 4 8272 (VL 8272) (VL 8268); (* 145 *)
  VBin OAdd 4 8276 (VL 8276) (VL 8256); (* 146 *)
  VBin OAdd 4 8280 (VL 8280) (VL 8260); (* 147 *)
  VBin OAdd 4 8284 (VL 8284) (VL 8264); (* 148 *)
  VMov 4 1024 (VL 8272); (* 150 *)
  VMov 4 1028 (VL 8276); (* 151 *)
  VMov 4 1032 (VL 8280); (* 152 *)
  VMov 4 1036 (VL 8284) (* 153 *)].

(** src/eltfp448_1w_redradix.c:156 *)
Definition v448_1w_new_compressfast : list vinstr := [
  VMov 4 8192 (VL 1024); (* 166 *)
  VMov 4 8196 (VL 1028); (* 167 *)
  VMov 4 8200 (VL 1032); (* 168 *)
  VMov 4 8204 (VL 1036); (* 169 *)
  VBin OAnd 4 8208 (VL 8192) (VC [268435455; 268435455; 268435455; 268435455]); (* 171 *)
  VBin OAnd 4 8212 (VL 8196) (VC [268435455; 268435455; 268435455; 268435455]); (* 172 *)
  VBin OAnd 4 8216 (VL 8200) (VC [268435455; 268435455; 268435455; 268435455]); (* 173 *)
  VBin OAnd 4 8220 (VL 8204) (VC [268435455; 268435455; 268435455; 268435455]); (* 174 *)
  VShr 4 28 8224 (VL 8192); (* 176 *)
  VShr 4 28 8228 (VL 8196); (* 177 *)
  VShr 4 28 8232 (VL 8200); (* 178 *)
  VShr 4 28 8236 (VL 8204); (* 179 *)
  VSrl8 4 8272 (VL 8236); (* 181 *)
  VBin OAdd 4 8276 (VL 8236) (VL 8272);
  VShuf32 4 78 8252 (VL 8276);
  VPerm128 33 8240 (VL 8252) (VL 8224); (* 183 *)
  VPerm128 33 8244 (VL 8224) (VL 8228); (* 184 *)
  VPerm128 33 8248 (VL 8228) (VL 8232); (* 185 *)
  VPerm128 33 8252 (VL 8232) (VL 8236); (* 186 *)
  VBin OAdd 4 8256 (VL 8208) (VL 8240); (* 188 *)
  VBin OAdd 4 8260 (VL 8212) (VL 8244); (* 189 *)
  VBin OAdd 4 8264 (VL 8216) (VL 8248); (* 190 *)
  VBin OAdd 4 8268 (VL 8220) (VL 8252); (* 191 *)
  VMov 4 1024 (VL 8256); (* 193 *)
  VMov 4 1028 (VL 8260); (* 194 *)
  VMov 4 1032 (VL 8264); (* 195 *)
  VMov 4 1036 (VL 8268) (* 196 *)].

(** src/eltfp448_1w_redradix.c:199 *)
Definition v448_1w_sqrn1 : list vinstr := [
  VMov 4 8240 (VL 1024); (* 210 *)
  VMov 4 8244 (VL 1028); (* 211 *)
  VMov 4 8248 (VL 1032); (* 212 *)
  VMov 4 8252 (VL 1036); (* 213 *)
  VMov 4 8288 (VL 8240); (* 216 *)
  VMov 4 8292 (VL 8244); (* 217 *)
  VMov 4 8296 (VL 8248); (* 218 *)
  VMov 4 8300 (VL 8252); (* 219 *)
  VBlend32 4 51 8304 (VL 8288) (VC [0; 0; 0; 0]); (* 221 *)
  VShuf32 4 78 8308 (VL 8288);
  VBin OAdd 4 8312 (VL 8304) (VL 8308);
  VBlend32 4 51 8320 (VL 8292) (VC [0; 0; 0; 0]); (* 222 *)
  VShuf32 4 78 8324 (VL 8292);
  VBin OAdd 4 8328 (VL 8320) (VL 8324);
  VBlend32 4 51 8336 (VL 8296) (VC [0; 0; 0; 0]); (* 223 *)
  VShuf32 4 78 8340 (VL 8296);
  VBin OAdd 4 8344 (VL 8336) (VL 8340);
  VBlend32 4 51 8352 (VL 8300) (VC [0; 0; 0; 0]); (* 224 *)
  VShuf32 4 78 8356 (VL 8300);
  VBin OAdd 4 8360 (VL 8352) (VL 8356);
  VPerm128 32 8208 (VL 8288) (VL 8312); (* 226 *)
  VPerm128 49 8212 (VL 8288) (VL 8312); (* 227 *)
  VPerm128 32 8216 (VL 8292) (VL 8328); (* 228 *)
  VPerm128 49 8220 (VL 8292) (VL 8328); (* 229 *)
  VPerm128 32 8224 (VL 8296) (VL 8344); (* 230 *)
  VPerm128 49 8228 (VL 8296) (VL 8344); (* 231 *)
  VPerm128 32 8232 (VL 8300) (VL 8360); (* 232 *)
  VPerm128 49 8236 (VL 8300) (VL 8360); (* 233 *)
  VSrl8 4 8368 (VL 8236); (* 235 *)
  VBin OAdd 4 8372 (VL 8236) (VL 8368);
  VShuf32 4 78 8284 (VL 8372);
  VPerm64 80 8192 (VL 8288); (* 237 *)
  VPerm64 250 8196 (VL 8288); (* 238 *)
  VBin OAdd 4 8200 (VL 8192) (VL 8192); (* 239 *)
  VBin OAdd 4 8204 (VL 8196) (VL 8196); (* 240 *)
  VBin OMul32 4 8240 (VL 8208) (VL 8192); (* 241 *)
  VBin OMul32 4 8376 (VL 8284) (VL 8204);
  VBin OAdd 4 8240 (VL 8240) (VL 8376);
  VBin OMul32 4 8244 (VL 8212) (VL 8200); (* 242 *)
  VBin OMul32 4 8248 (VL 8216) (VL 8200); (* 243 *)
  VBin OMul32 4 8380 (VL 8212) (VL 8196);
  VBin OAdd 4 8248 (VL 8248) (VL 8380);
  VBin OMul32 4 8252 (VL 8220) (VL 8200); (* 244 *)
  VBin OMul32 4 8384 (VL 8216) (VL 8204);
  VBin OAdd 4 8252 (VL 8252) (VL 8384);
  VBin OMul32 4 8256 (VL 8224) (VL 8200); (* 245 *)
  VBin OMul32 4 8388 (VL 8220) (VL 8204);
  VBin OAdd 4 8256 (VL 8256) (VL 8388);
  VBin OMul32 4 8260 (VL 8228) (VL 8200); (* 246 *)
  VBin OMul32 4 8392 (VL 8224) (VL 8204);
  VBin OAdd 4 8260 (VL 8260) (VL 8392);
  VBin OMul32 4 8264 (VL 8232) (VL 8200); (* 247 *)
  VBin OMul32 4 8396 (VL 8228) (VL 8204);
  VBin OAdd 4 8264 (VL 8264) (VL 8396);
  VBin OMul32 4 8268 (VL 8236) (VL 8200); (* 248 *)
  VBin OMul32 4 8400 (VL 8232) (VL 8204);
  VBin OAdd 4 8268 (VL 8268) (VL 8400);
  VSrl8 4 8404 (VL 8232); (* 250 *)
  VBin OAdd 4 8408 (VL 8232) (VL 8404);
  VShuf32 4 78 8280 (VL 8408);
  VSrl8 4 8412 (VL 8228); (* 251 *)
  VBin OAdd 4 8416 (VL 8228) (VL 8412);
  VShuf32 4 78 8276 (VL 8416);
  VPerm64 80 8192 (VL 8292); (* 253 *)
  VPerm64 250 8196 (VL 8292); (* 254 *)
  VBin OAdd 4 8200 (VL 8192) (VL 8192); (* 255 *)
  VBin OAdd 4 8204 (VL 8196) (VL 8196); (* 256 *)
  VBin OMul32 4 8420 (VL 8280) (VL 8200); (* 257 *)
  VBin OAdd 4 8240 (VL 8240) (VL 8420);
  VBin OMul32 4 8424 (VL 8276) (VL 8204);
  VBin OAdd 4 8240 (VL 8240) (VL 8424);
  VBin OMul32 4 8428 (VL 8284) (VL 8200); (* 258 *)
  VBin OAdd 4 8244 (VL 8244) (VL 8428);
  VBin OMul32 4 8432 (VL 8280) (VL 8204);
  VBin OAdd 4 8244 (VL 8244) (VL 8432);
  VBin OMul32 4 8436 (VL 8284) (VL 8204); (* 259 *)
  VBin OAdd 4 8248 (VL 8248) (VL 8436);
  VBin OMul32 4 8440 (VL 8216) (VL 8192); (* 261 *)
  VBin OAdd 4 8256 (VL 8256) (VL 8440);
  VBin OMul32 4 8444 (VL 8220) (VL 8200); (* 262 *)
  VBin OAdd 4 8260 (VL 8260) (VL 8444);
  VBin OMul32 4 8448 (VL 8224) (VL 8200); (* 263 *)
  VBin OAdd 4 8264 (VL 8264) (VL 8448);
  VBin OMul32 4 8452 (VL 8220) (VL 8196);
  VBin OAdd 4 8264 (VL 8264) (VL 8452);
  VBin OMul32 4 8456 (VL 8228) (VL 8200); (* 264 *)
  VBin OAdd 4 8268 (VL 8268) (VL 8456);
  VBin OMul32 4 8460 (VL 8224) (VL 8204);
  VBin OAdd 4 8268 (VL 8268) (VL 8460);
  VPerm64 80 8192 (VL 8300); (* 266 *)
  VPerm64 250 8196 (VL 8300); (* 267 *)
  VBin OAdd 4 8200 (VL 8192) (VL 8192); (* 268 *)
  VBin OMul32 4 8464 (VL 8280) (VL 8192); (* 273 *)
  VBin OAdd 4 8256 (VL 8256) (VL 8464);
  VBin OMul32 4 8468 (VL 8284) (VL 8200); (* 274 *)
  VBin OAdd 4 8260 (VL 8260) (VL 8468);
  VBin OMul32 4 8472 (VL 8284) (VL 8196); (* 275 *)
  VBin OAdd 4 8264 (VL 8264) (VL 8472);
  VSrl8 4 8476 (VL 8224); (* 278 *)
  VBin OAdd 4 8480 (VL 8224) (VL 8476);
  VShuf32 4 78 8272 (VL 8480);
  VPerm64 80 8192 (VL 8296); (* 280 *)
  VPerm64 250 8196 (VL 8296); (* 281 *)
  VBin OAdd 4 8200 (VL 8192) (VL 8192); (* 282 *)
  VBin OAdd 4 8204 (VL 8196) (VL 8196); (* 283 *)
  VBin OMul32 4 8484 (VL 8272) (VL 8192); (* 285 *)
  VBin OAdd 4 8240 (VL 8240) (VL 8484);
  VBin OMul32 4 8488 (VL 8276) (VL 8200); (* 286 *)
  VBin OAdd 4 8244 (VL 8244) (VL 8488);
  VBin OMul32 4 8492 (VL 8280) (VL 8200); (* 287 *)
  VBin OAdd 4 8248 (VL 8248) (VL 8492);
  VBin OMul32 4 8496 (VL 8276) (VL 8196);
  VBin OAdd 4 8248 (VL 8248) (VL 8496);
  VBin OMul32 4 8500 (VL 8284) (VL 8200); (* 288 *)
  VBin OAdd 4 8252 (VL 8252) (VL 8500);
  VBin OMul32 4 8504 (VL 8280) (VL 8204);
  VBin OAdd 4 8252 (VL 8252) (VL 8504);
  VBin OMul32 4 8508 (VL 8284) (VL 8204); (* 289 *)
  VBin OAdd 4 8256 (VL 8256) (VL 8508);
  VBin OAdd 2 8512 (VL 8242) (VL 8240); (* 294 *)
  VBin OAdd 2 8520 (VL 8246) (VL 8244); (* 295 *)
  VBin OAdd 2 8528 (VL 8250) (VL 8248); (* 296 *)
  VBin OAdd 2 8536 (VL 8254) (VL 8252); (* 297 *)
  VBin OAdd 2 8544 (VL 8258) (VL 8256); (* 298 *)
  VBin OAdd 2 8552 (VL 8262) (VL 8260); (* 299 *)
  VBin OAdd 2 8560 (VL 8266) (VL 8264); (* 300 *)
  VBin OAdd 2 8568 (VL 8270) (VL 8268); (* 301 *)
  VMov 2 8576 (VL 8512); (* 303 *)
  VInsr 1 8240 (VL 8576) (VL 8520);
  VMov 2 8580 (VL 8528); (* 304 *)
  VInsr 1 8244 (VL 8580) (VL 8536);
  VMov 2 8584 (VL 8544); (* 305 *)
  VInsr 1 8248 (VL 8584) (VL 8552);
  VMov 2 8588 (VL 8560); (* 306 *)
  VInsr 1 8252 (VL 8588) (VL 8568);
  VMov 4 8592 (VL 8240); (* 316 *)
  VMov 4 8596 (VL 8244); (* 317 *)
  VMov 4 8600 (VL 8248); (* 318 *)
  VMov 4 8604 (VL 8252); (* 319 *)
  VBin OAnd 4 8608 (VL 8592) (VC [268435455; 268435455; 268435455; 268435455]); (* 321 *)
  VBin OAnd 4 8612 (VL 8596) (VC [268435455; 268435455; 268435455; 268435455]); (* 322 *)
  VBin OAnd 4 8616 (VL 8600) (VC [268435455; 268435455; 268435455; 268435455]); (* 323 *)
  VBin OAnd 4 8620 (VL 8604) (VC [268435455; 268435455; 268435455; 268435455]); (* 324 *)
  VShr 4 28 8624 (VL 8592); (* 326 *)
  VShr 4 28 8628 (VL 8596); (* 327 *)
  VShr 4 28 8632 (VL 8600); (* 328 *)
  VShr 4 28 8636 (VL 8604); (* 329 *)
  VBin OAnd 4 8624 (VL 8624) (VC [268435455; 268435455; 268435455; 268435455]); (* 331 *)
  VBin OAnd 4 8628 (VL 8628) (VC [268435455; 268435455; 268435455; 268435455]); (* 332 *)
  VBin OAnd 4 8632 (VL 8632) (VC [268435455; 268435455; 268435455; 268435455]); (* 333 *)
  VBin OAnd 4 8636 (VL 8636) (VC [268435455; 268435455; 268435455; 268435455]); (* 334 *)
  VShr 4 56 8656 (VL 8592); (* 336 *)
  VShr 4 56 8660 (VL 8596); (* 337 *)
  VShr 4 56 8664 (VL 8600); (* 338 *)
  VShr 4 56 8668 (VL 8604); (* 339 *)
  VSrl8 4 8672 (VL 8636); (* 341 *)
  VBin OAdd 4 8676 (VL 8636) (VL 8672);
  VShuf32 4 78 8652 (VL 8676);
  VSrl8 4 8680 (VL 8668); (* 342 *)
  VBin OAdd 4 8684 (VL 8668) (VL 8680);
  VShuf32 4 78 8668 (VL 8684);
  VPerm128 33 8640 (VL 8652) (VL 8624); (* 344 *)
  VPerm128 33 8644 (VL 8624) (VL 8628); (* 345 *)
  VPerm128 33 8648 (VL 8628) (VL 8632); (* 346 *)
  VPerm128 33 8652 (VL 8632) (VL 8636); (* 347 *)
  VBin OAdd 4 8240 (VL 8608) (VL 8640); (* 349 *)
  VBin OAdd 4 8244 (VL 8612) (VL 8644); (* 350 *)
  VBin OAdd 4 8248 (VL 8616) (VL 8648); (* 351 *)
  VBin OAdd 4 8252 (VL 8620) (VL 8652); (* 352 *)
  VBin OAdd 4 8240 (VL 8240) (VL 8668); (* 354 *)
  VBin OAdd 4 8244 (VL 8244) (VL 8656); (* 355 *)
  VBin OAdd 4 8248 (VL 8248) (VL 8660); (* 356 *)
  VBin OAdd 4 8252 (VL 8252) (VL 8664); (* 357 *)
  VMov 4 1024 (VL 8240); (* 359 *)
  VMov 4 1028 (VL 8244); (* 360 *)
  VMov 4 1032 (VL 8248); (* 361 *)
  VMov 4 1036 (VL 8252) (* 362 *)].

(** src/eltfp448_1w_redradix.c:365 *)
Definition v448_1w_unser : list vinstr := [
  VShr 1 0 1024 (VL 2048); (* 370 *)
  VShr 1 28 1026 (VL 2048); (* 371 *)
  VShr 1 56 8192 (VL 2048); (* 372 *)
  VShl 1 8 8196 (VL 2049);
  VBin OOr 1 1028 (VL 8192) (VL 8196);
  VShr 1 20 1030 (VL 2049); (* 374 *)
  VShr 1 48 8200 (VL 2049); (* 375 *)
  VShl 1 16 8204 (VL 2050);
  VBin OOr 1 1032 (VL 8200) (VL 8204);
  VShr 1 12 1034 (VL 2050); (* 377 *)
  VShr 1 40 8208 (VL 2050); (* 378 *)
  VShl 1 24 8212 (VL 2051);
  VBin OOr 1 1036 (VL 8208) (VL 8212);
  VShr 1 4 1038 (VL 2051); (* 380 *)
  VShr 1 32 1025 (VL 2051); (* 381 *)
  VShr 1 60 8216 (VL 2051); (* 382 *)
  VShl 1 4 8220 (VL 2052);
  VBin OOr 1 1027 (VL 8216) (VL 8220);
  VShr 1 24 1029 (VL 2052); (* 384 *)
  VShr 1 52 8224 (VL 2052); (* 385 *)
  VShl 1 12 8228 (VL 2053);
  VBin OOr 1 1031 (VL 8224) (VL 8228);
  VShr 1 16 1033 (VL 2053); (* 387 *)
  VShr 1 44 8232 (VL 2053); (* 388 *)
  VShl 1 20 8236 (VL 2054);
  VBin OOr 1 1035 (VL 8232) (VL 8236);
  VShr 1 8 1037 (VL 2054); (* 390 *)
  VShr 1 36 1039 (VL 2054); (* 391 *)
  VBin OAnd 1 1024 (VL 1024) (VC [268435455]); (* 395 *)
  VBin OAnd 1 1025 (VL 1025) (VC [268435455]);
  VBin OAnd 1 1026 (VL 1026) (VC [268435455]);
  VBin OAnd 1 1027 (VL 1027) (VC [268435455]);
  VBin OAnd 1 1028 (VL 1028) (VC [268435455]);
  VBin OAnd 1 1029 (VL 1029) (VC [268435455]);
  VBin OAnd 1 1030 (VL 1030) (VC [268435455]);
  VBin OAnd 1 1031 (VL 1031) (VC [268435455]);
  VBin OAnd 1 1032 (VL 1032) (VC [268435455]);
  VBin OAnd 1 1033 (VL 1033) (VC [268435455]);
  VBin OAnd 1 1034 (VL 1034) (VC [268435455]);
  VBin OAnd 1 1035 (VL 1035) (VC [268435455]);
  VBin OAnd 1 1036 (VL 1036) (VC [268435455]);
  VBin OAnd 1 1037 (VL 1037) (VC [268435455]);
  VBin OAnd 1 1038 (VL 1038) (VC [268435455]);
  VBin OAnd 1 1039 (VL 1039) (VC [268435455])].

(** src/eltfp448_1w_redradix.c:448 *)
Definition v448_1w_add : list vinstr := [
  VMov 4 8192 (VL 2048); (* 449 *)
  VMov 4 8196 (VL 2052); (* 450 *)
  VMov 4 8200 (VL 2056); (* 451 *)
  VMov 4 8204 (VL 2060); (* 452 *)
  VMov 4 8208 (VL 3072); (* 454 *)
  VMov 4 8212 (VL 3076); (* 455 *)
  VMov 4 8216 (VL 3080); (* 456 *)
  VMov 4 8220 (VL 3084); (* 457 *)
  VBin OAdd 4 8224 (VL 8192) (VL 8208); (* 459 *)
  VBin OAdd 4 8232 (VL 8196) (VL 8212); (* 460 *)
  VBin OAdd 4 8240 (VL 8200) (VL 8216); (* 461 *)
  VBin OAdd 4 8248 (VL 8204) (VL 8220); (* 462 *)
  VMov 4 1024 (VL 8224); (* 464 *)
  VMov 4 1028 (VL 8232); (* 465 *)
  VMov 4 1032 (VL 8240); (* 466 *)
  VMov 4 1036 (VL 8248) (* 467 *)].

(** src/eltfp448_1w_redradix.c:481 *)
Definition v448_1w_sub : list vinstr := [
  VMov 4 8192 (VL 2048); (* 482 *)
  VMov 4 8196 (VL 2052); (* 483 *)
  VMov 4 8200 (VL 2056); (* 484 *)
  VMov 4 8204 (VL 2060); (* 485 *)
  VMov 4 8208 (VL 3072); (* 487 *)
  VMov 4 8212 (VL 3076); (* 488 *)
  VMov 4 8216 (VL 3080); (* 489 *)
  VMov 4 8220 (VL 3084); (* 490 *)
  VBin OSub 4 8224 (VC [536870910; 1073741820; 536870910; 536870908]) (VL 8208); (* 497 *)
  VBin OAdd 4 1024 (VL 8192) (VL 8224);
  VBin OSub 4 8228 (VC [536870910; 536870910; 536870910; 536870910]) (VL 8212); (* 498 *)
  VBin OAdd 4 1028 (VL 8196) (VL 8228);
  VBin OSub 4 8232 (VC [536870910; 536870910; 536870910; 536870910]) (VL 8216); (* 499 *)
  VBin OAdd 4 1032 (VL 8200) (VL 8232);
  VBin OSub 4 8236 (VC [536870910; 536870910; 536870910; 536870910]) (VL 8220); (* 500 *)
  VBin OAdd 4 1036 (VL 8204) (VL 8236)].

(** src/eltfp448_1w_redradix.c:503 *)
Definition v448_1w_addsub : list vinstr := [
  VMov 4 8192 (VL 1024); (* 505 *)
  VMov 4 8196 (VL 1028); (* 506 *)
  VMov 4 8200 (VL 1032); (* 507 *)
  VMov 4 8204 (VL 1036); (* 508 *)
  VMov 4 8208 (VL 2048); (* 509 *)
  VMov 4 8212 (VL 2052); (* 510 *)
  VMov 4 8216 (VL 2056); (* 511 *)
  VMov 4 8220 (VL 2060); (* 512 *)
  VBin OAdd 4 8224 (VL 8192) (VL 8208); (* 514 *)
  VBin OAdd 4 8232 (VL 8196) (VL 8212); (* 515 *)
  VBin OAdd 4 8240 (VL 8200) (VL 8216); (* 516 *)
  VBin OAdd 4 8248 (VL 8204) (VL 8220); (* 517 *)
  VBin OSub 4 8256 (VC [536870910; 1073741820; 536870910; 536870908]) (VL 8208); (* 519 *)
  VBin OAdd 4 8260 (VL 8192) (VL 8256);
  VBin OSub 4 8268 (VC [536870910; 536870910; 536870910; 536870910]) (VL 8212); (* 520 *)
  VBin OAdd 4 8272 (VL 8196) (VL 8268);
  VBin OSub 4 8280 (VC [536870910; 536870910; 536870910; 536870910]) (VL 8216); (* 521 *)
  VBin OAdd 4 8284 (VL 8200) (VL 8280);
  VBin OSub 4 8292 (VC [536870910; 536870910; 536870910; 536870910]) (VL 8220); (* 522 *)
  VBin OAdd 4 8296 (VL 8204) (VL 8292);
  VMov 4 1024 (VL 8224); (* 524 *)
  VMov 4 1028 (VL 8232); (* 525 *)
  VMov 4 1032 (VL 8240); (* 526 *)
  VMov 4 1036 (VL 8248); (* 527 *)
  VMov 4 2048 (VL 8260); (* 529 *)
  VMov 4 2052 (VL 8272); (* 530 *)
  VMov 4 2056 (VL 8284); (* 531 *)
  VMov 4 2060 (VL 8296) (* 532 *)].

(** src/eltfp448_1w_redradix.c:535 *)
Definition v448_1w_neg : list vinstr := [
  VMov 4 8192 (VL 1024); (* 536 *)
  VMov 4 8196 (VL 1028); (* 537 *)
  VMov 4 8200 (VL 1032); (* 538 *)
  VMov 4 8204 (VL 1036); (* 539 *)
  VBin OSub 4 1024 (VC [536870910; 1073741820; 536870910; 536870908]) (VL 8192); (* 546 *)
  VBin OSub 4 1028 (VC [536870910; 536870910; 536870910; 536870910]) (VL 8196); (* 547 *)
  VBin OSub 4 1032 (VC [536870910; 536870910; 536870910; 536870910]) (VL 8200); (* 548 *)
  VBin OSub 4 1036 (VC [536870910; 536870910; 536870910; 536870910]) (VL 8204) (* 549 *)].

(** src/eltfp448_1w_redradix.c:552 *)
Definition v448_1w_intmul_sb : list vinstr := [
  VMov 4 8264 (VL 3072); (* 558 *)
  VMov 4 8268 (VL 3076); (* 559 *)
  VMov 4 8272 (VL 3080); (* 560 *)
  VMov 4 8276 (VL 3084); (* 561 *)
  VBlend32 4 51 8280 (VL 8264) (VC [0; 0; 0; 0]); (* 563 *)
  VShuf32 4 78 8284 (VL 8264);
  VBin OAdd 4 8288 (VL 8280) (VL 8284);
  VBlend32 4 51 8296 (VL 8268) (VC [0; 0; 0; 0]); (* 564 *)
  VShuf32 4 78 8300 (VL 8268);
  VBin OAdd 4 8304 (VL 8296) (VL 8300);
  VBlend32 4 51 8312 (VL 8272) (VC [0; 0; 0; 0]); (* 565 *)
  VShuf32 4 78 8316 (VL 8272);
  VBin OAdd 4 8320 (VL 8312) (VL 8316);
  VBlend32 4 51 8328 (VL 8276) (VC [0; 0; 0; 0]); (* 566 *)
  VShuf32 4 78 8332 (VL 8276);
  VBin OAdd 4 8336 (VL 8328) (VL 8332);
  VPerm128 32 8200 (VL 8264) (VL 8288); (* 568 *)
  VPerm128 49 8204 (VL 8264) (VL 8288); (* 569 *)
  VPerm128 32 8208 (VL 8268) (VL 8304); (* 570 *)
  VPerm128 49 8212 (VL 8268) (VL 8304); (* 571 *)
  VPerm128 32 8216 (VL 8272) (VL 8320); (* 572 *)
  VPerm128 49 8220 (VL 8272) (VL 8320); (* 573 *)
  VPerm128 32 8224 (VL 8276) (VL 8336); (* 574 *)
  VPerm128 49 8228 (VL 8276) (VL 8336); (* 575 *)
  VMov 4 8232 (VC [0; 0; 0; 0]); (* 577 *)
  VMov 4 8236 (VC [0; 0; 0; 0]); (* 578 *)
  VMov 4 8240 (VC [0; 0; 0; 0]); (* 579 *)
  VMov 4 8244 (VC [0; 0; 0; 0]); (* 580 *)
  VMov 4 8248 (VC [0; 0; 0; 0]); (* 581 *)
  VMov 4 8252 (VC [0; 0; 0; 0]); (* 582 *)
  VMov 4 8256 (VC [0; 0; 0; 0]); (* 583 *)
  VMov 4 8260 (VC [0; 0; 0; 0]); (* 584 *)
  VPerm64 80 8192 (VL 2048); (* 588 *)
  VBin OMul32 4 8344 (VL 8200) (VL 8192); (* 589 *)
  VBin OAdd 4 8232 (VL 8232) (VL 8344);
  VBin OMul32 4 8348 (VL 8204) (VL 8192); (* 590 *)
  VBin OAdd 4 8236 (VL 8236) (VL 8348);
  VBin OMul32 4 8352 (VL 8208) (VL 8192); (* 591 *)
  VBin OAdd 4 8240 (VL 8240) (VL 8352);
  VBin OMul32 4 8356 (VL 8212) (VL 8192); (* 592 *)
  VBin OAdd 4 8244 (VL 8244) (VL 8356);
  VBin OMul32 4 8360 (VL 8216) (VL 8192); (* 593 *)
  VBin OAdd 4 8248 (VL 8248) (VL 8360);
  VBin OMul32 4 8364 (VL 8220) (VL 8192); (* 594 *)
  VBin OAdd 4 8252 (VL 8252) (VL 8364);
  VBin OMul32 4 8368 (VL 8224) (VL 8192); (* 595 *)
  VBin OAdd 4 8256 (VL 8256) (VL 8368);
  VBin OMul32 4 8372 (VL 8228) (VL 8192); (* 596 *)
  VBin OAdd 4 8260 (VL 8260) (VL 8372);
  VMov 4 8196 (VL 8228); (* 598 *)
  VMov 4 8228 (VL 8224); (* 599 *)
  VMov 4 8224 (VL 8220); (* 600 *)
  VMov 4 8220 (VL 8216); (* 601 *)
  VMov 4 8216 (VL 8212); (* 602 *)
  VMov 4 8212 (VL 8208); (* 603 *)
  VMov 4 8208 (VL 8204); (* 604 *)
  VMov 4 8204 (VL 8200); (* 605 *)
  VBlend32 4 51 8376 (VL 8196) (VC [0; 0; 0; 0]); (* 606 *)
  VShuf32 4 78 8380 (VL 8196);
  VBin OAdd 4 8200 (VL 8376) (VL 8380);
  VPerm64 250 8192 (VL 2048); (* 608 *)
  VBin OMul32 4 8384 (VL 8200) (VL 8192); (* 609 *)
  VBin OAdd 4 8232 (VL 8232) (VL 8384);
  VBin OMul32 4 8388 (VL 8204) (VL 8192); (* 610 *)
  VBin OAdd 4 8236 (VL 8236) (VL 8388);
  VBin OMul32 4 8392 (VL 8208) (VL 8192); (* 611 *)
  VBin OAdd 4 8240 (VL 8240) (VL 8392);
  VBin OMul32 4 8396 (VL 8212) (VL 8192); (* 612 *)
  VBin OAdd 4 8244 (VL 8244) (VL 8396);
  VBin OMul32 4 8400 (VL 8216) (VL 8192); (* 613 *)
  VBin OAdd 4 8248 (VL 8248) (VL 8400);
  VBin OMul32 4 8404 (VL 8220) (VL 8192); (* 614 *)
  VBin OAdd 4 8252 (VL 8252) (VL 8404);
  VBin OMul32 4 8408 (VL 8224) (VL 8192); (* 615 *)
  VBin OAdd 4 8256 (VL 8256) (VL 8408);
  VBin OMul32 4 8412 (VL 8228) (VL 8192); (* 616 *)
  VBin OAdd 4 8260 (VL 8260) (VL 8412);
  VMov 4 8196 (VL 8228); (* 618 *)
  VMov 4 8228 (VL 8224); (* 619 *)
  VMov 4 8224 (VL 8220); (* 620 *)
  VMov 4 8220 (VL 8216); (* 621 *)
  VMov 4 8216 (VL 8212); (* 622 *)
  VMov 4 8212 (VL 8208); (* 623 *)
  VMov 4 8208 (VL 8204); (* 624 *)
  VMov 4 8204 (VL 8200); (* 625 *)
  VBlend32 4 51 8416 (VL 8196) (VC [0; 0; 0; 0]); (* 626 *)
  VShuf32 4 78 8420 (VL 8196);
  VBin OAdd 4 8200 (VL 8416) (VL 8420);
  VPerm64 80 8192 (VL 2052); (* 588 *)
  VBin OMul32 4 8424 (VL 8200) (VL 8192); (* 589 *)
  VBin OAdd 4 8232 (VL 8232) (VL 8424);
  VBin OMul32 4 8428 (VL 8204) (VL 8192); (* 590 *)
  VBin OAdd 4 8236 (VL 8236) (VL 8428);
  VBin OMul32 4 8432 (VL 8208) (VL 8192); (* 591 *)
  VBin OAdd 4 8240 (VL 8240) (VL 8432);
  VBin OMul32 4 8436 (VL 8212) (VL 8192); (* 592 *)
  VBin OAdd 4 8244 (VL 8244) (VL 8436);
  VBin OMul32 4 8440 (VL 8216) (VL 8192); (* 593 *)
  VBin OAdd 4 8248 (VL 8248) (VL 8440);
  VBin OMul32 4 8444 (VL 8220) (VL 8192); (* 594 *)
  VBin OAdd 4 8252 (VL 8252) (VL 8444);
  VBin OMul32 4 8448 (VL 8224) (VL 8192); (* 595 *)
  VBin OAdd 4 8256 (VL 8256) (VL 8448);
  VBin OMul32 4 8452 (VL 8228) (VL 8192); (* 596 *)
  VBin OAdd 4 8260 (VL 8260) (VL 8452);
  VMov 4 8196 (VL 8228); (* 598 *)
  VMov 4 8228 (VL 8224); (* 599 *)
  VMov 4 8224 (VL 8220); (* 600 *)
  VMov 4 8220 (VL 8216); (* 601 *)
  VMov 4 8216 (VL 8212); (* 602 *)
  VMov 4 8212 (VL 8208); (* 603 *)
  VMov 4 8208 (VL 8204); (* 604 *)
  VMov 4 8204 (VL 8200); (* 605 *)
  VBlend32 4 51 8456 (VL 8196) (VC [0; 0; 0; 0]); (* 606 *)
  VShuf32 4 78 8460 (VL 8196);
  VBin OAdd 4 8200 (VL 8456) (VL 8460);
  VPerm64 250 8192 (VL 2052); (* 608 *)
  VBin OMul32 4 8464 (VL 8200) (VL 8192); (* 609 *)
  VBin OAdd 4 8232 (VL 8232) (VL 8464);
  VBin OMul32 4 8468 (VL 8204) (VL 8192); (* 610 *)
  VBin OAdd 4 8236 (VL 8236) (VL 8468);
  VBin OMul32 4 8472 (VL 8208) (VL 8192); (* 611 *)
  VBin OAdd 4 8240 (VL 8240) (VL 8472);
  VBin OMul32 4 8476 (VL 8212) (VL 8192); (* 612 *)
  VBin OAdd 4 8244 (VL 8244) (VL 8476);
  VBin OMul32 4 8480 (VL 8216) (VL 8192); (* 613 *)
  VBin OAdd 4 8248 (VL 8248) (VL 8480);
  VBin OMul32 4 8484 (VL 8220) (VL 8192); (* 614 *)
  VBin OAdd 4 8252 (VL 8252) (VL 8484);
  VBin OMul32 4 8488 (VL 8224) (VL 8192); (* 615 *)
  VBin OAdd 4 8256 (VL 8256) (VL 8488);
  VBin OMul32 4 8492 (VL 8228) (VL 8192); (* 616 *)
  VBin OAdd 4 8260 (VL 8260) (VL 8492);
  VMov 4 8196 (VL 8228); (* 618 *)
  VMov 4 8228 (VL 8224); (* 619 *)
  VMov 4 8224 (VL 8220); (* 620 *)
  VMov 4 8220 (VL 8216); (* 621 *)
  VMov 4 8216 (VL 8212); (* 622 *)
  VMov 4 8212 (VL 8208); (* 623 *)
  VMov 4 8208 (VL 8204); (* 624 *)
  VMov 4 8204 (VL 8200); (* 625 *)
  VBlend32 4 51 8496 (VL 8196) (VC [0; 0; 0; 0]); (* 626 *)
  VShuf32 4 78 8500 (VL 8196);
  VBin OAdd 4 8200 (VL 8496) (VL 8500);
  VPerm64 80 8192 (VL 2056); (* 588 *)
  VBin OMul32 4 8504 (VL 8200) (VL 8192); (* 589 *)
  VBin OAdd 4 8232 (VL 8232) (VL 8504);
  VBin OMul32 4 8508 (VL 8204) (VL 8192); (* 590 *)
  VBin OAdd 4 8236 (VL 8236) (VL 8508);
  VBin OMul32 4 8512 (VL 8208) (VL 8192); (* 591 *)
  VBin OAdd 4 8240 (VL 8240) (VL 8512);
  VBin OMul32 4 8516 (VL 8212) (VL 8192); (* 592 *)
  VBin OAdd 4 8244 (VL 8244) (VL 8516);
  VBin OMul32 4 8520 (VL 8216) (VL 8192); (* 593 *)
  VBin OAdd 4 8248 (VL 8248) (VL 8520);
  VBin OMul32 4 8524 (VL 8220) (VL 8192); (* 594 *)
  VBin OAdd 4 8252 (VL 8252) (VL 8524);
  VBin OMul32 4 8528 (VL 8224) (VL 8192); (* 595 *)
  VBin OAdd 4 8256 (VL 8256) (VL 8528);
  VBin OMul32 4 8532 (VL 8228) (VL 8192); (* 596 *)
  VBin OAdd 4 8260 (VL 8260) (VL 8532);
  VMov 4 8196 (VL 8228); (* 598 *)
  VMov 4 8228 (VL 8224); (* 599 *)
  VMov 4 8224 (VL 8220); (* 600 *)
  VMov 4 8220 (VL 8216); (* 601 *)
  VMov 4 8216 (VL 8212); (* 602 *)
  VMov 4 8212 (VL 8208); (* 603 *)
  VMov 4 8208 (VL 8204); (* 604 *)
  VMov 4 8204 (VL 8200); (* 605 *)
  VBlend32 4 51 8536 (VL 8196) (VC [0; 0; 0; 0]); (* 606 *)
  VShuf32 4 78 8540 (VL 8196);
  VBin OAdd 4 8200 (VL 8536) (VL 8540);
  VPerm64 250 8192 (VL 2056); (* 608 *)
  VBin OMul32 4 8544 (VL 8200) (VL 8192); (* 609 *)
  VBin OAdd 4 8232 (VL 8232) (VL 8544);
  VBin OMul32 4 8548 (VL 8204) (VL 8192); (* 610 *)
  VBin OAdd 4 8236 (VL 8236) (VL 8548);
  VBin OMul32 4 8552 (VL 8208) (VL 8192); (* 611 *)
  VBin OAdd 4 8240 (VL 8240) (VL 8552);
  VBin OMul32 4 8556 (VL 8212) (VL 8192); (* 612 *)
  VBin OAdd 4 8244 (VL 8244) (VL 8556);
  VBin OMul32 4 8560 (VL 8216) (VL 8192); (* 613 *)
  VBin OAdd 4 8248 (VL 8248) (VL 8560);
  VBin OMul32 4 8564 (VL 8220) (VL 8192); (* 614 *)
  VBin OAdd 4 8252 (VL 8252) (VL 8564);
  VBin OMul32 4 8568 (VL 8224) (VL 8192); (* 615 *)
  VBin OAdd 4 8256 (VL 8256) (VL 8568);
  VBin OMul32 4 8572 (VL 8228) (VL 8192); (* 616 *)
  VBin OAdd 4 8260 (VL 8260) (VL 8572);
  VMov 4 8196 (VL 8228); (* 618 *)
  VMov 4 8228 (VL 8224); (* 619 *)
  VMov 4 8224 (VL 8220); (* 620 *)
  VMov 4 8220 (VL 8216); (* 621 *)
  VMov 4 8216 (VL 8212); (* 622 *)
  VMov 4 8212 (VL 8208); (* 623 *)
  VMov 4 8208 (VL 8204); (* 624 *)
  VMov 4 8204 (VL 8200); (* 625 *)
  VBlend32 4 51 8576 (VL 8196) (VC [0; 0; 0; 0]); (* 626 *)
  VShuf32 4 78 8580 (VL 8196);
  VBin OAdd 4 8200 (VL 8576) (VL 8580);
  VPerm64 80 8192 (VL 2060); (* 588 *)
  VBin OMul32 4 8584 (VL 8200) (VL 8192); (* 589 *)
  VBin OAdd 4 8232 (VL 8232) (VL 8584);
  VBin OMul32 4 8588 (VL 8204) (VL 8192); (* 590 *)
  VBin OAdd 4 8236 (VL 8236) (VL 8588);
  VBin OMul32 4 8592 (VL 8208) (VL 8192); (* 591 *)
  VBin OAdd 4 8240 (VL 8240) (VL 8592);
  VBin OMul32 4 8596 (VL 8212) (VL 8192); (* 592 *)
  VBin OAdd 4 8244 (VL 8244) (VL 8596);
  VBin OMul32 4 8600 (VL 8216) (VL 8192); (* 593 *)
  VBin OAdd 4 8248 (VL 8248) (VL 8600);
  VBin OMul32 4 8604 (VL 8220) (VL 8192); (* 594 *)
  VBin OAdd 4 8252 (VL 8252) (VL 8604);
  VBin OMul32 4 8608 (VL 8224) (VL 8192); (* 595 *)
  VBin OAdd 4 8256 (VL 8256) (VL 8608);
  VBin OMul32 4 8612 (VL 8228) (VL 8192); (* 596 *)
  VBin OAdd 4 8260 (VL 8260) (VL 8612);
  VMov 4 8196 (VL 8228); (* 598 *)
  VMov 4 8228 (VL 8224); (* 599 *)
  VMov 4 8224 (VL 8220); (* 600 *)
  VMov 4 8220 (VL 8216); (* 601 *)
  VMov 4 8216 (VL 8212); (* 602 *)
  VMov 4 8212 (VL 8208); (* 603 *)
  VMov 4 8208 (VL 8204); (* 604 *)
  VMov 4 8204 (VL 8200); (* 605 *)
  VBlend32 4 51 8616 (VL 8196) (VC [0; 0; 0; 0]); (* 606 *)
  VShuf32 4 78 8620 (VL 8196);
  VBin OAdd 4 8200 (VL 8616) (VL 8620);
  VPerm64 250 8192 (VL 2060); (* 608 *)
  VBin OMul32 4 8624 (VL 8200) (VL 8192); (* 609 *)
  VBin OAdd 4 8232 (VL 8232) (VL 8624);
  VBin OMul32 4 8628 (VL 8204) (VL 8192); (* 610 *)
  VBin OAdd 4 8236 (VL 8236) (VL 8628);
  VBin OMul32 4 8632 (VL 8208) (VL 8192); (* 611 *)
  VBin OAdd 4 8240 (VL 8240) (VL 8632);
  VBin OMul32 4 8636 (VL 8212) (VL 8192); (* 612 *)
  VBin OAdd 4 8244 (VL 8244) (VL 8636);
  VBin OMul32 4 8640 (VL 8216) (VL 8192); (* 613 *)
  VBin OAdd 4 8248 (VL 8248) (VL 8640);
  VBin OMul32 4 8644 (VL 8220) (VL 8192); (* 614 *)
  VBin OAdd 4 8252 (VL 8252) (VL 8644);
  VBin OMul32 4 8648 (VL 8224) (VL 8192); (* 615 *)
  VBin OAdd 4 8256 (VL 8256) (VL 8648);
  VBin OMul32 4 8652 (VL 8228) (VL 8192); (* 616 *)
  VBin OAdd 4 8260 (VL 8260) (VL 8652);
  VMov 4 8196 (VL 8228); (* 618 *)
  VMov 4 8228 (VL 8224); (* 619 *)
  VMov 4 8224 (VL 8220); (* 620 *)
  VMov 4 8220 (VL 8216); (* 621 *)
  VMov 4 8216 (VL 8212); (* 622 *)
  VMov 4 8212 (VL 8208); (* 623 *)
  VMov 4 8208 (VL 8204); (* 624 *)
  VMov 4 8204 (VL 8200); (* 625 *)
  VBlend32 4 51 8656 (VL 8196) (VC [0; 0; 0; 0]); (* 626 *)
  VShuf32 4 78 8660 (VL 8196);
  VBin OAdd 4 8200 (VL 8656) (VL 8660);
  VBin OAdd 2 8664 (VL 8234) (VL 8232); (* 629 *)
  VBin OAdd 2 8672 (VL 8238) (VL 8236); (* 630 *)
  VBin OAdd 2 8680 (VL 8242) (VL 8240); (* 631 *)
  VBin OAdd 2 8688 (VL 8246) (VL 8244); (* 632 *)
  VBin OAdd 2 8696 (VL 8250) (VL 8248); (* 633 *)
  VBin OAdd 2 8704 (VL 8254) (VL 8252); (* 634 *)
  VBin OAdd 2 8712 (VL 8258) (VL 8256); (* 635 *)
  VBin OAdd 2 8720 (VL 8262) (VL 8260); (* 636 *)
  VMov 2 1024 (VL 8664); (* 643 *)
  VMov 2 1026 (VL 8672); (* 644 *)
  VMov 2 1028 (VL 8680); (* 645 *)
  VMov 2 1030 (VL 8688); (* 646 *)
  VMov 2 1032 (VL 8696); (* 647 *)
  VMov 2 1034 (VL 8704); (* 648 *)
  VMov 2 1036 (VL 8712); (* 649 *)
  VMov 2 1038 (VL 8720) (* 650 *)].

(** src/eltfp448_1w_redradix.c:666 *)
Definition v448_1w_copy : list vinstr := [
  VMov 4 1024 (VL 2048); (* 667 *)
  VMov 4 1028 (VL 2052); (* 668 *)
  VMov 4 1032 (VL 2056); (* 669 *)
  VMov 4 1036 (VL 2060) (* 670 *)].

(** src/eltfp448_1w_redradix.c:757 *)
Definition v448_1w_prime : list vinstr := [
  VMov 1 1024 (VC [268435455]); (* 758 *)
  VMov 1 1025 (VC [268435455]); (* 759 *)
  VMov 1 1026 (VC [268435455]); (* 760 *)
  VMov 1 1027 (VC [268435455]); (* 761 *)
  VMov 1 1028 (VC [268435455]); (* 762 *)
  VMov 1 1029 (VC [268435455]); (* 763 *)
  VMov 1 1030 (VC [268435455]); (* 764 *)
  VMov 1 1031 (VC [268435455]); (* 765 *)
  VMov 1 1032 (VC [268435454]); (* 766 *)
  VMov 1 1033 (VC [268435455]); (* 767 *)
  VMov 1 1034 (VC [268435455]); (* 768 *)
  VMov 1 1035 (VC [268435455]); (* 769 *)
  VMov 1 1036 (VC [268435455]); (* 770 *)
  VMov 1 1037 (VC [268435455]); (* 771 *)
  VMov 1 1038 (VC [268435455]); (* 772 *)
  VMov 1 1039 (VC [268435455]) (* 773 *)].

(** src/eltfp448_1w_redradix.c:776 *)
Definition v448_1w_zero : list vinstr := [
  VMov 4 1024 (VC [0; 0; 0; 0]); (* 777 *)
  VMov 4 1028 (VC [0; 0; 0; 0]); (* 778 *)
  VMov 4 1032 (VC [0; 0; 0; 0]); (* 779 *)
  VMov 4 1036 (VC [0; 0; 0; 0]) (* 780 *)].

(** src/eltfp448_1w_redradix.c:783 *)
Definition v448_1w_naddsub : list vinstr := [
  VMov 4 8192 (VL 3072); (* 785 *)
  VMov 4 8196 (VL 3076); (* 786 *)
  VMov 4 8200 (VL 3080); (* 787 *)
  VMov 4 8204 (VL 3084); (* 788 *)
  VMov 4 8208 (VL 4096); (* 790 *)
  VMov 4 8212 (VL 4100); (* 791 *)
  VMov 4 8216 (VL 4104); (* 792 *)
  VMov 4 8220 (VL 4108); (* 793 *)
  VBin OSub 4 8224 (VC [536870910; 1073741820; 536870910; 536870908]) (VL 8192); (* 795 *)
  VBin OSub 4 8232 (VC [536870910; 536870910; 536870910; 536870910]) (VL 8196); (* 796 *)
  VBin OSub 4 8240 (VC [536870910; 536870910; 536870910; 536870910]) (VL 8200); (* 797 *)
  VBin OSub 4 8248 (VC [536870910; 536870910; 536870910; 536870910]) (VL 8204); (* 798 *)
  VBin OSub 4 8256 (VL 8224) (VL 8208); (* 800 *)
  VBin OSub 4 8264 (VL 8232) (VL 8212); (* 801 *)
  VBin OSub 4 8272 (VL 8240) (VL 8216); (* 802 *)
  VBin OSub 4 8280 (VL 8248) (VL 8220); (* 803 *)
  VBin OAdd 4 8288 (VL 8224) (VL 8208); (* 805 *)
  VBin OAdd 4 8296 (VL 8232) (VL 8212); (* 806 *)
  VBin OAdd 4 8304 (VL 8240) (VL 8216); (* 807 *)
  VBin OAdd 4 8312 (VL 8248) (VL 8220); (* 808 *)
  VMov 4 1024 (VL 8256); (* 810 *)
  VMov 4 1028 (VL 8264); (* 811 *)
  VMov 4 1032 (VL 8272); (* 812 *)
  VMov 4 1036 (VL 8280); (* 813 *)
  VMov 4 2048 (VL 8288); (* 815 *)
  VMov 4 2052 (VL 8296); (* 816 *)
  VMov 4 2056 (VL 8304); (* 817 *)
  VMov 4 2060 (VL 8312) (* 818 *)].

(** src/eltfp448_2w_redradix.c:24 *)
Definition v448_2w_copy : list vinstr := [
  VMov 4 1024 (VL 2048); (* 27 *)
  VMov 4 1028 (VL 2052);
  VMov 4 1032 (VL 2056);
  VMov 4 1036 (VL 2060);
  VMov 4 1040 (VL 2064);
  VMov 4 1044 (VL 2068);
  VMov 4 1048 (VL 2072);
  VMov 4 1052 (VL 2076)].

(** src/eltfp448_2w_redradix.c:31 *)
Definition v448_2w_zero : list vinstr := [
  VMov 4 1024 (VC [0; 0; 0; 0]); (* 34 *)
  VMov 4 1028 (VC [0; 0; 0; 0]);
  VMov 4 1032 (VC [0; 0; 0; 0]);
  VMov 4 1036 (VC [0; 0; 0; 0]);
  VMov 4 1040 (VC [0; 0; 0; 0]);
  VMov 4 1044 (VC [0; 0; 0; 0]);
  VMov 4 1048 (VC [0; 0; 0; 0]);
  VMov 4 1052 (VC [0; 0; 0; 0])].

(** src/eltfp448_2w_redradix.c:44 *)
Definition v448_2w_inter : list vinstr := [
  VMov 4 8192 (VL 2048); (* 45 *)
  VMov 4 8196 (VL 2052); (* 46 *)
  VMov 4 8200 (VL 2056); (* 47 *)
  VMov 4 8204 (VL 2060); (* 48 *)
  VMov 4 8208 (VL 3072); (* 50 *)
  VMov 4 8212 (VL 3076); (* 51 *)
  VMov 4 8216 (VL 3080); (* 52 *)
  VMov 4 8220 (VL 3084); (* 53 *)
  VPerm128 32 1024 (VL 8192) (VL 8208); (* 55 *)
  VPerm128 49 1028 (VL 8192) (VL 8208); (* 56 *)
  VPerm128 32 1032 (VL 8196) (VL 8212); (* 57 *)
  VPerm128 49 1036 (VL 8196) (VL 8212); (* 58 *)
  VPerm128 32 1040 (VL 8200) (VL 8216); (* 59 *)
  VPerm128 49 1044 (VL 8200) (VL 8216); (* 60 *)
  VPerm128 32 1048 (VL 8204) (VL 8220); (* 61 *)
  VPerm128 49 1052 (VL 8204) (VL 8220) (* 62 *)].

(** src/eltfp448_2w_redradix.c:71 *)
Definition v448_2w_deinter : list vinstr := [
  VPerm128 32 1024 (VL 3072) (VL 3076); (* 72 *)
  VPerm128 49 2048 (VL 3072) (VL 3076); (* 73 *)
  VPerm128 32 1028 (VL 3080) (VL 3084); (* 74 *)
  VPerm128 49 2052 (VL 3080) (VL 3084); (* 75 *)
  VPerm128 32 1032 (VL 3088) (VL 3092); (* 76 *)
  VPerm128 49 2056 (VL 3088) (VL 3092); (* 77 *)
  VPerm128 32 1036 (VL 3096) (VL 3100); (* 78 *)
  VPerm128 49 2060 (VL 3096) (VL 3100) (* 79 *)].

(** src/eltfp448_2w_redradix.c:88 *)
Definition v448_2w_add : list vinstr := [
  VBin OAdd 4 1024 (VL 2048) (VL 3072); (* 91 *)
  VBin OAdd 4 1028 (VL 2052) (VL 3076);
  VBin OAdd 4 1032 (VL 2056) (VL 3080);
  VBin OAdd 4 1036 (VL 2060) (VL 3084);
  VBin OAdd 4 1040 (VL 2064) (VL 3088);
  VBin OAdd 4 1044 (VL 2068) (VL 3092);
  VBin OAdd 4 1048 (VL 2072) (VL 3096);
  VBin OAdd 4 1052 (VL 2076) (VL 3100)].

(** src/eltfp448_2w_redradix.c:145 *)
Definition v448_2w_sub : list vinstr := [
  VBin OSub 4 8192 (VC [536870910; 1073741820; 536870910; 1073741820]) (VL 3072); (* 149 *)
  VBin OAdd 4 1024 (VL 2048) (VL 8192);
  VBin OSub 4 8196 (VC [536870910; 536870908; 536870910; 536870908]) (VL 3076);
  VBin OAdd 4 1028 (VL 2052) (VL 8196);
  VBin OSub 4 8200 (VC [536870910; 536870910; 536870910; 536870910]) (VL 3080);
  VBin OAdd 4 1032 (VL 2056) (VL 8200);
  VBin OSub 4 8204 (VC [536870910; 536870910; 536870910; 536870910]) (VL 3084);
  VBin OAdd 4 1036 (VL 2060) (VL 8204);
  VBin OSub 4 8208 (VC [536870910; 536870910; 536870910; 536870910]) (VL 3088);
  VBin OAdd 4 1040 (VL 2064) (VL 8208);
  VBin OSub 4 8212 (VC [536870910; 536870910; 536870910; 536870910]) (VL 3092);
  VBin OAdd 4 1044 (VL 2068) (VL 8212);
  VBin OSub 4 8216 (VC [536870910; 536870910; 536870910; 536870910]) (VL 3096);
  VBin OAdd 4 1048 (VL 2072) (VL 8216);
  VBin OSub 4 8220 (VC [536870910; 536870910; 536870910; 536870910]) (VL 3100);
  VBin OAdd 4 1052 (VL 2076) (VL 8220)].

(** src/eltfp448_2w_redradix.c:169 *)
Definition v448_2w_subadd0 : list vinstr := [
  VPerm64 78 8192 (VL 2048); (* 175 *)
  VMov 4 8196 (VL 2048); (* 177 *)
  VMov 4 8200 (VL 8192); (* 178 *)
  VBin OAdd 4 8204 (VL 8196) (VC [536870910; 1073741820; 0; 0]); (* 183 *)
  VBin OXor 4 8208 (VL 8200) (VC [18446744073709551615; 18446744073709551615; 0; 0]);
  VBin OSub 4 8212 (VL 8208) (VC [18446744073709551615; 18446744073709551615; 0; 0]);
  VBin OAdd 4 1024 (VL 8204) (VL 8212);
  VPerm64 78 8216 (VL 2052); (* 175 *)
  VMov 4 8220 (VL 2052); (* 177 *)
  VMov 4 8224 (VL 8216); (* 178 *)
  VBin OAdd 4 8228 (VL 8220) (VC [536870910; 536870908; 0; 0]); (* 183 *)
  VBin OXor 4 8232 (VL 8224) (VC [18446744073709551615; 18446744073709551615; 0; 0]);
  VBin OSub 4 8236 (VL 8232) (VC [18446744073709551615; 18446744073709551615; 0; 0]);
  VBin OAdd 4 1028 (VL 8228) (VL 8236);
  VPerm64 78 8240 (VL 2056); (* 175 *)
  VMov 4 8244 (VL 2056); (* 177 *)
  VMov 4 8248 (VL 8240); (* 178 *)
  VBin OAdd 4 8252 (VL 8244) (VC [536870910; 536870910; 0; 0]); (* 183 *)
  VBin OXor 4 8256 (VL 8248) (VC [18446744073709551615; 18446744073709551615; 0; 0]);
  VBin OSub 4 8260 (VL 8256) (VC [18446744073709551615; 18446744073709551615; 0; 0]);
  VBin OAdd 4 1032 (VL 8252) (VL 8260);
  VPerm64 78 8264 (VL 2060); (* 175 *)
  VMov 4 8268 (VL 2060); (* 177 *)
  VMov 4 8272 (VL 8264); (* 178 *)
  VBin OAdd 4 8276 (VL 8268) (VC [536870910; 536870910; 0; 0]); (* 183 *)
  VBin OXor 4 8280 (VL 8272) (VC [18446744073709551615; 18446744073709551615; 0; 0]);
  VBin OSub 4 8284 (VL 8280) (VC [18446744073709551615; 18446744073709551615; 0; 0]);
  VBin OAdd 4 1036 (VL 8276) (VL 8284);
  VPerm64 78 8288 (VL 2064); (* 175 *)
  VMov 4 8292 (VL 2064); (* 177 *)
  VMov 4 8296 (VL 8288); (* 178 *)
  VBin OAdd 4 8300 (VL 8292) (VC [536870910; 536870910; 0; 0]); (* 183 *)
  VBin OXor 4 8304 (VL 8296) (VC [18446744073709551615; 18446744073709551615; 0; 0]);
  VBin OSub 4 8308 (VL 8304) (VC [18446744073709551615; 18446744073709551615; 0; 0]);
  VBin OAdd 4 1040 (VL 8300) (VL 8308);
  VPerm64 78 8312 (VL 2068); (* 175 *)
  VMov 4 8316 (VL 2068); (* 177 *)
  VMov 4 8320 (VL 8312); (* 178 *)
  VBin OAdd 4 8324 (VL 8316) (VC [536870910; 536870910; 0; 0]); (* 183 *)
  VBin OXor 4 8328 (VL 8320) (VC [18446744073709551615; 18446744073709551615; 0; 0]);
  VBin OSub 4 8332 (VL 8328) (VC [18446744073709551615; 18446744073709551615; 0; 0]);
  VBin OAdd 4 1044 (VL 8324) (VL 8332);
  VPerm64 78 8336 (VL 2072); (* 175 *)
  VMov 4 8340 (VL 2072); (* 177 *)
  VMov 4 8344 (VL 8336); (* 178 *)
  VBin OAdd 4 8348 (VL 8340) (VC [536870910; 536870910; 0; 0]); (* 183 *)
  VBin OXor 4 8352 (VL 8344) (VC [18446744073709551615; 18446744073709551615; 0; 0]);
  VBin OSub 4 8356 (VL 8352) (VC [18446744073709551615; 18446744073709551615; 0; 0]);
  VBin OAdd 4 1048 (VL 8348) (VL 8356);
  VPerm64 78 8360 (VL 2076); (* 175 *)
  VMov 4 8364 (VL 2076); (* 177 *)
  VMov 4 8368 (VL 8360); (* 178 *)
  VBin OAdd 4 8372 (VL 8364) (VC [536870910; 536870910; 0; 0]); (* 183 *)
  VBin OXor 4 8376 (VL 8368) (VC [18446744073709551615; 18446744073709551615; 0; 0]);
  VBin OSub 4 8380 (VL 8376) (VC [18446744073709551615; 18446744073709551615; 0; 0]);
  VBin OAdd 4 1052 (VL 8372) (VL 8380)].

(** src/eltfp448_2w_redradix.c:169 *)
Definition v448_2w_subadd1 : list vinstr := [
  VPerm64 78 8192 (VL 2048); (* 175 *)
  VMov 4 8196 (VL 2048); (* 180 *)
  VMov 4 8200 (VL 8192); (* 181 *)
  VBin OAdd 4 8204 (VL 8200) (VC [536870910; 1073741820; 0; 0]); (* 183 *)
  VBin OXor 4 8208 (VL 8196) (VC [18446744073709551615; 18446744073709551615; 0; 0]);
  VBin OSub 4 8212 (VL 8208) (VC [18446744073709551615; 18446744073709551615; 0; 0]);
  VBin OAdd 4 1024 (VL 8204) (VL 8212);
  VPerm64 78 8216 (VL 2052); (* 175 *)
  VMov 4 8220 (VL 2052); (* 180 *)
  VMov 4 8224 (VL 8216); (* 181 *)
  VBin OAdd 4 8228 (VL 8224) (VC [536870910; 536870908; 0; 0]); (* 183 *)
  VBin OXor 4 8232 (VL 8220) (VC [18446744073709551615; 18446744073709551615; 0; 0]);
  VBin OSub 4 8236 (VL 8232) (VC [18446744073709551615; 18446744073709551615; 0; 0]);
  VBin OAdd 4 1028 (VL 8228) (VL 8236);
  VPerm64 78 8240 (VL 2056); (* 175 *)
  VMov 4 8244 (VL 2056); (* 180 *)
  VMov 4 8248 (VL 8240); (* 181 *)
  VBin OAdd 4 8252 (VL 8248) (VC [536870910; 536870910; 0; 0]); (* 183 *)
  VBin OXor 4 8256 (VL 8244) (VC [18446744073709551615; 18446744073709551615; 0; 0]);
  VBin OSub 4 8260 (VL 8256) (VC [18446744073709551615; 18446744073709551615; 0; 0]);
  VBin OAdd 4 1032 (VL 8252) (VL 8260);
  VPerm64 78 8264 (VL 2060); (* 175 *)
  VMov 4 8268 (VL 2060); (* 180 *)
  VMov 4 8272 (VL 8264); (* 181 *)
  VBin OAdd 4 8276 (VL 8272) (VC [536870910; 536870910; 0; 0]); (* 183 *)
  VBin OXor 4 8280 (VL 8268) (VC [18446744073709551615; 18446744073709551615; 0; 0]);
  VBin OSub 4 8284 (VL 8280) (VC [18446744073709551615; 18446744073709551615; 0; 0]);
  VBin OAdd 4 1036 (VL 8276) (VL 8284);
  VPerm64 78 8288 (VL 2064); (* 175 *)
  VMov 4 8292 (VL 2064); (* 180 *)
  VMov 4 8296 (VL 8288); (* 181 *)
  VBin OAdd 4 8300 (VL 8296) (VC [536870910; 536870910; 0; 0]); (* 183 *)
  VBin OXor 4 8304 (VL 8292) (VC [18446744073709551615; 18446744073709551615; 0; 0]);
  VBin OSub 4 8308 (VL 8304) (VC [18446744073709551615; 18446744073709551615; 0; 0]);
  VBin OAdd 4 1040 (VL 8300) (VL 8308);
  VPerm64 78 8312 (VL 2068); (* 175 *)
  VMov 4 8316 (VL 2068); (* 180 *)
  VMov 4 8320 (VL 8312); (* 181 *)
  VBin OAdd 4 8324 (VL 8320) (VC [536870910; 536870910; 0; 0]); (* 183 *)
  VBin OXor 4 8328 (VL 8316) (VC [18446744073709551615; 18446744073709551615; 0; 0]);
  VBin OSub 4 8332 (VL 8328) (VC [18446744073709551615; 18446744073709551615; 0; 0]);
  VBin OAdd 4 1044 (VL 8324) (VL 8332);
  VPerm64 78 8336 (VL 2072); (* 175 *)
  VMov 4 8340 (VL 2072); (* 180 *)
  VMov 4 8344 (VL 8336); (* 181 *)
  VBin OAdd 4 8348 (VL 8344) (VC [536870910; 536870910; 0; 0]); (* 183 *)
  VBin OXor 4 8352 (VL 8340) (VC [18446744073709551615; 18446744073709551615; 0; 0]);
  VBin OSub 4 8356 (VL 8352) (VC [18446744073709551615; 18446744073709551615; 0; 0]);
  VBin OAdd 4 1048 (VL 8348) (VL 8356);
  VPerm64 78 8360 (VL 2076); (* 175 *)
  VMov 4 8364 (VL 2076); (* 180 *)
  VMov 4 8368 (VL 8360); (* 181 *)
  VBin OAdd 4 8372 (VL 8368) (VC [536870910; 536870910; 0; 0]); (* 183 *)
  VBin OXor 4 8376 (VL 8364) (VC [18446744073709551615; 18446744073709551615; 0; 0]);
  VBin OSub 4 8380 (VL 8376) (VC [18446744073709551615; 18446744073709551615; 0; 0]);
  VBin OAdd 4 1052 (VL 8372) (VL 8380)].

(** src/eltfp448_2w_redradix.c:195 *)
Definition v448_2w_ngz : list vinstr := [
  VBin OXor 4 8192 (VL 2048) (VC [18446744073709551615; 18446744073709551615; 0; 0]); (* 200 *)
  VBin OSub 4 8196 (VL 8192) (VC [18446744073709551615; 18446744073709551615; 0; 0]);
  VBin OAdd 4 1024 (VC [536870910; 1073741820; 0; 0]) (VL 8196);
  VBin OXor 4 8200 (VL 2052) (VC [18446744073709551615; 18446744073709551615; 0; 0]);
  VBin OSub 4 8204 (VL 8200) (VC [18446744073709551615; 18446744073709551615; 0; 0]);
  VBin OAdd 4 1028 (VC [536870910; 536870908; 0; 0]) (VL 8204);
  VBin OXor 4 8208 (VL 2056) (VC [18446744073709551615; 18446744073709551615; 0; 0]);
  VBin OSub 4 8212 (VL 8208) (VC [18446744073709551615; 18446744073709551615; 0; 0]);
  VBin OAdd 4 1032 (VC [536870910; 536870910; 0; 0]) (VL 8212);
  VBin OXor 4 8216 (VL 2060) (VC [18446744073709551615; 18446744073709551615; 0; 0]);
  VBin OSub 4 8220 (VL 8216) (VC [18446744073709551615; 18446744073709551615; 0; 0]);
  VBin OAdd 4 1036 (VC [536870910; 536870910; 0; 0]) (VL 8220);
  VBin OXor 4 8224 (VL 2064) (VC [18446744073709551615; 18446744073709551615; 0; 0]);
  VBin OSub 4 8228 (VL 8224) (VC [18446744073709551615; 18446744073709551615; 0; 0]);
  VBin OAdd 4 1040 (VC [536870910; 536870910; 0; 0]) (VL 8228);
  VBin OXor 4 8232 (VL 2068) (VC [18446744073709551615; 18446744073709551615; 0; 0]);
  VBin OSub 4 8236 (VL 8232) (VC [18446744073709551615; 18446744073709551615; 0; 0]);
  VBin OAdd 4 1044 (VC [536870910; 536870910; 0; 0]) (VL 8236);
  VBin OXor 4 8240 (VL 2072) (VC [18446744073709551615; 18446744073709551615; 0; 0]);
  VBin OSub 4 8244 (VL 8240) (VC [18446744073709551615; 18446744073709551615; 0; 0]);
  VBin OAdd 4 1048 (VC [536870910; 536870910; 0; 0]) (VL 8244);
  VBin OXor 4 8248 (VL 2076) (VC [18446744073709551615; 18446744073709551615; 0; 0]);
  VBin OSub 4 8252 (VL 8248) (VC [18446744073709551615; 18446744073709551615; 0; 0]);
  VBin OAdd 4 1052 (VC [536870910; 536870910; 0; 0]) (VL 8252)].

(** src/eltfp448_2w_redradix.c:204 *)
Definition v448_2w_addsub : list vinstr := [
  VBin OAdd 4 8192 (VL 1024) (VL 2048); (* 209 *)
  VBin OSub 4 8200 (VC [536870910; 1073741820; 536870910; 1073741820]) (VL 2048); (* 210 *)
  VBin OAdd 4 8196 (VL 1024) (VL 8200);
  VMov 4 1024 (VL 8192); (* 211 *)
  VMov 4 2048 (VL 8196); (* 212 *)
  VBin OAdd 4 8192 (VL 1028) (VL 2052); (* 209 *)
  VBin OSub 4 8204 (VC [536870910; 536870908; 536870910; 536870908]) (VL 2052); (* 210 *)
  VBin OAdd 4 8196 (VL 1028) (VL 8204);
  VMov 4 1028 (VL 8192); (* 211 *)
  VMov 4 2052 (VL 8196); (* 212 *)
  VBin OAdd 4 8192 (VL 1032) (VL 2056); (* 209 *)
  VBin OSub 4 8208 (VC [536870910; 536870910; 536870910; 536870910]) (VL 2056); (* 210 *)
  VBin OAdd 4 8196 (VL 1032) (VL 8208);
  VMov 4 1032 (VL 8192); (* 211 *)
  VMov 4 2056 (VL 8196); (* 212 *)
  VBin OAdd 4 8192 (VL 1036) (VL 2060); (* 209 *)
  VBin OSub 4 8212 (VC [536870910; 536870910; 536870910; 536870910]) (VL 2060); (* 210 *)
  VBin OAdd 4 8196 (VL 1036) (VL 8212);
  VMov 4 1036 (VL 8192); (* 211 *)
  VMov 4 2060 (VL 8196); (* 212 *)
  VBin OAdd 4 8192 (VL 1040) (VL 2064); (* 209 *)
  VBin OSub 4 8216 (VC [536870910; 536870910; 536870910; 536870910]) (VL 2064); (* 210 *)
  VBin OAdd 4 8196 (VL 1040) (VL 8216);
  VMov 4 1040 (VL 8192); (* 211 *)
  VMov 4 2064 (VL 8196); (* 212 *)
  VBin OAdd 4 8192 (VL 1044) (VL 2068); (* 209 *)
  VBin OSub 4 8220 (VC [536870910; 536870910; 536870910; 536870910]) (VL 2068); (* 210 *)
  VBin OAdd 4 8196 (VL 1044) (VL 8220);
  VMov 4 1044 (VL 8192); (* 211 *)
  VMov 4 2068 (VL 8196); (* 212 *)
  VBin OAdd 4 8192 (VL 1048) (VL 2072); (* 209 *)
  VBin OSub 4 8224 (VC [536870910; 536870910; 536870910; 536870910]) (VL 2072); (* 210 *)
  VBin OAdd 4 8196 (VL 1048) (VL 8224);
  VMov 4 1048 (VL 8192); (* 211 *)
  VMov 4 2072 (VL 8196); (* 212 *)
  VBin OAdd 4 8192 (VL 1052) (VL 2076); (* 209 *)
  VBin OSub 4 8228 (VC [536870910; 536870910; 536870910; 536870910]) (VL 2076); (* 210 *)
  VBin OAdd 4 8196 (VL 1052) (VL 8228);
  VMov 4 1052 (VL 8192); (* 211 *)
  VMov 4 2076 (VL 8196) (* 212 *)].

(** src/eltfp448_2w_redradix.c:373 *)
Definition v448_2w_intmul_karat : list vinstr := [
  VMov 4 8192 (VL 2048); (* 379 *)
  VMov 4 8224 (VL 3072);
  VMov 4 8196 (VL 2052); (* 380 *)
  VMov 4 8228 (VL 3076);
  VMov 4 8200 (VL 2056); (* 381 *)
  VMov 4 8232 (VL 3080);
  VMov 4 8204 (VL 2060); (* 382 *)
  VMov 4 8236 (VL 3084);
  VMov 4 8208 (VL 2064); (* 383 *)
  VMov 4 8240 (VL 3088);
  VMov 4 8212 (VL 2068); (* 384 *)
  VMov 4 8244 (VL 3092);
  VMov 4 8216 (VL 2072); (* 385 *)
  VMov 4 8248 (VL 3096);
  VMov 4 8220 (VL 2076); (* 386 *)
  VMov 4 8252 (VL 3100);
  VBin OMul32 4 8348 (VL 8192) (VL 8224); (* 388 *)
  VBin OMul32 4 8352 (VL 8196) (VL 8224);
  VBin OMul32 4 8356 (VL 8200) (VL 8224);
  VBin OMul32 4 8360 (VL 8204) (VL 8224);
  VBin OMul32 4 8432 (VL 8192) (VL 8228);
  VBin OAdd 4 8352 (VL 8352) (VL 8432);
  VBin OMul32 4 8436 (VL 8196) (VL 8228);
  VBin OAdd 4 8356 (VL 8356) (VL 8436);
  VBin OMul32 4 8440 (VL 8200) (VL 8228);
  VBin OAdd 4 8360 (VL 8360) (VL 8440);
  VBin OMul32 4 8364 (VL 8204) (VL 8228);
  VBin OMul32 4 8444 (VL 8192) (VL 8232);
  VBin OAdd 4 8356 (VL 8356) (VL 8444);
  VBin OMul32 4 8448 (VL 8196) (VL 8232);
  VBin OAdd 4 8360 (VL 8360) (VL 8448);
  VBin OMul32 4 8452 (VL 8200) (VL 8232);
  VBin OAdd 4 8364 (VL 8364) (VL 8452);
  VBin OMul32 4 8368 (VL 8204) (VL 8232);
  VBin OMul32 4 8456 (VL 8192) (VL 8236);
  VBin OAdd 4 8360 (VL 8360) (VL 8456);
  VBin OMul32 4 8460 (VL 8196) (VL 8236);
  VBin OAdd 4 8364 (VL 8364) (VL 8460);
  VBin OMul32 4 8464 (VL 8200) (VL 8236);
  VBin OAdd 4 8368 (VL 8368) (VL 8464);
  VBin OMul32 4 8372 (VL 8204) (VL 8236);
  VBin OMul32 4 8376 (VL 8208) (VL 8240);
  VBin OMul32 4 8380 (VL 8212) (VL 8240);
  VBin OMul32 4 8384 (VL 8216) (VL 8240);
  VBin OMul32 4 8388 (VL 8220) (VL 8240);
  VBin OMul32 4 8468 (VL 8208) (VL 8244);
  VBin OAdd 4 8380 (VL 8380) (VL 8468);
  VBin OMul32 4 8472 (VL 8212) (VL 8244);
  VBin OAdd 4 8384 (VL 8384) (VL 8472);
  VBin OMul32 4 8476 (VL 8216) (VL 8244);
  VBin OAdd 4 8388 (VL 8388) (VL 8476);
  VBin OMul32 4 8392 (VL 8220) (VL 8244);
  VBin OMul32 4 8480 (VL 8208) (VL 8248);
  VBin OAdd 4 8384 (VL 8384) (VL 8480);
  VBin OMul32 4 8484 (VL 8212) (VL 8248);
  VBin OAdd 4 8388 (VL 8388) (VL 8484);
  VBin OMul32 4 8488 (VL 8216) (VL 8248);
  VBin OAdd 4 8392 (VL 8392) (VL 8488);
  VBin OMul32 4 8396 (VL 8220) (VL 8248);
  VBin OMul32 4 8492 (VL 8208) (VL 8252);
  VBin OAdd 4 8388 (VL 8388) (VL 8492);
  VBin OMul32 4 8496 (VL 8212) (VL 8252);
  VBin OAdd 4 8392 (VL 8392) (VL 8496);
  VBin OMul32 4 8500 (VL 8216) (VL 8252);
  VBin OAdd 4 8396 (VL 8396) (VL 8500);
  VBin OMul32 4 8400 (VL 8220) (VL 8252);
  VBin OAdd 4 8504 (VL 8192) (VL 8208);
  VBin OAdd 4 8508 (VL 8224) (VL 8240);
  VBin OMul32 4 8404 (VL 8504) (VL 8508);
  VBin OAdd 4 8512 (VL 8196) (VL 8212);
  VBin OAdd 4 8516 (VL 8224) (VL 8240);
  VBin OMul32 4 8408 (VL 8512) (VL 8516);
  VBin OAdd 4 8520 (VL 8200) (VL 8216);
  VBin OAdd 4 8524 (VL 8224) (VL 8240);
  VBin OMul32 4 8412 (VL 8520) (VL 8524);
  VBin OAdd 4 8528 (VL 8204) (VL 8220);
  VBin OAdd 4 8532 (VL 8224) (VL 8240);
  VBin OMul32 4 8416 (VL 8528) (VL 8532);
  VBin OAdd 4 8536 (VL 8192) (VL 8208);
  VBin OAdd 4 8540 (VL 8228) (VL 8244);
  VBin OMul32 4 8544 (VL 8536) (VL 8540);
  VBin OAdd 4 8408 (VL 8408) (VL 8544);
  VBin OAdd 4 8548 (VL 8196) (VL 8212);
  VBin OAdd 4 8552 (VL 8228) (VL 8244);
  VBin OMul32 4 8556 (VL 8548) (VL 8552);
  VBin OAdd 4 8412 (VL 8412) (VL 8556);
  VBin OAdd 4 8560 (VL 8200) (VL 8216);
  VBin OAdd 4 8564 (VL 8228) (VL 8244);
  VBin OMul32 4 8568 (VL 8560) (VL 8564);
  VBin OAdd 4 8416 (VL 8416) (VL 8568);
  VBin OAdd 4 8572 (VL 8204) (VL 8220);
  VBin OAdd 4 8576 (VL 8228) (VL 8244);
  VBin OMul32 4 8420 (VL 8572) (VL 8576);
  VBin OAdd 4 8580 (VL 8192) (VL 8208);
  VBin OAdd 4 8584 (VL 8232) (VL 8248);
  VBin OMul32 4 8588 (VL 8580) (VL 8584);
  VBin OAdd 4 8412 (VL 8412) (VL 8588);
  VBin OAdd 4 8592 (VL 8196) (VL 8212);
  VBin OAdd 4 8596 (VL 8232) (VL 8248);
  VBin OMul32 4 8600 (VL 8592) (VL 8596);
  VBin OAdd 4 8416 (VL 8416) (VL 8600);
  VBin OAdd 4 8604 (VL 8200) (VL 8216);
  VBin OAdd 4 8608 (VL 8232) (VL 8248);
  VBin OMul32 4 8612 (VL 8604) (VL 8608);
  VBin OAdd 4 8420 (VL 8420) (VL 8612);
  VBin OAdd 4 8616 (VL 8204) (VL 8220);
  VBin OAdd 4 8620 (VL 8232) (VL 8248);
  VBin OMul32 4 8424 (VL 8616) (VL 8620);
  VBin OAdd 4 8624 (VL 8192) (VL 8208);
  VBin OAdd 4 8628 (VL 8236) (VL 8252);
  VBin OMul32 4 8632 (VL 8624) (VL 8628);
  VBin OAdd 4 8416 (VL 8416) (VL 8632);
  VBin OAdd 4 8636 (VL 8196) (VL 8212);
  VBin OAdd 4 8640 (VL 8236) (VL 8252);
  VBin OMul32 4 8644 (VL 8636) (VL 8640);
  VBin OAdd 4 8420 (VL 8420) (VL 8644);
  VBin OAdd 4 8648 (VL 8200) (VL 8216);
  VBin OAdd 4 8652 (VL 8236) (VL 8252);
  VBin OMul32 4 8656 (VL 8648) (VL 8652);
  VBin OAdd 4 8424 (VL 8424) (VL 8656);
  VBin OAdd 4 8660 (VL 8204) (VL 8220);
  VBin OAdd 4 8664 (VL 8236) (VL 8252);
  VBin OMul32 4 8428 (VL 8660) (VL 8664);
  VBin OSub 4 8668 (VL 8364) (VL 8376);
  VBin OSub 4 8676 (VL 8368) (VL 8380);
  VBin OSub 4 8684 (VL 8372) (VL 8384);
  VMov 4 8256 (VL 8348);
  VBin OSub 4 8692 (VL 8420) (VL 8392);
  VBin OSub 4 8288 (VL 8692) (VL 8668);
  VMov 4 8260 (VL 8352);
  VBin OSub 4 8696 (VL 8424) (VL 8396);
  VBin OSub 4 8292 (VL 8696) (VL 8676);
  VMov 4 8264 (VL 8356);
  VBin OSub 4 8700 (VL 8428) (VL 8400);
  VBin OSub 4 8296 (VL 8700) (VL 8684);
  VMov 4 8268 (VL 8360);
  VMov 4 8300 (VL 8388);
  VBin OSub 4 8704 (VL 8404) (VL 8348);
  VBin OAdd 4 8272 (VL 8668) (VL 8704);
  VMov 4 8304 (VL 8392);
  VBin OSub 4 8708 (VL 8408) (VL 8352);
  VBin OAdd 4 8276 (VL 8676) (VL 8708);
  VMov 4 8308 (VL 8396);
  VBin OSub 4 8712 (VL 8412) (VL 8356);
  VBin OAdd 4 8280 (VL 8684) (VL 8712);
  VMov 4 8312 (VL 8400);
  VBin OSub 4 8716 (VL 8416) (VL 8360);
  VBin OSub 4 8284 (VL 8716) (VL 8388);
  VUnpkl 4 8720 (VL 8192) (VL 8208); (* 392 *)
  VUnpkh 4 8724 (VL 8192) (VL 8208);
  VBin OAdd 4 8728 (VL 8720) (VL 8724);
  VUnpkl 4 8736 (VL 8196) (VL 8212); (* 393 *)
  VUnpkh 4 8740 (VL 8196) (VL 8212);
  VBin OAdd 4 8744 (VL 8736) (VL 8740);
  VUnpkl 4 8752 (VL 8200) (VL 8216); (* 394 *)
  VUnpkh 4 8756 (VL 8200) (VL 8216);
  VBin OAdd 4 8760 (VL 8752) (VL 8756);
  VUnpkl 4 8768 (VL 8204) (VL 8220); (* 395 *)
  VUnpkh 4 8772 (VL 8204) (VL 8220);
  VBin OAdd 4 8776 (VL 8768) (VL 8772);
  VUnpkl 4 8784 (VL 8224) (VL 8240); (* 396 *)
  VUnpkh 4 8788 (VL 8224) (VL 8240);
  VBin OAdd 4 8792 (VL 8784) (VL 8788);
  VUnpkl 4 8800 (VL 8228) (VL 8244); (* 397 *)
  VUnpkh 4 8804 (VL 8228) (VL 8244);
  VBin OAdd 4 8808 (VL 8800) (VL 8804);
  VUnpkl 4 8816 (VL 8232) (VL 8248); (* 398 *)
  VUnpkh 4 8820 (VL 8232) (VL 8248);
  VBin OAdd 4 8824 (VL 8816) (VL 8820);
  VUnpkl 4 8832 (VL 8236) (VL 8252); (* 399 *)
  VUnpkh 4 8836 (VL 8236) (VL 8252);
  VBin OAdd 4 8840 (VL 8832) (VL 8836);
  VBin OMul32 4 8848 (VL 8728) (VL 8792); (* 401 *)
  VBin OMul32 4 8852 (VL 8744) (VL 8792);
  VBin OMul32 4 8856 (VL 8760) (VL 8792);
  VBin OMul32 4 8860 (VL 8776) (VL 8792);
  VBin OMul32 4 8904 (VL 8728) (VL 8808);
  VBin OAdd 4 8852 (VL 8852) (VL 8904);
  VBin OMul32 4 8908 (VL 8744) (VL 8808);
  VBin OAdd 4 8856 (VL 8856) (VL 8908);
  VBin OMul32 4 8912 (VL 8760) (VL 8808);
  VBin OAdd 4 8860 (VL 8860) (VL 8912);
  VBin OMul32 4 8864 (VL 8776) (VL 8808);
  VBin OMul32 4 8916 (VL 8728) (VL 8824);
  VBin OAdd 4 8856 (VL 8856) (VL 8916);
  VBin OMul32 4 8920 (VL 8744) (VL 8824);
  VBin OAdd 4 8860 (VL 8860) (VL 8920);
  VBin OMul32 4 8924 (VL 8760) (VL 8824);
  VBin OAdd 4 8864 (VL 8864) (VL 8924);
  VBin OMul32 4 8868 (VL 8776) (VL 8824);
  VBin OMul32 4 8928 (VL 8728) (VL 8840);
  VBin OAdd 4 8860 (VL 8860) (VL 8928);
  VBin OMul32 4 8932 (VL 8744) (VL 8840);
  VBin OAdd 4 8864 (VL 8864) (VL 8932);
  VBin OMul32 4 8936 (VL 8760) (VL 8840);
  VBin OAdd 4 8868 (VL 8868) (VL 8936);
  VBin OMul32 4 8872 (VL 8776) (VL 8840);
  VShuf32 4 78 8940 (VL 8728);
  VBin OAdd 4 8944 (VL 8728) (VL 8940);
  VShuf32 4 78 8952 (VL 8792);
  VBin OAdd 4 8956 (VL 8792) (VL 8952);
  VShuf32 4 78 8964 (VL 8744);
  VBin OAdd 4 8968 (VL 8744) (VL 8964);
  VShuf32 4 78 8976 (VL 8808);
  VBin OAdd 4 8980 (VL 8808) (VL 8976);
  VShuf32 4 78 8988 (VL 8760);
  VBin OAdd 4 8992 (VL 8760) (VL 8988);
  VShuf32 4 78 9000 (VL 8824);
  VBin OAdd 4 9004 (VL 8824) (VL 9000);
  VShuf32 4 78 9012 (VL 8776);
  VBin OAdd 4 9016 (VL 8776) (VL 9012);
  VShuf32 4 78 9024 (VL 8840);
  VBin OAdd 4 9028 (VL 8840) (VL 9024);
  VBin OMul32 4 8876 (VL 8944) (VL 8956);
  VBin OMul32 4 8880 (VL 8968) (VL 8956);
  VBin OMul32 4 8884 (VL 8992) (VL 8956);
  VBin OMul32 4 8888 (VL 9016) (VL 8956);
  VBin OMul32 4 9036 (VL 8944) (VL 8980);
  VBin OAdd 4 8880 (VL 8880) (VL 9036);
  VBin OMul32 4 9040 (VL 8968) (VL 8980);
  VBin OAdd 4 8884 (VL 8884) (VL 9040);
  VBin OMul32 4 9044 (VL 8992) (VL 8980);
  VBin OAdd 4 8888 (VL 8888) (VL 9044);
  VBin OMul32 4 8892 (VL 9016) (VL 8980);
  VBin OMul32 4 9048 (VL 8944) (VL 9004);
  VBin OAdd 4 8884 (VL 8884) (VL 9048);
  VBin OMul32 4 9052 (VL 8968) (VL 9004);
  VBin OAdd 4 8888 (VL 8888) (VL 9052);
  VBin OMul32 4 9056 (VL 8992) (VL 9004);
  VBin OAdd 4 8892 (VL 8892) (VL 9056);
  VBin OMul32 4 8896 (VL 9016) (VL 9004);
  VBin OMul32 4 9060 (VL 8944) (VL 9028);
  VBin OAdd 4 8888 (VL 8888) (VL 9060);
  VBin OMul32 4 9064 (VL 8968) (VL 9028);
  VBin OAdd 4 8892 (VL 8892) (VL 9064);
  VBin OMul32 4 9068 (VL 8992) (VL 9028);
  VBin OAdd 4 8896 (VL 8896) (VL 9068);
  VBin OMul32 4 8900 (VL 9016) (VL 9028);
  VShuf32 4 78 9072 (VL 8864);
  VBin OAdd 4 9076 (VL 8864) (VL 9072);
  VBin OSub 4 9080 (VL 8892) (VL 9076);
  VBlend32 4 51 9084 (VL 9080) (VC [0; 0; 0; 0]);
  VBin OAdd 4 8316 (VL 8848) (VL 9084);
  VShuf32 4 78 9088 (VL 8868);
  VBin OAdd 4 9092 (VL 8868) (VL 9088);
  VBin OSub 4 9096 (VL 8896) (VL 9092);
  VBlend32 4 51 9100 (VL 9096) (VC [0; 0; 0; 0]);
  VBin OAdd 4 8320 (VL 8852) (VL 9100);
  VShuf32 4 78 9104 (VL 8872);
  VBin OAdd 4 9108 (VL 8872) (VL 9104);
  VBin OSub 4 9112 (VL 8900) (VL 9108);
  VBlend32 4 51 9116 (VL 9112) (VC [0; 0; 0; 0]);
  VBin OAdd 4 8324 (VL 8856) (VL 9116);
  VMov 4 8328 (VL 8860);
  VShuf32 4 78 9120 (VL 8848);
  VBin OAdd 4 9124 (VL 8848) (VL 9120);
  VBin OSub 4 9128 (VL 8876) (VL 9124);
  VBlend32 4 204 9132 (VL 9128) (VC [0; 0; 0; 0]);
  VBin OAdd 4 8332 (VL 8864) (VL 9132);
  VShuf32 4 78 9136 (VL 8852);
  VBin OAdd 4 9140 (VL 8852) (VL 9136);
  VBin OSub 4 9144 (VL 8880) (VL 9140);
  VBlend32 4 204 9148 (VL 9144) (VC [0; 0; 0; 0]);
  VBin OAdd 4 8336 (VL 8868) (VL 9148);
  VShuf32 4 78 9152 (VL 8856);
  VBin OAdd 4 9156 (VL 8856) (VL 9152);
  VBin OSub 4 9160 (VL 8884) (VL 9156);
  VBlend32 4 204 9164 (VL 9160) (VC [0; 0; 0; 0]);
  VBin OAdd 4 8340 (VL 8872) (VL 9164);
  VShuf32 4 78 9168 (VL 8860);
  VBin OAdd 4 9172 (VL 8860) (VL 9168);
  VBin OSub 4 9176 (VL 8888) (VL 9172);
  VBlend32 4 204 8344 (VL 9176) (VC [0; 0; 0; 0]);
  VUnpkl 4 9180 (VL 8256) (VL 8288); (* 405 *)
  VUnpkh 4 9188 (VL 8256) (VL 8288);
  VBlend32 4 204 9196 (VL 8256) (VL 8316);
  VBin OSub 4 9204 (VL 8316) (VL 9180);
  VShuf32 4 78 9208 (VL 9204);
  VBin OAdd 4 9212 (VL 9208) (VL 9188);
  VBin OAdd 4 1024 (VL 9212) (VL 9196);
  VUnpkl 4 9216 (VL 8260) (VL 8292); (* 406 *)
  VUnpkh 4 9224 (VL 8260) (VL 8292);
  VBlend32 4 204 9232 (VL 8260) (VL 8320);
  VBin OSub 4 9240 (VL 8320) (VL 9216);
  VShuf32 4 78 9244 (VL 9240);
  VBin OAdd 4 9248 (VL 9244) (VL 9224);
  VBin OAdd 4 1028 (VL 9248) (VL 9232);
  VUnpkl 4 9252 (VL 8264) (VL 8296); (* 407 *)
  VUnpkh 4 9260 (VL 8264) (VL 8296);
  VBlend32 4 204 9268 (VL 8264) (VL 8324);
  VBin OSub 4 9276 (VL 8324) (VL 9252);
  VShuf32 4 78 9280 (VL 9276);
  VBin OAdd 4 9284 (VL 9280) (VL 9260);
  VBin OAdd 4 1032 (VL 9284) (VL 9268);
  VUnpkl 4 9288 (VL 8268) (VL 8300); (* 408 *)
  VUnpkh 4 9296 (VL 8268) (VL 8300);
  VBlend32 4 204 9304 (VL 8268) (VL 8328);
  VBin OSub 4 9312 (VL 8328) (VL 9288);
  VShuf32 4 78 9316 (VL 9312);
  VBin OAdd 4 9320 (VL 9316) (VL 9296);
  VBin OAdd 4 1036 (VL 9320) (VL 9304);
  VUnpkl 4 9324 (VL 8272) (VL 8304); (* 409 *)
  VUnpkh 4 9332 (VL 8272) (VL 8304);
  VBlend32 4 204 9340 (VL 8272) (VL 8332);
  VBin OSub 4 9348 (VL 8332) (VL 9324);
  VShuf32 4 78 9352 (VL 9348);
  VBin OAdd 4 9356 (VL 9352) (VL 9332);
  VBin OAdd 4 1040 (VL 9356) (VL 9340);
  VUnpkl 4 9360 (VL 8276) (VL 8308); (* 410 *)
  VUnpkh 4 9368 (VL 8276) (VL 8308);
  VBlend32 4 204 9376 (VL 8276) (VL 8336);
  VBin OSub 4 9384 (VL 8336) (VL 9360);
  VShuf32 4 78 9388 (VL 9384);
  VBin OAdd 4 9392 (VL 9388) (VL 9368);
  VBin OAdd 4 1044 (VL 9392) (VL 9376);
  VUnpkl 4 9396 (VL 8280) (VL 8312); (* 411 *)
  VUnpkh 4 9404 (VL 8280) (VL 8312);
  VBlend32 4 204 9412 (VL 8280) (VL 8340);
  VBin OSub 4 9420 (VL 8340) (VL 9396);
  VShuf32 4 78 9424 (VL 9420);
  VBin OAdd 4 9428 (VL 9424) (VL 9404);
  VBin OAdd 4 1048 (VL 9428) (VL 9412);
  VUnpkl 4 9432 (VL 8284) (VC [0; 0; 0; 0]); (* 412 *)
  VUnpkh 4 9440 (VL 8284) (VC [0; 0; 0; 0]);
  VBlend32 4 204 9448 (VL 8284) (VL 8344);
  VBin OSub 4 9456 (VL 8344) (VL 9432);
  VShuf32 4 78 9460 (VL 9456);
  VBin OAdd 4 9464 (VL 9460) (VL 9440);
  VBin OAdd 4 1052 (VL 9464) (VL 9448)].

(** src/eltfp448_2w_redradix.c:419 *)
Definition v448_2w_intsqr_karat : list vinstr := [
  VMov 4 8192 (VL 1024); (* 424 *)
  VMov 4 8196 (VL 1028); (* 425 *)
  VMov 4 8200 (VL 1032); (* 426 *)
  VMov 4 8204 (VL 1036); (* 427 *)
  VMov 4 8208 (VL 1040); (* 428 *)
  VMov 4 8212 (VL 1044); (* 429 *)
  VMov 4 8216 (VL 1048); (* 430 *)
  VMov 4 8220 (VL 1052); (* 431 *)
  VBin OMul32 4 8400 (VL 8192) (VL 8200); (* 433 *)
  VBin OMul32 4 8408 (VL 8196) (VL 8204);
  VBin OMul32 4 8316 (VL 8192) (VL 8192);
  VBin OMul32 4 8320 (VL 8192) (VL 8196);
  VBin OAdd 4 8320 (VL 8320) (VL 8320);
  VBin OMul32 4 8324 (VL 8196) (VL 8196);
  VBin OAdd 4 8416 (VL 8400) (VL 8400);
  VBin OAdd 4 8324 (VL 8324) (VL 8416);
  VBin OMul32 4 8328 (VL 8192) (VL 8204);
  VBin OMul32 4 8420 (VL 8196) (VL 8200);
  VBin OAdd 4 8328 (VL 8328) (VL 8420);
  VBin OAdd 4 8328 (VL 8328) (VL 8328);
  VBin OMul32 4 8332 (VL 8200) (VL 8200);
  VBin OAdd 4 8424 (VL 8408) (VL 8408);
  VBin OAdd 4 8332 (VL 8332) (VL 8424);
  VBin OMul32 4 8336 (VL 8200) (VL 8204);
  VBin OAdd 4 8336 (VL 8336) (VL 8336);
  VBin OMul32 4 8340 (VL 8204) (VL 8204);
  VBin OMul32 4 8428 (VL 8208) (VL 8216);
  VBin OMul32 4 8436 (VL 8212) (VL 8220);
  VBin OMul32 4 8344 (VL 8208) (VL 8208);
  VBin OMul32 4 8348 (VL 8208) (VL 8212);
  VBin OAdd 4 8348 (VL 8348) (VL 8348);
  VBin OMul32 4 8352 (VL 8212) (VL 8212);
  VBin OAdd 4 8444 (VL 8428) (VL 8428);
  VBin OAdd 4 8352 (VL 8352) (VL 8444);
  VBin OMul32 4 8356 (VL 8208) (VL 8220);
  VBin OMul32 4 8448 (VL 8212) (VL 8216);
  VBin OAdd 4 8356 (VL 8356) (VL 8448);
  VBin OAdd 4 8356 (VL 8356) (VL 8356);
  VBin OMul32 4 8360 (VL 8216) (VL 8216);
  VBin OAdd 4 8452 (VL 8436) (VL 8436);
  VBin OAdd 4 8360 (VL 8360) (VL 8452);
  VBin OMul32 4 8364 (VL 8216) (VL 8220);
  VBin OAdd 4 8364 (VL 8364) (VL 8364);
  VBin OMul32 4 8368 (VL 8220) (VL 8220);
  VBin OAdd 4 8456 (VL 8192) (VL 8208);
  VBin OAdd 4 8460 (VL 8200) (VL 8216);
  VBin OMul32 4 8464 (VL 8456) (VL 8460);
  VBin OAdd 4 8472 (VL 8196) (VL 8212);
  VBin OAdd 4 8476 (VL 8204) (VL 8220);
  VBin OMul32 4 8480 (VL 8472) (VL 8476);
  VBin OAdd 4 8488 (VL 8192) (VL 8208);
  VBin OAdd 4 8492 (VL 8192) (VL 8208);
  VBin OMul32 4 8372 (VL 8488) (VL 8492);
  VBin OAdd 4 8496 (VL 8192) (VL 8208);
  VBin OAdd 4 8500 (VL 8196) (VL 8212);
  VBin OMul32 4 8376 (VL 8496) (VL 8500);
  VBin OAdd 4 8376 (VL 8376) (VL 8376);
  VBin OAdd 4 8504 (VL 8196) (VL 8212);
  VBin OAdd 4 8508 (VL 8196) (VL 8212);
  VBin OMul32 4 8380 (VL 8504) (VL 8508);
  VBin OAdd 4 8512 (VL 8464) (VL 8464);
  VBin OAdd 4 8380 (VL 8380) (VL 8512);
  VBin OAdd 4 8516 (VL 8192) (VL 8208);
  VBin OAdd 4 8520 (VL 8204) (VL 8220);
  VBin OMul32 4 8384 (VL 8516) (VL 8520);
  VBin OAdd 4 8524 (VL 8196) (VL 8212);
  VBin OAdd 4 8528 (VL 8200) (VL 8216);
  VBin OMul32 4 8532 (VL 8524) (VL 8528);
  VBin OAdd 4 8384 (VL 8384) (VL 8532);
  VBin OAdd 4 8384 (VL 8384) (VL 8384);
  VBin OAdd 4 8536 (VL 8200) (VL 8216);
  VBin OAdd 4 8540 (VL 8200) (VL 8216);
  VBin OMul32 4 8388 (VL 8536) (VL 8540);
  VBin OAdd 4 8544 (VL 8480) (VL 8480);
  VBin OAdd 4 8388 (VL 8388) (VL 8544);
  VBin OAdd 4 8548 (VL 8200) (VL 8216);
  VBin OAdd 4 8552 (VL 8204) (VL 8220);
  VBin OMul32 4 8392 (VL 8548) (VL 8552);
  VBin OAdd 4 8392 (VL 8392) (VL 8392);
  VBin OAdd 4 8556 (VL 8204) (VL 8220);
  VBin OAdd 4 8560 (VL 8204) (VL 8220);
  VBin OMul32 4 8396 (VL 8556) (VL 8560);
  VBin OSub 4 8564 (VL 8332) (VL 8344);
  VBin OSub 4 8572 (VL 8336) (VL 8348);
  VBin OSub 4 8580 (VL 8340) (VL 8352);
  VMov 4 8224 (VL 8316);
  VBin OSub 4 8588 (VL 8388) (VL 8360);
  VBin OSub 4 8256 (VL 8588) (VL 8564);
  VMov 4 8228 (VL 8320);
  VBin OSub 4 8592 (VL 8392) (VL 8364);
  VBin OSub 4 8260 (VL 8592) (VL 8572);
  VMov 4 8232 (VL 8324);
  VBin OSub 4 8596 (VL 8396) (VL 8368);
  VBin OSub 4 8264 (VL 8596) (VL 8580);
  VMov 4 8236 (VL 8328);
  VMov 4 8268 (VL 8356);
  VBin OSub 4 8600 (VL 8372) (VL 8316);
  VBin OAdd 4 8240 (VL 8564) (VL 8600);
  VMov 4 8272 (VL 8360);
  VBin OSub 4 8604 (VL 8376) (VL 8320);
  VBin OAdd 4 8244 (VL 8572) (VL 8604);
  VMov 4 8276 (VL 8364);
  VBin OSub 4 8608 (VL 8380) (VL 8324);
  VBin OAdd 4 8248 (VL 8580) (VL 8608);
  VMov 4 8280 (VL 8368);
  VBin OSub 4 8612 (VL 8384) (VL 8328);
  VBin OSub 4 8252 (VL 8612) (VL 8356);
  VUnpkl 4 8616 (VL 8192) (VL 8208); (* 436 *)
  VUnpkh 4 8620 (VL 8192) (VL 8208);
  VBin OAdd 4 8624 (VL 8616) (VL 8620);
  VUnpkl 4 8632 (VL 8196) (VL 8212); (* 437 *)
  VUnpkh 4 8636 (VL 8196) (VL 8212);
  VBin OAdd 4 8640 (VL 8632) (VL 8636);
  VUnpkl 4 8648 (VL 8200) (VL 8216); (* 438 *)
  VUnpkh 4 8652 (VL 8200) (VL 8216);
  VBin OAdd 4 8656 (VL 8648) (VL 8652);
  VUnpkl 4 8664 (VL 8204) (VL 8220); (* 439 *)
  VUnpkh 4 8668 (VL 8204) (VL 8220);
  VBin OAdd 4 8672 (VL 8664) (VL 8668);
  VBin OMul32 4 8736 (VL 8624) (VL 8656); (* 441 *)
  VBin OMul32 4 8744 (VL 8640) (VL 8672);
  VBin OMul32 4 8680 (VL 8624) (VL 8624);
  VBin OMul32 4 8684 (VL 8624) (VL 8640);
  VBin OAdd 4 8684 (VL 8684) (VL 8684);
  VBin OMul32 4 8688 (VL 8640) (VL 8640);
  VBin OAdd 4 8752 (VL 8736) (VL 8736);
  VBin OAdd 4 8688 (VL 8688) (VL 8752);
  VBin OMul32 4 8692 (VL 8624) (VL 8672);
  VBin OMul32 4 8756 (VL 8640) (VL 8656);
  VBin OAdd 4 8692 (VL 8692) (VL 8756);
  VBin OAdd 4 8692 (VL 8692) (VL 8692);
  VBin OMul32 4 8696 (VL 8656) (VL 8656);
  VBin OAdd 4 8760 (VL 8744) (VL 8744);
  VBin OAdd 4 8696 (VL 8696) (VL 8760);
  VBin OMul32 4 8700 (VL 8656) (VL 8672);
  VBin OAdd 4 8700 (VL 8700) (VL 8700);
  VBin OMul32 4 8704 (VL 8672) (VL 8672);
  VShuf32 4 78 8764 (VL 8624);
  VBin OAdd 4 8768 (VL 8624) (VL 8764);
  VShuf32 4 78 8776 (VL 8640);
  VBin OAdd 4 8780 (VL 8640) (VL 8776);
  VShuf32 4 78 8788 (VL 8656);
  VBin OAdd 4 8792 (VL 8656) (VL 8788);
  VShuf32 4 78 8800 (VL 8672);
  VBin OAdd 4 8804 (VL 8672) (VL 8800);
  VBin OMul32 4 8812 (VL 8768) (VL 8792);
  VBin OMul32 4 8820 (VL 8780) (VL 8804);
  VBin OMul32 4 8708 (VL 8768) (VL 8768);
  VBin OMul32 4 8712 (VL 8768) (VL 8780);
  VBin OAdd 4 8712 (VL 8712) (VL 8712);
  VBin OMul32 4 8716 (VL 8780) (VL 8780);
  VBin OAdd 4 8828 (VL 8812) (VL 8812);
  VBin OAdd 4 8716 (VL 8716) (VL 8828);
  VBin OMul32 4 8720 (VL 8768) (VL 8804);
  VBin OMul32 4 8832 (VL 8780) (VL 8792);
  VBin OAdd 4 8720 (VL 8720) (VL 8832);
  VBin OAdd 4 8720 (VL 8720) (VL 8720);
  VBin OMul32 4 8724 (VL 8792) (VL 8792);
  VBin OAdd 4 8836 (VL 8820) (VL 8820);
  VBin OAdd 4 8724 (VL 8724) (VL 8836);
  VBin OMul32 4 8728 (VL 8792) (VL 8804);
  VBin OAdd 4 8728 (VL 8728) (VL 8728);
  VBin OMul32 4 8732 (VL 8804) (VL 8804);
  VShuf32 4 78 8840 (VL 8696);
  VBin OAdd 4 8844 (VL 8696) (VL 8840);
  VBin OSub 4 8848 (VL 8724) (VL 8844);
  VBlend32 4 51 8852 (VL 8848) (VC [0; 0; 0; 0]);
  VBin OAdd 4 8284 (VL 8680) (VL 8852);
  VShuf32 4 78 8856 (VL 8700);
  VBin OAdd 4 8860 (VL 8700) (VL 8856);
  VBin OSub 4 8864 (VL 8728) (VL 8860);
  VBlend32 4 51 8868 (VL 8864) (VC [0; 0; 0; 0]);
  VBin OAdd 4 8288 (VL 8684) (VL 8868);
  VShuf32 4 78 8872 (VL 8704);
  VBin OAdd 4 8876 (VL 8704) (VL 8872);
  VBin OSub 4 8880 (VL 8732) (VL 8876);
  VBlend32 4 51 8884 (VL 8880) (VC [0; 0; 0; 0]);
  VBin OAdd 4 8292 (VL 8688) (VL 8884);
  VMov 4 8296 (VL 8692);
  VShuf32 4 78 8888 (VL 8680);
  VBin OAdd 4 8892 (VL 8680) (VL 8888);
  VBin OSub 4 8896 (VL 8708) (VL 8892);
  VBlend32 4 204 8900 (VL 8896) (VC [0; 0; 0; 0]);
  VBin OAdd 4 8300 (VL 8696) (VL 8900);
  VShuf32 4 78 8904 (VL 8684);
  VBin OAdd 4 8908 (VL 8684) (VL 8904);
  VBin OSub 4 8912 (VL 8712) (VL 8908);
  VBlend32 4 204 8916 (VL 8912) (VC [0; 0; 0; 0]);
  VBin OAdd 4 8304 (VL 8700) (VL 8916);
  VShuf32 4 78 8920 (VL 8688);
  VBin OAdd 4 8924 (VL 8688) (VL 8920);
  VBin OSub 4 8928 (VL 8716) (VL 8924);
  VBlend32 4 204 8932 (VL 8928) (VC [0; 0; 0; 0]);
  VBin OAdd 4 8308 (VL 8704) (VL 8932);
  VShuf32 4 78 8936 (VL 8692);
  VBin OAdd 4 8940 (VL 8692) (VL 8936);
  VBin OSub 4 8944 (VL 8720) (VL 8940);
  VBlend32 4 204 8312 (VL 8944) (VC [0; 0; 0; 0]);
  VUnpkl 4 8948 (VL 8224) (VL 8256); (* 444 *)
  VUnpkh 4 8956 (VL 8224) (VL 8256);
  VBlend32 4 204 8964 (VL 8224) (VL 8284);
  VBin OSub 4 8972 (VL 8284) (VL 8948);
  VShuf32 4 78 8976 (VL 8972);
  VBin OAdd 4 8980 (VL 8976) (VL 8956);
  VBin OAdd 4 1024 (VL 8980) (VL 8964);
  VUnpkl 4 8984 (VL 8228) (VL 8260); (* 445 *)
  VUnpkh 4 8992 (VL 8228) (VL 8260);
  VBlend32 4 204 9000 (VL 8228) (VL 8288);
  VBin OSub 4 9008 (VL 8288) (VL 8984);
  VShuf32 4 78 9012 (VL 9008);
  VBin OAdd 4 9016 (VL 9012) (VL 8992);
  VBin OAdd 4 1028 (VL 9016) (VL 9000);
  VUnpkl 4 9020 (VL 8232) (VL 8264); (* 446 *)
  VUnpkh 4 9028 (VL 8232) (VL 8264);
  VBlend32 4 204 9036 (VL 8232) (VL 8292);
  VBin OSub 4 9044 (VL 8292) (VL 9020);
  VShuf32 4 78 9048 (VL 9044);
  VBin OAdd 4 9052 (VL 9048) (VL 9028);
  VBin OAdd 4 1032 (VL 9052) (VL 9036);
  VUnpkl 4 9056 (VL 8236) (VL 8268); (* 447 *)
  VUnpkh 4 9064 (VL 8236) (VL 8268);
  VBlend32 4 204 9072 (VL 8236) (VL 8296);
  VBin OSub 4 9080 (VL 8296) (VL 9056);
  VShuf32 4 78 9084 (VL 9080);
  VBin OAdd 4 9088 (VL 9084) (VL 9064);
  VBin OAdd 4 1036 (VL 9088) (VL 9072);
  VUnpkl 4 9092 (VL 8240) (VL 8272); (* 448 *)
  VUnpkh 4 9100 (VL 8240) (VL 8272);
  VBlend32 4 204 9108 (VL 8240) (VL 8300);
  VBin OSub 4 9116 (VL 8300) (VL 9092);
  VShuf32 4 78 9120 (VL 9116);
  VBin OAdd 4 9124 (VL 9120) (VL 9100);
  VBin OAdd 4 1040 (VL 9124) (VL 9108);
  VUnpkl 4 9128 (VL 8244) (VL 8276); (* 449 *)
  VUnpkh 4 9136 (VL 8244) (VL 8276);
  VBlend32 4 204 9144 (VL 8244) (VL 8304);
  VBin OSub 4 9152 (VL 8304) (VL 9128);
  VShuf32 4 78 9156 (VL 9152);
  VBin OAdd 4 9160 (VL 9156) (VL 9136);
  VBin OAdd 4 1044 (VL 9160) (VL 9144);
  VUnpkl 4 9164 (VL 8248) (VL 8280); (* 450 *)
  VUnpkh 4 9172 (VL 8248) (VL 8280);
  VBlend32 4 204 9180 (VL 8248) (VL 8308);
  VBin OSub 4 9188 (VL 8308) (VL 9164);
  VShuf32 4 78 9192 (VL 9188);
  VBin OAdd 4 9196 (VL 9192) (VL 9172);
  VBin OAdd 4 1048 (VL 9196) (VL 9180);
  VUnpkl 4 9200 (VL 8252) (VC [0; 0; 0; 0]); (* 451 *)
  VUnpkh 4 9208 (VL 8252) (VC [0; 0; 0; 0]);
  VBlend32 4 204 9216 (VL 8252) (VL 8312);
  VBin OSub 4 9224 (VL 8312) (VL 9200);
  VShuf32 4 78 9228 (VL 9224);
  VBin OAdd 4 9232 (VL 9228) (VL 9208);
  VBin OAdd 4 1052 (VL 9232) (VL 9216)].

(** src/eltfp448_2w_redradix.c:466 *)
Definition v448_2w_compress : list vinstr := [
  VMov 4 8192 (VL 1024); (* 470 *)
  VMov 4 8196 (VL 1028); (* 471 *)
  VMov 4 8200 (VL 1032); (* 472 *)
  VMov 4 8204 (VL 1036); (* 473 *)
  VMov 4 8208 (VL 1040); (* 474 *)
  VMov 4 8212 (VL 1044); (* 475 *)
  VMov 4 8216 (VL 1048); (* 476 *)
  VMov 4 8220 (VL 1052); (* 477 *)
  VShr 4 28 8224 (VL 8192); (* 482 *)
  VBin OAnd 4 8192 (VL 8192) (VC [268435455; 268435455; 268435455; 268435455]); (* 483 *)
  VBin OAdd 4 8196 (VL 8196) (VL 8224); (* 484 *)
  VShr 4 28 8228 (VL 8196); (* 486 *)
  VBin OAnd 4 8196 (VL 8196) (VC [268435455; 268435455; 268435455; 268435455]); (* 487 *)
  VBin OAdd 4 8200 (VL 8200) (VL 8228); (* 488 *)
  VShr 4 28 8232 (VL 8200); (* 490 *)
  VBin OAnd 4 8200 (VL 8200) (VC [268435455; 268435455; 268435455; 268435455]); (* 491 *)
  VBin OAdd 4 8204 (VL 8204) (VL 8232); (* 492 *)
  VShr 4 28 8236 (VL 8204); (* 494 *)
  VBin OAnd 4 8204 (VL 8204) (VC [268435455; 268435455; 268435455; 268435455]); (* 495 *)
  VBin OAdd 4 8208 (VL 8208) (VL 8236); (* 496 *)
  VShr 4 28 8240 (VL 8208); (* 498 *)
  VBin OAnd 4 8208 (VL 8208) (VC [268435455; 268435455; 268435455; 268435455]); (* 499 *)
  VBin OAdd 4 8212 (VL 8212) (VL 8240); (* 500 *)
  VShr 4 28 8244 (VL 8212); (* 502 *)
  VBin OAnd 4 8212 (VL 8212) (VC [268435455; 268435455; 268435455; 268435455]); (* 503 *)
  VBin OAdd 4 8216 (VL 8216) (VL 8244); (* 504 *)
  VShr 4 28 8248 (VL 8216); (* 506 *)
  VBin OAnd 4 8216 (VL 8216) (VC [268435455; 268435455; 268435455; 268435455]); (* 507 *)
  VBin OAdd 4 8220 (VL 8220) (VL 8248); (* 508 *)
  VShr 4 28 8252 (VL 8220); (* 510 *)
  VBin OAnd 4 8220 (VL 8220) (VC [268435455; 268435455; 268435455; 268435455]); (* 511 *)
  VBlend32 4 51 8256 (VL 8252) (VC [0; 0; 0; 0]); (* 515 *)
  VBin OAdd 4 8192 (VL 8192) (VL 8256);
  VShuf32 4 78 8260 (VL 8252); (* 519 *)
  VBin OAdd 4 8192 (VL 8192) (VL 8260);
  VShr 4 28 8224 (VL 8192); (* 521 *)
  VBin OAnd 4 8192 (VL 8192) (VC [268435455; 268435455; 268435455; 268435455]); (* 522 *)
  VBin OAdd 4 8196 (VL 8196) (VL 8224); (* 523 *)
  VMov 4 1024 (VL 8192); (* 525 *)
  VMov 4 1028 (VL 8196); (* 526 *)
  VMov 4 1032 (VL 8200); (* 527 *)
  VMov 4 1036 (VL 8204); (* 528 *)
  VMov 4 1040 (VL 8208); (* 529 *)
  VMov 4 1044 (VL 8212); (* 530 *)
  VMov 4 1048 (VL 8216); (* 531 *)
  VMov 4 1052 (VL 8220) (* 532 *)].

(** src/eltfp448_2w_redradix.c:535 *)
Definition v448_2w_compress2 : list vinstr := [
  VMov 4 8192 (VL 1024); (* 539 *)
  VMov 4 8196 (VL 2048);
  VMov 4 8200 (VL 1028); (* 540 *)
  VMov 4 8204 (VL 2052);
  VMov 4 8208 (VL 1032); (* 541 *)
  VMov 4 8212 (VL 2056);
  VMov 4 8216 (VL 1036); (* 542 *)
  VMov 4 8220 (VL 2060);
  VMov 4 8224 (VL 1040); (* 543 *)
  VMov 4 8228 (VL 2064);
  VMov 4 8232 (VL 1044); (* 544 *)
  VMov 4 8236 (VL 2068);
  VMov 4 8240 (VL 1048); (* 545 *)
  VMov 4 8244 (VL 2072);
  VMov 4 8248 (VL 1052); (* 546 *)
  VMov 4 8252 (VL 2076);
  VShr 4 28 8256 (VL 8192); (* 553 *)
  VShr 4 28 8264 (VL 8196);
  VBin OAnd 4 8192 (VL 8192) (VC [268435455; 268435455; 268435455; 268435455]); (* 554 *)
  VBin OAnd 4 8196 (VL 8196) (VC [268435455; 268435455; 268435455; 268435455]);
  VBin OAdd 4 8200 (VL 8200) (VL 8256); (* 555 *)
  VBin OAdd 4 8204 (VL 8204) (VL 8264);
  VShr 4 28 8260 (VL 8200); (* 557 *)
  VShr 4 28 8268 (VL 8204);
  VBin OAnd 4 8200 (VL 8200) (VC [268435455; 268435455; 268435455; 268435455]); (* 558 *)
  VBin OAnd 4 8204 (VL 8204) (VC [268435455; 268435455; 268435455; 268435455]);
  VBin OAdd 4 8208 (VL 8208) (VL 8260); (* 559 *)
  VBin OAdd 4 8212 (VL 8212) (VL 8268);
  VShr 4 28 8272 (VL 8208); (* 561 *)
  VShr 4 28 8280 (VL 8212);
  VBin OAnd 4 8208 (VL 8208) (VC [268435455; 268435455; 268435455; 268435455]); (* 562 *)
  VBin OAnd 4 8212 (VL 8212) (VC [268435455; 268435455; 268435455; 268435455]);
  VBin OAdd 4 8216 (VL 8216) (VL 8272); (* 563 *)
  VBin OAdd 4 8220 (VL 8220) (VL 8280);
  VShr 4 28 8276 (VL 8216); (* 565 *)
  VShr 4 28 8284 (VL 8220);
  VBin OAnd 4 8216 (VL 8216) (VC [268435455; 268435455; 268435455; 268435455]); (* 566 *)
  VBin OAnd 4 8220 (VL 8220) (VC [268435455; 268435455; 268435455; 268435455]);
  VBin OAdd 4 8224 (VL 8224) (VL 8276); (* 567 *)
  VBin OAdd 4 8228 (VL 8228) (VL 8284);
  VShr 4 28 8288 (VL 8224); (* 569 *)
  VShr 4 28 8296 (VL 8228);
  VBin OAnd 4 8224 (VL 8224) (VC [268435455; 268435455; 268435455; 268435455]); (* 570 *)
  VBin OAnd 4 8228 (VL 8228) (VC [268435455; 268435455; 268435455; 268435455]);
  VBin OAdd 4 8232 (VL 8232) (VL 8288); (* 571 *)
  VBin OAdd 4 8236 (VL 8236) (VL 8296);
  VShr 4 28 8292 (VL 8232); (* 573 *)
  VShr 4 28 8300 (VL 8236);
  VBin OAnd 4 8232 (VL 8232) (VC [268435455; 268435455; 268435455; 268435455]); (* 574 *)
  VBin OAnd 4 8236 (VL 8236) (VC [268435455; 268435455; 268435455; 268435455]);
  VBin OAdd 4 8240 (VL 8240) (VL 8292); (* 575 *)
  VBin OAdd 4 8244 (VL 8244) (VL 8300);
  VShr 4 28 8304 (VL 8240); (* 577 *)
  VShr 4 28 8312 (VL 8244);
  VBin OAnd 4 8240 (VL 8240) (VC [268435455; 268435455; 268435455; 268435455]); (* 578 *)
  VBin OAnd 4 8244 (VL 8244) (VC [268435455; 268435455; 268435455; 268435455]);
  VBin OAdd 4 8248 (VL 8248) (VL 8304); (* 579 *)
  VBin OAdd 4 8252 (VL 8252) (VL 8312);
  VShr 4 28 8308 (VL 8248); (* 581 *)
  VShr 4 28 8316 (VL 8252);
  VBin OAnd 4 8248 (VL 8248) (VC [268435455; 268435455; 268435455; 268435455]); (* 582 *)
  VBin OAnd 4 8252 (VL 8252) (VC [268435455; 268435455; 268435455; 268435455]);
  VBlend32 4 51 8320 (VL 8308) (VC [0; 0; 0; 0]); (* 586 *)
  VBin OAdd 4 8192 (VL 8192) (VL 8320);
  VBlend32 4 51 8324 (VL 8316) (VC [0; 0; 0; 0]);
  VBin OAdd 4 8196 (VL 8196) (VL 8324);
  VShuf32 4 78 8328 (VL 8308); (* 590 *)
  VBin OAdd 4 8192 (VL 8192) (VL 8328);
  VShuf32 4 78 8332 (VL 8316);
  VBin OAdd 4 8196 (VL 8196) (VL 8332);
  VShr 4 28 8256 (VL 8192); (* 592 *)
  VShr 4 28 8264 (VL 8196);
  VBin OAnd 4 8192 (VL 8192) (VC [268435455; 268435455; 268435455; 268435455]); (* 593 *)
  VBin OAnd 4 8196 (VL 8196) (VC [268435455; 268435455; 268435455; 268435455]);
  VBin OAdd 4 8200 (VL 8200) (VL 8256); (* 594 *)
  VBin OAdd 4 8204 (VL 8204) (VL 8264);
  VMov 4 1024 (VL 8192); (* 596 *)
  VMov 4 2048 (VL 8196);
  VMov 4 1028 (VL 8200); (* 597 *)
  VMov 4 2052 (VL 8204);
  VMov 4 1032 (VL 8208); (* 598 *)
  VMov 4 2056 (VL 8212);
  VMov 4 1036 (VL 8216); (* 599 *)
  VMov 4 2060 (VL 8220);
  VMov 4 1040 (VL 8224); (* 600 *)
  VMov 4 2064 (VL 8228);
  VMov 4 1044 (VL 8232); (* 601 *)
  VMov 4 2068 (VL 8236);
  VMov 4 1048 (VL 8240); (* 602 *)
  VMov 4 2072 (VL 8244);
  VMov 4 1052 (VL 8248); (* 603 *)
  VMov 4 2076 (VL 8252)].

(** src/eltfp448_2w_redradix.c:606 *)
Definition v448_2w_compressfast : list vinstr := [
  VBin OAnd 4 8192 (VL 1024) (VC [268435455; 268435455; 268435455; 268435455]); (* 613 *)
  VBin OAnd 4 8196 (VL 1028) (VC [268435455; 268435455; 268435455; 268435455]); (* 614 *)
  VBin OAnd 4 8200 (VL 1032) (VC [268435455; 268435455; 268435455; 268435455]); (* 615 *)
  VBin OAnd 4 8204 (VL 1036) (VC [268435455; 268435455; 268435455; 268435455]); (* 616 *)
  VBin OAnd 4 8208 (VL 1040) (VC [268435455; 268435455; 268435455; 268435455]); (* 617 *)
  VBin OAnd 4 8212 (VL 1044) (VC [268435455; 268435455; 268435455; 268435455]); (* 618 *)
  VBin OAnd 4 8216 (VL 1048) (VC [268435455; 268435455; 268435455; 268435455]); (* 619 *)
  VBin OAnd 4 8220 (VL 1052) (VC [268435455; 268435455; 268435455; 268435455]); (* 620 *)
  VShr 4 28 8224 (VL 1024); (* 622 *)
  VShr 4 28 8228 (VL 1028); (* 623 *)
  VShr 4 28 8232 (VL 1032); (* 624 *)
  VShr 4 28 8236 (VL 1036); (* 625 *)
  VShr 4 28 8240 (VL 1040); (* 626 *)
  VShr 4 28 8244 (VL 1044); (* 627 *)
  VShr 4 28 8248 (VL 1048); (* 628 *)
  VShr 4 28 8252 (VL 1052); (* 629 *)
  VShuf32 4 78 8256 (VL 8252); (* 631 *)
  VBlend32 4 51 8260 (VL 8252) (VC [0; 0; 0; 0]);
  VBin OAdd 4 8264 (VL 8256) (VL 8260);
  VBin OAdd 4 1024 (VL 8192) (VL 8264);
  VBin OAdd 4 1028 (VL 8196) (VL 8224); (* 634 *)
  VBin OAdd 4 1032 (VL 8200) (VL 8228); (* 635 *)
  VBin OAdd 4 1036 (VL 8204) (VL 8232); (* 636 *)
  VBin OAdd 4 1040 (VL 8208) (VL 8236); (* 637 *)
  VBin OAdd 4 1044 (VL 8212) (VL 8240); (* 638 *)
  VBin OAdd 4 1048 (VL 8216) (VL 8244); (* 639 *)
  VBin OAdd 4 1052 (VL 8220) (VL 8248) (* 640 *)].

(** src/eltfp448_2w_redradix.c:695 *)
Definition v448_2w_naddsub : list vinstr := [
  VBin OSub 4 8192 (VC [536870910; 1073741820; 536870910; 1073741820]) (VL 3072); (* 701 *)
  VBin OSub 4 1024 (VL 8192) (VL 4096); (* 702 *)
  VBin OAdd 4 2048 (VL 8192) (VL 4096); (* 703 *)
  VBin OSub 4 8200 (VC [536870910; 536870908; 536870910; 536870908]) (VL 3076); (* 701 *)
  VBin OSub 4 1028 (VL 8200) (VL 4100); (* 702 *)
  VBin OAdd 4 2052 (VL 8200) (VL 4100); (* 703 *)
  VBin OSub 4 8208 (VC [536870910; 536870910; 536870910; 536870910]) (VL 3080); (* 701 *)
  VBin OSub 4 1032 (VL 8208) (VL 4104); (* 702 *)
  VBin OAdd 4 2056 (VL 8208) (VL 4104); (* 703 *)
  VBin OSub 4 8216 (VC [536870910; 536870910; 536870910; 536870910]) (VL 3084); (* 701 *)
  VBin OSub 4 1036 (VL 8216) (VL 4108); (* 702 *)
  VBin OAdd 4 2060 (VL 8216) (VL 4108); (* 703 *)
  VBin OSub 4 8224 (VC [536870910; 536870910; 536870910; 536870910]) (VL 3088); (* 701 *)
  VBin OSub 4 1040 (VL 8224) (VL 4112); (* 702 *)
  VBin OAdd 4 2064 (VL 8224) (VL 4112); (* 703 *)
  VBin OSub 4 8232 (VC [536870910; 536870910; 536870910; 536870910]) (VL 3092); (* 701 *)
  VBin OSub 4 1044 (VL 8232) (VL 4116); (* 702 *)
  VBin OAdd 4 2068 (VL 8232) (VL 4116); (* 703 *)
  VBin OSub 4 8240 (VC [536870910; 536870910; 536870910; 536870910]) (VL 3096); (* 701 *)
  VBin OSub 4 1048 (VL 8240) (VL 4120); (* 702 *)
  VBin OAdd 4 2072 (VL 8240) (VL 4120); (* 703 *)
  VBin OSub 4 8248 (VC [536870910; 536870910; 536870910; 536870910]) (VL 3100); (* 701 *)
  VBin OSub 4 1052 (VL 8248) (VL 4124); (* 702 *)
  VBin OAdd 4 2076 (VL 8248) (VL 4124) (* 703 *)].

(** src/eltfp448_4w_redradix.c:63 *)
Definition v448_4w_copy : list vinstr := [
  VMov 4 1024 (VL 2048); (* 66 *)
  VMov 4 1028 (VL 2052);
  VMov 4 1032 (VL 2056);
  VMov 4 1036 (VL 2060);
  VMov 4 1040 (VL 2064);
  VMov 4 1044 (VL 2068);
  VMov 4 1048 (VL 2072);
  VMov 4 1052 (VL 2076);
  VMov 4 1056 (VL 2080);
  VMov 4 1060 (VL 2084);
  VMov 4 1064 (VL 2088);
  VMov 4 1068 (VL 2092);
  VMov 4 1072 (VL 2096);
  VMov 4 1076 (VL 2100);
  VMov 4 1080 (VL 2104);
  VMov 4 1084 (VL 2108)].

(** src/eltfp448_4w_redradix.c:70 *)
Definition v448_4w_zero : list vinstr := [
  VMov 4 1024 (VC [0; 0; 0; 0]); (* 73 *)
  VMov 4 1028 (VC [0; 0; 0; 0]);
  VMov 4 1032 (VC [0; 0; 0; 0]);
  VMov 4 1036 (VC [0; 0; 0; 0]);
  VMov 4 1040 (VC [0; 0; 0; 0]);
  VMov 4 1044 (VC [0; 0; 0; 0]);
  VMov 4 1048 (VC [0; 0; 0; 0]);
  VMov 4 1052 (VC [0; 0; 0; 0]);
  VMov 4 1056 (VC [0; 0; 0; 0]);
  VMov 4 1060 (VC [0; 0; 0; 0]);
  VMov 4 1064 (VC [0; 0; 0; 0]);
  VMov 4 1068 (VC [0; 0; 0; 0]);
  VMov 4 1072 (VC [0; 0; 0; 0]);
  VMov 4 1076 (VC [0; 0; 0; 0]);
  VMov 4 1080 (VC [0; 0; 0; 0]);
  VMov 4 1084 (VC [0; 0; 0; 0])].

(** src/eltfp448_4w_redradix.c:77 *)
Definition v448_4w_zip : list vinstr := [
  VMov 4 8192 (VL 2048); (* 78 *)
  VMov 4 8196 (VL 3072); (* 79 *)
  VMov 4 8200 (VL 4096); (* 80 *)
  VMov 4 8204 (VL 5120); (* 81 *)
  VPerm128 32 8208 (VL 8192) (VL 8200); (* 83 *)
  VPerm128 32 8216 (VL 8196) (VL 8204); (* 84 *)
  VPerm128 49 8224 (VL 8192) (VL 8200); (* 85 *)
  VPerm128 49 8232 (VL 8196) (VL 8204); (* 86 *)
  VUnpkl 4 1024 (VL 8208) (VL 8216); (* 87 *)
  VUnpkh 4 1028 (VL 8208) (VL 8216); (* 88 *)
  VUnpkl 4 1032 (VL 8224) (VL 8232); (* 89 *)
  VUnpkh 4 1036 (VL 8224) (VL 8232); (* 90 *)
  VMov 4 8240 (VL 2052); (* 92 *)
  VMov 4 8244 (VL 3076); (* 93 *)
  VMov 4 8248 (VL 4100); (* 94 *)
  VMov 4 8252 (VL 5124); (* 95 *)
  VPerm128 32 8256 (VL 8240) (VL 8248); (* 97 *)
  VPerm128 32 8264 (VL 8244) (VL 8252); (* 98 *)
  VPerm128 49 8272 (VL 8240) (VL 8248); (* 99 *)
  VPerm128 49 8280 (VL 8244) (VL 8252); (* 100 *)
  VUnpkl 4 1040 (VL 8256) (VL 8264); (* 101 *)
  VUnpkh 4 1044 (VL 8256) (VL 8264); (* 102 *)
  VUnpkl 4 1048 (VL 8272) (VL 8280); (* 103 *)
  VUnpkh 4 1052 (VL 8272) (VL 8280); (* 104 *)
  VMov 4 8288 (VL 2056); (* 106 *)
  VMov 4 8292 (VL 3080); (* 107 *)
  VMov 4 8296 (VL 4104); (* 108 *)
  VMov 4 8300 (VL 5128); (* 109 *)
  VPerm128 32 8304 (VL 8288) (VL 8296); (* 111 *)
  VPerm128 32 8312 (VL 8292) (VL 8300); (* 112 *)
  VPerm128 49 8320 (VL 8288) (VL 8296); (* 113 *)
  VPerm128 49 8328 (VL 8292) (VL 8300); (* 114 *)
  VUnpkl 4 1056 (VL 8304) (VL 8312); (* 115 *)
  VUnpkh 4 1060 (VL 8304) (VL 8312); (* 116 *)
  VUnpkl 4 1064 (VL 8320) (VL 8328); (* 117 *)
  VUnpkh 4 1068 (VL 8320) (VL 8328); (* 118 *)
  VMov 4 8336 (VL 2060); (* 120 *)
  VMov 4 8340 (VL 3084); (* 121 *)
  VMov 4 8344 (VL 4108); (* 122 *)
  VMov 4 8348 (VL 5132); (* 123 *)
  VPerm128 32 8352 (VL 8336) (VL 8344); (* 125 *)
  VPerm128 32 8360 (VL 8340) (VL 8348); (* 126 *)
  VPerm128 49 8368 (VL 8336) (VL 8344); (* 127 *)
  VPerm128 49 8376 (VL 8340) (VL 8348); (* 128 *)
  VUnpkl 4 1072 (VL 8352) (VL 8360); (* 129 *)
  VUnpkh 4 1076 (VL 8352) (VL 8360); (* 130 *)
  VUnpkl 4 1080 (VL 8368) (VL 8376); (* 131 *)
  VUnpkh 4 1084 (VL 8368) (VL 8376) (* 132 *)].

(** src/eltfp448_4w_redradix.c:135 *)
Definition v448_4w_unzip : list vinstr := [
  VPerm128 32 8192 (VL 5120) (VL 5128); (* 136 *)
  VPerm128 32 8200 (VL 5124) (VL 5132); (* 137 *)
  VPerm128 49 8208 (VL 5120) (VL 5128); (* 138 *)
  VPerm128 49 8216 (VL 5124) (VL 5132); (* 139 *)
  VUnpkl 4 8224 (VL 8192) (VL 8200); (* 140 *)
  VUnpkh 4 8232 (VL 8192) (VL 8200); (* 141 *)
  VUnpkl 4 8240 (VL 8208) (VL 8216); (* 142 *)
  VUnpkh 4 8248 (VL 8208) (VL 8216); (* 143 *)
  VMov 4 1024 (VL 8224); (* 145 *)
  VMov 4 2048 (VL 8232); (* 146 *)
  VMov 4 3072 (VL 8240); (* 147 *)
  VMov 4 4096 (VL 8248); (* 148 *)
  VPerm128 32 8256 (VL 5136) (VL 5144); (* 150 *)
  VPerm128 32 8264 (VL 5140) (VL 5148); (* 151 *)
  VPerm128 49 8272 (VL 5136) (VL 5144); (* 152 *)
  VPerm128 49 8280 (VL 5140) (VL 5148); (* 153 *)
  VUnpkl 4 8288 (VL 8256) (VL 8264); (* 154 *)
  VUnpkh 4 8296 (VL 8256) (VL 8264); (* 155 *)
  VUnpkl 4 8304 (VL 8272) (VL 8280); (* 156 *)
  VUnpkh 4 8312 (VL 8272) (VL 8280); (* 157 *)
  VMov 4 1028 (VL 8288); (* 159 *)
  VMov 4 2052 (VL 8296); (* 160 *)
  VMov 4 3076 (VL 8304); (* 161 *)
  VMov 4 4100 (VL 8312); (* 162 *)
  VPerm128 32 8320 (VL 5152) (VL 5160); (* 164 *)
  VPerm128 32 8328 (VL 5156) (VL 5164); (* 165 *)
  VPerm128 49 8336 (VL 5152) (VL 5160); (* 166 *)
  VPerm128 49 8344 (VL 5156) (VL 5164); (* 167 *)
  VUnpkl 4 8352 (VL 8320) (VL 8328); (* 168 *)
  VUnpkh 4 8360 (VL 8320) (VL 8328); (* 169 *)
  VUnpkl 4 8368 (VL 8336) (VL 8344); (* 170 *)
  VUnpkh 4 8376 (VL 8336) (VL 8344); (* 171 *)
  VMov 4 1032 (VL 8352); (* 173 *)
  VMov 4 2056 (VL 8360); (* 174 *)
  VMov 4 3080 (VL 8368); (* 175 *)
  VMov 4 4104 (VL 8376); (* 176 *)
  VPerm128 32 8384 (VL 5168) (VL 5176); (* 178 *)
  VPerm128 32 8392 (VL 5172) (VL 5180); (* 179 *)
  VPerm128 49 8400 (VL 5168) (VL 5176); (* 180 *)
  VPerm128 49 8408 (VL 5172) (VL 5180); (* 181 *)
  VUnpkl 4 8416 (VL 8384) (VL 8392); (* 182 *)
  VUnpkh 4 8424 (VL 8384) (VL 8392); (* 183 *)
  VUnpkl 4 8432 (VL 8400) (VL 8408); (* 184 *)
  VUnpkh 4 8440 (VL 8400) (VL 8408); (* 185 *)
  VMov 4 1036 (VL 8416); (* 187 *)
  VMov 4 2060 (VL 8424); (* 188 *)
  VMov 4 3084 (VL 8432); (* 189 *)
  VMov 4 4108 (VL 8440) (* 190 *)].

(** src/eltfp448_4w_redradix.c:193 *)
Definition v448_4w_add : list vinstr := [
  VBin OAdd 4 1024 (VL 2048) (VL 3072); (* 197 *)
  VBin OAdd 4 1028 (VL 2052) (VL 3076);
  VBin OAdd 4 1032 (VL 2056) (VL 3080);
  VBin OAdd 4 1036 (VL 2060) (VL 3084);
  VBin OAdd 4 1040 (VL 2064) (VL 3088);
  VBin OAdd 4 1044 (VL 2068) (VL 3092);
  VBin OAdd 4 1048 (VL 2072) (VL 3096);
  VBin OAdd 4 1052 (VL 2076) (VL 3100);
  VBin OAdd 4 1056 (VL 2080) (VL 3104);
  VBin OAdd 4 1060 (VL 2084) (VL 3108);
  VBin OAdd 4 1064 (VL 2088) (VL 3112);
  VBin OAdd 4 1068 (VL 2092) (VL 3116);
  VBin OAdd 4 1072 (VL 2096) (VL 3120);
  VBin OAdd 4 1076 (VL 2100) (VL 3124);
  VBin OAdd 4 1080 (VL 2104) (VL 3128);
  VBin OAdd 4 1084 (VL 2108) (VL 3132)].

(** src/eltfp448_4w_redradix.c:201 *)
Definition v448_4w_sub : list vinstr := [
  VBin OSub 4 8192 (VC [536870910; 536870910; 536870910; 536870910]) (VL 3072); (* 215 *)
  VBin OAdd 4 1024 (VL 2048) (VL 8192);
  VBin OSub 4 8196 (VC [1073741820; 1073741820; 1073741820; 1073741820]) (VL 3076);
  VBin OAdd 4 1028 (VL 2052) (VL 8196);
  VBin OSub 4 8200 (VC [536870910; 536870910; 536870910; 536870910]) (VL 3080);
  VBin OAdd 4 1032 (VL 2056) (VL 8200);
  VBin OSub 4 8204 (VC [536870908; 536870908; 536870908; 536870908]) (VL 3084);
  VBin OAdd 4 1036 (VL 2060) (VL 8204);
  VBin OSub 4 8208 (VC [536870910; 536870910; 536870910; 536870910]) (VL 3088);
  VBin OAdd 4 1040 (VL 2064) (VL 8208);
  VBin OSub 4 8212 (VC [536870910; 536870910; 536870910; 536870910]) (VL 3092);
  VBin OAdd 4 1044 (VL 2068) (VL 8212);
  VBin OSub 4 8216 (VC [536870910; 536870910; 536870910; 536870910]) (VL 3096);
  VBin OAdd 4 1048 (VL 2072) (VL 8216);
  VBin OSub 4 8220 (VC [536870910; 536870910; 536870910; 536870910]) (VL 3100);
  VBin OAdd 4 1052 (VL 2076) (VL 8220);
  VBin OSub 4 8224 (VC [536870910; 536870910; 536870910; 536870910]) (VL 3104);
  VBin OAdd 4 1056 (VL 2080) (VL 8224);
  VBin OSub 4 8228 (VC [536870910; 536870910; 536870910; 536870910]) (VL 3108);
  VBin OAdd 4 1060 (VL 2084) (VL 8228);
  VBin OSub 4 8232 (VC [536870910; 536870910; 536870910; 536870910]) (VL 3112);
  VBin OAdd 4 1064 (VL 2088) (VL 8232);
  VBin OSub 4 8236 (VC [536870910; 536870910; 536870910; 536870910]) (VL 3116);
  VBin OAdd 4 1068 (VL 2092) (VL 8236);
  VBin OSub 4 8240 (VC [536870910; 536870910; 536870910; 536870910]) (VL 3120);
  VBin OAdd 4 1072 (VL 2096) (VL 8240);
  VBin OSub 4 8244 (VC [536870910; 536870910; 536870910; 536870910]) (VL 3124);
  VBin OAdd 4 1076 (VL 2100) (VL 8244);
  VBin OSub 4 8248 (VC [536870910; 536870910; 536870910; 536870910]) (VL 3128);
  VBin OAdd 4 1080 (VL 2104) (VL 8248);
  VBin OSub 4 8252 (VC [536870910; 536870910; 536870910; 536870910]) (VL 3132);
  VBin OAdd 4 1084 (VL 2108) (VL 8252)].

(** src/eltfp448_4w_redradix.c:219 *)
Definition v448_4w_addsub : list vinstr := [
  VBin OAdd 4 1024 (VL 3072) (VL 4096); (* 233 *)
  VBin OSub 4 8192 (VC [536870910; 536870910; 536870910; 536870910]) (VL 4096); (* 234 *)
  VBin OAdd 4 2048 (VL 3072) (VL 8192);
  VBin OAdd 4 1028 (VL 3076) (VL 4100); (* 233 *)
  VBin OSub 4 8196 (VC [1073741820; 1073741820; 1073741820; 1073741820]) (VL 4100); (* 234 *)
  VBin OAdd 4 2052 (VL 3076) (VL 8196);
  VBin OAdd 4 1032 (VL 3080) (VL 4104); (* 233 *)
  VBin OSub 4 8200 (VC [536870910; 536870910; 536870910; 536870910]) (VL 4104); (* 234 *)
  VBin OAdd 4 2056 (VL 3080) (VL 8200);
  VBin OAdd 4 1036 (VL 3084) (VL 4108); (* 233 *)
  VBin OSub 4 8204 (VC [536870908; 536870908; 536870908; 536870908]) (VL 4108); (* 234 *)
  VBin OAdd 4 2060 (VL 3084) (VL 8204);
  VBin OAdd 4 1040 (VL 3088) (VL 4112); (* 233 *)
  VBin OSub 4 8208 (VC [536870910; 536870910; 536870910; 536870910]) (VL 4112); (* 234 *)
  VBin OAdd 4 2064 (VL 3088) (VL 8208);
  VBin OAdd 4 1044 (VL 3092) (VL 4116); (* 233 *)
  VBin OSub 4 8212 (VC [536870910; 536870910; 536870910; 536870910]) (VL 4116); (* 234 *)
  VBin OAdd 4 2068 (VL 3092) (VL 8212);
  VBin OAdd 4 1048 (VL 3096) (VL 4120); (* 233 *)
  VBin OSub 4 8216 (VC [536870910; 536870910; 536870910; 536870910]) (VL 4120); (* 234 *)
  VBin OAdd 4 2072 (VL 3096) (VL 8216);
  VBin OAdd 4 1052 (VL 3100) (VL 4124); (* 233 *)
  VBin OSub 4 8220 (VC [536870910; 536870910; 536870910; 536870910]) (VL 4124); (* 234 *)
  VBin OAdd 4 2076 (VL 3100) (VL 8220);
  VBin OAdd 4 1056 (VL 3104) (VL 4128); (* 233 *)
  VBin OSub 4 8224 (VC [536870910; 536870910; 536870910; 536870910]) (VL 4128); (* 234 *)
  VBin OAdd 4 2080 (VL 3104) (VL 8224);
  VBin OAdd 4 1060 (VL 3108) (VL 4132); (* 233 *)
  VBin OSub 4 8228 (VC [536870910; 536870910; 536870910; 536870910]) (VL 4132); (* 234 *)
  VBin OAdd 4 2084 (VL 3108) (VL 8228);
  VBin OAdd 4 1064 (VL 3112) (VL 4136); (* 233 *)
  VBin OSub 4 8232 (VC [536870910; 536870910; 536870910; 536870910]) (VL 4136); (* 234 *)
  VBin OAdd 4 2088 (VL 3112) (VL 8232);
  VBin OAdd 4 1068 (VL 3116) (VL 4140); (* 233 *)
  VBin OSub 4 8236 (VC [536870910; 536870910; 536870910; 536870910]) (VL 4140); (* 234 *)
  VBin OAdd 4 2092 (VL 3116) (VL 8236);
  VBin OAdd 4 1072 (VL 3120) (VL 4144); (* 233 *)
  VBin OSub 4 8240 (VC [536870910; 536870910; 536870910; 536870910]) (VL 4144); (* 234 *)
  VBin OAdd 4 2096 (VL 3120) (VL 8240);
  VBin OAdd 4 1076 (VL 3124) (VL 4148); (* 233 *)
  VBin OSub 4 8244 (VC [536870910; 536870910; 536870910; 536870910]) (VL 4148); (* 234 *)
  VBin OAdd 4 2100 (VL 3124) (VL 8244);
  VBin OAdd 4 1080 (VL 3128) (VL 4152); (* 233 *)
  VBin OSub 4 8248 (VC [536870910; 536870910; 536870910; 536870910]) (VL 4152); (* 234 *)
  VBin OAdd 4 2104 (VL 3128) (VL 8248);
  VBin OAdd 4 1084 (VL 3132) (VL 4156); (* 233 *)
  VBin OSub 4 8252 (VC [536870910; 536870910; 536870910; 536870910]) (VL 4156); (* 234 *)
  VBin OAdd 4 2108 (VL 3132) (VL 8252)].

(** src/eltfp448_4w_redradix.c:238 *)
Definition v448_4w_addsublar : list vinstr := [
  VBin OAdd 4 8192 (VL 1024) (VL 2048); (* 252 *)
  VBin OSub 4 8200 (VC [4611686001247518720; 4611686001247518720; 4611686001247518720; 4611686001247518720]) (VL 2048); (* 253 *)
  VBin OAdd 4 8204 (VL 1024) (VL 8200);
  VMov 4 1024 (VL 8192); (* 254 *)
  VMov 4 2048 (VL 8204); (* 255 *)
  VBin OAdd 4 8212 (VL 1028) (VL 2052); (* 252 *)
  VBin OSub 4 8220 (VC [4611685984067649536; 4611685984067649536; 4611685984067649536; 4611685984067649536]) (VL 2052); (* 253 *)
  VBin OAdd 4 8224 (VL 1028) (VL 8220);
  VMov 4 1028 (VL 8212); (* 254 *)
  VMov 4 2052 (VL 8224); (* 255 *)
  VBin OAdd 4 8232 (VL 1032) (VL 2056); (* 252 *)
  VBin OSub 4 8240 (VC [4611686001247518720; 4611686001247518720; 4611686001247518720; 4611686001247518720]) (VL 2056); (* 253 *)
  VBin OAdd 4 8244 (VL 1032) (VL 8240);
  VMov 4 1032 (VL 8232); (* 254 *)
  VMov 4 2056 (VL 8244); (* 255 *)
  VBin OAdd 4 8252 (VL 1036) (VL 2060); (* 252 *)
  VBin OSub 4 8260 (VC [4611686001247518720; 4611686001247518720; 4611686001247518720; 4611686001247518720]) (VL 2060); (* 253 *)
  VBin OAdd 4 8264 (VL 1036) (VL 8260);
  VMov 4 1036 (VL 8252); (* 254 *)
  VMov 4 2060 (VL 8264); (* 255 *)
  VBin OAdd 4 8272 (VL 1040) (VL 2064); (* 252 *)
  VBin OSub 4 8280 (VC [4611686001247518720; 4611686001247518720; 4611686001247518720; 4611686001247518720]) (VL 2064); (* 253 *)
  VBin OAdd 4 8284 (VL 1040) (VL 8280);
  VMov 4 1040 (VL 8272); (* 254 *)
  VMov 4 2064 (VL 8284); (* 255 *)
  VBin OAdd 4 8292 (VL 1044) (VL 2068); (* 252 *)
  VBin OSub 4 8300 (VC [4611686001247518720; 4611686001247518720; 4611686001247518720; 4611686001247518720]) (VL 2068); (* 253 *)
  VBin OAdd 4 8304 (VL 1044) (VL 8300);
  VMov 4 1044 (VL 8292); (* 254 *)
  VMov 4 2068 (VL 8304); (* 255 *)
  VBin OAdd 4 8312 (VL 1048) (VL 2072); (* 252 *)
  VBin OSub 4 8320 (VC [4611686001247518720; 4611686001247518720; 4611686001247518720; 4611686001247518720]) (VL 2072); (* 253 *)
  VBin OAdd 4 8324 (VL 1048) (VL 8320);
  VMov 4 1048 (VL 8312); (* 254 *)
  VMov 4 2072 (VL 8324); (* 255 *)
  VBin OAdd 4 8332 (VL 1052) (VL 2076); (* 252 *)
  VBin OSub 4 8340 (VC [4611686001247518720; 4611686001247518720; 4611686001247518720; 4611686001247518720]) (VL 2076); (* 253 *)
  VBin OAdd 4 8344 (VL 1052) (VL 8340);
  VMov 4 1052 (VL 8332); (* 254 *)
  VMov 4 2076 (VL 8344); (* 255 *)
  VBin OAdd 4 8352 (VL 1056) (VL 2080); (* 252 *)
  VBin OSub 4 8360 (VC [4611686001247518720; 4611686001247518720; 4611686001247518720; 4611686001247518720]) (VL 2080); (* 253 *)
  VBin OAdd 4 8364 (VL 1056) (VL 8360);
  VMov 4 1056 (VL 8352); (* 254 *)
  VMov 4 2080 (VL 8364); (* 255 *)
  VBin OAdd 4 8372 (VL 1060) (VL 2084); (* 252 *)
  VBin OSub 4 8380 (VC [4611686001247518720; 4611686001247518720; 4611686001247518720; 4611686001247518720]) (VL 2084); (* 253 *)
  VBin OAdd 4 8384 (VL 1060) (VL 8380);
  VMov 4 1060 (VL 8372); (* 254 *)
  VMov 4 2084 (VL 8384); (* 255 *)
  VBin OAdd 4 8392 (VL 1064) (VL 2088); (* 252 *)
  VBin OSub 4 8400 (VC [4611686001247518720; 4611686001247518720; 4611686001247518720; 4611686001247518720]) (VL 2088); (* 253 *)
  VBin OAdd 4 8404 (VL 1064) (VL 8400);
  VMov 4 1064 (VL 8392); (* 254 *)
  VMov 4 2088 (VL 8404); (* 255 *)
  VBin OAdd 4 8412 (VL 1068) (VL 2092); (* 252 *)
  VBin OSub 4 8420 (VC [4611686001247518720; 4611686001247518720; 4611686001247518720; 4611686001247518720]) (VL 2092); (* 253 *)
  VBin OAdd 4 8424 (VL 1068) (VL 8420);
  VMov 4 1068 (VL 8412); (* 254 *)
  VMov 4 2092 (VL 8424); (* 255 *)
  VBin OAdd 4 8432 (VL 1072) (VL 2096); (* 252 *)
  VBin OSub 4 8440 (VC [4611686001247518720; 4611686001247518720; 4611686001247518720; 4611686001247518720]) (VL 2096); (* 253 *)
  VBin OAdd 4 8444 (VL 1072) (VL 8440);
  VMov 4 1072 (VL 8432); (* 254 *)
  VMov 4 2096 (VL 8444); (* 255 *)
  VBin OAdd 4 8452 (VL 1076) (VL 2100); (* 252 *)
  VBin OSub 4 8460 (VC [4611686001247518720; 4611686001247518720; 4611686001247518720; 4611686001247518720]) (VL 2100); (* 253 *)
  VBin OAdd 4 8464 (VL 1076) (VL 8460);
  VMov 4 1076 (VL 8452); (* 254 *)
  VMov 4 2100 (VL 8464); (* 255 *)
  VBin OAdd 4 8472 (VL 1080) (VL 2104); (* 252 *)
  VBin OSub 4 8480 (VC [4611686001247518720; 4611686001247518720; 4611686001247518720; 4611686001247518720]) (VL 2104); (* 253 *)
  VBin OAdd 4 8484 (VL 1080) (VL 8480);
  VMov 4 1080 (VL 8472); (* 254 *)
  VMov 4 2104 (VL 8484); (* 255 *)
  VBin OAdd 4 8492 (VL 1084) (VL 2108); (* 252 *)
  VBin OSub 4 8500 (VC [4611686001247518720; 4611686001247518720; 4611686001247518720; 4611686001247518720]) (VL 2108); (* 253 *)
  VBin OAdd 4 8504 (VL 1084) (VL 8500);
  VMov 4 1084 (VL 8492); (* 254 *)
  VMov 4 2108 (VL 8504) (* 255 *)].

(** src/eltfp448_4w_redradix.c:259 *)
Definition v448_4w_ngz : list vinstr := [
  VShuf32 4 78 8192 (VL 2048); (* 283 *)
  VBin OXor 4 8200 (VL 2048) (VC [0; 0; 18446744073709551615; 0]); (* 284 *)
  VBin OSub 4 8204 (VL 8200) (VC [0; 0; 18446744073709551615; 0]);
  VBin OAdd 4 8208 (VC [0; 0; 536870910; 0]) (VL 8204);
  VBlend32 4 240 1024 (VL 8192) (VL 8208); (* 285 *)
  VShuf32 4 78 8216 (VL 2052); (* 283 *)
  VBin OXor 4 8224 (VL 2052) (VC [0; 0; 18446744073709551615; 0]); (* 284 *)
  VBin OSub 4 8228 (VL 8224) (VC [0; 0; 18446744073709551615; 0]);
  VBin OAdd 4 8232 (VC [0; 0; 1073741820; 0]) (VL 8228);
  VBlend32 4 240 1028 (VL 8216) (VL 8232); (* 285 *)
  VShuf32 4 78 8240 (VL 2056); (* 283 *)
  VBin OXor 4 8248 (VL 2056) (VC [0; 0; 18446744073709551615; 0]); (* 284 *)
  VBin OSub 4 8252 (VL 8248) (VC [0; 0; 18446744073709551615; 0]);
  VBin OAdd 4 8256 (VC [0; 0; 536870910; 0]) (VL 8252);
  VBlend32 4 240 1032 (VL 8240) (VL 8256); (* 285 *)
  VShuf32 4 78 8264 (VL 2060); (* 283 *)
  VBin OXor 4 8272 (VL 2060) (VC [0; 0; 18446744073709551615; 0]); (* 284 *)
  VBin OSub 4 8276 (VL 8272) (VC [0; 0; 18446744073709551615; 0]);
  VBin OAdd 4 8280 (VC [0; 0; 536870908; 0]) (VL 8276);
  VBlend32 4 240 1036 (VL 8264) (VL 8280); (* 285 *)
  VShuf32 4 78 8288 (VL 2064); (* 283 *)
  VBin OXor 4 8296 (VL 2064) (VC [0; 0; 18446744073709551615; 0]); (* 284 *)
  VBin OSub 4 8300 (VL 8296) (VC [0; 0; 18446744073709551615; 0]);
  VBin OAdd 4 8304 (VC [0; 0; 536870910; 0]) (VL 8300);
  VBlend32 4 240 1040 (VL 8288) (VL 8304); (* 285 *)
  VShuf32 4 78 8312 (VL 2068); (* 283 *)
  VBin OXor 4 8320 (VL 2068) (VC [0; 0; 18446744073709551615; 0]); (* 284 *)
  VBin OSub 4 8324 (VL 8320) (VC [0; 0; 18446744073709551615; 0]);
  VBin OAdd 4 8328 (VC [0; 0; 536870910; 0]) (VL 8324);
  VBlend32 4 240 1044 (VL 8312) (VL 8328); (* 285 *)
  VShuf32 4 78 8336 (VL 2072); (* 283 *)
  VBin OXor 4 8344 (VL 2072) (VC [0; 0; 18446744073709551615; 0]); (* 284 *)
  VBin OSub 4 8348 (VL 8344) (VC [0; 0; 18446744073709551615; 0]);
  VBin OAdd 4 8352 (VC [0; 0; 536870910; 0]) (VL 8348);
  VBlend32 4 240 1048 (VL 8336) (VL 8352); (* 285 *)
  VShuf32 4 78 8360 (VL 2076); (* 283 *)
  VBin OXor 4 8368 (VL 2076) (VC [0; 0; 18446744073709551615; 0]); (* 284 *)
  VBin OSub 4 8372 (VL 8368) (VC [0; 0; 18446744073709551615; 0]);
  VBin OAdd 4 8376 (VC [0; 0; 536870910; 0]) (VL 8372);
  VBlend32 4 240 1052 (VL 8360) (VL 8376); (* 285 *)
  VShuf32 4 78 8384 (VL 2080); (* 283 *)
  VBin OXor 4 8392 (VL 2080) (VC [0; 0; 18446744073709551615; 0]); (* 284 *)
  VBin OSub 4 8396 (VL 8392) (VC [0; 0; 18446744073709551615; 0]);
  VBin OAdd 4 8400 (VC [0; 0; 536870910; 0]) (VL 8396);
  VBlend32 4 240 1056 (VL 8384) (VL 8400); (* 285 *)
  VShuf32 4 78 8408 (VL 2084); (* 283 *)
  VBin OXor 4 8416 (VL 2084) (VC [0; 0; 18446744073709551615; 0]); (* 284 *)
  VBin OSub 4 8420 (VL 8416) (VC [0; 0; 18446744073709551615; 0]);
  VBin OAdd 4 8424 (VC [0; 0; 536870910; 0]) (VL 8420);
  VBlend32 4 240 1060 (VL 8408) (VL 8424); (* 285 *)
  VShuf32 4 78 8432 (VL 2088); (* 283 *)
  VBin OXor 4 8440 (VL 2088) (VC [0; 0; 18446744073709551615; 0]); (* 284 *)
  VBin OSub 4 8444 (VL 8440) (VC [0; 0; 18446744073709551615; 0]);
  VBin OAdd 4 8448 (VC [0; 0; 536870910; 0]) (VL 8444);
  VBlend32 4 240 1064 (VL 8432) (VL 8448); (* 285 *)
  VShuf32 4 78 8456 (VL 2092); (* 283 *)
  VBin OXor 4 8464 (VL 2092) (VC [0; 0; 18446744073709551615; 0]); (* 284 *)
  VBin OSub 4 8468 (VL 8464) (VC [0; 0; 18446744073709551615; 0]);
  VBin OAdd 4 8472 (VC [0; 0; 536870910; 0]) (VL 8468);
  VBlend32 4 240 1068 (VL 8456) (VL 8472); (* 285 *)
  VShuf32 4 78 8480 (VL 2096); (* 283 *)
  VBin OXor 4 8488 (VL 2096) (VC [0; 0; 18446744073709551615; 0]); (* 284 *)
  VBin OSub 4 8492 (VL 8488) (VC [0; 0; 18446744073709551615; 0]);
  VBin OAdd 4 8496 (VC [0; 0; 536870910; 0]) (VL 8492);
  VBlend32 4 240 1072 (VL 8480) (VL 8496); (* 285 *)
  VShuf32 4 78 8504 (VL 2100); (* 283 *)
  VBin OXor 4 8512 (VL 2100) (VC [0; 0; 18446744073709551615; 0]); (* 284 *)
  VBin OSub 4 8516 (VL 8512) (VC [0; 0; 18446744073709551615; 0]);
  VBin OAdd 4 8520 (VC [0; 0; 536870910; 0]) (VL 8516);
  VBlend32 4 240 1076 (VL 8504) (VL 8520); (* 285 *)
  VShuf32 4 78 8528 (VL 2104); (* 283 *)
  VBin OXor 4 8536 (VL 2104) (VC [0; 0; 18446744073709551615; 0]); (* 284 *)
  VBin OSub 4 8540 (VL 8536) (VC [0; 0; 18446744073709551615; 0]);
  VBin OAdd 4 8544 (VC [0; 0; 536870910; 0]) (VL 8540);
  VBlend32 4 240 1080 (VL 8528) (VL 8544); (* 285 *)
  VShuf32 4 78 8552 (VL 2108); (* 283 *)
  VBin OXor 4 8560 (VL 2108) (VC [0; 0; 18446744073709551615; 0]); (* 284 *)
  VBin OSub 4 8564 (VL 8560) (VC [0; 0; 18446744073709551615; 0]);
  VBin OAdd 4 8568 (VC [0; 0; 536870910; 0]) (VL 8564);
  VBlend32 4 240 1084 (VL 8552) (VL 8568) (* 285 *)].

(** src/eltfp448_4w_redradix.c:343 *)
Definition v448_4w_intmul_karat : list vinstr := [
  VMov 4 8192 (VL 2048); (* 350 *)
  VMov 4 8224 (VL 2052);
  VMov 4 8256 (VL 3072);
  VMov 4 8288 (VL 3076);
  VMov 4 8196 (VL 2056); (* 351 *)
  VMov 4 8228 (VL 2060);
  VMov 4 8260 (VL 3080);
  VMov 4 8292 (VL 3084);
  VMov 4 8200 (VL 2064); (* 352 *)
  VMov 4 8232 (VL 2068);
  VMov 4 8264 (VL 3088);
  VMov 4 8296 (VL 3092);
  VMov 4 8204 (VL 2072); (* 353 *)
  VMov 4 8236 (VL 2076);
  VMov 4 8268 (VL 3096);
  VMov 4 8300 (VL 3100);
  VMov 4 8208 (VL 2080); (* 354 *)
  VMov 4 8240 (VL 2084);
  VMov 4 8272 (VL 3104);
  VMov 4 8304 (VL 3108);
  VMov 4 8212 (VL 2088); (* 355 *)
  VMov 4 8244 (VL 2092);
  VMov 4 8276 (VL 3112);
  VMov 4 8308 (VL 3116);
  VMov 4 8216 (VL 2096); (* 356 *)
  VMov 4 8248 (VL 2100);
  VMov 4 8280 (VL 3120);
  VMov 4 8312 (VL 3124);
  VMov 4 8220 (VL 2104); (* 357 *)
  VMov 4 8252 (VL 2108);
  VMov 4 8284 (VL 3128);
  VMov 4 8316 (VL 3132);
  VBin OMul32 4 8500 (VL 8192) (VL 8256); (* 359 *)
  VBin OMul32 4 8504 (VL 8196) (VL 8256);
  VBin OMul32 4 8508 (VL 8200) (VL 8256);
  VBin OMul32 4 8512 (VL 8204) (VL 8256);
  VBin OMul32 4 8584 (VL 8192) (VL 8260);
  VBin OAdd 4 8504 (VL 8504) (VL 8584);
  VBin OMul32 4 8588 (VL 8196) (VL 8260);
  VBin OAdd 4 8508 (VL 8508) (VL 8588);
  VBin OMul32 4 8592 (VL 8200) (VL 8260);
  VBin OAdd 4 8512 (VL 8512) (VL 8592);
  VBin OMul32 4 8516 (VL 8204) (VL 8260);
  VBin OMul32 4 8596 (VL 8192) (VL 8264);
  VBin OAdd 4 8508 (VL 8508) (VL 8596);
  VBin OMul32 4 8600 (VL 8196) (VL 8264);
  VBin OAdd 4 8512 (VL 8512) (VL 8600);
  VBin OMul32 4 8604 (VL 8200) (VL 8264);
  VBin OAdd 4 8516 (VL 8516) (VL 8604);
  VBin OMul32 4 8520 (VL 8204) (VL 8264);
  VBin OMul32 4 8608 (VL 8192) (VL 8268);
  VBin OAdd 4 8512 (VL 8512) (VL 8608);
  VBin OMul32 4 8612 (VL 8196) (VL 8268);
  VBin OAdd 4 8516 (VL 8516) (VL 8612);
  VBin OMul32 4 8616 (VL 8200) (VL 8268);
  VBin OAdd 4 8520 (VL 8520) (VL 8616);
  VBin OMul32 4 8524 (VL 8204) (VL 8268);
  VBin OMul32 4 8528 (VL 8208) (VL 8272);
  VBin OMul32 4 8532 (VL 8212) (VL 8272);
  VBin OMul32 4 8536 (VL 8216) (VL 8272);
  VBin OMul32 4 8540 (VL 8220) (VL 8272);
  VBin OMul32 4 8620 (VL 8208) (VL 8276);
  VBin OAdd 4 8532 (VL 8532) (VL 8620);
  VBin OMul32 4 8624 (VL 8212) (VL 8276);
  VBin OAdd 4 8536 (VL 8536) (VL 8624);
  VBin OMul32 4 8628 (VL 8216) (VL 8276);
  VBin OAdd 4 8540 (VL 8540) (VL 8628);
  VBin OMul32 4 8544 (VL 8220) (VL 8276);
  VBin OMul32 4 8632 (VL 8208) (VL 8280);
  VBin OAdd 4 8536 (VL 8536) (VL 8632);
  VBin OMul32 4 8636 (VL 8212) (VL 8280);
  VBin OAdd 4 8540 (VL 8540) (VL 8636);
  VBin OMul32 4 8640 (VL 8216) (VL 8280);
  VBin OAdd 4 8544 (VL 8544) (VL 8640);
  VBin OMul32 4 8548 (VL 8220) (VL 8280);
  VBin OMul32 4 8644 (VL 8208) (VL 8284);
  VBin OAdd 4 8540 (VL 8540) (VL 8644);
  VBin OMul32 4 8648 (VL 8212) (VL 8284);
  VBin OAdd 4 8544 (VL 8544) (VL 8648);
  VBin OMul32 4 8652 (VL 8216) (VL 8284);
  VBin OAdd 4 8548 (VL 8548) (VL 8652);
  VBin OMul32 4 8552 (VL 8220) (VL 8284);
  VBin OAdd 4 8656 (VL 8192) (VL 8208);
  VBin OAdd 4 8660 (VL 8256) (VL 8272);
  VBin OMul32 4 8556 (VL 8656) (VL 8660);
  VBin OAdd 4 8664 (VL 8196) (VL 8212);
  VBin OAdd 4 8668 (VL 8256) (VL 8272);
  VBin OMul32 4 8560 (VL 8664) (VL 8668);
  VBin OAdd 4 8672 (VL 8200) (VL 8216);
  VBin OAdd 4 8676 (VL 8256) (VL 8272);
  VBin OMul32 4 8564 (VL 8672) (VL 8676);
  VBin OAdd 4 8680 (VL 8204) (VL 8220);
  VBin OAdd 4 8684 (VL 8256) (VL 8272);
  VBin OMul32 4 8568 (VL 8680) (VL 8684);
  VBin OAdd 4 8688 (VL 8192) (VL 8208);
  VBin OAdd 4 8692 (VL 8260) (VL 8276);
  VBin OMul32 4 8696 (VL 8688) (VL 8692);
  VBin OAdd 4 8560 (VL 8560) (VL 8696);
  VBin OAdd 4 8700 (VL 8196) (VL 8212);
  VBin OAdd 4 8704 (VL 8260) (VL 8276);
  VBin OMul32 4 8708 (VL 8700) (VL 8704);
  VBin OAdd 4 8564 (VL 8564) (VL 8708);
  VBin OAdd 4 8712 (VL 8200) (VL 8216);
  VBin OAdd 4 8716 (VL 8260) (VL 8276);
  VBin OMul32 4 8720 (VL 8712) (VL 8716);
  VBin OAdd 4 8568 (VL 8568) (VL 8720);
  VBin OAdd 4 8724 (VL 8204) (VL 8220);
  VBin OAdd 4 8728 (VL 8260) (VL 8276);
  VBin OMul32 4 8572 (VL 8724) (VL 8728);
  VBin OAdd 4 8732 (VL 8192) (VL 8208);
  VBin OAdd 4 8736 (VL 8264) (VL 8280);
  VBin OMul32 4 8740 (VL 8732) (VL 8736);
  VBin OAdd 4 8564 (VL 8564) (VL 8740);
  VBin OAdd 4 8744 (VL 8196) (VL 8212);
  VBin OAdd 4 8748 (VL 8264) (VL 8280);
  VBin OMul32 4 8752 (VL 8744) (VL 8748);
  VBin OAdd 4 8568 (VL 8568) (VL 8752);
  VBin OAdd 4 8756 (VL 8200) (VL 8216);
  VBin OAdd 4 8760 (VL 8264) (VL 8280);
  VBin OMul32 4 8764 (VL 8756) (VL 8760);
  VBin OAdd 4 8572 (VL 8572) (VL 8764);
  VBin OAdd 4 8768 (VL 8204) (VL 8220);
  VBin OAdd 4 8772 (VL 8264) (VL 8280);
  VBin OMul32 4 8576 (VL 8768) (VL 8772);
  VBin OAdd 4 8776 (VL 8192) (VL 8208);
  VBin OAdd 4 8780 (VL 8268) (VL 8284);
  VBin OMul32 4 8784 (VL 8776) (VL 8780);
  VBin OAdd 4 8568 (VL 8568) (VL 8784);
  VBin OAdd 4 8788 (VL 8196) (VL 8212);
  VBin OAdd 4 8792 (VL 8268) (VL 8284);
  VBin OMul32 4 8796 (VL 8788) (VL 8792);
  VBin OAdd 4 8572 (VL 8572) (VL 8796);
  VBin OAdd 4 8800 (VL 8200) (VL 8216);
  VBin OAdd 4 8804 (VL 8268) (VL 8284);
  VBin OMul32 4 8808 (VL 8800) (VL 8804);
  VBin OAdd 4 8576 (VL 8576) (VL 8808);
  VBin OAdd 4 8812 (VL 8204) (VL 8220);
  VBin OAdd 4 8816 (VL 8268) (VL 8284);
  VBin OMul32 4 8580 (VL 8812) (VL 8816);
  VBin OSub 4 8820 (VL 8516) (VL 8528);
  VBin OSub 4 8828 (VL 8520) (VL 8532);
  VBin OSub 4 8836 (VL 8524) (VL 8536);
  VMov 4 8320 (VL 8500);
  VBin OSub 4 8844 (VL 8572) (VL 8544);
  VBin OSub 4 8352 (VL 8844) (VL 8820);
  VMov 4 8324 (VL 8504);
  VBin OSub 4 8848 (VL 8576) (VL 8548);
  VBin OSub 4 8356 (VL 8848) (VL 8828);
  VMov 4 8328 (VL 8508);
  VBin OSub 4 8852 (VL 8580) (VL 8552);
  VBin OSub 4 8360 (VL 8852) (VL 8836);
  VMov 4 8332 (VL 8512);
  VMov 4 8364 (VL 8540);
  VBin OSub 4 8856 (VL 8556) (VL 8500);
  VBin OAdd 4 8336 (VL 8820) (VL 8856);
  VMov 4 8368 (VL 8544);
  VBin OSub 4 8860 (VL 8560) (VL 8504);
  VBin OAdd 4 8340 (VL 8828) (VL 8860);
  VMov 4 8372 (VL 8548);
  VBin OSub 4 8864 (VL 8564) (VL 8508);
  VBin OAdd 4 8344 (VL 8836) (VL 8864);
  VMov 4 8376 (VL 8552);
  VBin OSub 4 8868 (VL 8568) (VL 8512);
  VBin OSub 4 8348 (VL 8868) (VL 8540);
  VBin OMul32 4 8872 (VL 8224) (VL 8288); (* 361 *)
  VBin OMul32 4 8876 (VL 8228) (VL 8288);
  VBin OMul32 4 8880 (VL 8232) (VL 8288);
  VBin OMul32 4 8884 (VL 8236) (VL 8288);
  VBin OMul32 4 8956 (VL 8224) (VL 8292);
  VBin OAdd 4 8876 (VL 8876) (VL 8956);
  VBin OMul32 4 8960 (VL 8228) (VL 8292);
  VBin OAdd 4 8880 (VL 8880) (VL 8960);
  VBin OMul32 4 8964 (VL 8232) (VL 8292);
  VBin OAdd 4 8884 (VL 8884) (VL 8964);
  VBin OMul32 4 8888 (VL 8236) (VL 8292);
  VBin OMul32 4 8968 (VL 8224) (VL 8296);
  VBin OAdd 4 8880 (VL 8880) (VL 8968);
  VBin OMul32 4 8972 (VL 8228) (VL 8296);
  VBin OAdd 4 8884 (VL 8884) (VL 8972);
  VBin OMul32 4 8976 (VL 8232) (VL 8296);
  VBin OAdd 4 8888 (VL 8888) (VL 8976);
  VBin OMul32 4 8892 (VL 8236) (VL 8296);
  VBin OMul32 4 8980 (VL 8224) (VL 8300);
  VBin OAdd 4 8884 (VL 8884) (VL 8980);
  VBin OMul32 4 8984 (VL 8228) (VL 8300);
  VBin OAdd 4 8888 (VL 8888) (VL 8984);
  VBin OMul32 4 8988 (VL 8232) (VL 8300);
  VBin OAdd 4 8892 (VL 8892) (VL 8988);
  VBin OMul32 4 8896 (VL 8236) (VL 8300);
  VBin OMul32 4 8900 (VL 8240) (VL 8304);
  VBin OMul32 4 8904 (VL 8244) (VL 8304);
  VBin OMul32 4 8908 (VL 8248) (VL 8304);
  VBin OMul32 4 8912 (VL 8252) (VL 8304);
  VBin OMul32 4 8992 (VL 8240) (VL 8308);
  VBin OAdd 4 8904 (VL 8904) (VL 8992);
  VBin OMul32 4 8996 (VL 8244) (VL 8308);
  VBin OAdd 4 8908 (VL 8908) (VL 8996);
  VBin OMul32 4 9000 (VL 8248) (VL 8308);
  VBin OAdd 4 8912 (VL 8912) (VL 9000);
  VBin OMul32 4 8916 (VL 8252) (VL 8308);
  VBin OMul32 4 9004 (VL 8240) (VL 8312);
  VBin OAdd 4 8908 (VL 8908) (VL 9004);
  VBin OMul32 4 9008 (VL 8244) (VL 8312);
  VBin OAdd 4 8912 (VL 8912) (VL 9008);
  VBin OMul32 4 9012 (VL 8248) (VL 8312);
  VBin OAdd 4 8916 (VL 8916) (VL 9012);
  VBin OMul32 4 8920 (VL 8252) (VL 8312);
  VBin OMul32 4 9016 (VL 8240) (VL 8316);
  VBin OAdd 4 8912 (VL 8912) (VL 9016);
  VBin OMul32 4 9020 (VL 8244) (VL 8316);
  VBin OAdd 4 8916 (VL 8916) (VL 9020);
  VBin OMul32 4 9024 (VL 8248) (VL 8316);
  VBin OAdd 4 8920 (VL 8920) (VL 9024);
  VBin OMul32 4 8924 (VL 8252) (VL 8316);
  VBin OAdd 4 9028 (VL 8224) (VL 8240);
  VBin OAdd 4 9032 (VL 8288) (VL 8304);
  VBin OMul32 4 8928 (VL 9028) (VL 9032);
  VBin OAdd 4 9036 (VL 8228) (VL 8244);
  VBin OAdd 4 9040 (VL 8288) (VL 8304);
  VBin OMul32 4 8932 (VL 9036) (VL 9040);
  VBin OAdd 4 9044 (VL 8232) (VL 8248);
  VBin OAdd 4 9048 (VL 8288) (VL 8304);
  VBin OMul32 4 8936 (VL 9044) (VL 9048);
  VBin OAdd 4 9052 (VL 8236) (VL 8252);
  VBin OAdd 4 9056 (VL 8288) (VL 8304);
  VBin OMul32 4 8940 (VL 9052) (VL 9056);
  VBin OAdd 4 9060 (VL 8224) (VL 8240);
  VBin OAdd 4 9064 (VL 8292) (VL 8308);
  VBin OMul32 4 9068 (VL 9060) (VL 9064);
  VBin OAdd 4 8932 (VL 8932) (VL 9068);
  VBin OAdd 4 9072 (VL 8228) (VL 8244);
  VBin OAdd 4 9076 (VL 8292) (VL 8308);
  VBin OMul32 4 9080 (VL 9072) (VL 9076);
  VBin OAdd 4 8936 (VL 8936) (VL 9080);
  VBin OAdd 4 9084 (VL 8232) (VL 8248);
  VBin OAdd 4 9088 (VL 8292) (VL 8308);
  VBin OMul32 4 9092 (VL 9084) (VL 9088);
  VBin OAdd 4 8940 (VL 8940) (VL 9092);
  VBin OAdd 4 9096 (VL 8236) (VL 8252);
  VBin OAdd 4 9100 (VL 8292) (VL 8308);
  VBin OMul32 4 8944 (VL 9096) (VL 9100);
  VBin OAdd 4 9104 (VL 8224) (VL 8240);
  VBin OAdd 4 9108 (VL 8296) (VL 8312);
  VBin OMul32 4 9112 (VL 9104) (VL 9108);
  VBin OAdd 4 8936 (VL 8936) (VL 9112);
  VBin OAdd 4 9116 (VL 8228) (VL 8244);
  VBin OAdd 4 9120 (VL 8296) (VL 8312);
  VBin OMul32 4 9124 (VL 9116) (VL 9120);
  VBin OAdd 4 8940 (VL 8940) (VL 9124);
  VBin OAdd 4 9128 (VL 8232) (VL 8248);
  VBin OAdd 4 9132 (VL 8296) (VL 8312);
  VBin OMul32 4 9136 (VL 9128) (VL 9132);
  VBin OAdd 4 8944 (VL 8944) (VL 9136);
  VBin OAdd 4 9140 (VL 8236) (VL 8252);
  VBin OAdd 4 9144 (VL 8296) (VL 8312);
  VBin OMul32 4 8948 (VL 9140) (VL 9144);
  VBin OAdd 4 9148 (VL 8224) (VL 8240);
  VBin OAdd 4 9152 (VL 8300) (VL 8316);
  VBin OMul32 4 9156 (VL 9148) (VL 9152);
  VBin OAdd 4 8940 (VL 8940) (VL 9156);
  VBin OAdd 4 9160 (VL 8228) (VL 8244);
  VBin OAdd 4 9164 (VL 8300) (VL 8316);
  VBin OMul32 4 9168 (VL 9160) (VL 9164);
  VBin OAdd 4 8944 (VL 8944) (VL 9168);
  VBin OAdd 4 9172 (VL 8232) (VL 8248);
  VBin OAdd 4 9176 (VL 8300) (VL 8316);
  VBin OMul32 4 9180 (VL 9172) (VL 9176);
  VBin OAdd 4 8948 (VL 8948) (VL 9180);
  VBin OAdd 4 9184 (VL 8236) (VL 8252);
  VBin OAdd 4 9188 (VL 8300) (VL 8316);
  VBin OMul32 4 8952 (VL 9184) (VL 9188);
  VBin OSub 4 9192 (VL 8888) (VL 8900);
  VBin OSub 4 9200 (VL 8892) (VL 8904);
  VBin OSub 4 9208 (VL 8896) (VL 8908);
  VMov 4 8380 (VL 8872);
  VBin OSub 4 9216 (VL 8944) (VL 8916);
  VBin OSub 4 8412 (VL 9216) (VL 9192);
  VMov 4 8384 (VL 8876);
  VBin OSub 4 9220 (VL 8948) (VL 8920);
  VBin OSub 4 8416 (VL 9220) (VL 9200);
  VMov 4 8388 (VL 8880);
  VBin OSub 4 9224 (VL 8952) (VL 8924);
  VBin OSub 4 8420 (VL 9224) (VL 9208);
  VMov 4 8392 (VL 8884);
  VMov 4 8424 (VL 8912);
  VBin OSub 4 9228 (VL 8928) (VL 8872);
  VBin OAdd 4 8396 (VL 9192) (VL 9228);
  VMov 4 8428 (VL 8916);
  VBin OSub 4 9232 (VL 8932) (VL 8876);
  VBin OAdd 4 8400 (VL 9200) (VL 9232);
  VMov 4 8432 (VL 8920);
  VBin OSub 4 9236 (VL 8936) (VL 8880);
  VBin OAdd 4 8404 (VL 9208) (VL 9236);
  VMov 4 8436 (VL 8924);
  VBin OSub 4 9240 (VL 8940) (VL 8884);
  VBin OSub 4 8408 (VL 9240) (VL 8912);
  VBin OAdd 4 9328 (VL 8192) (VL 8224); (* 364 *)
  VBin OAdd 4 9332 (VL 8256) (VL 8288);
  VBin OMul32 4 9244 (VL 9328) (VL 9332);
  VBin OAdd 4 9336 (VL 8196) (VL 8228);
  VBin OAdd 4 9340 (VL 8256) (VL 8288);
  VBin OMul32 4 9248 (VL 9336) (VL 9340);
  VBin OAdd 4 9344 (VL 8200) (VL 8232);
  VBin OAdd 4 9348 (VL 8256) (VL 8288);
  VBin OMul32 4 9252 (VL 9344) (VL 9348);
  VBin OAdd 4 9352 (VL 8204) (VL 8236);
  VBin OAdd 4 9356 (VL 8256) (VL 8288);
  VBin OMul32 4 9256 (VL 9352) (VL 9356);
  VBin OAdd 4 9360 (VL 8192) (VL 8224);
  VBin OAdd 4 9364 (VL 8260) (VL 8292);
  VBin OMul32 4 9368 (VL 9360) (VL 9364);
  VBin OAdd 4 9248 (VL 9248) (VL 9368);
  VBin OAdd 4 9372 (VL 8196) (VL 8228);
  VBin OAdd 4 9376 (VL 8260) (VL 8292);
  VBin OMul32 4 9380 (VL 9372) (VL 9376);
  VBin OAdd 4 9252 (VL 9252) (VL 9380);
  VBin OAdd 4 9384 (VL 8200) (VL 8232);
  VBin OAdd 4 9388 (VL 8260) (VL 8292);
  VBin OMul32 4 9392 (VL 9384) (VL 9388);
  VBin OAdd 4 9256 (VL 9256) (VL 9392);
  VBin OAdd 4 9396 (VL 8204) (VL 8236);
  VBin OAdd 4 9400 (VL 8260) (VL 8292);
  VBin OMul32 4 9260 (VL 9396) (VL 9400);
  VBin OAdd 4 9404 (VL 8192) (VL 8224);
  VBin OAdd 4 9408 (VL 8264) (VL 8296);
  VBin OMul32 4 9412 (VL 9404) (VL 9408);
  VBin OAdd 4 9252 (VL 9252) (VL 9412);
  VBin OAdd 4 9416 (VL 8196) (VL 8228);
  VBin OAdd 4 9420 (VL 8264) (VL 8296);
  VBin OMul32 4 9424 (VL 9416) (VL 9420);
  VBin OAdd 4 9256 (VL 9256) (VL 9424);
  VBin OAdd 4 9428 (VL 8200) (VL 8232);
  VBin OAdd 4 9432 (VL 8264) (VL 8296);
  VBin OMul32 4 9436 (VL 9428) (VL 9432);
  VBin OAdd 4 9260 (VL 9260) (VL 9436);
  VBin OAdd 4 9440 (VL 8204) (VL 8236);
  VBin OAdd 4 9444 (VL 8264) (VL 8296);
  VBin OMul32 4 9264 (VL 9440) (VL 9444);
  VBin OAdd 4 9448 (VL 8192) (VL 8224);
  VBin OAdd 4 9452 (VL 8268) (VL 8300);
  VBin OMul32 4 9456 (VL 9448) (VL 9452);
  VBin OAdd 4 9256 (VL 9256) (VL 9456);
  VBin OAdd 4 9460 (VL 8196) (VL 8228);
  VBin OAdd 4 9464 (VL 8268) (VL 8300);
  VBin OMul32 4 9468 (VL 9460) (VL 9464);
  VBin OAdd 4 9260 (VL 9260) (VL 9468);
  VBin OAdd 4 9472 (VL 8200) (VL 8232);
  VBin OAdd 4 9476 (VL 8268) (VL 8300);
  VBin OMul32 4 9480 (VL 9472) (VL 9476);
  VBin OAdd 4 9264 (VL 9264) (VL 9480);
  VBin OAdd 4 9484 (VL 8204) (VL 8236);
  VBin OAdd 4 9488 (VL 8268) (VL 8300);
  VBin OMul32 4 9268 (VL 9484) (VL 9488);
  VBin OAdd 4 9492 (VL 8208) (VL 8240);
  VBin OAdd 4 9496 (VL 8272) (VL 8304);
  VBin OMul32 4 9272 (VL 9492) (VL 9496);
  VBin OAdd 4 9500 (VL 8212) (VL 8244);
  VBin OAdd 4 9504 (VL 8272) (VL 8304);
  VBin OMul32 4 9276 (VL 9500) (VL 9504);
  VBin OAdd 4 9508 (VL 8216) (VL 8248);
  VBin OAdd 4 9512 (VL 8272) (VL 8304);
  VBin OMul32 4 9280 (VL 9508) (VL 9512);
  VBin OAdd 4 9516 (VL 8220) (VL 8252);
  VBin OAdd 4 9520 (VL 8272) (VL 8304);
  VBin OMul32 4 9284 (VL 9516) (VL 9520);
  VBin OAdd 4 9524 (VL 8208) (VL 8240);
  VBin OAdd 4 9528 (VL 8276) (VL 8308);
  VBin OMul32 4 9532 (VL 9524) (VL 9528);
  VBin OAdd 4 9276 (VL 9276) (VL 9532);
  VBin OAdd 4 9536 (VL 8212) (VL 8244);
  VBin OAdd 4 9540 (VL 8276) (VL 8308);
  VBin OMul32 4 9544 (VL 9536) (VL 9540);
  VBin OAdd 4 9280 (VL 9280) (VL 9544);
  VBin OAdd 4 9548 (VL 8216) (VL 8248);
  VBin OAdd 4 9552 (VL 8276) (VL 8308);
  VBin OMul32 4 9556 (VL 9548) (VL 9552);
  VBin OAdd 4 9284 (VL 9284) (VL 9556);
  VBin OAdd 4 9560 (VL 8220) (VL 8252);
  VBin OAdd 4 9564 (VL 8276) (VL 8308);
  VBin OMul32 4 9288 (VL 9560) (VL 9564);
  VBin OAdd 4 9568 (VL 8208) (VL 8240);
  VBin OAdd 4 9572 (VL 8280) (VL 8312);
  VBin OMul32 4 9576 (VL 9568) (VL 9572);
  VBin OAdd 4 9280 (VL 9280) (VL 9576);
  VBin OAdd 4 9580 (VL 8212) (VL 8244);
  VBin OAdd 4 9584 (VL 8280) (VL 8312);
  VBin OMul32 4 9588 (VL 9580) (VL 9584);
  VBin OAdd 4 9284 (VL 9284) (VL 9588);
  VBin OAdd 4 9592 (VL 8216) (VL 8248);
  VBin OAdd 4 9596 (VL 8280) (VL 8312);
  VBin OMul32 4 9600 (VL 9592) (VL 9596);
  VBin OAdd 4 9288 (VL 9288) (VL 9600);
  VBin OAdd 4 9604 (VL 8220) (VL 8252);
  VBin OAdd 4 9608 (VL 8280) (VL 8312);
  VBin OMul32 4 9292 (VL 9604) (VL 9608);
  VBin OAdd 4 9612 (VL 8208) (VL 8240);
  VBin OAdd 4 9616 (VL 8284) (VL 8316);
  VBin OMul32 4 9620 (VL 9612) (VL 9616);
  VBin OAdd 4 9284 (VL 9284) (VL 9620);
  VBin OAdd 4 9624 (VL 8212) (VL 8244);
  VBin OAdd 4 9628 (VL 8284) (VL 8316);
  VBin OMul32 4 9632 (VL 9624) (VL 9628);
  VBin OAdd 4 9288 (VL 9288) (VL 9632);
  VBin OAdd 4 9636 (VL 8216) (VL 8248);
  VBin OAdd 4 9640 (VL 8284) (VL 8316);
  VBin OMul32 4 9644 (VL 9636) (VL 9640);
  VBin OAdd 4 9292 (VL 9292) (VL 9644);
  VBin OAdd 4 9648 (VL 8220) (VL 8252);
  VBin OAdd 4 9652 (VL 8284) (VL 8316);
  VBin OMul32 4 9296 (VL 9648) (VL 9652);
  VBin OAdd 4 9656 (VL 8192) (VL 8224);
  VBin OAdd 4 9660 (VL 8208) (VL 8240);
  VBin OAdd 4 9664 (VL 9656) (VL 9660);
  VBin OAdd 4 9668 (VL 8256) (VL 8288);
  VBin OAdd 4 9672 (VL 8272) (VL 8304);
  VBin OAdd 4 9676 (VL 9668) (VL 9672);
  VBin OMul32 4 9300 (VL 9664) (VL 9676);
  VBin OAdd 4 9680 (VL 8196) (VL 8228);
  VBin OAdd 4 9684 (VL 8212) (VL 8244);
  VBin OAdd 4 9688 (VL 9680) (VL 9684);
  VBin OAdd 4 9692 (VL 8256) (VL 8288);
  VBin OAdd 4 9696 (VL 8272) (VL 8304);
  VBin OAdd 4 9700 (VL 9692) (VL 9696);
  VBin OMul32 4 9304 (VL 9688) (VL 9700);
  VBin OAdd 4 9704 (VL 8200) (VL 8232);
  VBin OAdd 4 9708 (VL 8216) (VL 8248);
  VBin OAdd 4 9712 (VL 9704) (VL 9708);
  VBin OAdd 4 9716 (VL 8256) (VL 8288);
  VBin OAdd 4 9720 (VL 8272) (VL 8304);
  VBin OAdd 4 9724 (VL 9716) (VL 9720);
  VBin OMul32 4 9308 (VL 9712) (VL 9724);
  VBin OAdd 4 9728 (VL 8204) (VL 8236);
  VBin OAdd 4 9732 (VL 8220) (VL 8252);
  VBin OAdd 4 9736 (VL 9728) (VL 9732);
  VBin OAdd 4 9740 (VL 8256) (VL 8288);
  VBin OAdd 4 9744 (VL 8272) (VL 8304);
  VBin OAdd 4 9748 (VL 9740) (VL 9744);
  VBin OMul32 4 9312 (VL 9736) (VL 9748);
  VBin OAdd 4 9752 (VL 8192) (VL 8224);
  VBin OAdd 4 9756 (VL 8208) (VL 8240);
  VBin OAdd 4 9760 (VL 9752) (VL 9756);
  VBin OAdd 4 9764 (VL 8260) (VL 8292);
  VBin OAdd 4 9768 (VL 8276) (VL 8308);
  VBin OAdd 4 9772 (VL 9764) (VL 9768);
  VBin OMul32 4 9776 (VL 9760) (VL 9772);
  VBin OAdd 4 9304 (VL 9304) (VL 9776);
  VBin OAdd 4 9780 (VL 8196) (VL 8228);
  VBin OAdd 4 9784 (VL 8212) (VL 8244);
  VBin OAdd 4 9788 (VL 9780) (VL 9784);
  VBin OAdd 4 9792 (VL 8260) (VL 8292);
  VBin OAdd 4 9796 (VL 8276) (VL 8308);
  VBin OAdd 4 9800 (VL 9792) (VL 9796);
  VBin OMul32 4 9804 (VL 9788) (VL 9800);
  VBin OAdd 4 9308 (VL 9308) (VL 9804);
  VBin OAdd 4 9808 (VL 8200) (VL 8232);
  VBin OAdd 4 9812 (VL 8216) (VL 8248);
  VBin OAdd 4 9816 (VL 9808) (VL 9812);
  VBin OAdd 4 9820 (VL 8260) (VL 8292);
  VBin OAdd 4 9824 (VL 8276) (VL 8308);
  VBin OAdd 4 9828 (VL 9820) (VL 9824);
  VBin OMul32 4 9832 (VL 9816) (VL 9828);
  VBin OAdd 4 9312 (VL 9312) (VL 9832);
  VBin OAdd 4 9836 (VL 8204) (VL 8236);
  VBin OAdd 4 9840 (VL 8220) (VL 8252);
  VBin OAdd 4 9844 (VL 9836) (VL 9840);
  VBin OAdd 4 9848 (VL 8260) (VL 8292);
  VBin OAdd 4 9852 (VL 8276) (VL 8308);
  VBin OAdd 4 9856 (VL 9848) (VL 9852);
  VBin OMul32 4 9316 (VL 9844) (VL 9856);
  VBin OAdd 4 9860 (VL 8192) (VL 8224);
  VBin OAdd 4 9864 (VL 8208) (VL 8240);
  VBin OAdd 4 9868 (VL 9860) (VL 9864);
  VBin OAdd 4 9872 (VL 8264) (VL 8296);
  VBin OAdd 4 9876 (VL 8280) (VL 8312);
  VBin OAdd 4 9880 (VL 9872) (VL 9876);
  VBin OMul32 4 9884 (VL 9868) (VL 9880);
  VBin OAdd 4 9308 (VL 9308) (VL 9884);
  VBin OAdd 4 9888 (VL 8196) (VL 8228);
  VBin OAdd 4 9892 (VL 8212) (VL 8244);
  VBin OAdd 4 9896 (VL 9888) (VL 9892);
  VBin OAdd 4 9900 (VL 8264) (VL 8296);
  VBin OAdd 4 9904 (VL 8280) (VL 8312);
  VBin OAdd 4 9908 (VL 9900) (VL 9904);
  VBin OMul32 4 9912 (VL 9896) (VL 9908);
  VBin OAdd 4 9312 (VL 9312) (VL 9912);
  VBin OAdd 4 9916 (VL 8200) (VL 8232);
  VBin OAdd 4 9920 (VL 8216) (VL 8248);
  VBin OAdd 4 9924 (VL 9916) (VL 9920);
  VBin OAdd 4 9928 (VL 8264) (VL 8296);
  VBin OAdd 4 9932 (VL 8280) (VL 8312);
  VBin OAdd 4 9936 (VL 9928) (VL 9932);
  VBin OMul32 4 9940 (VL 9924) (VL 9936);
  VBin OAdd 4 9316 (VL 9316) (VL 9940);
  VBin OAdd 4 9944 (VL 8204) (VL 8236);
  VBin OAdd 4 9948 (VL 8220) (VL 8252);
  VBin OAdd 4 9952 (VL 9944) (VL 9948);
  VBin OAdd 4 9956 (VL 8264) (VL 8296);
  VBin OAdd 4 9960 (VL 8280) (VL 8312);
  VBin OAdd 4 9964 (VL 9956) (VL 9960);
  VBin OMul32 4 9320 (VL 9952) (VL 9964);
  VBin OAdd 4 9968 (VL 8192) (VL 8224);
  VBin OAdd 4 9972 (VL 8208) (VL 8240);
  VBin OAdd 4 9976 (VL 9968) (VL 9972);
  VBin OAdd 4 9980 (VL 8268) (VL 8300);
  VBin OAdd 4 9984 (VL 8284) (VL 8316);
  VBin OAdd 4 9988 (VL 9980) (VL 9984);
  VBin OMul32 4 9992 (VL 9976) (VL 9988);
  VBin OAdd 4 9312 (VL 9312) (VL 9992);
  VBin OAdd 4 9996 (VL 8196) (VL 8228);
  VBin OAdd 4 10000 (VL 8212) (VL 8244);
  VBin OAdd 4 10004 (VL 9996) (VL 10000);
  VBin OAdd 4 10008 (VL 8268) (VL 8300);
  VBin OAdd 4 10012 (VL 8284) (VL 8316);
  VBin OAdd 4 10016 (VL 10008) (VL 10012);
  VBin OMul32 4 10020 (VL 10004) (VL 10016);
  VBin OAdd 4 9316 (VL 9316) (VL 10020);
  VBin OAdd 4 10024 (VL 8200) (VL 8232);
  VBin OAdd 4 10028 (VL 8216) (VL 8248);
  VBin OAdd 4 10032 (VL 10024) (VL 10028);
  VBin OAdd 4 10036 (VL 8268) (VL 8300);
  VBin OAdd 4 10040 (VL 8284) (VL 8316);
  VBin OAdd 4 10044 (VL 10036) (VL 10040);
  VBin OMul32 4 10048 (VL 10032) (VL 10044);
  VBin OAdd 4 9320 (VL 9320) (VL 10048);
  VBin OAdd 4 10052 (VL 8204) (VL 8236);
  VBin OAdd 4 10056 (VL 8220) (VL 8252);
  VBin OAdd 4 10060 (VL 10052) (VL 10056);
  VBin OAdd 4 10064 (VL 8268) (VL 8300);
  VBin OAdd 4 10068 (VL 8284) (VL 8316);
  VBin OAdd 4 10072 (VL 10064) (VL 10068);
  VBin OMul32 4 9324 (VL 10060) (VL 10072);
  VBin OSub 4 10076 (VL 9260) (VL 9272);
  VBin OSub 4 10084 (VL 9264) (VL 9276);
  VBin OSub 4 10092 (VL 9268) (VL 9280);
  VMov 4 8440 (VL 9244);
  VBin OSub 4 10100 (VL 9316) (VL 9288);
  VBin OSub 4 8472 (VL 10100) (VL 10076);
  VMov 4 8444 (VL 9248);
  VBin OSub 4 10104 (VL 9320) (VL 9292);
  VBin OSub 4 8476 (VL 10104) (VL 10084);
  VMov 4 8448 (VL 9252);
  VBin OSub 4 10108 (VL 9324) (VL 9296);
  VBin OSub 4 8480 (VL 10108) (VL 10092);
  VMov 4 8452 (VL 9256);
  VMov 4 8484 (VL 9284);
  VBin OSub 4 10112 (VL 9300) (VL 9244);
  VBin OAdd 4 8456 (VL 10076) (VL 10112);
  VMov 4 8488 (VL 9288);
  VBin OSub 4 10116 (VL 9304) (VL 9248);
  VBin OAdd 4 8460 (VL 10084) (VL 10116);
  VMov 4 8492 (VL 9292);
  VBin OSub 4 10120 (VL 9308) (VL 9252);
  VBin OAdd 4 8464 (VL 10092) (VL 10120);
  VMov 4 8496 (VL 9296);
  VBin OSub 4 10124 (VL 9312) (VL 9256);
  VBin OSub 4 8468 (VL 10124) (VL 9284);
  VBin OAdd 4 10128 (VL 8320) (VL 8380); (* 382 *)
  VBin OAdd 4 10132 (VL 10128) (VL 8472);
  VBin OSub 4 1024 (VL 10132) (VL 8352);
  VBin OAdd 4 10136 (VL 8412) (VL 8440);
  VBin OAdd 4 10140 (VL 10136) (VL 8472);
  VBin OSub 4 1028 (VL 10140) (VL 8320);
  VBin OAdd 4 10144 (VL 8324) (VL 8384); (* 383 *)
  VBin OAdd 4 10148 (VL 10144) (VL 8476);
  VBin OSub 4 1032 (VL 10148) (VL 8356);
  VBin OAdd 4 10152 (VL 8416) (VL 8444);
  VBin OAdd 4 10156 (VL 10152) (VL 8476);
  VBin OSub 4 1036 (VL 10156) (VL 8324);
  VBin OAdd 4 10160 (VL 8328) (VL 8388); (* 384 *)
  VBin OAdd 4 10164 (VL 10160) (VL 8480);
  VBin OSub 4 1040 (VL 10164) (VL 8360);
  VBin OAdd 4 10168 (VL 8420) (VL 8448);
  VBin OAdd 4 10172 (VL 10168) (VL 8480);
  VBin OSub 4 1044 (VL 10172) (VL 8328);
  VBin OAdd 4 10176 (VL 8332) (VL 8392); (* 385 *)
  VBin OAdd 4 10180 (VL 10176) (VL 8484);
  VBin OSub 4 1048 (VL 10180) (VL 8364);
  VBin OAdd 4 10184 (VL 8424) (VL 8452);
  VBin OAdd 4 10188 (VL 10184) (VL 8484);
  VBin OSub 4 1052 (VL 10188) (VL 8332);
  VBin OAdd 4 10192 (VL 8336) (VL 8396); (* 386 *)
  VBin OAdd 4 10196 (VL 10192) (VL 8488);
  VBin OSub 4 1056 (VL 10196) (VL 8368);
  VBin OAdd 4 10200 (VL 8428) (VL 8456);
  VBin OAdd 4 10204 (VL 10200) (VL 8488);
  VBin OSub 4 1060 (VL 10204) (VL 8336);
  VBin OAdd 4 10208 (VL 8340) (VL 8400); (* 387 *)
  VBin OAdd 4 10212 (VL 10208) (VL 8492);
  VBin OSub 4 1064 (VL 10212) (VL 8372);
  VBin OAdd 4 10216 (VL 8432) (VL 8460);
  VBin OAdd 4 10220 (VL 10216) (VL 8492);
  VBin OSub 4 1068 (VL 10220) (VL 8340);
  VBin OAdd 4 10224 (VL 8344) (VL 8404); (* 388 *)
  VBin OAdd 4 10228 (VL 10224) (VL 8496);
  VBin OSub 4 1072 (VL 10228) (VL 8376);
  VBin OAdd 4 10232 (VL 8436) (VL 8464);
  VBin OAdd 4 10236 (VL 10232) (VL 8496);
  VBin OSub 4 1076 (VL 10236) (VL 8344);
  VBin OAdd 4 1080 (VL 8348) (VL 8408); (* 389 *)
  VBin OSub 4 1084 (VL 8468) (VL 8348)].

(** src/eltfp448_4w_redradix.c:442 *)
Definition v448_4w_intsqr_karat : list vinstr := [
  VMov 4 8192 (VL 1024); (* 448 *)
  VMov 4 8224 (VL 1028);
  VMov 4 8196 (VL 1032); (* 449 *)
  VMov 4 8228 (VL 1036);
  VMov 4 8200 (VL 1040); (* 450 *)
  VMov 4 8232 (VL 1044);
  VMov 4 8204 (VL 1048); (* 451 *)
  VMov 4 8236 (VL 1052);
  VMov 4 8208 (VL 1056); (* 452 *)
  VMov 4 8240 (VL 1060);
  VMov 4 8212 (VL 1064); (* 453 *)
  VMov 4 8244 (VL 1068);
  VMov 4 8216 (VL 1072); (* 454 *)
  VMov 4 8248 (VL 1076);
  VMov 4 8220 (VL 1080); (* 455 *)
  VMov 4 8252 (VL 1084);
  VBin OMul32 4 8520 (VL 8192) (VL 8200); (* 457 *)
  VBin OMul32 4 8528 (VL 8196) (VL 8204);
  VBin OMul32 4 8436 (VL 8192) (VL 8192);
  VBin OMul32 4 8440 (VL 8192) (VL 8196);
  VBin OAdd 4 8440 (VL 8440) (VL 8440);
  VBin OMul32 4 8444 (VL 8196) (VL 8196);
  VBin OAdd 4 8536 (VL 8520) (VL 8520);
  VBin OAdd 4 8444 (VL 8444) (VL 8536);
  VBin OMul32 4 8448 (VL 8192) (VL 8204);
  VBin OMul32 4 8540 (VL 8196) (VL 8200);
  VBin OAdd 4 8448 (VL 8448) (VL 8540);
  VBin OAdd 4 8448 (VL 8448) (VL 8448);
  VBin OMul32 4 8452 (VL 8200) (VL 8200);
  VBin OAdd 4 8544 (VL 8528) (VL 8528);
  VBin OAdd 4 8452 (VL 8452) (VL 8544);
  VBin OMul32 4 8456 (VL 8200) (VL 8204);
  VBin OAdd 4 8456 (VL 8456) (VL 8456);
  VBin OMul32 4 8460 (VL 8204) (VL 8204);
  VBin OMul32 4 8548 (VL 8208) (VL 8216);
  VBin OMul32 4 8556 (VL 8212) (VL 8220);
  VBin OMul32 4 8464 (VL 8208) (VL 8208);
  VBin OMul32 4 8468 (VL 8208) (VL 8212);
  VBin OAdd 4 8468 (VL 8468) (VL 8468);
  VBin OMul32 4 8472 (VL 8212) (VL 8212);
  VBin OAdd 4 8564 (VL 8548) (VL 8548);
  VBin OAdd 4 8472 (VL 8472) (VL 8564);
  VBin OMul32 4 8476 (VL 8208) (VL 8220);
  VBin OMul32 4 8568 (VL 8212) (VL 8216);
  VBin OAdd 4 8476 (VL 8476) (VL 8568);
  VBin OAdd 4 8476 (VL 8476) (VL 8476);
  VBin OMul32 4 8480 (VL 8216) (VL 8216);
  VBin OAdd 4 8572 (VL 8556) (VL 8556);
  VBin OAdd 4 8480 (VL 8480) (VL 8572);
  VBin OMul32 4 8484 (VL 8216) (VL 8220);
  VBin OAdd 4 8484 (VL 8484) (VL 8484);
  VBin OMul32 4 8488 (VL 8220) (VL 8220);
  VBin OAdd 4 8576 (VL 8192) (VL 8208);
  VBin OAdd 4 8580 (VL 8200) (VL 8216);
  VBin OMul32 4 8584 (VL 8576) (VL 8580);
  VBin OAdd 4 8592 (VL 8196) (VL 8212);
  VBin OAdd 4 8596 (VL 8204) (VL 8220);
  VBin OMul32 4 8600 (VL 8592) (VL 8596);
  VBin OAdd 4 8608 (VL 8192) (VL 8208);
  VBin OAdd 4 8612 (VL 8192) (VL 8208);
  VBin OMul32 4 8492 (VL 8608) (VL 8612);
  VBin OAdd 4 8616 (VL 8192) (VL 8208);
  VBin OAdd 4 8620 (VL 8196) (VL 8212);
  VBin OMul32 4 8496 (VL 8616) (VL 8620);
  VBin OAdd 4 8496 (VL 8496) (VL 8496);
  VBin OAdd 4 8624 (VL 8196) (VL 8212);
  VBin OAdd 4 8628 (VL 8196) (VL 8212);
  VBin OMul32 4 8500 (VL 8624) (VL 8628);
  VBin OAdd 4 8632 (VL 8584) (VL 8584);
  VBin OAdd 4 8500 (VL 8500) (VL 8632);
  VBin OAdd 4 8636 (VL 8192) (VL 8208);
  VBin OAdd 4 8640 (VL 8204) (VL 8220);
  VBin OMul32 4 8504 (VL 8636) (VL 8640);
  VBin OAdd 4 8644 (VL 8196) (VL 8212);
  VBin OAdd 4 8648 (VL 8200) (VL 8216);
  VBin OMul32 4 8652 (VL 8644) (VL 8648);
  VBin OAdd 4 8504 (VL 8504) (VL 8652);
  VBin OAdd 4 8504 (VL 8504) (VL 8504);
  VBin OAdd 4 8656 (VL 8200) (VL 8216);
  VBin OAdd 4 8660 (VL 8200) (VL 8216);
  VBin OMul32 4 8508 (VL 8656) (VL 8660);
  VBin OAdd 4 8664 (VL 8600) (VL 8600);
  VBin OAdd 4 8508 (VL 8508) (VL 8664);
  VBin OAdd 4 8668 (VL 8200) (VL 8216);
  VBin OAdd 4 8672 (VL 8204) (VL 8220);
  VBin OMul32 4 8512 (VL 8668) (VL 8672);
  VBin OAdd 4 8512 (VL 8512) (VL 8512);
  VBin OAdd 4 8676 (VL 8204) (VL 8220);
  VBin OAdd 4 8680 (VL 8204) (VL 8220);
  VBin OMul32 4 8516 (VL 8676) (VL 8680);
  VBin OSub 4 8684 (VL 8452) (VL 8464);
  VBin OSub 4 8692 (VL 8456) (VL 8468);
  VBin OSub 4 8700 (VL 8460) (VL 8472);
  VMov 4 8256 (VL 8436);
  VBin OSub 4 8708 (VL 8508) (VL 8480);
  VBin OSub 4 8288 (VL 8708) (VL 8684);
  VMov 4 8260 (VL 8440);
  VBin OSub 4 8712 (VL 8512) (VL 8484);
  VBin OSub 4 8292 (VL 8712) (VL 8692);
  VMov 4 8264 (VL 8444);
  VBin OSub 4 8716 (VL 8516) (VL 8488);
  VBin OSub 4 8296 (VL 8716) (VL 8700);
  VMov 4 8268 (VL 8448);
  VMov 4 8300 (VL 8476);
  VBin OSub 4 8720 (VL 8492) (VL 8436);
  VBin OAdd 4 8272 (VL 8684) (VL 8720);
  VMov 4 8304 (VL 8480);
  VBin OSub 4 8724 (VL 8496) (VL 8440);
  VBin OAdd 4 8276 (VL 8692) (VL 8724);
  VMov 4 8308 (VL 8484);
  VBin OSub 4 8728 (VL 8500) (VL 8444);
  VBin OAdd 4 8280 (VL 8700) (VL 8728);
  VMov 4 8312 (VL 8488);
  VBin OSub 4 8732 (VL 8504) (VL 8448);
  VBin OSub 4 8284 (VL 8732) (VL 8476);
  VBin OMul32 4 8820 (VL 8224) (VL 8232); (* 459 *)
  VBin OMul32 4 8828 (VL 8228) (VL 8236);
  VBin OMul32 4 8736 (VL 8224) (VL 8224);
  VBin OMul32 4 8740 (VL 8224) (VL 8228);
  VBin OAdd 4 8740 (VL 8740) (VL 8740);
  VBin OMul32 4 8744 (VL 8228) (VL 8228);
  VBin OAdd 4 8836 (VL 8820) (VL 8820);
  VBin OAdd 4 8744 (VL 8744) (VL 8836);
  VBin OMul32 4 8748 (VL 8224) (VL 8236);
  VBin OMul32 4 8840 (VL 8228) (VL 8232);
  VBin OAdd 4 8748 (VL 8748) (VL 8840);
  VBin OAdd 4 8748 (VL 8748) (VL 8748);
  VBin OMul32 4 8752 (VL 8232) (VL 8232);
  VBin OAdd 4 8844 (VL 8828) (VL 8828);
  VBin OAdd 4 8752 (VL 8752) (VL 8844);
  VBin OMul32 4 8756 (VL 8232) (VL 8236);
  VBin OAdd 4 8756 (VL 8756) (VL 8756);
  VBin OMul32 4 8760 (VL 8236) (VL 8236);
  VBin OMul32 4 8848 (VL 8240) (VL 8248);
  VBin OMul32 4 8856 (VL 8244) (VL 8252);
  VBin OMul32 4 8764 (VL 8240) (VL 8240);
  VBin OMul32 4 8768 (VL 8240) (VL 8244);
  VBin OAdd 4 8768 (VL 8768) (VL 8768);
  VBin OMul32 4 8772 (VL 8244) (VL 8244);
  VBin OAdd 4 8864 (VL 8848) (VL 8848);
  VBin OAdd 4 8772 (VL 8772) (VL 8864);
  VBin OMul32 4 8776 (VL 8240) (VL 8252);
  VBin OMul32 4 8868 (VL 8244) (VL 8248);
  VBin OAdd 4 8776 (VL 8776) (VL 8868);
  VBin OAdd 4 8776 (VL 8776) (VL 8776);
  VBin OMul32 4 8780 (VL 8248) (VL 8248);
  VBin OAdd 4 8872 (VL 8856) (VL 8856);
  VBin OAdd 4 8780 (VL 8780) (VL 8872);
  VBin OMul32 4 8784 (VL 8248) (VL 8252);
  VBin OAdd 4 8784 (VL 8784) (VL 8784);
  VBin OMul32 4 8788 (VL 8252) (VL 8252);
  VBin OAdd 4 8876 (VL 8224) (VL 8240);
  VBin OAdd 4 8880 (VL 8232) (VL 8248);
  VBin OMul32 4 8884 (VL 8876) (VL 8880);
  VBin OAdd 4 8892 (VL 8228) (VL 8244);
  VBin OAdd 4 8896 (VL 8236) (VL 8252);
  VBin OMul32 4 8900 (VL 8892) (VL 8896);
  VBin OAdd 4 8908 (VL 8224) (VL 8240);
  VBin OAdd 4 8912 (VL 8224) (VL 8240);
  VBin OMul32 4 8792 (VL 8908) (VL 8912);
  VBin OAdd 4 8916 (VL 8224) (VL 8240);
  VBin OAdd 4 8920 (VL 8228) (VL 8244);
  VBin OMul32 4 8796 (VL 8916) (VL 8920);
  VBin OAdd 4 8796 (VL 8796) (VL 8796);
  VBin OAdd 4 8924 (VL 8228) (VL 8244);
  VBin OAdd 4 8928 (VL 8228) (VL 8244);
  VBin OMul32 4 8800 (VL 8924) (VL 8928);
  VBin OAdd 4 8932 (VL 8884) (VL 8884);
  VBin OAdd 4 8800 (VL 8800) (VL 8932);
  VBin OAdd 4 8936 (VL 8224) (VL 8240);
  VBin OAdd 4 8940 (VL 8236) (VL 8252);
  VBin OMul32 4 8804 (VL 8936) (VL 8940);
  VBin OAdd 4 8944 (VL 8228) (VL 8244);
  VBin OAdd 4 8948 (VL 8232) (VL 8248);
  VBin OMul32 4 8952 (VL 8944) (VL 8948);
  VBin OAdd 4 8804 (VL 8804) (VL 8952);
  VBin OAdd 4 8804 (VL 8804) (VL 8804);
  VBin OAdd 4 8956 (VL 8232) (VL 8248);
  VBin OAdd 4 8960 (VL 8232) (VL 8248);
  VBin OMul32 4 8808 (VL 8956) (VL 8960);
  VBin OAdd 4 8964 (VL 8900) (VL 8900);
  VBin OAdd 4 8808 (VL 8808) (VL 8964);
  VBin OAdd 4 8968 (VL 8232) (VL 8248);
  VBin OAdd 4 8972 (VL 8236) (VL 8252);
  VBin OMul32 4 8812 (VL 8968) (VL 8972);
  VBin OAdd 4 8812 (VL 8812) (VL 8812);
  VBin OAdd 4 8976 (VL 8236) (VL 8252);
  VBin OAdd 4 8980 (VL 8236) (VL 8252);
  VBin OMul32 4 8816 (VL 8976) (VL 8980);
  VBin OSub 4 8984 (VL 8752) (VL 8764);
  VBin OSub 4 8992 (VL 8756) (VL 8768);
  VBin OSub 4 9000 (VL 8760) (VL 8772);
  VMov 4 8316 (VL 8736);
  VBin OSub 4 9008 (VL 8808) (VL 8780);
  VBin OSub 4 8348 (VL 9008) (VL 8984);
  VMov 4 8320 (VL 8740);
  VBin OSub 4 9012 (VL 8812) (VL 8784);
  VBin OSub 4 8352 (VL 9012) (VL 8992);
  VMov 4 8324 (VL 8744);
  VBin OSub 4 9016 (VL 8816) (VL 8788);
  VBin OSub 4 8356 (VL 9016) (VL 9000);
  VMov 4 8328 (VL 8748);
  VMov 4 8360 (VL 8776);
  VBin OSub 4 9020 (VL 8792) (VL 8736);
  VBin OAdd 4 8332 (VL 8984) (VL 9020);
  VMov 4 8364 (VL 8780);
  VBin OSub 4 9024 (VL 8796) (VL 8740);
  VBin OAdd 4 8336 (VL 8992) (VL 9024);
  VMov 4 8368 (VL 8784);
  VBin OSub 4 9028 (VL 8800) (VL 8744);
  VBin OAdd 4 8340 (VL 9000) (VL 9028);
  VMov 4 8372 (VL 8788);
  VBin OSub 4 9032 (VL 8804) (VL 8748);
  VBin OSub 4 8344 (VL 9032) (VL 8776);
  VBin OAdd 4 9120 (VL 8192) (VL 8224); (* 461 *)
  VBin OAdd 4 9124 (VL 8200) (VL 8232);
  VBin OMul32 4 9128 (VL 9120) (VL 9124);
  VBin OAdd 4 9136 (VL 8196) (VL 8228);
  VBin OAdd 4 9140 (VL 8204) (VL 8236);
  VBin OMul32 4 9144 (VL 9136) (VL 9140);
  VBin OAdd 4 9152 (VL 8192) (VL 8224);
  VBin OAdd 4 9156 (VL 8192) (VL 8224);
  VBin OMul32 4 9036 (VL 9152) (VL 9156);
  VBin OAdd 4 9160 (VL 8192) (VL 8224);
  VBin OAdd 4 9164 (VL 8196) (VL 8228);
  VBin OMul32 4 9040 (VL 9160) (VL 9164);
  VBin OAdd 4 9040 (VL 9040) (VL 9040);
  VBin OAdd 4 9168 (VL 8196) (VL 8228);
  VBin OAdd 4 9172 (VL 8196) (VL 8228);
  VBin OMul32 4 9044 (VL 9168) (VL 9172);
  VBin OAdd 4 9176 (VL 9128) (VL 9128);
  VBin OAdd 4 9044 (VL 9044) (VL 9176);
  VBin OAdd 4 9180 (VL 8192) (VL 8224);
  VBin OAdd 4 9184 (VL 8204) (VL 8236);
  VBin OMul32 4 9048 (VL 9180) (VL 9184);
  VBin OAdd 4 9188 (VL 8196) (VL 8228);
  VBin OAdd 4 9192 (VL 8200) (VL 8232);
  VBin OMul32 4 9196 (VL 9188) (VL 9192);
  VBin OAdd 4 9048 (VL 9048) (VL 9196);
  VBin OAdd 4 9048 (VL 9048) (VL 9048);
  VBin OAdd 4 9200 (VL 8200) (VL 8232);
  VBin OAdd 4 9204 (VL 8200) (VL 8232);
  VBin OMul32 4 9052 (VL 9200) (VL 9204);
  VBin OAdd 4 9208 (VL 9144) (VL 9144);
  VBin OAdd 4 9052 (VL 9052) (VL 9208);
  VBin OAdd 4 9212 (VL 8200) (VL 8232);
  VBin OAdd 4 9216 (VL 8204) (VL 8236);
  VBin OMul32 4 9056 (VL 9212) (VL 9216);
  VBin OAdd 4 9056 (VL 9056) (VL 9056);
  VBin OAdd 4 9220 (VL 8204) (VL 8236);
  VBin OAdd 4 9224 (VL 8204) (VL 8236);
  VBin OMul32 4 9060 (VL 9220) (VL 9224);
  VBin OAdd 4 9228 (VL 8208) (VL 8240);
  VBin OAdd 4 9232 (VL 8216) (VL 8248);
  VBin OMul32 4 9236 (VL 9228) (VL 9232);
  VBin OAdd 4 9244 (VL 8212) (VL 8244);
  VBin OAdd 4 9248 (VL 8220) (VL 8252);
  VBin OMul32 4 9252 (VL 9244) (VL 9248);
  VBin OAdd 4 9260 (VL 8208) (VL 8240);
  VBin OAdd 4 9264 (VL 8208) (VL 8240);
  VBin OMul32 4 9064 (VL 9260) (VL 9264);
  VBin OAdd 4 9268 (VL 8208) (VL 8240);
  VBin OAdd 4 9272 (VL 8212) (VL 8244);
  VBin OMul32 4 9068 (VL 9268) (VL 9272);
  VBin OAdd 4 9068 (VL 9068) (VL 9068);
  VBin OAdd 4 9276 (VL 8212) (VL 8244);
  VBin OAdd 4 9280 (VL 8212) (VL 8244);
  VBin OMul32 4 9072 (VL 9276) (VL 9280);
  VBin OAdd 4 9284 (VL 9236) (VL 9236);
  VBin OAdd 4 9072 (VL 9072) (VL 9284);
  VBin OAdd 4 9288 (VL 8208) (VL 8240);
  VBin OAdd 4 9292 (VL 8220) (VL 8252);
  VBin OMul32 4 9076 (VL 9288) (VL 9292);
  VBin OAdd 4 9296 (VL 8212) (VL 8244);
  VBin OAdd 4 9300 (VL 8216) (VL 8248);
  VBin OMul32 4 9304 (VL 9296) (VL 9300);
  VBin OAdd 4 9076 (VL 9076) (VL 9304);
  VBin OAdd 4 9076 (VL 9076) (VL 9076);
  VBin OAdd 4 9308 (VL 8216) (VL 8248);
  VBin OAdd 4 9312 (VL 8216) (VL 8248);
  VBin OMul32 4 9080 (VL 9308) (VL 9312);
  VBin OAdd 4 9316 (VL 9252) (VL 9252);
  VBin OAdd 4 9080 (VL 9080) (VL 9316);
  VBin OAdd 4 9320 (VL 8216) (VL 8248);
  VBin OAdd 4 9324 (VL 8220) (VL 8252);
  VBin OMul32 4 9084 (VL 9320) (VL 9324);
  VBin OAdd 4 9084 (VL 9084) (VL 9084);
  VBin OAdd 4 9328 (VL 8220) (VL 8252);
  VBin OAdd 4 9332 (VL 8220) (VL 8252);
  VBin OMul32 4 9088 (VL 9328) (VL 9332);
  VBin OAdd 4 9336 (VL 8192) (VL 8224);
  VBin OAdd 4 9340 (VL 8208) (VL 8240);
  VBin OAdd 4 9344 (VL 9336) (VL 9340);
  VBin OAdd 4 9348 (VL 8200) (VL 8232);
  VBin OAdd 4 9352 (VL 8216) (VL 8248);
  VBin OAdd 4 9356 (VL 9348) (VL 9352);
  VBin OMul32 4 9360 (VL 9344) (VL 9356);
  VBin OAdd 4 9368 (VL 8196) (VL 8228);
  VBin OAdd 4 9372 (VL 8212) (VL 8244);
  VBin OAdd 4 9376 (VL 9368) (VL 9372);
  VBin OAdd 4 9380 (VL 8204) (VL 8236);
  VBin OAdd 4 9384 (VL 8220) (VL 8252);
  VBin OAdd 4 9388 (VL 9380) (VL 9384);
  VBin OMul32 4 9392 (VL 9376) (VL 9388);
  VBin OAdd 4 9400 (VL 8192) (VL 8224);
  VBin OAdd 4 9404 (VL 8208) (VL 8240);
  VBin OAdd 4 9408 (VL 9400) (VL 9404);
  VBin OAdd 4 9412 (VL 8192) (VL 8224);
  VBin OAdd 4 9416 (VL 8208) (VL 8240);
  VBin OAdd 4 9420 (VL 9412) (VL 9416);
  VBin OMul32 4 9092 (VL 9408) (VL 9420);
  VBin OAdd 4 9424 (VL 8192) (VL 8224);
  VBin OAdd 4 9428 (VL 8208) (VL 8240);
  VBin OAdd 4 9432 (VL 9424) (VL 9428);
  VBin OAdd 4 9436 (VL 8196) (VL 8228);
  VBin OAdd 4 9440 (VL 8212) (VL 8244);
  VBin OAdd 4 9444 (VL 9436) (VL 9440);
  VBin OMul32 4 9096 (VL 9432) (VL 9444);
  VBin OAdd 4 9096 (VL 9096) (VL 9096);
  VBin OAdd 4 9448 (VL 8196) (VL 8228);
  VBin OAdd 4 9452 (VL 8212) (VL 8244);
  VBin OAdd 4 9456 (VL 9448) (VL 9452);
  VBin OAdd 4 9460 (VL 8196) (VL 8228);
  VBin OAdd 4 9464 (VL 8212) (VL 8244);
  VBin OAdd 4 9468 (VL 9460) (VL 9464);
  VBin OMul32 4 9100 (VL 9456) (VL 9468);
  VBin OAdd 4 9472 (VL 9360) (VL 9360);
  VBin OAdd 4 9100 (VL 9100) (VL 9472);
  VBin OAdd 4 9476 (VL 8192) (VL 8224);
  VBin OAdd 4 9480 (VL 8208) (VL 8240);
  VBin OAdd 4 9484 (VL 9476) (VL 9480);
  VBin OAdd 4 9488 (VL 8204) (VL 8236);
  VBin OAdd 4 9492 (VL 8220) (VL 8252);
  VBin OAdd 4 9496 (VL 9488) (VL 9492);
  VBin OMul32 4 9104 (VL 9484) (VL 9496);
  VBin OAdd 4 9500 (VL 8196) (VL 8228);
  VBin OAdd 4 9504 (VL 8212) (VL 8244);
  VBin OAdd 4 9508 (VL 9500) (VL 9504);
  VBin OAdd 4 9512 (VL 8200) (VL 8232);
  VBin OAdd 4 9516 (VL 8216) (VL 8248);
  VBin OAdd 4 9520 (VL 9512) (VL 9516);
  VBin OMul32 4 9524 (VL 9508) (VL 9520);
  VBin OAdd 4 9104 (VL 9104) (VL 9524);
  VBin OAdd 4 9104 (VL 9104) (VL 9104);
  VBin OAdd 4 9528 (VL 8200) (VL 8232);
  VBin OAdd 4 9532 (VL 8216) (VL 8248);
  VBin OAdd 4 9536 (VL 9528) (VL 9532);
  VBin OAdd 4 9540 (VL 8200) (VL 8232);
  VBin OAdd 4 9544 (VL 8216) (VL 8248);
  VBin OAdd 4 9548 (VL 9540) (VL 9544);
  VBin OMul32 4 9108 (VL 9536) (VL 9548);
  VBin OAdd 4 9552 (VL 9392) (VL 9392);
  VBin OAdd 4 9108 (VL 9108) (VL 9552);
  VBin OAdd 4 9556 (VL 8200) (VL 8232);
  VBin OAdd 4 9560 (VL 8216) (VL 8248);
  VBin OAdd 4 9564 (VL 9556) (VL 9560);
  VBin OAdd 4 9568 (VL 8204) (VL 8236);
  VBin OAdd 4 9572 (VL 8220) (VL 8252);
  VBin OAdd 4 9576 (VL 9568) (VL 9572);
  VBin OMul32 4 9112 (VL 9564) (VL 9576);
  VBin OAdd 4 9112 (VL 9112) (VL 9112);
  VBin OAdd 4 9580 (VL 8204) (VL 8236);
  VBin OAdd 4 9584 (VL 8220) (VL 8252);
  VBin OAdd 4 9588 (VL 9580) (VL 9584);
  VBin OAdd 4 9592 (VL 8204) (VL 8236);
  VBin OAdd 4 9596 (VL 8220) (VL 8252);
  VBin OAdd 4 9600 (VL 9592) (VL 9596);
  VBin OMul32 4 9116 (VL 9588) (VL 9600);
  VBin OSub 4 9604 (VL 9052) (VL 9064);
  VBin OSub 4 9612 (VL 9056) (VL 9068);
  VBin OSub 4 9620 (VL 9060) (VL 9072);
  VMov 4 8376 (VL 9036);
  VBin OSub 4 9628 (VL 9108) (VL 9080);
  VBin OSub 4 8408 (VL 9628) (VL 9604);
  VMov 4 8380 (VL 9040);
  VBin OSub 4 9632 (VL 9112) (VL 9084);
  VBin OSub 4 8412 (VL 9632) (VL 9612);
  VMov 4 8384 (VL 9044);
  VBin OSub 4 9636 (VL 9116) (VL 9088);
  VBin OSub 4 8416 (VL 9636) (VL 9620);
  VMov 4 8388 (VL 9048);
  VMov 4 8420 (VL 9076);
  VBin OSub 4 9640 (VL 9092) (VL 9036);
  VBin OAdd 4 8392 (VL 9604) (VL 9640);
  VMov 4 8424 (VL 9080);
  VBin OSub 4 9644 (VL 9096) (VL 9040);
  VBin OAdd 4 8396 (VL 9612) (VL 9644);
  VMov 4 8428 (VL 9084);
  VBin OSub 4 9648 (VL 9100) (VL 9044);
  VBin OAdd 4 8400 (VL 9620) (VL 9648);
  VMov 4 8432 (VL 9088);
  VBin OSub 4 9652 (VL 9104) (VL 9048);
  VBin OSub 4 8404 (VL 9652) (VL 9076);
  VBin OAdd 4 9656 (VL 8256) (VL 8316); (* 471 *)
  VBin OAdd 4 9660 (VL 9656) (VL 8408);
  VBin OSub 4 1024 (VL 9660) (VL 8288);
  VBin OAdd 4 9664 (VL 8348) (VL 8376);
  VBin OAdd 4 9668 (VL 9664) (VL 8408);
  VBin OSub 4 1028 (VL 9668) (VL 8256);
  VBin OAdd 4 9672 (VL 8260) (VL 8320); (* 472 *)
  VBin OAdd 4 9676 (VL 9672) (VL 8412);
  VBin OSub 4 1032 (VL 9676) (VL 8292);
  VBin OAdd 4 9680 (VL 8352) (VL 8380);
  VBin OAdd 4 9684 (VL 9680) (VL 8412);
  VBin OSub 4 1036 (VL 9684) (VL 8260);
  VBin OAdd 4 9688 (VL 8264) (VL 8324); (* 473 *)
  VBin OAdd 4 9692 (VL 9688) (VL 8416);
  VBin OSub 4 1040 (VL 9692) (VL 8296);
  VBin OAdd 4 9696 (VL 8356) (VL 8384);
  VBin OAdd 4 9700 (VL 9696) (VL 8416);
  VBin OSub 4 1044 (VL 9700) (VL 8264);
  VBin OAdd 4 9704 (VL 8268) (VL 8328); (* 474 *)
  VBin OAdd 4 9708 (VL 9704) (VL 8420);
  VBin OSub 4 1048 (VL 9708) (VL 8300);
  VBin OAdd 4 9712 (VL 8360) (VL 8388);
  VBin OAdd 4 9716 (VL 9712) (VL 8420);
  VBin OSub 4 1052 (VL 9716) (VL 8268);
  VBin OAdd 4 9720 (VL 8272) (VL 8332); (* 475 *)
  VBin OAdd 4 9724 (VL 9720) (VL 8424);
  VBin OSub 4 1056 (VL 9724) (VL 8304);
  VBin OAdd 4 9728 (VL 8364) (VL 8392);
  VBin OAdd 4 9732 (VL 9728) (VL 8424);
  VBin OSub 4 1060 (VL 9732) (VL 8272);
  VBin OAdd 4 9736 (VL 8276) (VL 8336); (* 476 *)
  VBin OAdd 4 9740 (VL 9736) (VL 8428);
  VBin OSub 4 1064 (VL 9740) (VL 8308);
  VBin OAdd 4 9744 (VL 8368) (VL 8396);
  VBin OAdd 4 9748 (VL 9744) (VL 8428);
  VBin OSub 4 1068 (VL 9748) (VL 8276);
  VBin OAdd 4 9752 (VL 8280) (VL 8340); (* 477 *)
  VBin OAdd 4 9756 (VL 9752) (VL 8432);
  VBin OSub 4 1072 (VL 9756) (VL 8312);
  VBin OAdd 4 9760 (VL 8372) (VL 8400);
  VBin OAdd 4 9764 (VL 9760) (VL 8432);
  VBin OSub 4 1076 (VL 9764) (VL 8280);
  VBin OAdd 4 1080 (VL 8284) (VL 8344); (* 478 *)
  VBin OSub 4 1084 (VL 8404) (VL 8284)].

(** src/eltfp448_4w_redradix.c:495 *)
Definition v448_4w_compress : list vinstr := [
  VShr 4 28 8192 (VL 1024); (* 500 *)
  VBin OAnd 4 1024 (VL 1024) (VC [268435455; 268435455; 268435455; 268435455]);
  VBin OAdd 4 1032 (VL 1032) (VL 8192);
  VShr 4 28 8192 (VL 1032); (* 501 *)
  VBin OAnd 4 1032 (VL 1032) (VC [268435455; 268435455; 268435455; 268435455]);
  VBin OAdd 4 1040 (VL 1040) (VL 8192);
  VShr 4 28 8192 (VL 1040); (* 502 *)
  VBin OAnd 4 1040 (VL 1040) (VC [268435455; 268435455; 268435455; 268435455]);
  VBin OAdd 4 1048 (VL 1048) (VL 8192);
  VShr 4 28 8192 (VL 1048); (* 503 *)
  VBin OAnd 4 1048 (VL 1048) (VC [268435455; 268435455; 268435455; 268435455]);
  VBin OAdd 4 1056 (VL 1056) (VL 8192);
  VShr 4 28 8192 (VL 1056); (* 504 *)
  VBin OAnd 4 1056 (VL 1056) (VC [268435455; 268435455; 268435455; 268435455]);
  VBin OAdd 4 1064 (VL 1064) (VL 8192);
  VShr 4 28 8192 (VL 1064); (* 505 *)
  VBin OAnd 4 1064 (VL 1064) (VC [268435455; 268435455; 268435455; 268435455]);
  VBin OAdd 4 1072 (VL 1072) (VL 8192);
  VShr 4 28 8192 (VL 1072); (* 506 *)
  VBin OAnd 4 1072 (VL 1072) (VC [268435455; 268435455; 268435455; 268435455]);
  VBin OAdd 4 1080 (VL 1080) (VL 8192);
  VShr 4 28 8192 (VL 1080); (* 507 *)
  VBin OAnd 4 1080 (VL 1080) (VC [268435455; 268435455; 268435455; 268435455]);
  VBin OAdd 4 1028 (VL 1028) (VL 8192);
  VShr 4 28 8192 (VL 1028); (* 508 *)
  VBin OAnd 4 1028 (VL 1028) (VC [268435455; 268435455; 268435455; 268435455]);
  VBin OAdd 4 1036 (VL 1036) (VL 8192);
  VShr 4 28 8192 (VL 1036); (* 509 *)
  VBin OAnd 4 1036 (VL 1036) (VC [268435455; 268435455; 268435455; 268435455]);
  VBin OAdd 4 1044 (VL 1044) (VL 8192);
  VShr 4 28 8192 (VL 1044); (* 510 *)
  VBin OAnd 4 1044 (VL 1044) (VC [268435455; 268435455; 268435455; 268435455]);
  VBin OAdd 4 1052 (VL 1052) (VL 8192);
  VShr 4 28 8192 (VL 1052); (* 511 *)
  VBin OAnd 4 1052 (VL 1052) (VC [268435455; 268435455; 268435455; 268435455]);
  VBin OAdd 4 1060 (VL 1060) (VL 8192);
  VShr 4 28 8192 (VL 1060); (* 512 *)
  VBin OAnd 4 1060 (VL 1060) (VC [268435455; 268435455; 268435455; 268435455]);
  VBin OAdd 4 1068 (VL 1068) (VL 8192);
  VShr 4 28 8192 (VL 1068); (* 513 *)
  VBin OAnd 4 1068 (VL 1068) (VC [268435455; 268435455; 268435455; 268435455]);
  VBin OAdd 4 1076 (VL 1076) (VL 8192);
  VShr 4 28 8192 (VL 1076); (* 514 *)
  VBin OAnd 4 1076 (VL 1076) (VC [268435455; 268435455; 268435455; 268435455]);
  VBin OAdd 4 1084 (VL 1084) (VL 8192);
  VShr 4 28 8196 (VL 1084); (* 515 *)
  VBin OAnd 4 1084 (VL 1084) (VC [268435455; 268435455; 268435455; 268435455]); (* 516 *)
  VBin OAdd 4 1024 (VL 1024) (VL 8196); (* 518 *)
  VShr 4 28 8192 (VL 1024); (* 519 *)
  VBin OAnd 4 1024 (VL 1024) (VC [268435455; 268435455; 268435455; 268435455]);
  VBin OAdd 4 1032 (VL 1032) (VL 8192);
  VShr 4 28 8192 (VL 1032); (* 520 *)
  VBin OAnd 4 1032 (VL 1032) (VC [268435455; 268435455; 268435455; 268435455]);
  VBin OAdd 4 1040 (VL 1040) (VL 8192);
  VBin OAdd 4 1028 (VL 1028) (VL 8196); (* 522 *)
  VShr 4 28 8192 (VL 1028); (* 523 *)
  VBin OAnd 4 1028 (VL 1028) (VC [268435455; 268435455; 268435455; 268435455]);
  VBin OAdd 4 1036 (VL 1036) (VL 8192);
  VShr 4 28 8192 (VL 1036); (* 524 *)
  VBin OAnd 4 1036 (VL 1036) (VC [268435455; 268435455; 268435455; 268435455]);
  VBin OAdd 4 1044 (VL 1044) (VL 8192)].

(** src/eltfp448_4w_redradix.c:527 *)
Definition v448_4w_compress2 : list vinstr := [
  VShr 4 28 8192 (VL 1024); (* 532 *)
  VBin OAnd 4 1024 (VL 1024) (VC [268435455; 268435455; 268435455; 268435455]);
  VBin OAdd 4 1032 (VL 1032) (VL 8192);
  VShr 4 28 8196 (VL 2048);
  VBin OAnd 4 2048 (VL 2048) (VC [268435455; 268435455; 268435455; 268435455]);
  VBin OAdd 4 2056 (VL 2056) (VL 8196);
  VShr 4 28 8192 (VL 1032); (* 533 *)
  VBin OAnd 4 1032 (VL 1032) (VC [268435455; 268435455; 268435455; 268435455]);
  VBin OAdd 4 1040 (VL 1040) (VL 8192);
  VShr 4 28 8196 (VL 2056);
  VBin OAnd 4 2056 (VL 2056) (VC [268435455; 268435455; 268435455; 268435455]);
  VBin OAdd 4 2064 (VL 2064) (VL 8196);
  VShr 4 28 8192 (VL 1040); (* 534 *)
  VBin OAnd 4 1040 (VL 1040) (VC [268435455; 268435455; 268435455; 268435455]);
  VBin OAdd 4 1048 (VL 1048) (VL 8192);
  VShr 4 28 8196 (VL 2064);
  VBin OAnd 4 2064 (VL 2064) (VC [268435455; 268435455; 268435455; 268435455]);
  VBin OAdd 4 2072 (VL 2072) (VL 8196);
  VShr 4 28 8192 (VL 1048); (* 535 *)
  VBin OAnd 4 1048 (VL 1048) (VC [268435455; 268435455; 268435455; 268435455]);
  VBin OAdd 4 1056 (VL 1056) (VL 8192);
  VShr 4 28 8196 (VL 2072);
  VBin OAnd 4 2072 (VL 2072) (VC [268435455; 268435455; 268435455; 268435455]);
  VBin OAdd 4 2080 (VL 2080) (VL 8196);
  VShr 4 28 8192 (VL 1056); (* 536 *)
  VBin OAnd 4 1056 (VL 1056) (VC [268435455; 268435455; 268435455; 268435455]);
  VBin OAdd 4 1064 (VL 1064) (VL 8192);
  VShr 4 28 8196 (VL 2080);
  VBin OAnd 4 2080 (VL 2080) (VC [268435455; 268435455; 268435455; 268435455]);
  VBin OAdd 4 2088 (VL 2088) (VL 8196);
  VShr 4 28 8192 (VL 1064); (* 537 *)
  VBin OAnd 4 1064 (VL 1064) (VC [268435455; 268435455; 268435455; 268435455]);
  VBin OAdd 4 1072 (VL 1072) (VL 8192);
  VShr 4 28 8196 (VL 2088);
  VBin OAnd 4 2088 (VL 2088) (VC [268435455; 268435455; 268435455; 268435455]);
  VBin OAdd 4 2096 (VL 2096) (VL 8196);
  VShr 4 28 8192 (VL 1072); (* 538 *)
  VBin OAnd 4 1072 (VL 1072) (VC [268435455; 268435455; 268435455; 268435455]);
  VBin OAdd 4 1080 (VL 1080) (VL 8192);
  VShr 4 28 8196 (VL 2096);
  VBin OAnd 4 2096 (VL 2096) (VC [268435455; 268435455; 268435455; 268435455]);
  VBin OAdd 4 2104 (VL 2104) (VL 8196);
  VShr 4 28 8192 (VL 1080); (* 539 *)
  VBin OAnd 4 1080 (VL 1080) (VC [268435455; 268435455; 268435455; 268435455]);
  VBin OAdd 4 1028 (VL 1028) (VL 8192);
  VShr 4 28 8196 (VL 2104);
  VBin OAnd 4 2104 (VL 2104) (VC [268435455; 268435455; 268435455; 268435455]);
  VBin OAdd 4 2052 (VL 2052) (VL 8196);
  VShr 4 28 8192 (VL 1028); (* 540 *)
  VBin OAnd 4 1028 (VL 1028) (VC [268435455; 268435455; 268435455; 268435455]);
  VBin OAdd 4 1036 (VL 1036) (VL 8192);
  VShr 4 28 8196 (VL 2052);
  VBin OAnd 4 2052 (VL 2052) (VC [268435455; 268435455; 268435455; 268435455]);
  VBin OAdd 4 2060 (VL 2060) (VL 8196);
  VShr 4 28 8192 (VL 1036); (* 541 *)
  VBin OAnd 4 1036 (VL 1036) (VC [268435455; 268435455; 268435455; 268435455]);
  VBin OAdd 4 1044 (VL 1044) (VL 8192);
  VShr 4 28 8196 (VL 2060);
  VBin OAnd 4 2060 (VL 2060) (VC [268435455; 268435455; 268435455; 268435455]);
  VBin OAdd 4 2068 (VL 2068) (VL 8196);
  VShr 4 28 8192 (VL 1044); (* 542 *)
  VBin OAnd 4 1044 (VL 1044) (VC [268435455; 268435455; 268435455; 268435455]);
  VBin OAdd 4 1052 (VL 1052) (VL 8192);
  VShr 4 28 8196 (VL 2068);
  VBin OAnd 4 2068 (VL 2068) (VC [268435455; 268435455; 268435455; 268435455]);
  VBin OAdd 4 2076 (VL 2076) (VL 8196);
  VShr 4 28 8192 (VL 1052); (* 543 *)
  VBin OAnd 4 1052 (VL 1052) (VC [268435455; 268435455; 268435455; 268435455]);
  VBin OAdd 4 1060 (VL 1060) (VL 8192);
  VShr 4 28 8196 (VL 2076);
  VBin OAnd 4 2076 (VL 2076) (VC [268435455; 268435455; 268435455; 268435455]);
  VBin OAdd 4 2084 (VL 2084) (VL 8196);
  VShr 4 28 8192 (VL 1060); (* 544 *)
  VBin OAnd 4 1060 (VL 1060) (VC [268435455; 268435455; 268435455; 268435455]);
  VBin OAdd 4 1068 (VL 1068) (VL 8192);
  VShr 4 28 8196 (VL 2084);
  VBin OAnd 4 2084 (VL 2084) (VC [268435455; 268435455; 268435455; 268435455]);
  VBin OAdd 4 2092 (VL 2092) (VL 8196);
  VShr 4 28 8192 (VL 1068); (* 545 *)
  VBin OAnd 4 1068 (VL 1068) (VC [268435455; 268435455; 268435455; 268435455]);
  VBin OAdd 4 1076 (VL 1076) (VL 8192);
  VShr 4 28 8196 (VL 2092);
  VBin OAnd 4 2092 (VL 2092) (VC [268435455; 268435455; 268435455; 268435455]);
  VBin OAdd 4 2100 (VL 2100) (VL 8196);
  VShr 4 28 8192 (VL 1076); (* 546 *)
  VBin OAnd 4 1076 (VL 1076) (VC [268435455; 268435455; 268435455; 268435455]);
  VBin OAdd 4 1084 (VL 1084) (VL 8192);
  VShr 4 28 8196 (VL 2100);
  VBin OAnd 4 2100 (VL 2100) (VC [268435455; 268435455; 268435455; 268435455]);
  VBin OAdd 4 2108 (VL 2108) (VL 8196);
  VShr 4 28 8200 (VL 1084); (* 547 *)
  VShr 4 28 8204 (VL 2108);
  VBin OAnd 4 1084 (VL 1084) (VC [268435455; 268435455; 268435455; 268435455]); (* 548 *)
  VBin OAnd 4 2108 (VL 2108) (VC [268435455; 268435455; 268435455; 268435455]);
  VBin OAdd 4 1024 (VL 1024) (VL 8200); (* 550 *)
  VBin OAdd 4 2048 (VL 2048) (VL 8204);
  VShr 4 28 8192 (VL 1024); (* 551 *)
  VBin OAnd 4 1024 (VL 1024) (VC [268435455; 268435455; 268435455; 268435455]);
  VBin OAdd 4 1032 (VL 1032) (VL 8192);
  VShr 4 28 8196 (VL 2048);
  VBin OAnd 4 2048 (VL 2048) (VC [268435455; 268435455; 268435455; 268435455]);
  VBin OAdd 4 2056 (VL 2056) (VL 8196);
  VShr 4 28 8192 (VL 1032); (* 552 *)
  VBin OAnd 4 1032 (VL 1032) (VC [268435455; 268435455; 268435455; 268435455]);
  VBin OAdd 4 1040 (VL 1040) (VL 8192);
  VShr 4 28 8196 (VL 2056);
  VBin OAnd 4 2056 (VL 2056) (VC [268435455; 268435455; 268435455; 268435455]);
  VBin OAdd 4 2064 (VL 2064) (VL 8196);
  VBin OAdd 4 1028 (VL 1028) (VL 8200); (* 554 *)
  VBin OAdd 4 2052 (VL 2052) (VL 8204);
  VShr 4 28 8192 (VL 1028); (* 555 *)
  VBin OAnd 4 1028 (VL 1028) (VC [268435455; 268435455; 268435455; 268435455]);
  VBin OAdd 4 1036 (VL 1036) (VL 8192);
  VShr 4 28 8196 (VL 2052);
  VBin OAnd 4 2052 (VL 2052) (VC [268435455; 268435455; 268435455; 268435455]);
  VBin OAdd 4 2060 (VL 2060) (VL 8196);
  VShr 4 28 8192 (VL 1036); (* 556 *)
  VBin OAnd 4 1036 (VL 1036) (VC [268435455; 268435455; 268435455; 268435455]);
  VBin OAdd 4 1044 (VL 1044) (VL 8192);
  VShr 4 28 8196 (VL 2060);
  VBin OAnd 4 2060 (VL 2060) (VC [268435455; 268435455; 268435455; 268435455]);
  VBin OAdd 4 2068 (VL 2068) (VL 8196)].

(** src/eltfp448_4w_redradix.c:559 *)
Definition v448_4w_compressfast : list vinstr := [
  VShr 4 28 8192 (VL 1024); (* 568 *)
  VBin OAnd 4 8192 (VL 8192) (VC [268435455; 268435455; 268435455; 268435455]); (* 569 *)
  VShr 4 56 8256 (VL 1024); (* 570 *)
  VBin OAnd 4 1024 (VL 1024) (VC [268435455; 268435455; 268435455; 268435455]); (* 571 *)
  VShr 4 28 8196 (VL 1028); (* 568 *)
  VBin OAnd 4 8196 (VL 8196) (VC [268435455; 268435455; 268435455; 268435455]); (* 569 *)
  VShr 4 56 8260 (VL 1028); (* 570 *)
  VBin OAnd 4 1028 (VL 1028) (VC [268435455; 268435455; 268435455; 268435455]); (* 571 *)
  VShr 4 28 8200 (VL 1032); (* 568 *)
  VBin OAnd 4 8200 (VL 8200) (VC [268435455; 268435455; 268435455; 268435455]); (* 569 *)
  VShr 4 56 8264 (VL 1032); (* 570 *)
  VBin OAnd 4 1032 (VL 1032) (VC [268435455; 268435455; 268435455; 268435455]); (* 571 *)
  VShr 4 28 8204 (VL 1036); (* 568 *)
  VBin OAnd 4 8204 (VL 8204) (VC [268435455; 268435455; 268435455; 268435455]); (* 569 *)
  VShr 4 56 8268 (VL 1036); (* 570 *)
  VBin OAnd 4 1036 (VL 1036) (VC [268435455; 268435455; 268435455; 268435455]); (* 571 *)
  VShr 4 28 8208 (VL 1040); (* 568 *)
  VBin OAnd 4 8208 (VL 8208) (VC [268435455; 268435455; 268435455; 268435455]); (* 569 *)
  VShr 4 56 8272 (VL 1040); (* 570 *)
  VBin OAnd 4 1040 (VL 1040) (VC [268435455; 268435455; 268435455; 268435455]); (* 571 *)
  VShr 4 28 8212 (VL 1044); (* 568 *)
  VBin OAnd 4 8212 (VL 8212) (VC [268435455; 268435455; 268435455; 268435455]); (* 569 *)
  VShr 4 56 8276 (VL 1044); (* 570 *)
  VBin OAnd 4 1044 (VL 1044) (VC [268435455; 268435455; 268435455; 268435455]); (* 571 *)
  VShr 4 28 8216 (VL 1048); (* 568 *)
  VBin OAnd 4 8216 (VL 8216) (VC [268435455; 268435455; 268435455; 268435455]); (* 569 *)
  VShr 4 56 8280 (VL 1048); (* 570 *)
  VBin OAnd 4 1048 (VL 1048) (VC [268435455; 268435455; 268435455; 268435455]); (* 571 *)
  VShr 4 28 8220 (VL 1052); (* 568 *)
  VBin OAnd 4 8220 (VL 8220) (VC [268435455; 268435455; 268435455; 268435455]); (* 569 *)
  VShr 4 56 8284 (VL 1052); (* 570 *)
  VBin OAnd 4 1052 (VL 1052) (VC [268435455; 268435455; 268435455; 268435455]); (* 571 *)
  VShr 4 28 8224 (VL 1056); (* 568 *)
  VBin OAnd 4 8224 (VL 8224) (VC [268435455; 268435455; 268435455; 268435455]); (* 569 *)
  VShr 4 56 8288 (VL 1056); (* 570 *)
  VBin OAnd 4 1056 (VL 1056) (VC [268435455; 268435455; 268435455; 268435455]); (* 571 *)
  VShr 4 28 8228 (VL 1060); (* 568 *)
  VBin OAnd 4 8228 (VL 8228) (VC [268435455; 268435455; 268435455; 268435455]); (* 569 *)
  VShr 4 56 8292 (VL 1060); (* 570 *)
  VBin OAnd 4 1060 (VL 1060) (VC [268435455; 268435455; 268435455; 268435455]); (* 571 *)
  VShr 4 28 8232 (VL 1064); (* 568 *)
  VBin OAnd 4 8232 (VL 8232) (VC [268435455; 268435455; 268435455; 268435455]); (* 569 *)
  VShr 4 56 8296 (VL 1064); (* 570 *)
  VBin OAnd 4 1064 (VL 1064) (VC [268435455; 268435455; 268435455; 268435455]); (* 571 *)
  VShr 4 28 8236 (VL 1068); (* 568 *)
  VBin OAnd 4 8236 (VL 8236) (VC [268435455; 268435455; 268435455; 268435455]); (* 569 *)
  VShr 4 56 8300 (VL 1068); (* 570 *)
  VBin OAnd 4 1068 (VL 1068) (VC [268435455; 268435455; 268435455; 268435455]); (* 571 *)
  VShr 4 28 8240 (VL 1072); (* 568 *)
  VBin OAnd 4 8240 (VL 8240) (VC [268435455; 268435455; 268435455; 268435455]); (* 569 *)
  VShr 4 56 8304 (VL 1072); (* 570 *)
  VBin OAnd 4 1072 (VL 1072) (VC [268435455; 268435455; 268435455; 268435455]); (* 571 *)
  VShr 4 28 8244 (VL 1076); (* 568 *)
  VBin OAnd 4 8244 (VL 8244) (VC [268435455; 268435455; 268435455; 268435455]); (* 569 *)
  VShr 4 56 8308 (VL 1076); (* 570 *)
  VBin OAnd 4 1076 (VL 1076) (VC [268435455; 268435455; 268435455; 268435455]); (* 571 *)
  VShr 4 28 8248 (VL 1080); (* 568 *)
  VBin OAnd 4 8248 (VL 8248) (VC [268435455; 268435455; 268435455; 268435455]); (* 569 *)
  VShr 4 56 8312 (VL 1080); (* 570 *)
  VBin OAnd 4 1080 (VL 1080) (VC [268435455; 268435455; 268435455; 268435455]); (* 571 *)
  VShr 4 28 8252 (VL 1084); (* 568 *)
  VBin OAnd 4 8252 (VL 8252) (VC [268435455; 268435455; 268435455; 268435455]); (* 569 *)
  VShr 4 56 8316 (VL 1084); (* 570 *)
  VBin OAnd 4 1084 (VL 1084) (VC [268435455; 268435455; 268435455; 268435455]); (* 571 *)
  VBin OAdd 4 8320 (VL 8252) (VL 8308); (* 574 *)
  VBin OAdd 4 1024 (VL 1024) (VL 8320);
  VBin OAdd 4 8324 (VL 8192) (VL 8316); (* 575 *)
  VBin OAdd 4 1032 (VL 1032) (VL 8324);
  VBin OAdd 4 8328 (VL 8200) (VL 8256); (* 576 *)
  VBin OAdd 4 1040 (VL 1040) (VL 8328);
  VBin OAdd 4 8332 (VL 8208) (VL 8264); (* 577 *)
  VBin OAdd 4 1048 (VL 1048) (VL 8332);
  VBin OAdd 4 8336 (VL 8216) (VL 8272); (* 578 *)
  VBin OAdd 4 1056 (VL 1056) (VL 8336);
  VBin OAdd 4 8340 (VL 8224) (VL 8280); (* 579 *)
  VBin OAdd 4 1064 (VL 1064) (VL 8340);
  VBin OAdd 4 8344 (VL 8232) (VL 8288); (* 580 *)
  VBin OAdd 4 1072 (VL 1072) (VL 8344);
  VBin OAdd 4 8348 (VL 8240) (VL 8296); (* 581 *)
  VBin OAdd 4 1080 (VL 1080) (VL 8348);
  VBin OAdd 4 8352 (VL 8252) (VL 8308); (* 583 *)
  VBin OAdd 4 1028 (VL 1028) (VL 8352);
  VBin OAdd 4 1036 (VL 1036) (VL 8316); (* 584 *)
  VBin OAdd 4 8356 (VL 8248) (VL 8304); (* 586 *)
  VBin OAdd 4 1028 (VL 1028) (VL 8356);
  VBin OAdd 4 8360 (VL 8196) (VL 8312); (* 587 *)
  VBin OAdd 4 1036 (VL 1036) (VL 8360);
  VBin OAdd 4 8364 (VL 8204) (VL 8260); (* 588 *)
  VBin OAdd 4 1044 (VL 1044) (VL 8364);
  VBin OAdd 4 8368 (VL 8212) (VL 8268); (* 589 *)
  VBin OAdd 4 1052 (VL 1052) (VL 8368);
  VBin OAdd 4 8372 (VL 8220) (VL 8276); (* 590 *)
  VBin OAdd 4 1060 (VL 1060) (VL 8372);
  VBin OAdd 4 8376 (VL 8228) (VL 8284); (* 591 *)
  VBin OAdd 4 1068 (VL 1068) (VL 8376);
  VBin OAdd 4 8380 (VL 8236) (VL 8292); (* 592 *)
  VBin OAdd 4 1076 (VL 1076) (VL 8380);
  VBin OAdd 4 8384 (VL 8244) (VL 8300); (* 593 *)
  VBin OAdd 4 1084 (VL 1084) (VL 8384)].

(** src/eltfp448_4w_redradix.c:596 *)
Definition v448_4w_new_compressfast2 : list vinstr := [
  VShr 4 28 8192 (VL 1024); (* 605 *)
  VShr 4 28 8256 (VL 2048);
  VBin OAnd 4 8192 (VL 8192) (VC [268435455; 268435455; 268435455; 268435455]); (* 606 *)
  VBin OAnd 4 8256 (VL 8256) (VC [268435455; 268435455; 268435455; 268435455]);
  VBin OAnd 4 1024 (VL 1024) (VC [268435455; 268435455; 268435455; 268435455]); (* 607 *)
  VBin OAnd 4 2048 (VL 2048) (VC [268435455; 268435455; 268435455; 268435455]);
  VShr 4 28 8196 (VL 1028); (* 605 *)
  VShr 4 28 8260 (VL 2052);
  VBin OAnd 4 8196 (VL 8196) (VC [268435455; 268435455; 268435455; 268435455]); (* 606 *)
  VBin OAnd 4 8260 (VL 8260) (VC [268435455; 268435455; 268435455; 268435455]);
  VBin OAnd 4 1028 (VL 1028) (VC [268435455; 268435455; 268435455; 268435455]); (* 607 *)
  VBin OAnd 4 2052 (VL 2052) (VC [268435455; 268435455; 268435455; 268435455]);
  VShr 4 28 8200 (VL 1032); (* 605 *)
  VShr 4 28 8264 (VL 2056);
  VBin OAnd 4 8200 (VL 8200) (VC [268435455; 268435455; 268435455; 268435455]); (* 606 *)
  VBin OAnd 4 8264 (VL 8264) (VC [268435455; 268435455; 268435455; 268435455]);
  VBin OAnd 4 1032 (VL 1032) (VC [268435455; 268435455; 268435455; 268435455]); (* 607 *)
  VBin OAnd 4 2056 (VL 2056) (VC [268435455; 268435455; 268435455; 268435455]);
  VShr 4 28 8204 (VL 1036); (* 605 *)
  VShr 4 28 8268 (VL 2060);
  VBin OAnd 4 8204 (VL 8204) (VC [268435455; 268435455; 268435455; 268435455]); (* 606 *)
  VBin OAnd 4 8268 (VL 8268) (VC [268435455; 268435455; 268435455; 268435455]);
  VBin OAnd 4 1036 (VL 1036) (VC [268435455; 268435455; 268435455; 268435455]); (* 607 *)
  VBin OAnd 4 2060 (VL 2060) (VC [268435455; 268435455; 268435455; 268435455]);
  VShr 4 28 8208 (VL 1040); (* 605 *)
  VShr 4 28 8272 (VL 2064);
  VBin OAnd 4 8208 (VL 8208) (VC [268435455; 268435455; 268435455; 268435455]); (* 606 *)
  VBin OAnd 4 8272 (VL 8272) (VC [268435455; 268435455; 268435455; 268435455]);
  VBin OAnd 4 1040 (VL 1040) (VC [268435455; 268435455; 268435455; 268435455]); (* 607 *)
  VBin OAnd 4 2064 (VL 2064) (VC [268435455; 268435455; 268435455; 268435455]);
  VShr 4 28 8212 (VL 1044); (* 605 *)
  VShr 4 28 8276 (VL 2068);
  VBin OAnd 4 8212 (VL 8212) (VC [268435455; 268435455; 268435455; 268435455]); (* 606 *)
  VBin OAnd 4 8276 (VL 8276) (VC [268435455; 268435455; 268435455; 268435455]);
  VBin OAnd 4 1044 (VL 1044) (VC [268435455; 268435455; 268435455; 268435455]); (* 607 *)
  VBin OAnd 4 2068 (VL 2068) (VC [268435455; 268435455; 268435455; 268435455]);
  VShr 4 28 8216 (VL 1048); (* 605 *)
  VShr 4 28 8280 (VL 2072);
  VBin OAnd 4 8216 (VL 8216) (VC [268435455; 268435455; 268435455; 268435455]); (* 606 *)
  VBin OAnd 4 8280 (VL 8280) (VC [268435455; 268435455; 268435455; 268435455]);
  VBin OAnd 4 1048 (VL 1048) (VC [268435455; 268435455; 268435455; 268435455]); (* 607 *)
  VBin OAnd 4 2072 (VL 2072) (VC [268435455; 268435455; 268435455; 268435455]);
  VShr 4 28 8220 (VL 1052); (* 605 *)
  VShr 4 28 8284 (VL 2076);
  VBin OAnd 4 8220 (VL 8220) (VC [268435455; 268435455; 268435455; 268435455]); (* 606 *)
  VBin OAnd 4 8284 (VL 8284) (VC [268435455; 268435455; 268435455; 268435455]);
  VBin OAnd 4 1052 (VL 1052) (VC [268435455; 268435455; 268435455; 268435455]); (* 607 *)
  VBin OAnd 4 2076 (VL 2076) (VC [268435455; 268435455; 268435455; 268435455]);
  VShr 4 28 8224 (VL 1056); (* 605 *)
  VShr 4 28 8288 (VL 2080);
  VBin OAnd 4 8224 (VL 8224) (VC [268435455; 268435455; 268435455; 268435455]); (* 606 *)
  VBin OAnd 4 8288 (VL 8288) (VC [268435455; 268435455; 268435455; 268435455]);
  VBin OAnd 4 1056 (VL 1056) (VC [268435455; 268435455; 268435455; 268435455]); (* 607 *)
  VBin OAnd 4 2080 (VL 2080) (VC [268435455; 268435455; 268435455; 268435455]);
  VShr 4 28 8228 (VL 1060); (* 605 *)
  VShr 4 28 8292 (VL 2084);
  VBin OAnd 4 8228 (VL 8228) (VC [268435455; 268435455; 268435455; 268435455]); (* 606 *)
  VBin OAnd 4 8292 (VL 8292) (VC [268435455; 268435455; 268435455; 268435455]);
  VBin OAnd 4 1060 (VL 1060) (VC [268435455; 268435455; 268435455; 268435455]); (* 607 *)
  VBin OAnd 4 2084 (VL 2084) (VC [268435455; 268435455; 268435455; 268435455]);
  VShr 4 28 8232 (VL 1064); (* 605 *)
  VShr 4 28 8296 (VL 2088);
  VBin OAnd 4 8232 (VL 8232) (VC [268435455; 268435455; 268435455; 268435455]); (* 606 *)
  VBin OAnd 4 8296 (VL 8296) (VC [268435455; 268435455; 268435455; 268435455]);
  VBin OAnd 4 1064 (VL 1064) (VC [268435455; 268435455; 268435455; 268435455]); (* 607 *)
  VBin OAnd 4 2088 (VL 2088) (VC [268435455; 268435455; 268435455; 268435455]);
  VShr 4 28 8236 (VL 1068); (* 605 *)
  VShr 4 28 8300 (VL 2092);
  VBin OAnd 4 8236 (VL 8236) (VC [268435455; 268435455; 268435455; 268435455]); (* 606 *)
  VBin OAnd 4 8300 (VL 8300) (VC [268435455; 268435455; 268435455; 268435455]);
  VBin OAnd 4 1068 (VL 1068) (VC [268435455; 268435455; 268435455; 268435455]); (* 607 *)
  VBin OAnd 4 2092 (VL 2092) (VC [268435455; 268435455; 268435455; 268435455]);
  VShr 4 28 8240 (VL 1072); (* 605 *)
  VShr 4 28 8304 (VL 2096);
  VBin OAnd 4 8240 (VL 8240) (VC [268435455; 268435455; 268435455; 268435455]); (* 606 *)
  VBin OAnd 4 8304 (VL 8304) (VC [268435455; 268435455; 268435455; 268435455]);
  VBin OAnd 4 1072 (VL 1072) (VC [268435455; 268435455; 268435455; 268435455]); (* 607 *)
  VBin OAnd 4 2096 (VL 2096) (VC [268435455; 268435455; 268435455; 268435455]);
  VShr 4 28 8244 (VL 1076); (* 605 *)
  VShr 4 28 8308 (VL 2100);
  VBin OAnd 4 8244 (VL 8244) (VC [268435455; 268435455; 268435455; 268435455]); (* 606 *)
  VBin OAnd 4 8308 (VL 8308) (VC [268435455; 268435455; 268435455; 268435455]);
  VBin OAnd 4 1076 (VL 1076) (VC [268435455; 268435455; 268435455; 268435455]); (* 607 *)
  VBin OAnd 4 2100 (VL 2100) (VC [268435455; 268435455; 268435455; 268435455]);
  VShr 4 28 8248 (VL 1080); (* 605 *)
  VShr 4 28 8312 (VL 2104);
  VBin OAnd 4 8248 (VL 8248) (VC [268435455; 268435455; 268435455; 268435455]); (* 606 *)
  VBin OAnd 4 8312 (VL 8312) (VC [268435455; 268435455; 268435455; 268435455]);
  VBin OAnd 4 1080 (VL 1080) (VC [268435455; 268435455; 268435455; 268435455]); (* 607 *)
  VBin OAnd 4 2104 (VL 2104) (VC [268435455; 268435455; 268435455; 268435455]);
  VShr 4 28 8252 (VL 1084); (* 605 *)
  VShr 4 28 8316 (VL 2108);
  VBin OAnd 4 8252 (VL 8252) (VC [268435455; 268435455; 268435455; 268435455]); (* 606 *)
  VBin OAnd 4 8316 (VL 8316) (VC [268435455; 268435455; 268435455; 268435455]);
  VBin OAnd 4 1084 (VL 1084) (VC [268435455; 268435455; 268435455; 268435455]); (* 607 *)
  VBin OAnd 4 2108 (VL 2108) (VC [268435455; 268435455; 268435455; 268435455]);
  VBin OAdd 4 1024 (VL 1024) (VL 8252); (* 610 *)
  VBin OAdd 4 2048 (VL 2048) (VL 8316);
  VBin OAdd 4 1032 (VL 1032) (VL 8192); (* 611 *)
  VBin OAdd 4 2056 (VL 2056) (VL 8256);
  VBin OAdd 4 1040 (VL 1040) (VL 8200); (* 612 *)
  VBin OAdd 4 2064 (VL 2064) (VL 8264);
  VBin OAdd 4 1048 (VL 1048) (VL 8208); (* 613 *)
  VBin OAdd 4 2072 (VL 2072) (VL 8272);
  VBin OAdd 4 1056 (VL 1056) (VL 8216); (* 614 *)
  VBin OAdd 4 2080 (VL 2080) (VL 8280);
  VBin OAdd 4 1064 (VL 1064) (VL 8224); (* 615 *)
  VBin OAdd 4 2088 (VL 2088) (VL 8288);
  VBin OAdd 4 1072 (VL 1072) (VL 8232); (* 616 *)
  VBin OAdd 4 2096 (VL 2096) (VL 8296);
  VBin OAdd 4 1080 (VL 1080) (VL 8240); (* 617 *)
  VBin OAdd 4 2104 (VL 2104) (VL 8304);
  VBin OAdd 4 1028 (VL 1028) (VL 8252); (* 619 *)
  VBin OAdd 4 2052 (VL 2052) (VL 8316);
  VBin OAdd 4 1028 (VL 1028) (VL 8248); (* 621 *)
  VBin OAdd 4 2052 (VL 2052) (VL 8312);
  VBin OAdd 4 1036 (VL 1036) (VL 8196); (* 622 *)
  VBin OAdd 4 2060 (VL 2060) (VL 8260);
  VBin OAdd 4 1044 (VL 1044) (VL 8204); (* 623 *)
  VBin OAdd 4 2068 (VL 2068) (VL 8268);
  VBin OAdd 4 1052 (VL 1052) (VL 8212); (* 624 *)
  VBin OAdd 4 2076 (VL 2076) (VL 8276);
  VBin OAdd 4 1060 (VL 1060) (VL 8220); (* 625 *)
  VBin OAdd 4 2084 (VL 2084) (VL 8284);
  VBin OAdd 4 1068 (VL 1068) (VL 8228); (* 626 *)
  VBin OAdd 4 2092 (VL 2092) (VL 8292);
  VBin OAdd 4 1076 (VL 1076) (VL 8236); (* 627 *)
  VBin OAdd 4 2100 (VL 2100) (VL 8300);
  VBin OAdd 4 1084 (VL 1084) (VL 8244); (* 628 *)
  VBin OAdd 4 2108 (VL 2108) (VL 8308)].
