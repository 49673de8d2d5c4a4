(** Point arithmetic on edwards25519, /repo/src/edwards255.c. *)
From Coq Require Import ZArith List Bool.
From Verif Require Import Uop Engine Bytes X86 Asm25519 Fp25519Full Simd Simd255 Fp25519Red Scalar Ladder.
Import ListNotations.
Open Scope Z_scope.

(** ** AVX2 instructions on vectors of four 64-bit words, /repo/include/simd_avx2.h *)
Definition wadd (x y : Z) : Z := (x + y) mod W.
Definition wsub (x y : Z) : Z := (x - y) mod W.
Fixpoint zip2 {A B C} (f : A -> B -> C) (a : list A) (b : list B) : list C :=
  match a, b with x :: a, y :: b => f x y :: zip2 f a b | _, _ => [] end.
(** ADD, SUB, XOR: _mm256_add_epi64, _mm256_sub_epi64, _mm256_xor_si256 *)
Definition VADD : list Z -> list Z -> list Z := zip2 wadd.
Definition VSUB : list Z -> list Z -> list Z := zip2 wsub.
Definition VXOR : list Z -> list Z -> list Z := zip2 Z.lxor.
(** PERM64(x, imm), _mm256_permute4x64_epi64 *)
Definition PERM64 (imm : nat) (v : list Z) : list Z := map (fun k => nth ((imm / 4 ^ k) mod 4) v 0) [0; 1; 2; 3]%nat.
(** PERM128(x, y, imm), _mm256_permute2x128_si256, for immediates without the zeroing bits *)
Definition half128 (v w : list Z) (n : nat) : list Z := firstn 2 (skipn (2 * (n mod 4)) (v ++ w)).
Definition PERM128 (imm : nat) (v w : list Z) : list Z := half128 v w (imm mod 16) ++ half128 v w (imm / 16).
(** BLEND32(x, y, imm), _mm256_blend_epi32.  Simplification: every immediate of
    edwards255.c has equal bits for the two dwords of each word, so words are selected. *)
Definition BLEND32 (imm : nat) (v w : list Z) : list Z :=
  map (fun k => if Nat.testbit imm (2 * k) then nth k w 0 else nth k v 0) [0; 1; 2; 3]%nat.
(** UPKL64, UPKH64: _mm256_unpacklo_epi64, _mm256_unpackhi_epi64 *)
Definition UPKL64 (v w : list Z) : list Z := [nth 0 v 0; nth 0 w 0; nth 2 v 0; nth 2 w 0].
Definition UPKH64 (v w : list Z) : list Z := [nth 1 v 0; nth 1 w 0; nth 3 v 0; nth 3 w 0].
Definition v0000 : list Z := [0; 0; 0; 0].

(** CONST_2_to_35P_2w, edwards255.c:333-339 *)
Definition CONST_2_to_35P_2w : list Z := [
  0x1fffff6800000000; 0x0ffffff800000000; 0x1fffff6800000000; 0x0ffffff800000000;
  0x0ffffff800000000; 0x1ffffff800000000; 0x0ffffff800000000; 0x1ffffff800000000;
  0x1ffffff800000000; 0x0ffffff800000000; 0x1ffffff800000000; 0x0ffffff800000000;
  0x0ffffff800000000; 0x1ffffff800000000; 0x0ffffff800000000; 0x1ffffff800000000;
  0x1ffffff800000000; 0x0ffffff800000000; 0x1ffffff800000000; 0x0ffffff800000000].
(** param_2d_H0H5, :267-272 *)
Definition param_2d_H0H5 : list Z := [
  0x2b2f159; 0x0f3d130; 0x2b2f159; 0x0f3d130; 0x1a6e509; 0x3407977; 0x1a6e509; 0x3407977;
  0x22add7a; 0x19ce331; 0x22add7a; 0x19ce331; 0x0d4141d; 0x1c56dff; 0x0d4141d; 0x1c56dff;
  0x0038052; 0x0901b67; 0x0038052; 0x0901b67].
(** param_curve_2d_02, :441-446 *)
Definition param_curve_2d_02 : list Z := [
  0x2b2f159; 0x0f3d130; 0x2; 0x0; 0x1a6e509; 0x3407977; 0x0; 0x0; 0x22add7a; 0x19ce331; 0x0; 0x0;
  0x0d4141d; 0x1c56dff; 0x0; 0x0; 0x0038052; 0x0901b67; 0x0; 0x0].
(** param_2d of _1way_fulladd_1w_full, :87-92 *)
Definition param_2d_full : list Z := [0xebd69b9426b2f159; 0x00e0149a8283b156; 0x198e80f2eef3d130; 0x2406d9dc56dffce7].

(** PointXYZT_1way_full, PointXYZT_2way, PointXYZT_4way: the four coordinates in the order X, Y, Z, T *)
Record point4 := mkpt { cX : list Z; cY : list Z; cZ : list Z; cT : list Z }.
(** Point_precmp_4way: addYX, subYX, _2dYX *)
Record precmp := mkpre { addYX : list Z; subYX : list Z; dYX : list Z }.
(** PointXYZT_2w_H0H5: XY, TZ *)
Definition point2 : Type := list Z * list Z.

Section Edwards.
Variable st0 : store.
Variable k : cpu.
(** PROCESSOR == SKYLAKE (true) or HASWELL (false) *)
Variable sky : bool.

(** _1way_doubling_1w_full, :36-66 *)
Definition doubling_1w_full (P : point4) : point4 :=
  let A := sqr st0 k (copy (cX P)) in
  let B := sqr st0 k (copy (cY P)) in
  let C := sqr st0 k (copy (cZ P)) in
  let C := add st0 k C C in
  let E := add st0 k (cX P) (cY P) in
  let E := sqr st0 k E in
  let E := sub st0 E A in
  let E := sub st0 E B in
  let G := sub st0 B A in
  let F := sub st0 G C in
  let H := add st0 k A B in
  let H := neg st0 H in
  mkpt (mul st0 k E F) (mul st0 k G H) (mul st0 k F G) (mul st0 k E H).
(** _1way_fulladd_1w_full, :73-117 *)
Definition fulladd_1w_full (Q P : point4) : point4 :=
  let addY1X1 := add st0 k (cY Q) (cX Q) in
  let subY1X1 := sub st0 (cY Q) (cX Q) in
  let addY2X2 := add st0 k (cY P) (cX P) in
  let subY2X2 := sub st0 (cY P) (cX P) in
  let A := mul st0 k subY1X1 subY2X2 in
  let B := mul st0 k addY1X1 addY2X2 in
  let C := mul st0 k (cT Q) (cT P) in
  let C := mul st0 k C param_2d_full in
  let D := mul st0 k (cZ Q) (cZ P) in
  let D := add st0 k D D in
  let E := sub st0 B A in
  let F := sub st0 D C in
  let G := add st0 k D C in
  let H := add st0 k B A in
  mkpt (mul st0 k E F) (mul st0 k G H) (mul st0 k F G) (mul st0 k E H).

(** _4way_mixadd_25519, :128-156 *)
Definition mixadd_4way (Q : point4) (P : precmp) : point4 :=
  let (addY1X1, subY1X1) := addsub_4w st0 (cY Q) (cX Q) in
  let A := intmul_4w st0 subY1X1 (subYX P) in
  let B := intmul_4w st0 addY1X1 (addYX P) in
  let C := intmul_4w st0 (dYX P) (cT Q) in
  let D := add_4w st0 (cZ Q) (cZ Q) in
  let (C, D) := compress2_4w st0 C D in
  let (B, A) := addsublar_4w st0 B A in
  let (D, C) := addsublar_4w st0 D C in
  let (B, A) := compress2_4w st0 B A in
  let (D, C) := compress2_4w st0 D C in
  let X1 := intmul_4w st0 A C in
  let T1 := intmul_4w st0 A B in
  let Z1 := intmul_4w st0 D C in
  let Y1 := intmul_4w st0 D B in
  let (X1, T1) := compress2_4w st0 X1 T1 in
  let (Y1, Z1) := compress2_4w st0 Y1 Z1 in
  mkpt X1 Y1 Z1 T1.

(** _2way_fulladd, :257-297: the new Q (the second point is overwritten with temporaries) *)
Definition fulladd_2way (Q P : point4) : point4 :=
  let Z1 := add_2w st0 (cZ Q) (cZ Q) in
  let (Y1, X1) := addsub_2w st0 (cY Q) (cX Q) in
  let (Y2, X2) := addsub_2w st0 (cY P) (cX P) in
  let X2 := compressfast_2w st0 X2 in
  let Y2 := compressfast_2w st0 Y2 in
  let A := compress_2w st0 (intmul_2w st0 X1 X2) in
  let B := compress_2w st0 (intmul_2w st0 Y1 Y2) in
  let C := compress_2w st0 (intmul_2w st0 (cT Q) (cT P)) in
  let C := compress_2w st0 (intmul_2w st0 C param_2d_H0H5) in
  let D := compress_2w st0 (intmul_2w st0 Z1 (cZ P)) in
  let (B, A) := addsub_2w st0 B A in
  let (D, C) := addsub_2w st0 D C in
  let C := compressfast_2w st0 C in
  let B := compressfast_2w st0 B in
  let X1 := intmul_2w st0 A C in
  let T1 := intmul_2w st0 A B in
  let Z1 := intmul_2w st0 D C in
  let Y1 := intmul_2w st0 D B in
  mkpt (compress_2w st0 X1) (compress_2w st0 Y1) (compress_2w st0 Z1) (compress_2w st0 T1).

(** _2way_doubling, :299-331, with compute_T *)
Definition doubling_2way (P : point4) : point4 :=
  let T1 := add_2w st0 (cX P) (cY P) in
  let T1 := compressfast_2w st0 T1 in
  let T1 := sqr_2w st0 T1 in
  let X1 := sqr_2w st0 (cX P) in
  let Y1 := sqr_2w st0 (cY P) in
  let Z1 := sqr_2w st0 (cZ P) in
  let Z1 := add_2w st0 Z1 Z1 in
  let Z1 := compressfast_2w st0 Z1 in
  let (H, G) := naddsub_2w st0 X1 Y1 in
  let H := compressfast_2w st0 H in
  let G := compressfast_2w st0 G in
  let E := add_2w st0 T1 H in
  let F := sub_2w st0 G Z1 in
  let E := compressfast_2w st0 E in
  let F := compressfast_2w st0 F in
  mkpt (mul_2w st0 E F) (mul_2w st0 G H) (mul_2w st0 F G) (mul_2w st0 E H).

(** The two products at the end of the 2w formulas, :374-385, :416-427, :468-481 *)
Definition final_2w (HF EG : list Z) : point2 :=
  let (TZ, XY) :=
    if sky then intmul2_2w st0 HF EG
    else let FH := vmap (PERM64 0x4E) HF in (intmul_2w st0 HF EG, intmul_2w st0 FH EG) in
  compress2_2w st0 XY TZ.
(** The bodies of the loops of _1way_doubling_2w_H0H5, :359-369 *)
Definition dbl_EG (xy tz c : list Z) : list Z :=
  let BA := PERM64 0x4E xy in
  let _0B := BLEND32 0x0F xy v0000 in
  let _BG := VSUB _0B BA in
  VADD (BLEND32 0x0F _BG tz) c.
Definition dbl_HF (xy tz c : list Z) : list Z :=
  let BA := PERM64 0x4E xy in
  let _0B := BLEND32 0x0F xy v0000 in
  let AC := BLEND32 0xF0 xy tz in
  let _BG := VSUB _0B BA in
  VADD (VSUB _BG AC) c.
Fixpoint vmap3 (f : list Z -> list Z -> list Z -> list Z) (a b c : list Z) : list Z :=
  match a, b, c with
  | x0 :: x1 :: x2 :: x3 :: a, y0 :: y1 :: y2 :: y3 :: b, z0 :: z1 :: z2 :: z3 :: c =>
      f [x0; x1; x2; x3] [y0; y1; y2; y3] [z0; z1; z2; z3] ++ vmap3 f a b c
  | _, _, _ => []
  end.
(** _1way_doubling_2w_H0H5, :345-386 *)
Definition doubling_2w (P : point2) : point2 :=
  let (XY, TZ) := P in
  let EG := vmap (PERM64 0xEE) TZ in
  let XY := intsqr_2w st0 XY in
  let TZ := intmul_2w st0 TZ EG in
  let TZ := add_2w st0 TZ TZ in
  let EG := vmap3 dbl_EG XY TZ CONST_2_to_35P_2w in
  let HF := vmap3 dbl_HF XY TZ CONST_2_to_35P_2w in
  let (HF, EG) := compress2_2w st0 HF EG in
  final_2w HF EG.
(** The loop bodies :407-410 and :459-462 *)
Definition add_EG (ab cd : list Z) : list Z := VADD (PERM128 0x31 ab cd) (PERM128 0x20 ab cd).
Definition add_HF (ab cd c : list Z) : list Z := VADD (VSUB (PERM128 0x31 ab cd) (PERM128 0x20 ab cd)) c.
(** _1way_mixadd_2w_H0H5, :390-428; the second point is (subaddYX, _2dT_2Z) *)
Definition mixadd_2w (Q P : point2) : point2 :=
  let (XY, TZ) := Q in
  let (subYXaddYX2, _2dT_2Z) := P in
  let subYXaddYX1 := subadd_2w st0 false XY in
  let AB := intmul_2w st0 subYXaddYX1 subYXaddYX2 in
  let CD := intmul_2w st0 TZ _2dT_2Z in
  let EG := vmap2 add_EG AB CD in
  let HF := vmap3 add_HF AB CD CONST_2_to_35P_2w in
  let (EG, HF) := compress2_2w st0 EG HF in
  final_2w HF EG.
(** _1way_fulladd_2w_H0H5, :432-482 *)
Definition fulladd_2w (Q P : point2) : point2 :=
  let (XY1, TZ1) := Q in
  let (XY2, TZ2) := P in
  let subYXaddYX1 := subadd_2w st0 false XY1 in
  let subYXaddYX2 := subadd_2w st0 true XY2 in
  let AB := intmul_2w st0 subYXaddYX1 subYXaddYX2 in
  let CD := intmul_2w st0 TZ1 TZ2 in
  let CD := compress_2w st0 CD in
  let CD := intmul_2w st0 CD param_curve_2d_02 in
  let AB := compressfast_2w st0 AB in
  let EG := vmap2 add_EG AB CD in
  let HF := vmap3 add_HF AB CD CONST_2_to_35P_2w in
  let (EG, HF) := compress2_2w st0 EG HF in
  final_2w HF EG.
End Edwards.
