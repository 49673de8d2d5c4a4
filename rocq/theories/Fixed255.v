(** Fixed-base multiplication on edwards25519 and point encoding,
    /repo/src/edwards255.c:484-508 and :781-1075 (LOOKUP_TABLE_SIZE == LUT_24KB, the default). *)
From Coq Require Import ZArith List Bool.
From Verif Require Import Uop Engine Bytes X86 Asm25519 Fp25519Full Simd Simd255 Fp25519Red Scalar Ladder Edwards255 Verify255 Recode Table255.
Import ListNotations.
Open Scope Z_scope.

(** ** More AVX2 instructions, on vectors of four words *)
(** OR, AND, ANDNOT: _mm256_or_si256, _mm256_and_si256, _mm256_andnot_si256 (not x) and y *)
Definition VOR : list Z -> list Z -> list Z := zip2 Z.lor.
Definition VAND : list Z -> list Z -> list Z := zip2 Z.land.
Definition VANDNOT : list Z -> list Z -> list Z := zip2 (fun m x => Z.land (Z.lxor m ones64) x).
(** SHL, SHR: _mm256_slli_epi64, _mm256_srli_epi64 *)
Definition VSHL (n : Z) : list Z -> list Z := map (fun x => (x * 2 ^ n) mod W).
Definition VSHR (n : Z) : list Z -> list Z := map (fun x => x / 2 ^ n).
(** Low and high dword of a word *)
Definition dlo (x : Z) : Z := x mod 2 ^ 32.
Definition dhi (x : Z) : Z := x / 2 ^ 32.
(** _mm256_srai_epi32(x, 32): shifts beyond 31 fill every dword with its sign *)
Definition sign32 (x : Z) : Z := if 2 ^ 31 <=? x then 2 ^ 32 - 1 else 0.
Definition SRAI32_32 : list Z -> list Z := map (fun x => sign32 (dlo x) + 2 ^ 32 * sign32 (dhi x)).
(** SHUF32(x, 0xE5), _mm256_shuffle_epi32: dwords 1, 1, 2, 3 of each half *)
Definition SHUF32_E5 (v : list Z) : list Z :=
  let d x := dhi x + 2 ^ 32 * dhi x in [d (nth 0 v 0); nth 1 v 0; d (nth 2 v 0); nth 3 v 0].

(** str_bytes_to_Element_4w_h0h5, eltfp25519_4w_redradix.c:24-42; nA is given by its four vectors *)
Definition str_4w (n0 n1 n2 n3 : list Z) : list Z :=
  let mask0 := bcast (2 ^ 26 - 1) in
  let mask1 := bcast (2 ^ 25 - 1) in
  let A0 := VAND n0 mask0 in
  let A2 := VAND (VSHR 26 n0) mask1 in
  let A4 := VAND (VXOR (VSHL 13 n1) (VSHR (26 + 25) n0)) mask0 in
  let A6 := VAND (VSHR 13 n1) mask1 in
  let A8 := VAND (VSHR (13 + 25) n1) mask0 in
  let A1 := VAND n2 mask1 in
  let A3 := VAND (VSHR 25 n2) mask0 in
  let A5 := VAND (VXOR (VSHL 13 n3) (VSHR (26 + 25) n2)) mask1 in
  let A7 := VAND (VSHR 12 n3) mask0 in
  let A9 := VAND (VSHR (12 + 26) n3) mask1 in
  A0 ++ A1 ++ A2 ++ A3 ++ A4 ++ A5 ++ A6 ++ A7 ++ A8 ++ A9.

(** ** query_table_fold2w4_ed25519, edwards255.c:846-945 *)
(** _P, :851-857 *)
Definition limbs_P : list Z := [
  0x3ffffed; 0x1ffffff; 0x1ffffff; 0x3ffffff; 0x3ffffff; 0x1ffffff; 0x1ffffff; 0x3ffffff; 0x3ffffff; 0x1ffffff].
(** mask[i], :871-886 *)
Definition qmask (digits : list Z) (i : nat) : list Z :=
  let iiii := bcast (Z.of_nat i) in
  SHUF32_E5 (SRAI32_32 (VOR (VSUB digits iiii) (VSUB iiii digits))).
(** p64Table, :865: the sub-table of 1536 bytes *)
Definition subtable (idx : nat) : list Z := firstn 192 (skipn (192 * idx) TableSign_w4_24k).
(** :901-903: both words of an __m128i broadcast to the two halves *)
Definition bload (s : list Z) (n : nat) : list Z := [nth (2 * n) s 0; nth (2 * n + 1) s 0; nth (2 * n) s 0; nth (2 * n + 1) s 0].
(** The loop over i, :899-908, for coordinate c and word j *)
Definition qsel (s digits : list Z) (c j : nat) : list Z :=
  fold_left (fun acc i => VXOR acc (VANDNOT (qmask digits (i + 1)) (bload s (24 * j + 3 * i + c)))) (seq 0 8) [0; 0; 0; 0].
(** :915-916 *)
Definition qone (digits v : list Z) : list Z := VXOR v (VANDNOT (qmask digits 0) (VXOR v (bcast 1))).
(** :941-944 *)
Definition qneg (signs v c : list Z) : list Z := VADD (VXOR v signs) (VSUB c signs).
Definition query_table (signs digits : list Z) (idx : nat) : precmp :=
  let s := subtable idx in
  let a0 := qone digits (qsel s digits 0 0) in
  let b0 := qone digits (qsel s digits 1 0) in
  let a j := if (j =? 0)%nat then a0 else qsel s digits 0 j in
  let b j := if (j =? 0)%nat then b0 else qsel s digits 1 j in
  let swap j := VAND (VXOR (a j) (b j)) signs in
  let a' j := VXOR (a j) (swap j) in
  let b' j := VXOR (b j) (swap j) in
  let d j := qsel s digits 2 j in
  mkpre (str_4w (a' 0%nat) (a' 1%nat) (a' 2%nat) (a' 3%nat))
        (str_4w (b' 0%nat) (b' 1%nat) (b' 2%nat) (b' 3%nat))
        (vmap2 (qneg signs) (str_4w (d 0%nat) (d 1%nat) (d 2%nat) (d 3%nat)) (concat (map bcast limbs_P))).

(** unpack_2w_Element_4w_h0h5, :953-964: pA, pB *)
Fixpoint unpack_with (f : list Z -> list Z -> list Z) (a : list Z) : list Z :=
  match a with
  | x0 :: x1 :: x2 :: x3 :: y0 :: y1 :: y2 :: y3 :: a => f [x0; x1; x2; x3] [y0; y1; y2; y3] ++ unpack_with f a
  | _ => []
  end.
Definition unpack_2w (A : list Z) : list Z * list Z := (unpack_with UPKL64 A, unpack_with UPKH64 A).

Section Fixed.
Variable st0 : store.
Variable k : cpu.
Variable sky : bool.
(** join_points, :978-1003 *)
Definition join_points (Q : point4) : point2 :=
  let (R0X, R1X) := unpack_2w (cX Q) in
  let (R0Y, R1Y) := unpack_2w (cY Q) in
  let (R0Z, R1Z) := unpack_2w (cZ Q) in
  let (R0T, R1T) := unpack_2w (cT Q) in
  let R0 := fulladd_2way st0 (mkpt R0X R0Y R0Z R0T) (mkpt R1X R1Y R1Z R1T) in
  let T0 := (vmap2 (PERM128 0x20) (cX R0) (cY R0), vmap2 (PERM128 0x20) (cT R0) (cZ R0)) in
  let T1 := (vmap2 (PERM128 0x31) (cX R0) (cY R0), vmap2 (PERM128 0x31) (cT R0) (cZ R0)) in
  let T1 := doubling_2w st0 sky T1 in
  let T1 := doubling_2w st0 sky T1 in
  let T1 := doubling_2w st0 sky T1 in
  let T1 := doubling_2w st0 sky T1 in
  fulladd_2w st0 sky T0 T1.
(** one_half, :1027-1033 *)
Definition one_half_4w : list Z := concat (map bcast [
  0x3fffff7; 0x1ffffff; 0x1ffffff; 0x3ffffff; 0x3ffffff; 0x1ffffff; 0x1ffffff; 0x3ffffff; 0x3ffffff; 0x0ffffff]).
(** Four words of an array, S + 4 i *)
Definition four_at (a : list Z) (i : nat) : list Z := firstn 4 (skipn (4 * i) a).
(** point_multiplication_fold2w4_ed25519, :1021-1054; K0, S0 are the uninitialised arrays *)
Definition first_point (P : precmp) : point4 :=
  let X := sub_4w st0 (addYX P) (subYX P) in
  let Y := add_4w st0 (addYX P) (subYX P) in
  let (X, Y) := new_compressfast2_4w st0 X Y in
  let T := mul_4w st0 X Y in
  let T := mul_4w st0 T one_half_4w in
  mkpt X Y (bcast 2 ++ skipn 4 (zero_4w st0)) T.
Definition point_multiplication (K0 S0 r : list Z) : point2 :=
  let (K, S) := recode_fold2w4 K0 S0 r in
  let Q := first_point (query_table (four_at S 0) (four_at K 0) 0) in
  let Q := fold_left (fun Q i => mixadd_4way st0 Q (query_table (four_at S i) (four_at K i) i)) (seq 1 15) Q in
  join_points Q.

(** point_encoding_ed25519, :484-508 *)
Definition point_encoding (P : point2) : list Z :=
  let (tX, tY) := deinter_2w st0 (fst P) in
  let (tT, tZ) := deinter_2w st0 (snd P) in
  let X := words_of 4 (ser_1w st0 tX) in
  let Y := words_of 4 (ser_1w st0 tY) in
  let Z := words_of 4 (ser_1w st0 tZ) in
  let invZ := inv st0 k Z in
  let X := mul st0 k X invZ in
  let Y := mul st0 k Y invZ in
  let encX := ser st0 X in
  let encP := ser st0 Y in
  firstn 31 encP ++ [Z.lor (Z.land (nth 31 encP 0) 0x7F) ((Z.land (nth 0 encX 0) 1 * 2 ^ 7) mod 256)].
End Fixed.
