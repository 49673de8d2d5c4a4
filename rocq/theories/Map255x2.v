(** The two-lane map to edwards25519 of /repo/src/hash255.c and h2c25519_avx2.  Line numbers are those of hash255.c.
    An element of two lanes is the list of its 20 64-bit words: five registers of four words, low word first. *)
From Coq Require Import ZArith List.
From Verif Require Import Uop Engine Bytes X86 Asm25519 Simd Fp25519Full Fp25519Red Edwards255 Sha512 Sha512x2 Sign255 Hash255 Hash255x2.
Import ListNotations.
Open Scope Z_scope.

(** SET64(b, a, b, a): the words of the register, low word first *)
Definition set64_2 (b a : Z) : list Z := [a; b; a; b].
(** The constants of elligator2_curve25519_2w, :294-313, and elligator2_edwards25519_2w, :375-383 *)
Definition v_ONE : list Z := set64_2 0 1.
Definition v_ZERO : list Z := set64_2 0 0.
Definition w_one : list Z := v_ONE ++ v_ZERO ++ v_ZERO ++ v_ZERO ++ v_ZERO.
Definition w_zero : list Z := v_ZERO ++ v_ZERO ++ v_ZERO ++ v_ZERO ++ v_ZERO.
Definition w_A : list Z := set64_2 0 486662 ++ v_ZERO ++ v_ZERO ++ v_ZERO ++ v_ZERO.
Definition w_c2 : list Z :=
  set64_2 0x1fbd7a7 0x20ea0b1 ++ set64_2 0x2804c9e 0x186c9d2 ++ set64_2 0x1e16569 0x08f189d ++ set64_2 0x004fc1d 0x035697f ++ set64_2 0x0ae0c92 0x0bd0c60.
Definition w_c3 : list Z :=
  set64_2 0x1fbd7a7 0x20ea0b0 ++ set64_2 0x2804c9e 0x186c9d2 ++ set64_2 0x1e16569 0x08f189d ++ set64_2 0x004fc1d 0x035697f ++ set64_2 0x0ae0c92 0x0bd0c60.
Definition w_c1 : list Z :=
  set64_2 0x1fc4f7e 0x3457e06 ++ set64_2 0x1846e01 0x1812abf ++ set64_2 0x0d77a4f 0x350598d ++ set64_2 0x3460a00 0x08a5be8 ++ set64_2 0x03c9bb7 0x316874f.
(** a == b on __m256i, a comparison of gcc's vector extension: each word is all ones or zero *)
Definition v_eq (a b : list Z) : list Z := map (fun t => if fst t =? snd t then 2 ^ 64 - 1 else 0) (combine a b).
(** XOR of simd_avx2.h *)
Definition v_xor (a b : list Z) : list Z := map (fun t => Z.lxor (fst t) (snd t)) (combine a b).

Section Map2.
Variable st0 : store.

(** expoC4_2w, :125-185: the steps are those of [pow_p58_chain] *)
Definition expoC4_2w (x : list Z) : list Z := pow_p58_chain (mul_2w st0) (sqr_2w st0) x.

(** elligator2_curve25519_2w, :290-366; yields (xn, xd, yn, yd).  misc.copy is the assignment. *)
Definition elligator2_curve25519_2w (u : list Z) : list Z * list Z * list Z * list Z :=
  let tv1 := sqr_2w st0 u in
  let tv1 := add_2w st0 tv1 tv1 in
  let xd := add_2w st0 tv1 w_one in
  let x1n := neg_2w st0 w_A in
  let tv2 := sqr_2w st0 xd in
  let gxd := mul_2w st0 tv2 xd in
  let gx1 := mul_2w st0 w_A tv1 in
  let gx1 := mul_2w st0 gx1 x1n in
  let gx1 := add_2w st0 gx1 tv2 in
  let gx1 := mul_2w st0 gx1 x1n in
  let tv3 := sqr_2w st0 gxd in
  let tv2 := sqr_2w st0 tv3 in
  let tv3 := mul_2w st0 tv3 gxd in
  let tv3 := mul_2w st0 tv3 gx1 in
  let tv2 := mul_2w st0 tv2 tv3 in
  let y11 := expoC4_2w tv2 in
  let y11 := mul_2w st0 y11 tv3 in
  let y12 := mul_2w st0 y11 w_c3 in
  let tv2 := sqr_2w st0 y11 in
  let tv2 := mul_2w st0 tv2 gxd in
  let e1 := v_eq (cmp_2w st0 tv2 gx1) v_ZERO in
  let y1 := cmv_2w e1 y12 y11 in
  let x2n := mul_2w st0 x1n tv1 in
  let y21 := mul_2w st0 y11 u in
  let y21 := mul_2w st0 y21 w_c2 in
  let y22 := mul_2w st0 y21 w_c3 in
  let gx2 := mul_2w st0 gx1 tv1 in
  let tv2 := sqr_2w st0 y21 in
  let tv2 := mul_2w st0 tv2 gxd in
  let e2 := v_eq (cmp_2w st0 tv2 gx2) v_ZERO in
  let y2 := cmv_2w e2 y22 y21 in
  let tv2 := sqr_2w st0 y1 in
  let tv2 := mul_2w st0 tv2 gxd in
  let e3 := v_eq (cmp_2w st0 tv2 gx1) v_ZERO in
  let xn := cmv_2w e3 x2n x1n in
  let y := cmv_2w e3 y2 y1 in
  let e4 := v_eq (sgn_2w st0 y) v_ONE in
  let y3 := neg_2w st0 y in
  let yn := cmv_2w (v_xor e3 e4) y y3 in
  let xn := compress_2w st0 xn in
  let xd := compress_2w st0 xd in
  let yn := compress_2w st0 yn in
  let yd := compress_2w st0 w_one in
  (xn, xd, yn, yd).

(** elligator2_edwards25519_2w, :368-406 *)
Definition elligator2_edwards25519_2w (u : list Z) : list Z * list Z * list Z * list Z :=
  let '(xMn, xMd, yMn, yMd) := elligator2_curve25519_2w u in
  let xn := mul_2w st0 xMn yMd in
  let xn := mul_2w st0 xn w_c1 in
  let xd := mul_2w st0 xMd yMn in
  let yn := sub_2w st0 xMn xMd in
  let yd := add_2w st0 xMn xMd in
  let tv1 := mul_2w st0 xd yd in
  let e := v_eq (cmp_2w st0 tv1 w_zero) v_ZERO in
  let xn := cmv_2w e xn w_zero in
  let xd := cmv_2w e xd w_one in
  let yn := cmv_2w e yn w_one in
  let yd := cmv_2w e yd w_one in
  let xn := compress_2w st0 xn in
  let xd := compress_2w st0 xd in
  let yn := compress_2w st0 yn in
  let yd := compress_2w st0 yd in
  (xn, xd, yn, yd).

(** map_to_curve_2w, :419-428 *)
Definition map_to_curve_2w (u0u1 : list Z) : point4 :=
  let '(xn, xd, yn, yd) := elligator2_edwards25519_2w u0u1 in
  mkpt (mul_2w st0 xn yd) (mul_2w st0 yn xd) (mul_2w st0 xd yd) (mul_2w st0 xn yn).

(** clear_cofactor_2w, :436-440.  The first two doublings leave T undefined (compute_T is 0); T is not read by a doubling. *)
Definition clear_cofactor_2w (P : point4) : point4 :=
  let P := doubling_2way st0 P in
  let P := doubling_2way st0 P in
  doubling_2way st0 P.

(** The two elements as h2c25519_avx2 builds them, :530-532: unser reads the 32 bytes of the four words *)
Definition pair_2w (uu0 uu1 : list Z) : list Z := inter_2w st0 (unser_1w st0 (bytes_of uu0)) (unser_1w st0 (bytes_of uu1)).
(** deinter and ser of one coordinate, :537-548 *)
Definition split_2w (a : list Z) : list Z * list Z :=
  let '(a0, a1) := deinter_2w st0 a in (words_of 4 (ser_1w st0 a0), words_of 4 (ser_1w st0 a1)).
(** h2c25519_avx2, :520-551; [block] is the uninitialised array of sha512_2w_avx *)
Definition h2c25519_avx2 (k : cpu) (block : list vec) (msg : list Z) : point :=
  let '(uu0, uu1) := hash_to_field_2w st0 block msg in
  let Q0Q1 := map_to_curve_2w (pair_2w uu0 uu1) in
  let Q0Q1 := clear_cofactor_2w Q0Q1 in
  let '(x0, x1) := split_2w (cX Q0Q1) in
  let '(y0, y1) := split_2w (cY Q0Q1) in
  let '(t0, t1) := split_2w (cT Q0Q1) in
  let '(z0, z1) := split_2w (cZ Q0Q1) in
  toAffine st0 k (fulladd_1w_full st0 k (mkpt x0 y0 z0 t0) (mkpt x1 y1 z1 t1)).
End Map2.
