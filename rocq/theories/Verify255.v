(** The four-lane point formulas of Ed25519 verification, /repo/src/edwards255.c:1200-1297.
    One vector per limb; the lanes of a point are X, Y, T, Z, those of a precomputed
    point are y-x, y+x, 2dT, 2Z. *)
From Coq Require Import ZArith List Bool.
From Verif Require Import Uop Engine Bytes X86 Simd Simd255 Fp25519Red Ladder Edwards255.
Import ListNotations.
Open Scope Z_scope.

Definition bcast (c : Z) : list Z := [c; c; c; c].
(** CONST_2_to_35P_4w, :1200-1211 (the value is 2^34 p) *)
Definition limbs_2_34P : list Z := [
  0xfffffb400000000; 0x7fffffc00000000; 0x7fffffc00000000; 0xffffffc00000000; 0xffffffc00000000;
  0x7fffffc00000000; 0x7fffffc00000000; 0xffffffc00000000; 0xffffffc00000000; 0x7fffffc00000000].
Definition CONST_2_34P_4w : list Z := concat (map bcast limbs_2_34P).
(** CONST_2P_00_00_00, :1219-1225 *)
Definition limbs_2P_mix : list Z := [
  0x7ffffda; 0x3fffffe; 0x3fffffe; 0x7fffffe; 0x7fffffe; 0x3fffffe; 0x3fffffe; 0x7fffffe; 0x7fffffe; 0x3fffffe].
Definition CONST_2P_000 : list Z := concat (map (fun c => [c; 0; 0; 0]) limbs_2P_mix).
(** SHUF32(x, 0x4E), _mm256_shuffle_epi32: swaps the words of each half *)
Definition SHUF32_4E (v : list Z) : list Z := [nth 1 v 0; nth 0 v 0; nth 3 v 0; nth 2 v 0].
Definition ones64 : Z := 2 ^ 64 - 1.

Section Verify.
Variable st0 : store.
(** The loop :1234-1239, also in precompute_points_4w_ed25519 (:1452-1456, :1461-1465, :1473-1477)
    where the upper half comes from another array *)
Definition subadd_body (hi v c : list Z) : list Z :=
  let M := SHUF32_4E v in
  let m := [ones64; 0; 0; 0] in
  let s := VADD (VADD M c) (VSUB (VXOR v m) m) in
  BLEND32 0xF0 s hi.
(** The loop :1244-1248 *)
Definition mix_body (v c : list Z) : list Z :=
  let BDBD := PERM64 0xDD v in
  let ACAC := PERM64 0x88 v in
  let m := [ones64; 0; 0; ones64] in
  VADD (VADD BDBD c) (VSUB (VXOR ACAC m) m).
(** The product [A|B|C|D] of _1way_mixadd_4w_H0H5, :1234-1241 *)
Definition mix_ABCD (Q P : list Z) : list Z := intmul_4w st0 (vmap3 subadd_body Q Q CONST_2P_000) P.
(** _1way_mixadd_4w_H0H5, :1218-1257 *)
Definition mixadd_4w (Q P : list Z) : list Z :=
  let ABCD := mix_ABCD Q P in
  let EGHF := vmap2 mix_body ABCD CONST_2_34P_4w in
  let EGHF := compress_4w st0 EGHF in
  let FHEG := vmap (PERM64 0x4B) EGHF in
  let XYTZ := intmul_4w st0 EGHF FHEG in
  compress_4w st0 XYTZ.
(** The loop :1279-1285 *)
Definition dbl_body (v c : list Z) : list Z :=
  let CBEB := PERM64 0x67 v in
  let CAE0 := BLEND32 0xC0 (PERM64 0xE3 v) v0000 in
  let A000 := BLEND32 0xFC v v0000 in
  let B00A := BLEND32 0x3C (PERM64 0x25 v) v0000 in
  VADD CBEB (VADD CAE0 (VADD A000 (VSUB c B00A))).
(** _1way_doubling_4w_H0H5, :1265-1297 *)
Definition doubling_4w (Q : list Z) : list Z :=
  let XYZZ := vmap (PERM64 0xF4) Q in
  let ABEC := intmul_4w st0 Q XYZZ in
  let FHEG := vmap2 dbl_body ABEC CONST_2_34P_4w in
  let FHEG := compress_4w st0 FHEG in
  let EGHF := vmap (PERM64 0x1E) FHEG in
  let XYTZ := intmul_4w st0 EGHF FHEG in
  compress_4w st0 XYTZ.
End Verify.
