(** Ed448 points, /repo/src/edwards448.c.  The code works on the twisted Edwards curve
    -x^2 + y^2 = 1 - 39082 x^2 y^2, which is isogenous to edwards448, and maps the result back.
    intmul of every width reads both operands before it writes, so in-place calls are
    applications of the same function. *)
From Coq Require Import ZArith List Bool.
From Verif Require Import Uop Engine Bytes X86 Simd Simd448 Fp25519Red Fp448Full Fp448Red Scalar Scalar448 Ladder Edwards255 Verify255 Recode Fixed255 Decode255 Table448.
Import ListNotations.
Open Scope Z_scope.

(** _P, :205-214, and the 64-bit words of the four lanes *)
Definition limbs_P448 : list Z := [
  0xfffffff; 0xffffffe; 0xfffffff; 0xfffffff; 0xfffffff; 0xfffffff; 0xfffffff; 0xfffffff;
  0xfffffff; 0xfffffff; 0xfffffff; 0xfffffff; 0xfffffff; 0xfffffff; 0xfffffff; 0xfffffff].
(** CONST_2_to_35P_ED448, :348-357 *)
Definition CONST_2_to_35P_ED448 : list Z := [
  0x7ffffff800000000; 0x7ffffff000000000; 0x7ffffff800000000; 0x7ffffff000000000;
  0x7ffffff800000000; 0x7ffffff800000000; 0x7ffffff800000000; 0x7ffffff800000000;
  0x7ffffff800000000; 0x7ffffff800000000; 0x7ffffff800000000; 0x7ffffff800000000;
  0x7ffffff800000000; 0x7ffffff800000000; 0x7ffffff800000000; 0x7ffffff800000000;
  0x7ffffff800000000; 0x7ffffff800000000; 0x7ffffff800000000; 0x7ffffff800000000;
  0x7ffffff800000000; 0x7ffffff800000000; 0x7ffffff800000000; 0x7ffffff800000000;
  0x7ffffff800000000; 0x7ffffff800000000; 0x7ffffff800000000; 0x7ffffff800000000;
  0x7ffffff800000000; 0x7ffffff800000000; 0x7ffffff800000000; 0x7ffffff800000000].
(** CONST_param_curve_2d_02, :363-372 *)
Definition CONST_param_curve_2d_02 : list Z := [
  0xffeceab; 0xffffffe; 0x2; 0x0; 0xfffffff; 0xfffffff; 0x0; 0x0;
  0xfffffff; 0xfffffff; 0x0; 0x0; 0xfffffff; 0xfffffff; 0x0; 0x0;
  0xfffffff; 0xfffffff; 0x0; 0x0; 0xfffffff; 0xfffffff; 0x0; 0x0;
  0xfffffff; 0xfffffff; 0x0; 0x0; 0xfffffff; 0xfffffff; 0x0; 0x0].
(** CONST_2_to_34P, :504-513 and :566-575 *)
Definition limbs_2_34P448 : list Z := [
  0x3ffffffc00000000; 0x3ffffff800000000; 0x3ffffffc00000000; 0x3ffffffc00000000;
  0x3ffffffc00000000; 0x3ffffffc00000000; 0x3ffffffc00000000; 0x3ffffffc00000000;
  0x3ffffffc00000000; 0x3ffffffc00000000; 0x3ffffffc00000000; 0x3ffffffc00000000;
  0x3ffffffc00000000; 0x3ffffffc00000000; 0x3ffffffc00000000; 0x3ffffffc00000000].
Definition CONST_2_34P448_4w : list Z := concat (map bcast limbs_2_34P448).
(** CONST_2P_00_00_00, :515-524, and CONST_2P_00_00_00_H0H8, :1121-1130 *)
Definition limbs_2P448 : list Z := [
  0x1ffffffe; 0x3ffffffc; 0x1ffffffe; 0x1ffffffc; 0x1ffffffe; 0x1ffffffe; 0x1ffffffe; 0x1ffffffe;
  0x1ffffffe; 0x1ffffffe; 0x1ffffffe; 0x1ffffffe; 0x1ffffffe; 0x1ffffffe; 0x1ffffffe; 0x1ffffffe].
Definition CONST_2P448_000 : list Z := concat (map (fun c => [c; 0; 0; 0]) limbs_2P448).
(** CONST_param_curve_1_1_2d_02, :1103-1120 *)
Definition limbs_2d448 : list Z := [
  0xffeceab; 0xffffffe; 0xfffffff; 0xfffffff; 0xfffffff; 0xfffffff; 0xfffffff; 0xfffffff;
  0xfffffff; 0xfffffff; 0xfffffff; 0xfffffff; 0xfffffff; 0xfffffff; 0xfffffff; 0xfffffff].
Definition CONST_1_1_2d_2_448 : list Z := [1; 1; 0xffeceab; 2] ++ concat (map (fun c => [0; 0; c; 0]) (tl limbs_2d448)).
(** one_half, :710-719 *)
Definition one_half448_4w : list Z := concat (map bcast [
  0x0000000; 0xfffffff; 0x0000000; 0xfffffff; 0x0000000; 0xfffffff; 0x0000000; 0xfffffff;
  0x0000000; 0xfffffff; 0x0000000; 0xfffffff; 0x0000000; 0xfffffff; 0x8000000; 0x7ffffff]).
(** param_curve_d of point_decoding_ed448, :780-789 *)
Definition param_curve_d448 : list Z := [
  0xfff6756; 0xffffffe; 0xfffffff; 0xfffffff; 0xfffffff; 0xfffffff; 0xfffffff; 0xfffffff;
  0xfffffff; 0xfffffff; 0xfffffff; 0xfffffff; 0xfffffff; 0xfffffff; 0xfffffff; 0xfffffff].
Definition two448_1w : list Z := 2 :: repeat 0 15.

(** str_bytes_to_Element_4w_h0h8, eltfp448_4w_redradix.c:29-61; nA is given by its seven vectors *)
Definition str448_4w (n0 n1 n2 n3 n4 n5 n6 : list Z) : list Z :=
  let mask := bcast (2 ^ 28 - 1) in
  let A0 := n0 in
  let A2 := VSHR 28 n0 in
  let A4 := VXOR (VSHR (2 * 28) n0) (VSHL 8 n1) in
  let A6 := VSHR 20 n1 in
  let A8 := VXOR (VSHR (20 + 28) n1) (VSHL 16 n2) in
  let A10 := VSHR 12 n2 in
  let A12 := VXOR (VSHR (12 + 28) n2) (VSHL 24 n3) in
  let A14 := VSHR 4 n3 in
  let A1 := VSHR (4 + 28) n3 in
  let A3 := VXOR (VSHR (4 + 2 * 28) n3) (VSHL 4 n4) in
  let A5 := VSHR 24 n4 in
  let A7 := VXOR (VSHR (24 + 28) n4) (VSHL 12 n5) in
  let A9 := VSHR 16 n5 in
  let A11 := VXOR (VSHR (16 + 28) n5) (VSHL 20 n6) in
  let A13 := VSHR 8 n6 in
  let A15 := VSHR (8 + 28) n6 in
  concat (map (fun A => VAND A mask) [A0; A1; A2; A3; A4; A5; A6; A7; A8; A9; A10; A11; A12; A13; A14; A15]).
(** ** query_table_fold4w4_ed448, :200-303 *)
(** p64Table, :222: the sub-table of SIZE_ONE_LUT_ED448 = 1344 bytes *)
Definition subtable448 (idx : nat) : list Z := firstn 168 (skipn (168 * idx) TableSign_w4_3675k).
(** The loop over i, :258-269, for coordinate c and word j *)
Definition qsel448 (s digits : list Z) (c j : nat) : list Z :=
  fold_left (fun acc i => VXOR acc (VANDNOT (qmask digits (i + 1)) (bcast (nth (24 * j + 3 * i + c) s 0)))) (seq 0 8) [0; 0; 0; 0].
Definition query_table448 (signs digits : list Z) (idx : nat) : precmp :=
  let s := subtable448 idx in
  let a0 := qone digits (qsel448 s digits 0 0) in
  let b0 := qone digits (qsel448 s digits 1 0) in
  let a j := if (j =? 0)%nat then a0 else qsel448 s digits 0 j in
  let b j := if (j =? 0)%nat then b0 else qsel448 s digits 1 j in
  let swap j := VAND (VXOR (a j) (b j)) signs in
  let a' j := VXOR (a j) (swap j) in
  let b' j := VXOR (b j) (swap j) in
  let d j := qsel448 s digits 2 j in
  let str f := str448_4w (f 0%nat) (f 1%nat) (f 2%nat) (f 3%nat) (f 4%nat) (f 5%nat) (f 6%nat) in
  mkpre (str a') (str b') (vmap2 (qneg signs) (str d) (concat (map bcast limbs_P448))).

Section Ed448.
Variable st0 : store.
(** [junk]: the two words of modular_reduction_ed448 that are never initialised *)
Variable junk : list Z.

(** point_encoding_ed448, :125-137: 57 bytes *)
Definition point_encoding448 (P : point2) : list Z :=
  let (X, Y) := deinter448_2w st0 (fst P) in
  let (invZ, Z) := deinter448_2w st0 (snd P) in
  let invZ := inv448_1w st0 Z in
  let X := mul448_1w st0 X invZ in
  let Y := mul448_1w st0 Y invZ in
  let encX := ser448_1w st0 X in
  let encP := ser448_1w st0 Y in
  encP ++ [(Z.land (nth 0 encX 0) 1 * 2 ^ 7) mod 256].

(** _4way_mixadd_ed448, :314-346 *)
Definition mixadd448_4way (Q : point4) (P : precmp) : point4 :=
  let subY1X1 := sub448_4w st0 (cY Q) (cX Q) in
  let addY1X1 := add448_4w st0 (cY Q) (cX Q) in
  let A := intmul448_4w st0 subY1X1 (subYX P) in
  let B := intmul448_4w st0 addY1X1 (addYX P) in
  let C := intmul448_4w st0 (dYX P) (cT Q) in
  let D := add448_4w st0 (cZ Q) (cZ Q) in
  let (C, D) := compress2448_4w st0 C D in
  let (B, A) := addsublar448_4w st0 B A in
  let (D, C) := addsublar448_4w st0 D C in
  let (B, A) := compress2448_4w st0 B A in
  let (D, C) := compress2448_4w st0 D C in
  let X1 := intmul448_4w st0 A C in
  let Y1 := intmul448_4w st0 D B in
  let Z1 := intmul448_4w st0 D C in
  let T1 := intmul448_4w st0 A B in
  let (X1, Y1) := compress2448_4w st0 X1 Y1 in
  let (Z1, T1) := compress2448_4w st0 Z1 T1 in
  mkpt X1 Y1 Z1 T1.

(** The two products at the end of the 2w formulas, :409-414, :445-450, :486-491 *)
Definition final448_2w (HF EG : list Z) : point2 :=
  let FH := vmap (PERM64 0x4E) HF in
  compress2448_2w st0 (intmul448_2w st0 FH EG) (intmul448_2w st0 HF EG).
(** _1way_fulladd_2w_H0H8, :379-415 *)
Definition fulladd448_2w (Q P : point2) : point2 :=
  let (XY1, TZ1) := Q in
  let (XY2, TZ2) := P in
  let subYXaddYX1 := subadd448_2w st0 false XY1 in
  let subYXaddYX2 := subadd448_2w st0 true XY2 in
  let subYXaddYX1 := compressfast448_2w st0 subYXaddYX1 in
  let subYXaddYX2 := compressfast448_2w st0 subYXaddYX2 in
  let AB := intmul448_2w st0 subYXaddYX1 subYXaddYX2 in
  let CD := intmul448_2w st0 TZ1 TZ2 in
  let CD := compress448_2w st0 CD in
  let CD := intmul448_2w st0 CD CONST_param_curve_2d_02 in
  let EG := vmap2 add_EG AB CD in
  let HF := vmap3 add_HF AB CD CONST_2_to_35P_ED448 in
  let (EG, HF) := compress2448_2w st0 EG HF in
  final448_2w HF EG.
(** _1way_mixadd_2w_H0H8, :423-451; the second point is (subaddYX, _2dT_2Z) *)
Definition mixadd448_2w (Q P : point2) : point2 :=
  let (XY, TZ) := Q in
  let (subYXaddYX2, _2dT_2Z) := P in
  let subYXaddYX1 := subadd448_2w st0 false XY in
  let AB := intmul448_2w st0 subYXaddYX1 subYXaddYX2 in
  let CD := intmul448_2w st0 TZ _2dT_2Z in
  let EG := vmap2 add_EG AB CD in
  let HF := vmap3 add_HF AB CD CONST_2_to_35P_ED448 in
  let (EG, HF) := compress2448_2w st0 EG HF in
  final448_2w HF EG.
(** _1way_doubling_2w_H0H8, :459-492 *)
Definition doubling448_2w (P : point2) : point2 :=
  let (XY, TZ) := P in
  let EG := vmap (PERM64 0xEE) TZ in
  let XY := intsqr448_2w st0 XY in
  let TZ := intmul448_2w st0 TZ EG in
  let TZ := add448_2w st0 TZ TZ in
  let EG := vmap3 dbl_EG XY TZ CONST_2_to_35P_ED448 in
  let HF := vmap3 dbl_HF XY TZ CONST_2_to_35P_ED448 in
  let (HF, EG) := compress2448_2w st0 HF EG in
  final448_2w HF EG.

(** _1way_mixadd_4w_H0H8, :501-555 *)
Definition mix448_ABCD (Q P : list Z) : list Z := intmul448_4w st0 (vmap3 subadd_body Q Q CONST_2P448_000) P.
Definition mixadd448_4w (Q P : list Z) : list Z :=
  let ABCD := mix448_ABCD Q P in
  let EGHF := vmap2 mix_body ABCD CONST_2_34P448_4w in
  let EGHF := compress448_4w st0 EGHF in
  let FHEG := vmap (PERM64 0x4B) EGHF in
  let XYTZ := intmul448_4w st0 EGHF FHEG in
  compress448_4w st0 XYTZ.
(** _1way_doubling_4w_H0H8, :563-602 *)
Definition doubling448_4w (Q : list Z) : list Z :=
  let XYZZ := vmap (PERM64 0xF4) Q in
  let ABEC := intmul448_4w st0 Q XYZZ in
  let FHEG := vmap2 dbl_body ABEC CONST_2_34P448_4w in
  let FHEG := compress448_4w st0 FHEG in
  let EGHF := vmap (PERM64 0x1E) FHEG in
  let XYTZ := intmul448_4w st0 EGHF FHEG in
  compress448_4w st0 XYTZ.

(** join_points_2w_H0H8, :609-638 *)
Definition join_points448 (Q : point4) : point2 :=
  let part j := (inter448_2w st0 (unzip448_4w st0 (cX Q) j) (unzip448_4w st0 (cY Q) j),
                 inter448_2w st0 (unzip448_4w st0 (cT Q) j) (unzip448_4w st0 (cZ Q) j)) in
  let R0 := part 0%nat in
  let R1 := part 1%nat in
  let R2 := part 2%nat in
  let R3 := part 3%nat in
  let R3 := doubling448_2w R3 in
  let R3 := doubling448_2w R3 in
  let R3 := doubling448_2w R3 in
  let R3 := doubling448_2w R3 in
  let R2 := fulladd448_2w R2 R3 in
  let R2 := doubling448_2w R2 in
  let R2 := doubling448_2w R2 in
  let R2 := doubling448_2w R2 in
  let R2 := doubling448_2w R2 in
  let R1 := fulladd448_2w R1 R2 in
  let R1 := doubling448_2w R1 in
  let R1 := doubling448_2w R1 in
  let R1 := doubling448_2w R1 in
  let R1 := doubling448_2w R1 in
  fulladd448_2w R0 R1.

(** The loop body of isogeny_2w_H0H8, :665-677 *)
Definition iso_H (xy ec : list Z) : list Z := VADD (PERM128 0x31 ec xy) (PERM64 0x44 xy).
Definition iso_FG (xy ec c : list Z) : list Z :=
  let BA := PERM64 0x4E xy in
  let _B := BLEND32 0x0F xy (iso_H xy ec) in
  VADD (VSUB BA _B) c.
Definition iso_FH (xy ec c : list Z) : list Z := BLEND32 0x0F (iso_H xy ec) (iso_FG xy ec c).
Definition iso_EG (xy ec c : list Z) : list Z := BLEND32 0x0F (iso_FG xy ec c) ec.
(** isogeny_2w_H0H8, :650-685 *)
Definition isogeny_2w (P : point2) : point2 :=
  let (XY, TZ) := P in
  let EC := vmap (PERM64 0xEE) TZ in
  let XY := intsqr448_2w st0 XY in
  let TZ := intmul448_2w st0 TZ EC in
  let EC := add448_2w st0 TZ TZ in
  let _FH := vmap3 iso_FH XY EC CONST_2_to_35P_ED448 in
  let EG := vmap3 iso_EG XY EC CONST_2_to_35P_ED448 in
  let (_FH, EG) := compress2448_2w st0 _FH EG in
  let HF := vmap (PERM64 0x4E) _FH in
  compress2448_2w st0 (intmul448_2w st0 _FH EG) (intmul448_2w st0 HF _FH).

(** point_multiplication_fold4w4, :704-742; K0, S0 are the uninitialised arrays *)
Definition first_point448 (P : precmp) : point4 :=
  let X := sub448_4w st0 (addYX P) (subYX P) in
  let Y := add448_4w st0 (addYX P) (subYX P) in
  let X := compress448_4w st0 X in
  let Y := compress448_4w st0 Y in
  let T := mul448_4w st0 X Y in
  let T := mul448_4w st0 T one_half448_4w in
  mkpt X Y (bcast 2 ++ skipn 4 (zero448_4w st0)) T.
Definition point_multiplication448 (K0 S0 r : list Z) : point2 :=
  let (K, S) := recode_fold4w4_448 K0 S0 r in
  let Q := first_point448 (query_table448 (four_at S 0) (four_at K 0) 0) in
  let Q := fold_left (fun Q i => mixadd448_4way Q (query_table448 (four_at S i) (four_at K i) i)) (seq 1 27) Q in
  isogeny_2w (join_points448 Q).
(** fixed_point_multiplication_ed448, :757-761 *)
Definition fixed_point_multiplication448 (K0 S0 r : list Z) : point2 := point_multiplication448 K0 S0 (div4 st0 junk r).

(** ** point_decoding_ed448, :771-879 *)
(** u[0] = u[0] - 1, :805-806, on 64-bit words *)
Definition minus_one (u : list Z) : list Z := match u with x :: u => wsub x 1 :: u | [] => [] end.
(** :799-832: the return value, X and Y *)
Definition decode_xy448 (A : list Z) : Z * list Z * list Z :=
  let bit_X := nth 56 A 0 / 2 ^ 7 in
  let Y := unser448_1w st0 (firstn 56 A) in
  let u := sqr448_1w st0 Y in
  let v := mul448_1w st0 u param_curve_d448 in
  let u := minus_one u in
  let v := minus_one v in
  let uv := mul448_1w st0 u v in
  let u2 := sqr448_1w st0 u in
  let v2 := sqr448_1w st0 v in
  let u3v := mul448_1w st0 uv u2 in
  let u5v := mul448_1w st0 u3v u2 in
  let u5v3 := mul448_1w st0 u5v v2 in
  let u5v3_exp := srt448_1w st0 u5v3 in
  let X := mul448_1w st0 u3v u5v3_exp in
  let uv := sqr448_1w st0 X in
  let uv := mul448_1w st0 uv v in
  if negb (cmp448_1w st0 uv u =? 0) then (-1, X, Y)
  else if bit_X =? Z.land (nth 0 X 0) 1 then (0, X, Y)
  else (0, compressfast448_1w st0 (neg448_1w st0 X), Y).
(** :845-868: a, b, c, d and X, Y, Z, T *)
Definition to_isogenous (X Y : list Z) : point4 :=
  let a := add448_1w st0 X X in
  let a := mul448_1w st0 a Y in
  let a := neg448_1w st0 a in
  let a := compressfast448_1w st0 a in
  let X := sqr448_1w st0 X in
  let Y := sqr448_1w st0 Y in
  let b := add448_1w st0 Y X in
  let b := new_compressfast448_1w st0 b in
  let c := sub448_1w st0 Y X in
  let c := new_compressfast448_1w st0 c in
  let d := neg448_1w st0 b in
  let d := match d with x :: d => wadd x 2 :: d | [] => [] end in
  let d := compressfast448_1w st0 d in
  mkpt (mul448_1w st0 a d) (mul448_1w st0 b c) (mul448_1w st0 c d) (mul448_1w st0 a b).
(** The return value and P_4w->XYTZ (the library passes NULL for P_2w) *)
Definition point_decoding448 (A : list Z) : Z * list Z :=
  let '(ret, X, Y) := decode_xy448 A in
  let P := to_isogenous X Y in
  (ret, zip448_4w st0 (cX P) (cY P) (cT P) (cZ P)).

(** ** Double-base multiplication, four lanes *)
(** The table entry of a point, :1143-1150 (and :1152-1159, :1163-1170) *)
Definition table_entry448 (P : list Z) : list Z :=
  let t := intmul448_4w st0 P CONST_1_1_2d_2_448 in
  compress448_4w st0 (vmap3 subadd_body t P CONST_2P448_000).
(** The loop :1161-1171 *)
Fixpoint more_entries448 (num : nat) (iP P2 : list Z) : list (list Z) :=
  match num with
  | O => []
  | Datatypes.S num => let iP := mixadd448_4w iP P2 in table_entry448 iP :: more_entries448 num iP P2
  end.
(** precompute_points_4w_ed448, :1102-1172 with OMEGA_DYNAMIC = 5; the argument P, which is doubled in place, is not used afterwards. *)
Definition precompute_points448_4w (P : list Z) : list (list Z) :=
  let iP := P in
  let P := doubling448_4w P in
  let P2 := table_entry448 P in
  table_entry448 iP :: more_entries448 7 iP P2.
(** read_point_4w_ed448, :1174-1199; the index is an int8_t *)
Definition read_point448_4w (index : Z) : list Z :=
  let n := Z.to_nat (Z.abs index / 2) in
  let part c := unser448_1w st0 (bytes_of (firstn 7 (skipn (21 * n + 7 * c) TableVerif_static_w7_Ed448))) in
  let add := part 0%nat in
  let sub := part 1%nat in
  let dT := part 2%nat in
  if index <? 0 then
    let dT := neg448_1w st0 dT in
    let dT := compress448_1w st0 dT in
    zip448_4w st0 add sub dT two448_1w
  else zip448_4w st0 sub add dT two448_1w.
(** unzip_2w_Element_4w_h0h8, :1201-1209 *)
Definition unzip448_2w_4w (A : list Z) : point2 := unzip_2w_4w A.
(** The two additions of an iteration, :1246-1267, as the list of precomputed points to be added *)
Definition dyn_point448 (tableA : list (list Z)) (d : Z) : list Z :=
  let P := nth (Z.to_nat (Z.abs d / 2)) tableA [] in
  if d <? 0 then compressfast448_4w st0 (ngz448_4w st0 P) else P.
Definition to_add448 (tableA : list (list Z)) (dr dh : Z) : list (list Z) :=
  (if dr =? 0 then [] else [read_point448_4w dr]) ++ (if dh =? 0 then [] else [dyn_point448 tableA dh]).
(** The loop :1243-1268 for i from n-1 down to 0 *)
Fixpoint double_loop448 (tableA : list (list Z)) (wr wh : list Z) (n : nat) (Q : list Z) : list Z :=
  match n with
  | O => Q
  | Datatypes.S n =>
    let Q := doubling448_4w Q in
    let Q := fold_left mixadd448_4w (to_add448 tableA (nth n wr 0) (nth n wh 0)) Q in
    double_loop448 tableA wr wh n Q
  end.
(** Q.XYTZ before the loop, :1240-1241 *)
Definition neutral448_4w : list Z := [0; 1; 0; 1] ++ skipn 4 (zero448_4w st0).
(** double_point_mult_4w_ed448, :1211-1273; [None]: a recoding needs more than the 460 digits of its buffer. *)
Definition double_point_mult448_4w (s h A : list Z) : option (list Z) :=
  match wnaf_448bits st0 460 (div4 st0 junk s) 7, wnaf_448bits st0 460 (div4 st0 junk h) 5 with
  | Some wr, Some wh =>
    let tableA := precompute_points448_4w A in
    let Q := double_loop448 tableA wr wh (Nat.max (length wr) (length wh)) neutral448_4w in
    Some (point_encoding448 (isogeny_2w (unzip448_2w_4w Q)))
  | _, _ => None
  end.
End Ed448.
