(** Point decompression and the double-base multiplication of Ed25519 verification, /repo/src/edwards255.c:1085-1139, :1427-1570. *)
From Coq Require Import ZArith List Bool.
From Verif Require Import Uop Engine Bytes X86 Asm25519 Fp25519Full Simd Simd255 Fp25519Red Scalar Ladder Edwards255 Verify255 Recode Table255 Fixed255.
Import ListNotations.
Open Scope Z_scope.

(** param_curve_d, :1089-1094 *)
Definition param_curve_d : list Z := [0x75eb4dca135978a3; 0x00700a4d4141d8ab; 0x8cc740797779e898; 0x52036cee2b6ffe73].
(** one, :1096-1099 *)
Definition one_words : list Z := [1; 0; 0; 0].
Section Decode.
Variable st0 : store.
Variable k : cpu.
Variable sky : bool.
(** The affine coordinates computed by point_decoding_ed25519, :1099-1126: X, Y, T *)
Definition decode_xy (A : list Z) : list Z * list Z :=
  let bit_X := nth 31 A 0 / 2 ^ 7 in
  let u := words_of 4 A in
  let u := firstn 3 u ++ [Z.land (nth 3 u 0) (2 ^ 63 - 1)] in
  let Y := u in
  let u := sqr st0 k u in
  let v := mul st0 k u param_curve_d in
  let u := sub st0 u one_words in
  let v := add st0 k v one_words in
  let X := fst (invsqrt st0 k u v) in
  let X := modp st0 X in
  let X := if bit_X =? Z.land (nth 0 X 0) 1 then neg st0 X else X in
  (X, Y).
(** point_decoding_ed25519, :1085-1139: the return value, P_4w->XYTZ and P_2w.  Both pointers are given; the library passes NULL for P_2w. *)
Definition point_decoding (A : list Z) : Z * list Z * point2 :=
  let (X, Y) := decode_xy A in
  let T := mul st0 k X Y in
  let XX := unser_1w st0 (bytes_of X) in
  let YY := unser_1w st0 (bytes_of Y) in
  let TT := unser_1w st0 (bytes_of T) in
  let ONE := unser_1w st0 (bytes_of one_words) in
  (0, zip_4w st0 XX YY TT ONE, (inter_2w st0 XX YY, inter_2w st0 TT ONE)).

(** CONST_param_curve_1_1_2d_02, :1428-1434 *)
Definition limbs_2d : list Z := [
  0x2b2f159; 0x0f3d130; 0x1a6e509; 0x3407977; 0x22add7a; 0x19ce331; 0x0d4141d; 0x1c56dff; 0x0038052; 0x0901b67].
Definition CONST_1_1_2d_2 : list Z := [1; 1; 0x2b2f159; 2] ++ concat (map (fun c => [0; 0; c; 0]) (tl limbs_2d)).
(** The table entry of a point, :1455-1462 (and :1464-1471, :1475-1482) *)
Definition table_entry (P : list Z) : list Z :=
  let t := intmul_4w st0 P CONST_1_1_2d_2 in
  compress_4w st0 (vmap3 subadd_body t P CONST_2P_000).
(** The loop :1473-1483: the entries after iP, num of them *)
Fixpoint more_entries (num : nat) (iP P2 : list Z) : list (list Z) :=
  match num with
  | O => []
  | S num => let iP := mixadd_4w st0 iP P2 in table_entry iP :: more_entries num iP P2
  end.
(** precompute_points_4w_ed25519, :1427-1484 with OMEGA_DYNAMIC = 5; the argument P, which is doubled in place, is not used afterwards. *)
Definition precompute_points_4w (P : list Z) : list (list Z) :=
  let iP := P in
  let P := doubling_4w st0 P in
  let P2 := table_entry P in
  table_entry iP :: more_entries 7 iP P2.
(** read_point_4w_ed25519, :1486-1509; the index is an int8_t *)
Definition two_1w : list Z := [2; 0; 0; 0; 0; 0; 0; 0; 0; 0].
Definition read_point_4w (index : Z) : list Z :=
  let n := Z.to_nat (Z.abs index / 2) in
  let part c := unser_1w st0 (bytes_of (firstn 4 (skipn (12 * n + 4 * c) TableVerif_static_w7_Ed25519))) in
  let add := part 0%nat in
  let sub := part 1%nat in
  let dT := part 2%nat in
  if index <? 0 then
    let dT := neg_1w st0 dT in
    let dT := compress_1w st0 dT in
    zip_4w st0 add sub dT two_1w
  else zip_4w st0 sub add dT two_1w.
(** unzip_2w_Element_4w_h0h5, :1511-1519 *)
Definition unzip_2w_4w (A : list Z) : point2 :=
  (unpack_with (fun a b => PERM128 0x20 (UPKL64 a b) (UPKH64 a b)) A, unpack_with (fun a b => PERM128 0x31 (UPKL64 a b) (UPKH64 a b)) A).
(** The two additions of an iteration, :1545-1565, as the list of precomputed points to be added *)
Definition dyn_point (tableA : list (list Z)) (d : Z) : list Z :=
  let P := nth (Z.to_nat (Z.abs d / 2)) tableA [] in
  if d <? 0 then compressfast_4w st0 (ngz_4w st0 P) else P.
Definition to_add (tableA : list (list Z)) (dr dh : Z) : list (list Z) :=
  (if dr =? 0 then [] else [read_point_4w dr]) ++ (if dh =? 0 then [] else [dyn_point tableA dh]).
(** The loop :1543-1566 for i from n-1 down to 0 *)
Fixpoint double_loop (tableA : list (list Z)) (wr wh : list Z) (n : nat) (Q : list Z) : list Z :=
  match n with
  | O => Q
  | S n =>
    let Q := doubling_4w st0 Q in
    let Q := fold_left (mixadd_4w st0) (to_add tableA (nth n wr 0) (nth n wh 0)) Q in
    double_loop tableA wr wh n Q
  end.
(** Q.XYTZ before the loop, :1540-1541 *)
Definition neutral_4w : list Z := [0; 1; 0; 1] ++ skipn 4 (zero_4w st0).
(** double_point_mult_4w_ed25519, :1521-1570; [None]: a recoding needs more than the 260 digits of its buffer. *)
Definition double_point_mult_4w (s h A : list Z) : option (list Z) :=
  match wnaf_256bits st0 260 s 7, wnaf_256bits st0 260 h 5 with
  | Some wr, Some wh =>
    let tableA := precompute_points_4w A in
    let Q := double_loop tableA wr wh (Nat.max (length wr) (length wh)) neutral_4w in
    Some (point_encoding st0 k (unzip_2w_4w Q))
  | _, _ => None
  end.
(** Not part of the code: the operands (Q, P) of the mixed additions performed by a call of double_point_mult_4w, in order. *)
Fixpoint entries_ops (num : nat) (iP P2 : list Z) : list (list Z * list Z) :=
  match num with O => [] | S num => (iP, P2) :: entries_ops num (mixadd_4w st0 iP P2) P2 end.
Fixpoint fold_ops (es : list (list Z)) (Q : list Z) : list (list Z * list Z) :=
  match es with [] => [] | e :: es => (Q, e) :: fold_ops es (mixadd_4w st0 Q e) end.
Fixpoint loop_ops (tableA : list (list Z)) (wr wh : list Z) (n : nat) (Q : list Z) : list (list Z * list Z) :=
  match n with
  | O => []
  | S n =>
    let Q := doubling_4w st0 Q in
    let es := to_add tableA (nth n wr 0) (nth n wh 0) in
    fold_ops es Q ++ loop_ops tableA wr wh n (fold_left (mixadd_4w st0) es Q)
  end.
Definition mixed_additions (s h A : list Z) : list (list Z * list Z) :=
  match wnaf_256bits st0 260 s 7, wnaf_256bits st0 260 h 5 with
  | Some wr, Some wh =>
    entries_ops 7 A (table_entry (doubling_4w st0 A)) ++ loop_ops (precompute_points_4w A) wr wh (Nat.max (length wr) (length wh)) neutral_4w
  | _, _ => []
  end.
End Decode.
