(** Scalar arithmetic of Ed448, /repo/src/edwards448.c and /repo/src/sign448.c. *)
From Coq Require Import ZArith List Bool.
From Verif Require Import Uop Engine Bytes Scalar.
Import ListNotations.
Open Scope Z_scope.

Section Model.
Variable st0 : store.
(** constants ellx4, ell, edwards448.c:39-40 *)
Definition ellx4 : list Z := [0x721cf5b5529eec34; 0x7a4cf635c8e9c2ab; 0xeec492d944a725bf; 0x20cd77058].
Definition ell448w : list Z := [0xdc873d6d54a7bb0d; 0xde933d8d723a70aa; 0x3bb124b65129c96f; 0x08335dc16].
(** The loop of :61-65 and :67-71: bytes 56..113 of product go to bytes 0..57 of high and are cleared. *)
Definition move_high (high product : list Z) : list Z * list Z :=
  let pb := bytes_of product in
  (words_of 8 (firstn 58 (skipn 56 pb) ++ skipn 58 (bytes_of high)),
   words_of 15 (firstn 56 pb ++ repeat 0 58 ++ skipn 114 pb)).
(** modular_reduction_ed448, edwards448.c:37-85, on a buffer of 114 bytes;
    [junk] is the content of the two words of product that are never initialised. *)
Definition modular_reduction_ed448 (junk a : list Z) : list Z :=
  let high := words_of 8 (firstn 58 (skipn 56 a) ++ repeat 0 6) in
  let product := words_of 7 (firstn 56 a) ++ repeat 0 6 ++ junk in
  let product := word64_multiplier st0 product ellx4 high in
  let (high, product) := move_high high product in
  let product := word64_multiplier st0 product ellx4 (firstn 4 high) in
  let (high, product) := move_high high product in
  let product := word64_multiplier st0 product ellx4 (firstn 1 high) in
  let q := nth 6 product 0 / 2 ^ 62 in
  let product := firstn 6 product ++ Z.land (nth 6 product 0) (2 ^ 62 - 1) :: skipn 7 product in
  let product := word64_multiplier st0 product ell448w [q] in
  firstn 56 (bytes_of product) ++ repeat 0 58.
(** div4, edwards448.c:94-118: 57 bytes out of a 56-byte number *)
Definition ifour : list Z :=
  [0x48de30a4aad6113d; 0x085b309ca37163d5; 0x7113b6d26bb58da4; 0xffffffffdf3288fa;
   0xffffffffffffffff; 0xffffffffffffffff; 0x0fffffffffffffff].
Definition div4 (junk number : list Z) : list Z :=
  let product := word64_multiplier st0 (repeat 0 16) ifour (words_of 7 (firstn 56 number)) in
  firstn 56 (modular_reduction_ed448 junk (firstn 114 (bytes_of product))) ++ [0].
(** calculate_s_ed448, sign448.c:72-95 *)
Definition calculate_s_ed448 (junk r h a : list Z) : list Z :=
  let product := words_of 7 (firstn 56 r) ++ repeat 0 9 in
  let product := word64_multiplier st0 product (words_of 7 (firstn 56 h)) (words_of 7 (firstn 56 a)) in
  firstn 56 (modular_reduction_ed448 junk (firstn 114 (bytes_of product))) ++ [0].
End Model.
