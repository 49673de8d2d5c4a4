(** X448 key generation, /repo/src/ladder448.c:294-341. *)
From Coq Require Import ZArith List.
From Verif Require Import Uop Engine Bytes Fp25519Red Fp448Red Ladder Edwards255 Edwards448.
Import ListNotations.
Open Scope Z_scope.

Section Keygen.
Variable st0 : store.
Variables junk K0 S0 : list Z.
(** point_Edwards2Montgomery_ed448, :294-305 *)
Definition point_Edwards2Montgomery448 (P : point2) : list Z :=
  let (X, Y) := deinter448_2w st0 (fst P) in
  let inv_X := inv448_1w st0 X in
  let X := mul448_1w st0 Y inv_X in
  let X := sqr448_1w st0 X in
  ser448_1w st0 X.
(** x448_keygen_avx2, :324-341; junk, K0 and S0 are uninitialised words of the multiplication.  The clamping, :330-332, is that of
    the shared secret.  The multiplication reads 56 bytes of its argument.  The clearing of the copy of the scalar (spc_memset) is
    not modelled. *)
Definition x448_keygen_avx2 (secret_key : list Z) : list Z :=
  let scalar := clamp_bytes448 secret_key in
  let kB := fixed_point_multiplication448 st0 junk K0 S0 scalar in
  point_Edwards2Montgomery448 kB.
End Keygen.
