(** X25519 key generation, /repo/src/ladder255.c:301-359. *)
From Coq Require Import ZArith List.
From Verif Require Import Uop Engine Bytes X86 Asm25519 Fp25519Full Simd Simd255 Fp25519Red Scalar Ladder Edwards255 Fixed255.
Import ListNotations.
Open Scope Z_scope.

(** div_8_256, :326-335 *)
Definition div_8_256 (r : list Z) : list Z :=
  let bit3 := (nth 3 r 0 * 2 ^ 61) mod W in
  let bit2 := (nth 2 r 0 * 2 ^ 61) mod W in
  let bit1 := (nth 1 r 0 * 2 ^ 61) mod W in
  [Z.lor (nth 0 r 0 / 2 ^ 3) bit1; Z.lor (nth 1 r 0 / 2 ^ 3) bit2; Z.lor (nth 2 r 0 / 2 ^ 3) bit3; nth 3 r 0 / 2 ^ 3].
Section Keygen.
Variable st0 : store.
Variable k : cpu.
Variable sky : bool.
(** point_Edwards2Montgomery_ed25519, :301-323 *)
Definition point_Edwards2Montgomery (P : point2) : list Z :=
  let addZY := add_2w st0 (snd P) (fst P) in
  let subZY := sub_2w st0 (snd P) (fst P) in
  let addZY := compress_2w st0 addZY in
  let subZY := compress_2w st0 subZY in
  let t0 := snd (deinter_2w st0 addZY) in
  let t1 := snd (deinter_2w st0 subZY) in
  let add := words_of 4 (ser_1w st0 t0) in
  let sub := words_of 4 (ser_1w st0 t1) in
  let inv_sub := inv st0 k sub in
  let add := mul st0 k add inv_sub in
  ser st0 add.
(** x25519_keygen_avx2, :337-359; K0, S0 are uninitialised arrays of the multiplication.  The clearing of the copy of the
    scalar (spc_memset) is not modelled. *)
Definition x25519_keygen_avx2 (K0 S0 secret_key : list Z) : list Z :=
  let scalar := clamp_bytes255 secret_key in
  let scalar := bytes_of (div_8_256 (words_of 4 scalar)) in
  let kB := point_multiplication st0 sky K0 S0 scalar in
  let kB := doubling_2w st0 sky kB in
  let kB := doubling_2w st0 sky kB in
  let kB := doubling_2w st0 sky kB in
  point_Edwards2Montgomery kB.
End Keygen.
