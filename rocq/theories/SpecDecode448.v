(** Field elements of edwards448 on which the decompression of a public key is proved. *)
From Coq Require Import ZArith List.
From Verif Require Import Bytes SpecEd.
Open Scope Z_scope.

(** y^2 and d y^2: not within 2^422 of a multiple of p, and with low 28 bits other than 0, 1 and 2 *)
Definition regular448 (w : Z) : Prop := 2 ^ 422 < w < p_ed448 - 2 ^ 422 /\ 2 < w mod 2 ^ 28.
Definition regular_y (y : Z) : Prop := regular448 ((y * y) mod p_ed448) /\ regular448 ((d_ed448 * (y * y)) mod p_ed448).
(** x: not within 2^263 of a multiple of p *)
Definition regular_x (x : Z) : Prop := 2 ^ 263 <= x <= p_ed448 - 2 ^ 263.
(** The y-coordinate and the sign bit in 57 bytes, RFC 8032, 5.2.3 *)
Definition coded_y (bs : list Z) : Z := le_val bs mod 2 ^ 448.
Definition coded_sign (bs : list Z) : Z := le_val bs / 2 ^ 455.
(** The limbs of x in radix 2^28, and x without small limbs *)
Definition limb_of (x : Z) (i : nat) : Z := (x / 2 ^ (28 * Z.of_nat i)) mod 2 ^ 28.
Definition spread_x (x : Z) : Prop := forall i, (i < 16)%nat -> 2 ^ 12 <= limb_of x i.
