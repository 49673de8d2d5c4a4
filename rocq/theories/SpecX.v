(** Specification of the Diffie-Hellman functions X25519 and X448, written from
    RFC 7748, section 5.  Plain integers only. *)
From Coq Require Import ZArith List Bool.
Import ListNotations.
Open Scope Z_scope.

Section RFC7748.
Variables (p a24 : Z).
Definition cswap (swap : bool) (x y : Z) : Z * Z := if swap then (y, x) else (x, y).
(** The body of the loop for bit t of k. *)
Definition rfc_step (k x1 : Z) (s : Z * Z * Z * Z * bool) (t : nat) : Z * Z * Z * Z * bool :=
  let '(x2, z2, x3, z3, swap) := s in
  let kt := Z.testbit k (Z.of_nat t) in
  let swap := xorb swap kt in
  let (x2, x3) := cswap swap x2 x3 in
  let (z2, z3) := cswap swap z2 z3 in
  let swap := kt in
  let A := x2 + z2 in
  let AA := A ^ 2 in
  let B := x2 - z2 in
  let BB := B ^ 2 in
  let E := AA - BB in
  let C := x3 + z3 in
  let D := x3 - z3 in
  let DA := D * A in
  let CB := C * B in
  let x3 := (DA + CB) ^ 2 in
  let z3 := x1 * (DA - CB) ^ 2 in
  let x2 := AA * BB in
  let z2 := E * (AA + a24 * E) in
  (x2 mod p, z2 mod p, x3 mod p, z3 mod p, swap).
(** The loop for t = bits-1 down to 0, the final swap and the quotient. *)
Definition rfc_ladder (bits : nat) (k u : Z) : Z :=
  let '(x2, z2, x3, z3, swap) := fold_left (rfc_step k u) (rev (seq 0 bits)) (1, 0, u, 1, false) in
  let (x2, x3) := cswap swap x2 x3 in
  let (z2, z3) := cswap swap z2 z3 in
  (x2 * z2 ^ (p - 2)) mod p.
End RFC7748.

(** decodeScalar25519: clear the low three bits and the high two, set bit 254;
    decodeUCoordinate: ignore bit 255.  Strings are given by the numbers they encode. *)
Definition scalar25519 (k : Z) : Z := 2 ^ 254 + 8 * (k mod 2 ^ 254 / 8).
Definition X25519_spec (k u : Z) : Z :=
  rfc_ladder (2 ^ 255 - 19) 121665 255 (scalar25519 k) (u mod 2 ^ 255).
(** decodeScalar448: clear the low two bits, set bit 447. *)
Definition scalar448 (k : Z) : Z := 2 ^ 447 + 4 * (k mod 2 ^ 447 / 4).
Definition X448_spec (k u : Z) : Z :=
  rfc_ladder (2 ^ 448 - 2 ^ 224 - 1) 39081 448 (scalar448 k) u.
