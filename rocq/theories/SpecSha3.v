(** SHAKE128 and SHAKE256 as FIPS 202 describes them, for messages and outputs that are lists of
    bytes (section B.2 gives the padding on bytes).  The state is a list of 200 bytes; the lane
    (x, y) of section 3.1.2 is the little-endian value of the bytes 8 (5 y + x) to 8 (5 y + x) + 7.
    Nothing here comes from the code of the library; the constants are computed. *)
From Coq Require Import ZArith List Bool.
From Verif Require Import Bytes.
Import ListNotations.
Open Scope Z_scope.

Fixpoint le_bytes (n : nat) (x : Z) : list Z :=
  match n with O => [] | S n => x mod 256 :: le_bytes n (x / 256) end.
Definition lanes_of (b : list Z) : list Z := map (fun i => le_val (firstn 8 (skipn (8 * i) b))) (seq 0 25).
Definition bytes_of_lanes (l : list Z) : list Z := flat_map (le_bytes 8) l.
(** Lane (x, y), the coordinates being taken modulo 5, and the list of 25 lanes given by a function of the coordinates *)
Definition lane (A : list Z) (x y : nat) : Z := nth (5 * (y mod 5) + x mod 5) A 0.
Definition build (f : nat -> nat -> Z) : list Z := map (fun i => f (i mod 5)%nat (i / 5)%nat) (seq 0 25).
(** Rotation of a lane by n positions towards the high bits *)
Definition ROT (x n : Z) : Z := (x * 2 ^ n) mod 2 ^ 64 + x / 2 ^ (64 - n).
(** 3.2.1 *)
Definition theta (A : list Z) : list Z :=
  let C x := Z.lxor (Z.lxor (Z.lxor (Z.lxor (lane A x 0) (lane A x 1)) (lane A x 2)) (lane A x 3)) (lane A x 4) in
  let D x := Z.lxor (C (x + 4)%nat) (ROT (C (x + 1)%nat) 1) in
  build (fun x y => Z.lxor (lane A x y) (D x)).
(** 3.2.2: the offset of the lane reached after t steps from (1, 0) is (t + 1)(t + 2)/2 *)
Fixpoint rho_offset (fuel : nat) (t : Z) (u v x y : nat) : Z :=
  match fuel with
  | O => 0
  | S f => if ((u =? x) && (v =? y))%nat then ((t + 1) * (t + 2) / 2) mod 64
           else rho_offset f (t + 1) v ((2 * u + 3 * v) mod 5) x y
  end.
Definition offset (x y : nat) : Z := rho_offset 24 0 1 0 x y.
Definition rho (A : list Z) : list Z := build (fun x y => ROT (lane A x y) (offset x y)).
(** 3.2.3 *)
Definition pi_step (A : list Z) : list Z := build (fun x y => lane A (x + 3 * y) x).
(** 3.2.4 *)
Definition chi (A : list Z) : list Z :=
  build (fun x y => Z.lxor (lane A x y) (Z.land (Z.lxor (lane A (x + 1) y) (2 ^ 64 - 1)) (lane A (x + 2) y))).
(** 3.2.5, algorithm 5: rc(t) by the feedback register R, and the constants RC *)
Definition rc_step (R : list bool) : list bool :=
  match R with
  | [r0; r1; r2; r3; r4; r5; r6; r7] =>
      (* 0 || R has r7 as its bit 8 *)
      [xorb false r7; r0; r1; r2; xorb r3 r7; xorb r4 r7; xorb r5 r7; r6]
  | _ => R
  end.
Definition rc (t : nat) : bool := nth 0 (Nat.iter (t mod 255) rc_step [true; false; false; false; false; false; false; false]) false.
Definition RC (ir : nat) : Z :=
  fold_left (fun a j => if rc (j + 7 * ir) then a + 2 ^ (2 ^ Z.of_nat j - 1) else a) (seq 0 7) 0.
Definition iota (ir : nat) (A : list Z) : list Z :=
  build (fun x y => if ((x =? 0) && (y =? 0))%nat then Z.lxor (lane A 0 0) (RC ir) else lane A x y).
(** 3.3: the permutation, 24 rounds *)
Definition Rnd (ir : nat) (A : list Z) : list Z := iota ir (chi (pi_step (rho (theta A)))).
Fixpoint rounds (n ir : nat) (A : list Z) : list Z :=
  match n with O => A | S n => rounds n (ir + 1) (Rnd ir A) end.
Definition keccak_f (b : list Z) : list Z := bytes_of_lanes (rounds 24 0 (lanes_of b)).
(** Bitwise sum of a state and a shorter block followed by zeros *)
Fixpoint xor_into (s b : list Z) : list Z :=
  match s, b with
  | x :: s, y :: b => Z.lxor x y :: xor_into s b
  | s, _ => s
  end.
(** Section 4, with a rate of r bytes: absorb n blocks, squeeze d bytes *)
Fixpoint absorb (r n : nat) (s p : list Z) : list Z :=
  match n with O => s | S n => absorb r n (keccak_f (xor_into s (firstn r p))) (skipn r p) end.
Definition squeeze (r d : nat) (s : list Z) : list Z :=
  firstn d (flat_map (fun i => firstn r (Nat.iter i keccak_f s)) (seq 0 (d / r + 1))).
(** The suffix 1111 and pad10*1, B.2: 1F 00 ... 00 80, or 9F when only one byte is missing *)
Definition shake_pad (r : nat) (m : list Z) : list Z :=
  let q := (r - length m mod r)%nat in
  m ++ (if (q =? 1)%nat then [0x9F] else [0x1F] ++ repeat 0 (q - 2) ++ [0x80]).
Definition shake (r : nat) (m : list Z) (d : nat) : list Z :=
  let p := shake_pad r m in squeeze r d (absorb r (length p / r) (repeat 0 200) p).
Definition SHAKE256_fips (m : list Z) (d : nat) : list Z := shake 136 m d.
Definition SHAKE128_fips (m : list Z) (d : nat) : list Z := shake 168 m d.
