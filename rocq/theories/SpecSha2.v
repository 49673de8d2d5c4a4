(** SHA-512 as FIPS 180-4 describes it, for messages that are lists of bytes.  Nothing here
    comes from the code of the library; the constants are computed from their definition. *)
From Coq Require Import ZArith List Bool.
Import ListNotations.
Open Scope Z_scope.

Definition word_size : Z := 2 ^ 64.
(** Big-endian value of a byte string and the big-endian string of n bytes *)
Definition be_val (b : list Z) : Z := fold_left (fun v x => 256 * v + x) b 0.
Fixpoint be_bytes (n : nat) (x : Z) : list Z :=
  match n with O => [] | S n => be_bytes n (x / 256) ++ [x mod 256] end.
(** Sections 2.2.2 and 4.1.3 *)
Definition ROTR (n x : Z) : Z := x / 2 ^ n + (x mod 2 ^ n) * 2 ^ (64 - n).
Definition SHR (n x : Z) : Z := x / 2 ^ n.
Definition Ch (x y z : Z) : Z := Z.lxor (Z.land x y) (Z.land (Z.lnot x) z).
Definition Maj (x y z : Z) : Z := Z.lxor (Z.lxor (Z.land x y) (Z.land x z)) (Z.land y z).
Definition Sigma0 (x : Z) : Z := Z.lxor (Z.lxor (ROTR 28 x) (ROTR 34 x)) (ROTR 39 x).
Definition Sigma1 (x : Z) : Z := Z.lxor (Z.lxor (ROTR 14 x) (ROTR 18 x)) (ROTR 41 x).
Definition sigma0 (x : Z) : Z := Z.lxor (Z.lxor (ROTR 1 x) (ROTR 8 x)) (SHR 7 x).
Definition sigma1 (x : Z) : Z := Z.lxor (Z.lxor (ROTR 19 x) (ROTR 61 x)) (SHR 6 x).
(** Sections 4.2.3 and 5.3.5: the first 64 bits of the fractional parts of the cube roots of the
    first 80 primes and of the square roots of the first 8 primes.  root k n is the integer
    k-th root of n, found by bisection. *)
Fixpoint bisect (fuel : nat) (k n lo hi : Z) : Z :=
  match fuel with
  | O => lo
  | S f => let m := (lo + hi) / 2 in if m ^ k <=? n then bisect f k n m hi else bisect f k n lo m
  end.
Definition root (k n : Z) : Z := bisect 80 k n 0 (2 ^ 80).
Definition is_prime (n : Z) : bool :=
  (2 <=? n) && forallb (fun d => negb (n mod d =? 0)) (map Z.of_nat (seq 2 (Z.to_nat n - 2))).
Definition primes_below (n : nat) : list Z := filter is_prime (map Z.of_nat (seq 0 n)).
Definition frac_root (k p : Z) : Z := root k (p * 2 ^ (64 * k)) mod word_size.
Definition K_fips : list Z := map (frac_root 3) (primes_below 410).
Definition H0_fips : list Z := map (frac_root 2) (primes_below 20).
(** Section 5.1.2: append the bit 1, zeros up to 896 modulo 1024 bits, and the bit length on 128 bits *)
Definition pad (m : list Z) : list Z :=
  let l := length m in
  m ++ [128] ++ repeat 0 (Z.to_nat ((111 - Z.of_nat l) mod 128)) ++ be_bytes 16 (8 * Z.of_nat l).
(** Section 6.4.2, step 1: the message schedule of a block of 16 words *)
Fixpoint W_fuel (fuel : nat) (M : list Z) (t : nat) : Z :=
  match fuel with
  | O => 0
  | S f =>
    if (t <? 16)%nat then nth t M 0
    else (sigma1 (W_fuel f M (t - 2)) + W_fuel f M (t - 7) + sigma0 (W_fuel f M (t - 15)) + W_fuel f M (t - 16)) mod word_size
  end.
Definition W_fips (M : list Z) (t : nat) : Z := W_fuel (t + 1) M t.
(** Section 6.4.2, step 3: one step, with the working variables a to h in a list *)
Definition round_fips (Kt Wt : Z) (v : list Z) : list Z :=
  let x i := nth i v 0 in
  let T1 := (x 7%nat + Sigma1 (x 4%nat) + Ch (x 4%nat) (x 5%nat) (x 6%nat) + Kt + Wt) mod word_size in
  let T2 := (Sigma0 (x 0%nat) + Maj (x 0%nat) (x 1%nat) (x 2%nat)) mod word_size in
  [(T1 + T2) mod word_size; x 0%nat; x 1%nat; x 2%nat; (x 3%nat + T1) mod word_size; x 4%nat; x 5%nat; x 6%nat].
Fixpoint rounds_fips (n t : nat) (M v : list Z) : list Z :=
  match n with O => v | S n => rounds_fips n (t + 1) M (round_fips (nth t K_fips 0) (W_fips M t) v) end.
(** The 16 words of a block of 128 bytes; step 4: the new hash value *)
Definition block_words (b : list Z) : list Z := map (fun i => be_val (firstn 8 (skipn (8 * i) b))) (seq 0 16).
Definition compress (h b : list Z) : list Z :=
  let v := rounds_fips 80 0 (block_words b) h in
  map (fun i => (nth i h 0 + nth i v 0) mod word_size) (seq 0 8).
(** The blocks of 128 bytes, and the digest *)
Fixpoint hash_blocks (n : nat) (h b : list Z) : list Z :=
  match n with O => h | S n => hash_blocks n (compress h (firstn 128 b)) (skipn 128 b) end.
Definition SHA512_fips (m : list Z) : list Z :=
  let b := pad m in flat_map (be_bytes 8) (hash_blocks (length b / 128) H0_fips b).
