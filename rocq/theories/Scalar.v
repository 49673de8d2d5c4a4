(** Scalar arithmetic of the signature schemes: the 64-bit schoolbook
    multiplier and the reductions modulo the group orders. *)
From Coq Require Import ZArith List Bool.
From Verif Require Import Uop Engine Bytes X86 AsmSign255 Fp25519Full.
Import ListNotations.
Open Scope Z_scope.

Section Model.
Variable st0 : store.

(** mul64x64, /repo/src/bytestring.c:80-88: the three accumulator words are
    register operands, X and Y are read through pointers. *)
Definition mul64 (z : list Z) (x y : Z) : list Z :=
  call (code (env_of [bC; Pos.add bC 1; Pos.add bC 2; bA; bB]%positive) asm_mul64x64) [(bC, z); (bA, [x]); (bB, [y])] bC 3 st0.
(** C[n..n+2] = r *)
Definition set3 (n : nat) (C r : list Z) : list Z := firstn n C ++ r ++ skipn (n + 3) C.
(** word64_multiplier, /repo/src/bytestring.c:75-96; numA, numB are the lengths of the lists. *)
Definition word64_multiplier (C A B : list Z) : list Z :=
  fold_left (fun C i => fold_left (fun C j =>
    set3 (i + j) C (mul64 (firstn 3 (skipn (i + j) C)) (nth i A 0) (nth j B 0))) (seq 0 (length B)) C) (seq 0 (length A)) C.

(** ** Ed25519, /repo/src/sign255.c *)
(** constant arrays ellx16 :75 and ell :190, stored to the stack before the assembly *)
Definition ellx16 : list Z := [0x812631a5cf5d3ed0; 0x4def9dea2f79cd65; 0x1].
Definition ell2w : list Z := [0x5812631a5cf5d3ed; 0x14def9dea2f79cd6].
Definition store_const (k : nat) (ws : list Z) : list instr :=
  map (fun x => MOV (Im (snd x)) (A k (8 * Z.of_nat (fst x)))) (combine (seq 0 (length ws)) ws).
(** reduce256bits, :74-180, in place on eight words *)
Definition reduce256bits (a : list Z) : list Z :=
  call (code (env_of [bA; bB]) (store_const 1 ellx16 ++ asm_reduce256bits)) [(bA, a)] bA 8 st0.
(** reduce64bits, :189-218, in place on the first four of five words: their new contents *)
Definition reduce64bits (a : list Z) : list Z :=
  call (code (env_of [bA; bB]) (store_const 1 ell2w ++ asm_reduce64bits)) [(bA, a)] bA 4 st0.
(** modular_reduction_ed25519, :227-234, on the eight words of a 64-byte buffer *)
Definition modular_reduction_ed25519 (a : list Z) : list Z :=
  let a := reduce256bits (reduce256bits a) in
  let a4 := Z.lor ((Z.land (nth 4 a 0) 3 * 2 ^ 4) mod W) (nth 3 a 0 / 2 ^ 60) in
  let a3 := Z.land (nth 3 a 0) (2 ^ 60 - 1) in
  reduce64bits (firstn 3 a ++ [a3; a4]) ++ a4 :: skipn 5 a.
(** calculate_s_ed25519, :247-259: the product is accumulated in twelve words,
    the first eight of which are reduced. *)
Definition calculate_s_ed25519 (r k a : list Z) : list Z :=
  let product := word64_multiplier (firstn 4 r ++ repeat 0 8) (firstn 4 k) (firstn 4 a) in
  firstn 4 (modular_reduction_ed25519 (firstn 8 product)).
(** Clamping and reduction of the secret scalar, keygen :276-285 and sign_all:
    az[0] &= -8; az[31] &= 127; az[31] |= 64; word 4 = az[31] >> 4; az[31] &= 15; reduce64bits *)
Definition clamp_bytes255 (az : list Z) : list Z :=
  Z.land (nth 0 az 0) 248 :: firstn 30 (skipn 1 az) ++ [Z.lor (Z.land (nth 31 az 0) 127) 64].
Definition secret_scalar (az : list Z) : list Z :=
  let b := clamp_bytes255 az in
  let a4 := nth 31 b 0 / 2 ^ 4 in
  let b := firstn 31 b ++ [Z.land (nth 31 b 0) 15] in
  reduce64bits (words_of 4 b ++ [a4]).
End Model.
