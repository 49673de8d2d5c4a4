(** hash_to_field_2w of /repo/src/hash255.c: the two field elements of h2c25519_avx2. *)
From Coq Require Import ZArith List.
From Verif Require Import Uop Engine Bytes Sign255 Sha512 Sha512x2 Hash255.
Import ListNotations.
Open Scope Z_scope.
(** src/hash255.c:38-61.  mlen + 1 is a size_t; the parameter message_length_bytes of sha512_2w_avx is an unsigned int (multi_hash.h:79).
    [block] is the uninitialised array of sha512_2w_avx; the two allocations are taken to succeed. *)
Definition hash_to_field_2w (st : store) (block : list vec) (msg : list Z) : list Z * list Z :=
  let mlen1 := (Z.of_nat (length msg) + 1) mod 2 ^ 64 in
  let d := sha512_2w_avx block (0 :: msg) (1 :: msg) (mlen1 mod 2 ^ 32) in
  (words_of 4 (reduced_digest st (fst d)), words_of 4 (reduced_digest st (snd d))).
