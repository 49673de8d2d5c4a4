(** Property theorems about the two-way SHA-512 and the two-way hash to the field (C83, C84). *)
From Coq Require Import ZArith List.
From Verif Require Import Uop Engine Bytes SpecSha2 Sha512 HashProps Sha512x2 Hash255 Hash255x2 H2cCase Hash255x2Proofs.
Import ListNotations.
Open Scope Z_scope.

(** [registers block]: the uninitialised array of 80 registers, with any contents. *)

(** ** C83: both digests are SHA-512 of FIPS 180-4 *)
Theorem C83_sha512_2w : forall block m0 m1 len, registers block -> Forall byte m0 -> Forall byte m1 -> 0 <= len < 2 ^ 32 -> len <= Z.of_nat (length m0) -> len <= Z.of_nat (length m1) ->
  sha512_2w_avx block m0 m1 len = (SHA512_fips (firstn (Z.to_nat len) m0), SHA512_fips (firstn (Z.to_nat len) m1)).
Proof. exact sha512_2w_fips. Qed.
Example C83_case : registers (repeat (2 ^ 64 - 1, 7) 80) /\ Forall byte [97; 98; 99] /\ Forall byte [255; 0; 1] /\ 0 <= 3 < 2 ^ 32 /\ 3 <= Z.of_nat (length [97; 98; 99]).
Proof. exact sha_2w_case. Qed.

(** ** C84: the field elements are those of the portable code, up to 2^32 - 2 bytes *)
Theorem C84_equal : forall st block c0 c1 msg, registers block -> clean c0 -> clean c1 -> Forall byte msg -> Z.of_nat (length msg) + 1 < 2 ^ 32 ->
  hash_to_field_2w st block msg = (hash_to_field st c0 0 msg, hash_to_field st c1 1 msg).
Proof. exact field_equal. Qed.
Theorem C84_long : forall st block c0 c1 msg, registers block -> clean c0 -> clean c1 -> Forall byte msg -> Z.of_nat (length msg) + 1 < 2 ^ 64 ->
  0 < (Z.of_nat (length msg) + 1) mod 2 ^ 32 -> let kept := firstn (Z.to_nat ((Z.of_nat (length msg) + 1) mod 2 ^ 32 - 1)) msg in
  hash_to_field_2w st block msg = (hash_to_field st c0 0 kept, hash_to_field st c1 1 kept).
Proof. exact field_long. Qed.
(** All messages of 2^32 - 1 bytes give one and the same pair of equal elements. *)
Theorem C84_refuted : exists msg msg', msg <> msg' /\ Forall byte msg /\ Forall byte msg' /\ Z.of_nat (length msg) = 2 ^ 32 - 1 /\ Z.of_nat (length msg') = 2 ^ 32 - 1 /\
  forall st block, registers block -> hash_to_field_2w st block msg = hash_to_field_2w st block msg' /\ fst (hash_to_field_2w st block msg) = snd (hash_to_field_2w st block msg).
Proof. exact field_refuted. Qed.
Example C84_case : registers (repeat (2 ^ 64 - 1, 7) 80) /\ clean c_zero /\ Forall byte [104; 105] /\ Z.of_nat (length [104; 105]) + 1 < 2 ^ 32.
Proof. exact field_2w_case. Qed.

Definition props_hash2w := (C83_sha512_2w, C83_case, C84_equal, C84_long, C84_refuted, C84_case).
Print Assumptions props_hash2w.
