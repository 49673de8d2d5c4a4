(** Property theorems about the hash functions (C57, C67, C68). *)
From Coq Require Import ZArith List Lia.
From Verif Require Import Bytes SpecSha2 Sha512 Sha512Proofs SpecSha3 Sha3 Sha3Proofs HashProps.
Import ListNotations.
Open Scope Z_scope.

(** ** C57: the pieces do not matter.  [clean c] says that the context has its 128-byte buffer, with any contents. *)
Theorem C57_sha512 : forall c c' pieces pieces', clean c -> clean c' -> Forall (Forall byte) pieces -> Forall (Forall byte) pieces' ->
  concat pieces = concat pieces' -> Z.of_nat (length (concat pieces)) < 2 ^ 64 ->
  fst (sph_sha512_close (sph_sha512_all (sph_sha512_init c) pieces)) = fst (sph_sha512_close (sph_sha512_all (sph_sha512_init c') pieces')).
Proof. exact sha512_pieces. Qed.
Theorem C57_shake256 : forall pieces d, Forall (Forall byte) pieces -> 8 * Z.of_nat (136 + length (concat pieces)) < 2 ^ 64 ->
  Final2 (Update_all (Init 256) pieces) d = SHAKE256 (concat pieces) d.
Proof. exact shake256_pieces. Qed.
Example C57_case : let m := repeat 7%Z 300%nat in Forall (Forall byte) [firstn 1 m; []; skipn 1 m] /\ concat [firstn 1 m; []; skipn 1 m] = concat [m] /\
  Z.of_nat (length (concat [m])) < 2 ^ 64 /\ (128 < length m)%nat.
Proof. exact pieces_case. Qed.

(** ** C67: SHA-512 is the function of FIPS 180-4 *)
Theorem C67_sha512 : forall c pieces, clean c -> Forall (Forall byte) pieces -> Z.of_nat (length (concat pieces)) < 2 ^ 64 ->
  fst (sph_sha512_close (sph_sha512_all (sph_sha512_init c) pieces)) = SHA512_fips (concat pieces) /\ bytes 64 (SHA512_fips (concat pieces)).
Proof. exact sha512_fips. Qed.
(** the digest leaves a context that can be used for another message *)
Theorem C67_again : forall c pieces, clean c -> Forall (Forall byte) pieces -> Z.of_nat (length (concat pieces)) < 2 ^ 64 ->
  forall pieces', Forall (Forall byte) pieces' -> Z.of_nat (length (concat pieces')) < 2 ^ 64 ->
  fst (sph_sha512_close (sph_sha512_all (snd (sph_sha512_close (sph_sha512_all (sph_sha512_init c) pieces))) pieces')) = SHA512_fips (concat pieces').
Proof. exact sha512_again. Qed.
Example C67_case : clean (Ctx (repeat 0 128) [] 0) /\ firstn 8 (SHA512_fips [97; 98; 99]) = [0xdd; 0xaf; 0x35; 0xa1; 0x93; 0x61; 0x7a; 0xba].
Proof. exact abc512. Qed.

(** ** C68: SHAKE256 is the function of FIPS 202 *)
Theorem C68_shake256 : forall m d, Forall byte m -> SHAKE256 m d = SHAKE256_fips m d /\ bytes d (SHAKE256_fips m d).
Proof. exact shake256_fips. Qed.
Theorem C68_incremental : forall pieces d, Forall (Forall byte) pieces -> 8 * Z.of_nat (136 + length (concat pieces)) < 2 ^ 64 ->
  Final2 (Update_all (Init 256) pieces) d = SHAKE256_fips (concat pieces) d.
Proof. exact shake256_chunks. Qed.
Theorem C68_shake128 : forall m d, Forall byte m -> SHAKE128 m d = SHAKE128_fips m d.
Proof. exact shake128_oneshot. Qed.
Example C68_case : SHAKE256_fips [97; 98; 99] 4 = [0x48; 0x33; 0x66; 0x60].
Proof. exact abc_shake. Qed.

Definition hash_properties := (C57_sha512, C57_shake256, C57_case, C67_sha512, C67_again, C67_case, C68_shake256, C68_incremental, C68_shake128, C68_case).
Print Assumptions hash_properties.
