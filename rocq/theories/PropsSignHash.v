(** Property theorems about the signature functions with the library's own hash code (C82).
    Specification: SpecSign.v, SpecSign448.v with SHA512_fips of SpecSha2.v and SHAKE256_fips of SpecSha3.v. *)
From Coq Require Import ZArith List.
From Verif Require Import Uop Engine Bytes SpecSha2 SpecSha3 SpecEd SpecEdVec Sha512 SpecSign SpecSign448 HashProps Sign255 Sign448 Sign255Proofs Sign448Proofs SignHash SignHashProofs.
Import ListNotations.
Open Scope Z_scope.

(** ** C82: the functions hash with SHA-512 and SHAKE256 the strings of RFC 8032 *)
(** Key generation, end to end: the public key of RFC 8032 for every private key. *)
Theorem C82_keygen25519 : forall st k sky K0 S0 c0, length K0 = 67%nat -> length S0 = 67%nat -> clean c0 -> forall sk, bytes 32 sk ->
  fst (ed25519_keygen_sha st k sky K0 S0 c0 sk) = EDDSA_KEYGEN_OK /\ public SHA512_fips sk (snd (ed25519_keygen_sha st k sky K0 S0 c0 sk)).
Proof. exact keygen_sha_rfc. Qed.
(** Signing, end to end: the call succeeds and R is that of RFC 8032. *)
Theorem C82_R25519 : forall st k sky K0 S0 c0 c1, length K0 = 67%nat -> length S0 = 67%nat -> clean c0 -> clean c1 -> forall m sig M pk sk,
  Forall byte M -> Z.of_nat (length M) <= 2 ^ 64 - 1000 -> bytes 32 pk -> bytes 32 sk -> Forall byte (context_of m) -> (length (context_of m) <= 255)%nat ->
  let out := sign_sha st k sky K0 S0 c0 c1 m sig M pk sk in
  fst out = EDDSA_SIGNATURE_OK /\ bytes 64 (snd out) /\ encodes255 (firstn 32 (snd out)) (mul255 (nonce SHA512_fips m sk M) B_ed255).
Proof. exact sign_sha_R. Qed.
(** Every result about signing and verification with an arbitrary hash function (C48-C53, C64, C66) holds with SHA-512 for the hash code of the library. *)
Theorem C82_sign25519 : forall st k sky K0 S0 c0 c1, length K0 = 67%nat -> length S0 = 67%nat -> clean c0 -> clean c1 -> forall m sig M pk sk,
  Forall byte M -> Z.of_nat (length M) <= 2 ^ 64 - 1000 -> Forall byte (context_of m) -> bytes 32 pk -> bytes 32 sk ->
  sign_sha st k sky K0 S0 c0 c1 m sig M pk sk = sign_with st k sky K0 S0 SHA512_fips m sig M pk sk.
Proof. exact sign_sha_with. Qed.
Theorem C82_verify25519 : forall st k c0 c1, clean c0 -> clean c1 -> forall m M pk sig,
  Forall byte M -> Z.of_nat (length M) <= 2 ^ 64 - 1000 -> Forall byte (context_of m) -> bytes 32 pk -> bytes 64 sig ->
  verify_sha st k c0 c1 m M pk sig = verify_with st k SHA512_fips m M pk sig.
Proof. exact verify_sha_with. Qed.
(** The same for Ed448 (C74-C80). *)
Theorem C82_keygen448 : forall st junk K0 S0 sk, bytes 57 sk -> ed448_keygen_shake st junk K0 S0 sk = ed448_keygen st junk K0 S0 SHAKE256_bytes sk.
Proof. exact keygen_shake_with. Qed.
Theorem C82_sign448 : forall st junk K0 S0 m sig M pk sk, Forall byte M -> Z.of_nat (length M) <= 2 ^ 61 - 1000 -> Forall byte (context448 m) -> bytes 57 pk -> bytes 57 sk ->
  sign_shake st junk K0 S0 m sig M pk sk = sign448_with st junk K0 S0 SHAKE256_bytes m sig M pk sk.
Proof. exact sign_shake_with. Qed.
Theorem C82_verify448 : forall st junk m M pk sig, Forall byte M -> Z.of_nat (length M) <= 2 ^ 61 - 1000 -> Forall byte (context448 m) -> bytes 57 pk -> bytes 114 sig ->
  verify_shake st junk m M pk sig = verify448_with st junk SHAKE256_bytes m M pk sig.
Proof. exact verify_shake_with. Qed.
(** Contexts with any contents, keys, a message of 300 bytes and a context of 255 bytes *)
Example C82_case : clean (Sha512.Ctx (repeat 170 128) [] 77) /\ bytes 32 (repeat 7 32) /\ bytes 57 (repeat 7 57) /\ Forall byte (repeat 1 300) /\
  Z.of_nat (length (repeat 1 300)) <= 2 ^ 61 - 1000 /\ Forall byte (context_of (Ph (repeat 255 255))) /\ (length (context_of (Ph (repeat 255%Z 255))) <= 255)%nat.
Proof. exact sha_case. Qed.

Definition C82_all := (C82_keygen25519, C82_R25519, C82_sign25519, C82_verify25519, C82_keygen448, C82_sign448, C82_verify448).
Print Assumptions C82_all.
