(** Property theorems about X448 key generation (C81). *)
From Coq Require Import ZArith List.
From Verif Require Import Uop Engine Bytes SpecX SpecScalar Ladder LadderX448 Keygen448Proofs Keygen448X Keygen448XProofs Keygen448XCase.
Import ListNotations.
Open Scope Z_scope.

(** ** C81: key generation is X448 of the secret key and the base point 5 *)
(** Missing from the full statement (every key): keys whose clamped scalar does not meet [good_scalar], the condition of C74 on the fixed-base multiplication,
    and public keys below 2^422 of the form of [sqr_carry_lost]. *)
Theorem C81_keygen_partial : forall st junk K0 S0, words 2 junk -> length K0 = 115%nat -> length S0 = 115%nat -> forall key, bytes 56 key ->
  good_scalar (scalar448 (le_val key)) -> ~ sqr_carry_lost (X448_spec (le_val key) 5) ->
  bytes 56 (x448_keygen_avx2 st junk K0 S0 key) /\ le_val (x448_keygen_avx2 st junk K0 S0 key) = X448_spec (le_val key) 5.
Proof. exact x448_keygen_ok. Qed.
Theorem C81_meaning : forall v, sqr_carry_lost v <-> 2 ^ 224 + 1 <= v < 2 ^ 422 /\ (v mod 2 ^ 64 = 0 \/ ((v - 1) / 2 ^ 224) mod 2 ^ 32 = 0).
Proof. intro v. exact (conj (fun h => h) (fun h => h)). Qed.
(** Two parties who exchange generated keys end with the same secret, under the same conditions and that of C37 on the secret. *)
Theorem C81_exchange_partial : forall st junk K0 S0 st1 junk1 K1 S1 st2 st3 a b,
  words 2 junk -> length K0 = 115%nat -> length S0 = 115%nat -> words 2 junk1 -> length K1 = 115%nat -> length S1 = 115%nat ->
  bytes 56 a -> bytes 56 b -> good_scalar (scalar448 (le_val a)) -> good_scalar (scalar448 (le_val b)) ->
  ~ sqr_carry_lost (X448_spec (le_val a) 5) -> ~ sqr_carry_lost (X448_spec (le_val b) 5) -> ~ carry_lost (X448_spec (le_val a) (X448_spec (le_val b) 5)) ->
  x448_shared_avx2 st2 (x448_keygen_avx2 st junk K0 S0 b) a = x448_shared_avx2 st3 (x448_keygen_avx2 st1 junk1 K1 S1 a) b /\
  le_val (x448_shared_avx2 st2 (x448_keygen_avx2 st junk K0 S0 b) a) = X448_spec (le_val a) (X448_spec (le_val b) 5).
Proof. exact x448_exchange. Qed.
Example C81_case : bytes 56 good_key /\ good_scalar (scalar448 (le_val good_key)) /\ ~ sqr_carry_lost (X448_spec (le_val good_key) 5).
Proof. exact good_key_case. Qed.
(** The key 2^447 + 2^321 - 2^127: the division by four loses a carry, and the public key belongs to another scalar. *)
Theorem C81_refuted : exists key, bytes 56 key /\ le_val key = 2 ^ 447 + 2 ^ 321 - 2 ^ 127 /\
  forall st junk K0 S0, words 2 junk -> length K0 = 115%nat -> length S0 = 115%nat ->
  le_val (x448_keygen_avx2 st junk K0 S0 key) <> X448_spec (le_val key) 5 /\
  le_val (x448_keygen_avx2 st junk K0 S0 key) = rfc_ladder (2 ^ 448 - 2 ^ 224 - 1) 39081 448 (2 ^ 447 - 2 ^ 321 - 2 ^ 127) 5.
Proof. exact keygen448_refuted. Qed.

Definition C81_all := (C81_keygen_partial, C81_meaning, C81_exchange_partial, C81_refuted).
Print Assumptions C81_all.
