(** Property theorems about X25519 key generation (C34). *)
From Coq Require Import ZArith List.
From Verif Require Import Uop Engine Bytes SpecX Fp25519Full Ladder Keygen255 Keygen255Proofs.
Import ListNotations.
Open Scope Z_scope.

(** ** C34: key generation is X25519 of the secret key and the base point 9 *)
Theorem C34_keygen_spec : forall st c sky K0 S0 key, length K0 = 67%nat -> length S0 = 67%nat -> bytes 32 key ->
  bytes 32 (x25519_keygen_avx2 st c sky K0 S0 key) /\ le_val (x25519_keygen_avx2 st c sky K0 S0 key) = X25519_spec (le_val key) 9.
Proof. exact keygen_ok. Qed.
Theorem C34_keygen_shared : forall st c sky K0 S0 st1 c1 key, length K0 = 67%nat -> length S0 = 67%nat -> bytes 32 key ->
  x25519_keygen_avx2 st c sky K0 S0 key = x25519_shared_avx2 st1 c1 (9 :: repeat 0 31) key /\
  x25519_keygen_avx2 st c sky K0 S0 key = x25519_shared_x64 st1 c1 (9 :: repeat 0 31) key.
Proof. exact keygen_shared. Qed.
(** Two parties who exchange generated keys end with the same secret. *)
Theorem C34_exchange : forall st c sky K0 S0 st1 c1 st2 c2 sky2 K2 S2 st3 c3 a b,
  length K0 = 67%nat -> length S0 = 67%nat -> length K2 = 67%nat -> length S2 = 67%nat -> bytes 32 a -> bytes 32 b ->
  x25519_shared_avx2 st1 c1 (x25519_keygen_avx2 st c sky K0 S0 b) a = x25519_shared_x64 st3 c3 (x25519_keygen_avx2 st2 c2 sky2 K2 S2 a) b.
Proof. exact keygen_exchange. Qed.
(** every string of 32 bytes is a key; the clamped scalars cover both ends of their range *)
Example C34_case : bytes 32 (repeat 0 32) /\ bytes 32 (repeat 255 32) /\ scalar25519 (le_val (repeat 0 32)) = 2 ^ 254 /\
  scalar25519 (le_val (repeat 255 32)) = 2 ^ 255 - 8.
Proof. split; [split; [reflexivity|repeat constructor; discriminate]|]. split; [split; [reflexivity|repeat constructor; discriminate]|]. split; vm_compute; reflexivity. Qed.

Definition C34_all := (C34_keygen_spec, C34_keygen_shared, C34_exchange).
Print Assumptions C34_all.
