(** Diffie-Hellman agreement of the modelled functions. *)
From Coq Require Import ZArith List Bool Lia.
From Verif Require Import Uop Engine Bytes SpecX Ladder LadderProofs LadderVec LadderVec448 LadderSmall LadderX448 LadderMem CurveDH.
Import ListNotations.
Open Scope Z_scope.
Lemma X25519_dh st c st1 c1 st2 c2 st3 c3 a b u : bytes 32 a -> bytes 32 b -> bytes 32 u ->
  x25519_shared_avx2 st c (x25519_shared_avx2 st1 c1 u b) a = x25519_shared_avx2 st2 c2 (x25519_shared_avx2 st3 c3 u a) b.
Proof.
  intros Ha Hb Hu.
  destruct (X25519_avx2_ok st1 c1 b u Hb Hu) as [B1 E1]. destruct (X25519_avx2_ok st3 c3 a u Ha Hu) as [B3 E3].
  destruct (X25519_avx2_ok st c a _ Ha B1) as [B E]. destruct (X25519_avx2_ok st2 c2 b _ Hb B3) as [B2 E2].
  apply (bytes_eq 32); [exact B|exact B2|]. rewrite E, E2, E1, E3. apply X25519_spec_agree.
Qed.
Lemma X25519_dh_mixed st c st1 c1 st2 c2 st3 c3 a b u : bytes 32 a -> bytes 32 b -> bytes 32 u ->
  x25519_shared_avx2 st c (x25519_shared_x64 st1 c1 u b) a = x25519_shared_x64 st2 c2 (x25519_shared_avx2 st3 c3 u a) b.
Proof.
  intros Ha Hb Hu. rewrite <- (X25519_agree st1 st1 c1 c1 b u Hb Hu).
  destruct (X25519_avx2_ok st3 c3 a u Ha Hu) as [B3 _].
  rewrite <- (X25519_agree st2 st2 c2 c2 b _ Hb B3). apply X25519_dh; assumption.
Qed.
Lemma X448_dh st st1 st2 st3 a b u : bytes 56 a -> bytes 56 b -> bytes 56 u ->
  ~ carry_lost (X448_spec (le_val a) (le_val u)) -> ~ carry_lost (X448_spec (le_val b) (le_val u)) ->
  ~ carry_lost (X448_spec (le_val a) (X448_spec (le_val b) (le_val u))) ->
  x448_shared_avx2 st (x448_shared_avx2 st1 u b) a = x448_shared_avx2 st2 (x448_shared_avx2 st3 u a) b.
Proof.
  intros Ha Hb Hu La Lb Lab.
  destruct (X448_shared_ok st1 b u Hb Hu) as [B1 _]. destruct (X448_shared_ok st3 a u Ha Hu) as [B3 _].
  destruct (X448_shared_ok st a _ Ha B1) as [B _]. destruct (X448_shared_ok st2 b _ Hb B3) as [B2 _].
  pose proof (X448_shared_most st1 b u Hb Hu Lb) as E1. pose proof (X448_shared_most st3 a u Ha Hu La) as E3.
  assert (L1 : ~ carry_lost (X448_spec (le_val a) (le_val (x448_shared_avx2 st1 u b)))) by (rewrite E1; exact Lab).
  assert (L2 : ~ carry_lost (X448_spec (le_val b) (le_val (x448_shared_avx2 st3 u a)))) by (rewrite E3, X448_spec_agree; exact Lab).
  apply (bytes_eq 56); [exact B|exact B2|].
  rewrite (X448_shared_most st a _ Ha B1 L1), (X448_shared_most st2 b _ Hb B3 L2), E1, E3. apply X448_spec_agree.
Qed.
