(** Property theorems about the scalar recodings (C39, C40). *)
From Coq Require Import ZArith List PArith FMapPositive.
From Verif Require Import Engine Bytes SpecRecode Recode RecodeProofs.
Import ListNotations.
Open Scope Z_scope.

(** ** C39: signed radix-16 digits; the arrays of the caller have 67 and 115 words *)
Theorem C39_ed25519 : forall dg sg r, bytes 32 r -> length dg = 67%nat -> length sg = 67%nat ->
  let (D, s) := recode_fold2w4 dg sg r in
  length D = 67%nat /\ length s = 67%nat /\
  (forall m, (m < 64)%nat -> let d := nth (pos_fold2w4 m) D 0 in let s := nth (pos_fold2w4 m) s 0 in
     0 <= d <= 8 /\ (s = 0 \/ s = 2 ^ 64 - 1) /\ - 8 <= signed d s <= 7) /\
  weighted 16 (fun m => signed (nth (pos_fold2w4 m) D 0) (nth (pos_fold2w4 m) s 0)) 64 =
    le_val r - (if carry_limit 64 <=? le_val r then 2 ^ 256 else 0).
Proof. exact recode255_ok. Qed.
(** every position is used once, and the limit is 0x77...78 *)
Example C39_positions : map pos_fold2w4 [0; 1; 2; 3; 31; 32; 33; 62; 63]%nat = [0; 2; 4; 6; 62; 1; 3; 61; 63]%nat /\
  carry_limit 4 = 0x7778 /\ 2 ^ 254 < carry_limit 64 < 2 ^ 255.
Proof. split; [reflexivity|]. split; [reflexivity|]. split; vm_compute; reflexivity. Qed.
Example C39_case : let (D, s) := recode_fold2w4 (repeat 0 67) (repeat 0 67) (repeat 255 32) in
  weighted 16 (fun m => signed (nth (pos_fold2w4 m) D 0) (nth (pos_fold2w4 m) s 0)) 64 = -1.
Proof. vm_compute. reflexivity. Qed.
Theorem C39_ed448 : forall dg sg r, bytes 57 r -> length dg = 115%nat -> length sg = 115%nat ->
  let (D, s) := recode_fold4w4_448 dg sg r in
  length D = 115%nat /\ length s = 115%nat /\
  (forall m, (m < 112)%nat -> let d := nth m D 0 in let s := nth m s 0 in
     0 <= d <= 8 /\ (s = 0 \/ s = 2 ^ 64 - 1) /\ - 8 <= signed d s <= 7) /\
  weighted 16 (fun m => signed (nth m D 0) (nth m s 0)) 112 =
    le_val (firstn 56 r) - (if carry_limit 112 <=? le_val (firstn 56 r) then 2 ^ 448 else 0).
Proof. exact recode448_ok. Qed.

(** ** C40: width-w NAF; [fuel] is the number of digits the caller's buffer holds *)
Theorem C40_ed25519 : forall st r w, bytes 32 r -> 2 <= w <= 8 ->
  exists K, (forall fuel, (257 <= fuel)%nat -> wnaf_256bits st fuel r w = Some K) /\ (length K <= 257)%nat /\
  Forall (wnaf_digit w) K /\ spaced (Z.to_nat w) K /\ value2 K = le_val r - (if wraps w (le_val r) then 2 ^ 256 else 0).
Proof. exact wnaf256_ok. Qed.
Theorem C40_ed448 : forall st r w, bytes 57 r -> 2 <= w <= 8 ->
  exists K, (forall fuel, (457 <= fuel)%nat -> wnaf_448bits st fuel r w = Some K) /\ (length K <= 457)%nat /\
  (le_val r < 2 ^ 448 -> (length K <= 449)%nat) /\
  Forall (wnaf_digit w) K /\ spaced (Z.to_nat w) K /\ value2 K = le_val r.
Proof. exact wnaf448_ok. Qed.
(** A 256-digit buffer, as in the 2-way double-point multiplication, overflows for some scalars. *)
Theorem C40_buffer256_refuted : forall st, wnaf_256bits st 256 (254 :: repeat 255 31) 7 = None.
Proof. exact wnaf256_full. Qed.
Example C40_case : wraps 7 (2 ^ 256 - 2) = false /\ wraps 7 (2 ^ 256 - 1) = true /\ wraps 5 (2 ^ 255 - 1) = false /\ spaced 5 [1; 0; 0; 0; 0; -15].
Proof.
  split; [reflexivity|]. split; [reflexivity|]. split; [reflexivity|].
  intros i j H N. do 6 (destruct i as [|i]; [do 11 (destruct j as [|j]; [try (cbn in N; congruence); reflexivity || (exfalso; Lia.lia)|]); exfalso; Lia.lia|]). destruct i; cbn in N; congruence.
Qed.
Definition recodings := (C39_ed25519, C39_ed448, C40_ed25519, C40_ed448, C40_buffer256_refuted).
Print Assumptions recodings.
