(** Property theorems about the tables of edwards25519, fixed-base multiplication and point encoding (C44, C45, C46, C63). *)
From Coq Require Import ZArith List FMapPositive.
From Verif Require Import Uop Engine Bytes X86 SpecVec SpecEd SpecRecode SpecEdVec Edwards255 Table255 Fixed255 FixedProps.
Import ListNotations.
Open Scope Z_scope.

(** ** C45: the numbers in the precomputed tables *)
Theorem C45_sign_table : forall i h m, (i < 16)%nat -> (h < 2)%nat -> (m < 8)%nat ->
  entry_numbers (comb_number TableSign_w4_24k i h m) (mul255 ((1 + Z.of_nat m) * 16 ^ (2 * Z.of_nat i + 32 * Z.of_nat h)) B_ed255).
Proof. exact sign_table_spec. Qed.
Theorem C45_verify_table : forall j, (j < 32)%nat ->
  entry_numbers (list_number TableVerif_static_w7_Ed25519 j) (mul255 (2 * Z.of_nat j + 1) B_ed255).
Proof. exact verf_table_spec. Qed.
(** Entry 0 of both tables stands for the base point itself. *)
Example C45_base : entry_numbers (comb_number TableSign_w4_24k 0 0 0) B_ed255 /\ entry_numbers (list_number TableVerif_static_w7_Ed25519 0) B_ed255.
Proof. vm_compute. split; (split; [reflexivity|split; reflexivity]). Qed.

(** ** C63: the base point of edwards25519 has order l *)
Theorem C63_base_order : on255 B_ed255 /\ mul255 l_ed255 B_ed255 = (0, 1) /\ forall k, Z.gcd k l_ed255 = 1 -> mul255 k B_ed255 <> (0, 1).
Proof. exact base_order. Qed.
Example C63_small : Z.gcd 8 l_ed255 = 1. Proof. vm_compute. reflexivity. Qed.

(** ** C44: a table query returns the four multiples with the signs asked for *)
Theorem C44_query : forall digits signs idx, (idx < 16)%nat -> length digits = 4%nat -> length signs = 4%nat ->
  (forall j, (j < 4)%nat -> 0 <= nth j digits 0 <= 8 /\ (nth j signs 0 = 0 \/ nth j signs 0 = 2 ^ 64 - 1)) ->
  let q := query_table signs digits idx in
  entries255 (addYX q) (subYX q) (dYX q)
    (fun j => mul255 (signed (nth j digits 0) (nth j signs 0) * 16 ^ (2 * Z.of_nat idx + 32 * Z.of_nat (j mod 2))) B_ed255).
Proof. exact query_spec. Qed.
(** Digits 8, 0, -1, 3 at once. *)
Example C44_case : forall j, (j < 4)%nat -> 0 <= nth j [8; 0; 1; 3] 0 <= 8 /\ (nth j [0; 0; 2 ^ 64 - 1; 0] 0 = 0 \/ nth j [0; 0; 2 ^ 64 - 1; 0] 0 = 2 ^ 64 - 1).
Proof. intros [|[|[|[|j]]]] H; [..|exfalso; do 4 apply le_S_n in H; inversion H]; vm_compute; (split; [split; discriminate|]); auto. Qed.

(** ** C46: fixed-base multiplication *)
(** Exact value for every 256-bit scalar: the scalar itself below 0x77...78 (64 digits), 2^256 less from there on. *)
Theorem C46_exact : forall st sky K0 S0 r, length K0 = 67%nat -> length S0 = 67%nat -> bytes 32 r ->
  let Q := point_multiplication st sky K0 S0 r in
  point_2w255 (fst Q) (snd Q) (mul255 (le_val r - (if carry_limit 64 <=? le_val r then 2 ^ 256 else 0)) B_ed255).
Proof. exact fixed_spec. Qed.
Theorem C46_multiple : forall st sky K0 S0 r, length K0 = 67%nat -> length S0 = 67%nat -> bytes 32 r -> le_val r < carry_limit 64 ->
  let Q := point_multiplication st sky K0 S0 r in point_2w255 (fst Q) (snd Q) (mul255 (le_val r) B_ed255).
Proof. exact fixed_small. Qed.
(** So the claim for all 256-bit scalars is false: every scalar from 0x77...78 on gives another point. *)
Theorem C46_large_refuted : forall st sky K0 S0 r, length K0 = 67%nat -> length S0 = 67%nat -> bytes 32 r -> carry_limit 64 <= le_val r ->
  let Q := point_multiplication st sky K0 S0 r in ~ point_2w255 (fst Q) (snd Q) (mul255 (le_val r) B_ed255).
Proof. exact fixed_large. Qed.
(** The bytes written by key generation and signing for [r]B. *)
Theorem C46_encoding : forall st k p P, point_2w255 (fst p) (snd p) P -> encodes255 (point_encoding st k p) P.
Proof. exact encode_spec. Qed.
Theorem C46_encoded : forall st k sky K0 S0 r, length K0 = 67%nat -> length S0 = 67%nat -> bytes 32 r -> le_val r < carry_limit 64 ->
  encodes255 (point_encoding st k (point_multiplication st sky K0 S0 r)) (mul255 (le_val r) B_ed255).
Proof. exact fixed_encoded. Qed.
(** Every scalar below the group order is below the limit; the largest 255-bit number is above it. *)
Example C46_order : l_ed255 < carry_limit 64 <= 2 ^ 255 - 1. Proof. vm_compute. split; [reflexivity|discriminate]. Qed.
Example C46_scalars : bytes 32 (repeat 200 31 ++ [16]) /\ le_val (repeat 200 31 ++ [16]) < carry_limit 64 /\
  bytes 32 (repeat 255 31 ++ [127]) /\ carry_limit 64 <= le_val (repeat 255 31 ++ [127]).
Proof.
  split; [split; [reflexivity|repeat (apply Forall_cons; [split; [discriminate|reflexivity]|]); apply Forall_nil]|]. split; [vm_compute; reflexivity|].
  split; [split; [reflexivity|repeat (apply Forall_cons; [split; [discriminate|reflexivity]|]); apply Forall_nil]|]. vm_compute. discriminate.
Qed.

Definition fixed_base_theorems :=
  (C45_sign_table, C45_verify_table, C63_base_order, C44_query, C46_exact, C46_multiple, C46_large_refuted, C46_encoding, C46_encoded).
Print Assumptions fixed_base_theorems.
