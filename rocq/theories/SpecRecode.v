(** Specification vocabulary of the scalar recodings.  Plain integers and lists only. *)
From Coq Require Import ZArith List.
Import ListNotations.
Open Scope Z_scope.

(** A digit kept as magnitude d and sign word s (0 or all ones). *)
Definition signed (d s : Z) : Z := if s =? 0 then d else - d.
(** sum of f m * b^m for m < n *)
Fixpoint weighted (b : Z) (f : nat -> Z) (n : nat) : Z :=
  match n with O => 0 | S k => weighted b f k + f k * b ^ Z.of_nat k end.
(** Positions of nibble m in the digit arrays: two interleaved halves of 32
    nibbles (Ed25519), or in order (Ed448). *)
Definition pos_fold2w4 (m : nat) : nat := (4 * ((m mod 32) / 2) + m / 32 + 2 * (m mod 2))%nat.
Definition pos_plain (m : nat) : nat := m.
(** The smallest n-nibble number recoded with a final carry: 0x77...78. *)
Definition carry_limit (n : Z) : Z := (7 * 16 ^ n + 8) / 15.

(** Width-w non-adjacent form. *)
Definition value2 (K : list Z) : Z := fold_right (fun d v => d + 2 * v) 0 K.
Definition wnaf_digit (w d : Z) : Prop := d = 0 \/ (Z.odd d = true /\ - 2 ^ (w - 1) < d < 2 ^ (w - 1)).
Definition spaced (w : nat) (K : list Z) : Prop :=
  forall i j, (i < j < i + w)%nat -> nth i K 0 <> 0 -> nth j K 0 = 0.
(** Odd numbers whose first digit is negative and carries past 2^256. *)
Definition wraps (w r : Z) : bool := andb (Z.odd r) (2 ^ 256 - 2 ^ (w - 1) <? r).
