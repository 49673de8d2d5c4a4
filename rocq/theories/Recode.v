(** Scalar recodings: signed radix 16 (fixed base) and width-w NAF (verification). *)
From Coq Require Import ZArith List Bool.
From Verif Require Import Uop Engine Bytes X86 AsmSign255 Fp25519Full.
Import ListNotations.
Open Scope Z_scope.

(** array[i] = v *)
Definition upd (i : nat) (v : Z) (l : list Z) : list Z := firstn i l ++ v :: skipn (S i) l.
(** carry, list_digits, list_signs *)
Definition rstate : Type := Z * list Z * list Z.
(** One nibble, /repo/src/edwards255.c:818-824 (and :826-832, edwards448.c:173-179, :181-187):
    value, carry and digit are int8_t, none of them leaves its range. *)
Definition nibble_step (s : rstate) (idx : nat) (nib : Z) : rstate :=
  let '(carry, dg, sg) := s in
  let value := nib + carry in
  let carry := if 8 <=? value then 1 else 0 in
  let digit := Z.land (Z.lxor value (- carry) + carry) 15 in
  (carry, upd idx digit dg, upd idx ((- carry) mod W) sg).
(** recoding_signed_scalar_fold2w4_ed25519, edwards255.c:805-837; dg and sg are
    the 67-word arrays of the caller; the last store writes the carry. *)
Definition recode_fold2w4 (dg sg r : list Z) : list Z * list Z :=
  let '(carry, dg, sg) :=
    fold_left (fun s i => fold_left (fun s j =>
      let b := nth (16 * i + j) r 0 in
      let s := nibble_step s (4 * j + i + 0) (Z.land b 15) in
      nibble_step s (4 * j + i + 2) (Z.land (b / 2 ^ 4) 15)) (seq 0 16) s) (seq 0 2) (0, dg, sg) in
  (upd 64 carry dg, sg).
(** recoding_signed_scalar_fold4w4_448, edwards448.c:164-191; 115-word arrays *)
Definition recode_fold4w4_448 (dg sg r : list Z) : list Z * list Z :=
  let '(carry, dg, sg) :=
    fold_left (fun s i => fold_left (fun s j =>
      let b := nth (28 * i + j) r 0 in
      let s := nibble_step s (56 * i + 2 * j + 0) (Z.land b 15) in
      nibble_step s (56 * i + 2 * j + 1) (Z.land (b / 2 ^ 4) 15)) (seq 0 28) s) (seq 0 2) (0, dg, sg) in
  (upd 112 carry dg, sg).

Section WNAF.
Variable st0 : store.
(** div_2, edwards255.c:1143-1152 and div_2_512, edwards448.c:894-912 *)
Fixpoint div_2 (r : list Z) : list Z :=
  match r with [] => [] | x :: t => Z.lor (x / 2) ((nth 0 t 0 * 2 ^ 63) mod W) :: div_2 t end.
(** is_greater_equal_one, edwards255.c:1141 and edwards448.c:881-890 *)
Definition is_zero (r : list Z) : bool := forallb (fun x => x =? 0) r.
(** SUB256(r, value>>63 (three times), value), edwards255.c:1153-1161, :1189 *)
Definition sub256 (r : list Z) (v : Z) : list Z :=
  let s := (v / 2 ^ 63) mod W in
  call (code (env_of [Pos.add bA 3; Pos.add bA 2; Pos.add bA 1; bA; Pos.add bB 3; Pos.add bB 2; Pos.add bB 1; bB]%positive) asm_SUB256)
    [(bA, r); (bB, [v mod W; s; s; s])] bA 4 st0.
(** SUB512(r, value>>63, value), edwards448.c:913-925, :954-955 *)
Definition sub512 (r : list Z) (v : Z) : list Z :=
  call (code (env_of [bA; bB; bC]) asm_SUB512) [(bA, r); (bB, [(v / 2 ^ 63) mod W]); (bC, [v mod W])] bA 8 st0.
(** (int8_t) conversion of the stored digit *)
Definition to_int8 (x : Z) : Z := if x <? 128 then x else x - 256.
(** The loop of wnaf_256bits, edwards255.c:1178-1197, and wnaf_448bits, edwards448.c:946-966:
    the digits written from K[i] on; [None] when [fuel] iterations do not suffice. *)
Fixpoint wnaf_loop (sub : list Z -> Z -> list Z) (w : Z) (fuel : nat) (r : list Z) : option (list Z) :=
  if is_zero r then Some [] else
  match fuel with
  | O => None
  | S fuel =>
    let r0 := nth 0 r 0 in
    let '(value, r) :=
      if Z.land r0 1 =? 1 then
        let value := Z.land r0 (2 ^ w - 1) in
        let value := if 2 ^ (w - 1) <? value then value - 2 ^ w else value in
        (value, sub r value)
      else (0, r) in
    match wnaf_loop sub w fuel (div_2 r) with
    | Some K => Some (to_int8 (Z.land value 255) :: K)
    | None => None
    end
  end.
(** wnaf_256bits, edwards255.c:1169-1198; [fuel] is the size of the caller's buffer K. *)
Definition wnaf_256bits (fuel : nat) (r : list Z) (w : Z) : option (list Z) := wnaf_loop sub256 w fuel (words_of 4 r).
(** wnaf_448bits, edwards448.c:934-967: 57 bytes are read *)
Definition wnaf_448bits (fuel : nat) (r : list Z) (w : Z) : option (list Z) :=
  wnaf_loop sub512 w fuel (words_of 8 (firstn 57 r ++ repeat 0 7)).
End WNAF.
