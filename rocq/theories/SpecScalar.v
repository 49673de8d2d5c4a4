(** Specification vocabulary of the scalar properties: group orders, and
    multi-word accumulation with carries that stop after three words.
    Plain integers and lists only; nothing here refers to the model of the code. *)
From Coq Require Import ZArith List.
Import ListNotations.
Open Scope Z_scope.

(** Orders of the prime-order subgroups of edwards25519 and edwards448 (RFC 8032). *)
Definition L25519 : Z := 2 ^ 252 + 27742317777372353535851937790883648493.
Definition L448 : Z := 2 ^ 446 - 13818066809895115352007386748515426880336692474882178609894547503885.

(** Adding m at word n of the number c, over the three words n, n+1, n+2 only:
    the carry out of word n+2 ... *)
Definition lost (c : Z) (n : nat) (m : Z) : Z := ((c / 2 ^ (64 * Z.of_nat n)) mod 2 ^ 192 + m) / 2 ^ 192.
(** ... is missing from the sum. *)
Definition accumulate (c : Z) (n : nat) (m : Z) : Z :=
  c + 2 ^ (64 * Z.of_nat n) * m - 2 ^ (64 * Z.of_nat (n + 3)) * lost c n m.
(** Number reached and total weight of the carries dropped on the way. *)
Definition acc2 (s : Z * Z) (n : nat) (m : Z) : Z * Z :=
  (accumulate (fst s) n m, snd s + 2 ^ (64 * Z.of_nat (n + 3)) * lost (fst s) n m).
(** Schoolbook accumulation of all word products A_i*B_j, row by row. *)
Definition mul_acc2 (s : Z * Z) (A B : list Z) : Z * Z :=
  fold_left (fun s i => fold_left (fun s j => acc2 s (i + j) (nth i A 0 * nth j B 0)) (seq 0 (length B)) s) (seq 0 (length A)) s.
(** Weight dropped in c + A*B. *)
Definition dropped (c : Z) (A B : list Z) : Z := snd (mul_acc2 (c, 0) A B).
(** The n words of a number. *)
Definition limbs64 (n : nat) (x : Z) : list Z := map (fun i => (x / 2 ^ (64 * Z.of_nat i)) mod 2 ^ 64) (seq 0 n).
(** c + x*y, both factors of n and m words, loses no carry. *)
Definition no_lost_carry (c : Z) (n m : nat) (x y : Z) : Prop := dropped c (limbs64 n x) (limbs64 m y) = 0.

(** Reduction by 4*(2^446 - L448) = 2^448 modulo L448, three times, then by 2^446 - L448. *)
Definition fold448 (x : Z) : Z := x mod 2 ^ 448 + 4 * (2 ^ 446 - L448) * (x / 2 ^ 448).
Definition no_lost_carry448 (x : Z) : Prop :=
  let c := 2 ^ 446 - L448 in
  let x1 := fold448 x in let x2 := fold448 x1 in let x3 := fold448 x2 in
  no_lost_carry (x mod 2 ^ 448) 4 8 (4 * c) (x / 2 ^ 448) /\
  no_lost_carry (x1 mod 2 ^ 448) 4 4 (4 * c) (x1 / 2 ^ 448) /\
  no_lost_carry (x2 mod 2 ^ 448) 4 1 (4 * c) (x2 / 2 ^ 448) /\
  no_lost_carry (x3 mod 2 ^ 446) 4 1 c (x3 / 2 ^ 446).
(** The number a 32-byte private hash is clamped to (RFC 8032, 5.1.5). *)
Definition clamped255 (x : Z) : Z := 2 ^ 254 + 8 * (x mod 2 ^ 254 / 8).
(** A quarter modulo L448: 4*quarter448 = 1 + L448. *)
Definition quarter448 : Z := (L448 + 1) / 4.
