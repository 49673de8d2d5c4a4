(** Specification vocabulary of the field-arithmetic properties.
    [val], [words] (Engine) and [le_val], [bytes] (Bytes) read a word array and
    a byte string as little-endian numbers; everything else is plain integers. *)
From Coq Require Import ZArith List.
From Verif Require Import Engine Bytes.
Open Scope Z_scope.

Definition P25519 : Z := 2 ^ 255 - 19.
Definition P448 : Z := 2 ^ 448 - 2 ^ 224 - 1.
(** Congruence modulo m. *)
Definition eqm (m x y : Z) : Prop := x mod m = y mod m.
