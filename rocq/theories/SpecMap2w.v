(** Vocabulary for the two-lane map to edwards25519 (C85): what a comparison of byte parities can tell apart. *)
From Coq Require Import ZArith.
From Verif Require Import SpecEd SpecH2c.
Open Scope Z_scope.

(** The 32 bytes of the representatives of x and y in [0, p) have the same parities, byte by byte. *)
Definition same_parities (x y : Z) : Prop :=
  forall j, 0 <= j < 32 -> Z.odd (x mod p_ed255 / 2 ^ (8 * j)) = Z.odd (y mod p_ed255 / 2 ^ (8 * j)).
(** The numerator of g(x1), over the denominator (1 + 2u^2)^3 *)
Definition numerator (u : Z) : Z := g25519 (ell_x1 u) * ((1 + 2 * u * u) * (1 + 2 * u * u) * (1 + 2 * u * u)).
