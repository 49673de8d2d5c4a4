(** The isogenies between edwards448 and the twisted curve -x^2 + y^2 = 1 - 39082 x^2 y^2 (Hamburg, "Twisting Edwards
    curves with isogenies", 2014; RFC 7748, 4.2).  Plain integers. *)
From Coq Require Import ZArith.
From Verif Require Import SpecEd.
Open Scope Z_scope.
Section Iso.
Variable p : Z.
Definition iso (P : Z * Z) : Z * Z :=
  let (x, y) := P in ((2 * x * y * inv_mod p (y * y - x * x)) mod p, ((x * x + y * y) * inv_mod p (2 - (x * x + y * y))) mod p).
Definition iso_back (P : Z * Z) : Z * Z :=
  let (x, y) := P in ((2 * x * y * inv_mod p (y * y + x * x)) mod p, ((y * y - x * x) * inv_mod p (2 - (y * y - x * x))) mod p).
End Iso.
Definition iso448 := iso p_ed448.
Definition iso_back448 := iso_back p_ed448.
