(** Specification of twisted Edwards curves, written from RFC 8032, sections 3,
    5.1 and 5.2.  Plain integers only: a point is a pair of integers below p. *)
From Coq Require Import ZArith Zpow_facts List Bool.
Import ListNotations.
Open Scope Z_scope.

Section Curve.
Variables (p a d : Z).
(** Inversion modulo the prime p: z^(p-2); 0 for z = 0. *)
Definition inv_mod (z : Z) : Z := Zpow_mod z (p - 2) p.
(** a x^2 + y^2 = 1 + d x^2 y^2 *)
Definition on_curve (P : Z * Z) : Prop :=
  let (x, y) := P in 0 <= x < p /\ 0 <= y < p /\ (a * x * x + y * y) mod p = (1 + d * x * x * y * y) mod p.
(** Complete addition law. *)
Definition ed_add (P Q : Z * Z) : Z * Z :=
  let (x1, y1) := P in let (x2, y2) := Q in
  let t := d * x1 * x2 * y1 * y2 in
  (((x1 * y2 + x2 * y1) * inv_mod (1 + t)) mod p, ((y1 * y2 - a * x1 * x2) * inv_mod (1 - t)) mod p).
Definition ed_neg (P : Z * Z) : Z * Z := let (x, y) := P in ((- x) mod p, y).
Definition ed_zero : Z * Z := (0, 1).
(** Multiples: P + ... + P.  Pos.iter_op (Coq standard library) adds k copies by
    doubling and adding; [SpecEd] uses it so that examples can be computed. *)
Definition ed_mul (k : Z) (P : Z * Z) : Z * Z :=
  match k with
  | Z0 => ed_zero
  | Zpos n => Pos.iter_op ed_add n P
  | Zneg n => Pos.iter_op ed_add n (ed_neg P)
  end.
(** Extended projective coordinates (X : Y : W : T) of a point: x = X/W, y = Y/W, T = xyW. *)
Definition represents (X Y W T : Z) (P : Z * Z) : Prop :=
  let (x, y) := P in
  W mod p <> 0 /\ X mod p = (x * W) mod p /\ Y mod p = (y * W) mod p /\ T mod p = (x * y * W) mod p.
End Curve.

(** edwards25519: p = 2^255 - 19, a = -1, d = -121665/121666, base point of order l. *)
Definition p_ed255 : Z := 2 ^ 255 - 19.
Definition d_ed255 : Z := 37095705934669439343138083508754565189542113879843219016388785533085940283555.
Definition l_ed255 : Z := 2 ^ 252 + 27742317777372353535851937790883648493.
Definition B_ed255 : Z * Z :=
  (15112221349535400772501151409588531511454012693041857206046113283949847762202,
   46316835694926478169428394003475163141307993866256225615783033603165251855960).
Definition on255 := on_curve p_ed255 (-1) d_ed255.
Definition add255 := ed_add p_ed255 (-1) d_ed255.
Definition neg255 := ed_neg p_ed255.
Definition mul255 := ed_mul p_ed255 (-1) d_ed255.
Definition reps255 := represents p_ed255.

(** edwards448: p = 2^448 - 2^224 - 1, a = 1, d = -39081. *)
Definition p_ed448 : Z := 2 ^ 448 - 2 ^ 224 - 1.
Definition d_ed448 : Z := - 39081.
Definition l_ed448 : Z := 2 ^ 446 - 13818066809895115352007386748515426880336692474882178609894547503885.
Definition B_ed448 : Z * Z :=
  (224580040295924300187604334099896036246789641632564134246125461686950415467406032909029192869357953282578032075146446173674602635247710,
   298819210078481492676017930443930673437544040154080242095928241372331506189835876003536878655418784733982303233503462500531545062832660).
Definition on448 := on_curve p_ed448 1 d_ed448.
Definition add448 := ed_add p_ed448 1 d_ed448.
Definition neg448 := ed_neg p_ed448.
Definition mul448 := ed_mul p_ed448 1 d_ed448.
Definition reps448 := represents p_ed448.
