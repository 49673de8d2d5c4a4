(** RFC 9380: Elligator 2 for curve25519 (6.7.1, J = 486662, K = 1, Z = 2), the rational map to
    edwards25519 (D.1, appendix of 6.8.2) and the hash to the curve (3, hash_to_curve).
    Plain integers; nothing here refers to the model of the code. *)
From Coq Require Import ZArith.
From Verif Require Import SpecEd.
Open Scope Z_scope.

Definition J25519 : Z := 486662.
Definition is_square (p v : Z) : Prop := exists r, (r * r) mod p = v mod p.
(** g(x) = x^3 + J x^2 + x *)
Definition g25519 (x : Z) : Z := x * x * x + J25519 * x * x + x.
Definition ell_x1 (u : Z) : Z :=
  let x1 := (- J25519 * inv_mod p_ed255 (1 + 2 * u * u)) mod p_ed255 in
  if x1 =? 0 then (- J25519) mod p_ed255 else x1.
Definition ell_x2 (u : Z) : Z := (- ell_x1 u - J25519) mod p_ed255.
(** (s, t) is the point of t^2 = g(s) given by Elligator 2.  sgn0 (t) is the parity of t in [0, p);
    when t = 0 there is only one root. *)
Definition elligator2 (u : Z) (st : Z * Z) : Prop :=
  let (s, t) := st in
  0 <= t < p_ed255 /\ (t * t) mod p_ed255 = g25519 s mod p_ed255 /\
  ((is_square p_ed255 (g25519 (ell_x1 u)) /\ s = ell_x1 u /\ (t = 0 \/ t mod 2 = 1)) \/
   (~ is_square p_ed255 (g25519 (ell_x1 u)) /\ s = ell_x2 u /\ t mod 2 = 0)).
(** The even root of -(J + 2) *)
Definition sqrt_mJ2 : Z := 6853475219497561581579357271197624642482790079785650197046958215289687604742.
Definition to_edwards (st : Z * Z) : Z * Z :=
  let (s, t) := st in
  if ((s + 1) * t) mod p_ed255 =? 0 then ed_zero
  else ((sqrt_mJ2 * s * inv_mod p_ed255 t) mod p_ed255, ((s - 1) * inv_mod p_ed255 (s + 1)) mod p_ed255).
Example sqrt_mJ2_ok : (sqrt_mJ2 * sqrt_mJ2) mod p_ed255 = (- (J25519 + 2)) mod p_ed255 /\ sqrt_mJ2 mod 2 = 0.
Proof. split; vm_compute; reflexivity. Qed.
(** map_to_curve_elligator2_edwards25519 *)
Definition maps_to (u : Z) (P : Z * Z) : Prop := exists st, elligator2 u st /\ P = to_edwards st.
(** The point hashed to from the two field elements, with the cofactor 8 cleared *)
Definition hashes_to (u0 u1 : Z) (P : Z * Z) : Prop :=
  exists Q0 Q1, maps_to u0 Q0 /\ maps_to u1 Q1 /\ P = mul255 8 (add255 Q0 Q1).
