(** Property theorems about the two-way map of the hash to edwards25519 (C85). *)
From Coq Require Import ZArith List.
From Verif Require Import Uop Engine Bytes Spec SpecVec SpecEd SpecEdVec SpecH2c SpecMap2w Sha512x2 Hash255x2Proofs Edwards255 Hash255x2 Map255x2 Map255x2Case.
Import ListNotations.
Open Scope Z_scope.

(** ** C85: each lane of the two-way map is the map of RFC 9380 for the field element of that lane *)
(** It is for some messages not even a point of the curve: the message is e6 57 51 35 00 00 00 00, the lane is the first. *)
Theorem C85_refuted : exists msg, Forall byte msg /\ length msg = 8%nat /\ forall st block, registers block ->
  let '(u0, u1) := hash_to_field_2w st block msg in let r := map_to_curve_2w st (pair_2w st u0 u1) in
  forall Q, on255 Q -> ~ reps255 (value255 (lane 2 10 0 (cX r))) (value255 (lane 2 10 0 (cY r))) (value255 (lane 2 10 0 (cZ r))) (value255 (lane 2 10 0 (cT r))) Q.
Proof. exact map_2w_refuted. Qed.
(** It is when the comparisons, which see the parities of the bytes only, cannot err: g(x1) is a square, or the numerator N of g(x1) has other byte
    parities than its products by the two square roots of -1; and the test for the exceptional case of the rational map is not fooled.  What is missing
    for the full statement is exactly what C85_refuted excludes. *)
Theorem C85_map_partial : forall st a j, lanes 2 10 reduced255 a -> (j < 2)%nat -> let u := value255 (lane 2 10 j a) in
  (is_square p_ed255 (g25519 (ell_x1 u)) \/ forall i, (i * i) mod p_ed255 = (-1) mod p_ed255 -> ~ same_parities (i * numerator u) (numerator u)) ->
  forall s t, elligator2 u (s, t) ->
  (((s + 1) * t) mod p_ed255 = 0 \/ ~ same_parities ((1 + 2 * u * u) * (1 + 2 * u * u) * ((s + 1) * t)) 0) ->
  let r := map_to_curve_2w st a in point255 (lane 2 10 j (cX r)) (lane 2 10 j (cY r)) (lane 2 10 j (cZ r)) (lane 2 10 j (cT r)) (to_edwards (s, t)).
Proof. exact map_2w_right. Qed.
(** The element 9 in the first lane *)
Example C85_case : lanes 2 10 reduced255 v_lanes /\ value255 (lane 2 10 0 v_lanes) = 9 /\ is_square p_ed255 (g25519 (ell_x1 9)) /\ elligator2 9 (v_x, v_t) /\
  ~ same_parities ((1 + 2 * 9 * 9) * (1 + 2 * 9 * 9) * ((v_x + 1) * v_t)) 0.
Proof. exact case_2w. Qed.
(** The element 5 in the second lane, for which g(x1) is no square *)
Example C85_case_nonsquare : lanes 2 10 reduced255 w_lanes /\ value255 (lane 2 10 1 w_lanes) = 5 /\
  (forall i, (i * i) mod p_ed255 = (-1) mod p_ed255 -> ~ same_parities (i * numerator 5) (numerator 5)) /\ ~ is_square p_ed255 (g25519 (ell_x1 5)) /\
  elligator2 5 (w_x, w_t) /\ ~ same_parities ((1 + 2 * 5 * 5) * (1 + 2 * 5 * 5) * ((w_x + 1) * w_t)) 0.
Proof. exact case2_2w. Qed.

Definition props_map2w := (C85_refuted, C85_map_partial, C85_case, C85_case_nonsquare).
Print Assumptions props_map2w.
