(** Property theorems about edwards448, Ed448 key generation and signing (C71-C75).
    Specification: SpecEd.v, SpecIso.v, SpecEd448Vec.v, SpecSign448.v. *)
From Coq Require Import ZArith List.
From Verif Require Import Uop Engine Bytes SpecVec SpecScalar SpecRecode SpecEd SpecIso SpecEd448Vec SpecSign448 Scalar448 Table448 Edwards255 Edwards448 Edwards448Proofs Mix448 Sign255 Sign448 Sign448Proofs
  LadderX448 EdInst448 TableProofs448 Digits448 EdProps448 Keygen448Proofs Keygen448Case Encode448Proofs Keygen448XCase.
Import ListNotations.
Open Scope Z_scope.

(** ** C71: the point formulas compute the group law, for all points and all representations *)
Theorem C71_doubling_2w : forall st p P, point_2w448 (fst p) (snd p) P ->
  point_2w448 (fst (doubling448_2w st p)) (snd (doubling448_2w st p)) (add448 P P).
Proof. exact dbl2q_spec. Qed.
Theorem C71_fulladd_2w : forall st p q P Q, point_2w448 (fst p) (snd p) P -> point_2w448 (fst q) (snd q) Q ->
  point_2w448 (fst (fulladd448_2w st p q)) (snd (fulladd448_2w st p q)) (add448 P Q).
Proof. exact add2q_spec. Qed.
(** The way back from the twisted curve multiplies by four. *)
Theorem C71_isogeny : forall st p P, point_2w448 (fst p) (snd p) P ->
  projective448 (fst (isogeny_2w st p)) (snd (isogeny_2w st p)) (mul448 4 P).
Proof. exact back_spec. Qed.
Theorem C71_doubling_4w : forall st q P, point_4w448 q P -> point_4w448 (doubling448_4w st q) (add448 P P).
Proof. exact dbl4q_spec. Qed.
(** The four-lane mixed addition of verification is wrong for some representations of some points: the constant added to avoid borrows is 2^34 p,
    half of what is needed. *)
Theorem C71_mixadd_4w_refuted : exists st q e Q P, point_4w448 q Q /\ entry_4w448 e P /\ ~ point_4w448 (mixadd448_4w st q e) (add448 Q P).
Proof. exact mix4q_refuted. Qed.
(** It is right whenever no limb of (y1-x1)(y2-x2) exceeds that of (y1+x1)(y2+x2) + 2^34 p; the products are those formed by the code. *)
Theorem C71_mixadd_4w_partial : forall st q e Q P, point_4w448 q Q -> entry_4w448 e P ->
  (forall i, (i < 16)%nat -> nth i (lane 4 16 0 (mix448_ABCD st q e)) 0 <= nth i (lane 4 16 1 (mix448_ABCD st q e)) 0 + nth i limbs_2_34P448 0) ->
  point_4w448 (mixadd448_4w st q e) (add448 Q P).
Proof. exact mix4q_spec. Qed.
(** the neutral element in limbs above p, and its sum with itself *)
Example C71_case : point_4w448 badq (0, 1) /\ entry_4w448 badqe (0, 1) /\ add448 (0, 1) (0, 1) = (0, 1).
Proof. exact (conj badq_point (conj badqe_entry addq_zero_zero)). Qed.

(** ** C72: the tables hold the right multiples of the base point, whose order is the order used for scalars *)
Theorem C72_sign_table : forall i m, (i < 28)%nat -> (m < 8)%nat ->
  entry_numbers448 (comb_number448 TableSign_w4_3675k i m) (mul448 ((1 + Z.of_nat m) * 16 ^ (4 * Z.of_nat i)) B_ed448).
Proof. exact sign_table448_spec. Qed.
Theorem C72_verify_table : forall j, (j < 32)%nat -> entry_numbers448 (list_number448 TableVerif_static_w7_Ed448 j) (mul448 (2 * Z.of_nat j + 1) B_ed448).
Proof. exact verf_table448_spec. Qed.
Theorem C72_base_order : on448 B_ed448 /\ mul448 L448 B_ed448 = (0, 1).
Proof. exact (conj onB order_B448). Qed.
Example C72_case : (27 < 28)%nat /\ (31 < 32)%nat /\ length TableSign_w4_3675k = (28 * 168)%nat /\ length TableVerif_static_w7_Ed448 = (32 * 21)%nat.
Proof. split; [repeat constructor|]. split; [repeat constructor|]. split; reflexivity. Qed.

(** ** C73: the encoding of a point *)
(** Projective coordinates are encoded as RFC 8032 says, unless a coordinate is in the sparse set for which the conversion of a field element to
    bytes loses a carry (C28, C37). *)
Theorem C73_encoding_partial : forall st p P, projective448 (fst p) (snd p) P -> ~ carry_lost (fst P) -> ~ carry_lost (snd P) ->
  encodes448 (point_encoding448 st p) P.
Proof. intros st p P H. exact (point_encoding448_ok st p P (proj1 (projq_iff p P) H)). Qed.
Example C73_case : ~ carry_lost (fst case_p) /\ ~ carry_lost (snd case_p) /\ case_p = mul448 (4 * case_q) B_ed448.
Proof. exact (conj (proj1 case_plain) (conj (proj2 case_plain) case_pt)). Qed.

(** ** C74: key generation *)
(** [kept x]: no carry is lost in the division of x by four modulo the order (C54).  [quarter_of x q]: q is x/4 modulo the order, in the range of the
    reduction.  [safe_number q]: q has signed digits -8..7 in base 16 that avoid five pairs of a block of four digits and a value, the pairs of [risky]; the five
    table entries are those for which the four-way mixed addition could borrow for some accumulator. *)
Theorem C74_fixed_base_partial : forall st junk K0 S0, words 2 junk -> length K0 = 115%nat -> length S0 = 115%nat -> forall r, bytes 57 r ->
  good_scalar (le_val (firstn 56 r)) ->
  let R := fixed_point_multiplication448 st junk K0 S0 r in projective448 (fst R) (snd R) (mul448 (le_val (firstn 56 r)) B_ed448).
Proof. intros st junk K0 S0 HJ LK LS r Hr G R. exact (proj2 (projq_iff _ _) (fixed448_ok st junk K0 S0 HJ LK LS r Hr G)). Qed.
Theorem C74_keygen_partial : forall st junk K0 S0, words 2 junk -> length K0 = 115%nat -> length S0 = 115%nat ->
  forall H, (forall x, bytes 114 (H 114%nat x)) -> forall sk, good_scalar (secret448 H sk) ->
  ~ carry_lost (fst (mul448 (secret448 H sk) B_ed448)) /\ ~ carry_lost (snd (mul448 (secret448 H sk) B_ed448)) ->
  fst (ed448_keygen st junk K0 S0 H sk) = EDDSA_KEYGEN_OK /\ public448 H sk (snd (ed448_keygen st junk K0 S0 H sk)).
Proof. exact keygen448_ok. Qed.
Theorem C74_meaning : forall x, good_scalar x <->
  ((no_lost_carry 0 7 7 SpecScalar.quarter448 x /\ no_lost_carry448 (SpecScalar.quarter448 * x)) /\
   forall q, 0 <= q < 2 ^ 446 + 3 * (2 ^ 446 - L448) -> Spec.eqm L448 (4 * q) x -> exists D,
     (forall m, (m < 112)%nat -> - 8 <= D m <= 7 /\ ~ In ((m / 4)%nat, D m) [(5%nat, 4); (16%nat, -3); (18%nat, 4); (20%nat, -3); (27%nat, -3)]) /\ weighted 16 D 112 = q).
Proof. exact good_scalar_iff. Qed.
Example C74_case : forall sk, (forall x, bytes 114 (case_hash 114 x)) /\ good_scalar (secret448 case_hash sk) /\ plain (mul448 (secret448 case_hash sk) B_ed448).
Proof. exact case_key. Qed.

(** A scalar for which the division by four loses a carry: the result is another multiple. *)
Theorem C74_refuted : exists r, bytes 57 r /\ 2 ^ 447 <= le_val r < 2 ^ 448 /\ le_val r mod 4 = 0 /\
  forall st junk K0 S0, words 2 junk -> length K0 = 115%nat -> length S0 = 115%nat ->
  let R := fixed_point_multiplication448 st junk K0 S0 r in ~ projective448 (fst R) (snd R) (mul448 (le_val (firstn 56 r)) B_ed448).
Proof.
  destruct fixed448_refuted as (r & A & B & C & D). exists r. split; [exact A|]. split; [exact B|]. split; [exact C|].
  intros st junk K0 S0 HJ LK LS R H. exact (D st junk K0 S0 HJ LK LS (proj1 (projq_iff _ _) H)).
Qed.

(** ** C75: signing *)
(** R encodes [r]B and S = r + k a modulo the order, in the range of the reduction; if S is below the order, the result is the signature of RFC 8032. *)
Theorem C75_signature_partial : forall st junk K0 S0, words 2 junk -> length K0 = 115%nat -> length S0 = 115%nat ->
  forall H, (forall x, bytes 114 (H 114%nat x)) -> forall m sig0 M pk sk, (length (context448 m) <= 255)%nat ->
  no_lost_carry448 (le_val (H 114%nat (nonce_input448 H m sk M))) -> good_residue (nonce448 H m sk M) -> plain (mul448 (nonce448 H m sk M) B_ed448) ->
  (forall R, encodes448 R (mul448 (nonce448 H m sk M) B_ed448) -> no_lost_carry448 (le_val (H 114%nat (challenge_input448 H m R pk M))) /\
     good_sum (nonce448 H m sk M) (challenge448 H m R pk M) (secret448 H sk)) ->
  let (ret, sig) := sign448_with st junk K0 S0 H m sig0 M pk sk in
  ret = EDDSA_SIGNATURE_OK /\ bytes 114 sig /\ encodes448 (firstn 57 sig) (mul448 (nonce448 H m sk M) B_ed448) /\
  in_range (le_val (skipn 57 sig)) (nonce448 H m sk M + challenge448 H m (firstn 57 sig) pk M * secret448 H sk) /\
  (le_val (skipn 57 sig) < L448 -> signature448 H m sk pk M sig).
Proof. exact sign448_ok. Qed.
Example C75_case : forall m sk pk M, let H := case_hash in
  no_lost_carry448 (le_val (H 114%nat (nonce_input448 H m sk M))) /\ good_residue (nonce448 H m sk M) /\ plain (mul448 (nonce448 H m sk M) B_ed448) /\
  forall R, encodes448 R (mul448 (nonce448 H m sk M) B_ed448) -> no_lost_carry448 (le_val (H 114%nat (challenge_input448 H m R pk M))) /\
     good_sum (nonce448 H m sk M) (challenge448 H m R pk M) (secret448 H sk).
Proof. exact case_sign. Qed.

Definition edwards448 := (C71_doubling_2w, C71_fulladd_2w, C71_isogeny, C71_doubling_4w, C71_mixadd_4w_refuted, C71_mixadd_4w_partial, C72_sign_table, C72_verify_table,
  C72_base_order, C73_encoding_partial, C74_fixed_base_partial, C74_keygen_partial, C74_meaning, C74_refuted, C75_signature_partial).
Print Assumptions edwards448.
