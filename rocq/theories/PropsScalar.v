(** Property theorems about scalars modulo the group orders (C41, C42, C54). *)
From Coq Require Import ZArith List PArith FMapPositive.
From Verif Require Import Engine Bytes Spec SpecScalar Scalar Scalar448 Scalar448Proofs ScalarProps.
Import ListNotations.
Open Scope Z_scope.

(** ** C41: reduction of 512-bit numbers modulo the order of edwards25519 *)
(** The residue, or the residue minus the order modulo 2^256; the latter only for the
    42*(L25519-2^252) + ... largest residues (a fraction 2^-122 of all). *)
Theorem C41_reduction : forall st a, words 8 a ->
  let res := firstn 4 (modular_reduction_ed25519 st a) in
  words 4 res /\
  (val res = val a mod L25519 \/
   (val res = 2 ^ 256 - L25519 + val a mod L25519 /\ 2 ^ 252 - 42 * (L25519 - 2 ^ 252) <= val a mod L25519)).
Proof. exact red255_spec. Qed.
(** The claim that the result is always congruent is false: every residue from 2^252 on comes out wrong. *)
Theorem C41_refuted : forall st a, words 8 a -> 2 ^ 252 <= val a mod L25519 ->
  val (firstn 4 (modular_reduction_ed25519 st a)) = 2 ^ 256 - L25519 + val a mod L25519.
Proof. exact red255_wrong. Qed.
Example C41_case : words 8 (limbs64 8 (3 * L25519 + 2 ^ 252)) /\ 2 ^ 252 <= val (limbs64 8 (3 * L25519 + 2 ^ 252)) mod L25519.
Proof. split; [apply limbs64_words|vm_compute; discriminate]. Qed.
(** The secret scalar of key generation: clamped, then reduced. *)
Theorem C41_secret_scalar : forall st az, bytes 64 az ->
  let x := clamped255 (le_val (firstn 32 az)) in
  let res := secret_scalar st az in
  words 4 res /\
  (val res = x mod L25519 \/
   (val res = 2 ^ 256 - L25519 + x mod L25519 /\ 2 ^ 252 - 42 * (L25519 - 2 ^ 252) <= x mod L25519)).
Proof. exact secret_scalar_spec. Qed.
Example C41_secret_case : bytes 64 (bytes_n 64 (2 ^ 500 + 12345)) /\ clamped255 (2 ^ 255 - 1) = 2 ^ 255 - 8.
Proof. split; [apply bytes_n_ok|reflexivity]. Qed.

(** ** C42: s = r + k*a *)
(** Exact value: r + k*a less the carries the multiplier drops, reduced as in C41. *)
Theorem C42_s25519 : forall st r k a, words 4 r -> words 4 k -> words 4 a ->
  let s := calculate_s_ed25519 st r k a in
  let n := val r + val k * val a - dropped (val r) k a in
  words 4 s /\ 0 <= dropped (val r) k a /\
  (val s = n mod L25519 \/ (val s = 2 ^ 256 - L25519 + n mod L25519 /\ 2 ^ 252 - 42 * (L25519 - 2 ^ 252) <= n mod L25519)).
Proof. exact s255_spec. Qed.
(** Right whenever no carry is dropped and the residue is not among the largest. *)
Theorem C42_s25519_right : forall st r k a, words 4 r -> words 4 k -> words 4 a -> dropped (val r) k a = 0 ->
  (val r + val k * val a) mod L25519 < 2 ^ 252 - 42 * (L25519 - 2 ^ 252) ->
  val (calculate_s_ed25519 st r k a) = (val r + val k * val a) mod L25519.
Proof. exact s255_right. Qed.
Example C42_case : let r := limbs64 4 (7 ^ 89) in let k := limbs64 4 (2 ^ 251 + 3 ^ 100) in let a := limbs64 4 (2 ^ 254 + 8 * 5 ^ 100) in
  dropped (val r) k a = 0 /\ (val r + val k * val a) mod L25519 < 2 ^ 252 - 42 * (L25519 - 2 ^ 252).
Proof. split; vm_compute; reflexivity. Qed.
(** The unrestricted claim is false, also for reduced r and k and clamped a. *)
Theorem C42_refuted : exists r k a, words 4 r /\ words 4 k /\ words 4 a /\
  val r < L25519 /\ val k < L25519 /\ 2 ^ 254 <= val a < 2 ^ 255 /\ val a mod 8 = 0 /\
  forall st, ~ eqm L25519 (val (calculate_s_ed25519 st r k a)) (val r + val k * val a).
Proof. exact s255_refuted. Qed.
Theorem C42_s448 : forall st junk r h a, words 2 junk -> bytes 57 r -> bytes 57 h -> bytes 57 a ->
  let x := le_val (firstn 56 r) in let y := le_val (firstn 56 h) in let z := le_val (firstn 56 a) in
  let s := calculate_s_ed448 st junk r h a in
  bytes 57 s /\ 0 <= le_val s < 2 ^ 448 /\
  (no_lost_carry x 7 7 y z -> no_lost_carry448 (x + y * z) ->
   eqm L448 (le_val s) (x + y * z) /\ le_val s < 2 ^ 446 + 3 * (2 ^ 446 - L448)).
Proof. exact s448_spec. Qed.
Example C42_case448 : let x := 7 ^ 150 in let y := 2 ^ 444 + 3 ^ 200 in let z := 2 ^ 447 + 4 * 5 ^ 150 in
  no_lost_carry x 7 7 y z /\ no_lost_carry448 (x + y * z).
Proof. split; [apply keepf_ok; vm_compute; reflexivity|apply keep448f_ok; vm_compute; reflexivity]. Qed.
Theorem C42_refuted448 : exists r h a, bytes 57 r /\ bytes 57 h /\ bytes 57 a /\
  le_val r < L448 /\ le_val h < L448 /\ 2 ^ 447 <= le_val a < 2 ^ 448 /\ le_val a mod 4 = 0 /\
  forall st junk, words 2 junk -> ~ eqm L448 (le_val (calculate_s_ed448 st junk r h a)) (le_val r + le_val h * le_val a).
Proof. exact s448_refuted. Qed.

(** ** C54: Ed448 *)
Theorem C54_reduction : forall st junk a, words 2 junk -> bytes 114 a ->
  let res := modular_reduction_ed448 st junk a in
  bytes 114 res /\ 0 <= le_val res < 2 ^ 448 /\
  (no_lost_carry448 (le_val a) -> eqm L448 (le_val res) (le_val a) /\ le_val res < 2 ^ 446 + 3 * (2 ^ 446 - L448)).
Proof. exact red448_spec. Qed.
Theorem C54_uninitialised : forall st st' junk junk' a, words 2 junk -> words 2 junk' -> bytes 114 a ->
  modular_reduction_ed448 st junk a = modular_reduction_ed448 st' junk' a.
Proof. exact red448_indep. Qed.
Theorem C54_div4 : forall st junk a, words 2 junk -> bytes 57 a ->
  let x := le_val (firstn 56 a) in let res := div4 st junk a in
  bytes 57 res /\ 0 <= le_val res < 2 ^ 448 /\
  (no_lost_carry 0 7 7 quarter448 x -> no_lost_carry448 (quarter448 * x) ->
   eqm L448 (4 * le_val res) x /\ le_val res < 2 ^ 446 + 3 * (2 ^ 446 - L448)).
Proof. exact div4_spec. Qed.
Example C54_case : no_lost_carry448 (7 ^ 300) /\ 2 ^ 840 < 7 ^ 300 /\
  no_lost_carry 0 7 7 quarter448 (3 ^ 280) /\ no_lost_carry448 (quarter448 * 3 ^ 280).
Proof.
  split; [apply keep448f_ok; vm_compute; reflexivity|]. split; [vm_compute; reflexivity|].
  split; [apply keepf_ok; vm_compute; reflexivity|]. apply keep448f_ok; vm_compute; reflexivity.
Qed.
(** The result need not be the canonical residue ... *)
Theorem C54_not_canonical : exists a, bytes 114 a /\ no_lost_carry448 (le_val a) /\
  forall st junk, words 2 junk -> le_val (modular_reduction_ed448 st junk a) = L448 /\ le_val (modular_reduction_ed448 st junk a) <> le_val a mod L448.
Proof. exact red448_not_canonical. Qed.
(** ... nor even congruent when a carry is dropped. *)
Theorem C54_refuted : exists a, bytes 114 a /\
  forall st junk, words 2 junk -> ~ eqm L448 (le_val (modular_reduction_ed448 st junk a)) (le_val a).
Proof. exact red448_refuted. Qed.
Definition scalars := (C41_reduction, C41_refuted, C41_secret_scalar, C42_s25519, C42_s25519_right, C42_refuted, C42_s448, C42_refuted448,
  C54_reduction, C54_uninitialised, C54_div4, C54_not_canonical, C54_refuted).
Print Assumptions scalars.
