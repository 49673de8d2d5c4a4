(** Property theorems about hashing to edwards25519 (C55, C56, C69, C70). *)
From Coq Require Import ZArith List.
From Verif Require Import Uop Engine Bytes Fp25519Full SpecScalar SpecEd SpecH2c SpecSha2 Edwards255 Sha512 HashProps Hash255 H2cCase H2cProps.
Import ListNotations.
Open Scope Z_scope.

(** [clean c] says that an uninitialised SHA-512 context has its 128-byte buffer. *)

(** ** C55: the result is a point of the curve *)
Theorem C55_on_curve : forall st k c0 c1 msg, clean c0 -> clean c1 -> Forall byte msg -> Z.of_nat (length msg) + 1 < 2 ^ 64 ->
  let P := h2c25519_x64 st k c0 c1 msg in
  words 4 (fst P) /\ words 4 (snd P) /\ on255 (val (fst P) mod p_ed255, val (snd P) mod p_ed255) /\ isOnCurve st k P = 1.
Proof. exact h2c_on_curve. Qed.
Example C55_case : clean c_zero /\ Forall byte [104; 105] /\ Z.of_nat (length [104; 105]) + 1 < 2 ^ 64.
Proof. exact clean_case. Qed.

(** ** C56: the field elements are residues modulo the group order, not modulo p *)
Theorem C56_refuted : forall st c, clean c -> val (hash_to_field st c 0 []) mod p_ed255 <> le_val (SHA512_fips [0]) mod p_ed255.
Proof. exact field_wrong. Qed.
Theorem C56_exact : forall st c prefix msg, clean c -> byte prefix -> Forall byte msg -> Z.of_nat (length msg) + 1 < 2 ^ 64 ->
  let u := hash_to_field st c prefix msg in let h := le_val (SHA512_fips (prefix :: msg)) in
  words 4 u /\ (val u = h mod L25519 \/ val u = 2 ^ 256 - L25519 + h mod L25519) /\ ~ (L25519 <= val u < 2 ^ 256 - L25519).
Proof. exact field_exact. Qed.

(** ** C69: the point is 8 (M(u0) + M(u1)), M the map of RFC 9380 (Elligator 2 and the rational map) *)
Theorem C69_point : forall st k c0 c1 msg, clean c0 -> clean c1 -> Forall byte msg -> Z.of_nat (length msg) + 1 < 2 ^ 64 ->
  let P := h2c25519_x64 st k c0 c1 msg in
  hashes_to (val (hash_to_field st c0 0 msg)) (val (hash_to_field st c1 1 msg)) (val (fst P) mod p_ed255, val (snd P) mod p_ed255).
Proof. exact h2c_point. Qed.
Theorem C69_map : forall st k u, words 4 u -> let P := map_to_curve st k u in
  exists Q, maps_to (val u) Q /\ on255 Q /\ reps255 (val (cX P)) (val (cY P)) (val (cZ P)) (val (cT P)) Q.
Proof. exact map_point. Qed.
Theorem C69_unique : forall u0 u1 P Q, hashes_to u0 u1 P -> hashes_to u0 u1 Q -> P = Q.
Proof. exact hashes_unique. Qed.
Example C69_case : maps_to 0 ed_zero.
Proof. exact map_exceptional. Qed.

(** ** C70: the decisions isOnCurve and areEqual *)
Theorem C70_decisions : forall st k (P Q : point), words 4 (fst P) -> words 4 (snd P) -> words 4 (fst Q) -> words 4 (snd Q) ->
  (isOnCurve st k P = 1 <-> on255 (val (fst P) mod p_ed255, val (snd P) mod p_ed255)) /\ (isOnCurve st k P = 0 \/ isOnCurve st k P = 1) /\
  (areEqual st P Q = 1 <-> val (fst P) mod p_ed255 = val (fst Q) mod p_ed255 /\ val (snd P) mod p_ed255 = val (snd Q) mod p_ed255) /\
  (areEqual st P Q = 0 \/ areEqual st P Q = 1).
Proof. exact decisions. Qed.

Definition h2c_properties := (C55_on_curve, C56_refuted, C56_exact, C69_point, C69_map, C69_unique, C69_case, C70_decisions).
Print Assumptions h2c_properties.
