(** Property theorems about X25519 and X448 shared secrets (C31-C33, C35-C38). *)
From Coq Require Import ZArith List.
From Verif Require Import Uop Engine Bytes SpecX Fp25519Full Fp448RedProofs Ladder LadderProofs LadderVec LadderVec448 LadderSmall LadderX448 X448Case LadderMem CurveDH DHProofs.
Import ListNotations.
Open Scope Z_scope.

(** ** C31: both implementations of X25519 compute the function of RFC 7748 *)
Theorem C31_avx2 : forall st c k u, bytes 32 k -> bytes 32 u ->
  bytes 32 (x25519_shared_avx2 st c u k) /\ le_val (x25519_shared_avx2 st c u k) = X25519_spec (le_val k) (le_val u).
Proof. exact X25519_avx2_ok. Qed.
Theorem C31_x64 : forall st c k u, bytes 32 k -> bytes 32 u ->
  bytes 32 (x25519_shared_x64 st c u k) /\ le_val (x25519_shared_x64 st c u k) = X25519_spec (le_val k) (le_val u).
Proof. exact X25519_x64_ok. Qed.
(** non-canonical public keys and keys with the top bit set are among the inputs *)
Example C31_case : bytes 32 (repeat 255 32) /\ 2 ^ 255 - 19 < le_val (repeat 255 32) mod 2 ^ 255 /\
  scalar25519 (le_val (repeat 255 32)) = 2 ^ 255 - 8.
Proof. split; [split; [reflexivity|repeat constructor; discriminate]|]. split; vm_compute; reflexivity. Qed.

(** ** C32: they agree, whatever the processor and the previous contents of memory *)
Theorem C32_agree : forall st st' c c' k u, bytes 32 k -> bytes 32 u -> x25519_shared_avx2 st c u k = x25519_shared_x64 st' c' u k.
Proof. exact X25519_agree. Qed.

(** ** C33: Diffie-Hellman agreement, for every starting u (on the curve, on its twist, of small order, non-canonical) *)
Theorem C33_spec : forall a b u, X25519_spec a (X25519_spec b u) = X25519_spec b (X25519_spec a u).
Proof. exact X25519_spec_agree. Qed.
Theorem C33_agree : forall st c st1 c1 st2 c2 st3 c3 a b u, bytes 32 a -> bytes 32 b -> bytes 32 u ->
  x25519_shared_avx2 st c (x25519_shared_avx2 st1 c1 u b) a = x25519_shared_avx2 st2 c2 (x25519_shared_avx2 st3 c3 u a) b.
Proof. exact X25519_dh. Qed.
Theorem C33_mixed : forall st c st1 c1 st2 c2 st3 c3 a b u, bytes 32 a -> bytes 32 b -> bytes 32 u ->
  x25519_shared_avx2 st c (x25519_shared_x64 st1 c1 u b) a = x25519_shared_x64 st2 c2 (x25519_shared_avx2 st3 c3 u a) b.
Proof. exact X25519_dh_mixed. Qed.
(** u = 9 is on the curve and u = 2 on the twist: 2^3 + 486662*2^2 + 2 is not a square, 9^3 + 486662*9^2 + 9 is *)
Example C33_case : bytes 32 (9 :: repeat 0 31) /\ bytes 32 (2 :: repeat 0 31) /\
  (14781619447589544791020593568409986887264606134616475288964881837755586237401 ^ 2 - (9 ^ 3 + 486662 * 9 ^ 2 + 9)) mod (2 ^ 255 - 19) = 0.
Proof. split; [|split]; [split; [reflexivity|repeat constructor; discriminate]|split; [reflexivity|repeat constructor; discriminate]|vm_compute; reflexivity]. Qed.

(** ** C35: the bits that matter and the memory that is written *)
Theorem C35_bits : forall st st' c c' k k' u u', bytes 32 k -> bytes 32 k' -> bytes 32 u -> bytes 32 u' ->
  (forall i, 3 <= i < 254 -> Z.testbit (le_val k) i = Z.testbit (le_val k') i) ->
  (forall i, 0 <= i < 255 -> Z.testbit (le_val u) i = Z.testbit (le_val u') i) ->
  x25519_shared_avx2 st c u k = x25519_shared_avx2 st' c' u' k' /\ x25519_shared_x64 st c u k = x25519_shared_x64 st' c' u' k'.
Proof. exact X25519_avx2_bits. Qed.
Example C35_case : let k := 199 :: repeat 3 31 in let k' := 192 :: repeat 3 30 ++ [195] in
  bytes 32 k /\ bytes 32 k' /\ k <> k' /\ scalar25519 (le_val k) = scalar25519 (le_val k') /\ scalar25519 (le_val k) <> scalar25519 (le_val (repeat 3 32)).
Proof.
  cbv zeta. split; [split; [reflexivity|repeat constructor; discriminate]|]. split; [split; [reflexivity|repeat constructor; discriminate]|].
  split; [discriminate|]. split; vm_compute; [reflexivity|discriminate].
Qed.
Theorem C35_buffers_avx2 : forall st c, shared_effect 32 X25519_spec (x25519_avx2_c st c).
Proof. exact x25519_avx2_effect. Qed.
Theorem C35_buffers_x64 : forall st c, shared_effect 32 X25519_spec (x25519_x64_c st c).
Proof. exact x25519_x64_effect. Qed.
(** a key buffer overlapping the output is read before it is overwritten *)
Example C35_overlap : let m := fun x => x mod 256 in bytes_mem m /\ load m 100 32 <> load m 116 32.
Proof. split; [intro x; apply Z.mod_pos_bound; reflexivity|vm_compute; discriminate]. Qed.

(** ** C36: points of order dividing 8 *)
Theorem C36_spec : forall k u, In (u mod 2 ^ 255) lowu25519 -> X25519_spec k u = 0.
Proof. exact X25519_small. Qed.
Theorem C36_shared : forall st c k u, bytes 32 k -> bytes 32 u -> In (le_val u mod 2 ^ 255) lowu25519 ->
  x25519_shared_avx2 st c u k = repeat 0 32 /\ x25519_shared_x64 st c u k = repeat 0 32.
Proof. exact X25519_low_zero. Qed.
Example C36_case : lowu25519 = [0; 1;
  325606250916557431795983626356110631294008115727848805560023387167927233504;
  39382357235489614581723060781553021112529911719440698176882885853963445705823;
  2 ^ 255 - 20; 2 ^ 255 - 19; 2 ^ 255 - 18] /\
  let u := [224; 235; 122; 124; 59; 65; 184; 174; 22; 86; 227; 250; 241; 159; 196; 106; 218; 9; 141; 235; 156; 50; 177; 253; 134; 98; 5; 22; 95; 73; 184; 128] in
  bytes 32 u /\ In (le_val u mod 2 ^ 255) lowu25519.
Proof. split; [reflexivity|]. split; [split; [reflexivity|repeat constructor; discriminate]|]. right. right. left. vm_compute. reflexivity. Qed.

(** ** C37: X448 *)
(** The ladder and the inversion are right for all inputs. *)
Theorem C37_affine : forall st k u, bytes 56 k -> bytes 56 u ->
  arr_ok red448 (x448_affine st u k) /\ fe448 (x448_affine st u k) mod (2 ^ 448 - 2 ^ 224 - 1) = X448_spec (le_val k) (le_val u).
Proof. exact X448_affine_ok. Qed.
(** The bytes written are right exactly when no carry is lost in the last conversion ... *)
Theorem C37_exact : forall st k u, bytes 56 k -> bytes 56 u -> let v := X448_spec (le_val k) (le_val u) in
  bytes 56 (x448_shared_avx2 st u k) /\
  (le_val (x448_shared_avx2 st u k) = v <-> ~ (2 ^ 448 <= fe448 (x448_affine st u k) /\ carry_lost v)).
Proof. exact X448_shared_ok. Qed.
(** ... hence for every result except those in a set of density below 2^-190, *)
Theorem C37_shared_partial : forall st k u, bytes 56 k -> bytes 56 u ->
  ~ carry_lost (X448_spec (le_val k) (le_val u)) -> le_val (x448_shared_avx2 st u k) = X448_spec (le_val k) (le_val u).
Proof. exact X448_shared_most. Qed.
Example C37_lost : forall v, carry_lost v <-> (2 ^ 224 + 1 <= v < 2 ^ 263 /\ (v mod 2 ^ 64 = 0 \/ ((v - 1) / 2 ^ 224) mod 2 ^ 32 = 0)).
Proof. intro v. reflexivity. Qed.
(** ... and the set is not empty: the statement for all inputs is false. *)
Theorem C37_refuted : forall st, exists k u, bytes 56 k /\ bytes 56 u /\
  le_val (x448_shared_avx2 st u k) <> X448_spec (le_val k) (le_val u).
Proof. exact X448_refuted. Qed.
Theorem C37_wrong_bytes : forall st, let k := repeat 0 56 in
  X448_spec (le_val k) (le_val case_pk) = 2 ^ 224 + 6 * 2 ^ 64 /\ le_val (x448_shared_avx2 st case_pk k) = 2 ^ 224 + 5 * 2 ^ 64.
Proof. exact X448_wrong. Qed.
(** The points of order dividing 4 give zero bytes. *)
Theorem C37_small : forall st k u, bytes 56 k -> bytes 56 u -> In (le_val u) lowu448 -> x448_shared_avx2 st u k = repeat 0 56.
Proof. exact X448_low_zero. Qed.
Example C37_small_case : lowu448 = [0; 1; 2 ^ 448 - 2 ^ 224 - 2; 2 ^ 448 - 2 ^ 224 - 1; 2 ^ 448 - 2 ^ 224].
Proof. reflexivity. Qed.
Theorem C37_buffers : forall st m out u k, bytes_mem m -> let m' := fst (x448_avx2_c st m out u k) in
  snd (x448_avx2_c st m out u k) = 0 /\
  (~ carry_lost (X448_spec (le_val (load m k 56)) (le_val (load m u 56))) ->
   le_val (load m' out 56) = X448_spec (le_val (load m k 56)) (le_val (load m u 56))) /\
  forall x, ~ (out <= x < out + 56) -> m' x = m x.
Proof. exact x448_avx2_effect. Qed.

(** ** C38: agreement of X448: unconditional for the function of RFC 7748, and for the code
    unless a carry is lost (C37_refuted) in writing one of the two public values or the common result *)
Theorem C38_spec : forall a b u, X448_spec a (X448_spec b u) = X448_spec b (X448_spec a u).
Proof. exact X448_spec_agree. Qed.
Theorem C38_shared_partial : forall st st1 st2 st3 a b u, bytes 56 a -> bytes 56 b -> bytes 56 u ->
  ~ carry_lost (X448_spec (le_val a) (le_val u)) -> ~ carry_lost (X448_spec (le_val b) (le_val u)) ->
  ~ carry_lost (X448_spec (le_val a) (X448_spec (le_val b) (le_val u))) ->
  x448_shared_avx2 st (x448_shared_avx2 st1 u b) a = x448_shared_avx2 st2 (x448_shared_avx2 st3 u a) b.
Proof. exact X448_dh. Qed.
Example C38_case : let u := 1 :: repeat 0 55 in forall a b, bytes 56 u /\ ~ carry_lost (X448_spec a (le_val u)) /\
  ~ carry_lost (X448_spec a (X448_spec b (le_val u))).
Proof.
  intros u a b. split; [split; [reflexivity|repeat constructor; discriminate]|].
  assert (E : forall k, X448_spec k (le_val u) = 0) by (intro k; exact (X448_small k 1 (or_intror (or_introl eq_refl)))).
  rewrite !E. rewrite (X448_small a 0 (or_introl eq_refl)). split; intros [[H _] _]; vm_compute in H; exact (H eq_refl).
Qed.

Definition ladder_properties := (C31_avx2, C31_x64, C32_agree, C33_spec, C33_agree, C33_mixed, C35_bits, C35_buffers_avx2, C35_buffers_x64, C36_spec, C36_shared,
  C37_affine, C37_exact, C37_shared_partial, C37_refuted, C37_wrong_bytes, C37_small, C37_buffers, C38_spec, C38_shared_partial).
Print Assumptions ladder_properties.
