(** The two-way hash to the field against the one of h2c25519_x64. *)
From Coq Require Import ZArith List Bool Lia.
From Verif Require Import Uop Engine Bytes SpecSha2 Sign255 Sha512 Sha512Proofs HashProps Sha512x2 Sha512x2Proofs Hash255 Hash255x2 H2cCase.
Import ListNotations.
Open Scope Z_scope.
(** The 80 registers of an uninitialised array: any contents *)
Definition registers (block : list vec) : Prop := length block = 80%nat /\ Forall (fun v => 0 <= fst v < 2 ^ 64 /\ 0 <= snd v < 2 ^ 64) block.
Lemma sha512_2w_fips block m0 m1 len : registers block -> Forall byte m0 -> Forall byte m1 -> 0 <= len < 2 ^ 32 -> len <= Z.of_nat (length m0) -> len <= Z.of_nat (length m1) ->
  sha512_2w_avx block m0 m1 len = (SHA512_fips (firstn (Z.to_nat len) m0), SHA512_fips (firstn (Z.to_nat len) m1)).
Proof. intros [L F] F0 F1 [H _]. exact (sha512_2w_ok block m0 m1 len L F F0 F1 H). Qed.
Lemma registers_case : registers (repeat (2 ^ 64 - 1, 7) 80).
Proof. split; [reflexivity|]. apply Forall_forall. intros x Hx. apply repeat_spec in Hx. subst x. cbn [fst snd]. lia. Qed.
Lemma x64_digest st c prefix msg : clean c -> byte prefix -> Forall byte msg -> Z.of_nat (length msg) + 1 < 2 ^ 64 ->
  hash_to_field st c prefix msg = words_of 4 (reduced_digest st (SHA512_fips (prefix :: msg))).
Proof.
  intros Hc Hp Hm HL. unfold hash_to_field. cbv zeta.
  pose proof (proj1 (sha512_fips c [[prefix]; msg] Hc ltac:(constructor; [constructor; [exact Hp|constructor]|constructor; [exact Hm|constructor]])
    ltac:(cbn [concat app length]; rewrite app_nil_r, Nat2Z.inj_succ; lia))) as E.
  cbn [concat app] in E. rewrite app_nil_r in E. cbn [sph_sha512_all fold_left] in E. unfold sph_sha512_all in E. cbn [fold_left] in E. rewrite E. reflexivity.
Qed.
Lemma byte0 : byte 0. Proof. split; [discriminate|reflexivity]. Qed.
Lemma byte1 : byte 1. Proof. split; [discriminate|reflexivity]. Qed.
Lemma field_2w st block msg : registers block -> Forall byte msg -> Z.of_nat (length msg) + 1 < 2 ^ 64 ->
  let n := Z.to_nat ((Z.of_nat (length msg) + 1) mod 2 ^ 32) in
  hash_to_field_2w st block msg = (words_of 4 (reduced_digest st (SHA512_fips (firstn n (0 :: msg)))), words_of 4 (reduced_digest st (SHA512_fips (firstn n (1 :: msg))))).
Proof.
  intros R F HL. cbv zeta. unfold hash_to_field_2w. cbv zeta. rewrite (Z.mod_small _ (2 ^ 64)) by lia.
  pose proof (Z.mod_pos_bound (Z.of_nat (length msg) + 1) (2 ^ 32) ltac:(lia)) as B. pose proof (Z.mod_le (Z.of_nat (length msg) + 1) (2 ^ 32) ltac:(lia) ltac:(lia)) as C.
  assert (L : forall x : Z, Z.of_nat (length (x :: msg)) = Z.of_nat (length msg) + 1) by (intro x; cbn [length]; lia).
  rewrite (sha512_2w_fips block (0 :: msg) (1 :: msg) _ R); [reflexivity|constructor; [exact byte0|exact F]|constructor; [exact byte1|exact F]|exact B|rewrite L; exact C|rewrite L; exact C].
Qed.
Theorem field_equal st block c0 c1 msg : registers block -> clean c0 -> clean c1 -> Forall byte msg -> Z.of_nat (length msg) + 1 < 2 ^ 32 ->
  hash_to_field_2w st block msg = (hash_to_field st c0 0 msg, hash_to_field st c1 1 msg).
Proof.
  intros R H0 H1 F HL. rewrite (field_2w st block msg R F) by lia. rewrite (Z.mod_small _ (2 ^ 32)) by lia. replace (Z.to_nat (Z.of_nat (length msg) + 1)) with (Datatypes.S (length msg)) by lia.
  cbn [firstn]. rewrite firstn_all. rewrite (x64_digest st c0 0 msg H0 byte0 F), (x64_digest st c1 1 msg H1 byte1 F) by lia. reflexivity.
Qed.
(** A longer message: the values of a prefix *)
Theorem field_long st block c0 c1 msg : registers block -> clean c0 -> clean c1 -> Forall byte msg -> Z.of_nat (length msg) + 1 < 2 ^ 64 ->
  0 < (Z.of_nat (length msg) + 1) mod 2 ^ 32 -> let kept := firstn (Z.to_nat ((Z.of_nat (length msg) + 1) mod 2 ^ 32 - 1)) msg in
  hash_to_field_2w st block msg = (hash_to_field st c0 0 kept, hash_to_field st c1 1 kept).
Proof.
  intros R H0 H1 F HL Hn kept. rewrite (field_2w st block msg R F HL). cbv zeta. set (n := (Z.of_nat (length msg) + 1) mod 2 ^ 32) in *.
  assert (Fk : Forall byte kept) by (apply Forall_first, F). assert (Lk : Z.of_nat (length kept) + 1 < 2 ^ 64) by (unfold kept; rewrite firstn_length; lia).
  rewrite (x64_digest st c0 0 kept H0 byte0 Fk Lk), (x64_digest st c1 1 kept H1 byte1 Fk Lk). unfold kept. clearbody n.
  replace (Z.to_nat n) with (Datatypes.S (Z.to_nat (n - 1))) by lia. reflexivity.
Qed.
Lemma field_collapse st block msg : registers block -> Forall byte msg -> Z.of_nat (length msg) = 2 ^ 32 - 1 ->
  hash_to_field_2w st block msg = (words_of 4 (reduced_digest st (SHA512_fips [])), words_of 4 (reduced_digest st (SHA512_fips []))).
Proof. intros R F HL. rewrite (field_2w st block msg R F) by lia. rewrite HL. replace ((2 ^ 32 - 1 + 1) mod 2 ^ 32) with 0 by reflexivity. reflexivity. Qed.
Theorem field_refuted : exists msg msg', msg <> msg' /\ Forall byte msg /\ Forall byte msg' /\ Z.of_nat (length msg) = 2 ^ 32 - 1 /\ Z.of_nat (length msg') = 2 ^ 32 - 1 /\
  forall st block, registers block -> hash_to_field_2w st block msg = hash_to_field_2w st block msg' /\ fst (hash_to_field_2w st block msg) = snd (hash_to_field_2w st block msg).
Proof.
  assert (G : forall n : nat, (0 < n)%nat -> repeat 0 n <> repeat 1 n) by (intros [|n] H E; [lia|discriminate E]).
  assert (Z0 : forall x n, byte x -> Forall byte (repeat x n)) by (intros x n Hx; apply Forall_forall; intros y Hy; apply repeat_spec in Hy; subst y; exact Hx).
  assert (L : forall (x : Z) n, 0 <= n -> Z.of_nat (length (repeat x (Z.to_nat n))) = n) by (intros x n H; rewrite repeat_length; lia).
  pose proof (L 0 (2 ^ 32 - 1) ltac:(discriminate)) as La. pose proof (L 1 (2 ^ 32 - 1) ltac:(discriminate)) as Lb.
  assert (Hn : (0 < Z.to_nat (2 ^ 32 - 1))%nat) by (apply (Z2Nat.inj_lt 0); [discriminate|discriminate|reflexivity]).
  generalize dependent (Z.to_nat (2 ^ 32 - 1)). intros n La Lb Hn. exists (repeat 0 n), (repeat 1 n).
  pose proof (Z0 0 n byte0) as F0. pose proof (Z0 1 n byte1) as F1.
  split; [exact (G n Hn)|]. split; [exact F0|]. split; [exact F1|]. split; [exact La|]. split; [exact Lb|].
  intros st block R. rewrite (field_collapse st block _ R F0 La), (field_collapse st block _ R F1 Lb). split; reflexivity.
Qed.
Ltac small_list := repeat (constructor; [split; [discriminate|reflexivity]|]); constructor.
Lemma sha_2w_case : registers (repeat (2 ^ 64 - 1, 7) 80) /\ Forall byte [97; 98; 99] /\ Forall byte [255; 0; 1] /\ 0 <= 3 < 2 ^ 32 /\ 3 <= Z.of_nat (length [97; 98; 99]).
Proof.
  split; [exact registers_case|]. split; [small_list|]. split; [small_list|]. split; [split; [discriminate|reflexivity]|discriminate].
Qed.
Lemma field_2w_case : registers (repeat (2 ^ 64 - 1, 7) 80) /\ clean c_zero /\ Forall byte [104; 105] /\ Z.of_nat (length [104; 105]) + 1 < 2 ^ 32.
Proof. split; [exact registers_case|]. split; [exact c_zero_clean|]. split; [small_list|reflexivity]. Qed.
