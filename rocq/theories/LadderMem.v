(** Effect of the Diffie-Hellman functions on the caller's memory, and the bits
    of the inputs they depend on. *)
From Coq Require Import ZArith List Bool Lia.
From Verif Require Import Uop Engine Bytes SpecX Fp25519Full Ladder LadderProofs LadderVec LadderVec448 LadderSmall LadderX448 X448Case.
Import ListNotations.
Open Scope Z_scope.

(** Byte-addressed memory; pointers are addresses and buffers may overlap in any way. *)
Definition memory : Type := Z -> Z.
Definition load (m : memory) (a : Z) (n : nat) : list Z := map (fun i => m (a + Z.of_nat i)) (seq 0 n).
Definition store_at (m : memory) (a : Z) (bs : list Z) : memory :=
  fun x => if (a <=? x) && (x <? a + Z.of_nat (length bs)) then nth (Z.to_nat (x - a)) bs 0 else m x.
(** x25519_shared_avx2, ladder255.c:249-300, and x25519_shared_x64, :361-468: both
    keys are copied with memcpy into local buffers, the only write through a
    parameter is the final ser(shared_secret, ...); the value returned is 0. *)
Definition x25519_avx2_c (st : store) (k : cpu) (m : memory) (shared_secret session_key secret_key : Z) : memory * Z :=
  let secret := load m secret_key 32 in
  let session := load m session_key 32 in
  (store_at m shared_secret (x25519_shared_avx2 st k session secret), 0).
Definition x25519_x64_c (st : store) (k : cpu) (m : memory) (shared_secret session_key secret_key : Z) : memory * Z :=
  let secret := load m secret_key 32 in
  let session := load m session_key 32 in
  (store_at m shared_secret (x25519_shared_x64 st k session secret), 0).
(** x448_shared_avx2, ladder448.c:254-293 *)
Definition x448_avx2_c (st : store) (m : memory) (shared_secret session_key secret_key : Z) : memory * Z :=
  let secret := load m secret_key 56 in
  let session := load m session_key 56 in
  (store_at m shared_secret (x448_shared_avx2 st session secret), 0).

Lemma nth_seq0 n j : (j < n)%nat -> nth j (seq 0 n) 0%nat = j.
Proof. intro H. now rewrite seq_nth by exact H. Qed.
Lemma load_store m a bs n : length bs = n -> load (store_at m a bs) a n = bs.
Proof.
  intros <-. apply (nth_ext _ _ 0 0); [unfold load; now rewrite map_length, seq_length|].
  unfold load. rewrite map_length, seq_length. intros i Hi. rewrite (nth_indep _ 0 (store_at m a bs (a + Z.of_nat 0))) by (rewrite map_length, seq_length; exact Hi).
  rewrite (map_nth (fun i => store_at m a bs (a + Z.of_nat i)) (seq 0 (length bs)) 0%nat i), nth_seq0 by exact Hi.
  unfold store_at. replace ((a <=? a + Z.of_nat i) && (a + Z.of_nat i <? a + Z.of_nat (length bs))) with true by (symmetry; apply andb_true_iff; lia).
  f_equal. lia.
Qed.
Lemma store_other m a bs x : ~ (a <= x < a + Z.of_nat (length bs)) -> store_at m a bs x = m x.
Proof. intro H. unfold store_at. destruct (Z.leb_spec a x), (Z.ltb_spec x (a + Z.of_nat (length bs))); cbn [andb]; try reflexivity. lia. Qed.
Definition bytes_mem (m : memory) : Prop := forall x, byte (m x).
Lemma load_bytes m a n : bytes_mem m -> bytes n (load m a n).
Proof. intro H. split; [unfold load; now rewrite map_length, seq_length|]. apply Forall_forall. intros x Hx. apply in_map_iff in Hx as (i & <- & _). apply H. Qed.

Definition shared_effect (n : nat) (spec : Z -> Z -> Z) (f : memory -> Z -> Z -> Z -> memory * Z) : Prop :=
  forall m out u k, bytes_mem m -> let m' := fst (f m out u k) in
  snd (f m out u k) = 0 /\ le_val (load m' out n) = spec (le_val (load m k n)) (le_val (load m u n)) /\ bytes_mem m' /\
  forall x, ~ (out <= x < out + Z.of_nat n) -> m' x = m x.
Lemma effect_ok n spec f : (forall a b, bytes n a -> bytes n b -> bytes n (f a b) /\ le_val (f a b) = spec (le_val b) (le_val a)) ->
  shared_effect n spec (fun m out u k => (store_at m out (f (load m u n) (load m k n)), 0)).
Proof.
  intros H m out u k Hm. cbn [fst snd]. destruct (H (load m u n) (load m k n) (load_bytes m u n Hm) (load_bytes m k n Hm)) as [[L F] E].
  split; [reflexivity|]. split; [rewrite load_store by exact L; exact E|]. split.
  - intro x. unfold store_at. destruct ((out <=? x) && (x <? _)) eqn:C; [|apply Hm]. rewrite Forall_forall in F. apply F. apply nth_In.
    apply andb_true_iff in C as [C1 C2]. lia.
  - intros x Hx. apply store_other. rewrite L. exact Hx.
Qed.
Lemma x25519_avx2_effect st k : shared_effect 32 X25519_spec (x25519_avx2_c st k).
Proof. apply (effect_ok 32 X25519_spec (x25519_shared_avx2 st k)). intros a b Ha Hb. exact (X25519_avx2_ok st k b a Hb Ha). Qed.
Lemma x25519_x64_effect st k : shared_effect 32 X25519_spec (x25519_x64_c st k).
Proof. apply (effect_ok 32 X25519_spec (x25519_shared_x64 st k)). intros a b Ha Hb. exact (X25519_x64_ok st k b a Hb Ha). Qed.
Lemma x448_avx2_effect st m out u k : bytes_mem m -> let m' := fst (x448_avx2_c st m out u k) in
  snd (x448_avx2_c st m out u k) = 0 /\
  (~ carry_lost (X448_spec (le_val (load m k 56)) (le_val (load m u 56))) ->
   le_val (load m' out 56) = X448_spec (le_val (load m k 56)) (le_val (load m u 56))) /\
  forall x, ~ (out <= x < out + 56) -> m' x = m x.
Proof.
  intros Hm. destruct (X448_shared_ok st (load m k 56) (load m u 56) (load_bytes m k 56 Hm) (load_bytes m u 56 Hm)) as [[L F] E].
  cbn [x448_avx2_c fst snd]. split; [reflexivity|]. split.
  - intro N. rewrite load_store by exact L. apply E. intros [_ C]. exact (N C).
  - intros x Hx. apply store_other. rewrite L. exact Hx.
Qed.
(** ** The bits that matter *)
Lemma scalar25519_bits k k' : (forall i, 3 <= i < 254 -> Z.testbit k i = Z.testbit k' i) -> scalar25519 k = scalar25519 k'.
Proof.
  intro H. unfold scalar25519. do 2 f_equal. apply Z.bits_inj'. intros n Hn. change 8 with (2 ^ 3). rewrite !Z.div_pow2_bits by lia.
  destruct (Z.ltb_spec (n + 3) 254).
  - rewrite !Z.mod_pow2_bits_low by lia. apply H. lia.
  - rewrite !Z.mod_pow2_bits_high by lia. reflexivity.
Qed.
Lemma mod255_bits u u' : (forall i, 0 <= i < 255 -> Z.testbit u i = Z.testbit u' i) -> u mod 2 ^ 255 = u' mod 2 ^ 255.
Proof.
  intro H. apply Z.bits_inj'. intros n Hn. destruct (Z.ltb_spec n 255).
  - rewrite !Z.mod_pow2_bits_low by lia. apply H. lia.
  - rewrite !Z.mod_pow2_bits_high by lia. reflexivity.
Qed.
Lemma scalar448_bits k k' : (forall i, 2 <= i < 447 -> Z.testbit k i = Z.testbit k' i) -> scalar448 k = scalar448 k'.
Proof.
  intro H. unfold scalar448. do 2 f_equal. apply Z.bits_inj'. intros n Hn. change 4 with (2 ^ 2). rewrite !Z.div_pow2_bits by lia.
  destruct (Z.ltb_spec (n + 2) 447).
  - rewrite !Z.mod_pow2_bits_low by lia. apply H. lia.
  - rewrite !Z.mod_pow2_bits_high by lia. reflexivity.
Qed.
Lemma X25519_bits k k' u u' : (forall i, 3 <= i < 254 -> Z.testbit k i = Z.testbit k' i) -> (forall i, 0 <= i < 255 -> Z.testbit u i = Z.testbit u' i) ->
  X25519_spec k u = X25519_spec k' u'.
Proof. intros Hk Hu. unfold X25519_spec. now rewrite (scalar25519_bits k k' Hk), (mod255_bits u u' Hu). Qed.
Lemma bytes_eq n a b : bytes n a -> bytes n b -> le_val a = le_val b -> a = b.
Proof. intros [La Fa] [Lb Fb] E. apply le_val_inj; [congruence|exact Fa|exact Fb|exact E]. Qed.
Lemma X25519_avx2_bits st st' c c' k k' u u' : bytes 32 k -> bytes 32 k' -> bytes 32 u -> bytes 32 u' ->
  (forall i, 3 <= i < 254 -> Z.testbit (le_val k) i = Z.testbit (le_val k') i) ->
  (forall i, 0 <= i < 255 -> Z.testbit (le_val u) i = Z.testbit (le_val u') i) ->
  x25519_shared_avx2 st c u k = x25519_shared_avx2 st' c' u' k' /\ x25519_shared_x64 st c u k = x25519_shared_x64 st' c' u' k'.
Proof.
  intros Hk Hk' Hu Hu' Bk Bu.
  destruct (X25519_avx2_ok st c k u Hk Hu) as [B1 E1]. destruct (X25519_avx2_ok st' c' k' u' Hk' Hu') as [B2 E2].
  destruct (X25519_x64_ok st c k u Hk Hu) as [B3 E3]. destruct (X25519_x64_ok st' c' k' u' Hk' Hu') as [B4 E4].
  rewrite (X25519_bits _ _ _ _ Bk Bu) in E1, E3.
  split; apply (bytes_eq 32); congruence.
Qed.
Lemma X25519_agree st st' c c' k u : bytes 32 k -> bytes 32 u -> x25519_shared_avx2 st c u k = x25519_shared_x64 st' c' u k.
Proof.
  intros Hk Hu. destruct (X25519_avx2_ok st c k u Hk Hu) as [B1 E1]. destruct (X25519_x64_ok st' c' k u Hk Hu) as [B2 E2].
  apply (bytes_eq 32); congruence.
Qed.
Lemma zeros_val n : bytes n (repeat 0 n) /\ le_val (repeat 0 n) = 0.
Proof.
  split.
  - split; [apply repeat_length|]. apply Forall_forall. intros x H. apply repeat_spec in H. subst x. unfold byte. lia.
  - induction n as [|n IH]; [reflexivity|]. cbn [repeat le_val]. rewrite IH. reflexivity.
Qed.
Lemma X25519_low_zero st c k u : bytes 32 k -> bytes 32 u -> In (le_val u mod 2 ^ 255) lowu25519 ->
  x25519_shared_avx2 st c u k = repeat 0 32 /\ x25519_shared_x64 st c u k = repeat 0 32.
Proof.
  intros Hk Hu Hl. destruct (X25519_avx2_ok st c k u Hk Hu) as [B1 E1]. destruct (X25519_x64_ok st c k u Hk Hu) as [B3 E3].
  rewrite (X25519_small _ _ Hl) in E1, E3. destruct (zeros_val 32) as [Bz Ez].
  split; apply (bytes_eq 32); congruence.
Qed.
Lemma X448_shared_most st k u : bytes 56 k -> bytes 56 u ->
  ~ carry_lost (X448_spec (le_val k) (le_val u)) -> le_val (x448_shared_avx2 st u k) = X448_spec (le_val k) (le_val u).
Proof. intros Hk Hu N. apply (X448_shared_ok st k u Hk Hu). intros [_ C]. exact (N C). Qed.
Lemma X448_low_zero st k u : bytes 56 k -> bytes 56 u -> In (le_val u) lowu448 -> x448_shared_avx2 st u k = repeat 0 56.
Proof.
  intros Hk Hu Hl. pose proof (X448_small (le_val k) _ Hl) as Z0. destruct (X448_shared_ok st k u Hk Hu) as [B E]. destruct (zeros_val 56) as [Bz Ez].
  apply (bytes_eq 56); [exact B|exact Bz|]. rewrite Ez. rewrite Z0 in E. apply E. unfold carry_lost. lia.
Qed.
Lemma X448_refuted st : exists k u, bytes 56 k /\ bytes 56 u /\ le_val (x448_shared_avx2 st u k) <> X448_spec (le_val k) (le_val u).
Proof.
  exists (repeat 0 56), case_pk. split; [apply zeros_val|]. split; [apply case_pk_ok|]. destruct (X448_wrong st) as [E1 E2].
  rewrite E1, E2. vm_compute. discriminate.
Qed.
