(** The SHA-512 code computes FIPS 180-4, whatever the division of the message into calls. *)
From Coq Require Import ZArith List Bool Lia PeanoNat.
From Verif Require Import Bytes Sym SpecSha2 Sha512.
Import ListNotations.
Open Scope Z_scope.

Definition w64 (x : Z) : Prop := 0 <= x < 2 ^ 64.
Lemma K_eq : K512 = K_fips. Proof. vm_compute. reflexivity. Qed.
Lemma H_eq : H512 = H0_fips. Proof. vm_compute. reflexivity. Qed.
Lemma T64_mod x : T64 x = x mod 2 ^ 64.
Proof. unfold T64. change 0xFFFFFFFFFFFFFFFF with (Z.ones 64). apply Z.land_ones. lia. Qed.
Lemma w64_mod x : w64 (x mod 2 ^ 64).
Proof. unfold w64. apply Z.mod_pos_bound. lia. Qed.
Lemma w64_lt x : 0 <= x -> (w64 x <-> (x = 0 \/ Z.log2 x < 64)).
Proof.
  intros H. unfold w64. destruct (Z.eq_dec x 0) as [->|N].
  - split; [auto|lia].
  - rewrite <- (Z.log2_lt_pow2 x 64) by lia. lia.
Qed.
Lemma w64_lxor x y : w64 x -> w64 y -> w64 (Z.lxor x y).
Proof.
  intros Hx Hy. assert (P : 0 <= Z.lxor x y) by (apply Z.lxor_nonneg; unfold w64 in *; lia).
  apply w64_lt; [exact P|]. destruct (Z.eq_dec (Z.lxor x y) 0); [auto|right].
  apply Z.bits_above_log2 || idtac.
  pose proof (Z.log2_lxor x y ltac:(unfold w64 in *; lia) ltac:(unfold w64 in *; lia)).
  assert (Z.log2 x < 64). { destruct (proj1 (w64_lt x ltac:(unfold w64 in *; lia)) Hx); [subst; cbn; lia|lia]. }
  assert (Z.log2 y < 64). { destruct (proj1 (w64_lt y ltac:(unfold w64 in *; lia)) Hy); [subst; cbn; lia|lia]. }
  lia.
Qed.
Lemma rotr_eq x n : w64 x -> 0 < n < 64 -> ROTR64 x n = ROTR n x.
Proof.
  intros Hx Hn. unfold w64 in Hx. unfold ROTR64, ROTL64, ROTR, shl64. rewrite T64_mod.
  rewrite Z.shiftl_mul_pow2, Z.shiftr_div_pow2 by lia.
  replace (64 - (64 - n)) with n by lia.
  assert (E64 : 2 ^ 64 = 2 ^ n * 2 ^ (64 - n)) by (rewrite <- Z.pow_add_r by lia; f_equal; lia).
  assert (P1 : 0 < 2 ^ n) by (apply Z.pow_pos_nonneg; lia).
  assert (P2 : 0 < 2 ^ (64 - n)) by (apply Z.pow_pos_nonneg; lia).
  assert (E : (x * 2 ^ (64 - n)) mod 2 ^ 64 = (x mod 2 ^ n) * 2 ^ (64 - n)).
  { rewrite E64. apply Z.mul_mod_distr_r; lia. }
  rewrite E. pose proof (Z.mod_pos_bound x (2 ^ n) P1) as B.
  assert (D : 0 <= x / 2 ^ n < 2 ^ (64 - n)).
  { split; [apply Z.div_pos; lia|]. apply Z.div_lt_upper_bound; lia. }
  rewrite (lor_disj (64 - n)) by (try lia; apply Z.mod_mul; lia).
  rewrite Z.add_comm. apply Z.mod_small. nia.
Qed.
Lemma rotr_w64 x n : w64 x -> 0 < n < 64 -> w64 (ROTR n x).
Proof. intros H Hn. rewrite <- rotr_eq by assumption. unfold ROTR64, ROTL64. rewrite T64_mod. apply w64_mod. Qed.
Lemma shr_eq x n : w64 x -> 0 <= n -> T64 (Z.shiftr x n) = SHR n x /\ w64 (SHR n x).
Proof.
  intros H Hn. rewrite T64_mod, Z.shiftr_div_pow2 by lia. unfold SHR, w64 in *.
  assert (P : 0 < 2 ^ n) by (apply Z.pow_pos_nonneg; lia).
  assert (0 <= x / 2 ^ n < 2 ^ 64) by (split; [apply Z.div_pos; lia|apply Z.div_lt_upper_bound; nia]).
  split; [apply Z.mod_small|]; assumption.
Qed.
Lemma ch_eq x y z : CH x y z = Ch x y z.
Proof.
  unfold CH, Ch. apply Z.bits_inj'. intros n Hn.
  rewrite !Z.lxor_spec, !Z.land_spec, Z.lxor_spec, Z.lnot_spec by lia.
  destruct (Z.testbit x n), (Z.testbit y n), (Z.testbit z n); reflexivity.
Qed.
Lemma maj_eq x y z : MAJ x y z = Maj x y z.
Proof.
  unfold MAJ, Maj. apply Z.bits_inj'. intros n Hn.
  rewrite !Z.lxor_spec, !Z.lor_spec, !Z.land_spec, Z.lor_spec.
  destruct (Z.testbit x n), (Z.testbit y n), (Z.testbit z n); reflexivity.
Qed.
Lemma S0_eq x : w64 x -> BSG5_0 x = Sigma0 x.
Proof. intros H. unfold BSG5_0, Sigma0. rewrite !rotr_eq by (assumption || lia). reflexivity. Qed.
Lemma S1_eq x : w64 x -> BSG5_1 x = Sigma1 x.
Proof. intros H. unfold BSG5_1, Sigma1. rewrite !rotr_eq by (assumption || lia). reflexivity. Qed.
Lemma s0_eq x : w64 x -> SSG5_0 x = sigma0 x.
Proof. intros H. unfold SSG5_0, sigma0. rewrite !rotr_eq by (assumption || lia). rewrite (proj1 (shr_eq x 7 H ltac:(lia))). reflexivity. Qed.
Lemma s1_eq x : w64 x -> SSG5_1 x = sigma1 x.
Proof. intros H. unfold SSG5_1, sigma1. rewrite !rotr_eq by (assumption || lia). rewrite (proj1 (shr_eq x 6 H ltac:(lia))). reflexivity. Qed.
Lemma add_mod a b : add64 a b = (a + b) mod 2 ^ 64. Proof. reflexivity. Qed.
Lemma add64_l x y v : add64 (add64 x y) v = add64 x (y + v).
Proof. unfold add64. rewrite Zplus_mod_idemp_l. f_equal. lia. Qed.
Lemma add64_r x y v : add64 x (add64 y v) = add64 x (y + v).
Proof. unfold add64. apply Zplus_mod_idemp_r. Qed.
Lemma T64_add x y : T64 (add64 x y) = add64 x y.
Proof. rewrite T64_mod. unfold add64. apply Z.mod_mod. lia. Qed.
Lemma mod_add64 x y : (x + y) mod 2 ^ 64 = add64 x y. Proof. reflexivity. Qed.
Ltac addmod := rewrite ?T64_add, ?mod_add64, ?add64_l, ?add64_r, ?add64_l; repeat rewrite add64_l; unfold add64.

(** ** The compression function *)
Lemma step_round Kt W i A B C D E F G H :
  nth i K512 0 = Kt -> w64 A -> w64 E ->
  round_fips Kt (nth i W 0) [A; B; C; D; E; F; G; H] =
    [snd (SHA3_STEP W A B C D E F G H i); A; B; C; fst (SHA3_STEP W A B C D E F G H i); E; F; G].
Proof.
  intros <- HA HE. unfold round_fips, SHA3_STEP. cbn [nth fst snd]. cbv zeta. unfold word_size.
  rewrite (S0_eq A HA), (S1_eq E HE), ch_eq, maj_eq.
  generalize (Sigma1 E) (Ch E F G) (Sigma0 A) (Maj A B C) (nth i K512 0) (nth i W 0). intros.
  addmod. f_equal; [f_equal; lia|]. do 5 f_equal; lia.
Qed.
Lemma step_w64 W A B C D E F G H i : w64 (fst (SHA3_STEP W A B C D E F G H i)) /\ w64 (snd (SHA3_STEP W A B C D E F G H i)).
Proof. unfold SHA3_STEP. cbn [fst snd]. rewrite !T64_mod. split; apply w64_mod. Qed.
Lemma fuel_irrelevant M f : forall t, (t < f)%nat -> W_fuel f M t = W_fips M t.
Proof.
  induction f as [f IH] using (well_founded_induction Wf_nat.lt_wf). intros t Ht.
  unfold W_fips. replace (t + 1)%nat with (Datatypes.S t) by lia.
  destruct f as [|f]; [lia|]. cbn [W_fuel]. destruct (t <? 16)%nat eqn:E; [reflexivity|].
  apply Nat.ltb_ge in E.
  rewrite !(IH f ltac:(lia)) by lia.
  destruct (Nat.eq_dec f t) as [->|N].
  - rewrite !(IH t ltac:(lia)) by lia. reflexivity.
  - rewrite !(IH t ltac:(lia)) by lia. reflexivity.
Qed.
Lemma W_small M t : (t < 16)%nat -> W_fips M t = nth t M 0.
Proof. intros H. unfold W_fips. replace (t + 1)%nat with (Datatypes.S t) by lia. cbn [W_fuel]. rewrite (proj2 (Nat.ltb_lt _ _) H). reflexivity. Qed.
Lemma W_step M t : (16 <= t)%nat ->
  W_fips M t = (sigma1 (W_fips M (t - 2)) + W_fips M (t - 7) + sigma0 (W_fips M (t - 15)) + W_fips M (t - 16)) mod 2 ^ 64.
Proof.
  intros H. unfold W_fips at 1. replace (t + 1)%nat with (Datatypes.S t) by lia. cbn [W_fuel].
  rewrite (proj2 (Nat.ltb_ge _ _) H). rewrite !fuel_irrelevant by lia. reflexivity.
Qed.
Lemma schedule_ok M n : forall W, (16 <= length W)%nat -> Forall w64 W ->
  (forall t, (t < length W)%nat -> nth t W 0 = W_fips M t) ->
  length (schedule n W) = (length W + n)%nat /\ Forall w64 (schedule n W) /\
  (forall t, (t < length W + n)%nat -> nth t (schedule n W) 0 = W_fips M t).
Proof.
  induction n as [|n IH]; intros W L F E; cbn [schedule].
  - rewrite Nat.add_0_r. auto.
  - cbv zeta. set (x := T64 _).
    assert (Wn : forall j, (j < length W)%nat -> w64 (nth j W 0)).
    { intros j Hj. apply (proj1 (Forall_forall w64 W) F). apply nth_In. exact Hj. }
    assert (Ex : x = W_fips M (length W)).
    { unfold x. rewrite W_step by exact L. rewrite s1_eq, s0_eq by (apply Wn; lia). rewrite !E by lia.
      addmod. f_equal. lia. }
    destruct (IH (W ++ [x])) as (L2 & F2 & E2).
    + rewrite app_length. lia.
    + apply Forall_app. split; [exact F|]. constructor; [|constructor]. unfold x. rewrite T64_mod. apply w64_mod.
    + intros t. rewrite app_length. cbn [length]. intros Ht.
      destruct (Nat.lt_ge_cases t (length W)) as [G|G].
      * rewrite app_nth1 by exact G. apply E; exact G.
      * replace t with (length W) by lia. rewrite app_nth2, Nat.sub_diag by lia. exact Ex.
    + rewrite app_length in L2, E2. cbn [length] in L2, E2. split; [lia|]. split; [exact F2|].
      intros t Ht. apply E2. lia.
Qed.
Lemma rounds_add n m : forall t M v, rounds_fips (n + m) t M v = rounds_fips m (t + n) M (rounds_fips n t M v).
Proof.
  induction n as [|n IH]; intros t M v; cbn [rounds_fips Nat.add].
  - rewrite Nat.add_0_r. reflexivity.
  - rewrite IH. f_equal. lia.
Qed.
Lemma rounds_one t M v : rounds_fips 1 t M v = round_fips (nth t K_fips 0) (W_fips M t) v.
Proof. reflexivity. Qed.
Lemma one_step M W t A B C D E F G H : nth t W 0 = W_fips M t -> w64 A -> w64 E ->
  rounds_fips 1 t M [A; B; C; D; E; F; G; H] =
  [snd (SHA3_STEP W A B C D E F G H t); A; B; C; fst (SHA3_STEP W A B C D E F G H t); E; F; G].
Proof. intros EW HA HE. rewrite rounds_one, <- EW. apply step_round; [rewrite K_eq; reflexivity|assumption|assumption]. Qed.
Definition w8 (r : list Z) : Prop := length r = 8%nat /\ Forall w64 r.
Lemma w8_list r : w8 r -> exists A B C D E F G H, r = [A; B; C; D; E; F; G; H] /\ w64 A /\ w64 B /\ w64 C /\ w64 D /\ w64 E /\ w64 F /\ w64 G /\ w64 H.
Proof.
  intros [L Fo]. destruct r as [|A [|B [|C [|D [|E [|F [|G [|H [|]]]]]]]]]; try discriminate L.
  exists A, B, C, D, E, F, G, H. split; [reflexivity|].
  repeat match goal with X : Forall _ (_ :: _) |- _ => inversion X; clear X; subst end. tauto.
Qed.
Lemma eight_ok M W i r : w8 r -> (forall j, (j < 8)%nat -> nth (i + j) W 0 = W_fips M (i + j)) ->
  eight_steps W i r = rounds_fips 8 i M r /\ w8 (eight_steps W i r).
Proof.
  intros Hr HW. destruct (w8_list r Hr) as (A & B & C & D & E & F & G & H & -> & HA & HB & HC & HD & HE & HF & HG & HH). clear Hr.
  unfold eight_steps.
  assert (ST : forall A B C D E F G H j, (j < 8)%nat -> w64 A -> w64 E ->
     exists d h, SHA3_STEP W A B C D E F G H (i + j) = (d, h) /\ w64 d /\ w64 h /\
       rounds_fips 1 (i + j) M [A; B; C; D; E; F; G; H] = [h; A; B; C; d; E; F; G]).
  { clear - HW. intros A B C D E F G H j Hj HA HE. pose proof (step_w64 W A B C D E F G H (i + j)) as [X Y].
    pose proof (one_step M W (i + j) A B C D E F G H (HW j Hj) HA HE) as Z.
    destruct (SHA3_STEP W A B C D E F G H (i + j)) as [d h]. cbn [fst snd] in X, Y, Z. exists d, h. auto. }
  destruct (ST A B C D E F G H 0%nat ltac:(lia) HA HE) as (d0 & h0 & E0 & P0 & Q0 & R0). rewrite E0.
  destruct (ST h0 A B C d0 E F G 1%nat ltac:(lia) Q0 P0) as (d1 & h1 & E1 & P1 & Q1 & R1). rewrite E1.
  destruct (ST h1 h0 A B d1 d0 E F 2%nat ltac:(lia) Q1 P1) as (d2 & h2 & E2 & P2 & Q2 & R2). rewrite E2.
  destruct (ST h2 h1 h0 A d2 d1 d0 E 3%nat ltac:(lia) Q2 P2) as (d3 & h3 & E3 & P3 & Q3 & R3). rewrite E3.
  destruct (ST h3 h2 h1 h0 d3 d2 d1 d0 4%nat ltac:(lia) Q3 P3) as (d4 & h4 & E4 & P4 & Q4 & R4). rewrite E4.
  destruct (ST h4 h3 h2 h1 d4 d3 d2 d1 5%nat ltac:(lia) Q4 P4) as (d5 & h5 & E5 & P5 & Q5 & R5). rewrite E5.
  destruct (ST h5 h4 h3 h2 d5 d4 d3 d2 6%nat ltac:(lia) Q5 P5) as (d6 & h6 & E6 & P6 & Q6 & R6). rewrite E6.
  destruct (ST h6 h5 h4 h3 d6 d5 d4 d3 7%nat ltac:(lia) Q6 P6) as (d7 & h7 & E7 & P7 & Q7 & R7). rewrite E7.
  split.
  - change 8%nat with (1 + (1 + (1 + (1 + (1 + (1 + (1 + 1))))))%nat)%nat.
    rewrite !rounds_add. rewrite Nat.add_0_r in R0.
    replace (i + 1 + 1)%nat with (i + 2)%nat by lia. replace (i + 2 + 1)%nat with (i + 3)%nat by lia.
    replace (i + 3 + 1)%nat with (i + 4)%nat by lia. replace (i + 4 + 1)%nat with (i + 5)%nat by lia.
    replace (i + 5 + 1)%nat with (i + 6)%nat by lia. replace (i + 6 + 1)%nat with (i + 7)%nat by lia.
    rewrite R0, R1, R2, R3, R4, R5, R6, R7. reflexivity.
  - split; [reflexivity|]. repeat (constructor; [assumption|]). constructor.
Qed.
Lemma loop_ok M W n : forall i r, w8 r -> (forall t, (t < i + 8 * n)%nat -> nth t W 0 = W_fips M t) ->
  step_loop n i W r = rounds_fips (8 * n) i M r /\ w8 (step_loop n i W r).
Proof.
  induction n as [|n IH]; intros i r Hr HW.
  - split; [reflexivity|exact Hr].
  - cbn [step_loop]. destruct (eight_ok M W i r Hr) as [E P]. { intros j Hj. apply HW. lia. }
    destruct (IH (i + 8)%nat (eight_steps W i r) P) as [E2 P2]. { intros t Ht. apply HW. lia. }
    split; [|exact P2]. rewrite E2, E. replace (8 * S n)%nat with (8 + 8 * n)%nat by lia.
    rewrite rounds_add. reflexivity.
Qed.
Lemma be_val_app a b : be_val (a ++ b) = be_val a * 256 ^ Z.of_nat (length b) + be_val b.
Proof.
  unfold be_val. rewrite fold_left_app. generalize (fold_left (fun v x => 256 * v + x) a 0). intros v.
  induction b as [|x b IH] using rev_ind.
  - cbn. lia.
  - rewrite !fold_left_app, app_length. cbn [fold_left length]. rewrite IH.
    rewrite Nat2Z.inj_add, Z.pow_add_r by lia. change (256 ^ Z.of_nat 1) with 256. lia.
Qed.
Lemma be_val_bound b : Forall byte b -> 0 <= be_val b < 256 ^ Z.of_nat (length b).
Proof.
  induction b as [|x b IH] using rev_ind; intros F.
  - cbn. lia.
  - apply Forall_app in F as [F1 F2]. specialize (IH F1). inversion F2 as [|? ? Bx _]; subst.
    rewrite be_val_app, app_length. cbn [length]. rewrite Nat2Z.inj_add, Z.pow_add_r by lia.
    change (256 ^ Z.of_nat 1) with 256. change (be_val [x]) with (256 * 0 + x). unfold byte in Bx. lia.
Qed.
Lemma dec64be_eq b : (8 <= length b)%nat -> dec64be b = be_val (firstn 8 b).
Proof.
  intros L. do 8 (destruct b as [|? b]; [cbn [length] in L; lia|]). cbn [firstn dec64be].
  unfold be_val. cbn [fold_left]. lia.
Qed.
Lemma Forall_first {A} (P : A -> Prop) n l : Forall P l -> Forall P (firstn n l).
Proof. intros H. rewrite <- (firstn_skipn n l) in H. apply Forall_app in H. tauto. Qed.
Lemma Forall_skip {A} (P : A -> Prop) n l : Forall P l -> Forall P (skipn n l).
Proof. intros H. rewrite <- (firstn_skipn n l) in H. apply Forall_app in H. tauto. Qed.
Lemma skip_first {A} (l : list A) a b c : (a + b <= c)%nat -> firstn b (skipn a (firstn c l)) = firstn b (skipn a l).
Proof.
  intros H. rewrite skipn_firstn_comm, firstn_firstn. f_equal. lia.
Qed.
Lemma block_words_ok b : (128 <= length b)%nat -> Forall byte b ->
  map (fun i => dec64be (skipn (8 * i) b)) (seq 0 16) = block_words (firstn 128 b) /\ Forall w64 (block_words (firstn 128 b)).
Proof.
  intros L F. unfold block_words. split.
  - apply map_ext_in. intros i Hi. apply in_seq in Hi. rewrite dec64be_eq by (rewrite skipn_length; lia).
    rewrite skip_first by lia. reflexivity.
  - apply Forall_map. apply Forall_forall. intros i Hi. apply in_seq in Hi. rewrite skip_first by lia.
    pose proof (be_val_bound (firstn 8 (skipn (8 * i) b)) (Forall_first _ _ _ (Forall_skip _ _ _ F))) as B.
    rewrite firstn_length, skipn_length, Nat.min_l in B by lia. exact B.
Qed.
Lemma round_ok data r : (128 <= length data)%nat -> Forall byte data -> w8 r ->
  sha3_round data r = compress r (firstn 128 data).
Proof.
  intros L F Hr. unfold sha3_round, compress. destruct (block_words_ok data L F) as [E Fw]. rewrite E.
  set (M := block_words (firstn 128 data)) in *.
  destruct (schedule_ok M 64 M) as (L2 & F2 & E2).
  - unfold M, block_words. rewrite map_length, seq_length. lia.
  - exact Fw.
  - intros t Ht. rewrite W_small; [reflexivity|]. unfold M, block_words in Ht. rewrite map_length, seq_length in Ht. exact Ht.
  - assert (LM : length M = 16%nat) by (unfold M, block_words; rewrite map_length, seq_length; reflexivity).
    rewrite LM in E2.
    destruct (loop_ok M (schedule 64 M) 10 0 r Hr) as [E3 _]. { intros t Ht. apply E2. lia. }
    cbv zeta. rewrite E3. change (8 * 10)%nat with 80%nat. unfold word_size. apply map_ext. intros i.
    addmod. reflexivity.
Qed.
Lemma w8_compress r b : w8 (compress r b).
Proof.
  split; [reflexivity|]. unfold compress. apply Forall_map. apply Forall_forall. intros i _. apply w64_mod.
Qed.
Lemma w8_H0 : w8 H0_fips.
Proof. rewrite <- H_eq. split; [reflexivity|]. unfold H512, w64. repeat (constructor; [lia|]). constructor. Qed.

(** ** Blocks *)
Lemma hash_blocks_app n : forall h a b, (128 * n <= length a)%nat -> hash_blocks n h (a ++ b) = hash_blocks n h a.
Proof.
  induction n as [|n IH]; intros h a b L; [reflexivity|]. cbn [hash_blocks].
  assert (E1 : firstn 128 (a ++ b) = firstn 128 a).
  { rewrite firstn_app. replace (128 - length a)%nat with 0%nat by lia. rewrite firstn_O, app_nil_r. reflexivity. }
  assert (E2 : skipn 128 (a ++ b) = skipn 128 a ++ b).
  { rewrite skipn_app. replace (128 - length a)%nat with 0%nat by lia. reflexivity. }
  rewrite E1, E2. apply IH. rewrite skipn_length. lia.
Qed.
Lemma hash_blocks_snoc n : forall h a b, length a = (128 * n)%nat -> length b = 128%nat ->
  hash_blocks (S n) h (a ++ b) = compress (hash_blocks n h a) b.
Proof.
  induction n as [|n IH]; intros h a b La Lb.
  - destruct a; [|cbn [length] in La; lia]. cbn [app hash_blocks]. rewrite firstn_all2 by lia. reflexivity.
  - change (hash_blocks (S (S n)) h (a ++ b)) with (hash_blocks (S n) (compress h (firstn 128 (a ++ b))) (skipn 128 (a ++ b))).
    assert (E1 : firstn 128 (a ++ b) = firstn 128 a).
    { rewrite firstn_app. replace (128 - length a)%nat with 0%nat by lia. rewrite firstn_O, app_nil_r. reflexivity. }
    assert (E2 : skipn 128 (a ++ b) = skipn 128 a ++ b).
    { rewrite skipn_app. replace (128 - length a)%nat with 0%nat by lia. reflexivity. }
    rewrite E1, E2, IH by (rewrite ?skipn_length; lia). reflexivity.
Qed.
Lemma w8_blocks n : forall h b, w8 h -> w8 (hash_blocks n h b).
Proof. induction n as [|n IH]; intros h b H; cbn [hash_blocks]; [exact H|]. apply IH. apply w8_compress. Qed.

(** ** The context after a message M *)
Definition absorbed (c : ctx) (M : list Z) : Prop :=
  exists q A B, M = A ++ B /\ length A = (128 * q)%nat /\ (length B < 128)%nat /\ Forall byte M /\
    length (buf c) = 128%nat /\ Forall byte (buf c) /\ firstn (length B) (buf c) = B /\
    vals c = hash_blocks q H0_fips A /\ count c = Z.of_nat (length M) mod 2 ^ 64.
Lemma absorbed_init c : length (buf c) = 128%nat -> Forall byte (buf c) -> absorbed (sph_sha512_init c) [].
Proof.
  intros L F. exists 0%nat, [], []. cbn [app length buf sph_sha512_init vals count firstn].
  rewrite H_eq. do 3 (split; [reflexivity || lia|]). split; [constructor|]. do 2 (split; [assumption|]). do 2 (split; [reflexivity|]). reflexivity.
Qed.
Lemma count_land l q r : Z.of_nat l = 128 * q + r -> 0 <= r < 128 -> Z.land (Z.of_nat l mod 2 ^ 64) 127 = r.
Proof.
  intros E Hr. change 127 with (Z.ones 7). rewrite Z.land_ones by lia.
  change (2 ^ 64) with (2 ^ 7 * 2 ^ 57). rewrite Z.rem_mul_r by lia.
  rewrite (Z.mul_comm (2 ^ 7)), Z.mod_add by lia. rewrite Z.mod_mod by lia. rewrite E. change (2 ^ 7) with 128.
  rewrite Z.add_comm, Z.mul_comm, Z.mod_add by lia. apply Z.mod_small. exact Hr.
Qed.
Lemma current_ok c q (A B : list Z) : length A = (128 * q)%nat -> (length B < 128)%nat ->
  count c = Z.of_nat (length (A ++ B)) mod 2 ^ 64 -> current_of c = length B.
Proof.
  intros LA LB E. unfold current_of. rewrite E.
  rewrite (count_land _ (Z.of_nat q) (Z.of_nat (length B))); [apply Nat2Z.id| |lia]. rewrite app_length. lia.
Qed.
Lemma count_add c n m : count c = Z.of_nat n mod 2 ^ 64 -> add64 (count c) (Z.of_nat m) = Z.of_nat (n + m) mod 2 ^ 64.
Proof. intros ->. unfold add64. rewrite Zplus_mod_idemp_l. f_equal. lia. Qed.
Lemma store_length b n s : (n + length s <= length b)%nat -> length (store_at b n s) = length b.
Proof. intros H. unfold store_at. rewrite !app_length, firstn_length, skipn_length. lia. Qed.
Lemma store_bytes b n s : Forall byte b -> Forall byte s -> Forall byte (store_at b n s).
Proof. intros Hb Hs. unfold store_at. rewrite !Forall_app. auto using Forall_first, Forall_skip. Qed.
Lemma store_first b n s : (n + length s <= length b)%nat -> firstn (n + length s) (store_at b n s) = firstn n b ++ s.
Proof.
  intros H. unfold store_at. rewrite app_assoc, firstn_app, app_length, firstn_length, Nat.min_l by lia.
  replace (n + length s - (n + length s))%nat with 0%nat by lia. rewrite firstn_O, app_nil_r.
  apply firstn_all2. rewrite app_length, firstn_length. lia.
Qed.
Lemma short_ok fuel : forall c q A B data, Forall byte data -> (length data <= fuel)%nat ->
  length A = (128 * q)%nat -> (length B < 128)%nat -> Forall byte (A ++ B) -> length (buf c) = 128%nat -> Forall byte (buf c) ->
  firstn (length B) (buf c) = B -> vals c = hash_blocks q H0_fips A -> count c = Z.of_nat (length (A ++ B)) mod 2 ^ 64 ->
  absorbed (short_loop fuel c (length B) data) ((A ++ B) ++ data).
Proof.
  induction fuel as [|f IH]; intros c q A B data Fd Lf LA LB FM Lb Fb EB EV EC.
  - destruct data; [|cbn [length] in Lf; lia]. rewrite app_nil_r. exists q, A, B. auto 12.
  - cbn [short_loop]. destruct (length data =? 0)%nat eqn:Z0.
    { apply Nat.eqb_eq in Z0. destruct data; [|discriminate Z0]. rewrite app_nil_r. exists q, A, B. auto 12. }
    apply Nat.eqb_neq in Z0. cbv zeta.
    set (clen := if (length data <? 128 - length B)%nat then length data else (128 - length B)%nat).
    assert (Hc : (0 < clen)%nat /\ (clen <= length data)%nat /\ (length B + clen <= 128)%nat).
    { unfold clen. destruct (length data <? 128 - length B)%nat eqn:E; [apply Nat.ltb_lt in E|apply Nat.ltb_ge in E]; lia. }
    clearbody clen. destruct Hc as (C1 & C2 & C3).
    set (d := firstn clen data). assert (Ld : length d = clen) by (unfold d; rewrite firstn_length; lia).
    assert (Fdd : Forall byte d) by (apply Forall_first; exact Fd).
    assert (Ed : data = d ++ skipn clen data) by (symmetry; apply firstn_skipn).
    set (b := store_at (buf c) (length B) d).
    assert (Lb' : length b = 128%nat) by (unfold b; rewrite store_length by lia; exact Lb).
    assert (Fb' : Forall byte b) by (apply store_bytes; assumption).
    assert (Eb : firstn (length B + clen) b = B ++ d).
    { unfold b. rewrite <- Ld, store_first by lia. rewrite EB. reflexivity. }
    assert (FA : Forall byte A /\ Forall byte B) by (apply Forall_app; exact FM).
    rewrite Ed at 3. rewrite app_assoc, <- (app_assoc A B d).
    destruct (length B + clen =? 128)%nat eqn:Full.
    + apply Nat.eqb_eq in Full.
      assert (Ebb : b = B ++ d) by (rewrite <- Eb, Full; symmetry; apply firstn_all2; lia).
      change 0%nat with (length (@nil Z)).
      replace (A ++ B ++ d) with ((A ++ B ++ d) ++ []) by apply app_nil_r.
      apply (IH _ (S q)); cbn [buf vals count length]; try assumption; try lia.
      * apply Forall_skip. exact Fd.
      * rewrite skipn_length. lia.
      * rewrite !app_length. lia.
      * rewrite app_nil_r, !Forall_app. tauto.
      * reflexivity.
      * rewrite <- Ebb, hash_blocks_snoc by (assumption || lia). rewrite <- EV.
        rewrite round_ok; [|lia|exact Fb'|]. { rewrite firstn_all2 by lia. reflexivity. }
        rewrite EV. apply w8_blocks. apply w8_H0.
      * rewrite (count_add c _ clen EC). f_equal. f_equal. rewrite !app_length. cbn [length]. lia.
    + apply Nat.eqb_neq in Full. replace (length B + clen)%nat with (length (B ++ d)) in * by (rewrite app_length; lia).
      apply (IH _ q); cbn [buf vals count]; try assumption; try lia.
      * apply Forall_skip. exact Fd.
      * rewrite skipn_length. lia.
      * rewrite !Forall_app. tauto.
      * rewrite (count_add c _ clen EC). f_equal. f_equal. rewrite !app_length. lia.
Qed.
Lemma sha384_short_ok c M data : absorbed c M -> Forall byte data -> absorbed (sha384_short c data) (M ++ data).
Proof.
  intros (q & A & B & -> & LA & LB & FM & Lb & Fb & EB & EV & EC) Fd. unfold sha384_short.
  rewrite (current_ok c q A B LA LB EC). apply (short_ok _ c q); auto.
Qed.
Lemma full_ok fuel : forall q A data v rest, full_blocks fuel (hash_blocks q H0_fips A) data = (v, rest) ->
  Forall byte data -> (length data <= fuel)%nat -> length A = (128 * q)%nat ->
  exists q' A', A ++ data = A' ++ rest /\ length A' = (128 * q')%nat /\ (length rest < 128)%nat /\ v = hash_blocks q' H0_fips A'.
Proof.
  induction fuel as [|f IH]; intros q A data v rest E Fd Lf LA; cbn [full_blocks] in E.
  - injection E as <- <-. exists q, A. auto with arith. destruct data; cbn [length] in *; [|lia]. repeat split; auto; lia.
  - destruct (128 <=? length data)%nat eqn:G; [apply Nat.leb_le in G|apply Nat.leb_gt in G].
    + rewrite round_ok in E by (try assumption; apply w8_blocks; apply w8_H0).
      rewrite <- hash_blocks_snoc in E by (rewrite ?firstn_length; lia).
      apply IH in E; [|apply Forall_skip; exact Fd|rewrite skipn_length; lia|rewrite app_length, firstn_length; lia].
      destruct E as (q' & A' & E1 & E2). exists q', A'. split; [|exact E2].
      rewrite <- E1, <- app_assoc, firstn_skipn. reflexivity.
    + injection E as <- <-. exists q, A. auto.
Qed.
Lemma full_case c M data : absorbed c M -> Forall byte data -> current_of c = 0%nat ->
  absorbed (let '(v, rest) := full_blocks (length data) (vals c) data in
            Ctx (if (0 <? length rest)%nat then store_at (buf c) 0 rest else buf c) v (add64 (count c) (Z.of_nat (length data)))) (M ++ data).
Proof.
  intros (q & A & B & -> & LA & LB & FM & Lb & Fb & EB & EV & EC) Fd CU.
  rewrite (current_ok c q A B LA LB EC) in CU. destruct B; [|discriminate CU]. rewrite app_nil_r in *.
  rewrite EV. destruct (full_blocks (length data) (hash_blocks q H0_fips A) data) as [v rest] eqn:E.
  apply full_ok in E; [|assumption|lia|exact LA]. destruct E as (q' & A' & E1 & E2 & E3 & E4).
  assert (FM' : Forall byte (A ++ data)) by (apply Forall_app; auto).
  assert (Fr : Forall byte rest) by (rewrite E1 in FM'; apply Forall_app in FM'; tauto).
  exists q', A', rest. split; [exact E1|]. split; [exact E2|]. split; [exact E3|]. split; [exact FM'|].
  cbn [buf vals count]. destruct (0 <? length rest)%nat eqn:G.
  - split; [rewrite store_length by (cbn [Nat.add]; lia); exact Lb|]. split; [apply store_bytes; assumption|].
    split; [exact (store_first (buf c) 0 rest ltac:(lia))|]. split; [exact E4|].
    rewrite (count_add c _ (length data) EC), app_length. reflexivity.
  - apply Nat.ltb_ge in G. destruct rest; [|cbn [length] in G; lia].
    split; [exact Lb|]. split; [exact Fb|]. split; [reflexivity|]. split; [exact E4|].
    rewrite (count_add c _ (length data) EC), app_length. reflexivity.
Qed.
Lemma update_ok c M data : absorbed c M -> Forall byte data -> absorbed (sph_sha512 c data) (M ++ data).
Proof.
  intros HM Fd. unfold sph_sha512. destruct (length data <? 256)%nat eqn:G; [apply sha384_short_ok; assumption|].
  apply Nat.ltb_ge in G. cbv zeta. destruct (0 <? current_of c)%nat eqn:CU.
  - apply Nat.ltb_lt in CU. set (t := (128 - current_of c)%nat).
    assert (C1 : (current_of c < 128)%nat).
    { destruct HM as (q & A & B & -> & LA & LB & FM & Lb & Fb & EB & EV & EC). rewrite (current_ok c q A B LA LB EC). exact LB. }
    assert (HM' : absorbed (sha384_short c (firstn t data)) (M ++ firstn t data)).
    { apply sha384_short_ok; [exact HM|apply Forall_first; exact Fd]. }
    replace (M ++ data) with ((M ++ firstn t data) ++ skipn t data) by (rewrite <- app_assoc, firstn_skipn; reflexivity).
    apply full_case; [exact HM'|apply Forall_skip; exact Fd|].
    destruct HM as (q & A & B & -> & LA & LB & FM & Lb & Fb & EB & EV & EC).
    destruct HM' as (q' & A' & B' & E' & LA' & LB' & FM' & Lb' & Fb' & EB' & EV' & EC').
    rewrite E' in EC'. rewrite (current_ok _ q' A' B' LA' LB' EC').
    pose proof (f_equal (@length Z) E') as LL. rewrite !app_length, firstn_length in LL.
    unfold t in LL. rewrite (current_ok c q A B LA LB EC) in LL, CU. lia.
  - apply Nat.ltb_ge in CU. apply full_case; [exact HM|exact Fd|lia].
Qed.
Lemma all_ok chunks : forall c M, absorbed c M -> Forall (Forall byte) chunks -> absorbed (sph_sha512_all c chunks) (M ++ concat chunks).
Proof.
  induction chunks as [|d l IH]; intros c M HM F; unfold sph_sha512_all; cbn [fold_left concat].
  - rewrite app_nil_r. exact HM.
  - inversion F; subst. rewrite app_assoc. apply IH; [apply update_ok; assumption|assumption].
Qed.

(** ** The padding *)
Lemma be_bytes_ok n : forall x, length (be_bytes n x) = n /\ Forall byte (be_bytes n x).
Proof.
  induction n as [|n IH]; intros x; cbn [be_bytes]; [split; [reflexivity|constructor]|].
  destruct (IH (x / 256)) as [L F]. rewrite app_length, L. cbn [length]. split; [lia|].
  apply Forall_app. split; [exact F|]. constructor; [|constructor]. unfold byte. apply Z.mod_pos_bound. lia.
Qed.
Lemma be_bytes_app n m : forall x, 0 <= x -> be_bytes (n + m) x = be_bytes n (x / 256 ^ Z.of_nat m) ++ be_bytes m x.
Proof.
  induction m as [|m IH]; intros x Hx.
  - rewrite Nat.add_0_r. change (256 ^ Z.of_nat 0) with 1. rewrite Z.div_1_r. symmetry. apply app_nil_r.
  - rewrite Nat.add_succ_r. cbn [be_bytes]. rewrite IH by (apply Z.div_pos; lia).
    rewrite <- app_assoc. f_equal. rewrite Z.div_div by lia. f_equal. f_equal.
    rewrite Nat2Z.inj_succ, Z.pow_succ_r by lia. reflexivity.
Qed.
Lemma enc64be_eq v : 0 <= v -> enc64be v = be_bytes 8 v.
Proof.
  intros H. unfold enc64be. cbn [seq map be_bytes app]. rewrite !Z.shiftr_div_pow2 by lia.
  rewrite !Z.div_div by lia. cbn -[Z.div Z.modulo]. rewrite Z.div_1_r. reflexivity.
Qed.
Lemma be_bytes_mod n x : 0 <= x -> be_bytes n (x mod 256 ^ Z.of_nat n) = be_bytes n x.
Proof.
  revert x. induction n as [|n IH]; intros x Hx; [reflexivity|]. cbn [be_bytes].
  rewrite Nat2Z.inj_succ, Z.pow_succ_r by lia. assert (P : 0 < 256 ^ Z.of_nat n) by (apply Z.pow_pos_nonneg; lia).
  rewrite Z.rem_mul_r by lia. f_equal.
  - rewrite (Z.mul_comm 256), Z.div_add, Z.div_small by (try apply Z.mod_pos_bound; lia). cbn [Z.add].
    apply IH. apply Z.div_pos; lia.
  - rewrite (Z.mul_comm 256), Z.mod_add, Z.mod_mod by lia. reflexivity.
Qed.
Lemma length_bytes l : 0 <= l < 2 ^ 64 -> enc64be (Z.shiftr l 61) ++ enc64be (T64 (shl64 l 3)) = be_bytes 16 (8 * l).
Proof.
  intros H. rewrite T64_mod. unfold shl64. rewrite Z.shiftl_mul_pow2, Z.shiftr_div_pow2 by lia.
  rewrite Z.mod_mod by lia. rewrite !enc64be_eq by (first [apply Z.div_pos; lia|apply Z.mod_pos_bound; lia]).
  change 16%nat with (8 + 8)%nat. rewrite be_bytes_app by lia. change (2 ^ 64) with (256 ^ Z.of_nat 8).
  rewrite be_bytes_mod by lia. f_equal; [|f_equal; lia]. f_equal. change (256 ^ Z.of_nat 8) with (8 * 2 ^ 61).
  rewrite Z.div_mul_cancel_l by lia. reflexivity.
Qed.
Lemma store_full b n s : (n + length s = length b)%nat -> store_at b n s = firstn n b ++ s.
Proof. intros H. unfold store_at. rewrite skipn_all2 by lia. rewrite app_nil_r. reflexivity. Qed.
Lemma zeros_byte n : Forall byte (repeat 0 n).
Proof. apply Forall_forall. intros x Hx. apply repeat_spec in Hx. subst. unfold byte. lia. Qed.
Lemma enc_len v : length (enc64be v) = 8%nat. Proof. reflexivity. Qed.
Lemma enc_bytes v : Forall byte (enc64be v).
Proof. unfold enc64be. apply Forall_map. apply Forall_forall. intros i _. unfold byte. apply Z.mod_pos_bound. lia. Qed.
Lemma close_ok c M : absorbed c M -> Z.of_nat (length M) < 2 ^ 64 -> fst (sph_sha512_close c) = SHA512_fips M.
Proof.
  intros (q & A & B & -> & LA & LB & FM & Lb & Fb & EB & EV & EC) HL.
  set (M := A ++ B) in *. rewrite Z.mod_small in EC by lia.
  assert (CU : current_of c = length B). { apply (current_ok c q A B LA LB). unfold M in *. rewrite Z.mod_small by lia. exact EC. }
  assert (Vok : w8 (vals c)) by (rewrite EV; apply w8_blocks, w8_H0).
  apply Forall_app in FM. destruct FM as [FA FB].
  assert (F128 : Forall byte [128]) by (constructor; [unfold byte; lia|constructor]).
  unfold sph_sha512_close. rewrite CU, EC. cbv zeta.
  set (E1 := enc64be (Z.shiftr (Z.of_nat (length M)) 61)). set (E2 := enc64be (T64 (shl64 (Z.of_nat (length M)) 3))).
  assert (EE : E1 ++ E2 = be_bytes 16 (8 * Z.of_nat (length M))) by (apply length_bytes; lia).
  assert (L1 : length E1 = 8%nat) by reflexivity. assert (L2 : length E2 = 8%nat) by reflexivity.
  assert (G1 : Forall byte E1) by apply enc_bytes. assert (G2 : Forall byte E2) by apply enc_bytes.
  clearbody E1 E2.
  set (b1 := store_at (buf c) (length B) [128]).
  assert (Lb1 : length b1 = 128%nat) by (unfold b1; rewrite store_length by (cbn [length]; lia); exact Lb).
  assert (Fb1 : Forall byte b1) by (apply store_bytes; assumption).
  assert (Eb1 : firstn (length B + 1) b1 = B ++ [128]).
  { pose proof (store_first (buf c) (length B) [128] ltac:(cbn [length]; lia)) as X. cbn [length] in X. rewrite EB in X. exact X. }
  clearbody b1.
  assert (LM : length M = (128 * q + length B)%nat) by (unfold M; rewrite app_length; lia).
  assert (FIN : forall b2, length b2 = 128%nat -> Forall byte b2 ->
     store_at (store_at b2 112 E1) 120 E2 = firstn 112 b2 ++ E1 ++ E2 /\ length (store_at (store_at b2 112 E1) 120 E2) = 128%nat /\
     Forall byte (store_at (store_at b2 112 E1) 120 E2)).
  { intros b2 Lb2 Fb2. pose proof (store_length b2 112 E1 ltac:(lia)) as X1.
    pose proof (store_length (store_at b2 112 E1) 120 E2 ltac:(lia)) as X2. split; [|split].
    - rewrite store_full by lia. pose proof (store_first b2 112 E1 ltac:(lia)) as X. rewrite L1 in X.
      change (112 + 8)%nat with 120%nat in X. rewrite X, <- app_assoc. reflexivity.
    - lia.
    - apply store_bytes; [apply store_bytes|]; assumption. }
  assert (OUT : forall v, w8 v -> flat_map enc64be v = flat_map (be_bytes 8) v).
  { intros v [_ Fv]. induction Fv as [|x v Hx Fv IH]; [reflexivity|]. cbn [flat_map]. rewrite IH, enc64be_eq by (unfold w64 in Hx; lia). reflexivity. }
  unfold SHA512_fips. cbv zeta.
  destruct (112 <? length B + 1)%nat eqn:G; [apply Nat.ltb_lt in G|apply Nat.ltb_ge in G]; cbn [fst].
  - set (z := repeat 0 (128 - (length B + 1))).
    assert (Lz : length z = (128 - (length B + 1))%nat) by apply repeat_length.
    assert (Fz : Forall byte z) by apply zeros_byte.
    assert (Eb2 : store_at b1 (length B + 1) z = B ++ [128] ++ z) by (rewrite store_full by lia; rewrite Eb1, <- app_assoc; reflexivity).
    rewrite Eb2. set (b2 := B ++ [128] ++ z) in *.
    assert (Lb2 : length b2 = 128%nat) by (unfold b2; rewrite !app_length; cbn [length]; lia).
    assert (Fb2 : Forall byte b2) by (unfold b2; rewrite !Forall_app; auto).
    set (b3 := store_at b2 0 (repeat 0 112)).
    assert (Lb3 : length b3 = 128%nat) by (unfold b3; rewrite store_length by (rewrite repeat_length; lia); exact Lb2).
    assert (Fb3 : Forall byte b3) by (apply store_bytes; [exact Fb2|apply zeros_byte]).
    assert (Eb3 : firstn 112 b3 = repeat 0 112).
    { pose proof (store_first b2 0 (repeat 0 112) ltac:(rewrite repeat_length; lia)) as X. rewrite repeat_length in X. exact X. }
    clearbody b3. destruct (FIN b3 Lb3 Fb3) as (X & LX & FX). set (b4 := store_at (store_at b3 112 E1) 120 E2) in *.
    assert (EP : pad M = ((A ++ b2) ++ b4)).
    { assert (EZ : Z.to_nat ((111 - Z.of_nat (length M)) mod 128) = (128 - (length B + 1) + 112)%nat).
      { rewrite LM.
        replace (111 - Z.of_nat (128 * q + length B)) with (111 - Z.of_nat (length B) + 128 + (- Z.of_nat q - 1) * 128) by lia.
        rewrite Z.mod_add by lia. rewrite Z.mod_small by lia. lia. }
      unfold pad. cbv zeta. rewrite EZ, repeat_app, X, Eb3, <- EE. unfold M, b2. fold z. rewrite <- !app_assoc. reflexivity. }
    rewrite EP. replace (length ((A ++ b2) ++ b4) / 128)%nat with (S (S q)).
    2:{ rewrite !app_length, LA, Lb2, LX. replace (128 * q + 128 + 128)%nat with (S (S q) * 128)%nat by lia. rewrite Nat.div_mul by lia. reflexivity. }
    rewrite hash_blocks_snoc by (rewrite ?app_length; lia). rewrite hash_blocks_snoc by lia. rewrite <- EV.
    rewrite (round_ok b2) by (assumption || lia). rewrite (firstn_all2 (n := 128) b2) by lia.
    rewrite (round_ok b4); [|lia|exact FX|apply w8_compress]. rewrite (firstn_all2 (n := 128) b4) by lia.
    apply OUT. apply w8_compress.
  - set (z := repeat 0 (112 - (length B + 1))).
    assert (Lz : length z = (112 - (length B + 1))%nat) by apply repeat_length.
    assert (Fz : Forall byte z) by apply zeros_byte.
    set (b2 := store_at b1 (length B + 1) z).
    assert (Lb2 : length b2 = 128%nat) by (unfold b2; rewrite store_length by lia; exact Lb1).
    assert (Fb2 : Forall byte b2) by (apply store_bytes; assumption).
    assert (Eb2 : firstn 112 b2 = B ++ [128] ++ z).
    { pose proof (store_first b1 (length B + 1) z ltac:(lia)) as X. rewrite Lz, Eb1 in X.
      replace (length B + 1 + (112 - (length B + 1)))%nat with 112%nat in X by lia. unfold b2. rewrite X, <- app_assoc. reflexivity. }
    clearbody b2. destruct (FIN b2 Lb2 Fb2) as (X & LX & FX). set (b4 := store_at (store_at b2 112 E1) 120 E2) in *.
    assert (EP : pad M = A ++ b4).
    { assert (EZ : Z.to_nat ((111 - Z.of_nat (length M)) mod 128) = (112 - (length B + 1))%nat).
      { rewrite LM. replace (111 - Z.of_nat (128 * q + length B)) with (111 - Z.of_nat (length B) + (- Z.of_nat q) * 128) by lia.
        rewrite Z.mod_add by lia. rewrite Z.mod_small by lia. lia. }
      unfold pad. cbv zeta. rewrite EZ, X, Eb2, <- EE. unfold M. fold z. rewrite <- !app_assoc. reflexivity. }
    rewrite EP. replace (length (A ++ b4) / 128)%nat with (S q).
    2:{ rewrite !app_length, LA, LX. replace (128 * q + 128)%nat with (S q * 128)%nat by lia. rewrite Nat.div_mul by lia. reflexivity. }
    rewrite hash_blocks_snoc by lia. rewrite <- EV.
    rewrite (round_ok b4) by (assumption || lia). rewrite (firstn_all2 (n := 128) b4) by lia.
    apply OUT. apply w8_compress.
Qed.
(** ** Results *)
Theorem sha512_chunks c chunks : length (buf c) = 128%nat -> Forall byte (buf c) -> Forall (Forall byte) chunks ->
  Z.of_nat (length (concat chunks)) < 2 ^ 64 ->
  fst (sph_sha512_close (sph_sha512_all (sph_sha512_init c) chunks)) = SHA512_fips (concat chunks).
Proof.
  intros L F Fc HL. apply close_ok; [|exact HL]. apply (all_ok chunks _ []); [apply absorbed_init; assumption|exact Fc].
Qed.
Theorem sha512_bytes m : bytes 64 (SHA512_fips m).
Proof.
  unfold SHA512_fips. cbv zeta. pose proof (w8_blocks (length (pad m) / 128) H0_fips (pad m) w8_H0) as [L _].
  set (v := hash_blocks _ _ _) in *. clearbody v.
  destruct v as [|v0 [|v1 [|v2 [|v3 [|v4 [|v5 [|v6 [|v7 [|]]]]]]]]]; try discriminate L.
  unfold bytes. cbn [flat_map]. rewrite !app_length, !(fun n x => proj1 (be_bytes_ok n x)). split; [reflexivity|].
  rewrite !Forall_app. repeat split; try apply be_bytes_ok; constructor.
Qed.
