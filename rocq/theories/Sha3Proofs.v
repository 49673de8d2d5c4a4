(** The Keccak code computes FIPS 202, whatever the division of the message into calls. *)
From Coq Require Import ZArith List Bool Lia PeanoNat.
From Verif Require Import Uop Engine Bytes Sym SpecSha3 Sha3 Sha512Proofs.
Import ListNotations.
Open Scope Z_scope.

(** ** One round of the code is one round of Keccak on permuted lanes *)
Section Gen.
Variable rot : Z -> Z -> Z.
Definition theta_gen (A : list Z) : list Z :=
  let C x := Z.lxor (Z.lxor (Z.lxor (Z.lxor (lane A x 0) (lane A x 1)) (lane A x 2)) (lane A x 3)) (lane A x 4) in
  let D x := Z.lxor (C (x + 4)%nat) (rot (C (x + 1)%nat) 1) in
  build (fun x y => Z.lxor (lane A x y) (D x)).
Definition rho_gen (A : list Z) : list Z :=
  build (fun x y => if offset x y =? 0 then lane A x y else rot (lane A x y) (offset x y)).
Definition iota_gen (rcv : Z) (A : list Z) : list Z :=
  build (fun x y => if ((x =? 0) && (y =? 0))%nat then Z.lxor (lane A 0 0) rcv else lane A x y).
Definition rnd_gen (rcv : Z) (A : list Z) : list Z := iota_gen rcv (chi (pi_step (rho_gen (theta_gen A)))).
End Gen.
(** The lane (x, y) is kept in state[5 (f x + g y) + x] *)
Definition unperm (f g : nat) (s : list Z) : list Z := build (fun x y => nth (5 * ((f * x + g * y) mod 5) + x) s 0).
Ltac list25 s L :=
  do 25 (destruct s as [|? s]; [discriminate L|]); destruct s; [|discriminate L].
Lemma code0 rcv s : length s = 25%nat -> unperm 1 2 (keccak_round0 rcv s) = rnd_gen ROL64 rcv (unperm 0 1 s).
Proof. intros L. list25 s L. cbv -[Z.lxor Z.land ROL64]. reflexivity. Qed.
Lemma code1 rcv s : length s = 25%nat -> unperm 3 4 (keccak_round1 rcv s) = rnd_gen ROL64 rcv (unperm 1 2 s).
Proof. intros L. list25 s L. cbv -[Z.lxor Z.land ROL64]. reflexivity. Qed.
Lemma code2 rcv s : length s = 25%nat -> unperm 2 3 (keccak_round2 rcv s) = rnd_gen ROL64 rcv (unperm 3 4 s).
Proof. intros L. list25 s L. cbv -[Z.lxor Z.land ROL64]. reflexivity. Qed.
Lemma code3 rcv s : length s = 25%nat -> unperm 0 1 (keccak_round3 rcv s) = rnd_gen ROL64 rcv (unperm 2 3 s).
Proof. intros L. list25 s L. cbv -[Z.lxor Z.land ROL64]. reflexivity. Qed.
Lemma unperm_id s : length s = 25%nat -> unperm 0 1 s = s.
Proof. intros L. list25 s L. reflexivity. Qed.
Lemma length_r0 rcv s : length s = 25%nat -> length (keccak_round0 rcv s) = 25%nat.
Proof. intros L. list25 s L. reflexivity. Qed.
Lemma length_r1 rcv s : length s = 25%nat -> length (keccak_round1 rcv s) = 25%nat.
Proof. intros L. list25 s L. reflexivity. Qed.
Lemma length_r2 rcv s : length s = 25%nat -> length (keccak_round2 rcv s) = 25%nat.
Proof. intros L. list25 s L. reflexivity. Qed.
Lemma length_r3 rcv s : length s = 25%nat -> length (keccak_round3 rcv s) = 25%nat.
Proof. intros L. list25 s L. reflexivity. Qed.
(** ** The rotations of the code are rotations *)
Definition w25 (A : list Z) : Prop := length A = 25%nat /\ Forall w64 A.
Lemma lxor_disj k u v : 0 <= k -> 0 <= v < 2 ^ k -> u mod 2 ^ k = 0 -> Z.lxor u v = u + v.
Proof.
  intros Hk Hv Hu. rewrite <- (lor_disj k u v Hk Hv Hu). apply Z.lxor_lor. apply Z.bits_inj'. intros n Hn.
  rewrite Z.land_spec, Z.bits_0. destruct (Z.lt_ge_cases n k) as [G|G].
  - replace (Z.testbit u n) with false; [reflexivity|]. symmetry.
    rewrite <- (Z.mod_pow2_bits_low u k n) by lia. rewrite Hu. apply Z.bits_0.
  - replace (Z.testbit v n) with false; [apply andb_false_r|]. symmetry.
    rewrite <- (Z.mod_small v (2 ^ k)) by lia. apply Z.mod_pow2_bits_high. lia.
Qed.
Lemma rol_eq x n : w64 x -> 0 < n < 64 -> ROL64 x n = ROT x n.
Proof.
  intros Hx Hn. unfold w64 in Hx. unfold ROL64, ROT. rewrite Z.shiftl_mul_pow2, Z.shiftr_div_pow2 by lia.
  assert (E64 : 2 ^ 64 = 2 ^ (64 - n) * 2 ^ n) by (rewrite <- Z.pow_add_r by lia; f_equal; lia).
  assert (P1 : 0 < 2 ^ n) by (apply Z.pow_pos_nonneg; lia).
  assert (P2 : 0 < 2 ^ (64 - n)) by (apply Z.pow_pos_nonneg; lia).
  apply (lxor_disj n); [lia| |].
  - split; [apply Z.div_pos; lia|]. apply Z.div_lt_upper_bound; lia.
  - rewrite E64. rewrite Z.mul_mod_distr_r by lia. apply Z.mod_mul. lia.
Qed.
Lemma ROT_w64 x n : w64 x -> 0 <= n < 64 -> w64 (ROT x n).
Proof.
  intros Hx Hn. destruct (Z.eq_dec n 0) as [->|N].
  - unfold ROT. rewrite Z.mul_1_r, Z.mod_small by exact Hx. rewrite Z.div_small by exact Hx. rewrite Z.add_0_r. exact Hx.
  - rewrite <- rol_eq by (assumption || lia). unfold ROL64. apply w64_lxor; [apply w64_mod|].
    rewrite Z.shiftr_div_pow2 by lia. apply (shr_eq x (64 - n)); [exact Hx|lia].
Qed.
Lemma ROT_0 x : w64 x -> ROT x 0 = x.
Proof.
  intros Hx. unfold ROT. rewrite Z.mul_1_r, Z.mod_small by exact Hx. rewrite Z.div_small by exact Hx. lia.
Qed.
Lemma lane_w64 A x y : Forall w64 A -> w64 (lane A x y).
Proof.
  intros F. unfold lane. destruct (Nat.lt_ge_cases (5 * (y mod 5) + x mod 5) (length A)) as [G|G].
  - apply (proj1 (Forall_forall w64 A) F). apply nth_In. exact G.
  - rewrite nth_overflow by exact G. unfold w64. lia.
Qed.
Lemma build_w25 f : (forall x y, (x < 5)%nat -> (y < 5)%nat -> w64 (f x y)) -> w25 (build f).
Proof.
  intros H. split; [reflexivity|]. unfold build. apply Forall_map. apply Forall_forall. intros i Hi. apply in_seq in Hi.
  apply H; [apply Nat.mod_upper_bound; lia|apply Nat.div_lt_upper_bound; lia].
Qed.
Lemma build_ext f g : (forall x y, (x < 5)%nat -> (y < 5)%nat -> f x y = g x y) -> build f = build g.
Proof.
  intros H. unfold build. apply map_ext_in. intros i Hi. apply in_seq in Hi.
  apply H; [apply Nat.mod_upper_bound; lia|apply Nat.div_lt_upper_bound; lia].
Qed.
Lemma offset_range x y : (x < 5)%nat -> (y < 5)%nat -> 0 <= offset x y < 64.
Proof.
  intros Hx Hy.
  assert (T : forallb (fun x => forallb (fun y => (0 <=? offset x y) && (offset x y <? 64)) (seq 0 5)) (seq 0 5) = true) by (vm_compute; reflexivity).
  rewrite forallb_forall in T. specialize (T x ltac:(apply in_seq; lia)). rewrite forallb_forall in T.
  specialize (T y ltac:(apply in_seq; lia)). apply andb_prop in T. lia.
Qed.
Lemma theta_w25 A : Forall w64 A -> w25 (theta A).
Proof.
  intros F. unfold theta. cbv zeta. apply build_w25. intros x y _ _.
  assert (C : forall x, w64 (Z.lxor (Z.lxor (Z.lxor (Z.lxor (lane A x 0) (lane A x 1)) (lane A x 2)) (lane A x 3)) (lane A x 4))).
  { intros x0. repeat apply w64_lxor; apply lane_w64; exact F. }
  apply w64_lxor; [apply lane_w64; exact F|]. apply w64_lxor; [apply C|]. apply ROT_w64; [apply C|lia].
Qed.
Lemma rho_w25 A : Forall w64 A -> w25 (rho A).
Proof. intros F. apply build_w25. intros x y Hx Hy. apply ROT_w64; [apply lane_w64; exact F|apply offset_range; assumption]. Qed.
Lemma pi_w25 A : Forall w64 A -> w25 (pi_step A).
Proof. intros F. apply build_w25. intros x y Hx Hy. apply lane_w64; exact F. Qed.
Lemma w64_land x y : w64 x -> w64 y -> w64 (Z.land x y).
Proof.
  intros Hx Hy. unfold w64 in *. split; [apply Z.land_nonneg; lia|].
  destruct (Z.eq_dec (Z.land x y) 0) as [->|N]; [lia|].
  assert (P : 0 < Z.land x y) by (pose proof (proj2 (Z.land_nonneg x y) ltac:(lia)); lia).
  apply Z.log2_lt_pow2; [exact P|]. pose proof (Z.log2_land x y ltac:(lia) ltac:(lia)).
  destruct (Z.eq_dec y 0) as [->|Ny]; [rewrite Z.land_0_r in P; lia|].
  pose proof (proj1 (Z.log2_lt_pow2 y 64 ltac:(lia)) ltac:(lia)). lia.
Qed.
Lemma chi_w25 A : Forall w64 A -> w25 (chi A).
Proof.
  intros F. apply build_w25. intros x y Hx Hy. apply w64_lxor; [apply lane_w64; exact F|].
  apply w64_land; [|apply lane_w64; exact F]. apply w64_lxor; [apply lane_w64; exact F|unfold w64; lia].
Qed.
Lemma RC_eq ir : (ir < 24)%nat -> RC ir = nth ir KeccakF21600RoundConstants 0.
Proof.
  intros H. assert (T : KeccakF21600RoundConstants = map RC (seq 0 24)) by (vm_compute; reflexivity).
  rewrite T. rewrite (nth_indep _ 0 (RC 0)) by (rewrite map_length, seq_length; exact H).
  rewrite map_nth, seq_nth by exact H. reflexivity.
Qed.
Lemma RC_w64 ir : (ir < 24)%nat -> w64 (RC ir).
Proof.
  intros H. rewrite RC_eq by exact H. apply (proj1 (Forall_forall w64 KeccakF21600RoundConstants)); [|apply nth_In; exact H].
  unfold KeccakF21600RoundConstants, w64. repeat (constructor; [lia|]). constructor.
Qed.
Lemma iota_w25 ir A : (ir < 24)%nat -> Forall w64 A -> w25 (iota ir A).
Proof.
  intros H F. apply build_w25. intros x y _ _.
  destruct ((x =? 0) && (y =? 0))%nat; [|apply lane_w64; exact F]. apply w64_lxor; [apply lane_w64; exact F|apply RC_w64; exact H].
Qed.
Lemma Rnd_w25 ir A : (ir < 24)%nat -> Forall w64 A -> w25 (Rnd ir A).
Proof.
  intros H F. unfold Rnd. apply iota_w25; [exact H|]. apply chi_w25. apply pi_w25. apply rho_w25. apply theta_w25. exact F.
Qed.
Lemma theta_eq A : Forall w64 A -> theta_gen ROL64 A = theta A.
Proof.
  intros F. unfold theta_gen, theta. cbv zeta. apply build_ext. intros x y _ _. do 2 f_equal.
  apply rol_eq; [|lia]. repeat apply w64_lxor; apply lane_w64; exact F.
Qed.
Lemma rho_eq A : Forall w64 A -> rho_gen ROL64 A = rho A.
Proof.
  intros F. unfold rho_gen, rho. apply build_ext. intros x y Hx Hy. pose proof (offset_range x y Hx Hy).
  destruct (offset x y =? 0) eqn:E; [apply Z.eqb_eq in E|apply Z.eqb_neq in E].
  - rewrite E. symmetry. apply ROT_0. apply lane_w64. exact F.
  - apply rol_eq; [apply lane_w64; exact F|lia].
Qed.
Lemma rnd_eq ir A : (ir < 24)%nat -> Forall w64 A -> rnd_gen ROL64 (nth ir KeccakF21600RoundConstants 0) A = Rnd ir A.
Proof.
  intros H F. unfold rnd_gen, Rnd. rewrite theta_eq by exact F. rewrite rho_eq by (apply theta_w25; exact F).
  rewrite <- RC_eq by exact H. reflexivity.
Qed.
Lemma four_ok i s : w25 s -> (i + 4 <= 24)%nat ->
  keccak_round3 (nth (i + 3) KeccakF21600RoundConstants 0) (keccak_round2 (nth (i + 2) KeccakF21600RoundConstants 0)
    (keccak_round1 (nth (i + 1) KeccakF21600RoundConstants 0) (keccak_round0 (nth (i + 0) KeccakF21600RoundConstants 0) s))) =
  rounds 4 i s.
Proof.
  intros [L F] Hi.
  pose proof (length_r0 (nth (i + 0) KeccakF21600RoundConstants 0) s L) as L0. set (s0 := keccak_round0 _ s) in *.
  pose proof (length_r1 (nth (i + 1) KeccakF21600RoundConstants 0) s0 L0) as L1. set (s1 := keccak_round1 _ s0) in *.
  pose proof (length_r2 (nth (i + 2) KeccakF21600RoundConstants 0) s1 L1) as L2. set (s2 := keccak_round2 _ s1) in *.
  pose proof (length_r3 (nth (i + 3) KeccakF21600RoundConstants 0) s2 L2) as L3. set (s3 := keccak_round3 _ s2) in *.
  rewrite <- (unperm_id s3 L3). unfold s3. rewrite (code3 _ _ L2). unfold s2. rewrite (code2 _ _ L1). unfold s1.
  rewrite (code1 _ _ L0). unfold s0. rewrite (code0 _ _ L), (unperm_id s L). clear s0 s1 s2 s3 L0 L1 L2 L3.
  cbn [rounds]. rewrite Nat.add_0_r.
  replace (i + 1 + 1)%nat with (i + 2)%nat by lia. replace (i + 2 + 1)%nat with (i + 3)%nat by lia.
  rewrite (rnd_eq i s) by (assumption || lia).
  pose proof (Rnd_w25 i s ltac:(lia) F) as [_ F0]. rewrite (rnd_eq (i + 1)) by (assumption || lia).
  pose proof (Rnd_w25 (i + 1) _ ltac:(lia) F0) as [_ F1]. rewrite (rnd_eq (i + 2)) by (assumption || lia).
  pose proof (Rnd_w25 (i + 2) _ ltac:(lia) F1) as [_ F2]. rewrite (rnd_eq (i + 3)) by (assumption || lia).
  reflexivity.
Qed.
Lemma rounds_plus n m : forall i A, rounds (n + m) i A = rounds m (i + n) (rounds n i A).
Proof.
  induction n as [|n IH]; intros i A; cbn [rounds Nat.add].
  - rewrite Nat.add_0_r. reflexivity.
  - rewrite IH. f_equal. lia.
Qed.
Lemma rounds_w25 n : forall i A, (i + n <= 24)%nat -> w25 A -> w25 (rounds n i A).
Proof. induction n as [|n IH]; intros i A H F; cbn [rounds]; [exact F|]. apply IH; [lia|]. apply Rnd_w25; [lia|apply F]. Qed.
Lemma kloop_ok n : forall i s, w25 s -> (i + 4 * n <= 24)%nat -> keccak_loop n i s = rounds (4 * n) i s.
Proof.
  induction n as [|n IH]; intros i s H Hi; [reflexivity|]. cbn [keccak_loop]. cbv zeta.
  rewrite four_ok by (assumption || lia). replace (4 * S n)%nat with (4 + 4 * n)%nat by lia. rewrite rounds_plus.
  apply IH; [apply rounds_w25; [lia|exact H]|lia].
Qed.
Lemma KeccakF2_ok s : w25 s -> KeccakF2 s = rounds 24 0 s /\ w25 (KeccakF2 s).
Proof.
  intros H. assert (E : KeccakF2 s = rounds 24 0 s) by (unfold KeccakF2; apply (kloop_ok 6 0 s H); lia).
  split; [exact E|]. rewrite E. apply rounds_w25; [lia|exact H].
Qed.

(** ** Bytes and lanes *)
Lemma skip_skip {A} a b : forall l : list A, skipn a (skipn b l) = skipn (b + a) l.
Proof. induction b as [|b IH]; intros l; [reflexivity|]. destruct l; [cbn; apply skipn_nil|]. cbn [skipn Nat.add]. apply IH. Qed.
Lemma words_lanes n : forall b, words_of n b = map (fun i => le_val (firstn 8 (skipn (8 * i) b))) (seq 0 n).
Proof.
  induction n as [|n IH]; intros b; [reflexivity|]. cbn [words_of seq map]. rewrite word_of_bytes_le. f_equal.
  rewrite IH, <- seq_shift, map_map. apply map_ext. intros i. rewrite skip_skip. do 3 f_equal. lia.
Qed.
Lemma le_bytes_word w : w64 w -> le_bytes 8 w = bytes_of_word w.
Proof.
  intros H. unfold bytes_of_word. cbn [map le_bytes]. rewrite !Z.div_div by lia. cbn -[Z.div Z.modulo]. rewrite Z.div_1_r. reflexivity.
Qed.
Lemma bytes_of_lanes_eq l : Forall w64 l -> bytes_of_lanes l = bytes_of l.
Proof. induction 1 as [|x l Hx F IH]; [reflexivity|]. unfold bytes_of_lanes, bytes_of in *. cbn [flat_map]. rewrite IH, le_bytes_word by exact Hx. reflexivity. Qed.
Lemma w25_words s : w25 s <-> words 25 s.
Proof. unfold w25, words, w64, word, W. reflexivity. Qed.
Lemma w25_of b : bytes 200 b -> w25 (words_of 25 b).
Proof. intros H. apply w25_words. apply (words_of_ok 25). exact H. Qed.
Lemma keccak_bytes b : bytes 200 b -> KeccakF2_bytes b = keccak_f b /\ bytes 200 (keccak_f b).
Proof.
  intros H. pose proof (KeccakF2_ok _ (w25_of b H)) as [E P].
  assert (X : KeccakF2_bytes b = keccak_f b).
  { unfold KeccakF2_bytes, keccak_f. fold (lanes_of b). rewrite bytes_of_lanes_eq.
    - rewrite E. unfold lanes_of. rewrite <- words_lanes. reflexivity.
    - unfold lanes_of. rewrite <- words_lanes, <- E. apply P. }
  split; [exact X|]. rewrite <- X. unfold KeccakF2_bytes. apply (bytes_of_ok 25). apply w25_words. exact P.
Qed.

(** ** Bitwise sums of byte strings *)
Lemma xor_bytes_eq s : forall d, xor_bytes s d = xor_into s d.
Proof. induction s as [|x s IH]; intros [|y d]; cbn [xor_bytes xor_into]; [reflexivity..|]. rewrite IH. reflexivity. Qed.
Lemma xor_nil s : xor_into s [] = s. Proof. destruct s; reflexivity. Qed.
Lemma xor_length s : forall d, length (xor_into s d) = length s.
Proof. induction s as [|x s IH]; intros [|y d]; cbn [xor_into length]; [reflexivity..|]. rewrite IH. reflexivity. Qed.
Lemma xor_byte s : forall d, Forall byte s -> Forall byte d -> Forall byte (xor_into s d).
Proof.
  induction s as [|x s IH]; intros [|y d] Hs Hd; cbn [xor_into]; try assumption.
  inversion Hs; inversion Hd; subst. constructor; [apply Bytes.lxor_bound; assumption|]. apply IH; assumption.
Qed.
Lemma xor_bytes200 s d : bytes 200 s -> Forall byte d -> bytes 200 (xor_into s d).
Proof. intros [L F] Hd. split; [rewrite xor_length; exact L|apply xor_byte; assumption]. Qed.
Lemma xor_at_app B : forall s d, (length B <= length s)%nat -> xor_at (xor_into s B) (length B) d = xor_into s (B ++ d).
Proof.
  induction B as [|y B IH]; intros s d L.
  - cbn [length app]. unfold xor_at. rewrite xor_nil. cbn [firstn skipn app]. apply xor_bytes_eq.
  - destruct s as [|x s]; [cbn [length] in L; lia|]. cbn [length app xor_into]. unfold xor_at. cbn [firstn skipn app].
    f_equal. apply IH. cbn [length] in L. lia.
Qed.
Lemma xor_zeros B : forall s k, xor_into s (B ++ repeat 0 k) = xor_into s B.
Proof.
  induction B as [|y B IH]; intros s k; cbn [app].
  - rewrite xor_nil. revert s. induction k as [|k IH]; intros s; cbn [repeat]; [apply xor_nil|].
    destruct s as [|x s]; [reflexivity|]. cbn [xor_into]. rewrite Z.lxor_0_r, IH. reflexivity.
  - destruct s as [|x s]; [reflexivity|]. cbn [xor_into]. rewrite IH. reflexivity.
Qed.
(** xor at a place already covered *)
Lemma xor_at_twice B a c : forall s, (length B < length s)%nat ->
  xor_at (xor_into s (B ++ [a])) (length B) [c] = xor_into s (B ++ [Z.lxor a c]).
Proof.
  induction B as [|y B IH]; intros s L; (destruct s as [|x s]; [cbn [length] in L; lia|]).
  - cbn [length app xor_into]. unfold xor_at. cbn [firstn skipn app xor_bytes]. rewrite !xor_nil.
    replace (xor_bytes s []) with s by (destruct s; reflexivity). rewrite Z.lxor_assoc. reflexivity.
  - cbn [length app xor_into]. unfold xor_at. cbn [firstn skipn app]. f_equal. apply IH. cbn [length] in L. lia.
Qed.
Lemma xor_app a : forall b c d, length a = length c -> xor_into (a ++ b) (c ++ d) = xor_into a c ++ xor_into b d.
Proof.
  induction a as [|x a IH]; intros b [|y c] d L; try discriminate L; cbn [app xor_into]; [reflexivity|].
  rewrite IH by (cbn [length] in L; lia). reflexivity.
Qed.

(** ** Absorbing *)
Lemma absorb_snoc r n : forall s A b, length A = (r * n)%nat -> length b = r ->
  absorb r (S n) s (A ++ b) = keccak_f (xor_into (absorb r n s A) b).
Proof.
  induction n as [|n IH]; intros s A b LA Lb.
  - destruct A; [|cbn [length] in LA; lia]. cbn [app absorb]. rewrite firstn_all2 by lia. reflexivity.
  - change (absorb r (S (S n)) s (A ++ b)) with (absorb r (S n) (keccak_f (xor_into s (firstn r (A ++ b)))) (skipn r (A ++ b))).
    assert (E1 : firstn r (A ++ b) = firstn r A).
    { rewrite firstn_app. replace (r - length A)%nat with 0%nat by lia. rewrite firstn_O, app_nil_r. reflexivity. }
    assert (E2 : skipn r (A ++ b) = skipn r A ++ b).
    { rewrite skipn_app. replace (r - length A)%nat with 0%nat by lia. reflexivity. }
    rewrite E1, E2, IH by (rewrite ?skipn_length; lia). reflexivity.
Qed.
Lemma absorb_bytes r n : forall s A, bytes 200 s -> Forall byte A -> bytes 200 (absorb r n s A).
Proof.
  induction n as [|n IH]; intros s A Hs HA; cbn [absorb]; [exact Hs|]. apply IH; [|apply Forall_skip; exact HA].
  apply keccak_bytes. apply xor_bytes200; [exact Hs|apply Forall_first; exact HA].
Qed.
Lemma zero_state : bytes 200 (repeat 0 200).
Proof. split; [reflexivity|apply zeros_byte]. Qed.
(** The final block *)
Definition pad_block (r : nat) (B : list Z) : list Z :=
  B ++ (if (r - length B =? 1)%nat then [0x9F] else [0x1F] ++ repeat 0 (r - length B - 2) ++ [0x80]).
Lemma pad_split r q (A B : list Z) : (0 < r)%nat -> length A = (r * q)%nat -> (length B < r)%nat ->
  shake_pad r (A ++ B) = A ++ pad_block r B /\ length (pad_block r B) = r.
Proof.
  intros Hr LA LB. unfold shake_pad, pad_block. cbv zeta.
  assert (E : (length (A ++ B) mod r = length B)%nat).
  { rewrite app_length, LA, Nat.add_comm, Nat.mul_comm, Nat.mod_add by lia. apply Nat.mod_small. exact LB. }
  rewrite E, <- app_assoc. split; [reflexivity|]. rewrite app_length.
  destruct (r - length B =? 1)%nat eqn:G; [apply Nat.eqb_eq in G; cbn [length]; lia|apply Nat.eqb_neq in G].
  rewrite !app_length, repeat_length. cbn [length]. lia.
Qed.
Lemma pad_block_bytes r B : Forall byte B -> Forall byte (pad_block r B).
Proof.
  intros F. unfold pad_block. apply Forall_app. split; [exact F|].
  destruct (r - length B =? 1)%nat; [constructor; [unfold byte; lia|constructor]|].
  constructor; [unfold byte; lia|]. apply Forall_app. split; [apply zeros_byte|constructor; [unfold byte; lia|constructor]].
Qed.
Lemma shake_absorb r q (A B : list Z) : (0 < r)%nat -> length A = (r * q)%nat -> (length B < r)%nat ->
  absorb r (length (shake_pad r (A ++ B)) / r) (repeat 0 200) (shake_pad r (A ++ B)) =
  keccak_f (xor_into (absorb r q (repeat 0 200) A) (pad_block r B)).
Proof.
  intros Hr LA LB. destruct (pad_split r q A B Hr LA LB) as [E L]. rewrite E, app_length, LA, L.
  replace ((r * q + r) / r)%nat with (S q). 2:{ replace (r * q + r)%nat with (S q * r)%nat by lia. rewrite Nat.div_mul by lia. reflexivity. }
  apply absorb_snoc; assumption.
Qed.
(** ** Squeezing *)
Lemma iter_r {A} (f : A -> A) i s : Nat.iter (S i) f s = Nat.iter i f (f s).
Proof. induction i as [|i IH]; [reflexivity|]. change (Nat.iter (S (S i)) f s) with (f (Nat.iter (S i) f s)). rewrite IH. reflexivity. Qed.
Lemma squeeze_gen (f : list Z -> list Z) r : (0 < r)%nat -> forall fuel d n s, (d < fuel)%nat -> (d <= r * n)%nat -> (0 < n)%nat ->
  (forall i, (r <= length (Nat.iter i f s))%nat) ->
  squeeze_loop fuel (@firstn Z) f r d s = firstn d (flat_map (fun i => firstn r (Nat.iter i f s)) (seq 0 n)).
Proof.
  intros Hr. induction fuel as [|fu IH]; intros d n s Hf Hd Hn Hs; [lia|]. cbn [squeeze_loop].
  destruct n as [|n]; [lia|]. cbn [seq flat_map]. change (Nat.iter 0 f s) with s.
  pose proof (Hs 0%nat) as L0. change (Nat.iter 0 f s) with s in L0.
  assert (L1 : length (firstn r s) = r) by (rewrite firstn_length; lia).
  destruct (r <? d)%nat eqn:G; [apply Nat.ltb_lt in G|apply Nat.ltb_ge in G].
  - rewrite firstn_app, L1, (firstn_all2 (n := d) (firstn r s)) by lia. f_equal.
    rewrite (IH (d - r)%nat n (f s)).
    + f_equal. rewrite <- seq_shift, !flat_map_concat_map, map_map. f_equal. apply map_ext. intros i.
      rewrite iter_r. reflexivity.
    + lia.
    + nia.
    + destruct n; [nia|lia].
    + intros i. rewrite <- iter_r. apply Hs.
  - rewrite firstn_app, L1. replace (d - r)%nat with 0%nat by lia. rewrite firstn_O, app_nil_r, firstn_firstn. f_equal. lia.
Qed.
Lemma iter_bytes i s : bytes 200 s -> bytes 200 (Nat.iter i keccak_f s).
Proof. intros H. induction i as [|i IH]; [exact H|]. cbn [Nat.iter]. apply keccak_bytes. exact IH. Qed.
Lemma squeeze_ok r d s : (0 < r <= 200)%nat -> bytes 200 s ->
  squeeze_loop (S d) (@firstn Z) KeccakF2_bytes r d s = squeeze r d s.
Proof.
  intros Hr Hs. unfold squeeze.
  rewrite <- (squeeze_gen keccak_f r ltac:(lia) (S d) d (d / r + 1) s).
  - generalize (S d) as fu. intros fu. revert d s Hs. induction fu as [|fu IH]; intros d s Hs; [reflexivity|]. cbn [squeeze_loop].
    destruct (keccak_bytes s Hs) as [E P]. rewrite E, IH by exact P. reflexivity.
  - lia.
  - pose proof (Nat.mul_succ_div_gt d r ltac:(lia)). replace (d / r + 1)%nat with (S (d / r)) by lia. lia.
  - lia.
  - intros i. destruct (iter_bytes i s Hs) as [L _]. rewrite L. lia.
Qed.
(** ** The incremental interface *)
Definition absorbing (r : nat) (st : hashState) (M : list Z) : Prop :=
  exists q A B, M = A ++ B /\ length A = (r * q)%nat /\ (length B < r)%nat /\ Forall byte M /\
    hs st = xor_into (absorb r q (repeat 0 200) A) B /\ statebitlen st = 8 * Z.of_nat (length B) /\ rate st = 8 * Z.of_nat r.
Lemma init_ok h r : 1600 - h * 2 = 8 * Z.of_nat r -> (0 < r)%nat -> absorbing r (Init h) [].
Proof.
  intros E Hr. exists 0%nat, [], []. unfold Init. cbn [hs statebitlen rate app length absorb].
  rewrite xor_nil. do 3 (split; [reflexivity || lia|]). split; [constructor|]. split; [reflexivity|]. split; [reflexivity|exact E].
Qed.
Lemma div8 n : 8 * Z.of_nat n / 8 = Z.of_nat n.
Proof. rewrite Z.mul_comm. apply Z.div_mul. lia. Qed.
Lemma update_loop_ok r : (0 < r <= 200)%nat -> forall fuel st q A B data,
  (length data < fuel)%nat -> Forall byte (A ++ B) -> Forall byte data -> length A = (r * q)%nat -> (length B < r)%nat ->
  hs st = xor_into (absorb r q (repeat 0 200) A) B -> statebitlen st = 8 * Z.of_nat (length B) -> rate st = 8 * Z.of_nat r ->
  8 * Z.of_nat (length B + length data) < 2 ^ 64 ->
  exists st' q' A' B' tmp, update_loop fuel st data (8 * Z.of_nat (length data)) = (st', tmp, 8 * Z.of_nat (length tmp)) /\
    (A ++ B) ++ data = (A' ++ B') ++ tmp /\ length A' = (r * q')%nat /\ (length B' + length tmp < r)%nat /\
    hs st' = xor_into (absorb r q' (repeat 0 200) A') B' /\ statebitlen st' = 8 * Z.of_nat (length B') /\ rate st' = 8 * Z.of_nat r.
Proof.
  intros Hr. induction fuel as [|f IH]; intros st q A B data Hf FM Fd LA LB Es Eb Er HL; [lia|].
  cbn [update_loop]. rewrite Eb, Er, !div8. rewrite Z.mod_small by lia.
  destruct (8 * Z.of_nat r <=? 8 * Z.of_nat (length B) + 8 * Z.of_nat (length data)) eqn:G; [apply Z.leb_le in G|apply Z.leb_gt in G].
  - replace (Z.to_nat (Z.of_nat r - Z.of_nat (length B))) with (r - length B)%nat by lia.
    replace (Z.to_nat ((8 * Z.of_nat r - 8 * Z.of_nat (length B)) / 8)) with (r - length B)%nat.
    2:{ replace (8 * Z.of_nat r - 8 * Z.of_nat (length B)) with (8 * Z.of_nat (r - length B)) by lia. rewrite div8, Nat2Z.id. reflexivity. }
    rewrite Nat2Z.id. set (d := firstn (r - length B) data). set (data' := skipn (r - length B) data).
    assert (Ed : data = d ++ data') by (symmetry; apply firstn_skipn).
    assert (Ld : length d = (r - length B)%nat) by (unfold d; rewrite firstn_length; lia).
    assert (Ld' : length data' = (length data - (r - length B))%nat) by (unfold data'; apply skipn_length).
    replace ((8 * Z.of_nat (length data) - (8 * Z.of_nat r - 8 * Z.of_nat (length B))) mod 2 ^ 64) with (8 * Z.of_nat (length data')).
    2:{ rewrite Z.mod_small by lia. lia. }
    apply Forall_app in FM. destruct FM as [FA FB].
    assert (Fdd : Forall byte d) by (apply Forall_first; exact Fd).
    assert (Hab : bytes 200 (absorb r q (repeat 0 200) A)) by (apply absorb_bytes; [apply zero_state|exact FA]).
    rewrite Es, xor_at_app by (rewrite (proj1 Hab); lia).
    destruct (keccak_bytes (xor_into (absorb r q (repeat 0 200) A) (B ++ d))) as [EK PK].
    { apply xor_bytes200; [exact Hab|apply Forall_app; auto]. }
    rewrite EK. rewrite <- absorb_snoc by (rewrite ?app_length; lia).
    destruct (IH (HashState (absorb r (S q) (repeat 0 200) (A ++ B ++ d)) (hashbitlen st) 0 (8 * Z.of_nat r)) (S q) (A ++ B ++ d) [] data')
      as (st' & q' & A' & B' & tmp & E1 & E2 & E3); cbn [hs statebitlen rate length]; try lia.
    + rewrite app_nil_r, !Forall_app. auto.
    + apply Forall_skip. exact Fd.
    + rewrite !app_length. lia.
    + rewrite xor_nil. reflexivity.
    + exists st', q', A', B', tmp. split; [exact E1|]. split; [|exact E3]. rewrite <- E2, app_nil_r, Ed, <- !app_assoc. reflexivity.
  - exists st, q, A, B, data. split; [reflexivity|]. split; [reflexivity|]. split; [exact LA|]. split; [lia|]. auto.
Qed.
Lemma Update_ok r st M data : (0 < r <= 200)%nat -> absorbing r st M -> Forall byte data ->
  8 * Z.of_nat (r + length data) < 2 ^ 64 -> absorbing r (Update st data (8 * Z.of_nat (length data))) (M ++ data).
Proof.
  intros Hr (q & A & B & -> & LA & LB & FM & Es & Eb & Er) Fd HL. unfold Update.
  destruct (update_loop_ok r Hr (S (length data)) st q A B data) as (st' & q' & A' & B' & tmp & E1 & E2 & E3 & E4 & E5 & E6 & E7); try assumption; try lia.
  rewrite E1. clear E1.
  assert (FM2 : Forall byte ((A' ++ B') ++ tmp)) by (rewrite <- E2; apply Forall_app; auto).
  rewrite E2. rewrite <- app_assoc. exists q', A', (B' ++ tmp). cbn [hs statebitlen rate].
  rewrite E6, E7. rewrite div8.
  replace ((8 * Z.of_nat (length B') + 8 * Z.of_nat (length tmp)) mod 2 ^ 64 / 8) with (Z.of_nat (length B' + length tmp)).
  2:{ rewrite Z.mod_small by lia. rewrite <- Z.mul_add_distr_l, <- Nat2Z.inj_add, div8. reflexivity. }
  rewrite Nat2Z.id. replace (Z.to_nat (Z.of_nat (length B' + length tmp) - Z.of_nat (length B'))) with (length tmp) by lia.
  rewrite firstn_all. split; [reflexivity|]. split; [exact E3|]. split; [rewrite app_length; lia|].
  split; [rewrite app_assoc; exact FM2|]. split; [|split; [|reflexivity]].
  - rewrite E5. apply xor_at_app. rewrite <- app_assoc in FM2. apply Forall_app in FM2.
    rewrite (proj1 (absorb_bytes r q' (repeat 0 200) A' zero_state (proj1 FM2))). lia.
  - rewrite app_length, Z.mod_small by lia. lia.
Qed.
Lemma Update_all_ok r chunks : (0 < r <= 200)%nat -> forall st M, absorbing r st M -> Forall (Forall byte) chunks ->
  8 * Z.of_nat (r + length (concat chunks)) < 2 ^ 64 -> absorbing r (Update_all st chunks) (M ++ concat chunks).
Proof.
  intros Hr. induction chunks as [|d l IH]; intros st M HM F HL; unfold Update_all; cbn [fold_left concat] in *.
  - rewrite app_nil_r. exact HM.
  - inversion F; subst. rewrite app_length in HL. rewrite app_assoc.
    apply IH; [apply Update_ok; try assumption; lia|assumption|lia].
Qed.
Lemma Final2_ok r st M d : (0 < r <= 200)%nat -> absorbing r st M -> Final2 st d = shake r M d.
Proof.
  intros Hr (q & A & B & -> & LA & LB & FM & Es & Eb & Er). unfold Final2, shake. cbv zeta.
  rewrite Eb, Er, !div8, !Nat2Z.id, (shake_absorb r q A B) by (assumption || lia).
  apply Forall_app in FM. destruct FM as [FA FB].
  pose proof (absorb_bytes r q (repeat 0 200) A zero_state FA) as Hab. set (s := absorb r q (repeat 0 200) A) in *.
  assert (X : xor_at (xor_at (hs st) (length B) [31]) (r - 1) [128] = xor_into s (pad_block r B)).
  { rewrite Es, xor_at_app by (rewrite (proj1 Hab); lia). unfold pad_block.
    destruct (r - length B =? 1)%nat eqn:G; [apply Nat.eqb_eq in G|apply Nat.eqb_neq in G].
    - replace (r - 1)%nat with (length B) by lia. rewrite xor_at_twice by (rewrite (proj1 Hab); lia). reflexivity.
    - rewrite <- (xor_zeros (B ++ [31]) s (r - length B - 2)).
      replace (r - 1)%nat with (length ((B ++ [31]) ++ repeat 0 (r - length B - 2))).
      2:{ rewrite !app_length, repeat_length. cbn [length]. lia. }
      rewrite xor_at_app. { rewrite <- !app_assoc. reflexivity. }
      rewrite !app_length, repeat_length, (proj1 Hab). cbn [length]. lia. }
  rewrite X. destruct (keccak_bytes (xor_into s (pad_block r B))) as [EK PK].
  { apply xor_bytes200; [exact Hab|apply pad_block_bytes; exact FB]. }
  rewrite EK. apply squeeze_ok; [exact Hr|exact PK].
Qed.
Theorem shake256_chunks chunks d : Forall (Forall byte) chunks -> 8 * Z.of_nat (136 + length (concat chunks)) < 2 ^ 64 ->
  Final2 (Update_all (Init 256) chunks) d = SHAKE256_fips (concat chunks) d.
Proof.
  intros F HL. apply (Final2_ok 136); [lia|]. apply (Update_all_ok 136 chunks ltac:(lia) (Init 256) []); [|exact F|exact HL].
  apply init_ok; [reflexivity|lia].
Qed.
(** ** The one-shot functions *)
Lemma word_lxor x y : bytes_of_word (Z.lxor x y) = xor_into (bytes_of_word x) (bytes_of_word y).
Proof.
  unfold bytes_of_word. cbn [map xor_into].
  assert (E : forall i, 0 <= i -> (Z.lxor x y / 2 ^ i) mod 256 = Z.lxor ((x / 2 ^ i) mod 256) ((y / 2 ^ i) mod 256)).
  { intros i Hi. rewrite <- !Z.shiftr_div_pow2 by lia. rewrite Z.shiftr_lxor. change 256 with (2 ^ 8).
    rewrite <- !Z.land_ones by lia. apply Z.bits_inj'. intros n Hn. rewrite !Z.land_spec, !Z.lxor_spec, !Z.land_spec.
    destruct (Z.testbit (Z.shiftr x i) n), (Z.testbit (Z.shiftr y i) n), (Z.testbit (Z.ones 8) n); reflexivity. }
  rewrite !E by lia. reflexivity.
Qed.
Lemma word_bytes b : length b = 8%nat -> Forall byte b -> bytes_of_word (word_of_bytes b) = b /\ w64 (word_of_bytes b).
Proof.
  intros L F. pose proof (le_val_bound b F) as B. rewrite L in B.
  assert (HW : word (word_of_bytes b)) by (rewrite word_of_bytes_le; unfold word, W; exact B).
  destruct (bytes_of_word_ok _ HW) as [[L2 F2] E]. split; [|exact HW].
  apply le_val_inj; [lia|exact F2|exact F|]. rewrite E. apply word_of_bytes_le.
Qed.
Lemma xor_words_ok n : forall s tmp, (n <= length s)%nat -> Forall w64 s -> (8 * n <= length tmp)%nat -> Forall byte tmp ->
  bytes_of (xor_words n s tmp) = xor_into (bytes_of s) (firstn (8 * n) tmp) /\
  length (xor_words n s tmp) = length s /\ Forall w64 (xor_words n s tmp).
Proof.
  unfold xor_words. induction n as [|n IH]; intros s tmp Ln Fs Lt Ft.
  - cbn [words_of]. rewrite Nat.mul_0_r, firstn_O, xor_nil. destruct s; auto.
  - destruct s as [|x s]; [cbn [length] in Ln; lia|]. cbn [words_of xor_bytes length]. inversion Fs as [|? ? Hx Fs']; subst.
    destruct (IH s (skipn 8 tmp)) as (E & L & F); [cbn [length] in Ln; lia|assumption|rewrite skipn_length; lia|apply Forall_skip; exact Ft|].
    destruct (word_bytes (firstn 8 tmp)) as [Ew Hw]; [rewrite firstn_length; lia|apply Forall_first; exact Ft|].
    split; [|split; [lia|constructor; [apply w64_lxor; assumption|exact F]]].
    unfold bytes_of in *. cbn [flat_map]. rewrite E, word_lxor, Ew. replace (8 * S n)%nat with (8 + 8 * n)%nat by lia.
    rewrite <- xor_app by (rewrite firstn_length; change (length (bytes_of_word x)) with 8%nat; lia).
    f_equal. clear. revert tmp. intros tmp. do 8 (destruct tmp as [|? tmp]; [cbn; rewrite ?firstn_nil; reflexivity|]). reflexivity.
Qed.
Lemma of_bytes_of s : Forall w64 s -> words_of (length s) (bytes_of s) = s.
Proof.
  induction 1 as [|x s Hx F IH]; [reflexivity|]. cbn [length words_of]. unfold bytes_of. cbn [flat_map].
  rewrite firstn_app, skipn_app. change (length (bytes_of_word x)) with 8%nat. change (8 - 8)%nat with 0%nat.
  change (firstn 0 (flat_map bytes_of_word s)) with (@nil Z). change (skipn 0 (flat_map bytes_of_word s)) with (bytes_of s).
  change (skipn 8 (bytes_of_word x)) with (@nil Z). rewrite app_nil_r. cbn [app]. rewrite IH. f_equal.
  change (firstn 8 (bytes_of_word x)) with (bytes_of_word x). rewrite word_of_bytes_le. apply (bytes_of_word_ok x). exact Hx.
Qed.
Lemma bytes_state s : w25 s -> bytes 200 (bytes_of s).
Proof. intros H. apply (bytes_of_ok 25). apply w25_words. exact H. Qed.
Lemma keccak_words s : w25 s -> bytes_of (KeccakF2 s) = keccak_f (bytes_of s) /\ w25 (KeccakF2 s).
Proof.
  intros H. split; [|apply KeccakF2_ok; exact H]. destruct (keccak_bytes _ (bytes_state s H)) as [E _]. rewrite <- E.
  unfold KeccakF2_bytes. rewrite <- (of_bytes_of s) at 1 by apply H. rewrite (proj1 H). reflexivity.
Qed.
Section OneShot.
Variable nr : nat.
Hypothesis Hnr : (0 < nr < 25)%nat.
Let r := (8 * nr)%nat.
Lemma xor_block s tmp : w25 s -> (r <= length tmp)%nat -> Forall byte tmp ->
  bytes_of (KeccakF2 (xor_words nr s tmp)) = keccak_f (xor_into (bytes_of s) (firstn r tmp)) /\ w25 (KeccakF2 (xor_words nr s tmp)).
Proof.
  intros [L F] Lt Ft. destruct (xor_words_ok nr s tmp) as (E & L2 & F2); [lia|exact F|exact Lt|exact Ft|].
  destruct (keccak_words (xor_words nr s tmp)) as [E3 P]; [split; [lia|exact F2]|]. rewrite E3, E. auto.
Qed.
Lemma shake_blocks_ok fuel : forall s q A tmp s' rest, shake_blocks fuel r s tmp = (s', rest) -> (length tmp <= fuel)%nat ->
  w25 s -> Forall byte tmp -> length A = (r * q)%nat -> bytes_of s = absorb r q (repeat 0 200) A ->
  exists q' A', A ++ tmp = A' ++ rest /\ length A' = (r * q')%nat /\ (length rest < r)%nat /\ w25 s' /\ bytes_of s' = absorb r q' (repeat 0 200) A'.
Proof.
  induction fuel as [|f IH]; intros s q A tmp s' rest E Lf Hs Ft LA Es; cbn [shake_blocks] in E.
  - injection E as <- <-. exists q, A. destruct tmp; [|cbn [length] in Lf; lia]. cbn [length]. auto 6 with arith. unfold r in *. repeat split; auto; try lia; apply Hs.
  - destruct (r <=? length tmp)%nat eqn:G; [apply Nat.leb_le in G|apply Nat.leb_gt in G].
    + replace (r / 8)%nat with nr in E by (unfold r; rewrite Nat.mul_comm, Nat.div_mul by lia; reflexivity).
      destruct (xor_block s tmp Hs G Ft) as [E1 P1]. rewrite Es in E1.
      rewrite <- absorb_snoc in E1 by (rewrite ?firstn_length; lia).
      destruct (IH _ (S q) (A ++ firstn r tmp) (skipn r tmp) s' rest E) as (q' & A' & E2 & E3).
      * rewrite skipn_length. unfold r in *. lia.
      * exact P1.
      * apply Forall_skip. exact Ft.
      * rewrite app_length, firstn_length. lia.
      * exact E1.
      * exists q', A'. split; [|exact E3]. rewrite <- E2, <- app_assoc, firstn_skipn. reflexivity.
    + injection E as <- <-. exists q, A. auto.
Qed.
Lemma squeeze_words fuel : forall d s, w25 s ->
  squeeze_loop fuel (fun n s => firstn n (bytes_of s)) KeccakF2 r d s = squeeze_loop fuel (@firstn Z) KeccakF2_bytes r d (bytes_of s).
Proof.
  induction fuel as [|f IH]; intros d s Hs; [reflexivity|]. cbn [squeeze_loop]. destruct (keccak_words s Hs) as [E P].
  rewrite IH by exact P. rewrite E. rewrite (proj1 (keccak_bytes _ (bytes_state s Hs))). reflexivity.
Qed.
Lemma oneshot_ok m d : Forall byte m -> shake_oneshot r m d = shake r m d.
Proof.
  intros Fm. unfold shake_oneshot. destruct (shake_blocks (length m) r (repeat 0 25) m) as [s rest] eqn:E.
  apply (shake_blocks_ok _ _ 0%nat []) in E; [|lia| |exact Fm|cbn [length]; lia|reflexivity].
  2:{ split; [reflexivity|]. apply Forall_forall. intros x Hx. apply repeat_spec in Hx. subst. unfold w64. lia. }
  destruct E as (q & A & E1 & LA & LB & Hs & Es). cbn [app] in E1. subst m. apply Forall_app in Fm. destruct Fm as [FA FB].
  cbv zeta. unfold shake. cbv zeta. rewrite (shake_absorb r q A rest) by (unfold r in *; assumption || lia).
  replace (r / 8)%nat with nr by (unfold r; rewrite Nat.mul_comm, Nat.div_mul by lia; reflexivity).
  set (t0 := rest ++ [31] ++ repeat 0 (r - (length rest + 1))).
  assert (T : firstn (r - 1) t0 ++ [Z.lor (nth (r - 1) t0 0) 128] = pad_block r rest).
  { unfold t0, pad_block. destruct (r - length rest =? 1)%nat eqn:G; [apply Nat.eqb_eq in G|apply Nat.eqb_neq in G].
    - replace (r - (length rest + 1))%nat with 0%nat by lia. replace (r - 1)%nat with (length rest) by lia.
      cbn [repeat app]. rewrite firstn_app, firstn_all, Nat.sub_diag, firstn_O, app_nil_r.
      rewrite app_nth2, Nat.sub_diag by lia. reflexivity.
    - replace (r - (length rest + 1))%nat with ((r - length rest - 2) + 1)%nat by lia. rewrite repeat_app. cbn [repeat].
      rewrite !app_assoc. set (u := (rest ++ [31]) ++ repeat 0 (r - length rest - 2)).
      assert (Lu : length u = (r - 1)%nat) by (unfold u; rewrite !app_length, repeat_length; cbn [length]; lia).
      rewrite <- Lu. rewrite firstn_app, firstn_all, Nat.sub_diag, firstn_O, app_nil_r.
      rewrite app_nth2, Nat.sub_diag by lia. cbn [nth]. unfold u. rewrite <- !app_assoc. reflexivity. }
  rewrite T. destruct (pad_split r q A rest) as [_ LP]; [unfold r; lia|exact LA|exact LB|].
  destruct (xor_block s (pad_block r rest) Hs) as [EX PX]; [lia|apply pad_block_bytes; exact FB|].
  rewrite squeeze_words by exact PX. rewrite EX, Es, (firstn_all2 (n := r) (pad_block r rest)) by lia.
  apply squeeze_ok; [unfold r; lia|]. apply keccak_bytes. apply xor_bytes200; [|apply pad_block_bytes; exact FB].
  apply absorb_bytes; [apply zero_state|exact FA].
Qed.
End OneShot.
Theorem shake256_oneshot m d : Forall byte m -> SHAKE256 m d = SHAKE256_fips m d.
Proof. intros F. apply (oneshot_ok 17); [lia|exact F]. Qed.
Theorem shake128_oneshot m d : Forall byte m -> SHAKE128 m d = SHAKE128_fips m d.
Proof. intros F. apply (oneshot_ok 21); [lia|exact F]. Qed.
Theorem shake_bytes r m d : (0 < r <= 200)%nat -> Forall byte m -> bytes d (shake r m d).
Proof.
  intros Hr F. unfold shake. cbv zeta.
  assert (Hs : bytes 200 (absorb r (length (shake_pad r m) / r) (repeat 0 200) (shake_pad r m))).
  { apply absorb_bytes; [apply zero_state|]. unfold shake_pad. cbv zeta. apply Forall_app. split; [exact F|].
    destruct (r - length m mod r =? 1)%nat; [constructor; [unfold byte; lia|constructor]|].
    constructor; [unfold byte; lia|]. apply Forall_app. split; [apply zeros_byte|constructor; [unfold byte; lia|constructor]]. }
  set (s := absorb _ _ _ _) in *. clearbody s. unfold squeeze. split.
  - apply firstn_length_le.
    assert (G : forall n k, length (flat_map (fun i => firstn r (Nat.iter i keccak_f s)) (seq k n)) = (r * n)%nat).
    { induction n as [|n IH]; intros k; cbn [seq flat_map]; [cbn [length]; lia|]. rewrite app_length, IH, firstn_length.
      rewrite (proj1 (iter_bytes k s Hs)). lia. }
    rewrite G. pose proof (Nat.mul_succ_div_gt d r ltac:(lia)). replace (d / r + 1)%nat with (S (d / r)) by lia. lia.
  - apply Forall_first. apply Forall_flat_map. apply Forall_forall. intros i _. apply Forall_first. apply (iter_bytes i s Hs).
Qed.
