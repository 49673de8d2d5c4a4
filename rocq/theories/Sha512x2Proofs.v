(** The two-way SHA-512 computes SHA-512 of each of its two messages. *)
From Coq Require Import ZArith List Bool Lia.
From Verif Require Import Bytes SpecSha2 Sha512 Sha512Proofs Sha512x2.
Import ListNotations.
Open Scope Z_scope.

Lemma K2_eq : KSHA512 = K_fips. Proof. exact K_eq. Qed.
(** ** One lane *)
Definition vw (v : vec) : Prop := w64 (fst v) /\ w64 (snd v).
Lemma w64_zero : w64 0. Proof. split; [discriminate|reflexivity]. Qed.
Lemma vw_zero : vw ZERO. Proof. split; exact w64_zero. Qed.
Lemma add64_w x y : w64 (add64 x y). Proof. apply w64_mod. Qed.
Lemma vw_add x y : vw (ADD x y). Proof. split; apply add64_w. Qed.
Lemma vw_nth l i : Forall vw l -> vw (nth i l ZERO).
Proof. intro F. revert i. induction F as [|x l Hx F IH]; intros [|i]; cbn [nth]; try exact vw_zero; [exact Hx|apply IH]. Qed.
Lemma rot_or x n : w64 x -> 0 < n < 64 -> Z.lor (Z.shiftr x n) (shl64 x (64 - n)) = ROTR n x.
Proof.
  intros Hx Hn. rewrite <- (rotr_eq x n Hx Hn). unfold ROTR64, ROTL64. rewrite T64_mod, Z.lor_comm. replace (64 - (64 - n)) with n by lia.
  symmetry. apply Z.mod_small. pose proof (rotr_w64 x n Hx Hn) as B. rewrite <- (rotr_eq x n Hx Hn) in B. unfold ROTR64, ROTL64 in B. rewrite T64_mod in B.
  replace (64 - (64 - n)) with n in B by lia.
  assert (0 <= Z.shiftr x n) by (apply Z.shiftr_nonneg; apply Hx).
  assert (Hs : w64 (shl64 x (64 - n))) by (apply w64_mod).
  assert (Hr : w64 (Z.shiftr x n)).
  { split; [assumption|]. rewrite Z.shiftr_div_pow2 by lia. apply Z.le_lt_trans with x; [|apply Hx]. apply Z.div_le_upper_bound; [apply Z.pow_pos_nonneg; lia|].
    pose proof (Z.pow_pos_nonneg 2 n ltac:(lia) ltac:(lia)). destruct Hx. nia. }
  split; [apply Z.lor_nonneg; split; [apply Hs|apply Hr]|].
  destruct (Z.eq_dec (Z.lor (shl64 x (64 - n)) (Z.shiftr x n)) 0) as [E|E]; [rewrite E; reflexivity|].
  apply Z.log2_lt_pow2; [pose proof (proj2 (Z.lor_nonneg (shl64 x (64 - n)) (Z.shiftr x n)) (conj (proj1 Hs) (proj1 Hr))); lia|].
  rewrite Z.log2_lor by (apply Hs || apply Hr). apply Z.max_lub_lt.
  - apply (w64_lt _ (proj1 Hs)) in Hs. destruct Hs as [-> | L]; [reflexivity|exact L].
  - apply (w64_lt _ (proj1 Hr)) in Hr. destruct Hr as [-> | L]; [reflexivity|exact L].
Qed.
Lemma ch2 e f g : Z.lxor (Z.land (Z.lxor f g) e) g = Ch e f g. Proof. exact (ch_eq e f g). Qed.
Lemma maj2 a b c : Z.lor (Z.land b c) (Z.land a (Z.lor b c)) = Maj a b c.
Proof.
  unfold Maj. apply Z.bits_inj'. intros n Hn. rewrite !Z.lxor_spec, !Z.lor_spec, !Z.land_spec, Z.lor_spec.
  destruct (Z.testbit a n), (Z.testbit b n), (Z.testbit c n); reflexivity.
Qed.
Lemma sum4 a b c d : add64 (add64 a b) (add64 c d) = (a + b + c + d) mod 2 ^ 64.
Proof. unfold add64. rewrite <- Zplus_mod. f_equal. lia. Qed.
Lemma sum5 a b c d e : add64 (add64 (add64 a b) c) (add64 d e) = (a + b + c + d + e) mod 2 ^ 64.
Proof. unfold add64. rewrite (Zplus_mod_idemp_l (a + b) c), <- Zplus_mod. f_equal. lia. Qed.
Section Lane.
Variable pi : vec -> Z.
Hypothesis lane : pi = fst \/ pi = snd.
Lemma pi_add x y : pi (ADD x y) = add64 (pi x) (pi y). Proof. destruct lane as [-> | ->]; reflexivity. Qed.
Lemma pi_or x y : pi (OR x y) = Z.lor (pi x) (pi y). Proof. destruct lane as [-> | ->]; reflexivity. Qed.
Lemma pi_xor x y : pi (XOR x y) = Z.lxor (pi x) (pi y). Proof. destruct lane as [-> | ->]; reflexivity. Qed.
Lemma pi_and x y : pi (AND x y) = Z.land (pi x) (pi y). Proof. destruct lane as [-> | ->]; reflexivity. Qed.
Lemma pi_shl x n : pi (SHL x n) = shl64 (pi x) n. Proof. destruct lane as [-> | ->]; reflexivity. Qed.
Lemma pi_shr x n : pi (Sha512x2.SHR x n) = Z.shiftr (pi x) n. Proof. destruct lane as [-> | ->]; reflexivity. Qed.
Lemma pi_set x : pi (SET1_64 x) = x. Proof. destruct lane as [-> | ->]; reflexivity. Qed.
Lemma pi_w v : vw v -> w64 (pi v). Proof. intros [A B]. destruct lane as [-> | ->]; assumption. Qed.
Ltac lanes := rewrite ?pi_add, ?pi_or, ?pi_xor, ?pi_and, ?pi_shl, ?pi_shr, ?pi_set.
Lemma T1_lane e f g h : vw e -> pi (computeT1 e f g h) = add64 (add64 (pi h) (Sigma1 (pi e))) (Ch (pi e) (pi f) (pi g)).
Proof.
  intro He. apply pi_w in He. unfold computeT1. cbv zeta. repeat lanes. rewrite ch2. f_equal. f_equal. unfold Sigma1.
  rewrite !rot_or by (try exact He; lia). reflexivity.
Qed.
Lemma T2_lane a b c : vw a -> pi (computeT2 a b c) = add64 (Sigma0 (pi a)) (Maj (pi a) (pi b) (pi c)).
Proof.
  intro Ha. apply pi_w in Ha. unfold computeT2. cbv zeta. repeat lanes. rewrite maj2. f_equal. unfold Sigma0. rewrite !rot_or by (try exact Ha; lia). reflexivity.
Qed.
Lemma schedule_lane W i : Forall vw W ->
  pi (msg_schedule W i) = (sigma1 (pi (nth (i - 2) W ZERO)) + pi (nth (i - 7) W ZERO) + sigma0 (pi (nth (i - 15) W ZERO)) + pi (nth (i - 16) W ZERO)) mod 2 ^ 64.
Proof.
  intro F. pose proof (pi_w _ (vw_nth W (i - 2) F)) as H2. pose proof (pi_w _ (vw_nth W (i - 15) F)) as H15.
  unfold msg_schedule. cbv zeta. repeat lanes. rewrite (Z.lor_comm (shl64 _ (64 - 19))), (Z.lor_comm (shl64 _ (64 - 61))).
  rewrite (rot_or _ 19 H2), (rot_or _ 61 H2), (rot_or _ 1 H15), (rot_or _ 8 H15) by lia.
  unfold sigma0, sigma1, SpecSha2.SHR. rewrite !Z.shiftr_div_pow2 by lia. rewrite sum4. f_equal; lia.
Qed.
Lemma round_lane block i a b c d e f g h : vw a -> vw e ->
  map pi (round2 block i [a; b; c; d; e; f; g; h]) = round_fips (nth i K_fips 0) (pi (nth i block ZERO)) (map pi [a; b; c; d; e; f; g; h]).
Proof.
  intros Ha He. unfold round2, round_fips, word_size. cbv zeta. cbn [map nth]. rewrite !pi_add, (T1_lane e f g h He), (T2_lane a b c Ha), pi_set, K2_eq, !(sum5 (pi h)).
  generalize (Sigma1 (pi e)) (Sigma0 (pi a)) (Ch (pi e) (pi f) (pi g)) (Maj (pi a) (pi b) (pi c)) (nth i K_fips 0) (pi (nth i block ZERO)). intros s1 s0 c0 m0 k0 w0.
  reflexivity.
Qed.
End Lane.
(** ** Both lanes *)
Definition v8 (r : list vec) : Prop := length r = 8%nat /\ Forall vw r.
Lemma v8_list r : v8 r -> exists a b c d e f g h, r = [a; b; c; d; e; f; g; h] /\ vw a /\ vw b /\ vw c /\ vw d /\ vw e /\ vw f /\ vw g /\ vw h.
Proof.
  intros [L F]. do 8 (destruct r as [|? r]; [discriminate L|]). destruct r; [|discriminate L].
  repeat match goal with H : Forall vw (_ :: _) |- _ => inversion H; clear H; subst end. do 8 eexists. split; [reflexivity|].
  repeat match goal with |- _ /\ vw _ => split end; repeat match goal with |- vw _ /\ _ => split; [assumption|] end; assumption.
Qed.
Lemma round_v8 block i r : v8 r -> v8 (round2 block i r).
Proof.
  intro H. destruct (v8_list r H) as (a & b & c & d & e & f & g & h & -> & Ha & Hb & Hc & Hd & He & Hf & Hg & Hh). split; [reflexivity|].
  cbv beta iota zeta delta [round2]. repeat (constructor; [assumption || apply vw_add|]). constructor.
Qed.
Lemma round_lane8 (pi : vec -> Z) block i r : pi = fst \/ pi = snd -> v8 r -> map pi (round2 block i r) = round_fips (nth i K_fips 0) (pi (nth i block ZERO)) (map pi r).
Proof.
  intros P H. destruct (v8_list r H) as (a & b & c & d & e & f & g & h & -> & Ha & Hb & Hc & Hd & He & Hf & Hg & Hh). exact (round_lane pi P block i a b c d e f g h Ha He).
Qed.
(** ** The schedule and the rounds *)
Lemma put_length {A} i (v : A) w : (i < length w)%nat -> length (put i v w) = length w.
Proof. intro H. unfold put. rewrite app_length, firstn_length. cbn [length]. rewrite skipn_length. lia. Qed.
Lemma put_same {A} i (v d : A) w : (i < length w)%nat -> nth i (put i v w) d = v.
Proof. intro H. unfold put. rewrite app_nth2 by (rewrite firstn_length; lia). rewrite firstn_length, Nat.min_l, Nat.sub_diag by lia. reflexivity. Qed.
Lemma nth_first {A} (d : A) n w i : (i < n)%nat -> nth i (firstn n w) d = nth i w d.
Proof. revert w i. induction n as [|n IH]; intros w i H; [lia|]. destruct w as [|x w]; [destruct i; reflexivity|]. destruct i as [|i]; [reflexivity|]. cbn [firstn nth]. apply IH. lia. Qed.
Lemma put_before {A} i (v d : A) w j : (i < length w)%nat -> (j < i)%nat -> nth j (put i v w) d = nth j w d.
Proof. intros H J. unfold put. rewrite app_nth1 by (rewrite firstn_length; lia). apply nth_first. exact J. Qed.
Lemma Forall_put {A} (P : A -> Prop) i v w : Forall P w -> P v -> Forall P (put i v w).
Proof. intros F V. unfold put. apply Forall_app. split; [apply Forall_first, F|]. constructor; [exact V|apply Forall_skip, F]. Qed.
Lemma schedule_vw W i : vw (msg_schedule W i).
Proof. unfold msg_schedule. cbv zeta. apply vw_add. Qed.
Section Rounds.
Variables (pi : vec -> Z) (M : list Z).
Hypothesis lane : pi = fst \/ pi = snd.
Lemma first_ok n : forall i block r, v8 r -> (forall t, (t < i + n)%nat -> pi (nth t block ZERO) = W_fips M t) ->
  map pi (rounds_first n i block r) = rounds_fips n i M (map pi r) /\ v8 (rounds_first n i block r).
Proof.
  induction n as [|n IH]; intros i block r Hr HW; [split; [reflexivity|exact Hr]|]. cbn [rounds_first rounds_fips].
  destruct (IH (Datatypes.S i) block (round2 block i r) (round_v8 block i r Hr)) as [E V].
  - intros t Ht. apply HW. lia.
  - split; [|exact V]. rewrite E, (round_lane8 pi block i r lane Hr), HW by lia. rewrite Nat.add_1_r. reflexivity.
Qed.
Lemma rest_ok n : forall i block r, (16 <= i)%nat -> (i + n <= length block)%nat -> Forall vw block -> v8 r -> (forall t, (t < i)%nat -> pi (nth t block ZERO) = W_fips M t) ->
  map pi (fst (rounds_rest n i block r)) = rounds_fips n i M (map pi r).
Proof.
  induction n as [|n IH]; intros i block r Hi HL F Hr HW; [reflexivity|]. cbn [rounds_rest rounds_fips].
  assert (Hl : (i < length block)%nat) by lia.
  assert (Wi : pi (nth i (put i (msg_schedule block i) block) ZERO) = W_fips M i).
  { rewrite put_same by exact Hl. rewrite (schedule_lane pi lane block i F), W_step, !HW by lia. reflexivity. }
  rewrite IH.
  - rewrite (round_lane8 pi _ i r lane Hr), Wi, Nat.add_1_r. reflexivity.
  - lia.
  - rewrite put_length by exact Hl. lia.
  - apply Forall_put; [exact F|apply schedule_vw].
  - apply round_v8, Hr.
  - intros t Ht. destruct (Nat.eq_dec t i) as [-> |N]; [exact Wi|]. rewrite put_before by lia. apply HW. lia.
Qed.
End Rounds.
Lemma rest_shape n : forall i block r, (i + n <= length block)%nat -> Forall vw block -> v8 r ->
  v8 (fst (rounds_rest n i block r)) /\ length (snd (rounds_rest n i block r)) = length block /\ Forall vw (snd (rounds_rest n i block r)).
Proof.
  induction n as [|n IH]; intros i block r HL F Hr; [split; [exact Hr|]; split; [reflexivity|exact F]|]. cbn [rounds_rest].
  destruct (IH (Datatypes.S i) (put i (msg_schedule block i) block) (round2 (put i (msg_schedule block i) block) i r)) as (A & B & C).
  - rewrite put_length by lia. lia.
  - apply Forall_put; [exact F|apply schedule_vw].
  - apply round_v8, Hr.
  - split; [exact A|]. split; [|exact C]. rewrite B. apply put_length. lia.
Qed.
Lemma permutation_ok (pi : vec -> Z) state block b : pi = fst \/ pi = snd -> v8 state -> length block = 80%nat -> Forall vw block -> map pi (firstn 16 block) = block_words b ->
  map pi (fst (sha512_permutation state block)) = compress (map pi state) b.
Proof.
  intros P Hs HL F HW. unfold sha512_permutation.
  assert (HW' : forall t, (t < 16)%nat -> pi (nth t block ZERO) = W_fips (block_words b) t).
  { intros t Ht. rewrite W_small by exact Ht. rewrite <- HW, <- (nth_first ZERO 16 block t Ht). symmetry.
    transitivity (nth t (map pi (firstn 16 block)) (pi ZERO)); [f_equal; destruct P as [-> | ->]; reflexivity|apply map_nth]. }
  destruct (first_ok pi (block_words b) P 16 0 block state Hs HW') as [E1 V1].
  pose proof (rest_ok pi (block_words b) P 64 16 block (rounds_first 16 0 block state) ltac:(lia) ltac:(lia) F V1 HW') as E2.
  destruct (rest_shape 64 16 block (rounds_first 16 0 block state) ltac:(lia) F V1) as (V2 & _ & _).
  set (rr := rounds_rest 64 16 block (rounds_first 16 0 block state)) in *. clearbody rr. destruct rr as [r bl]. cbn [fst snd] in *.
  rewrite E1 in E2. unfold compress.
  change (rounds_fips 80 0 (block_words b) (map pi state)) with (rounds_fips (16 + 64) 0 (block_words b) (map pi state)). rewrite rounds_add. cbn [Nat.add] in *. rewrite <- E2.
  rewrite map_map. apply map_ext. intro i. rewrite (pi_add pi P). unfold add64, word_size.
  assert (N : forall l, nth i (map pi l) 0 = pi (nth i l ZERO)).
  { intro l. transitivity (nth i (map pi l) (pi ZERO)); [f_equal; destruct P as [-> | ->]; reflexivity|apply map_nth]. }
  rewrite !N. reflexivity.
Qed.
Lemma permutation_shape state block : v8 state -> length block = 80%nat -> Forall vw block ->
  v8 (fst (sha512_permutation state block)) /\ length (snd (sha512_permutation state block)) = 80%nat /\ Forall vw (snd (sha512_permutation state block)).
Proof.
  intros Hs HL F. unfold sha512_permutation. destruct (first_ok fst (map fst block) (or_introl eq_refl) 0 0 block state Hs) as [_ _]; [intros t Ht; lia|].
  assert (V1 : v8 (rounds_first 16 0 block state)).
  { assert (G : forall n i r, v8 r -> v8 (rounds_first n i block r)) by (induction n as [|n IH]; intros i r Hr; [exact Hr|cbn [rounds_first]; apply IH, round_v8, Hr]). apply G, Hs. }
  destruct (rest_shape 64 16 block (rounds_first 16 0 block state) ltac:(lia) F V1) as (V2 & L2 & F2).
  set (rr := rounds_rest 64 16 block (rounds_first 16 0 block state)) in *. clearbody rr. destruct rr as [r bl]. cbn [fst snd] in *.
  split; [|split; [lia|exact F2]]. split; [reflexivity|]. apply Forall_forall. intros x Hx. apply in_map_iff in Hx. destruct Hx as (i & <- & _). apply vw_add.
Qed.
(** ** Loads and stores *)
Lemma bytes8_word x : bytes8 x = bytes_of_word x.
Proof. unfold bytes8, bytes_of_word. cbn [map seq]. rewrite !Z.shiftr_div_pow2 by lia. reflexivity. Qed.
Lemma list8 {A} (b : list A) : length b = 8%nat -> exists b0 b1 b2 b3 b4 b5 b6 b7, b = [b0; b1; b2; b3; b4; b5; b6; b7].
Proof. intro L. do 8 (destruct b as [|? b]; [discriminate L|]). destruct b; [|discriminate L]. do 8 eexists. reflexivity. Qed.
Lemma bytes8_val b : length b = 8%nat -> Forall byte b -> bytes8 (le_val b) = b.
Proof.
  intros L F. rewrite bytes8_word. pose proof (le_val_bound b F) as B. rewrite L in B.
  destruct (bytes_of_word_ok (le_val b)) as [[L2 F2] E]; [exact B|]. apply le_val_inj; [rewrite L2, L; reflexivity|exact F2|exact F|exact E].
Qed.
Lemma bytes8_len x : length (bytes8 x) = 8%nat. Proof. reflexivity. Qed.
Lemma bytes8_bytes x : Forall byte (bytes8 x).
Proof. unfold bytes8. apply Forall_map, Forall_forall. intros i _. apply Z.mod_pos_bound. reflexivity. Qed.
Lemma mask_bytes : bytes_of_vec big_endian = [7; 6; 5; 4; 3; 2; 1; 0; 15; 14; 13; 12; 11; 10; 9; 8]. Proof. vm_compute. reflexivity. Qed.
Lemma shuf_eq x : SHUF8 x big_endian = (le_val (rev (bytes8 (fst x))), le_val (rev (bytes8 (snd x)))).
Proof.
  unfold SHUF8. rewrite mask_bytes. unfold bytes_of_vec.
  destruct (list8 (bytes8 (fst x)) eq_refl) as (b0 & b1 & b2 & b3 & b4 & b5 & b6 & b7 & ->).
  destruct (list8 (bytes8 (snd x)) eq_refl) as (c0 & c1 & c2 & c3 & c4 & c5 & c6 & c7 & ->). reflexivity.
Qed.
Lemma be_rev b : length b = 8%nat -> le_val (rev b) = dec64be b.
Proof.
  intro L. destruct (list8 b L) as (b0 & b1 & b2 & b3 & b4 & b5 & b6 & b7 & ->). cbn [rev app le_val dec64be]. ring.
Qed.
Lemma dec_first b : (8 <= length b)%nat -> dec64be (firstn 8 b) = dec64be b.
Proof. intro L. rewrite !dec64be_eq, firstn_firstn by (rewrite ?firstn_length; lia). reflexivity. Qed.
Lemma skip_skip {A} (l : list A) a b : skipn a (skipn b l) = skipn (b + a) l.
Proof. revert l. induction b as [|b IH]; intro l; [reflexivity|]. destruct l; [destruct a; reflexivity|]. cbn [skipn Nat.add]. apply IH. Qed.
Lemma load_eq p i : Forall byte p -> (16 * i + 16 <= length p)%nat -> SHUF8 (LOAD p i) big_endian = (dec64be (skipn (8 * (2 * i)) p), dec64be (skipn (8 * (2 * i + 1)) p)).
Proof.
  intros F L. rewrite shuf_eq. unfold LOAD, vec_of_bytes. cbn [fst snd].
  assert (A : firstn 8 (firstn 16 (skipn (16 * i) p)) = firstn 8 (skipn (8 * (2 * i)) p)).
  { rewrite firstn_firstn. replace (8 * (2 * i))%nat with (16 * i)%nat by lia. reflexivity. }
  assert (B : firstn 8 (skipn 8 (firstn 16 (skipn (16 * i) p))) = firstn 8 (skipn (8 * (2 * i + 1)) p)).
  { rewrite skip_first by lia. rewrite skip_skip. replace (8 * (2 * i + 1))%nat with (16 * i + 8)%nat by lia. reflexivity. }
  rewrite A, B. rewrite !bytes8_val; [|rewrite firstn_length, skipn_length; lia|apply Forall_first, Forall_skip, F|rewrite firstn_length, skipn_length; lia|apply Forall_first, Forall_skip, F].
  rewrite !be_rev by (rewrite firstn_length, skipn_length; lia). rewrite !dec_first by (rewrite skipn_length; lia). reflexivity.
Qed.
Definition pair_word (p0 p1 : list Z) (t : nat) : vec := (dec64be (skipn (8 * t) p0), dec64be (skipn (8 * t) p1)).
Lemma loaded p0 p1 block : Forall byte p0 -> Forall byte p1 -> (128 <= length p0)%nat -> (128 <= length p1)%nat -> length block = 80%nat ->
  transpose_msg_2way (load_block p0 p1 block) = map (pair_word p0 p1) (seq 0 16) ++ skipn 16 block.
Proof.
  intros F0 F1 L0 L1 LB. unfold load_block. do 16 (destruct block as [|? block]; [discriminate LB|]).
  cbn [fold_left seq]. rewrite !load_eq by (assumption || lia).
  cbn [put firstn skipn app Nat.mul Nat.add]. unfold transpose_msg_2way. cbn [transpose fst snd]. unfold pair_word. cbn [map seq Nat.mul Nat.add app]. reflexivity.
Qed.
(** ** Blocks *)
Definition ready (sb : list vec * list vec) : Prop := v8 (fst sb) /\ length (snd sb) = 80%nat /\ Forall vw (snd sb).
Lemma word_w64 p t : Forall byte p -> (8 * t + 8 <= length p)%nat -> w64 (dec64be (skipn (8 * t) p)).
Proof.
  intros F L. rewrite dec64be_eq by (rewrite skipn_length; lia). pose proof (be_val_bound (firstn 8 (skipn (8 * t) p)) ltac:(apply Forall_first, Forall_skip, F)) as B.
  rewrite firstn_length, skipn_length, Nat.min_l in B by lia. exact B.
Qed.
Lemma absorb_ok p0 p1 sb : Forall byte p0 -> Forall byte p1 -> (128 <= length p0)%nat -> (128 <= length p1)%nat -> ready sb ->
  ready (absorb p0 p1 sb) /\ map fst (fst (absorb p0 p1 sb)) = compress (map fst (fst sb)) (firstn 128 p0) /\
  map snd (fst (absorb p0 p1 sb)) = compress (map snd (fst sb)) (firstn 128 p1).
Proof.
  intros F0 F1 L0 L1 (Hs & LB & FB). unfold absorb. rewrite (loaded p0 p1 (snd sb) F0 F1 L0 L1 LB).
  destruct (block_words_ok p0 L0 F0) as [E0 _]. destruct (block_words_ok p1 L1 F1) as [E1 _].
  set (bl := map (pair_word p0 p1) (seq 0 16) ++ skipn 16 (snd sb)).
  assert (LL : length bl = 80%nat) by (unfold bl; rewrite app_length, map_length, seq_length, skipn_length, LB; reflexivity).
  assert (FF : Forall vw bl).
  { unfold bl. apply Forall_app. split; [|apply Forall_skip, FB]. apply Forall_map, Forall_forall. intros t Ht. apply in_seq in Ht. split; apply word_w64; (assumption || lia). }
  assert (F16 : firstn 16 bl = map (pair_word p0 p1) (seq 0 16)).
  { unfold bl. rewrite firstn_app, map_length, seq_length, Nat.sub_diag, firstn_O, app_nil_r. apply firstn_all2. rewrite map_length, seq_length. lia. }
  clearbody bl. split; [exact (permutation_shape (fst sb) bl Hs LL FF)|]. split.
  - apply (permutation_ok fst); [left; reflexivity|exact Hs|exact LL|exact FF|]. rewrite F16, map_map, <- E0. reflexivity.
  - apply (permutation_ok snd); [right; reflexivity|exact Hs|exact LL|exact FF|]. rewrite F16, map_map, <- E1. reflexivity.
Qed.
(** A loop over blocks, for any step *)
Lemma loop_gen {S} (ok : S -> Prop) (h0 h1 : S -> list Z) (step : S -> nat -> S) (m0 m1 : list Z) :
  (forall s b, ok s -> (128 * b + 128 <= length m0)%nat -> (128 * b + 128 <= length m1)%nat ->
     ok (step s b) /\ h0 (step s b) = compress (h0 s) (firstn 128 (skipn (128 * b) m0)) /\ h1 (step s b) = compress (h1 s) (firstn 128 (skipn (128 * b) m1))) ->
  forall n b s, ok s -> (128 * (b + n) <= length m0)%nat -> (128 * (b + n) <= length m1)%nat ->
    ok (fold_left step (seq b n) s) /\ h0 (fold_left step (seq b n) s) = hash_blocks n (h0 s) (skipn (128 * b) m0) /\
    h1 (fold_left step (seq b n) s) = hash_blocks n (h1 s) (skipn (128 * b) m1).
Proof.
  intro St. induction n as [|n IH]; intros b s Hs L0 L1; [split; [exact Hs|]; split; reflexivity|].
  destruct (St s b Hs ltac:(lia) ltac:(lia)) as (A & B & C). destruct (IH (Datatypes.S b) (step s b) A ltac:(lia) ltac:(lia)) as (D & E & F).
  cbn [seq fold_left]. rewrite E, F, B, C. split; [exact D|].
  assert (K : forall m : list Z, skipn (128 * Datatypes.S b) m = skipn 128 (skipn (128 * b) m)) by (intro m; rewrite skip_skip; f_equal; lia).
  rewrite !K. split; reflexivity.
Qed.
Lemma loop2_ok m0 m1 n sb : Forall byte m0 -> Forall byte m1 -> (128 * n <= length m0)%nat -> (128 * n <= length m1)%nat -> ready sb ->
  ready (block_loop n m0 m1 sb) /\ map fst (fst (block_loop n m0 m1 sb)) = hash_blocks n (map fst (fst sb)) m0 /\
  map snd (fst (block_loop n m0 m1 sb)) = hash_blocks n (map snd (fst sb)) m1.
Proof.
  intros F0 F1 L0 L1 R.
  refine (loop_gen ready (fun sb => map fst (fst sb)) (fun sb => map snd (fst sb)) _ m0 m1 _ n 0 sb R L0 L1).
  intros s b Rs B0 B1. apply absorb_ok; [apply Forall_skip, F0|apply Forall_skip, F1|rewrite skipn_length; lia|rewrite skipn_length; lia|exact Rs].
Qed.
Lemma initial : ready (initialize, repeat ZERO 80) /\ map fst initialize = H0_fips /\ map snd initialize = H0_fips.
Proof.
  split; [|split; exact H_eq]. split; [|split; [reflexivity|]].
  - split; [reflexivity|]. unfold initialize. cbn [fst]. repeat (constructor; [split; split; [discriminate|reflexivity|discriminate|reflexivity]|]). constructor.
  - apply Forall_forall. intros x Hx. apply repeat_spec in Hx. subst x. exact vw_zero.
Qed.
(** ** The last blocks *)
Lemma store_left X Y n s : (n + length s <= length X)%nat -> store_at (X ++ Y) n s = store_at X n s ++ Y.
Proof.
  intro H. unfold store_at. rewrite firstn_app, skipn_app. replace (n - length X)%nat with 0%nat by lia. replace (n + length s - length X)%nat with 0%nat by lia.
  rewrite firstn_O, app_nil_r, <- !app_assoc. reflexivity.
Qed.
Lemma store_right X Y n s : store_at (X ++ Y) (length X + n) s = X ++ store_at Y n s.
Proof.
  unfold store_at. rewrite firstn_app, skipn_app, firstn_all2 by lia. rewrite (skipn_all2 X) by lia.
  replace (length X + n - length X)%nat with n by lia. replace (length X + n + length s - length X)%nat with (n + length s)%nat by lia.
  rewrite <- app_assoc. reflexivity.
Qed.
Lemma store_mid X Y Z' s n : length X = n -> length Y = length s -> store_at (X ++ Y ++ Z') n s = X ++ s ++ Z'.
Proof.
  intros <- L. pose proof (store_right X (Y ++ Z') 0 s) as E. rewrite Nat.add_0_r in E. rewrite E. f_equal. rewrite store_left by lia. unfold store_at.
  rewrite firstn_O, skipn_all2 by lia. rewrite app_nil_r. reflexivity.
Qed.
Lemma repeat_split (n a b : nat) : n = (a + b)%nat -> repeat 0 n = repeat 0 a ++ repeat 0 b.
Proof. intros ->. apply repeat_app. Qed.
Lemma filled T r : length T = r -> (r < 128)%nat -> store_at (store_at (repeat 0 128) 0 T) r [128] = T ++ [128] ++ repeat 0 (127 - r).
Proof.
  intros L H. rewrite (repeat_split 128 r (128 - r)) by lia.
  assert (E : store_at (repeat 0 r ++ repeat 0 (128 - r)) 0 T = T ++ repeat 0 (128 - r)).
  { pose proof (store_mid [] (repeat 0 r) (repeat 0 (128 - r)) T 0 eq_refl ltac:(rewrite repeat_length; lia)) as E. exact E. }
  rewrite E, (repeat_split (128 - r) 1 (127 - r)) by lia. apply store_mid; [exact L|reflexivity].
Qed.
Lemma filled_len T r F : length T = r -> (r < 112)%nat -> length F = 16%nat ->
  store_at (T ++ [128] ++ repeat 0 (127 - r)) 112 F = T ++ [128] ++ repeat 0 (111 - r) ++ F.
Proof.
  intros L H LF. rewrite (repeat_split (127 - r) (111 - r) 16) by lia.
  pose proof (store_mid (T ++ [128] ++ repeat 0 (111 - r)) (repeat 0 16) [] F 112 ltac:(rewrite !app_length, repeat_length; cbn [length]; lia) ltac:(rewrite repeat_length; lia)) as E.
  rewrite !app_nil_r, <- !app_assoc in E. exact E.
Qed.
Lemma cleared B F : length B = 128%nat -> length F = 16%nat -> store_at (store_at B 0 (repeat 0 112)) 112 F = repeat 0 112 ++ F.
Proof.
  intros L LF. rewrite <- (firstn_skipn 112 B).
  assert (E : store_at (firstn 112 B ++ skipn 112 B) 0 (repeat 0 112) = repeat 0 112 ++ skipn 112 B).
  { exact (store_mid [] (firstn 112 B) (skipn 112 B) (repeat 0 112) 0 eq_refl ltac:(rewrite firstn_length, repeat_length; lia)). }
  rewrite E. pose proof (store_mid (repeat 0 112) (skipn 112 B) [] F 112 (repeat_length _ _) ltac:(rewrite skipn_length; lia)) as G. rewrite !app_nil_r in G. exact G.
Qed.
Lemma field_eq x : 0 <= x -> length_field x = be_bytes 16 x.
Proof.
  intro H. unfold length_field. cbn [be_bytes app map seq]. rewrite !Z.div_div by lia.
  repeat (apply f_equal2; [|]); try reflexivity; change 255 with (Z.ones 8); rewrite Z.land_ones, Z.shiftr_div_pow2 by lia; try reflexivity.
  f_equal. apply Z.div_1_r.
Qed.
Definition last1 (T : list Z) (x : Z) : list Z := T ++ [128] ++ repeat 0 (111 - length T) ++ be_bytes 16 x.
Definition last2a (T : list Z) : list Z := T ++ [128] ++ repeat 0 (127 - length T).
Definition last2b (x : Z) : list Z := repeat 0 112 ++ be_bytes 16 x.
Lemma field_len x : length (be_bytes 16 x) = 16%nat. Proof. apply be_bytes_ok. Qed.
Lemma last1_len T x : (length T < 112)%nat -> length (last1 T x) = 128%nat.
Proof. intro H. unfold last1. rewrite !app_length, repeat_length, field_len. cbn [length]. lia. Qed.
Lemma last2a_len T : (length T < 128)%nat -> length (last2a T) = 128%nat.
Proof. intro H. unfold last2a. rewrite !app_length, repeat_length. cbn [length]. lia. Qed.
Lemma last2b_len x : length (last2b x) = 128%nat.
Proof. unfold last2b. rewrite app_length, repeat_length, field_len. reflexivity. Qed.
Lemma byte128 : byte 128. Proof. split; [discriminate|reflexivity]. Qed.
Lemma last1_bytes T x : Forall byte T -> Forall byte (last1 T x).
Proof. intro F. unfold last1. apply Forall_app. split; [exact F|]. constructor; [exact byte128|]. apply Forall_app. split; [apply zeros_byte|apply be_bytes_ok]. Qed.
Lemma last2a_bytes T : Forall byte T -> Forall byte (last2a T).
Proof. intro F. unfold last2a. apply Forall_app. split; [exact F|]. constructor; [exact byte128|]. apply zeros_byte. Qed.
Lemma last2b_bytes x : Forall byte (last2b x). Proof. unfold last2b. apply Forall_app. split; [apply zeros_byte|apply be_bytes_ok]. Qed.
(** Padding *)
Lemma pad_eq M q r : length M = (128 * q + r)%nat -> (r < 128)%nat ->
  pad M = M ++ [128] ++ repeat 0 (if (r <? 112)%nat then 111 - r else 239 - r)%nat ++ be_bytes 16 (8 * Z.of_nat (length M)).
Proof.
  intros L H. unfold pad. cbv zeta. do 2 f_equal. f_equal. f_equal. rewrite L.
  destruct (Nat.ltb_spec r 112) as [C|C].
  - replace ((111 - Z.of_nat (128 * q + r)) mod 128) with (111 - Z.of_nat r); [lia|].
    apply Z.mod_unique with (- Z.of_nat q); lia.
  - replace ((111 - Z.of_nat (128 * q + r)) mod 128) with (239 - Z.of_nat r); [lia|].
    apply Z.mod_unique with (- Z.of_nat q - 1); lia.
Qed.
Lemma blocks_split (M A : list Z) q : length A = (128 * q)%nat -> length M = 128%nat -> hash_blocks (length (A ++ M) / 128) H0_fips (A ++ M) = compress (hash_blocks q H0_fips A) M.
Proof.
  intros LA LM. rewrite app_length, LA, LM. replace (128 * q + 128)%nat with (Datatypes.S q * 128)%nat by lia. rewrite Nat.div_mul by lia.
  apply hash_blocks_snoc; assumption.
Qed.
Lemma sha_last1 M q T A : M = A ++ T -> length A = (128 * q)%nat -> (length T < 112)%nat ->
  SHA512_fips M = flat_map (be_bytes 8) (compress (hash_blocks q H0_fips A) (last1 T (8 * Z.of_nat (length M)))).
Proof.
  intros E LA LT. assert (LM : length M = (128 * q + length T)%nat) by (rewrite E, app_length, LA; reflexivity).
  unfold SHA512_fips. cbv zeta. rewrite (pad_eq M q (length T) LM) by lia. rewrite (proj2 (Nat.ltb_lt _ _) LT). f_equal.
  rewrite E at 1 3. rewrite <- !app_assoc. apply (blocks_split (last1 T (8 * Z.of_nat (length M))) A q LA). apply last1_len, LT.
Qed.
Lemma sha_last2 M q T A : M = A ++ T -> length A = (128 * q)%nat -> (112 <= length T < 128)%nat ->
  SHA512_fips M = flat_map (be_bytes 8) (compress (compress (hash_blocks q H0_fips A) (last2a T)) (last2b (8 * Z.of_nat (length M)))).
Proof.
  intros E LA LT. assert (LM : length M = (128 * q + length T)%nat) by (rewrite E, app_length, LA; reflexivity).
  unfold SHA512_fips. cbv zeta. rewrite (pad_eq M q (length T) LM) by lia. rewrite (proj2 (Nat.ltb_ge _ _) (proj1 LT)). f_equal.
  rewrite (repeat_split (239 - length T) (127 - length T) 112) by lia. rewrite E at 1 3. 
  rewrite <- (hash_blocks_snoc q H0_fips A (last2a T) LA (last2a_len T (proj2 LT))).
  rewrite <- (blocks_split (last2b (8 * Z.of_nat (length M))) (A ++ last2a T) (Datatypes.S q)); [|rewrite app_length, last2a_len, LA by lia; lia|apply last2b_len].
  replace ((A ++ T) ++ [128] ++ (repeat 0 (127 - length T) ++ repeat 0 112) ++ be_bytes 16 (8 * Z.of_nat (length M))) with ((A ++ last2a T) ++ last2b (8 * Z.of_nat (length M))); [reflexivity|].
  unfold last2a, last2b. rewrite <- !app_assoc. reflexivity.
Qed.
(** ** The buffer *)
Lemma buffer1 T0 T1 r x : length T0 = r -> length T1 = r -> (r < 112)%nat -> 0 <= x ->
  store_at (store_at (store_at (store_at (store_at (store_at (repeat 0 256) (128 * 0) T0) (128 * 0 + r) [128]) (128 * (0 + 1) - 16) (length_field x)) (128 * 1) T1) (128 * 1 + r) [128]) (128 * (1 + 1) - 16) (length_field x)
  = last1 T0 x ++ last1 T1 x.
Proof.
  intros L0 L1 H Hx. rewrite (field_eq x Hx). pose proof (field_len x) as LF. unfold last1. rewrite L0, L1. generalize dependent (be_bytes 16 x). intros F LF.
  rewrite (repeat_split 256 128 128 eq_refl). change (128 * 0)%nat with 0%nat. change (128 * (0 + 1) - 16)%nat with 112%nat. cbn [Nat.add].
  rewrite (store_left _ _ 0 T0) by (rewrite repeat_length; lia). rewrite (store_left _ _ r [128]) by (rewrite store_length; rewrite ?repeat_length; cbn [length]; lia).
  rewrite (filled T0 r L0) by lia. rewrite (store_left _ _ 112 F) by (rewrite !app_length, repeat_length; cbn [length]; lia). rewrite (filled_len T0 r F L0 H LF).
  set (X := T0 ++ [128] ++ repeat 0 (111 - r) ++ F). assert (LX : length X = 128%nat) by (unfold X; rewrite !app_length, repeat_length; cbn [length]; lia). clearbody X.
  change (128 * 1)%nat with (128 + 0)%nat at 1. change (128 * 1 + r)%nat with (128 + r)%nat. change (128 * 2 - 16)%nat with (128 + 112)%nat. rewrite <- LX.
  rewrite !store_right. rewrite LX, (filled T1 r L1) by lia. rewrite (filled_len T1 r F L1 H LF). reflexivity.
Qed.
Lemma buffer2 T0 T1 r : length T0 = r -> length T1 = r -> (r < 128)%nat ->
  store_at (store_at (store_at (store_at (repeat 0 256) (128 * 0) T0) (128 * 0 + r) [128]) (128 * 1) T1) (128 * 1 + r) [128] = last2a T0 ++ last2a T1.
Proof.
  intros L0 L1 H. unfold last2a. rewrite L0, L1.
  rewrite (repeat_split 256 128 128 eq_refl). change (128 * 0)%nat with 0%nat. cbn [Nat.add].
  rewrite (store_left _ _ 0 T0) by (rewrite repeat_length; lia). rewrite (store_left _ _ r [128]) by (rewrite store_length; rewrite ?repeat_length; cbn [length]; lia).
  rewrite (filled T0 r L0) by lia.
  set (X := T0 ++ [128] ++ repeat 0 (127 - r)). assert (LX : length X = 128%nat) by (unfold X; rewrite !app_length, repeat_length; cbn [length]; lia). clearbody X.
  change (128 * 1)%nat with (128 + 0)%nat at 1. change (128 * 1 + r)%nat with (128 + r)%nat. rewrite <- LX.
  rewrite !store_right. rewrite LX, (filled T1 r L1) by lia. reflexivity.
Qed.
Lemma buffer3 X Y x : length X = 128%nat -> length Y = 128%nat -> 0 <= x ->
  store_at (store_at (store_at (store_at (X ++ Y) (128 * 0) (repeat 0 112)) (128 * (0 + 1) - 16) (length_field x)) (128 * 1) (repeat 0 112)) (128 * (1 + 1) - 16) (length_field x) = last2b x ++ last2b x.
Proof.
  intros LX LY Hx. rewrite (field_eq x Hx). unfold last2b. pose proof (field_len x) as LF. generalize dependent (be_bytes 16 x). intros F LF.
  change (128 * 0)%nat with 0%nat. change (128 * (0 + 1) - 16)%nat with 112%nat. change (128 * (1 + 1) - 16)%nat with (128 + 112)%nat. change (128 * 1)%nat with (128 + 0)%nat.
  rewrite (store_left X Y 0) by (rewrite repeat_length; lia). rewrite (store_left _ _ 112 F) by (rewrite store_length; rewrite ?repeat_length; lia).
  rewrite (cleared X F LX LF). set (U := repeat 0 112 ++ F) at 1 2. assert (LU : length U = 128%nat) by (unfold U; rewrite app_length, repeat_length, LF; reflexivity). clearbody U.
  replace 128%nat with (length U). rewrite !store_right, (cleared Y F LY LF). reflexivity.
Qed.
(** ** The digests *)
Lemma stored x : vw x -> bytes_of_vec (SHUF8 x big_endian) = be_bytes 8 (fst x) ++ be_bytes 8 (snd x).
Proof.
  intros [[A _] [B _]]. rewrite shuf_eq. unfold bytes_of_vec. cbn [fst snd]. rewrite !bytes8_val by (rewrite ?rev_length; try reflexivity; apply Forall_rev, bytes8_bytes).
  rewrite <- (enc64be_eq _ A), <- (enc64be_eq _ B). reflexivity.
Qed.
Lemma digest_ok state : v8 state -> store_digest (transpose_state_2way state) 0 = flat_map (be_bytes 8) (map fst state) /\
  store_digest (transpose_state_2way state) 1 = flat_map (be_bytes 8) (map snd state).
Proof.
  intro H. destruct (v8_list state H) as (a & b & c & d & e & f & g & h & -> & Ha & Hb & Hc & Hd & He & Hf & Hg & Hh).
  unfold store_digest, transpose_state_2way. cbn [transpose seq flat_map nth Nat.mul Nat.add map].
  assert (P0 : forall x y, vw x -> vw y -> vw (fst x, fst y)) by (intros x y [X _] [Y _]; split; assumption).
  assert (P1 : forall x y, vw x -> vw y -> vw (snd x, snd y)) by (intros x y [_ X] [_ Y]; split; assumption).
  rewrite !stored by (apply P0 || apply P1; assumption). cbn [fst snd]. rewrite <- !app_assoc. split; reflexivity.
Qed.
Lemma first_left {A} (X Y : list A) n : length X = n -> firstn n (X ++ Y) = X.
Proof. intros <-. rewrite firstn_app, Nat.sub_diag, firstn_O, app_nil_r. apply firstn_all. Qed.
Lemma skip_left {A} (X Y : list A) n : length X = n -> skipn n (X ++ Y) = Y.
Proof. intros <-. rewrite skipn_app, Nat.sub_diag, skipn_all. reflexivity. Qed.
Lemma absorb2 X Y sb : length X = 128%nat -> length Y = 128%nat -> Forall byte X -> Forall byte Y -> ready sb ->
  ready (absorb (X ++ Y) (skipn 128 (X ++ Y)) sb) /\ map fst (fst (absorb (X ++ Y) (skipn 128 (X ++ Y)) sb)) = compress (map fst (fst sb)) X /\
  map snd (fst (absorb (X ++ Y) (skipn 128 (X ++ Y)) sb)) = compress (map snd (fst sb)) Y.
Proof.
  intros LX LY FX FY R. rewrite (skip_left X Y 128 LX).
  destruct (absorb_ok (X ++ Y) Y sb ltac:(apply Forall_app; split; assumption) FY ltac:(rewrite app_length, LX, LY; lia) ltac:(rewrite LY; lia) R) as (R' & E0 & E1).
  rewrite (first_left X Y 128 LX) in E0. rewrite (firstn_all2 Y) in E1 by (rewrite LY; lia). split; [exact R'|]. split; [exact E0|exact E1].
Qed.
Lemma len_split len : 0 <= len -> Z.to_nat (len - Z.shiftl (Z.shiftr len 7) 7) = (Z.to_nat len - 128 * Z.to_nat (Z.shiftr len 7))%nat /\
  (128 * Z.to_nat (Z.shiftr len 7) <= Z.to_nat len)%nat /\ (Z.to_nat len - 128 * Z.to_nat (Z.shiftr len 7) < 128)%nat.
Proof.
  intro H. rewrite Z.shiftr_div_pow2, Z.shiftl_mul_pow2 by lia. change (2 ^ 7) with 128. pose proof (Z.div_mod len 128 ltac:(lia)). pose proof (Z.mod_pos_bound len 128 ltac:(lia)).
  assert (0 <= len / 128) by (apply Z.div_pos; lia). rewrite Z2Nat.inj_sub, Z2Nat.inj_mul by lia. change (Z.to_nat 128) with 128%nat. repeat split; lia.
Qed.
Lemma parts (m : list Z) l q : (128 * q <= l)%nat -> (l <= length m)%nat -> let A := firstn (128 * q) m in let T := firstn (l - 128 * q) (skipn (128 * q) m) in
  firstn l m = A ++ T /\ length A = (128 * q)%nat /\ length T = (l - 128 * q)%nat.
Proof.
  intros Hq Hl A T. unfold A, T. split; [|split; rewrite firstn_length, ?skipn_length; lia].
  rewrite <- (firstn_skipn (128 * q) (firstn l m)), firstn_firstn, Nat.min_l by lia. f_equal. rewrite skipn_firstn_comm. reflexivity.
Qed.
Lemma blocks_first (m : list Z) q h : (128 * q <= length m)%nat -> hash_blocks q h m = hash_blocks q h (firstn (128 * q) m).
Proof. intro H. rewrite <- (firstn_skipn (128 * q) m) at 1. apply hash_blocks_app. rewrite firstn_length. lia. Qed.
Lemma pair_eq {A B} (a a' : A) (b b' : B) : a = a' -> b = b' -> (a, b) = (a', b'). Proof. intros -> ->. reflexivity. Qed.
Lemma finish sb (d0 d1 h0 h1 : list Z) : ready sb -> map fst (fst sb) = h0 -> map snd (fst sb) = h1 -> d0 = flat_map (be_bytes 8) h0 -> d1 = flat_map (be_bytes 8) h1 ->
  (store_digest (transpose_state_2way (fst sb)) 0, store_digest (transpose_state_2way (fst sb)) 1) = (d0, d1).
Proof. intros (V & _) E0 E1 -> ->. destruct (digest_ok (fst sb) V) as [A B]. rewrite A, B, E0, E1. reflexivity. Qed.
Theorem sha512_2w_ok block m0 m1 len : length block = 80%nat -> Forall vw block -> Forall byte m0 -> Forall byte m1 -> 0 <= len -> len <= Z.of_nat (length m0) -> len <= Z.of_nat (length m1) ->
  sha512_2w_avx block m0 m1 len = (SHA512_fips (firstn (Z.to_nat len) m0), SHA512_fips (firstn (Z.to_nat len) m1)).
Proof.
  intros LB FB F0 F1 H0 B0 B1. unfold sha512_2w_avx. destruct (len_split len H0) as (Er & Hq & Hr). rewrite Er. clear Er.
  assert (K0 : (Z.to_nat len <= length m0)%nat) by lia. assert (K1 : (Z.to_nat len <= length m1)%nat) by lia.
  replace (len * 8) with (8 * Z.of_nat (Z.to_nat len)) by lia. set (l := Z.to_nat len) in *. set (q := Z.to_nat (Z.shiftr len 7)) in *. clearbody l q. clear B0 B1 H0.
  destruct (parts m0 l q Hq K0) as (E0 & LA0 & LT0). destruct (parts m1 l q Hq K1) as (E1 & LA1 & LT1). cbv zeta in E0, LA0, LT0, E1, LA1, LT1.
  assert (LM0 : length (firstn l m0) = l) by (rewrite firstn_length; lia). assert (LM1 : length (firstn l m1) = l) by (rewrite firstn_length; lia).
  destruct initial as ((I1 & _) & I2 & I3). cbn [fst] in I1.
  destruct (loop2_ok m0 m1 q (initialize, block) F0 F1 ltac:(lia) ltac:(lia) (conj I1 (conj LB FB))) as (R & G0 & G1). cbn [fst] in G0, G1.
  rewrite I2, blocks_first in G0 by lia. rewrite I3, blocks_first in G1 by lia. clear I1 I2 I3.
  generalize dependent (block_loop q m0 m1 (initialize, block)). intros sb R G0 G1. cbv zeta.
  assert (FT0 : Forall byte (firstn (l - 128 * q) (skipn (128 * q) m0))) by (apply Forall_first, Forall_skip, F0).
  assert (FT1 : Forall byte (firstn (l - 128 * q) (skipn (128 * q) m1))) by (apply Forall_first, Forall_skip, F1).
  set (T0 := firstn (l - 128 * q) (skipn (128 * q) m0)) in *. set (T1 := firstn (l - 128 * q) (skipn (128 * q) m1)) in *.
  set (A0 := firstn (128 * q) m0) in *. set (A1 := firstn (128 * q) m1) in *. clearbody T0 T1 A0 A1. set (r := (l - 128 * q)%nat) in *. clearbody r.
  assert (Hx : 0 <= 8 * Z.of_nat l) by lia.
  destruct (Nat.ltb_spec r 112) as [C|C].
  - rewrite (buffer1 T0 T1 r (8 * Z.of_nat l) LT0 LT1 C Hx).
    destruct (absorb2 (last1 T0 (8 * Z.of_nat l)) (last1 T1 (8 * Z.of_nat l)) sb ltac:(apply last1_len; lia) ltac:(apply last1_len; lia) (last1_bytes _ _ FT0) (last1_bytes _ _ FT1) R) as (R' & P0 & P1).
    refine (finish _ _ _ _ _ R' P0 P1 _ _).
    + rewrite (sha_last1 _ q T0 A0 E0 LA0), LM0, G0 by lia. reflexivity.
    + rewrite (sha_last1 _ q T1 A1 E1 LA1), LM1, G1 by lia. reflexivity.
  - rewrite (proj2 (Nat.ltb_lt _ _) Hr). rewrite (buffer2 T0 T1 r LT0 LT1 Hr), buffer3; [|apply last2a_len; lia|apply last2a_len; lia|exact Hx].
    destruct (absorb2 (last2a T0) (last2a T1) sb ltac:(apply last2a_len; lia) ltac:(apply last2a_len; lia) (last2a_bytes _ FT0) (last2a_bytes _ FT1) R) as (R1 & P0 & P1).
    generalize dependent (absorb (last2a T0 ++ last2a T1) (skipn 128 (last2a T0 ++ last2a T1)) sb). intros sb1 R1 P0 P1.
    destruct (absorb2 (last2b (8 * Z.of_nat l)) (last2b (8 * Z.of_nat l)) sb1 (last2b_len _) (last2b_len _) (last2b_bytes _) (last2b_bytes _) R1) as (R2 & Q0 & Q1).
    refine (finish _ _ _ _ _ R2 Q0 Q1 _ _).
    + rewrite (sha_last2 _ q T0 A0 E0 LA0), LM0, P0, G0 by lia. reflexivity.
    + rewrite (sha_last2 _ q T1 A1 E1 LA1), LM1, P1, G1 by lia. reflexivity.
Qed.
