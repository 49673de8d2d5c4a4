(** Proofs about the scalar arithmetic of Ed448. *)
From Coq Require Import ZArith List Bool Lia.
From Verif Require Import Uop Engine Bytes FullProps SpecScalar Scalar ScalarProofs Scalar448.
Import ListNotations.
Open Scope Z_scope.

(** ** Bytes and words *)
Lemma bytes_of_app a b : bytes_of (a ++ b) = bytes_of a ++ bytes_of b.
Proof. unfold bytes_of. apply flat_map_app. Qed.
Lemma bytes_of_length a : length (bytes_of a) = (8 * length a)%nat.
Proof. induction a as [|x a IH]; [reflexivity|]. change (bytes_of (x :: a)) with (bytes_of_word x ++ bytes_of a). rewrite app_length, IH. cbn [length bytes_of_word map]. lia. Qed.
Lemma words_of_app n m a b : words n a -> words_of (n + m) (bytes_of a ++ b) = a ++ words_of m b.
Proof.
  revert a. induction n as [|n IH]; intros [|x a] [L F]; try discriminate; [reflexivity|].
  apply Forall_cons_iff in F as [Hx F]. destruct (bytes_of_word_ok x Hx) as [[L8 _] E].
  change (bytes_of (x :: a)) with (bytes_of_word x ++ bytes_of a). cbn [Nat.add words_of app]. f_equal.
  - rewrite <- !app_assoc, (app_lo 8 _ _ L8), word_of_bytes_le. exact E.
  - rewrite <- !app_assoc, (app_hi 8 _ _ L8). apply IH. split; [now injection L|exact F].
Qed.
Lemma words_of_bytes_of n a : words n a -> words_of n (bytes_of a) = a.
Proof. intro H. rewrite <- (app_nil_r (bytes_of a)). replace n with (n + 0)%nat by lia. rewrite (words_of_app n 0 _ _ H). apply app_nil_r. Qed.
Lemma firstn_app_le {A} n (a b : list A) : (n <= length a)%nat -> firstn n (a ++ b) = firstn n a.
Proof. intro H. rewrite firstn_app. replace (n - length a)%nat with 0%nat by lia. cbn [firstn]. apply app_nil_r. Qed.
Lemma skipn_app_le {A} n (a b : list A) : (n <= length a)%nat -> skipn n (a ++ b) = skipn n a ++ b.
Proof. intro H. rewrite skipn_app. replace (n - length a)%nat with 0%nat by lia. reflexivity. Qed.
Lemma firstn_app_ge {A} n (a b : list A) : (length a <= n)%nat -> firstn n (a ++ b) = a ++ firstn (n - length a) b.
Proof. intro H. rewrite firstn_app, firstn_all2 by lia. reflexivity. Qed.

(** The multiplier leaves the words beyond its reach alone. *)
Lemma multiplier_frame st C A B D m : words (length A + length B + 1 + m) C -> Forall word A -> Forall word B ->
  word64_multiplier st (C ++ D) A B = word64_multiplier st C A B ++ D.
Proof.
  intros HC HA HB. unfold word64_multiplier.
  enough (G : let x := fold_left (fun C i => fold_left (fun C j =>
    set3 (i + j) C (mul64 st (firstn 3 (skipn (i + j) C)) (nth i A 0) (nth j B 0))) (seq 0 (length B)) C) (seq 0 (length A)) (C ++ D) in
    let y := fold_left (fun C i => fold_left (fun C j =>
    set3 (i + j) C (mul64 st (firstn 3 (skipn (i + j) C)) (nth i A 0) (nth j B 0))) (seq 0 (length B)) C) (seq 0 (length A)) C in
    x = y ++ D /\ words (length A + length B + 1 + m) y) by exact (proj1 G).
  cbv zeta. apply (fold_sim (fun x y => x = y ++ D /\ words (length A + length B + 1 + m) y)); [|split; [reflexivity|exact HC]].
  intros x y i Hi Hxy. apply in_seq in Hi.
  apply (fold_sim (fun x y => x = y ++ D /\ words (length A + length B + 1 + m) y)); [|exact Hxy].
  intros x' y' j Hj [-> H]. apply in_seq in Hj.
  assert (Wx : word (nth i A 0)) by (rewrite Forall_forall in HA; apply HA, nth_In; lia).
  assert (Wy : word (nth j B 0)) by (rewrite Forall_forall in HB; apply HB, nth_In; lia).
  assert (L := proj1 H).
  split.
  - rewrite skipn_app_le by lia. rewrite firstn_app_le by (rewrite skipn_length; lia).
    unfold set3. rewrite firstn_app_le by lia. rewrite skipn_app_le by lia. rewrite !app_assoc. reflexivity.
  - replace (length A + length B + 1 + m)%nat with (i + j + (3 + (length A + length B + 1 + m - (i + j) - 3)))%nat in H |- * by lia.
    exact (proj1 (step_ok st _ _ y' _ _ H Wx Wy)).
Qed.
Lemma repeat0_words n : words n (repeat 0 n).
Proof. split; [apply repeat_length|]. apply Forall_forall. intros x H. apply repeat_spec in H. subst. unfold word, W. lia. Qed.
Lemma val_repeat0 n : val (repeat 0 n) = 0.
Proof. induction n; [reflexivity|]. cbn [repeat val]. rewrite IHn. reflexivity. Qed.

Lemma move_high_ok high P H T : words 8 high -> words 7 P -> words 6 H -> words 2 T ->
  exists w, word w /\ (forall k, (k <= 6)%nat -> firstn k (fst (move_high high (P ++ H ++ T))) = firstn k H) /\
  words 8 (fst (move_high high (P ++ H ++ T))) /\
  snd (move_high high (P ++ H ++ T)) = P ++ repeat 0 7 ++ [w].
Proof.
  intros Hh HP HH HT. unfold move_high. cbn [fst snd]. rewrite !bytes_of_app.
  assert (LP : length (bytes_of P) = 56%nat) by (rewrite bytes_of_length, (proj1 HP); reflexivity).
  assert (LH : length (bytes_of H) = 48%nat) by (rewrite bytes_of_length, (proj1 HH); reflexivity).
  destruct (bytes_of_ok _ _ HT) as [BT _]. destruct (bytes_of_ok _ _ Hh) as [Bh _].
  rewrite (app_hi 56 _ _ LP), (app_lo 56 _ _ LP).
  rewrite firstn_app_ge by (rewrite LH; lia). rewrite LH. change (58 - 48)%nat with 10%nat.
  replace (skipn 114 (bytes_of P ++ bytes_of H ++ bytes_of T)) with (skipn 10 (bytes_of T)).
  2:{ change 114%nat with (56 + (48 + 10))%nat. rewrite <- (skipn_skipn' (48 + 10) 56), (app_hi 56 _ _ LP), <- (skipn_skipn' 10 48), (app_hi 48 _ _ LH). reflexivity. }
  set (w := word_of_bytes ([0; 0] ++ skipn 10 (bytes_of T))).
  assert (BB : bytes 8 ([0; 0] ++ skipn 10 (bytes_of T))).
  { split; [rewrite app_length, skipn_length, (proj1 BT); reflexivity|]. constructor; [unfold byte; lia|]. constructor; [unfold byte; lia|].
    destruct BT as [_ F]. rewrite <- (firstn_skipn 10 (bytes_of T)) in F. now apply Forall_app in F. }
  exists w. split; [|split; [|split]].
  - unfold w. rewrite word_of_bytes_le. pose proof (le_val_bound _ (proj2 BB)) as B. rewrite (proj1 BB) in B. exact B.
  - intros k Hk. rewrite <- app_assoc, (words_of_app 6 2 _ _ HH). apply firstn_app_le. rewrite (proj1 HH). exact Hk.
  - rewrite <- app_assoc, (words_of_app 6 2 _ _ HH). apply (words_app 6 2 _ _ HH).
    apply words_of_ok. split.
    + rewrite app_length, firstn_length, skipn_length, (proj1 BT), (proj1 Bh). reflexivity.
    + apply Forall_app. destruct BT as [_ F]. rewrite <- (firstn_skipn 10 (bytes_of T)) in F. apply Forall_app in F as [F _]. split; [exact F|].
      destruct Bh as [_ F']. rewrite <- (firstn_skipn 58 (bytes_of high)) in F'. now apply Forall_app in F'.
  - rewrite (words_of_app 7 8 _ _ HP). f_equal.
    change (repeat 0 58) with (bytes_of (repeat 0 7) ++ [0; 0]). rewrite <- app_assoc.
    rewrite (words_of_app 7 1 _ _ (repeat0_words 7)). f_equal. cbn [words_of]. f_equal.
    rewrite firstn_all2 by (rewrite (proj1 BB); lia). reflexivity.
Qed.

(** ** Reduction modulo the order of the Ed448 group *)
Definition e448 : Z := 13818066809895115352007386748515426880336692474882178609894547503885.
Definition ell448 : Z := 2 ^ 446 - e448.
Lemma ellx4_val : val ellx4 = 4 * e448. Proof. vm_compute. reflexivity. Qed.
Lemma ell448w_val : val ell448w = e448. Proof. vm_compute. reflexivity. Qed.
Lemma consts448 : Forall word ellx4 /\ Forall word ell448w /\ Forall word ifour.
Proof. repeat split; repeat (constructor; [unfold word, W; lia|]); constructor. Qed.

(** The number computed by a multiplication-accumulation: sum minus lost carries. *)
Definition mac (c : Z) (A B : list Z) : Z := c + val A * val B - snd (mul_acc2 (c, 0) A B).
Lemma val_inj n : forall a b, words n a -> words n b -> val a = val b -> a = b.
Proof.
  induction n as [|n IH]; intros [|x a] [|y b] [La Fa] [Lb Fb] E; try discriminate; [reflexivity|].
  apply Forall_cons_iff in Fa as [Hx Fa], Fb as [Hy Fb]. cbn [val] in E. unfold word, W in *.
  assert (x = y) by lia. subst y. f_equal. apply IH; [split; [now injection La|exact Fa]|split; [now injection Lb|exact Fb]|lia].
Qed.
Lemma limbs64_words n x : words n (limbs64 n x).
Proof. unfold limbs64. change (2 ^ 64) with W. split; [now rewrite map_length, seq_length|]. apply Forall_map, Forall_forall. intros i _. apply Z.mod_pos_bound. reflexivity. Qed.
Lemma limbs64_val n : forall x, val (limbs64 n x) = x mod 2 ^ (64 * Z.of_nat n).
Proof.
  induction n as [|n IH]; intro x; [rewrite Z.mod_1_r; reflexivity|].
  unfold limbs64. change (2 ^ 64) with W. cbn [seq map val]. change (64 * Z.of_nat 0) with 0. rewrite Z.pow_0_r, Z.div_1_r.
  rewrite <- seq_shift, map_map.
  replace (map (fun i => (x / 2 ^ (64 * Z.of_nat (S i))) mod W) (seq 0 n)) with (limbs64 n (x / W)).
  2:{ unfold limbs64. change (2 ^ 64) with W. apply map_ext. intro i. f_equal. rewrite Z.div_div by (unfold W; lia). f_equal. change W with (2 ^ 64). rewrite <- Z.pow_add_r by lia. f_equal. lia. }
  rewrite IH. replace (64 * Z.of_nat (S n)) with (64 + 64 * Z.of_nat n) by lia. rewrite Z.pow_add_r by lia.
  change (2 ^ 64) with W. rewrite Z.rem_mul_r by (unfold W; lia || (apply Z.pow_nonzero; lia)). reflexivity.
Qed.
Lemma words_limbs n a : words n a -> a = limbs64 n (val a).
Proof.
  intro H. apply (val_inj n); [exact H|apply limbs64_words|]. rewrite limbs64_val. pose proof (val_bound _ _ H) as B. rewrite W_pow in B. now rewrite Z.mod_small.
Qed.
Lemma mul_ok448 st C A B m : words (length A + length B + 1 + m) C -> Forall word A -> Forall word B ->
  words (length A + length B + 1 + m) (word64_multiplier st C A B) /\ val (word64_multiplier st C A B) = mac (val C) A B.
Proof. exact (multiplier_ok st C A B m). Qed.
Lemma mac_le c A B : Forall word A -> Forall word B -> mac c A B <= c + val A * val B.
Proof. intros HA HB. unfold mac. pose proof (mul_acc2_nonneg A B c HA HB). lia. Qed.
(** The four steps, on numbers. *)
Definition step448 (n : nat) (x : Z) : Z := mac (x mod 2 ^ 448) ellx4 (limbs64 n (x / 2 ^ 448)).
Definition last448 (x : Z) : Z := mac (x mod 2 ^ 446) ell448w [x / 2 ^ 446].
Definition red448 (x : Z) : Z := last448 (step448 1 (step448 4 (step448 8 x))).
Lemma step_le n x : step448 n x <= x mod 2 ^ 448 + 4 * e448 * ((x / 2 ^ 448) mod 2 ^ (64 * Z.of_nat n)).
Proof.
  unfold step448. pose proof (mac_le (x mod 2 ^ 448) ellx4 (limbs64 n (x / 2 ^ 448)) (proj1 consts448) (proj2 (limbs64_words n _))) as H.
  rewrite ellx4_val, limbs64_val in H. exact H.
Qed.
Lemma words_split n m a : words (n + m) a -> a = firstn n a ++ skipn n a. Proof. intro. symmetry. apply firstn_skipn. Qed.
Lemma words_zero n : forall a, words n a -> val a = 0 -> a = repeat 0 n.
Proof. intros a H E. apply (val_inj n); [exact H|apply repeat0_words|]. rewrite val_repeat0. exact E. Qed.

Theorem modred448_ok st junk a : words 2 junk -> bytes 114 a ->
  let res := modular_reduction_ed448 st junk a in
  bytes 114 res /\ le_val res = red448 (le_val a) /\ 0 <= red448 (le_val a) < 2 ^ 448 /\
  0 <= step448 8 (le_val a) < 2 ^ 691 /\ 0 <= step448 4 (step448 8 (le_val a)) < 2 ^ 470 /\
  0 <= step448 1 (step448 4 (step448 8 (le_val a))) < 2 ^ 448.
Proof.
  intros HJ Ha. cbv zeta. destruct consts448 as [K1 [K2 _]].
  assert (Bx : 0 <= le_val a < 2 ^ 912).
  { pose proof (le_val_bound _ (proj2 Ha)) as B. rewrite (proj1 Ha) in B. exact B. }
  set (x := le_val a) in *.
  assert (Lo : words 7 (words_of 7 (firstn 56 a)) /\ val (words_of 7 (firstn 56 a)) = x mod 2 ^ 448 /\
    words 8 (words_of 8 (firstn 58 (skipn 56 a) ++ repeat 0 6)) /\ val (words_of 8 (firstn 58 (skipn 56 a) ++ repeat 0 6)) = x / 2 ^ 448).
  { destruct Ha as [La Fa]. assert (F := Fa). rewrite <- (firstn_skipn 56 a) in F. apply Forall_app in F as [F1 F2].
    assert (B1 : bytes (8 * 7) (firstn 56 a)) by (split; [rewrite firstn_length; lia|exact F1]).
    assert (E58 : firstn 58 (skipn 56 a) = skipn 56 a) by (apply firstn_all2; rewrite skipn_length; lia).
    assert (B2 : bytes (8 * 8) (firstn 58 (skipn 56 a) ++ repeat 0 6)).
    { rewrite E58. split; [rewrite app_length, skipn_length, repeat_length; lia|]. apply Forall_app. split; [exact F2|].
      apply Forall_forall. intros z Hz. apply repeat_spec in Hz. subst. unfold byte. lia. }
    destruct (words_of_ok _ _ B1) as [X1 X2], (words_of_ok _ _ B2) as [Y1 Y2].
    assert (S : x = le_val (firstn 56 a) + 2 ^ 448 * le_val (skipn 56 a)).
    { unfold x. rewrite <- (firstn_skipn 56 a) at 1. rewrite le_val_app. rewrite (proj1 B1). reflexivity. }
    assert (Z0 : le_val (repeat 0 6) = 0) by reflexivity.
    rewrite E58, le_val_app, Z0 in Y2.
    pose proof (le_val_bound _ F1) as Bl. rewrite (proj1 B1) in Bl. change (2 ^ (8 * Z.of_nat (8 * 7))) with (2 ^ 448) in Bl.
    rewrite E58 in Y1 |- *.
    split; [exact X1|]. split; [rewrite X2, S; rewrite Z.mul_comm, Z.mod_add by lia; now rewrite Z.mod_small|].
    split; [exact Y1|]. rewrite Y2, S. rewrite Z.mul_comm with (n := 2 ^ 448), Z.div_add by lia. rewrite Z.div_small by exact Bl. lia. }
  destruct Lo as (W7 & V7 & W8 & V8).
  unfold modular_reduction_ed448.
  set (P0 := words_of 7 (firstn 56 a)) in *. set (H0 := words_of 8 (firstn 58 (skipn 56 a) ++ repeat 0 6)) in *. clearbody P0 H0.
  (* first step *)
  assert (WC0 : words (length ellx4 + length H0 + 1 + 0) (P0 ++ repeat 0 6)).
  { rewrite (proj1 W8). exact (words_app 7 6 _ _ W7 (repeat0_words 6)). }
  destruct (mul_ok448 st _ _ _ 0 WC0 K1 (proj2 W8)) as [W1 V1].
  rewrite app_assoc, (multiplier_frame st _ _ _ junk 0 WC0 K1 (proj2 W8)).
  assert (E1 : val (word64_multiplier st (P0 ++ repeat 0 6) ellx4 H0) = step448 8 x).
  { rewrite V1. unfold step448. rewrite val_app, val_repeat0, Z.mul_0_r, Z.add_0_r, V7. rewrite (words_limbs 8 H0 W8), V8. reflexivity. }
  set (R1 := word64_multiplier st (P0 ++ repeat 0 6) ellx4 H0) in *. rewrite (proj1 W8) in W1. change (length ellx4 + 8 + 1 + 0)%nat with (7 + 6)%nat in W1.
  clearbody R1. clear V1 WC0.
  assert (B1 : 0 <= step448 8 x < 2 ^ 691).
  { split; [rewrite <- E1; apply (val_bound _ _ W1)|]. pose proof (step_le 8 x) as S.
    assert (M1 : x mod 2 ^ 448 < 2 ^ 448) by (apply Z.mod_pos_bound; lia).
    assert (M2 : (x / 2 ^ 448) mod 2 ^ (64 * Z.of_nat 8) <= x / 2 ^ 448) by (apply Z.mod_le; [apply Z.div_pos; lia|lia]).
    assert (M3 : x / 2 ^ 448 < 2 ^ 464) by (apply Z.div_lt_upper_bound; lia). unfold e448 in S. clear - S M1 M2 M3. lia. }
  set (c1 := step448 8 x) in *.
  destruct (words_app_inv 7 6 _ W1) as [Wp1 Wh1]. destruct (val_mod 7 6 _ W1) as [Vp1 Vh1]. rewrite E1 in Vp1, Vh1.
  rewrite (words_split 7 6 R1 W1), <- app_assoc.
  set (P1 := firstn 7 R1) in *. set (H1 := skipn 7 R1) in *. clearbody P1 H1.
  destruct (move_high_ok H0 P1 H1 junk W8 Wp1 Wh1 HJ) as (w1 & Hw1 & Q1 & Q2 & Q3).
  destruct (move_high H0 (P1 ++ H1 ++ junk)) as [hh1 pp1]. cbn [fst snd] in Q1, Q2, Q3. subst pp1.
  rewrite (Q1 4%nat) by lia.
  (* second step *)
  assert (Wh4 : words 4 (firstn 4 H1)) by exact (proj1 (words_app_inv 4 2 _ Wh1)).
  assert (Eh4 : firstn 4 H1 = limbs64 4 (c1 / 2 ^ 448)).
  { apply (val_inj 4); [exact Wh4|apply limbs64_words|]. rewrite limbs64_val, (proj1 (val_mod 4 2 _ Wh1)), Vh1. reflexivity. }
  rewrite Eh4. clear Q1 Wh4 Eh4. set (h4 := limbs64 4 (c1 / 2 ^ 448)) in *.
  assert (Wh4 : words 4 h4) by apply limbs64_words.
  assert (WC1 : words (length ellx4 + length h4 + 1 + 0) (P1 ++ repeat 0 2)).
  { rewrite (proj1 Wh4). exact (words_app 7 2 _ _ Wp1 (repeat0_words 2)). }
  change (P1 ++ repeat 0 7 ++ [w1]) with (P1 ++ repeat 0 2 ++ repeat 0 5 ++ [w1]). rewrite app_assoc.
  destruct (mul_ok448 st _ _ _ 0 WC1 K1 (proj2 Wh4)) as [W2 V2].
  rewrite (multiplier_frame st _ _ _ (repeat 0 5 ++ [w1]) 0 WC1 K1 (proj2 Wh4)).
  assert (E2 : val (word64_multiplier st (P1 ++ repeat 0 2) ellx4 h4) = step448 4 c1).
  { rewrite V2. unfold step448. fold h4. rewrite val_app, val_repeat0, Z.mul_0_r, Z.add_0_r, Vp1. reflexivity. }
  set (R2 := word64_multiplier st (P1 ++ repeat 0 2) ellx4 h4) in *. rewrite (proj1 Wh4) in W2. change (length ellx4 + 4 + 1 + 0)%nat with (7 + 2)%nat in W2.
  clearbody R2. clear V2 WC1.
  assert (B2 : 0 <= step448 4 c1 < 2 ^ 470).
  { split; [rewrite <- E2; apply (val_bound _ _ W2)|]. pose proof (step_le 4 c1) as S.
    assert (M1 : c1 mod 2 ^ 448 < 2 ^ 448) by (apply Z.mod_pos_bound; lia).
    assert (M2 : (c1 / 2 ^ 448) mod 2 ^ (64 * Z.of_nat 4) <= c1 / 2 ^ 448) by (apply Z.mod_le; [apply Z.div_pos; lia|lia]).
    assert (M3 : c1 / 2 ^ 448 < 2 ^ 243) by (apply Z.div_lt_upper_bound; lia). unfold e448 in S. clear - S M1 M2 M3. lia. }
  set (c2 := step448 4 c1) in *. clear h4 Wh4.
  destruct (words_app_inv 7 2 _ W2) as [Wp2 Wh2]. destruct (val_mod 7 2 _ W2) as [Vp2 Vh2]. rewrite E2 in Vp2, Vh2.
  rewrite (words_split 7 2 R2 W2), <- app_assoc.
  set (P2 := firstn 7 R2) in *. set (H2 := skipn 7 R2) in *. clearbody P2 H2.
  assert (WT : words 2 [0; w1]) by (split; [reflexivity|constructor; [unfold word, W; lia|constructor; [exact Hw1|constructor]]]).
  assert (WH2 : words 6 (H2 ++ repeat 0 4)) by exact (words_app 2 4 _ _ Wh2 (repeat0_words 4)).
  change (P2 ++ H2 ++ repeat 0 5 ++ [w1]) with (P2 ++ H2 ++ repeat 0 4 ++ [0; w1]). rewrite (app_assoc H2).
  destruct (move_high_ok hh1 P2 _ _ Q2 Wp2 WH2 WT) as (w2 & Hw2 & Q4 & Q5 & Q6).
  destruct (move_high hh1 (P2 ++ (H2 ++ repeat 0 4) ++ [0; w1])) as [hh2 pp2]. cbn [fst snd] in Q4, Q5, Q6. subst pp2.
  rewrite (Q4 1%nat) by lia. rewrite firstn_app_le by (rewrite (proj1 Wh2); lia).
  (* third step *)
  assert (Eh1 : firstn 1 H2 = limbs64 1 (c2 / 2 ^ 448)).
  { apply (val_inj 1); [exact (proj1 (words_app_inv 1 1 _ Wh2))|apply limbs64_words|]. rewrite limbs64_val, (proj1 (val_mod 1 1 _ Wh2)), Vh2. reflexivity. }
  rewrite Eh1. clear Q4 Eh1. set (h1 := limbs64 1 (c2 / 2 ^ 448)) in *.
  assert (Wh1' : words 1 h1) by apply limbs64_words.
  assert (WC2 : words (length ellx4 + length h1 + 1 + 1) P2) by (rewrite (proj1 Wh1'); exact Wp2).
  destruct (mul_ok448 st _ _ _ 1 WC2 K1 (proj2 Wh1')) as [W3 V3].
  rewrite (multiplier_frame st _ _ _ (repeat 0 7 ++ [w2]) 1 WC2 K1 (proj2 Wh1')).
  assert (E3 : val (word64_multiplier st P2 ellx4 h1) = step448 1 c2).
  { rewrite V3. unfold step448. fold h1. rewrite Vp2. reflexivity. }
  set (R3 := word64_multiplier st P2 ellx4 h1) in *. rewrite (proj1 Wh1') in W3. change (length ellx4 + 1 + 1 + 1)%nat with (6 + 1)%nat in W3.
  clearbody R3. clear V3 WC2.
  assert (B3 : 0 <= step448 1 c2 < 2 ^ 448) by (rewrite <- E3; apply (val_bound _ _ W3)).
  set (c3 := step448 1 c2) in *.
  (* last step *)
  destruct (words_app_inv 6 1 _ W3) as [Wp3 Wh3]. destruct (val_mod 6 1 _ W3) as [Vp3 Vh3]. rewrite E3 in Vp3, Vh3.
  assert (EN : nth 6 (R3 ++ repeat 0 7 ++ [w2]) 0 = nth 0 (skipn 6 R3) 0).
  { rewrite app_nth1 by (rewrite (proj1 W3); lia). rewrite <- (firstn_skipn 6 R3) at 1. rewrite app_nth2 by (rewrite firstn_length, (proj1 W3); cbn; lia). f_equal. rewrite firstn_length, (proj1 W3). reflexivity. }
  rewrite EN. rewrite firstn_app_le by (rewrite (proj1 W3); lia).
  replace (skipn 7 (R3 ++ repeat 0 7 ++ [w2])) with (repeat 0 7 ++ [w2]) by (symmetry; apply (app_hi 7 _ _ (proj1 W3))).
  set (P3 := firstn 6 R3) in *. set (H3 := skipn 6 R3) in *. clearbody P3 H3.
  destruct H3 as [|t [|? ?]]; try (destruct Wh3; discriminate). cbn [nth]. cbn [val] in Vh3. rewrite Z.mul_0_r, Z.add_0_r in Vh3.
  assert (Ht : word t) by (destruct Wh3 as [_ F]; apply Forall_cons_iff in F; tauto).
  change (2 ^ 62 - 1) with (Z.ones 62). rewrite Z.land_ones by lia.
  change (2 ^ (64 * Z.of_nat 6)) with (2 ^ 384) in *.
  assert (Eq : t / 2 ^ 62 = c3 / 2 ^ 446) by (rewrite Vh3, Z.div_div by lia; reflexivity).
  assert (Em : val P3 + 2 ^ 384 * (t mod 2 ^ 62) = c3 mod 2 ^ 446).
  { rewrite Vp3, Vh3. change (2 ^ 446) with (2 ^ 384 * 2 ^ 62). rewrite Z.rem_mul_r by lia. reflexivity. }
  assert (Wm : word (t mod 2 ^ 62)) by (pose proof (Z.mod_pos_bound t (2 ^ 62) ltac:(lia)); unfold word, W; lia).
  assert (Wq : Forall word [t / 2 ^ 62]).
  { constructor; [|constructor]. unfold word, W in Ht |- *. split; [apply Z.div_pos; lia|]. apply Z.div_lt_upper_bound; lia. }
  assert (WC3 : words (length ell448w + length [t / 2 ^ 62] + 1 + 1) (P3 ++ [t mod 2 ^ 62])).
  { apply (words_app 6 1 _ _ Wp3). split; [reflexivity|constructor; [exact Wm|constructor]]. }
  change (P3 ++ t mod 2 ^ 62 :: repeat 0 7 ++ [w2]) with (P3 ++ [t mod 2 ^ 62] ++ repeat 0 7 ++ [w2]). rewrite app_assoc.
  destruct (mul_ok448 st _ _ _ 1 WC3 K2 Wq) as [W4 V4].
  rewrite (multiplier_frame st _ _ _ (repeat 0 7 ++ [w2]) 1 WC3 K2 Wq).
  assert (E4 : val (word64_multiplier st (P3 ++ [t mod 2 ^ 62]) ell448w [t / 2 ^ 62]) = red448 x).
  { rewrite V4. unfold red448, last448. fold c1. fold c2. fold c3. rewrite val_app, (proj1 Wp3). cbn [val]. rewrite Z.mul_0_r, Z.add_0_r.
    change (2 ^ (64 * Z.of_nat 6)) with (2 ^ 384). rewrite Em, Eq. reflexivity. }
  set (R4 := word64_multiplier st (P3 ++ [t mod 2 ^ 62]) ell448w [t / 2 ^ 62]) in *. clearbody R4.
  change (words 7 R4) in W4.
  destruct (bytes_of_ok _ _ W4) as [B4 L4]. change (8 * 7)%nat with 56%nat in B4.
  rewrite bytes_of_app, (app_lo 56 _ _ (proj1 B4)).
  split; [|split; [|split; [|split; [exact B1|split; [exact B2|exact B3]]]]].
  - split; [rewrite app_length, (proj1 B4), repeat_length; reflexivity|]. apply Forall_app. split; [exact (proj2 B4)|].
    apply Forall_forall. intros z Hz. apply repeat_spec in Hz. subst. unfold byte. lia.
  - rewrite le_val_app, L4, E4. replace (le_val (repeat 0 58)) with 0 by reflexivity. lia.
  - rewrite <- E4. apply (val_bound _ _ W4).
Qed.

(** No carry is lost along the way. *)
Definition kept (c : Z) (A B : list Z) : Prop := snd (mul_acc2 (c, 0) A B) = 0.
Definition step448_kept (n : nat) (x : Z) : Prop := kept (x mod 2 ^ 448) ellx4 (limbs64 n (x / 2 ^ 448)).
Definition red448_kept (x : Z) : Prop :=
  let c1 := step448 8 x in let c2 := step448 4 c1 in let c3 := step448 1 c2 in
  step448_kept 8 x /\ step448_kept 4 c1 /\ step448_kept 1 c2 /\ kept (c3 mod 2 ^ 446) ell448w [c3 / 2 ^ 446].
Lemma ell448_pos : 0 < ell448. Proof. reflexivity. Qed.
Lemma cong448 x y k : x = y + k * ell448 -> x mod ell448 = y mod ell448.
Proof. intros ->. apply Z.mod_add. discriminate. Qed.
Lemma step_kept_ok n x : step448_kept n x -> 0 <= x < 2 ^ (448 + 64 * Z.of_nat n) ->
  step448 n x = x mod 2 ^ 448 + 4 * e448 * (x / 2 ^ 448) /\ step448 n x mod ell448 = x mod ell448.
Proof.
  intros K B. assert (D : (x / 2 ^ 448) mod 2 ^ (64 * Z.of_nat n) = x / 2 ^ 448).
  { apply Z.mod_small. split; [apply Z.div_pos; lia|]. apply Z.div_lt_upper_bound; [lia|]. rewrite <- Z.pow_add_r by lia. apply B. }
  assert (E : step448 n x = x mod 2 ^ 448 + 4 * e448 * (x / 2 ^ 448)).
  { unfold step448, mac. unfold step448_kept, kept in K. rewrite K, ellx4_val, limbs64_val, D. ring. }
  split; [exact E|]. rewrite E. apply (cong448 _ _ (- 4 * (x / 2 ^ 448))).
  rewrite (Z.div_mod x (2 ^ 448)) at 3 by lia. unfold ell448. change (2 ^ 448) with (4 * 2 ^ 446). ring.
Qed.
Lemma below_pow x a b : 0 <= x < 2 ^ a -> a <= b -> 0 <= x < 2 ^ b.
Proof. intros [H1 H2] H. split; [exact H1|]. apply (Z.lt_le_trans _ _ _ H2). apply Z.pow_le_mono_r; [reflexivity|exact H]. Qed.
Theorem red448_kept_ok x : 0 <= x < 2 ^ 912 -> red448_kept x ->
  0 <= step448 8 x < 2 ^ 691 -> 0 <= step448 4 (step448 8 x) < 2 ^ 470 -> 0 <= step448 1 (step448 4 (step448 8 x)) < 2 ^ 448 ->
  red448 x mod ell448 = x mod ell448 /\ 0 <= red448 x < 2 ^ 446 + 3 * e448.
Proof.
  intros B (K1 & K2 & K3 & K4) B1 B2 B3. cbv zeta in *.
  destruct (step_kept_ok 8 x K1 (below_pow _ _ (448 + 64 * Z.of_nat 8) B ltac:(discriminate))) as [_ C1].
  destruct (step_kept_ok 4 _ K2 (below_pow _ _ (448 + 64 * Z.of_nat 4) B1 ltac:(discriminate))) as [_ C2].
  destruct (step_kept_ok 1 _ K3 (below_pow _ _ (448 + 64 * Z.of_nat 1) B2 ltac:(discriminate))) as [_ C3].
  unfold red448. set (c3 := step448 1 (step448 4 (step448 8 x))) in *.
  assert (E : last448 c3 = c3 mod 2 ^ 446 + e448 * (c3 / 2 ^ 446)).
  { unfold last448, mac. unfold kept in K4. rewrite K4, ell448w_val. cbn [val]. ring. }
  split.
  - rewrite <- C1, <- C2, <- C3. rewrite E. apply (cong448 _ _ (- (c3 / 2 ^ 446))).
    rewrite (Z.div_mod c3 (2 ^ 446)) at 3 by lia. unfold ell448. ring.
  - rewrite E. pose proof (Z.mod_pos_bound c3 (2 ^ 446) ltac:(lia)) as M.
    assert (0 <= c3 / 2 ^ 446 <= 3) by (split; [apply Z.div_pos; lia|]; assert (c3 / 2 ^ 446 < 4) by (apply Z.div_lt_upper_bound; lia); lia).
    unfold e448. lia.
Qed.
Lemma ifour_inv : 4 * val ifour mod ell448 = 1. Proof. vm_compute. reflexivity. Qed.
