(** Proofs about the scalar arithmetic of Ed25519 and the word multiplier. *)
From Coq Require Import ZArith Znumtheory List Bool Lia.
From Verif Require Import Uop Poly Sym Engine Check Bytes X86 AsmSign255 Fp25519Full FullTac FullProps Scalar SpecScalar.
Import ListNotations.
Open Scope Z_scope.

Definition c255 : Z := 27742317777372353535851937790883648493.
Definition wt256 : list Z := wts 4 1 ++ wts 4 (- 16 * c255).
Definition wt64 : list Z := wts 4 1 ++ [- c255].
Lemma wsum_app w1 : forall w2 a1 a2, length a1 = length w1 -> wsum (w1 ++ w2) (a1 ++ a2) = wsum w1 a1 + wsum w2 a2.
Proof.
  induction w1 as [|w w1 IH]; intros w2 [|a a1] a2 L; cbn [length] in L; try discriminate; [reflexivity|].
  cbn [app wsum]. rewrite IH by lia. ring.
Qed.
Lemma mod_range M a b : 0 < M -> 0 <= a < M -> (a - b) mod M = 0 -> a = b mod M.
Proof.
  intros Hm Ha E. rewrite <- (Z.mod_small a M Ha). replace a with (b + (a - b)) by ring.
  rewrite Z.add_mod, E, Z.add_0_r, Z.mod_mod by lia. reflexivity.
Qed.
Lemma W_pow n : W ^ Z.of_nat n = 2 ^ (64 * Z.of_nat n).
Proof. change W with (2 ^ 64). rewrite <- Z.pow_mul_r by lia. reflexivity. Qed.

Lemma reduce256_ok st lo hi : words 4 lo -> words 4 hi -> words 8 (reduce256bits st (lo ++ hi)) /\
  val (reduce256bits st (lo ++ hi)) = (val lo - 16 * c255 * val hi) mod 2 ^ 512.
Proof.
  intros Hl Hh. unfold reduce256bits.
  pose proof (cong_check_sound [] (code (env_of [bA; bB]) (store_const 1 ellx16 ++ asm_reduce256bits))
    [IA bA (wbnd 8) wt256] bA (wts 8 1) (wbnd 8) (2 ^ 512) (VIn 0) [lo ++ hi] st) as K.
  cbv beta zeta in K. destruct K as [E B]; [vm_compute; reflexivity| |].
  { constructor; [|constructor]. apply arr_words. exact (words_app 4 4 _ _ Hl Hh). }
  cbn [iplace ib ivals iwt vden nth] in E. apply arr_words in B. cbn [iplace ib] in B.
  change (length (wts 8 1)) with 8%nat in *. split; [exact B|].
  unfold wt256 in E. rewrite wsum_app in E by (rewrite wts_length; exact (proj1 Hl)).
  rewrite !wsum_wts in E by (exact (proj1 B) || exact (proj1 Hl) || exact (proj1 Hh)).
  rewrite !Z.mul_1_l in E. apply mod_range in E; [|reflexivity|].
  - rewrite E. f_equal. ring.
  - pose proof (val_bound _ _ B) as V. rewrite W_pow in V. exact V.
Qed.
Lemma reduce64_ok st lo q : words 4 lo -> word q -> words 4 (reduce64bits st (lo ++ [q])) /\
  val (reduce64bits st (lo ++ [q])) = (val lo - c255 * q) mod 2 ^ 256.
Proof.
  intros Hl Hq. unfold reduce64bits.
  assert (Hh : words 1 [q]) by (split; [reflexivity|constructor; [exact Hq|constructor]]).
  pose proof (cong_check_sound [] (code (env_of [bA; bB]) (store_const 1 ell2w ++ asm_reduce64bits))
    [IA bA (wbnd 5) wt64] bA (wts 4 1) (wbnd 4) (2 ^ 256) (VIn 0) [lo ++ [q]] st) as K.
  cbv beta zeta in K. destruct K as [E B]; [vm_compute; reflexivity| |].
  { constructor; [|constructor]. apply arr_words. exact (words_app 4 1 _ _ Hl Hh). }
  cbn [iplace ib ivals iwt vden nth] in E. apply arr_words in B. cbn [iplace ib] in B.
  change (length (wts 4 1)) with 4%nat in *. split; [exact B|].
  unfold wt64 in E. rewrite wsum_app in E by (rewrite wts_length; exact (proj1 Hl)).
  rewrite !wsum_wts in E by (exact (proj1 B) || exact (proj1 Hl)). cbn [wsum] in E.
  rewrite !Z.mul_1_l in E. apply mod_range in E; [|reflexivity|].
  - rewrite E. f_equal. ring.
  - pose proof (val_bound _ _ B) as V. rewrite W_pow in V. exact V.
Qed.
Lemma mul64_ok st z x y : words 3 z -> word x -> word y -> words 3 (mul64 st z x y) /\
  val (mul64 st z x y) = (val z + x * y) mod 2 ^ 192.
Proof.
  intros Hz Hx Hy. unfold mul64.
  assert (Hx' : words 1 [x]) by (split; [reflexivity|constructor; [exact Hx|constructor]]).
  assert (Hy' : words 1 [y]) by (split; [reflexivity|constructor; [exact Hy|constructor]]).
  pose proof (cong_check_sound [] (code (env_of [bC; Pos.add bC 1; Pos.add bC 2; bA; bB]%positive) asm_mul64x64)
    [IA bC (wbnd 3) (wts 3 1); IA bA (wbnd 1) (wts 1 1); IA bB (wbnd 1) (wts 1 1)] bC (wts 3 1) (wbnd 3) (2 ^ 192)
    (VAdd (VIn 0) (VMul (VIn 1) (VIn 2))) [z; [x]; [y]] st) as K.
  cbv beta zeta in K. destruct K as [E B]; [vm_compute; reflexivity| |].
  { constructor; [apply arr_words; exact Hz|]. constructor; [apply arr_words; exact Hx'|].
    constructor; [apply arr_words; exact Hy'|constructor]. }
  cbn [iplace ib ivals iwt vden nth] in E. apply arr_words in B. cbn [iplace ib] in B.
  change (length (wts 3 1)) with 3%nat in *. split; [exact B|].
  rewrite !wsum_wts in E by (exact (proj1 B) || exact (proj1 Hz) || reflexivity). cbn [val] in E.
  rewrite !Z.mul_1_l, !Z.mul_0_r, !Z.add_0_r in E. apply mod_range in E; [exact E|reflexivity|].
  pose proof (val_bound _ _ B) as V. rewrite W_pow in V. exact V.
Qed.

(** ** word64_multiplier *)
Lemma val_app a : forall b, val (a ++ b) = val a + 2 ^ (64 * Z.of_nat (length a)) * val b.
Proof.
  induction a as [|x a IH]; intro b; cbn [app val length]; [rewrite Z.mul_1_l; reflexivity|].
  rewrite IH. replace (64 * Z.of_nat (S (length a))) with (64 + 64 * Z.of_nat (length a)) by lia.
  rewrite Z.pow_add_r by lia. change (2 ^ 64) with W. ring.
Qed.
Lemma words_app_inv n m a : words (n + m) a -> words n (firstn n a) /\ words m (skipn n a).
Proof.
  intros [L F]. rewrite <- (firstn_skipn n a) in F. apply Forall_app in F as [F1 F2].
  split; split; [rewrite firstn_length; lia|exact F1|rewrite skipn_length; lia|exact F2].
Qed.
Lemma val_mod n m a : words (n + m) a -> val (firstn n a) = val a mod 2 ^ (64 * Z.of_nat n) /\ val (skipn n a) = val a / 2 ^ (64 * Z.of_nat n).
Proof.
  intro H. destruct (words_app_inv _ _ _ H) as [H1 H2].
  pose proof (val_bound _ _ H1) as B. rewrite W_pow in B.
  pose proof (val_app (firstn n a) (skipn n a)) as E. rewrite firstn_skipn in E. rewrite (proj1 H1) in E.
  set (M := 2 ^ (64 * Z.of_nat n)) in *. set (u := val (firstn n a)) in *. set (v := val (skipn n a)) in *.
  rewrite E. split.
  - rewrite Z.mul_comm, Z.mod_add, Z.mod_small by lia. reflexivity.
  - rewrite Z.mul_comm, Z.div_add, Z.div_small by lia. reflexivity.
Qed.
Lemma skipn_skipn' {A} n m (l : list A) : skipn n (skipn m l) = skipn (m + n) l.
Proof. revert l. induction m; intro l; [reflexivity|]. destruct l; [now rewrite !skipn_nil|]. cbn [skipn Nat.add]. apply IHm. Qed.
Lemma set3_ok n m C r : words (n + (3 + m)) C -> words 3 r ->
  words (n + (3 + m)) (set3 n C r) /\
  val (set3 n C r) = val C + 2 ^ (64 * Z.of_nat n) * (val r - (val C / 2 ^ (64 * Z.of_nat n)) mod 2 ^ 192).
Proof.
  intros HC Hr. unfold set3. destruct (words_app_inv _ _ _ HC) as [H1 H2]. destruct (words_app_inv _ _ _ H2) as [H3 H4].
  rewrite skipn_skipn' in H4.
  split; [apply words_app; [exact H1|]; apply words_app; assumption|].
  destruct (val_mod _ _ _ HC) as [E1 E2]. destruct (val_mod _ _ _ H2) as [E3 E4]. rewrite skipn_skipn' in E4.
  rewrite !val_app, (proj1 H1), (proj1 Hr), E1, E4, E2.
  change (64 * Z.of_nat 3) with 192. set (M := 2 ^ (64 * Z.of_nat n)). assert (0 < M) by (apply Z.pow_pos_nonneg; lia).
  pose proof (Z.div_mod (val C) M ltac:(lia)) as D. pose proof (Z.div_mod (val C / M) (2 ^ 192) ltac:(discriminate)) as D2.
  set (q := val C / M) in *. set (p := val C mod M) in *. set (q2 := q / 2 ^ 192) in *. set (p2 := q mod 2 ^ 192) in *.
  clearbody q2 p2 p q. rewrite D, D2. ring.
Qed.
Lemma step_ok st n m C x y : words (n + (3 + m)) C -> word x -> word y ->
  let C' := set3 n C (mul64 st (firstn 3 (skipn n C)) x y) in
  words (n + (3 + m)) C' /\ val C' = accumulate (val C) n (x * y).
Proof.
  intros HC Hx Hy C'. destruct (words_app_inv _ _ _ HC) as [H1 H2]. destruct (words_app_inv _ _ _ H2) as [H3 H4].
  destruct (mul64_ok st _ x y H3 Hx Hy) as [Hr Er]. destruct (set3_ok n m C _ HC Hr) as [HC' E]. fold C' in HC', E.
  split; [exact HC'|]. rewrite E, Er.
  destruct (val_mod _ _ _ HC) as [_ E2]. destruct (val_mod _ _ _ H2) as [E3 _]. rewrite E3, E2.
  change (64 * Z.of_nat 3) with 192. unfold accumulate, lost.
  replace (64 * Z.of_nat (n + 3)) with (64 * Z.of_nat n + 192) by lia. rewrite (Z.pow_add_r 2 (64 * Z.of_nat n)) by lia.
  set (w := (val C / _) mod 2 ^ 192). rewrite (Z.mod_eq (w + x * y)) by discriminate. ring.
Qed.
Lemma fold_sim {X Y I} (R : X -> Y -> Prop) (f : X -> I -> X) (g : Y -> I -> Y) (l : list I) :
  (forall x y i, In i l -> R x y -> R (f x i) (g y i)) -> forall x y, R x y -> R (fold_left f l x) (fold_left g l y).
Proof.
  intro H. induction l as [|i l IH]; intros x y Hxy; [exact Hxy|]. cbn [fold_left].
  apply IH; [intros; apply H; [now right|assumption]|]. apply H; [now left|assumption].
Qed.
Lemma fold_inv {X I} (R : X -> Prop) (f : X -> I -> X) (l : list I) :
  (forall x i, In i l -> R x -> R (f x i)) -> forall x, R x -> R (fold_left f l x).
Proof.
  intro H. induction l as [|i l IH]; intros x Hx; [exact Hx|]. cbn [fold_left].
  apply IH; [intros; apply H; [now right|assumption]|]. apply H; [now left|assumption].
Qed.
(** The same computation on numbers, keeping track of what was lost. *)
Definition mul_acc (c : Z) (A B : list Z) : Z :=
  fold_left (fun c i => fold_left (fun c j => accumulate c (i + j) (nth i A 0 * nth j B 0)) (seq 0 (length B)) c) (seq 0 (length A)) c.
Lemma multiplier_acc st C A B m : words (length A + length B + 1 + m) C -> Forall word A -> Forall word B ->
  words (length A + length B + 1 + m) (word64_multiplier st C A B) /\ val (word64_multiplier st C A B) = mul_acc (val C) A B.
Proof.
  intros HC HA HB. unfold word64_multiplier, mul_acc.
  apply (fold_sim (fun x y => words (length A + length B + 1 + m) x /\ val x = y)); [|split; [exact HC|reflexivity]].
  intros x y i Hi Hxy. apply in_seq in Hi.
  apply (fold_sim (fun x y => words (length A + length B + 1 + m) x /\ val x = y)); [|exact Hxy].
  intros x' y' j Hj [H E]. apply in_seq in Hj. rewrite <- E.
  assert (Wx : word (nth i A 0)) by (rewrite Forall_forall in HA; apply HA, nth_In; lia).
  assert (Wy : word (nth j B 0)) by (rewrite Forall_forall in HB; apply HB, nth_In; lia).
  replace (length A + length B + 1 + m)%nat with (i + j + (3 + (length A + length B + 1 + m - (i + j) - 3)))%nat in H |- * by lia.
  exact (step_ok st _ _ x' _ _ H Wx Wy).
Qed.
(** What is lost: the result falls short of the product by the weights of the lost carries. *)
Lemma mul_acc2_fst A B c l : fst (mul_acc2 (c, l) A B) = mul_acc c A B.
Proof.
  unfold mul_acc2, mul_acc. apply (fold_sim (fun (x : Z * Z) y => fst x = y)); [|reflexivity].
  intros x y i _ H. apply (fold_sim (fun (x : Z * Z) y => fst x = y)); [|exact H]. intros x' y' j _ H'. unfold acc2. cbn [fst]. now rewrite H'.
Qed.
Fixpoint dot (n : nat) (k : nat) (x : Z) (B : list Z) : Z := match B with [] => 0 | b :: B => 2 ^ (64 * Z.of_nat (n + k)) * (x * b) + dot n (S k) x B end.
Lemma fold_row f (n : nat) x B0 (s : Z * Z) : (forall s j, f s j = acc2 s (n + j) (x * nth j B0 0)) ->
  forall B k, (forall j, (j < length B)%nat -> nth j B 0 = nth (k + j) B0 0) ->
  forall s, let s' := fold_left f (seq k (length B)) s in
  fst s' + snd s' = fst s + snd s + 2 ^ (64 * Z.of_nat (n + k)) * (x * val B).
Proof.
  intros Hf. induction B as [|b B IH]; intros k HB t; cbn [length seq fold_left val].
  - cbv zeta. rewrite !Z.mul_0_r, Z.add_0_r. reflexivity.
  - cbv zeta. rewrite (IH (S k)).
    + rewrite Hf. assert (E := HB 0%nat ltac:(cbn [length]; lia)). cbn [nth] in E. rewrite Nat.add_0_r in E. rewrite <- E. unfold acc2, accumulate. cbn [fst snd].
      replace (64 * Z.of_nat (n + S k)) with (64 * Z.of_nat (n + k) + 64) by lia. rewrite (Z.pow_add_r 2 (64 * Z.of_nat (n + k))) by lia. change (2 ^ 64) with W. ring.
    + intros j Hj. specialize (HB (S j) ltac:(cbn [length]; lia)). cbn [nth] in HB. rewrite HB. f_equal. lia.
Qed.
Lemma fold_rows A0 B (g : Z * Z -> nat -> Z * Z) : (forall s i, g s i = fold_left (fun s j => acc2 s (i + j) (nth i A0 0 * nth j B 0)) (seq 0 (length B)) s) ->
  forall A k, (forall j, (j < length A)%nat -> nth j A 0 = nth (k + j) A0 0) ->
  forall s, let s' := fold_left g (seq k (length A)) s in
  fst s' + snd s' = fst s + snd s + 2 ^ (64 * Z.of_nat k) * (val A * val B).
Proof.
  intros Hg. induction A as [|a A IH]; intros k HA s; cbn [length seq fold_left val].
  - cbv zeta. rewrite Z.mul_0_l, Z.mul_0_r, Z.add_0_r. reflexivity.
  - cbv zeta. rewrite (IH (S k)).
    + rewrite Hg. assert (E := HA 0%nat ltac:(cbn [length]; lia)). cbn [nth] in E. rewrite Nat.add_0_r in E.
      rewrite (fold_row _ k (nth k A0 0) B s (fun s j => eq_refl) B 0%nat (fun j Hj => eq_refl) s). rewrite <- E, Nat.add_0_r.
      replace (64 * Z.of_nat (S k)) with (64 * Z.of_nat k + 64) by lia. rewrite (Z.pow_add_r 2 (64 * Z.of_nat k)) by lia. change (2 ^ 64) with W. ring.
    + intros j Hj. specialize (HA (S j) ltac:(cbn [length]; lia)). cbn [nth] in HA. rewrite HA. f_equal. lia.
Qed.
Lemma mul_acc2_sum A B c : fst (mul_acc2 (c, 0) A B) + snd (mul_acc2 (c, 0) A B) = c + val A * val B.
Proof.
  unfold mul_acc2. rewrite (fold_rows A B _ (fun s i => eq_refl) A 0%nat (fun j Hj => eq_refl) (c, 0)). cbn [fst snd].
  change (64 * Z.of_nat 0) with 0. rewrite Z.pow_0_r. ring.
Qed.
Lemma multiplier_ok st C A B m : words (length A + length B + 1 + m) C -> Forall word A -> Forall word B ->
  words (length A + length B + 1 + m) (word64_multiplier st C A B) /\
  val (word64_multiplier st C A B) = val C + val A * val B - snd (mul_acc2 (val C, 0) A B).
Proof.
  intros HC HA HB. destruct (multiplier_acc st C A B m HC HA HB) as [H E]. split; [exact H|].
  rewrite E, <- (mul_acc2_fst A B (val C) 0). pose proof (mul_acc2_sum A B (val C)). lia.
Qed.
Lemma lost_nonneg c n m : 0 <= m -> 0 <= lost c n m.
Proof. intro H. unfold lost. apply Z.div_pos; [|reflexivity]. pose proof (Z.mod_pos_bound (c / 2 ^ (64 * Z.of_nat n)) (2 ^ 192) ltac:(reflexivity)). lia. Qed.
Lemma mul_acc2_nonneg A B c : Forall word A -> Forall word B -> 0 <= snd (mul_acc2 (c, 0) A B).
Proof.
  intros HA HB. unfold mul_acc2.
  apply (fold_inv (fun x : Z * Z => 0 <= snd x)); [|apply Z.le_refl].
  intros x i Hi H. apply in_seq in Hi. apply (fold_inv (fun x : Z * Z => 0 <= snd x)); [|exact H].
  intros x' j Hj H'. apply in_seq in Hj. unfold acc2. cbn [snd].
  assert (Wx : word (nth i A 0)) by (rewrite Forall_forall in HA; apply HA, nth_In; lia).
  assert (Wy : word (nth j B 0)) by (rewrite Forall_forall in HB; apply HB, nth_In; lia).
  pose proof (lost_nonneg (fst x') (i + j) (nth i A 0 * nth j B 0) ltac:(unfold word in *; nia)).
  assert (0 < 2 ^ (64 * Z.of_nat (i + j + 3))) by (apply Z.pow_pos_nonneg; lia). nia.
Qed.

(** ** Reduction modulo the order of the Ed25519 group *)
Definition ell255 : Z := 2 ^ 252 + c255.
Definition fold255 (x : Z) : Z := x mod 2 ^ 256 - 16 * c255 * (x / 2 ^ 256).
Definition wrap255 (v : Z) : Z := v mod 2 ^ 252 - c255 * (v / 2 ^ 252).
Lemma fold255_cong x : fold255 x mod ell255 = x mod ell255.
Proof.
  unfold fold255. replace (x mod 2 ^ 256 - 16 * c255 * (x / 2 ^ 256)) with (x + (- 16 * (x / 2 ^ 256)) * ell255).
  - apply Z.mod_add. discriminate.
  - rewrite Z.mod_eq by discriminate. unfold ell255. ring.
Qed.
Lemma wrap255_cong x : wrap255 x mod ell255 = x mod ell255.
Proof.
  unfold wrap255. replace (x mod 2 ^ 252 - c255 * (x / 2 ^ 252)) with (x + (- (x / 2 ^ 252)) * ell255).
  - apply Z.mod_add. discriminate.
  - rewrite Z.mod_eq by discriminate. unfold ell255. ring.
Qed.
Lemma fold2_range x : 0 <= x < 2 ^ 512 -> 0 <= fold255 (fold255 x) < 44 * 2 ^ 252.
Proof.
  intro H.
  assert (H1 : - 16 * c255 * (2 ^ 256 - 1) <= fold255 x < 2 ^ 256).
  { unfold fold255. pose proof (Z.mod_pos_bound x (2 ^ 256) ltac:(reflexivity)).
    assert (0 <= x / 2 ^ 256 <= 2 ^ 256 - 1).
    { split; [apply Z.div_pos; lia|]. apply Z.lt_le_pred, Z.div_lt_upper_bound; [reflexivity|exact (proj2 H)]. }
    unfold c255. lia. }
  set (y := fold255 x) in *. clearbody y. unfold fold255.
  pose proof (Z.div_mod y (2 ^ 256) ltac:(discriminate)) as D. pose proof (Z.mod_pos_bound y (2 ^ 256) ltac:(reflexivity)) as B.
  set (q := y / 2 ^ 256) in *. set (r := y mod 2 ^ 256) in *. clearbody q r. unfold c255 in *.
  assert (- 443877084437957656573631004654138375888 <= q <= 0) by lia. lia.
Qed.
Lemma reduce256_val st a : words 8 a -> words 8 (reduce256bits st a) /\ val (reduce256bits st a) = fold255 (val a) mod 2 ^ 512.
Proof.
  intro H. destruct (words_app_inv 4 4 _ H) as [H1 H2]. destruct (val_mod 4 4 _ H) as [E1 E2].
  pose proof (reduce256_ok st _ _ H1 H2) as K. rewrite firstn_skipn, E1, E2 in K. exact K.
Qed.
Lemma mod_mod_pow x a b : 0 <= a <= b -> (x mod 2 ^ b) mod 2 ^ a = x mod 2 ^ a.
Proof.
  intro H. symmetry. apply Zmod_div_mod; [apply Z.pow_pos_nonneg; lia..|].
  exists (2 ^ (b - a)). rewrite <- Z.pow_add_r by lia. f_equal. lia.
Qed.

Lemma fold255_mod y : fold255 (y mod 2 ^ 512) mod 2 ^ 260 = fold255 y mod 2 ^ 260.
Proof.
  unfold fold255. rewrite mod_mod_pow by lia.
  assert (E : y mod 2 ^ 512 / 2 ^ 256 = y / 2 ^ 256 - 2 ^ 256 * (y / 2 ^ 512)).
  { rewrite (Z.mod_eq y (2 ^ 512)) by discriminate.
    replace (y - 2 ^ 512 * (y / 2 ^ 512)) with (y + (- (2 ^ 256 * (y / 2 ^ 512))) * 2 ^ 256) by ring.
    rewrite Z.div_add by discriminate. ring. }
  rewrite E.
  replace (y mod 2 ^ 256 - 16 * c255 * (y / 2 ^ 256 - 2 ^ 256 * (y / 2 ^ 512)))
    with (y mod 2 ^ 256 - 16 * c255 * (y / 2 ^ 256) + (c255 * (y / 2 ^ 512)) * 2 ^ 260) by ring.
  apply Z.mod_add. discriminate.
Qed.
Lemma words8 a : words 8 a -> exists a0 a1 a2 a3 a4 a5 a6 a7, a = [a0; a1; a2; a3; a4; a5; a6; a7] /\
  word a0 /\ word a1 /\ word a2 /\ word a3 /\ word a4 /\ word a5 /\ word a6 /\ word a7.
Proof.
  intros [L F]. destruct a as [|a0 [|a1 [|a2 [|a3 [|a4 [|a5 [|a6 [|a7 [|? ?]]]]]]]]]; try discriminate.
  repeat match goal with H : Forall _ (_ :: _) |- _ => apply Forall_cons_iff in H as [? ?] end.
  exists a0, a1, a2, a3, a4, a5, a6, a7. split; [reflexivity|]. repeat match goal with |- _ /\ _ => split end; assumption.
Qed.
Lemma split252 a : words 8 a ->
  let a4 := Z.lor ((Z.land (nth 4 a 0) 3 * 2 ^ 4) mod W) (nth 3 a 0 / 2 ^ 60) in
  let a3 := Z.land (nth 3 a 0) (2 ^ 60 - 1) in
  words 4 (firstn 3 a ++ [a3]) /\ val (firstn 3 a ++ [a3]) = val a mod 2 ^ 252 /\ word a4 /\ a4 = (val a / 2 ^ 252) mod 2 ^ 6.
Proof.
  intros H a4 a3. destruct (words8 a H) as (w0 & w1 & w2 & w3 & w4 & w5 & w6 & w7 & -> & H0 & H1 & H2 & H3 & H4 & H5 & H6 & H7).
  cbn [nth] in a4, a3.
  assert (E3 : a3 = w3 mod 2 ^ 60) by (apply (Z.land_ones w3 60); discriminate).
  assert (Q : 0 <= w3 / 2 ^ 60 < 2 ^ 4).
  { split; [apply Z.div_pos; unfold word in *; lia|]. apply Z.div_lt_upper_bound; [reflexivity|]. exact (proj2 H3). }
  assert (E4 : a4 = 2 ^ 4 * (w4 mod 2 ^ 2) + w3 / 2 ^ 60).
  { unfold a4. change 3 with (Z.ones 2). rewrite Z.land_ones by lia.
    pose proof (Z.mod_pos_bound w4 (2 ^ 2) ltac:(reflexivity)). rewrite (Z.mod_small (_ * _)) by (unfold W; lia).
    rewrite <- Z.lxor_lor, <- Z.add_nocarry_lxor.
    - ring.
    - apply Z.bits_inj'. intros n Hn. rewrite Z.land_spec, Z.bits_0. destruct (Z_lt_le_dec n 4).
      + rewrite Z.mul_pow2_bits_low by lia. reflexivity.
      + rewrite (Z.bits_above_log2 (w3 / 2 ^ 60)); [apply andb_false_r|lia|].
        destruct (Z.eq_dec (w3 / 2 ^ 60) 0) as [->|N]; [cbn; lia|]. apply Z.log2_lt_pow2; [lia|].
        apply Z.lt_le_trans with (2 ^ 4); [lia|]. apply Z.pow_le_mono_r; lia.
    - apply Z.bits_inj'. intros n Hn. rewrite Z.land_spec, Z.bits_0. destruct (Z_lt_le_dec n 4).
      + rewrite Z.mul_pow2_bits_low by lia. reflexivity.
      + rewrite (Z.bits_above_log2 (w3 / 2 ^ 60)); [apply andb_false_r|lia|].
        destruct (Z.eq_dec (w3 / 2 ^ 60) 0) as [->|N]; [cbn; lia|]. apply Z.log2_lt_pow2; [lia|].
        apply Z.lt_le_trans with (2 ^ 4); [lia|]. apply Z.pow_le_mono_r; lia. }
  pose proof (Z.mod_pos_bound w3 (2 ^ 60) ltac:(reflexivity)) as B3. pose proof (Z.mod_pos_bound w4 (2 ^ 2) ltac:(reflexivity)) as B4.
  pose proof (Z.div_mod w3 (2 ^ 60) ltac:(discriminate)) as D3. pose proof (Z.div_mod w4 (2 ^ 2) ltac:(discriminate)) as D4.
  rewrite <- E3 in B3, D3. clearbody a3 a4. subst a4.
  set (q3 := w3 / 2 ^ 60) in *. set (q4 := w4 / 2 ^ 2) in *. set (r4 := w4 mod 2 ^ 2) in *. clearbody q3 q4 r4. clear E3.
  unfold word in *. cbn [firstn app val].
  split; [split; [reflexivity|]; repeat (constructor; [unfold word, W in *; lia|]); constructor|].
  assert (V : w0 + W * (w1 + W * (w2 + W * (w3 + W * (w4 + W * (w5 + W * (w6 + W * (w7 + W * 0))))))) =
     (w0 + W * w1 + W * W * w2 + W * W * W * a3) + 2 ^ 252 * (2 ^ 4 * r4 + q3 + 2 ^ 6 * (q4 + 2 ^ 62 * w5 + 2 ^ 126 * w6 + 2 ^ 190 * w7))).
  { unfold W in *. lia. }
  assert (R : 0 <= w0 + W * w1 + W * W * w2 + W * W * W * a3 < 2 ^ 252) by (unfold W in *; lia).
  rewrite V. set (lo := w0 + W * w1 + W * W * w2 + W * W * W * a3) in *. set (hi := 2 ^ 4 * r4 + q3 + 2 ^ 6 * _) in *.
  rewrite (Z.mul_comm (2 ^ 252)), Z.mod_add, Z.div_add, Z.mod_small, Z.div_small, Z.add_0_l by (exact R || discriminate).
  split; [unfold lo; ring|]. split; [unfold W; lia|].
  unfold hi. rewrite (Z.mul_comm (2 ^ 6)), Z.mod_add, Z.mod_small by (discriminate || lia). reflexivity.
Qed.
Theorem modred255_ok st a : words 8 a ->
  let v := fold255 (fold255 (val a)) in
  let res := firstn 4 (modular_reduction_ed25519 st a) in
  words 4 res /\ 0 <= v < 44 * 2 ^ 252 /\ val res = wrap255 v mod 2 ^ 256.
Proof.
  intros H v res.
  destruct (reduce256_val st a H) as [H1 E1]. destruct (reduce256_val st _ H1) as [H2 E2].
  pose proof (val_bound _ _ H) as B. rewrite W_pow in B. pose proof (fold2_range _ B) as R. fold v in R.
  pose proof (split252 _ H2) as (S1 & S2 & S3 & S4). revert S1 S2 S3 S4.
  unfold res, modular_reduction_ed25519. set (b := reduce256bits st (reduce256bits st a)) in *.
  set (a4 := Z.lor _ _). set (a3 := Z.land _ _). intros S1 S2 S3 S4.
  destruct (reduce64_ok st _ _ S1 S3) as [L V]. rewrite <- app_assoc in L, V. cbn [app] in L, V.
  rewrite (app_lo 4) by exact (proj1 L). split; [exact L|]. split; [exact R|].
  rewrite V, S2, S4.
  assert (M : val b mod 2 ^ 260 = v mod 2 ^ 260).
  { rewrite E2, mod_mod_pow, E1, fold255_mod by lia. reflexivity. }
  unfold wrap255. f_equal. f_equal.
  - rewrite <- (mod_mod_pow (val b) 252 260), M, mod_mod_pow by lia. reflexivity.
  - f_equal. rewrite <- (Z.mod_small (v / 2 ^ 252) (2 ^ 6)).
    + assert (G : forall z, (z / 2 ^ 252) mod 2 ^ 6 = (z mod 2 ^ 260 / 2 ^ 252) mod 2 ^ 6).
      { intro z. rewrite (Z.mod_eq z (2 ^ 260)) by discriminate.
        replace (z - 2 ^ 260 * (z / 2 ^ 260)) with (z + (- (2 ^ 8 * (z / 2 ^ 260))) * 2 ^ 252) by ring.
        rewrite Z.div_add by discriminate.
        replace (z / 2 ^ 252 + - (2 ^ 8 * (z / 2 ^ 260))) with (z / 2 ^ 252 + (- (2 ^ 2 * (z / 2 ^ 260))) * 2 ^ 6) by ring.
        now rewrite Z.mod_add by discriminate. }
      rewrite (G (val b)), (G v), M. reflexivity.
    + split; [apply Z.div_pos; lia|]. apply Z.div_lt_upper_bound; [reflexivity|]. lia.
Qed.
Lemma wrap255_range v : 0 <= v < 44 * 2 ^ 252 -> - 43 * c255 <= wrap255 v < 2 ^ 252.
Proof.
  intro H. unfold wrap255. pose proof (Z.mod_pos_bound v (2 ^ 252) ltac:(reflexivity)) as B.
  assert (Q : 0 <= v / 2 ^ 252 <= 43).
  { split; [apply Z.div_pos; lia|]. apply Z.lt_succ_r, Z.div_lt_upper_bound; [reflexivity|]. lia. }
  unfold c255. lia.
Qed.
Lemma wrap255_right w x : - 43 * c255 <= w < 2 ^ 252 -> w mod ell255 = x mod ell255 ->
  (w mod 2 ^ 256 = x mod ell255 <-> 0 <= w) /\ (w < 0 -> 2 ^ 252 - 42 * c255 <= x mod ell255 < 2 ^ 252 + c255) /\ (2 ^ 252 <= x mod ell255 -> w < 0).
Proof.
  intros R E. rewrite <- E. destruct (Z_lt_le_dec w 0) as [N|N].
  - assert (E1 : w mod ell255 = w + ell255).
    { symmetry. apply (Z.mod_unique w ell255 (-1)); [left|ring]. unfold ell255, c255 in *. lia. }
    assert (E2 : w mod 2 ^ 256 = w + 2 ^ 256).
    { symmetry. apply (Z.mod_unique w (2 ^ 256) (-1)); [left|ring]. unfold c255 in *. lia. }
    rewrite E1, E2. unfold ell255, c255 in *. lia.
  - rewrite (Z.mod_small w ell255) by (unfold ell255, c255; lia). rewrite (Z.mod_small w (2 ^ 256)) by lia. lia.
Qed.
