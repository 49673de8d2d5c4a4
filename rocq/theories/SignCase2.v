(** Non-canonical S and arbitrary public keys: S = 2^253 with challenge 0. *)
From Coq Require Import ZArith List Bool Lia FMapPositive.
From Verif Require Import Uop X86 Engine Bytes Fp25519Full Fp25519FullProofs Fp25519Red Fp25519RedProofs Spec SpecVec Lanes RedTac RedProps SpecScalar Scalar448Proofs Scalar ScalarProps SpecEd EdInst EdCert
  Edwards255 Edwards255Proofs Verify255 Verify255Proofs SpecRecode Recode RecodeProofs Table255 TableProofs255 SpecEdVec Fixed255 Fixed255Proofs FixedProps EdProps
  Decode255 Decode255Proofs VerifyMulProofs VerifyCase Sign255 SpecSign Sign255Proofs NoPoint.
Import ListNotations.
Open Scope Z_scope.
Notation B := B_ed255.
Notation "k ** P" := (mul255 k P) (at level 40).

(** Without digits of the challenge the table of the key is not read *)
Lemma loop_no_table st tab tab' wr n : forall Q, double_loop st tab wr [] n Q = double_loop st tab' wr [] n Q.
Proof.
  induction n as [|n IH]; intro Q; [reflexivity|]. cbn [double_loop]. unfold to_add. replace (nth n [] 0) with 0 by (destruct n; reflexivity).
  change (0 =? 0) with true. cbv iota zeta. apply IH.
Qed.
Lemma ops_zero st tab wr n : forall Q, (forall i, (i < n)%nat -> nth i wr 0 = 0) -> loop_ops st tab wr [] n Q = [].
Proof.
  induction n as [|n IH]; intros Q Z0; [reflexivity|]. cbn [loop_ops]. unfold to_add. rewrite (Z0 n) by lia. replace (nth n [] 0) with 0 by (destruct n; reflexivity).
  change (0 =? 0) with true. cbv iota zeta. cbn [app fold_ops fold_left]. apply IH. intros i Hi. apply Z0. lia.
Qed.
Definition s253 : list Z := repeat 0 31 ++ [32].
Definition w253 : list Z := repeat 0 253 ++ [1].
Lemma wnaf253 : wnaf_256bits st0 260 s253 7 = Some w253. Proof. vm_compute. reflexivity. Qed.
Lemma wnaf0 : wnaf_256bits st0 260 (repeat 0 32) 5 = Some []. Proof. vm_compute. reflexivity. Qed.
Definition mix253 : list Z := Eval vm_compute in mix_ABCD st0 (doubling_4w st0 (neutral_4w st0)) (read_point_4w st0 1).
Lemma mix253_ok : mix_ABCD st0 (doubling_4w st0 (neutral_4w st0)) (read_point_4w st0 1) = mix253. Proof. vm_compute. reflexivity. Qed.
Lemma clean253 : mix_clean st0 (doubling_4w st0 (neutral_4w st0)) (read_point_4w st0 1).
Proof.
  apply borrow_free_clean. intros i Hi. rewrite mix253_ok. do 10 (destruct i as [|i]; [vm_compute; discriminate|]). lia.
Qed.
Definition tab0 : list (list Z) := repeat (table_entry st0 (neutral_4w st0)) 8.
Lemma mul_zero n : n ** ed_zero = ed_zero.
Proof. rewrite <- (mul255_0 B). rewrite <- (mul255_mul n 0 B on_base). rewrite Z.mul_0_r. reflexivity. Qed.
Lemma neutral_point : pt_4w (neutral_4w st0) ed_zero.
Proof. pose proof (neutral_ok st0 B on_base) as P. rewrite !mul255_0 in P. rewrite add255_zero in P by exact on_zero. exact P. Qed.
Lemma tab0_ok i : (i < 8)%nat -> pre_4w (nth i tab0 []) ((2 * Z.of_nat i + 1) ** ed_zero).
Proof.
  intro Hi. rewrite mul_zero. unfold tab0. rewrite (nth_indep _ [] (table_entry st0 (neutral_4w st0))) by (rewrite repeat_length; exact Hi). rewrite nth_repeat. apply table_entry_ok, neutral_point.
Qed.
Lemma value253 : low_value 254 w253 = 2 ^ 253. Proof. vm_compute. reflexivity. Qed.
Lemma digits253 i : wnaf_digit 7 (nth i w253 0).
Proof.
  assert (F : Forall (wnaf_digit 7) w253).
  { unfold w253. apply Forall_app. split; [apply Forall_forall; intros d Hd; apply repeat_spec in Hd; subst d; left; reflexivity|]. constructor; [|constructor]. right. split; [reflexivity|lia]. }
  exact (digits_nth 7 w253 i F).
Qed.
Lemma low253 i : (i < 253)%nat -> nth i w253 0 = 0.
Proof. intro Hi. unfold w253. rewrite app_nth1 by (rewrite repeat_length; exact Hi). apply nth_repeat. Qed.
Lemma ops_top st tab wr n Q : nth n wr 0 = 1 -> (forall i, (i < n)%nat -> nth i wr 0 = 0) -> loop_ops st tab wr [] (Datatypes.S n) Q = [(doubling_4w st Q, read_point_4w st 1)].
Proof.
  intros E1 Z0. cbn [loop_ops]. rewrite E1. replace (nth n [] 0) with 0 by (destruct n; reflexivity).
  unfold to_add. change (1 =? 0) with false. change (0 =? 0) with true. cbv iota zeta. cbn [app fold_ops fold_left]. rewrite ops_zero by exact Z0. reflexivity.
Qed.
(** The loop for S = 2^253 and challenge 0, whatever the key *)
Lemma loop253 tab : pt_4w (double_loop st0 tab w253 [] 254 (neutral_4w st0)) (2 ^ 253 ** B).
Proof.
  rewrite (loop_no_table st0 tab tab0 w253 254 (neutral_4w st0)).
  pose proof (loop_ok st0 ed_zero on_zero tab0 tab0_ok w253 [] digits253) as Lp.
  assert (D5 : forall i : nat, wnaf_digit 5 (nth i [] 0)) by (intro i; left; destruct i; reflexivity).
  specialize (Lp D5 254%nat (neutral_4w st0) 0 0 (neutral_ok st0 ed_zero on_zero)).
  rewrite !Z.mul_0_r, !Z.add_0_l, value253, low_value_nil, mul255_0, add255_zero in Lp by (apply mul255_on, on_base). apply Lp.
  intros q e Hin. rewrite (ops_top st0 tab0 w253 253 (neutral_4w st0) eq_refl low253) in Hin.
  destruct Hin as [Hin|[]]. apply pair_equal_spec in Hin. destruct Hin as [<- <-]. exact clean253.
Qed.
Lemma run253 k PA : exists R, double_point_mult_4w st0 k s253 (repeat 0 32) PA = Some R /\ encodes255 R (2 ^ 253 ** B).
Proof.
  unfold double_point_mult_4w. rewrite wnaf253, wnaf0. cbv zeta. eexists. split; [reflexivity|].
  change (Nat.max (length w253) (length [])) with 254%nat. apply point_encoding_ok, unzip_point, loop253.
Qed.
(** With challenge 0, every key accepts a signature with S = 2^253 *)
Definition H0 (x : list Z) : list Z := repeat 0 64.
Lemma H0_64 x : bytes 64 (H0 x).
Proof. split; [reflexivity|]. unfold H0. apply Forall_forall. intros b Hb. apply repeat_spec in Hb. subst b. split; [lia|reflexivity]. Qed.
Lemma zero_reduced : reduced_digest st0 (repeat 0 64) = repeat 0 32. Proof. vm_compute. reflexivity. Qed.
Lemma s253_bytes : bytes 32 s253.
Proof. split; [reflexivity|]. unfold s253. apply Forall_app. split; [apply Forall_forall; intros b Hb; apply repeat_spec in Hb; subst b; split; [lia|reflexivity]|]. constructor; [split; [lia|reflexivity]|constructor]. Qed.
Theorem any_key_accepts k m M pk : (length (context_of m) <= 255)%nat ->
  exists sig, bytes 64 sig /\ le_val (skipn 32 sig) = 2 ^ 253 /\ verify_with st0 k H0 m M pk sig = EDDSA_VERIFICATION_OK.
Proof.
  intro L. destruct (run253 k (snd (fst (point_decoding st0 k pk)))) as (R & ER & En). destruct (proj1 En) as [LR FR]. exists (R ++ s253).
  assert (F : firstn 32 (R ++ s253) = R) by (rewrite firstn_app, LR, Nat.sub_diag; change (firstn 0 s253) with (@nil Z); rewrite app_nil_r; apply firstn_all2; lia).
  assert (Sk : skipn 32 (R ++ s253) = s253) by (rewrite skipn_app, LR, Nat.sub_diag; rewrite (skipn_all2 R) by lia; reflexivity).
  split; [split; [rewrite app_length, LR; reflexivity|apply Forall_app; split; [exact FR|exact (proj2 s253_bytes)]]|].
  rewrite Sk. split; [vm_compute; reflexivity|]. rewrite (verify_with_body st0 k H0 m M pk _ L). unfold verify_body. rewrite Sk, F. unfold H0 at 1. rewrite zero_reduced, ER.
  assert (E : same_bytes 32 (R ++ s253) R = true) by (apply same_bytes_ok; [rewrite app_length, LR; cbn; lia|exact LR|exact F]). rewrite E. reflexivity.
Qed.
(** No key is ever reported as bad *)
Theorem no_key_refused st k H m M pk sig : (length (context_of m) <= 255)%nat -> verify_with st k H m M pk sig <> EDDSA_ERROR_PUBLICKEY.
Proof.
  intros L E. rewrite (verify_with_body st k H m M pk sig L) in E. unfold verify_body in E.
  destruct (double_point_mult_4w _ _ _ _ _); [destruct (same_bytes _ _ _); discriminate E|discriminate E].
Qed.
(** ** A signature accepted although the equation does not hold: neutral key, S = 1, challenge 2 *)
Definition one_key : list Z := 1 :: repeat 0 31.
Lemma one_key_encodes : encodes255 one_key ed_zero.
Proof. split; [split; [reflexivity|unfold one_key; cbn [repeat]; repeat apply Forall_cons; try (split; [discriminate|reflexivity]); apply Forall_nil]|vm_compute; reflexivity]. Qed.
Lemma one_decoded k : snd (fst (point_decoding st0 k one_key)) = neutral_key.
Proof.
  pose proof (decode_xy_shape st0 k one_key 0 1 (proj1 one_key_encodes) on_zero) as Sh.
  unfold point_decoding. destruct (decode_xy st0 k one_key) as [X Y]. destruct Sh as (WY & VY & X1 & WX & HX & Rt & EX); [vm_compute; reflexivity|].
  cbn [fst snd].
  assert (E0 : val X1 = 0) by (destruct Rt as [E|E]; [exact E|rewrite Z.mod_small in E by exact HX; rewrite E; reflexivity]).
  assert (E1 : val Y = 1) by (rewrite VY; vm_compute; reflexivity).
  rewrite E0 in EX. replace (le_val one_key / 2 ^ 255 =? 0 mod 2) with true in EX by (vm_compute; reflexivity).
  assert (Y1 : Y = limbs64 4 1) by (rewrite <- E1; exact (words_limbs 4 Y WY)). assert (X0 : X1 = limbs64 4 0) by (rewrite <- E0; exact (words_limbs 4 X1 WX)).
  rewrite X0 in EX. rewrite EX, Y1. destruct k as [[] []]; vm_compute; reflexivity.
Qed.
Definition H2 (x : list Z) : list Z := 2 :: repeat 0 63.
Lemma H2_64 x : bytes 64 (H2 x).
Proof. split; [reflexivity|]. unfold H2. constructor; [split; [lia|reflexivity]|]. apply Forall_forall. intros b Hb. apply repeat_spec in Hb. subst b. split; [lia|reflexivity]. Qed.
Lemma two_reduced : reduced_digest st0 (2 :: repeat 0 63) = h_two. Proof. vm_compute. reflexivity. Qed.
Theorem wrongly_accepted k m M : (length (context_of m) <= 255)%nat ->
  exists sig, bytes 64 sig /\ ~ equation H2 m ed_zero one_key M sig /\ verify_with st0 k H2 m M one_key sig = EDDSA_VERIFICATION_OK.
Proof.
  intro L. destruct (wrong_output k) as (R & ER & BR & Ne). destruct BR as [LR FR]. exists (R ++ s_one).
  assert (F : firstn 32 (R ++ s_one) = R) by (rewrite firstn_app, LR, Nat.sub_diag; change (firstn 0 s_one) with (@nil Z); rewrite app_nil_r; apply firstn_all2; lia).
  assert (Sk : skipn 32 (R ++ s_one) = s_one) by (rewrite skipn_app, LR, Nat.sub_diag; rewrite (skipn_all2 R) by lia; reflexivity).
  split; [split; [rewrite app_length, LR; reflexivity|apply Forall_app; split; [exact FR|]]|split].
  - unfold s_one. constructor; [split; [lia|reflexivity]|]. apply Forall_forall. intros b Hb. apply repeat_spec in Hb. subst b. split; [lia|reflexivity].
  - unfold equation. rewrite F, Sk. intro E. apply Ne. rewrite mul_zero in E. replace (neg255 ed_zero) with ed_zero in E by (vm_compute; reflexivity).
    rewrite add255_zero in E by (apply mul255_on, on_base). replace (le_val s_one) with 1 in E by reflexivity. exact E.
  - rewrite (verify_with_body st0 k H2 m M one_key _ L). unfold verify_body. rewrite Sk, F. unfold H2 at 1. rewrite two_reduced, one_decoded, ER.
    assert (E : same_bytes 32 (R ++ s_one) R = true) by (apply same_bytes_ok; [rewrite app_length, LR; cbn; lia|exact LR|exact F]). rewrite E. reflexivity.
Qed.
