(** Proofs about the 7x64-bit arithmetic of GF(2^448-2^224-1). *)
From Coq Require Import ZArith List Bool Lia.
From Verif Require Import Uop Poly Sym X86 Engine Check Alias Bytes Asm448 Fp25519Full Fp448Full FullTac.
Import ListNotations.
Open Scope Z_scope.

Definition p448 : Z := 2 ^ 448 - 2 ^ 224 - 1.

Lemma intmul448_ok st k a b : words 7 a -> words 7 b ->
  words 14 (intmul448 st k a b) /\ val (intmul448 st k a b) = val a * val b.
Proof.
  intros Ha Hb. unfold intmul448, asm2.
  destruct (bmi2 k); [destruct (adx k)|]; do_exact [(bA, 7%nat); (bB, 7%nat)] [a; b] (VMul (VIn 0) (VIn 1)).
Qed.
Lemma intsqr448_ok st k a : words 7 a ->
  words 14 (intsqr448 st k a) /\ val (intsqr448 st k a) = val a * val a.
Proof.
  intros Ha. unfold intsqr448, asm1.
  destruct (bmi2 k); [destruct (adx k)|]; do_exact [(bA, 7%nat)] [a] (VMul (VIn 0) (VIn 0)).
Qed.
Lemma add448_ok st k a b : words 7 a -> words 7 b ->
  words 7 (add448 st k a b) /\ (val (add448 st k a b) - (val a + val b)) mod p448 = 0.
Proof.
  intros Ha Hb. unfold add448, asm2.
  destruct (adx k); do_congz [(bA, 7%nat); (bB, 7%nat)] [a; b] p448 (VAdd (VIn 0) (VIn 1)).
Qed.
Lemma sub448_ok st a b : words 7 a -> words 7 b ->
  words 7 (sub448 st a b) /\ (val (sub448 st a b) - (val a - val b)) mod p448 = 0.
Proof.
  intros Ha Hb. unfold sub448, asm2.
  do_congz [(bA, 7%nat); (bB, 7%nat)] [a; b] p448 (VSub (VIn 0) (VIn 1)).
Qed.
Lemma mula24_448_ok st k a : words 7 a ->
  words 7 (mula24_448 st k a) /\ (val (mula24_448 st k a) - 39082 * val a) mod p448 = 0.
Proof.
  intros Ha. unfold mula24_448.
  destruct (bmi2 k); do_congz [(bA, 7%nat)] [a] p448 (VMul (VK 39082) (VIn 0)).
Qed.
Lemma reduce448_ok st k a : words 14 a ->
  words 7 (reduce448 st k a) /\ (val (reduce448 st k a) - val a) mod p448 = 0.
Proof.
  intros Ha. unfold reduce448, asm1.
  destruct (adx k); do_congz [(bA, 14%nat)] [a] p448 (VIn 0).
Qed.

Lemma prime448_words : words 7 prime448.
Proof. split; [reflexivity|]. repeat constructor; unfold word, W; lia. Qed.
Lemma prime448_val : val prime448 = p448. Proof. reflexivity. Qed.
Definition sub448_code := code (env_of [bC; bA; bB]) asm448_sub.
Definition modp448_in : list iarr := [wa 7 bA; IA bB (map (fun w => (w, w)) prime448) (wts 7 1)].
Lemma sum7 e0 e1 e2 e3 e4 e5 e6 :
  0 <= e0 < 18446744073709551616 -> 0 <= e1 < 18446744073709551616 -> 0 <= e2 < 18446744073709551616 ->
  0 <= e3 < 18446744073709551616 -> 0 <= e4 < 18446744073709551616 -> 0 <= e5 < 18446744073709551616 ->
  0 <= e6 < 18446744073709551616 -> 0 <= val [e0; e1; e2; e3; e4; e5; e6] < W ^ 7.
Proof.
  intros. apply (val_bound 7). split; [reflexivity|]. repeat constructor; unfold word, W; lia.
Qed.
Lemma three_stage A p K c1 c2 c3 d M : 0 <= A < M -> M = p + K -> 0 < K -> 2 * K < M -> -1 <= c1 <= 0 -> -1 <= c2 <= 0 ->
  0 <= A - p - M * c1 < M -> 0 <= A - p - M * c1 + K * c1 - M * c2 < M ->
  d = A - p - M * c1 + K * c1 - M * c2 + K * c2 - M * c3 -> 0 <= d < M -> 0 <= d < p.
Proof. intros HA -> HK HM H1 H2 D1 D2 Ed Hd. assert (c1 = 0 \/ c1 = -1) as [-> | ->] by lia;
  assert (c2 = 0 \/ c2 = -1) as [-> | ->] by lia; try lia.
  - assert (c3 = 0) as -> by nia. lia.
  - assert (c3 = 0) as -> by nia. lia.
Qed.
Lemma modp448_vc : vcq [] sub448_code modp448_in bC 7 (fun ins out => 0 <= val out < p448).
Proof.
  vc_start. intros r R C O. clear O. vc_facts.
  vc_goal.
  pose proof (sum7 _ _ _ _ _ _ _ F F0 F1 F2 F3 F4 F5) as D1.
  pose proof (sum7 _ _ _ _ _ _ _ F6 F7 F8 F9 F10 F11 F12) as D2.
  pose proof (sum7 _ _ _ _ _ _ _ F13 F14 F15 F16 F17 F18 F19) as D3.
  pose proof (sum7 (r 128%positive) (r 129%positive) (r 130%positive) (r 131%positive) (r 132%positive) (r 133%positive)
    (r 134%positive)) as A0.
  assert (P : val [r 192%positive; r 193%positive; r 194%positive; r 195%positive; r 196%positive; r 197%positive;
    r 198%positive] = p448).
  { replace (r 192%positive) with 18446744073709551615 by lia.
    replace (r 193%positive) with 18446744073709551615 by lia.
    replace (r 194%positive) with 18446744073709551615 by lia.
    replace (r 195%positive) with 18446744069414584319 by lia.
    replace (r 196%positive) with 18446744073709551615 by lia.
    replace (r 197%positive) with 18446744073709551615 by lia.
    replace (r 198%positive) with 18446744073709551615 by lia. reflexivity. }
  specialize (A0 ltac:(lia) ltac:(lia) ltac:(lia) ltac:(lia) ltac:(lia) ltac:(lia) ltac:(lia)).
  eapply (three_stage _ p448 (W ^ 7 - p448) (r 205%positive) (r 212%positive) (r 219%positive) _ (W ^ 7) A0).
  - ring.
  - reflexivity.
  - reflexivity.
  - lia.
  - lia.
  - rewrite <- P. clear - D1. cbn [val] in *. change (W ^ 7) with (W * W * W * W * W * W * W) in *.
    change 18446744073709551616 with W in D1. match type of D1 with 0 <= ?x < _ => match goal with |- 0 <= ?y < _ =>
     replace y with x by ring end end. exact D1.
  - change (W ^ 7 - p448) with (1 + 4294967296 * (W * W * W)). rewrite <- P. clear - D2.
    change (-18446744073709551616) with (- W) in *.
    cbn [val] in *. change (W ^ 7) with (W * W * W * W * W * W * W) in *.
    change 18446744073709551616 with W in D2. match type of D2 with 0 <= ?x < _ => match goal with |- 0 <= ?y < _ =>
     replace y with x by ring end end. exact D2.
  - change (W ^ 7 - p448) with (1 + 4294967296 * (W * W * W)). rewrite <- P. clear.
    cbn [val]. change (W ^ 7) with (W * W * W * W * W * W * W).
    change (-18446744073709551616) with (- W). ring.
  - clear - D3. cbn [val] in *. change (W ^ 7) with (W * W * W * W * W * W * W) in *.
    change (-18446744073709551616) with (- W) in *.
    change 18446744073709551616 with W in D3. match type of D3 with 0 <= ?x < _ => match goal with |- 0 <= ?y < _ =>
     replace y with x by ring end end. exact D3.
Qed.
Lemma p448_pos : 0 < p448. Proof. reflexivity. Qed.
Lemma modp448_ok st a : words 7 a -> words 7 (modp448 st a) /\ val (modp448 st a) = val a mod p448.
Proof.
  intro Ha. destruct (sub448_ok st a prime448 Ha prime448_words) as [Hw Hc].
  split; auto.
  assert (B : 0 <= val (modp448 st a) < p448).
  { refine (vcq_sound _ _ _ _ _ _ [a; prime448] st modp448_vc eq_refl _).
    apply Forall2_cons; [now apply iok_wa|]. apply Forall2_cons; [|constructor].
    unfold iok, arr_ok; cbn [ibnd]. unfold prime448; cbn [map].
    repeat (apply Forall2_cons; [unfold inI; cbn [fst snd]; lia|]). constructor. }
  change (sub448 st a prime448) with (modp448 st a) in Hc.
  rewrite prime448_val in Hc. apply mod_cong in Hc; [|discriminate].
  rewrite <- (Z.mod_small (val (modp448 st a)) p448) by auto. rewrite Hc.
  replace (val a - p448) with (val a + (-1) * p448) by ring. now rewrite Z.mod_add by discriminate.
Qed.

Definition cmv448_code := code (env_of [bC; bA; bB; bD]) asm448_cmv.
Definition cmv448_in (lo hi : Z) : list iarr := [wa 7 bA; wa 7 bB; IA bD [(lo, hi)] [1]].
Lemma cmv448_vc0 : vcq [] cmv448_code (cmv448_in 0 0) bC 7 (fun ins out => out = nth 0 ins []).
Proof. vc_start. intros r R C O. clear. cbv [cmv448_in wa bA bB bD]. vc_goal. now rewrite !Z.mul_1_l, !Z.mul_1_r, !Z.add_0_r. Qed.
Lemma cmv448_vc1 : vcq [] cmv448_code (cmv448_in 1 4294967295) bC 7 (fun ins out => out = nth 1 ins []).
Proof. vc_start. intros r R C O. clear. cbv [cmv448_in wa bA bB bD]. vc_goal. now rewrite !Z.mul_1_l, !Z.mul_1_r, !Z.add_0_r. Qed.
Lemma cmv448_ok st bit a b : words 7 a -> words 7 b -> 0 <= bit < 2 ^ 32 ->
  cmv448 st bit a b = if bit =? 0 then a else b.
Proof.
  intros Ha Hb Hbit. change (2 ^ 32) with 4294967296 in Hbit. destruct (Z.eqb_spec bit 0) as [->|N].
  - refine (vcq_sound _ _ _ _ _ _ [a; b; [0]] st cmv448_vc0 eq_refl _).
    repeat (apply Forall2_cons; [first [now apply iok_wa|repeat constructor; cbn; lia]|]). constructor.
  - refine (vcq_sound _ _ _ _ _ _ [a; b; [bit]] st cmv448_vc1 eq_refl _).
    repeat (apply Forall2_cons; [first [now apply iok_wa|repeat constructor; cbn; lia]|]). constructor.
Qed.

Lemma ser448_ok st a : words 7 a -> bytes 56 (ser448 st a) /\ le_val (ser448 st a) = val a mod p448.
Proof.
  intro Ha. destruct (modp448_ok st a Ha) as [Hm Em]. unfold ser448.
  destruct (bytes_of_ok 7 _ Hm) as [B E]. split; [exact B|congruence].
Qed.
Lemma unser448_ok st bs : bytes 56 bs -> words 7 (unser448 st bs) /\ val (unser448 st bs) = le_val bs mod p448.
Proof.
  intro H. unfold unser448. destruct (words_of_ok 7 bs H) as [Hw Ew].
  destruct (modp448_ok st _ Hw) as [Hm Em]. split; auto. congruence.
Qed.
Lemma sgn448_ok st a : words 7 a -> sgn448 st a = (val a mod p448) mod 2.
Proof.
  intro Ha. destruct (modp448_ok st a Ha) as [Hm Em]. unfold sgn448. rewrite <- Em.
  destruct Hm as [Lm Fm]. destruct (modp448 st a) as [|w ws]; [discriminate|].
  cbn [hd val]. change 1 with (Z.ones 1). rewrite Z.land_ones by lia. change (2 ^ 1) with 2.
  replace (w + W * val ws) with (w + (9223372036854775808 * val ws) * 2) by (unfold W; ring).
  now rewrite Z.mod_add by lia.
Qed.
Lemma cmp448_ok st a b : words 7 a -> words 7 b ->
  (cmp448 st a b = 0 <-> val a mod p448 = val b mod p448) /\ 0 <= cmp448 st a b < 256.
Proof.
  intros Ha Hb. destruct (modp448_ok st a Ha) as [Hm Em]. destruct (modp448_ok st b Hb) as [Hn En].
  unfold cmp448. rewrite <- Em, <- En.
  destruct (bytes_of_ok 7 _ Hm) as [[L1 F1] E1]. destruct (bytes_of_ok 7 _ Hn) as [[L2 F2] E2].
  split; [|now apply cmp_bytes_byte].
  rewrite cmp_bytes_0 by congruence. split.
  - intro E. rewrite <- E1, <- E2. now rewrite E.
  - intro E. apply le_val_inj; auto; congruence.
Qed.
Lemma mul448_ok st k a b : words 7 a -> words 7 b ->
  words 7 (mul448 st k a b) /\ val (mul448 st k a b) mod p448 = (val a * val b) mod p448.
Proof.
  intros Ha Hb. destruct (intmul448_ok st k a b Ha Hb) as [H1 E1].
  destruct (reduce448_ok st k _ H1) as [H2 E2]. split; auto. unfold mul448. rewrite <- E1.
  apply mod_cong; [discriminate|auto].
Qed.
Lemma sqr448_ok st k a : words 7 a ->
  words 7 (sqr448 st k a) /\ val (sqr448 st k a) mod p448 = (val a * val a) mod p448.
Proof.
  intros Ha. destruct (intsqr448_ok st k a Ha) as [H1 E1].
  destruct (reduce448_ok st k _ H1) as [H2 E2]. split; auto. unfold sqr448. rewrite <- E1.
  apply mod_cong; [discriminate|auto].
Qed.
Lemma zero448_words : words 7 zero448.
Proof. split; [reflexivity|]. repeat constructor; unfold word, W; lia. Qed.
Lemma neg448_ok st a : words 7 a -> words 7 (neg448 st a) /\ (val (neg448 st a) - - val a) mod p448 = 0.
Proof. intro Ha. apply (sub448_ok st _ a zero448_words Ha). Qed.

Definition rep7 (a : list Z) (x : Z) : Prop := words 7 a /\ val a mod p448 = x mod p448.
Lemma rep7_mul st k a b x y : rep7 a x -> rep7 b y -> rep7 (mul448 st k a b) (x * y).
Proof.
  intros [Ha Ea] [Hb Eb]. destruct (mul448_ok st k a b Ha Hb) as [H E]. split; auto.
  rewrite E, Z.mul_mod, Ea, Eb, <- Z.mul_mod by discriminate. reflexivity.
Qed.
Lemma rep7_sqr st k a x : rep7 a x -> rep7 (sqr448 st k a) (x * x).
Proof.
  intros [Ha Ea]. destruct (sqr448_ok st k a Ha) as [H E]. split; auto.
  rewrite E, Z.mul_mod, Ea, <- Z.mul_mod by discriminate. reflexivity.
Qed.
Lemma inv448_ok st k a : words 7 a ->
  words 7 (inv448 st k a) /\ val (inv448 st k a) mod p448 = (val a ^ (p448 - 2)) mod p448.
Proof.
  intro Ha. apply (inv448_chain_ok rep7 (mul448 st k) (sqr448 st k)).
  - intros; now apply rep7_mul.
  - intros; now apply rep7_sqr.
  - split; auto.
Qed.
Lemma srt448_ok st k a : words 7 a ->
  words 7 (srt448 st k a) /\ val (srt448 st k a) mod p448 = (val a ^ ((p448 - 3) / 4)) mod p448.
Proof.
  intro Ha. change ((p448 - 3) / 4) with (2 ^ 446 - 2 ^ 222 - 1).
  apply (invsqrt448_chain_ok rep7 (mul448 st k) (sqr448 st k)).
  - intros; now apply rep7_mul.
  - intros; now apply rep7_sqr.
  - split; auto.
Qed.
