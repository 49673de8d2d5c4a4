(** Proofs about the 4x64-bit arithmetic of GF(2^255-19). *)
From Coq Require Import ZArith List Bool Lia.
From Verif Require Import Uop Poly Sym X86 Engine Check Alias Bytes Asm25519 Fp25519Full FullTac.
Import ListNotations.
Open Scope Z_scope.

Definition p25519 : Z := 2 ^ 255 - 19.

(** ** Products *)
Lemma intmul_ok st k a b : words 4 a -> words 4 b ->
  words 8 (intmul st k a b) /\ val (intmul st k a b) = val a * val b.
Proof.
  intros Ha Hb. unfold intmul, asm2.
  destruct (bmi2 k); [destruct (adx k)|]; do_exact [(bA, 4%nat); (bB, 4%nat)] [a; b] (VMul (VIn 0) (VIn 1)).
Qed.
Lemma intsqr_ok st k a : words 4 a ->
  words 8 (intsqr st k a) /\ val (intsqr st k a) = val a * val a.
Proof.
  intros Ha. unfold intsqr, asm1.
  destruct (bmi2 k); [destruct (adx k)|]; do_exact [(bA, 4%nat)] [a] (VMul (VIn 0) (VIn 0)).
Qed.
Definition lo4 := firstn (A:=Z) 4. Definition hi4 := skipn (A:=Z) 4.
Definition lo8 := firstn (A:=Z) 8. Definition hi8 := skipn (A:=Z) 8.
Lemma intmul2_ok st k a b : words 8 a -> words 8 b ->
  (words 8 (lo8 (intmul2 st k a b)) /\ val (lo8 (intmul2 st k a b)) = val (lo4 a) * val (lo4 b)) /\
  (words 8 (hi8 (intmul2 st k a b)) /\ val (hi8 (intmul2 st k a b)) = val (hi4 a) * val (hi4 b)).
Proof.
  intros Ha Hb. apply (words_split 4 4) in Ha as [Ha1 Ha2], Hb as [Hb1 Hb2].
  unfold intmul2, asm2x2, lo8, hi8, lo4, hi4.
  split; (destruct (bmi2 k); [destruct (adx k)|]);
  first [rewrite (firstn_call _ _ _ 8 7) | rewrite (skipn_call _ _ _ 8 7)];
  first [do_exact [(bA, 4%nat); (Pos.add bA 4, 4%nat); (bB, 4%nat); (Pos.add bB 4, 4%nat)]
    [firstn 4 a; skipn 4 a; firstn 4 b; skipn 4 b] (VMul (VIn 0) (VIn 2))
  |do_exact [(bA, 4%nat); (Pos.add bA 4, 4%nat); (bB, 4%nat); (Pos.add bB 4, 4%nat)]
    [firstn 4 a; skipn 4 a; firstn 4 b; skipn 4 b] (VMul (VIn 1) (VIn 3))].
Qed.
Lemma intsqr2_ok st k a : words 8 a ->
  (words 8 (lo8 (intsqr2 st k a)) /\ val (lo8 (intsqr2 st k a)) = val (lo4 a) * val (lo4 a)) /\
  (words 8 (hi8 (intsqr2 st k a)) /\ val (hi8 (intsqr2 st k a)) = val (hi4 a) * val (hi4 a)).
Proof.
  intros Ha. apply (words_split 4 4) in Ha as [Ha1 Ha2].
  unfold intsqr2, asm1x2, lo8, hi8, lo4, hi4.
  split; (destruct (bmi2 k); [destruct (adx k)|]);
  first [rewrite (firstn_call _ _ _ 8 7) | rewrite (skipn_call _ _ _ 8 7)];
  first [do_exact [(bA, 4%nat); (Pos.add bA 4, 4%nat)] [firstn 4 a; skipn 4 a] (VMul (VIn 0) (VIn 0))
  |do_exact [(bA, 4%nat); (Pos.add bA 4, 4%nat)] [firstn 4 a; skipn 4 a] (VMul (VIn 1) (VIn 1))].
Qed.

(** ** Reduction *)
Lemma reduce_ok st k a : words 8 a ->
  words 4 (reduce st k a) /\ (val (reduce st k a) - val a) mod p25519 = 0.
Proof.
  intros Ha. unfold reduce, asm1.
  destruct (bmi2 k); [destruct (adx k)|]; do_congz [(bA, 8%nat)] [a] p25519 (VIn 0).
Qed.
Lemma reduce2_ok st k a : words 16 a ->
  (words 4 (lo4 (reduce2 st k a)) /\ (val (lo4 (reduce2 st k a)) - val (lo8 a)) mod p25519 = 0) /\
  (words 4 (hi4 (reduce2 st k a)) /\ (val (hi4 (reduce2 st k a)) - val (hi8 a)) mod p25519 = 0).
Proof.
  intros Ha. apply (words_split 8 8) in Ha as [Ha1 Ha2].
  unfold reduce2, asm1x2, lo8, hi8, lo4, hi4.
  split; (destruct (bmi2 k); [destruct (adx k)|]).
  1-3: rewrite (firstn_call _ _ _ 4 3).
  4-6: rewrite (skipn_call _ _ _ 4 3).
  1-3: do_congz [(bA, 8%nat); (Pos.add bA 8, 8%nat)] [firstn 8 a; skipn 8 a] p25519 (VIn 0).
  all: do_congz [(bA, 8%nat); (Pos.add bA 8, 8%nat)] [firstn 8 a; skipn 8 a] p25519 (VIn 1).
Qed.
Lemma add_ok st k a b : words 4 a -> words 4 b ->
  words 4 (add st k a b) /\ (val (add st k a b) - (val a + val b)) mod p25519 = 0.
Proof.
  intros Ha Hb. unfold add, asm2.
  destruct (adx k); do_congz [(bA, 4%nat); (bB, 4%nat)] [a; b] p25519 (VAdd (VIn 0) (VIn 1)).
Qed.
Lemma sub_ok st a b : words 4 a -> words 4 b ->
  words 4 (sub st a b) /\ (val (sub st a b) - (val a - val b)) mod p25519 = 0.
Proof.
  intros Ha Hb. unfold sub, asm2.
  do_congz [(bA, 4%nat); (bB, 4%nat)] [a; b] p25519 (VSub (VIn 0) (VIn 1)).
Qed.
Lemma mula24_ok st k a : words 4 a ->
  words 4 (mula24 st k a) /\ (val (mula24 st k a) - 121666 * val a) mod p25519 = 0.
Proof.
  intros Ha. unfold mula24.
  destruct (bmi2 k); do_congz [(bA, 4%nat)] [a] p25519 (VMul (VK 121666) (VIn 0)).
Qed.
Definition modp_code := code (env_of [bA; Pos.add bA 1; Pos.add bA 2; Pos.add bA 3; bC; bD]%positive) asm_modp.
Lemma modp_vc : vcq [] modp_code (was [(bA, 4%nat)]) bA 4
  (fun ins out => let a := nth 0 ins [] in
     0 <= val out < p25519 /\ exists q, val a = val out + q * p25519).
Proof.
  vc_start. intros r R C O. clear O. vc_facts. cbv zeta.
  cbv [was wa bA]. vc_goal. unfold W. change p25519 with 57896044618658097711785492504343953926634992332820282019728792003956564819949.
  split; [lia|]. exists (r 132%positive + r 138%positive). lia.
Qed.
Lemma modp_ok st a : words 4 a -> words 4 (modp st a) /\ val (modp st a) = val a mod p25519.
Proof.
  intro Ha.
  assert (H : exists q, 0 <= val (modp st a) < p25519 /\ val a = val (modp st a) + q * p25519).
  { pose proof (vcq_sound _ _ _ _ _ _ [a] st modp_vc eq_refl) as H.
    cbv beta zeta in H. cbn [nth iplace was wa map ib fst snd] in H.
    fold modp_code in H. destruct H as [H [q E]].
    - constructor; [now apply iok_wa|constructor].
    - exists q. auto. }
  destruct H as (q & H & E). split.
  - unfold modp. fold modp_code. 
    assert (Z : cong_check [] modp_code (was [(bA, 4%nat)]) bA (wts 4 1) (wbnd 4) 1 (VK 0) = true) by (vm_compute; reflexivity).
    apply (cong_check_sound _ _ _ _ _ _ _ _ [a] st) in Z as [_ Z].
    + apply arr_words. exact Z.
    + constructor; [now apply iok_wa|constructor].
  - rewrite E, Z.mod_add by (cbv; discriminate). symmetry. now apply Z.mod_small.
Qed.

(** ** Conditional move *)
Definition cmv_code := code (env_of [bC; bA; bB; bD]) asm_cmv.
Definition cmv_in (lo hi : Z) : list iarr := [wa 4 bA; wa 4 bB; IA bD [(lo, hi)] [1]].
Lemma cmv_vc0 : vcq [] cmv_code (cmv_in 0 0) bC 4 (fun ins out => out = nth 0 ins []).
Proof. vc_start. intros r R C O. clear. cbv [cmv_in wa bA bB bD]. vc_goal. now rewrite !Z.mul_1_l, !Z.mul_1_r, !Z.add_0_r. Qed.
Lemma cmv_vc1 : vcq [] cmv_code (cmv_in 1 4294967295) bC 4 (fun ins out => out = nth 1 ins []).
Proof. vc_start. intros r R C O. clear. cbv [cmv_in wa bA bB bD]. vc_goal. now rewrite !Z.mul_1_l, !Z.mul_1_r, !Z.add_0_r. Qed.
Lemma cmv_ok st bit a b : words 4 a -> words 4 b -> 0 <= bit < 2 ^ 32 ->
  cmv st bit a b = if bit =? 0 then a else b.
Proof.
  intros Ha Hb Hbit. change (2 ^ 32) with 4294967296 in Hbit. destruct (Z.eqb_spec bit 0) as [->|N].
  - refine (vcq_sound _ _ _ _ _ _ [a; b; [0]] st cmv_vc0 eq_refl _).
    repeat (apply Forall2_cons; [first [now apply iok_wa|repeat constructor; cbn; lia]|]). constructor.
  - refine (vcq_sound _ _ _ _ _ _ [a; b; [bit]] st cmv_vc1 eq_refl _).
    repeat (apply Forall2_cons; [first [now apply iok_wa|repeat constructor; cbn; lia]|]). constructor.
Qed.

(** ** Serialisation and comparison *)
Lemma p25519_pos : 0 < p25519. Proof. reflexivity. Qed.
Lemma ser_ok st a : words 4 a -> bytes 32 (ser st a) /\ le_val (ser st a) = val a mod p25519.
Proof.
  intro Ha. destruct (modp_ok st a Ha) as [Hm Em]. unfold ser.
  destruct (bytes_of_ok 4 _ Hm) as [B E]. split; [exact B|congruence].
Qed.
Lemma unser_ok st bs : bytes 32 bs -> words 4 (unser st bs) /\ val (unser st bs) = le_val bs mod p25519.
Proof.
  intro H. unfold unser. destruct (words_of_ok 4 bs H) as [Hw Ew].
  destruct (modp_ok st _ Hw) as [Hm Em]. split; auto. congruence.
Qed.
Lemma sgn_ok st a : words 4 a -> sgn st a = (val a mod p25519) mod 2.
Proof.
  intro Ha. destruct (modp_ok st a Ha) as [Hm Em]. unfold sgn. rewrite <- Em.
  destruct Hm as [Lm Fm]. destruct (modp st a) as [|w ws]; [discriminate|].
  cbn [hd val]. change 1 with (Z.ones 1). rewrite Z.land_ones by lia. change (2 ^ 1) with 2.
  replace (w + W * val ws) with (w + (9223372036854775808 * val ws) * 2) by (unfold W; ring).
  now rewrite Z.mod_add by lia.
Qed.
Lemma cmp_ok st a b : words 4 a -> words 4 b ->
  (cmp st a b = 0 <-> val a mod p25519 = val b mod p25519) /\ 0 <= cmp st a b < 256.
Proof.
  intros Ha Hb. destruct (modp_ok st a Ha) as [Hm Em]. destruct (modp_ok st b Hb) as [Hn En].
  unfold cmp. rewrite <- Em, <- En.
  destruct (bytes_of_ok 4 _ Hm) as [[L1 F1] E1]. destruct (bytes_of_ok 4 _ Hn) as [[L2 F2] E2].
  split; [|now apply cmp_bytes_byte].
  rewrite cmp_bytes_0 by congruence. split.
  - intro E. rewrite <- E1, <- E2. now rewrite E.
  - intro E. apply le_val_inj; auto; congruence.
Qed.

(** ** Multiplication, negation *)
Lemma mul_ok st k a b : words 4 a -> words 4 b ->
  words 4 (mul st k a b) /\ val (mul st k a b) mod p25519 = (val a * val b) mod p25519.
Proof.
  intros Ha Hb. destruct (intmul_ok st k a b Ha Hb) as [H1 E1].
  destruct (reduce_ok st k _ H1) as [H2 E2]. split; auto. unfold mul. rewrite <- E1.
  apply mod_cong; [discriminate|auto].
Qed.
Lemma sqr_ok st k a : words 4 a ->
  words 4 (sqr st k a) /\ val (sqr st k a) mod p25519 = (val a * val a) mod p25519.
Proof.
  intros Ha. destruct (intsqr_ok st k a Ha) as [H1 E1].
  destruct (reduce_ok st k _ H1) as [H2 E2]. split; auto. unfold sqr. rewrite <- E1.
  apply mod_cong; [discriminate|auto].
Qed.
Lemma zero_words : words 4 [0; 0; 0; 0].
Proof. split; [reflexivity|]. repeat constructor; unfold word, W; lia. Qed.
Lemma neg_ok st a : words 4 a -> words 4 (neg st a) /\ (val (neg st a) - - val a) mod p25519 = 0.
Proof. intro Ha. apply (sub_ok st _ a zero_words Ha). Qed.

(** A word array stands for a residue. *)
Definition rep4 (a : list Z) (x : Z) : Prop := words 4 a /\ val a mod p25519 = x mod p25519.
Lemma rep4_mul st k a b x y : rep4 a x -> rep4 b y -> rep4 (mul st k a b) (x * y).
Proof.
  intros [Ha Ea] [Hb Eb]. destruct (mul_ok st k a b Ha Hb) as [H E]. split; auto.
  rewrite E, Z.mul_mod, Ea, Eb, <- Z.mul_mod by discriminate. reflexivity.
Qed.
Lemma rep4_sqr st k a x : rep4 a x -> rep4 (sqr st k a) (x * x).
Proof.
  intros [Ha Ea]. destruct (sqr_ok st k a Ha) as [H E]. split; auto.
  rewrite E, Z.mul_mod, Ea, <- Z.mul_mod by discriminate. reflexivity.
Qed.
Lemma inv_ok st k a : words 4 a ->
  words 4 (inv st k a) /\ val (inv st k a) mod p25519 = (val a ^ (p25519 - 2)) mod p25519.
Proof.
  intro Ha. apply (inv_chain_ok rep4 (mul st k) (sqr st k)).
  - intros; now apply rep4_mul.
  - intros; now apply rep4_sqr.
  - split; auto.
Qed.
