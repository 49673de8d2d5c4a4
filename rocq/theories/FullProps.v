(** Restatements of the full-radix lemmas with [Spec] vocabulary. *)
From Coq Require Import ZArith List Lia.
From Verif Require Import Uop Engine Bytes Alias Fp25519Full Fp448Full InPlace Fp25519FullProofs Fp448FullProofs FullTac
  Asm25519 Asm448 FullMore Fp448Two Spec.
Import ListNotations.
Open Scope Z_scope.

Ltac wds := split; [reflexivity|repeat constructor; unfold word, byte, W; lia].
Lemma ones4_ok : words 4 (repeat 18446744073709551615 4). Proof. wds. Qed.
Lemma ones7_ok : words 7 (repeat 18446744073709551615 7). Proof. wds. Qed.
Lemma ones8_ok : words 8 (repeat 18446744073709551615 4 ++ repeat 18446744073709551615 4). Proof. wds. Qed.
Lemma ones14_ok : words 14 (repeat 18446744073709551615 7 ++ repeat 18446744073709551615 7). Proof. wds. Qed.
Lemma ones28_ok : words 14 (repeat 18446744073709551615 7 ++ repeat 18446744073709551615 7) /\
  words 28 ((repeat 18446744073709551615 7 ++ repeat 18446744073709551615 7) ++ (repeat 18446744073709551615 7 ++ repeat 18446744073709551615 7)).
Proof. split; wds. Qed.
Lemma bytes255_ok : bytes 32 (repeat 255 32). Proof. wds. Qed.
Lemma two_nonzero : words 4 [2; 0; 0; 0] /\ ~ eqm P25519 (val [2; 0; 0; 0]) 0.
Proof. split; [wds|vm_compute; discriminate]. Qed.
Lemma ones7_nonzero : words 7 (repeat 18446744073709551615 7) /\ ~ eqm P448 (val (repeat 18446744073709551615 7)) 0.
Proof. split; [wds|vm_compute; discriminate]. Qed.

Lemma cong_p x y : (x - y) mod p25519 = 0 -> eqm P25519 x y.
Proof. intro H. apply mod_cong; [discriminate|exact H]. Qed.
Lemma cong_q x y : (x - y) mod p448 = 0 -> eqm P448 x y.
Proof. intro H. apply mod_cong; [discriminate|exact H]. Qed.
Ltac fin lem := let H := fresh in pose proof lem as H; destruct H as [? ?]; split; [assumption|first [apply cong_p; assumption|apply cong_q; assumption|rewrite Z.pow_2_r; assumption]].

Lemma add_spec st k a b : words 4 a -> words 4 b -> words 4 (add st k a b) /\ eqm P25519 (val (add st k a b)) (val a + val b).
Proof. intros Ha Hb. fin (add_ok st k a b Ha Hb). Qed.
Lemma add_alias_spec st k o a b : words 4 a -> words 4 b -> (shares_ab o = true -> a = b) ->
  let c := asm2_at st o (if adx k then asm_add_adx else asm_add_adc) 4 a b in
  words 4 c /\ eqm P25519 (val c) (val a + val b).
Proof. intros Ha Hb E c. unfold c. rewrite (add_inplace st st k o a b) by (auto; apply Ha || apply Hb). now apply add_spec. Qed.
Lemma sub_spec st a b : words 4 a -> words 4 b -> words 4 (sub st a b) /\ eqm P25519 (val (sub st a b)) (val a - val b).
Proof. intros Ha Hb. fin (sub_ok st a b Ha Hb). Qed.
Lemma sub_alias_spec st o a b : words 4 a -> words 4 b -> (shares_ab o = true -> a = b) ->
  let c := asm2_at st o asm_sub 4 a b in words 4 c /\ eqm P25519 (val c) (val a - val b).
Proof. intros Ha Hb E c. unfold c. rewrite (sub_inplace st st o a b) by (auto; apply Ha || apply Hb). now apply sub_spec. Qed.
Lemma neg_spec st a : words 4 a -> words 4 (neg st a) /\ eqm P25519 (val (neg st a)) (- val a).
Proof. intros Ha. fin (neg_ok st a Ha). Qed.
Lemma intsqr_spec st k a : words 4 a -> words 8 (intsqr st k a) /\ val (intsqr st k a) = val a ^ 2.
Proof. intros Ha. fin (intsqr_ok st k a Ha). Qed.
Lemma reduce_spec st k a : words 8 a -> words 4 (reduce st k a) /\ eqm P25519 (val (reduce st k a)) (val a).
Proof. intros Ha. fin (reduce_ok st k a Ha). Qed.
Lemma sqr_spec st k a : words 4 a -> words 4 (sqr st k a) /\ eqm P25519 (val (sqr st k a)) (val a ^ 2).
Proof. intros Ha. fin (sqr_ok st k a Ha). Qed.
Lemma mul_alias_spec st st' k a : words 4 a ->
  let t := asm2_at st OAB (if bmi2 k then if adx k then asm_intmul_mulxadx else asm_intmul_mulx else asm_intmul_mulq) 8 a a in
  words 4 (reduce st' k t) /\ eqm P25519 (val (reduce st' k t)) (val a ^ 2).
Proof.
  intros Ha t. unfold t. rewrite (intmul_same st st k a) by apply Ha. rewrite Z.pow_2_r.
  destruct (intmul_ok st k a a Ha Ha) as [H E]. rewrite <- E. now apply reduce_spec.
Qed.
Lemma app_lo {A} n (a b : list A) : length a = n -> firstn n (a ++ b) = a.
Proof. intros <-. rewrite firstn_app, Nat.sub_diag, firstn_all. apply app_nil_r. Qed.
Lemma app_hi {A} n (a b : list A) : length a = n -> skipn n (a ++ b) = b.
Proof. intros <-. now rewrite skipn_app, Nat.sub_diag, skipn_all. Qed.
Lemma words_app n m a b : words n a -> words m b -> words (n + m) (a ++ b).
Proof. intros [La Fa] [Lb Fb]. split; [rewrite app_length; congruence|now apply Forall_app]. Qed.
Lemma intmul2_spec st k a1 a2 b1 b2 : words 4 a1 -> words 4 a2 -> words 4 b1 -> words 4 b2 ->
  exists c1 c2, intmul2 st k (a1 ++ a2) (b1 ++ b2) = c1 ++ c2 /\ words 8 c1 /\ words 8 c2 /\
  val c1 = val a1 * val b1 /\ val c2 = val a2 * val b2.
Proof.
  intros H1 H2 H3 H4.
  destruct (intmul2_ok st k (a1 ++ a2) (b1 ++ b2)) as [[A B] [C D]]; [now apply (words_app 4 4)..|].
  unfold lo8, hi8, lo4, hi4 in *. rewrite !(app_lo 4) in B by (apply H1 || apply H3).
  rewrite !(app_hi 4) in D by (apply H1 || apply H3).
  do 2 eexists. split; [symmetry; apply (firstn_skipn 8)|]. auto.
Qed.
Lemma intsqr2_spec st k a1 a2 : words 4 a1 -> words 4 a2 ->
  exists c1 c2, intsqr2 st k (a1 ++ a2) = c1 ++ c2 /\ words 8 c1 /\ words 8 c2 /\
  val c1 = val a1 ^ 2 /\ val c2 = val a2 ^ 2.
Proof.
  intros H1 H2.
  destruct (intsqr2_ok st k (a1 ++ a2)) as [[A B] [C D]]; [now apply (words_app 4 4)..|].
  unfold lo8, hi8, lo4, hi4 in *. rewrite !(app_lo 4) in B by apply H1.
  rewrite !(app_hi 4) in D by apply H1. rewrite !Z.pow_2_r.
  do 2 eexists. split; [symmetry; apply (firstn_skipn 8)|]. auto.
Qed.
Lemma reduce2_spec st k a1 a2 : words 8 a1 -> words 8 a2 ->
  exists c1 c2, reduce2 st k (a1 ++ a2) = c1 ++ c2 /\ words 4 c1 /\ words 4 c2 /\
  eqm P25519 (val c1) (val a1) /\ eqm P25519 (val c2) (val a2).
Proof.
  intros H1 H2.
  destruct (reduce2_ok st k (a1 ++ a2)) as [[A B] [C D]]; [now apply (words_app 8 8)..|].
  unfold lo8, hi8, lo4, hi4 in *. rewrite !(app_lo 8) in B by apply H1.
  rewrite !(app_hi 8) in D by apply H1. apply cong_p in B, D.
  do 2 eexists. split; [symmetry; apply (firstn_skipn 4)|]. auto.
Qed.
Lemma mula24_spec st k a : words 4 a -> words 4 (mula24 st k a) /\ eqm P25519 (val (mula24 st k a)) (121666 * val a).
Proof. intros Ha. fin (mula24_ok st k a Ha). Qed.
Lemma ser_unique st st' a b : words 4 a -> words 4 b -> (ser st a = ser st' b <-> eqm P25519 (val a) (val b)).
Proof.
  intros Ha Hb. destruct (ser_ok st a Ha) as [[La Fa] Ea]. destruct (ser_ok st' b Hb) as [[Lb Fb] Eb].
  unfold eqm. change P25519 with p25519. rewrite <- Ea, <- Eb. split; [now intros ->|].
  apply le_val_inj; auto; congruence.
Qed.
Lemma cmp_spec st a b : words 4 a -> words 4 b -> (cmp st a b = 0 <-> eqm P25519 (val a) (val b)).
Proof. intros Ha Hb. apply (cmp_ok st a b Ha Hb). Qed.
Lemma inv_spec st k a : words 4 a -> words 4 (inv st k a) /\
  (~ eqm P25519 (val a) 0 -> eqm P25519 (val a * val (inv st k a)) 1) /\
  (eqm P25519 (val a) 0 -> eqm P25519 (val (inv st k a)) 0).
Proof.
  intro Ha. destruct (inv_inverse st k a Ha) as (H & I & J). split; [exact H|].
  split; [intro N; exact (I N)|intro Z; exact (J Z)].
Qed.
Lemma invsqrt_spec st k u v s : words 4 u -> words 4 v -> ~ eqm P25519 (val v) 0 ->
  eqm P25519 (val v * s ^ 2) (val u) ->
  let x := fst (invsqrt st k u v) in words 4 x /\ eqm P25519 (val v * val x ^ 2) (val u).
Proof. intros Hu Hv N S. rewrite Z.pow_2_r in S. cbv zeta. rewrite Z.pow_2_r. exact (invsqrt_root st k u v s Hu Hv N S). Qed.
Lemma srt_refuted_spec st k : exists c a s, words 4 c /\ words 4 a /\ val c = 1 /\ val a = 4 /\
  eqm P25519 (val a * s ^ 2) (val c) /\
  let x := val (srt st k c a) in
  ~ eqm P25519 (val a * x ^ 2) (val c) /\ ~ eqm P25519 (x ^ 2) (val a).
Proof.
  destruct (srt_counterexample st k) as (c & a & s & A & B & C & D & E & F & G).
  exists c, a, s. cbv zeta. rewrite !Z.pow_2_r. repeat (split; [assumption|]). assumption.
Qed.

Lemma add448_spec st k a b : words 7 a -> words 7 b -> words 7 (add448 st k a b) /\ eqm P448 (val (add448 st k a b)) (val a + val b).
Proof. intros Ha Hb. fin (add448_ok st k a b Ha Hb). Qed.
Lemma add448_alias_spec st k o a b : words 7 a -> words 7 b -> (shares_ab o = true -> a = b) ->
  let c := asm2_at st o (if adx k then asm448_add_adx else asm448_add_adc) 7 a b in
  words 7 c /\ eqm P448 (val c) (val a + val b).
Proof. intros Ha Hb E c. unfold c. rewrite (add448_inplace st st k o a b) by (auto; apply Ha || apply Hb). now apply add448_spec. Qed.
Lemma sub448_spec st a b : words 7 a -> words 7 b -> words 7 (sub448 st a b) /\ eqm P448 (val (sub448 st a b)) (val a - val b).
Proof. intros Ha Hb. fin (sub448_ok st a b Ha Hb). Qed.
Lemma sub448_alias_spec st o a b : words 7 a -> words 7 b -> (shares_ab o = true -> a = b) ->
  let c := asm2_at st o asm448_sub 7 a b in words 7 c /\ eqm P448 (val c) (val a - val b).
Proof. intros Ha Hb E c. unfold c. rewrite (sub448_inplace st st o a b) by (auto; apply Ha || apply Hb). now apply sub448_spec. Qed.
Lemma neg448_spec st a : words 7 a -> words 7 (neg448 st a) /\ eqm P448 (val (neg448 st a)) (- val a).
Proof. intros Ha. fin (neg448_ok st a Ha). Qed.
Lemma intsqr448_spec st k a : words 7 a -> words 14 (intsqr448 st k a) /\ val (intsqr448 st k a) = val a ^ 2.
Proof. intros Ha. fin (intsqr448_ok st k a Ha). Qed.
Lemma reduce448_spec st k a : words 14 a -> words 7 (reduce448 st k a) /\ eqm P448 (val (reduce448 st k a)) (val a).
Proof. intros Ha. fin (reduce448_ok st k a Ha). Qed.
Lemma sqr448_spec st k a : words 7 a -> words 7 (sqr448 st k a) /\ eqm P448 (val (sqr448 st k a)) (val a ^ 2).
Proof. intros Ha. fin (sqr448_ok st k a Ha). Qed.
Lemma mula24_448_spec st k a : words 7 a -> words 7 (mula24_448 st k a) /\ eqm P448 (val (mula24_448 st k a)) (39082 * val a).
Proof. intros Ha. fin (mula24_448_ok st k a Ha). Qed.
Lemma cmp448_spec st a b : words 7 a -> words 7 b -> (cmp448 st a b = 0 <-> eqm P448 (val a) (val b)).
Proof. intros Ha Hb. apply (cmp448_ok st a b Ha Hb). Qed.
Lemma inv448_spec st k a : words 7 a -> words 7 (inv448 st k a) /\
  (~ eqm P448 (val a) 0 -> eqm P448 (val a * val (inv448 st k a)) 1) /\
  (eqm P448 (val a) 0 -> eqm P448 (val (inv448 st k a)) 0).
Proof.
  intro Ha. destruct (inv448_inverse st k a Ha) as (H & I & J). split; [exact H|].
  split; [intro N; exact (I N)|intro Z; exact (J Z)].
Qed.
Lemma prime_full_spec : val prime = P25519 /\ val prime448 = P448.
Proof. split; reflexivity. Qed.
Lemma two_oob_spec st k a b c t d : words 14 a -> words 14 b -> words 28 c -> words 28 t -> words 14 d ->
  intmul2_448 st k c a b = None /\ intsqr2_448 st k c a = None /\ reduce2_448 st k d t = None.
Proof.
  intros [La _] _ _ [Lt _] _. split; [apply intmul2_448_oob; lia|].
  split; [apply intsqr2_448_oob; lia|apply reduce2_448_oob; lia].
Qed.
Lemma indep_spec st st' k bit a b t : length a = 4%nat -> length b = 4%nat -> length t = 8%nat ->
  add st k a b = add st' k a b /\ sub st a b = sub st' a b /\ intmul st k a b = intmul st' k a b /\
  intsqr st k a = intsqr st' k a /\ reduce st k t = reduce st' k t /\ mula24 st k a = mula24 st' k a /\
  ser st a = ser st' a /\ cmv st bit a b = cmv st' bit a b.
Proof.
  intros La Lb Lt. split; [now apply add_indep|]. split; [now apply sub_indep|]. split; [now apply intmul_indep|].
  split; [now apply intsqr_indep|]. split; [now apply reduce_indep|]. split; [now apply mula24_indep|].
  split; [|now apply cmv_indep]. unfold ser. now rewrite (modp_indep st st').
Qed.
Lemma indep448_spec st st' k bit a b t : length a = 7%nat -> length b = 7%nat -> length t = 14%nat ->
  add448 st k a b = add448 st' k a b /\ sub448 st a b = sub448 st' a b /\ intmul448 st k a b = intmul448 st' k a b /\
  intsqr448 st k a = intsqr448 st' k a /\ reduce448 st k t = reduce448 st' k t /\
  mula24_448 st k a = mula24_448 st' k a /\ ser448 st a = ser448 st' a /\ cmv448 st bit a b = cmv448 st' bit a b.
Proof.
  intros La Lb Lt. split; [now apply add448_indep|]. split; [now apply sub448_indep|]. split; [now apply intmul448_indep|].
  split; [now apply intsqr448_indep|]. split; [now apply reduce448_indep|]. split; [now apply mula24_448_indep|].
  split; [|now apply cmv448_indep]. unfold ser448, modp448. now rewrite (sub448_indep st st').
Qed.
