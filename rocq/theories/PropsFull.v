(** Properties of the full-radix field arithmetic (C01-C10, C21-C25, C30, C58
    and the full-radix parts of C11, C20, C29).

    [st] is the machine state (registers, flags, memory) before the call, [k]
    the instruction-set selection (BMI2, ADX) made at compile time: both are
    arbitrary.  Arrays are lists of 64-bit words. *)
From Coq Require Import ZArith List.
From Verif Require Import Uop Engine Bytes Alias Fp25519Full Fp448Full InPlace Fp25519FullProofs Fp448FullProofs FullTac
  Asm25519 Asm448 FullMore Fp448Two Spec FullProps.
Import ListNotations.
Open Scope Z_scope.

Definition ones4 : list Z := repeat 18446744073709551615 4.
Definition ones7 : list Z := repeat 18446744073709551615 7.
Example ones4_words : words 4 ones4. Proof. exact ones4_ok. Qed.
Example ones7_words : words 7 ones7. Proof. exact ones7_ok. Qed.
Example ones4_ones8_words : words 8 (ones4 ++ ones4). Proof. exact ones8_ok. Qed.
Example ones14_words : words 14 (ones7 ++ ones7). Proof. exact ones14_ok. Qed.
Example ones32_bytes : bytes 32 (repeat 255 32). Proof. exact bytes255_ok. Qed.

(** ** C01 *)
Theorem C01_add : forall st k a b, words 4 a -> words 4 b ->
  words 4 (add st k a b) /\ eqm P25519 (val (add st k a b)) (val a + val b).
Proof. exact add_spec. Qed.
Print Assumptions C01_add.
Theorem C01_add_aliased : forall st k o a b, words 4 a -> words 4 b -> (shares_ab o = true -> a = b) ->
  let c := asm2_at st o (if adx k then asm_add_adx else asm_add_adc) 4 a b in
  words 4 c /\ eqm P25519 (val c) (val a + val b).
Proof. exact add_alias_spec. Qed.
Print Assumptions C01_add_aliased.
Example C01_case : val (add (PositiveMap.empty Z) (CPU true true) ones4 ones4) = 74.
Proof. vm_compute. reflexivity. Qed.

(** ** C02 *)
Theorem C02_sub : forall st a b, words 4 a -> words 4 b ->
  words 4 (sub st a b) /\ eqm P25519 (val (sub st a b)) (val a - val b).
Proof. exact sub_spec. Qed.
Print Assumptions C02_sub.
Theorem C02_sub_aliased : forall st o a b, words 4 a -> words 4 b -> (shares_ab o = true -> a = b) ->
  let c := asm2_at st o asm_sub 4 a b in
  words 4 c /\ eqm P25519 (val c) (val a - val b).
Proof. exact sub_alias_spec. Qed.
Print Assumptions C02_sub_aliased.
Theorem C02_neg : forall st a, words 4 a -> words 4 (neg st a) /\ eqm P25519 (val (neg st a)) (- val a).
Proof. exact neg_spec. Qed.
Print Assumptions C02_neg.
Example C02_case : val (sub (PositiveMap.empty Z) [0; 0; 0; 0] ones4) mod P25519 = P25519 - 37.
Proof. vm_compute. reflexivity. Qed.

(** ** C03, C04 *)
Theorem C03_intmul : forall st k a b, words 4 a -> words 4 b ->
  words 8 (intmul st k a b) /\ val (intmul st k a b) = val a * val b.
Proof. exact intmul_ok. Qed.
Print Assumptions C03_intmul.
Example C03_case : val (intmul (PositiveMap.empty Z) (CPU true false) ones4 ones4) = (2 ^ 256 - 1) ^ 2.
Proof. vm_compute. reflexivity. Qed.
Theorem C04_intsqr : forall st k a, words 4 a ->
  words 8 (intsqr st k a) /\ val (intsqr st k a) = val a ^ 2.
Proof. exact intsqr_spec. Qed.
Print Assumptions C04_intsqr.
Example C04_case : val (intsqr (PositiveMap.empty Z) (CPU false false) ones4) = (2 ^ 256 - 1) ^ 2.
Proof. vm_compute. reflexivity. Qed.

(** ** C05 *)
Theorem C05_reduce : forall st k a, words 8 a ->
  words 4 (reduce st k a) /\ eqm P25519 (val (reduce st k a)) (val a).
Proof. exact reduce_spec. Qed.
Print Assumptions C05_reduce.
Theorem C05_mul : forall st k a b, words 4 a -> words 4 b ->
  words 4 (mul st k a b) /\ eqm P25519 (val (mul st k a b)) (val a * val b).
Proof. exact mul_ok. Qed.
Print Assumptions C05_mul.
Theorem C05_sqr : forall st k a, words 4 a ->
  words 4 (sqr st k a) /\ eqm P25519 (val (sqr st k a)) (val a ^ 2).
Proof. exact sqr_spec. Qed.
Print Assumptions C05_sqr.
(** mul when both factors are the same array (the product goes through a local buffer). *)
Theorem C05_mul_aliased : forall st st' k a, words 4 a ->
  let t := asm2_at st OAB (if bmi2 k then if adx k then asm_intmul_mulxadx else asm_intmul_mulx else asm_intmul_mulq) 8 a a in
  words 4 (reduce st' k t) /\ eqm P25519 (val (reduce st' k t)) (val a ^ 2).
Proof. exact mul_alias_spec. Qed.
Print Assumptions C05_mul_aliased.
Example C05_case : val (reduce (PositiveMap.empty Z) (CPU true true) (ones4 ++ ones4)) mod P25519 = (2 ^ 512 - 1) mod P25519.
Proof. vm_compute. reflexivity. Qed.

(** ** C06: two operands packed one after the other *)
Theorem C06_intmul2 : forall st k a1 a2 b1 b2, words 4 a1 -> words 4 a2 -> words 4 b1 -> words 4 b2 ->
  exists c1 c2, intmul2 st k (a1 ++ a2) (b1 ++ b2) = c1 ++ c2 /\ words 8 c1 /\ words 8 c2 /\
  val c1 = val a1 * val b1 /\ val c2 = val a2 * val b2.
Proof. exact intmul2_spec. Qed.
Print Assumptions C06_intmul2.
Theorem C06_intsqr2 : forall st k a1 a2, words 4 a1 -> words 4 a2 ->
  exists c1 c2, intsqr2 st k (a1 ++ a2) = c1 ++ c2 /\ words 8 c1 /\ words 8 c2 /\
  val c1 = val a1 ^ 2 /\ val c2 = val a2 ^ 2.
Proof. exact intsqr2_spec. Qed.
Print Assumptions C06_intsqr2.
Theorem C06_reduce2 : forall st k a1 a2, words 8 a1 -> words 8 a2 ->
  exists c1 c2, reduce2 st k (a1 ++ a2) = c1 ++ c2 /\ words 4 c1 /\ words 4 c2 /\
  eqm P25519 (val c1) (val a1) /\ eqm P25519 (val c2) (val a2).
Proof. exact reduce2_spec. Qed.
Print Assumptions C06_reduce2.
Example C06_case : val (firstn 8 (intsqr2 (PositiveMap.empty Z) (CPU true true) (ones4 ++ [1; 0; 0; 5]))) = (2 ^ 256 - 1) ^ 2.
Proof. vm_compute. reflexivity. Qed.

(** ** C07 *)
Theorem C07_mula24 : forall st k a, words 4 a ->
  words 4 (mula24 st k a) /\ eqm P25519 (val (mula24 st k a)) (121666 * val a).
Proof. exact mula24_spec. Qed.
Print Assumptions C07_mula24.
Example C07_case : val (mula24 (PositiveMap.empty Z) (CPU true true) ones4) mod P25519 = 121666 * 37.
Proof. vm_compute. reflexivity. Qed.

(** ** C08 *)
Theorem C08_ser : forall st a, words 4 a -> bytes 32 (ser st a) /\ le_val (ser st a) = val a mod P25519.
Proof. exact ser_ok. Qed.
Print Assumptions C08_ser.
Theorem C08_unser : forall st bs, bytes 32 bs ->
  words 4 (unser st bs) /\ val (unser st bs) = le_val bs mod P25519.
Proof. exact unser_ok. Qed.
Print Assumptions C08_unser.
Theorem C08_ser_unique : forall st st' a b, words 4 a -> words 4 b ->
  (ser st a = ser st' b <-> eqm P25519 (val a) (val b)).
Proof. exact ser_unique. Qed.
Print Assumptions C08_ser_unique.
Example C08_case : ser (PositiveMap.empty Z) (prime) = repeat 0 32 /\ le_val (ser (PositiveMap.empty Z) ones4) = 37.
Proof. vm_compute. split; reflexivity. Qed.

(** ** C09 *)
Theorem C09_cmp : forall st a b, words 4 a -> words 4 b ->
  (cmp st a b = 0 <-> eqm P25519 (val a) (val b)).
Proof. exact cmp_spec. Qed.
Print Assumptions C09_cmp.
Theorem C09_sgn : forall st a, words 4 a -> sgn st a = (val a mod P25519) mod 2.
Proof. exact sgn_ok. Qed.
Print Assumptions C09_sgn.
Example C09_case : cmp (PositiveMap.empty Z) ones4 [37; 0; 0; 0] = 0 /\ cmp (PositiveMap.empty Z) ones4 [36; 0; 0; 0] <> 0.
Proof. vm_compute. split; [reflexivity|discriminate]. Qed.

(** ** C10 *)
Theorem C10_inv : forall st k a, words 4 a ->
  words 4 (inv st k a) /\
  (~ eqm P25519 (val a) 0 -> eqm P25519 (val a * val (inv st k a)) 1) /\
  (eqm P25519 (val a) 0 -> eqm P25519 (val (inv st k a)) 0).
Proof. exact inv_spec. Qed.
Print Assumptions C10_inv.
Example C10_case : words 4 [2; 0; 0; 0] /\ ~ eqm P25519 (val [2; 0; 0; 0]) 0.
Proof. exact two_nonzero. Qed.

(** ** C11 (full radix) *)
Theorem C11_cmv_full : forall st bit a b, words 4 a -> words 4 b -> 0 <= bit < 2 ^ 32 ->
  cmv st bit a b = if bit =? 0 then a else b.
Proof. exact cmv_ok. Qed.
Print Assumptions C11_cmv_full.
Theorem C11_cmv_full448 : forall st bit a b, words 7 a -> words 7 b -> 0 <= bit < 2 ^ 32 ->
  cmv448 st bit a b = if bit =? 0 then a else b.
Proof. exact cmv448_ok. Qed.
Print Assumptions C11_cmv_full448.
Example C11_case : cmv (PositiveMap.empty Z) 4294967295 ones4 [1; 2; 3; 4] = [1; 2; 3; 4].
Proof. vm_compute. reflexivity. Qed.

(** ** C20 (full radix) *)
Theorem C20_invsqrt_full : forall st k u v s, words 4 u -> words 4 v -> ~ eqm P25519 (val v) 0 ->
  eqm P25519 (val v * s ^ 2) (val u) ->
  let x := fst (invsqrt st k u v) in
  words 4 x /\ eqm P25519 (val v * val x ^ 2) (val u).
Proof. exact invsqrt_spec. Qed.
Print Assumptions C20_invsqrt_full.
Example C20_case : ~ eqm P25519 (val [4; 0; 0; 0]) 0 /\
  eqm P25519 (val [4; 0; 0; 0] * 28948022309329048855892746252171976963317496166410141009864396001978282409975 ^ 2) 1.
Proof. vm_compute. split; [discriminate|reflexivity]. Qed.
(** The one-argument square root reads its numerator from the output array
    after overwriting it: for a = 4 and the output array preset to 1 the result
    is neither a root of a nor of 1/a although both exist. *)
Theorem C20_srt_refuted : forall st k, exists c a s, words 4 c /\ words 4 a /\ val c = 1 /\ val a = 4 /\
  eqm P25519 (val a * s ^ 2) (val c) /\
  let x := val (srt st k c a) in
  ~ eqm P25519 (val a * x ^ 2) (val c) /\ ~ eqm P25519 (x ^ 2) (val a).
Proof. exact srt_refuted_spec. Qed.
Print Assumptions C20_srt_refuted.

(** ** C21 *)
Theorem C21_add : forall st k a b, words 7 a -> words 7 b ->
  words 7 (add448 st k a b) /\ eqm P448 (val (add448 st k a b)) (val a + val b).
Proof. exact add448_spec. Qed.
Print Assumptions C21_add.
Theorem C21_add_aliased : forall st k o a b, words 7 a -> words 7 b -> (shares_ab o = true -> a = b) ->
  let c := asm2_at st o (if adx k then asm448_add_adx else asm448_add_adc) 7 a b in
  words 7 c /\ eqm P448 (val c) (val a + val b).
Proof. exact add448_alias_spec. Qed.
Print Assumptions C21_add_aliased.
Theorem C21_sub : forall st a b, words 7 a -> words 7 b ->
  words 7 (sub448 st a b) /\ eqm P448 (val (sub448 st a b)) (val a - val b).
Proof. exact sub448_spec. Qed.
Print Assumptions C21_sub.
Theorem C21_sub_aliased : forall st o a b, words 7 a -> words 7 b -> (shares_ab o = true -> a = b) ->
  let c := asm2_at st o asm448_sub 7 a b in
  words 7 c /\ eqm P448 (val c) (val a - val b).
Proof. exact sub448_alias_spec. Qed.
Print Assumptions C21_sub_aliased.
Theorem C21_neg : forall st a, words 7 a -> words 7 (neg448 st a) /\ eqm P448 (val (neg448 st a)) (- val a).
Proof. exact neg448_spec. Qed.
Print Assumptions C21_neg.
Example C21_case : val (add448 (PositiveMap.empty Z) (CPU true true) ones7 ones7) mod P448 = 2 ^ 225.
Proof. vm_compute. reflexivity. Qed.

(** ** C22 *)
Theorem C22_intmul : forall st k a b, words 7 a -> words 7 b ->
  words 14 (intmul448 st k a b) /\ val (intmul448 st k a b) = val a * val b.
Proof. exact intmul448_ok. Qed.
Print Assumptions C22_intmul.
Theorem C22_intsqr : forall st k a, words 7 a ->
  words 14 (intsqr448 st k a) /\ val (intsqr448 st k a) = val a ^ 2.
Proof. exact intsqr448_spec. Qed.
Print Assumptions C22_intsqr.
Theorem C22_reduce : forall st k a, words 14 a ->
  words 7 (reduce448 st k a) /\ eqm P448 (val (reduce448 st k a)) (val a).
Proof. exact reduce448_spec. Qed.
Print Assumptions C22_reduce.
Theorem C22_mul : forall st k a b, words 7 a -> words 7 b ->
  words 7 (mul448 st k a b) /\ eqm P448 (val (mul448 st k a b)) (val a * val b).
Proof. exact mul448_ok. Qed.
Print Assumptions C22_mul.
Theorem C22_sqr : forall st k a, words 7 a ->
  words 7 (sqr448 st k a) /\ eqm P448 (val (sqr448 st k a)) (val a ^ 2).
Proof. exact sqr448_spec. Qed.
Print Assumptions C22_sqr.
Example C22_case : val (intmul448 (PositiveMap.empty Z) (CPU true true) ones7 ones7) = (2 ^ 448 - 1) ^ 2.
Proof. vm_compute. reflexivity. Qed.

(** ** C23 *)
Theorem C23_ser : forall st a, words 7 a -> bytes 56 (ser448 st a) /\ le_val (ser448 st a) = val a mod P448.
Proof. exact ser448_ok. Qed.
Print Assumptions C23_ser.
Theorem C23_unser : forall st bs, bytes 56 bs ->
  words 7 (unser448 st bs) /\ val (unser448 st bs) = le_val bs mod P448.
Proof. exact unser448_ok. Qed.
Print Assumptions C23_unser.
Theorem C23_cmp : forall st a b, words 7 a -> words 7 b ->
  (cmp448 st a b = 0 <-> eqm P448 (val a) (val b)).
Proof. exact cmp448_spec. Qed.
Print Assumptions C23_cmp.
Theorem C23_sgn : forall st a, words 7 a -> sgn448 st a = (val a mod P448) mod 2.
Proof. exact sgn448_ok. Qed.
Print Assumptions C23_sgn.
Example C23_case : ser448 (PositiveMap.empty Z) prime448 = repeat 0 56.
Proof. vm_compute. reflexivity. Qed.

(** ** C24 *)
Theorem C24_inv : forall st k a, words 7 a ->
  words 7 (inv448 st k a) /\
  (~ eqm P448 (val a) 0 -> eqm P448 (val a * val (inv448 st k a)) 1) /\
  (eqm P448 (val a) 0 -> eqm P448 (val (inv448 st k a)) 0).
Proof. exact inv448_spec. Qed.
Print Assumptions C24_inv.
Example C24_case : words 7 ones7 /\ ~ eqm P448 (val ones7) 0.
Proof. exact ones7_nonzero. Qed.

(** ** C25 *)
Theorem C25_mula24 : forall st k a, words 7 a ->
  words 7 (mula24_448 st k a) /\ eqm P448 (val (mula24_448 st k a)) (39082 * val a).
Proof. exact mula24_448_spec. Qed.
Print Assumptions C25_mula24.
Example C25_case : val (mula24_448 (PositiveMap.empty Z) (CPU true true) ones7) mod P448 = (39082 * (2 ^ 448 - 1)) mod P448.
Proof. vm_compute. reflexivity. Qed.

(** ** C29 (full radix) *)
Theorem C29_prime_full : val prime = P25519 /\ val prime448 = P448.
Proof. exact prime_full_spec. Qed.
Print Assumptions C29_prime_full.

(** ** C30: every call with buffers of two elements leaves them *)
Theorem C30_refuted : forall st k a b c t d, words 14 a -> words 14 b -> words 28 c -> words 28 t -> words 14 d ->
  intmul2_448 st k c a b = None /\ intsqr2_448 st k c a = None /\ reduce2_448 st k d t = None.
Proof. exact two_oob_spec. Qed.
Print Assumptions C30_refuted.
Example C30_case : words 14 (ones7 ++ ones7) /\ words 28 ((ones7 ++ ones7) ++ (ones7 ++ ones7)).
Proof. exact ones28_ok. Qed.

(** ** C58: results do not depend on the initial state, and mula24 works in place *)
Theorem C58_state_independent : forall st st' k bit a b t, length a = 4%nat -> length b = 4%nat -> length t = 8%nat ->
  add st k a b = add st' k a b /\ sub st a b = sub st' a b /\ intmul st k a b = intmul st' k a b /\
  intsqr st k a = intsqr st' k a /\ reduce st k t = reduce st' k t /\ mula24 st k a = mula24 st' k a /\
  ser st a = ser st' a /\ cmv st bit a b = cmv st' bit a b.
Proof. exact indep_spec. Qed.
Print Assumptions C58_state_independent.
Theorem C58_state_independent448 : forall st st' k bit a b t, length a = 7%nat -> length b = 7%nat -> length t = 14%nat ->
  add448 st k a b = add448 st' k a b /\ sub448 st a b = sub448 st' a b /\ intmul448 st k a b = intmul448 st' k a b /\
  intsqr448 st k a = intsqr448 st' k a /\ reduce448 st k t = reduce448 st' k t /\
  mula24_448 st k a = mula24_448 st' k a /\ ser448 st a = ser448 st' a /\ cmv448 st bit a b = cmv448 st' bit a b.
Proof. exact indep448_spec. Qed.
Print Assumptions C58_state_independent448.
Theorem C58_mula24_inplace : forall st st' k a, length a = 4%nat -> mula24_inplace st k a = mula24 st' k a.
Proof. exact mula24_inplace_eq. Qed.
Print Assumptions C58_mula24_inplace.
Theorem C58_mula24_inplace448 : forall st st' k a, length a = 7%nat -> mula24_448_inplace st k a = mula24_448 st' k a.
Proof. exact mula24_448_inplace_eq. Qed.
Print Assumptions C58_mula24_inplace448.
Example C58_case : length ones4 = 4%nat /\ length ones7 = 7%nat. Proof. split; reflexivity. Qed.
