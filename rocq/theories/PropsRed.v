(** Properties of the reduced-radix (vector) field arithmetic: C11-C20, C26-C29, C59-C62.

    [st] is the machine state before the call, arbitrary.  Arrays are lists of
    64-bit words; [lane w n j a] is element j of an array of w elements of n
    limbs, [value255]/[value448] the number it stands for, [lanes w n f a] says
    that every limb is within the bound f (SpecVec). *)
From Coq Require Import ZArith List.
From Verif Require Import Uop Engine Bytes Fp25519Full Fp448Full Fp25519Red Fp448Red Spec SpecVec RedProps RedProps2 RedProps3 RedMixed.
Import ListNotations.
Open Scope Z_scope.

(** Operands at the limb bounds satisfy the hypotheses of the theorems below. *)

Example top_reduced255_1w : lanes 1 10 reduced255 (top_lanes 1 10 reduced255). Proof. apply lanes_b_ok. vm_compute. reflexivity. Qed.
Example top_reduced255_2w : lanes 2 10 reduced255 (top_lanes 2 10 reduced255). Proof. apply lanes_b_ok. vm_compute. reflexivity. Qed.
Example top_reduced255_4w : lanes 4 10 reduced255 (top_lanes 4 10 reduced255). Proof. apply lanes_b_ok. vm_compute. reflexivity. Qed.
Example top_unreduced255_1w : lanes 1 10 unreduced255 (top_lanes 1 10 unreduced255). Proof. apply lanes_b_ok. vm_compute. reflexivity. Qed.
Example top_unreduced255_2w : lanes 2 10 unreduced255 (top_lanes 2 10 unreduced255). Proof. apply lanes_b_ok. vm_compute. reflexivity. Qed.
Example top_unreduced255_4w : lanes 4 10 unreduced255 (top_lanes 4 10 unreduced255). Proof. apply lanes_b_ok. vm_compute. reflexivity. Qed.
Example top_double255_1w : lanes 1 10 double255 (top_lanes 1 10 double255). Proof. apply lanes_b_ok. vm_compute. reflexivity. Qed.
Example top_double255_2w : lanes 2 10 double255 (top_lanes 2 10 double255). Proof. apply lanes_b_ok. vm_compute. reflexivity. Qed.
Example top_double255_4w : lanes 4 10 double255 (top_lanes 4 10 double255). Proof. apply lanes_b_ok. vm_compute. reflexivity. Qed.
Example top_reduced448_1w : lanes 1 16 reduced448 (top_lanes 1 16 reduced448). Proof. apply lanes_b_ok. vm_compute. reflexivity. Qed.
Example top_reduced448_2w : lanes 2 16 reduced448 (top_lanes 2 16 reduced448). Proof. apply lanes_b_ok. vm_compute. reflexivity. Qed.
Example top_reduced448_4w : lanes 4 16 reduced448 (top_lanes 4 16 reduced448). Proof. apply lanes_b_ok. vm_compute. reflexivity. Qed.
Example top_summed448_1w : lanes 1 16 summed448 (top_lanes 1 16 summed448). Proof. apply lanes_b_ok. vm_compute. reflexivity. Qed.
Example top_summed448_2w : lanes 2 16 summed448 (top_lanes 2 16 summed448). Proof. apply lanes_b_ok. vm_compute. reflexivity. Qed.
Example top_summed448_4w : lanes 4 16 summed448 (top_lanes 4 16 summed448). Proof. apply lanes_b_ok. vm_compute. reflexivity. Qed.
Example top_differed448_1w : lanes 1 16 differed448 (top_lanes 1 16 differed448). Proof. apply lanes_b_ok. vm_compute. reflexivity. Qed.
Example top_differed448_2w : lanes 2 16 differed448 (top_lanes 2 16 differed448). Proof. apply lanes_b_ok. vm_compute. reflexivity. Qed.
Example top_differed448_4w : lanes 4 16 differed448 (top_lanes 4 16 differed448). Proof. apply lanes_b_ok. vm_compute. reflexivity. Qed.
Example top_double448_1w : lanes 1 16 double448 (top_lanes 1 16 double448). Proof. apply lanes_b_ok. vm_compute. reflexivity. Qed.
Example top_double448_2w : lanes 2 16 double448 (top_lanes 2 16 double448). Proof. apply lanes_b_ok. vm_compute. reflexivity. Qed.
Example top_double448_4w : lanes 4 16 double448 (top_lanes 4 16 double448). Proof. apply lanes_b_ok. vm_compute. reflexivity. Qed.

(** ** C11 *)
Theorem C11_cmv_1w : forall (c : bool) a b, words 10 a -> words 10 b -> cmv_1w (if c then 1 else 0) a b = if c then b else a.
Proof. exact Fp25519RedMore.cmv_1w_ok. Qed.
Theorem C11_cmv_2w : forall (c0 c1 : bool) x1 x3 a b, words 20 a -> words 20 b ->
  let r := cmv_2w [if c0 then 1 else 0; x1; if c1 then 1 else 0; x3] a b in
  lane 2 10 0 r = lane 2 10 0 (if c0 then b else a) /\ lane 2 10 1 r = lane 2 10 1 (if c1 then b else a).
Proof. exact cmv2_spec. Qed.
Example C11_case : cmv_2w [0; 7; 1; 9] (repeat 1 20) (repeat 2 20) = [1; 1; 2; 2; 1; 1; 2; 2; 1; 1; 2; 2; 1; 1; 2; 2; 1; 1; 2; 2].
Proof. vm_compute. reflexivity. Qed.
Definition C11_vector := (C11_cmv_1w, C11_cmv_2w).
Print Assumptions C11_vector.

(** ** C12 *)
Theorem C12_unser_1w : forall st, loads 1 10 pos255 P25519 32 canonical255 (unser_1w st).
Proof. exact loads_1w. Qed.
Theorem C12_ser_1w : forall st, stores 1 10 pos255 P25519 32 reduced255 (ser_1w st).
Proof. exact stores_1w. Qed.
Theorem C12_unser_2w : forall st, loads 2 10 pos255 P25519 32 canonical255 (unser_2w st).
Proof. exact loads_2w. Qed.
Theorem C12_ser_2w : forall st, stores 2 10 pos255 P25519 32 reduced255 (ser_2w st).
Proof. exact stores_2w. Qed.
Theorem C12_unser_4w : forall st, loads 4 10 pos255 P25519 32 canonical255 (unser_4w st).
Proof. exact loads_4w. Qed.
Theorem C12_ser_4w : forall st, stores 4 10 pos255 P25519 32 reduced255 (ser_4w st).
Proof. exact stores_4w. Qed.
Theorem C12_round_trip_1w : forall st buf, bytes 32 buf ->
  bytes 32 (ser_1w st (unser_1w st buf)) /\ le_val (ser_1w st (unser_1w st buf)) = le_val buf mod P25519.
Proof. exact round_1w. Qed.
Theorem C12_round_trip_2w : forall st buf, bytes (2 * 32) buf -> bytes (2 * 32) (ser_2w st (unser_2w st buf)) /\
  forall j, (j < 2)%nat -> le_val (part 32 j (ser_2w st (unser_2w st buf))) = le_val (part 32 j buf) mod P25519.
Proof. exact round_2w. Qed.
Theorem C12_round_trip_4w : forall st buf, bytes (4 * 32) buf -> bytes (4 * 32) (ser_4w st (unser_4w st buf)) /\
  forall j, (j < 4)%nat -> le_val (part 32 j (ser_4w st (unser_4w st buf))) = le_val (part 32 j buf) mod P25519.
Proof. exact round_4w. Qed.
Example C12_case : le_val (part 32 1 (ser_2w (PositiveMap.empty Z) (unser_2w (PositiveMap.empty Z) (repeat 255 64)))) = 37.
Proof. vm_compute. reflexivity. Qed.
Definition C12_vector := (C12_unser_1w, C12_ser_1w, C12_unser_2w, C12_ser_2w, C12_unser_4w, C12_ser_4w, C12_round_trip_1w, C12_round_trip_2w, C12_round_trip_4w).
Print Assumptions C12_vector.

(** ** C13: refuted for differences; exact condition, and the sums and opposites are right *)
Theorem C13_refuted : forall st, exists x y, bytes 32 x /\ bytes 32 y /\ le_val x = 2 ^ 128 + 37 /\ le_val y = 0 /\
  le_val (ser_1w st (sub_1w st (unser_1w st x) (unser_1w st y))) = 37.
Proof. exact ser_sub_refuted. Qed.
Theorem C13_sub_exact : forall st x y, bytes 32 x -> bytes 32 y ->
  let u := le_val x mod P25519 in let v := le_val y mod P25519 in
  (le_val (ser_1w st (sub_1w st (unser_1w st x) (unser_1w st y))) = (le_val x - le_val y) mod P25519 <->
   ~ (38 <= u - v /\ (u - v) mod 2 ^ 128 < 38)).
Proof. exact ser_sub_iff. Qed.
Theorem C13_add : forall st x y, bytes 32 x -> bytes 32 y ->
  bytes 32 (ser_1w st (add_1w st (unser_1w st x) (unser_1w st y))) /\
  le_val (ser_1w st (add_1w st (unser_1w st x) (unser_1w st y))) = (le_val x + le_val y) mod P25519.
Proof. exact ser_add_ok. Qed.
Theorem C13_neg : forall st x, bytes 32 x -> bytes 32 (ser_1w st (neg_1w st (unser_1w st x))) /\
  le_val (ser_1w st (neg_1w st (unser_1w st x))) = (- le_val x) mod P25519.
Proof. exact ser_neg_ok. Qed.
Theorem C13_exact : forall st a, limbs_below 10 unreduced255 a ->
  (le_val (ser_1w st a) = value255 a mod P25519 <-> value255 a mod 2 ^ 128 + 38 * (value255 a / 2 ^ 256) < 2 ^ 128).
Proof. exact ser_iff. Qed.
Example C13_case : le_val (ser_1w (PositiveMap.empty Z) (add_1w (PositiveMap.empty Z)
  (unser_1w (PositiveMap.empty Z) (repeat 254 32)) (unser_1w (PositiveMap.empty Z) (repeat 1 32)))) = 37.
Proof. vm_compute. reflexivity. Qed.
Definition C13_vector := (C13_refuted, C13_sub_exact, C13_add, C13_neg, C13_exact).
Print Assumptions C13_vector.

(** ** C14 *)
Theorem C14_add_1w : forall st, computes2 1 10 pos255 P25519 reduced255 reduced255 unreduced255 Z.add (add_1w st).
Proof. exact spec_255_C14_add_1w. Qed.
Theorem C14_sub_1w : forall st, computes2 1 10 pos255 P25519 reduced255 reduced255 unreduced255 Z.sub (sub_1w st).
Proof. exact spec_255_C14_sub_1w. Qed.
Theorem C14_neg_1w : forall st, computes1 1 10 pos255 P25519 reduced255 unreduced255 Z.opp (neg_1w st).
Proof. exact spec_255_C14_neg_1w. Qed.
Theorem C14_addsub_1_1w : forall st, computes2 1 10 pos255 P25519 reduced255 reduced255 unreduced255 Z.add (fun a b => fst (addsub_1w st a b)).
Proof. exact spec_255_C14_addsub_1_1w. Qed.
Theorem C14_addsub_2_1w : forall st, computes2 1 10 pos255 P25519 reduced255 reduced255 unreduced255 Z.sub (fun a b => snd (addsub_1w st a b)).
Proof. exact spec_255_C14_addsub_2_1w. Qed.
Theorem C14_add_2w : forall st, computes2 2 10 pos255 P25519 reduced255 reduced255 unreduced255 Z.add (add_2w st).
Proof. exact spec_255_C14_add_2w. Qed.
Theorem C14_sub_2w : forall st, computes2 2 10 pos255 P25519 reduced255 reduced255 unreduced255 Z.sub (sub_2w st).
Proof. exact spec_255_C14_sub_2w. Qed.
Theorem C14_neg_2w : forall st, computes1 2 10 pos255 P25519 reduced255 unreduced255 Z.opp (neg_2w st).
Proof. exact spec_255_C14_neg_2w. Qed.
Theorem C14_addsub_1_2w : forall st, computes2 2 10 pos255 P25519 reduced255 reduced255 unreduced255 Z.add (fun a b => fst (addsub_2w st a b)).
Proof. exact spec_255_C14_addsub_1_2w. Qed.
Theorem C14_addsub_2_2w : forall st, computes2 2 10 pos255 P25519 reduced255 reduced255 unreduced255 Z.sub (fun a b => snd (addsub_2w st a b)).
Proof. exact spec_255_C14_addsub_2_2w. Qed.
Theorem C14_add_4w : forall st, computes2 4 10 pos255 P25519 reduced255 reduced255 unreduced255 Z.add (add_4w st).
Proof. exact spec_255_C14_add_4w. Qed.
Theorem C14_sub_4w : forall st, computes2 4 10 pos255 P25519 reduced255 reduced255 unreduced255 Z.sub (sub_4w st).
Proof. exact spec_255_C14_sub_4w. Qed.
Theorem C14_neg_4w : forall st, computes1 4 10 pos255 P25519 reduced255 unreduced255 Z.opp (neg_4w st).
Proof. exact spec_255_C14_neg_4w. Qed.
Theorem C14_addsub_1_4w : forall st, computes2 4 10 pos255 P25519 reduced255 reduced255 unreduced255 Z.add (fun a b => fst (addsub_4w st a b)).
Proof. exact spec_255_C14_addsub_1_4w. Qed.
Theorem C14_addsub_2_4w : forall st, computes2 4 10 pos255 P25519 reduced255 reduced255 unreduced255 Z.sub (fun a b => snd (addsub_4w st a b)).
Proof. exact spec_255_C14_addsub_2_4w. Qed.
Theorem C14_api_neg_4w_refuted : forall st, exists a, lanes 4 10 reduced255 a /\
  forall j, (j < 4)%nat -> value255 (lane 4 10 j a) = 0 /\ ~ eqm P25519 (value255 (lane 4 10 j (api_neg_4w st a))) 0.
Proof. exact api_neg_4w_refuted. Qed.
Example C14_case : value255 (lane 2 10 1 (sub_2w (PositiveMap.empty Z) (repeat 0 20) (top_lanes 2 10 reduced255))) mod P25519
  = (- value255 (lane 2 10 1 (top_lanes 2 10 reduced255))) mod P25519.
Proof. vm_compute. reflexivity. Qed.
Definition C14_vector := (C14_add_1w, C14_sub_1w, C14_neg_1w, C14_addsub_1_1w, C14_addsub_2_1w, C14_add_2w, C14_sub_2w, C14_neg_2w, C14_addsub_1_2w, C14_addsub_2_2w, C14_add_4w, C14_sub_4w, C14_neg_4w, C14_addsub_1_4w, C14_addsub_2_4w, C14_api_neg_4w_refuted).
Print Assumptions C14_vector.

(** ** C15 *)
Theorem C15_mul_1w : forall st, computes2 1 10 pos255 P25519 unreduced255 unreduced255 reduced255 Z.mul (mul_1w st).
Proof. exact spec_255_C15_mul_1w. Qed.
Theorem C15_mul_2w : forall st, computes2 2 10 pos255 P25519 unreduced255 unreduced255 reduced255 Z.mul (mul_2w st).
Proof. exact spec_255_C15_mul_2w. Qed.
Theorem C15_mul_4w : forall st, computes2 4 10 pos255 P25519 unreduced255 unreduced255 reduced255 Z.mul (mul_4w st).
Proof. exact spec_255_C15_mul_4w. Qed.
Theorem C15_chain_1w : forall st,
  let o := Ops (add_1w st) (sub_1w st) (neg_1w st) (mul_1w st) (sqr_1w st) (compressfast_1w st) in
  forall e, rleaves (lanes 1 10 reduced255) e -> lanes 1 10 reduced255 (rrun o e) /\
  forall j, (j < 1)%nat -> eqm P25519 (value255 (lane 1 10 j (rrun o e))) (rmeaning (fun a => value255 (lane 1 10 j a)) e).
Proof. exact chain255_1w. Qed.
Theorem C15_chain_2w : forall st,
  let o := Ops (add_2w st) (sub_2w st) (neg_2w st) (mul_2w st) (sqr_2w st) (compressfast_2w st) in
  forall e, rleaves (lanes 2 10 reduced255) e -> lanes 2 10 reduced255 (rrun o e) /\
  forall j, (j < 2)%nat -> eqm P25519 (value255 (lane 2 10 j (rrun o e))) (rmeaning (fun a => value255 (lane 2 10 j a)) e).
Proof. exact chain255_2w. Qed.
Theorem C15_chain_4w : forall st,
  let o := Ops (add_4w st) (sub_4w st) (neg_4w st) (mul_4w st) (sqr_4w st) (compressfast_4w st) in
  forall e, rleaves (lanes 4 10 reduced255) e -> lanes 4 10 reduced255 (rrun o e) /\
  forall j, (j < 4)%nat -> eqm P25519 (value255 (lane 4 10 j (rrun o e))) (rmeaning (fun a => value255 (lane 4 10 j a)) e).
Proof. exact chain255_4w. Qed.
Example C15_case : value255 (lane 4 10 3 (mul_4w (PositiveMap.empty Z) (top_lanes 4 10 unreduced255) (top_lanes 4 10 unreduced255))) mod P25519
  = (value255 (lane 4 10 3 (top_lanes 4 10 unreduced255)) ^ 2) mod P25519.
Proof. vm_compute. reflexivity. Qed.
Example C15_chain_case : rleaves (lanes 2 10 reduced255)
  (Mul (Sub (Leaf (top_lanes 2 10 reduced255)) (Sqr (Add (Leaf (top_lanes 2 10 reduced255)) (Leaf (repeat 0 20))))) (Neg (Leaf (repeat 1 20)))).
Proof. cbn [rleaves wleaves]. repeat match goal with |- _ /\ _ => split end; apply lanes_b_ok; vm_compute; reflexivity. Qed.
Definition C15_vector := (C15_mul_1w, C15_mul_2w, C15_mul_4w, C15_chain_1w, C15_chain_2w, C15_chain_4w).
Print Assumptions C15_vector.

(** ** C16 *)
Theorem C16_sqr_1w : forall st, computes1 1 10 pos255 P25519 unreduced255 reduced255 (fun x => x ^ 2) (sqr_1w st).
Proof. exact spec_255_C16_sqr_1w. Qed.
Theorem C16_sqr_2w : forall st, computes1 2 10 pos255 P25519 unreduced255 reduced255 (fun x => x ^ 2) (sqr_2w st).
Proof. exact spec_255_C16_sqr_2w. Qed.
Theorem C16_sqr_4w : forall st, computes1 4 10 pos255 P25519 unreduced255 reduced255 (fun x => x ^ 2) (sqr_4w st).
Proof. exact spec_255_C16_sqr_4w. Qed.
Example C16_case : value255 (lane 2 10 1 (sqr_2w (PositiveMap.empty Z) (top_lanes 2 10 unreduced255))) mod P25519
  = (value255 (lane 2 10 1 (top_lanes 2 10 unreduced255)) ^ 2) mod P25519.
Proof. vm_compute. reflexivity. Qed.
Definition C16_vector := (C16_sqr_1w, C16_sqr_2w, C16_sqr_4w).
Print Assumptions C16_vector.

(** ** C17 *)
Theorem C17_compress_1w : forall st, computes1 1 10 pos255 P25519 double255 reduced255 (fun x => x) (compress_1w st).
Proof. exact spec_255_C17_compress_1w. Qed.
Theorem C17_compressfast_1w : forall st, computes1 1 10 pos255 P25519 unreduced255 reduced255 (fun x => x) (compressfast_1w st).
Proof. exact spec_255_C17_compressfast_1w. Qed.
Theorem C17_compress_2w : forall st, computes1 2 10 pos255 P25519 double255 reduced255 (fun x => x) (compress_2w st).
Proof. exact spec_255_C17_compress_2w. Qed.
Theorem C17_compressfast_2w : forall st, computes1 2 10 pos255 P25519 unreduced255 reduced255 (fun x => x) (compressfast_2w st).
Proof. exact spec_255_C17_compressfast_2w. Qed.
Theorem C17_compress2_1_2w : forall st, computes2 2 10 pos255 P25519 double255 double255 reduced255 (fun x _ => x) (fun a b => fst (compress2_2w st a b)).
Proof. exact spec_255_C17_compress2_1_2w. Qed.
Theorem C17_compress2_2_2w : forall st, computes2 2 10 pos255 P25519 double255 double255 reduced255 (fun _ y => y) (fun a b => snd (compress2_2w st a b)).
Proof. exact spec_255_C17_compress2_2_2w. Qed.
Theorem C17_compress_4w : forall st, computes1 4 10 pos255 P25519 double255 reduced255 (fun x => x) (compress_4w st).
Proof. exact spec_255_C17_compress_4w. Qed.
Theorem C17_compressfast_4w : forall st, computes1 4 10 pos255 P25519 unreduced255 reduced255 (fun x => x) (compressfast_4w st).
Proof. exact spec_255_C17_compressfast_4w. Qed.
Theorem C17_compress2_1_4w : forall st, computes2 4 10 pos255 P25519 double255 double255 reduced255 (fun x _ => x) (fun a b => fst (compress2_4w st a b)).
Proof. exact spec_255_C17_compress2_1_4w. Qed.
Theorem C17_compress2_2_4w : forall st, computes2 4 10 pos255 P25519 double255 double255 reduced255 (fun _ y => y) (fun a b => snd (compress2_4w st a b)).
Proof. exact spec_255_C17_compress2_2_4w. Qed.
Theorem C17_new_compressfast2_1_4w : forall st, computes2 4 10 pos255 P25519 unreduced255 unreduced255 reduced255 (fun x _ => x) (fun a b => fst (new_compressfast2_4w st a b)).
Proof. exact spec_255_C17_new_compressfast2_1_4w. Qed.
Theorem C17_new_compressfast2_2_4w : forall st, computes2 4 10 pos255 P25519 unreduced255 unreduced255 reduced255 (fun _ y => y) (fun a b => snd (new_compressfast2_4w st a b)).
Proof. exact spec_255_C17_new_compressfast2_2_4w. Qed.
Example C17_case : value255 (lane 1 10 0 (compress_1w (PositiveMap.empty Z) (top_lanes 1 10 double255))) mod P25519
  = (value255 (top_lanes 1 10 double255)) mod P25519.
Proof. vm_compute. reflexivity. Qed.
Definition C17_vector := (C17_compress_1w, C17_compressfast_1w, C17_compress_2w, C17_compressfast_2w, C17_compress2_1_2w, C17_compress2_2_2w, C17_compress_4w, C17_compressfast_4w, C17_compress2_1_4w, C17_compress2_2_4w, C17_new_compressfast2_1_4w, C17_new_compressfast2_2_4w).
Print Assumptions C17_vector.

(** ** C18: the lane of the result is the same function of the lane of the operands, whatever the lane, the other lanes and the state *)
Theorem C18_add_2w : forall st st', lanewise2 2 10 (add_2w st) (add_2w st').
Proof. exact spec_C18_add_2w. Qed.
Theorem C18_sub_2w : forall st st', lanewise2 2 10 (sub_2w st) (sub_2w st').
Proof. exact spec_C18_sub_2w. Qed.
Theorem C18_neg_2w : forall st st', lanewise1 2 10 (neg_2w st) (neg_2w st').
Proof. exact spec_C18_neg_2w. Qed.
Theorem C18_addsub_1_2w : forall st st', lanewise2 2 10 (fun a b => fst (addsub_2w st a b)) (fun a b => fst (addsub_2w st' a b)).
Proof. exact spec_C18_addsub_1_2w. Qed.
Theorem C18_addsub_2_2w : forall st st', lanewise2 2 10 (fun a b => snd (addsub_2w st a b)) (fun a b => snd (addsub_2w st' a b)).
Proof. exact spec_C18_addsub_2_2w. Qed.
Theorem C18_intmul_2w : forall st st', lanewise2 2 10 (intmul_2w st) (intmul_2w st').
Proof. exact spec_C18_intmul_2w. Qed.
Theorem C18_intsqr_2w : forall st st', lanewise1 2 10 (intsqr_2w st) (intsqr_2w st').
Proof. exact spec_C18_intsqr_2w. Qed.
Theorem C18_compress_2w : forall st st', lanewise1 2 10 (compress_2w st) (compress_2w st').
Proof. exact spec_C18_compress_2w. Qed.
Theorem C18_compressfast_2w : forall st st', lanewise1 2 10 (compressfast_2w st) (compressfast_2w st').
Proof. exact spec_C18_compressfast_2w. Qed.
Theorem C18_compress2_1_2w : forall st st', lanewise2 2 10 (fun a b => fst (compress2_2w st a b)) (fun a b => fst (compress2_2w st' a b)).
Proof. exact spec_C18_compress2_1_2w. Qed.
Theorem C18_compress2_2_2w : forall st st', lanewise2 2 10 (fun a b => snd (compress2_2w st a b)) (fun a b => snd (compress2_2w st' a b)).
Proof. exact spec_C18_compress2_2_2w. Qed.
Theorem C18_mul_2w : forall st st', lanewise2 2 10 (mul_2w st) (mul_2w st').
Proof. exact spec_C18_mul_2w. Qed.
Theorem C18_sqr_2w : forall st st', lanewise1 2 10 (sqr_2w st) (sqr_2w st').
Proof. exact spec_C18_sqr_2w. Qed.
Theorem C18_add_4w : forall st st', lanewise2 4 10 (add_4w st) (add_4w st').
Proof. exact spec_C18_add_4w. Qed.
Theorem C18_sub_4w : forall st st', lanewise2 4 10 (sub_4w st) (sub_4w st').
Proof. exact spec_C18_sub_4w. Qed.
Theorem C18_neg_4w : forall st st', lanewise1 4 10 (neg_4w st) (neg_4w st').
Proof. exact spec_C18_neg_4w. Qed.
Theorem C18_addsub_1_4w : forall st st', lanewise2 4 10 (fun a b => fst (addsub_4w st a b)) (fun a b => fst (addsub_4w st' a b)).
Proof. exact spec_C18_addsub_1_4w. Qed.
Theorem C18_addsub_2_4w : forall st st', lanewise2 4 10 (fun a b => snd (addsub_4w st a b)) (fun a b => snd (addsub_4w st' a b)).
Proof. exact spec_C18_addsub_2_4w. Qed.
Theorem C18_intmul_4w : forall st st', lanewise2 4 10 (intmul_4w st) (intmul_4w st').
Proof. exact spec_C18_intmul_4w. Qed.
Theorem C18_intsqr_4w : forall st st', lanewise1 4 10 (intsqr_4w st) (intsqr_4w st').
Proof. exact spec_C18_intsqr_4w. Qed.
Theorem C18_compress_4w : forall st st', lanewise1 4 10 (compress_4w st) (compress_4w st').
Proof. exact spec_C18_compress_4w. Qed.
Theorem C18_compressfast_4w : forall st st', lanewise1 4 10 (compressfast_4w st) (compressfast_4w st').
Proof. exact spec_C18_compressfast_4w. Qed.
Theorem C18_compress2_1_4w : forall st st', lanewise2 4 10 (fun a b => fst (compress2_4w st a b)) (fun a b => fst (compress2_4w st' a b)).
Proof. exact spec_C18_compress2_1_4w. Qed.
Theorem C18_compress2_2_4w : forall st st', lanewise2 4 10 (fun a b => snd (compress2_4w st a b)) (fun a b => snd (compress2_4w st' a b)).
Proof. exact spec_C18_compress2_2_4w. Qed.
Theorem C18_mul_4w : forall st st', lanewise2 4 10 (mul_4w st) (mul_4w st').
Proof. exact spec_C18_mul_4w. Qed.
Theorem C18_sqr_4w : forall st st', lanewise1 4 10 (sqr_4w st) (sqr_4w st').
Proof. exact spec_C18_sqr_4w. Qed.
Theorem C18_add448_2w : forall st st', lanewise2 2 16 (add448_2w st) (add448_2w st').
Proof. exact spec_C18_add448_2w. Qed.
Theorem C18_sub448_2w : forall st st', lanewise2 2 16 (sub448_2w st) (sub448_2w st').
Proof. exact spec_C18_sub448_2w. Qed.
Theorem C18_addsub448_1_2w : forall st st', lanewise2 2 16 (fun a b => fst (addsub448_2w st a b)) (fun a b => fst (addsub448_2w st' a b)).
Proof. exact spec_C18_addsub448_1_2w. Qed.
Theorem C18_addsub448_2_2w : forall st st', lanewise2 2 16 (fun a b => snd (addsub448_2w st a b)) (fun a b => snd (addsub448_2w st' a b)).
Proof. exact spec_C18_addsub448_2_2w. Qed.
Theorem C18_intmul448_2w : forall st st', lanewise2 2 16 (intmul448_2w st) (intmul448_2w st').
Proof. exact spec_C18_intmul448_2w. Qed.
Theorem C18_intsqr448_2w : forall st st', lanewise1 2 16 (intsqr448_2w st) (intsqr448_2w st').
Proof. exact spec_C18_intsqr448_2w. Qed.
Theorem C18_compress448_2w : forall st st', lanewise1 2 16 (compress448_2w st) (compress448_2w st').
Proof. exact spec_C18_compress448_2w. Qed.
Theorem C18_compressfast448_2w : forall st st', lanewise1 2 16 (compressfast448_2w st) (compressfast448_2w st').
Proof. exact spec_C18_compressfast448_2w. Qed.
Theorem C18_compress2448_1_2w : forall st st', lanewise2 2 16 (fun a b => fst (compress2448_2w st a b)) (fun a b => fst (compress2448_2w st' a b)).
Proof. exact spec_C18_compress2448_1_2w. Qed.
Theorem C18_compress2448_2_2w : forall st st', lanewise2 2 16 (fun a b => snd (compress2448_2w st a b)) (fun a b => snd (compress2448_2w st' a b)).
Proof. exact spec_C18_compress2448_2_2w. Qed.
Theorem C18_mul448_2w : forall st st', lanewise2 2 16 (mul448_2w st) (mul448_2w st').
Proof. exact spec_C18_mul448_2w. Qed.
Theorem C18_sqr448_2w : forall st st', lanewise1 2 16 (sqr448_2w st) (sqr448_2w st').
Proof. exact spec_C18_sqr448_2w. Qed.
Theorem C18_add448_4w : forall st st', lanewise2 4 16 (add448_4w st) (add448_4w st').
Proof. exact spec_C18_add448_4w. Qed.
Theorem C18_sub448_4w : forall st st', lanewise2 4 16 (sub448_4w st) (sub448_4w st').
Proof. exact spec_C18_sub448_4w. Qed.
Theorem C18_addsub448_1_4w : forall st st', lanewise2 4 16 (fun a b => fst (addsub448_4w st a b)) (fun a b => fst (addsub448_4w st' a b)).
Proof. exact spec_C18_addsub448_1_4w. Qed.
Theorem C18_addsub448_2_4w : forall st st', lanewise2 4 16 (fun a b => snd (addsub448_4w st a b)) (fun a b => snd (addsub448_4w st' a b)).
Proof. exact spec_C18_addsub448_2_4w. Qed.
Theorem C18_intmul448_4w : forall st st', lanewise2 4 16 (intmul448_4w st) (intmul448_4w st').
Proof. exact spec_C18_intmul448_4w. Qed.
Theorem C18_intsqr448_4w : forall st st', lanewise1 4 16 (intsqr448_4w st) (intsqr448_4w st').
Proof. exact spec_C18_intsqr448_4w. Qed.
Theorem C18_compress448_4w : forall st st', lanewise1 4 16 (compress448_4w st) (compress448_4w st').
Proof. exact spec_C18_compress448_4w. Qed.
Theorem C18_compressfast448_4w : forall st st', lanewise1 4 16 (compressfast448_4w st) (compressfast448_4w st').
Proof. exact spec_C18_compressfast448_4w. Qed.
Theorem C18_compress2448_1_4w : forall st st', lanewise2 4 16 (fun a b => fst (compress2448_4w st a b)) (fun a b => fst (compress2448_4w st' a b)).
Proof. exact spec_C18_compress2448_1_4w. Qed.
Theorem C18_compress2448_2_4w : forall st st', lanewise2 4 16 (fun a b => snd (compress2448_4w st a b)) (fun a b => snd (compress2448_4w st' a b)).
Proof. exact spec_C18_compress2448_2_4w. Qed.
Theorem C18_mul448_4w : forall st st', lanewise2 4 16 (mul448_4w st) (mul448_4w st').
Proof. exact spec_C18_mul448_4w. Qed.
Theorem C18_sqr448_4w : forall st st', lanewise1 4 16 (sqr448_4w st) (sqr448_4w st').
Proof. exact spec_C18_sqr448_4w. Qed.
Theorem C18_moves : forall st a b c d x y, length a = 10%nat -> length b = 10%nat -> length c = 10%nat -> length d = 10%nat ->
  length x = 20%nat -> length y = 40%nat ->
  lane 2 10 0 (inter_2w st a b) = a /\ lane 2 10 1 (inter_2w st a b) = b /\
  deinter_2w st x = (lane 2 10 0 x, lane 2 10 1 x) /\
  (lane 4 10 0 (zip_4w st a b c d) = a /\ lane 4 10 1 (zip_4w st a b c d) = b /\
   lane 4 10 2 (zip_4w st a b c d) = c /\ lane 4 10 3 (zip_4w st a b c d) = d) /\
  forall j, (j < 4)%nat -> unzip_4w st y j = lane 4 10 j y.
Proof. exact moves255. Qed.
Theorem C18_moves448 : forall st a b c d x y, length a = 16%nat -> length b = 16%nat -> length c = 16%nat -> length d = 16%nat ->
  length x = 32%nat -> length y = 64%nat ->
  lane 2 16 0 (inter448_2w st a b) = a /\ lane 2 16 1 (inter448_2w st a b) = b /\
  deinter448_2w st x = (lane 2 16 0 x, lane 2 16 1 x) /\
  (lane 4 16 0 (zip448_4w st a b c d) = a /\ lane 4 16 1 (zip448_4w st a b c d) = b /\
   lane 4 16 2 (zip448_4w st a b c d) = c /\ lane 4 16 3 (zip448_4w st a b c d) = d) /\
  forall j, (j < 4)%nat -> unzip448_4w st y j = lane 4 16 j y.
Proof. exact moves448. Qed.
Example C18_case : lane 2 10 1 (mul_2w (PositiveMap.empty Z) (repeat 3 20) (repeat 5 20)) =
  lane 2 10 0 (mul_2w (PositiveMap.empty Z) (flat_map (fun _ => [3; 3; 9; 9]) (seq 0 5)) (flat_map (fun _ => [5; 5; 1; 0]) (seq 0 5))).
Proof. vm_compute. reflexivity. Qed.
Definition C18_vector := (C18_add_2w, C18_sub_2w, C18_neg_2w, C18_addsub_1_2w, C18_addsub_2_2w, C18_intmul_2w, C18_intsqr_2w, C18_compress_2w, C18_compressfast_2w, C18_compress2_1_2w, C18_compress2_2_2w, C18_mul_2w, C18_sqr_2w, C18_add_4w, C18_sub_4w, C18_neg_4w, C18_addsub_1_4w, C18_addsub_2_4w, C18_intmul_4w, C18_intsqr_4w, C18_compress_4w, C18_compressfast_4w, C18_compress2_1_4w, C18_compress2_2_4w, C18_mul_4w, C18_sqr_4w, C18_add448_2w, C18_sub448_2w, C18_addsub448_1_2w, C18_addsub448_2_2w, C18_intmul448_2w, C18_intsqr448_2w, C18_compress448_2w, C18_compressfast448_2w, C18_compress2448_1_2w, C18_compress2448_2_2w, C18_mul448_2w, C18_sqr448_2w, C18_add448_4w, C18_sub448_4w, C18_addsub448_1_4w, C18_addsub448_2_4w, C18_intmul448_4w, C18_intsqr448_4w, C18_compress448_4w, C18_compressfast448_4w, C18_compress2448_1_4w, C18_compress2448_2_4w, C18_mul448_4w, C18_sqr448_4w, C18_moves, C18_moves448).
Print Assumptions C18_vector.

(** ** C19: refuted; what the comparison does decide *)
Theorem C19_refuted : forall st, exists x y, bytes 32 x /\ bytes 32 y /\ ~ eqm P25519 (le_val x) (le_val y) /\
  cmp_1w st (unser_1w st x) (unser_1w st y) = 0.
Proof. exact cmp_refuted. Qed.
Theorem C19_decides : forall st a b, limbs_below 10 reduced255 a -> limbs_below 10 reduced255 b ->
  (cmp_1w st a b = 0 <-> map Z.odd (ser_1w st a) = map Z.odd (ser_1w st b)) /\
  (eqm P25519 (value255 a) (value255 b) -> cmp_1w st a b = 0) /\
  (Z.odd (value255 a mod P25519) <> Z.odd (value255 b mod P25519) -> cmp_1w st a b <> 0).
Proof. exact cmp_decides. Qed.
Theorem C19_lanes : forall st a b c d, length a = 20%nat -> length b = 20%nat -> length c = 40%nat -> length d = 40%nat ->
  cmp_2w st a b = [cmp_1w st (lane 2 10 0 a) (lane 2 10 0 b); 0; cmp_1w st (lane 2 10 1 a) (lane 2 10 1 b); 0] /\
  cmp_4w st c d = map (fun j => cmp_1w st (lane 4 10 j c) (lane 4 10 j d)) (seq 0 4).
Proof. exact cmp_lanes. Qed.
Example C19_case : cmp_1w (PositiveMap.empty Z) (top_lanes 1 10 reduced255) (repeat 0 10) <> 0.
Proof. vm_compute. discriminate. Qed.
Definition C19_vector := (C19_refuted, C19_decides, C19_lanes).
Print Assumptions C19_vector.

(** ** C20 *)
Theorem C20_invsqrt_1w : forall st u v s, limbs_below 10 reduced255 u -> limbs_below 10 reduced255 v -> ~ eqm P25519 (value255 v) 0 ->
  eqm P25519 (value255 v * s ^ 2) (value255 u) ->
  let x := fst (invsqrt_1w st u v) in limbs_below 10 reduced255 x /\ eqm P25519 (value255 v * value255 x ^ 2) (value255 u).
Proof. exact invsqrt_1w_spec. Qed.
Theorem C20_srt_1w_refuted : forall st c a, limbs_below 10 reduced255 c -> limbs_below 10 reduced255 a ->
  eqm P25519 (value255 c) 1 -> eqm P25519 (value255 a) 4 ->
  let x := srt_1w st c a in ~ eqm P25519 (4 * value255 x ^ 2) 1 /\ ~ eqm P25519 (value255 x ^ 2) 4.
Proof. exact srt_1w_refuted. Qed.
Theorem C20_roots_4w_refuted : forall st u v, lanes 4 10 reduced255 u -> lanes 4 10 reduced255 v ->
  forall j, (j < 4)%nat -> value255 (lane 4 10 j u) = 1 -> value255 (lane 4 10 j v) = 1 ->
  ~ eqm P25519 (value255 (lane 4 10 j (fst (invsqrt_4w st u v))) ^ 2) 1 /\
  ~ eqm P25519 (value255 (lane 4 10 j (srt_4w st u v)) ^ 2) 1.
Proof. exact root4_refuted. Qed.
Example C20_case : let u := 4 :: repeat 0 9 in let v := 1 :: repeat 0 9 in
  limbs_below 10 reduced255 u /\ limbs_below 10 reduced255 v /\ ~ eqm P25519 (value255 v) 0 /\ eqm P25519 (value255 v * 2 ^ 2) (value255 u).
Proof.
  split; [apply lanes1_below, lanes_b_ok; vm_compute; reflexivity|]. split; [apply lanes1_below, lanes_b_ok; vm_compute; reflexivity|].
  split; [vm_compute; discriminate|vm_compute; reflexivity].
Qed.
Example C20_case_4w : let u := repeat 1 4 ++ repeat 0 36 in lanes 4 10 reduced255 u /\ value255 (lane 4 10 2 u) = 1.
Proof. split; [apply lanes_b_ok; vm_compute; reflexivity|vm_compute; reflexivity]. Qed.
Definition C20_vector := (C20_invsqrt_1w, C20_srt_1w_refuted, C20_roots_4w_refuted).
Print Assumptions C20_vector.

(** ** C26 *)
Theorem C26_mul_1w : forall st, computes2 1 16 pos448 P448 summed448 summed448 reduced448 Z.mul (mul448_1w st).
Proof. exact spec_448_C26_mul_1w. Qed.
Theorem C26_mul_1w_difference_left : forall st, computes2 1 16 pos448 P448 differed448 reduced448 reduced448 Z.mul (mul448_1w st).
Proof. exact spec_448_C26_mul_1w_wr. Qed.
Theorem C26_mul_1w_difference_right : forall st, computes2 1 16 pos448 P448 reduced448 differed448 reduced448 Z.mul (mul448_1w st).
Proof. exact spec_448_C26_mul_1w_rw. Qed.
Theorem C26_sqr_1w : forall st, computes1 1 16 pos448 P448 summed448 summed448 (fun x => x ^ 2) (sqr448_1w st).
Proof. exact spec_448_C26_sqr_1w. Qed.
Theorem C26_mul_2w : forall st, computes2 2 16 pos448 P448 summed448 summed448 reduced448 Z.mul (mul448_2w st).
Proof. exact spec_448_C26_mul_2w. Qed.
Theorem C26_mul_2w_difference_left : forall st, computes2 2 16 pos448 P448 differed448 reduced448 reduced448 Z.mul (mul448_2w st).
Proof. exact spec_448_C26_mul_2w_wr. Qed.
Theorem C26_mul_2w_difference_right : forall st, computes2 2 16 pos448 P448 reduced448 differed448 reduced448 Z.mul (mul448_2w st).
Proof. exact spec_448_C26_mul_2w_rw. Qed.
Theorem C26_sqr_2w : forall st, computes1 2 16 pos448 P448 summed448 reduced448 (fun x => x ^ 2) (sqr448_2w st).
Proof. exact spec_448_C26_sqr_2w. Qed.
Theorem C26_mul_4w : forall st, computes2 4 16 pos448 P448 summed448 summed448 reduced448 Z.mul (mul448_4w st).
Proof. exact spec_448_C26_mul_4w. Qed.
Theorem C26_mul_4w_difference_left : forall st, computes2 4 16 pos448 P448 differed448 reduced448 reduced448 Z.mul (mul448_4w st).
Proof. exact spec_448_C26_mul_4w_wr. Qed.
Theorem C26_mul_4w_difference_right : forall st, computes2 4 16 pos448 P448 reduced448 differed448 reduced448 Z.mul (mul448_4w st).
Proof. exact spec_448_C26_mul_4w_rw. Qed.
Theorem C26_sqr_4w : forall st, computes1 4 16 pos448 P448 summed448 reduced448 (fun x => x ^ 2) (sqr448_4w st).
Proof. exact spec_448_C26_sqr_4w. Qed.
Theorem C26_difference_times_difference_refuted : forall st, exists x y, bytes 56 x /\ bytes 56 y /\ le_val x = P448 - 1 /\ le_val y = 0 /\
  let d := sub448_1w st (unser448_1w st x) (unser448_1w st y) in
  limbs_below 16 differed448 d /\ eqm P448 (value448 d) (-1) /\ ~ eqm P448 (value448 (mul448_1w st d d)) 1.
Proof. exact mul448_refuted. Qed.
Example C26_case : value448 (lane 2 16 1 (mul448_2w (PositiveMap.empty Z) (top_lanes 2 16 summed448) (top_lanes 2 16 summed448))) mod P448
  = (value448 (lane 2 16 1 (top_lanes 2 16 summed448)) ^ 2) mod P448.
Proof. vm_compute. reflexivity. Qed.
Definition C26_vector := (C26_mul_1w, C26_mul_1w_difference_left, C26_mul_1w_difference_right, C26_sqr_1w, C26_mul_2w, C26_mul_2w_difference_left, C26_mul_2w_difference_right, C26_sqr_2w, C26_mul_4w, C26_mul_4w_difference_left, C26_mul_4w_difference_right, C26_sqr_4w, C26_difference_times_difference_refuted).
Print Assumptions C26_vector.

(** ** C27 *)
Theorem C27_add_1w : forall st, computes2 1 16 pos448 P448 reduced448 reduced448 summed448 Z.add (add448_1w st).
Proof. exact spec_448_C27_add_1w. Qed.
Theorem C27_sub_1w : forall st, computes2 1 16 pos448 P448 reduced448 reduced448 differed448 Z.sub (sub448_1w st).
Proof. exact spec_448_C27_sub_1w. Qed.
Theorem C27_neg_1w : forall st, computes1 1 16 pos448 P448 reduced448 differed448 Z.opp (neg448_1w st).
Proof. exact spec_448_C27_neg_1w. Qed.
Theorem C27_addsub_1_1w : forall st, computes2 1 16 pos448 P448 reduced448 reduced448 summed448 Z.add (fun a b => fst (addsub448_1w st a b)).
Proof. exact spec_448_C27_addsub_1_1w. Qed.
Theorem C27_addsub_2_1w : forall st, computes2 1 16 pos448 P448 reduced448 reduced448 differed448 Z.sub (fun a b => snd (addsub448_1w st a b)).
Proof. exact spec_448_C27_addsub_2_1w. Qed.
Theorem C27_compress_1w : forall st, computes1 1 16 pos448 P448 double448 reduced448 (fun x => x) (compress448_1w st).
Proof. exact spec_448_C27_compress_1w. Qed.
Theorem C27_compressfast_1w : forall st, computes1 1 16 pos448 P448 differed448 reduced448 (fun x => x) (compressfast448_1w st).
Proof. exact spec_448_C27_compressfast_1w. Qed.
Theorem C27_add_2w : forall st, computes2 2 16 pos448 P448 reduced448 reduced448 summed448 Z.add (add448_2w st).
Proof. exact spec_448_C27_add_2w. Qed.
Theorem C27_sub_2w : forall st, computes2 2 16 pos448 P448 reduced448 reduced448 differed448 Z.sub (sub448_2w st).
Proof. exact spec_448_C27_sub_2w. Qed.
Theorem C27_addsub_1_2w : forall st, computes2 2 16 pos448 P448 reduced448 reduced448 summed448 Z.add (fun a b => fst (addsub448_2w st a b)).
Proof. exact spec_448_C27_addsub_1_2w. Qed.
Theorem C27_addsub_2_2w : forall st, computes2 2 16 pos448 P448 reduced448 reduced448 differed448 Z.sub (fun a b => snd (addsub448_2w st a b)).
Proof. exact spec_448_C27_addsub_2_2w. Qed.
Theorem C27_compress_2w : forall st, computes1 2 16 pos448 P448 double448 reduced448 (fun x => x) (compress448_2w st).
Proof. exact spec_448_C27_compress_2w. Qed.
Theorem C27_compressfast_2w : forall st, computes1 2 16 pos448 P448 differed448 reduced448 (fun x => x) (compressfast448_2w st).
Proof. exact spec_448_C27_compressfast_2w. Qed.
Theorem C27_compress2_1_2w : forall st, computes2 2 16 pos448 P448 double448 double448 reduced448 (fun x _ => x) (fun a b => fst (compress2448_2w st a b)).
Proof. exact spec_448_C27_compress2_1_2w. Qed.
Theorem C27_compress2_2_2w : forall st, computes2 2 16 pos448 P448 double448 double448 reduced448 (fun _ y => y) (fun a b => snd (compress2448_2w st a b)).
Proof. exact spec_448_C27_compress2_2_2w. Qed.
Theorem C27_add_4w : forall st, computes2 4 16 pos448 P448 reduced448 reduced448 summed448 Z.add (add448_4w st).
Proof. exact spec_448_C27_add_4w. Qed.
Theorem C27_sub_4w : forall st, computes2 4 16 pos448 P448 reduced448 reduced448 differed448 Z.sub (sub448_4w st).
Proof. exact spec_448_C27_sub_4w. Qed.
Theorem C27_addsub_1_4w : forall st, computes2 4 16 pos448 P448 reduced448 reduced448 summed448 Z.add (fun a b => fst (addsub448_4w st a b)).
Proof. exact spec_448_C27_addsub_1_4w. Qed.
Theorem C27_addsub_2_4w : forall st, computes2 4 16 pos448 P448 reduced448 reduced448 differed448 Z.sub (fun a b => snd (addsub448_4w st a b)).
Proof. exact spec_448_C27_addsub_2_4w. Qed.
Theorem C27_compress_4w : forall st, computes1 4 16 pos448 P448 double448 reduced448 (fun x => x) (compress448_4w st).
Proof. exact spec_448_C27_compress_4w. Qed.
Theorem C27_compressfast_4w : forall st, computes1 4 16 pos448 P448 differed448 reduced448 (fun x => x) (compressfast448_4w st).
Proof. exact spec_448_C27_compressfast_4w. Qed.
Theorem C27_compress2_1_4w : forall st, computes2 4 16 pos448 P448 double448 double448 reduced448 (fun x _ => x) (fun a b => fst (compress2448_4w st a b)).
Proof. exact spec_448_C27_compress2_1_4w. Qed.
Theorem C27_compress2_2_4w : forall st, computes2 4 16 pos448 P448 double448 double448 reduced448 (fun _ y => y) (fun a b => snd (compress2448_4w st a b)).
Proof. exact spec_448_C27_compress2_2_4w. Qed.
Theorem C27_new_compressfast_1w : forall st, computes1 1 16 pos448 P448 differed448 reduced448 (fun x => x) (new_compressfast448_1w st).
Proof. exact spec_448_C27_new_compressfast_1w. Qed.
Theorem C27_new_compressfast2_1_4w : forall st, computes2 4 16 pos448 P448 differed448 differed448 reduced448 (fun x _ => x) (fun a b => fst (new_compressfast2448_4w st a b)).
Proof. exact spec_448_C27_new_compressfast2_1_4w. Qed.
Theorem C27_new_compressfast2_2_4w : forall st, computes2 4 16 pos448 P448 differed448 differed448 reduced448 (fun _ y => y) (fun a b => snd (new_compressfast2448_4w st a b)).
Proof. exact spec_448_C27_new_compressfast2_2_4w. Qed.
Example C27_case : value448 (lane 4 16 1 (sub448_4w (PositiveMap.empty Z) (repeat 0 64) (top_lanes 4 16 reduced448))) mod P448
  = (- value448 (lane 4 16 1 (top_lanes 4 16 reduced448))) mod P448.
Proof. vm_compute. reflexivity. Qed.
Definition C27_vector := (C27_add_1w, C27_sub_1w, C27_neg_1w, C27_addsub_1_1w, C27_addsub_2_1w, C27_compress_1w, C27_compressfast_1w, C27_add_2w, C27_sub_2w, C27_addsub_1_2w, C27_addsub_2_2w, C27_compress_2w, C27_compressfast_2w, C27_compress2_1_2w, C27_compress2_2_2w, C27_add_4w, C27_sub_4w, C27_addsub_1_4w, C27_addsub_2_4w, C27_compress_4w, C27_compressfast_4w, C27_compress2_1_4w, C27_compress2_2_4w, C27_new_compressfast_1w, C27_new_compressfast2_1_4w, C27_new_compressfast2_2_4w).
Print Assumptions C27_vector.

(** ** C28: refuted for sums; exact condition; elements just loaded are right *)
Theorem C28_refuted : forall st, exists x y, bytes 56 x /\ bytes 56 y /\ le_val x = P448 - 1 /\ le_val y = 2 ^ 224 + 1 + 2 ^ 64 /\
  le_val (ser448_1w st (add448_1w st (unser448_1w st x) (unser448_1w st y))) = 2 ^ 224.
Proof. exact ser448_add_refuted. Qed.
Theorem C28_exact : forall st a, limbs_below 16 differed448 a ->
  let v := value448 a in let u := v - nth 15 a 0 / 2 ^ 28 * P448 in
  (le_val (ser448_1w st a) = v mod P448 <->
   u mod 2 ^ 64 + u / 2 ^ 448 < 2 ^ 64 /\ u / 2 ^ 192 mod 2 ^ 64 + 2 ^ 32 * (u / 2 ^ 448) < 2 ^ 64).
Proof. exact ser448_iff. Qed.
Theorem C28_unser_1w : forall st, loads 1 16 pos448 P448 56 canonical448 (unser448_1w st).
Proof. exact loads448_1w. Qed.
Theorem C28_ser_1w : forall st, stores 1 16 pos448 P448 56 canonical448 (ser448_1w st).
Proof. exact stores448_1w. Qed.
Theorem C28_round_trip_1w : forall st buf, bytes (1 * 56) buf -> bytes (1 * 56) (ser448_1w st (unser448_1w st buf)) /\
  forall j, (j < 1)%nat -> le_val (part 56 j (ser448_1w st (unser448_1w st buf))) = le_val (part 56 j buf) mod P448.
Proof. exact round448_1w. Qed.
Theorem C28_unser_2w : forall st, loads 2 16 pos448 P448 56 canonical448 (unser448_2w st).
Proof. exact loads448_2w. Qed.
Theorem C28_ser_2w : forall st, stores 2 16 pos448 P448 56 canonical448 (ser448_2w st).
Proof. exact stores448_2w. Qed.
Theorem C28_round_trip_2w : forall st buf, bytes (2 * 56) buf -> bytes (2 * 56) (ser448_2w st (unser448_2w st buf)) /\
  forall j, (j < 2)%nat -> le_val (part 56 j (ser448_2w st (unser448_2w st buf))) = le_val (part 56 j buf) mod P448.
Proof. exact round448_2w. Qed.
Theorem C28_unser_4w : forall st, loads 4 16 pos448 P448 56 canonical448 (unser448_4w st).
Proof. exact loads448_4w. Qed.
Theorem C28_ser_4w : forall st, stores 4 16 pos448 P448 56 canonical448 (ser448_4w st).
Proof. exact stores448_4w. Qed.
Theorem C28_round_trip_4w : forall st buf, bytes (4 * 56) buf -> bytes (4 * 56) (ser448_4w st (unser448_4w st buf)) /\
  forall j, (j < 4)%nat -> le_val (part 56 j (ser448_4w st (unser448_4w st buf))) = le_val (part 56 j buf) mod P448.
Proof. exact round448_4w. Qed.
Example C28_case : le_val (part 56 3 (ser448_4w (PositiveMap.empty Z) (unser448_4w (PositiveMap.empty Z) (repeat 255 224)))) = 2 ^ 224.
Proof. vm_compute. reflexivity. Qed.
Definition C28_vector := (C28_refuted, C28_exact, C28_unser_1w, C28_ser_1w, C28_round_trip_1w, C28_unser_2w, C28_ser_2w, C28_round_trip_2w, C28_unser_4w, C28_ser_4w, C28_round_trip_4w).
Print Assumptions C28_vector.

(** ** C29 *)
Theorem C29_prime_1w : forall st, value255 (prime_1w st) = P25519.
Proof. exact prime_1w_spec. Qed.
Theorem C29_prime448_1w_refuted : forall st, value448 (prime448_1w st) = 2 ^ 448 - 2 ^ 112 - 1 /\ ~ eqm P448 (value448 (prime448_1w st)) 0.
Proof. exact prime448_1w_refuted. Qed.
Definition C29_vector := (C29_prime_1w, C29_prime448_1w_refuted).
Print Assumptions C29_vector.

(** ** C59 *)
Theorem C59_inv_1w : forall st a, limbs_below 10 reduced255 a ->
  let x := inv_1w st a in limbs_below 10 reduced255 x /\
  (~ eqm P25519 (value255 a) 0 -> eqm P25519 (value255 a * value255 x) 1) /\
  (eqm P25519 (value255 a) 0 -> eqm P25519 (value255 x) 0).
Proof. exact inv_1w_spec. Qed.
Theorem C59_inv448_1w : forall st a, limbs_below 16 summed448 a ->
  let x := inv448_1w st a in limbs_below 16 summed448 x /\
  (~ eqm P448 (value448 a) 0 -> eqm P448 (value448 a * value448 x) 1) /\
  (eqm P448 (value448 a) 0 -> eqm P448 (value448 x) 0).
Proof. exact inv448_1w_spec. Qed.
Example C59_case : limbs_below 16 summed448 (top_lanes 1 16 summed448) /\ ~ eqm P448 (value448 (top_lanes 1 16 summed448)) 0.
Proof. split; [exact (lanes1_below _ _ _ top_summed448_1w)|vm_compute; discriminate]. Qed.
Definition C59_vector := (C59_inv_1w, C59_inv448_1w).
Print Assumptions C59_vector.

(** ** C60 *)
Theorem C60_srt448_1w : forall st a s, limbs_below 16 summed448 a -> ~ eqm P448 (value448 a) 0 -> eqm P448 (s ^ 2) (value448 a) ->
  let x := srt448_1w st a in limbs_below 16 summed448 x /\ eqm P448 (value448 a * value448 x ^ 2) 1.
Proof. exact srt448_1w_spec. Qed.
Example C60_case : let a := 9 :: repeat 0 15 in limbs_below 16 summed448 a /\ ~ eqm P448 (value448 a) 0 /\ eqm P448 (3 ^ 2) (value448 a).
Proof. split; [apply lanes1_below, lanes_b_ok; vm_compute; reflexivity|]. split; [vm_compute; discriminate|vm_compute; reflexivity]. Qed.
Print Assumptions C60_srt448_1w.

(** ** C61 *)
Theorem C61_cmp448 : forall st x y, bytes 56 x -> bytes 56 y ->
  (cmp448_1w st (unser448_1w st x) (unser448_1w st y) = 0 <-> eqm P448 (le_val x) (le_val y)).
Proof. exact cmp448_decides. Qed.
Theorem C61_lanes : forall st a b c d, length a = 32%nat -> length b = 32%nat -> length c = 64%nat -> length d = 64%nat ->
  cmp448_2w st a b = [cmp448_1w st (lane 2 16 0 a) (lane 2 16 0 b); 0; cmp448_1w st (lane 2 16 1 a) (lane 2 16 1 b); 0] /\
  cmp448_4w st c d = map (fun j => cmp448_1w st (lane 4 16 j c) (lane 4 16 j d)) (seq 0 4).
Proof. exact cmp448_lanes. Qed.
Example C61_case : cmp448_1w (PositiveMap.empty Z) (unser448_1w (PositiveMap.empty Z) (repeat 255 56)) (unser448_1w (PositiveMap.empty Z) (repeat 0 28 ++ 1 :: repeat 0 27)) = 0.
Proof. vm_compute. reflexivity. Qed.
Definition C61_vector := (C61_cmp448, C61_lanes).
Print Assumptions C61_vector.

(** ** C62: operations whose lanes do different things *)
Theorem C62_ngz_2w : forall st a, lanes 2 10 reduced255 a -> let r := ngz_2w st a in
  eqm P25519 (value255 (lane 2 10 0 r)) (- value255 (lane 2 10 0 a)) /\
  eqm P25519 (value255 (lane 2 10 1 r)) (value255 (lane 2 10 1 a)) /\
  limbs_below 10 unreduced255 (lane 2 10 0 r) /\ limbs_below 10 reduced255 (lane 2 10 1 r).
Proof. exact mixed_ngz_2w. Qed.
Theorem C62_subadd_2w : forall st perm a, lanes 2 10 reduced255 a -> let r := subadd_2w st perm a in
  let x := value255 (lane 2 10 0 a) in let y := value255 (lane 2 10 1 a) in
  eqm P25519 (value255 (lane 2 10 0 r)) (if perm then y - x else x - y) /\
  eqm P25519 (value255 (lane 2 10 1 r)) (x + y) /\
  limbs_below 10 unreduced255 (lane 2 10 0 r) /\ limbs_below 10 unreduced255 (lane 2 10 1 r).
Proof. exact mixed_subadd_2w. Qed.
Theorem C62_ngz_4w : forall st a, lanes 4 10 reduced255 a -> let r := ngz_4w st a in
  eqm P25519 (value255 (lane 4 10 0 r)) (value255 (lane 4 10 1 a)) /\
  eqm P25519 (value255 (lane 4 10 1 r)) (value255 (lane 4 10 0 a)) /\
  eqm P25519 (value255 (lane 4 10 2 r)) (- value255 (lane 4 10 2 a)) /\
  eqm P25519 (value255 (lane 4 10 3 r)) (value255 (lane 4 10 3 a)) /\
  limbs_below 10 reduced255 (lane 4 10 0 r) /\ limbs_below 10 reduced255 (lane 4 10 1 r) /\
  limbs_below 10 unreduced255 (lane 4 10 2 r) /\ limbs_below 10 reduced255 (lane 4 10 3 r).
Proof. exact mixed_ngz_4w. Qed.
Theorem C62_ngz448_2w : forall st a, lanes 2 16 reduced448 a -> let r := ngz448_2w st a in
  eqm P448 (value448 (lane 2 16 0 r)) (- value448 (lane 2 16 0 a)) /\
  eqm P448 (value448 (lane 2 16 1 r)) (value448 (lane 2 16 1 a)) /\
  limbs_below 16 differed448 (lane 2 16 0 r) /\ limbs_below 16 reduced448 (lane 2 16 1 r).
Proof. exact mixed_ngz448_2w. Qed.
Theorem C62_subadd448_2w : forall st perm a, lanes 2 16 reduced448 a -> let r := subadd448_2w st perm a in
  let x := value448 (lane 2 16 0 a) in let y := value448 (lane 2 16 1 a) in
  eqm P448 (value448 (lane 2 16 0 r)) (if perm then y - x else x - y) /\
  eqm P448 (value448 (lane 2 16 1 r)) (x + y) /\
  limbs_below 16 differed448 (lane 2 16 0 r) /\ limbs_below 16 differed448 (lane 2 16 1 r).
Proof. exact mixed_subadd448_2w. Qed.
Theorem C62_ngz448_4w : forall st a, lanes 4 16 reduced448 a -> let r := ngz448_4w st a in
  eqm P448 (value448 (lane 4 16 0 r)) (value448 (lane 4 16 1 a)) /\
  eqm P448 (value448 (lane 4 16 1 r)) (value448 (lane 4 16 0 a)) /\
  eqm P448 (value448 (lane 4 16 2 r)) (- value448 (lane 4 16 2 a)) /\
  eqm P448 (value448 (lane 4 16 3 r)) (value448 (lane 4 16 3 a)) /\
  limbs_below 16 reduced448 (lane 4 16 0 r) /\ limbs_below 16 reduced448 (lane 4 16 1 r) /\
  limbs_below 16 differed448 (lane 4 16 2 r) /\ limbs_below 16 reduced448 (lane 4 16 3 r).
Proof. exact mixed_ngz448_4w. Qed.
Example C62_case : let a := top_lanes 4 10 reduced255 in lanes 4 10 reduced255 a /\
  value255 (lane 4 10 2 (ngz_4w (PositiveMap.empty Z) a)) mod P25519 = - value255 (lane 4 10 2 a) mod P25519.
Proof. split; [exact top_reduced255_4w|vm_compute; reflexivity]. Qed.
Definition C62_vector := (C62_ngz_2w, C62_subadd_2w, C62_ngz_4w, C62_ngz448_2w, C62_subadd448_2w, C62_ngz448_4w).
Print Assumptions C62_vector.
