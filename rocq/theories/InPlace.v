(** Calls whose arrays overlap, and independence from uninitialised memory. *)
From Coq Require Import ZArith List Bool Lia.
From Verif Require Import Uop X86 Engine Alias Bytes Asm25519 Asm448 Fp25519Full Fp448Full.
Import ListNotations.
Open Scope Z_scope.

(** Which of the arrays c (output), a and b of a three-operand function coincide. *)
Inductive overlap := ODistinct | OCA | OCB | OAB | OCAB.
Definition bases (o : overlap) : loc * loc * loc :=
  match o with
  | ODistinct => (bC, bA, bB)
  | OCA => (bA, bA, bB)
  | OCB => (bB, bA, bB)
  | OAB => (bC, bA, bA)
  | OCAB => (bA, bA, bA)
  end.
Definition shares_ab (o : overlap) : bool := match o with OAB | OCAB => true | _ => false end.
(** Run [p] on arrays overlapping as told by [o] (when a and b coincide, [b] is
    not used) and read the output array. *)
Definition asm2_at (st0 : store) (o : overlap) (p : list instr) (n : nat) (a b : list Z) : list Z :=
  let '(c, x, y) := bases o in
  call (code (env_of [c; x; y]) p) (if shares_ab o then [(x, a)] else [(x, a); (y, b)]) c n st0.

Definition same2 (o : overlap) (p : list instr) (m n : nat) : bool :=
  let '(c, x, y) := bases o in
  same_res (code (env_of [c; x; y]) p) (code (env_of [bC; bA; bB]) p) [(x, bA, m); (y, bB, m)] c bC n.

Lemma rd_wr_at b ws st : rd b (length ws) (wr b ws st) = ws.
Proof.
  revert b st; induction ws as [|w ws IH]; intros b st; cbn [length rd wr]; auto.
  rewrite IH, get_wr_other by lia. now rewrite get_set_same.
Qed.
Lemma rd_wr_off b b' ws n st : Zpos b + Z.of_nat n <= Zpos b' \/ Zpos b' + Z.of_nat (length ws) <= Zpos b ->
  rd b n (wr b' ws st) = rd b n st.
Proof.
  revert b; induction n; intros b H; cbn [rd]; auto.
  f_equal; [apply get_wr_other; lia|]. apply IHn. lia.
Qed.
Lemma asm2_at_eq st st' o p m n a b : same2 o p m n = true -> (m <= 64)%nat -> length a = m -> length b = m ->
  (shares_ab o = true -> a = b) -> asm2_at st o p n a b = asm2 st' p n a b.
Proof.
  intros S Hm La Lb E. unfold asm2_at, asm2, call, same2 in *. destruct (bases o) as [[c x] y] eqn:B.
  apply (same_res_sound _ _ _ _ _ _ _ _ S).
  assert (R1 : rd bA m (wrs [(bA, a); (bB, b)] st') = a).
  { cbn [wrs]. rewrite <- La. apply rd_wr_at. }
  assert (R2 : rd bB m (wrs [(bA, a); (bB, b)] st') = b).
  { cbn [wrs]. rewrite rd_wr_off by (unfold bA, bB; lia). rewrite <- Lb. apply rd_wr_at. }
  constructor; [|constructor; [|constructor]]; cbn [fst snd]; rewrite ?R1, ?R2;
  destruct o; injection B as <- <- <-; cbn [shares_ab] in *; try rewrite <- (E eq_refl); cbn [wrs]; try subst m;
  rewrite ?rd_wr_at; auto;
  try (rewrite rd_wr_off by (unfold bA, bB; lia); rewrite <- Lb; apply rd_wr_at).
Qed.

Definition all_overlaps := [ODistinct; OCA; OCB; OAB; OCAB].
Lemma all_overlaps_in o : In o all_overlaps. Proof. destruct o; cbn; tauto. Qed.
Lemma inplace_all p m n : forallb (fun o => same2 o p m n) all_overlaps = true -> (m <= 64)%nat ->
  forall st st' o a b, length a = m -> length b = m -> (shares_ab o = true -> a = b) ->
  asm2_at st o p n a b = asm2 st' p n a b.
Proof.
  intros H Hm st st' o a b La Lb E. rewrite forallb_forall in H.
  apply (asm2_at_eq st st' o p m); auto. apply H, all_overlaps_in.
Qed.

(** add, sub: any overlap. *)
Lemma add_inplace st st' k o a b : length a = 4%nat -> length b = 4%nat -> (shares_ab o = true -> a = b) ->
  asm2_at st o (if adx k then asm_add_adx else asm_add_adc) 4 a b = add st' k a b.
Proof.
  intros. unfold add. destruct (adx k); apply (inplace_all _ 4); auto; vm_compute; try reflexivity; repeat constructor.
Qed.
Lemma sub_inplace st st' o a b : length a = 4%nat -> length b = 4%nat -> (shares_ab o = true -> a = b) ->
  asm2_at st o asm_sub 4 a b = sub st' a b.
Proof. intros. apply (inplace_all _ 4); auto; vm_compute; try reflexivity; repeat constructor. Qed.
Lemma add448_inplace st st' k o a b : length a = 7%nat -> length b = 7%nat -> (shares_ab o = true -> a = b) ->
  asm2_at st o (if adx k then asm448_add_adx else asm448_add_adc) 7 a b = add448 st' k a b.
Proof.
  intros. unfold add448. destruct (adx k); apply (inplace_all _ 7); auto; vm_compute; try reflexivity; repeat constructor.
Qed.
Lemma sub448_inplace st st' o a b : length a = 7%nat -> length b = 7%nat -> (shares_ab o = true -> a = b) ->
  asm2_at st o asm448_sub 7 a b = sub448 st' a b.
Proof. intros. apply (inplace_all _ 7); auto; vm_compute; try reflexivity; repeat constructor. Qed.

(** intmul with equal factors (the output array of intmul is always distinct:
    mul uses a local buffer). *)
Lemma intmul_same st st' k a : length a = 4%nat ->
  asm2_at st OAB (if bmi2 k then if adx k then asm_intmul_mulxadx else asm_intmul_mulx else asm_intmul_mulq) 8 a a
  = intmul st' k a a.
Proof.
  intros. unfold intmul. destruct (bmi2 k); [destruct (adx k)|]; apply (asm2_at_eq _ _ _ _ 4); auto; vm_compute; try reflexivity; repeat constructor.
Qed.
Lemma intmul448_same st st' k a : length a = 7%nat ->
  asm2_at st OAB (if bmi2 k then if adx k then asm448_intmul_mulxadx else asm448_intmul_mulx else asm448_intmul_mulq) 14 a a
  = intmul448 st' k a a.
Proof.
  intros. unfold intmul448. destruct (bmi2 k); [destruct (adx k)|]; apply (asm2_at_eq _ _ _ _ 7); auto; vm_compute; try reflexivity; repeat constructor.
Qed.

(** mula24 with c = a. *)
Definition mula24_inplace (st0 : store) (k : cpu) (a : list Z) : list Z :=
  call (code (env_of [bA; bA; bB])
         (MOV (Im 121666) (D 2) :: (if bmi2 k then asm_mula24_mulx else asm_mula24_mulq)))
    [(bA, a)] bA 4 st0.
Lemma mula24_inplace_eq st st' k a : length a = 4%nat -> mula24_inplace st k a = mula24 st' k a.
Proof.
  intro La. unfold mula24_inplace, mula24, call.
  destruct (bmi2 k); apply (same_res_sound _ _ [(bA, bA, 4%nat)]);
  try (vm_compute; reflexivity); constructor; auto; cbn [fst snd wrs]; rewrite <- La; now rewrite !rd_wr_at.
Qed.
Definition mula24_448_inplace (st0 : store) (k : cpu) (a : list Z) : list Z :=
  call (code (env_of [bA; bA; bB])
         (MOV (Im 39082) (D 2) :: (if bmi2 k then asm448_mula24_mulx else asm448_mula24_mulq)))
    [(bA, a)] bA 7 st0.
Lemma mula24_448_inplace_eq st st' k a : length a = 7%nat -> mula24_448_inplace st k a = mula24_448 st' k a.
Proof.
  intro La. unfold mula24_448_inplace, mula24_448, call.
  destruct (bmi2 k); apply (same_res_sound _ _ [(bA, bA, 7%nat)]);
  try (vm_compute; reflexivity); constructor; auto; cbn [fst snd wrs]; rewrite <- La; now rewrite !rd_wr_at.
Qed.

(** The output does not depend on the uninitialised store. *)
Lemma asm2_indep st st' p m n a b : same2 ODistinct p m n = true -> (m <= 64)%nat -> length a = m -> length b = m ->
  asm2 st p n a b = asm2 st' p n a b.
Proof. intros H Hm La Lb. apply (asm2_at_eq st st' ODistinct p m n a b H Hm La Lb). discriminate. Qed.
Lemma call_indep prog ins out n st st' :
  same_res prog prog (map (fun x => (fst x, fst x, length (snd x))) ins) out out n = true ->
  disjoint (map (fun x => (fst x, length (snd x))) ins) = true ->
  call prog ins out n st = call prog ins out n st'.
Proof.
  intros S D. unfold call. apply (same_res_sound _ _ _ _ _ _ _ _ S).
  pose proof (rd_wrs ins st D) as R. pose proof (rd_wrs ins st' D) as R'.
  rewrite Forall_forall in R, R'. apply Forall_forall. intros x Hx. apply in_map_iff in Hx as (y & <- & Hy).
  cbn [fst snd]. rewrite (R y Hy), (R' y Hy). reflexivity.
Qed.
Ltac len_tac := repeat match goal with
  | H : length ?a = S _ |- _ => destruct a as [|? a]; [discriminate H|]; cbn [length] in H; apply eq_add_S in H
  | H : length ?a = O |- _ => destruct a; [clear H|discriminate H] end.
Ltac indep := intros; len_tac;
  repeat match goal with |- context [if bmi2 ?k then _ else _] => destruct (bmi2 k)
                    | |- context [if adx ?k then _ else _] => destruct (adx k) end;
  apply call_indep; vm_cast_no_check (eq_refl true).
Lemma intmul_indep st st' k a b : length a = 4%nat -> length b = 4%nat -> intmul st k a b = intmul st' k a b.
Proof. unfold intmul, asm2. indep. Qed.
Lemma intsqr_indep st st' k a : length a = 4%nat -> intsqr st k a = intsqr st' k a.
Proof. unfold intsqr, asm1. indep. Qed.
Lemma reduce_indep st st' k a : length a = 8%nat -> reduce st k a = reduce st' k a.
Proof. unfold reduce, asm1. indep. Qed.
Lemma add_indep st st' k a b : length a = 4%nat -> length b = 4%nat -> add st k a b = add st' k a b.
Proof. unfold add, asm2. indep. Qed.
Lemma sub_indep st st' a b : length a = 4%nat -> length b = 4%nat -> sub st a b = sub st' a b.
Proof. unfold sub, asm2. indep. Qed.
Lemma mula24_indep st st' k a : length a = 4%nat -> mula24 st k a = mula24 st' k a.
Proof. unfold mula24. indep. Qed.
Lemma modp_indep st st' a : length a = 4%nat -> modp st a = modp st' a.
Proof. unfold modp. indep. Qed.
Lemma cmv_indep st st' bit a b : length a = 4%nat -> length b = 4%nat -> cmv st bit a b = cmv st' bit a b.
Proof. unfold cmv. indep. Qed.
Lemma intmul448_indep st st' k a b : length a = 7%nat -> length b = 7%nat -> intmul448 st k a b = intmul448 st' k a b.
Proof. unfold intmul448, asm2. indep. Qed.
Lemma intsqr448_indep st st' k a : length a = 7%nat -> intsqr448 st k a = intsqr448 st' k a.
Proof. unfold intsqr448, asm1. indep. Qed.
Lemma reduce448_indep st st' k a : length a = 14%nat -> reduce448 st k a = reduce448 st' k a.
Proof. unfold reduce448, asm1. indep. Qed.
Lemma add448_indep st st' k a b : length a = 7%nat -> length b = 7%nat -> add448 st k a b = add448 st' k a b.
Proof. unfold add448, asm2. indep. Qed.
Lemma sub448_indep st st' a b : length a = 7%nat -> length b = 7%nat -> sub448 st a b = sub448 st' a b.
Proof. unfold sub448, asm2. indep. Qed.
Lemma mula24_448_indep st st' k a : length a = 7%nat -> mula24_448 st k a = mula24_448 st' k a.
Proof. unfold mula24_448. indep. Qed.
Lemma cmv448_indep st st' bit a b : length a = 7%nat -> length b = 7%nat -> cmv448 st bit a b = cmv448 st' bit a b.
Proof. unfold cmv448. indep. Qed.
