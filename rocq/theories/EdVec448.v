(** Limb-wise combinations and tight bounds of the products used by the point formulas of edwards448. *)
From Coq Require Import ZArith List Bool Lia.
From Verif Require Import Uop X86 Sym Engine Bytes Check FullTac Lanes RedTac Simd Simd448 Fp448Full Fp448FullProofs FullMore
  Fp25519Red Fp448Red Fp448RedProofs Fp448RedMore Fp448RedRoot Spec Ladder LadderProofs LadderVec LadderVec448 Edwards255 EdVec Edwards448.
Import ListNotations.
Open Scope Z_scope.
Definition sq448 : list (Z * Z) := Eval vm_compute in bnd448 (38 * 2 ^ 56 + 2 ^ 45) (38 * 2 ^ 56 + 2 ^ 45).
Definition sq2_448 : list (Z * Z) := Eval vm_compute in bnd448 (76 * 2 ^ 56 + 2 ^ 46) (76 * 2 ^ 56 + 2 ^ 46).
Definition c35q : list Z := Eval vm_compute in pick (ixh false) 16 CONST_2_to_35P_ED448.
Definition c35qb : list (Z * Z) := Eval vm_compute in map (fun x => (x, x)) c35q.
Lemma c35q_halves h : pick (ixh h) 16 CONST_2_to_35P_ED448 = c35q. Proof. destruct h; reflexivity. Qed.
Lemma c35q_ok : arr_ok c35qb c35q. Proof. apply arr_lit. vm_compute. reflexivity. Qed.
Lemma c35q_cq : cq (fe448 c35q) 0. Proof. vm_compute. reflexivity. Qed.
Definition zb16 : list (Z * Z) := repeat (0, 0) 16.
Lemma zeros16 : arr_ok zb16 (repeat 0 16). Proof. apply arr_lit. reflexivity. Qed.
Section Tight.
Variable st : store.
Notation l2 a := (length a = 32%nat). Notation l4 a := (length a = 64%nat).
Ltac duo chk prog xs out ob e ins h := do_duo chk prog wt448 xs out ob Q e ins st 16%nat h.
Ltac quad chk prog xs out ob e ins j := do_quad chk prog wt448 xs out ob Q e ins st 16%nat j.
Lemma intsqr448_2w_tight a h : l2 a -> is_red448 (el2q h a) ->
  cq (fe448 (el2q h (intsqr448_2w st a))) (fe448 (el2q h a) * fe448 (el2q h a)) /\ arr_ok sq448 (el2q h (intsqr448_2w st a)).
Proof. intros. duo chkq2_intsqr v448_2w_intsqr_karat [(q1, red448)] q1 sq448 (VMul (VIn 0) (VIn 0)) [a] h. Qed.
Lemma intmul448_2w_tight a b h : l2 a -> l2 b -> is_red448 (el2q h a) -> is_red448 (el2q h b) ->
  cq (fe448 (el2q h (intmul448_2w st a b))) (fe448 (el2q h a) * fe448 (el2q h b)) /\ arr_ok sq448 (el2q h (intmul448_2w st a b)).
Proof. intros. duo chkq2_intmul v448_2w_intmul_karat [(q2, red448); (q3, red448)] q1 sq448 (VMul (VIn 0) (VIn 1)) [a; b] h. Qed.
Lemma add448_2w_sq a b h : l2 a -> l2 b -> arr_ok sq448 (el2q h a) -> arr_ok sq448 (el2q h b) ->
  cq (fe448 (el2q h (add448_2w st a b))) (fe448 (el2q h a) + fe448 (el2q h b)) /\ arr_ok sq2_448 (el2q h (add448_2w st a b)).
Proof. intros. duo chkq2_add v448_2w_add [(q2, sq448); (q3, sq448)] q1 sq2_448 (VAdd (VIn 0) (VIn 1)) [a; b] h. Qed.
Variable j : nat.
Hypothesis Hj : (j < 4)%nat.
Lemma intmul448_4w_tight a b : l4 a -> l4 b -> is_red448 (el4q j a) -> is_red448 (el4q j b) ->
  cq (fe448 (el4q j (intmul448_4w st a b))) (fe448 (el4q j a) * fe448 (el4q j b)) /\ arr_ok sq448 (el4q j (intmul448_4w st a b)).
Proof. intros. quad chkq4_intmul v448_4w_intmul_karat [(q2, red448); (q3, red448)] q1 sq448 (VMul (VIn 0) (VIn 1)) [a; b] j. Qed.
End Tight.
