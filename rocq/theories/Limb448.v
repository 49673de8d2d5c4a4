(** The limb-wise routines of the four-lane field arithmetic of edwards448, limb by limb. *)
From Coq Require Import ZArith List Bool Lia FSets.FMapPositive.
From Verif Require Import Uop X86 Sym Engine Bytes Check FullTac Lanes RedTac Simd Simd448 Fp448Full Fp448FullProofs FullMore
  Fp25519Red Fp448Red Fp448RedProofs Spec LadderProofs LadderVec Edwards255 EdVec Edwards255Proofs Edwards448.
Import ListNotations.
Open Scope Z_scope.
Notation z16 := (repeat 0 16).
Ltac list16v H := do 16 (apply len_S in H as (? & ? & -> & H)); apply length_zero_iff_nil in H; subst.
Definition lane_add : list uop := Eval vm_compute in lane_prog (vcode v448_4w_add) q1 16.
Definition lane_sub : list uop := Eval vm_compute in lane_prog (vcode v448_4w_sub) q1 16.
Definition lane_lar1 : list uop := Eval vm_compute in lane_prog (vcode v448_4w_addsublar) q1 16.
Definition lane_lar2 : list uop := Eval vm_compute in lane_prog (vcode v448_4w_addsublar) q2 16.
Lemma comb_w x y : wadd x y = comb x 0 0 y. Proof. unfold wadd, comb. f_equal. ring. Qed.
Lemma comb_ws x c y : wadd x (wsub c y) = comb x y 0 c. Proof. unfold wadd, wsub, comb. rewrite Zplus_mod_idemp_r. f_equal. ring. Qed.
Lemma zip_add : forall x y : list Z, length x = length y -> zip2 wadd x y = combs x (repeat 0 (length x)) (repeat 0 (length x)) y.
Proof. induction x as [|a x IH]; intros [|b y] H; try discriminate H; [reflexivity|]. injection H as H. cbn [zip2 combs repeat length]. rewrite comb_w, IH by exact H. reflexivity. Qed.
Lemma zip_sub : forall x y c : list Z, length x = length y -> length x = length c -> zip2 wadd x (zip2 wsub c y) = combs x y (repeat 0 (length x)) c.
Proof.
  induction x as [|a x IH]; intros [|b y] [|d c] H K; try discriminate H; try discriminate K; [reflexivity|]. injection H as H. injection K as K.
  cbn [zip2 combs repeat length]. rewrite comb_ws, IH by assumption. reflexivity.
Qed.
Section Run.
Variables x y : list Z.
Hypotheses (H : length x = 16%nat) (K : length y = 16%nat).
Notation em := (PositiveMap.empty Z).
Lemma run_add : call lane_add [(512%positive, x); (768%positive, y)] 256%positive 16 em = combs x z16 z16 y.
Proof. rewrite <- H at 2 3. rewrite <- zip_add by congruence. list16v H. list16v K. reflexivity. Qed.
Lemma run_sub : call lane_sub [(512%positive, x); (768%positive, y)] 256%positive 16 em = combs x y z16 limbs_2P448.
Proof. rewrite <- H at 2. rewrite <- zip_sub by (rewrite H, ?K; reflexivity). list16v H. list16v K. reflexivity. Qed.
Lemma run_lar1 : call lane_lar1 [(256%positive, x); (512%positive, y)] 256%positive 16 em = combs x z16 z16 y.
Proof. rewrite <- H at 2 3. rewrite <- zip_add by congruence. list16v H. list16v K. reflexivity. Qed.
Lemma run_lar2 : call lane_lar2 [(256%positive, x); (512%positive, y)] 512%positive 16 em = combs x y z16 limbs_2_34P448.
Proof. rewrite <- H at 2. rewrite <- zip_sub by (rewrite H, ?K; reflexivity). list16v H. list16v K. reflexivity. Qed.
End Run.
Section Quad.
Variables (st : store) (j : nat).
Hypothesis Hj : (j < 4)%nat.
Variables a b : list Z.
Hypotheses (La : length a = 64%nat) (Lb : length b = 64%nat).
Ltac go chk prog Bs out run :=
  pose proof chk as H; unfold quad_check in H; rewrite forallb_forall in H; specialize (H j ltac:(apply in_seq; lia));
  pose proof (lane_pick (lane4 j) (ix4 j) unlane4 4 (lane4_inj j) prog _ Bs out 16 [a; b] st (PositiveMap.empty Z) H) as E;
  refine (eq_trans (E _) (run _ _ _ _)); [repeat constructor; assumption|apply pick_length|apply pick_length].
Lemma add448_limbs : el4q j (add448_4w st a b) = combs (el4q j a) z16 z16 (el4q j b).
Proof. go chkq4_add v448_4w_add [q2; q3] q1 run_add. Qed.
Lemma sub448_limbs : el4q j (sub448_4w st a b) = combs (el4q j a) (el4q j b) z16 limbs_2P448.
Proof. go chkq4_sub v448_4w_sub [q2; q3] q1 run_sub. Qed.
Lemma lar1_limbs : el4q j (fst (addsublar448_4w st a b)) = combs (el4q j a) z16 z16 (el4q j b).
Proof. go chkq4_addsublar1 v448_4w_addsublar [q1; q2] q1 run_lar1. Qed.
Lemma lar2_limbs : el4q j (snd (addsublar448_4w st a b)) = combs (el4q j a) (el4q j b) z16 limbs_2_34P448.
Proof. go chkq4_addsublar2 v448_4w_addsublar [q1; q2] q2 run_lar2. Qed.
End Quad.
