(** The point formulas of edwards255.c in the vocabulary of SpecEdVec. *)
From Coq Require Import ZArith List Bool Lia FMapPositive.
From Verif Require Import Uop X86 Sym Engine Bytes Check FullTac Lanes RedTac Simd Simd255 Fp25519Full FullMore
  Fp25519Red Fp25519RedProofs Fp25519RedMore Spec SpecVec RedProps Ladder LadderProofs LadderVec SpecEd CurveInst EdInst Edwards255 EdVec Edwards255Proofs
  Verify255 Verify255Proofs SpecEdVec.
Import ListNotations.
Open Scope Z_scope.
Notation l2 a := (length a = 20%nat).
Notation l4 a := (length a = 40%nat).

Lemma red_below a : is_red a <-> limbs_below 10 reduced255 a. Proof. apply below_ok, red255_below. Qed.
Lemma canon_below a : arr_ok canon255 a <-> limbs_below 10 canonical255 a. Proof. apply below_ok, canon255_below. Qed.
Lemma twoc255_below : twoc255 = map (fun k => (0, twice_canonical255 (limb_index 10 k))) (seq 0 10). Proof. vm_compute. reflexivity. Qed.
Lemma twoc_below a : arr_ok twoc255 a <-> limbs_below 10 twice_canonical255 a. Proof. apply below_ok, twoc255_below. Qed.
Lemma point_ptv X Y Zc T P : point255 X Y Zc T P <-> ptv X Y Zc T P.
Proof.
  unfold point255, ptv. rewrite <- !red_below. split; intros (O & A & B & C & D & R); (split; [exact O|]); (split; [exact A|]); (split; [exact B|]);
  (split; [exact C|]); (split; [exact D|]); apply red_below in A, B, C, D; destruct A as [A _], B as [B _], C as [C _], D as [D _];
  rewrite ?value255_ok in * by assumption; exact R.
Qed.
Lemma elem_rr f b a x : b = map (fun k => (0, f (limb_index 10 k))) (seq 0 10) -> elem255 f a x <-> rr b a x.
Proof.
  intro E. unfold elem255, rr. rewrite <- (below_ok 10 f b a E). split; intros [A H]; (split; [exact A|]); apply (below_ok 10 f b a E) in A; destruct A as [A _].
  - rewrite value255_ok in H by exact A. apply cg_of. exact H.
  - rewrite value255_ok by exact A. apply cgm. exact H.
Qed.
Lemma pt2_iff p P : point_2w255 (fst p) (snd p) P <-> pt_2w p P.
Proof.
  unfold point_2w255, pt_2w. rewrite !lane2 by lia. change (hf 0) with false. change (hf 1) with true.
  split; intros (A & B & C); (split; [exact A|]); (split; [exact B|]); apply point_ptv; exact C.
Qed.
Lemma pt4_iff q P : point_4w255 q P <-> pt_4w q P.
Proof.
  unfold point_4w255, pt_4w. rewrite !lane4. split; intros (A & C); (split; [exact A|]); apply point_ptv; exact C.
Qed.
Lemma pre4_iff e P : entry_4w255 e P <-> pre_4w e P.
Proof.
  destruct P as [x y]. unfold entry_4w255, pre_4w. cbn [fst snd]. rewrite !lane4.
  split; intros (A & O & w & H & E0 & E1 & E2 & E3); (split; [exact A|]); (split; [exact O|]); exists w; (split; [exact H|]);
    (split; [|split; [|split]]); apply (elem_rr _ _ _ _ red255_below); assumption.
Qed.
Lemma pre2_iff e P : entry_2w255 (fst e) (snd e) P <-> pre_2w e P.
Proof.
  destruct P as [x y]. unfold entry_2w255, pre_2w. cbn [fst snd]. rewrite !lane2 by lia. change (hf 0) with false. change (hf 1) with true.
  split; intros (A & B & O & w & H & E0 & E1 & E2 & E3); (split; [exact A|]); (split; [exact B|]); (split; [exact O|]); exists w; (split; [exact H|]);
    (split; [|split; [|split]]); apply (elem_rr _ _ _ _ red255_below); assumption.
Qed.
Definition pts (w : nat) (p : point4) := points255 w (cX p) (cY p) (cZ p) (cT p).
Lemma hf_h h : exists j, (j < 2)%nat /\ hf j = h. Proof. destruct h; [exists 1%nat|exists 0%nat]; split; try reflexivity; lia. Qed.
Lemma pts2 p Ps : pts 2 p Ps <-> all4 20 p /\ forall j, (j < 2)%nat -> pt_2way p (hf j) (Ps j).
Proof.
  unfold pts, points255, all4, pt_2way. split.
  - intros (A & B & C & D & H). split; [now split|]. intros j Hj. specialize (H j Hj). rewrite !lane2 in H by exact Hj. apply point_ptv. exact H.
  - intros ((A & B & C & D) & H). split; [exact A|]. split; [exact B|]. split; [exact C|]. split; [exact D|]. intros j Hj. rewrite !lane2 by exact Hj. apply point_ptv, H, Hj.
Qed.
Lemma pts4 p Ps : pts 4 p Ps <-> all4 40 p /\ forall j, (j < 4)%nat -> pt_4way p j (Ps j).
Proof.
  unfold pts, points255, all4, pt_4way. split.
  - intros (A & B & C & D & H). split; [now split|]. intros j Hj. specialize (H j Hj). rewrite !lane4 in H. apply point_ptv. exact H.
  - intros ((A & B & C & D) & H). split; [exact A|]. split; [exact B|]. split; [exact C|]. split; [exact D|]. intros j Hj. rewrite !lane4. apply point_ptv, H, Hj.
Qed.
Lemma ents p Ps : entries255 (addYX p) (subYX p) (dYX p) Ps <-> all3 p /\ forall j, (j < 4)%nat -> pre_4way p j (Ps j).
Proof.
  unfold entries255, all3, pre_4way. split.
  - intros (A & B & C & H). split; [now split|]. intros j Hj. specialize (H j Hj). destruct (Ps j) as [x y]. cbn [fst snd]. rewrite !lane4 in H.
    destruct H as (O & E1 & E2 & E3). split; [exact O|]. split; [|split].
    + apply (elem_rr _ _ _ _ canon255_below). exact E1.
    + apply (elem_rr _ _ _ _ canon255_below). exact E2.
    + apply (elem_rr _ _ _ _ twoc255_below). exact E3.
  - intros ((A & B & C) & H). split; [exact A|]. split; [exact B|]. split; [exact C|]. intros j Hj. specialize (H j Hj). destruct (Ps j) as [x y]. cbn [fst snd] in H. rewrite !lane4.
    destruct H as (O & E1 & E2 & E3). split; [exact O|]. split; [|split].
    + apply (elem_rr _ _ _ _ canon255_below). exact E1.
    + apply (elem_rr _ _ _ _ canon255_below). exact E2.
    + apply (elem_rr _ _ _ _ twoc255_below). exact E3.
Qed.

Theorem dbl2_spec : forall st sky p P, point_2w255 (fst p) (snd p) P ->
  point_2w255 (fst (doubling_2w st sky p)) (snd (doubling_2w st sky p)) (add255 P P).
Proof. intros st sky p P H. apply pt2_iff. apply doubling_2w_ok. apply pt2_iff. exact H. Qed.
Theorem add2_spec : forall st sky p q P Q, point_2w255 (fst p) (snd p) P -> point_2w255 (fst q) (snd q) Q ->
  point_2w255 (fst (fulladd_2w st sky p q)) (snd (fulladd_2w st sky p q)) (add255 P Q).
Proof. intros st sky p q P Q H K. apply pt2_iff. apply fulladd_2w_ok; apply pt2_iff; assumption. Qed.
Theorem mix2_spec : forall st sky q e Q P, point_2w255 (fst q) (snd q) Q -> entry_2w255 (fst e) (snd e) P ->
  point_2w255 (fst (mixadd_2w st sky q e)) (snd (mixadd_2w st sky q e)) (add255 Q P).
Proof. intros st sky q e Q P H K. apply pt2_iff. apply mixadd_2w_ok; [apply pt2_iff; exact H|apply pre2_iff; exact K]. Qed.
Theorem add2way_spec : forall st p q Ps Qs, points255 2 (cX p) (cY p) (cZ p) (cT p) Ps -> points255 2 (cX q) (cY q) (cZ q) (cT q) Qs ->
  let r := fulladd_2way st p q in points255 2 (cX r) (cY r) (cZ r) (cT r) (fun j => add255 (Ps j) (Qs j)).
Proof.
  intros st p q Ps Qs H K r. apply pts2 in H as [LH H]. apply pts2 in K as [LK K]. apply pts2. split.
  - exact (proj1 (fulladd_2way_ok st p q _ _ (hf 0) LH LK (H 0%nat ltac:(lia)) (K 0%nat ltac:(lia)))).
  - intros j Hj. exact (proj2 (fulladd_2way_ok st p q _ _ (hf j) LH LK (H j Hj) (K j Hj))).
Qed.
Theorem mix4way_spec : forall st p e Ps Qs, points255 4 (cX p) (cY p) (cZ p) (cT p) Ps -> entries255 (addYX e) (subYX e) (dYX e) Qs ->
  let r := mixadd_4way st p e in points255 4 (cX r) (cY r) (cZ r) (cT r) (fun j => add255 (Ps j) (Qs j)).
Proof.
  intros st p q Ps Qs H K r. apply pts4 in H as [LH H]. apply ents in K as [LK K]. apply pts4. split.
  - exact (proj1 (mixadd_4way_ok st 0 ltac:(lia) p q _ _ LH LK (H 0%nat ltac:(lia)) (K 0%nat ltac:(lia)))).
  - intros j Hj. exact (proj2 (mixadd_4way_ok st j Hj p q _ _ LH LK (H j Hj) (K j Hj))).
Qed.
Theorem dblfull_spec : forall st k p P, point_full255 (cX p) (cY p) (cZ p) (cT p) P ->
  let r := doubling_1w_full st k p in point_full255 (cX r) (cY r) (cZ r) (cT r) (add255 P P).
Proof. intros st k p P H. exact (doubling_1w_full_ok st k p P H). Qed.
Theorem addfull_spec : forall st k p q P Q, point_full255 (cX p) (cY p) (cZ p) (cT p) P -> point_full255 (cX q) (cY q) (cZ q) (cT q) Q ->
  let r := fulladd_1w_full st k p q in point_full255 (cX r) (cY r) (cZ r) (cT r) (add255 P Q).
Proof. intros st k p q P Q H K. exact (fulladd_1w_full_ok st k p q P Q H K). Qed.
Theorem dbl4_spec : forall st q P, point_4w255 q P -> point_4w255 (doubling_4w st q) (add255 P P).
Proof. intros st q P H. apply pt4_iff. apply doubling_4w_ok. apply pt4_iff. exact H. Qed.
Theorem mix4_spec : forall st q e Q P, point_4w255 q Q -> entry_4w255 e P ->
  (forall i, (i < 10)%nat -> nth i (lane 4 10 0 (mix_ABCD st q e)) 0 <= nth i (lane 4 10 1 (mix_ABCD st q e)) 0 + nth i limbs_2_34P 0) ->
  point_4w255 (mixadd_4w st q e) (add255 Q P).
Proof.
  intros st q e Q P H K N. apply pt4_iff. apply mixadd_4w_ok; [apply pt4_iff; exact H|apply pre4_iff; exact K|].
  unfold mix_clean. rewrite !lane4 in N. set (a := pick (ix4 0) 10 _) in *. set (b := pick (ix4 1) 10 _) in *.
  assert (La : length a = 10%nat) by apply pick_len. assert (Lb : length b = 10%nat) by apply pick_len. clearbody a b.
  assert (G : forall n a b c, length a = n -> length b = n -> length c = n -> (forall i, (i < n)%nat -> nth i a 0 <= nth i b 0 + nth i c 0) -> no_borrow b a c).
  { clear. induction n as [|n IH]; intros [|a0 a] [|b0 b] [|c0 c] La Lb Lc H; try discriminate; cbn [no_borrow]; [exact Logic.I|].
    split; [exact (H 0%nat ltac:(lia))|]. apply IH; [now injection La|now injection Lb|now injection Lc|]. intros i Hi. exact (H (S i) ltac:(lia)). }
  exact (G 10%nat a b limbs_2_34P La Lb eq_refl N).
Qed.
(** A representation of the neutral element for which the mixed addition of the neutral element is wrong *)
Definition max_limbs : list Z := [2^26-1;2^25-1;2^25-1;2^26-1;2^26-1;2^25-1;2^25-1;2^26-1;2^26-1;2^25-1].
Definition one_limb (c : Z) : list Z := c :: repeat 0 9.
Definition interleave4 (a b c d : list Z) : list Z := concat (map (fun i => [nth i a 0; nth i b 0; nth i c 0; nth i d 0]) (seq 0 10)).
Definition bad_q : list Z := interleave4 (one_limb 0) max_limbs (one_limb 0) (one_limb 18).
Definition bad_e : list Z := interleave4 max_limbs (one_limb 18) (one_limb 0) (one_limb 36).
Lemma on_zero : on255 (0, 1). Proof. split; [split; [discriminate|reflexivity]|split; [split; [discriminate|reflexivity]|vm_compute; reflexivity]]. Qed.
Lemma bad_q_point : point_4w255 bad_q (0, 1).
Proof.
  apply pt4_iff. split; [reflexivity|]. split; [exact on_zero|].
  split; [apply arr_lit; vm_compute; reflexivity|]. split; [apply arr_lit; vm_compute; reflexivity|]. split; [apply arr_lit; vm_compute; reflexivity|]. split; [apply arr_lit; vm_compute; reflexivity|].
  split; [vm_compute; discriminate|]. split; [vm_compute; reflexivity|]. split; vm_compute; reflexivity.
Qed.
Lemma bad_e_entry : entry_4w255 bad_e (0, 1).
Proof.
  apply pre4_iff. split; [reflexivity|]. split; [exact on_zero|]. exists 18. split; [vm_compute; discriminate|].
  split; [split; [apply arr_lit|]; vm_compute; reflexivity|]. split; [split; [apply arr_lit|]; vm_compute; reflexivity|].
  split; (split; [apply arr_lit|]; vm_compute; reflexivity).
Qed.
Lemma bad_value : fe255 (el4 0 (mixadd_4w (PositiveMap.empty Z) bad_q bad_e)) mod p25 <> 0.
Proof. vm_compute. discriminate. Qed.
Lemma add_zero_zero : add255 (0, 1) (0, 1) = (0, 1). Proof. apply add255_zero. exact on_zero. Qed.
Lemma pt4_x0 q : point_4w255 q (0, 1) -> fe255 (el4 0 q) mod p25 = 0.
Proof. intro H. apply pt4_iff in H as (_ & _ & _ & _ & _ & _ & R). destruct R as (_ & R & _). exact R. Qed.
Theorem mix4_refuted : exists st q e Q P, point_4w255 q Q /\ entry_4w255 e P /\ ~ point_4w255 (mixadd_4w st q e) (add255 Q P).
Proof.
  exists (PositiveMap.empty Z), bad_q, bad_e, (0, 1), (0, 1). split; [exact bad_q_point|]. split; [exact bad_e_entry|].
  rewrite add_zero_zero. intro H. exact (bad_value (pt4_x0 _ H)).
Qed.
(** The base point in limbs *)
Definition limbs255 (x : Z) : list Z := map (fun k => x / 2 ^ pos255 (limb_index 10 k) mod 2 ^ (if Nat.even (limb_index 10 k) then 26 else 25)) (seq 0 10).
Definition halves (a b : list Z) : list Z := concat (map (fun i => [nth (2 * i) a 0; nth (2 * i + 1) a 0; nth (2 * i) b 0; nth (2 * i + 1) b 0]) (seq 0 5)).
Definition base_XY : list Z := Eval vm_compute in halves (limbs255 (fst B_ed255)) (limbs255 (snd B_ed255)).
Definition base_TZ : list Z := Eval vm_compute in halves (limbs255 (fst B_ed255 * snd B_ed255 mod p_ed255)) (limbs255 1).
Definition base_dT : list Z := Eval vm_compute in limbs255 (2 * d_ed255 * fst B_ed255 * snd B_ed255 mod p_ed255).
Lemma on_base : on255 B_ed255. Proof. split; [split; [discriminate|reflexivity]|split; [split; [discriminate|reflexivity]|vm_compute; reflexivity]]. Qed.
Lemma base_point_2w : point_2w255 base_XY base_TZ B_ed255.
Proof.
  apply (pt2_iff (base_XY, base_TZ)). split; [reflexivity|]. split; [reflexivity|]. split; [exact on_base|].
  split; [apply arr_lit; vm_compute; reflexivity|]. split; [apply arr_lit; vm_compute; reflexivity|]. split; [apply arr_lit; vm_compute; reflexivity|]. split; [apply arr_lit; vm_compute; reflexivity|].
  split; [vm_compute; discriminate|]. split; [vm_compute; reflexivity|]. split; vm_compute; reflexivity.
Qed.
Definition four (a : list Z) : list Z := interleave4 a a a a.
Lemma base_entries : entries255 (four (limbs255 ((snd B_ed255 + fst B_ed255) mod p_ed255))) (four (limbs255 ((snd B_ed255 - fst B_ed255) mod p_ed255))) (four base_dT) (fun _ => B_ed255).
Proof.
  apply (ents (mkpre (four (limbs255 ((snd B_ed255 + fst B_ed255) mod p_ed255))) (four (limbs255 ((snd B_ed255 - fst B_ed255) mod p_ed255))) (four base_dT))). split; [split; [reflexivity|split; reflexivity]|]. intros j Hj. split; [exact on_base|].
  do 4 (destruct j as [|j]; [split; [|split]; (split; [apply arr_lit; vm_compute; reflexivity|apply cg_of; vm_compute; reflexivity])|]). lia.
Qed.
Theorem group_law : 
  (forall P Q, on255 P -> on255 Q -> on255 (add255 P Q)) /\ (forall P Q, on255 P -> on255 Q -> add255 P Q = add255 Q P) /\
  (forall P Q R, on255 P -> on255 Q -> on255 R -> add255 P (add255 Q R) = add255 (add255 P Q) R) /\
  (forall P, on255 P -> add255 P (0, 1) = P) /\ (forall P, on255 P -> on255 (neg255 P) /\ add255 P (neg255 P) = (0, 1)) /\
  (forall X Y W T P Q, on255 P -> on255 Q -> reps255 X Y W T P -> reps255 X Y W T Q -> P = Q).
Proof.
  split; [exact add255_on|]. split; [exact add255_comm|]. split; [intros P Q R HP HQ HR; symmetry; apply add255_assoc; assumption|].
  split; [exact add255_zero|].
  split; [intros P H; split; [apply neg255_on; exact H|apply add255_neg; exact H]|]. intros X Y W T P Q HP HQ. apply reps255_fun; assumption.
Qed.
Lemma base_opposite : add255 B_ed255 (neg255 B_ed255) = (0, 1). Proof. apply add255_neg. exact on_base. Qed.
