(** The point formulas and tables of edwards448.c in the vocabulary of SpecEd448Vec. *)
From Coq Require Import ZArith List Bool Lia FMapPositive.
From Verif Require Import Uop X86 Sym Engine Bytes Check FullTac Lanes RedTac Simd Simd448 Fp448Full Fp448FullProofs FullMore
  Fp25519Red Fp25519RedMore Fp448Red Fp448RedProofs Fp448RedMore Fp448RedRoot Spec SpecVec RedProps Ladder LadderProofs LadderVec LadderVec448 SpecEd SpecIso CurveInst EdInst448
  Edwards255 EdVec Edwards255Proofs Edwards448 EdVec448 Edwards448Proofs Verify255Proofs Mix448 Verify448Proofs Table448 TableProofs448 SpecEd448Vec.
Import ListNotations.
Open Scope Z_scope.

Lemma redq_below a : is_red448 a <-> limbs_below 16 reduced448 a. Proof. apply below_ok, red448_below. Qed.
Lemma point_ptvq X Y Zc T P : point448 X Y Zc T P <-> ptv448 X Y Zc T P.
Proof.
  unfold point448, ptv448. rewrite <- !redq_below. split; intros (O & A & B & C & D & R); (split; [exact O|]); (split; [exact A|]); (split; [exact B|]);
  (split; [exact C|]); (split; [exact D|]); apply redq_below in A, B, C, D; destruct A as [A _], B as [B _], C as [C _], D as [D _];
  rewrite ?value448_ok in * by assumption; exact R.
Qed.
Lemma elem_rq f b a x : b = map (fun k => (0, f (limb_index 16 k))) (seq 0 16) -> elem448 f a x <-> rq b a x.
Proof.
  intro E. unfold elem448, rq. rewrite <- (below_ok 16 f b a E). split; intros [A H]; (split; [exact A|]); apply (below_ok 16 f b a E) in A; destruct A as [A _].
  - rewrite value448_ok in H by exact A. apply cq_of. exact H.
  - rewrite value448_ok by exact A. apply cqm. exact H.
Qed.
Lemma pt2q_iff p P : point_2w448 (fst p) (snd p) P <-> pt448_2w p P.
Proof.
  unfold point_2w448, pt448_2w. rewrite !lane2 by lia. change (hf 0) with false. change (hf 1) with true.
  split; intros (A & B & C); (split; [exact A|]); (split; [exact B|]); apply point_ptvq; exact C.
Qed.
Lemma pt4q_iff q P : point_4w448 q P <-> pt448_4w q P.
Proof.
  unfold point_4w448, pt448_4w. rewrite !lane4. split; intros (A & C); (split; [exact A|]); apply point_ptvq; exact C.
Qed.
Lemma projq_iff p P : projective448 (fst p) (snd p) P <-> proj448 p P.
Proof.
  unfold projective448, proj448. rewrite !lane2 by lia. change (hf 0) with false. change (hf 1) with true. cbv zeta. rewrite <- !redq_below.
  split; intros (A & B & O & R1 & R2 & R3 & H); (split; [exact A|]); (split; [exact B|]); (split; [exact O|]); (split; [exact R1|]); (split; [exact R2|]); (split; [exact R3|]);
  apply redq_below in R1, R2, R3; destruct R1 as [R1 _], R2 as [R2 _], R3 as [R3 _]; rewrite !value448_ok in * by assumption; exact H.
Qed.
Lemma pre4q_iff e P : entry_4w448 e P <-> pre448_4w e P.
Proof.
  unfold entry_4w448, pre448_4w. destruct (iso448 P) as [x y]. cbn [fst snd]. rewrite !lane4.
  split; intros (A & O & w & H & E0 & E1 & E2 & E3); (split; [exact A|]); (split; [exact O|]); exists w; (split; [exact H|]);
    (split; [|split; [|split]]); apply (elem_rq _ _ _ _ red448_below); assumption.
Qed.
Theorem dbl2q_spec : forall st p P, point_2w448 (fst p) (snd p) P ->
  point_2w448 (fst (doubling448_2w st p)) (snd (doubling448_2w st p)) (add448 P P).
Proof. intros st p P H. apply pt2q_iff in H. apply pt2q_iff. exact (doubling448_2w_ok st p P H). Qed.
Theorem add2q_spec : forall st p q P Q, point_2w448 (fst p) (snd p) P -> point_2w448 (fst q) (snd q) Q ->
  point_2w448 (fst (fulladd448_2w st p q)) (snd (fulladd448_2w st p q)) (add448 P Q).
Proof. intros st p q P Q H K. apply pt2q_iff in H, K. apply pt2q_iff. exact (fulladd448_2w_ok st p q P Q H K). Qed.
Theorem back_spec : forall st p P, point_2w448 (fst p) (snd p) P ->
  projective448 (fst (isogeny_2w st p)) (snd (isogeny_2w st p)) (mul448 4 P).
Proof. intros st p P H. apply pt2q_iff in H. apply projq_iff. exact (isogeny_2w_ok st p P H). Qed.
Theorem dbl4q_spec : forall st q P, point_4w448 q P -> point_4w448 (doubling448_4w st q) (add448 P P).
Proof. intros st q P H. apply pt4q_iff in H. apply pt4q_iff. exact (doubling448_4w_ok st q P H). Qed.
Lemma no_borrow_nth : forall b a c, length a = length b -> length c = length b -> (forall i, (i < length b)%nat -> nth i a 0 <= nth i b 0 + nth i c 0) -> no_borrow b a c.
Proof.
  induction b as [|x b IH]; intros [|y a] [|z c] La Lc H; try discriminate; [exact Logic.I|]. split; [exact (H 0%nat ltac:(cbn [length]; lia))|].
  apply IH; [now injection La|now injection Lc|]. intros i Hi. exact (H (Datatypes.S i) ltac:(cbn [length]; lia)).
Qed.
Theorem mix4q_spec : forall st q e Q P, point_4w448 q Q -> entry_4w448 e P ->
  (forall i, (i < 16)%nat -> nth i (lane 4 16 0 (mix448_ABCD st q e)) 0 <= nth i (lane 4 16 1 (mix448_ABCD st q e)) 0 + nth i limbs_2_34P448 0) ->
  point_4w448 (mixadd448_4w st q e) (add448 Q P).
Proof.
  intros st q e Q P H K C. apply pt4q_iff in H. apply pre4q_iff in K. apply pt4q_iff. apply (mixadd448_4w_ok st q e Q P H K).
  unfold mix_clean448. rewrite !lane4 in C. apply no_borrow_nth; [rewrite !pick_length; reflexivity|rewrite pick_length; reflexivity|]. rewrite pick_length. exact C.
Qed.
(** ** A representation of the neutral element for which the mixed addition is wrong *)
Definition maxq : list Z := repeat (2 ^ 28 - 1) 16.
Definition oneq (c : Z) : list Z := 0 :: c :: repeat 0 14.
Definition zeroq : list Z := repeat 0 16.
Definition interleaveq (a b c d : list Z) : list Z := concat (map (fun i => [nth i a 0; nth i b 0; nth i c 0; nth i d 0]) (seq 0 16)).
Definition badq : list Z := interleaveq zeroq maxq zeroq (oneq 1).
Definition badqe : list Z := interleaveq maxq (oneq 1) zeroq (oneq 2).
Lemma onq_zero : on448 (0, 1). Proof. split; [split; [discriminate|reflexivity]|split; [split; [discriminate|reflexivity]|vm_compute; reflexivity]]. Qed.
Lemma isoq_zero : iso448 (0, 1) = (0, 1). Proof. vm_compute. reflexivity. Qed.
Lemma badq_point : point_4w448 badq (0, 1).
Proof.
  apply pt4q_iff. split; [reflexivity|]. split; [exact onq_zero|]. rewrite isoq_zero.
  split; [apply arr_lit; vm_compute; reflexivity|]. split; [apply arr_lit; vm_compute; reflexivity|]. split; [apply arr_lit; vm_compute; reflexivity|]. split; [apply arr_lit; vm_compute; reflexivity|].
  split; [vm_compute; discriminate|]. split; [vm_compute; reflexivity|]. split; vm_compute; reflexivity.
Qed.
Lemma badqe_entry : entry_4w448 badqe (0, 1).
Proof.
  apply pre4q_iff. split; [reflexivity|]. split; [exact onq_zero|]. rewrite isoq_zero. exists (2 ^ 224). split; [vm_compute; discriminate|]. cbn [fst snd].
  split; [split; [apply arr_lit|]; vm_compute; reflexivity|]. split; [split; [apply arr_lit|]; vm_compute; reflexivity|].
  split; (split; [apply arr_lit|]; vm_compute; reflexivity).
Qed.
Lemma badq_value : fe448 (el4q 0 (mixadd448_4w (PositiveMap.empty Z) badq badqe)) mod p44 <> 0.
Proof. vm_compute. discriminate. Qed.
Lemma addq_zero_zero : add448 (0, 1) (0, 1) = (0, 1). Proof. apply add448_zero. exact onq_zero. Qed.
Lemma pt4q_x0 q : point_4w448 q (0, 1) -> fe448 (el4q 0 q) mod p44 = 0.
Proof. intro H. apply pt4q_iff in H as (_ & _ & _ & _ & _ & _ & R). rewrite isoq_zero in R. destruct R as (_ & R & _). exact R. Qed.
Theorem mix4q_refuted : exists st q e Q P, point_4w448 q Q /\ entry_4w448 e P /\ ~ point_4w448 (mixadd448_4w st q e) (add448 Q P).
Proof.
  exists (PositiveMap.empty Z), badq, badqe, (0, 1), (0, 1). split; [exact badq_point|]. split; [exact badqe_entry|].
  rewrite addq_zero_zero. intro H. exact (badq_value (pt4q_x0 _ H)).
Qed.
(** ** Tables *)
Lemma val7 a b c d e f g : val [a; b; c; d; e; f; g] = a + 2 ^ 64 * (b + 2 ^ 64 * (c + 2 ^ 64 * (d + 2 ^ 64 * (e + 2 ^ 64 * (f + 2 ^ 64 * g))))).
Proof. cbn [val]. unfold W. ring. Qed.
Lemma numbers_triple n P : (n 0%nat, n 1%nat, n 2%nat) = triple_of (iso448 P) -> entry_numbers448 n P.
Proof.
  unfold entry_numbers448, triple_of. destruct (iso448 P) as [x y]. intro E. injection E as E0 E1 E2. split; [exact E0|]. split; [exact E1|exact E2].
Qed.
Lemma comb_number_eq T i m c : comb_number448 T i m c = num_of (fun w => nth (168 * i + 24 * w + 3 * m + c) T 0).
Proof. unfold comb_number448, num_of. cbn [map]. apply val7. Qed.
Lemma list_number_eq T j c : list_number448 T j c = num_of (fun w => nth (21 * j + 7 * c + w) T 0).
Proof. unfold list_number448, num_of. cbn [map]. apply val7. Qed.
Lemma nth_skipn {A} (l : list A) : forall n k d, nth k (skipn n l) d = nth (n + k) l d.
Proof. induction l as [|x l IH]; intros [|n] k d; [reflexivity|destruct k; reflexivity|reflexivity|apply IH]. Qed.
Lemma nth_firstn {A} (l : list A) : forall n k d, (k < n)%nat -> nth k (firstn n l) d = nth k l d.
Proof. induction l as [|x l IH]; intros [|n] [|k] d H; try lia; try reflexivity. apply IH. lia. Qed.
Lemma sub_number T i m c : (m < 8)%nat -> (c < 3)%nat -> num_in (firstn 168 (skipn (168 * i) T)) m c = comb_number448 T i m c.
Proof.
  intros Hm Hc. rewrite comb_number_eq. unfold num_in, num_of. rewrite !nth_firstn by lia. rewrite !nth_skipn, !Nat.add_assoc. reflexivity.
Qed.
Theorem sign_table448_spec : forall i m, (i < 28)%nat -> (m < 8)%nat ->
  entry_numbers448 (comb_number448 TableSign_w4_3675k i m) (mul448 ((1 + Z.of_nat m) * 16 ^ (4 * Z.of_nat i)) B_ed448).
Proof.
  intros i m Hi Hm. apply numbers_triple. rewrite <- (sign_table448_ok i m Hi Hm). unfold triple_in, sub_words. rewrite !sub_number by lia. reflexivity.
Qed.
Theorem verf_table448_spec : forall j, (j < 32)%nat -> entry_numbers448 (list_number448 TableVerif_static_w7_Ed448 j) (mul448 (2 * Z.of_nat j + 1) B_ed448).
Proof.
  intros j Hj. apply numbers_triple. rewrite <- (verf_table448_ok j Hj). unfold verf_triple. rewrite !list_number_eq. reflexivity.
Qed.
