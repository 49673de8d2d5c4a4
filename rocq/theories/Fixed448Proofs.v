(** Fixed-base multiplication on edwards448: the first point, the four sums of multiples, their join and the isogeny back. *)
From Coq Require Import ZArith List Bool Lia.
From Verif Require Import Uop X86 Sym Engine Bytes Check FullTac Lanes RedTac Simd Simd448 Fp448Full Fp448FullProofs FullMore
  Fp25519Red Fp25519RedProofs Fp448Red Fp448RedProofs Fp448RedMore Fp448RedRoot Spec Scalar Ladder LadderProofs LadderVec LadderVec448 SpecEd SpecIso CurveInst EdInst448
  Edwards255 EdVec Edwards255Proofs Verify255 Verify255Proofs Recode RecodeProofs SpecRecode Fixed255 Fixed255Proofs Edwards448 EdVec448 Edwards448Proofs Prod448 Limb448 Mix448
  Verify448Proofs Mix448Way Table448 EdCert EdCert448 TableProofs448 Query448Proofs.
Import ListNotations.
Open Scope Z_scope.
Notation B := B_ed448.
Notation "k ** P" := (mul448 k P) (at level 40).
Section Mult.
Variable st : store.
Ltac cl := apply call_length.
Lemma half_laneq j : (j < 4)%nat -> rq red448 (el4q j one_half448_4w) ((Q + 1) / 2).
Proof. intro H. do 4 (destruct j as [|j]; [split; [apply arr_lit; vm_compute; reflexivity|vm_compute; reflexivity]|]). lia. Qed.
Lemma two_laneq j : (j < 4)%nat -> rq red448 (el4q j (bcast 2 ++ skipn 4 (zero448_4w st))) 2.
Proof.
  intro H. rewrite zero448_4w_ok. do 4 (destruct j as [|j]; [split; [apply arr_lit; vm_compute; reflexivity|vm_compute; reflexivity]|]). lia.
Qed.
Lemma half_gen x y h q : 2 * h - 1 = q -> (2 * x * (2 * y) * h - 2 * (x * y)) mod q = 0.
Proof. intros <-. replace (2 * x * (2 * y) * h - 2 * (x * y)) with (2 * (x * y) * (2 * h - 1)) by ring. apply Z_mod_mult. Qed.
Lemma first_point448_ok P j R : (j < 4)%nat -> all3q P -> pre448_4way P j R -> all4 64 (first_point448 st P) /\ pt448_4way (first_point448 st P) j R.
Proof.
  intros Hj (LA & LS & LD) (On & RA & RS & _).
  apply (rq_le canon448 red448) in RA; [|vm_compute; reflexivity]. apply (rq_le canon448 red448) in RS; [|vm_compute; reflexivity].
  destruct RA as [BA EA]. destruct RS as [BS ES]. unfold first_point448.
  destruct (sub448_4w_ok st j Hj _ _ LA LS BA BS) as [Ex Bx]. destruct (add448_4w_ok st j Hj _ _ LA LS BA BS) as [Ey By].
  set (X := sub448_4w st (addYX P) (subYX P)) in *. assert (LX : l4q X) by cl. set (Y := add448_4w st (addYX P) (subYX P)) in *. assert (LY : l4q Y) by cl.
  clearbody X Y.
  destruct (compress448_4w_ok st j Hj X LX (bounds_le_ok wide448 big448 _ ltac:(vm_compute; reflexivity) Bx)) as [Ex1 Bx1].
  destruct (compress448_4w_ok st j Hj Y LY (bounds_le_ok mid448 big448 _ ltac:(vm_compute; reflexivity) By)) as [Ey1 By1].
  set (X1 := compress448_4w st X) in *. assert (LX1 : l4q X1) by cl. set (Y1 := compress448_4w st Y) in *. assert (LY1 : l4q Y1) by cl. clearbody X1 Y1.
  assert (Wd : forall a, is_red448 a -> is_mid448 a) by (intros a Ha; exact (bounds_le_ok red448 mid448 a ltac:(vm_compute; reflexivity) Ha)).
  destruct (mul448_4w_ok st j Hj X1 Y1 LX1 LY1 (Wd _ Bx1) (Wd _ By1)) as [Et Bt].
  set (T := mul448_4w st X1 Y1) in *. assert (LT : l4q T) by cl. clearbody T.
  destruct (half_laneq j Hj) as [Bh Eh].
  destruct (mul448_4w_ok st j Hj T one_half448_4w LT eq_refl (Wd _ Bt) (Wd _ Bh)) as [Et1 Bt1].
  set (T1 := mul448_4w st T one_half448_4w) in *. assert (LT1 : l4q T1) by cl. clearbody T1.
  destruct (two_laneq j Hj) as [B2 E2]. assert (L2 : l4q (bcast 2 ++ skipn 4 (zero448_4w st))) by (rewrite zero448_4w_ok; reflexivity).
  set (Zc := bcast 2 ++ skipn 4 (zero448_4w st)) in *. clearbody Zc.
  split; [split; [exact LX1|split; [exact LY1|split; [exact L2|exact LT1]]]|].
  split; [exact On|]. cbn [cX cY cZ cT]. split; [exact Bx1|]. split; [exact By1|]. split; [exact B2|]. split; [exact Bt1|].
  set (x := fst (iso448 R)) in *. set (y := snd (iso448 R)) in *.
  assert (Fx : cq (fe448 (el4q j X1)) (2 * x)).
  { apply (cq_trans _ _ _ Ex1). apply (cq_trans _ _ _ Ex). replace (2 * x) with ((y + x) - (y - x)) by ring. apply cq_sub; assumption. }
  assert (Fy : cq (fe448 (el4q j Y1)) (2 * y)).
  { apply (cq_trans _ _ _ Ey1). apply (cq_trans _ _ _ Ey). replace (2 * y) with ((y + x) + (y - x)) by ring. apply cq_add; assumption. }
  assert (Ft : cq (fe448 (el4q j T1)) (2 * (x * y))).
  { apply (cq_trans _ _ _ Et1). apply cq_trans with (2 * x * (2 * y) * ((Q + 1) / 2)).
    - apply cq_mul; [apply (cq_trans _ _ _ Et), cq_mul; assumption|exact Eh].
    - apply half_gen. reflexivity. }
  apply cqm in Fx, Fy, Ft, E2. pose proof (reps448_scale 2 _ _ _ _ _ ltac:(vm_compute; discriminate) (reps448_intro (iso448 R))) as K.
  refine (reps448_eqm _ _ _ _ _ _ _ _ _ _ _ _ _ K); symmetry; [exact Fx|exact Fy|exact E2|exact Ft].
Qed.

(** ** The loop over the 28 sub-tables *)
Section Loop.
Variables K S : list Z.
Hypothesis LK : (112 <= length K)%nat.
Hypothesis LS : (112 <= length S)%nat.
Hypothesis HK : forall n, (n < 112)%nat -> 0 <= nth n K 0 <= 8 /\ (nth n S 0 = 0 \/ nth n S 0 = 2 ^ 64 - 1).
Notation g n := (signed (nth n K 0) (nth n S 0)).
Fixpoint coefq (n j : nat) : Z :=
  match n with O => 0 | Datatypes.S n => coefq n j + g (4 * n + j) * 16 ^ (4 * Z.of_nat n) end.
Lemma four_vecq (a : list Z) i : (112 <= length a)%nat -> (i < 28)%nat -> four_at a i = vec (fun j => nth (4 * i + j) a 0).
Proof.
  intros L I. unfold four_at. assert (E : (4 <= length (skipn (4 * i) a))%nat) by (rewrite skipn_length; lia).
  transitivity (vec (fun j => nth j (skipn (4 * i) a) 0)).
  - destruct (skipn (4 * i) a) as [|x0 [|x1 [|x2 [|x3 r]]]]; try (cbn in E; lia). reflexivity.
  - unfold vec. rewrite !nth_skipn. reflexivity.
Qed.
Definition ddq (i j : nat) : nat := if (j <? 4)%nat then Z.to_nat (nth (4 * i + j) K 0) else 0%nat.
Definition ssq (i j : nat) : Z := if (j <? 4)%nat then nth (4 * i + j) S 0 else 0.
Lemma ddq_eq i j : (i < 28)%nat -> (j < 4)%nat -> Z.of_nat (ddq i j) = nth (4 * i + j) K 0.
Proof. intros I J. unfold ddq. rewrite (proj2 (Nat.ltb_lt j 4) J). apply Z2Nat.id. apply HK. lia. Qed.
Lemma ssq_eq i j : (j < 4)%nat -> ssq i j = nth (4 * i + j) S 0.
Proof. intros J. unfold ssq. rewrite (proj2 (Nat.ltb_lt j 4) J). reflexivity. Qed.
Lemma ddq_ok i j : (i < 28)%nat -> (ddq i j <= 8)%nat.
Proof. intro I. unfold ddq. destruct (Nat.ltb_spec j 4) as [H|H]; [|lia]. pose proof (proj1 (HK (4 * i + j) ltac:(lia))). lia. Qed.
Lemma ssq_ok i j : (i < 28)%nat -> ssq i j = 0 \/ ssq i j = ones64.
Proof. intro I. unfold ssq. destruct (Nat.ltb_spec j 4) as [H|H]; [|left; reflexivity]. exact (proj2 (HK (4 * i + j) ltac:(lia))). Qed.
Definition entry (i : nat) : precmp := query_table448 (four_at S i) (four_at K i) i.
Lemma entry_vec i : (i < 28)%nat -> entry i = query_table448 (vec (ssq i)) (vec (fun j => Z.of_nat (ddq i j))) i.
Proof.
  intro I. unfold entry. rewrite !four_vecq by assumption.
  assert (V1 : vec (fun j => nth (4 * i + j) S 0) = vec (ssq i)) by (unfold vec; rewrite !ssq_eq by lia; reflexivity).
  assert (V2 : vec (fun j => nth (4 * i + j) K 0) = vec (fun j => Z.of_nat (ddq i j))) by (unfold vec; rewrite !ddq_eq by lia; reflexivity).
  rewrite V1, V2. reflexivity.
Qed.
Lemma entry_ok i j : (i < 28)%nat -> (j < 4)%nat -> all3q (entry i) /\ pre448_4way (entry i) j ((g (4 * i + j) * 16 ^ (4 * Z.of_nat i)) ** B).
Proof.
  intros I J. rewrite (entry_vec i I), <- (ddq_eq i j I J), <- (ssq_eq i j J).
  apply query_ok448; [intro; apply ddq_ok, I|intro; apply ssq_ok, I|exact I|exact J].
Qed.
Definition loopq (n : nat) : point4 := fold_left (fun R i => mixadd448_4way st R (entry i)) (seq 1 n) (first_point448 st (entry 0)).
Lemma loopq_S n : loopq (Datatypes.S n) = mixadd448_4way st (loopq n) (entry (Datatypes.S n)).
Proof. unfold loopq. rewrite seq_S, fold_left_app. reflexivity. Qed.
(** Right as long as no addition borrows *)
Lemma loopq_ok n : (n < 28)%nat -> forall j, (j < 4)%nat -> (forall m, (m < n)%nat -> way_clean448 (loopq m) (entry (Datatypes.S m)) j) ->
  all4 64 (loopq n) /\ pt448_4way (loopq n) j (coefq (n + 1) j ** B).
Proof.
  induction n as [|n IH]; intros N j J Hc.
  - destruct (entry_ok 0 j ltac:(lia) J) as [A P]. unfold loopq. cbn [seq fold_left]. cbn [coefq Nat.add]. rewrite Z.add_0_l. apply first_point448_ok; assumption.
  - rewrite loopq_S. destruct (IH ltac:(lia) j J (fun m Hm => Hc m ltac:(lia))) as [A P]. destruct (entry_ok (Datatypes.S n) j N J) as [A' P'].
    pose proof (mixadd448_4way_ok st j J _ _ _ _ A A' P P' (Hc n ltac:(lia))) as R. change (Datatypes.S n + 1)%nat with (Datatypes.S (n + 1)). cbn [coefq].
    replace (n + 1)%nat with (Datatypes.S n) in * by lia. rewrite mul448_add by exact onB. exact R.
Qed.
End Loop.
Lemma coefq_weighted K S :
  coefq K S 28 0 + 16 * (coefq K S 28 1 + 16 * (coefq K S 28 2 + 16 * coefq K S 28 3)) = weighted 16 (fun m => signed (nth m K 0) (nth m S 0)) 112.
Proof.
  set (g := fun n => signed (nth n K 0) (nth n S 0)).
  assert (E : forall n, coefq K S n 0 + 16 * (coefq K S n 1 + 16 * (coefq K S n 2 + 16 * coefq K S n 3)) = weighted 16 g (4 * n)).
  { induction n as [|n IH]; [reflexivity|]. cbn [coefq]. replace (4 * Datatypes.S n)%nat with (Datatypes.S (Datatypes.S (Datatypes.S (Datatypes.S (4 * n))))) by lia.
    cbn [weighted]. rewrite <- IH. unfold g. replace (4 * n + 0)%nat with (4 * n)%nat by lia. replace (4 * n + 1)%nat with (Datatypes.S (4 * n)) by lia.
    replace (4 * n + 2)%nat with (Datatypes.S (Datatypes.S (4 * n))) by lia. replace (4 * n + 3)%nat with (Datatypes.S (Datatypes.S (Datatypes.S (4 * n)))) by lia.
    rewrite !Nat2Z.inj_succ, !Z.pow_succ_r by lia. replace (Z.of_nat (4 * n)) with (4 * Z.of_nat n) by lia. ring. }
  exact (E 28%nat).
Qed.

(** ** Joining the four partial sums *)
Lemma mul16q P : on448 P -> 16 ** P = let D := fun P => add448 P P in D (D (D (D P))).
Proof.
  intro On. change 16 with (2 * (2 * (2 * 2))). rewrite !mul448_mul by (try exact On; repeat apply mul448_on; exact On). reflexivity.
Qed.
Lemma el4q_len j (a : list Z) : (j < 4)%nat -> l4q a -> l1q (el4q j a).
Proof. intros _ _. reflexivity. Qed.
Lemma part_ok R P j : (j < 4)%nat -> all4 64 R -> pt448_4way R j P ->
  pt448_2w (inter448_2w st (unzip448_4w st (cX R) j) (unzip448_4w st (cY R) j), inter448_2w st (unzip448_4w st (cT R) j) (unzip448_4w st (cZ R) j)) P.
Proof.
  intros J (LX & LY & LZ & LT) H. unfold pt448_4way in H. rewrite !unzip448_4w_ok by assumption.
  pose proof (el4q_len j _ J LX) as X1. pose proof (el4q_len j _ J LY) as Y1. pose proof (el4q_len j _ J LZ) as Z1. pose proof (el4q_len j _ J LT) as T1.
  set (X := el4q j (cX R)) in *. set (Y := el4q j (cY R)) in *. set (Zc := el4q j (cZ R)) in *. set (T := el4q j (cT R)) in *. clearbody X Y Zc T.
  unfold pt448_2w. cbn [fst snd]. split; [cl|]. split; [cl|].
  rewrite !(inter448_2w_ok st) by assumption. exact H.
Qed.
Lemma quad_dbl p P : pt448_2w p P -> pt448_2w (doubling448_2w st (doubling448_2w st (doubling448_2w st (doubling448_2w st p)))) (16 ** P).
Proof.
  intro H. assert (On : on448 P) by (destruct H as (_ & _ & O & _); exact O). rewrite (mul16q P On). cbv zeta. do 4 apply doubling448_2w_ok. exact H.
Qed.
Lemma join_points448_ok R (Ps : nat -> Z * Z) : (forall j, (j < 4)%nat -> all4 64 R /\ pt448_4way R j (Ps j)) ->
  pt448_2w (join_points448 st R) (add448 (Ps 0%nat) (16 ** (add448 (Ps 1%nat) (16 ** (add448 (Ps 2%nat) (16 ** Ps 3%nat)))))).
Proof.
  intro H. pose proof (fun j J => part_ok R (Ps j) j J (proj1 (H j J)) (proj2 (H j J))) as G. clear H. unfold join_points448.
  pose proof (G 0%nat ltac:(lia)) as G0. pose proof (G 1%nat ltac:(lia)) as G1. pose proof (G 2%nat ltac:(lia)) as G2. pose proof (G 3%nat ltac:(lia)) as G3. clear G.
  cbv beta zeta. set (p0 := (inter448_2w st (unzip448_4w st (cX R) 0) _, _)) in *. set (p1 := (inter448_2w st (unzip448_4w st (cX R) 1) _, _)) in *.
  set (p2 := (inter448_2w st (unzip448_4w st (cX R) 2) _, _)) in *. set (p3 := (inter448_2w st (unzip448_4w st (cX R) 3) _, _)) in *. clearbody p0 p1 p2 p3.
  apply fulladd448_2w_ok; [exact G0|]. apply quad_dbl. apply fulladd448_2w_ok; [exact G1|]. apply quad_dbl. apply fulladd448_2w_ok; [exact G2|]. apply quad_dbl. exact G3.
Qed.

(** ** Fixed-base multiplication; [mul_clean K S]: none of the 27 additions borrows in any lane *)
Lemma loopq_27 K S : fold_left (fun R i => mixadd448_4way st R (query_table448 (four_at S i) (four_at K i) i)) (seq 1 27) (first_point448 st (entry K S 0)) = loopq K S 27.
Proof. reflexivity. Qed.
Definition mul_clean (K S : list Z) : Prop := forall m j, (m < 27)%nat -> (j < 4)%nat -> way_clean448 (loopq K S m) (entry K S (Datatypes.S m)) j.
Theorem point_multiplication448_ok K0 S0 r : length K0 = 115%nat -> length S0 = 115%nat -> bytes 57 r ->
  (let (K, S) := recode_fold4w4_448 K0 S0 r in mul_clean K S) ->
  proj448 (point_multiplication448 st K0 S0 r) ((4 * (le_val (firstn 56 r) - (if carry_limit 112 <=? le_val (firstn 56 r) then 2 ^ 448 else 0))) ** B).
Proof.
  intros LK LS Hr. unfold point_multiplication448. pose proof (recode448_ok K0 S0 r Hr LK LS) as R.
  destruct (recode_fold4w4_448 K0 S0 r) as [K S]. destruct R as (LK' & LS' & Hd & Hw). intro Hc.
  assert (HK : forall n, (n < 112)%nat -> 0 <= nth n K 0 <= 8 /\ (nth n S 0 = 0 \/ nth n S 0 = 2 ^ 64 - 1)) by (intros n Hn; destruct (Hd n Hn) as (A & C & _); split; assumption).
  rewrite <- Hw, <- coefq_weighted. set (c := coefq K S 28).
  rewrite mul448_mul, mul448_add, mul448_mul, mul448_add, mul448_mul, mul448_add, mul448_mul by exact onB.
  apply isogeny_2w_ok.
  cbv beta zeta. fold (entry K S 0). rewrite (loopq_27 K S).
  pose proof (fun j J => loopq_ok K S ltac:(lia) ltac:(lia) HK 27 ltac:(lia) j J (fun m Hm => Hc m j Hm J)) as L. change (27 + 1)%nat with 28%nat in L. fold c in L.
  set (R := loopq K S 27) in *. clearbody R c. exact (join_points448_ok R (fun j => c j ** B) L).
Qed.
End Mult.
