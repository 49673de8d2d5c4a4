(** The mixed addition of Ed448 signing, four points at once: right in every lane where no limb of
    E = B - A + 2^34 p borrows. *)
From Coq Require Import ZArith List Bool Lia.
From Verif Require Import Uop X86 Sym Engine Bytes Check FullTac Lanes RedTac Simd Simd448 Fp448Full Fp448FullProofs FullMore
  Fp25519Red Fp25519RedProofs Fp448Red Fp448RedProofs Fp448RedMore Fp448RedRoot Spec Ladder LadderProofs LadderVec LadderVec448 SpecEd SpecIso CurveInst EdInst448
  Edwards255 EdVec Edwards255Proofs Verify255 Verify255Proofs Edwards448 EdVec448 Edwards448Proofs Prod448 Limb448 Mix448 Verify448Proofs.
Import ListNotations.
Open Scope Z_scope.
Definition pre448_4way (p : precmp) (j : nat) (Q : Z * Z) : Prop :=
  on448 Q /\ rq canon448 (el4q j (addYX p)) (snd (iso448 Q) + fst (iso448 Q)) /\ rq canon448 (el4q j (subYX p)) (snd (iso448 Q) - fst (iso448 Q)) /\
  rq mid448 (el4q j (dYX p)) (2 * (d_ed448 - 1) * fst (iso448 Q) * snd (iso448 Q)).
Definition all3q (p : precmp) : Prop := l4q (addYX p) /\ l4q (subYX p) /\ l4q (dYX p).
(** No limb of B - A + 2^34 p borrows in lane j *)
Definition way_clean448 (q : point4) (p : precmp) (j : nat) : Prop := clean448 (el4q j (cX q)) (el4q j (cY q)) (el4q j (subYX p)) (el4q j (addYX p)).
Section Way.
Variable st : store.
Variable j : nat.
Hypothesis Hj : (j < 4)%nat.
Ltac cl := apply call_length.
Lemma t_c2q a b x y : l4q a -> l4q b -> rq big448 (el4q j a) x -> rq big448 (el4q j b) y ->
  rq red448 (el4q j (fst (compress2448_4w st a b))) x /\ rq red448 (el4q j (snd (compress2448_4w st a b))) y.
Proof.
  intros L K [A E] [A' E']. destruct (compress2448_4w_ok1 st j Hj a b L K A A') as [C B]. destruct (compress2448_4w_ok2 st j Hj a b L K A A') as [C' B'].
  split; [split; [exact B|exact (cq_trans _ _ _ C E)]|split; [exact B'|exact (cq_trans _ _ _ C' E')]].
Qed.
Lemma t_larq a b x y : l4q a -> l4q b -> rq red448 (el4q j a) x -> rq red448 (el4q j b) y ->
  rq big448 (el4q j (fst (addsublar448_4w st a b))) (x + y) /\ rq big448 (el4q j (snd (addsublar448_4w st a b))) (x - y).
Proof.
  intros L K [A E] [A' E'].
  assert (A1 := bounds_le_ok red448 lar448 _ ltac:(vm_compute; reflexivity) A). assert (A2 := bounds_le_ok red448 lar448 _ ltac:(vm_compute; reflexivity) A').
  destruct (addsublar448_4w_ok1 st j Hj a b L K A1 A2) as [C B]. destruct (addsublar448_4w_ok2 st j Hj a b L K A1 A2) as [C' B'].
  split; [split; [exact B|exact (cq_trans _ _ _ C (cq_add _ _ _ _ E E'))]|split; [exact B'|exact (cq_trans _ _ _ C' (cq_sub _ _ _ _ E E'))]].
Qed.
Lemma way_sub (x y : list Z) : l4q x -> l4q y -> is_red448 (el4q j x) -> is_red448 (el4q j y) -> el4q j (sub448_4w st y x) = ymx (el4q j x) (el4q j y).
Proof. intros Lx Ly X Y. rewrite (sub448_limbs st j Hj y x Ly Lx). apply ymx_eq; assumption. Qed.
Lemma way_add (x y : list Z) : l4q x -> l4q y -> is_red448 (el4q j x) -> is_red448 (el4q j y) -> el4q j (add448_4w st y x) = ypx (el4q j x) (el4q j y).
Proof. intros Lx Ly X Y. rewrite (add448_limbs st j Hj y x Ly Lx). apply ypx_eq; assumption. Qed.
Theorem mixadd448_4way_ok q p Q P : all4 64 q -> all3q p -> pt448_4way q j Q -> pre448_4way p j P -> way_clean448 q p j ->
  all4 64 (mixadd448_4way st q p) /\ pt448_4way (mixadd448_4way st q p) j (add448 Q P).
Proof.
  intros (LX & LY & LZ & LT) (LA & LS & LD) (On1 & RX & RY & RZ & RT & Rep) (On2 & PA & PS & PT) Hc.
  pose proof (rq_fe0 _ _ RZ) as QZ. pose proof (rq_fe0 _ _ RT) as QT.
  apply (rq_le canon448 red448) in PA; [|vm_compute; reflexivity]. apply (rq_le canon448 red448) in PS; [|vm_compute; reflexivity].
  apply (rq_le mid448 wide448) in PT; [|vm_compute; reflexivity].
  unfold way_clean448, clean448 in Hc. unfold mixadd448_4way.
  pose proof (way_sub _ _ LX LY RX RY) as ES. pose proof (way_add _ _ LX LY RX RY) as EA.
  set (sb := sub448_4w st (cY q) (cX q)) in *. assert (Lsb : l4q sb) by cl. clearbody sb.
  set (ad := add448_4w st (cY q) (cX q)) in *. assert (Lad : l4q ad) by cl. clearbody ad.
  pose proof (mulw_q st j sb (subYX p) Hj Lsb LS) as V0. pose proof (mulw_q st j ad (addYX p) Hj Lad LA) as V1. rewrite ES in V0. rewrite EA in V1.
  destruct (V0 (ymx_wide _ _ RX RY) (proj1 PS)) as [E0 VA]. destruct (V1 (ypx_wide _ _ RX RY) (proj1 PA)) as [E1 VB]. clear V0 V1.
  destruct (eh_ok _ _ _ _ _ _ _ _ RX RY PS PA E0 E1 VA VB) as (WA & KH & _ & KE). rewrite <- E0, <- E1 in Hc. specialize (KE Hc).
  set (A := intmul448_4w st sb (subYX p)) in *. assert (LAA : l4q A) by cl. clearbody A.
  set (B := intmul448_4w st ad (addYX p)) in *. assert (LBB : l4q B) by cl. clearbody B. clear E0 E1 VA VB Hc.
  assert (KC : rq big448 (el4q j (intmul448_4w st (dYX p) (cT q))) (2 * (d_ed448 - 1) * fst (iso448 P) * snd (iso448 P) * fe448 (el4q j (cT q)))).
  { destruct (intmul448_4w_wr st j Hj (dYX p) (cT q) LD LT (proj1 PT) (proj1 QT)) as [C G]. split; [exact G|].
    exact (cq_trans _ _ _ C (cq_mul _ _ _ _ (proj2 PT) (cq_refl _))). }
  set (C := intmul448_4w st (dYX p) (cT q)) in *. assert (LC : l4q C) by cl. clearbody C.
  assert (KD : rq big448 (el4q j (add448_4w st (cZ q) (cZ q))) (fe448 (el4q j (cZ q)) + fe448 (el4q j (cZ q)))).
  { destruct (add448_4w_ok st j Hj (cZ q) (cZ q) LZ LZ RZ RZ) as [E G]. split; [|exact E]. exact (bounds_le_ok mid448 big448 _ ltac:(vm_compute; reflexivity) G). }
  set (D := add448_4w st (cZ q) (cZ q)) in *. assert (LDD : l4q D) by cl. clearbody D.
  destruct (t_c2q C D _ _ LC LDD KC KD) as [KC1 KD1].
  assert (LC1 : l4q (fst (compress2448_4w st C D))) by cl. assert (LD1 : l4q (snd (compress2448_4w st C D))) by cl.
  destruct (compress2448_4w st C D) as [C1 D1]. cbn [fst snd] in *.
  rewrite <- (lar1_limbs st j Hj B A LBB LAA) in KH. rewrite <- (lar2_limbs st j Hj B A LBB LAA) in KE.
  assert (LH : l4q (fst (addsublar448_4w st B A))) by cl. assert (LE : l4q (snd (addsublar448_4w st B A))) by cl.
  destruct (addsublar448_4w st B A) as [H1 E1]. cbn [fst snd] in *.
  destruct (t_larq D1 C1 _ _ LD1 LC1 KD1 KC1) as [KG KF].
  assert (LG : l4q (fst (addsublar448_4w st D1 C1))) by cl. assert (LF : l4q (snd (addsublar448_4w st D1 C1))) by cl.
  destruct (addsublar448_4w st D1 C1) as [G1 F1]. cbn [fst snd] in *.
  destruct (t_c2q H1 E1 _ _ LH LE KH KE) as [KH2 KE2].
  assert (LH2 : l4q (fst (compress2448_4w st H1 E1))) by cl. assert (LE2 : l4q (snd (compress2448_4w st H1 E1))) by cl.
  destruct (compress2448_4w st H1 E1) as [H2 E2]. cbn [fst snd] in *.
  destruct (t_c2q G1 F1 _ _ LG LF KG KF) as [KG2 KF2].
  assert (LG2 : l4q (fst (compress2448_4w st G1 F1))) by cl. assert (LF2 : l4q (snd (compress2448_4w st G1 F1))) by cl.
  destruct (compress2448_4w st G1 F1) as [G2 F2]. cbn [fst snd] in *.
  pose proof (rq_sq_big _ _ (t_mulq st j E2 F2 _ _ Hj LE2 LF2 KE2 KF2)) as MX. pose proof (rq_sq_big _ _ (t_mulq st j G2 H2 _ _ Hj LG2 LH2 KG2 KH2)) as MY.
  pose proof (rq_sq_big _ _ (t_mulq st j G2 F2 _ _ Hj LG2 LF2 KG2 KF2)) as MZ. pose proof (rq_sq_big _ _ (t_mulq st j E2 H2 _ _ Hj LE2 LH2 KE2 KH2)) as MT.
  set (X := intmul448_4w st E2 F2) in *. assert (LX' : l4q X) by cl. clearbody X. set (Y := intmul448_4w st G2 H2) in *. assert (LY' : l4q Y) by cl. clearbody Y.
  set (Z1 := intmul448_4w st G2 F2) in *. assert (LZ' : l4q Z1) by cl. clearbody Z1. set (T := intmul448_4w st E2 H2) in *. assert (LT' : l4q T) by cl. clearbody T.
  destruct (t_c2q X Y _ _ LX' LY' MX MY) as [[BX EX] [BY EY]]. destruct (t_c2q Z1 T _ _ LZ' LT' MZ MT) as [[BZ EZ] [BT ET]].
  assert (L1 : l4q (fst (compress2448_4w st X Y))) by cl. assert (L2 : l4q (snd (compress2448_4w st X Y))) by cl.
  assert (L3 : l4q (fst (compress2448_4w st Z1 T))) by cl. assert (L4 : l4q (snd (compress2448_4w st Z1 T))) by cl.
  destruct (compress2448_4w st X Y) as [X' Y']. destruct (compress2448_4w st Z1 T) as [Z' T']. cbn [fst snd] in *.
  split; [split; [exact L1|split; [exact L2|split; [exact L3|exact L4]]]|].
  unfold pt448_4way, ptv448. cbn [cX cY cZ cT].
  split; [apply add448_on; assumption|]. split; [exact BX|]. split; [exact BY|]. split; [exact BZ|]. split; [exact BT|].
  apply cqm in EX, EY, EZ, ET.
  set (p1 := fst (iso448 P)) in *. set (p2 := snd (iso448 P)) in *.
  assert (Rep2 : reps448 p1 p2 1 (p1 * p2) (iso448 P)).
  { unfold p1, p2. destruct (iso448 P) as [px py]. cbn [fst snd]. split; [discriminate|]. rewrite !Z.mul_1_r. split; [reflexivity|]. split; reflexivity. }
  eapply (iso448_add 2 2 _ _ _ _ Q p1 p2 1 (p1 * p2) P); [exact On1|exact On2|exact Rep|exact Rep2|discriminate|discriminate| | | | |exact EX|exact EY| |exact ET].
  - f_equal. ring.
  - f_equal. ring.
  - f_equal. ring.
  - f_equal. ring.
  - rewrite EZ. f_equal. ring.
Qed.
End Way.
