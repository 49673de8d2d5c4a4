(** The double-base multiplication of Ed25519 verification. *)
From Coq Require Import ZArith List Bool Lia.
From Verif Require Import Uop X86 Sym Engine Bytes Check FullTac Lanes RedTac Simd Simd255 Fp25519Full Fp25519FullProofs FullMore
  Fp25519Red Fp25519RedProofs Fp25519RedMore Spec Ladder LadderProofs LadderVec SpecEd FpType CurveInst EdInst Edwards255 EdVec Edwards255Proofs Verify255 Verify255Proofs
  Recode SpecRecode RecodeProofs Table255 EdCert TableProofs255 SpecEdVec Fixed255 Fixed255Proofs FixedProps Decode255 Decode255Proofs.
Import ListNotations.
Open Scope Z_scope.
Notation l1 a := (length a = 10%nat).
Notation l2 a := (length a = 20%nat).
Notation l4 a := (length a = 40%nat).
Notation B := B_ed255.
Notation "k ** P" := (mul255 k P) (at level 40).
Ltac cl := apply call_length.

Lemma const_2d : l4 CONST_1_1_2d_2 /\ rr red255 (el4 2 CONST_1_1_2d_2) (2 * d25) /\ rr red255 (el4 3 CONST_1_1_2d_2) 2.
Proof.
  split; [reflexivity|]. split; (split; [apply arr_lit; vm_compute; reflexivity|]).
  - apply cg_of. vm_compute. reflexivity.
  - apply cg_of. vm_compute. reflexivity.
Qed.
Lemma firstn4 (T : list Z) m : (m + 4 <= length T)%nat -> firstn 4 (skipn m T) = map (fun w => nth (m + w) T 0) [0; 1; 2; 3]%nat.
Proof.
  revert T. induction m as [|m IH]; intros T H.
  - destruct T as [|a [|b [|c [|d T]]]]; cbn in H; try lia. reflexivity.
  - destruct T as [|a T]; [cbn in H; lia|]. cbn [skipn]. rewrite IH by (cbn in H; lia). reflexivity.
Qed.
Lemma verf_words : forallb (fun x => (0 <=? x) && (x <? W)) TableVerif_static_w7_Ed25519 = true. Proof. vm_compute. reflexivity. Qed.
Lemma verf_len : length TableVerif_static_w7_Ed25519 = 384%nat. Proof. vm_compute. reflexivity. Qed.
Lemma verf_part n c : (n < 32)%nat -> (c < 3)%nat -> let ws := firstn 4 (skipn (12 * n + 4 * c) TableVerif_static_w7_Ed25519) in
  words 4 ws /\ val ws = list_number TableVerif_static_w7_Ed25519 n c.
Proof.
  intros Hn Hc ws. assert (E : ws = map (fun w => nth (12 * n + 4 * c + w) TableVerif_static_w7_Ed25519 0) [0; 1; 2; 3]%nat).
  { apply firstn4. rewrite verf_len. lia. }
  split; [|rewrite E; reflexivity]. split; [rewrite E; reflexivity|].
  apply Forall_forall. intros x Hx. pose proof verf_words as V. rewrite forallb_forall in V.
  assert (In x TableVerif_static_w7_Ed25519).
  { rewrite <- (firstn_skipn (12 * n + 4 * c) TableVerif_static_w7_Ed25519). apply in_or_app. right.
    rewrite <- (firstn_skipn 4 (skipn _ _)). apply in_or_app. left. exact Hx. }
  specialize (V x H). apply andb_prop in V as [V0 V1]. apply Z.leb_le in V0. apply Z.ltb_lt in V1. split; assumption.
Qed.
Lemma two_rr : l1 two_1w /\ rr red255 two_1w 2.
Proof. split; [reflexivity|]. split; [apply arr_lit; vm_compute; reflexivity|apply cg_of; vm_compute; reflexivity]. Qed.
Definition pre_zip (a b c d : list Z) (P : Z * Z) : Prop :=
  on255 P /\ rr red255 a (snd P - fst P) /\ rr red255 b (snd P + fst P) /\ rr red255 c (2 * d25 * (fst P * snd P)) /\ rr red255 d 2.
Lemma cg_mod x : cg (x mod p25) x. Proof. apply cg_of. apply Zmod_mod. Qed.
Section Mul.
Variable st : store.
Variable k : cpu.
Lemma table_entry_ok p P : pt_4w p P -> pre_4w (table_entry st p) P.
Proof.
  intros (L & On & RX & RY & RZ & RT & Rep). apply rr_fe0 in RX, RY, RZ, RT. unfold table_entry.
  set (x := fe255 (el4 0 p)) in *. set (y := fe255 (el4 1 p)) in *. set (t := fe255 (el4 2 p)) in *. set (z := fe255 (el4 3 p)) in *.
  destruct const_2d as (Lc & C2 & C3).
  pose proof (t_mul st 2 _ _ _ _ ltac:(lia) L Lc RT C2) as VT. pose proof (t_mul st 3 _ _ _ _ ltac:(lia) L Lc RZ C3) as VZ.
  set (m := intmul_4w st p CONST_1_1_2d_2) in *. assert (Lm : l4 m) by cl. clearbody m. clear C2 C3 Lc.
  destruct (subadd_ok m p x y Lm L RX RY) as (Ls & S0 & S1 & S2 & S3). set (s := vmap3 subadd_body m p CONST_2P_000) in *. clearbody s.
  rewrite <- S2 in VT. rewrite <- S3 in VZ.
  apply rr_sq_big in VT, VZ. apply (rr_le mid255 big255) in S0; [|vm_compute; reflexivity]. apply (rr_le mid255 big255) in S1; [|vm_compute; reflexivity].
  apply (t_c st 0) in S0; [|lia|exact Ls]. apply (t_c st 1) in S1; [|lia|exact Ls]. apply (t_c st 2) in VT; [|lia|exact Ls]. apply (t_c st 3) in VZ; [|lia|exact Ls].
  destruct P as [px py]. destruct Rep as (Nz & Ex & Ey & Et). apply cg_of in Ex, Ey, Et.
  split; [cl|]. split; [exact On|]. exists z. split; [exact Nz|]. cbn [fst snd]. split; [|split; [|split]].
  - refine (rr_cg _ _ _ _ _ S0). apply cg_trans with (py * z - px * z); [exact (cg_sub _ _ _ _ Ey Ex)|]. replace (py * z - px * z) with ((py - px) * z) by ring. apply cg_refl.
  - refine (rr_cg _ _ _ _ _ S1). apply cg_trans with (px * z + py * z); [exact (cg_add _ _ _ _ Ex Ey)|]. replace (px * z + py * z) with ((py + px) * z) by ring. apply cg_refl.
  - refine (rr_cg _ _ _ _ _ VT). apply cg_trans with (px * py * z * (2 * d25)); [exact (cg_mul _ _ _ _ Et (cg_refl _))|].
    replace (px * py * z * (2 * d25)) with (2 * d25 * (px * py * z)) by ring. apply cg_refl.
  - refine (rr_cg _ _ _ _ _ VZ). rewrite Z.mul_comm. apply cg_refl.
Qed.
Lemma zip_pre a b c d P : l1 a -> l1 b -> l1 c -> l1 d -> pre_zip a b c d P -> pre_4w (zip_4w st a b c d) P.
Proof.
  intros La Lb Lc Ld (On & Ra & Rb & Rc & Rd). split; [cl|]. split; [exact On|]. exists 1. split; [vm_compute; discriminate|].
  rewrite !zip_4w_ok by (assumption || lia). cbn [nth]. rewrite !Z.mul_1_r. split; [exact Ra|]. split; [exact Rb|]. split; [exact Rc|exact Rd].
Qed.
Lemma pre_neg a b c d P : on255 P -> rr red255 a (snd P + fst P) -> rr red255 b (snd P - fst P) -> rr red255 c (0 - 2 * d25 * (fst P * snd P)) -> rr red255 d 2 ->
  pre_zip a b c d (neg255 P).
Proof.
  intros On Ra Rb Rc Rd. split; [apply neg255_on; exact On|]. destruct P as [x y]. cbn [fst snd] in *. change (neg255 (x, y)) with ((- x) mod p25, y). cbn [fst snd].
  split; [|split; [|split; [|exact Rd]]].
  - refine (rr_cg _ _ _ _ _ Ra). apply cg_sym. apply cg_trans with (y - - x); [exact (cg_sub _ _ _ _ (cg_refl _) (cg_mod _))|]. replace (y - - x) with (y + x) by ring. apply cg_refl.
  - refine (rr_cg _ _ _ _ _ Rb). apply cg_sym. apply cg_trans with (y + - x); [exact (cg_add _ _ _ _ (cg_refl _) (cg_mod _))|]. replace (y + - x) with (y - x) by ring. apply cg_refl.
  - refine (rr_cg _ _ _ _ _ Rc). apply cg_sym. apply cg_trans with (2 * d25 * (- x * y)); [exact (cg_mul _ _ _ _ (cg_refl _) (cg_mul _ _ _ _ (cg_mod _) (cg_refl _)))|].
    replace (2 * d25 * (- x * y)) with (0 - 2 * d25 * (x * y)) by ring. apply cg_refl.
Qed.
Lemma read_point_ok d : Z.odd d = true -> - 64 < d < 64 -> pre_4w (read_point_4w st d) (d ** B).
Proof.
  intros Od Hd. unfold read_point_4w. set (n := Z.to_nat (Z.abs d / 2)).
  assert (Hn : (n < 32)%nat /\ 2 * Z.of_nat n + 1 = Z.abs d).
  { assert (Ab : 0 <= Z.abs d < 64) by lia. assert (Oa : Z.odd (Z.abs d) = true) by (destruct (Z.abs_eq_or_opp d) as [-> | ->]; [exact Od|rewrite Z.odd_opp; exact Od]).
    pose proof (Z.div_mod (Z.abs d) 2 ltac:(lia)) as D. rewrite Zmod_odd, Oa in D. unfold n. split; [|rewrite Z2Nat.id; [lia|apply Z.div_pos; lia]].
    apply Nat2Z.inj_lt. rewrite Z2Nat.id by (apply Z.div_pos; lia). change (Z.of_nat 32) with 32. lia. }
  destruct Hn as [Hn En]. pose proof (verf_table_spec n Hn) as T. rewrite En in T. unfold entry_numbers in T.
  destruct (verf_part n 0 Hn ltac:(lia)) as [W0 V0]. destruct (verf_part n 1 Hn ltac:(lia)) as [W1 V1]. destruct (verf_part n 2 Hn ltac:(lia)) as [W2 V2].
  rewrite <- V0, <- V1, <- V2 in T. clear V0 V1 V2.
  set (w0 := firstn 4 (skipn (12 * n + 4 * 0) _)) in *. set (w1 := firstn 4 (skipn (12 * n + 4 * 1) _)) in *. set (w2 := firstn 4 (skipn (12 * n + 4 * 2) _)) in *.
  clearbody w0 w1 w2.
  destruct (words_bytes w0 W0) as [B0 L0]. destruct (words_bytes w1 W1) as [B1 L1]. destruct (words_bytes w2 W2) as [B2 L2].
  destruct (unser_1w_ok st _ B0) as [F0 R0]. destruct (unser_1w_ok st _ B1) as [F1 R1]. destruct (unser_1w_ok st _ B2) as [F2 R2].
  rewrite L0 in F0. rewrite L1 in F1. rewrite L2 in F2.
  set (a := unser_1w st (bytes_of w0)) in *. set (b := unser_1w st (bytes_of w1)) in *. set (c := unser_1w st (bytes_of w2)) in *. clearbody a b c.
  pose proof (len1 _ _ R0 eq_refl : l1 a) as La. pose proof (len1 _ _ R1 eq_refl : l1 b) as Lb. pose proof (len1 _ _ R2 eq_refl : l1 c) as Lc.
  destruct two_rr as [Lt Rt].
  assert (On : on255 (Z.abs d ** B)) by (apply mul255_on; exact onB).
  assert (Q : rr red255 a (snd (Z.abs d ** B) + fst (Z.abs d ** B)) /\ rr red255 b (snd (Z.abs d ** B) - fst (Z.abs d ** B)) /\
    rr red255 c (2 * d25 * (fst (Z.abs d ** B) * snd (Z.abs d ** B)))).
  { destruct (Z.abs d ** B) as [x y]. cbn [fst snd]. destruct T as (T0 & T1 & T2). rewrite T0 in F0. rewrite T1 in F1. rewrite T2 in F2.
    split; [|split]; (split; [apply canon_red; assumption|]).
    - rewrite F0. exact (cg_trans _ _ _ (cg_mod _) (cg_mod _)).
    - rewrite F1. exact (cg_trans _ _ _ (cg_mod _) (cg_mod _)).
    - rewrite F2. replace (2 * d25 * (x * y)) with (2 * d_ed255 * x * y) by (change d25 with d_ed255; ring). exact (cg_trans _ _ _ (cg_mod _) (cg_mod _)). }
  clear T F0 F1 F2. destruct Q as (Qa & Qb & Qc). destruct (Z.ltb_spec d 0) as [Neg|Pos].
  - replace (d ** B) with (neg255 (Z.abs d ** B)) by (rewrite neg255_mul by exact onB; f_equal; lia).
    destruct (neg_1w_ok st c (proj1 Qc)) as [Cn Wn]. destruct (compress_1w_ok st _ (wide_big _ Wn)) as [Cc Rc].
    apply zip_pre; [exact La|exact Lb|cl|exact Lt|]. apply pre_neg; [exact On|exact Qa|exact Qb| |exact Rt].
    split; [exact Rc|]. apply (cg_trans _ _ _ Cc), (cg_trans _ _ _ Cn). exact (cg_sub _ _ _ _ (cg_refl _) (proj2 Qc)).
  - rewrite (Z.abs_eq d) in * by lia. apply zip_pre; [exact Lb|exact La|exact Lc|exact Lt|]. split; [exact On|]. split; [exact Qb|]. split; [exact Qa|]. split; [exact Qc|exact Rt].
Qed.
Lemma neg_entry_ok p P : pre_4w p P -> pre_4w (compressfast_4w st (ngz_4w st p)) (neg255 P).
Proof.
  intros (L & On & w & Hw & P0 & P1 & P2 & P3).
  destruct (ngz_4w_ok st p L) as (V0 & V1 & V2 & V3 & B0 & B1 & B2 & B3).
  { intros j Hj. destruct j as [|[|[|[|j]]]]; [exact (proj1 P0)|exact (proj1 P1)|exact (proj1 P2)|exact (proj1 P3)|lia]. }
  set (m := ngz_4w st p) in *. assert (Lm : l4 m) by cl. clearbody m.
  assert (M0 : rr wide255 (el4 0 m) ((snd P + fst P) * w)) by (apply rr_wide; split; [exact B0|exact (cg_trans _ _ _ V0 (proj2 P1))]).
  assert (M1 : rr wide255 (el4 1 m) ((snd P - fst P) * w)) by (apply rr_wide; split; [exact B1|exact (cg_trans _ _ _ V1 (proj2 P0))]).
  assert (M2 : rr wide255 (el4 2 m) (0 - 2 * d25 * (fst P * snd P * w))) by (split; [exact B2|exact (cg_trans _ _ _ V2 (cg_sub _ _ _ _ (cg_refl _) (proj2 P2)))]).
  assert (M3 : rr wide255 (el4 3 m) (2 * w)) by (apply rr_wide; split; [exact B3|exact (cg_trans _ _ _ V3 (proj2 P3))]).
  apply (t_cf st 0) in M0; [|lia|exact Lm]. apply (t_cf st 1) in M1; [|lia|exact Lm]. apply (t_cf st 2) in M2; [|lia|exact Lm]. apply (t_cf st 3) in M3; [|lia|exact Lm].
  split; [cl|]. split; [apply neg255_on; exact On|]. exists w. split; [exact Hw|].
  destruct P as [x y]. cbn [fst snd] in *. change (neg255 (x, y)) with ((- x) mod p25, y). cbn [fst snd]. split; [|split; [|split; [|exact M3]]].
  - refine (rr_cg _ _ _ _ _ M0). apply cg_sym. apply cg_trans with ((y - - x) * w); [exact (cg_mul _ _ _ _ (cg_sub _ _ _ _ (cg_refl _) (cg_mod _)) (cg_refl _))|].
    replace ((y - - x) * w) with ((y + x) * w) by ring. apply cg_refl.
  - refine (rr_cg _ _ _ _ _ M1). apply cg_sym. apply cg_trans with ((y + - x) * w); [exact (cg_mul _ _ _ _ (cg_add _ _ _ _ (cg_refl _) (cg_mod _)) (cg_refl _))|].
    replace ((y + - x) * w) with ((y - x) * w) by ring. apply cg_refl.
  - refine (rr_cg _ _ _ _ _ M2). apply cg_sym. apply cg_trans with (2 * d25 * (- x * y * w)).
    + exact (cg_mul _ _ _ _ (cg_refl _) (cg_mul _ _ _ _ (cg_mul _ _ _ _ (cg_mod _) (cg_refl _)) (cg_refl _))).
    + replace (2 * d25 * (- x * y * w)) with (0 - 2 * d25 * (x * y * w)) by ring. apply cg_refl.
Qed.
Notation clean := (mix_clean st).
Lemma more_entries_ok A : on255 A -> forall num iP P2 m, pt_4w iP (m ** A) -> pre_4w P2 (2 ** A) ->
  (forall q e, In (q, e) (entries_ops st num iP P2) -> clean q e) ->
  forall i, (i < num)%nat -> pre_4w (nth i (more_entries st num iP P2) []) ((m + 2 * (Z.of_nat i + 1)) ** A).
Proof.
  intro On. induction num as [|num IH]; intros iP P2 m Hp H2 Hc i Hi; [lia|]. cbn [more_entries entries_ops] in *. cbv zeta.
  pose proof (mixadd_4w_ok st _ _ _ _ Hp H2 (Hc _ _ (or_introl eq_refl))) as Hn. rewrite <- mul255_add in Hn by exact On.
  destruct i as [|i]; cbn [nth].
  - replace (m + 2 * (Z.of_nat 0 + 1)) with (m + 2) by lia. apply table_entry_ok. exact Hn.
  - replace (m + 2 * (Z.of_nat (Datatypes.S i) + 1)) with ((m + 2) + 2 * (Z.of_nat i + 1)) by lia.
    apply (IH (mixadd_4w st iP P2) P2 (m + 2) Hn H2); [|lia]. intros q e Hq. apply Hc. right. exact Hq.
Qed.
Lemma precompute_ok p A : pt_4w p A -> (forall q e, In (q, e) (entries_ops st 7 p (table_entry st (doubling_4w st p))) -> clean q e) ->
  forall i, (i < 8)%nat -> pre_4w (nth i (precompute_points_4w st p) []) ((2 * Z.of_nat i + 1) ** A).
Proof.
  intros Hp Hc i Hi. assert (On : on255 A) by exact (proj1 (proj2 Hp)). unfold precompute_points_4w. cbv zeta.
  destruct i as [|i]; cbn [nth].
  - change (2 * Z.of_nat 0 + 1) with 1. rewrite mul255_1. apply table_entry_ok. exact Hp.
  - replace (2 * Z.of_nat (Datatypes.S i) + 1) with (1 + 2 * (Z.of_nat i + 1)) by lia.
    apply (more_entries_ok A On 7 p _ 1); [rewrite mul255_1; exact Hp| |exact Hc|lia].
    rewrite mul255_2. apply table_entry_ok, doubling_4w_ok. exact Hp.
Qed.
Section Loop.
Variable A : Z * Z.
Hypothesis onA : on255 A.
Notation S2 a b := (add255 (a ** B) (b ** A)).
Lemma oB n : on255 (n ** B). Proof. apply mul255_on, onB. Qed.
Lemma oA n : on255 (n ** A). Proof. apply mul255_on, onA. Qed.
Lemma S2_dbl a b : add255 (S2 a b) (S2 a b) = S2 (2 * a) (2 * b).
Proof.
  rewrite <- mul255_2, mul255_padd by (apply oB || apply oA). rewrite <- !mul255_mul by (exact onB || exact onA). reflexivity.
Qed.
Lemma S2_B a b r : add255 (S2 a b) (r ** B) = S2 (a + r) b.
Proof.
  rewrite add255_assoc by (apply oB || apply oA). rewrite (add255_comm (b ** A)) by (apply oB || apply oA).
  rewrite <- add255_assoc by (apply oB || apply oA). rewrite <- mul255_add by exact onB. reflexivity.
Qed.
Lemma S2_A a b r : add255 (S2 a b) (r ** A) = S2 a (b + r).
Proof. rewrite add255_assoc by (apply oB || apply oA). rewrite <- mul255_add by exact onA. reflexivity. Qed.
Variable tab : list (list Z).
Hypothesis Htab : forall i, (i < 8)%nat -> pre_4w (nth i tab []) ((2 * Z.of_nat i + 1) ** A).
Lemma dyn_ok d : Z.odd d = true -> - 16 < d < 16 -> pre_4w (dyn_point st tab d) (d ** A).
Proof.
  intros Od Hd. unfold dyn_point. set (n := Z.to_nat (Z.abs d / 2)).
  assert (Hn : (n < 8)%nat /\ 2 * Z.of_nat n + 1 = Z.abs d).
  { assert (Ab : 0 <= Z.abs d < 16) by lia. assert (Oa : Z.odd (Z.abs d) = true) by (destruct (Z.abs_eq_or_opp d) as [-> | ->]; [exact Od|rewrite Z.odd_opp; exact Od]).
    pose proof (Z.div_mod (Z.abs d) 2 ltac:(lia)) as D. rewrite Zmod_odd, Oa in D. unfold n. split; [|rewrite Z2Nat.id; [lia|apply Z.div_pos; lia]].
    apply Nat2Z.inj_lt. rewrite Z2Nat.id by (apply Z.div_pos; lia). change (Z.of_nat 8) with 8. lia. }
  destruct Hn as [Hn En]. pose proof (Htab n Hn) as T. rewrite En in T. destruct (Z.ltb_spec d 0) as [Neg|Pos].
  - replace (d ** A) with (neg255 (Z.abs d ** A)) by (rewrite neg255_mul by exact onA; f_equal; lia). apply neg_entry_ok. exact T.
  - rewrite Z.abs_eq in T by lia. exact T.
Qed.
Lemma step_ok dr dh Q a b : wnaf_digit 7 dr -> wnaf_digit 5 dh -> pt_4w Q (S2 a b) ->
  (forall q e, In (q, e) (fold_ops st (to_add st tab dr dh) Q) -> clean q e) ->
  pt_4w (fold_left (mixadd_4w st) (to_add st tab dr dh) Q) (S2 (a + dr) (b + dh)).
Proof.
  intros Hr Hh HQ Hc. unfold to_add in *.
  assert (R1 : pt_4w (fold_left (mixadd_4w st) (if dr =? 0 then [] else [read_point_4w st dr]) Q) (S2 (a + dr) b)).
  { destruct (Z.eqb_spec dr 0) as [->|Nr]; cbn [fold_left app fold_ops] in *; [rewrite Z.add_0_r; exact HQ|].
    destruct Hr as [Hr|[Od Rg]]; [contradiction|]. rewrite <- S2_B. apply mixadd_4w_ok; [exact HQ|apply read_point_ok; assumption|]. apply Hc. left. reflexivity. }
  rewrite fold_left_app.
  assert (Hc2 : dh <> 0 -> clean (fold_left (mixadd_4w st) (if dr =? 0 then [] else [read_point_4w st dr]) Q) (dyn_point st tab dh)).
  { intro Nh. apply Hc. rewrite (proj2 (Z.eqb_neq _ _) Nh). destruct (dr =? 0); cbn [app fold_ops fold_left]; [left; reflexivity|right; left; reflexivity]. }
  clear Hc. set (Q1 := fold_left (mixadd_4w st) (if dr =? 0 then [] else [read_point_4w st dr]) Q) in *. clearbody Q1.
  destruct (Z.eqb_spec dh 0) as [->|Nh]; cbn [fold_left]; [rewrite Z.add_0_r; exact R1|].
  destruct Hh as [Hh|[Od Rg]]; [contradiction|]. rewrite <- S2_A. apply mixadd_4w_ok; [exact R1|apply dyn_ok; assumption|exact (Hc2 Nh)].
Qed.
Fixpoint low_value (n : nat) (w : list Z) : Z := match n with O => 0 | Datatypes.S n => low_value n w + 2 ^ Z.of_nat n * nth n w 0 end.
Lemma loop_ok wr wh : (forall i, wnaf_digit 7 (nth i wr 0)) -> (forall i, wnaf_digit 5 (nth i wh 0)) ->
  forall n Q a b, pt_4w Q (S2 a b) -> (forall q e, In (q, e) (loop_ops st tab wr wh n Q) -> clean q e) ->
  pt_4w (double_loop st tab wr wh n Q) (S2 (2 ^ Z.of_nat n * a + low_value n wr) (2 ^ Z.of_nat n * b + low_value n wh)).
Proof.
  intros Hr Hh. induction n as [|n IH]; intros Q a b HQ Hc.
  - cbn [double_loop low_value]. change (2 ^ Z.of_nat 0) with 1. rewrite !Z.mul_1_l, !Z.add_0_r. exact HQ.
  - cbn [double_loop loop_ops] in *. cbv zeta in *. apply (doubling_4w_ok st) in HQ. rewrite S2_dbl in HQ.
    apply (step_ok (nth n wr 0) (nth n wh 0)) in HQ; [|exact (Hr n)|exact (Hh n)|intros q e Hq; apply Hc; apply in_or_app; left; exact Hq].
    apply IH in HQ; [|intros q e Hq; apply Hc; apply in_or_app; right; exact Hq].
    cbn [low_value]. rewrite Nat2Z.inj_succ, Z.pow_succ_r by lia.
    replace (2 * 2 ^ Z.of_nat n * a + (low_value n wr + 2 ^ Z.of_nat n * nth n wr 0)) with (2 ^ Z.of_nat n * (2 * a + nth n wr 0) + low_value n wr) by ring.
    replace (2 * 2 ^ Z.of_nat n * b + (low_value n wh + 2 ^ Z.of_nat n * nth n wh 0)) with (2 ^ Z.of_nat n * (2 * b + nth n wh 0) + low_value n wh) by ring.
    exact HQ.
Qed.
End Loop.
Lemma low_value_shift n d w : low_value (Datatypes.S n) (d :: w) = d + 2 * low_value n w.
Proof.
  induction n as [|n IH]; [cbn [low_value]; change (nth 0 (d :: w) 0) with d; change (2 ^ Z.of_nat 0) with 1; ring|].
  change (low_value (Datatypes.S (Datatypes.S n)) (d :: w)) with (low_value (Datatypes.S n) (d :: w) + 2 ^ Z.of_nat (Datatypes.S n) * nth n w 0). rewrite IH.
  change (low_value (Datatypes.S n) w) with (low_value n w + 2 ^ Z.of_nat n * nth n w 0). rewrite Nat2Z.inj_succ, Z.pow_succ_r by lia. ring.
Qed.
Lemma low_value_nil n : low_value n [] = 0.
Proof. induction n as [|n IH]; [reflexivity|]. cbn [low_value]. rewrite IH. destruct n; cbn [nth]; ring. Qed.
Lemma low_value_all w : forall n, (length w <= n)%nat -> low_value n w = value2 w.
Proof.
  induction w as [|d w IH]; intros n Hn; [apply low_value_nil|]. cbn [length] in Hn. destruct n as [|n]; [lia|]. rewrite low_value_shift, IH by lia. reflexivity.
Qed.
Lemma digits_nth w K i : Forall (wnaf_digit w) K -> wnaf_digit w (nth i K 0).
Proof.
  intro H. destruct (Nat.lt_ge_cases i (length K)) as [L|L]; [rewrite Forall_forall in H; apply H, nth_In, L|]. rewrite nth_overflow by exact L. left. reflexivity.
Qed.
Lemma neutral_ok A : on255 A -> pt_4w (neutral_4w st) (add255 (0 ** B) (0 ** A)).
Proof.
  intro On. rewrite !mul255_0. assert (O0 : on255 ed_zero) by (split; [split; [discriminate|reflexivity]|split; [split; [discriminate|reflexivity]|vm_compute; reflexivity]]).
  rewrite add255_zero by exact O0. unfold neutral_4w. rewrite zero_4w_ok. split; [reflexivity|]. split; [exact O0|].
  split; [apply arr_lit; vm_compute; reflexivity|]. split; [apply arr_lit; vm_compute; reflexivity|]. split; [apply arr_lit; vm_compute; reflexivity|]. split; [apply arr_lit; vm_compute; reflexivity|].
  split; [vm_compute; discriminate|]. split; [vm_compute; reflexivity|]. split; vm_compute; reflexivity.
Qed.
Lemma unzip_lanes q : l4 q -> l2 (fst (unzip_2w_4w q)) /\ l2 (snd (unzip_2w_4w q)) /\
  el2 false (fst (unzip_2w_4w q)) = el4 0 q /\ el2 true (fst (unzip_2w_4w q)) = el4 1 q /\
  el2 false (snd (unzip_2w_4w q)) = el4 2 q /\ el2 true (snd (unzip_2w_4w q)) = el4 3 q.
Proof.
  intro L. do 40 (destruct q as [|? q]; [discriminate L|]). destruct q; [|discriminate L]. clear L.
  split; [reflexivity|]. split; [reflexivity|]. split; [reflexivity|]. split; [reflexivity|]. split; reflexivity.
Qed.
Lemma unzip_point q P : pt_4w q P -> pt_2w (unzip_2w_4w q) P.
Proof.
  intros [L Pv]. destruct (unzip_lanes q L) as (L1 & L2 & E0 & E1 & E2 & E3). split; [exact L1|]. split; [exact L2|]. rewrite E0, E1, E2, E3. exact Pv.
Qed.
Theorem double_mult_ok s h p A : bytes 32 s -> bytes 32 h -> pt_4w p A ->
  (forall q e, In (q, e) (mixed_additions st s h p) -> clean q e) ->
  exists out, double_point_mult_4w st k s h p = Some out /\
  encodes255 out (add255 ((le_val s - (if wraps 7 (le_val s) then 2 ^ 256 else 0)) ** B) ((le_val h - (if wraps 5 (le_val h) then 2 ^ 256 else 0)) ** A)).
Proof.
  intros Hs Hh Hp Hc. assert (On : on255 A) by exact (proj1 (proj2 Hp)).
  destruct (wnaf256_ok st s 7 Hs ltac:(lia)) as (Kr & Er & Lr & Dr & _ & Vr). destruct (wnaf256_ok st h 5 Hh ltac:(lia)) as (Kh & Eh & Lh & Dh & _ & Vh).
  unfold double_point_mult_4w, mixed_additions in *. rewrite (Er 260%nat), (Eh 260%nat) in * by lia. eexists. split; [reflexivity|].
  pose proof (precompute_ok p A Hp (fun q e Hq => Hc q e (in_or_app _ _ _ (or_introl Hq)))) as Ht.
  pose proof (loop_ok A On _ Ht Kr Kh (fun i => digits_nth 7 Kr i Dr) (fun i => digits_nth 5 Kh i Dh) (Nat.max (length Kr) (length Kh)) _ 0 0 (neutral_ok A On)
    (fun q e Hq => Hc q e (in_or_app _ _ _ (or_intror Hq)))) as R.
  rewrite !Z.mul_0_r, !Z.add_0_l, !low_value_all, Vr, Vh in R by lia.
  apply unzip_point in R. exact (point_encoding_ok st k _ _ R).
Qed.
End Mul.
