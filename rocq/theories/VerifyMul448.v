(** The double-base multiplication of Ed448 verification. *)
From Coq Require Import ZArith List Bool Lia.
From Verif Require Import Uop X86 Sym Engine Bytes Check FullTac Lanes RedTac Simd Simd448 Fp448Full Fp448FullProofs FullMore
  Fp25519Red Fp25519RedProofs Fp25519RedMore Fp448Red Fp448RedProofs Fp448RedMore Fp448RedRoot Spec Scalar Ladder LadderProofs LadderVec LadderVec448 SpecEd SpecIso CurveInst EdInst448
  Edwards255 EdVec Edwards255Proofs Verify255 Recode RecodeProofs SpecRecode Edwards448 EdVec448 Edwards448Proofs Prod448 Limb448 Mix448
  Verify448Proofs Table448 EdCert EdCert448 TableProofs448 SpecEd448Vec EdProps448 SpecScalar Scalar448 ScalarProps SpecSign448 LadderX448 Encode448Proofs Keygen448Proofs Ops448.
From Verif Require VerifyMulProofs Neutral448.
Import ListNotations.
Open Scope Z_scope.
Notation B := B_ed448.
Notation "k ** P" := (mul448 k P) (at level 40).
Notation low_value := VerifyMulProofs.low_value.
Ltac cl := apply call_length.
Lemma const_2d448 : l4q CONST_1_1_2d_2_448 /\ rq red448 (el4q 2 CONST_1_1_2d_2_448) (2 * (d_ed448 - 1)) /\ rq red448 (el4q 3 CONST_1_1_2d_2_448) 2.
Proof.
  split; [reflexivity|]. split; (split; [apply arr_lit; vm_compute; reflexivity|]).
  - apply cq_of. vm_compute. reflexivity.
  - apply cq_of. vm_compute. reflexivity.
Qed.
Lemma firstn7 (T : list Z) m : (m + 7 <= length T)%nat -> firstn 7 (skipn m T) = map (fun w => nth (m + w) T 0) [0; 1; 2; 3; 4; 5; 6]%nat.
Proof.
  revert T. induction m as [|m IH]; intros T H.
  - do 7 (destruct T as [|? T]; [cbn in H; lia|]). reflexivity.
  - destruct T as [|a T]; [cbn in H; lia|]. cbn [skipn]. rewrite IH by (cbn in H; lia). reflexivity.
Qed.
Lemma verf_words448 : forallb (fun x => (0 <=? x) && (x <? W)) TableVerif_static_w7_Ed448 = true. Proof. vm_compute. reflexivity. Qed.
Lemma verf_len448 : length TableVerif_static_w7_Ed448 = 672%nat. Proof. vm_compute. reflexivity. Qed.
Lemma verf_part448 n c : (n < 32)%nat -> (c < 3)%nat -> let ws := firstn 7 (skipn (21 * n + 7 * c) TableVerif_static_w7_Ed448) in
  words 7 ws /\ val ws = list_number448 TableVerif_static_w7_Ed448 n c.
Proof.
  intros Hn Hc ws. assert (E : ws = map (fun w => nth (21 * n + 7 * c + w) TableVerif_static_w7_Ed448 0) [0; 1; 2; 3; 4; 5; 6]%nat).
  { apply firstn7. rewrite verf_len448. lia. }
  split; [|rewrite E; reflexivity]. split; [rewrite E; reflexivity|].
  apply Forall_forall. intros x Hx. pose proof verf_words448 as V. rewrite forallb_forall in V.
  assert (In x TableVerif_static_w7_Ed448).
  { rewrite <- (firstn_skipn (21 * n + 7 * c) TableVerif_static_w7_Ed448). apply in_or_app. right.
    rewrite <- (firstn_skipn 7 (skipn _ _)). apply in_or_app. left. exact Hx. }
  specialize (V x H). apply andb_prop in V as [V0 V1]. apply Z.leb_le in V0. apply Z.ltb_lt in V1. split; assumption.
Qed.
Lemma two_rq : l1q two448_1w /\ rq red448 two448_1w 2.
Proof. split; [reflexivity|]. split; [apply arr_lit; vm_compute; reflexivity|apply cq_of; vm_compute; reflexivity]. Qed.
Notation xi P := (fst (iso448 P)). Notation yi P := (snd (iso448 P)).
Definition pre_zip448 (a b c d : list Z) (P : Z * Z) : Prop :=
  on448 P /\ rq red448 a (yi P - xi P) /\ rq red448 b (yi P + xi P) /\ rq red448 c (2 * (d_ed448 - 1) * (xi P * yi P)) /\ rq red448 d 2.
Lemma cq_mod x : cq (x mod p44) x. Proof. apply cq_of. apply Zmod_mod. Qed.
Section Mul.
Variable st : store.
Variable junk : list Z.
Lemma table_entry448_ok p P : pt448_4w p P -> pre448_4w (table_entry448 st p) P.
Proof.
  intros (L & On & RX & RY & RZ & RT & Rep). pose proof (rq_fe0 _ _ RZ) as QZ. pose proof (rq_fe0 _ _ RT) as QT. unfold table_entry448.
  destruct const_2d448 as (Lc & C2 & C3).
  pose proof (t_mulq st 2 _ _ _ _ ltac:(lia) L Lc QT C2) as VT. pose proof (t_mulq st 3 _ _ _ _ ltac:(lia) L Lc QZ C3) as VZ.
  set (m := intmul448_4w st p CONST_1_1_2d_2_448) in *. assert (Lm : l4q m) by cl. clearbody m. clear C2 C3 Lc.
  destruct (subaddq_ok m p Lm L RX RY) as (Ls & S0 & S1 & S2 & S3). set (s := vmap3 subadd_body m p CONST_2P448_000) in *. clearbody s.
  rewrite <- S2 in VT. rewrite <- S3 in VZ.
  assert (Q0 : rq big448 (el4q 0 s) (fe448 (el4q 1 p) - fe448 (el4q 0 p))).
  { rewrite S0. split; [apply wide_big448, ymx_wide; assumption|apply val_ymx; assumption]. }
  assert (Q1 : rq big448 (el4q 1 s) (fe448 (el4q 1 p) + fe448 (el4q 0 p))).
  { rewrite S1. split; [apply wide_big448, ypx_wide; assumption|rewrite val_ypx by assumption; apply cq_refl]. }
  set (x := fe448 (el4q 0 p)) in *. set (y := fe448 (el4q 1 p)) in *. set (t := fe448 (el4q 2 p)) in *. set (z := fe448 (el4q 3 p)) in *.
  apply rq_sq_big in VT, VZ.
  apply (t_cq st 0) in Q0; [|lia|exact Ls]. apply (t_cq st 1) in Q1; [|lia|exact Ls]. apply (t_cq st 2) in VT; [|lia|exact Ls]. apply (t_cq st 3) in VZ; [|lia|exact Ls].
  split; [cl|]. split; [exact On|]. exists z. destruct (iso448 P) as [px py]. destruct Rep as (Nz & Ex & Ey & Et). apply cq_of in Ex, Ey, Et.
  split; [exact Nz|]. cbn [fst snd]. split; [|split; [|split]].
  - refine (rq_cg _ _ _ _ _ Q0). apply cq_trans with (py * z - px * z); [exact (cq_sub _ _ _ _ Ey Ex)|]. replace (py * z - px * z) with ((py - px) * z) by ring. apply cq_refl.
  - refine (rq_cg _ _ _ _ _ Q1). apply cq_trans with (py * z + px * z); [exact (cq_add _ _ _ _ Ey Ex)|]. replace (py * z + px * z) with ((py + px) * z) by ring. apply cq_refl.
  - refine (rq_cg _ _ _ _ _ VT). apply cq_trans with (px * py * z * (2 * (d_ed448 - 1))); [exact (cq_mul _ _ _ _ Et (cq_refl _))|].
    replace (px * py * z * (2 * (d_ed448 - 1))) with (2 * (d_ed448 - 1) * (px * py * z)) by ring. apply cq_refl.
  - refine (rq_cg _ _ _ _ _ VZ). rewrite Z.mul_comm. apply cq_refl.
Qed.
Lemma zip_pre448 a b c d P : l1q a -> l1q b -> l1q c -> l1q d -> pre_zip448 a b c d P -> pre448_4w (zip448_4w st a b c d) P.
Proof.
  intros La Lb Lc Ld (On & Ra & Rb & Rc & Rd). split; [cl|]. split; [exact On|]. exists 1. split; [vm_compute; discriminate|].
  rewrite !zip448_4w_ok by (assumption || lia). cbn [nth]. rewrite !Z.mul_1_r. split; [exact Ra|]. split; [exact Rb|]. split; [exact Rc|exact Rd].
Qed.
Lemma neg_parts x y w : cq ((y - (- x) mod p44) * w) ((y + x) * w) /\ cq ((y + (- x) mod p44) * w) ((y - x) * w) /\
  cq (2 * (d_ed448 - 1) * ((- x) mod p44 * y * w)) (0 - 2 * (d_ed448 - 1) * (x * y * w)).
Proof.
  split; [|split].
  - apply cq_trans with ((y - - x) * w); [exact (cq_mul _ _ _ _ (cq_sub _ _ _ _ (cq_refl _) (cq_mod _)) (cq_refl _))|]. replace ((y - - x) * w) with ((y + x) * w) by ring. apply cq_refl.
  - apply cq_trans with ((y + - x) * w); [exact (cq_mul _ _ _ _ (cq_add _ _ _ _ (cq_refl _) (cq_mod _)) (cq_refl _))|]. replace ((y + - x) * w) with ((y - x) * w) by ring. apply cq_refl.
  - apply cq_trans with (2 * (d_ed448 - 1) * (- x * y * w)).
    + exact (cq_mul _ _ _ _ (cq_refl _) (cq_mul _ _ _ _ (cq_mul _ _ _ _ (cq_mod _) (cq_refl _)) (cq_refl _))).
    + replace (2 * (d_ed448 - 1) * (- x * y * w)) with (0 - 2 * (d_ed448 - 1) * (x * y * w)) by ring. apply cq_refl.
Qed.
Lemma iso_of_neg P : on448 P -> iso448 (neg448 P) = ((- xi P) mod p44, yi P).
Proof. intro On. rewrite iso448_neg by exact On. destruct (iso448 P) as [x y]. reflexivity. Qed.
Lemma pre_neg448 a b c d P : on448 P -> rq red448 a (yi P + xi P) -> rq red448 b (yi P - xi P) -> rq red448 c (0 - 2 * (d_ed448 - 1) * (xi P * yi P)) -> rq red448 d 2 ->
  pre_zip448 a b c d (neg448 P).
Proof.
  intros On Ra Rb Rc Rd. split; [apply neg448_on; exact On|]. rewrite iso_of_neg by exact On. cbn [fst snd]. set (x := xi P) in *. set (y := yi P) in *. clearbody x y.
  destruct (neg_parts x y 1) as (N0 & N1 & N2). rewrite !Z.mul_1_r in N0, N1, N2.
  split; [exact (rq_cg _ _ _ _ (cq_sym _ _ N0) Ra)|]. split; [exact (rq_cg _ _ _ _ (cq_sym _ _ N1) Rb)|]. split; [exact (rq_cg _ _ _ _ (cq_sym _ _ N2) Rc)|exact Rd].
Qed.
Lemma odd_half d n : 0 < n -> Z.odd d = true -> - (2 * n) < d < 2 * n -> (Z.to_nat (Z.abs d / 2) < Z.to_nat n)%nat /\ 2 * Z.of_nat (Z.to_nat (Z.abs d / 2)) + 1 = Z.abs d.
Proof.
  intros Hn Od Hd. assert (Oa : Z.odd (Z.abs d) = true) by (destruct (Z.abs_eq_or_opp d) as [-> | ->]; [exact Od|rewrite Z.odd_opp; exact Od]).
  pose proof (Z.div_mod (Z.abs d) 2 ltac:(lia)) as D. rewrite Zmod_odd, Oa in D. assert (0 <= Z.abs d / 2) by (apply Z.div_pos; lia).
  rewrite Z2Nat.id by lia. split; [apply Z2Nat.inj_lt; lia|lia].
Qed.
Lemma words_bytes7 X : words 7 X -> bytes 56 (bytes_of X) /\ le_val (bytes_of X) = val X. Proof. intro H. exact (bytes_of_ok 7 X H). Qed.
Lemma entry_rq n x y (a b c : list Z) v0 v1 v2 : n = (x, y) -> arr_ok canon448 a -> arr_ok canon448 b -> arr_ok canon448 c ->
  fe448 a = v0 -> fe448 b = v1 -> fe448 c = v2 -> v0 = (y + x) mod p_ed448 -> v1 = (y - x) mod p_ed448 -> v2 = (2 * (d_ed448 - 1) * x * y) mod p_ed448 ->
  rq red448 a (snd n + fst n) /\ rq red448 b (snd n - fst n) /\ rq red448 c (2 * (d_ed448 - 1) * (fst n * snd n)).
Proof.
  intros -> Ra Rb Rc F0 F1 F2 T0 T1 T2. cbn [fst snd]. split; [|split]; (split; [apply canon_red448; assumption|]).
  - rewrite F0, T0. exact (cq_mod _).
  - rewrite F1, T1. exact (cq_mod _).
  - rewrite F2, T2, Z.mul_assoc. exact (cq_mod _).
Qed.
Lemma read_point448_ok d : Z.odd d = true -> - 64 < d < 64 -> pre448_4w (read_point448_4w st d) (d ** B).
Proof.
  intros Od Hd. unfold read_point448_4w. destruct (odd_half d 32 ltac:(lia) Od Hd) as [Hn En]. change (Z.to_nat 32) with 32%nat in Hn. set (n := Z.to_nat (Z.abs d / 2)) in *.
  pose proof (verf_table448_spec n Hn) as T. rewrite En in T. unfold entry_numbers448 in T.
  destruct (verf_part448 n 0 Hn ltac:(lia)) as [W0 V0]. destruct (verf_part448 n 1 Hn ltac:(lia)) as [W1 V1]. destruct (verf_part448 n 2 Hn ltac:(lia)) as [W2 V2].
  rewrite <- V0, <- V1, <- V2 in T. clear V0 V1 V2.
  set (w0 := firstn 7 (skipn (21 * n + 7 * 0) _)) in *. set (w1 := firstn 7 (skipn (21 * n + 7 * 1) _)) in *. set (w2 := firstn 7 (skipn (21 * n + 7 * 2) _)) in *.
  clearbody w0 w1 w2.
  destruct (words_bytes7 w0 W0) as [B0 L0]. destruct (words_bytes7 w1 W1) as [B1 L1]. destruct (words_bytes7 w2 W2) as [B2 L2].
  destruct (unser448_1w_ok st _ B0) as [F0 R0]. destruct (unser448_1w_ok st _ B1) as [F1 R1]. destruct (unser448_1w_ok st _ B2) as [F2 R2].
  rewrite L0 in F0. rewrite L1 in F1. rewrite L2 in F2.
  set (a := unser448_1w st (bytes_of w0)) in *. set (b := unser448_1w st (bytes_of w1)) in *. set (c := unser448_1w st (bytes_of w2)) in *. clearbody a b c.
  pose proof (len1q _ _ R0 eq_refl : l1q a) as La. pose proof (len1q _ _ R1 eq_refl : l1q b) as Lb. pose proof (len1q _ _ R2 eq_refl : l1q c) as Lc.
  destruct two_rq as [Lt Rt].
  assert (On : on448 (Z.abs d ** B)) by (apply mul448_on; exact onB).
  assert (Q : rq red448 a (yi (Z.abs d ** B) + xi (Z.abs d ** B)) /\ rq red448 b (yi (Z.abs d ** B) - xi (Z.abs d ** B)) /\
    rq red448 c (2 * (d_ed448 - 1) * (xi (Z.abs d ** B) * yi (Z.abs d ** B)))).
  { destruct (iso448 (Z.abs d ** B)) as [x y] eqn:E. destruct T as (T0 & T1 & T2).
    exact (entry_rq (x, y) x y a b c _ _ _ eq_refl R0 R1 R2 F0 F1 F2 T0 T1 T2). }
  clear T F0 F1 F2. destruct Q as (Qa & Qb & Qc). destruct (Z.ltb_spec d 0) as [Neg|Pos].
  - replace (d ** B) with (neg448 (Z.abs d ** B)) by (rewrite neg448_mul by exact onB; f_equal; lia).
    destruct (neg448_1w_ok st c (proj1 Qc)) as [Cn Wn]. destruct (compress448_1w_ok st _ (wide_big448 _ Wn)) as [Cc Rc].
    apply zip_pre448; [exact La|exact Lb|cl|exact Lt|]. apply pre_neg448; [exact On|exact Qa|exact Qb| |exact Rt].
    split; [exact Rc|]. apply (cq_trans _ _ _ Cc), (cq_trans _ _ _ Cn). exact (cq_sub _ _ _ _ (cq_refl _) (proj2 Qc)).
  - rewrite (Z.abs_eq d) in * by lia. apply zip_pre448; [exact Lb|exact La|exact Lc|exact Lt|]. split; [exact On|]. split; [exact Qb|]. split; [exact Qa|]. split; [exact Qc|exact Rt].
Qed.
Lemma rq_wide448 a x : rq red448 a x -> rq wide448 a x. Proof. apply rq_le. vm_compute. reflexivity. Qed.
Lemma neg_entry448_ok p P : pre448_4w p P -> pre448_4w (compressfast448_4w st (ngz448_4w st p)) (neg448 P).
Proof.
  intros (L & On & w & Hw & P0 & P1 & P2 & P3).
  destruct (ngz448_4w_ok st p L) as (V0 & V1 & V2 & V3 & B0 & B1 & B2 & B3).
  { intros j Hj. destruct j as [|[|[|[|j]]]]; [exact (proj1 P0)|exact (proj1 P1)|exact (proj1 P2)|exact (proj1 P3)|lia]. }
  set (m := ngz448_4w st p) in *. assert (Lm : l4q m) by cl. clearbody m.
  assert (M0 : rq wide448 (el4q 0 m) ((yi P + xi P) * w)) by (apply rq_wide448; split; [exact B0|exact (cq_trans _ _ _ V0 (proj2 P1))]).
  assert (M1 : rq wide448 (el4q 1 m) ((yi P - xi P) * w)) by (apply rq_wide448; split; [exact B1|exact (cq_trans _ _ _ V1 (proj2 P0))]).
  assert (M2 : rq wide448 (el4q 2 m) (0 - 2 * (d_ed448 - 1) * (xi P * yi P * w))) by (split; [exact B2|exact (cq_trans _ _ _ V2 (cq_sub _ _ _ _ (cq_refl _) (proj2 P2)))]).
  assert (M3 : rq wide448 (el4q 3 m) (2 * w)) by (apply rq_wide448; split; [exact B3|exact (cq_trans _ _ _ V3 (proj2 P3))]).
  apply (t_cfq st 0) in M0; [|lia|exact Lm]. apply (t_cfq st 1) in M1; [|lia|exact Lm]. apply (t_cfq st 2) in M2; [|lia|exact Lm]. apply (t_cfq st 3) in M3; [|lia|exact Lm].
  split; [cl|]. split; [apply neg448_on; exact On|]. exists w. split; [exact Hw|].
  rewrite iso_of_neg by exact On. cbn [fst snd]. set (x := xi P) in *. set (y := yi P) in *. clearbody x y. destruct (neg_parts x y w) as (N0 & N1 & N2).
  split; [exact (rq_cg _ _ _ _ (cq_sym _ _ N0) M0)|]. split; [exact (rq_cg _ _ _ _ (cq_sym _ _ N1) M1)|]. split; [exact (rq_cg _ _ _ _ (cq_sym _ _ N2) M2)|exact M3].
Qed.
Notation clean := (mix_clean448 st).
Lemma more_entries448_ok A : on448 A -> forall num iP P2 m, pt448_4w iP (m ** A) -> pre448_4w P2 (2 ** A) ->
  (forall q e, In (q, e) (entries_ops448 st num iP P2) -> clean q e) ->
  forall i, (i < num)%nat -> pre448_4w (nth i (more_entries448 st num iP P2) []) ((m + 2 * (Z.of_nat i + 1)) ** A).
Proof.
  intro On. induction num as [|num IH]; intros iP P2 m Hp H2 Hc i Hi; [lia|]. cbn [more_entries448 entries_ops448] in *. cbv zeta.
  pose proof (mixadd448_4w_ok st _ _ _ _ Hp H2 (Hc _ _ (or_introl eq_refl))) as Hn. rewrite <- mul448_add in Hn by exact On.
  destruct i as [|i]; cbn [nth].
  - replace (m + 2 * (Z.of_nat 0 + 1)) with (m + 2) by lia. apply table_entry448_ok. exact Hn.
  - replace (m + 2 * (Z.of_nat (Datatypes.S i) + 1)) with ((m + 2) + 2 * (Z.of_nat i + 1)) by lia.
    apply (IH (mixadd448_4w st iP P2) P2 (m + 2) Hn H2); [|lia]. intros q e Hq. apply Hc. right. exact Hq.
Qed.
Lemma precompute448_ok p A : pt448_4w p A -> (forall q e, In (q, e) (entries_ops448 st 7 p (table_entry448 st (doubling448_4w st p))) -> clean q e) ->
  forall i, (i < 8)%nat -> pre448_4w (nth i (precompute_points448_4w st p) []) ((2 * Z.of_nat i + 1) ** A).
Proof.
  intros Hp Hc i Hi. assert (On : on448 A) by exact (proj1 (proj2 Hp)). unfold precompute_points448_4w. cbv zeta.
  destruct i as [|i]; cbn [nth].
  - change (2 * Z.of_nat 0 + 1) with 1. rewrite mul448_1. apply table_entry448_ok. exact Hp.
  - replace (2 * Z.of_nat (Datatypes.S i) + 1) with (1 + 2 * (Z.of_nat i + 1)) by lia.
    apply (more_entries448_ok A On 7 p _ 1); [rewrite mul448_1; exact Hp| |exact Hc|lia].
    rewrite mul448_2. apply table_entry448_ok, doubling448_4w_ok. exact Hp.
Qed.
Section Loop.
Variable A : Z * Z.
Hypothesis onA : on448 A.
Notation S2 a b := (add448 (a ** B) (b ** A)).
Lemma oB n : on448 (n ** B). Proof. apply mul448_on, onB. Qed.
Lemma oA n : on448 (n ** A). Proof. apply mul448_on, onA. Qed.
Lemma S2_dbl a b : add448 (S2 a b) (S2 a b) = S2 (2 * a) (2 * b).
Proof.
  rewrite <- mul448_2, mul448_padd by (apply oB || apply oA). rewrite <- !mul448_mul by (exact onB || exact onA). reflexivity.
Qed.
Lemma S2_B a b r : add448 (S2 a b) (r ** B) = S2 (a + r) b.
Proof.
  rewrite add448_assoc by (apply oB || apply oA). rewrite (add448_comm (b ** A)) by (apply oB || apply oA).
  rewrite <- add448_assoc by (apply oB || apply oA). rewrite <- mul448_add by exact onB. reflexivity.
Qed.
Lemma S2_A a b r : add448 (S2 a b) (r ** A) = S2 a (b + r).
Proof. rewrite add448_assoc by (apply oB || apply oA). rewrite <- mul448_add by exact onA. reflexivity. Qed.
Variable tab : list (list Z).
Hypothesis Htab : forall i, (i < 8)%nat -> pre448_4w (nth i tab []) ((2 * Z.of_nat i + 1) ** A).
Lemma dyn448_ok d : Z.odd d = true -> - 16 < d < 16 -> pre448_4w (dyn_point448 st tab d) (d ** A).
Proof.
  intros Od Hd. unfold dyn_point448. destruct (odd_half d 8 ltac:(lia) Od Hd) as [Hn En]. change (Z.to_nat 8) with 8%nat in Hn. set (n := Z.to_nat (Z.abs d / 2)) in *.
  pose proof (Htab n Hn) as T. rewrite En in T. destruct (Z.ltb_spec d 0) as [Neg|Pos].
  - replace (d ** A) with (neg448 (Z.abs d ** A)) by (rewrite neg448_mul by exact onA; f_equal; lia). apply neg_entry448_ok. exact T.
  - rewrite Z.abs_eq in T by lia. exact T.
Qed.
Lemma step448_ok dr dh Q a b : wnaf_digit 7 dr -> wnaf_digit 5 dh -> pt448_4w Q (S2 a b) ->
  (forall q e, In (q, e) (fold_ops448 st (to_add448 st tab dr dh) Q) -> clean q e) ->
  pt448_4w (fold_left (mixadd448_4w st) (to_add448 st tab dr dh) Q) (S2 (a + dr) (b + dh)).
Proof.
  intros Hr Hh HQ Hc. unfold to_add448 in *.
  assert (R1 : pt448_4w (fold_left (mixadd448_4w st) (if dr =? 0 then [] else [read_point448_4w st dr]) Q) (S2 (a + dr) b)).
  { destruct (Z.eqb_spec dr 0) as [->|Nr]; cbn [fold_left app fold_ops448] in *; [rewrite Z.add_0_r; exact HQ|].
    destruct Hr as [Hr|[Od Rg]]; [contradiction|]. rewrite <- S2_B. apply mixadd448_4w_ok; [exact HQ|apply read_point448_ok; assumption|]. apply Hc. left. reflexivity. }
  rewrite fold_left_app.
  assert (Hc2 : dh <> 0 -> clean (fold_left (mixadd448_4w st) (if dr =? 0 then [] else [read_point448_4w st dr]) Q) (dyn_point448 st tab dh)).
  { intro Nh. apply Hc. rewrite (proj2 (Z.eqb_neq _ _) Nh). destruct (dr =? 0); cbn [app fold_ops448 fold_left]; [left; reflexivity|right; left; reflexivity]. }
  clear Hc. set (Q1 := fold_left (mixadd448_4w st) (if dr =? 0 then [] else [read_point448_4w st dr]) Q) in *. clearbody Q1.
  destruct (Z.eqb_spec dh 0) as [->|Nh]; cbn [fold_left]; [rewrite Z.add_0_r; exact R1|].
  destruct Hh as [Hh|[Od Rg]]; [contradiction|]. rewrite <- S2_A. apply mixadd448_4w_ok; [exact R1|apply dyn448_ok; assumption|exact (Hc2 Nh)].
Qed.
Lemma loop448_ok wr wh : (forall i, wnaf_digit 7 (nth i wr 0)) -> (forall i, wnaf_digit 5 (nth i wh 0)) ->
  forall n Q a b, pt448_4w Q (S2 a b) -> (forall q e, In (q, e) (loop_ops448 st tab wr wh n Q) -> clean q e) ->
  pt448_4w (double_loop448 st tab wr wh n Q) (S2 (2 ^ Z.of_nat n * a + low_value n wr) (2 ^ Z.of_nat n * b + low_value n wh)).
Proof.
  intros Hr Hh. induction n as [|n IH]; intros Q a b HQ Hc.
  - cbn [double_loop448 VerifyMulProofs.low_value]. change (2 ^ Z.of_nat 0) with 1. rewrite !Z.mul_1_l, !Z.add_0_r. exact HQ.
  - cbn [double_loop448 loop_ops448] in *. cbv zeta in *. apply (doubling448_4w_ok st) in HQ. rewrite S2_dbl in HQ.
    apply (step448_ok (nth n wr 0) (nth n wh 0)) in HQ; [|exact (Hr n)|exact (Hh n)|intros q e Hq; apply Hc; apply in_or_app; left; exact Hq].
    apply IH in HQ; [|intros q e Hq; apply Hc; apply in_or_app; right; exact Hq].
    cbn [VerifyMulProofs.low_value]. rewrite Nat2Z.inj_succ, Z.pow_succ_r by lia.
    replace (2 * 2 ^ Z.of_nat n * a + (low_value n wr + 2 ^ Z.of_nat n * nth n wr 0)) with (2 ^ Z.of_nat n * (2 * a + nth n wr 0) + low_value n wr) by ring.
    replace (2 * 2 ^ Z.of_nat n * b + (low_value n wh + 2 ^ Z.of_nat n * nth n wh 0)) with (2 ^ Z.of_nat n * (2 * b + nth n wh 0) + low_value n wh) by ring.
    exact HQ.
Qed.
End Loop.
Lemma neutral448_ok A : on448 A -> pt448_4w (neutral448_4w st) (add448 (0 ** B) (0 ** A)).
Proof.
  intro On. rewrite !mul448_0, add448_zero by exact zero448_on. unfold neutral448_4w. rewrite zero448_4w_ok. split; [reflexivity|].
  change (ptv448 (repeat 0 16) (1 :: repeat 0 15) (1 :: repeat 0 15) (repeat 0 16) ed_zero).
  split; [exact zero448_on|]. do 4 (split; [apply arr_lit; vm_compute; reflexivity|]).
  apply iso448_affine; [exact zero448_on|reflexivity..].
Qed.
Lemma unzip_lanes448 q : l4q q -> l2q (fst (unzip448_2w_4w q)) /\ l2q (snd (unzip448_2w_4w q)) /\
  el2q false (fst (unzip448_2w_4w q)) = el4q 0 q /\ el2q true (fst (unzip448_2w_4w q)) = el4q 1 q /\
  el2q false (snd (unzip448_2w_4w q)) = el4q 2 q /\ el2q true (snd (unzip448_2w_4w q)) = el4q 3 q.
Proof.
  intro L. do 64 (destruct q as [|? q]; [discriminate L|]). destruct q; [|discriminate L]. clear L.
  split; [reflexivity|]. split; [reflexivity|]. split; [reflexivity|]. split; [reflexivity|]. split; reflexivity.
Qed.
Lemma unzip_point448 q P : pt448_4w q P -> pt448_2w (unzip448_2w_4w q) P.
Proof.
  intros [L Pv]. destruct (unzip_lanes448 q L) as (L1 & L2 & E0 & E1 & E2 & E3). split; [exact L1|]. split; [exact L2|]. rewrite E0, E1, E2, E3. exact Pv.
Qed.
Lemma div4_bytes s : words 2 junk -> bytes 57 s -> bytes 57 (div4 st junk s).
Proof. intros HJ Hs. exact (proj1 (div4_spec st junk s HJ Hs)). Qed.
Definition loop_end (Kr Kh p : list Z) : list Z :=
  double_loop448 st (precompute_points448_4w st p) Kr Kh (Nat.max (length Kr) (length Kh)) (neutral448_4w st).
Definition loop_adds (Kr Kh p : list Z) : list (list Z * list Z) :=
  entries_ops448 st 7 p (table_entry448 st (doubling448_4w st p)) ++
  loop_ops448 st (precompute_points448_4w st p) Kr Kh (Nat.max (length Kr) (length Kh)) (neutral448_4w st).
Lemma double_eq s h p Kr Kh : wnaf_448bits st 460 (div4 st junk s) 7 = Some Kr -> wnaf_448bits st 460 (div4 st junk h) 5 = Some Kh ->
  double_point_mult448_4w st junk s h p = Some (point_encoding448 st (isogeny_2w st (unzip448_2w_4w (loop_end Kr Kh p)))).
Proof. intros E1 E2. unfold double_point_mult448_4w. rewrite E1, E2. reflexivity. Qed.
Lemma adds_eq s h p Kr Kh : wnaf_448bits st 460 (div4 st junk s) 7 = Some Kr -> wnaf_448bits st 460 (div4 st junk h) 5 = Some Kh ->
  mixed_additions448 st junk s h p = loop_adds Kr Kh p.
Proof. intros E1 E2. unfold mixed_additions448. rewrite E1, E2. reflexivity. Qed.
Lemma loop_end_ok Kr Kh p A : pt448_4w p A -> Forall (wnaf_digit 7) Kr -> Forall (wnaf_digit 5) Kh ->
  (forall q e, In (q, e) (loop_adds Kr Kh p) -> clean q e) -> pt448_4w (loop_end Kr Kh p) (add448 (value2 Kr ** B) (value2 Kh ** A)).
Proof.
  intros Hp Dr Dh Hc. assert (On : on448 A) by exact (proj1 (proj2 Hp)). unfold loop_adds in Hc.
  pose proof (precompute448_ok p A Hp (fun q e Hq => Hc q e (in_or_app _ _ _ (or_introl Hq)))) as Ht.
  pose proof (loop448_ok A On _ Ht Kr Kh (fun i => VerifyMulProofs.digits_nth 7 Kr i Dr) (fun i => VerifyMulProofs.digits_nth 5 Kh i Dh) (Nat.max (length Kr) (length Kh)) _ 0 0 (neutral448_ok A On)
    (fun q e Hq => Hc q e (in_or_app _ _ _ (or_intror Hq)))) as Rs.
  rewrite !Z.mul_0_r, !Z.add_0_l, !VerifyMulProofs.low_value_all in Rs by lia. exact Rs.
Qed.
Lemma four_sum a b A : on448 A -> mul448 4 (add448 (a ** B) (b ** A)) = add448 ((4 * a) ** B) ((4 * b) ** A).
Proof.
  intro On. rewrite mul448_padd by (apply mul448_on; (exact onB || exact On)). rewrite <- (mul448_mul 4 a B onB), <- (mul448_mul 4 b A On). reflexivity.
Qed.
Lemma encode_end q X R : pt448_4w q X -> mul448 4 X = R -> ~ carry_lost (fst R) -> ~ carry_lost (snd R) ->
  encodes448 (point_encoding448 st (isogeny_2w st (unzip448_2w_4w q))) R.
Proof. intros Hq <- N1 N2. exact (point_encoding448_ok st _ _ (isogeny_2w_ok st _ _ (unzip_point448 _ _ Hq)) N1 N2). Qed.
Theorem double_mult448_ok s h p A qs qh R : words 2 junk -> bytes 57 s -> bytes 57 h -> pt448_4w p A ->
  (forall q e, In (q, e) (mixed_additions448 st junk s h p) -> clean q e) ->
  le_val (div4 st junk s) = qs -> le_val (div4 st junk h) = qh -> add448 ((4 * qs) ** B) ((4 * qh) ** A) = R ->
  ~ carry_lost (fst R) -> ~ carry_lost (snd R) ->
  exists out, double_point_mult448_4w st junk s h p = Some out /\ encodes448 out R.
Proof.
  intros HJ Hs Hh Hp Hc Es Eh0 ER N1 N2. assert (On : on448 A) by exact (proj1 (proj2 Hp)).
  destruct (wnaf448_ok st _ 7 (div4_bytes s HJ Hs) ltac:(lia)) as (Kr & Er & _ & _ & Dr & _ & Vr).
  destruct (wnaf448_ok st _ 5 (div4_bytes h HJ Hh) ltac:(lia)) as (Kh & Eh & _ & _ & Dh & _ & Vh).
  specialize (Er 460%nat ltac:(lia)). specialize (Eh 460%nat ltac:(lia)). rewrite (adds_eq s h p Kr Kh Er Eh) in Hc. rewrite Es in Vr. rewrite Eh0 in Vh.
  pose proof (loop_end_ok Kr Kh p A Hp Dr Dh Hc) as Rs. rewrite Vr, Vh in Rs.
  exists (point_encoding448 st (isogeny_2w st (unzip448_2w_4w (loop_end Kr Kh p)))). split; [exact (double_eq s h p Kr Kh Er Eh)|].
  exact (encode_end _ _ R Rs (eq_trans (four_sum qs qh A On) ER) N1 N2).
Qed.
End Mul.
