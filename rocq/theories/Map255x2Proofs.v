(** The two-lane map to edwards25519, one lane at a time: what it computes, and when that is the map of RFC 9380. *)
From Coq Require Import ZArith Znumtheory List Bool Lia Field.
From Verif Require Import Uop Engine Bytes FullTac Lanes RedTac FpType Fp25519Full Fp25519FullProofs Fp25519Red Fp25519RedProofs Fp25519RedMore Fp25519RedRoot
  FullMore CurveInst EdInst SpecEd SpecH2c Elligator EllConverse Edwards255 Edwards255Proofs Hash255 Hash255Proofs Map255x2 Map255x2Ops.
Import ListNotations.
Open Scope Z_scope.
Add Field Fpi : F25_field.

(** What the straight-line code computes in a lane; the comparisons are [feq] *)
Definition Yc (U V : Z) : F := I ((U * V ^ 7) ^ e25 * (U * V ^ 3)).
Section Selected.
Variables u Y g d : F.
Definition F1 : F := if feq (Y * Y * d) g then Y else (Y * I i25)%F.
Definition y21F : F := (Y * u * I (1 + i25))%F.
Definition F2 : F := if feq (y21F * y21F * d) (g * tF u) then y21F else (y21F * I i25)%F.
Definition b3 : bool := feq (F1 * F1 * d) g.
Definition fF : F := if b3 then F1 else F2.
End Selected.
Definition signed (b : bool) (f : F) : F := if xorb b (parity f =? 1) then (- f)%F else f.
Definition numU (u g d : F) : Prop :=
  g = ((I J25519 * tF u * - I J25519 + (tF u + I 1) * (tF u + I 1)) * - I J25519)%F /\ d = ((tF u + I 1) * (tF u + I 1) * (tF u + I 1))%F.
Definition raw (h : bool) (u : F) (r : list Z * list Z * list Z * list Z) : Prop :=
  let '(xn, xd, yn, yd) := r in
  exists U V Y, Y = Yc U V /\ numU u (I U) (I V) /\
    fr h xn (if b3 Y (I U) (I V) then - I J25519 else - I J25519 * tF u)%F /\ fr h xd (tF u + I 1)%F /\
    fr h yn (signed (b3 Y (I U) (I V)) (fF u Y (I U) (I V))) /\ fr h yd (I 1).

Section Lane.
Variable st : store. Variable h : bool.
Definition fz (a : list Z) (x : Z) : Prop := fr h a (I x).
Lemma fz_mul a b x y : fz a x -> fz b y -> fz (mul_2w st a b) (x * y).
Proof. intros A B. unfold fz. rewrite inF_mul. apply fr_mul; apply fr_fv; assumption. Qed.
Lemma fz_sqr a x : fz a x -> fz (sqr_2w st a) (x * x).
Proof. intros A. unfold fz. rewrite inF_mul. apply fr_sqr; apply fr_fv; assumption. Qed.
Lemma fr_red b : b = red255 -> forall v, arr_ok b v -> is_wide v. Proof. intros -> v. apply red_wide. Qed.
Lemma id_wide v : is_wide v -> is_wide v. Proof. intro H. exact H. Qed.
Lemma selr e d a b x y : is_mask e d -> fr h a x -> fr h b y -> fr h (cmv_2w e a b) (if d h then y else x).
Proof. apply sel2. exact red_wide. Qed.
Lemma selw e d a b x y : is_mask e d -> fv h a x -> fv h b y -> fv h (cmv_2w e a b) (if d h then y else x).
Proof. apply sel2. exact id_wide. Qed.
Theorem curve_raw u x : fr h u x -> raw h x (elligator2_curve25519_2w st u).
Proof.
  intro Hu. cbv beta delta [elligator2_curve25519_2w expoC4_2w].
  nx zz0 T0 (fr_sqr st h _ _ (fr_fv _ _ _ Hu)).
  nx tv1 T1 (fr_add st h _ _ _ _ T0 T0).
  assert (T : gl sum255 h tv1 (tF x)) by (destruct T1 as (A & B & E); split; [exact A|split; [exact B|]]; rewrite E; unfold tF; ring). clear T1.
  nx xd Xd (fr_add3 st h _ _ _ _ T (one_fr h)). apply fs_fv in T.
  nx x1n X1n (fr_neg st h _ _ (A_fr h)).
  nx zz1 Tv2 (fr_sqr st h _ _ Xd).
  nx gxd Gd (fr_mul st h _ _ _ _ (fr_fv _ _ _ Tv2) Xd).
  nx zz2 G0 (fr_mul st h _ _ _ _ (fr_fv _ _ _ (A_fr h)) T).
  nx zz3 G1 (fr_mul st h _ _ _ _ (fr_fv _ _ _ G0) X1n).
  nx zz4 G2 (fr_add st h _ _ _ _ G1 Tv2). apply fs_fv in G2.
  nx gx1 G (fr_mul st h _ _ _ _ G2 X1n). clear G0 G1 G2.
  destruct G as (LU & BU & EU). destruct Gd as (LV & BV & EV).
  assert (RU : fz gx1 (fe255 (el2 h gx1))) by (split; [exact LU|split; [exact BU|reflexivity]]).
  assert (RV : fz gxd (fe255 (el2 h gxd))) by (split; [exact LV|split; [exact BV|reflexivity]]).
  set (U := fe255 (el2 h gx1)) in *. set (V := fe255 (el2 h gxd)) in *. clearbody U V. clear LU BU LV BV.
  nx zz5 R0 (fz_sqr _ _ RV).
  nx zz6 R1 (fz_sqr _ _ R0).
  nx zz7 R2 (fz_mul _ _ _ _ R0 RV).
  nx zz8 R3 (fz_mul _ _ _ _ R2 RU).
  nx zz9 R4 (fz_mul _ _ _ _ R1 R3).
  nx zz10 R5 (pow_p58_ok fz (mul_2w st) (sqr_2w st) fz_mul fz_sqr _ _ R4). fold e25 in R5.
  nx y11 R6 (fz_mul _ _ _ _ R5 R3).
  replace (V * V * (V * V) * (V * V * V * U)) with (U * V ^ 7) in R6 by ring. replace (V * V * V * U) with (U * V ^ 3) in R6 by ring.
  clear R0 R1 R2 R3 R4 R5 zz5 zz6 zz7 zz8 zz9 zz10. unfold fz in RU, RV, R6.
  change (fr h y11 (Yc U V)) in R6. assert (HY : exists Y, Y = Yc U V) by (exists (Yc U V); reflexivity). destruct HY as (Y & HY). rewrite <- HY in R6.
  assert (N : numU x (I U) (I V)) by (split; [exact EU|exact EV]). clear EU EV.
  nx y12 Y12 (fr_mul st h _ _ _ _ (fr_fv _ _ _ R6) (fr_fv _ _ _ (c3_fr h))).
  nx zz5 Q0 (fr_sqr st h _ _ (fr_fv _ _ _ R6)).
  nx zz6 Q1 (fr_mul st h _ _ _ _ (fr_fv _ _ _ Q0) (fr_fv _ _ _ RV)).
  nx em1 M1 (mask_cmp st h _ _ _ _ Q1 RU). destruct M1 as (d1 & M1 & E1).
  nx y1 Y1 (selr _ _ _ _ _ _ M1 Y12 R6). rewrite E1 in Y1. change (fr h y1 (F1 Y (I U) (I V))) in Y1.
  nx x2n X2n (fr_mul st h _ _ _ _ X1n T).
  nx zz7 Q2 (fr_mul st h _ _ _ _ (fr_fv _ _ _ R6) (fr_fv _ _ _ Hu)).
  nx y21 Y21 (fr_mul st h _ _ _ _ (fr_fv _ _ _ Q2) (fr_fv _ _ _ (c2_fr h))).
  nx y22 Y22 (fr_mul st h _ _ _ _ (fr_fv _ _ _ Y21) (fr_fv _ _ _ (c3_fr h))).
  nx gx2 Gx2 (fr_mul st h _ _ _ _ (fr_fv _ _ _ RU) T).
  nx zz8 Q3 (fr_sqr st h _ _ (fr_fv _ _ _ Y21)).
  nx zz9 Q4 (fr_mul st h _ _ _ _ (fr_fv _ _ _ Q3) (fr_fv _ _ _ RV)).
  nx em2 M2 (mask_cmp st h _ _ _ _ Q4 Gx2). destruct M2 as (d2 & M2 & E2).
  nx y2 Y2 (selr _ _ _ _ _ _ M2 Y22 Y21). rewrite E2 in Y2. change (fr h y2 (F2 x Y (I U) (I V))) in Y2.
  nx zz10 Q5 (fr_sqr st h _ _ (fr_fv _ _ _ Y1)).
  nx zz11 Q6 (fr_mul st h _ _ _ _ (fr_fv _ _ _ Q5) (fr_fv _ _ _ RV)).
  nx em3 M3 (mask_cmp st h _ _ _ _ Q6 RU). destruct M3 as (d3 & M3 & E3). assert (E3' : d3 h = b3 Y (I U) (I V)) by (unfold b3; exact E3). clear E3. rename E3' into E3.
  nx xn Xn (selw _ _ _ _ _ _ M3 (fr_fv _ _ _ X2n) X1n).
  nx yy Yy (selr _ _ _ _ _ _ M3 Y2 Y1). rewrite E3 in Xn, Yy. assert (Yy' : fr h yy (fF x Y (I U) (I V))) by (unfold fF; exact Yy). clear Yy. rename Yy' into Yy.
  nx em4 M4 (mask_sgn st h _ _ Yy). destruct M4 as (d4 & M4 & E4).
  nx y3 Y3 (fr_neg st h _ _ Yy).
  nx yn Yn (selw _ _ _ _ _ _ (mask_xor _ _ _ _ M3 M4) (fr_fv _ _ _ Yy) Y3). cbv beta in Yn. rewrite E3, E4 in Yn. assert (Yn' : fv h yn (signed (b3 Y (I U) (I V)) (fF x Y (I U) (I V)))) by (unfold signed; exact Yn). clear Yn. rename Yn' into Yn.
  nx xn' Xn' (fr_compress st h _ _ Xn).
  nx xd' Xd' (fr_compress st h _ _ Xd).
  nx yn' Yn' (fr_compress st h _ _ Yn).
  nx yd' Yd' (fr_compress st h _ _ (fr_fv _ _ _ (one_fr h))).
  unfold raw. exists U, V, Y. split; [exact HY|]. split; [exact N|]. split; [exact Xn'|]. split; [exact Xd'|]. split; [exact Yn'|exact Yd'].
Qed.
End Lane.

(** ** The decisions of a lane *)
Lemma i_sq : (I i25 * I i25)%F = (- I 1)%F. Proof. exact (ll_i p25 i25 p25_2 i25_sq). Qed.
Lemma feq_sign (v w : F) : v = w \/ v = (- w)%F -> feq v w = if Fp_dec p25 v w then true else false.
Proof.
  intros [E|E]; rewrite E; [|apply feq_opp]. rewrite feq_refl. destruct (Fp_dec p25 w w) as [_|N]; [reflexivity|destruct (N eq_refl)].
Qed.
Definition no_false (g : F) : Prop := feq (I i25 * g)%F g = false /\ feq (- I i25 * g)%F g = false.
Lemma feq_false v w : feq v w = false -> v <> w. Proof. intros H E. rewrite E, feq_refl in H. discriminate H. Qed.
Theorem decide u U V Y : Y = Yc U V -> numU u (I U) (I V) -> (exists r, (r * r)%F = gF (x1F u)) \/ no_false (I U) ->
  let b := b3 Y (I U) (I V) in let f := fF u Y (I U) (I V) in
  (if b then exists r, (r * r)%F = gF (x1F u) else forall r, (r * r)%F <> gF (x1F u)) /\ (f * f)%F = gF (if b then x1F u else x2F u).
Proof.
  intros HY [HU HV] HC. cbv zeta.
  pose proof (V_nz p25 e25 i25 p25_prime p25_2 e25_pos p25_e i25_sq u V HV) as NV.
  pose proof (g_x1 p25 e25 i25 p25_prime p25_2 e25_pos p25_e i25_sq (I J25519) u U V HU HV) as Gx. cbv zeta in Gx. fold (tF u) in Gx. fold (x1F u) in Gx. fold (gF (x1F u)) in Gx.
  pose proof (outcome p25 e25 i25 p25_prime p25_2 e25_pos p25_e i25_sq (I J25519) u (I (1 + i25)) U V c2_sq HU HV) as Out. cbv zeta in Out.
  change (I ((U * V ^ 7) ^ e25 * (U * V ^ 3))) with (Yc U V) in Out. rewrite <- HY in Out. change ((I 1 + I 1) * u * u)%F with (tF u) in Out.
  assert (K : ((Y * Y * I V)%F = I U \/ (Y * Y * I V)%F = (- I U)%F) \/
    (((Y * Y * I V)%F = (I i25 * I U)%F \/ (Y * Y * I V)%F = (- I i25 * I U)%F) /\ no_false (I U))).
  { destruct HC as [[r R]|HC].
    - left. destruct (root_candidate p25 e25 p25_prime p25_2 e25_pos p25_e U V r NV) as [H|H]; [rewrite R; exact Gx| |].
      + left. rewrite HY. exact H.
      + right. rewrite HY. exact H.
    - destruct (candidate p25 e25 p25_prime p25_2 e25_pos p25_e U V) as (c & Hy & Hc). change (I ((U * V ^ 7) ^ e25 * (U * V ^ 3))) with (Yc U V) in Hy. rewrite <- HY in Hy.
      destruct Hc as [Hc|[Hc|Hc]].
      + left. left. rewrite Hy, Hc. ring.
      + contradiction.
      + apply (four_roots p25 i25 p25_prime p25_2 i25_sq) in Hc. destruct Hc as [Hc|[Hc|[Hc|Hc]]]; rewrite Hc in Hy.
        * left. left. rewrite Hy. ring.
        * left. right. rewrite Hy. ring.
        * right. split; [left; exact Hy|exact HC].
        * right. split; [right; exact Hy|exact HC]. }
  clear HY HC HU HV. generalize dependent (I U). generalize dependent (I V). intros d NV g Gx Out K.
  unfold fF. destruct K as [K|[K [N1 N2]]].
  - clear Out.
    assert (A : (F1 Y g d * F1 Y g d * d)%F = g).
    { unfold F1. rewrite (feq_sign _ _ K). destruct (Fp_dec p25 (Y * Y * d) g) as [E|E]; [exact E|].
      transitivity (Y * Y * d * (I i25 * I i25))%F; [ring|]. rewrite i_sq. destruct K as [K|K]; [contradiction|]. rewrite K. ring. }
    assert (B : b3 Y g d = true) by (unfold b3; rewrite A; apply feq_refl). rewrite B.
    assert (C : (F1 Y g d * F1 Y g d)%F = gF (x1F u)) by (apply (ll_cancel p25 p25_prime p25_2 d _ _ NV); rewrite A; symmetry; exact Gx).
    split; [exists (F1 Y g d); exact C|exact C].
  - assert (A : feq (Y * Y * d) g = false) by (destruct K as [K|K]; rewrite K; assumption).
    assert (A' : (Y * I i25 * (Y * I i25) * d)%F = (- I i25 * g)%F \/ (Y * I i25 * (Y * I i25) * d)%F = (I i25 * g)%F).
    { replace (Y * I i25 * (Y * I i25) * d)%F with (Y * Y * d * (I i25 * I i25))%F by ring. rewrite i_sq. destruct K as [K|K]; [left|right]; rewrite K; ring. }
    assert (B' : feq (Y * I i25 * (Y * I i25) * d) g = false) by (destruct A' as [E|E]; rewrite E; assumption).
    assert (B : b3 Y g d = false) by (unfold b3, F1; rewrite A; exact B'). rewrite B.
    destruct (Fp_dec p25 (Y * Y * d) g) as [E|_]; [destruct (feq_false _ _ A E)|].
    destruct (Fp_dec p25 (Y * I i25 * (Y * I i25) * d) g) as [E|_]; [destruct (feq_false _ _ B' E)|].
    destruct Out as [Ns Out]. split; [exact Ns|]. refine (eq_trans _ Out). unfold F2, y21F.
    rewrite (feq_sign (Y * u * I (1 + i25) * (Y * u * I (1 + i25)) * d) (g * tF u)).
    + destruct (Fp_dec p25 (Y * u * I (1 + i25) * (Y * u * I (1 + i25)) * d) (g * tF u)); reflexivity.
    + assert (Q : (Y * u * I (1 + i25) * (Y * u * I (1 + i25)) * d)%F = (Y * Y * d * tF u * I i25)%F).
      { transitivity (Y * Y * d * (u * u) * (I (1 + i25) * I (1 + i25)))%F; [ring|]. rewrite c2_sq. unfold tF. ring. }
      rewrite Q. destruct K as [K|K]; rewrite K.
      * right. transitivity (I i25 * I i25 * g * tF u)%F; [ring|]. rewrite i_sq. ring.
      * left. transitivity (- (I i25 * I i25) * g * tF u)%F; [ring|]. rewrite i_sq. ring.
Qed.

(** ** The map: what a lane of the result holds *)
Section MapRaw.
Variable st : store. Variable h : bool.
Definition mapped (p : point4) (a D t : F) : Prop :=
  let b := feq (D * t * (a + D))%F (I 0) in
  fr h (cX p) ((if b then I 0 else a * I 1 * I sqrt_mJ2) * (if b then I 1 else a + D))%F /\ fr h (cY p) ((if b then I 1 else a - D) * (if b then I 1 else D * t))%F /\
  fr h (cZ p) ((if b then I 1 else D * t) * (if b then I 1 else a + D))%F /\ fr h (cT p) ((if b then I 0 else a * I 1 * I sqrt_mJ2) * (if b then I 1 else a - D))%F.
Theorem map_raw u x : fr h u x -> exists U V Y, Y = Yc U V /\ numU x (I U) (I V) /\
  mapped (map_to_curve_2w st u) (if b3 Y (I U) (I V) then - I J25519 else - I J25519 * tF x)%F (tF x + I 1)%F (signed (b3 Y (I U) (I V)) (fF x Y (I U) (I V))).
Proof.
  intro Hu. pose proof (curve_raw st h u x Hu) as R. unfold map_to_curve_2w, elligator2_edwards25519_2w.
  destruct (elligator2_curve25519_2w st u) as [[[xMn xMd] yMn] yMd]. unfold raw in R. destruct R as (U & V & Y & HY & HN & Hxn & Hxd & Hyn & Hyd).
  exists U, V, Y. split; [exact HY|]. split; [exact HN|]. clear HY HN.
  set (a := if b3 Y (I U) (I V) then _ else _) in *. set (D := (tF x + I 1)%F) in *. set (t := signed _ _) in *. clearbody a D t.
  set (a1 := mul_2w st xMn yMd). assert (A1 : fr h a1 (a * I 1)%F) by exact (fr_mul st h _ _ _ _ (fr_fv _ _ _ Hxn) (fr_fv _ _ _ Hyd)). clearbody a1.
  set (xn := mul_2w st a1 w_c1). assert (Xn : fr h xn (a * I 1 * I sqrt_mJ2)%F) by exact (fr_mul st h _ _ _ _ (fr_fv _ _ _ A1) (fr_fv _ _ _ (c1_fr h))). clearbody xn.
  set (xd := mul_2w st xMd yMn). assert (Xd : fr h xd (D * t)%F) by exact (fr_mul st h _ _ _ _ (fr_fv _ _ _ Hxd) (fr_fv _ _ _ Hyn)). clearbody xd.
  set (yn := sub_2w st xMn xMd). assert (Yn : fv h yn (a - D)%F) by exact (fr_sub st h _ _ _ _ Hxn Hxd). clearbody yn.
  set (yd := add_2w st xMn xMd). assert (Yd : fv h yd (a + D)%F) by exact (fs_fv _ _ _ (fr_add st h _ _ _ _ Hxn Hxd)). clearbody yd.
  pose proof (mask_cmp st h _ _ _ _ (fr_mul st h _ _ _ _ (fr_fv _ _ _ Xd) Yd) (zero_fr h)) as M. destruct M as (d & M & E).
  set (e := v_eq _ _) in *. clearbody e.
  pose proof (fr_compress st h _ _ (fr_fv _ _ _ (selr h _ _ _ _ _ _ M Xn (zero_fr h)))) as Cxn.
  pose proof (fr_compress st h _ _ (fr_fv _ _ _ (selr h _ _ _ _ _ _ M Xd (one_fr h)))) as Cxd.
  pose proof (fr_compress st h _ _ (selw h _ _ _ _ _ _ M Yn (fr_fv _ _ _ (one_fr h)))) as Cyn.
  pose proof (fr_compress st h _ _ (selw h _ _ _ _ _ _ M Yd (fr_fv _ _ _ (one_fr h)))) as Cyd.
  rewrite E in Cxn, Cxd, Cyn, Cyd. apply fr_fv in Cxn, Cxd, Cyn, Cyd.
  unfold mapped. cbv zeta. cbn [cX cY cZ cT].
  split; [exact (fr_mul st h _ _ _ _ Cxn Cyd)|]. split; [exact (fr_mul st h _ _ _ _ Cyn Cxd)|]. split; [exact (fr_mul st h _ _ _ _ Cxd Cyd)|exact (fr_mul st h _ _ _ _ Cxn Cyn)].
Qed.
Lemma frE a x : fr h a x -> I (fe255 (el2 h a)) = x. Proof. intros (_ & _ & E). exact E. Qed.
Lemma frR a x : fr h a x -> is_red (el2 h a). Proof. intros (_ & R & _). exact (R h). Qed.
Lemma pt_lane p x y w : fr h (cX p) (x * w)%F -> fr h (cY p) (y * w)%F -> fr h (cZ p) w -> fr h (cT p) (x * y * w)%F -> w <> I 0 ->
  on255 (toZ p25 x, toZ p25 y) -> pt_2way p h (toZ p25 x, toZ p25 y).
Proof.
  intros HX HY HW HT N On. unfold pt_2way, ptv. split; [exact On|].
  split; [exact (frR _ _ HX)|]. split; [exact (frR _ _ HY)|]. split; [exact (frR _ _ HW)|]. split; [exact (frR _ _ HT)|].
  apply reps_F; rewrite (frE _ _ HW); [exact N|exact (frE _ _ HX)|exact (frE _ _ HY)|exact (frE _ _ HT)].
Qed.
(** ** When it is the map of RFC 9380 *)
Lemma signed_ok (b : bool) f : (signed b f = I 0 \/ parity (signed b f) = if b then 1 else 0) /\ (signed b f * signed b f)%F = (f * f)%F.
Proof.
  unfold signed. split; [|destruct (xorb _ _); [ring|reflexivity]].
  destruct (Fp_dec p25 f (I 0)) as [Z0|Z0].
  - left. destruct (xorb _ _); rewrite Z0; [ring|reflexivity].
  - right. destruct (parity_01 f) as [E|E]; rewrite E; destruct b; cbn [xorb Z.eqb Pos.eqb]; try exact E; rewrite (neg_parity f Z0), E; reflexivity.
Qed.
Lemma num_g u U V : numU u (I U) (I V) -> (gF (x1F u) * ((tF u + I 1) * (tF u + I 1) * (tF u + I 1)))%F = I U.
Proof.
  intros [HU HV]. pose proof (g_x1 p25 e25 i25 p25_prime p25_2 e25_pos p25_e i25_sq (I J25519) u U V HU HV) as Gx. cbv zeta in Gx.
  rewrite <- HV. exact Gx.
Qed.
Lemma map_fin p (s t D : F) : mapped p (s * D)%F D t -> (t * t)%F = gF s -> D <> I 0 ->
  feq (D * D * ((s + I 1) * t))%F (I 0) = (if Fp_dec p25 ((s + I 1) * t)%F (I 0) then true else false) ->
  pt_2way p h (to_edwards (toZ p25 s, toZ p25 t)).
Proof.
  intros M Sf Nz Cz. unfold mapped in M. cbv zeta in M.
  replace (D * t * (s * D + D))%F with (D * D * ((s + I 1) * t))%F in M by ring. rewrite Cz in M. clear Cz.
  destruct (Fp_dec p25 ((s + I 1) * t) (I 0)) as [Z0|N]; destruct M as (HX & HYc & HZ & HT).
  - rewrite (to_edwards_zero s t Z0). change ed_zero with (toZ p25 (I 0), toZ p25 (I 1)). apply (pt_lane _ (I 0) (I 1) (I 1 * I 1)%F).
    + replace (I 0 * (I 1 * I 1))%F with (I 0 * I 1)%F by ring. exact HX.
    + replace (I 1 * (I 1 * I 1))%F with (I 1 * I 1)%F by ring. exact HYc.
    + exact HZ.
    + replace (I 0 * I 1 * (I 1 * I 1))%F with (I 0 * I 1)%F by ring. exact HT.
    + replace (I 1 * I 1)%F with (I 1) by ring. exact one_neq.
    + exact zero255_on.
  - rewrite (to_edwards_val s t N). destruct (factors_nz p25 p25_prime p25_2 s t N) as [Nt Ns].
    destruct (proj_coords p25 p25_prime p25_2 D s t (I sqrt_mJ2) Nz Nt Ns) as (Nw & E1 & E2 & E3). cbv zeta in Nw, E1, E2, E3.
    rewrite E1 in HX. rewrite E2 in HYc. rewrite E3 in HT.
    apply (pt_lane _ _ _ _ HX HYc HZ HT Nw).
    apply on_F. exact (rational_inv p25 p25_prime p25_2 (I J25519) (I d25) (I sqrt_mJ2) s t c1_sq d_J Sf Nt Ns).
Qed.
Lemma pick_a (b : bool) u : (if b then - I J25519 else - I J25519 * tF u)%F = ((if b then x1F u else x2F u) * (tF u + I 1))%F.
Proof.
  destruct b; symmetry.
  - exact (x1_D p25 e25 i25 p25_prime p25_2 e25_pos p25_e i25_sq (I J25519) u).
  - exact (x2_D p25 e25 i25 p25_prime p25_2 e25_pos p25_e i25_sq (I J25519) u).
Qed.
Lemma D_nz u : (tF u + I 1)%F <> I 0.
Proof. exact (xd_nz p25 e25 i25 p25_prime p25_2 e25_pos p25_e i25_sq u). Qed.
Lemma square_gF z : is_square p_ed255 (g25519 (ell_x1 z)) <-> exists r, (r * r)%F = gF (x1F (I z)).
Proof. rewrite square_F, I_g, ell_x1_toZ, inF_toZ. reflexivity. Qed.
Theorem map_right u z : fr h u (I z) -> is_square p_ed255 (g25519 (ell_x1 z)) \/ no_false (gF (x1F (I z)) * ((tF (I z) + I 1) * (tF (I z) + I 1) * (tF (I z) + I 1)))%F ->
  exists s t, elligator2 z (toZ p25 s, toZ p25 t) /\
  (feq ((tF (I z) + I 1) * (tF (I z) + I 1) * ((s + I 1) * t))%F (I 0) = (if Fp_dec p25 ((s + I 1) * t)%F (I 0) then true else false) ->
   pt_2way (map_to_curve_2w st u) h (to_edwards (toZ p25 s, toZ p25 t))).
Proof.
  intros Hu HC. destruct (map_raw u (I z) Hu) as (U & V & Y & HY & HN & M).
  assert (HC' : (exists r, (r * r)%F = gF (x1F (I z))) \/ no_false (I U)).
  { destruct HC as [H|H]; [left; apply square_gF; exact H|right; rewrite <- (num_g _ _ _ HN); exact H]. }
  destruct (decide (I z) U V Y HY HN HC') as [Sq E]. clear HC HC' HY HN.
  revert Sq E M. generalize (b3 Y (I U) (I V)) (fF (I z) Y (I U) (I V)). intros b f Sq E M.
  destruct (signed_ok b f) as [Par Sf]. rewrite E in Sf. revert M Par Sf. generalize (signed b f). intros t M Par Sf.
  exists (if b then x1F (I z) else x2F (I z)), t.
  split; [exact (ell_spec z b t Sq Sf Par)|]. intro Cz. rewrite pick_a in M.
  exact (map_fin _ _ _ _ M Sf (D_nz (I z)) Cz).
Qed.
(** ** A false equality gives a point that is not on the curve *)
Lemma off_curve (s t D : F) p : (t * t)%F <> gF s -> s <> I 0 -> D <> I 0 -> t <> I 0 -> (s + I 1)%F <> I 0 -> feq (D * t * (s * D + D))%F (I 0) = false -> mapped p (s * D)%F D t ->
  forall Q, on255 Q -> ~ reps255 (fe255 (el2 h (cX p))) (fe255 (el2 h (cY p))) (fe255 (el2 h (cZ p))) (fe255 (el2 h (cT p))) Q.
Proof.
  intros Nt Ns ND T0 S1 Cz M [x y] On (Nw & EX & EY & ET). unfold mapped in M. cbv zeta in M. rewrite Cz in M. destruct M as (HX & HY & HZ & HT).
  destruct (proj_coords p25 p25_prime p25_2 D s t (I sqrt_mJ2) ND T0 S1) as (Nw' & E1 & E2 & E3). cbv zeta in Nw', E1, E2, E3. rewrite E1 in HX. rewrite E2 in HY.
  apply frE in HX, HY, HZ. apply I_mod in EX, EY. rewrite inF_mul in EX, EY. rewrite HX, HZ in EX. rewrite HY, HZ in EY.
  apply (ll_cancel p25 p25_prime p25_2 _ _ _ Nw') in EX. apply (ll_cancel p25 p25_prime p25_2 _ _ _ Nw') in EY.
  destruct On as (_ & _ & On). apply I_mod in On. change (-1) with (Z.opp 1) in On. change d_ed255 with d25 in On. rewrite !inF_add, !inF_mul, inF_opp in On.
  rewrite <- EX, <- EY in On. apply Nt. exact (rational_conv p25 p25_prime p25_2 (I J25519) (I d25) (I sqrt_mJ2) s t c1_sq d_J Ns T0 S1 On).
Qed.
End MapRaw.
