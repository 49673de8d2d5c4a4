(** The hash to edwards25519 with the 4x64-bit representation yields the point of SpecH2c.v. *)
From Coq Require Import ZArith Znumtheory List Bool Lia Field.
From Verif Require Import Uop Bytes Engine FpType FullTac Fp25519Full Fp25519FullProofs FullMore CurveInst EdPoint EdInst SpecEd SpecH2c Elligator
  Scalar ScalarProofs Edwards255 Edwards255Proofs SpecSha2 Sha512 Sha512Proofs Sign255 Sign255Proofs HashProps Hash255.
Import ListNotations.
Open Scope Z_scope.

Notation F := (Fp p25). Notation I := (inF p25 p25_2).
Notation fA := (fp_add p25 p25_2). Notation fM := (fp_mul p25 p25_2). Notation fS := (fp_sub p25 p25_2). Notation fN := (fp_opp p25 p25_2).
Notation fD := (fp_div p25 p25_2). Notation fI := (fp_inv p25 p25_2).
Definition F25_field := fp_field p25 p25_prime p25_2.
Add Field Fph : F25_field.
Declare Scope fh_scope. Delimit Scope fh_scope with F. Bind Scope fh_scope with Fp.
Infix "+" := fA : fh_scope. Infix "*" := fM : fh_scope. Infix "-" := fS : fh_scope. Infix "/" := fD : fh_scope. Notation "- x" := (fN x) : fh_scope.

(** Four words with the given value in the field *)
Definition fw (a : list Z) (x : F) : Prop := words 4 a /\ I (val a) = x.
Lemma fw_words a : words 4 a -> fw a (I (val a)). Proof. intro H. split; [exact H|reflexivity]. Qed.
Lemma I_mod x y : x mod p25519 = y mod p25519 -> I x = I y. Proof. intro H. apply inF_eq. exact H. Qed.
Lemma I_mod_inv x y : I x = I y -> x mod p25519 = y mod p25519. Proof. intro H. apply (inF_eq p25 p25_2) in H. exact H. Qed.
Section Ops.
Variable st : store. Variable k : cpu.
Lemma fw_mul a b x y : fw a x -> fw b y -> fw (mul st k a b) (x * y)%F.
Proof. intros [A X] [B Y]. destruct (mul_ok st k a b A B) as [H E]. split; [exact H|]. rewrite <- X, <- Y, <- inF_mul. apply I_mod. exact E. Qed.
Lemma fw_sqr a x : fw a x -> fw (sqr st k a) (x * x)%F.
Proof. intros [A X]. destruct (sqr_ok st k a A) as [H E]. split; [exact H|]. rewrite <- X, <- inF_mul. apply I_mod. exact E. Qed.
Lemma fw_add a b x y : fw a x -> fw b y -> fw (add st k a b) (x + y)%F.
Proof.
  intros [A X] [B Y]. destruct (add_ok st k a b A B) as [H E]. split; [exact H|]. rewrite <- X, <- Y, <- inF_add. apply I_mod.
  apply mod_cong; [discriminate|exact E].
Qed.
Lemma fw_sub a b x y : fw a x -> fw b y -> fw (sub st a b) (x - y)%F.
Proof.
  intros [A X] [B Y]. destruct (sub_ok st a b A B) as [H E]. split; [exact H|]. rewrite <- X, <- Y, <- inF_sub. apply I_mod.
  apply mod_cong; [discriminate|exact E].
Qed.
Lemma fw_neg a x : fw a x -> fw (neg st a) (- x)%F.
Proof.
  intros [A X]. destruct (neg_ok st a A) as [H E]. split; [exact H|]. rewrite <- X, <- inF_opp. apply I_mod.
  apply mod_cong; [discriminate|exact E].
Qed.
Lemma fw_modp a x : fw a x -> fw (modp st a) x.
Proof.
  intros [A X]. destruct (modp_ok st a A) as [H E]. split; [exact H|]. rewrite <- X. apply I_mod. rewrite E. apply Z.mod_mod. discriminate.
Qed.
Lemma fw_cmv (b : bool) a c x y : fw a x -> fw c y -> fw (cmv st (int_of b) a c) (if b then y else x).
Proof.
  intros [A X] [C Y]. rewrite (cmv_ok st _ a c A C) by (destruct b; cbn; lia). destruct b; split; assumption.
Qed.
Lemma fw_cmp a b x y : fw a x -> fw b y -> (cmp st a b =? 0) = if Fp_dec p25 x y then true else false.
Proof.
  intros [A X] [B Y]. destruct (cmp_ok st a b A B) as [C _]. destruct (Fp_dec p25 x y) as [E|E].
  - apply Z.eqb_eq. apply C. apply I_mod_inv. rewrite X, Y. exact E.
  - apply Z.eqb_neq. intro H. apply E. rewrite <- X, <- Y. apply I_mod. apply C. exact H.
Qed.
Lemma fw_sgn a x : fw a x -> sgn st a = toZ p25 x mod 2.
Proof. intros [A X]. rewrite (sgn_ok st a A), <- X, (toZ_inF p25 p25_2). reflexivity. Qed.
Lemma fw_inv a x : fw a x -> fw (inv st k a) (fI x).
Proof.
  intros [A X]. destruct (inv_ok st k a A) as [H E]. split; [exact H|]. rewrite <- X, <- inF_inv. apply I_mod. exact E.
Qed.
End Ops.
Lemma fw_rep a x : rep4 a x <-> fw a (I x).
Proof. split; intros [A E]; (split; [exact A|]). - apply I_mod. exact E. - apply I_mod_inv. exact E. Qed.

Ltac wlit := split; [split; [reflexivity|repeat constructor; unfold word, W; lia]|apply I_mod; reflexivity].
Lemma one_fw : fw h_one (I 1). Proof. wlit. Qed.
Lemma zero_fw : fw h_zero (I 0). Proof. wlit. Qed.
Lemma A_fw : fw h_A (I J25519). Proof. wlit. Qed.
Lemma c1_fw : fw h_c1 (I sqrt_mJ2). Proof. wlit. Qed.
Lemma c2_fw : fw h_c2 (I (1 + i25)). Proof. wlit. Qed.
Lemma c3_fw : fw h_c3 (I i25). Proof. wlit. Qed.
Lemma D_fw : fw h_D (I d25). Proof. wlit. Qed.
Lemma c2_sq : (I (1 + i25) * I (1 + i25))%F = ((I 1 + I 1) * I i25)%F.
Proof. rewrite <- inF_mul, <- inF_add, <- inF_mul. apply I_mod. vm_compute. reflexivity. Qed.
Lemma J_nz : I J25519 <> I 0. Proof. intro E. apply I_mod_inv in E. vm_compute in E. discriminate E. Qed.
Lemma c1_sq : (I sqrt_mJ2 * I sqrt_mJ2)%F = (- (I J25519 + I 1 + I 1))%F.
Proof. rewrite <- inF_mul, <- !inF_add, <- inF_opp. apply I_mod. vm_compute. reflexivity. Qed.
Lemma d_J : (I d25 * (I J25519 + I 1 + I 1))%F = (I 1 + I 1 - I J25519)%F.
Proof. rewrite <- !inF_add, <- inF_mul, <- inF_sub. apply I_mod. vm_compute. reflexivity. Qed.

(** ** Elligator 2 on curve25519 *)
Definition e25 : Z := 2 ^ 252 - 3.
Lemma e25_pos : 0 <= e25. Proof. discriminate. Qed.
Lemma p25_e : p25 = 8 * e25 + 5. Proof. reflexivity. Qed.
Definition gF (x : F) : F := (x * x * x + I J25519 * x * x + x)%F.
Definition tF (u : F) : F := ((I 1 + I 1) * u * u)%F.
Definition x1F (u : F) : F := (- I J25519 / (tF u + I 1))%F.
Definition x2F (u : F) : F := (- x1F u - I J25519)%F.
Definition parity (x : F) : Z := toZ p25 x mod 2.
Lemma neg_toZ x : x <> I 0 -> toZ p25 (- x)%F = p25 - toZ p25 x.
Proof.
  intro N. pose proof (toZ_range p25 p25_2 x) as R. unfold fp_opp. rewrite toZ_inF.
  assert (toZ p25 x <> 0). { intro E. apply N. rewrite <- (inF_toZ p25 p25_2 x), E. reflexivity. }
  replace (- toZ p25 x) with (p25 - toZ p25 x + (-1) * p25) by ring. rewrite Z.mod_add by discriminate. apply Z.mod_small. lia.
Qed.
Lemma neg_parity x : x <> I 0 -> parity (- x)%F = 1 - parity x.
Proof.
  intro N. unfold parity. rewrite neg_toZ by exact N. replace (p25 - toZ p25 x) with (1 + - toZ p25 x + (p25 / 2) * 2) by (change (p25 / 2 * 2) with (p25 - 1); ring).
  rewrite Z.mod_add by discriminate. generalize (toZ p25 x). intro z. clear. pose proof (Z.mod_pos_bound z 2 ltac:(lia)). pose proof (Z.mod_pos_bound (1 + - z) 2 ltac:(lia)).
  pose proof (Z.div_mod z 2 ltac:(lia)). pose proof (Z.div_mod (1 + - z) 2 ltac:(lia)). lia.
Qed.
Lemma zero_parity : parity (I 0) = 0. Proof. reflexivity. Qed.
Lemma parity_01 x : parity x = 0 \/ parity x = 1.
Proof. unfold parity. pose proof (Z.mod_pos_bound (toZ p25 x) 2 ltac:(lia)). lia. Qed.

Definition ell_result (u : F) (r : list Z * list Z * list Z * list Z) : Prop :=
  let '(xn, xd, yn, yd) := r in
  exists (b : bool) (t : F),
    (if b then exists r, (r * r)%F = gF (x1F u) else forall r, (r * r)%F <> gF (x1F u)) /\
    fw xn ((if b then x1F u else x2F u) * (tF u + I 1))%F /\ fw xd (tF u + I 1)%F /\ fw yn t /\ fw yd (I 1) /\
    (t * t)%F = gF (if b then x1F u else x2F u) /\ (t = I 0 \/ parity t = if b then 1 else 0).

Ltac nx y H lem :=
  lazymatch goal with |- ?P (let x := ?a in @?b x) =>
    set (y := a); let t := eval cbv beta in (b y) in change (P t); pose proof lem as H; fold y in H; clearbody y end.
Ltac nb H lem :=
  lazymatch goal with |- ?P (let x := int_of ?a in @?b x) =>
    let t := eval cbv beta in (b (int_of a)) in change (P t); pose proof lem as H; rewrite H; clear H end.
Ltac nlet :=
  lazymatch goal with |- ?P (let x := ?a in @?b x) => let t := eval cbv beta in (b a) in change (P t) end.
Section Map.
Variable st : store. Variable k : cpu.
Lemma fw_sel (v w : F) a b x y : fw a x -> fw b y -> fw (cmv st (int_of (if Fp_dec p25 v w then true else false)) a b) (if Fp_dec p25 v w then y else x).
Proof. intros A B. pose proof (fw_cmv st (if Fp_dec p25 v w then true else false) a b x y A B) as H. destruct (Fp_dec p25 v w); exact H. Qed.
Theorem ell_curve u x : fw u x -> ell_result x (elligator2_curve25519 st k u).
Proof.
  intro Hu. cbv beta delta [elligator2_curve25519 copy expoC4].
  nx zz0 T0 (fw_sqr st k _ _ Hu).
  nx tv1 T1 (fw_add st k _ _ _ _ T0 T0). assert (T : fw tv1 (tF x)) by (destruct T1 as [A E]; split; [exact A|]; rewrite E; unfold tF; ring). clear T1.
  nx xd Xd (fw_add st k _ _ _ _ T one_fw).
  nx x1n X1n (fw_neg st _ _ A_fw).
  nx zz1 Tv2 (fw_sqr st k _ _ Xd).
  nx gxd Gd (fw_mul st k _ _ _ _ Tv2 Xd).
  nx zz2 G0 (fw_mul st k _ _ _ _ A_fw T).
  nx zz3 G1 (fw_mul st k _ _ _ _ G0 X1n).
  nx zz4 G2 (fw_add st k _ _ _ _ G1 Tv2).
  nx gx1 G (fw_mul st k _ _ _ _ G2 X1n). clear G0 G1 G2.
  pose proof (fw_words _ (proj1 G)) as RU. pose proof (fw_words _ (proj1 Gd)) as RV.
  destruct G as [WU EU]. destruct Gd as [WV EV]. set (U := val gx1) in *. set (V := val gxd) in *. clearbody U V. clear WU WV.
  apply fw_rep in RU, RV.
  nx zz5 R0 (rep4_sqr st k _ _ RV).
  nx zz6 R1 (rep4_sqr st k _ _ R0).
  nx zz7 R2 (rep4_mul st k _ _ _ _ R0 RV).
  nx zz8 R3 (rep4_mul st k _ _ _ _ R2 RU).
  nx zz9 R4 (rep4_mul st k _ _ _ _ R1 R3).
  nx zz10 R5 (pow_p58_ok rep4 (mul st k) (sqr st k) (rep4_mul st k) (rep4_sqr st k) _ _ R4). fold e25 in R5.
  nx y11 R6 (rep4_mul st k _ _ _ _ R5 R3). apply fw_rep in RU, RV, R6.
  replace (V * V * (V * V) * (V * V * V * U)) with (U * V ^ 7) in R6 by ring. replace (V * V * V * U) with (U * V ^ 3) in R6 by ring.
  clear R0 R1 R2 R3 R4 R5 zz5 zz6 zz7 zz8 zz9 zz10.
  pose proof (outcome p25 e25 i25 p25_prime p25_2 e25_pos p25_e i25_sq (I J25519) x (I (1 + i25)) U V c2_sq EU EV) as Out. cbv zeta in Out.
  set (Y := I ((U * V ^ 7) ^ e25 * (U * V ^ 3))) in *. clearbody Y.
  nx y12 Y12 (fw_mul st k _ _ _ _ R6 c3_fw).
  nx zz5 Q0 (fw_sqr st k _ _ R6).
  nx zz6 Q1 (fw_mul st k _ _ _ _ Q0 RV).
  nb E1 (fw_cmp st _ _ _ _ Q1 RU).
  nx gx1' RU' (fw_modp st _ _ RU).
  nx y1 Y1 (fw_sel (Y * Y * I V) (I U) _ _ _ _ Y12 R6).
  nx x2n X2n (fw_mul st k _ _ _ _ X1n T).
  nx zz7 Q2 (fw_mul st k _ _ _ _ R6 Hu).
  nx y21 Y21 (fw_mul st k _ _ _ _ Q2 c2_fw).
  nx y22 Y22 (fw_mul st k _ _ _ _ Y21 c3_fw).
  nx gx2 Gx2 (fw_mul st k _ _ _ _ RU' T).
  nx zz8 Q3 (fw_sqr st k _ _ Y21).
  nx zz9 Q4 (fw_mul st k _ _ _ _ Q3 RV).
  nb E2 (fw_cmp st _ _ _ _ Q4 Gx2).
  nx y2 Y2 (fw_sel (Y * x * I (1 + i25) * (Y * x * I (1 + i25)) * I V) (I U * tF x) _ _ _ _ Y22 Y21).
  nx zz10 Q5 (fw_sqr st k _ _ Y1).
  nx zz11 Q6 (fw_mul st k _ _ _ _ Q5 RV).
  nb E3 (fw_cmp st _ _ _ _ Q6 RU').
  change ((I 1 + I 1) * x * x)%F with (tF x) in Out.
  set (F1 := if Fp_dec p25 (Y * Y * I V) (I U) then Y else (Y * I i25)%F) in *.
  set (F2 := if Fp_dec p25 (Y * x * I (1 + i25) * (Y * x * I (1 + i25)) * I V) (I U * tF x) then (Y * x * I (1 + i25))%F else (Y * x * I (1 + i25) * I i25)%F) in *.
  set (b := if Fp_dec p25 (F1 * F1 * I V) (I U) then true else false) in *.
  assert (Out' : (if b then exists r, (r * r)%F = gF (x1F x) else forall r, (r * r)%F <> gF (x1F x)) /\
    ((if b then F1 else F2) * (if b then F1 else F2))%F = gF (if b then x1F x else x2F x)).
  { unfold b. destruct (Fp_dec p25 (F1 * F1 * I V) (I U)) as [H|H]; [split; [exists F1|]; exact Out|exact Out]. }
  clear Out.
  pose proof (xd_nz p25 e25 i25 p25_prime p25_2 e25_pos p25_e i25_sq x) as Nz. fold (tF x) in Nz.
  assert (X1d : (x1F x * (tF x + I 1))%F = (- I J25519)%F) by exact (x1_D p25 e25 i25 p25_prime p25_2 e25_pos p25_e i25_sq (I J25519) x).
  assert (X2d : (x2F x * (tF x + I 1))%F = (- I J25519 * tF x)%F) by exact (x2_D p25 e25 i25 p25_prime p25_2 e25_pos p25_e i25_sq (I J25519) x).
  clearbody b F1 F2.
  nx xn Xn (fw_cmv st b _ _ _ _ X2n X1n).
  nx zz12 Q7 (fw_cmv st b _ _ _ _ Y2 Y1).
  set (f := if b then F1 else F2) in *. clearbody f.
  nlet. rewrite (fw_sgn st _ _ Q7). fold (parity f).
  nx zz13 Q8 (fw_modp st _ _ Q7).
  nx y3 Y3 (fw_neg st _ _ Q8).
  destruct Out' as [Sq Out']. clear - Sq Out' Xn Xd Q8 Y3 X1d X2d.
  assert (Xn' : fw xn ((if b then x1F x else x2F x) * (tF x + I 1))%F) by (destruct b; [rewrite X1d|rewrite X2d]; exact Xn).
  set (c := xorb b (parity f =? 1)).
  assert (Ec : Z.lxor (int_of b) (parity f) = int_of c) by (unfold c; destruct (parity_01 f) as [E|E]; rewrite E; destruct b; reflexivity).
  rewrite Ec. nx yn Yn (fw_cmv st c _ _ _ _ Q8 Y3). nlet.
  unfold ell_result. exists b, (if c then - f else f)%F.
  split; [exact Sq|]. split; [exact Xn'|]. split; [exact Xd|]. split; [exact Yn|]. split; [exact one_fw|]. split.
  - rewrite <- Out'. destruct c; [|reflexivity]. ring.
  - destruct (Fp_dec p25 f (I 0)) as [Z0|Z0].
    + left. destruct c; [|exact Z0]. rewrite Z0. ring.
    + right. unfold c. destruct (parity_01 f) as [E|E]; rewrite E; destruct b; cbn [xorb Z.eqb Pos.eqb].
      * rewrite (neg_parity f Z0), E. reflexivity.
      * exact E.
      * exact E.
      * rewrite (neg_parity f Z0), E. reflexivity.
Qed.
End Map.

(** ** In terms of the specification *)
Lemma toZ_I x : x mod p_ed255 = toZ p25 (I x). Proof. reflexivity. Qed.
Lemma inv_I x : I (inv_mod p_ed255 x) = fI (I x). Proof. exact (I_inv p25 p25_2 x). Qed.
Lemma I_g x : I (g25519 x) = gF (I x).
Proof. unfold g25519, gF. rewrite !inF_add, !inF_mul. reflexivity. Qed.
Lemma I_den u : I (1 + 2 * u * u) = (tF (I u) + I 1)%F.
Proof. unfold tF. change 2 with (1 + 1). rewrite !inF_add, !inF_mul, !inF_add. ring. Qed.
Lemma I_x1' u : I (- J25519 * inv_mod p_ed255 (1 + 2 * u * u)) = x1F (I u).
Proof.
  rewrite inF_mul, inF_opp. rewrite inv_I, I_den. reflexivity.
Qed.
Lemma x1_nz u : x1F u <> I 0.
Proof.
  intro E. pose proof (x1_D p25 e25 i25 p25_prime p25_2 e25_pos p25_e i25_sq (I J25519) u) as H. fold (tF u) in H. fold (x1F u) in H.
  rewrite E in H. apply J_nz. transitivity (- - I J25519)%F; [ring|]. rewrite <- H. ring.
Qed.
Lemma ell_x1_toZ u : ell_x1 u = toZ p25 (x1F (I u)).
Proof.
  unfold ell_x1. cbv zeta. rewrite (toZ_I ((- J25519 * inv_mod p_ed255 (1 + 2 * u * u)))).
  rewrite I_x1'. destruct (Z.eqb_spec (toZ p25 (x1F (I u))) 0) as [E|E]; [|reflexivity].
  exfalso. apply (x1_nz (I u)). rewrite <- (inF_toZ p25 p25_2 (x1F (I u))), E. reflexivity.
Qed.
Lemma ell_x2_toZ u : ell_x2 u = toZ p25 (x2F (I u)).
Proof.
  unfold ell_x2. rewrite ell_x1_toZ. rewrite (toZ_I ((- toZ p25 (x1F (I u)) - J25519))).
  rewrite inF_sub, inF_opp, inF_toZ. reflexivity.
Qed.
Lemma square_F v : is_square p_ed255 v <-> exists r, (r * r)%F = I v.
Proof.
  split; intros [r E].
  - exists (I r). rewrite <- inF_mul. apply I_mod. exact E.
  - exists (toZ p25 r). apply (I_mod_inv (toZ p25 r * toZ p25 r) v). rewrite inF_mul, inF_toZ. exact E.
Qed.
Lemma ell_spec u (b : bool) (t : F) : (if b then exists r, (r * r)%F = gF (x1F (I u)) else forall r, (r * r)%F <> gF (x1F (I u))) ->
  (t * t)%F = gF (if b then x1F (I u) else x2F (I u)) -> (t = I 0 \/ parity t = if b then 1 else 0) ->
  elligator2 u (toZ p25 (if b then x1F (I u) else x2F (I u)), toZ p25 t).
Proof.
  intros Sq E Par. unfold elligator2. split; [exact (toZ_range p25 p25_2 t)|]. split.
  - apply (I_mod_inv (toZ p25 t * toZ p25 t)). rewrite I_g, inF_mul, !inF_toZ. exact E.
  - assert (S : is_square p_ed255 (g25519 (ell_x1 u)) <-> exists r, (r * r)%F = gF (x1F (I u))).
    { rewrite square_F, I_g, ell_x1_toZ, inF_toZ. reflexivity. }
    destruct b; [left|right].
    + split; [apply S; exact Sq|]. split; [symmetry; apply ell_x1_toZ|]. destruct Par as [P|P]; [left; rewrite P; reflexivity|right; exact P].
    + split; [intro Q; apply S in Q; destruct Q as [r Q]; exact (Sq r Q)|]. split; [symmetry; apply ell_x2_toZ|].
      destruct Par as [P|P]; [rewrite P; reflexivity|exact P].
Qed.
(** The map to the Edwards curve *)
Lemma toZ_0 x : toZ p25 x = 0 <-> x = I 0.
Proof. split; intro E; [rewrite <- (inF_toZ p25 p25_2 x), E; reflexivity|rewrite E; reflexivity]. Qed.
Lemma to_edwards_zero s t : ((s + I 1) * t)%F = I 0 -> to_edwards (toZ p25 s, toZ p25 t) = ed_zero.
Proof.
  intro E. unfold to_edwards. rewrite (toZ_I (((toZ p25 s + 1) * toZ p25 t))).
  rewrite inF_mul, inF_add, !inF_toZ, E. reflexivity.
Qed.
Lemma to_edwards_val s t : ((s + I 1) * t)%F <> I 0 ->
  to_edwards (toZ p25 s, toZ p25 t) = (toZ p25 (I sqrt_mJ2 * s * fI t)%F, toZ p25 ((s - I 1) * fI (s + I 1))%F).
Proof.
  intro N. unfold to_edwards. rewrite (toZ_I (((toZ p25 s + 1) * toZ p25 t))).
  rewrite inF_mul, inF_add, !inF_toZ. destruct (Z.eqb_spec (toZ p25 ((s + I 1) * t)%F) 0) as [E|E]; [exfalso; apply N; apply toZ_0; exact E|].
  f_equal.
  - rewrite (toZ_I ((sqrt_mJ2 * toZ p25 s * inv_mod p_ed255 (toZ p25 t)))).
    rewrite !inF_mul, inv_I, !inF_toZ. reflexivity.
  - rewrite (toZ_I (((toZ p25 s - 1) * inv_mod p_ed255 (toZ p25 s + 1)))).
    rewrite inF_mul, inv_I, inF_sub, inF_add, !inF_toZ. reflexivity.
Qed.
Lemma on_F (x y : F) : (- I 1 * x * x + y * y)%F = (I 1 + I d25 * x * x * y * y)%F -> on255 (toZ p25 x, toZ p25 y).
Proof.
  intro E. unfold on255, on_curve. split; [exact (toZ_range p25 p25_2 x)|]. split; [exact (toZ_range p25 p25_2 y)|].
  change d_ed255 with d25. apply I_mod_inv. change (-1) with (Z.opp 1). rewrite !inF_add, !inF_mul, inF_opp, !inF_toZ. exact E.
Qed.
Lemma reps_F X Y W T (x y : F) : I W <> I 0 -> I X = (x * I W)%F -> I Y = (y * I W)%F -> I T = (x * y * I W)%F ->
  reps255 X Y W T (toZ p25 x, toZ p25 y).
Proof.
  intros N EX EY ET. unfold reps255, represents. split; [intro H; apply N; apply inF_0; exact H|].
  split; [|split]; apply I_mod_inv; rewrite !inF_mul, !inF_toZ; assumption.
Qed.
Lemma one_neq : I 1 <> I 0. Proof. exact (ll_1 p25 p25_prime p25_2). Qed.
Section H2c.
Variable st : store. Variable k : cpu.
Lemma fwE a x : fw a x -> I (val a) = x. Proof. intros [_ E]. exact E. Qed.
Lemma fwW a x : fw a x -> words 4 a. Proof. intros [A _]. exact A. Qed.
Lemma pt_F X Y W T x y w : fw X (x * w)%F -> fw Y (y * w)%F -> fw W w -> fw T (x * y * w)%F -> w <> I 0 ->
  on255 (toZ p25 x, toZ p25 y) -> pt_full (mkpt X Y W T) (toZ p25 x, toZ p25 y).
Proof.
  intros HX HY HW HT N On. unfold pt_full. cbn [cX cY cZ cT]. split; [exact On|].
  split; [exact (fwW _ _ HX)|]. split; [exact (fwW _ _ HY)|]. split; [exact (fwW _ _ HW)|]. split; [exact (fwW _ _ HT)|].
  apply reps_F.
  - rewrite (fwE _ _ HW). exact N.
  - rewrite (fwE _ _ HW). exact (fwE _ _ HX).
  - rewrite (fwE _ _ HW). exact (fwE _ _ HY).
  - rewrite (fwE _ _ HW). exact (fwE _ _ HT).
Qed.
Theorem map_ok u : words 4 u -> exists P, maps_to (val u) P /\ pt_full (map_to_curve st k u) P.
Proof.
  intro Hu. pose proof (ell_curve st k u _ (fw_words u Hu)) as R. unfold map_to_curve, elligator2_edwards25519.
  destruct (elligator2_curve25519 st k u) as [[[xMn xMd] yMn] yMd]. unfold ell_result in R.
  destruct R as (b & t & Sq & Hxn & Hxd & Hyn & Hyd & E & Par).
  pose proof (ell_spec (val u) b t Sq E Par) as Sp.
  pose proof (xd_nz p25 e25 i25 p25_prime p25_2 e25_pos p25_e i25_sq (I (val u))) as Nz. fold (tF (I (val u))) in Nz.
  set (D := (tF (I (val u)) + I 1)%F) in *. set (s := if b then x1F (I (val u)) else x2F (I (val u))) in *. clearbody D s. clear Sq Par.
  set (a1 := mul st k xMn yMd). assert (A1 : fw a1 (s * D * I 1)%F) by exact (fw_mul st k _ _ _ _ Hxn Hyd). clearbody a1.
  set (xn := mul st k a1 h_c1). assert (Xn : fw xn (s * D * I 1 * I sqrt_mJ2)%F) by exact (fw_mul st k _ _ _ _ A1 c1_fw). clearbody xn.
  set (xd := mul st k xMd yMn). assert (Xd : fw xd (D * t)%F) by exact (fw_mul st k _ _ _ _ Hxd Hyn). clearbody xd.
  set (yn := sub st xMn xMd). assert (Yn : fw yn (s * D - D)%F) by exact (fw_sub st _ _ _ _ Hxn Hxd). clearbody yn.
  set (yd := add st k xMn xMd). assert (Yd : fw yd (s * D + D)%F) by exact (fw_add st k _ _ _ _ Hxn Hxd). clearbody yd.
  rewrite (fw_cmp st _ _ _ _ (fw_mul st k _ _ _ _ Xd Yd) zero_fw).
  exists (to_edwards (toZ p25 s, toZ p25 t)). split; [exists (toZ p25 s, toZ p25 t); split; [exact Sp|reflexivity]|].
  pose proof (fw_sel st (D * t * (s * D + D)) (I 0) _ _ _ _ Xn zero_fw) as Cxn.
  pose proof (fw_sel st (D * t * (s * D + D)) (I 0) _ _ _ _ Xd one_fw) as Cxd.
  pose proof (fw_sel st (D * t * (s * D + D)) (I 0) _ _ _ _ Yn one_fw) as Cyn.
  pose proof (fw_sel st (D * t * (s * D + D)) (I 0) _ _ _ _ Yd one_fw) as Cyd.
  set (e := int_of _) in *. clearbody e.
  pose proof (fw_mul st k _ _ _ _ Cxn Cyd) as HX. pose proof (fw_mul st k _ _ _ _ Cyn Cxd) as HY.
  pose proof (fw_mul st k _ _ _ _ Cxd Cyd) as HZ. pose proof (fw_mul st k _ _ _ _ Cxn Cyn) as HT. clear Cxn Cxd Cyn Cyd.
  destruct (Fp_dec p25 (D * t * (s * D + D)) (I 0)) as [Z0|Z0].
  - rewrite to_edwards_zero by (apply (proj_zero p25 p25_prime p25_2 D s t Nz); exact Z0).
    change ed_zero with (toZ p25 (I 0), toZ p25 (I 1)). apply (pt_F _ _ _ _ (I 0) (I 1) (I 1 * I 1)%F).
    + replace (I 0 * (I 1 * I 1))%F with (I 0 * I 1)%F by ring. exact HX.
    + replace (I 1 * (I 1 * I 1))%F with (I 1 * I 1)%F by ring. exact HY.
    + exact HZ.
    + replace (I 0 * I 1 * (I 1 * I 1))%F with (I 0 * I 1)%F by ring. exact HT.
    + replace (I 1 * I 1)%F with (I 1) by ring. exact one_neq.
    + exact zero255_on.
  - assert (N : ((s + I 1) * t)%F <> I 0) by (intro H; apply Z0; apply (proj_zero p25 p25_prime p25_2 D s t Nz); exact H).
    rewrite (to_edwards_val s t N). destruct (factors_nz p25 p25_prime p25_2 s t N) as [Nt Ns].
    destruct (proj_coords p25 p25_prime p25_2 D s t (I sqrt_mJ2) Nz Nt Ns) as (Nw & E1 & E2 & E3). cbv zeta in Nw, E1, E2, E3.
    rewrite E1 in HX. rewrite E2 in HY. rewrite E3 in HT.
    apply (pt_F _ _ _ _ _ _ _ HX HY HZ HT Nw).
    apply on_F. exact (rational_inv p25 p25_prime p25_2 (I J25519) (I d25) (I sqrt_mJ2) s t c1_sq d_J E Nt Ns).
Qed.
(** ** Clearing the cofactor, affine coordinates *)
Lemma clear_ok p P : pt_full p P -> pt_full (clear_cofactor st k p) (mul255 8 P).
Proof.
  intro H. unfold clear_cofactor. pose proof H as [On _].
  replace (mul255 8 P) with (add255 (add255 (add255 P P) (add255 P P)) (add255 (add255 P P) (add255 P P))).
  - apply doubling_1w_full_ok. apply doubling_1w_full_ok. apply doubling_1w_full_ok. exact H.
  - change 8 with (2 * (2 * 2)). rewrite !mul255_mul by (repeat apply mul255_on; exact On). rewrite !mul255_2. reflexivity.
Qed.
Lemma affine_ok p P : pt_full p P -> let r := toAffine st k p in
  words 4 (fst r) /\ words 4 (snd r) /\ val (fst r) mod p_ed255 = fst P /\ val (snd r) mod p_ed255 = snd P.
Proof.
  intros (On & WX & WY & WZ & WT & Rep). cbv zeta. unfold toAffine. cbn [fst snd].
  pose proof (fw_inv st k _ _ (fw_words _ WZ)) as Iz.
  destruct (fw_mul st k _ _ _ _ (fw_words _ WX) Iz) as [WX' EX]. destruct (fw_mul st k _ _ _ _ (fw_words _ WY) Iz) as [WY' EY].
  split; [exact WX'|]. split; [exact WY'|]. pose proof (reps255_affine _ _ _ _ _ On Rep) as EP. rewrite EP. cbn [fst snd].
  split; apply I_mod_inv; [rewrite EX|rewrite EY]; rewrite inF_mul, inv_I; reflexivity.
Qed.
Lemma mod_mod_I x : I (x mod p_ed255) = I x. Proof. exact (inF_mod p25 p25_2 x). Qed.
Lemma on_I x y : on255 (x mod p_ed255, y mod p_ed255) <-> (I y * I y - I x * I x - I 1 - I x * I x * (I y * I y) * I d25)%F = I 0.
Proof.
  assert (Q : (- I 1 * I x * I x + I y * I y)%F = (I 1 + I d25 * I x * I x * I y * I y)%F <-> (I y * I y - I x * I x - I 1 - I x * I x * (I y * I y) * I d25)%F = I 0).
  { split; intro E.
    - transitivity (- I 1 * I x * I x + I y * I y - (I 1 + I d25 * I x * I x * I y * I y))%F; [ring|]. rewrite E. ring.
    - apply (ll_sub0 p25 p25_prime p25_2). rewrite <- E. ring. }
  rewrite <- Q. clear Q. rewrite (toZ_I x), (toZ_I y). split; intro H; [|apply on_F; exact H].
  destruct H as (_ & _ & H). rewrite !toZ_mod_I in H. apply I_mod in H. change (-1) with (Z.opp 1) in H. change d_ed255 with d25 in H.
  rewrite !inF_add, !inF_mul, inF_opp in H. change (x mod p25) with (x mod p_ed255) in H. change (y mod p25) with (y mod p_ed255) in H. rewrite !mod_mod_I in H. exact H.
Qed.
Theorem on_curve_iff (P : point) : words 4 (fst P) -> words 4 (snd P) ->
  (isOnCurve st k P = 1 <-> on255 (val (fst P) mod p_ed255, val (snd P) mod p_ed255)) /\ (isOnCurve st k P = 0 \/ isOnCurve st k P = 1).
Proof.
  intros HX HY. unfold isOnCurve, copy.
  pose proof (fw_sqr st k _ _ (fw_words _ HX)) as X2. pose proof (fw_sqr st k _ _ (fw_words _ HY)) as Y2.
  pose proof (fw_mul st k _ _ _ _ (fw_mul st k _ _ _ _ X2 Y2) D_fw) as M.
  pose proof (fw_sub st _ _ _ _ (fw_sub st _ _ _ _ (fw_sub st _ _ _ _ Y2 X2) one_fw) M) as E.
  rewrite (fw_cmp st _ _ _ _ E zero_fw), on_I. destruct (Fp_dec p25 _ _) as [H|H]; cbn [int_of].
  - split; [split; [intros _; exact H|reflexivity]|right; reflexivity].
  - split; [split; [intro K; discriminate K|intro K; contradiction]|left; reflexivity].
Qed.
Theorem equal_iff (P Q : point) : words 4 (fst P) -> words 4 (snd P) -> words 4 (fst Q) -> words 4 (snd Q) ->
  (areEqual st P Q = 1 <-> val (fst P) mod p_ed255 = val (fst Q) mod p_ed255 /\ val (snd P) mod p_ed255 = val (snd Q) mod p_ed255) /\
  (areEqual st P Q = 0 \/ areEqual st P Q = 1).
Proof.
  intros A B C D. unfold areEqual. destruct (cmp_ok st _ _ A C) as [C1 _]. destruct (cmp_ok st _ _ B D) as [C2 _].
  destruct (Z.eqb_spec (cmp st (fst P) (fst Q)) 0) as [E|E]; destruct (Z.eqb_spec (cmp st (snd P) (snd Q)) 0) as [G|G]; cbn [andb int_of].
  - split; [split; [intros _; split; [apply C1; exact E|apply C2; exact G]|reflexivity]|right; reflexivity].
  - split; [split; [intro K; discriminate K|intros [_ K]; exfalso; apply G; apply C2; exact K]|left; reflexivity].
  - split; [split; [intro K; discriminate K|intros [K _]; exfalso; apply E; apply C1; exact K]|left; reflexivity].
  - split; [split; [intro K; discriminate K|intros [K _]; exfalso; apply E; apply C1; exact K]|left; reflexivity].
Qed.
(** ** The field elements *)
Lemma field_ok c prefix msg : clean c -> byte prefix -> Forall byte msg -> Z.of_nat (length msg) + 1 < 2 ^ 64 ->
  let u := hash_to_field st c prefix msg in
  words 4 u /\ scalar_for (le_val (SHA512_fips (prefix :: msg))) (val u).
Proof.
  intros Hc Hp Hm HL. cbv zeta. unfold hash_to_field.
  assert (HF : Forall (Forall byte) [[prefix]; msg]) by (apply Forall_cons; [apply Forall_cons; [exact Hp|apply Forall_nil]|apply Forall_cons; [exact Hm|apply Forall_nil]]).
  assert (Ec : concat [[prefix]; msg] = prefix :: msg) by (cbn [concat app]; rewrite app_nil_r; reflexivity).
  destruct (sha512_fips c [[prefix]; msg] Hc HF) as [E Bd]; [rewrite Ec; cbn [length]; lia|].
  rewrite Ec in E, Bd. unfold sph_sha512_all in E. cbn [fold_left] in E. rewrite E.
  destruct (reduced_digest_ok st (SHA512_fips (prefix :: msg)) Bd) as [Br Sc].
  destruct (words_of_ok 4 _ Br) as [Ww Vw]. split; [exact Ww|]. rewrite Vw. exact Sc.
Qed.
Theorem h2c_ok c0 c1 msg : clean c0 -> clean c1 -> Forall byte msg -> Z.of_nat (length msg) + 1 < 2 ^ 64 ->
  let u0 := hash_to_field st c0 0 msg in let u1 := hash_to_field st c1 1 msg in let r := h2c25519_x64 st k c0 c1 msg in
  exists P, hashes_to (val u0) (val u1) P /\ on255 P /\ words 4 (fst r) /\ words 4 (snd r) /\
    val (fst r) mod p_ed255 = fst P /\ val (snd r) mod p_ed255 = snd P /\ isOnCurve st k r = 1.
Proof.
  intros H0 H1 Hm HL. cbv zeta. unfold h2c25519_x64.
  destruct (field_ok c0 0 msg H0 ltac:(unfold byte; lia) Hm HL) as [W0 _]. destruct (field_ok c1 1 msg H1 ltac:(unfold byte; lia) Hm HL) as [W1 _].
  set (u0 := hash_to_field st c0 0 msg) in *. set (u1 := hash_to_field st c1 1 msg) in *. clearbody u0 u1.
  destruct (map_ok u0 W0) as (P0 & M0 & F0). destruct (map_ok u1 W1) as (P1 & M1 & F1).
  pose proof F0 as [On0 _]. pose proof F1 as [On1 _].
  pose proof (fulladd_1w_full_ok st k _ _ _ _ (clear_ok _ _ F0) (clear_ok _ _ F1)) as A.
  rewrite <- (mul255_padd 8 P0 P1 On0 On1) in A. pose proof A as [On _]. destruct (affine_ok _ _ A) as (WX & WY & EX & EY).
  set (r := toAffine st k _) in *. clearbody r. clear A.
  exists (mul255 8 (add255 P0 P1)). split; [exists P0, P1; split; [exact M0|split; [exact M1|reflexivity]]|].
  split; [exact On|]. split; [exact WX|]. split; [exact WY|]. split; [exact EX|]. split; [exact EY|].
  apply (on_curve_iff r WX WY). rewrite EX, EY. destruct (mul255 8 (add255 P0 P1)); exact On.
Qed.
End H2c.
