(** The ladder of RFC 7748 on curve448 computes y^2/x^2 of multiples of a point of edwards448: the map of RFC 7748,
    section 4.2, (x, y) -> y^2/x^2.  Mathematics only. *)
From Coq Require Import ZArith Znumtheory List Bool Lia Field.
From Verif Require Import EdwardsGroup AbGroup FpType SpecX SpecEd CurveLadder EdPoint CurveInst EdInst448.
Import ListNotations.
Open Scope Z_scope.

Section Map.
Variable p : Z.
Hypothesis (Pp : prime p) (P2 : 2 < p).
Notation F := (Fp p). Notation I := (inF p P2).
Notation fA := (fp_add p P2). Notation fM := (fp_mul p P2). Notation fS := (fp_sub p P2). Notation fN := (fp_opp p P2).
Notation fD := (fp_div p P2). Notation fI := (fp_inv p P2).
Let Fth := fp_field p Pp P2.
Add Field Fpm : Fth.
Declare Scope fm_scope. Delimit Scope fm_scope with F.
Infix "+" := fA : fm_scope. Infix "*" := fM : fm_scope. Infix "-" := fS : fm_scope. Infix "/" := fD : fm_scope. Notation "- x" := (fN x) : fm_scope.
Let two := fp_two p P2.
Variable d : Z.
Hypothesis dns : forall r, fM r r <> I d.
Notation pt := (point F (I 1) fA fM (I 1) (I d)).
Notation add := (padd F (I 0) (I 1) fA fM fS fN fD fI Fth (Fp_dec p) (I 1) (I d) two dns).
Notation opp := (popp F (I 0) (I 1) fA fM fS fN fD fI Fth (I 1) (I d)).
Notation OO := (EdwardsGroup.O F (I 0) (I 1) fA fM fS fN fD fI Fth (I 1) (I d)).
Notation mul := (zmul pt OO add opp).
Notation yc := (py F (I 1) fA fM (I 1) (I d)).
Notation xc := (px F (I 1) fA fM (I 1) (I d)).
Notation dX := (dx F (I 1) fA fM (I d)).
Notation dY := (dy F (I 1) fM fS (I d)).
Lemma nz x y : x <> I 0 -> y <> I 0 -> (x * y)%F <> I 0.
Proof. exact (fmul_nz _ _ _ _ _ _ _ _ _ Fth (Fp_dec p) x y). Qed.
(** (U : W) is the image of a point *)
Definition Rm (v : F * F) (P : pt) : Prop := exists l, l <> I 0 /\ fst v = (l * (yc P * yc P))%F /\ snd v = (l * (xc P * xc P))%F.
Lemma Rm_O : Rm (I 1, I 0) OO.
Proof.
  exists (I 1). split; [exact (one_nz _ _ _ _ _ _ _ _ _ Fth)|]. change (yc OO) with (I 1). change (xc OO) with (I 0). cbn [fst snd]. split; ring.
Qed.
Lemma Rm_dbl v P : Rm v P -> Rm (mdbl F fA fM fS (I (- d)) v) (add P P).
Proof.
  destruct v as [U W]. intros (l & Nl & EU & EW). cbn [fst snd] in EU, EW.
  pose proof (py_add _ _ _ _ _ _ _ _ _ Fth (Fp_dec p) (I 1) (I d) two dns P P) as EY.
  pose proof (px_add _ _ _ _ _ _ _ _ _ Fth (Fp_dec p) (I 1) (I d) two dns P P) as EX.
  pose proof (on_e _ _ _ _ _ _ _ _ _ Fth (I 1) (I d) _ _ (pon _ _ _ _ (I 1) (I d) P)) as C.
  pose proof (dx_nz _ _ _ _ _ _ _ _ _ Fth (Fp_dec p) (I 1) (I d) two dns _ _ _ _ (pon _ _ _ _ (I 1) (I d) P) (pon _ _ _ _ (I 1) (I d) P)) as NX.
  pose proof (dy_nz _ _ _ _ _ _ _ _ _ Fth (Fp_dec p) (I 1) (I d) two dns _ _ _ _ (pon _ _ _ _ (I 1) (I d) P) (pon _ _ _ _ (I 1) (I d) P)) as NY.
  unfold Rm. set (x3 := xc (add P P)) in *. set (y3 := yc (add P P)) in *. set (x := xc P) in *. set (y := yc P) in *. clearbody x3 y3 x y.
  set (D1 := dX x y x y) in *. set (D2 := dY x y x y) in *.
  assert (E1 : D1 = (x * x + y * y)%F).
  { apply (fsub0 _ _ _ _ _ _ _ _ _ Fth). unfold D1, dx. transitivity (fN (I 1 * I 1 * x * x + y * y - I 1 - I d * x * x * y * y)%F); [ring|]. rewrite C. ring. }
  assert (E2 : D2 = (I 1 + I 1 - (x * x + y * y))%F).
  { apply (fsub0 _ _ _ _ _ _ _ _ _ Fth). unfold D2, dy. transitivity (I 1 * I 1 * x * x + y * y - I 1 - I d * x * x * y * y)%F; [ring|]. rewrite C. ring. }
  exists (l * l * (l * l) * (D1 * D1) * (D2 * D2))%F. split; [|split].
  - apply nz; [apply nz; [apply nz; apply nz; assumption|apply nz; assumption]|apply nz; assumption].
  - cbn [mdbl fst]. rewrite EU, EW. transitivity (l * l * (l * l) * (D1 * D1) * ((y3 * D2) * (y3 * D2)))%F; [|ring].
    rewrite EY, E1. unfold ny. ring.
  - cbn [mdbl snd]. rewrite EU, EW. transitivity (l * l * (l * l) * (D2 * D2) * ((x3 * D1) * (x3 * D1)))%F; [|ring].
    rewrite EX, inF_opp. unfold nx.
    assert (K : (D2 * D2 = x * x * (x * x) + y * y * (y * y) + (I 1 + I 1 - (I 1 + I 1 + I 1 + I 1) * I d) * (x * x) * (y * y))%F).
    { rewrite E2. apply (fsub0 _ _ _ _ _ _ _ _ _ Fth).
      transitivity (fN (I 1 + I 1 + I 1 + I 1) * (I 1 * I 1 * x * x + y * y - I 1 - I d * x * x * y * y))%F; [ring|]. rewrite C. ring. }
    rewrite K. ring.
Qed.
Lemma Rm_dadd u B : I u <> I 0 -> Rm (I u, I 1) B -> forall v w P Q, Rm v P -> Rm w Q -> add Q (opp P) = B -> Rm (mdadd F fA fM fS (I u) v w) (add P Q).
Proof.
  intros Nu (b & Nb & Eu & E1) [U2 W2] [U3 W3] P Q (l & Nl & EU & EW) (m & Nm & EU' & EW') HD. cbn [fst snd] in *.
  pose proof (py_add _ _ _ _ _ _ _ _ _ Fth (Fp_dec p) (I 1) (I d) two dns P Q) as EY.
  pose proof (px_add _ _ _ _ _ _ _ _ _ Fth (Fp_dec p) (I 1) (I d) two dns P Q) as EX.
  pose proof (py_add _ _ _ _ _ _ _ _ _ Fth (Fp_dec p) (I 1) (I d) two dns Q (opp P)) as EYm.
  pose proof (px_add _ _ _ _ _ _ _ _ _ Fth (Fp_dec p) (I 1) (I d) two dns Q (opp P)) as EXm.
  pose proof (dx_nz _ _ _ _ _ _ _ _ _ Fth (Fp_dec p) (I 1) (I d) two dns _ _ _ _ (pon _ _ _ _ (I 1) (I d) P) (pon _ _ _ _ (I 1) (I d) Q)) as NX.
  pose proof (dy_nz _ _ _ _ _ _ _ _ _ Fth (Fp_dec p) (I 1) (I d) two dns _ _ _ _ (pon _ _ _ _ (I 1) (I d) P) (pon _ _ _ _ (I 1) (I d) Q)) as NY.
  rewrite HD in EYm, EXm. change (xc (opp P)) with (fN (xc P)) in EYm, EXm. change (yc (opp P)) with (yc P) in EYm, EXm. clear HD.
  unfold Rm. set (x3 := xc (add P Q)) in *. set (y3 := yc (add P Q)) in *. set (x := xc P) in *. set (y := yc P) in *. set (x' := xc Q) in *. set (y' := yc Q) in *.
  set (xb := xc B) in *. set (yb := yc B) in *. clearbody x3 y3 x y x' y' xb yb.
  set (D1 := dX x y x' y') in *. set (D2 := dY x y x' y') in *.
  assert (F1 : (yb * D1 = y * y' + x * x')%F).
  { transitivity (yb * dY x' y' (- x)%F y)%F; [unfold D1, dx, dy; ring|]. rewrite EYm. unfold ny. ring. }
  assert (F2 : (xb * D2 = x' * y - x * y')%F).
  { transitivity (xb * dX x' y' (- x)%F y)%F; [unfold D2, dx, dy; ring|]. rewrite EXm. unfold nx. ring. }
  assert (Nyb : yb <> I 0) by (intro E; apply Nu; rewrite Eu, E; ring).
  assert (Hu : (I u * (xb * xb) = yb * yb)%F).
  { transitivity (yb * yb * (b * (xb * xb)))%F; [rewrite Eu; ring|]. rewrite <- E1. ring. }
  set (N2 := (y * y' + x * x')%F) in *.
  assert (NN : N2 <> I 0) by (rewrite <- F1; apply nz; assumption).
  exists ((I 1 + I 1) * (I 1 + I 1) * (l * l * (m * m)) * (N2 * N2) * (D2 * D2))%F. split; [|split].
  - repeat apply nz; assumption.
  - cbn [mdadd fst]. rewrite EU, EW, EU', EW'.
    transitivity ((I 1 + I 1) * (I 1 + I 1) * (l * l * (m * m)) * (N2 * N2) * ((y3 * D2) * (y3 * D2)))%F; [|ring].
    rewrite EY. unfold ny, N2. ring.
  - cbn [mdadd snd]. rewrite EU, EW, EU', EW'.
    transitivity ((I 1 + I 1) * (I 1 + I 1) * (l * l * (m * m)) * ((yb * yb) * (D2 * D2)) * ((x3 * D1) * (x3 * D1)))%F.
    2:{ rewrite <- F1. ring. }
    rewrite <- Hu, EX. unfold nx.
    transitivity ((I 1 + I 1) * (I 1 + I 1) * (l * l * (m * m)) * I u * ((xb * D2) * (xb * D2)) * ((x * y' + x' * y) * (x * y' + x' * y)))%F; [|ring].
    rewrite F2. ring.
Qed.
Definition uim (P : pt) : F := (yc P * yc P * fI (xc P * xc P))%F.
Lemma uim_R v P : Rm v P -> (fst v * fI (snd v))%F = uim P.
Proof.
  intros (l & Nl & EX & EZ). unfold uim. rewrite EX, EZ. destruct (Fp_dec p (xc P * xc P)%F (I 0)) as [E|N].
  - rewrite E. replace (fM l (I 0)) with (I 0) by ring. rewrite fp_inv0. ring.
  - set (xx := (xc P * xc P)%F) in *. clearbody xx. field. split; assumption.
Qed.
Lemma ladder_map bits k u B : 0 <= k < 2 ^ Z.of_nat bits -> I u <> I 0 -> Rm (I u, I 1) B -> I (rfc_ladder p (- d) bits k u) = uim (mul k B).
Proof.
  intros Hk Nu HB. rewrite (ladder_pr p P2). rewrite (pr_fold p Pp P2). cbn [pr].
  destruct (ladder_ok pt OO add opp (gA p Pp P2 d 1 dns) (gC p Pp P2 d 1 dns) (gO p Pp P2 d 1 dns) (gN p Pp P2 d 1 dns)
    (F * F) Rm (mdbl F fA fM fS (I (- d))) (mdadd F fA fM fS (I u)) B Rm_dbl (Rm_dadd u B Nu HB) bits k (proj1 Hk) ((I 1, I 0), (I u, I 1)) 0) as [H _].
  - cbn [fst]. rewrite zmul_0. exact Rm_O.
  - cbn [snd]. rewrite Z.add_0_l. rewrite (zmul_1 pt OO add opp (gO p Pp P2 d 1 dns)). exact HB.
  - cbv zeta in H. rewrite Z.mul_0_l, Z.add_0_l, Z.mod_small in H by exact Hk. exact (uim_R _ _ H).
Qed.
(** The map on a projective point; [i] is the inverse of X, 0 if X is 0 *)
Lemma map_alg x y w i X Y : w mod p <> 0 -> X mod p = (x * w) mod p -> Y mod p = (y * w) mod p ->
  (X mod p <> 0 -> (X * i) mod p = 1) -> (X mod p = 0 -> i mod p = 0) -> (Y * i * (Y * i)) mod p = (y * y * inv_mod p (x * x)) mod p.
Proof.
  intros Nw EX EY I1 I0.
  assert (Nw' : I w <> I 0) by (intro K; exact (Nw (proj1 (inF_0 p P2 w) K))).
  apply (inF_eq p P2) in EX, EY. rewrite inF_mul in EX, EY.
  assert (G : (I Y * I i * (I Y * I i) = I y * I y * fI (I x * I x))%F).
  { rewrite EY. destruct (Fp_dec p (I x) (I 0)) as [E|N].
    - assert (EI : I i = I 0). { apply (inF_eq p P2). rewrite Z.mod_0_l by lia. apply I0. apply (inF_0 p P2). rewrite EX, E. ring. }
      rewrite EI, E. replace (I 0 * I 0)%F with (I 0) by ring. rewrite fp_inv0. ring.
    - assert (NX : (I x * I w)%F <> I 0) by (apply nz; assumption). rewrite <- EX in NX.
      assert (EI : (I X * I i)%F = I 1).
      { rewrite <- inF_mul. apply (inF_eq p P2). rewrite I1; [symmetry; apply Z.mod_small; lia|]. intro K. apply NX. apply (inF_0 p P2). exact K. }
      assert (EI' : I i = (I 1 / (I x * I w))%F).
      { transitivity ((I X * I i) / (I x * I w))%F; [|rewrite EI; reflexivity]. rewrite EX. field. split; assumption. }
      rewrite EI'. field. split; assumption. }
  apply (inF_eq p P2). rewrite !inF_mul, (I_inv p P2), !inF_mul. exact G.
Qed.
Lemma quotient x y u : 0 <= u < p -> x mod p <> 0 -> (u * (x * x)) mod p = (y * y) mod p -> (y * y * inv_mod p (x * x)) mod p = u.
Proof.
  intros Hu Nx E. rewrite <- (Z.mod_small u p Hu). assert (Nx' : I x <> I 0) by (intro K; exact (Nx (proj1 (inF_0 p P2 x) K))).
  apply (inF_eq p P2) in E. rewrite !inF_mul in E. apply (inF_eq p P2). rewrite !inF_mul, (I_inv p P2), !inF_mul, <- E. field. exact Nx'.
Qed.
Lemma one1 : 1 * 1 mod p = 1 mod p. Proof. reflexivity. Qed.
Theorem ladder_iso bits k u P : on_curve p 1 d P -> 0 <= k < 2 ^ Z.of_nat bits -> u mod p <> 0 -> (u * (fst P * fst P)) mod p = (snd P * snd P) mod p ->
  let Q := ed_mul p 1 d k P in
  rfc_ladder p (- d) bits k u = (snd Q * snd Q * inv_mod p (fst Q * fst Q)) mod p.
Proof.
  intros On Hk Hu E. destruct (cds_ex p P2 1 d 1 one1 P On) as [Q HQ]. cbv zeta.
  assert (Nu : I u <> I 0) by (intro K; exact (Hu (proj1 (inF_0 p P2 u) K))).
  assert (U : Rm (I u, I 1) Q).
  { apply (inF_eq p P2) in E. rewrite !inF_mul in E. rewrite <- HQ in E. unfold cds in E. cbn [fst snd] in E. rewrite !(inF_toZ p P2) in E.
    assert (Nx : xc Q <> I 0).
    { intro K. pose proof (on_e _ _ _ _ _ _ _ _ _ Fth (I 1) (I d) _ _ (pon _ _ _ _ (I 1) (I d) Q)) as C.
      assert (Y : (yc Q * yc Q)%F = I 0) by (rewrite <- E, K; ring).
      apply (one_nz _ _ _ _ _ _ _ _ _ Fth).
      transitivity (fN (I 1 * I 1 * xc Q * xc Q + yc Q * yc Q - I 1 - I d * xc Q * xc Q * yc Q * yc Q) + I 1 * I 1 * xc Q * xc Q + yc Q * yc Q - I d * xc Q * xc Q * yc Q * yc Q)%F; [ring|].
      rewrite C, K, Y. ring. }
    exists (fI (xc Q * xc Q))%F. cbn [fst snd]. split; [|split].
    - intro K. apply (one_nz _ _ _ _ _ _ _ _ _ Fth). transitivity (xc Q * xc Q * fI (xc Q * xc Q))%F; [field; exact Nx|]. rewrite K. ring.
    - rewrite <- E. field. exact Nx.
    - field. exact Nx. }
  pose proof (ladder_map bits k u Q Hk Nu U) as L.
  rewrite <- (Z.mod_small _ _ (rfc_range p P2 (- d) bits k u)). apply (inF_eq p P2). rewrite L. unfold uim.
  rewrite <- HQ, <- (cds_mul p Pp P2 1 d 1 one1 dns). unfold cds. cbn [fst snd]. rewrite !inF_mul, (I_inv p P2), !inF_mul, !(inF_toZ p P2). reflexivity.
Qed.
End Map.
Theorem ladder448 k u P : on448 P -> 0 <= k < 2 ^ 448 -> u mod p_ed448 <> 0 -> (u * (fst P * fst P)) mod p_ed448 = (snd P * snd P) mod p_ed448 ->
  rfc_ladder p_ed448 39081 448 k u = (snd (mul448 k P) * snd (mul448 k P) * inv_mod p_ed448 (fst (mul448 k P) * fst (mul448 k P))) mod p_ed448.
Proof. exact (ladder_iso p44 p44_prime p44_2 d_ed448 m44_ns 448 k u P). Qed.
Lemma map448_alg x y w i X Y : w mod p_ed448 <> 0 -> X mod p_ed448 = (x * w) mod p_ed448 -> Y mod p_ed448 = (y * w) mod p_ed448 ->
  (X mod p_ed448 <> 0 -> (X * i) mod p_ed448 = 1) -> (X mod p_ed448 = 0 -> i mod p_ed448 = 0) ->
  (Y * i * (Y * i)) mod p_ed448 = (y * y * inv_mod p_ed448 (x * x)) mod p_ed448.
Proof. exact (map_alg p44 p44_prime p44_2 x y w i X Y). Qed.
Lemma quotient448 x y u : 0 <= u < p_ed448 -> x mod p_ed448 <> 0 -> (u * (x * x)) mod p_ed448 = (y * y) mod p_ed448 -> (y * y * inv_mod p_ed448 (x * x)) mod p_ed448 = u.
Proof. exact (quotient p44 p44_prime p44_2 x y u). Qed.
