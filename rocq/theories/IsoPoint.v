(** The isogeny of SpecIso.v for points of SpecEd.v, and what the formulas of the twisted curve compute on images.
    Mathematics only: nothing here refers to the code. *)
From Coq Require Import ZArith Znumtheory Zpow_facts List Bool Lia Field.
From Verif Require Import EdwardsGroup AbGroup FpType SpecEd EdPoint SpecIso IsoField.
Import ListNotations.
Open Scope Z_scope.

Section IsoBridge.
Variable p : Z.
Hypothesis Pp : prime p.
Hypothesis P2 : 2 < p.
Notation F := (Fp p). Notation I := (inF p P2).
Notation fA := (fp_add p P2). Notation fM := (fp_mul p P2). Notation fS := (fp_sub p P2). Notation fN := (fp_opp p P2).
Notation fD := (fp_div p P2). Notation fI := (fp_inv p P2).
Let Fth := fp_field p Pp P2.
Add Field Fpf : Fth.
Declare Scope fq_scope. Delimit Scope fq_scope with F.
Infix "+" := fA : fq_scope. Infix "*" := fM : fq_scope. Infix "-" := fS : fq_scope. Infix "/" := fD : fq_scope. Notation "- x" := (fN x) : fq_scope.
Let two := fp_two p P2.
Variables (d : Z).
Hypothesis dns : forall r, fM r r <> I d.
Hypothesis ens : forall r, fM r r <> I (1 - d).
Notation pt := (point F (I 1) fA fM (I 1) (I d)).
Notation add := (padd F (I 0) (I 1) fA fM fS fN fD fI Fth (Fp_dec p) (I 1) (I d) two dns).
Notation opp := (popp F (I 0) (I 1) fA fM fS fN fD fI Fth (I 1) (I d)).
Notation yc := (py F (I 1) fA fM (I 1) (I d)).
Notation xc := (px F (I 1) fA fM (I 1) (I d)).
Notation cds := (EdPoint.cds p P2 d 1).
Notation uU := (iU F fM). Notation cC := (iC F fM fS). Notation nN := (iN F fA fM). Notation mM := (iM F (I 1) fA fM fS).
Lemma ens' : forall r, fM r r <> fS (I 1) (I d).
Proof. intros r. rewrite <- inF_sub. apply ens. Qed.
Lemma on_pt (Q : pt) : on1 F (I 1) fA fM (I d) (xc Q) (yc Q).
Proof. pose proof (pon F (I 1) fA fM (I 1) (I d) Q) as H. unfold EdwardsGroup.on in H. unfold on1. rewrite <- H. change (px F (I 1) fA fM (I 1) (I d) Q) with (xc Q). change (py F (I 1) fA fM (I 1) (I d) Q) with (yc Q). ring. Qed.
Lemma C_nz (Q : pt) : cC (xc Q) (yc Q) <> I 0.
Proof. exact (iC_nz F (I 0) (I 1) fA fM fS fN fD fI Fth (I d) ens' _ _ (on_pt Q)). Qed.
Lemma M_nz (Q : pt) : mM (xc Q) (yc Q) <> I 0.
Proof. exact (iM_nz F (I 0) (I 1) fA fM fS fN fD fI Fth (Fp_dec p) (I d) two dns _ _ (on_pt Q)). Qed.
(** Coordinates of the image *)
Definition ix (Q : pt) : F := ((I 1 + I 1) * uU (xc Q) (yc Q) / cC (xc Q) (yc Q))%F.
Definition iy (Q : pt) : F := (nN (xc Q) (yc Q) / mM (xc Q) (yc Q))%F.
Lemma I2 : I 2 = (I 1 + I 1)%F. Proof. rewrite <- inF_add. reflexivity. Qed.
Lemma iso_cds Q : iso p (cds Q) = (toZ p (ix Q), toZ p (iy Q)).
Proof.
  unfold iso, EdPoint.cds. rewrite <- !toZ_inF with (P2 := P2). f_equal; f_equal.
  - rewrite inF_mul, I_inv by assumption. rewrite inF_sub, !inF_mul, !(inF_toZ p P2), I2. unfold ix, iU, iC. change (px F (I 1) fA fM (I 1) (I d) Q) with (xc Q). change (py F (I 1) fA fM (I 1) (I d) Q) with (yc Q).
    unfold fp_div. f_equal. ring.
  - rewrite inF_mul, I_inv by assumption. rewrite inF_sub, !inF_add, !inF_mul, !(inF_toZ p P2), I2. reflexivity.
Qed.
Definition irep (X Y W T : F) (Q : pt) : Prop := W <> I 0 /\ X = (ix Q * W)%F /\ Y = (iy Q * W)%F /\ T = (ix Q * iy Q * W)%F.
Notation reps := (represents p).
Lemma reps_irep X Y W T Q : reps X Y W T (iso p (cds Q)) <-> irep (I X) (I Y) (I W) (I T) Q.
Proof.
  rewrite iso_cds. unfold represents, irep.
  assert (E0 : W mod p <> 0 <-> I W <> I 0) by (split; intros N E; apply N; apply (inF_0 p P2); exact E).
  assert (EX : X mod p = (toZ p (ix Q) * W) mod p <-> I X = (ix Q * I W)%F).
  { rewrite <- (inF_eq p P2), inF_mul, (inF_toZ p P2). reflexivity. }
  assert (EY : Y mod p = (toZ p (iy Q) * W) mod p <-> I Y = (iy Q * I W)%F).
  { rewrite <- (inF_eq p P2), inF_mul, (inF_toZ p P2). reflexivity. }
  assert (ET : T mod p = (toZ p (ix Q) * toZ p (iy Q) * W) mod p <-> I T = (ix Q * iy Q * I W)%F).
  { rewrite <- (inF_eq p P2), !inF_mul, !(inF_toZ p P2). reflexivity. }
  rewrite E0, EX, EY, ET. reflexivity.
Qed.
Lemma fnz x y : x <> I 0 -> y <> I 0 -> (x * y)%F <> I 0.
Proof. apply (nz_mul F (I 0) (I 1) fA fM fS fN fD fI Fth). Qed.
Notation four := (I 1 + I 1 + I 1 + I 1)%F.
Definition dplus (P Q : pt) : F := (cC (xc P) (yc P) * mM (xc P) (yc P) * (cC (xc Q) (yc Q) * mM (xc Q) (yc Q)) +
  (I d - I 1) * four * (uU (xc P) (yc P) * nN (xc P) (yc P)) * (uU (xc Q) (yc Q) * nN (xc Q) (yc Q)))%F.
Definition dminus (P Q : pt) : F := (cC (xc P) (yc P) * mM (xc P) (yc P) * (cC (xc Q) (yc Q) * mM (xc Q) (yc Q)) -
  (I d - I 1) * four * (uU (xc P) (yc P) * nN (xc P) (yc P)) * (uU (xc Q) (yc Q) * nN (xc Q) (yc Q)))%F.
Definition Dd (P Q : pt) : F := ((I 1 + I d * uU (xc P) (yc P) * uU (xc Q) (yc Q)) * (I 1 - I d * uU (xc P) (yc P) * uU (xc Q) (yc Q)))%F.
Section TwoPoints.
Variables P Q : pt.
Notation x1 := (xc P). Notation y1 := (yc P). Notation x2 := (xc Q). Notation y2 := (yc Q). Notation x3 := (xc (add P Q)). Notation y3 := (yc (add P Q)).
Lemma sum_x : (x3 * (I 1 + I d * uU x1 y1 * uU x2 y2) = x1 * y2 + x2 * y1)%F.
Proof.
  pose proof (px_add F (I 0) (I 1) fA fM fS fN fD fI Fth (Fp_dec p) (I 1) (I d) two dns P Q) as E. unfold dx, nx in E. rewrite <- E. unfold iU.
  set (X := px F (I 1) fA fM (I 1) (I d) (add P Q)). change (xc (add P Q)) with X. clearbody X. ring.
Qed.
Lemma sum_y : (y3 * (I 1 - I d * uU x1 y1 * uU x2 y2) = y1 * y2 - x1 * x2)%F.
Proof.
  pose proof (py_add F (I 0) (I 1) fA fM fS fN fD fI Fth (Fp_dec p) (I 1) (I d) two dns P Q) as E. unfold dy, ny in E.
  transitivity (y1 * y2 - I 1 * I 1 * x1 * x2)%F; [|ring]. rewrite <- E. unfold iU.
  set (Y := py F (I 1) fA fM (I 1) (I d) (add P Q)). change (yc (add P Q)) with Y. clearbody Y. ring.
Qed.
Lemma Dd_nz : Dd P Q <> I 0.
Proof.
  pose proof (dx_nz F (I 0) (I 1) fA fM fS fN fD fI Fth (Fp_dec p) (I 1) (I d) two dns _ _ _ _ (pon _ _ _ _ _ _ P) (pon _ _ _ _ _ _ Q)) as Nx.
  pose proof (dy_nz F (I 0) (I 1) fA fM fS fN fD fI Fth (Fp_dec p) (I 1) (I d) two dns _ _ _ _ (pon _ _ _ _ _ _ P) (pon _ _ _ _ _ _ Q)) as Ny.
  apply fnz.
  - intro E. apply Nx. rewrite <- E. unfold dx, iU. change (px F (I 1) fA fM (I 1) (I d) P) with x1. change (py F (I 1) fA fM (I 1) (I d) P) with y1. change (px F (I 1) fA fM (I 1) (I d) Q) with x2. change (py F (I 1) fA fM (I 1) (I d) Q) with y2. ring.
  - intro E. apply Ny. rewrite <- E. unfold dy, iU. change (px F (I 1) fA fM (I 1) (I d) P) with x1. change (py F (I 1) fA fM (I 1) (I d) P) with y1. change (px F (I 1) fA fM (I 1) (I d) Q) with x2. change (py F (I 1) fA fM (I 1) (I d) Q) with y2. ring.
Qed.
Lemma sum_uu : (uU x3 y3 * Dd P Q = uU x1 y1 * cC x2 y2 + uU x2 y2 * cC x1 y1)%F.
Proof. exact (sum_u F (I 0) (I 1) fA fM fS fN fD fI Fth (I d) x1 y1 x2 y2 x3 y3 sum_x sum_y). Qed.
Lemma sum_CC : (cC x3 y3 * (Dd P Q * Dd P Q) = cC x1 y1 * cC x2 y2 * (I 1 + (I d * uU x1 y1 * uU x2 y2) * (I d * uU x1 y1 * uU x2 y2)) +
  (I 1 + I 1) * (I d * uU x1 y1 * uU x2 y2) * (nN x1 y1 * nN x2 y2) - four * (uU x1 y1 * uU x2 y2) * (I 1 + (I d * uU x1 y1 * uU x2 y2) * (I d * uU x1 y1 * uU x2 y2)))%F.
Proof. exact (sum_C F (I 0) (I 1) fA fM fS fN fD fI Fth (I d) x1 y1 x2 y2 x3 y3 sum_x sum_y). Qed.
End TwoPoints.
Lemma N_u (Q : pt) : nN (xc Q) (yc Q) = (I 1 + I d * uU (xc Q) (yc Q) * uU (xc Q) (yc Q))%F.
Proof. exact (iN_u F (I 0) (I 1) fA fM fS fN fD fI Fth (I d) _ _ (on_pt Q)). Qed.
Lemma M_u (Q : pt) : mM (xc Q) (yc Q) = (I 1 - I d * uU (xc Q) (yc Q) * uU (xc Q) (yc Q))%F.
Proof. exact (iM_u F (I 0) (I 1) fA fM fS fN fD fI Fth (I d) _ _ (on_pt Q)). Qed.
Lemma C_u (Q : pt) : (cC (xc Q) (yc Q) * cC (xc Q) (yc Q) = (I 1 + I d * uU (xc Q) (yc Q) * uU (xc Q) (yc Q)) * (I 1 + I d * uU (xc Q) (yc Q) * uU (xc Q) (yc Q)) - four * uU (xc Q) (yc Q) * uU (xc Q) (yc Q))%F.
Proof. exact (iC_u F (I 0) (I 1) fA fM fS fN fD fI Fth (I d) _ _ (on_pt Q)). Qed.
Lemma opp_u (Q : pt) : uU (xc (opp Q)) (yc (opp Q)) = (- uU (xc Q) (yc Q))%F.
Proof. change (uU (- xc Q)%F (yc Q) = (- uU (xc Q) (yc Q))%F). unfold iU. ring. Qed.
Lemma opp_C (Q : pt) : cC (xc (opp Q)) (yc (opp Q)) = cC (xc Q) (yc Q).
Proof. change (cC (- xc Q)%F (yc Q) = cC (xc Q) (yc Q)). unfold iC. ring. Qed.
Lemma opp_N (Q : pt) : nN (xc (opp Q)) (yc (opp Q)) = nN (xc Q) (yc Q).
Proof. change (nN (- xc Q)%F (yc Q) = nN (xc Q) (yc Q)). unfold iN. ring. Qed.
Lemma opp_M (Q : pt) : mM (xc (opp Q)) (yc (opp Q)) = mM (xc Q) (yc Q).
Proof. change (mM (- xc Q)%F (yc Q) = mM (xc Q) (yc Q)). unfold iM. ring. Qed.
Lemma opp_Dd P Q : Dd P (opp Q) = Dd P Q.
Proof. unfold Dd. rewrite opp_u. ring. Qed.
Lemma dplus_nz P Q : dplus P Q <> I 0.
Proof.
  assert (E : dplus P Q = (cC (xc (add P Q)) (yc (add P Q)) * mM (xc (add P (opp Q))) (yc (add P (opp Q))) * (Dd P Q * Dd P Q))%F).
  { unfold dplus. rewrite (M_u (add P (opp Q))), !M_u, !N_u.
    apply (form_dp F (I 0) (I 1) fA fM fS fN fD fI Fth (I d) _ _ _ _ (cC (xc (add P Q)) (yc (add P Q))) (C_u P) (C_u Q)).
    - rewrite <- !N_u. exact (sum_CC P Q).
    - exact (Dd_nz P Q).
    - pose proof (sum_uu P (opp Q)) as K. rewrite opp_Dd, opp_u, opp_C in K. unfold Dd in K. rewrite K. ring. }
  rewrite E. apply fnz; [apply fnz; [apply C_nz|apply M_nz]|apply fnz; apply Dd_nz].
Qed.
Lemma dminus_nz P Q : dminus P Q <> I 0.
Proof.
  pose proof (dplus_nz P (opp Q)) as N. intro E. apply N. rewrite <- E. unfold dplus, dminus.
  rewrite opp_u, opp_C, opp_N, opp_M. ring.
Qed.
Lemma image_x P Q : (dplus P Q * uU (xc (add P Q)) (yc (add P Q)) =
  (uU (xc P) (yc P) * mM (xc P) (yc P) * (nN (xc Q) (yc Q) * cC (xc Q) (yc Q)) + uU (xc Q) (yc Q) * mM (xc Q) (yc Q) * (nN (xc P) (yc P) * cC (xc P) (yc P))) * cC (xc (add P Q)) (yc (add P Q)))%F.
Proof.
  unfold dplus. rewrite !M_u, !N_u.
  apply (form_x F (I 0) (I 1) fA fM fS fN fD fI Fth (I d) _ _ _ _ _ _ (C_u P) (C_u Q) (sum_uu P Q)).
  - rewrite <- !N_u. exact (sum_CC P Q).
  - exact (Dd_nz P Q).
Qed.
Lemma image_y P Q : (dminus P Q * nN (xc (add P Q)) (yc (add P Q)) =
  (nN (xc P) (yc P) * cC (xc P) (yc P) * (nN (xc Q) (yc Q) * cC (xc Q) (yc Q)) + four * (uU (xc P) (yc P) * mM (xc P) (yc P)) * (uU (xc Q) (yc Q) * mM (xc Q) (yc Q))) * mM (xc (add P Q)) (yc (add P Q)))%F.
Proof.
  unfold dminus. rewrite (M_u (add P Q)), (N_u (add P Q)), !M_u, !N_u.
  exact (form_y F (I 0) (I 1) fA fM fS fN fD fI Fth (I d) _ _ _ _ _ (C_u P) (C_u Q) (sum_uu P Q) (Dd_nz P Q)).
Qed.
(** The sum of the images is the image of the sum *)
Lemma image_core m n X1 Y1 W1 T1 X2 Y2 W2 T2 E' F' G' H' P Q : m <> I 0 -> n <> I 0 -> irep X1 Y1 W1 T1 P -> irep X2 Y2 W2 T2 Q ->
  E' = (m * (X1 * Y2 + X2 * Y1))%F -> G' = (m * (W1 * W2 + (I d - I 1) * T1 * T2))%F ->
  F' = (n * (W1 * W2 - (I d - I 1) * T1 * T2))%F -> H' = (n * (Y1 * Y2 + X1 * X2))%F ->
  irep (E' * F')%F (G' * H')%F (F' * G')%F (E' * H')%F (add P Q).
Proof.
  intros Nm Nn (N1 & A1 & B1 & D1) (N2 & A2 & B2 & D2) EE EG EF EH.
  pose proof (C_nz P) as c1. pose proof (C_nz Q) as c2. pose proof (M_nz P) as m1. pose proof (M_nz Q) as m2.
  pose proof (C_nz (add P Q)) as c3. pose proof (M_nz (add P Q)) as m3.
  pose proof (dplus_nz P Q) as dp. pose proof (dminus_nz P Q) as dm. pose proof (image_x P Q) as ex. pose proof (image_y P Q) as ey.
  unfold irep. unfold ix, iy in *. unfold dplus, dminus in *.
  set (u1 := uU (xc P) (yc P)) in *. set (C1 := cC (xc P) (yc P)) in *. set (n1 := nN (xc P) (yc P)) in *. set (M1 := mM (xc P) (yc P)) in *.
  set (u2 := uU (xc Q) (yc Q)) in *. set (C2 := cC (xc Q) (yc Q)) in *. set (n2 := nN (xc Q) (yc Q)) in *. set (M2 := mM (xc Q) (yc Q)) in *.
  set (u3 := uU (xc (add P Q)) (yc (add P Q))) in *. set (C3 := cC (xc (add P Q)) (yc (add P Q))) in *. set (n3 := nN (xc (add P Q)) (yc (add P Q))) in *. set (M3 := mM (xc (add P Q)) (yc (add P Q))) in *.
  clearbody u1 C1 n1 M1 u2 C2 n2 M2 u3 C3 n3 M3.
  set (vp := (C1 * M1 * (C2 * M2) + (I d - I 1) * four * (u1 * n1) * (u2 * n2))%F) in *.
  set (vm := (C1 * M1 * (C2 * M2) - (I d - I 1) * four * (u1 * n1) * (u2 * n2))%F) in *.
  assert (K : (C1 * C2 * (M1 * M2))%F <> I 0) by (apply fnz; apply fnz; assumption).
  assert (G1 : G' = (m * W1 * W2 * vp / (C1 * C2 * (M1 * M2)))%F). { rewrite EG, D1, D2. unfold vp. field. repeat split; assumption. }
  assert (F1 : F' = (n * W1 * W2 * vm / (C1 * C2 * (M1 * M2)))%F). { rewrite EF, D1, D2. unfold vm. field. repeat split; assumption. }
  assert (E1 : E' = ((I 1 + I 1) * u3 / C3 * G')%F).
  { transitivity ((I 1 + I 1) * (vp * u3) / C3 * (m * W1 * W2 / (C1 * C2 * (M1 * M2))))%F; [|rewrite G1; field; repeat split; assumption].
    rewrite ex, EE, A1, A2, B1, B2. field. repeat split; assumption. }
  assert (H1 : H' = (n3 / M3 * F')%F).
  { transitivity ((vm * n3) / M3 * (n * W1 * W2 / (C1 * C2 * (M1 * M2))))%F; [|rewrite F1; field; repeat split; assumption].
    rewrite ey, EH, A1, A2, B1, B2. field. repeat split; assumption. }
  assert (NG : G' <> I 0).
  { rewrite G1. unfold fp_div. apply fnz; [apply fnz; [apply fnz; [apply fnz|]|]; assumption|].
    intro Z. apply (fp_two p P2). assert (O : (I 1 = I 0)%F). { transitivity ((C1 * C2 * (M1 * M2)) * fI (C1 * C2 * (M1 * M2)))%F; [field; repeat split; assumption|]. rewrite Z. ring. } rewrite O. ring. }
  assert (NF : F' <> I 0).
  { rewrite F1. unfold fp_div. apply fnz; [apply fnz; [apply fnz; [apply fnz|]|]; assumption|].
    intro Z. apply (fp_two p P2). assert (O : (I 1 = I 0)%F). { transitivity ((C1 * C2 * (M1 * M2)) * fI (C1 * C2 * (M1 * M2)))%F; [field; repeat split; assumption|]. rewrite Z. ring. } rewrite O. ring. }
  split; [apply fnz; assumption|]. clear EE EG EF EH G1 F1. rewrite E1, H1. clear E1 H1.
  split; [field; assumption|]. split; [field; assumption|]. field. split; assumption.
Qed.
Lemma N_nz (Q : pt) : nN (xc Q) (yc Q) <> I 0.
Proof.
  rewrite N_u. intro E. apply (Dd_nz Q Q). unfold Dd. rewrite E. ring.
Qed.
(** The image lies on the twisted curve *)
Lemma image_on X Y W T Q : irep X Y W T Q -> (Y * Y - X * X = W * W + (I d - I 1) * T * T)%F.
Proof.
  intros (N & -> & -> & ->). pose proof (C_nz Q) as c. pose proof (M_nz Q) as m. pose proof (C_u Q) as cu. rewrite <- N_u in cu. pose proof (N_u Q) as nu. pose proof (M_u Q) as mu.
  unfold ix, iy. set (u := uU (xc Q) (yc Q)) in *. set (C := cC (xc Q) (yc Q)) in *. set (n := nN (xc Q) (yc Q)) in *. set (M := mM (xc Q) (yc Q)) in *. clearbody u C n M.
  assert (K : (n * n * (C * C) - four * u * u * (M * M) = C * C * (M * M) + (I d - I 1) * four * u * u * (n * n))%F) by (rewrite cu, nu, mu; ring).
  transitivity ((n * n * (C * C) - four * u * u * (M * M)) * (W * W / (C * C * (M * M))))%F; [field; split; assumption|]. rewrite K. field. split; assumption.
Qed.
Lemma image_dbl m n X Y W T E' F' G' H' Q : m <> I 0 -> n <> I 0 -> irep X Y W T Q ->
  E' = (m * ((I 1 + I 1) * X * Y))%F -> G' = (m * (Y * Y - X * X))%F ->
  F' = (n * ((I 1 + I 1) * W * W - (Y * Y - X * X)))%F -> H' = (n * (Y * Y + X * X))%F ->
  irep (E' * F')%F (G' * H')%F (F' * G')%F (E' * H')%F (add Q Q).
Proof.
  intros Nm Nn R -> -> -> ->. pose proof (image_on X Y W T Q R) as K.
  apply (image_core m n X Y W T X Y W T _ _ _ _ Q Q Nm Nn R R); [ring|rewrite K; ring|rewrite K; ring|ring].
Qed.
Lemma dbl_x (Q : pt) : xc (add Q Q) = ((I 1 + I 1) * uU (xc Q) (yc Q) / nN (xc Q) (yc Q))%F.
Proof.
  pose proof (sum_x Q Q) as E. rewrite <- N_u in E. pose proof (N_nz Q) as N. transitivity (xc (add Q Q) * nN (xc Q) (yc Q) / nN (xc Q) (yc Q))%F; [field; exact N|].
  rewrite E. unfold iU. f_equal. ring.
Qed.
Lemma dbl_y (Q : pt) : yc (add Q Q) = (cC (xc Q) (yc Q) / mM (xc Q) (yc Q))%F.
Proof.
  pose proof (sum_y Q Q) as E. rewrite <- M_u in E. pose proof (M_nz Q) as N. transitivity (yc (add Q Q) * mM (xc Q) (yc Q) / mM (xc Q) (yc Q))%F; [field; exact N|].
  rewrite E. reflexivity.
Qed.
(** The way back multiplies by four *)
Lemma back_core m n X Y W T E' F' G' H' Q : m <> I 0 -> n <> I 0 -> irep X Y W T Q ->
  E' = (m * ((I 1 + I 1) * X * Y))%F -> H' = (m * (Y * Y + X * X))%F ->
  G' = (n * (Y * Y - X * X))%F -> F' = (n * ((I 1 + I 1) * W * W - (Y * Y - X * X)))%F ->
  let R := add (add Q Q) (add Q Q) in
  (F' * H')%F <> I 0 /\ (E' * F')%F = (xc R * (F' * H'))%F /\ (G' * H')%F = (yc R * (F' * H'))%F.
Proof.
  intros Nm Nn (N & EX & EY & ET) EE EH EG EF. cbv zeta.
  rewrite (dbl_x (add Q Q)), (dbl_y (add Q Q)).
  pose proof (C_nz Q) as c. pose proof (M_nz Q) as mq. pose proof (N_nz Q) as nq. pose proof (C_u Q) as cu. rewrite <- N_u in cu.
  pose proof (N_nz (add Q Q)) as n2. pose proof (M_nz (add Q Q)) as m2. pose proof (dbl_x Q) as x2. pose proof (dbl_y Q) as y2.
  assert (EU : uU (xc (add Q Q)) (yc (add Q Q)) = ((I 1 + I 1) * uU (xc Q) (yc Q) / nN (xc Q) (yc Q) * (cC (xc Q) (yc Q) / mM (xc Q) (yc Q)))%F).
  { rewrite x2, y2. reflexivity. }
  assert (EN : nN (xc (add Q Q)) (yc (add Q Q)) = ((I 1 + I 1) * uU (xc Q) (yc Q) / nN (xc Q) (yc Q) * ((I 1 + I 1) * uU (xc Q) (yc Q) / nN (xc Q) (yc Q)) + (cC (xc Q) (yc Q) / mM (xc Q) (yc Q)) * (cC (xc Q) (yc Q) / mM (xc Q) (yc Q)))%F).
  { rewrite x2, y2. reflexivity. }
  assert (EC : cC (xc (add Q Q)) (yc (add Q Q)) = ((cC (xc Q) (yc Q) / mM (xc Q) (yc Q)) * (cC (xc Q) (yc Q) / mM (xc Q) (yc Q)) - (I 1 + I 1) * uU (xc Q) (yc Q) / nN (xc Q) (yc Q) * ((I 1 + I 1) * uU (xc Q) (yc Q) / nN (xc Q) (yc Q)))%F).
  { rewrite x2, y2. reflexivity. }
  assert (EM : mM (xc (add Q Q)) (yc (add Q Q)) = (I 1 + I 1 - nN (xc (add Q Q)) (yc (add Q Q)))%F) by reflexivity.
  clear x2 y2. unfold ix, iy in *.
  set (U2 := uU (xc (add Q Q)) (yc (add Q Q))) in *. set (N2 := nN (xc (add Q Q)) (yc (add Q Q))) in *. set (C2 := cC (xc (add Q Q)) (yc (add Q Q))) in *. set (M2 := mM (xc (add Q Q)) (yc (add Q Q))) in *.
  set (u := uU (xc Q) (yc Q)) in *. set (C := cC (xc Q) (yc Q)) in *. set (nn := nN (xc Q) (yc Q)) in *. set (M := mM (xc Q) (yc Q)) in *.
  clearbody U2 N2 C2 M2 u C nn M.
  set (k := (W * W * (nn * nn) / (C * C))%F).
  assert (Nk : k <> I 0).
  { intro Z. apply (fnz _ _ (fnz _ _ N N) (fnz _ _ nq nq)). transitivity (k * (C * C))%F; [unfold k; field; exact c|]. rewrite Z. ring. }
  assert (HH : H' = (m * k * N2)%F). { rewrite EH, EX, EY, EN. unfold k. field. repeat split; assumption. }
  assert (HE : E' = (m * k * ((I 1 + I 1) * U2))%F). { rewrite EE, EX, EY, EU. unfold k. field. repeat split; assumption. }
  assert (HG : G' = (n * k * C2)%F). { rewrite EG, EX, EY, EC. unfold k. field. repeat split; assumption. }
  assert (HF : F' = (n * k * M2)%F).
  { rewrite EF, EX, EY, EM, EN. unfold k.
    transitivity (n * W * W * ((I 1 + I 1) * (C * C) * (M * M) - nn * nn * (C * C) + four * u * u * (M * M)) / (C * C * (M * M)))%F; [field; split; assumption|].
    transitivity (n * W * W * ((I 1 + I 1) * (nn * nn) * (M * M) - four * u * u * (M * M) - C * C * (nn * nn)) / (C * C * (M * M)))%F; [|field; repeat split; assumption].
    f_equal. f_equal. rewrite cu. ring. }
  rewrite HE, HF, HG, HH. clear EE EF EG EH HE HF HG HH.
  split; [apply fnz; (apply fnz; [apply fnz; assumption|assumption])|].
  split; field; assumption.
Qed.
Lemma image_neg X Y W T Q : irep X Y W T Q -> irep (- X)%F Y W (- T)%F (opp Q).
Proof.
  intros (N & -> & -> & ->). pose proof (C_nz Q) as c. pose proof (M_nz Q) as mq. unfold irep, ix, iy. rewrite opp_u, opp_C, opp_N, opp_M.
  split; [exact N|]. split; [field; exact c|]. split; [reflexivity|]. field. split; assumption.
Qed.

(** ** In integers *)
Notation on := (on_curve p 1 d). Notation addp := (ed_add p 1 d).
Lemma Hs1 : 1 * 1 mod p = 1 mod p. Proof. reflexivity. Qed.
Lemma reps_iex X Y W T P : reps X Y W T (iso p P) -> on P -> exists Q, P = cds Q /\ irep (I X) (I Y) (I W) (I T) Q.
Proof. intros H K. destruct (cds_ex p P2 1 d 1 Hs1 P K) as [Q <-]. exists Q. split; [reflexivity|]. now apply reps_irep. Qed.
Lemma Ieq x y : x mod p = y mod p -> I x = I y. Proof. apply (inF_eq p P2). Qed.
Lemma Inz' x : x mod p <> 0 -> I x <> I 0. Proof. intros N E. apply N. now apply (inF_0 p P2). Qed.
Lemma cadd Q R : cds (add Q R) = addp (cds Q) (cds R).
Proof. exact (cds_add p Pp P2 1 d 1 Hs1 dns Q R). Qed.
Lemma iso_add m n X1 Y1 W1 T1 P X2 Y2 W2 T2 Q E' F' G' H' X3 Y3 W3 T3 :
  on P -> on Q -> reps X1 Y1 W1 T1 (iso p P) -> reps X2 Y2 W2 T2 (iso p Q) -> m mod p <> 0 -> n mod p <> 0 ->
  E' mod p = (m * (X1 * Y2 + X2 * Y1)) mod p -> G' mod p = (m * (W1 * W2 + (d - 1) * T1 * T2)) mod p ->
  F' mod p = (n * (W1 * W2 - (d - 1) * T1 * T2)) mod p -> H' mod p = (n * (Y1 * Y2 + X1 * X2)) mod p ->
  X3 mod p = (E' * F') mod p -> Y3 mod p = (G' * H') mod p -> W3 mod p = (F' * G') mod p -> T3 mod p = (E' * H') mod p ->
  reps X3 Y3 W3 T3 (iso p (addp P Q)).
Proof.
  intros HP HQ R1 R2 Nm Nn EE EG EF EH EX EY EW ET.
  destruct (reps_iex _ _ _ _ _ R1 HP) as (P' & -> & r1). destruct (reps_iex _ _ _ _ _ R2 HQ) as (Q' & -> & r2).
  rewrite <- cadd. apply reps_irep. apply Ieq in EE, EG, EF, EH, EX, EY, EW, ET. apply Inz' in Nm, Nn.
  rewrite EX, EY, EW, ET, !inF_mul.
  apply (image_core (I m) (I n) _ _ _ _ _ _ _ _ _ _ _ _ P' Q' Nm Nn r1 r2).
  - rewrite EE, !inF_mul, !inF_add, !inF_mul. reflexivity.
  - rewrite EG, !inF_mul, !inF_add, !inF_mul, !inF_sub. reflexivity.
  - rewrite EF, !inF_mul, !inF_sub, !inF_mul, !inF_sub. reflexivity.
  - rewrite EH, !inF_mul, !inF_add, !inF_mul. reflexivity.
Qed.
Lemma iso_dbl m n X1 Y1 W1 T1 P E' F' G' H' X3 Y3 W3 T3 :
  on P -> reps X1 Y1 W1 T1 (iso p P) -> m mod p <> 0 -> n mod p <> 0 ->
  E' mod p = (m * (2 * X1 * Y1)) mod p -> G' mod p = (m * (Y1 * Y1 - X1 * X1)) mod p ->
  F' mod p = (n * (2 * W1 * W1 - (Y1 * Y1 - X1 * X1))) mod p -> H' mod p = (n * (Y1 * Y1 + X1 * X1)) mod p ->
  X3 mod p = (E' * F') mod p -> Y3 mod p = (G' * H') mod p -> W3 mod p = (F' * G') mod p -> T3 mod p = (E' * H') mod p ->
  reps X3 Y3 W3 T3 (iso p (addp P P)).
Proof.
  intros HP R1 Nm Nn EE EG EF EH EX EY EW ET.
  destruct (reps_iex _ _ _ _ _ R1 HP) as (P' & -> & r1).
  rewrite <- cadd. apply reps_irep. apply Ieq in EE, EG, EF, EH, EX, EY, EW, ET. apply Inz' in Nm, Nn.
  rewrite EX, EY, EW, ET, !inF_mul.
  apply (image_dbl (I m) (I n) _ _ _ _ _ _ _ _ P' Nm Nn r1).
  - rewrite EE, !inF_mul, I2. reflexivity.
  - rewrite EG, !inF_mul, !inF_sub, !inF_mul. reflexivity.
  - rewrite EF, !inF_mul, !inF_sub, !inF_mul, I2. reflexivity.
  - rewrite EH, !inF_mul, !inF_add, !inF_mul. reflexivity.
Qed.
Lemma iso_back_ok m n X1 Y1 W1 T1 P E' F' G' H' X3 Y3 W3 :
  on P -> reps X1 Y1 W1 T1 (iso p P) -> m mod p <> 0 -> n mod p <> 0 ->
  E' mod p = (m * (2 * X1 * Y1)) mod p -> H' mod p = (m * (Y1 * Y1 + X1 * X1)) mod p ->
  G' mod p = (n * (Y1 * Y1 - X1 * X1)) mod p -> F' mod p = (n * (2 * W1 * W1 - (Y1 * Y1 - X1 * X1))) mod p ->
  X3 mod p = (E' * F') mod p -> Y3 mod p = (G' * H') mod p -> W3 mod p = (F' * H') mod p ->
  let R := addp (addp P P) (addp P P) in
  W3 mod p <> 0 /\ X3 mod p = (fst R * W3) mod p /\ Y3 mod p = (snd R * W3) mod p.
Proof.
  intros HP R1 Nm Nn EE EH EG EF EX EY EW.
  destruct (reps_iex _ _ _ _ _ R1 HP) as (P' & -> & r1). cbv zeta. rewrite <- !cadd.
  apply Ieq in EE, EG, EF, EH, EX, EY, EW. apply Inz' in Nm, Nn.
  destruct (back_core (I m) (I n) (I X1) (I Y1) (I W1) (I T1) (I E') (I F') (I G') (I H') P' Nm Nn r1) as (N & A & B).
  - rewrite EE, !inF_mul, I2. reflexivity.
  - rewrite EH, !inF_mul, !inF_add, !inF_mul. reflexivity.
  - rewrite EG, !inF_mul, !inF_sub, !inF_mul. reflexivity.
  - rewrite EF, !inF_mul, !inF_sub, !inF_mul, I2. reflexivity.
  - rewrite inF_mul in EX, EY, EW. rewrite <- EX, <- EW in A. rewrite <- EY, <- EW in B. rewrite <- EW in N.
    split; [intro Z; apply N; now apply (inF_0 p P2)|]. unfold EdPoint.cds. cbn [fst snd].
    split; apply (inF_eq p P2); rewrite inF_mul, (inF_toZ p P2); assumption.
Qed.
Lemma iso_neg P : on P -> iso p (ed_neg p P) = ed_neg p (iso p P).
Proof.
  intro H. destruct (cds_ex p P2 1 d 1 Hs1 P H) as [Q <-]. rewrite <- (cds_opp p Pp P2 d 1 Q). rewrite !iso_cds. unfold ed_neg. f_equal.
  - rewrite <- (toZ_inF p P2), inF_opp, (inF_toZ p P2). f_equal. unfold ix. rewrite opp_u, opp_C. pose proof (C_nz Q) as c. field. exact c.
  - unfold iy. rewrite opp_N, opp_M. reflexivity.
Qed.
(** From affine coordinates *)
Lemma iso_affine X Y W T x y : on (x, y) ->
  X mod p = (2 * x * y * (2 - (x * x + y * y))) mod p -> Y mod p = ((x * x + y * y) * (y * y - x * x)) mod p ->
  W mod p = ((y * y - x * x) * (2 - (x * x + y * y))) mod p -> T mod p = (2 * x * y * (x * x + y * y)) mod p ->
  reps X Y W T (iso p (x, y)).
Proof.
  intros H EX EY EW ET. destruct (cds_ex p P2 1 d 1 Hs1 (x, y) H) as [Q E]. rewrite <- E. apply reps_irep. injection E as Ex Ey.
  apply Ieq in EX, EY, EW, ET. rewrite EX, EY, EW, ET, !inF_mul, !inF_sub, !inF_add, !inF_mul, I2. rewrite <- Ex, <- Ey, !(inF_toZ p P2).
  pose proof (C_nz Q) as c. pose proof (M_nz Q) as mq. unfold irep, ix, iy.
  change (px F (I 1) fA fM (I 1) (I d) Q) with (xc Q). change (py F (I 1) fA fM (I 1) (I d) Q) with (yc Q).
  change (yc Q * yc Q - xc Q * xc Q)%F with (cC (xc Q) (yc Q)). change (I 1 + I 1 - (xc Q * xc Q + yc Q * yc Q))%F with (mM (xc Q) (yc Q)).
  change (xc Q * xc Q + yc Q * yc Q)%F with (nN (xc Q) (yc Q)).
  set (C := cC _ _) in *. set (M := mM _ _) in *. set (n := nN _ _). clearbody C M n. unfold iU.
  split; [apply fnz; assumption|]. split; [field; assumption|]. split; [field; assumption|]. field. split; assumption.
Qed.
End IsoBridge.
