(** RFC 7748's ladder computes u-coordinates of multiples of a point of the
    Edwards form of the curve or of its twist; Diffie-Hellman agreement for every
    u.  Mathematics only. *)
From Coq Require Import ZArith Znumtheory List Bool Lia Field.
From Verif Require Import EdwardsGroup AbGroup FpType SpecX.
Import ListNotations.
Open Scope Z_scope.

Section Curve.
Variable p : Z.
Hypothesis (Pp : prime p) (P2 : 2 < p).
Notation F := (Fp p). Notation I := (inF p P2).
Notation fA := (fp_add p P2). Notation fM := (fp_mul p P2). Notation fS := (fp_sub p P2). Notation fN := (fp_opp p P2).
Notation fD := (fp_div p P2). Notation fI := (fp_inv p P2).
Let Fth := fp_field p Pp P2.
Add Field Fpf : Fth.
Declare Scope fp_scope. Delimit Scope fp_scope with F.
Infix "+" := fA : fp_scope. Infix "*" := fM : fp_scope. Infix "-" := fS : fp_scope. Infix "/" := fD : fp_scope. Notation "- x" := (fN x) : fp_scope.
Let two := fp_two p P2.

(** ** From integers to the field *)
Definition pr (q : Z * Z * Z * Z * bool) : (F * F) * (F * F) :=
  let '(x2, z2, x3, z3, swap) := q in
  if swap then ((I x3, I z3), (I x2, I z2)) else ((I x2, I z2), (I x3, I z3)).
Lemma pr_step a24 k u q t : pr (rfc_step p a24 k u q t) =
  lstep (F * F) (mdbl F fA fM fS (I a24)) (mdadd F fA fM fS (I u)) (pr q) (Z.testbit k (Z.of_nat t)).
Proof.
  destruct q as [[[[x2 z2] x3] z3] sw]. unfold rfc_step, pr.
  destruct (Z.testbit k (Z.of_nat t)), sw; cbn [xorb cswap lstep mdbl mdadd]; rewrite !inF_mod, !Z.pow_2_r;
    rewrite ?inF_mul, ?inF_add, ?inF_sub, ?inF_mul, ?inF_add, ?inF_sub, ?inF_mul, ?inF_add, ?inF_sub;
    apply f_equal2; apply f_equal2; ring.
Qed.
Lemma pr_fold a24 k u ts : forall q, pr (fold_left (rfc_step p a24 k u) ts q) =
  fold_left (fun s t => lstep (F * F) (mdbl F fA fM fS (I a24)) (mdadd F fA fM fS (I u)) s (Z.testbit k (Z.of_nat t))) ts (pr q).
Proof. induction ts as [|t ts IH]; intro q; [reflexivity|]. cbn [fold_left]. now rewrite IH, pr_step. Qed.
Lemma ladder_pr a24 bits k u :
  let v := fst (pr (fold_left (rfc_step p a24 k u) (rev (seq 0 bits)) (1, 0, u, 1, false))) in
  I (rfc_ladder p a24 bits k u) = (fst v * fI (snd v))%F.
Proof.
  unfold rfc_ladder. destruct (fold_left _ _ _) as [[[[x2 z2] x3] z3] sw].
  destruct sw; cbn [cswap pr fst snd]; now rewrite inF_mod, inF_mul, inF_inv.
Qed.
Lemma rfc_range a24 bits k u : 0 <= rfc_ladder p a24 bits k u < p.
Proof.
  unfold rfc_ladder. destruct (fold_left _ _ _) as [[[[x2 z2] x3] z3] sw].
  destruct sw; cbn [cswap]; apply Z.mod_pos_bound; lia.
Qed.
Lemma I_ladder a24 bits k u : toZ p (I (rfc_ladder p a24 bits k u)) = rfc_ladder p a24 bits k u.
Proof. rewrite toZ_inF. apply Z.mod_small, rfc_range. Qed.

(** ** One curve *)
Section One.
Variables (s d : F).
Hypothesis (snz : s <> I 0) (dns : forall r, fM r r <> d).
Notation pt := (point F (I 1) fA fM s d).
Notation add := (padd F (I 0) (I 1) fA fM fS fN fD fI Fth (Fp_dec p) s d two dns).
Notation opp := (popp F (I 0) (I 1) fA fM fS fN fD fI Fth s d).
Notation OO := (EdwardsGroup.O F (I 0) (I 1) fA fM fS fN fD fI Fth s d).
Notation mul := (zmul pt OO add opp).
Notation ur := (urep F (I 0) (I 1) fA fM fS s d).
Notation yc := (py F (I 1) fA fM s d).
Notation xc := (px F (I 1) fA fM s d).
Lemma gA (P Q R : pt) : add (add P Q) R = add P (add Q R). Proof. apply padd_assoc. Qed.
Lemma gC (P Q : pt) : add P Q = add Q P. Proof. apply padd_comm. Qed.
Lemma gO (P : pt) : add P OO = P. Proof. apply padd_O. Qed.
Lemma gN (P : pt) : add P (opp P) = OO. Proof. apply padd_opp. Qed.
(** e = 1 for the curve itself, e = -1 when the ladder runs on the opposite of u *)
Variables (e : F) (a24 : Z).
Hypothesis He : (e * e = I 1)%F.
Definition R (v : F * F) (P : pt) : Prop := ur (fM e (fst v)) (snd v) P.
Hypothesis Rdbl : forall v P, R v P -> R (mdbl F fA fM fS (I a24) v) (add P P).
Lemma e_nz : e <> I 0.
Proof. intro E. apply (one_nz _ _ _ _ _ _ _ _ _ Fth). rewrite <- He, E. ring. Qed.
Lemma ur_scale k X Z P : k <> I 0 -> ur X Z P -> ur (fM k X) (fM k Z) P.
Proof.
  intros Nk (l & Nl & EX & EZ). exists (fM k l). split; [|split; [rewrite EX; ring|rewrite EZ; ring]].
  exact (fmul_nz _ _ _ _ _ _ _ _ _ Fth (Fp_dec p) _ _ Nk Nl).
Qed.
Lemma Rdadd u B : I u <> I 0 -> R (I u, I 1) B -> forall v w P Q, R v P -> R w Q -> add Q (opp P) = B -> R (mdadd F fA fM fS (I u) v w) (add P Q).
Proof.
  intros Nu HB [X2 Z2] [X3 Z3] P Q HP HQ HD. unfold R in *. cbn [fst snd mdadd] in *.
  assert (HB' : ur (fM e (I u)) (I 1) (add P (opp Q))).
  { replace (add P (opp Q)) with (opp B); [apply urep_opp; exact HB|].
    rewrite <- HD. rewrite (opp_add pt OO add opp gA gC gO gN), (opp_opp pt OO add opp gA gC gO gN). apply gC. }
  pose proof (mdadd_ok _ _ _ _ _ _ _ _ _ Fth (Fp_dec p) s d two dns (fM e (I u)) (fM e X2, Z2) (fM e X3, Z3) P Q
    (fmul_nz _ _ _ _ _ _ _ _ _ Fth (Fp_dec p) _ _ e_nz Nu) HB' HP HQ) as H.
  cbn [fst snd mdadd] in H. apply (ur_scale e _ _ _ e_nz) in H. revert H.
  assert (G : forall X Z X' Z', X = X' -> Z = Z' -> ur X Z (add P Q) -> ur X' Z' (add P Q)) by (intros ? ? ? ? -> ->; exact (fun x => x)).
  apply G.
  - transitivity (e * (e * e) * (((X3 - Z3) * (X2 + Z2) + (X3 + Z3) * (X2 - Z2)) * ((X3 - Z3) * (X2 + Z2) + (X3 + Z3) * (X2 - Z2))) + e * (I 1 - e * e) * ((I 1 + I 1) * Z3 * Z2 * ((I 1 + I 1) * Z3 * Z2) - e * e * ((I 1 + I 1) * X2 * X3 * ((I 1 + I 1) * X2 * X3))))%F; [ring|].
    rewrite He. ring.
  - transitivity (e * e * (I u * (((X3 - Z3) * (X2 + Z2) - (X3 + Z3) * (X2 - Z2)) * ((X3 - Z3) * (X2 + Z2) - (X3 + Z3) * (X2 - Z2)))) + e * e * (e * e - I 1) * I u * ((I 1 + I 1) * (X3 * Z2 - Z3 * X2) * ((I 1 + I 1) * (X3 * Z2 - Z3 * X2))))%F; [ring|].
    rewrite He. ring.
Qed.
(** u-coordinate, 0 for the neutral element *)
Definition uval (P : pt) : F := fM e (fM (fA (I 1) (yc P)) (fI (fS (I 1) (yc P)))).
Lemma uval_ur v P : R v P -> fM (fst v) (fI (snd v)) = uval P.
Proof.
  intros (l & Nl & EX & EZ). unfold uval. rewrite EZ.
  replace (fst v) with (fM e (fM l (fA (I 1) (yc P)))).
  2:{ rewrite <- EX. transitivity (fM (fM e e) (fst v)); [ring|]. rewrite He. ring. }
  destruct (Fp_dec p (fS (I 1) (yc P)) (I 0)) as [E|N].
  - rewrite E. replace (fM l (I 0)) with (I 0) by ring. rewrite fp_inv0. ring.
  - field. split; assumption.
Qed.
Lemma ladder_mul bits k u B : 0 <= k < 2 ^ Z.of_nat bits -> I u <> I 0 -> R (I u, I 1) B ->
  I (rfc_ladder p a24 bits k u) = uval (mul k B).
Proof.
  intros Hk Nu HB. rewrite ladder_pr. rewrite pr_fold. cbn [pr].
  destruct (ladder_ok pt OO add opp gA gC gO gN (F * F) R (mdbl F fA fM fS (I a24)) (mdadd F fA fM fS (I u)) B Rdbl (Rdadd u B Nu HB)
    bits k (proj1 Hk) ((I 1, I 0), (I u, I 1)) 0) as [H _].
  - cbn [fst]. rewrite zmul_0. unfold R. cbn [fst snd].
    replace (I 0) with (fM e (I 0)) at 2 by ring. apply ur_scale; [exact e_nz|].
    apply urep_O; exact Fth || exact two.
  - cbn [snd]. rewrite Z.add_0_l. rewrite (zmul_1 pt OO add opp gO). exact HB.
  - cbv zeta in H. rewrite Z.mul_0_l, Z.add_0_l, Z.mod_small in H by exact Hk. apply uval_ur. exact H.
Qed.
Lemma uval_nz P : uval P <> I 0 -> R (uval P, I 1) P.
Proof.
  intro N. assert (N1 : fS (I 1) (yc P) <> I 0).
  { intro E. apply N. unfold uval. rewrite E, fp_inv0. ring. }
  unfold R. cbn [fst snd]. apply (urep_base _ _ _ _ _ _ _ _ _ Fth); [exact two|]. unfold uval.
  transitivity (fM (fM e e) (fM (fA (I 1) (yc P)) (fM (fI (fS (I 1) (yc P))) (fS (I 1) (yc P))))); [ring|].
  rewrite He. field. exact N1.
Qed.
Lemma uval_0 P : uval P = I 0 -> add P P = OO.
Proof.
  intro E. assert (X : xc P = I 0 /\ fM (yc P) (yc P) = I 1).
  { assert (Y : fM (fA (I 1) (yc P)) (fS (I 1) (yc P)) = I 0).
    { destruct (Fp_dec p (fS (I 1) (yc P)) (I 0)) as [E'|N]; [rewrite E'; ring|].
      transitivity (fM (fM (uval P) e) (fM (fS (I 1) (yc P)) (fS (I 1) (yc P)))).
      - unfold uval. transitivity (fM (fM e e) (fM (fA (I 1) (yc P)) (fS (I 1) (yc P)))); [rewrite He; ring|]. field. exact N.
      - rewrite E. ring. }
    assert (Y2 : fM (yc P) (yc P) = I 1).
    { apply (fsub0 _ _ _ _ _ _ _ _ _ Fth). transitivity (fN (fM (fA (I 1) (yc P)) (fS (I 1) (yc P)))); [ring|]. rewrite Y. ring. }
    split; [|exact Y2].
    pose proof (on_e _ _ _ _ _ _ _ _ _ Fth s d _ _ (pon _ _ _ _ s d P)) as C.
    assert (C' : fM (fM (xc P) (xc P)) (fS (fM s s) d) = I 0).
    { transitivity (fM (fM (xc P) (xc P)) (fM s s) - fM (fM (xc P) (xc P)) (fM d (fM (yc P) (yc P))))%F; [rewrite Y2; ring|].
      rewrite <- C. transitivity (fS (fM (fM (xc P) (xc P)) (fM s s)) (fM (fM (xc P) (xc P)) (fM d (fM (yc P) (yc P)))) + (fM (yc P) (yc P) - I 1))%F; [rewrite Y2; ring|ring]. }
    destruct (fmul0 _ _ _ _ _ _ _ _ _ Fth (Fp_dec p) _ _ C') as [C2|C2].
    - exact (fsq0 _ _ _ _ _ _ _ _ _ Fth (Fp_dec p) _ C2).
    - exfalso. apply (dns s). apply (fsub0 _ _ _ _ _ _ _ _ _ Fth). exact C2. }
  destruct X as [X Y]. transitivity (add P (opp P)); [|apply gN]. f_equal.
  apply (point_eq _ _ _ _ (Fp_dec p)); [|reflexivity]. change (xc P = fN (xc P)). rewrite X. ring.
Qed.
(** Agreement for u on this curve. *)
Lemma agree_one bits k l u B : 0 <= k < 2 ^ Z.of_nat bits -> 0 <= l < 2 ^ Z.of_nat bits -> k mod 2 = 0 ->
  rfc_ladder p a24 bits k 0 = 0 -> I u <> I 0 -> R (I u, I 1) B ->
  I (rfc_ladder p a24 bits k (rfc_ladder p a24 bits l u)) = uval (mul (k * l) B).
Proof.
  intros Hk Hl K2 K0 Nu HB. pose proof (ladder_mul bits l u B Hl Nu HB) as E.
  rewrite (zmul_mul pt OO add opp gA gC gO gN).
  destruct (Fp_dec p (I (rfc_ladder p a24 bits l u)) (I 0)) as [E0|N0].
  - assert (Z0 : rfc_ladder p a24 bits l u = 0).
    { rewrite <- I_ladder, E0, toZ_inF. apply Z.mod_0_l. lia. }
    rewrite Z0, K0. rewrite E0 in E. symmetry in E. apply uval_0 in E.
    replace k with (k / 2 * 2) by (pose proof (Z.div_mod k 2); lia).
    rewrite (zmul_mul pt OO add opp gA gC gO gN), (zmul_2 pt OO add opp gA gC gO gN), E, (zmul_O pt OO add opp gA gC gO gN).
    unfold uval. change (yc OO) with (I 1). replace (fS (I 1) (I 1)) with (I 0) by ring. rewrite fp_inv0. ring.
  - apply ladder_mul; [exact Hk|exact N0|]. rewrite E in *. apply uval_nz. exact N0.
Qed.
End One.

(** ** Every u is on the curve or on its twist *)
Hypothesis root : forall x, x ^ ((p - 1) / 2) mod p = 1 -> exists r, r * r mod p = x mod p.
Variables (s d : F) (a24 : Z).
Hypothesis (snz : s <> I 0) (dns : forall r, fM r r <> d).
Hypothesis Hc : (I a24 * (s * s - d) = d)%F.
Lemma dnz : d <> I 0.
Proof. exact (d_nz _ _ _ _ _ _ _ _ _ Fth d dns). Qed.
Lemma fm_nz x y : x <> I 0 -> y <> I 0 -> fM x y <> I 0.
Proof. exact (fmul_nz _ _ _ _ _ _ _ _ _ Fth (Fp_dec p) x y). Qed.
Lemma dns' : forall r, fM r r <> fM (fM s s) d.
Proof.
  intros r E. apply (dns (fD r s)). transitivity (fD (fM r r) (fM s s)); [field; exact snz|]. rewrite E. field. exact snz.
Qed.
Lemma one_one : (I 1 * I 1 = I 1)%F. Proof. ring. Qed.
Lemma m1_m1 : (- I 1 * - I 1 = I 1)%F. Proof. ring. Qed.
Notation R1 := (R s d (I 1)).
Notation R2 := (R d (fM (fM s s) d) (- I 1)%F).
Lemma dbl1 v P : R1 v P -> R1 (mdbl F fA fM fS (I a24) v) (padd F (I 0) (I 1) fA fM fS fN fD fI Fth (Fp_dec p) s d two dns P P).
Proof.
  unfold R. intro H.
  assert (H' : urep F (I 0) (I 1) fA fM fS s d (fst v) (snd v) P) by (replace (fst v) with (fM (I 1) (fst v)) by ring; exact H).
  apply (mdbl_ok _ _ _ _ _ _ _ _ _ Fth (Fp_dec p) s d two snz dns (I a24) Hc) in H'.
  replace (fM (I 1) (fst (mdbl F fA fM fS (I a24) v))) with (fst (mdbl F fA fM fS (I a24) v)) by ring. exact H'.
Qed.
Lemma Hc' : fM (fN (fA (I a24) (I 1))) (fS (fM d d) (fM (fM s s) d)) = fM (fM s s) d.
Proof.
  transitivity (fM (fS (fA (fM (I a24) (fS (fM s s) d)) (fM s s)) d) d); [ring|]. rewrite Hc. ring.
Qed.
Lemma dbl2 v P : R2 v P -> R2 (mdbl F fA fM fS (I a24) v) (padd F (I 0) (I 1) fA fM fS fN fD fI Fth (Fp_dec p) d (fM (fM s s) d) two dns' P P).
Proof.
  destruct v as [X Z]. unfold R. cbn [fst snd]. intro H.
  pose proof (mdbl_ok _ _ _ _ _ _ _ _ _ Fth (Fp_dec p) d (fM (fM s s) d) two dnz dns' _ Hc' (fM (- I 1)%F X, Z) P H) as H'.
  cbn [mdbl fst snd] in *.
  assert (Nm : (- I 1)%F <> I 0).
  { intro E. apply (one_nz _ _ _ _ _ _ _ _ _ Fth). transitivity (fN (fN (I 1))); [ring|]. rewrite E. ring. }
  apply (ur_scale d (fM (fM s s) d) (- I 1)%F _ _ _ Nm) in H'. revert H'.
  match goal with |- urep _ _ _ _ _ _ _ _ ?A ?B ?C -> urep _ _ _ _ _ _ _ _ ?A' ?B' _ =>
    replace A' with A by ring; replace B' with B by ring end. exact (fun x => x).
Qed.
Lemma point_for u : I u <> I 0 ->
  (exists B, R1 (I u, I 1) B) \/ (exists B, R2 (I u, I 1) B).
Proof.
  intro Nu. destruct (Fp_dec p (fA (I u) (I 1)) (I 0)) as [M1|M1].
  - right. assert (H : on F (I 1) fA fM d (fM (fM s s) d) (fI d) (I 0)).
    { unfold on. field. exact dnz. }
    exists (mk _ _ _ _ _ _ _ _ H). unfold R. cbn [fst snd]. apply (urep_base _ _ _ _ _ _ _ _ _ Fth); [exact two|].
    unfold py; cbn [mk proj1_sig snd]. transitivity (fS (I 1) (fA (I u) (I 1)))%F; [ring|]. rewrite M1. ring.
  - set (y := fD (fS (I u) (I 1)) (fA (I u) (I 1))).
    pose proof (a_dy _ _ _ _ _ _ _ _ _ Fth (Fp_dec p) s d snz dns y) as NA.
    set (N := fD (fS (I 1) (fM y y)) (fS (fM s s) (fM (fM d y) y))).
    assert (EN : fM N (fS (fM s s) (fM (fM d y) y)) = fS (I 1) (fM y y)) by (unfold N; field; exact NA).
    destruct (square_or p Pp P2 root d N dns) as [[r Hr]|[r Hr]].
    + left. assert (H : on F (I 1) fA fM s d r y).
      { unfold on. apply (fsub0 _ _ _ _ _ _ _ _ _ Fth).
        transitivity (fM (fM r r) (fS (fM s s) (fM (fM d y) y)) - (I 1 - y * y))%F; [ring|]. rewrite Hr, EN. ring. }
      exists (mk _ _ _ _ _ _ _ _ H). unfold R. cbn [fst snd]. apply (urep_base _ _ _ _ _ _ _ _ _ Fth); [exact two|].
      unfold py; cbn [mk proj1_sig snd]. unfold y. field. exact M1.
    + destruct (Fp_dec p y (I 0)) as [Y0|Y0].
      * (* u = 1 is on the curve *)
        left. assert (H : on F (I 1) fA fM s d (fI s) (I 0)) by (unfold on; field; exact snz).
        exists (mk _ _ _ _ _ _ _ _ H). unfold R. cbn [fst snd]. apply (urep_base _ _ _ _ _ _ _ _ _ Fth); [exact two|].
        unfold py; cbn [mk proj1_sig snd].
        transitivity (I 1 + y * (I u + I 1))%F; [unfold y; field; exact M1|]. rewrite Y0. ring.
      * right. assert (H : on F (I 1) fA fM d (fM (fM s s) d) (fD r d) (fI y)).
        { unfold on. apply (fsub0 _ _ _ _ _ _ _ _ _ Fth).
          transitivity (((fM r r) * (d * y * y - s * s) / d + I 1 - y * y) / (y * y))%F; [field; split; [exact dnz|exact Y0]|].
          rewrite Hr. transitivity ((I 1 - y * y - N * (s * s - d * y * y)) / (y * y))%F; [field; split; [exact Y0|exact dnz]|].
          rewrite EN. field. exact Y0. }
        exists (mk _ _ _ _ _ _ _ _ H). unfold R. cbn [fst snd]. apply (urep_base _ _ _ _ _ _ _ _ _ Fth); [exact two|].
        unfold py; cbn [mk proj1_sig snd].
        assert (Eu : fM y (fA (I u) (I 1)) = fS (I u) (I 1)) by (unfold y; field; exact M1).
        apply (fsub0 _ _ _ _ _ _ _ _ _ Fth). transitivity (- (y * (I u + I 1) - (I u - I 1)) / y)%F; [field; exact Y0|].
        rewrite Eu. field. exact Y0.
Qed.
Lemma ladder_agree bits k l u : 0 <= k < 2 ^ Z.of_nat bits -> 0 <= l < 2 ^ Z.of_nat bits -> k mod 2 = 0 -> l mod 2 = 0 ->
  (forall u, u mod p = 0 -> rfc_ladder p a24 bits k u = 0) -> (forall u, u mod p = 0 -> rfc_ladder p a24 bits l u = 0) ->
  rfc_ladder p a24 bits k (rfc_ladder p a24 bits l u) = rfc_ladder p a24 bits l (rfc_ladder p a24 bits k u).
Proof.
  intros Hk Hl K2 L2 K0 L0.
  assert (Z0 : 0 mod p = 0) by (apply Z.mod_0_l; lia).
  destruct (Z.eq_dec (u mod p) 0) as [U0|U0].
  - now rewrite (K0 u U0), (L0 u U0), (K0 0 Z0), (L0 0 Z0).
  - assert (Nu : I u <> I 0) by (intro E; apply U0, (inF_0 p P2), E).
    rewrite <- (I_ladder a24 bits k), <- (I_ladder a24 bits l (rfc_ladder p a24 bits k u)). f_equal.
    destruct (point_for u Nu) as [[B HB]|[B HB]].
    + rewrite (agree_one s d dns (I 1) a24 one_one dbl1 bits k l u B), (agree_one s d dns (I 1) a24 one_one dbl1 bits l k u B); auto.
      f_equal. f_equal. apply Z.mul_comm.
    + rewrite (agree_one d (fM (fM s s) d) dns' (- I 1)%F a24 m1_m1 dbl2 bits k l u B), (agree_one d (fM (fM s s) d) dns' (- I 1)%F a24 m1_m1 dbl2 bits l k u B); auto.
      f_equal. f_equal. apply Z.mul_comm.
Qed.
End Curve.
