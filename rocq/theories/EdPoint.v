(** The curves of SpecEd.v are groups, and the extended-coordinate formulas compute
    in them.  Mathematics only: nothing here refers to the code. *)
From Coq Require Import ZArith Znumtheory Zpow_facts List Bool Lia Field.
From Verif Require Import EdwardsGroup AbGroup FpType SpecEd.
Import ListNotations.
Open Scope Z_scope.

Section Bridge.
Variable p : Z.
Hypothesis Pp : prime p.
Hypothesis P2 : 2 < p.
Notation F := (Fp p). Notation I := (inF p P2).
Notation fA := (fp_add p P2). Notation fM := (fp_mul p P2). Notation fS := (fp_sub p P2). Notation fN := (fp_opp p P2).
Notation fD := (fp_div p P2). Notation fI := (fp_inv p P2).
Let Fth := fp_field p Pp P2.
Add Field Fpf : Fth.
Declare Scope fq_scope. Delimit Scope fq_scope with F.
Infix "+" := fA : fq_scope. Infix "*" := fM : fq_scope. Infix "-" := fS : fq_scope. Infix "/" := fD : fq_scope. Notation "- x" := (fN x) : fq_scope.
Let two := fp_two p P2.
Variables (a d s : Z).
Hypothesis Hs : s * s mod p = a mod p.
Hypothesis dns : forall r, fM r r <> I d.
Notation pt := (point F (I 1) fA fM (I s) (I d)).
Notation add := (padd F (I 0) (I 1) fA fM fS fN fD fI Fth (Fp_dec p) (I s) (I d) two dns).
Notation opp := (popp F (I 0) (I 1) fA fM fS fN fD fI Fth (I s) (I d)).
Notation OO := (EdwardsGroup.O F (I 0) (I 1) fA fM fS fN fD fI Fth (I s) (I d)).
Notation mul := (zmul pt OO add opp).
Notation yc := (py F (I 1) fA fM (I s) (I d)).
Notation xc := (px F (I 1) fA fM (I s) (I d)).
Notation dX := (dx F (I 1) fA fM (I d)).
Notation dY := (dy F (I 1) fM fS (I d)).
Notation nX := (nx F fA fM).
Notation nY := (ny F fM fS (I s)).
Lemma gA (P Q R : pt) : add (add P Q) R = add P (add Q R). Proof. apply padd_assoc. Qed.
Lemma gC (P Q : pt) : add P Q = add Q P. Proof. apply padd_comm. Qed.
Lemma gO (P : pt) : add P OO = P. Proof. apply padd_O. Qed.
Lemma gN (P : pt) : add P (opp P) = OO. Proof. apply padd_opp. Qed.

(** The pair of integers of a point. *)
Definition cds (Q : pt) : Z * Z := (toZ p (xc Q), toZ p (yc Q)).
Lemma Isa : (I s * I s)%F = I a.
Proof. rewrite <- inF_mul. now apply inF_eq. Qed.
Lemma cds_on Q : on_curve p a d (cds Q).
Proof.
  unfold on_curve, cds. split; [apply (toZ_range p P2)|]. split; [apply (toZ_range p P2)|].
  apply (inF_eq p P2). rewrite !inF_add, !inF_mul, !(inF_toZ p P2). rewrite <- Isa. exact (pon F (I 1) fA fM (I s) (I d) Q).
Qed.
Lemma cds_ex P : on_curve p a d P -> exists Q : pt, cds Q = P.
Proof.
  destruct P as [x y]. intros (Hx & Hy & E). apply (inF_eq p P2) in E. rewrite !inF_add, !inF_mul in E. rewrite <- Isa in E.
  exists (mk F (I 1) fA fM (I s) (I d) (I x) (I y) E). unfold cds. cbn [px py mk fst snd proj1_sig].
  change (toZ p (inF p P2 x), toZ p (inF p P2 y)) with (x mod p, y mod p). now rewrite !Z.mod_small.
Qed.
Lemma cds_inj Q R : cds Q = cds R -> Q = R.
Proof.
  unfold cds. intro E. injection E as Ex Ey. apply (toZ_inj p) in Ex, Ey.
  apply (point_eq F (I 1) fA fM (Fp_dec p) (I s) (I d)); assumption.
Qed.
Lemma I_inv z : I (inv_mod p z) = fI (I z).
Proof. unfold inv_mod. rewrite Zpow_mod_correct by lia. rewrite inF_mod. apply inF_inv. Qed.
Lemma toZ_mod_I z : toZ p (I z) = z mod p. Proof. reflexivity. Qed.
Lemma cds_add Q R : cds (add Q R) = ed_add p a d (cds Q) (cds R).
Proof.
  unfold ed_add, cds. rewrite <- !toZ_mod_I. f_equal; f_equal.
  - rewrite inF_mul, I_inv, !inF_add, !inF_mul, !(inF_toZ p P2). reflexivity.
  - rewrite inF_mul, I_inv, !inF_sub, !inF_mul, !(inF_toZ p P2). rewrite <- Isa. reflexivity.
Qed.
Lemma cds_opp Q : cds (opp Q) = ed_neg p (cds Q).
Proof. unfold ed_neg, cds. rewrite <- toZ_mod_I. rewrite inF_opp, (inF_toZ p P2). reflexivity. Qed.
Lemma cds_O : cds OO = ed_zero.
Proof. unfold cds, ed_zero. cbn [px py EdwardsGroup.O mk fst snd proj1_sig]. change (toZ p (inF p P2 0), toZ p (inF p P2 1)) with (0 mod p, 1 mod p). rewrite Z.mod_0_l, Z.mod_1_l by lia. reflexivity. Qed.
Lemma iter_add n : forall Q, cds (nmul pt OO add (Pos.to_nat n) Q) = Pos.iter_op (ed_add p a d) n (cds Q).
Proof.
  induction n as [n IH|n IH|]; intro Q; cbn [Pos.iter_op].
  - rewrite Pos2Nat.inj_xI. cbn [nmul]. rewrite cds_add. f_equal. rewrite Nat.mul_comm, (nmul_mul pt OO add gA gC gO).
    cbn [nmul]. rewrite gO. rewrite IH, cds_add. reflexivity.
  - rewrite Pos2Nat.inj_xO. rewrite Nat.mul_comm, (nmul_mul pt OO add gA gC gO).
    cbn [nmul]. rewrite gO. rewrite IH, cds_add. reflexivity.
  - rewrite Pos2Nat.inj_1. cbn [nmul]. now rewrite gO.
Qed.
Lemma cds_mul k Q : cds (mul k Q) = ed_mul p a d k (cds Q).
Proof.
  destruct k as [|n|n].
  - apply cds_O.
  - unfold zmul. cbn [Z.ltb Z.compare]. rewrite Z2Nat.inj_pos. apply iter_add.
  - unfold zmul. cbn [Z.ltb Z.compare Z.opp]. rewrite Z2Nat.inj_pos. cbn [ed_mul].
    rewrite <- (nmul_opp pt OO add opp gA gC gO gN), iter_add, cds_opp. reflexivity.
Qed.

(** ** The group laws for pairs of integers *)
Notation on := (on_curve p a d).
Lemma ed_add_on P Q : on P -> on Q -> on (ed_add p a d P Q).
Proof. intros H K. destruct (cds_ex P H) as [P' <-], (cds_ex Q K) as [Q' <-]. rewrite <- cds_add. apply cds_on. Qed.
Lemma ed_neg_on P : on P -> on (ed_neg p P).
Proof. intros H. destruct (cds_ex P H) as [P' <-]. rewrite <- cds_opp. apply cds_on. Qed.
Lemma ed_zero_on : on ed_zero. Proof. rewrite <- cds_O. apply cds_on. Qed.
Lemma ed_mul_on k P : on P -> on (ed_mul p a d k P).
Proof. intros H. destruct (cds_ex P H) as [P' <-]. rewrite <- cds_mul. apply cds_on. Qed.
Lemma ed_add_comm P Q : on P -> on Q -> ed_add p a d P Q = ed_add p a d Q P.
Proof. intros H K. destruct (cds_ex P H) as [P' <-], (cds_ex Q K) as [Q' <-]. rewrite <- !cds_add. now rewrite gC. Qed.
Lemma ed_add_assoc P Q R : on P -> on Q -> on R -> ed_add p a d (ed_add p a d P Q) R = ed_add p a d P (ed_add p a d Q R).
Proof. intros H K L. destruct (cds_ex P H) as [P' <-], (cds_ex Q K) as [Q' <-], (cds_ex R L) as [R' <-]. rewrite <- !cds_add. now rewrite gA. Qed.
Lemma ed_add_zero P : on P -> ed_add p a d P ed_zero = P.
Proof. intros H. destruct (cds_ex P H) as [P' <-]. rewrite <- cds_O, <- cds_add. now rewrite gO. Qed.
Lemma ed_add_neg P : on P -> ed_add p a d P (ed_neg p P) = ed_zero.
Proof. intros H. destruct (cds_ex P H) as [P' <-]. rewrite <- cds_opp, <- cds_add, <- cds_O. now rewrite gN. Qed.
Lemma ed_neg_mul k P : on P -> ed_neg p (ed_mul p a d k P) = ed_mul p a d (- k) P.
Proof. intros H. destruct (cds_ex P H) as [P' <-]. rewrite <- !cds_mul, <- cds_opp. now rewrite (zmul_opp pt OO add opp gA gC gO gN). Qed.
Lemma ed_mul_add j k P : on P -> ed_mul p a d (j + k) P = ed_add p a d (ed_mul p a d j P) (ed_mul p a d k P).
Proof. intros H. destruct (cds_ex P H) as [P' <-]. rewrite <- !cds_mul, <- cds_add. now rewrite (zmul_add pt OO add opp gA gC gO gN). Qed.
Lemma ed_mul_mul j k P : on P -> ed_mul p a d (j * k) P = ed_mul p a d j (ed_mul p a d k P).
Proof. intros H. destruct (cds_ex P H) as [P' <-]. rewrite <- !cds_mul. now rewrite (zmul_mul pt OO add opp gA gC gO gN). Qed.
Lemma ed_mul_padd k P Q : on P -> on Q -> ed_mul p a d k (ed_add p a d P Q) = ed_add p a d (ed_mul p a d k P) (ed_mul p a d k Q).
Proof. intros H K. destruct (cds_ex P H) as [P' <-], (cds_ex Q K) as [Q' <-]. rewrite <- cds_add, <- !cds_mul, <- cds_add. now rewrite (zmul_padd pt OO add opp gA gC gO gN). Qed.
Lemma ed_mul_neg k P : on P -> ed_mul p a d k (ed_neg p P) = ed_neg p (ed_mul p a d k P).
Proof. intros H. destruct (cds_ex P H) as [P' <-]. rewrite <- cds_opp, <- !cds_mul, <- cds_opp. now rewrite (zmul_oppP pt OO add opp gA gC gO gN). Qed.
Lemma ed_mul_1 P : ed_mul p a d 1 P = P. Proof. reflexivity. Qed.
Lemma ed_mul_2 P : ed_mul p a d 2 P = ed_add p a d P P. Proof. reflexivity. Qed.
Lemma ed_mul_mod n k P : on P -> 0 < n -> ed_mul p a d n P = ed_zero -> ed_mul p a d (k mod n) P = ed_mul p a d k P.
Proof.
  intros H Hn E. destruct (cds_ex P H) as [P' <-]. rewrite <- cds_mul, <- cds_O in E. apply cds_inj in E.
  rewrite <- !cds_mul. now rewrite (zmul_mod pt OO add opp gA gC gO gN n k P' Hn E).
Qed.
Lemma ed_add_cancel P Q R : on P -> on Q -> on R -> ed_add p a d P Q = ed_add p a d P R -> Q = R.
Proof.
  intros H K L E. destruct (cds_ex P H) as [P' <-], (cds_ex Q K) as [Q' <-], (cds_ex R L) as [R' <-].
  rewrite <- !cds_add in E. apply cds_inj in E. f_equal. exact (add_cancel pt OO add opp gA gC gO gN P' Q' R' E).
Qed.

(** ** Extended coordinates *)
Notation reps := (represents p).
Lemma fnz x y : x <> I 0 -> y <> I 0 -> (x * y)%F <> I 0.
Proof. apply (fmul_nz F (I 0) (I 1) fA fM fS fN fD fI Fth (Fp_dec p)). Qed.
Definition prep (X Y W T : F) (Q : pt) : Prop := W <> I 0 /\ X = (xc Q * W)%F /\ Y = (yc Q * W)%F /\ T = (xc Q * yc Q * W)%F.
Lemma reps_prep X Y W T Q : reps X Y W T (cds Q) <-> prep (I X) (I Y) (I W) (I T) Q.
Proof.
  unfold represents, prep, cds.
  assert (E0 : W mod p <> 0 <-> I W <> I 0) by (split; intros N E; apply N; apply (inF_0 p P2); exact E).
  assert (EX : X mod p = (toZ p (xc Q) * W) mod p <-> I X = (xc Q * I W)%F).
  { rewrite <- (inF_eq p P2), inF_mul, (inF_toZ p P2). reflexivity. }
  assert (EY : Y mod p = (toZ p (yc Q) * W) mod p <-> I Y = (yc Q * I W)%F).
  { rewrite <- (inF_eq p P2), inF_mul, (inF_toZ p P2). reflexivity. }
  assert (ET : T mod p = (toZ p (xc Q) * toZ p (yc Q) * W) mod p <-> I T = (xc Q * yc Q * I W)%F).
  { rewrite <- (inF_eq p P2), !inF_mul, !(inF_toZ p P2). reflexivity. }
  rewrite E0, EX, EY, ET. reflexivity.
Qed.
(** E F G H of the addition, up to two factors *)
Lemma core m n E' F' G' H' Q R : m <> I 0 -> n <> I 0 ->
  E' = (m * nX (xc Q) (yc Q) (xc R) (yc R))%F -> G' = (m * dX (xc Q) (yc Q) (xc R) (yc R))%F ->
  F' = (n * dY (xc Q) (yc Q) (xc R) (yc R))%F -> H' = (n * nY (xc Q) (yc Q) (xc R) (yc R))%F ->
  prep (E' * F')%F (G' * H')%F (F' * G')%F (E' * H')%F (add Q R).
Proof.
  intros Hm Hn -> -> -> ->.
  pose proof (px_add F (I 0) (I 1) fA fM fS fN fD fI Fth (Fp_dec p) (I s) (I d) two dns Q R) as Ex.
  pose proof (py_add F (I 0) (I 1) fA fM fS fN fD fI Fth (Fp_dec p) (I s) (I d) two dns Q R) as Ey.
  rewrite <- Ex, <- Ey. unfold prep.
  pose proof (dx_nz F (I 0) (I 1) fA fM fS fN fD fI Fth (Fp_dec p) (I s) (I d) two dns _ _ _ _ (pon _ _ _ _ _ _ Q) (pon _ _ _ _ _ _ R)) as Nx.
  pose proof (dy_nz F (I 0) (I 1) fA fM fS fN fD fI Fth (Fp_dec p) (I s) (I d) two dns _ _ _ _ (pon _ _ _ _ _ _ Q) (pon _ _ _ _ _ _ R)) as Ny.
  set (x3 := xc (add Q R)). set (y3 := yc (add Q R)).
  change (px F (I 1) fA fM (I s) (I d) (add Q R)) with x3. change (py F (I 1) fA fM (I s) (I d) (add Q R)) with y3.
  clearbody x3 y3.
  set (u := dX _ _ _ _) in *. set (v := dY _ _ _ _) in *. clearbody u v.
  split; [apply fnz; apply fnz; assumption|]. split; [ring|]. split; [ring|ring].
Qed.
Lemma reps_ex X Y W T P : reps X Y W T P -> on P -> exists Q, P = cds Q /\ prep (I X) (I Y) (I W) (I T) Q.
Proof. intros H K. destruct (cds_ex P K) as [Q <-]. exists Q. split; [reflexivity|]. now apply reps_prep. Qed.
Lemma Imod_eq x y : x mod p = y mod p -> I x = I y. Proof. apply (inF_eq p P2). Qed.
Lemma Inz x : x mod p <> 0 -> I x <> I 0. Proof. intros N E. apply N. now apply (inF_0 p P2). Qed.

(** Addition: whatever computes multiples of the four numerators and denominators and then
    forms the four products adds the points. *)
Lemma reps_add m n X1 Y1 W1 T1 P X2 Y2 W2 T2 Q E' F' G' H' X3 Y3 W3 T3 :
  on P -> on Q -> reps X1 Y1 W1 T1 P -> reps X2 Y2 W2 T2 Q -> m mod p <> 0 -> n mod p <> 0 ->
  E' mod p = (m * (X1 * Y2 + X2 * Y1)) mod p -> G' mod p = (m * (W1 * W2 + d * T1 * T2)) mod p ->
  F' mod p = (n * (W1 * W2 - d * T1 * T2)) mod p -> H' mod p = (n * (Y1 * Y2 - a * X1 * X2)) mod p ->
  X3 mod p = (E' * F') mod p -> Y3 mod p = (G' * H') mod p -> W3 mod p = (F' * G') mod p -> T3 mod p = (E' * H') mod p ->
  reps X3 Y3 W3 T3 (ed_add p a d P Q).
Proof.
  intros HP HQ R1 R2 Nm Nn EE EG EF EH EX EY EW ET.
  destruct (reps_ex _ _ _ _ _ R1 HP) as (P' & -> & N1 & x1 & y1 & t1).
  destruct (reps_ex _ _ _ _ _ R2 HQ) as (Q' & -> & N2 & x2 & y2 & t2).
  rewrite <- cds_add. apply reps_prep.
  apply Imod_eq in EE, EG, EF, EH, EX, EY, EW, ET. apply Inz in Nm, Nn.
  rewrite EX, EY, EW, ET, !inF_mul.
  apply (core (I m * I W1 * I W2)%F (I n * I W1 * I W2)%F); [apply fnz; [apply fnz|]; assumption|apply fnz; [apply fnz|]; assumption| | | |].
  - rewrite EE, !inF_mul, !inF_add, !inF_mul, x1, x2, y1, y2. unfold nx. ring.
  - rewrite EG, !inF_mul, !inF_add, !inF_mul, t1, t2. unfold dx. ring.
  - rewrite EF, !inF_mul, !inF_sub, !inF_mul, t1, t2. unfold dy. ring.
  - rewrite EH, !inF_mul, !inF_sub, !inF_mul, x1, x2, y1, y2, <- Isa. unfold ny. ring.
Qed.

(** Doubling; the third product coordinate of the argument is not used. *)
Lemma reps_dbl m n X1 Y1 W1 T1 P E' F' G' H' X3 Y3 W3 T3 :
  on P -> reps X1 Y1 W1 T1 P -> m mod p <> 0 -> n mod p <> 0 ->
  E' mod p = (m * (2 * X1 * Y1)) mod p -> G' mod p = (m * (Y1 * Y1 + a * X1 * X1)) mod p ->
  F' mod p = (n * (2 * W1 * W1 - (Y1 * Y1 + a * X1 * X1))) mod p -> H' mod p = (n * (Y1 * Y1 - a * X1 * X1)) mod p ->
  X3 mod p = (E' * F') mod p -> Y3 mod p = (G' * H') mod p -> W3 mod p = (F' * G') mod p -> T3 mod p = (E' * H') mod p ->
  reps X3 Y3 W3 T3 (ed_add p a d P P).
Proof.
  intros HP R1 Nm Nn EE EG EF EH EX EY EW ET.
  destruct (reps_ex _ _ _ _ _ R1 HP) as (P' & -> & N1 & x1 & y1 & t1).
  rewrite <- cds_add. apply reps_prep.
  apply Imod_eq in EE, EG, EF, EH, EX, EY, EW, ET. apply Inz in Nm, Nn.
  rewrite EX, EY, EW, ET, !inF_mul.
  pose proof (pon F (I 1) fA fM (I s) (I d) P') as Ho. unfold EdwardsGroup.on in Ho.
  change (px F (I 1) fA fM (I s) (I d) P') with (xc P') in *. change (py F (I 1) fA fM (I s) (I d) P') with (yc P') in *.
  set (x := xc P') in *. set (y := yc P') in *.
  assert (I2 : I 2 = (I 1 + I 1)%F) by (rewrite <- inF_add; reflexivity).
  assert (Hg : (I Y1 * I Y1 + I a * I X1 * I X1)%F = (I W1 * I W1 * (I 1 + I d * x * x * y * y))%F).
  { rewrite <- Ho, x1, y1, <- Isa. ring. }
  apply (core (I m * I W1 * I W1)%F (I n * I W1 * I W1)%F); [apply fnz; [apply fnz|]; assumption|apply fnz; [apply fnz|]; assumption| | | |].
  - rewrite EE, !inF_mul, I2, x1, y1. unfold nx. fold x y. ring.
  - rewrite EG, !inF_mul, !inF_add, !inF_mul, Hg. unfold dx. fold x y. ring.
  - rewrite EF, !inF_mul, !inF_sub, !inF_add, !inF_mul, Hg, I2. unfold dy. fold x y. ring.
  - rewrite EH, !inF_mul, !inF_sub, !inF_mul, x1, y1, <- Isa. unfold ny. fold x y. ring.
Qed.

(** Changing the representative. *)
Lemma reps_eqm X Y W T X' Y' W' T' P : X mod p = X' mod p -> Y mod p = Y' mod p -> W mod p = W' mod p -> T mod p = T' mod p ->
  reps X Y W T P -> reps X' Y' W' T' P.
Proof.
  destruct P as [x y]. intros EX EY EW ET (N & A & B & C). unfold represents. rewrite <- EX, <- EY, <- ET, <- EW.
  rewrite <- (Zmult_mod_idemp_r W' x), <- EW, Zmult_mod_idemp_r.
  rewrite <- (Zmult_mod_idemp_r W' y), <- EW, Zmult_mod_idemp_r.
  rewrite <- (Zmult_mod_idemp_r W' (x * y)), <- EW, Zmult_mod_idemp_r. now split.
Qed.
Lemma reps_scale c X Y W T P : c mod p <> 0 -> reps X Y W T P -> reps (c * X) (c * Y) (c * W) (c * T) P.
Proof.
  destruct P as [x y]. intros Nc (N & A & B & C). unfold represents.
  split. { intro E. apply Inz in Nc, N. apply (fnz _ _ Nc N). rewrite <- inF_mul. now apply (inF_0 p P2). }
  split; [|split].
  - rewrite Zmult_mod, A, <- Zmult_mod. f_equal. ring.
  - rewrite Zmult_mod, B, <- Zmult_mod. f_equal. ring.
  - rewrite Zmult_mod, C, <- Zmult_mod. f_equal. ring.
Qed.
Lemma reps_neg X Y W T P : reps X Y W T P -> reps (- X) Y W (- T) (ed_neg p P).
Proof.
  destruct P as [x y]. intros (N & A & B & C). unfold represents, ed_neg. split; [exact N|]. split; [|split; [exact B|]].
  - rewrite Zmult_mod_idemp_l. replace (- X) with ((-1) * X) by ring. rewrite Zmult_mod, A, <- Zmult_mod. f_equal. ring.
  - replace ((- x) mod p * y * W) with ((- x) mod p * (y * W)) by ring. rewrite Zmult_mod_idemp_l.
    replace (- T) with ((-1) * T) by ring. rewrite Zmult_mod, C, <- Zmult_mod. f_equal. ring.
Qed.
(** A representation determines its point. *)
Lemma reps_fun X Y W T P Q : on P -> on Q -> reps X Y W T P -> reps X Y W T Q -> P = Q.
Proof.
  intros HP HQ R1 R2.
  destruct (reps_ex _ _ _ _ _ R1 HP) as (P' & -> & N1 & x1 & y1 & t1).
  destruct (reps_ex _ _ _ _ _ R2 HQ) as (Q' & -> & N2 & x2 & y2 & t2). f_equal.
  apply (point_eq F (I 1) fA fM (Fp_dec p) (I s) (I d)).
  - change (xc P' = xc Q'). rewrite x1 in x2. transitivity ((xc P' * I W) / I W)%F; [field; exact N1|rewrite x2; field; exact N1].
  - change (yc P' = yc Q'). rewrite y1 in y2. transitivity ((yc P' * I W) / I W)%F; [field; exact N1|rewrite y2; field; exact N1].
Qed.
(** Affine coordinates by a division. *)
Lemma reps_affine X Y W T P : on P -> reps X Y W T P -> P = ((X * inv_mod p W) mod p, (Y * inv_mod p W) mod p).
Proof.
  intros HP R1. destruct (reps_ex _ _ _ _ _ R1 HP) as (P' & -> & N1 & x1 & y1 & t1).
  unfold cds. f_equal; rewrite <- toZ_mod_I; f_equal; rewrite inF_mul, I_inv; [rewrite x1|rewrite y1]; field; exact N1.
Qed.
Lemma reps_intro P : reps (fst P) (snd P) 1 (fst P * snd P) P.
Proof. destruct P as [x y]. unfold represents. cbn [fst snd]. rewrite !Z.mul_1_r, Z.mod_1_l by lia. split; [lia|]. split; [reflexivity|]. split; reflexivity. Qed.
End Bridge.
