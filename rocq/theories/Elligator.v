(** Elligator 2 over a field with p = 5 mod 8, as straight-line code: the square-root candidates and the
    selection of the branch; and the rational map to the twisted Edwards curve.  Mathematics only. *)
From Coq Require Import ZArith Znumtheory Bool Lia Field.
From Verif Require Import Primality FpType FullMore.
Open Scope Z_scope.

Section Ell.
Variable p e i : Z.
Hypothesis Pp : prime p.
Hypothesis P2 : 2 < p.
Hypothesis He : 0 <= e.
Hypothesis Pe : p = 8 * e + 5.
Hypothesis Hi : i * i mod p = p - 1.
Notation F := (Fp p). Notation I := (inF p P2).
Notation fA := (fp_add p P2). Notation fM := (fp_mul p P2). Notation fS := (fp_sub p P2). Notation fN := (fp_opp p P2).
Notation fD := (fp_div p P2). Notation fI := (fp_inv p P2).
Let Fth := fp_field p Pp P2.
Add Field Fpl : Fth.
Declare Scope fl_scope. Delimit Scope fl_scope with F. Bind Scope fl_scope with Fp.
Infix "+" := fA : fl_scope. Infix "*" := fM : fl_scope. Infix "-" := fS : fl_scope. Infix "/" := fD : fl_scope. Notation "- x" := (fN x) : fl_scope.

Lemma ll_two : (I 1 + I 1)%F <> I 0. Proof. exact (fp_two p P2). Qed.
Lemma ll_nz x y : x <> I 0 -> y <> I 0 -> (x * y)%F <> I 0.
Proof.
  intros X Y E. apply Y. transitivity (fI x * (x * y))%F; [field; exact X|]. rewrite E. ring.
Qed.
Lemma ll_zero x y : (x * y)%F = I 0 -> x = I 0 \/ y = I 0.
Proof.
  intros E. destruct (Fp_dec p x (I 0)) as [X|X]; [left; exact X|right].
  destruct (Fp_dec p y (I 0)) as [Y|Y]; [exact Y|]. exfalso. exact (ll_nz x y X Y E).
Qed.
Lemma ll_sub0 x y : (x - y)%F = I 0 -> x = y.
Proof. intro E. transitivity (x - y + y)%F; [ring|]. rewrite E. ring. Qed.
Lemma ll_cancel c x y : c <> I 0 -> (x * c)%F = (y * c)%F -> x = y.
Proof.
  intros C E. apply ll_sub0. destruct (ll_zero (x - y) c) as [H|H]; [|exact H|contradiction].
  transitivity (x * c - y * c)%F; [ring|]. rewrite E. ring.
Qed.
Lemma ll_opp x : (- x)%F = x -> x = I 0.
Proof.
  intros E. destruct (ll_zero (I 1 + I 1) x) as [H|H]; [|exfalso; exact (ll_two H)|exact H].
  transitivity (x - - x)%F; [ring|]. rewrite E. ring.
Qed.
Lemma ll_i : (I i * I i)%F = (- I 1)%F.
Proof. rewrite <- inF_mul, <- inF_opp. apply inF_eq. rewrite Hi. rewrite <- (Z.mod_small (p - 1) p) by lia. replace (p - 1) with (-1 + 1 * p) by ring. rewrite Z.mod_add by lia. reflexivity. Qed.
Lemma ll_1 : I 1 <> I 0.
Proof. intro E. apply ll_two. rewrite E. ring. Qed.
Lemma ll_i_nz : I i <> I 0.
Proof.
  intro E. pose proof ll_i as H. rewrite E in H. apply ll_1. apply ll_sub0. transitivity (- - I 1)%F; [ring|]. rewrite <- H. ring.
Qed.
Lemma ll_sq x y : (x * x)%F = (y * y)%F -> x = y \/ x = (- y)%F.
Proof.
  intro E. destruct (ll_zero (x - y) (x + y)) as [H|H].
  - transitivity (x * x - y * y)%F; [ring|]. rewrite E. ring.
  - left. apply ll_sub0. exact H.
  - right. apply ll_sub0. transitivity (x + y)%F; [ring|exact H].
Qed.

(** The fourth roots of one *)
Lemma four_roots c : (c * c * (c * c))%F = I 1 -> c = I 1 \/ c = (- I 1)%F \/ c = I i \/ c = (- I i)%F.
Proof.
  intro E. destruct (ll_sq (c * c) (I 1)) as [H|H]; [rewrite E; ring| |].
  - destruct (ll_sq c (I 1)) as [K|K]; [rewrite H; ring|auto|auto].
  - destruct (ll_sq c (I i)) as [K|K]; [rewrite H, ll_i; reflexivity|auto|auto].
Qed.
(** The candidate for the root of U/V *)
Lemma candidate U V : let x := (U * V ^ 7) ^ e * (U * V ^ 3) in
  exists c, (I x * I x * I V)%F = (c * I U)%F /\ (I U = I 0 \/ I V = I 0 \/ (c * c * (c * c))%F = I 1).
Proof.
  cbv zeta. set (w := U * V ^ 7). exists (I (w ^ (2 * e + 1))). split.
  - rewrite <- !inF_mul. f_equal. replace (2 * e + 1) with (e + e + 1) by lia. rewrite !Z.pow_add_r, Z.pow_1_r by lia.
    unfold w at 5. set (we := w ^ e). clearbody we. ring.
  - destruct (Fp_dec p (I U) (I 0)) as [H|H]; [auto|]. destruct (Fp_dec p (I V) (I 0)) as [H0|H0]; [auto|]. right. right.
    rewrite <- !inF_mul. apply inF_eq. rewrite <- !Z.pow_add_r by lia.
    replace (2 * e + 1 + (2 * e + 1) + (2 * e + 1 + (2 * e + 1))) with (p - 1) by lia.
    assert (N : ~ (p | w)).
    { intro D. assert (E : I w = I 0) by (apply inF_0; apply Z.mod_divide; [lia|exact D]). unfold w in E.
      replace (U * V ^ 7) with (U * (V * V * V * V * V * V * V)) in E by ring. rewrite !inF_mul in E. revert E.
      repeat apply ll_nz; assumption. }
    rewrite (fermat p w Pp N). symmetry. apply Z.mod_small. lia.
Qed.
Lemma root_candidate U V s : I V <> I 0 -> (s * s * I V)%F = I U ->
  let x := (U * V ^ 7) ^ e * (U * V ^ 3) in (I x * I x * I V)%F = I U \/ (I x * I x * I V)%F = (- I U)%F.
Proof.
  intros N E x. destruct (beta_square p e U V (toZ p s) Pp He Pe) as [H|H].
  - intro H. apply N. apply inF_0. exact H.
  - apply (inF_eq p P2). rewrite !inF_mul, inF_toZ, <- E. ring.
  - left. fold x in H. rewrite <- !inF_mul. apply inF_eq. rewrite (Z.mul_comm (x * x)). exact H.
  - right. fold x in H. rewrite <- !inF_mul, <- inF_opp. apply inF_eq. rewrite (Z.mul_comm (x * x)). exact H.
Qed.

(** The selection, as in the straight-line code.  g1 and gd are numerator and denominator of g(x1), g2 = g1 t is
    the numerator of g(x2), t = 2 u^2. *)
Section Select.
Variables (u t g1 gd y11 : F).
Hypothesis Ht : t = ((I 1 + I 1) * u * u)%F.
Hypothesis Nd : gd <> I 0.
Variable c : F.
Hypothesis Hy : (y11 * y11 * gd)%F = (c * g1)%F.
Hypothesis Hc : c = I 1 \/ c = (- I 1)%F \/ c = I i \/ c = (- I i)%F.
Variable c2 : F.
Hypothesis Hc2 : (c2 * c2)%F = ((I 1 + I 1) * I i)%F.
Let y12 := (y11 * I i)%F.
Let y1 := if Fp_dec p (y11 * y11 * gd)%F g1 then y11 else y12.
Let y21 := (y11 * u * c2)%F.
Let y22 := (y21 * I i)%F.
Let y2 := if Fp_dec p (y21 * y21 * gd)%F (g1 * t)%F then y21 else y22.
Lemma first_branch : (c = I 1 \/ c = (- I 1)%F) -> (y1 * y1 * gd)%F = g1.
Proof using Hy Pp Hi P2.
  clear y2. intros [E|E]; unfold y1.
  - destruct (Fp_dec p _ _) as [H|H]; [exact H|]. exfalso. apply H. rewrite Hy, E. ring.
  - destruct (Fp_dec p _ _) as [H|H]; [exact H|]. unfold y12.
    transitivity (y11 * y11 * gd * (I i * I i))%F; [ring|]. rewrite Hy, ll_i, E. ring.
Qed.
Lemma second_branch : (c = I i \/ c = (- I i)%F) -> (y2 * y2 * gd)%F = (g1 * t)%F.
Proof using Hy Hc2 Ht Pp Hi P2.
  intros E.
  assert (K : (y21 * y21 * gd)%F = (c * I i * (g1 * t))%F).
  { unfold y21. transitivity (y11 * y11 * gd * (u * u) * (c2 * c2))%F; [ring|]. rewrite Hy, Hc2, Ht. ring. }
  unfold y2. clear y1. destruct (Fp_dec p (y21 * y21 * gd) (g1 * t)) as [H|H]; [exact H|]. unfold y22.
  transitivity (y21 * y21 * gd * (I i * I i))%F; [ring|]. rewrite K. destruct E as [E|E]; rewrite E.
  - transitivity (I i * I i * (I i * I i) * (g1 * t))%F; [ring|]. rewrite ll_i. ring.
  - exfalso. apply H. rewrite K, E. transitivity (- (I i * I i) * (g1 * t))%F; [ring|]. rewrite ll_i. ring.
Qed.
Lemma branch_test : g1 <> I 0 -> (c = I i \/ c = (- I i)%F) -> (y1 * y1 * gd)%F <> g1.
Proof using Hy Pp Hi P2 Nd.
  clear y2. intros G E H.
  assert (A : c <> I 1).
  { intro A. assert (B : (I i * I i)%F = I 1) by (destruct E as [E|E]; [rewrite <- E, A; ring|transitivity (- I i * - I i)%F; [ring|rewrite <- E, A; ring]]).
    rewrite ll_i in B. apply ll_1. apply ll_opp. exact B. }
  revert H. unfold y1. destruct (Fp_dec p _ _) as [K|K]; [intros _|].
  - apply A. apply (ll_cancel g1 _ _ G). rewrite <- Hy, K. ring.
  - unfold y12. intro H.
    assert (B : (c * (I i * I i) * g1)%F = (I 1 * g1)%F).
    { transitivity (c * g1 * (I i * I i))%F; [ring|]. rewrite <- Hy. transitivity (y11 * I i * (y11 * I i) * gd)%F; [ring|]. rewrite H. ring. }
    apply (ll_cancel g1 _ _ G) in B. rewrite ll_i in B.
    destruct E as [E|E]; rewrite E in B.
    + apply ll_1, ll_opp. rewrite <- ll_i. transitivity ((I i * - I 1) * (I i * - I 1))%F; [ring|]. rewrite B. ring.
    + apply ll_1, ll_opp. rewrite <- ll_i. transitivity ((- I i * - I 1) * (- I i * - I 1))%F; [ring|]. rewrite B. ring.
Qed.
End Select.

(** 1 + 2 u^2 is never zero *)
Lemma xd_nz (u : F) : ((I 1 + I 1) * u * u + I 1)%F <> I 0.
Proof.
  intro E.
  assert (N : u <> I 0) by (intro Z0; rewrite Z0 in E; apply ll_1; rewrite <- E; ring).
  assert (S : ((I i * fI u) * (I i * fI u))%F = I 2).
  { change 2 with (1 + 1). rewrite inF_add. apply (ll_cancel (u * u) _ _ (ll_nz _ _ N N)).
    transitivity (I i * I i)%F; [field; exact N|]. rewrite ll_i. apply ll_sub0. transitivity (- ((I 1 + I 1) * u * u + I 1))%F; [ring|]. rewrite E. ring. }
  revert S. apply (pow_nonsquare p Pp P2). replace ((p - 1) / 2) with (4 * e + 2) by (rewrite Pe; replace (8 * e + 5 - 1) with ((4 * e + 2) * 2) by ring; rewrite Z.div_mul by lia; reflexivity).
  pose proof (two_nonresidue p e i Pp He Pe) as T. unfold eqp in T. rewrite T.
  - rewrite <- (Z.mod_small (p - 1) p) by lia. replace (p - 1) with (-1 + 1 * p) by ring. rewrite Z.mod_add by lia. reflexivity.
  - rewrite Hi. rewrite <- (Z.mod_small (p - 1) p) at 1 by lia. replace (p - 1) with (-1 + 1 * p) by ring. rewrite Z.mod_add by lia. reflexivity.
Qed.

(** Both branches *)
Section Outcome.
Variables (J u c2 : F) (U V : Z).
Let t := ((I 1 + I 1) * u * u)%F.
Let D := (t + I 1)%F.
Hypothesis Hc2 : (c2 * c2)%F = ((I 1 + I 1) * I i)%F.
Hypothesis HU : I U = ((J * t * - J + D * D) * - J)%F.
Hypothesis HV : I V = (D * D * D)%F.
Let y11 := I ((U * V ^ 7) ^ e * (U * V ^ 3)).
Let y1 := if Fp_dec p (y11 * y11 * I V)%F (I U) then y11 else (y11 * I i)%F.
Let y21 := (y11 * u * c2)%F.
Let y2 := if Fp_dec p (y21 * y21 * I V)%F (I U * t)%F then y21 else (y21 * I i)%F.
Let g (x : F) : F := (x * x * x + J * x * x + x)%F.
Let x1 := (- J / D)%F.
Let x2 := (- x1 - J)%F.
Lemma D_nz : D <> I 0. Proof. exact (xd_nz u). Qed.
Lemma V_nz : I V <> I 0. Proof. rewrite HV. repeat apply ll_nz; exact D_nz. Qed.
Lemma g_x1 : (g x1 * I V)%F = I U.
Proof. pose proof D_nz as N. rewrite HU, HV. unfold g, x1, D in *. field. exact N. Qed.
Lemma g_x2 : g x2 = (g x1 * t)%F.
Proof. pose proof D_nz as N. unfold g, x2, x1, D in *. field. exact N. Qed.
Lemma x1_D : (x1 * D)%F = (- J)%F.
Proof. pose proof D_nz as N. unfold x1. field. exact N. Qed.
Lemma x2_D : (x2 * D)%F = (- J * t)%F.
Proof. pose proof D_nz as N. unfold x2, x1, D in *. field. exact N. Qed.
Lemma zero_branch : I U = I 0 -> (y1 * y1 * I V)%F = I U.
Proof.
  intro Z0. assert (Y : y11 = I 0) by (unfold y11; rewrite !inF_mul, Z0; ring).
  unfold y1. destruct (Fp_dec p (y11 * y11 * I V) (I U)) as [H|H]; [exact H|]. rewrite Y, Z0. ring.
Qed.
Lemma outcome : if Fp_dec p (y1 * y1 * I V)%F (I U) then (y1 * y1)%F = g x1
  else (forall r, (r * r)%F <> g x1) /\ (y2 * y2)%F = g x2.
Proof.
  destruct (candidate U V) as (c & Hy & Hc). fold y11 in Hy.
  destruct (Fp_dec p (y1 * y1 * I V)%F (I U)) as [H|H].
  - apply (ll_cancel (I V) _ _ V_nz). rewrite H. symmetry. exact g_x1.
  - assert (G : I U <> I 0) by (intro Z0; exact (H (zero_branch Z0))).
    destruct Hc as [Hc|[Hc|Hc]]; [contradiction|exfalso; exact (V_nz Hc)|]. apply four_roots in Hc.
    assert (B : c = I i \/ c = (- I i)%F).
    { destruct Hc as [Hc|[Hc|Hc]]; [exfalso|exfalso|exact Hc].
      - apply H. apply (first_branch (I U) (I V) y11 c Hy). left. exact Hc.
      - apply H. apply (first_branch (I U) (I V) y11 c Hy). right. exact Hc. }
    split.
    + intros r R. apply H.
      destruct (root_candidate U V r V_nz) as [K|K]; [rewrite R; exact g_x1| |].
      * fold y11 in K. unfold y1. destruct (Fp_dec p (y11 * y11 * I V) (I U)) as [L|L]; [exact L|contradiction].
      * fold y11 in K. apply (first_branch (I U) (I V) y11 c Hy). right. apply (ll_cancel (I U) _ _ G). rewrite <- Hy, K. ring.
    + apply (ll_cancel (I V) _ _ V_nz). rewrite g_x2.
      transitivity (I U * t)%F.
      * exact (second_branch u t (I U) (I V) y11 eq_refl c Hy c2 Hc2 B).
      * rewrite <- g_x1. ring.
Qed.
End Outcome.

(** The rational map *)
Lemma rational_map (J d c1 s t : F) : (c1 * c1)%F = (- (J + I 1 + I 1))%F -> (d * (J + I 1 + I 1))%F = (I 1 + I 1 - J)%F ->
  (t * t)%F = (s * s * s + J * s * s + s)%F -> t <> I 0 -> (s + I 1)%F <> I 0 ->
  let x := (c1 * s / t)%F in let y := ((s - I 1) / (s + I 1))%F in
  (- (x * x) + y * y)%F = (I 1 + d * (x * x) * (y * y))%F.
Proof.
  intros C D T N M x y.
  apply (ll_cancel (t * t * ((s + I 1) * (s + I 1))) _ _ (ll_nz _ _ (ll_nz _ _ N N) (ll_nz _ _ M M))).
  transitivity (- (c1 * c1) * (s * s) * ((s + I 1) * (s + I 1)) + (s - I 1) * (s - I 1) * (t * t))%F; [unfold x, y; field; auto|].
  transitivity (t * t * ((s + I 1) * (s + I 1)) + d * (c1 * c1) * (s * s) * ((s - I 1) * (s - I 1)))%F; [|unfold x, y; field; auto].
  rewrite C, T. replace (d * - (J + I 1 + I 1))%F with (- (d * (J + I 1 + I 1)))%F by ring. rewrite D. ring.
Qed.
(** The projective form used by the code *)
Lemma proj_zero (D s t : F) : D <> I 0 -> ((D * t) * (s * D + D))%F = I 0 <-> ((s + I 1) * t)%F = I 0.
Proof.
  intro N. split; intro E.
  - apply (ll_cancel (D * D) _ _ (ll_nz _ _ N N)). transitivity ((D * t) * (s * D + D))%F; [ring|]. rewrite E. ring.
  - transitivity ((s + I 1) * t * (D * D))%F; [ring|]. rewrite E. ring.
Qed.
Lemma proj_coords (D s t c1 : F) : D <> I 0 -> t <> I 0 -> (s + I 1)%F <> I 0 ->
  let xn := (s * D * I 1 * c1)%F in let xd := (D * t)%F in let yn := (s * D - D)%F in let yd := (s * D + D)%F in
  let x := (c1 * s * fI t)%F in let y := ((s - I 1) * fI (s + I 1))%F in
  (xd * yd)%F <> I 0 /\ (xn * yd)%F = (x * (xd * yd))%F /\ (yn * xd)%F = (y * (xd * yd))%F /\ (xn * yn)%F = (x * y * (xd * yd))%F.
Proof.
  intros N T M. cbv zeta. split; [|split; [|split]].
  - intro E. apply (proj_zero D s t N) in E. revert E. exact (ll_nz _ _ M T).
  - field. exact T.
  - field. exact M.
  - field. split; assumption.
Qed.
Lemma factors_nz (s t : F) : ((s + I 1) * t)%F <> I 0 -> t <> I 0 /\ (s + I 1)%F <> I 0.
Proof. intro N. split; intro E; apply N; rewrite E; ring. Qed.
Lemma rational_inv (J d c1 s t : F) : (c1 * c1)%F = (- (J + I 1 + I 1))%F -> (d * (J + I 1 + I 1))%F = (I 1 + I 1 - J)%F ->
  (t * t)%F = (s * s * s + J * s * s + s)%F -> t <> I 0 -> (s + I 1)%F <> I 0 ->
  let x := (c1 * s * fI t)%F in let y := ((s - I 1) * fI (s + I 1))%F in
  (- I 1 * x * x + y * y)%F = (I 1 + d * x * x * y * y)%F.
Proof.
  intros C D T N M x y. pose proof (rational_map J d c1 s t C D T N M) as E. cbv zeta in E.
  assert (X : (c1 * s / t)%F = x) by (unfold x; field; exact N).
  assert (Y : ((s - I 1) / (s + I 1))%F = y) by (unfold y; field; exact M). rewrite X, Y in E.
  transitivity (- (x * x) + y * y)%F; [ring|]. rewrite E. ring.
Qed.
(** Affine coordinates *)
Lemma affine (x W X : F) : W <> I 0 -> X = (x * W)%F -> (X * fI W)%F = x.
Proof. intros N E. rewrite E. field. exact N. Qed.
End Ell.
