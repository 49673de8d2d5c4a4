(** The group of a complete twisted Edwards curve a x^2 + y^2 = 1 + d x^2 y^2
    (a = s^2 a square, d not) over any field of odd characteristic.  Mathematics
    only: nothing here refers to the code. *)
From Coq Require Import ZArith List Bool Lia Field Eqdep_dec.
Import ListNotations.

Section Curve.
Variables (F : Type) (f0 f1 : F) (fadd fmul fsub : F -> F -> F) (fopp : F -> F) (fdiv : F -> F -> F) (finv : F -> F).
Hypothesis Fth : field_theory f0 f1 fadd fmul fsub fopp fdiv finv (@eq F).
Hypothesis Fdec : forall x y : F, {x = y} + {x <> y}.
Add Field Ffield : Fth.
Notation "0" := f0. Notation "1" := f1.
Infix "+" := fadd. Infix "*" := fmul. Infix "-" := fsub. Infix "/" := fdiv.
Notation "- x" := (fopp x).

Lemma fmul0 x y : x * y = 0 -> x = 0 \/ y = 0.
Proof.
  intro H. destruct (Fdec x 0) as [E|N]; [now left|right].
  replace y with (finv x * (x * y)) by (field; exact N). rewrite H. ring.
Qed.
Lemma fmul_nz x y : x <> 0 -> y <> 0 -> x * y <> 0.
Proof. intros Hx Hy E. destruct (fmul0 _ _ E) as [E'|E']; [now apply Hx|now apply Hy]. Qed.
Lemma fsub0 x y : x - y = 0 <-> x = y.
Proof. split; intro H; [replace x with (x - y + y) by ring; rewrite H; ring|rewrite H; ring]. Qed.
Lemma fsq0 x : x * x = 0 -> x = 0.
Proof. intro H. destruct (fmul0 _ _ H); assumption. Qed.
(** x = y once multiplied by nonzero denominators *)
Lemma fdiv_eq x y u v : y <> 0 -> v <> 0 -> x * v = u * y -> x / y = u / v.
Proof.
  intros Hy Hv H. apply fsub0. replace (x / y - u / v) with ((x * v - u * y) / (y * v)) by (field; split; assumption).
  rewrite H. field. split; assumption.
Qed.
Lemma fnz_fact x y : x * y <> 0 -> x <> 0 /\ y <> 0.
Proof. intro H. split; intro E; apply H; rewrite E; ring. Qed.
Lemma one_nz : 1 <> 0.
Proof. exact (F_1_neq_0 Fth). Qed.

Variables (s d : F).
Hypothesis two : 1 + 1 <> 0.
Hypothesis snz : s <> 0.
Hypothesis dns : forall r, r * r <> d.
Let a := s * s.
Lemma d_nz : d <> 0.
Proof. intro E. apply (dns 0). rewrite E. ring. Qed.

Definition on (x y : F) : Prop := a * x * x + y * y = 1 + d * x * x * y * y.
Definition nx x1 y1 x2 y2 := x1 * y2 + x2 * y1.
Definition ny x1 y1 x2 y2 := y1 * y2 - a * x1 * x2.
Definition dx x1 y1 x2 y2 := 1 + d * x1 * x2 * y1 * y2.
Definition dy x1 y1 x2 y2 := 1 - d * x1 * x2 * y1 * y2.

(** Completeness: the denominators never vanish. *)
Lemma no_square x1 y1 x2 y2 e t : (e = 1 \/ e = - (1)) -> (t = 1 \/ t = - (1)) -> on x1 y1 -> on x2 y2 ->
  d * x1 * x2 * y1 * y2 = e -> s * x2 + t * y2 = 0.
Proof.
  unfold on. intros He Ht H1 H2 E.
  assert (E2 : e * e = 1) by (destruct He as [-> | ->]; ring).
  assert (T2 : t * t = 1) by (destruct Ht as [-> | ->]; ring).
  destruct (Fdec (s * x2 + t * y2) 0) as [Z|N]; [exact Z|exfalso].
  assert (NZ : x1 * y1 <> 0).
  { intro Z. apply one_nz. rewrite <- E2, <- E. replace (d * x1 * x2 * y1 * y2 * (d * x1 * x2 * y1 * y2)) with (x1 * y1 * (d * x2 * y2 * (d * x1 * x2 * y1 * y2))) by ring. rewrite Z. ring. }
  apply (dns ((s * x1 + t * e * y1) / (x1 * y1 * (s * x2 + t * y2)))).
  transitivity (((s * x1 + t * e * y1) * (s * x1 + t * e * y1)) / (x1 * y1 * (s * x2 + t * y2) * (x1 * y1 * (s * x2 + t * y2)))).
  { field. destruct (fnz_fact _ _ NZ). repeat split; assumption. }
  transitivity (d / 1); [|field; exact one_nz].
  apply fdiv_eq; [|exact one_nz|].
  { apply fmul_nz; apply fmul_nz; assumption. }
  apply fsub0.
  replace ((s * x1 + t * e * y1) * (s * x1 + t * e * y1) * 1 - d * (x1 * y1 * (s * x2 + t * y2) * (x1 * y1 * (s * x2 + t * y2))))
    with ((s * s * x1 * x1 + y1 * y1 - (1 + d * x1 * x1 * y1 * y1)) + (1 + d * x1 * x1 * y1 * y1) - d * x1 * x1 * y1 * y1 * ((s * s * x2 * x2 + y2 * y2 - (1 + d * x2 * x2 * y2 * y2)) + (1 + d * x2 * x2 * y2 * y2))
      + (t * t * (e * e) - 1) * y1 * y1 + (1 + 1) * t * s * x1 * y1 * (e - d * x1 * x2 * y1 * y2) - d * x1 * x1 * y1 * y1 * (t * t - 1) * y2 * y2) by ring.
  replace (s * s * x1 * x1 + y1 * y1 - (1 + d * x1 * x1 * y1 * y1)) with 0 by (fold a; rewrite H1; ring).
  replace (s * s * x2 * x2 + y2 * y2 - (1 + d * x2 * x2 * y2 * y2)) with 0 by (fold a; rewrite H2; ring).
  rewrite E2, T2, E.
  replace (0 + (1 + d * x1 * x1 * y1 * y1) - d * x1 * x1 * y1 * y1 * (0 + (1 + d * x2 * x2 * y2 * y2)) + (1 * 1 - 1) * y1 * y1 + (1 + 1) * t * s * x1 * y1 * (e - e) - d * x1 * x1 * y1 * y1 * (1 - 1) * y2 * y2)
    with (1 - d * x1 * x2 * y1 * y2 * (d * x1 * x2 * y1 * y2)) by ring.
  rewrite E, E2. ring.
Qed.
Lemma no_unit x1 y1 x2 y2 e : (e = 1 \/ e = - (1)) -> on x1 y1 -> on x2 y2 -> d * x1 * x2 * y1 * y2 <> e.
Proof.
  intros He H1 H2 E.
  pose proof (no_square _ _ _ _ _ 1 He (or_introl eq_refl) H1 H2 E) as A.
  pose proof (no_square _ _ _ _ _ (- (1)) He (or_intror eq_refl) H1 H2 E) as B.
  assert (Y : y2 = 0).
  { assert (X : (1 + 1) * y2 = 0) by (replace ((1 + 1) * y2) with (s * x2 + 1 * y2 - (s * x2 + - (1) * y2)) by ring; rewrite A, B; ring).
    destruct (fmul0 _ _ X) as [X'|X']; [now elim two|exact X']. }
  apply one_nz. assert (E0 : e = 0) by (rewrite <- E, Y; ring).
  destruct He as [He|He]; rewrite E0 in He; [now symmetry|]. replace 1 with (- - (1)) by ring. rewrite <- He. ring.
Qed.
Lemma dx_nz x1 y1 x2 y2 : on x1 y1 -> on x2 y2 -> dx x1 y1 x2 y2 <> 0.
Proof.
  intros H1 H2 E. apply (no_unit x1 y1 x2 y2 (- (1)) (or_intror eq_refl) H1 H2).
  unfold dx in E. replace (d * x1 * x2 * y1 * y2) with (1 + d * x1 * x2 * y1 * y2 - 1) by ring. rewrite E. ring.
Qed.
Lemma dy_nz x1 y1 x2 y2 : on x1 y1 -> on x2 y2 -> dy x1 y1 x2 y2 <> 0.
Proof.
  intros H1 H2 E. apply (no_unit x1 y1 x2 y2 1 (or_introl eq_refl) H1 H2).
  unfold dy in E. replace (d * x1 * x2 * y1 * y2) with (1 - (1 - d * x1 * x2 * y1 * y2)) by ring. rewrite E. ring.
Qed.
Lemma on_e x y : on x y -> a * x * x + y * y - 1 - d * x * x * y * y = 0.
Proof. unfold on. intro H. rewrite H. ring. Qed.

Lemma add_closed x1 y1 x2 y2 : on x1 y1 -> on x2 y2 ->
  on (nx x1 y1 x2 y2 / dx x1 y1 x2 y2) (ny x1 y1 x2 y2 / dy x1 y1 x2 y2).
Proof.
  intros H1 H2. pose proof (dx_nz _ _ _ _ H1 H2) as Nx. pose proof (dy_nz _ _ _ _ H1 H2) as Ny.
  pose proof (on_e _ _ H1) as E1. pose proof (on_e _ _ H2) as E2.
  unfold on. apply fsub0.
  set (u := nx x1 y1 x2 y2). set (v := ny x1 y1 x2 y2). set (p := dx x1 y1 x2 y2) in *. set (q := dy x1 y1 x2 y2) in *.
  replace (a * (u / p) * (u / p) + v / q * (v / q) - (1 + d * (u / p) * (u / p) * (v / q) * (v / q)))
    with ((d * d * (a * u * u * (q * q) + v * v * (p * p) - p * p * (q * q) - d * u * u * v * v)) / (d * d * (p * p * (q * q)))).
  2: field; repeat split; try assumption; exact d_nz.
  replace (d * d * (a * u * u * (q * q) + v * v * (p * p) - p * p * (q * q) - d * u * u * v * v)) with 0.
  { field. repeat split; try assumption; exact d_nz. }
  symmetry.
  transitivity ((a*a*d*d*x2*x2*x2*x2 - (1 + 1)*a*a*d*x2*x2 - a*d*d*d*x1*x1*x2*x2*y2*y2 - a*d*d*d*x2*x2*x2*x2*y2*y2 + (1 + 1 + 1 + 1)*a*d*d*x2*x2*y2*y2 - (1 +
      1)*a*d*y2*y2 + (1 + 1)*a*d + d*d*d*d*d*x1*x1*y1*y1*x2*x2*x2*x2*y2*y2*y2*y2 - d*d*d*y1*y1*x2*x2*y2*y2 - d*d*d*x2*x2*y2*y2*y2*y2 - d*d*d*x2*x2*y2*y2 +
      d*d*y2*y2*y2*y2) * (a * x1 * x1 + y1 * y1 - 1 - d * x1 * x1 * y1 * y1)
    + (- a*a*d*d*x1*x1*x2*x2 + (1 + 1)*a*a*d*x1*x1 + a*d*d*d*d*x1*x1*x1*x1*y1*y1*x2*x2*y2*y2 - (1 + 1)*a*d*d*x1*x1*y1*y1 - a*d*d*x1*x1*y2*y2 -
      a*d*d*y1*y1*x2*x2 + a*d*d*x2*x2 + (1 + 1)*a*d*y1*y1 - (1 + 1)*a*d + d*d*d*d*x1*x1*y1*y1*y1*y1*x2*x2*y2*y2 - d*d*d*d*x1*x1*y1*y1*x2*x2*y2*y2 -
      d*d*y1*y1*y2*y2 + d*d*y2*y2 + d*d) * (a * x2 * x2 + y2 * y2 - 1 - d * x2 * x2 * y2 * y2)).
  - unfold u, v, p, q, nx, ny, dx, dy. clearbody a. ring.
  - rewrite E1, E2. ring.
Qed.

(** ** Points *)
Definition point := {p : F * F | on (fst p) (snd p)}.
Lemma point_eq (P Q : point) : fst (proj1_sig P) = fst (proj1_sig Q) -> snd (proj1_sig P) = snd (proj1_sig Q) -> P = Q.
Proof.
  destruct P as [[x y] H], Q as [[x' y'] H']. cbn [proj1_sig fst snd]. intros Ex Ey.
  subst x' y'. f_equal. apply UIP_dec. exact Fdec.
Qed.
Definition px (P : point) := fst (proj1_sig P).
Definition py (P : point) := snd (proj1_sig P).
Lemma pon P : on (px P) (py P).
Proof. exact (proj2_sig P). Qed.
Definition mk x y (H : on x y) : point := exist (fun p => on (fst p) (snd p)) (x, y) H.
Lemma O_on : on 0 1.
Proof. unfold on. ring. Qed.
Definition O : point := mk 0 1 O_on.
Definition padd (P Q : point) : point := mk _ _ (add_closed _ _ _ _ (pon P) (pon Q)).
Lemma opp_on x y : on x y -> on (- x) y.
Proof. unfold on. intro H. replace (a * - x * - x + y * y) with (a * x * x + y * y) by ring. rewrite H. ring. Qed.
Definition popp (P : point) : point := mk _ _ (opp_on _ _ (pon P)).

Lemma padd_comm P Q : padd P Q = padd Q P.
Proof.
  apply point_eq; cbn [padd mk proj1_sig fst snd]; unfold nx, ny, dx, dy.
  - apply fdiv_eq; [exact (dx_nz _ _ _ _ (pon P) (pon Q))|exact (dx_nz _ _ _ _ (pon Q) (pon P))|ring].
  - apply fdiv_eq; [exact (dy_nz _ _ _ _ (pon P) (pon Q))|exact (dy_nz _ _ _ _ (pon Q) (pon P))|ring].
Qed.
Lemma padd_O P : padd P O = P.
Proof.
  apply point_eq.
  - change (nx (px P) (py P) 0 1 / dx (px P) (py P) 0 1 = px P). unfold nx, dx. field.
    intro E. apply one_nz. etransitivity; [|exact E]. ring.
  - change (ny (px P) (py P) 0 1 / dy (px P) (py P) 0 1 = py P). unfold ny, dy. field.
    intro E. apply one_nz. etransitivity; [|exact E]. ring.
Qed.
Lemma padd_opp P : padd P (popp P) = O.
Proof.
  pose proof (dx_nz _ _ _ _ (pon P) (pon (popp P))) as N. pose proof (dy_nz _ _ _ _ (pon P) (pon (popp P))) as N'.
  pose proof (on_e _ _ (pon P)) as E. change (px (popp P)) with (- px P) in *. change (py (popp P)) with (py P) in *.
  apply point_eq.
  - change (nx (px P) (py P) (- px P) (py P) / dx (px P) (py P) (- px P) (py P) = 0).
    rewrite <- (fdiv_eq 0 1 _ _ one_nz N); [field; exact one_nz|]. unfold nx. ring.
  - change (ny (px P) (py P) (- px P) (py P) / dy (px P) (py P) (- px P) (py P) = 1).
    rewrite <- (fdiv_eq 1 1 _ _ one_nz N'); [field; exact one_nz|]. apply fsub0. unfold ny, dy.
    transitivity (- (a * px P * px P + py P * py P - 1 - d * px P * px P * py P * py P)); [clear E; ring|rewrite E; ring].
Qed.

(** Associativity *)
Section Assoc.
Variables x1 y1 x2 y2 x3 y3 : F.
Hypothesis (H1 : on x1 y1) (H2 : on x2 y2) (H3 : on x3 y3).
Let u := nx x1 y1 x2 y2. Let v := ny x1 y1 x2 y2. Let p := dx x1 y1 x2 y2. Let q := dy x1 y1 x2 y2.
Let u' := nx x2 y2 x3 y3. Let v' := ny x2 y2 x3 y3. Let p' := dx x2 y2 x3 y3. Let q' := dy x2 y2 x3 y3.
Lemma assoc_x : (u * q * y3 + v * p * x3) * (p' * q' + d * x1 * y1 * u' * v') = (x1 * (v' * p') + y1 * (u' * q')) * (p * q + d * u * v * x3 * y3).
Proof.
  apply fsub0. transitivity ((- a*a*d*x1*x2*x2*x2*x2*y2*x3*x3*y3 - a*a*d*x1*x2*x2*x2*y2*y2*x3*x3*x3 + a*d*d*x1*x2*x2*x2*x2*y2*y2*y2*x3*x3*y3 + a*d*x1*x2*x2*x2*y2*y2*x3 -
      a*d*y1*x2*x2*x2*x2*y2*x3*y3*y3 + a*d*y1*x2*x2*y2*y2*y2*x3*x3*x3 - d*d*x1*x2*x2*x2*y2*y2*y2*y2*x3*y3*y3 + d*d*y1*x2*x2*x2*x2*y2*y2*y2*x3*y3*y3 +
      d*d*y1*x2*x2*x2*y2*y2*y2*y2*x3*x3*y3 + d*x1*x2*x2*y2*y2*y2*y3*y3*y3 - d*x1*x2*x2*y2*y2*y2*y3 + d*x1*x2*y2*y2*y2*y2*x3*y3*y3 +
      d*y1*x2*x2*x2*y2*y2*y3*y3*y3 - d*y1*x2*x2*x2*y2*y2*y3 - d*y1*x2*x2*y2*y2*y2*x3 - d*y1*x2*y2*y2*y2*y2*x3*x3*y3) * (a * x1 * x1 + y1 * y1 - 1 - d * x1 * x1 * y1 * y1)
    + (- a*a*a*x1*x1*x1*x2*x3*x3*x3 + a*a*d*x1*x1*x1*x2*x2*y2*x3*x3*y3 + a*a*d*x1*x1*x1*x2*x3*x3*x3*y3*y3 - a*a*x1*x1*x1*x2*x3*y3*y3 + a*a*x1*x1*x1*x2*x3 +
      a*a*x1*x1*x1*y2*x3*x3*y3 + a*a*x1*x2*x3*x3*x3 - a*d*d*x1*x1*y1*x2*x2*y2*x3*x3*x3*y3*y3 - a*d*x1*x1*x1*x2*y2*y2*x3*y3*y3 -
      a*d*x1*x1*x1*y2*x3*x3*y3*y3*y3 + a*d*x1*x1*y1*x2*x2*y2*x3*y3*y3 + a*d*x1*x1*y1*x2*y2*y2*x3*x3*y3 + a*d*x1*y1*y1*x2*x2*y2*x3*x3*y3 -
      a*d*x1*x2*x2*y2*x3*x3*y3 - a*d*x1*x2*x3*x3*x3*y3*y3 + a*x1*x1*x1*y2*y3*y3*y3 - a*x1*x1*x1*y2*y3 + a*x1*x2*x3*y3*y3 - a*x1*x2*x3 - a*x1*y2*x3*x3*y3 +
      a*y1*y1*y1*x2*x3*x3*y3 + a*y1*y1*y1*y2*x3*x3*x3 - a*y1*x2*x3*x3*y3 - a*y1*y2*x3*x3*x3 - d*d*x1*x1*y1*x2*y2*y2*x3*x3*y3*y3*y3 -
      d*d*x1*y1*y1*x2*x2*y2*x3*x3*y3*y3*y3 + d*d*x1*y1*y1*x2*y2*y2*x3*x3*x3*y3*y3 - d*x1*y1*y1*x2*y2*y2*x3*y3*y3 + d*x1*x2*y2*y2*x3*y3*y3 +
      d*x1*y2*x3*x3*y3*y3*y3 + d*y1*y1*y1*x2*x2*y2*x3*y3*y3 + d*y1*y1*y1*x2*y2*y2*x3*x3*y3 - d*y1*y1*y1*x2*x3*x3*y3*y3*y3 - d*y1*y1*y1*y2*x3*x3*x3*y3*y3 -
      d*y1*x2*x2*y2*x3*y3*y3 - d*y1*x2*y2*y2*x3*x3*y3 + d*y1*x2*x3*x3*y3*y3*y3 + d*y1*y2*x3*x3*x3*y3*y3 - x1*y2*y3*y3*y3 + x1*y2*y3 + y1*y1*y1*x2*y3*y3*y3 -
      y1*y1*y1*x2*y3 + y1*y1*y1*y2*x3*y3*y3 - y1*y1*y1*y2*x3 - y1*x2*y3*y3*y3 + y1*x2*y3 - y1*y2*x3*y3*y3 + y1*y2*x3) * (a * x2 * x2 + y2 * y2 - 1 - d * x2 * x2 * y2 * y2)
    + (a*a*a*x1*x1*x1*x2*x2*x2*x3 - a*a*x1*x1*x1*x2*x2*y2*y3 + a*a*x1*x1*x1*x2*y2*y2*x3 - a*a*x1*x1*x1*x2*x3 - a*a*x1*x2*x2*x2*x3 -
      a*d*x1*x1*y1*x2*x2*x2*y2*y2*y3 - a*d*x1*x1*y1*x2*x2*y2*y2*y2*x3 + a*d*x1*x1*y1*x2*x2*y2*x3 + a*d*x1*y1*y1*x2*x2*x2*y2*y2*x3 - a*x1*x1*x1*y2*y2*y2*y3 +
      a*x1*x1*x1*y2*y3 + a*x1*x2*x2*y2*y3 - a*x1*x2*y2*y2*x3 + a*x1*x2*x3 - a*y1*y1*y1*x2*x2*x2*y3 - a*y1*y1*y1*x2*x2*y2*x3 + a*y1*x2*x2*x2*y3 +
      a*y1*x2*x2*y2*x3 + d*x1*x1*y1*x2*y2*y2*y3 - d*x1*y1*y1*x2*x2*y2*y2*y2*y3 + d*x1*y1*y1*x2*x2*y2*y3 - d*x1*y1*y1*x2*y2*y2*x3 + x1*y2*y2*y2*y3 - x1*y2*y3
      - y1*y1*y1*x2*y2*y2*y3 + y1*y1*y1*x2*y3 - y1*y1*y1*y2*y2*y2*x3 + y1*y1*y1*y2*x3 + y1*x2*y2*y2*y3 - y1*x2*y3 + y1*y2*y2*y2*x3 - y1*y2*x3) * (a * x3 * x3 + y3 * y3 - 1 - d * x3 * x3 * y3 * y3)).
  - unfold u, v, p, q, u', v', p', q', nx, ny, dx, dy. clear H1 H2 H3. clearbody a. ring.
  - rewrite (on_e _ _ H1), (on_e _ _ H2), (on_e _ _ H3). ring.
Qed.
Lemma assoc_y : (v * p * y3 - a * (u * q) * x3) * (p' * q' - d * x1 * y1 * u' * v') = (y1 * (v' * p') - a * x1 * (u' * q')) * (p * q - d * u * v * x3 * y3).
Proof.
  apply fsub0. transitivity ((a*a*d*x1*x2*x2*x2*x2*y2*x3*y3*y3 - a*a*d*x1*x2*x2*y2*y2*y2*x3*x3*x3 - a*a*d*y1*x2*x2*x2*x2*y2*x3*x3*y3 - a*a*d*y1*x2*x2*x2*y2*y2*x3*x3*x3 -
      a*d*d*x1*x2*x2*x2*x2*y2*y2*y2*x3*y3*y3 - a*d*d*x1*x2*x2*x2*y2*y2*y2*y2*x3*x3*y3 + a*d*d*y1*x2*x2*x2*x2*y2*y2*y2*x3*x3*y3 -
      a*d*x1*x2*x2*x2*y2*y2*y3*y3*y3 + a*d*x1*x2*x2*x2*y2*y2*y3 + a*d*x1*x2*x2*y2*y2*y2*x3 + a*d*x1*x2*y2*y2*y2*y2*x3*x3*y3 + a*d*y1*x2*x2*x2*y2*y2*x3 -
      d*d*y1*x2*x2*x2*y2*y2*y2*y2*x3*y3*y3 + d*y1*x2*x2*y2*y2*y2*y3*y3*y3 - d*y1*x2*x2*y2*y2*y2*y3 + d*y1*x2*y2*y2*y2*y2*x3*y3*y3) * (a * x1 * x1 + y1 * y1 - 1 - d * x1 * x1 * y1 * y1)
    + (- a*a*a*x1*x1*x1*x2*x3*x3*y3 - a*a*a*x1*x1*x1*y2*x3*x3*x3 - a*a*d*x1*x1*x1*x2*x2*y2*x3*y3*y3 - a*a*d*x1*x1*x1*x2*y2*y2*x3*x3*y3 +
      a*a*d*x1*x1*x1*x2*x3*x3*y3*y3*y3 + a*a*d*x1*x1*x1*y2*x3*x3*x3*y3*y3 + a*a*d*x1*x1*y1*x2*x2*y2*x3*x3*y3 - a*a*x1*x1*x1*x2*y3*y3*y3 + a*a*x1*x1*x1*x2*y3
      - a*a*x1*x1*x1*y2*x3*y3*y3 + a*a*x1*x1*x1*y2*x3 + a*a*x1*x2*x3*x3*y3 + a*a*x1*y2*x3*x3*x3 - a*a*y1*y1*y1*x2*x3*x3*x3 + a*a*y1*x2*x3*x3*x3 -
      a*d*d*x1*x1*y1*x2*x2*y2*x3*x3*y3*y3*y3 + a*d*d*x1*x1*y1*x2*y2*y2*x3*x3*x3*y3*y3 + a*d*d*x1*y1*y1*x2*x2*y2*x3*x3*x3*y3*y3 -
      a*d*x1*x1*y1*x2*y2*y2*x3*y3*y3 - a*d*x1*y1*y1*x2*x2*y2*x3*y3*y3 - a*d*x1*y1*y1*x2*y2*y2*x3*x3*y3 + a*d*x1*x2*x2*y2*x3*y3*y3 + a*d*x1*x2*y2*y2*x3*x3*y3
      - a*d*x1*x2*x3*x3*y3*y3*y3 - a*d*x1*y2*x3*x3*x3*y3*y3 + a*d*y1*y1*y1*x2*x2*y2*x3*x3*y3 + a*d*y1*y1*y1*x2*x3*x3*x3*y3*y3 - a*d*y1*x2*x2*y2*x3*x3*y3 -
      a*d*y1*x2*x3*x3*x3*y3*y3 + a*x1*x2*y3*y3*y3 - a*x1*x2*y3 + a*x1*y2*x3*y3*y3 - a*x1*y2*x3 - a*y1*y1*y1*x2*x3*y3*y3 + a*y1*y1*y1*x2*x3 +
      a*y1*y1*y1*y2*x3*x3*y3 + a*y1*x2*x3*y3*y3 - a*y1*x2*x3 - a*y1*y2*x3*x3*y3 + d*d*x1*y1*y1*x2*y2*y2*x3*x3*y3*y3*y3 - d*y1*y1*y1*x2*y2*y2*x3*y3*y3 -
      d*y1*y1*y1*y2*x3*x3*y3*y3*y3 + d*y1*x2*y2*y2*x3*y3*y3 + d*y1*y2*x3*x3*y3*y3*y3 + y1*y1*y1*y2*y3*y3*y3 - y1*y1*y1*y2*y3 - y1*y2*y3*y3*y3 + y1*y2*y3) * (a * x2 * x2 + y2 * y2 - 1 - d * x2 * x2 * y2 * y2)
    + (a*a*a*x1*x1*x1*x2*x2*x2*y3 + a*a*a*x1*x1*x1*x2*x2*y2*x3 + a*a*d*x1*x1*y1*x2*x2*x2*y2*y2*x3 + a*a*x1*x1*x1*x2*y2*y2*y3 - a*a*x1*x1*x1*x2*y3 +
      a*a*x1*x1*x1*y2*y2*y2*x3 - a*a*x1*x1*x1*y2*x3 - a*a*x1*x2*x2*x2*y3 - a*a*x1*x2*x2*y2*x3 + a*a*y1*y1*y1*x2*x2*x2*x3 - a*a*y1*x2*x2*x2*x3 -
      a*d*x1*x1*y1*x2*x2*y2*y2*y2*y3 + a*d*x1*x1*y1*x2*x2*y2*y3 - a*d*x1*x1*y1*x2*y2*y2*x3 + a*d*x1*y1*y1*x2*x2*x2*y2*y2*y3 + a*d*x1*y1*y1*x2*x2*y2*y2*y2*x3
      - a*d*x1*y1*y1*x2*x2*y2*x3 - a*x1*x2*y2*y2*y3 + a*x1*x2*y3 - a*x1*y2*y2*y2*x3 + a*x1*y2*x3 - a*y1*y1*y1*x2*x2*y2*y3 + a*y1*y1*y1*x2*y2*y2*x3 -
      a*y1*y1*y1*x2*x3 + a*y1*x2*x2*y2*y3 - a*y1*x2*y2*y2*x3 + a*y1*x2*x3 - d*x1*y1*y1*x2*y2*y2*y3 - y1*y1*y1*y2*y2*y2*y3 + y1*y1*y1*y2*y3 + y1*y2*y2*y2*y3
      - y1*y2*y3) * (a * x3 * x3 + y3 * y3 - 1 - d * x3 * x3 * y3 * y3)).
  - unfold u, v, p, q, u', v', p', q', nx, ny, dx, dy. clear H1 H2 H3. clearbody a. ring.
  - rewrite (on_e _ _ H1), (on_e _ _ H2), (on_e _ _ H3). ring.
Qed.
Lemma Np : p <> 0. Proof. apply dx_nz; assumption. Qed.
Lemma Nq : q <> 0. Proof. apply dy_nz; assumption. Qed.
Lemma Np' : p' <> 0. Proof. apply dx_nz; assumption. Qed.
Lemma Nq' : q' <> 0. Proof. apply dy_nz; assumption. Qed.
Lemma dx_l : dx (u / p) (v / q) x3 y3 * (p * q) = p * q + d * u * v * x3 * y3.
Proof. pose proof Np as A. pose proof Nq as B. clearbody u v p q. unfold dx. field. split; assumption. Qed.
Lemma dy_l : dy (u / p) (v / q) x3 y3 * (p * q) = p * q - d * u * v * x3 * y3.
Proof. pose proof Np as A. pose proof Nq as B. clearbody u v p q. unfold dy. field. split; assumption. Qed.
Lemma dx_r : dx x1 y1 (u' / p') (v' / q') * (p' * q') = p' * q' + d * x1 * y1 * u' * v'.
Proof. pose proof Np' as A. pose proof Nq' as B. clearbody u' v' p' q'. unfold dx. field. split; assumption. Qed.
Lemma dy_r : dy x1 y1 (u' / p') (v' / q') * (p' * q') = p' * q' - d * x1 * y1 * u' * v'.
Proof. pose proof Np' as A. pose proof Nq' as B. clearbody u' v' p' q'. unfold dy. field. split; assumption. Qed.
Lemma nx_l : nx (u / p) (v / q) x3 y3 * (p * q) = u * q * y3 + v * p * x3.
Proof. pose proof Np as A. pose proof Nq as B. clearbody u v p q. unfold nx. field. split; assumption. Qed.
Lemma ny_l : ny (u / p) (v / q) x3 y3 * (p * q) = v * p * y3 - a * (u * q) * x3.
Proof. pose proof Np as A. pose proof Nq as B. clearbody u v p q. unfold ny. field. split; assumption. Qed.
Lemma nx_r : nx x1 y1 (u' / p') (v' / q') * (p' * q') = x1 * (v' * p') + y1 * (u' * q').
Proof. pose proof Np' as A. pose proof Nq' as B. clearbody u' v' p' q'. unfold nx. field. split; assumption. Qed.
Lemma ny_r : ny x1 y1 (u' / p') (v' / q') * (p' * q') = y1 * (v' * p') - a * x1 * (u' * q').
Proof. pose proof Np' as A. pose proof Nq' as B. clearbody u' v' p' q'. unfold ny. field. split; assumption. Qed.
Lemma cancel4 A B C D m n : m <> 0 -> n <> 0 -> (A * m) * (B * n) = (C * n) * (D * m) -> A * B = C * D.
Proof.
  intros Hm Hn H. apply fsub0. apply fsub0 in H.
  replace (A * m * (B * n) - C * n * (D * m)) with ((A * B - C * D) * (m * n)) in H by ring.
  destruct (fmul0 _ _ H) as [E|E]; [exact E|]. now elim (fmul_nz _ _ Hm Hn).
Qed.
Lemma assoc_X : nx (u / p) (v / q) x3 y3 / dx (u / p) (v / q) x3 y3 = nx x1 y1 (u' / p') (v' / q') / dx x1 y1 (u' / p') (v' / q').
Proof.
  apply fdiv_eq.
  - exact (dx_nz _ _ _ _ (add_closed _ _ _ _ H1 H2) H3).
  - exact (dx_nz _ _ _ _ H1 (add_closed _ _ _ _ H2 H3)).
  - apply (cancel4 _ _ _ _ (p * q) (p' * q')); [apply fmul_nz; [exact Np|exact Nq]|apply fmul_nz; [exact Np'|exact Nq']|].
    rewrite nx_l, dx_r, nx_r, dx_l. exact assoc_x.
Qed.
Lemma assoc_Y : ny (u / p) (v / q) x3 y3 / dy (u / p) (v / q) x3 y3 = ny x1 y1 (u' / p') (v' / q') / dy x1 y1 (u' / p') (v' / q').
Proof.
  apply fdiv_eq.
  - exact (dy_nz _ _ _ _ (add_closed _ _ _ _ H1 H2) H3).
  - exact (dy_nz _ _ _ _ H1 (add_closed _ _ _ _ H2 H3)).
  - apply (cancel4 _ _ _ _ (p * q) (p' * q')); [apply fmul_nz; [exact Np|exact Nq]|apply fmul_nz; [exact Np'|exact Nq']|].
    rewrite ny_l, dy_r, ny_r, dy_l. exact assoc_y.
Qed.
End Assoc.
Lemma padd_assoc P Q R : padd (padd P Q) R = padd P (padd Q R).
Proof.
  apply point_eq; [exact (assoc_X _ _ _ _ _ _ (pon P) (pon Q) (pon R))|exact (assoc_Y _ _ _ _ _ _ (pon P) (pon Q) (pon R))].
Qed.

(** ** The Montgomery u-coordinate (1 + y)/(1 - y), projectively *)
Definition urep (X Z : F) (P : point) : Prop := exists l, l <> 0 /\ X = l * (1 + py P) /\ Z = l * (1 - py P).
Lemma py_add P Q : py (padd P Q) * dy (px P) (py P) (px Q) (py Q) = ny (px P) (py P) (px Q) (py Q).
Proof.
  pose proof (dy_nz _ _ _ _ (pon P) (pon Q)) as N. unfold py at 1. cbn [padd mk proj1_sig snd]. field. exact N.
Qed.
Lemma px_add P Q : px (padd P Q) * dx (px P) (py P) (px Q) (py Q) = nx (px P) (py P) (px Q) (py Q).
Proof.
  pose proof (dx_nz _ _ _ _ (pon P) (pon Q)) as N. unfold px at 1. cbn [padd mk proj1_sig fst]. field. exact N.
Qed.
Lemma a_dy y : a - d * y * y <> 0.
Proof.
  intro E. destruct (Fdec y 0) as [Y|Y].
  - apply (fmul_nz _ _ snz snz). fold a. etransitivity; [|exact E]. rewrite Y. ring.
  - apply (dns (s / y)). transitivity (d + (a - d * y * y) / (y * y)).
    + unfold a. field. exact Y.
    + rewrite E. field. exact Y.
Qed.
Lemma a_d : a - d <> 0.
Proof. intro E. apply (a_dy 1). etransitivity; [|exact E]. ring. Qed.
Lemma py_opp P : py (popp P) = py P. Proof. reflexivity. Qed.
Lemma px_opp P : px (popp P) = - px P. Proof. reflexivity. Qed.
Lemma urep_intro X Z P : X * (1 - py P) = Z * (1 + py P) -> (X <> 0 \/ Z <> 0) -> urep X Z P.
Proof.
  intros E N. exists ((X + Z) / (1 + 1)).
  assert (HX : X = (X + Z) / (1 + 1) * (1 + py P)).
  { apply fsub0. replace (X - (X + Z) / (1 + 1) * (1 + py P)) with ((X * (1 - py P) - Z * (1 + py P)) / (1 + 1)) by (field; exact two).
    rewrite E. field. exact two. }
  assert (HZ : Z = (X + Z) / (1 + 1) * (1 - py P)).
  { apply fsub0. replace (Z - (X + Z) / (1 + 1) * (1 - py P)) with ((Z * (1 + py P) - X * (1 - py P)) / (1 + 1)) by (field; exact two).
    rewrite E. field. exact two. }
  split; [|split; assumption].
  intro Z0. rewrite Z0 in HX, HZ. destruct N as [N|N]; apply N; [rewrite HX|rewrite HZ]; ring.
Qed.
Variable c : F.
Hypothesis Hc : c * (a - d) = d.
(** RFC 7748: doubling and differential addition of x : z pairs *)
Definition mdbl (v : F * F) : F * F :=
  let (x, z) := v in let AA := (x + z) * (x + z) in let BB := (x - z) * (x - z) in let E := AA - BB in
  (AA * BB, E * (AA + c * E)).
Definition mdadd (u : F) (v w : F * F) : F * F :=
  let (x2, z2) := v in let (x3, z3) := w in
  let DA := (x3 - z3) * (x2 + z2) in let CB := (x3 + z3) * (x2 - z2) in
  ((DA + CB) * (DA + CB), u * ((DA - CB) * (DA - CB))).
Lemma mdbl_ok v P : urep (fst v) (snd v) P -> urep (fst (mdbl v)) (snd (mdbl v)) (padd P P).
Proof.
  destruct v as [X Z]. cbn [fst snd mdbl]. intros (l & Nl & EX & EZ).
  pose proof (py_add P P) as EY. pose proof (on_e _ _ (pon P)) as EC.
  pose proof (dy_nz _ _ _ _ (pon P) (pon P)) as ND. pose proof (a_dy (py P)) as NA. pose proof a_d as NB.
  set (x := px P) in *. set (y := py P) in *. set (y2 := py (padd P P)) in *. set (D := dy x y x y) in *.
  assert (E1 : (1 - a * x * x) * (a - d * y * y) = y * y * (a - d)).
  { apply fsub0. transitivity (- a * (a * x * x + y * y - 1 - d * x * x * y * y)); [ring|rewrite EC; ring]. }
  assert (E2 : D * (1 + y2) = (1 + 1) * (1 - a * x * x)).
  { transitivity (D + y2 * D); [ring|]. rewrite EY. unfold D, dy, ny. apply fsub0.
    transitivity (a * x * x + y * y - 1 - d * x * x * y * y); [ring|exact EC]. }
  assert (E3 : D * (1 - y2) = (1 + 1) * (1 - y * y)).
  { transitivity (D - y2 * D); [ring|]. rewrite EY. unfold D, dy, ny. apply fsub0.
    transitivity (a * x * x + y * y - 1 - d * x * x * y * y); [ring|exact EC]. }
  assert (Hu : forall t, (a - d) * t = (a - d) * (t * 1)) by (intro; ring).
  set (four := (1 + 1) * (1 + 1)).
  assert (N4 : four <> 0) by (apply fmul_nz; exact two).
  exists ((1 + 1) * four * (l * l * (l * l)) * (a - d * y * y) * D / (a - d)). change (py (padd P P)) with y2.
  assert (C1 : c = d / (a - d)) by (transitivity (c * (a - d) / (a - d)); [field; exact NB|now rewrite Hc]).
  split; [|split].
  - assert (N : (1 + 1) * four * (l * l * (l * l)) * (a - d * y * y) * D <> 0).
    { apply fmul_nz; [|exact ND]. apply fmul_nz; [|exact NA]. apply fmul_nz; [apply fmul_nz; assumption|].
      apply fmul_nz; apply fmul_nz; assumption. }
    intro E. apply N. transitivity ((1 + 1) * four * (l * l * (l * l)) * (a - d * y * y) * D / (a - d) * (a - d)); [field; exact NB|].
    rewrite E. ring.
  - rewrite EX, EZ.
    transitivity ((1 + 1) * four * (l * l * (l * l)) * (a - d * y * y) / (a - d) * (D * (1 + y2))); [|field; exact NB].
    rewrite E2.
    transitivity (four * four * (l * l * (l * l)) / (a - d) * ((1 - a * x * x) * (a - d * y * y))); [|unfold four; field; exact NB].
    rewrite E1. unfold four. field. exact NB.
  - rewrite EX, EZ.
    transitivity ((1 + 1) * four * (l * l * (l * l)) * (a - d * y * y) / (a - d) * (D * (1 - y2))); [|field; exact NB].
    rewrite E3, C1. unfold four. field. exact NB.
Qed.
Lemma mdadd_ok u v w P Q : u <> 0 -> urep u 1 (padd P (popp Q)) ->
  urep (fst v) (snd v) P -> urep (fst w) (snd w) Q -> urep (fst (mdadd u v w)) (snd (mdadd u v w)) (padd P Q).
Proof.
  destruct v as [X2 Z2], w as [X3 Z3]. cbn [fst snd mdadd]. intros Nu (l & Nl & Eu & E1l) (l1 & N1 & EX2 & EZ2) (l2 & N2 & EX3 & EZ3).
  pose proof (py_add P Q) as EP. pose proof (py_add P (popp Q)) as EM. rewrite py_opp, px_opp in EM.
  pose proof (dy_nz _ _ _ _ (pon P) (pon Q)) as ND. pose proof (dy_nz _ _ _ _ (pon P) (pon (popp Q))) as NM. rewrite py_opp, px_opp in NM.
  pose proof (on_e _ _ (pon P)) as C1. pose proof (on_e _ _ (pon Q)) as C2.
  set (x1 := px P) in *. set (y1 := py P) in *. set (x2 := px Q) in *. set (y2 := py Q) in *.
  set (yp := py (padd P Q)) in *. set (ym := py (padd P (popp Q))) in *.
  set (D := dy x1 y1 x2 y2) in *. set (M := dy x1 y1 (- x2) y2) in *.
  assert (NMm : 1 - ym <> 0) by (intro E; apply one_nz; rewrite E1l, E; ring).
  assert (NPm : 1 + ym <> 0) by (intro E; apply Nu; rewrite Eu, E; ring).
  assert (Eu' : u * (1 - ym) = 1 + ym).
  { rewrite Eu. transitivity (l * (1 - ym) * (1 + ym)); [ring|]. rewrite <- E1l. ring. }
  assert (Key : (1 + yp) * (1 + ym) * ((y1 - y2) * (y1 - y2)) = (y1 + y2) * (y1 + y2) * ((1 - yp) * (1 - ym))).
  { apply fsub0.
    assert (K : D * M * ((1 + yp) * (1 + ym) * ((y1 - y2) * (y1 - y2)) - (y1 + y2) * (y1 + y2) * ((1 - yp) * (1 - ym))) = 0).
    { transitivity ((D + yp * D) * (M + ym * M) * ((y1 - y2) * (y1 - y2)) - (y1 + y2) * (y1 + y2) * ((D - yp * D) * (M - ym * M))); [ring|].
      rewrite EP, EM. unfold D, M, dy, ny.
      transitivity (((1 + 1 + 1 + 1) * a * y1 * x2 * x2 * y2 - (1 + 1 + 1 + 1) * d * y1 * x2 * x2 * y2 * y2 * y2) * (a * x1 * x1 + y1 * y1 - 1 - d * x1 * x1 * y1 * y1)
        + ((1 + 1 + 1 + 1) * y1 * y2 - (1 + 1 + 1 + 1) * y1 * y1 * y1 * y2) * (a * x2 * x2 + y2 * y2 - 1 - d * x2 * x2 * y2 * y2)); [ring|].
      rewrite C1, C2. ring. }
    destruct (fmul0 _ _ K) as [E|E]; [|exact E]. elim (fmul_nz _ _ ND NM E). }
  set (k := (1 + 1) * (1 + 1) * (l1 * l2)).
  assert (Nk : k <> 0) by (apply fmul_nz; apply fmul_nz; assumption).
  apply urep_intro; fold yp.
  - rewrite EX2, EZ2, EX3, EZ3.
    transitivity (k * k / (1 - ym) * ((y1 + y2) * (y1 + y2) * ((1 - yp) * (1 - ym)))); [unfold k; field; exact NMm|].
    rewrite <- Key, <- Eu'. unfold k. field. exact NMm.
  - destruct (Fdec (y1 + y2) 0) as [S0|S0].
    + destruct (Fdec (y1 - y2) 0) as [D0|D0].
      * exfalso. assert (Y1 : y1 = 0).
        { assert (T : (1 + 1) * y1 = 0) by (transitivity ((y1 + y2) + (y1 - y2)); [ring|rewrite S0, D0; ring]).
          destruct (fmul0 _ _ T) as [T'|T']; [elim (two T')|exact T']. }
        assert (Y2 : y2 = 0) by (transitivity (y1 + y2 - y1); [ring|rewrite S0, Y1; ring]).
        assert (EM' : ym = a * x1 * x2).
        { transitivity (ym * M); [unfold M, dy; rewrite Y1; ring|rewrite EM; unfold ny; rewrite Y1; ring]. }
        assert (Q1 : a * x1 * x1 = 1) by (apply fsub0; etransitivity; [|exact C1]; rewrite Y1; ring).
        assert (Q2 : a * x2 * x2 = 1) by (apply fsub0; etransitivity; [|exact C2]; rewrite Y2; ring).
        apply (fmul_nz _ _ NPm NMm). rewrite EM'.
        transitivity (1 - (a * x1 * x1) * (a * x2 * x2)); [ring|]. rewrite Q1, Q2. ring.
      * right. rewrite EX2, EZ2, EX3, EZ3.
        match goal with |- ?t <> 0 => replace t with (u * (k * (y1 - y2) * (k * (y1 - y2)))) by (unfold k; ring) end.
        apply fmul_nz; [exact Nu|]. apply fmul_nz; apply fmul_nz; assumption.
    + left. rewrite EX2, EZ2, EX3, EZ3.
      match goal with |- ?t <> 0 => replace t with (k * (y1 + y2) * (k * (y1 + y2))) by (unfold k; ring) end.
      apply fmul_nz; apply fmul_nz; assumption.
Qed.
Lemma urep_base u P : u * (1 - py P) = 1 + py P -> urep u 1 P.
Proof. intro E. apply urep_intro; [rewrite E; ring|right; exact one_nz]. Qed.
Lemma urep_O : urep 1 0 O.
Proof. apply urep_intro; [change (py O) with 1; ring|left; exact one_nz]. Qed.
Lemma urep_opp X Z P : urep X Z (popp P) <-> urep X Z P.
Proof. unfold urep. rewrite py_opp. tauto. Qed.
End Curve.
