(** The 4-isogeny used by the Ed448 code: from E: x^2 + y^2 = 1 + d x^2 y^2 to E': -x^2 + y^2 = 1 + (d-1) x^2 y^2,
    over any field where d, 1 - d are not squares.  Mathematics only: nothing here refers to the code. *)
From Coq Require Import Ring Field.
Section IsoField.
Variable F : Type.
Variables (f0 f1 : F) (fA fM fS : F -> F -> F) (fN : F -> F) (fD : F -> F -> F) (fI : F -> F).
Hypothesis Fth : field_theory f0 f1 fA fM fS fN fD fI eq.
Hypothesis Fdec : forall x y : F, {x = y} + {x <> y}.
Add Field FF : Fth.
Notation "0" := f0. Notation "1" := f1.
Infix "+" := fA. Infix "*" := fM. Infix "-" := fS. Notation "- x" := (fN x).
Variable d : F.
Hypothesis two : 1 + 1 <> 0.
Hypothesis dns : forall r, r * r <> d.
Hypothesis ens : forall r, r * r <> 1 - d.
Definition on1 (x y : F) : Prop := x * x + y * y = 1 + d * x * x * y * y.
Lemma nz_mul x y : x <> 0 -> y <> 0 -> x * y <> 0.
Proof.
  intros Hx Hy E. apply Hy. transitivity (fD (x * y) x); [field; exact Hx|]. rewrite E. field. exact Hx.
Qed.
Lemma mul_0 x y : x * y = 0 -> x = 0 \/ y = 0.
Proof. intro E. destruct (Fdec x 0) as [|N]; [now left|]. destruct (Fdec y 0) as [|N']; [now right|]. now destruct (nz_mul x y N N'). Qed.
Lemma eq_sub x y : x - y = 0 -> x = y.
Proof. intro E. transitivity (x - y + y); [ring|]. rewrite E. ring. Qed.
Lemma sub_eq x y : x = y -> x - y = 0. Proof. intros ->. ring. Qed.
Lemma neg1_nz : 1 <> 0. Proof. intro E. apply two. rewrite E. ring. Qed.

(** u, C, N, M of a point *)
Definition iU (x y : F) := x * y.
Definition iC (x y : F) := y * y - x * x.
Definition iN (x y : F) := x * x + y * y.
Definition iM (x y : F) := 1 + 1 - (x * x + y * y).
Lemma iN_u x y : on1 x y -> iN x y = 1 + d * iU x y * iU x y.
Proof. unfold on1, iN, iU. intros ->. ring. Qed.
Lemma iM_u x y : on1 x y -> iM x y = 1 - d * iU x y * iU x y.
Proof. unfold on1, iM, iU. intros ->. ring. Qed.
Lemma iC_u x y : on1 x y -> iC x y * iC x y = (1 + d * iU x y * iU x y) * (1 + d * iU x y * iU x y) - (1 + 1 + 1 + 1) * iU x y * iU x y.
Proof. intro H. rewrite <- (iN_u x y H). unfold iC, iN, iU. ring. Qed.
Lemma iC_nz x y : on1 x y -> iC x y <> 0.
Proof.
  unfold on1, iC. intros H E. apply eq_sub in E.
  apply (ens (d * x * x - 1)).
  assert (K : d * x * x * (x * x) - (x * x + x * x) + 1 = 0).
  { rewrite E in H. transitivity ((1 + d * x * x * y * y) - (x * x + x * x)); [|rewrite <- H; ring].
    replace (d * x * x * y * y) with (d * x * x * (y * y)) by ring. rewrite E. ring. }
  apply eq_sub. transitivity (d * (d * x * x * (x * x) - (x * x + x * x) + 1)); [ring|]. rewrite K. ring.
Qed.
Lemma d_nz : d <> 0. Proof. intro E. apply (dns 0). rewrite E. ring. Qed.
Lemma iM_nz x y : on1 x y -> iM x y <> 0.
Proof.
  intros H E. rewrite (iM_u x y H) in E.
  destruct (Fdec (iU x y) 0) as [Z|N].
  - rewrite Z in E. apply neg1_nz. rewrite <- E. ring.
  - apply (dns (fI (iU x y))). apply eq_sub in E.
    transitivity (fI (iU x y) * fI (iU x y) * (d * iU x y * iU x y)); [rewrite <- E; ring|]. field. exact N.
Qed.

(** A sum of two points *)
Section Sum.
Variables x1 y1 x2 y2 x3 y3 : F.
Hypothesis H1 : on1 x1 y1.
Hypothesis H2 : on1 x2 y2.
Notation u1 := (iU x1 y1). Notation u2 := (iU x2 y2). Notation u3 := (iU x3 y3).
Notation C1 := (iC x1 y1). Notation C2 := (iC x2 y2). Notation C3 := (iC x3 y3).
Notation N1 := (iN x1 y1). Notation N2 := (iN x2 y2). Notation N3 := (iN x3 y3).
Notation M1 := (iM x1 y1). Notation M2 := (iM x2 y2). Notation M3 := (iM x3 y3).
Let m := d * u1 * u2.
Let D := (1 + m) * (1 - m).
Hypothesis E3 : x3 * (1 + m) = x1 * y2 + x2 * y1.
Hypothesis G3 : y3 * (1 - m) = y1 * y2 - x1 * x2.
Lemma sum_u : u3 * D = u1 * C2 + u2 * C1.
Proof.
  unfold D. transitivity ((x3 * (1 + m)) * (y3 * (1 - m))); [unfold iU; ring|]. rewrite E3, G3. unfold iU, iC. ring.
Qed.
Lemma sum_C : C3 * (D * D) = C1 * C2 * (1 + m * m) + (1 + 1) * m * (N1 * N2) - (1 + 1 + 1 + 1) * (u1 * u2) * (1 + m * m).
Proof.
  unfold D. transitivity ((y3 * (1 - m)) * (y3 * (1 - m)) * ((1 + m) * (1 + m)) - (x3 * (1 + m)) * (x3 * (1 + m)) * ((1 - m) * (1 - m))).
  { unfold iC. ring. }
  rewrite E3, G3. unfold iC, iN, iU. generalize m. intro m'. ring.
Qed.
End Sum.

(** The four combinations of the addition on E', for the images of two points *)
Section Formulas.
Variables u1 C1 u2 C2 u3 C3 : F.
Let n1 := d * u1 * u1. Let n2 := d * u2 * u2. Let m := d * u1 * u2.
Let N1 := 1 + n1. Let N2 := 1 + n2. Let M1 := 1 - n1. Let M2 := 1 - n2.
Let D := (1 + m) * (1 - m).
Let N3 := 1 + d * u3 * u3. Let M3 := 1 - d * u3 * u3.
Let four := 1 + 1 + 1 + 1.
Hypothesis Q1 : C1 * C1 = N1 * N1 - four * u1 * u1.
Hypothesis Q2 : C2 * C2 = N2 * N2 - four * u2 * u2.
Hypothesis U3 : u3 * D = u1 * C2 + u2 * C1.
Hypothesis V3 : C3 * (D * D) = C1 * C2 * (1 + m * m) + (1 + 1) * m * (N1 * N2) - four * (u1 * u2) * (1 + m * m).
Hypothesis DN : D <> 0.
Let dp := C1 * M1 * (C2 * M2) + (d - 1) * four * (u1 * N1) * (u2 * N2).
Let dm := C1 * M1 * (C2 * M2) - (d - 1) * four * (u1 * N1) * (u2 * N2).
Lemma canc k x y : k <> 0 -> k * x = k * y -> x = y.
Proof. intros Hk E. transitivity (fD (k * x) k); [field; exact Hk|]. rewrite E. field. exact Hk. Qed.
Lemma lin (k k' x y a b : F) : x = y -> a - b = k * (x - y) -> a = b.
Proof. intros -> E. apply eq_sub. rewrite E. ring. Qed.
Lemma lin2 (k k' x y x' y' a b : F) : x = y -> x' = y' -> a - b = k * (x - y) + k' * (x' - y') -> a = b.
Proof. intros -> -> E. apply eq_sub. rewrite E. ring. Qed.
Lemma form_x : dp * u3 = (u1 * M1 * (N2 * C2) + u2 * M2 * (N1 * C1)) * C3.
Proof.
  apply (canc (D * D)); [apply nz_mul; exact DN|].
  transitivity (dp * (u3 * D) * D); [ring|]. rewrite U3.
  transitivity ((u1 * M1 * (N2 * C2) + u2 * M2 * (N1 * C1)) * (C3 * (D * D))); [|ring]. rewrite V3.
  apply (lin2 (C2 * (u2 * M1 * M2 * D - u2 * M2 * N1 * (1 + m * m))) (C1 * (u1 * M1 * M2 * D - u1 * M1 * N2 * (1 + m * m))) _ _ _ _ _ _ Q1 Q2).
  unfold dp, M1, M2, N1, N2, D, m, n1, n2, four. ring.
Qed.
Lemma sq_u : (u1 * C2 + u2 * C1) * (u1 * C2 + u2 * C1) = u1 * u1 * (N2 * N2 - four * u2 * u2) + u2 * u2 * (N1 * N1 - four * u1 * u1) + (1 + 1) * (u1 * u2) * (C1 * C2).
Proof. rewrite <- Q1, <- Q2. ring. Qed.
Lemma sq_C : (C1 * C2) * (C1 * C2) = (N1 * N1 - four * u1 * u1) * (N2 * N2 - four * u2 * u2).
Proof. rewrite <- Q1, <- Q2. ring. Qed.
Lemma form_y : dm * N3 = (N1 * C1 * (N2 * C2) + four * (u1 * M1) * (u2 * M2)) * M3.
Proof.
  apply (canc (D * D)); [apply nz_mul; exact DN|].
  transitivity (dm * (D * D + d * ((u3 * D) * (u3 * D)))); [unfold N3; ring|].
  transitivity ((N1 * C1 * (N2 * C2) + four * (u1 * M1) * (u2 * M2)) * (D * D - d * ((u3 * D) * (u3 * D)))); [|unfold M3; ring].
  rewrite U3, sq_u. pose proof sq_C as K. replace dm with ((C1 * C2) * (M1 * M2) - (d - 1) * four * (u1 * N1) * (u2 * N2)) by (unfold dm; ring).
  replace (N1 * C1 * (N2 * C2)) with (C1 * C2 * (N1 * N2)) by ring.
  set (q := C1 * C2) in *. clearbody q.
  apply (lin ((1 + 1) * d * u1 * u2 * (M1 * M2 + N1 * N2)) 0 _ _ _ _ K).
  unfold M1, M2, N1, N2, D, m, n1, n2, four. ring.
Qed.
(** The denominators: C of the sum times M of the difference, and the converse *)
Lemma form_dp u4 : u4 * D = u1 * C2 - u2 * C1 -> dp = C3 * (1 - d * u4 * u4) * (D * D).
Proof.
  intro U4. apply (canc (D * D)); [apply nz_mul; exact DN|].
  transitivity ((C3 * (D * D)) * (D * D - d * ((u4 * D) * (u4 * D)))); [|ring].
  rewrite U4, V3. pose proof sq_C as K.
  replace ((u1 * C2 - u2 * C1) * (u1 * C2 - u2 * C1)) with (u1 * u1 * (N2 * N2 - four * u2 * u2) + u2 * u2 * (N1 * N1 - four * u1 * u1) - (1 + 1) * (u1 * u2) * (C1 * C2)) by (rewrite <- Q1, <- Q2; ring).
  replace dp with ((C1 * C2) * (M1 * M2) + (d - 1) * four * (u1 * N1) * (u2 * N2)) by (unfold dp; ring).
  set (q := C1 * C2) in *. clearbody q.
  apply (lin (- ((1 + m * m) * d * (1 + 1) * (u1 * u2))) 0 _ _ _ _ K).
  unfold M1, M2, N1, N2, D, m, n1, n2, four. ring.
Qed.
End Formulas.
End IsoField.
