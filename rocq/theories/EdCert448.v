(** Certificates for sums of points on the curve isogenous to edwards448, without inversions. *)
From Coq Require Import ZArith Znumtheory Lia List Bool.
From Verif Require Import SpecEd SpecIso CurveInst EdPoint EdInst448 EdCert.
Import ListNotations.
Open Scope Z_scope.
Local Notation p := p_ed448.
Definition p448_lit : Z := Eval vm_compute in p_ed448.
Definition m224 : Z := Eval vm_compute in Z.ones 224.
Definition m448 : Z := Eval vm_compute in Z.ones 448.
(** 2^448 = 2^224 + 1 *)
Definition red44 (x : Z) : Z := let h := Z.shiftr x 448 in Z.land x m448 + h + Z.shiftl h 224.
Definition zero44 (x : Z) : bool := let y := red44 (red44 x) in (y =? 0) || (y =? p448_lit).
(** Multiplication with three products of half the size *)
Definition mulk (x y : Z) : Z :=
  let x0 := Z.land x m224 in let x1 := Z.shiftr x 224 in let y0 := Z.land y m224 in let y1 := Z.shiftr y 224 in
  let a := zmul x0 y0 in let b := zmul x1 y1 in let c := zmul (x0 + x1) (y0 + y1) in
  red44 (a + b + Z.shiftl (c - a) 224).

Lemma p44_nz : p <> 0. Proof. discriminate. Qed.
Lemma split_at n x : 0 <= n -> x = Z.land x (Z.ones n) + 2 ^ n * Z.shiftr x n.
Proof. intro H. rewrite Z.land_ones, Z.shiftr_div_pow2 by exact H. pose proof (Z.div_mod x (2 ^ n) ltac:(pose proof (Z.pow_pos_nonneg 2 n ltac:(lia) H); lia)). lia. Qed.
Lemma modp_eq x y k : x = y + k * p -> x mod p = y mod p.
Proof. intros ->. apply Z_mod_plus_full. Qed.
Lemma red44_ok x : red44 x mod p = x mod p.
Proof.
  unfold red44. pose proof (split_at 448 x ltac:(lia)) as E. change (Z.ones 448) with m448 in E.
  set (h := Z.shiftr x 448) in *. set (l := Z.land x m448) in *. clearbody h l. rewrite Z.shiftl_mul_pow2 by lia.
  apply (modp_eq _ _ (- h)). rewrite E. unfold p_ed448. ring.
Qed.
Lemma zero44_ok x : zero44 x = true -> x mod p = 0.
Proof.
  unfold zero44. intro H. rewrite <- (red44_ok x), <- (red44_ok (red44 x)). set (y := red44 (red44 x)) in *. clearbody y.
  apply orb_prop in H. destruct H as [H|H]; apply Z.eqb_eq in H; rewrite H; [reflexivity|]. apply Z_mod_same_full.
Qed.
Lemma kara f x y x0 x1 y0 y1 a b c : x = x0 + f * x1 -> y = y0 + f * y1 -> a = x0 * y0 -> b = x1 * y1 -> c = (x0 + x1) * (y0 + y1) ->
  a + b + (c - a) * f = x * y + (- (x1 * y1)) * (f * f - f - 1).
Proof. intros -> -> -> -> ->. ring. Qed.
Lemma mulk_ok x y : mulk x y mod p = (x * y) mod p.
Proof.
  unfold mulk. rewrite red44_ok, !zmul_ok, Z.shiftl_mul_pow2 by lia.
  pose proof (split_at 224 x ltac:(lia)) as Ex. pose proof (split_at 224 y ltac:(lia)) as Ey. change (Z.ones 224) with m224 in *.
  set (x0 := Z.land x m224) in *. set (x1 := Z.shiftr x 224) in *. set (y0 := Z.land y m224) in *. set (y1 := Z.shiftr y 224) in *. clearbody x0 x1 y0 y1.
  apply (modp_eq _ _ (- (x1 * y1))).
  rewrite (kara (2 ^ 224) x y x0 x1 y0 y1 _ _ _ Ex Ey eq_refl eq_refl eq_refl).
  replace (2 ^ 224 * 2 ^ 224 - 2 ^ 224 - 1) with p by reflexivity. ring.
Qed.

Definition inp (x : Z) : bool := (0 <=? x) && (x <? p448_lit).
Definition d_iso : Z := 39082.
Definition p4_lit : Z := Eval vm_compute in 4 * p_ed448.
(** x3 (1 - u) = x1 y2 + x2 y1 and y3 (1 + u) = y1 y2 + x1 x2, where u = 39082 x1 x2 y1 y2 *)
Definition add44 (P Q R : Z * Z) : bool :=
  let (x1, y1) := P in let (x2, y2) := Q in let (x3, y3) := R in
  let A := mulk x1 x2 in let B := mulk y1 y2 in let C := mulk (x1 + y1) (x2 + y2) in
  let u := red44 (d_iso * mulk A B) in
  inp x3 && inp y3 && zero44 (x3 - mulk x3 u - (C - A - B)) && zero44 (y3 + mulk y3 u - (B + A)).
(** x3 g = 2 x y and y3 (2 - g) = y^2 + x^2, where g = y^2 - x^2 *)
Definition dbl44 (P R : Z * Z) : bool :=
  let (x, y) := P in let (x3, y3) := R in
  let A := mulk x x in let B := mulk y y in let C := mulk (x + y) (x + y) in let g := red44 (B + p4_lit - A) in
  inp x3 && inp y3 && zero44 (mulk x3 g - (C - A - B)) && zero44 (2 * y3 - mulk y3 g - (B + A)).

Lemma inp_ok x : inp x = true -> 0 <= x < p.
Proof. unfold inp. intro H. apply andb_prop in H. destruct H as [L U]. apply Z.leb_le in L. apply Z.ltb_lt in U. split; [exact L|exact U]. Qed.
Lemma iso_small P : 0 <= fst (iso448 P) < p /\ 0 <= snd (iso448 P) < p.
Proof. destruct P as [x y]. unfold iso448, iso. split; apply Z.mod_pos_bound; reflexivity. Qed.
(** Congruences *)
Section Congr.
Variable q : Z.
Hypothesis q0 : q <> 0.
Lemma congr x y : (x - y) mod q = 0 -> x mod q = y mod q. Proof. apply sub_mod0, q0. Qed.
Lemma cg x y : x mod q = y mod q -> exists k, x = y + k * q.
Proof.
  intro E. exists (x / q - y / q). pose proof (Z.div_mod x q q0). pose proof (Z.div_mod y q q0). nia.
Qed.
Lemma add_solve x1 y1 x2 y2 x3 y3 A B C U V X3U Y3U : A mod q = (x1 * x2) mod q -> B mod q = (y1 * y2) mod q -> C mod q = ((x1 + y1) * (x2 + y2)) mod q ->
  V mod q = (A * B) mod q -> U mod q = (d_iso * V) mod q -> X3U mod q = (x3 * U) mod q -> Y3U mod q = (y3 * U) mod q ->
  (x3 - X3U - (C - A - B)) mod q = 0 -> (y3 + Y3U - (B + A)) mod q = 0 ->
  (x3 * (1 * 1 + (-39081 - 1) * (x1 * y1) * (x2 * y2))) mod q = (x1 * y2 + x2 * y1) mod q /\
  (y3 * (1 * 1 - (-39081 - 1) * (x1 * y1) * (x2 * y2))) mod q = (y1 * y2 + x1 * x2) mod q.
Proof.
  intros HA HB HC HV HU HX HY E1 E2. apply congr in E1, E2. apply cg in HA, HB, HC, HV, HU, HX, HY, E1, E2.
  destruct HA as [ka KA], HB as [kb KB], HC as [kc KC], HV as [kv KV], HU as [ku KU], HX as [kx KX], HY as [ky KY], E1 as [k1 K1], E2 as [k2 K2].
  unfold d_iso in *.
  split.
  - rewrite <- (Z_mod_plus_full (x1 * y2 + x2 * y1) (k1 + kx + x3 * ku + x3 * 39082 * kv + x3 * 39082 * (ka * (y1 * y2) + kb * (x1 * x2) + ka * kb * q) + (kc - ka - kb)) q).
    f_equal. subst C. subst V. subst U. subst X3U. subst A B.
    match type of K1 with ?l = ?r => assert (K1' : l - r = 0) by lia end. clear K1. 
    match goal with |- ?l = ?r => enough (l - r = 0) by lia end. rewrite <- K1'. ring.
  - rewrite <- (Z_mod_plus_full (y1 * y2 + x1 * x2) (k2 - ky - y3 * ku - y3 * 39082 * kv - y3 * 39082 * (ka * (y1 * y2) + kb * (x1 * x2) + ka * kb * q) + (ka + kb)) q).
    f_equal. subst C. subst V. subst U. subst Y3U. subst A B.
    match type of K2 with ?l = ?r => assert (K2' : l - r = 0) by lia end. clear K2.
    match goal with |- ?l = ?r => enough (l - r = 0) by lia end. rewrite <- K2'. ring.
Qed.
Lemma dbl_solve x y x3 y3 A B C g X3 Y3 : A mod q = (x * x) mod q -> B mod q = (y * y) mod q -> C mod q = ((x + y) * (x + y)) mod q ->
  g mod q = (B - A) mod q -> X3 mod q = (x3 * g) mod q -> Y3 mod q = (y3 * g) mod q ->
  (X3 - (C - A - B)) mod q = 0 -> (2 * y3 - Y3 - (B + A)) mod q = 0 ->
  (x3 * (y * y - x * x)) mod q = (2 * x * y) mod q /\ (y3 * (2 * 1 * 1 - (y * y - x * x))) mod q = (y * y + x * x) mod q.
Proof.
  intros HA HB HC HG HX HY E1 E2. apply congr in E1, E2. apply cg in HA, HB, HC, HG, HX, HY, E1, E2.
  destruct HA as [ka KA], HB as [kb KB], HC as [kc KC], HG as [kg KG], HX as [kx KX], HY as [ky KY], E1 as [k1 K1], E2 as [k2 K2].
  split.
  - rewrite <- (Z_mod_plus_full (2 * x * y) (k1 - kx - x3 * kg - x3 * (kb - ka) + (kc - ka - kb)) q).
    f_equal. subst C g X3 A B.
    match type of K1 with ?l = ?r => assert (K1' : l - r = 0) by lia end. clear K1.
    match goal with |- ?l = ?r => enough (l - r = 0) by lia end. rewrite <- K1'. ring.
  - rewrite <- (Z_mod_plus_full (y * y + x * x) (k2 + ky + y3 * kg + y3 * (kb - ka) + (ka + kb)) q).
    f_equal. subst C g Y3 A B.
    match type of K2 with ?l = ?r => assert (K2' : l - r = 0) by lia end. clear K2.
    match goal with |- ?l = ?r => enough (l - r = 0) by lia end. rewrite <- K2'. ring.
Qed.
Lemma quot_solve e x y x3 A B C g X3 : A mod q = (x * x) mod q -> B mod q = (y * y) mod q -> C mod q = ((x + y) * (x + y)) mod q ->
  g mod q = (B + e * A) mod q -> X3 mod q = (x3 * g) mod q -> (X3 - (C - A - B)) mod q = 0 -> (x3 * (y * y + e * (x * x))) mod q = (2 * x * y) mod q.
Proof.
  intros HA HB HC HG HX E1. apply congr in E1. apply cg in HA, HB, HC, HG, HX, E1.
  destruct HA as [ka KA], HB as [kb KB], HC as [kc KC], HG as [kg KG], HX as [kx KX], E1 as [k1 K1].
  rewrite <- (Z_mod_plus_full (2 * x * y) (k1 - kx - x3 * kg - x3 * (kb + e * ka) + (kc - ka - kb)) q).
  f_equal. subst C g X3 A B.
  match type of K1 with ?l = ?r => assert (K1' : l - r = 0) by lia end. clear K1.
  match goal with |- ?l = ?r => enough (l - r = 0) by lia end. rewrite <- K1'. ring.
Qed.
Lemma rest_solve e x y y3 A B g Y3 : A mod q = (x * x) mod q -> B mod q = (y * y) mod q ->
  g mod q = (B + e * A) mod q -> Y3 mod q = (y3 * g) mod q -> (2 * y3 - Y3 - g) mod q = 0 ->
  (y3 * (2 - (y * y + e * (x * x)))) mod q = (y * y + e * (x * x)) mod q.
Proof.
  intros HA HB HG HY E2. apply congr in E2. apply cg in HA, HB, HG, HY, E2.
  destruct HA as [ka KA], HB as [kb KB], HG as [kg KG], HY as [ky KY], E2 as [k2 K2].
  rewrite <- (Z_mod_plus_full (y * y + e * (x * x)) (k2 + ky + y3 * kg + y3 * (kb + e * ka) + (kg + kb + e * ka)) q).
  f_equal. subst g Y3 A B.
  match type of K2 with ?l = ?r => assert (K2' : l - r = 0) by lia end. clear K2.
  match goal with |- ?l = ?r => enough (l - r = 0) by lia end. rewrite <- K2'. ring.
Qed.
End Congr.
Lemma aff_reps P : reps448 (fst (iso448 P)) (snd (iso448 P)) 1 (fst (iso448 P) * snd (iso448 P)) (iso448 P).
Proof.
  destruct (iso448 P) as [x y]. cbn [fst snd]. unfold reps448, represents. cbv beta iota zeta. 
  split; [discriminate|]. rewrite ?Z.mul_1_r. repeat split.
Qed.
Ltac one44 := apply (f_equal (fun z => z mod p44)); unfold d_ed448; ring.
Lemma add44_ok P Q R : on448 P -> on448 Q -> add44 (iso448 P) (iso448 Q) R = true -> R = iso448 (add448 P Q).
Proof.
  intros HP HQ. pose proof (aff_reps P) as RP. pose proof (aff_reps Q) as RQ.
  destruct (iso448 P) as [x1 y1] eqn:EP, (iso448 Q) as [x2 y2] eqn:EQ, R as [x3 y3]. cbn [fst snd] in *. unfold add44. intro C.
  apply andb_prop in C. destruct C as [C C4]. apply andb_prop in C. destruct C as [C C3]. apply andb_prop in C. destruct C as [C1 C2].
  apply inp_ok in C1, C2. apply zero44_ok in C3, C4.
  destruct (add_solve p p44_nz x1 y1 x2 y2 x3 y3 _ _ _ _ _ _ _ (mulk_ok _ _) (mulk_ok _ _) (mulk_ok _ _) (mulk_ok _ _) (red44_ok _) (mulk_ok _ _) (mulk_ok _ _) C3 C4) as [X Y].
  rewrite <- EP in RP. rewrite <- EQ in RQ.
  destruct (iso_small (add448 P Q)) as [S1 S2].
  refine (cert p (x1 * y2 + x2 * y1) (1 * 1 - (-39081 - 1) * (x1 * y1) * (x2 * y2)) (1 * 1 + (-39081 - 1) * (x1 * y1) * (x2 * y2)) (y1 * y2 + x1 * x2)
    x3 y3 _ p44_prime S1 S2 _ C1 C2 X Y).
  refine (iso448_add 1 1 _ _ _ _ _ _ _ _ _ _ _ _ _ _ _ _ _ _ HP HQ RP RQ _ _ _ _ _ _ eq_refl eq_refl eq_refl eq_refl).
  - discriminate.
  - discriminate.
  - one44.
  - one44.
  - one44.
  - one44.
Qed.
Lemma dbl44_ok P R : on448 P -> dbl44 (iso448 P) R = true -> R = iso448 (add448 P P).
Proof.
  intros HP. pose proof (aff_reps P) as RP.
  destruct (iso448 P) as [x y] eqn:EP, R as [x3 y3]. cbn [fst snd] in *. unfold dbl44. intro C.
  apply andb_prop in C. destruct C as [C C4]. apply andb_prop in C. destruct C as [C C3]. apply andb_prop in C. destruct C as [C1 C2].
  apply inp_ok in C1, C2. apply zero44_ok in C3, C4.
  assert (G : forall A B, red44 (B + p4_lit - A) mod p = (B - A) mod p).
  { intros A B. rewrite red44_ok. apply (modp_eq _ _ 4). replace p4_lit with (4 * p) by reflexivity. ring. }
  destruct (dbl_solve p p44_nz x y x3 y3 _ _ _ _ _ _ (mulk_ok _ _) (mulk_ok _ _) (mulk_ok _ _) (G _ _) (mulk_ok _ _) (mulk_ok _ _) C3 C4) as [X Y].
  rewrite <- EP in RP.
  destruct (iso_small (add448 P P)) as [S1 S2].
  refine (cert p (2 * x * y) (2 * 1 * 1 - (y * y - x * x)) (y * y - x * x) (y * y + x * x) x3 y3 _ p44_prime S1 S2 _ C1 C2 X Y).
  refine (iso448_dbl 1 1 _ _ _ _ _ _ _ _ _ _ _ _ _ HP RP _ _ _ _ _ _ eq_refl eq_refl eq_refl eq_refl).
  - discriminate.
  - discriminate.
  - one44.
  - one44.
  - one44.
  - one44.
Qed.
(** The isogeny: x3 (y^2 - x^2) = 2 x y and y3 (2 - (x^2 + y^2)) = x^2 + y^2 *)
Definition iso44 (P R : Z * Z) : bool :=
  let (x, y) := P in let (x3, y3) := R in
  let A := mulk x x in let B := mulk y y in let C := mulk (x + y) (x + y) in let g := red44 (B + p4_lit - A) in let h := red44 (B + A) in
  inp x3 && inp y3 && zero44 (mulk x3 g - (C - A - B)) && zero44 (2 * y3 - mulk y3 h - h).
(** The isogeny back: x3 (y^2 + x^2) = 2 x y and y3 (2 - (y^2 - x^2)) = y^2 - x^2 *)
Definition back44 (P R : Z * Z) : bool :=
  let (x, y) := P in let (x3, y3) := R in
  let A := mulk x x in let B := mulk y y in let C := mulk (x + y) (x + y) in let g := red44 (B + p4_lit - A) in let h := red44 (B + A) in
  inp x3 && inp y3 && zero44 (mulk x3 h - (C - A - B)) && zero44 (2 * y3 - mulk y3 g - g).
Lemma minus44 A B : red44 (B + p4_lit - A) mod p = (B + -1 * A) mod p.
Proof. rewrite red44_ok. apply (modp_eq _ _ 4). replace p4_lit with (4 * p) by reflexivity. ring. Qed.
Lemma plus44 A B : red44 (B + A) mod p = (B + 1 * A) mod p.
Proof. rewrite red44_ok. now rewrite Z.mul_1_l. Qed.
Lemma iso44_ok P R : on448 P -> iso44 P R = true -> R = iso448 P.
Proof.
  intros HP. destruct (iso_small P) as [S1 S2]. destruct P as [x y], R as [x3 y3]. unfold iso44. intro C.
  apply andb_prop in C. destruct C as [C C4]. apply andb_prop in C. destruct C as [C C3]. apply andb_prop in C. destruct C as [C1 C2].
  apply inp_ok in C1, C2. apply zero44_ok in C3, C4.
  pose proof (quot_solve p p44_nz (-1) x y x3 _ _ _ _ _ (mulk_ok _ _) (mulk_ok _ _) (mulk_ok _ _) (minus44 _ _) (mulk_ok _ _) C3) as X.
  pose proof (rest_solve p p44_nz 1 x y y3 _ _ _ _ (mulk_ok _ _) (mulk_ok _ _) (plus44 _ _) (mulk_ok _ _) C4) as Y.
  refine (cert p (2 * x * y) (2 - (y * y + 1 * (x * x))) (y * y + -1 * (x * x)) (y * y + 1 * (x * x)) x3 y3 _ p44_prime S1 S2 _ C1 C2 X Y).
  refine (iso448_affine _ _ _ _ x y HP _ _ _ _); one44.
Qed.
Lemma back_solve bx by' px py E F G H X Y V : 0 <= px < p -> 0 <= py < p -> 0 <= bx < p -> 0 <= by' < p ->
  V mod p <> 0 /\ X mod p = (px * V) mod p /\ Y mod p = (py * V) mod p -> X = E * F -> Y = G * H -> V = F * H ->
  (bx * H) mod p = E mod p -> (by' * F) mod p = G mod p -> (bx, by') = (px, py).
Proof.
  intros H1 H2 H3 H4 (N & EX & EY) -> -> -> Ex Ey.
  assert (X : (bx * (F * H)) mod p = (px * (F * H)) mod p).
  { rewrite <- EX. replace (bx * (F * H)) with (bx * H * F) by ring. rewrite <- Zmult_mod_idemp_l, Ex. apply Zmult_mod_idemp_l. }
  assert (Y : (by' * (F * H)) mod p = (py * (F * H)) mod p).
  { rewrite <- EY. replace (by' * (F * H)) with (by' * F * H) by ring. rewrite <- Zmult_mod_idemp_l, Ey. apply Zmult_mod_idemp_l. }
  apply (cancel_mod p (F * H)) in X; [|exact p44_prime|exact N]. apply (cancel_mod p (F * H)) in Y; [|exact p44_prime|exact N].
  rewrite !Z.mod_small in X, Y by assumption. subst. reflexivity.
Qed.
Lemma back44_ok P R : on448 P -> back44 (iso448 P) R = true -> R = mul448 4 P.
Proof.
  intros HP. pose proof (aff_reps P) as RP. pose proof (mul448_on 4 P HP) as on4.
  destruct (iso448 P) as [x y] eqn:EP, R as [x3 y3]. cbn [fst snd] in RP. unfold back44. intro C.
  apply andb_prop in C. destruct C as [C C4]. apply andb_prop in C. destruct C as [C C3]. apply andb_prop in C. destruct C as [C1 C2].
  apply inp_ok in C1, C2. apply zero44_ok in C3, C4.
  pose proof (quot_solve p p44_nz 1 x y x3 _ _ _ _ _ (mulk_ok _ _) (mulk_ok _ _) (mulk_ok _ _) (plus44 _ _) (mulk_ok _ _) C3) as X.
  pose proof (rest_solve p p44_nz (-1) x y y3 _ _ _ _ (mulk_ok _ _) (mulk_ok _ _) (minus44 _ _) (mulk_ok _ _) C4) as Y.
  rewrite <- EP in RP.
  set (E := 2 * x * y) in *. set (H := y * y + 1 * (x * x)) in *. set (G := y * y + -1 * (x * x)) in *. set (F := 2 - G) in *.
  assert (K : (F * H) mod p <> 0 /\ (E * F) mod p = (fst (mul448 4 P) * (F * H)) mod p /\ (G * H) mod p = (snd (mul448 4 P) * (F * H)) mod p).
  { refine (iso448_back 1 1 x y 1 (x * y) P E F G H _ _ _ HP RP _ _ _ _ _ _ eq_refl eq_refl eq_refl); try discriminate; subst F H G E; one44. }
  clearbody E F G H. destruct (mul448 4 P) as [px py]. destruct on4 as (R1 & R2 & _). cbn [fst snd] in K.
  exact (back_solve x3 y3 px py E F G H _ _ _ R1 R2 C1 C2 K eq_refl eq_refl eq_refl X Y).
Qed.
