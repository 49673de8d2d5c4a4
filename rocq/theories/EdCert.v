(** Certificates for sums of curve points: a claimed sum is checked without inversions. *)
From Coq Require Import ZArith Znumtheory Lia List Bool.
From Verif Require Import SpecEd CurveInst EdPoint EdInst.
Import ListNotations.
Open Scope Z_scope.

(** From a projective representation of the sum to an affine certificate. *)
Lemma cancel_mod p g x y : Znumtheory.prime p -> g mod p <> 0 -> (x * g) mod p = (y * g) mod p -> x mod p = y mod p.
Proof.
  intros Pp G E. assert (P0 : p <> 0) by (pose proof (prime_ge_2 p Pp); lia).
  assert (D : (p | (x - y) * g)).
  { apply Zmod_divide; [exact P0|]. rewrite Z.mul_sub_distr_r, Zminus_mod, E, Z.sub_diag. reflexivity. }
  destruct (prime_mult p Pp _ _ D) as [[q Q]|[q Q]].
  - replace x with (y + q * p) by lia. apply Z_mod_plus_full.
  - exfalso. apply G. rewrite Q. apply Z_mod_mult.
Qed.
Lemma nz_factor p f g : p <> 0 -> (f * g) mod p <> 0 -> f mod p <> 0 /\ g mod p <> 0.
Proof.
  intros P0 N. split; intro E; apply N.
  - rewrite <- Z.mul_mod_idemp_l, E by exact P0. reflexivity.
  - rewrite <- Z.mul_mod_idemp_r, E by exact P0. rewrite Z.mul_0_r. reflexivity.
Qed.
Lemma cert p E F G H x y P : Znumtheory.prime p -> 0 <= fst P < p -> 0 <= snd P < p ->
  represents p (E * F) (G * H) (F * G) (E * H) P -> 0 <= x < p -> 0 <= y < p ->
  (x * G) mod p = E mod p -> (y * F) mod p = H mod p -> (x, y) = P.
Proof.
  intros Pp Rx Ry R Hx Hy Cx Cy. destruct P as [px py]. cbn [fst snd] in *. destruct R as (N & X & Y & _).
  assert (P0 : p <> 0) by lia.
  destruct (nz_factor _ _ _ P0 N) as [NF NG].
  assert (A : x mod p = px mod p).
  { apply (cancel_mod p G); [exact Pp|exact NG|]. rewrite Cx. apply (cancel_mod p F); [exact Pp|exact NF|]. rewrite X. f_equal. ring. }
  assert (B : y mod p = py mod p).
  { apply (cancel_mod p F); [exact Pp|exact NF|]. rewrite Cy. apply (cancel_mod p G); [exact Pp|exact NG|].
    replace (H * G) with (G * H) by ring. rewrite Y. f_equal. ring. }
  rewrite !Z.mod_small in A, B by assumption. now subst.
Qed.

(** Multiplication with a window of four bits: the same product, cheaper to compute *)
Fixpoint wmul_go (y1 y3 y5 y7 y9 y11 y13 y15 x : positive) {struct x} : positive :=
  match x with
  | xH => y1
  | xO xH => (xO y1)
  | xI xH => y3
  | xO (xO xH) => (xO (xO y1))
  | xI (xO xH) => y5
  | xO (xI xH) => (xO y3)
  | xI (xI xH) => y7
  | xO (xO (xO xH)) => (xO (xO (xO y1)))
  | xI (xO (xO xH)) => y9
  | xO (xI (xO xH)) => (xO y5)
  | xI (xI (xO xH)) => y11
  | xO (xO (xI xH)) => (xO (xO y3))
  | xI (xO (xI xH)) => y13
  | xO (xI (xI xH)) => (xO y7)
  | xI (xI (xI xH)) => y15
  | xO (xO (xO (xO r))) => (xO (xO (xO (xO (wmul_go y1 y3 y5 y7 y9 y11 y13 y15 r)))))
  | xI (xO (xO (xO r))) => Pos.add y1 (xO (xO (xO (xO (wmul_go y1 y3 y5 y7 y9 y11 y13 y15 r)))))
  | xO (xI (xO (xO r))) => Pos.add (xO y1) (xO (xO (xO (xO (wmul_go y1 y3 y5 y7 y9 y11 y13 y15 r)))))
  | xI (xI (xO (xO r))) => Pos.add y3 (xO (xO (xO (xO (wmul_go y1 y3 y5 y7 y9 y11 y13 y15 r)))))
  | xO (xO (xI (xO r))) => Pos.add (xO (xO y1)) (xO (xO (xO (xO (wmul_go y1 y3 y5 y7 y9 y11 y13 y15 r)))))
  | xI (xO (xI (xO r))) => Pos.add y5 (xO (xO (xO (xO (wmul_go y1 y3 y5 y7 y9 y11 y13 y15 r)))))
  | xO (xI (xI (xO r))) => Pos.add (xO y3) (xO (xO (xO (xO (wmul_go y1 y3 y5 y7 y9 y11 y13 y15 r)))))
  | xI (xI (xI (xO r))) => Pos.add y7 (xO (xO (xO (xO (wmul_go y1 y3 y5 y7 y9 y11 y13 y15 r)))))
  | xO (xO (xO (xI r))) => Pos.add (xO (xO (xO y1))) (xO (xO (xO (xO (wmul_go y1 y3 y5 y7 y9 y11 y13 y15 r)))))
  | xI (xO (xO (xI r))) => Pos.add y9 (xO (xO (xO (xO (wmul_go y1 y3 y5 y7 y9 y11 y13 y15 r)))))
  | xO (xI (xO (xI r))) => Pos.add (xO y5) (xO (xO (xO (xO (wmul_go y1 y3 y5 y7 y9 y11 y13 y15 r)))))
  | xI (xI (xO (xI r))) => Pos.add y11 (xO (xO (xO (xO (wmul_go y1 y3 y5 y7 y9 y11 y13 y15 r)))))
  | xO (xO (xI (xI r))) => Pos.add (xO (xO y3)) (xO (xO (xO (xO (wmul_go y1 y3 y5 y7 y9 y11 y13 y15 r)))))
  | xI (xO (xI (xI r))) => Pos.add y13 (xO (xO (xO (xO (wmul_go y1 y3 y5 y7 y9 y11 y13 y15 r)))))
  | xO (xI (xI (xI r))) => Pos.add (xO y7) (xO (xO (xO (xO (wmul_go y1 y3 y5 y7 y9 y11 y13 y15 r)))))
  | xI (xI (xI (xI r))) => Pos.add y15 (xO (xO (xO (xO (wmul_go y1 y3 y5 y7 y9 y11 y13 y15 r)))))
  end.
Definition wmul (x y : positive) : positive :=
  let y2 := xO y in let y3 := Pos.add y y2 in let y5 := Pos.add y3 y2 in let y7 := Pos.add y5 y2 in let y9 := Pos.add y7 y2 in
  let y11 := Pos.add y9 y2 in let y13 := Pos.add y11 y2 in let y15 := Pos.add y13 y2 in wmul_go y y3 y5 y7 y9 y11 y13 y15 x.
Definition zmul (x y : Z) : Z := match x, y with Zpos a, Zpos b => Zpos (wmul a b) | _, _ => x * y end.
Lemma wmul_go_ok : forall x y, wmul_go y (3*y) (5*y) (7*y) (9*y) (11*y) (13*y) (15*y) x = (x * y)%positive.
Proof.
  fix IH 1. intros x y.
  destruct x as [x|x|]; [destruct x as [x|x|]; [destruct x as [x|x|]; [destruct x as [x|x|]|destruct x as [x|x|]|]|destruct x as [x|x|]; [destruct x as [x|x|]|destruct x as [x|x|]|]|]
    |destruct x as [x|x|]; [destruct x as [x|x|]; [destruct x as [x|x|]|destruct x as [x|x|]|]|destruct x as [x|x|]; [destruct x as [x|x|]|destruct x as [x|x|]|]|]|];
  cbn [wmul_go]; rewrite ?IH; lia.
Qed.
Lemma wmul_ok x y : wmul x y = (x * y)%positive.
Proof. unfold wmul. rewrite <- wmul_go_ok. f_equal; lia. Qed.
Lemma zmul_ok x y : zmul x y = x * y.
Proof. destruct x, y; try reflexivity. cbn [zmul]. rewrite wmul_ok. reflexivity. Qed.

Section Chk.
Variables (p a d : Z).
(** A cheap partial reduction and a test that may only accept multiples of p *)
Variables (red : Z -> Z) (zero : Z -> bool).
Definition inb (x : Z) : bool := (0 <=? x) && (x <? p).
(** x3 (1 + t) = x1 y2 + x2 y1 and y3 (1 - t) = y1 y2 - a x1 x2, where t = d x1 x2 y1 y2 *)
Definition add_chk (P Q R : Z * Z) : bool :=
  let (x1, y1) := P in let (x2, y2) := Q in let (x3, y3) := R in
  let A := red (zmul x1 x2) in let B := red (zmul y1 y2) in let C := zmul (x1 + y1) (x2 + y2) in
  let t := red (zmul d (red (zmul A B))) in
  inb x3 && inb y3 && zero (x3 + zmul x3 t - (C - A - B)) && zero (y3 - zmul y3 t - (B - a * A)).
End Chk.
Lemma sub_mod0 p x y : p <> 0 -> (x - y) mod p = 0 -> x mod p = y mod p.
Proof. intros P0 E. replace x with (y + (x - y)) by ring. rewrite <- Z.add_mod_idemp_r, E, Z.add_0_r by assumption. reflexivity. Qed.
Lemma add_chk_inv p a d red zero P Q R : p <> 0 -> (forall x, red x mod p = x mod p) -> (forall x, zero x = true -> x mod p = 0) ->
  add_chk p a d red zero P Q R = true ->
  let t := d * (fst P * snd P) * (fst Q * snd Q) in
  (0 <= fst R < p /\ 0 <= snd R < p) /\ (fst R * (1 + t)) mod p = (fst P * snd Q + fst Q * snd P) mod p /\
  (snd R * (1 - t)) mod p = (snd P * snd Q - a * (fst P * fst Q)) mod p.
Proof.
  destruct P as [x1 y1], Q as [x2 y2], R as [x3 y3]. unfold add_chk, inb. rewrite !zmul_ok. cbn [fst snd]. intros P0 Hr Hz C.
  apply andb_prop in C. destruct C as [C C4]. apply andb_prop in C. destruct C as [C C3]. apply andb_prop in C. destruct C as [C1 C2].
  apply andb_prop in C1, C2. destruct C1 as [L1 U1], C2 as [L2 U2].
  apply Z.leb_le in L1, L2. apply Z.ltb_lt in U1, U2. apply Hz in C3, C4.
  apply sub_mod0 in C3, C4; try assumption.
  assert (T : forall z, (z * red (d * red (red (x1 * x2) * red (y1 * y2)))) mod p = (z * (d * (x1 * y1) * (x2 * y2))) mod p).
  { intro z. rewrite <- Z.mul_mod_idemp_r, Hr, Z.mul_mod_idemp_r by assumption. rewrite Z.mul_assoc, <- Z.mul_mod_idemp_r, Hr, Z.mul_mod_idemp_r by assumption.
    replace (z * d * (red (x1 * x2) * red (y1 * y2))) with (z * d * red (x1 * x2) * red (y1 * y2)) by ring.
    rewrite <- Z.mul_mod_idemp_r, Hr, Z.mul_mod_idemp_r by assumption.
    replace (z * d * red (x1 * x2) * (y1 * y2)) with (z * d * (y1 * y2) * red (x1 * x2)) by ring.
    rewrite <- Z.mul_mod_idemp_r, Hr, Z.mul_mod_idemp_r by assumption. f_equal. ring. }
  split; [split; split; assumption|]. split.
  - rewrite Z.mul_add_distr_l, <- Z.add_mod_idemp_r, <- T, Z.add_mod_idemp_r, Z.mul_1_r by assumption. rewrite C3.
    assert (S : forall z w, (z - red w) mod p = (z - w) mod p) by (intros; rewrite Zminus_mod, Hr, <- Zminus_mod; reflexivity).
    rewrite S. replace ((x1 + y1) * (x2 + y2) - red (x1 * x2) - y1 * y2) with ((x1 + y1) * (x2 + y2) - y1 * y2 - red (x1 * x2)) by ring.
    rewrite S. f_equal. ring.
  - rewrite Z.mul_sub_distr_l, Zminus_mod, <- T, <- Zminus_mod, Z.mul_1_r. rewrite C4.
    rewrite Zminus_mod, Hr, <- (Z.mul_mod_idemp_r a), Hr, Z.mul_mod_idemp_r, <- Zminus_mod by assumption. reflexivity.
Qed.

(** p = 2^n - c with a small c *)
Section Red.
Variables (n c : Z).
Hypothesis n_pos : 0 <= n.
Definition pmask : Z := Z.ones n.
Definition red_with (m x : Z) : Z := Z.land x m + c * Z.shiftr x n.
Lemma red_with_ok x : red_with (Z.ones n) x mod (2 ^ n - c) = x mod (2 ^ n - c).
Proof.
  unfold red_with. rewrite Z.land_ones, Z.shiftr_div_pow2 by assumption.
  assert (N : 2 ^ n <> 0) by (apply Z.pow_nonzero; [discriminate|assumption]).
  rewrite (Z.div_mod x (2 ^ n) N) at 3. rewrite <- (Z_mod_plus_full _ (x / 2 ^ n) (2 ^ n - c)). f_equal. ring.
Qed.
End Red.

Definition p255_lit : Z := Eval vm_compute in p_ed255.
Definition m255_lit : Z := Eval vm_compute in Z.ones 255.
Definition red25 (x : Z) : Z := red_with 255 19 m255_lit x.
Definition zero25 (x : Z) : bool := let y := red25 (red25 x) in (y =? 0) || (y =? p255_lit) || (y =? p255_lit + p255_lit).
Lemma red25_ok x : red25 x mod p_ed255 = x mod p_ed255. Proof. exact (red_with_ok 255 19 ltac:(discriminate) x). Qed.
Lemma zero25_ok x : zero25 x = true -> x mod p_ed255 = 0.
Proof.
  unfold zero25. rewrite <- (red25_ok x), <- (red25_ok (red25 x)). change p255_lit with p_ed255. generalize (red25 (red25 x)). intros y H.
  apply orb_prop in H. destruct H as [H|H]; [apply orb_prop in H; destruct H as [H|H]|]; apply Z.eqb_eq in H; rewrite H; reflexivity.
Qed.
Definition chk255 := add_chk p255_lit (-1) d_ed255 red25 zero25.
Theorem chk255_ok P Q R : on255 P -> on255 Q -> chk255 P Q R = true -> R = add255 P Q.
Proof.
  intros HP HQ C. destruct (add_chk_inv p_ed255 (-1) d_ed255 _ _ P Q R ltac:(discriminate) red25_ok zero25_ok C) as [[Rx Ry] [Cx Cy]].
  pose proof (add255_on P Q HP HQ) as HS.
  destruct R as [x y]. cbn [fst snd] in *.
  set (t := d_ed255 * (fst P * snd P) * (fst Q * snd Q)) in *.
  apply (cert p_ed255 (fst P * snd Q + fst Q * snd P) (1 - t) (1 + t) (snd P * snd Q - -1 * (fst P * fst Q))); try assumption.
  - exact p25_prime.
  - destruct (add255 P Q). exact (proj1 HS).
  - destruct (add255 P Q). exact (proj1 (proj2 HS)).
  - change (reps255 ((fst P * snd Q + fst Q * snd P) * (1 - t)) ((1 + t) * (snd P * snd Q - -1 * (fst P * fst Q))) ((1 - t) * (1 + t)) ((fst P * snd Q + fst Q * snd P) * (snd P * snd Q - -1 * (fst P * fst Q))) (add255 P Q)).
    eapply (reps255_add 1 1) with (E' := fst P * snd Q + fst Q * snd P) (F' := 1 - t) (G' := 1 + t) (H' := snd P * snd Q - -1 * (fst P * fst Q));
      [exact HP|exact HQ|apply reps255_intro|apply reps255_intro|discriminate|discriminate| | | | |reflexivity|reflexivity|reflexivity|reflexivity].
    + f_equal. ring.
    + f_equal. unfold t. change d25 with d_ed255. ring.
    + f_equal. unfold t. change d25 with d_ed255. ring.
    + f_equal. ring.
Qed.
