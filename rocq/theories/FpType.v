(** The field of integers modulo a prime p as a type, and square roots in it. *)
From Coq Require Import ZArith Znumtheory Zpow_facts List Bool Lia Field Eqdep_dec.
From Verif Require Import Primality FullMore.
Open Scope Z_scope.

Section Fp.
Variable p : Z.
Hypothesis Pp : prime p.
Hypothesis P2 : 2 < p.
Definition Fp := {x : Z | (x mod p =? x) = true}.
Lemma mod_self x : (x mod p mod p =? x mod p) = true.
Proof. apply Z.eqb_eq, Z.mod_mod. lia. Qed.
Definition inF (x : Z) : Fp := exist _ (x mod p) (mod_self x).
Definition toZ (x : Fp) : Z := proj1_sig x.
Lemma toZ_inF x : toZ (inF x) = x mod p. Proof. reflexivity. Qed.
Lemma toZ_mod x : toZ x mod p = toZ x.
Proof. destruct x as [x H]. now apply Z.eqb_eq. Qed.
Lemma toZ_range x : 0 <= toZ x < p.
Proof. rewrite <- toZ_mod. apply Z.mod_pos_bound. lia. Qed.
Lemma toZ_inj x y : toZ x = toZ y -> x = y.
Proof.
  destruct x as [x H], y as [y H']. cbn [toZ proj1_sig]. intros E. subst y. f_equal. apply UIP_dec, Bool.bool_dec.
Qed.
Lemma inF_toZ x : inF (toZ x) = x.
Proof. apply toZ_inj. rewrite toZ_inF. apply toZ_mod. Qed.
Lemma inF_eq x y : inF x = inF y <-> x mod p = y mod p.
Proof. split; intro H; [now apply (f_equal toZ) in H|now apply toZ_inj]. Qed.
Lemma inF_mod x : inF (x mod p) = inF x.
Proof. apply inF_eq, Z.mod_mod. lia. Qed.
Lemma Fp_dec (x y : Fp) : {x = y} + {x <> y}.
Proof.
  destruct (Z.eq_dec (toZ x) (toZ y)) as [E|N]; [left; now apply toZ_inj|right; intro E; apply N; now rewrite E].
Qed.
Definition fp_add x y := inF (toZ x + toZ y).
Definition fp_mul x y := inF (toZ x * toZ y).
Definition fp_sub x y := inF (toZ x - toZ y).
Definition fp_opp x := inF (- toZ x).
Definition fp_inv x := inF (toZ x ^ (p - 2)).
Definition fp_div x y := fp_mul x (fp_inv y).
Lemma inF_add x y : inF (x + y) = fp_add (inF x) (inF y).
Proof. apply inF_eq. rewrite !toZ_inF. apply Zplus_mod. Qed.
Lemma inF_mul x y : inF (x * y) = fp_mul (inF x) (inF y).
Proof. apply inF_eq. rewrite !toZ_inF. apply Zmult_mod. Qed.
Lemma inF_sub x y : inF (x - y) = fp_sub (inF x) (inF y).
Proof. apply inF_eq. rewrite !toZ_inF. apply Zminus_mod. Qed.
Lemma inF_opp x : inF (- x) = fp_opp (inF x).
Proof. apply inF_eq. rewrite !toZ_inF. rewrite <- (Z.sub_0_l (x mod p)), Zminus_mod_idemp_r. f_equal. Qed.
Lemma inF_pow x n : 0 <= n -> inF (x ^ n) = inF (toZ (inF x) ^ n).
Proof. intro Hn. apply inF_eq. rewrite toZ_inF. apply Zpower_mod. lia. Qed.
Lemma inF_inv x : inF (x ^ (p - 2)) = fp_inv (inF x).
Proof. unfold fp_inv. apply inF_pow. lia. Qed.
Lemma inF_0 x : inF x = inF 0 <-> x mod p = 0.
Proof. rewrite inF_eq. now rewrite (Z.mod_0_l p) by lia. Qed.
Lemma fp_ring : ring_theory (inF 0) (inF 1) fp_add fp_mul fp_sub fp_opp eq.
Proof.
  split.
  - intro x. rewrite <- (inF_toZ x) at 1. rewrite <- inF_add, Z.add_0_l. apply inF_toZ.
  - intros x y. unfold fp_add. now rewrite Z.add_comm.
  - intros x y z. rewrite <- (inF_toZ x), <- (inF_toZ y), <- (inF_toZ z). rewrite <- !inF_add. now rewrite Z.add_assoc.
  - intro x. rewrite <- (inF_toZ x) at 1. rewrite <- inF_mul, Z.mul_1_l. apply inF_toZ.
  - intros x y. unfold fp_mul. now rewrite Z.mul_comm.
  - intros x y z. rewrite <- (inF_toZ x), <- (inF_toZ y), <- (inF_toZ z). rewrite <- !inF_mul. now rewrite Z.mul_assoc.
  - intros x y z. rewrite <- (inF_toZ x), <- (inF_toZ y), <- (inF_toZ z). rewrite <- !inF_add, <- !inF_mul, <- inF_add. now rewrite Z.mul_add_distr_r.
  - intros x y. rewrite <- (inF_toZ x), <- (inF_toZ y). rewrite <- inF_opp, <- inF_sub, <- inF_add. reflexivity.
  - intro x. rewrite <- (inF_toZ x). rewrite <- inF_opp, <- inF_add. now rewrite Z.add_opp_diag_r.
Qed.
Lemma fp_field : field_theory (inF 0) (inF 1) fp_add fp_mul fp_sub fp_opp fp_div fp_inv eq.
Proof.
  split.
  - exact fp_ring.
  - intro E. apply inF_eq in E. rewrite !Z.mod_small in E by lia. discriminate E.
  - reflexivity.
  - intros x N. rewrite <- (inF_toZ x). rewrite <- inF_inv, <- inF_mul. apply inF_eq.
    rewrite Z.mul_comm. rewrite (fermat_inv p (toZ x) Pp P2); [symmetry; apply Z.mod_small; lia|].
    intro E. apply N. rewrite <- (inF_toZ x). now apply inF_0.
Qed.
Lemma fp_two : fp_add (inF 1) (inF 1) <> inF 0.
Proof. rewrite <- inF_add. intro E. apply inF_eq in E. rewrite Z.mod_small, Z.mod_0_l in E by lia. discriminate E. Qed.
Lemma fp_inv0 : fp_inv (inF 0) = inF 0.
Proof. rewrite <- inF_inv. f_equal. apply Z.pow_0_l. lia. Qed.
Fixpoint fp_pow (x : Fp) (n : nat) : Fp := match n with O => inF 1 | S n => fp_mul x (fp_pow x n) end.

(** ** Squares *)
Let h := (p - 1) / 2.
Hypothesis root : forall x, x ^ h mod p = 1 -> exists r, r * r mod p = x mod p.
Lemma p_odd : p = 2 * h + 1.
Proof.
  unfold h. destruct (Z.Even_or_Odd p) as [[k E]|[k E]].
  - exfalso. destruct (prime_divisors p Pp 2) as [D|[D|[D|D]]]; [exists k; lia|lia|lia|lia|lia].
  - rewrite E. replace (2 * k + 1 - 1) with (k * 2) by lia. rewrite Z.div_mul by lia. lia.
Qed.
Lemma half_pow x : x mod p <> 0 -> x ^ h mod p = 1 \/ x ^ h mod p = p - 1.
Proof.
  intro N. assert (D : ~ (p | x)) by (intro D; apply N, Z.mod_divide; [lia|exact D]).
  pose proof (fermat p x Pp D) as E. rewrite p_odd in E at 1. replace (2 * h + 1 - 1) with (h + h) in E by lia.
  pose proof p_odd. rewrite Z.pow_add_r in E by lia. set (y := x ^ h) in *. clearbody y.
  assert (Dv : (p | (y - 1) * (y + 1))).
  { apply Z.mod_divide; [lia|]. replace ((y - 1) * (y + 1)) with (y * y - 1) by ring. rewrite Zminus_mod, E, (Z.mod_small 1) by lia. now rewrite Z.sub_diag, Z.mod_0_l by lia. }
  apply prime_mult in Dv; [|exact Pp]. destruct Dv as [[k Hk]|[k Hk]].
  - left. replace y with (1 + k * p) by lia. rewrite Z_mod_plus_full. apply Z.mod_small. lia.
  - right. replace y with (p - 1 + (k - 1) * p) by lia. rewrite Z_mod_plus_full. apply Z.mod_small. lia.
Qed.
Lemma nonsquare_pow d : (forall r, fp_mul r r <> inF d) -> d ^ h mod p = p - 1.
Proof.
  intro N. assert (Nd : d mod p <> 0).
  { intro E. apply (N (inF 0)). rewrite <- inF_mul. symmetry. now apply inF_0. }
  destruct (half_pow d Nd) as [E|E]; [|exact E]. destruct (root d E) as [r Hr]. exfalso.
  apply (N (inF r)). rewrite <- inF_mul. now apply inF_eq.
Qed.
Lemma pow_nonsquare d : d ^ h mod p = p - 1 -> forall r, fp_mul r r <> inF d.
Proof.
  intros E r Er. rewrite <- (inF_toZ r), <- inF_mul in Er. apply inF_eq in Er. set (z := toZ r) in *. clearbody z.
  pose proof p_odd as Hp.
  assert (X : (z ^ (p - 1)) mod p = p - 1).
  { rewrite Hp at 1. replace (2 * h + 1 - 1) with (h + h) by lia. rewrite Z.pow_add_r by lia.
    rewrite <- Z.pow_mul_l, Zpower_mod, Er, <- Zpower_mod by lia. exact E. }
  destruct (Z.eq_dec (z mod p) 0) as [Z0|Z0].
  - rewrite Zpower_mod, Z0, Z.pow_0_l, Z.mod_0_l in X by lia. lia.
  - rewrite (fermat p z Pp) in X; [lia|]. intro D. apply Z0, Z.mod_divide; [lia|exact D].
Qed.
Lemma square_or d t : (forall r, fp_mul r r <> d) -> (exists r, fp_mul r r = t) \/ (exists r, fp_mul r r = fp_mul t d).
Proof.
  intro N. rewrite <- (inF_toZ d) in *. rewrite <- (inF_toZ t). set (x := toZ t). set (y := toZ d) in *. clearbody x y. clear t d.
  pose proof (nonsquare_pow y N) as Hy. pose proof p_odd as Hp.
  destruct (Z.eq_dec (x mod p) 0) as [X0|X0].
  - left. exists (inF 0). rewrite <- inF_mul. symmetry. now apply inF_0.
  - destruct (half_pow x X0) as [E|E].
    + left. destruct (root x E) as [r Hr]. exists (inF r). rewrite <- inF_mul. now apply inF_eq.
    + right. destruct (root (x * y)) as [r Hr].
      { rewrite Z.pow_mul_l, Zmult_mod, E, Hy. replace ((p - 1) * (p - 1)) with (1 + (p - 2) * p) by ring.
        rewrite Z_mod_plus_full. apply Z.mod_small. lia. }
      exists (inF r). rewrite <- !inF_mul. now apply inF_eq.
Qed.
End Fp.

(** Roots for p = 3 mod 4 and p = 5 mod 8. *)
Lemma root_3mod4 p k : 0 <= k -> p = 4 * k + 3 -> forall x, x ^ ((p - 1) / 2) mod p = 1 -> exists r, r * r mod p = x mod p.
Proof.
  intros Hk Hp x E. replace ((p - 1) / 2) with (2 * k + 1) in E.
  2:{ rewrite Hp. replace (4 * k + 3 - 1) with ((2 * k + 1) * 2) by lia. rewrite Z.div_mul; lia. }
  exists (x ^ (k + 1)). rewrite <- Z.pow_add_r by lia. replace (k + 1 + (k + 1)) with (2 * k + 1 + 1) by lia.
  rewrite Z.pow_add_r, Z.pow_1_r by lia. rewrite Zmult_mod, E, Z.mul_1_l. apply Z.mod_mod. lia.
Qed.
Lemma root_5mod8 p k i : prime p -> 0 <= k -> p = 8 * k + 5 -> i * i mod p = p - 1 ->
  forall x, x ^ ((p - 1) / 2) mod p = 1 -> exists r, r * r mod p = x mod p.
Proof.
  intros Pp Hk Hp Hi x E. replace ((p - 1) / 2) with (2 * k + 1 + (2 * k + 1)) in E.
  2:{ rewrite Hp. replace (8 * k + 5 - 1) with ((4 * k + 2) * 2) by lia. rewrite Z.div_mul; lia. }
  rewrite Z.pow_add_r in E by lia. remember (x ^ (2 * k + 1)) as e eqn:He.
  assert (Q : x ^ (k + 1) * x ^ (k + 1) = e * x).
  { rewrite He. rewrite <- Z.pow_add_r by lia. replace (k + 1 + (k + 1)) with (2 * k + 1 + 1) by lia.
    rewrite Z.pow_add_r, Z.pow_1_r by lia. reflexivity. }
  set (w := x ^ (k + 1)) in *. clearbody w. clear He.
  assert (Dv : (p | (e - 1) * (e + 1))).
  { apply Z.mod_divide; [lia|]. replace ((e - 1) * (e + 1)) with (e * e - 1) by ring. rewrite Zminus_mod, E, (Z.mod_small 1) by lia. now rewrite Z.sub_diag, Z.mod_0_l by lia. }
  apply prime_mult in Dv; [|exact Pp]. destruct Dv as [[m Hm]|[m Hm]].
  - exists w. rewrite Q. replace (e * x) with (x + m * x * p) by nia. apply Z_mod_plus_full.
  - exists (i * w). replace (i * w * (i * w)) with (i * i * (w * w)) by ring. rewrite Q, Zmult_mod, Hi.
    rewrite Zmult_mod_idemp_r. replace ((p - 1) * (e * x)) with (x + (e * x - m * x) * p) by nia. apply Z_mod_plus_full.
Qed.
