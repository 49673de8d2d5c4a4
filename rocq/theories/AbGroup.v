(** Integer multiples in a commutative group, and the binary ladder. *)
From Coq Require Import ZArith List Bool Lia.
Import ListNotations.
Open Scope Z_scope.

Section Group.
Variables (G : Type) (O : G) (add : G -> G -> G) (opp : G -> G).
Hypothesis addA : forall P Q R, add (add P Q) R = add P (add Q R).
Hypothesis addC : forall P Q, add P Q = add Q P.
Hypothesis addO : forall P, add P O = P.
Hypothesis addN : forall P, add P (opp P) = O.
Fixpoint nmul (n : nat) (P : G) : G := match n with 0%nat => O | S n => add P (nmul n P) end.
Definition zmul (k : Z) (P : G) : G := if k <? 0 then opp (nmul (Z.to_nat (- k)) P) else nmul (Z.to_nat k) P.

Lemma Oadd P : add O P = P. Proof. now rewrite addC. Qed.
Lemma Nadd P : add (opp P) P = O. Proof. now rewrite addC. Qed.
Lemma add_cancel P Q R : add P Q = add P R -> Q = R.
Proof. intro H. rewrite <- (Oadd Q), <- (Nadd P), addA, H, <- addA, Nadd. apply Oadd. Qed.
Lemma opp_unique P Q : add P Q = O -> Q = opp P.
Proof. intro H. apply (add_cancel P). now rewrite addN. Qed.
Lemma opp_O : opp O = O. Proof. symmetry. apply opp_unique. apply addO. Qed.
Lemma opp_opp P : opp (opp P) = P. Proof. symmetry. apply opp_unique. apply Nadd. Qed.
Lemma add_swap P Q R S : add (add P Q) (add R S) = add (add P R) (add Q S).
Proof. rewrite !addA. f_equal. rewrite <- !addA. f_equal. apply addC. Qed.
Lemma opp_add P Q : opp (add P Q) = add (opp P) (opp Q).
Proof. symmetry. apply opp_unique. rewrite add_swap, !addN. apply addO. Qed.
Lemma nmul_add m n P : nmul (m + n) P = add (nmul m P) (nmul n P).
Proof. induction m as [|m IH]; cbn [Nat.add nmul]; [now rewrite Oadd|now rewrite IH, addA]. Qed.
Lemma nmul_mul m n P : nmul (m * n) P = nmul m (nmul n P).
Proof. induction m as [|m IH]; cbn [Nat.mul nmul]; [reflexivity|now rewrite nmul_add, IH]. Qed.
Lemma nmul_padd n P Q : nmul n (add P Q) = add (nmul n P) (nmul n Q).
Proof. induction n as [|n IH]; cbn [nmul]; [now rewrite addO|]. rewrite IH. apply add_swap. Qed.
Lemma nmul_O n : nmul n O = O. Proof. induction n as [|n IH]; cbn [nmul]; [reflexivity|now rewrite IH, addO]. Qed.
Lemma nmul_opp n P : nmul n (opp P) = opp (nmul n P).
Proof. induction n as [|n IH]; cbn [nmul]; [now rewrite opp_O|]. now rewrite IH, opp_add. Qed.

Lemma zmul_nat n P : zmul (Z.of_nat n) P = nmul n P.
Proof. unfold zmul. destruct (Z.ltb_spec (Z.of_nat n) 0); [lia|]. now rewrite Nat2Z.id. Qed.
Lemma zmul_0 P : zmul 0 P = O. Proof. reflexivity. Qed.
Lemma zmul_1 P : zmul 1 P = P. Proof. exact (addO P). Qed.
Lemma zmul_opp k P : zmul (- k) P = opp (zmul k P).
Proof.
  unfold zmul. destruct (Z.ltb_spec k 0), (Z.ltb_spec (- k) 0); try lia.
  - now rewrite opp_opp.
  - now rewrite Z.opp_involutive.
  - replace k with 0 by lia. symmetry. exact opp_O.
Qed.
Lemma zmul_succ k P : zmul (k + 1) P = add P (zmul k P).
Proof.
  unfold zmul. destruct (Z.ltb_spec (k + 1) 0), (Z.ltb_spec k 0); try lia.
  - replace (Z.to_nat (- k)) with (S (Z.to_nat (- (k + 1)))) by lia. cbn [nmul].
    now rewrite opp_add, <- addA, addN, Oadd.
  - replace k with (-1) by lia. change (Z.to_nat (-1 + 1)) with 0%nat. change (Z.to_nat (- -1)) with 1%nat. cbn [nmul]. now rewrite addO, addN.
  - replace (Z.to_nat (k + 1)) with (S (Z.to_nat k)) by lia. reflexivity.
Qed.
Lemma zmul_add_nat n k P : zmul (Z.of_nat n + k) P = add (zmul (Z.of_nat n) P) (zmul k P).
Proof.
  induction n as [|n IH]; [cbn [Z.of_nat]; rewrite Z.add_0_l, zmul_0, Oadd; reflexivity|].
  rewrite Nat2Z.inj_succ. unfold Z.succ. rewrite (zmul_succ (Z.of_nat n)).
  replace (Z.of_nat n + 1 + k) with (Z.of_nat n + k + 1) by lia. rewrite zmul_succ, IH. symmetry. apply addA.
Qed.
Lemma zmul_add m k P : zmul (m + k) P = add (zmul m P) (zmul k P).
Proof.
  destruct (Z_le_gt_dec 0 m) as [H|H].
  - rewrite <- (Z2Nat.id m H). apply zmul_add_nat.
  - pose proof (zmul_add_nat (Z.to_nat (- m)) (m + k) P) as E. rewrite Z2Nat.id in E by lia.
    replace (- m + (m + k)) with k in E by lia. rewrite E, zmul_opp, <- addA, addN. symmetry. apply Oadd.
Qed.
Lemma zmul_padd k P Q : zmul k (add P Q) = add (zmul k P) (zmul k Q).
Proof. unfold zmul. destruct (k <? 0); rewrite nmul_padd; [apply opp_add|reflexivity]. Qed.
Lemma zmul_O k : zmul k O = O.
Proof. unfold zmul. destruct (k <? 0); rewrite nmul_O; [apply opp_O|reflexivity]. Qed.
Lemma zmul_oppP k P : zmul k (opp P) = opp (zmul k P).
Proof. unfold zmul. destruct (k <? 0); rewrite nmul_opp; reflexivity. Qed.
Lemma zmul_mul m k P : zmul (m * k) P = zmul m (zmul k P).
Proof.
  assert (H : forall n, zmul (Z.of_nat n * k) P = zmul (Z.of_nat n) (zmul k P)).
  { induction n as [|n IH]; [reflexivity|]. rewrite Nat2Z.inj_succ. unfold Z.succ.
    rewrite Z.mul_add_distr_r, Z.mul_1_l, zmul_add, IH, zmul_add, zmul_1. reflexivity. }
  destruct (Z_le_gt_dec 0 m) as [Hm|Hm].
  - rewrite <- (Z2Nat.id m Hm). apply H.
  - pose proof (H (Z.to_nat (- m))) as E. rewrite Z2Nat.id in E by lia.
    rewrite Z.mul_opp_l, !zmul_opp in E. rewrite <- (opp_opp (zmul (m * k) P)), E. apply opp_opp.
Qed.
Lemma zmul_2 P : zmul 2 P = add P P. Proof. change 2 with (1 + 1). rewrite zmul_add, zmul_1. reflexivity. Qed.
Lemma zmul_comm m k P : zmul m (zmul k P) = zmul k (zmul m P).
Proof. rewrite <- !zmul_mul. f_equal. apply Z.mul_comm. Qed.
Lemma zmul_mod n k P : 0 < n -> zmul n P = O -> zmul (k mod n) P = zmul k P.
Proof.
  intros Hn H. rewrite (Z.div_mod k n) at 2 by lia. rewrite zmul_add, (Z.mul_comm n), zmul_mul, H, zmul_O. symmetry. apply Oadd.
Qed.

(** The ladder: a pair (P, Q) with Q - P fixed.  [R x P]: the value x represents P;
    [step bit s] on a represented pair gives the represented next pair. *)
Variables (V : Type) (R : V -> G -> Prop) (dbl : V -> V) (dadd : V -> V -> V) (B : G).
Hypothesis dbl_ok : forall x P, R x P -> R (dbl x) (add P P).
Hypothesis dadd_ok : forall x y P Q, R x P -> R y Q -> add Q (opp P) = B -> R (dadd x y) (add P Q).
Definition lstep (s : V * V) (b : bool) : V * V :=
  let (x, y) := s in if b then (dadd x y, dbl y) else (dbl x, dadd x y).
Lemma lstep_ok s b m : R (fst s) (zmul m B) -> R (snd s) (zmul (m + 1) B) ->
  let m' := 2 * m + Z.b2z b in R (fst (lstep s b)) (zmul m' B) /\ R (snd (lstep s b)) (zmul (m' + 1) B).
Proof.
  destruct s as [x y]. cbn [fst snd]. intros Hx Hy.
  assert (D : add (zmul (m + 1) B) (opp (zmul m B)) = B).
  { now rewrite <- zmul_opp, <- zmul_add, (Z.add_comm m 1), <- Z.add_assoc, Z.add_opp_diag_r, zmul_1. }
  pose proof (dadd_ok _ _ _ _ Hx Hy D) as A. rewrite <- zmul_add in A.
  destruct b; cbn [lstep fst snd Z.b2z].
  - pose proof (dbl_ok _ _ Hy) as E. rewrite <- zmul_add in E.
    split; [replace (2 * m + 1) with (m + (m + 1)) by lia; exact A|replace (2 * m + 1 + 1) with (m + 1 + (m + 1)) by lia; exact E].
  - pose proof (dbl_ok _ _ Hx) as E. rewrite <- zmul_add in E. rewrite Z.add_0_r.
    split; [replace (2 * m) with (m + m) by lia; exact E|replace (2 * m + 1) with (m + (m + 1)) by lia; exact A].
Qed.
Lemma ladder_ok n k : 0 <= k -> forall s m, R (fst s) (zmul m B) -> R (snd s) (zmul (m + 1) B) ->
  let s' := fold_left (fun s t => lstep s (Z.testbit k (Z.of_nat t))) (rev (seq 0 n)) s in
  let m' := m * 2 ^ Z.of_nat n + k mod 2 ^ Z.of_nat n in
  R (fst s') (zmul m' B) /\ R (snd s') (zmul (m' + 1) B).
Proof.
  intro Hk. induction n as [|n IH]; intros s m Hx Hy.
  - cbn [seq rev fold_left]. change (2 ^ Z.of_nat 0) with 1. rewrite Z.mod_1_r, Z.mul_1_r, Z.add_0_r. split; assumption.
  - rewrite seq_S, rev_app_distr. cbn [Nat.add rev app fold_left].
    destruct (lstep_ok s (Z.testbit k (Z.of_nat n)) m Hx Hy) as [Hx' Hy'].
    specialize (IH _ _ Hx' Hy'). cbv zeta in *.
    replace (m * 2 ^ Z.of_nat (S n) + k mod 2 ^ Z.of_nat (S n))
      with ((2 * m + Z.b2z (Z.testbit k (Z.of_nat n))) * 2 ^ Z.of_nat n + k mod 2 ^ Z.of_nat n); [exact IH|].
    rewrite Nat2Z.inj_succ, Z.pow_succ_r by lia.
    assert (P : 0 < 2 ^ Z.of_nat n) by (apply Z.pow_pos_nonneg; lia).
    rewrite (Z.mul_comm 2 (2 ^ Z.of_nat n)), Z.rem_mul_r by lia.
    rewrite Z.testbit_spec' by lia. ring.
Qed.
End Group.
