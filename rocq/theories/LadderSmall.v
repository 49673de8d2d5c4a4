(** Ladders started at points of small order, and the serialisation of X448. *)
From Coq Require Import ZArith List Bool Lia.
From Verif Require Import Uop Engine Bytes Spec SpecX Fp448Red Fp448RedProofs Fp448RedRoot FullMore ScalarProps Scalar Ladder LadderProofs LadderVec LadderVec448.
Import ListNotations.
Open Scope Z_scope.

Section Small.
Variables (p a24 u : Z).
Hypothesis P2 : 2 < p.
(** A table with the multiples 0 .. N-1 of the point, each (1:0) or (x:1). *)
Variable R : list (Z * Z).
Notation N := (Z.of_nat (length R)).
Definition mult (n : Z) : Z * Z := nth (Z.to_nat (n mod N)) R (1, 0).
Definition dbl (P : Z * Z) : Z * Z :=
  let (x, z) := P in let AA := (x + z) ^ 2 in let BB := (x - z) ^ 2 in let E := AA - BB in (AA * BB, E * (AA + a24 * E)).
Definition dadd (P P' : Z * Z) : Z * Z :=
  let (x2, z2) := P in let (x3, z3) := P' in let DA := (x3 - z3) * (x2 + z2) in let CB := (x3 + z3) * (x2 - z2) in
  ((DA + CB) ^ 2, u * (DA - CB) ^ 2).
Definition prop (v w : Z * Z) : bool :=
  let (a, b) := v in let (x, z) := w in
  if z =? 0 then (x =? 1) && (b mod p =? 0) else (z =? 1) && ((a - b * x) mod p =? 0).
Definition table_ok : bool :=
  (0 <? N) && forallb (fun i => let n := Z.of_nat i in
    prop (dbl (mult n)) (mult (2 * n)) && prop (dadd (mult n) (mult (n + 1))) (mult (2 * n + 1))) (seq 0 (length R)).
Hypothesis T : table_ok = true.
Hypothesis T0 : mult 0 = (1, 0).
Hypothesis T1 : mult 1 = (u mod p, 1).
Definition span (v w : Z * Z) : Prop := exists l, fst v mod p = (l * fst w) mod p /\ snd v mod p = (l * snd w) mod p.
Lemma prop_span v w : prop v w = true -> span v w.
Proof.
  destruct v as [a b], w as [x z]. unfold prop, span. cbn [fst snd]. destruct (Z.eqb_spec z 0) as [->|Hz]; intro H; apply andb_true_iff in H as [H1 H2].
  - apply Z.eqb_eq in H1 as ->. apply Z.eqb_eq in H2. exists a. rewrite Z.mul_1_r, Z.mul_0_r, H2, Z.mod_0_l by lia. split; reflexivity.
  - apply Z.eqb_eq in H1 as ->. apply Z.eqb_eq in H2. exists b. rewrite Z.mul_1_r. split; [|reflexivity].
    replace a with (a - b * x + b * x) by ring. rewrite Zplus_mod, H2, Z.add_0_l. apply Z.mod_mod. lia.
Qed.
Lemma Npos : 0 < N.
Proof. unfold table_ok in T. apply andb_true_iff in T as [H _]. now apply Z.ltb_lt. Qed.
Lemma mult_mod n m : n mod N = m mod N -> mult n = mult m.
Proof. unfold mult. now intros ->. Qed.
Lemma table n : span (dbl (mult n)) (mult (2 * n)) /\ span (dadd (mult n) (mult (n + 1))) (mult (2 * n + 1)).
Proof.
  pose proof Npos as HN. pose proof T as HT. unfold table_ok in HT. apply andb_true_iff in HT as [_ HT]. rewrite forallb_forall in HT.
  pose proof (Z.mod_pos_bound n N HN) as B.
  specialize (HT (Z.to_nat (n mod N))). rewrite in_seq in HT. specialize (HT ltac:(lia)). cbv zeta in HT. rewrite Z2Nat.id in HT by lia.
  apply andb_true_iff in HT as [H1 H2]. apply prop_span in H1, H2.
  rewrite (mult_mod (n mod N) n) in H1, H2 by (apply Z.mod_mod; lia).
  rewrite (mult_mod (2 * (n mod N)) (2 * n)) in H1 by (rewrite Zmult_mod_idemp_r; reflexivity).
  rewrite (mult_mod (n mod N + 1) (n + 1)) in H2 by (rewrite Zplus_mod_idemp_l; reflexivity).
  rewrite (mult_mod (2 * (n mod N) + 1) (2 * n + 1)) in H2.
  2:{ rewrite <- Zplus_mod_idemp_l, Zmult_mod_idemp_r, Zplus_mod_idemp_l. reflexivity. }
  split; assumption.
Qed.
Ltac gc := repeat first [assumption | reflexivity | apply gsub | apply gadd | apply gmul | apply gpow].
Lemma span_trans v w w' : span v w -> span w w' -> span v w'.
Proof.
  intros (l & A1 & A2) (m & B1 & B2). exists (l * m). rewrite A1, A2. rewrite <- !Z.mul_assoc.
  split; apply gmul; assumption || reflexivity.
Qed.
Lemma span_dbl v w : span v w -> span (dbl v) (dbl w).
Proof.
  destruct v as [a b], w as [x z]. intros (l & A1 & A2). cbn [fst snd] in *. exists (l ^ 4). unfold dbl. cbv zeta. cbn [fst snd].
  split.
  - replace (l ^ 4 * ((x + z) ^ 2 * (x - z) ^ 2)) with ((l * x + l * z) ^ 2 * (l * x - l * z) ^ 2) by ring. gc.
  - replace (l ^ 4 * _) with (((l * x + l * z) ^ 2 - (l * x - l * z) ^ 2) * ((l * x + l * z) ^ 2 + a24 * ((l * x + l * z) ^ 2 - (l * x - l * z) ^ 2))) by ring. gc.
Qed.
Lemma span_dadd v v' w w' : span v w -> span v' w' -> span (dadd v v') (dadd w w').
Proof.
  destruct v as [a b], w as [x z], v' as [a' b'], w' as [x' z']. intros (l & A1 & A2) (m & B1 & B2). cbn [fst snd] in *.
  exists ((l * m) ^ 2). unfold dadd. cbv zeta. cbn [fst snd]. split.
  - replace ((l * m) ^ 2 * _) with (((m * x' - m * z') * (l * x + l * z) + (m * x' + m * z') * (l * x - l * z)) ^ 2) by ring. gc.
  - replace ((l * m) ^ 2 * _) with (u * ((m * x' - m * z') * (l * x + l * z) - (m * x' + m * z') * (l * x - l * z)) ^ 2) by ring. gc.
Qed.
Lemma span_mod v w : span v w -> span (fst v mod p, snd v mod p) w.
Proof. intros (l & A1 & A2). exists l. cbn [fst snd]. rewrite !Z.mod_mod by lia. split; assumption. Qed.
(** The state of the ladder after the bits of n: the pair (n, n+1), swapped when the flag is set. *)
Definition at_state (n : Z) (s : Z * Z * Z * Z * bool) : Prop :=
  let '(x2, z2, x3, z3, sw) := s in
  if sw then span (x3, z3) (mult n) /\ span (x2, z2) (mult (n + 1)) else span (x2, z2) (mult n) /\ span (x3, z3) (mult (n + 1)).
Lemma dadd_sym v w l : span (dadd v w) l -> span (dadd w v) l.
Proof.
  destruct v as [a b], w as [x z]. intros (m & A1 & A2). exists m. unfold dadd in *. cbv zeta in *. cbn [fst snd] in *. rewrite <- A1, <- A2.
  split; apply (f_equal (fun z => z mod p)); ring.
Qed.
Lemma at_step kk n s t : at_state n s -> at_state (2 * n + Z.b2z (Z.testbit kk (Z.of_nat t))) (rfc_step p a24 kk u s t).
Proof.
  destruct s as [[[[x2 z2] x3] z3] sw]. intro H.
  destruct (table n) as [Hd Ha]. destruct (table (n + 1)) as [Hd' _].
  unfold rfc_step. set (b := Z.testbit kk (Z.of_nat t)). clearbody b.
  replace (2 * (n + 1)) with (2 * n + 1 + 1) in Hd' by ring.
  assert (C : forall P P', span P (mult n) -> span P' (mult (n + 1)) ->
    span (dbl P) (mult (2 * n)) /\ span (dbl P') (mult (2 * n + 1 + 1)) /\ span (dadd P P') (mult (2 * n + 1)) /\ span (dadd P' P) (mult (2 * n + 1))).
  { intros P P' H1 H2. split; [|split; [|split]].
    - exact (span_trans _ _ _ (span_dbl _ _ H1) Hd).
    - exact (span_trans _ _ _ (span_dbl _ _ H2) Hd').
    - exact (span_trans _ _ _ (span_dadd _ _ _ _ H1 H2) Ha).
    - apply dadd_sym. exact (span_trans _ _ _ (span_dadd _ _ _ _ H1 H2) Ha). }
  destruct sw, b; cbn [xorb cswap Z.b2z at_state] in *; destruct H as [H1 H2]; destruct (C _ _ H1 H2) as (C1 & C2 & C3 & C4); rewrite ?Z.add_0_r;
    apply span_mod in C1, C2, C3, C4; cbn [fst snd dbl dadd] in *; cbv zeta; split; assumption.
Qed.
Lemma at_fold kk m : forall n s, at_state n s ->
  at_state (2 ^ Z.of_nat m * n + kk mod 2 ^ Z.of_nat m) (fold_left (rfc_step p a24 kk u) (rev (seq 0 m)) s).
Proof.
  induction m as [|m IH]; intros n s H.
  - cbn [seq rev fold_left]. change (2 ^ Z.of_nat 0) with 1. rewrite Z.mod_1_r, Z.mul_1_l, Z.add_0_r. exact H.
  - rewrite seq_S, rev_app_distr. cbn [rev app fold_left Nat.add]. pose proof (IH _ _ (at_step kk n s m H)) as G.
    replace (2 ^ Z.of_nat (S m) * n + kk mod 2 ^ Z.of_nat (S m)) with (2 ^ Z.of_nat m * (2 * n + Z.b2z (Z.testbit kk (Z.of_nat m))) + kk mod 2 ^ Z.of_nat m); [exact G|].
    rewrite Nat2Z.inj_succ, Z.pow_succ_r by lia. rewrite Z.testbit_spec' by lia. rewrite (Z.mul_comm 2 (2 ^ _)), Z.rem_mul_r by lia. ring.
Qed.
Lemma ladder_small bits kk : 0 <= kk < 2 ^ Z.of_nat bits -> kk mod N = 0 -> rfc_ladder p a24 bits kk u = 0.
Proof.
  intros Hk HN. unfold rfc_ladder.
  assert (I : at_state 0 (1, 0, u, 1, false)).
  { cbn [at_state]. rewrite T0. change (0 + 1) with 1. rewrite T1. split; exists 1; cbn [fst snd]; rewrite !Z.mul_1_l; [split; reflexivity|].
    rewrite Z.mod_mod by lia. split; reflexivity. }
  pose proof (at_fold kk bits 0 _ I) as F. rewrite Z.mul_0_r, Z.add_0_l, Z.mod_small in F by exact Hk.
  destruct (fold_left _ _ _) as [[[[x2 z2] x3] z3] sw]. cbn [at_state] in F.
  assert (M : mult kk = (1, 0)). { rewrite <- T0. apply mult_mod. rewrite HN. pose proof Npos. now rewrite Z.mod_0_l by lia. }
  rewrite M in F.
  assert (G : forall x z, span (x, z) (1, 0) -> (x * z ^ (p - 2)) mod p = 0).
  { intros x z (l & _ & E). cbn [snd] in E. rewrite Z.mul_0_r, Z.mod_0_l in E by lia.
    rewrite (gmul p x (z ^ (p - 2)) x (0 ^ (p - 2)) eq_refl); [rewrite Z.pow_0_l, Z.mul_0_r by lia; apply Z.mod_0_l; lia|]. apply gpow. rewrite E. now rewrite Z.mod_0_l by lia. }
  destruct sw; cbn [cswap]; apply G; apply F.
Qed.
End Small.

(** The points of order dividing 8 on curve25519 and its twist. *)
Definition alpha8 : Z := 325606250916557431795983626356110631294008115727848805560023387167927233504.
Definition beta8 : Z := 39382357235489614581723060781553021112529911719440698176882885853963445705823.
Definition lowu25519 : list Z := [0; 1; alpha8; beta8; 2 ^ 255 - 20; 2 ^ 255 - 19; 2 ^ 255 - 18].
Definition tab25519 (u : Z) : list (Z * Z) :=
  let v := u mod (2 ^ 255 - 19) in
  if v =? 0 then [(1, 0); (0, 1)] else
  if (v =? 1) || (v =? 2 ^ 255 - 20) then [(1, 0); (v, 1); (0, 1); (v, 1)] else
  let w := if v =? alpha8 then beta8 else alpha8 in [(1, 0); (v, 1); (1, 1); (w, 1); (0, 1); (w, 1); (1, 1); (v, 1)].
Lemma lowu25519_ok : forallb (fun u => table_ok (2 ^ 255 - 19) 121665 u (tab25519 u) && (8 mod Z.of_nat (length (tab25519 u)) =? 0) &&
   (let (x, z) := mult (tab25519 u) 0 in (x =? 1) && (z =? 0)) &&
   (let (x, z) := mult (tab25519 u) 1 in (x =? u mod (2 ^ 255 - 19)) && (z =? 1))) lowu25519 = true.
Proof. vm_compute. reflexivity. Qed.
Lemma mod_multiple a b n : 0 < n -> a mod b = 0 -> b mod n = 0 -> 0 < b -> a mod n = 0.
Proof.
  intros Hn Ha Hb Pb. apply Z.mod_divide in Ha; [|lia]. apply Z.mod_divide in Hb; [|lia]. apply Z.mod_divide; [lia|]. exact (Z.divide_trans _ _ _ Hb Ha).
Qed.
Lemma scalar25519_range k : 0 <= scalar25519 k < 2 ^ Z.of_nat 255 /\ scalar25519 k mod 8 = 0.
Proof.
  unfold scalar25519. pose proof (Z.mod_pos_bound k (2 ^ 254) eq_refl) as B. pose proof (Z.div_mod (k mod 2 ^ 254) 8 ltac:(lia)) as E.
  pose proof (Z.mod_pos_bound (k mod 2 ^ 254) 8 ltac:(lia)) as B'. split.
  - change (2 ^ Z.of_nat 255) with (2 ^ 254 + 2 ^ 254). lia.
  - change (2 ^ 254) with (8 * 2 ^ 251). rewrite <- Z.mul_add_distr_l, Z.mul_comm. apply Z.mod_mul. lia.
Qed.
Lemma X25519_small k u : In (u mod 2 ^ 255) lowu25519 -> X25519_spec k u = 0.
Proof.
  intro H. unfold X25519_spec. pose proof lowu25519_ok as L. rewrite forallb_forall in L. specialize (L _ H). clear H.
  set (v := u mod 2 ^ 255) in *. clearbody v. apply andb_true_iff in L as [L L4]. apply andb_true_iff in L as [L L3]. apply andb_true_iff in L as [L1 L2].
  destruct (scalar25519_range k) as [Rk Mk]. set (kk := scalar25519 k) in *. clearbody kk.
  destruct (mult (tab25519 v) 0) as [x0 z0] eqn:E0. destruct (mult (tab25519 v) 1) as [x1 z1] eqn:E1.
  apply andb_true_iff in L3 as [A B]. apply Z.eqb_eq in A, B. apply andb_true_iff in L4 as [C D]. apply Z.eqb_eq in C, D. subst.
  apply (ladder_small (2 ^ 255 - 19) 121665 v eq_refl (tab25519 v) L1 E0 E1 255 kk Rk).
  apply Z.eqb_eq in L2. pose proof (Npos _ _ _ _ L1). apply (mod_multiple _ 8); [assumption|assumption|assumption|lia].
Qed.
Definition lowu448 : list Z := [0; 1; 2 ^ 448 - 2 ^ 224 - 2; 2 ^ 448 - 2 ^ 224 - 1; 2 ^ 448 - 2 ^ 224].
Definition tab448 (u : Z) : list (Z * Z) :=
  let v := u mod (2 ^ 448 - 2 ^ 224 - 1) in if v =? 0 then [(1, 0); (0, 1)] else [(1, 0); (v, 1); (0, 1); (v, 1)].
Lemma lowu448_ok : forallb (fun u => table_ok (2 ^ 448 - 2 ^ 224 - 1) 39081 u (tab448 u) && (4 mod Z.of_nat (length (tab448 u)) =? 0) &&
   (let (x, z) := mult (tab448 u) 0 in (x =? 1) && (z =? 0)) &&
   (let (x, z) := mult (tab448 u) 1 in (x =? u mod (2 ^ 448 - 2 ^ 224 - 1)) && (z =? 1))) lowu448 = true.
Proof. vm_compute. reflexivity. Qed.
Lemma scalar448_range k : 0 <= scalar448 k < 2 ^ Z.of_nat 448 /\ scalar448 k mod 4 = 0.
Proof.
  unfold scalar448. pose proof (Z.mod_pos_bound k (2 ^ 447) eq_refl) as B. pose proof (Z.div_mod (k mod 2 ^ 447) 4 ltac:(lia)) as E.
  pose proof (Z.mod_pos_bound (k mod 2 ^ 447) 4 ltac:(lia)) as B'. split.
  - change (2 ^ Z.of_nat 448) with (2 ^ 447 + 2 ^ 447). lia.
  - change (2 ^ 447) with (4 * 2 ^ 445). rewrite <- Z.mul_add_distr_l, Z.mul_comm. apply Z.mod_mul. lia.
Qed.
Lemma X448_small k u : In u lowu448 -> X448_spec k u = 0.
Proof.
  intro H. unfold X448_spec. pose proof lowu448_ok as L. rewrite forallb_forall in L. specialize (L _ H). clear H.
  apply andb_true_iff in L as [L L4]. apply andb_true_iff in L as [L L3]. apply andb_true_iff in L as [L1 L2].
  destruct (scalar448_range k) as [Rk Mk]. set (kk := scalar448 k) in *. clearbody kk.
  destruct (mult (tab448 u) 0) as [x0 z0] eqn:E0. destruct (mult (tab448 u) 1) as [x1 z1] eqn:E1.
  apply andb_true_iff in L3 as [A B]. apply Z.eqb_eq in A, B. apply andb_true_iff in L4 as [C D]. apply Z.eqb_eq in C, D. subst.
  apply (ladder_small (2 ^ 448 - 2 ^ 224 - 1) 39081 u eq_refl (tab448 u) L1 E0 E1 448 kk Rk).
  apply Z.eqb_eq in L2. pose proof (Npos _ _ _ _ L1). apply (mod_multiple _ 4); [assumption|assumption|assumption|lia].
Qed.
