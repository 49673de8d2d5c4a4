(** Fixed-base multiplication on edwards25519 computes multiples of the base point. *)
From Coq Require Import ZArith List Bool Lia.
From Verif Require Import Uop X86 Sym Engine Bytes Check FullTac Lanes RedTac Simd Simd255 Fp25519Full Fp25519FullProofs FullMore
  Fp25519Red Fp25519RedProofs Fp25519RedMore Spec Scalar Ladder LadderProofs LadderVec SpecEd CurveInst EdInst Edwards255 EdVec Edwards255Proofs
  Verify255 Verify255Proofs Recode RecodeProofs SpecRecode Table255 EdCert TableProofs255 Fixed255.
Import ListNotations.
Open Scope Z_scope.
Notation l1 a := (length a = 10%nat).
Notation l2 a := (length a = 20%nat).
Notation l4 a := (length a = 40%nat).
Notation B := B_ed255.
Notation "k ** P" := (mul255 k P) (at level 40).

(** ** One lane of the query *)
(** Limbs of a 255-bit number given by its four words *)
Definition str1 (w0 w1 w2 w3 : Z) : list Z := [
  Z.land w0 (2 ^ 26 - 1); Z.land w2 (2 ^ 25 - 1);
  Z.land (w0 / 2 ^ 26) (2 ^ 25 - 1); Z.land (w2 / 2 ^ 25) (2 ^ 26 - 1);
  Z.land (Z.lxor ((w1 * 2 ^ 13) mod W) (w0 / 2 ^ (26 + 25))) (2 ^ 26 - 1); Z.land (Z.lxor ((w3 * 2 ^ 13) mod W) (w2 / 2 ^ (26 + 25))) (2 ^ 25 - 1);
  Z.land (w1 / 2 ^ 13) (2 ^ 25 - 1); Z.land (w3 / 2 ^ 12) (2 ^ 26 - 1);
  Z.land (w1 / 2 ^ (13 + 25)) (2 ^ 26 - 1); Z.land (w3 / 2 ^ (12 + 26)) (2 ^ 25 - 1)].
Lemma land26 x : Z.land x (2 ^ 26 - 1) = x mod 2 ^ 26. Proof. exact (Z.land_ones x 26 ltac:(lia)). Qed.
Lemma land25 x : Z.land x (2 ^ 25 - 1) = x mod 2 ^ 25. Proof. exact (Z.land_ones x 25 ltac:(lia)). Qed.
Lemma lxor_13 a b : 0 <= a -> 0 <= b < 2 ^ 13 -> Z.lxor ((a * 2 ^ 13) mod W) b = (a * 2 ^ 13) mod W + b.
Proof.
  intros A B. change W with (2 ^ 64). symmetry. apply Z.add_nocarry_lxor. apply Z.bits_inj'. intros n Hn. rewrite Z.land_spec, Z.bits_0.
  destruct (Z.ltb_spec n 13) as [L|L].
  - rewrite <- Z.land_ones, Z.land_spec, (Z.mul_pow2_bits_low a 13 n) by lia. reflexivity.
  - rewrite (Z.bits_above_log2 b n); [apply andb_false_r|lia|]. destruct (Z.eq_dec b 0) as [->|N]; [cbn; lia|]. apply Z.log2_lt_pow2; [lia|].
    apply Z.lt_le_trans with (2 ^ 13); [lia|]. apply Z.pow_le_mono_r; lia.
Qed.
Lemma str1_lo w0 w1 : 0 <= w0 < W -> 0 <= w1 < W ->
  w0 mod 2 ^ 26 + 2 ^ 26 * ((w0 / 2 ^ 26) mod 2 ^ 25) + 2 ^ 51 * (Z.lxor ((w1 * 2 ^ 13) mod W) (w0 / 2 ^ (26 + 25)) mod 2 ^ 26) +
  2 ^ 77 * ((w1 / 2 ^ 13) mod 2 ^ 25) + 2 ^ 102 * ((w1 / 2 ^ (13 + 25)) mod 2 ^ 26) = w0 + 2 ^ 64 * w1.
Proof.
  intros A B. unfold W in *. assert (C : 0 <= w0 / 2 ^ (26 + 25) < 2 ^ 13) by (split; [apply Z.div_pos; lia|apply Z.div_lt_upper_bound; lia]).
  rewrite lxor_13 by lia. change W with (2 ^ 64).
  rewrite (Zmod_eq_full (w1 * 2 ^ 13)) by lia.
  change (2 ^ 64) with (2 ^ 51 * 2 ^ 13) at 1. rewrite Z.div_mul_cancel_r by lia.
  Z.to_euclidean_division_equations. lia.
Qed.
Lemma str1_hi w0 w1 : 0 <= w0 < W -> 0 <= w1 < 2 ^ 63 ->
  w0 mod 2 ^ 25 + 2 ^ 25 * ((w0 / 2 ^ 25) mod 2 ^ 26) + 2 ^ 51 * (Z.lxor ((w1 * 2 ^ 13) mod W) (w0 / 2 ^ (26 + 25)) mod 2 ^ 25) +
  2 ^ 76 * ((w1 / 2 ^ 12) mod 2 ^ 26) + 2 ^ 102 * ((w1 / 2 ^ (12 + 26)) mod 2 ^ 25) = w0 + 2 ^ 64 * w1.
Proof.
  intros A B. unfold W in *. assert (C : 0 <= w0 / 2 ^ (26 + 25) < 2 ^ 13) by (split; [apply Z.div_pos; lia|apply Z.div_lt_upper_bound; lia]).
  rewrite lxor_13 by lia. change W with (2 ^ 64).
  rewrite (Zmod_eq_full (w1 * 2 ^ 13)) by lia.
  change (2 ^ 64) with (2 ^ 51 * 2 ^ 13) at 1. rewrite Z.div_mul_cancel_r by lia.
  Z.to_euclidean_division_equations. lia.
Qed.
Definition num4 (w : nat -> Z) : Z := w 0%nat + 2 ^ 64 * (w 1%nat + 2 ^ 64 * (w 2%nat + 2 ^ 64 * w 3%nat)).
Lemma str1_ok w0 w1 w2 w3 : 0 <= w0 < W -> 0 <= w1 < W -> 0 <= w2 < W -> 0 <= w3 < 2 ^ 63 ->
  fe255 (str1 w0 w1 w2 w3) = w0 + 2 ^ 64 * (w1 + 2 ^ 64 * (w2 + 2 ^ 64 * w3)) /\ arr_ok canon255 (str1 w0 w1 w2 w3).
Proof.
  intros A B C D. unfold str1. rewrite !land26, !land25. split.
  - transitivity ((w0 + 2 ^ 64 * w1) + 2 ^ 128 * (w2 + 2 ^ 64 * w3)); [|ring].
    rewrite <- (str1_lo w0 w1 A B), <- (str1_hi w2 w3 C D). unfold fe255, wt255. cbn [wsum].
    generalize (w0 mod 2 ^ 26) ((w0 / 2 ^ 26) mod 2 ^ 25) (Z.lxor ((w1 * 2 ^ 13) mod W) (w0 / 2 ^ (26 + 25)) mod 2 ^ 26) ((w1 / 2 ^ 13) mod 2 ^ 25)
      ((w1 / 2 ^ (13 + 25)) mod 2 ^ 26) (w2 mod 2 ^ 25) ((w2 / 2 ^ 25) mod 2 ^ 26) (Z.lxor ((w3 * 2 ^ 13) mod W) (w2 / 2 ^ (26 + 25)) mod 2 ^ 25)
      ((w3 / 2 ^ 12) mod 2 ^ 26) ((w3 / 2 ^ (12 + 26)) mod 2 ^ 25). intros. lia.
  - assert (H26 : forall x, inI (0, 67108863) (x mod 2 ^ 26)) by (intro x; pose proof (Z.mod_pos_bound x (2 ^ 26) ltac:(lia)); unfold inI; cbn [fst snd]; lia).
    assert (H25 : forall x, inI (0, 33554431) (x mod 2 ^ 25)) by (intro x; pose proof (Z.mod_pos_bound x (2 ^ 25) ltac:(lia)); unfold inI; cbn [fst snd]; lia).
    unfold arr_ok, canon255. repeat (apply Forall2_cons; [apply H26 || apply H25|]). apply Forall2_nil.
Qed.

(** The masks *)
Definition me (d i : Z) : Z := let x := Z.lor (wsub d i) (wsub i d) in let y := sign32 (dlo x) + 2 ^ 32 * sign32 (dhi x) in dhi y + 2 ^ 32 * dhi y.
Definition mo (d i : Z) : Z := let x := Z.lor (wsub d i) (wsub i d) in sign32 (dlo x) + 2 ^ 32 * sign32 (dhi x).
Definition mlane (h : nat) : Z -> Z -> Z := if (h =? 0)%nat then me else mo.
Lemma mask_all : forallb (fun d => forallb (fun i => let e := if Nat.eqb d i then 0 else ones64 in
  (me (Z.of_nat d) (Z.of_nat i) =? e) && (mo (Z.of_nat d) (Z.of_nat i) =? e)) (seq 0 9)) (seq 0 9) = true.
Proof. vm_compute. reflexivity. Qed.
Lemma mlane_ok h d i : (d <= 8)%nat -> (i <= 8)%nat -> mlane h (Z.of_nat d) (Z.of_nat i) = if Nat.eqb d i then 0 else ones64.
Proof.
  intros D I. pose proof mask_all as H. rewrite forallb_forall in H. specialize (H d ltac:(apply in_seq; lia)). rewrite forallb_forall in H.
  specialize (H i ltac:(apply in_seq; lia)). apply andb_prop in H as [H1 H2]. apply Z.eqb_eq in H1, H2. unfold mlane. destruct (h =? 0)%nat; assumption.
Qed.
(** The selected word *)
Definition sel1 (h : nat) (d : Z) (t : nat -> Z) : Z :=
  fold_left (fun acc i => Z.lxor acc (Z.land (Z.lxor (mlane h d (Z.of_nat (i + 1))) ones64) (t i))) (seq 0 8) 0.
Lemma land_ones64 x : 0 <= x < W -> Z.land ones64 x = x.
Proof. intro H. rewrite Z.land_comm. change ones64 with (Z.ones 64). rewrite Z.land_ones by lia. apply Z.mod_small. exact H. Qed.
Lemma sel1_ok h d t : (d <= 8)%nat -> (forall i, (i < 8)%nat -> 0 <= t i < W) -> sel1 h (Z.of_nat d) t = if (d =? 0)%nat then 0 else t (d - 1)%nat.
Proof.
  intros D T. unfold sel1. cbn [seq fold_left]. rewrite !mlane_ok by lia.
  assert (T' : forall i, (i < 8)%nat -> Z.land (Z.lxor 0 ones64) (t i) = t i) by (intros i I; rewrite Z.lxor_0_l; apply land_ones64, T; exact I).
  do 9 (destruct d as [|d]; [cbn [Nat.eqb Nat.add Nat.sub]; rewrite ?Z.lxor_nilpotent, ?Z.land_0_l, ?T', ?Z.lxor_0_l, ?Z.lxor_0_r by lia; reflexivity|]). lia.
Qed.

(** ** Vectors as four lanes *)
Definition vec (f : nat -> Z) : list Z := [f 0%nat; f 1%nat; f 2%nat; f 3%nat].
Lemma fold_vec (g : nat -> nat -> Z) l : forall a : nat -> Z,
  fold_left (fun acc i => VXOR acc (vec (g i))) l (vec a) = vec (fun j => fold_left (fun acc i => Z.lxor acc (g i j)) l (a j)).
Proof. induction l as [|i l IH]; intro a; [reflexivity|]. cbn [fold_left]. rewrite <- (IH (fun j => Z.lxor (a j) (g i j))). reflexivity. Qed.
Section Query.
Variable dd : nat -> nat.
Hypothesis Hdd : forall j, (dd j <= 8)%nat.
Variable ss : nat -> Z.
Let digits := vec (fun j => Z.of_nat (dd j)).
Let signs := vec ss.
Variable s : list Z.
Hypothesis Hs : Forall word s.
Lemma s_word n : 0 <= nth n s 0 < W.
Proof.
  clear - Hs. destruct (Nat.ltb_spec n (length s)) as [L|L]; [|rewrite nth_overflow by exact L; unfold W; lia]. exact (proj1 (Forall_forall _ _) Hs _ (nth_In _ _ L)).
Qed.
Lemma qmask_vec i : qmask digits i = vec (fun j => mlane (j mod 2) (Z.of_nat (dd j)) (Z.of_nat i)).
Proof. reflexivity. Qed.
Definition selw (c w j : nat) : Z := if (dd j =? 0)%nat then 0 else nth (2 * (24 * w + 3 * (dd j - 1) + c) + j mod 2) s 0.
Lemma vec_ext f g : (forall j, f j = g j) -> vec f = vec g. Proof. intro H. unfold vec. now rewrite !H. Qed.
Lemma qsel_vec c w : qsel s digits c w = vec (selw c w).
Proof.
  transitivity (vec (fun j => sel1 (j mod 2) (Z.of_nat (dd j)) (fun i => nth (2 * (24 * w + 3 * i + c) + j mod 2) s 0))).
  - unfold qsel. change [0; 0; 0; 0] with (vec (fun _ => 0)).
    assert (E : forall l a, fold_left (fun acc i => VXOR acc (VANDNOT (qmask digits (i + 1)) (bload s (24 * w + 3 * i + c)))) l a =
      fold_left (fun acc i => VXOR acc (vec (fun j => Z.land (Z.lxor (mlane (j mod 2) (Z.of_nat (dd j)) (Z.of_nat (i + 1))) ones64) (nth (2 * (24 * w + 3 * i + c) + j mod 2) s 0)))) l a).
    { induction l as [|i l IH]; intro a; [reflexivity|]. cbn [fold_left]. rewrite IH. apply (f_equal (fun v => fold_left _ l (VXOR a v))).
      rewrite qmask_vec. unfold VANDNOT, bload, vec. cbn [zip2]. change (0 mod 2)%nat with 0%nat. change (1 mod 2)%nat with 1%nat. change (2 mod 2)%nat with 0%nat. change (3 mod 2)%nat with 1%nat.
      rewrite !Nat.add_0_r. reflexivity. }
    rewrite E, fold_vec. reflexivity.
  - apply vec_ext. intro j. rewrite sel1_ok; [reflexivity|apply Hdd|intros; apply s_word].
Qed.
(** add and sub words with the case of digit zero: the numbers 1 *)
Definition aw (c w j : nat) : Z := if (dd j =? 0)%nat then (if (w =? 0)%nat then 1 else 0) else selw c w j.
Lemma aw_word c w j : 0 <= aw c w j < W.
Proof. unfold aw, selw. destruct (dd j =? 0)%nat; [destruct (w =? 0)%nat; unfold W; lia|apply s_word]. Qed.
Lemma selw_word c w j : 0 <= selw c w j < W.
Proof. unfold selw. destruct (dd j =? 0)%nat; [unfold W; lia|apply s_word]. Qed.
Lemma qone_vec c : qone digits (qsel s digits c 0) = vec (aw c 0).
Proof.
  rewrite qsel_vec. unfold qone. rewrite qmask_vec.
  transitivity (vec (fun j => Z.lxor (selw c 0 j) (Z.land (Z.lxor (mlane (j mod 2) (Z.of_nat (dd j)) (Z.of_nat 0)) ones64) (Z.lxor (selw c 0 j) 1)))); [reflexivity|].
  apply vec_ext. intro j. rewrite mlane_ok by (try apply Hdd; lia). unfold aw. destruct (Nat.eqb_spec (dd j) 0) as [E|E].
  - unfold selw. rewrite E. reflexivity.
  - rewrite Z.lxor_nilpotent, Z.land_0_l, Z.lxor_0_r. reflexivity.
Qed.
Lemma aw_sel c w : w <> 0%nat -> qsel s digits c w = vec (aw c w).
Proof. intro H. rewrite qsel_vec. apply vec_ext. intro j. unfold aw, selw. destruct (dd j =? 0)%nat; [|reflexivity]. destruct w; [congruence|reflexivity]. Qed.
Hypothesis Hss : forall j, ss j = 0 \/ ss j = ones64.
Definition sw {A} (j : nat) (a b : A) : A := if ss j =? 0 then a else b.
Lemma swap1 j a b : 0 <= a < W -> 0 <= b < W -> Z.lxor a (Z.land (Z.lxor a b) (ss j)) = sw j a b.
Proof.
  intros A B. unfold sw. destruct (Hss j) as [->| ->].
  - rewrite Z.land_0_r, Z.lxor_0_r. reflexivity.
  - change (ones64 =? 0) with false. cbv iota. rewrite Z.land_comm, land_ones64.
    + rewrite <- Z.lxor_assoc, Z.lxor_nilpotent. apply Z.lxor_0_l.
    + assert (N : 0 <= Z.lxor a b) by (apply Z.lxor_nonneg; tauto). split; [exact N|].
      destruct (Z.eq_dec (Z.lxor a b) 0) as [E|E]; [rewrite E; unfold W; lia|].
      change W with (2 ^ 64). apply Z.log2_lt_pow2; [lia|]. pose proof (Z.log2_lxor a b ltac:(lia) ltac:(lia)) as L.
      assert (G : forall x, 0 <= x < W -> Z.log2 x < 64).
      { intros x X. destruct (Z.eq_dec x 0) as [->|Nx]; [cbn; lia|]. apply Z.log2_lt_pow2; [lia|exact (proj2 X)]. }
      pose proof (G a A). pose proof (G b B). lia.
Qed.
Lemma swap_vec w : VXOR (vec (aw 0 w)) (VAND (VXOR (vec (aw 0 w)) (vec (aw 1 w))) signs) = vec (fun j => sw j (aw 0 w j) (aw 1 w j)) /\
  VXOR (vec (aw 1 w)) (VAND (VXOR (vec (aw 0 w)) (vec (aw 1 w))) signs) = vec (fun j => sw j (aw 1 w j) (aw 0 w j)).
Proof.
  split.
  - transitivity (vec (fun j => Z.lxor (aw 0 w j) (Z.land (Z.lxor (aw 0 w j) (aw 1 w j)) (ss j)))); [reflexivity|].
    apply vec_ext. intro j. apply swap1; apply aw_word.
  - transitivity (vec (fun j => Z.lxor (aw 1 w j) (Z.land (Z.lxor (aw 0 w j) (aw 1 w j)) (ss j)))); [reflexivity|].
    apply vec_ext. intro j. rewrite (Z.lxor_comm (aw 0 w j)). apply swap1; apply aw_word.
Qed.
Lemma str_lane a b c d j : (j < 4)%nat -> el4 j (str_4w (vec a) (vec b) (vec c) (vec d)) = str1 (a j) (b j) (c j) (d j).
Proof. intro H. do 4 (destruct j as [|j]; [reflexivity|]). lia. Qed.
Definition neg1 (s : Z) (v c : Z) : Z := wadd (Z.lxor v s) (wsub c s).
Lemma qneg_lane a b c d j : (j < 4)%nat -> el4 j (vmap2 (qneg signs) (str_4w (vec a) (vec b) (vec c) (vec d)) (concat (map bcast limbs_P))) =
  zip2 (neg1 (ss j)) (str1 (a j) (b j) (c j) (d j)) limbs_P.
Proof. intro H. do 4 (destruct j as [|j]; [reflexivity|]). lia. Qed.
End Query.

Lemma neg1_0 v c : 0 <= v < 2 ^ 30 -> 0 <= c < 2 ^ 30 -> neg1 0 v c = c + v.
Proof. intros A B. unfold neg1, wadd, wsub. rewrite Z.lxor_0_r, Z.sub_0_r, (Z.mod_small c) by (unfold W; lia). rewrite Z.mod_small; unfold W; lia. Qed.
Lemma neg1_1 v c : 0 <= v <= c -> c < 2 ^ 30 -> neg1 ones64 v c = c - v.
Proof.
  intros A B. unfold neg1. rewrite lxor_ones by (unfold W; lia). unfold wadd, wsub, ones64 in *.
  rewrite Zplus_mod_idemp_r. replace (2 ^ 64 - 1 - v + (c - (2 ^ 64 - 1))) with (c - v) by ring. apply Z.mod_small. unfold W. lia.
Qed.
Lemma neg_limbs s v : s = 0 \/ s = ones64 -> arr_ok canon255 v -> nth 0 v 0 <= 0x3ffffed ->
  fe255 (zip2 (neg1 s) v limbs_P) = p25 + signed (fe255 v) s /\ arr_ok twoc255 (zip2 (neg1 s) v limbs_P).
Proof.
  intros Hs H H0. unfold arr_ok, canon255 in H.
  do 10 (let x := fresh "x" in let y := fresh "r" in let Hx := fresh "Hx" in inversion H as [|? x ? y Hx H']; subst; clear H; rename H' into H; unfold inI in Hx; cbn [fst snd] in Hx).
  inversion H; subst; clear H. cbn [nth] in H0. unfold limbs_P. cbn [zip2]. unfold signed. destruct Hs as [->| ->].
  - rewrite !neg1_0 by lia. split.
    + change (0 =? 0) with true. cbv iota. unfold fe255, wt255. cbn [wsum]. unfold p25. lia.
    + unfold arr_ok, twoc255. repeat (apply Forall2_cons; [unfold inI; cbn [fst snd]; lia|]). apply Forall2_nil.
  - rewrite !neg1_1 by lia. split.
    + change (ones64 =? 0) with false. cbv iota. unfold fe255, wt255. cbn [wsum]. unfold p25. lia.
    + unfold arr_ok, twoc255. repeat (apply Forall2_cons; [unfold inI; cbn [fst snd]; lia|]). apply Forall2_nil.
Qed.

(** ** The table *)
Lemma table_words : Forall word TableSign_w4_24k.
Proof.
  assert (H : forallb (fun w => (0 <=? w) && (w <? W)) TableSign_w4_24k = true) by (vm_compute; reflexivity).
  rewrite forallb_forall in H. apply Forall_forall. intros x I. apply H in I. apply andb_prop in I as [A B]. apply Z.leb_le in A. apply Z.ltb_lt in B. split; assumption.
Qed.
Lemma sub_words_ok i : Forall word (sub_words i).
Proof.
  apply Forall_forall. intros x I. refine (proj1 (Forall_forall _ _) table_words x _).
  unfold sub_words in I. rewrite <- (firstn_skipn (192 * i) TableSign_w4_24k). apply in_or_app. right. rewrite <- (firstn_skipn 192 (skipn _ _)). apply in_or_app. left. exact I.
Qed.
Lemma low_limbs : forallb (forallb (fun t : triple => snd t mod 2 ^ 26 <=? 0x3ffffed)) all_bases_lit = true.
Proof. vm_compute. reflexivity. Qed.
Lemma low_limb i h m : (i < 16)%nat -> (h < 2)%nat -> (m < 8)%nat -> num_in (sub_words i) h m 2 mod 2 ^ 26 <= 0x3ffffed.
Proof.
  intros I H M. pose proof low_limbs as L. rewrite forallb_forall in L.
  specialize (L (nth (i + 16 * h) all_bases_lit [])). rewrite forallb_forall in L.
  specialize (L ltac:(apply nth_In; change (length all_bases_lit) with 32%nat; lia) (triple_in (sub_words i) h m)). apply Z.leb_le. apply L.
  rewrite <- all_bases_eq, all_bases_nth by assumption. unfold bases. apply in_map, in_seq. lia.
Qed.

(** ** The query *)
Section QueryOk.
Variable dd : nat -> nat.
Hypothesis Hdd : forall j, (dd j <= 8)%nat.
Variable ss : nat -> Z.
Hypothesis Hss : forall j, ss j = 0 \/ ss j = ones64.
Variable i : nat.
Hypothesis Hi : (i < 16)%nat.
Notation s := (sub_words i).
Notation aw := (aw dd s).
Notation selw := (selw dd s).
Definition base_pt (j : nat) : Z * Z := (Z.of_nat (dd j) * 16 ^ (2 * Z.of_nat i + 32 * Z.of_nat (j mod 2))) ** B.
Lemma base_on j : on255 (base_pt j). Proof. apply mul255_on, onB. Qed.
Lemma base_triple j : (num4 (fun w => aw 0 w j), num4 (fun w => aw 1 w j), num4 (fun w => selw 2 w j)) = triple_of (base_pt j).
Proof.
  unfold base_pt, Fixed255Proofs.aw, Fixed255Proofs.selw. destruct (Nat.eqb_spec (dd j) 0) as [E|E].
  - rewrite E. change (Z.of_nat 0) with 0. rewrite Z.mul_0_l, mul255_0. vm_compute. reflexivity.
  - pose proof (sign_table_ok i (j mod 2) (dd j - 1) Hi ltac:(apply Nat.mod_upper_bound; lia) ltac:(specialize (Hdd j); lia)) as T.
    replace (1 + Z.of_nat (dd j - 1)) with (Z.of_nat (dd j)) in T by lia. rewrite <- T. reflexivity.
Qed.
Lemma sel_low j : num4 (fun w => selw 2 w j) mod 2 ^ 26 <= 0x3ffffed.
Proof.
  unfold Fixed255Proofs.selw. destruct (Nat.eqb_spec (dd j) 0) as [E|E]; [vm_compute; discriminate|].
  exact (low_limb i (j mod 2) (dd j - 1) Hi ltac:(apply Nat.mod_upper_bound; lia) ltac:(specialize (Hdd j); lia)).
Qed.
Lemma num4_top (w : nat -> Z) : (forall i, 0 <= w i < W) -> num4 w < 2 ^ 255 -> 0 <= w 3%nat < 2 ^ 63.
Proof. intros H L. unfold num4, W in *. pose proof (H 0%nat). pose proof (H 1%nat). pose proof (H 2%nat). pose proof (H 3%nat). lia. Qed.
Lemma str1_num (w : nat -> Z) : (forall i, 0 <= w i < W) -> num4 w < 2 ^ 255 ->
  fe255 (str1 (w 0%nat) (w 1%nat) (w 2%nat) (w 3%nat)) = num4 w /\ arr_ok canon255 (str1 (w 0%nat) (w 1%nat) (w 2%nat) (w 3%nat)).
Proof. intros H L. apply str1_ok; try apply H. exact (num4_top w H L). Qed.
Lemma query_shape : query_table (vec ss) (vec (fun j => Z.of_nat (dd j))) i =
  mkpre (str_4w (vec (fun j => sw ss j (aw 0 0 j) (aw 1 0 j))) (vec (fun j => sw ss j (aw 0 1 j) (aw 1 1 j)))
                (vec (fun j => sw ss j (aw 0 2 j) (aw 1 2 j))) (vec (fun j => sw ss j (aw 0 3 j) (aw 1 3 j))))
        (str_4w (vec (fun j => sw ss j (aw 1 0 j) (aw 0 0 j))) (vec (fun j => sw ss j (aw 1 1 j) (aw 0 1 j)))
                (vec (fun j => sw ss j (aw 1 2 j) (aw 0 2 j))) (vec (fun j => sw ss j (aw 1 3 j) (aw 0 3 j))))
        (vmap2 (qneg (vec ss)) (str_4w (vec (selw 2 0)) (vec (selw 2 1)) (vec (selw 2 2)) (vec (selw 2 3))) (concat (map bcast limbs_P))).
Proof.
  unfold query_table. change (subtable i) with s. cbv zeta. cbn [Nat.eqb].
  rewrite !(qone_vec dd Hdd s (sub_words_ok i)). rewrite !(aw_sel dd Hdd s (sub_words_ok i)) with (c := 0%nat) by discriminate.
  rewrite !(aw_sel dd Hdd s (sub_words_ok i)) with (c := 1%nat) by discriminate.
  rewrite !(qsel_vec dd Hdd s (sub_words_ok i)).
  pose proof (swap_vec dd ss s (sub_words_ok i) Hss) as S.
  rewrite !(fun w => proj1 (S w)), !(fun w => proj2 (S w)). reflexivity.
Qed.
Theorem query_ok j : (j < 4)%nat ->
  all3 (query_table (vec ss) (vec (fun j => Z.of_nat (dd j))) i) /\
  pre_4way (query_table (vec ss) (vec (fun j => Z.of_nat (dd j))) i) j
    ((signed (Z.of_nat (dd j)) (ss j) * 16 ^ (2 * Z.of_nat i + 32 * Z.of_nat (j mod 2))) ** B).
Proof.
  intro Hj. rewrite query_shape. split; [split; [reflexivity|split; reflexivity]|].
  assert (E : (signed (Z.of_nat (dd j)) (ss j) * 16 ^ (2 * Z.of_nat i + 32 * Z.of_nat (j mod 2))) ** B = sw ss j (base_pt j) (neg255 (base_pt j))).
  { unfold signed, sw, base_pt. destruct (ss j =? 0); [reflexivity|]. rewrite neg255_mul by exact onB. rewrite Z.mul_opp_l. reflexivity. }
  rewrite E. pose proof (base_on j) as On. pose proof (base_triple j) as T. destruct (base_pt j) as [x y].
  unfold triple_of in T. injection T as T0 T1 T2.
  assert (On' : on255 (sw ss j (x, y) (neg255 (x, y)))) by (unfold sw; destruct (ss j =? 0); [exact On|apply neg255_on; exact On]).
  split; [exact On'|]. cbn [addYX subYX dYX]. rewrite !str_lane, qneg_lane by exact Hj.
  assert (W0 : forall w, 0 <= aw 0 w j < W) by (intro; apply aw_word, sub_words_ok).
  assert (W1 : forall w, 0 <= aw 1 w j < W) by (intro; apply aw_word, sub_words_ok).
  assert (W2 : forall w, 0 <= selw 2 w j < W) by (intro; apply selw_word, sub_words_ok).
  assert (L : forall z, z mod p25 < 2 ^ 255) by (intro z; pose proof (Z.mod_pos_bound z p25 ltac:(reflexivity)); unfold p25 in *; lia).
  destruct (str1_num (fun w => aw 0 w j) W0 ltac:(rewrite T0; apply L)) as [V0 B0].
  destruct (str1_num (fun w => aw 1 w j) W1 ltac:(rewrite T1; apply L)) as [V1 B1].
  destruct (str1_num (fun w => selw 2 w j) W2 ltac:(rewrite T2; apply L)) as [V2 B2].
  assert (C0 : cg (num4 (fun w => aw 0 w j)) (y + x)) by (apply cg_of; rewrite T0; apply Zmod_mod).
  assert (C1 : cg (num4 (fun w => aw 1 w j)) (y - x)) by (apply cg_of; rewrite T1; apply Zmod_mod).
  assert (C2 : cg (num4 (fun w => selw 2 w j)) (2 * d25 * x * y)) by (apply cg_of; rewrite T2; apply Zmod_mod).
  assert (N2 : nth 0 (str1 (selw 2 0 j) (selw 2 1 j) (selw 2 2 j) (selw 2 3 j)) 0 <= 0x3ffffed).
  { pose proof (sel_low j) as K. unfold num4 in K. cbv beta in K. unfold str1. cbn [nth]. rewrite land26.
    replace (2 ^ 64 * (selw 2 1 j + 2 ^ 64 * (selw 2 2 j + 2 ^ 64 * selw 2 3 j))) with ((2 ^ 38 * (selw 2 1 j + 2 ^ 64 * (selw 2 2 j + 2 ^ 64 * selw 2 3 j))) * 2 ^ 26) in K by ring.
    rewrite Z_mod_plus_full in K. exact K. }
  destruct (neg_limbs (ss j) _ (Hss j) B2 N2) as [V3 B3].
  assert (Cn : cg ((- x) mod p25) (- x)) by (apply cg_of, Zmod_mod).
  clear T0 T1 T2 E. unfold sw. destruct (ss j =? 0) eqn:Z0.
  - cbn [fst snd]. split; [|split].
    + split; [exact B0|]. rewrite V0. exact C0.
    + split; [exact B1|]. rewrite V1. exact C1.
    + split; [exact B3|]. rewrite V3. unfold signed. rewrite Z0. apply cg_trans with (num4 (fun w => selw 2 w j)); [|exact C2].
      rewrite <- V2. apply cg_of. rewrite <- Zplus_mod_idemp_l, Z_mod_same_full. reflexivity.
  - unfold neg255, ed_neg. cbn [fst snd]. split; [|split].
    + split; [exact B1|]. rewrite V1. apply cg_trans with (y - x); [exact C1|]. replace (y - x) with (y + - x) by ring. apply cg_add; [apply cg_refl|apply cg_sym; exact Cn].
    + split; [exact B0|]. rewrite V0. apply cg_trans with (y + x); [exact C0|]. replace (y + x) with (y - - x) by ring. apply cg_sub; [apply cg_refl|apply cg_sym; exact Cn].
    + split; [exact B3|]. rewrite V3. unfold signed. rewrite Z0. apply cg_trans with (0 - num4 (fun w => selw 2 w j)).
      * rewrite <- V2. apply cg_of. rewrite <- Zplus_mod_idemp_l, Z_mod_same_full. reflexivity.
      * apply cg_trans with (2 * d25 * (- x) * y); [|apply cg_mul; [apply cg_mul; [apply cg_refl|apply cg_sym; exact Cn]|apply cg_refl]].
        replace (2 * d25 * - x * y) with (0 - 2 * d25 * x * y) by ring. apply cg_sub; [apply cg_refl|exact C2].
Qed.
End QueryOk.

(** ** The first point and the loop *)
Section Mult.
Variable st : store.
Variable k : cpu.
Variable sky : bool.
Ltac cl := apply call_length.
Lemma half_lane j : (j < 4)%nat -> rr red255 (el4 j one_half_4w) ((p25 + 1) / 2).
Proof. intro H. do 4 (destruct j as [|j]; [split; [apply arr_lit; vm_compute; reflexivity|vm_compute; reflexivity]|]). lia. Qed.
Lemma two_lane j : (j < 4)%nat -> rr red255 (el4 j (bcast 2 ++ skipn 4 (zero_4w st))) 2.
Proof.
  intro H. rewrite zero_4w_ok. do 4 (destruct j as [|j]; [split; [apply arr_lit; vm_compute; reflexivity|vm_compute; reflexivity]|]). lia.
Qed.
Lemma first_point_ok P j Q : (j < 4)%nat -> all3 P -> pre_4way P j Q -> all4 40 (first_point st P) /\ pt_4way (first_point st P) j Q.
Proof.
  intros Hj (LA & LS & LD) (On & RA & RS & _).
  apply (rr_le canon255 red255) in RA; [|vm_compute; reflexivity]. apply (rr_le canon255 red255) in RS; [|vm_compute; reflexivity].
  destruct RA as [BA EA]. destruct RS as [BS ES]. unfold first_point.
  destruct (sub_4w_ok st j Hj _ _ LA LS BA BS) as [Ex Bx]. destruct (add_4w_ok st j Hj _ _ LA LS BA BS) as [Ey By].
  set (X := sub_4w st (addYX P) (subYX P)) in *. assert (LX : l4 X) by cl. set (Y := add_4w st (addYX P) (subYX P)) in *. assert (LY : l4 Y) by cl.
  clearbody X Y.
  destruct (new_compressfast2_4w_red1 st j Hj X Y LX LY Bx By) as [Ex1 Bx1]. destruct (new_compressfast2_4w_red2 st j Hj X Y LX LY Bx By) as [Ey1 By1].
  assert (LX1 : l4 (fst (new_compressfast2_4w st X Y))) by cl. assert (LY1 : l4 (snd (new_compressfast2_4w st X Y))) by cl.
  destruct (new_compressfast2_4w st X Y) as [X1 Y1]. cbn [fst snd] in *.
  assert (Wd : forall a, is_red a -> is_wide a) by (intros a Ha; exact (bounds_le_ok red255 wide255 a ltac:(vm_compute; reflexivity) Ha)).
  destruct (mul_4w_ok st j Hj X1 Y1 LX1 LY1 (Wd _ Bx1) (Wd _ By1)) as [Et Bt].
  set (T := mul_4w st X1 Y1) in *. assert (LT : l4 T) by cl. clearbody T.
  destruct (half_lane j Hj) as [Bh Eh].
  destruct (mul_4w_ok st j Hj T one_half_4w LT eq_refl (Wd _ Bt) (Wd _ Bh)) as [Et1 Bt1].
  set (T1 := mul_4w st T one_half_4w) in *. assert (LT1 : l4 T1) by cl. clearbody T1.
  destruct (two_lane j Hj) as [B2 E2]. assert (L2 : l4 (bcast 2 ++ skipn 4 (zero_4w st))) by (rewrite zero_4w_ok; reflexivity).
  set (Zc := bcast 2 ++ skipn 4 (zero_4w st)) in *. clearbody Zc.
  split; [split; [exact LX1|split; [exact LY1|split; [exact L2|exact LT1]]]|].
  split; [exact On|]. cbn [cX cY cZ cT]. split; [exact Bx1|]. split; [exact By1|]. split; [exact B2|]. split; [exact Bt1|].
  set (x := fst Q) in *. set (y := snd Q) in *.
  assert (Fx : cg (fe255 (el4 j X1)) (2 * x)).
  { apply (cg_trans _ _ _ Ex1). apply (cg_trans _ _ _ Ex). replace (2 * x) with ((y + x) - (y - x)) by ring. apply cg_sub; assumption. }
  assert (Fy : cg (fe255 (el4 j Y1)) (2 * y)).
  { apply (cg_trans _ _ _ Ey1). apply (cg_trans _ _ _ Ey). replace (2 * y) with ((y + x) + (y - x)) by ring. apply cg_add; assumption. }
  assert (Ft : cg (fe255 (el4 j T1)) (2 * (x * y))).
  { apply (cg_trans _ _ _ Et1). apply cg_trans with (2 * x * (2 * y) * ((p25 + 1) / 2)).
    - apply cg_mul; [apply (cg_trans _ _ _ Et), cg_mul; assumption|exact Eh].
    - unfold cg. replace (2 * x * (2 * y) * ((p25 + 1) / 2) - 2 * (x * y)) with (2 * (x * y) * (2 * ((p25 + 1) / 2) - 1)) by ring.
      change (2 * ((p25 + 1) / 2) - 1) with p25519. apply Z_mod_mult. }
  apply cgm in Fx, Fy, Ft, E2. pose proof (reps255_scale 2 _ _ _ _ _ ltac:(vm_compute; discriminate) (reps255_intro Q)) as R.
  refine (reps255_eqm _ _ _ _ _ _ _ _ _ _ _ _ _ R); symmetry; [exact Fx|exact Fy|exact E2|exact Ft].
Qed.
(** Digits and signs of a recoding *)
Section Loop.
Variables K S : list Z.
Hypothesis LK : (64 <= length K)%nat.
Hypothesis LS : (64 <= length S)%nat.
Hypothesis HK : forall n, (n < 64)%nat -> 0 <= nth n K 0 <= 8 /\ (nth n S 0 = 0 \/ nth n S 0 = 2 ^ 64 - 1).
Notation g n := (signed (nth n K 0) (nth n S 0)).
Fixpoint coef (n j : nat) : Z :=
  match n with O => 0 | Datatypes.S n => coef n j + g (4 * n + j) * 16 ^ (2 * Z.of_nat n + 32 * Z.of_nat (j mod 2)) end.
Lemma four_vec (a : list Z) i : (64 <= length a)%nat -> (i < 16)%nat -> four_at a i = vec (fun j => nth (4 * i + j) a 0).
Proof.
  intros L I. unfold four_at. assert (E : (4 <= length (skipn (4 * i) a))%nat) by (rewrite skipn_length; lia).
  transitivity (vec (fun j => nth j (skipn (4 * i) a) 0)).
  - destruct (skipn (4 * i) a) as [|x0 [|x1 [|x2 [|x3 r]]]]; try (cbn in E; lia). reflexivity.
  - unfold vec. rewrite !nth_skipn. reflexivity.
Qed.
Lemma query_at i j : (i < 16)%nat -> (j < 4)%nat ->
  all3 (query_table (four_at S i) (four_at K i) i) /\
  pre_4way (query_table (four_at S i) (four_at K i) i) j ((g (4 * i + j) * 16 ^ (2 * Z.of_nat i + 32 * Z.of_nat (j mod 2))) ** B).
Proof.
  intros I J. rewrite !four_vec by assumption.
  pose (dd := fun j => if (j <? 4)%nat then Z.to_nat (nth (4 * i + j) K 0) else 0%nat).
  pose (ss := fun j => if (j <? 4)%nat then nth (4 * i + j) S 0 else 0).
  assert (Ed : forall j, (j < 4)%nat -> Z.of_nat (dd j) = nth (4 * i + j) K 0).
  { intros j' J'. unfold dd. rewrite (proj2 (Nat.ltb_lt j' 4) J'). apply Z2Nat.id. apply HK. lia. }
  assert (Es : forall j, (j < 4)%nat -> ss j = nth (4 * i + j) S 0) by (intros j' J'; unfold ss; rewrite (proj2 (Nat.ltb_lt j' 4) J'); reflexivity).
  assert (V1 : vec (fun j => nth (4 * i + j) S 0) = vec ss) by (unfold vec; rewrite !Es by lia; reflexivity).
  assert (V2 : vec (fun j => nth (4 * i + j) K 0) = vec (fun j => Z.of_nat (dd j))) by (unfold vec; rewrite !Ed by lia; reflexivity).
  rewrite V1, V2, <- Ed, <- Es by exact J. apply query_ok; [| |exact I|exact J].
  - intro j'. unfold dd. destruct (Nat.ltb_spec j' 4) as [H|H]; [|lia]. pose proof (proj1 (HK (4 * i + j') ltac:(lia))). lia.
  - intro j'. unfold ss. destruct (Nat.ltb_spec j' 4) as [H|H]; [|left; reflexivity]. exact (proj2 (HK (4 * i + j') ltac:(lia))).
Qed.
Definition loop (n : nat) : point4 :=
  fold_left (fun Q i => mixadd_4way st Q (query_table (four_at S i) (four_at K i) i)) (seq 1 n) (first_point st (query_table (four_at S 0) (four_at K 0) 0)).
Lemma loop_ok n : (n < 16)%nat -> forall j, (j < 4)%nat -> all4 40 (loop n) /\ pt_4way (loop n) j (coef (n + 1) j ** B).
Proof.
  induction n as [|n IH]; intros N j J.
  - destruct (query_at 0 j ltac:(lia) J) as [A P]. unfold loop. cbn [seq fold_left]. cbn [coef Nat.add]. rewrite Z.add_0_l. apply first_point_ok; assumption.
  - unfold loop in *. rewrite seq_S, fold_left_app. cbn [fold_left]. change (1 + n)%nat with (Datatypes.S n).
    destruct (IH ltac:(lia) j J) as [A P]. destruct (query_at (Datatypes.S n) j N J) as [A' P'].
    pose proof (mixadd_4way_ok st j J _ _ _ _ A A' P P') as R. change (Datatypes.S n + 1)%nat with (Datatypes.S (n + 1)). cbn [coef].
    replace (n + 1)%nat with (Datatypes.S n) in * by lia. rewrite mul255_add by exact onB. exact R.
Qed.
End Loop.
Lemma coef_weighted K S :
  coef K S 16 0 + coef K S 16 1 + 16 * (coef K S 16 2 + coef K S 16 3) = weighted 16 (fun m => signed (nth (pos_fold2w4 m) K 0) (nth (pos_fold2w4 m) S 0)) 64.
Proof.
  set (g := fun n => signed (nth n K 0) (nth n S 0)).
  assert (E : forall n j, coef K S n j = (fix c n := match n with O => 0 | Datatypes.S n => c n + g (4 * n + j)%nat * 16 ^ (2 * Z.of_nat n + 32 * Z.of_nat (j mod 2)) end) n).
  { induction n as [|n IH]; intro j; [reflexivity|]. cbn [coef]. rewrite IH. reflexivity. }
  rewrite !E. change (fun m => signed (nth (pos_fold2w4 m) K 0) (nth (pos_fold2w4 m) S 0)) with (fun m => g (pos_fold2w4 m)).
  clearbody g. clear E. 
  cbv -[Z.add Z.mul Z.pow Z.of_nat].
  repeat match goal with |- context [16 ^ ?e] => let v := eval vm_compute in (16 ^ e) in change (16 ^ e) with v end.
  lia.
Qed.

(** ** Joining the four partial sums *)
Lemma unpack_lanes a : l4 a -> l2 (fst (unpack_2w a)) /\ l2 (snd (unpack_2w a)) /\
  (forall h : bool, el2 h (fst (unpack_2w a)) = el4 (if h then 2 else 0) a) /\ (forall h : bool, el2 h (snd (unpack_2w a)) = el4 (if h then 3 else 1) a).
Proof. intro H. list40 H. split; [reflexivity|]. split; [reflexivity|]. split; intros []; reflexivity. Qed.
Ltac l20 H := do 20 (apply len_S in H as (? & ? & -> & H)); apply length_zero_iff_nil in H; subst.
Lemma perm_halves a b : l2 a -> l2 b ->
  (l2 (vmap2 (PERM128 0x20) a b) /\ el2 false (vmap2 (PERM128 0x20) a b) = el2 false a /\ el2 true (vmap2 (PERM128 0x20) a b) = el2 false b) /\
  (l2 (vmap2 (PERM128 0x31) a b) /\ el2 false (vmap2 (PERM128 0x31) a b) = el2 true a /\ el2 true (vmap2 (PERM128 0x31) a b) = el2 true b).
Proof. intros H K. l20 H. l20 K. split; (split; [reflexivity|split; reflexivity]). Qed.
Lemma mul16 P : on255 P -> 16 ** P = let D := fun P => add255 P P in D (D (D (D P))).
Proof.
  intro On. change 16 with (2 * (2 * (2 * 2))). rewrite !mul255_mul by (try exact On; repeat apply mul255_on; exact On). reflexivity.
Qed.
Lemma join_points_ok Q (Ps : nat -> Z * Z) : (forall j, (j < 4)%nat -> all4 40 Q /\ pt_4way Q j (Ps j)) ->
  pt_2w (join_points st sky Q) (add255 (add255 (Ps 0%nat) (Ps 1%nat)) (16 ** (add255 (Ps 2%nat) (Ps 3%nat)))).
Proof.
  intro H. destruct (H 0%nat ltac:(lia)) as [(LX & LY & LZ & LT) _]. pose proof (fun j J => proj2 (H j J)) as H'. clear H.
  unfold join_points.
  pose proof (unpack_lanes _ LX) as (x0 & x1 & x2 & x3). pose proof (unpack_lanes _ LY) as (y0 & y1 & y2 & y3).
  pose proof (unpack_lanes _ LZ) as (z0 & z1 & z2 & z3). pose proof (unpack_lanes _ LT) as (t0 & t1 & t2 & t3).
  destruct (unpack_2w (cX Q)) as [R0X R1X]. destruct (unpack_2w (cY Q)) as [R0Y R1Y]. destruct (unpack_2w (cZ Q)) as [R0Z R1Z]. destruct (unpack_2w (cT Q)) as [R0T R1T].
  cbn [fst snd] in *.
  assert (P0 : forall h : bool, pt_2way (mkpt R0X R0Y R0Z R0T) h (Ps (if h then 2 else 0)%nat)).
  { intro h. unfold pt_2way. cbn [cX cY cZ cT]. rewrite x2, y2, z2, t2. apply H'. destruct h; lia. }
  assert (P1 : forall h : bool, pt_2way (mkpt R1X R1Y R1Z R1T) h (Ps (if h then 3 else 1)%nat)).
  { intro h. unfold pt_2way. cbn [cX cY cZ cT]. rewrite x3, y3, z3, t3. apply H'. destruct h; lia. }
  assert (A0 : all4 20 (mkpt R0X R0Y R0Z R0T)) by (unfold all4; cbn [cX cY cZ cT]; auto).
  assert (A1 : all4 20 (mkpt R1X R1Y R1Z R1T)) by (unfold all4; cbn [cX cY cZ cT]; auto).
  pose proof (fun h => fulladd_2way_ok st _ _ _ _ h A0 A1 (P0 h) (P1 h)) as F.
  set (R := fulladd_2way st (mkpt R0X R0Y R0Z R0T) (mkpt R1X R1Y R1Z R1T)) in *. clearbody R.
  destruct (F false) as [(KX & KY & KZ & KT) F0]. destruct (F true) as [_ F1]. clear F A0 A1 P0 P1 x0 x1 x2 x3 y0 y1 y2 y3 z0 z1 z2 z3 t0 t1 t2 t3.
  destruct (perm_halves _ _ KX KY) as [(u1 & u2 & u3) (v1 & v2 & v3)]. destruct (perm_halves _ _ KT KZ) as [(u4 & u5 & u6) (v4 & v5 & v6)].
  assert (T0 : pt_2w (vmap2 (PERM128 0x20) (cX R) (cY R), vmap2 (PERM128 0x20) (cT R) (cZ R)) (add255 (Ps 0%nat) (Ps 1%nat))).
  { unfold pt_2w. cbn [fst snd]. rewrite u2, u3, u5, u6. split; [exact u1|]. split; [exact u4|]. exact F0. }
  assert (T1 : pt_2w (vmap2 (PERM128 0x31) (cX R) (cY R), vmap2 (PERM128 0x31) (cT R) (cZ R)) (add255 (Ps 2%nat) (Ps 3%nat))).
  { unfold pt_2w. cbn [fst snd]. rewrite v2, v3, v5, v6. split; [exact v1|]. split; [exact v4|]. exact F1. }
  assert (On : on255 (add255 (Ps 2%nat) (Ps 3%nat))) by (destruct T1 as (_ & _ & O & _); exact O).
  cbv zeta. apply fulladd_2w_ok; [exact T0|].
  do 4 apply (doubling_2w_ok st sky) in T1. rewrite (mul16 _ On). exact T1.
Qed.

(** ** Fixed-base multiplication *)
Theorem point_multiplication_ok K0 S0 r : length K0 = 67%nat -> length S0 = 67%nat -> bytes 32 r ->
  pt_2w (point_multiplication st sky K0 S0 r) ((le_val r - (if carry_limit 64 <=? le_val r then 2 ^ 256 else 0)) ** B).
Proof.
  intros LK LS Hr. unfold point_multiplication. pose proof (recode255_ok K0 S0 r Hr LK LS) as R.
  destruct (recode_fold2w4 K0 S0 r) as [K S]. destruct R as (LK' & LS' & Hd & Hw).
  assert (HK : forall n, (n < 64)%nat -> 0 <= nth n K 0 <= 8 /\ (nth n S 0 = 0 \/ nth n S 0 = 2 ^ 64 - 1)).
  { intros n Hn. assert (E : pos_fold2w4 (2 * (n / 4) + 32 * (n mod 2) + (n mod 4) / 2) = n).
    { clear - Hn. do 64 (destruct n as [|n]; [reflexivity|]). lia. }
    specialize (Hd (2 * (n / 4) + 32 * (n mod 2) + (n mod 4) / 2)%nat). rewrite E in Hd.
    destruct (Hd ltac:(pose proof (Nat.mod_upper_bound n 2); pose proof (Nat.div_lt_upper_bound n 4 16); pose proof (Nat.mod_upper_bound n 4);
      pose proof (Nat.div_lt_upper_bound (n mod 4) 2 2); lia)) as (A & B & _). split; assumption. }
  rewrite <- Hw, <- coef_weighted. rewrite mul255_add, mul255_add, mul255_mul, mul255_add by exact onB.
  exact (join_points_ok _ (fun j => coef K S 16 j ** B) (fun j J => loop_ok K S ltac:(lia) ltac:(lia) HK 15 ltac:(lia) j J)).
Qed.

(** ** Encoding *)
Lemma le_top l b c : bytes 31 l -> le_val (l ++ [b + 128 * c]) = le_val (l ++ [b]) + 2 ^ 255 * c.
Proof. intros [L _]. rewrite !le_val_app. rewrite L. cbn [le_val]. change (256 ^ Z.of_nat 31) with (2 ^ 248). ring. Qed.
Lemma top_byte b c : 0 <= b < 128 -> (c = 0 \/ c = 1) -> Z.lor (Z.land b 0x7F) ((c * 2 ^ 7) mod 256) = b + 128 * c.
Proof.
  intros Hb Hc. assert (H : forallb (fun b => (Z.lor (Z.land (Z.of_nat b) 0x7F) ((0 * 2 ^ 7) mod 256) =? Z.of_nat b) && (Z.lor (Z.land (Z.of_nat b) 0x7F) ((1 * 2 ^ 7) mod 256) =? Z.of_nat b + 128)) (seq 0 128) = true) by (vm_compute; reflexivity).
  rewrite forallb_forall in H. specialize (H (Z.to_nat b) ltac:(apply in_seq; lia)). rewrite Z2Nat.id in H by lia. apply andb_prop in H as [H0 H1]. apply Z.eqb_eq in H0, H1.
  destruct Hc as [->| ->]; [rewrite H0|rewrite H1]; ring.
Qed.
Lemma assemble ex ey px py : bytes 32 ex -> bytes 32 ey -> le_val ex = px -> le_val ey = py -> 0 <= py < 2 ^ 255 ->
  let e := firstn 31 ey ++ [Z.lor (Z.land (nth 31 ey 0) 0x7F) ((Z.land (nth 0 ex 0) 1 * 2 ^ 7) mod 256)] in
  bytes 32 e /\ le_val e = py + 2 ^ 255 * (px mod 2).
Proof.
  intros [Lx Fx] [Ly Fy] Sx Sy Hpy.
  assert (Ey' : ey = firstn 31 ey ++ [nth 31 ey 0]).
  { rewrite <- (firstn_skipn 31 ey) at 1. f_equal. do 32 (destruct ey as [|? ey]; [discriminate|]). destruct ey; [reflexivity|discriminate]. }
  assert (B31 : bytes 31 (firstn 31 ey)).
  { split; [rewrite firstn_length, Ly; reflexivity|]. rewrite <- (firstn_skipn 31 ey) in Fy. apply Forall_app in Fy. exact (proj1 Fy). }
  assert (T : 0 <= nth 31 ey 0 < 128).
  { rewrite Ey', le_val_app in Sy. destruct (le_val_bound _ (proj2 B31)) as [V0 V1]. rewrite (proj1 B31) in *. cbn [le_val] in Sy. change (256 ^ Z.of_nat 31) with (2 ^ 248) in *.
    assert (Bt : byte (nth 31 ey 0)) by (refine (proj1 (Forall_forall _ _) Fy _ _); apply nth_In; rewrite Ly; lia). unfold byte in Bt. clear - V0 V1 Sy Bt Hpy. lia. }
  assert (X0 : Z.land (nth 0 ex 0) 1 = px mod 2).
  { destruct ex as [|b ex]; [discriminate|]. cbn [nth]. rewrite <- Sx. cbn [le_val]. rewrite (Z.land_ones b 1 ltac:(lia) : Z.land b 1 = b mod 2).
    replace (256 * le_val ex) with (128 * le_val ex * 2) by ring. rewrite Z_mod_plus_full. reflexivity. }
  cbv zeta. rewrite X0. assert (Pm : px mod 2 = 0 \/ px mod 2 = 1) by (pose proof (Z.mod_pos_bound px 2); lia).
  rewrite (top_byte _ _ T Pm). split.
  - split; [rewrite app_length, (proj1 B31); reflexivity|]. apply Forall_app. split; [exact (proj2 B31)|]. apply Forall_cons; [|apply Forall_nil]. unfold byte. lia.
  - rewrite (le_top _ _ _ B31), <- Ey', Sy. reflexivity.
Qed.
Lemma affine_coord A I Zw a c z : words 4 A -> words 4 I -> val A = a mod p25519 -> a mod p25519 = (c * z) mod p25519 -> val Zw = z mod p25519 ->
  (val Zw * val I) mod p25519 = 1 -> 0 <= c < p25519 -> words 4 (mul st k A I) /\ val (mul st k A I) mod p25519 = c.
Proof.
  intros WA WI VA Ea Vz Hi Hc. destruct (mul_ok st k A I WA WI) as [Wm Em]. split; [exact Wm|]. rewrite Em, VA, Ea, Zmult_mod_idemp_l.
  rewrite <- Z.mul_assoc, <- Zmult_mod_idemp_r. rewrite <- (Zmult_mod_idemp_l z), <- Vz, Hi, Z.mul_1_r. apply Z.mod_small. exact Hc.
Qed.
Lemma reps_parts X Y Zc T px py : on255 (px, py) -> reps255 X Y Zc T (px, py) ->
  0 <= px < p25519 /\ 0 <= py < p25519 /\ Zc mod p25519 <> 0 /\ X mod p25519 = (px * Zc) mod p25519 /\ Y mod p25519 = (py * Zc) mod p25519.
Proof.
  intros (A & B & _) (C & D & E & _). split; [exact A|]. split; [exact B|]. split; [exact C|]. split; [exact D|exact E].
Qed.
Theorem point_encoding_ok p P : pt_2w p P -> bytes 32 (point_encoding st k p) /\ le_val (point_encoding st k p) = snd P + 2 ^ 255 * (fst P mod 2).
Proof.
  intros (L1 & L2 & On & Rx & Ry & Rz & Rt & Rep). unfold point_encoding. rewrite (deinter_2w_ok st _ L1), (deinter_2w_ok st _ L2).
  destruct (rr_ser st _ _ (rr_fe0 _ _ Rx)) as [Wx Vx]. destruct (rr_ser st _ _ (rr_fe0 _ _ Ry)) as [Wy Vy]. destruct (rr_ser st _ _ (rr_fe0 _ _ Rz)) as [Wz Vz].
  destruct P as [px py]. destruct (reps_parts _ _ _ _ _ _ On Rep) as (Hpx & Hpy & Nz & Ex & Ey). clear Rep On.
  destruct (inv_inverse st k _ Wz) as (Wi & Hi & _). rewrite Vz, Zmod_mod in Hi. specialize (Hi Nz). rewrite <- Vz in Hi.
  destruct (affine_coord _ _ _ _ _ _ Wx Wi Vx Ex Vz Hi Hpx) as [Wx' Vx']. destruct (affine_coord _ _ _ _ _ _ Wy Wi Vy Ey Vz Hi Hpy) as [Wy' Vy'].
  destruct (ser_ok st _ Wx') as [Bx Sx]. destruct (ser_ok st _ Wy') as [By Sy]. rewrite Vx' in Sx. rewrite Vy' in Sy.
  exact (assemble _ _ _ _ Bx By Sx Sy ltac:(clear - Hpy; unfold p25519 in Hpy; lia)).
Qed.
End Mult.
