(** Fixed-base multiplication, its tables and the point encoding, in the words of SpecEdVec.v. *)
From Coq Require Import ZArith List Bool Lia FMapPositive.
From Verif Require Import Uop Engine Bytes Spec SpecVec SpecEd SpecRecode SpecEdVec CurveInst EdInst Edwards255 Edwards255Proofs Verify255 EdProps
  Table255 TableProofs255 Fixed255 Fixed255Proofs.
Import ListNotations.
Open Scope Z_scope.
Notation B := B_ed255.

Lemma val4 a b c d : val [a; b; c; d] = a + 2 ^ 64 * (b + 2 ^ 64 * (c + 2 ^ 64 * d)).
Proof. cbn [val]. change W with (2 ^ 64). ring. Qed.
Lemma sub_nth i n : (i < 16)%nat -> (n < 192)%nat -> nth n (sub_words i) 0 = nth (192 * i + n) TableSign_w4_24k 0.
Proof. intros I N. unfold sub_words. rewrite RecodeProofs.nth_firstn by exact N. apply RecodeProofs.nth_skipn. Qed.
Lemma comb_num i h m c : (i < 16)%nat -> (h < 2)%nat -> (m < 8)%nat -> (c < 3)%nat -> comb_number TableSign_w4_24k i h m c = num_in (sub_words i) h m c.
Proof.
  intros I H M C. unfold comb_number, num_in. cbn [map]. rewrite val4. cbv zeta. rewrite !sub_nth by lia.
  repeat (f_equal; try lia).
Qed.
Theorem sign_table_spec : forall i h m, (i < 16)%nat -> (h < 2)%nat -> (m < 8)%nat ->
  entry_numbers (comb_number TableSign_w4_24k i h m) (mul255 ((1 + Z.of_nat m) * 16 ^ (2 * Z.of_nat i + 32 * Z.of_nat h)) B).
Proof.
  intros i h m I H M. pose proof (sign_table_ok i h m I H M) as T. unfold entry_numbers. rewrite !comb_num by lia. unfold triple_in, triple_of in T.
  destruct (mul255 _ B) as [x y]. injection T as T0 T1 T2. split; [exact T0|]. split; [exact T1|exact T2].
Qed.
Theorem verf_table_spec : forall j, (j < 32)%nat -> entry_numbers (list_number TableVerif_static_w7_Ed25519 j) (mul255 (2 * Z.of_nat j + 1) B).
Proof.
  intros j J. pose proof (verf_table_ok j J) as T. unfold entry_numbers, list_number. cbn [map]. rewrite !val4. unfold verf_triple, triple_of in T. cbv zeta in T.
  destruct (mul255 _ B) as [x y]. injection T as T0 T1 T2. split; [exact T0|]. split; [exact T1|exact T2].
Qed.

(** The base point has order l: the multiples of B that vanish *)
Lemma coprime_nonzero k : Z.gcd k l_ed255 = 1 -> mul255 k B <> (0, 1).
Proof.
  intros G E. destruct (Z.gcd_bezout k l_ed255 1 G) as (u & v & U). pose proof (mul255_1 B) as E1. rewrite <- U in E1.
  rewrite mul255_add, (mul255_mul u k), (mul255_mul v l_ed255), E, order_B in E1 by exact onB.
  change (0, 1) with ed_zero in E1. pose proof zero255_on as Oz.
  assert (Z0 : forall n, mul255 n ed_zero = ed_zero). { intro n. rewrite <- (mul255_0 B), <- mul255_mul, Z.mul_0_r by exact onB. reflexivity. }
  rewrite !Z0, add255_zero in E1 by exact Oz. apply (f_equal snd) in E1. vm_compute in E1. discriminate E1.
Qed.

(** Table lookups *)
Theorem query_spec : forall digits signs idx, (idx < 16)%nat -> length digits = 4%nat -> length signs = 4%nat ->
  (forall j, (j < 4)%nat -> 0 <= nth j digits 0 <= 8 /\ (nth j signs 0 = 0 \/ nth j signs 0 = 2 ^ 64 - 1)) ->
  let q := query_table signs digits idx in
  entries255 (addYX q) (subYX q) (dYX q)
    (fun j => mul255 (signed (nth j digits 0) (nth j signs 0) * 16 ^ (2 * Z.of_nat idx + 32 * Z.of_nat (j mod 2))) B).
Proof.
  intros D S i I LD LS H q. apply ents.
  pose (dd := fun j => if (j <? 4)%nat then Z.to_nat (nth j D 0) else 0%nat). pose (ss := fun j => if (j <? 4)%nat then nth j S 0 else 0).
  assert (Ed : forall j, (j < 4)%nat -> Z.of_nat (dd j) = nth j D 0).
  { intros j J. unfold dd. rewrite (proj2 (Nat.ltb_lt j 4) J). apply Z2Nat.id. apply H. lia. }
  assert (Es : forall j, (j < 4)%nat -> ss j = nth j S 0) by (intros j J; unfold ss; rewrite (proj2 (Nat.ltb_lt j 4) J); reflexivity).
  assert (V1 : S = vec ss). { unfold vec. rewrite !Es by lia. do 4 (destruct S as [|? S]; [discriminate|]). destruct S; [reflexivity|discriminate]. }
  assert (V2 : D = vec (fun j => Z.of_nat (dd j))). { unfold vec. rewrite !Ed by lia. do 4 (destruct D as [|? D]; [discriminate|]). destruct D; [reflexivity|discriminate]. }
  assert (Hd : forall j, (dd j <= 8)%nat). { intro j. unfold dd. destruct (Nat.ltb_spec j 4) as [J|J]; [|lia]. pose proof (proj1 (H j J)). lia. }
  assert (Hs : forall j, ss j = 0 \/ ss j = ones64). { intro j. unfold ss. destruct (Nat.ltb_spec j 4) as [J|J]; [|left; reflexivity]. exact (proj2 (H j J)). }
  assert (Q : q = query_table (vec ss) (vec (fun j => Z.of_nat (dd j))) i) by (unfold q; rewrite <- V1, <- V2; reflexivity).
  rewrite Q. split; [exact (proj1 (query_ok dd Hd ss Hs i I 0%nat ltac:(lia)))|].
  intros j J. rewrite <- (Ed j J), <- (Es j J). exact (proj2 (query_ok dd Hd ss Hs i I j J)).
Qed.

(** Multiplication *)
Theorem fixed_spec : forall st sky K0 S0 r, length K0 = 67%nat -> length S0 = 67%nat -> bytes 32 r ->
  let Q := point_multiplication st sky K0 S0 r in
  point_2w255 (fst Q) (snd Q) (mul255 (le_val r - (if carry_limit 64 <=? le_val r then 2 ^ 256 else 0)) B).
Proof. intros. apply pt2_iff. apply point_multiplication_ok; assumption. Qed.
Theorem fixed_small : forall st sky K0 S0 r, length K0 = 67%nat -> length S0 = 67%nat -> bytes 32 r -> le_val r < carry_limit 64 ->
  let Q := point_multiplication st sky K0 S0 r in point_2w255 (fst Q) (snd Q) (mul255 (le_val r) B).
Proof.
  intros st sky K0 S0 r LK LS Hr L Q. pose proof (fixed_spec st sky K0 S0 r LK LS Hr) as H. cbv zeta in H.
  rewrite (proj2 (Z.leb_gt _ _) L), Z.sub_0_r in H. exact H.
Qed.
Lemma point_unique XY TZ P Q : point_2w255 XY TZ P -> point_2w255 XY TZ Q -> P = Q.
Proof. intros (_ & _ & OP & _ & _ & _ & _ & RP) (_ & _ & OQ & _ & _ & _ & _ & RQ). exact (reps255_fun _ _ _ _ P Q OP OQ RP RQ). Qed.
Theorem fixed_large : forall st sky K0 S0 r, length K0 = 67%nat -> length S0 = 67%nat -> bytes 32 r -> carry_limit 64 <= le_val r ->
  let Q := point_multiplication st sky K0 S0 r in ~ point_2w255 (fst Q) (snd Q) (mul255 (le_val r) B).
Proof.
  intros st sky K0 S0 r LK LS Hr L Q N. pose proof (fixed_spec st sky K0 S0 r LK LS Hr) as H. cbv zeta in H.
  rewrite (proj2 (Z.leb_le _ _) L) in H. pose proof (point_unique _ _ _ _ N H) as E. clear N H.
  set (v := le_val r) in *. clearbody v Q. clear - E. apply (coprime_nonzero (2 ^ 256)); [vm_compute; reflexivity|].
  assert (M : forall k, on255 (mul255 k B)) by (intro k; apply mul255_on, onB).
  replace (2 ^ 256) with (v + - (v - 2 ^ 256)) by ring. rewrite mul255_add by exact onB. rewrite <- neg255_mul, E by exact onB. apply add255_neg, M.
Qed.
Theorem encode_spec : forall st k p P, point_2w255 (fst p) (snd p) P -> encodes255 (point_encoding st k p) P.
Proof. intros st k p P H. apply pt2_iff in H. exact (point_encoding_ok st k p P H). Qed.
Theorem fixed_encoded : forall st k sky K0 S0 r, length K0 = 67%nat -> length S0 = 67%nat -> bytes 32 r -> le_val r < carry_limit 64 ->
  encodes255 (point_encoding st k (point_multiplication st sky K0 S0 r)) (mul255 (le_val r) B).
Proof. intros. apply encode_spec. apply fixed_small; assumption. Qed.
Theorem base_order : on255 B /\ mul255 l_ed255 B = (0, 1) /\ forall k, Z.gcd k l_ed255 = 1 -> mul255 k B <> (0, 1).
Proof. split; [exact onB|]. split; [exact order_B|exact coprime_nonzero]. Qed.
