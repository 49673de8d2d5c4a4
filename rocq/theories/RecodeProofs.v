(** Proofs about the recodings. *)
From Coq Require Import ZArith List Bool Lia.
From Verif Require Import Uop Poly Sym Engine Check Bytes X86 AsmSign255 Fp25519Full FullProps SpecRecode Recode Spec SpecScalar ScalarProofs Scalar448Proofs.
Import ListNotations.
Open Scope Z_scope.

(** ** Signed radix 16 *)
Lemma upd_length i v l : (i < length l)%nat -> length (upd i v l) = length l.
Proof. intro H. unfold upd. rewrite app_length, firstn_length. cbn [length]. rewrite skipn_length. lia. Qed.
Lemma upd_same i v l d : (i < length l)%nat -> nth i (upd i v l) d = v.
Proof. intro H. unfold upd. rewrite app_nth2 by (rewrite firstn_length; lia). rewrite firstn_length. replace (i - Nat.min i (length l))%nat with 0%nat by lia. reflexivity. Qed.
Lemma nth_firstn {A} (l : list A) : forall i j d, (j < i)%nat -> nth j (firstn i l) d = nth j l d.
Proof. induction l as [|x l IH]; intros [|i] [|j] d H; try reflexivity; try lia. cbn [firstn nth]. apply IH. lia. Qed.
Lemma nth_skipn {A} (l : list A) : forall i j d, nth j (skipn i l) d = nth (i + j) l d.
Proof. induction l as [|x l IH]; intros [|i] j d; try reflexivity; [destruct j; reflexivity|]. cbn [skipn Nat.add nth]. apply IH. Qed.
Lemma upd_other i j v l d : (i < length l)%nat -> i <> j -> nth j (upd i v l) d = nth j l d.
Proof.
  intros H N. unfold upd. destruct (Nat.lt_ge_cases j i) as [L|L].
  - rewrite app_nth1 by (rewrite firstn_length; lia). now apply nth_firstn.
  - rewrite app_nth2 by (rewrite firstn_length; lia). rewrite firstn_length. replace (j - Nat.min i (length l))%nat with (S (j - i - 1)) by lia.
    cbn [nth]. rewrite nth_skipn. f_equal. lia.
Qed.
Lemma step_digit : forall nib c, 0 <= nib < 16 -> (c = 0 \/ c = 1) ->
  let value := nib + c in let c' := if 8 <=? value then 1 else 0 in
  let d := Z.land (Z.lxor value (- c') + c') 15 in
  (c' = 0 \/ c' = 1) /\ 0 <= d <= 8 /\ signed d ((- c') mod W) + 16 * c' = nib + c /\ ((- c') mod W = 0 \/ (- c') mod W = W - 1) /\ - 8 <= signed d ((- c') mod W) <= 7.
Proof.
  intros nib c H Hc.
  assert (A : forallb (fun n => forallb (fun c =>
    let value := Z.of_nat n + c in let c' := if 8 <=? value then 1 else 0 in
    let d := Z.land (Z.lxor value (- c') + c') 15 in
    ((c' =? 0) || (c' =? 1)) && (0 <=? d) && (d <=? 8) && (signed d ((- c') mod W) + 16 * c' =? Z.of_nat n + c) && (((- c') mod W =? 0) || ((- c') mod W =? W - 1)) && (- 8 <=? signed d ((- c') mod W)) && (signed d ((- c') mod W) <=? 7)) [0; 1]) (seq 0 16) = true) by (vm_compute; reflexivity).
  rewrite forallb_forall in A. specialize (A (Z.to_nat nib) ltac:(apply in_seq; lia)). cbv beta in A. rewrite Z2Nat.id in A by lia.
  rewrite forallb_forall in A. specialize (A c ltac:(destruct Hc; subst; cbn; tauto)). cbv beta zeta in A |- *.
  set (c' := if 8 <=? nib + c then 1 else 0) in *. set (d := Z.land (Z.lxor (nib + c) (- c') + c') 15) in *.
  repeat rewrite andb_true_iff in A. rewrite !orb_true_iff, !Z.eqb_eq, !Z.leb_le in A. tauto.
Qed.
Definition run (l : list (nat * Z)) (s : rstate) : rstate := fold_left (fun s x => nibble_step s (fst x) (snd x)) l s.
Fixpoint nsum (l : list (nat * Z)) : Z := match l with [] => 0 | x :: l => snd x + 16 * nsum l end.
Fixpoint dsum (l : list (nat * Z)) (dg sg : list Z) : Z := match l with [] => 0 | x :: l => signed (nth (fst x) dg 0) (nth (fst x) sg 0) + 16 * dsum l dg sg end.
Lemma run_ok N : forall l c dg sg, NoDup (map fst l) -> (forall x, In x l -> (fst x < N)%nat /\ 0 <= snd x < 16) -> length dg = N -> length sg = N -> (c = 0 \/ c = 1) ->
  let '(c', dg', sg') := run l (c, dg, sg) in
  (c' = 0 \/ c' = 1) /\ length dg' = N /\ length sg' = N /\
  (forall i, ~ In i (map fst l) -> nth i dg' 0 = nth i dg 0 /\ nth i sg' 0 = nth i sg 0) /\
  (forall x, In x l -> 0 <= nth (fst x) dg' 0 <= 8 /\ (nth (fst x) sg' 0 = 0 \/ nth (fst x) sg' 0 = W - 1) /\ - 8 <= signed (nth (fst x) dg' 0) (nth (fst x) sg' 0) <= 7) /\
  dsum l dg' sg' + 16 ^ Z.of_nat (length l) * c' = c + nsum l.
Proof.
  induction l as [|[i nib] l IH]; intros c dg sg ND R LD LS Hc.
  { cbn [run fold_left]. cbn [dsum length nsum]. change (16 ^ Z.of_nat 0) with 1. split; [exact Hc|]. split; [exact LD|]. split; [exact LS|]. split; [intros i _; split; reflexivity|]. split; [intros x []|]. lia. }
  cbn [map] in ND. apply NoDup_cons_iff in ND as [NI ND].
  destruct (R (i, nib) (or_introl eq_refl)) as [Hi Hn]. cbn [fst snd] in Hi, Hn.
  destruct (step_digit nib c Hn Hc) as (C1 & C2 & C3 & C4 & C5). cbv zeta in *.
  change (run ((i, nib) :: l) (c, dg, sg)) with (run l (nibble_step (c, dg, sg) i nib)). unfold nibble_step.
  set (c1 := if 8 <=? nib + c then 1 else 0) in *. set (d := Z.land (Z.lxor (nib + c) (- c1) + c1) 15) in *.
  assert (LD1 : length (upd i d dg) = N) by (rewrite upd_length; lia).
  assert (LS1 : length (upd i ((- c1) mod W) sg) = N) by (rewrite upd_length; lia).
  specialize (IH c1 (upd i d dg) (upd i ((- c1) mod W) sg) ND (fun x Hx => R x (or_intror Hx)) LD1 LS1 C1).
  destruct (run l (c1, upd i d dg, upd i ((- c1) mod W) sg)) as [[c' dg'] sg']. cbn [map fst snd] in *.
  destruct IH as (I1 & I2 & I3 & I4 & I5 & I6).
  destruct (I4 i NI) as [ED ES]. rewrite upd_same in ED by lia. rewrite upd_same in ES by lia.
  split; [exact I1|]. split; [exact I2|]. split; [exact I3|]. split; [|split].
  - intros j Hj. apply Decidable.not_or in Hj as [Hj1 Hj2]. destruct (I4 j Hj2) as [A B]. rewrite A, B.
    split; apply upd_other; auto; lia.
  - intros x [<-|Hx]; [cbn [fst snd]|exact (I5 x Hx)]. rewrite ED, ES. split; [exact C2|]. split; [exact C4|exact C5].
  - cbn [dsum nsum length fst snd]. rewrite ED, ES. rewrite Nat2Z.inj_succ, Z.pow_succ_r by lia. lia.
Qed.
(** The sum over the processed nibbles as a weighted sum over positions *)
Lemma weighted_S b f n : weighted b f (S n) = f 0%nat + b * weighted b (fun m => f (S m)) n.
Proof.
  induction n as [|n IH].
  - cbn [weighted]. change (Z.of_nat 0) with 0. rewrite Z.pow_0_r. ring.
  - change (weighted b f (S (S n))) with (weighted b f (S n) + f (S n) * b ^ Z.of_nat (S n)). rewrite IH. cbn [weighted].
    rewrite Nat2Z.inj_succ, Z.pow_succ_r by lia. ring.
Qed.
Lemma weighted_ext b f g n : (forall m, (m < n)%nat -> f m = g m) -> weighted b f n = weighted b g n.
Proof. induction n as [|n IH]; intro H; [reflexivity|]. cbn [weighted]. rewrite IH by (intros; apply H; lia). rewrite H by lia. reflexivity. Qed.
Lemma dsum_weighted dg sg : forall (xs : list nat) (ys : list Z), length xs = length ys ->
  dsum (combine xs ys) dg sg = weighted 16 (fun m => signed (nth (nth m xs 0%nat) dg 0) (nth (nth m xs 0%nat) sg 0)) (length xs).
Proof.
  induction xs as [|x xs IH]; intros [|y ys] L; try discriminate; [reflexivity|].
  cbn [combine dsum length fst snd]. rewrite weighted_S. cbn [nth]. rewrite IH by (now injection L). reflexivity.
Qed.
Definition nibbles (r : list Z) : list Z := flat_map (fun b => [Z.land b 15; Z.land (b / 2 ^ 4) 15]) r.
Lemma nibbles_length r : length (nibbles r) = (2 * length r)%nat.
Proof. induction r as [|b r IH]; [reflexivity|]. change (nibbles (b :: r)) with (Z.land b 15 :: Z.land (b / 2 ^ 4) 15 :: nibbles r). cbn [length]. lia. Qed.
Lemma nibbles_ok r : Forall byte r -> Forall (fun x => 0 <= x < 16) (nibbles r).
Proof.
  induction 1 as [|b r H F IH]; [constructor|]. change (nibbles (b :: r)) with (Z.land b 15 :: Z.land (b / 2 ^ 4) 15 :: nibbles r).
  change 15 with (Z.ones 4). rewrite !Z.land_ones by lia. constructor; [apply Z.mod_pos_bound; lia|]. constructor; [apply Z.mod_pos_bound; lia|exact IH].
Qed.
Lemma nibbles_sum r : Forall byte r -> forall xs, length xs = (2 * length r)%nat -> nsum (combine xs (nibbles r)) = le_val r.
Proof.
  induction 1 as [|b r H F IH]; intros xs L; [destruct xs; [reflexivity|discriminate]|].
  change (nibbles (b :: r)) with (Z.land b 15 :: Z.land (b / 2 ^ 4) 15 :: nibbles r). cbn [length] in L.
  destruct xs as [|x [|y xs]]; [cbn in L; lia|cbn in L; lia|]. cbn [combine nsum snd]. rewrite IH by (cbn [length] in L; lia). cbn [le_val].
  change 15 with (Z.ones 4). rewrite !Z.land_ones by lia. change (2 ^ 4) with 16. unfold byte in H.
  pose proof (Z.div_mod b 16 ltac:(lia)). rewrite (Z.mod_small (b / 16)) by (split; [apply Z.div_pos; lia|apply Z.div_lt_upper_bound; lia]). lia.
Qed.
(** Final carry *)
Lemma dsum_bound dg sg : forall l, (forall x, In x l -> - 8 <= signed (nth (fst x) dg 0) (nth (fst x) sg 0) <= 7) ->
  - (8 * (16 ^ Z.of_nat (length l) - 1)) <= 15 * dsum l dg sg <= 7 * (16 ^ Z.of_nat (length l) - 1).
Proof.
  induction l as [|x l IH]; intro H; [cbn; lia|]. specialize (IH (fun y Hy => H y (or_intror Hy))).
  pose proof (H x (or_introl eq_refl)) as H1. cbn [dsum length]. rewrite Nat2Z.inj_succ, Z.pow_succ_r by lia. lia.
Qed.
(** What a digit array must be: magnitudes at most 8, sign words, signed digits
    between -8 and 7, and the number, less 16^n from 0x77...78 on. *)
Lemma run_final N n (xs : list nat) r dg sg : NoDup xs -> length xs = (2 * n)%nat -> (forall i, In i xs -> (i < N)%nat) -> bytes n r -> length dg = N -> length sg = N ->
  let '(c, dg', sg') := run (combine xs (nibbles r)) (0, dg, sg) in
  length dg' = N /\ length sg' = N /\
  (forall m, (m < 2 * n)%nat -> let d := nth (nth m xs 0%nat) dg' 0 in let s := nth (nth m xs 0%nat) sg' 0 in
     0 <= d <= 8 /\ (s = 0 \/ s = W - 1) /\ - 8 <= signed d s <= 7) /\
  (forall i, ~ In i xs -> nth i dg' 0 = nth i dg 0 /\ nth i sg' 0 = nth i sg 0) /\
  weighted 16 (fun m => signed (nth (nth m xs 0%nat) dg' 0) (nth (nth m xs 0%nat) sg' 0)) (2 * n) + 16 ^ Z.of_nat (2 * n) * c = le_val r /\
  c = if carry_limit (Z.of_nat (2 * n)) <=? le_val r then 1 else 0.
Proof.
  intros ND L R [Lr Fr] LD LS.
  assert (LN : length (nibbles r) = (2 * n)%nat) by (rewrite nibbles_length; lia).
  assert (EF : map fst (combine xs (nibbles r)) = xs).
  { clear - L LN. revert LN. generalize (nibbles r) as ys. rewrite <- L. clear. induction xs as [|x xs IH]; intros [|y ys] H; try discriminate; [reflexivity|]. cbn [combine map fst]. f_equal. apply IH. now injection H. }
  assert (NDc : NoDup (map fst (combine xs (nibbles r)))) by (rewrite EF; exact ND).
  assert (Rc : forall x, In x (combine xs (nibbles r)) -> (fst x < N)%nat /\ 0 <= snd x < 16).
  { intros [a b] H. split; [apply R; exact (in_combine_l _ _ _ _ H)|]. pose proof (nibbles_ok r Fr) as F. rewrite Forall_forall in F. apply F. exact (in_combine_r _ _ _ _ H). }
  pose proof (run_ok N (combine xs (nibbles r)) 0 dg sg NDc Rc LD LS (or_introl eq_refl)) as K.
  destruct (run (combine xs (nibbles r)) (0, dg, sg)) as [[c dg'] sg'].
  destruct K as (K1 & K2 & K3 & K4 & K5 & K6). rewrite EF in K4.
  assert (LC : length (combine xs (nibbles r)) = (2 * n)%nat) by (rewrite combine_length; lia).
  rewrite LC in K6. rewrite (nibbles_sum r Fr xs) in K6 by lia. rewrite dsum_weighted in K6 by lia. rewrite L, Z.add_0_l in K6.
  pose proof (dsum_bound dg' sg' _ (fun x Hx => proj2 (proj2 (K5 x Hx)))) as B. rewrite dsum_weighted, L, LC in B by lia.
  split; [exact K2|]. split; [exact K3|]. split; [|split; [exact K4|split; [exact K6|]]].
  - intros m Hm. cbv zeta.
    assert (I : In (nth m xs 0%nat, nth m (nibbles r) 0) (combine xs (nibbles r))).
    { rewrite <- combine_nth by lia. apply nth_In. lia. }
    exact (K5 _ I).
  - unfold carry_limit. set (q := 16 ^ Z.of_nat (2 * n)) in *. assert (0 < q) by (apply Z.pow_pos_nonneg; lia).
    set (x := weighted _ _ _) in *. clearbody x q.
    destruct (Z.leb_spec ((7 * q + 8) / 15) (le_val r)) as [G|G].
    + destruct K1 as [->| ->]; [|reflexivity]. exfalso. assert (7 * q + 8 < 15 * (le_val r + 1)).
      { pose proof (Z.div_mod (7 * q + 8) 15 ltac:(lia)). pose proof (Z.mod_pos_bound (7 * q + 8) 15 ltac:(lia)). lia. }
      assert (15 * le_val r < 7 * q) by lia. lia.
    + destruct K1 as [->| ->]; [reflexivity|]. exfalso. pose proof (Z.div_mod (7 * q + 8) 15 ltac:(lia)). pose proof (Z.mod_pos_bound (7 * q + 8) 15 ltac:(lia)).
      assert (15 * le_val r >= 7 * q + 8) by lia. lia.
Qed.
Section Opaque.
Local Opaque nibble_step.
Lemma recode255_run dg sg r : length r = 32%nat ->
  recode_fold2w4 dg sg r = let '(c, dg, sg) := run (combine (map pos_fold2w4 (seq 0 64)) (nibbles r)) (0, dg, sg) in (upd 64 c dg, sg).
Proof. intro L. do 32 (destruct r as [|? r]; [discriminate|]). destruct r; [|discriminate]. reflexivity. Qed.
Lemma recode448_run dg sg r : (56 <= length r)%nat ->
  recode_fold4w4_448 dg sg r = let '(c, dg, sg) := run (combine (map pos_plain (seq 0 112)) (nibbles (firstn 56 r))) (0, dg, sg) in (upd 112 c dg, sg).
Proof. intro L. do 56 (destruct r as [|? r]; [cbn in L; lia|]). reflexivity. Qed.
End Opaque.
Fixpoint nodupb (l : list nat) : bool := match l with [] => true | x :: l => negb (existsb (Nat.eqb x) l) && nodupb l end.
Lemma nodupb_ok l : nodupb l = true -> NoDup l.
Proof.
  induction l as [|x l IH]; intro H; [constructor|]. cbn [nodupb] in H. apply andb_prop in H as [H1 H2]. constructor; [|exact (IH H2)].
  intro I. apply negb_true_iff in H1. assert (existsb (Nat.eqb x) l = true) by (apply existsb_exists; exists x; split; [exact I|apply Nat.eqb_refl]). congruence.
Qed.
Lemma recode_common N n pos r dg sg : NoDup (map pos (seq 0 (2 * n))) -> forallb (fun i => Nat.ltb i (2 * n)) (map pos (seq 0 (2 * n))) = true ->
  (2 * n < N)%nat -> bytes n r -> length dg = N -> length sg = N ->
  let '(c, dg', sg') := run (combine (map pos (seq 0 (2 * n))) (nibbles r)) (0, dg, sg) in
  let D := upd (2 * n) c dg' in
  length D = N /\ length sg' = N /\
  (forall m, (m < 2 * n)%nat -> let d := nth (pos m) D 0 in let s := nth (pos m) sg' 0 in
     0 <= d <= 8 /\ (s = 0 \/ s = W - 1) /\ - 8 <= signed d s <= 7) /\
  weighted 16 (fun m => signed (nth (pos m) D 0) (nth (pos m) sg' 0)) (2 * n) =
    le_val r - (if carry_limit (Z.of_nat (2 * n)) <=? le_val r then 16 ^ Z.of_nat (2 * n) else 0).
Proof.
  intros ND B HN Hr LD LS. rewrite forallb_forall in B.
  pose proof (run_final N n (map pos (seq 0 (2 * n))) r dg sg ND ltac:(now rewrite map_length, seq_length)
    ltac:(intros i Hi; apply B in Hi; apply Nat.ltb_lt in Hi; lia) Hr LD LS) as K.
  destruct (run _ _) as [[c dg'] sg']. destruct K as (K1 & K2 & K3 & K4 & K5 & K6). cbv zeta.
  assert (P : forall m, (m < 2 * n)%nat -> nth m (map pos (seq 0 (2 * n))) 0%nat = pos m).
  { intros m Hm. rewrite nth_indep with (d' := pos 0%nat) by (rewrite map_length, seq_length; exact Hm). rewrite map_nth, seq_nth by exact Hm. reflexivity. }
  assert (Q : forall m, (m < 2 * n)%nat -> nth (pos m) (upd (2 * n) c dg') 0 = nth (pos m) dg' 0).
  { intros m Hm. apply upd_other; [lia|]. specialize (B (pos m)). rewrite in_map_iff in B. specialize (B (ex_intro _ m (conj eq_refl (proj2 (in_seq (2 * n) 0 m) ltac:(lia))))). apply Nat.ltb_lt in B. lia. }
  split; [rewrite upd_length; lia|]. split; [exact K2|]. split.
  - intros m Hm. rewrite (Q m Hm). specialize (K3 m Hm). rewrite (P m Hm) in K3. exact K3.
  - rewrite (weighted_ext 16 _ (fun m => signed (nth (nth m (map pos (seq 0 (2 * n))) 0%nat) dg' 0) (nth (nth m (map pos (seq 0 (2 * n))) 0%nat) sg' 0))).
    + rewrite K6 in K5. destruct (carry_limit (Z.of_nat (2 * n)) <=? le_val r); lia.
    + intros m Hm. now rewrite (P m Hm), (Q m Hm).
Qed.
Lemma recode255_ok dg sg r : bytes 32 r -> length dg = 67%nat -> length sg = 67%nat ->
  let (D, s) := recode_fold2w4 dg sg r in
  length D = 67%nat /\ length s = 67%nat /\
  (forall m, (m < 64)%nat -> let d := nth (pos_fold2w4 m) D 0 in let s := nth (pos_fold2w4 m) s 0 in
     0 <= d <= 8 /\ (s = 0 \/ s = 2 ^ 64 - 1) /\ - 8 <= signed d s <= 7) /\
  weighted 16 (fun m => signed (nth (pos_fold2w4 m) D 0) (nth (pos_fold2w4 m) s 0)) 64 =
    le_val r - (if carry_limit 64 <=? le_val r then 2 ^ 256 else 0).
Proof.
  intros Hr LD LS. rewrite recode255_run by (exact (proj1 Hr)).
  pose proof (recode_common 67 32 pos_fold2w4 r dg sg ltac:(apply nodupb_ok; vm_compute; reflexivity) ltac:(vm_compute; reflexivity) ltac:(lia) Hr LD LS) as K.
  change (2 * 32)%nat with 64%nat in K. destruct (run _ _) as [[c dg'] sg']. exact K.
Qed.
Lemma recode448_ok dg sg r : bytes 57 r -> length dg = 115%nat -> length sg = 115%nat ->
  let (D, s) := recode_fold4w4_448 dg sg r in
  length D = 115%nat /\ length s = 115%nat /\
  (forall m, (m < 112)%nat -> let d := nth m D 0 in let s := nth m s 0 in
     0 <= d <= 8 /\ (s = 0 \/ s = 2 ^ 64 - 1) /\ - 8 <= signed d s <= 7) /\
  weighted 16 (fun m => signed (nth m D 0) (nth m s 0)) 112 =
    le_val (firstn 56 r) - (if carry_limit 112 <=? le_val (firstn 56 r) then 2 ^ 448 else 0).
Proof.
  intros [L F] LD LS. rewrite recode448_run by lia.
  assert (H : bytes 56 (firstn 56 r)) by (split; [rewrite firstn_length; lia|rewrite <- (firstn_skipn 56 r) in F; now apply Forall_app in F]).
  pose proof (recode_common 115 56 pos_plain (firstn 56 r) dg sg ltac:(apply nodupb_ok; vm_compute; reflexivity) ltac:(vm_compute; reflexivity) ltac:(lia) H LD LS) as K.
  change (2 * 56)%nat with 112%nat in K. destruct (run _ _) as [[c dg'] sg']. exact K.
Qed.

(** ** Width-w NAF *)
(** Shift, zero test *)
Lemma div_2_ok n : forall r, words n r -> words n (div_2 r) /\ val (div_2 r) = val r / 2.
Proof.
  induction n as [|n IH]; intros [|x r] [L F]; try discriminate; [split; [split; [reflexivity|constructor]|reflexivity]|].
  apply Forall_cons_iff in F as [Hx F]. injection L as L. destruct (IH r (conj L F)) as [[L' F'] V].
  assert (B : exists b q, val r = b + 2 * q /\ (b = 0 \/ b = 1) /\ (nth 0 r 0 * 2 ^ 63) mod W = b * 2 ^ 63).
  { exists (val r mod 2), (val r / 2). split; [rewrite Z.add_comm; apply Z.div_mod; lia|]. pose proof (Z.mod_pos_bound (val r) 2 ltac:(lia)). split; [lia|].
    replace (val r mod 2) with (nth 0 r 0 mod 2).
    - change W with (2 * 2 ^ 63). rewrite Z.mul_mod_distr_r by lia. reflexivity.
    - destruct r as [|y r]; [reflexivity|]. cbn [nth val]. change W with (2 * 2 ^ 63). rewrite <- Z.mul_assoc. rewrite (Z.mul_comm 2), Z.mod_add by lia. reflexivity. }
  destruct B as (b & q & Vr & Hb & Eb). cbn [div_2]. rewrite Eb. unfold word in Hx.
  assert (E : Z.lor (x / 2) (b * 2 ^ 63) = x / 2 + b * 2 ^ 63).
  { assert (LD : Z.land (x / 2) (b * 2 ^ 63) = 0); [|rewrite Z.add_nocarry_lxor, Z.lxor_lor by exact LD; reflexivity].
    apply Z.bits_inj'; intros k Hk; rewrite Z.land_spec, Z.bits_0; destruct (Z.lt_ge_cases k 63) as [G|G];
      [rewrite Z.mul_pow2_bits_low by exact G; apply andb_false_r|].
    assert (T : Z.testbit (x / 2) k = false); [|rewrite T; reflexivity].
    apply Z.bits_above_log2; [apply Z.div_pos; lia|].
    destruct (Z.eq_dec (x / 2) 0) as [->|NZ]; [cbn; lia|].
    apply Z.log2_lt_pow2; [assert (0 <= x / 2) by (apply Z.div_pos; lia); lia|].
    apply (Z.lt_le_trans _ (2 ^ 63)); [apply Z.div_lt_upper_bound; [lia|]; unfold W in Hx; lia|apply Z.pow_le_mono_r; lia]. }
  assert (X := Z.div_mod x 2 ltac:(lia)). assert (X1 := Z.mod_pos_bound x 2 ltac:(lia)).
  split.
  - split; [cbn [length]; lia|]. constructor; [|exact F']. rewrite E. unfold word, W in *. lia.
  - cbn [val]. rewrite E, V, Vr. replace ((b + 2 * q) / 2) with q by (apply (Z.div_unique _ _ _ b); lia).
    apply (Z.div_unique _ _ _ (x mod 2)); [lia|]. unfold W in *. lia.
Qed.
Lemma is_zero_ok n : forall r, words n r -> is_zero r = (val r =? 0).
Proof.
  induction n as [|n IH]; intros [|x r] [L F]; try discriminate; [reflexivity|].
  apply Forall_cons_iff in F as [Hx F]. injection L as L. unfold is_zero in *. cbn [forallb val]. rewrite (IH r (conj L F)).
  pose proof (val_bound n r (conj L F)) as B. unfold word, W in *.
  destruct (Z.eqb_spec x 0), (Z.eqb_spec (val r) 0), (Z.eqb_spec (x + 18446744073709551616 * val r) 0); cbn; auto; lia.
Qed.
(** Multi-word subtraction of a sign-extended word *)
Lemma sign_word v : - 2 ^ 63 <= v < 2 ^ 63 -> let s := (v / 2 ^ 63) mod W in word s /\ word (v mod W) /\ (s = 0 /\ v mod W = v \/ s = W - 1 /\ v mod W = v + W).
Proof.
  intro H. cbv zeta. split; [apply Z.mod_pos_bound; reflexivity|]. split; [apply Z.mod_pos_bound; reflexivity|].
  destruct (Z.lt_ge_cases v 0) as [G|G].
  - right. replace (v / 2 ^ 63) with (-1) by (apply (Z.div_unique _ _ _ (v + 2 ^ 63)); lia). split; [reflexivity|].
    symmetry. apply (Z.mod_unique _ _ (-1)); unfold W; lia.
  - left. rewrite (Z.div_small v) by lia. split; [reflexivity|]. apply Z.mod_small. unfold W. lia.
Qed.
Lemma sub256_ok st r v : words 4 r -> - 2 ^ 63 <= v < 2 ^ 63 -> words 4 (sub256 st r v) /\ val (sub256 st r v) = (val r - v) mod 2 ^ 256.
Proof.
  intros Hr Hv. destruct (sign_word v Hv) as (Hs & Hw & E). cbv zeta in *. unfold sub256.
  set (s := (v / 2 ^ 63) mod W) in *. set (w := v mod W) in *. clearbody s w.
  assert (Hb : words 4 [w; s; s; s]) by (split; [reflexivity|repeat (constructor; [assumption|]); constructor]).
  pose proof (cong_check_sound [] (code (env_of [Pos.add bA 3; Pos.add bA 2; Pos.add bA 1; bA; Pos.add bB 3; Pos.add bB 2; Pos.add bB 1; bB]%positive) asm_SUB256)
    [IA bA (wbnd 4) (wts 4 1); IA bB (wbnd 4) (wts 4 1)] bA (wts 4 1) (wbnd 4) (2 ^ 256)
    (VSub (VIn 0) (VIn 1)) [r; [w; s; s; s]] st) as K.
  cbv beta zeta in K. destruct K as [C B]; [vm_compute; reflexivity| |].
  { constructor; [apply arr_words; exact Hr|]. constructor; [apply arr_words; exact Hb|constructor]. }
  cbn [iplace ib ivals iwt vden nth] in C. apply arr_words in B. cbn [iplace ib] in B.
  change (length (wts 4 1)) with 4%nat in *. split; [exact B|].
  rewrite !wsum_wts in C by (exact (proj1 B) || exact (proj1 Hr) || reflexivity).
  rewrite !Z.mul_1_l in C. apply mod_range in C; [|reflexivity|pose proof (val_bound _ _ B) as V; rewrite W_pow in V; exact V].
  rewrite C. destruct E as [[Es Ew]|[Es Ew]]; rewrite Es, Ew; cbn [val].
  - f_equal. lia.
  - replace (val r - _) with (val r - v + (-1) * 2 ^ 256) by (unfold W; ring). apply Z.mod_add. lia.
Qed.
Lemma sub512_ok st r v : words 8 r -> - 2 ^ 63 <= v < 2 ^ 63 -> words 8 (sub512 st r v) /\ val (sub512 st r v) = (val r - v) mod 2 ^ 512.
Proof.
  intros Hr Hv. destruct (sign_word v Hv) as (Hs & Hw & E). cbv zeta in *. unfold sub512.
  set (s := (v / 2 ^ 63) mod W) in *. set (w := v mod W) in *. clearbody s w.
  assert (Hb : words 1 [s]) by (split; [reflexivity|repeat (constructor; [assumption|]); constructor]).
  assert (Hc : words 1 [w]) by (split; [reflexivity|repeat (constructor; [assumption|]); constructor]).
  pose proof (cong_check_sound [] (code (env_of [bA; bB; bC]) asm_SUB512)
    [IA bA (wbnd 8) (wts 8 1); IA bB (wbnd 1) [val [0; 1; 1; 1; 1; 1; 1; 1]]; IA bC (wbnd 1) (wts 1 1)] bA (wts 8 1) (wbnd 8) (2 ^ 512)
    (VSub (VIn 0) (VAdd (VIn 1) (VIn 2))) [r; [s]; [w]] st) as K.
  cbv beta zeta in K. destruct K as [C B]; [vm_compute; reflexivity| |].
  { constructor; [apply arr_words; exact Hr|]. constructor; [apply arr_words; exact Hb|]. constructor; [apply arr_words; exact Hc|constructor]. }
  cbn [iplace ib ivals iwt vden nth] in C. apply arr_words in B. cbn [iplace ib] in B.
  change (length (wts 8 1)) with 8%nat in *. split; [exact B|].
  rewrite !wsum_wts in C by (exact (proj1 B) || exact (proj1 Hr) || reflexivity).
  cbn [wsum] in C. rewrite !Z.mul_1_l in C. apply mod_range in C; [|reflexivity|pose proof (val_bound _ _ B) as V; rewrite W_pow in V; exact V].
  rewrite C. destruct E as [[Es Ew]|[Es Ew]]; rewrite Es, Ew; cbn [val].
  - f_equal. lia.
  - replace (val r - _) with (val r - v + (-1) * 2 ^ 512) by (unfold W; ring). apply Z.mod_add. lia.
Qed.
(** The same loop on numbers modulo M *)
Definition sdigit (w r : Z) : Z := if Z.odd r then (if 2 ^ (w - 1) <? r mod 2 ^ w then r mod 2 ^ w - 2 ^ w else r mod 2 ^ w) else 0.
Fixpoint wnafZ (M w : Z) (fuel : nat) (r : Z) : option (list Z) :=
  if r =? 0 then Some [] else
  match fuel with
  | O => None
  | S fuel => match wnafZ M w fuel ((r - sdigit w r) mod M / 2) with Some K => Some (sdigit w r :: K) | None => None end
  end.
Lemma int8_ok v : - 128 <= v < 128 -> to_int8 (Z.land v 255) = v.
Proof.
  intro H. change 255 with (Z.ones 8). rewrite Z.land_ones by lia. unfold to_int8. change (2 ^ 8) with 256.
  destruct (Z.lt_ge_cases v 0) as [G|G].
  - rewrite <- (Z.mod_unique v 256 (-1) (v + 256)) by lia. destruct (Z.ltb_spec (v + 256) 128); lia.
  - rewrite Z.mod_small by lia. destruct (Z.ltb_spec v 128); lia.
Qed.
Lemma sdigit_range w r : 2 <= w -> - 2 ^ (w - 1) < sdigit w r < 2 ^ (w - 1) /\ (Z.odd r = true -> Z.odd (sdigit w r) = true) /\ (Z.odd r = false -> sdigit w r = 0) /\
  (Z.odd r = true -> (r - sdigit w r) mod 2 ^ w = 0).
Proof.
  intro Hw. unfold sdigit. assert (P : 2 ^ w = 2 * 2 ^ (w - 1)) by (rewrite <- Z.pow_succ_r by lia; f_equal; lia).
  assert (P2 : 2 ^ (w - 1) = 2 * 2 ^ (w - 2)) by (rewrite <- Z.pow_succ_r by lia; f_equal; lia).
  assert (Q : 0 < 2 ^ (w - 2)) by (apply Z.pow_pos_nonneg; lia).
  pose proof (Z.mod_pos_bound r (2 ^ w) ltac:(lia)) as B. pose proof (Z.div_mod r (2 ^ w) ltac:(lia)) as D.
  destruct (Z.odd r) eqn:O; [|split; [lia|]; split; [discriminate|]; split; [reflexivity|discriminate]].
  assert (OM : Z.odd (r mod 2 ^ w) = true).
  { rewrite D, Z.odd_add, Z.odd_mul, P, Z.odd_mul in O. cbn [Z.odd andb xorb] in O. rewrite <- P in O. destruct (Z.odd (r mod 2 ^ w)); [reflexivity|exact O]. }
  set (m := r mod 2 ^ w) in *. set (q := r / 2 ^ w) in *. clearbody m q.
  assert (NE : m <> 2 ^ (w - 1)). { intro E. rewrite E, P2, Z.odd_mul in OM. discriminate. }
  destruct (Z.ltb_spec (2 ^ (w - 1)) m) as [G|G].
  - split; [lia|]. split; [intros _; rewrite Z.odd_sub, OM, P, Z.odd_mul; reflexivity|]. split; [discriminate|]. intros _. rewrite D. replace (_ - _) with ((q + 1) * 2 ^ w) by ring. apply Z.mod_mul. lia.
  - split; [lia|]. split; [intros _; exact OM|]. split; [discriminate|]. intros _. rewrite D. replace (_ - _) with (q * 2 ^ w) by ring. apply Z.mod_mul. lia.
Qed.
Lemma wnaf_loop_ok n sub M w : 2 <= w <= 8 -> (0 < n)%nat -> M = 2 ^ (64 * Z.of_nat n) ->
  (forall r v, words n r -> - 2 ^ 63 <= v < 2 ^ 63 -> words n (sub r v) /\ val (sub r v) = (val r - v) mod M) ->
  forall fuel r, words n r -> wnaf_loop sub w fuel r = wnafZ M w fuel (val r).
Proof.
  intros Hw Hn EM HS. induction fuel as [|fuel IH]; intros r Hr.
  - cbn [wnaf_loop wnafZ]. rewrite (is_zero_ok n r Hr). destruct (val r =? 0); reflexivity.
  - cbn [wnaf_loop wnafZ]. rewrite (is_zero_ok n r Hr). destruct (val r =? 0) eqn:Z0; [reflexivity|].
    assert (V : val r = nth 0 r 0 + W * val (skipn 1 r) /\ word (nth 0 r 0)).
    { destruct Hr as [L F]. destruct r as [|x r]; [cbn in L; lia|]. apply Forall_cons_iff in F as [F _]. split; [reflexivity|exact F]. }
    destruct V as [V V0]. set (r0 := nth 0 r 0) in *.
    assert (OD : (Z.land r0 1 =? 1) = Z.odd (val r)).
    { rewrite V. rewrite Z.odd_add. change W with (2 * 2 ^ 63). rewrite <- Z.mul_assoc, Z.odd_mul. cbn [Z.odd andb]. rewrite xorb_false_r.
      change 1 with (Z.ones 1) at 1. rewrite Z.land_ones by lia. change (2 ^ 1) with 2. rewrite Zmod_odd. destruct (Z.odd r0); reflexivity. }
    assert (MD : Z.land r0 (2 ^ w - 1) = val r mod 2 ^ w).
    { replace (2 ^ w - 1) with (Z.ones w) by (rewrite Z.ones_equiv; lia). rewrite Z.land_ones by lia. rewrite V.
      replace W with (2 ^ (64 - w) * 2 ^ w) by (rewrite <- Z.pow_add_r by lia; f_equal; change W with (2 ^ 64); f_equal; lia).
      rewrite <- Z.mul_assoc, (Z.mul_comm (2 ^ w)), Z.mul_assoc, Z.mod_add by (pose proof (Z.pow_pos_nonneg 2 w); lia). reflexivity. }
    rewrite OD. destruct (sdigit_range w (val r) (proj1 Hw)) as (R1 & _ & R3 & _).
    assert (PW : 2 ^ (w - 1) <= 2 ^ 7) by (apply Z.pow_le_mono_r; lia). change (2 ^ 7) with 128 in PW.
    destruct (Z.odd (val r)) eqn:O.
    + rewrite MD. replace (if 2 ^ (w - 1) <? val r mod 2 ^ w then val r mod 2 ^ w - 2 ^ w else val r mod 2 ^ w) with (sdigit w (val r)) by (unfold sdigit; now rewrite O).
      destruct (HS r (sdigit w (val r)) Hr ltac:(lia)) as [S1 S2]. destruct (div_2_ok n _ S1) as [S3 S4].
      rewrite (IH _ S3), S4, S2. rewrite int8_ok by lia. reflexivity.
    + rewrite (R3 eq_refl). rewrite Z.sub_0_r. destruct (div_2_ok n _ Hr) as [S3 S4]. rewrite (IH _ S3), S4.
      pose proof (val_bound n r Hr) as B. rewrite W_pow, <- EM in B. rewrite (Z.mod_small (val r) M B). reflexivity.
Qed.

(** Digits, value and length *)
Lemma wnafZ_ok w : 2 <= w -> forall k M r, (M = 0 \/ 2 ^ Z.of_nat k < M) -> 0 <= r <= 2 ^ Z.of_nat k ->
  exists K, (forall fuel, (k + 1 <= fuel)%nat -> wnafZ M w fuel r = Some K) /\ (length K <= k + 1)%nat /\ value2 K = r /\ Forall (wnaf_digit w) K.
Proof.
  intros Hw. induction k as [|k IH]; intros M r HM Hr.
  - change (2 ^ Z.of_nat 0) with 1 in *. assert (r = 0 \/ r = 1) as [->| ->] by lia.
    + exists []. split; [intros [|fuel] _; reflexivity|]. split; [cbn; lia|]. split; [reflexivity|constructor].
    + assert (P : 2 ^ w = 2 * 2 ^ (w - 1)) by (rewrite <- Z.pow_succ_r by lia; f_equal; lia).
      assert (P2 : 2 <= 2 ^ (w - 1)) by (change 2 with (2 ^ 1) at 1; apply Z.pow_le_mono_r; lia).
      assert (E : sdigit w 1 = 1). { unfold sdigit. cbn [Z.odd]. rewrite Z.mod_small by lia. destruct (Z.ltb_spec (2 ^ (w - 1)) 1); lia. }
      exists [1]. split; [|split; [cbn; lia|split; [reflexivity|constructor; [|constructor]]]].
      * intros [|fuel] H; [lia|]. cbn [wnafZ]. change (1 =? 0) with false. cbv iota. rewrite E. change (1 - 1) with 0. destruct M; (destruct fuel; reflexivity).
      * right. split; [reflexivity|lia].
  - rewrite Nat2Z.inj_succ, Z.pow_succ_r in HM, Hr by lia.
    destruct (Z.eq_dec r 0) as [->|NZ].
    { exists []. split; [intros [|fuel] H; reflexivity|]. split; [cbn; lia|]. split; [reflexivity|constructor]. }
    destruct (sdigit_range w r Hw) as (R1 & R2 & R3 & R4). set (v := sdigit w r) in *.
    set (Q := 2 ^ Z.of_nat k) in *. assert (0 < Q) by (apply Z.pow_pos_nonneg; lia).
    assert (PW : 2 ^ w = 2 * 2 ^ (w - 1)) by (rewrite <- Z.pow_succ_r by lia; f_equal; lia).
    assert (B : 0 <= r - v <= 2 * Q /\ (r - v) mod 2 = 0).
    { destruct (Z.odd r) eqn:O.
      - specialize (R4 eq_refl). specialize (R2 eq_refl).
        assert (0 < 2 ^ (w - 1)) by (apply Z.pow_pos_nonneg; lia).
        apply Z.mod_divide in R4; [|lia]. destruct R4 as [q R4].
        assert (Hq : 0 <= q) by nia.
        split; [split; [nia|]|rewrite R4, PW; replace (q * (2 * 2 ^ (w - 1))) with (q * 2 ^ (w - 1) * 2) by ring; apply Z.mod_mul; lia].
        destruct (Z.lt_ge_cases v 0) as [G|G]; [|lia].
        (* rounding up to a multiple of 2^w *)
        destruct (Z.lt_ge_cases (2 * Q) (2 ^ w)) as [L|L].
        + exfalso. assert (Z.of_nat k + 1 < w). { apply (Z.pow_lt_mono_r_iff 2); [lia|lia|]. rewrite Z.pow_add_r by lia. fold Q. lia. }
          assert (2 * Q <= 2 ^ (w - 1)). { unfold Q. replace (2 * 2 ^ Z.of_nat k) with (2 ^ (Z.of_nat k + 1)) by (rewrite Z.pow_add_r by lia; lia). apply Z.pow_le_mono_r; lia. }
          unfold v, sdigit in G. rewrite O in G. rewrite (Z.mod_small r) in G by lia. destruct (Z.ltb_spec (2 ^ (w - 1)) r); lia.
        + assert (W2 : w <= Z.of_nat k + 1). { apply (Z.pow_le_mono_r_iff 2); [lia|lia|]. rewrite (Z.pow_add_r 2 (Z.of_nat k)) by lia. fold Q. lia. }
          assert (E : 2 * Q = 2 ^ (Z.of_nat k + 1 - w) * 2 ^ w). { rewrite <- Z.pow_add_r by lia. replace (Z.of_nat k + 1 - w + w) with (Z.of_nat k + 1) by lia. rewrite Z.pow_add_r by lia. unfold Q. lia. }
          set (c := 2 ^ (Z.of_nat k + 1 - w)) in *. rewrite E in *. rewrite R4.
          assert (q * 2 ^ w < (c + 1) * 2 ^ w) by nia. assert (q < c + 1) by nia. nia.
      - rewrite (R3 eq_refl) in *. rewrite Z.sub_0_r. split; [lia|]. rewrite Zmod_odd, O. reflexivity. }
    destruct B as [B1 B2].
    assert (EM : (r - v) mod M = r - v). { destruct HM as [->|HM]; [destruct (r - v); reflexivity|]. apply Z.mod_small. lia. }
    pose proof (Z.div_mod (r - v) 2 ltac:(lia)) as D. rewrite B2, Z.add_0_r in D.
    destruct (IH M ((r - v) / 2)) as (K & K1 & K2 & K3 & K4); [destruct HM; [left; assumption|right; lia]|lia|].
    exists (v :: K). split; [|split; [cbn [length]; lia|split]].
    + intros [|fuel] Hf; [lia|]. cbn [wnafZ]. destruct (Z.eqb_spec r 0); [contradiction|]. fold v. rewrite EM. rewrite K1 by lia. reflexivity.
    + change (value2 (v :: K)) with (v + 2 * value2 K). rewrite K3. lia.
    + constructor; [|exact K4]. destruct (Z.odd r) eqn:O; [right; split; [exact (R2 eq_refl)|exact R1]|left; exact (R3 eq_refl)].
Qed.
(** Zero digits follow a non-zero one *)
Lemma wnafZ_zeros M w : 2 <= w -> (M = 0 \/ exists m, M = 2 ^ m /\ w <= m) -> forall fuel j r K, wnafZ M w fuel r = Some K -> r mod 2 ^ Z.of_nat j = 0 -> (Z.of_nat j <= w - 1) -> 0 <= r -> (M = 0 \/ r < M) ->
  forall i, (i < j)%nat -> nth i K 0 = 0.
Proof.
  intros Hw HM. induction fuel as [|fuel IH]; intros j r K E D J R0 RM i Hi.
  - cbn [wnafZ] in E. destruct (r =? 0); [|discriminate]. injection E as <-. destruct i; reflexivity.
  - cbn [wnafZ] in E. destruct (Z.eqb_spec r 0) as [->|NZ]; [injection E as <-; destruct i; reflexivity|].
    destruct (wnafZ M w fuel ((r - sdigit w r) mod M / 2)) as [K'|] eqn:E'; [|discriminate]. injection E as <-.
    destruct j as [|j]; [lia|]. rewrite Nat2Z.inj_succ in *. rewrite Z.pow_succ_r in D by lia.
    set (p := 2 ^ Z.of_nat j) in *. assert (0 < p) by (apply Z.pow_pos_nonneg; lia).
    apply Z.mod_divide in D; [|lia]. destruct D as [q D].
    assert (O : Z.odd r = false) by (rewrite D; rewrite !Z.odd_mul; cbn [Z.odd andb]; apply andb_false_r).
    destruct (sdigit_range w r Hw) as (_ & _ & R3 & _). rewrite (R3 O) in *. destruct i as [|i]; [reflexivity|]. cbn [nth].
    rewrite Z.sub_0_r in E'. assert (EM : r mod M = r). { destruct RM as [->|RM]; [destruct r; reflexivity|]. apply Z.mod_small. lia. }
    rewrite EM in E'. apply (IH j (r / 2) K' E'); [|lia| |destruct RM; [left; assumption|right]|lia].
    + rewrite D. replace (q * (2 * p)) with (q * p * 2) by ring. rewrite Z.div_mul by lia. apply Z.mod_mul. lia.
    + apply Z.div_pos; lia.
    + pose proof (Z.div_mod r 2 ltac:(lia)). pose proof (Z.mod_pos_bound r 2 ltac:(lia)). lia.
Qed.
Lemma wnafZ_spaced M w : 2 <= w -> (exists m, M = 2 ^ m /\ w <= m) -> forall fuel r K, wnafZ M w fuel r = Some K -> 0 <= r < M ->
  spaced (Z.to_nat w) K.
Proof.
  intros Hw (m & HM & Hm). induction fuel as [|fuel IH]; intros r K E R i j Hij Ni.
  - cbn [wnafZ] in E. destruct (r =? 0); [|discriminate]. injection E as <-. destruct i; cbn in Ni; congruence.
  - cbn [wnafZ] in E. destruct (Z.eqb_spec r 0) as [->|NZ]; [injection E as <-; destruct i; cbn in Ni; congruence|].
    destruct (wnafZ M w fuel ((r - sdigit w r) mod M / 2)) as [K'|] eqn:E'; [|discriminate]. injection E as <-.
    assert (PM : 0 < M) by lia.
    pose proof (Z.mod_pos_bound (r - sdigit w r) M PM) as B.
    set (r' := (r - sdigit w r) mod M) in *.
    assert (B' : 0 <= r' / 2 < M). { split; [apply Z.div_pos; lia|]. apply Z.div_lt_upper_bound; lia. }
    destruct i as [|i].
    + cbn [nth] in Ni. destruct j as [|j]; [lia|]. cbn [nth].
      destruct (sdigit_range w r Hw) as (_ & _ & R3 & R4). destruct (Z.odd r) eqn:O; [|specialize (R3 eq_refl); contradiction]. specialize (R4 eq_refl).
      assert (D : r' mod 2 ^ w = 0).
      { unfold r'. rewrite HM. replace m with (w + (m - w)) by lia. rewrite Z.pow_add_r by lia.
        rewrite Z.rem_mul_r by (try apply Z.pow_nonzero; try apply Z.pow_pos_nonneg; lia).
        rewrite R4, Z.add_0_l, Z.mul_comm. apply Z.mod_mul. apply Z.pow_nonzero; lia. }
      apply (wnafZ_zeros M w Hw (or_intror (ex_intro _ m (conj HM Hm))) fuel (Z.to_nat (w - 1)) (r' / 2) K' E'); [|lia|lia|lia|lia].
      rewrite Z2Nat.id by lia. apply Z.mod_divide in D; [|apply Z.pow_nonzero; lia]. destruct D as [q D]. rewrite D.
      replace (2 ^ w) with (2 ^ (w - 1) * 2) by (rewrite Z.mul_comm, <- Z.pow_succ_r by lia; f_equal; lia).
      rewrite Z.mul_assoc, Z.div_mul by lia. apply Z.mod_mul. apply Z.pow_nonzero; lia.
    + destruct j as [|j]; [lia|]. cbn [nth] in *. apply (IH _ _ E' B' i j); [lia|exact Ni].
Qed.
Lemma wnafZ_256 w r : 2 <= w <= 8 -> 0 <= r < 2 ^ 256 ->
  exists K, (forall fuel, (257 <= fuel)%nat -> wnafZ (2 ^ 256) w fuel r = Some K) /\ (length K <= 257)%nat /\ Forall (wnaf_digit w) K /\
  value2 K = r - (if wraps w r then 2 ^ 256 else 0).
Proof.
  intros Hw Hr. destruct (Z.eq_dec r 0) as [->|NZ].
  { exists []. split; [intros [|fuel] _; reflexivity|]. split; [cbn; lia|]. split; [constructor|reflexivity]. }
  destruct (sdigit_range w r (proj1 Hw)) as (R1 & R2 & R3 & R4). set (v := sdigit w r) in *.
  assert (PW : 2 ^ w = 2 * 2 ^ (w - 1)) by (rewrite <- Z.pow_succ_r by lia; f_equal; lia).
  assert (P0 : 2 <= 2 ^ (w - 1)) by (change 2 with (2 ^ 1) at 1; apply Z.pow_le_mono_r; lia).
  assert (P1 : 2 ^ (w - 1) <= 2 ^ 7) by (apply Z.pow_le_mono_r; lia). change (2 ^ 7) with 128 in P1.
  assert (P2 : 2 ^ 256 = 2 ^ (256 - w) * 2 ^ w) by (rewrite <- Z.pow_add_r by lia; f_equal; lia).
  assert (B : 0 <= r - v <= 2 ^ 256 /\ (r - v) mod 2 = 0 /\ (r - v = 2 ^ 256 <-> wraps w r = true)).
  { unfold wraps. destruct (Z.odd r) eqn:O.
    - specialize (R4 eq_refl). apply Z.mod_divide in R4; [|lia]. destruct R4 as [q R4].
      assert (Hq : 0 <= q) by nia.
      split; [|split].
      + split; [nia|]. set (c := 2 ^ (256 - w)) in *. rewrite P2 in *. rewrite R4. assert (q * 2 ^ w < (c + 1) * 2 ^ w) by nia. assert (q < c + 1) by nia. nia.
      + rewrite R4, PW. replace (q * (2 * 2 ^ (w - 1))) with (q * 2 ^ (w - 1) * 2) by ring. apply Z.mod_mul. lia.
      + cbn [andb]. rewrite Z.ltb_lt. split; [lia|]. intro G. set (c := 2 ^ (256 - w)) in *. rewrite P2 in *.
        assert (q * 2 ^ w > (c - 1) * 2 ^ w) by nia. assert (q * 2 ^ w < (c + 1) * 2 ^ w) by nia. assert (q = c) by nia. subst q. exact R4.
    - rewrite (R3 eq_refl) in *. rewrite Z.sub_0_r. split; [lia|]. split; [rewrite Zmod_odd, O; reflexivity|]. split; [lia|discriminate]. }
  destruct B as (B1 & B2 & B3).
  assert (DG : wnaf_digit w v) by (destruct (Z.odd r) eqn:O; [right; split; [exact (R2 eq_refl)|exact R1]|left; exact (R3 eq_refl)]).
  destruct (wraps w r) eqn:WR.
  - assert (E : r - v = 2 ^ 256) by (apply B3; reflexivity). exists [v]. split; [|split; [cbn; lia|split; [constructor; [exact DG|constructor]|]]].
    + intros [|fuel] Hf; [lia|]. cbn [wnafZ]. destruct (Z.eqb_spec r 0); [contradiction|]. fold v. rewrite E, Z.mod_same by lia. change (0 / 2) with 0. destruct fuel; reflexivity.
    + change (value2 [v]) with (v + 2 * 0). lia.
  - assert (E : r - v < 2 ^ 256). { assert (r - v <> 2 ^ 256) by (intro X; apply B3 in X; discriminate). lia. }
    pose proof (Z.div_mod (r - v) 2 ltac:(lia)) as D. rewrite B2, Z.add_0_r in D.
    destruct (wnafZ_ok w (proj1 Hw) 255 (2 ^ 256) ((r - v) / 2)) as (K & K1 & K2 & K3 & K4); [right; reflexivity|change (Z.of_nat 255) with 255; lia|].
    exists (v :: K). split; [|split; [cbn [length]; lia|split; [constructor; [exact DG|exact K4]|]]].
    + intros [|fuel] Hf; [lia|]. cbn [wnafZ]. destruct (Z.eqb_spec r 0); [contradiction|]. fold v. rewrite (Z.mod_small (r - v)) by lia. rewrite K1 by lia. reflexivity.
    + change (value2 (v :: K)) with (v + 2 * value2 K). rewrite K3. lia.
Qed.
Theorem wnaf256_ok st r w : bytes 32 r -> 2 <= w <= 8 ->
  exists K, (forall fuel, (257 <= fuel)%nat -> wnaf_256bits st fuel r w = Some K) /\ (length K <= 257)%nat /\
  Forall (wnaf_digit w) K /\ spaced (Z.to_nat w) K /\ value2 K = le_val r - (if wraps w (le_val r) then 2 ^ 256 else 0).
Proof.
  intros Hr Hw. destruct (words_of_ok 4 r Hr) as [Ww Wv].
  assert (B : 0 <= le_val r < 2 ^ 256). { pose proof (le_val_bound _ (proj2 Hr)) as X. rewrite (proj1 Hr) in X. exact X. }
  destruct (wnafZ_256 w (le_val r) Hw B) as (K & K1 & K2 & K3 & K4). exists K.
  split; [|split; [exact K2|split; [exact K3|split; [|exact K4]]]].
  - intros fuel Hf. unfold wnaf_256bits. rewrite (wnaf_loop_ok 4 (sub256 st) (2 ^ 256) w Hw ltac:(lia) eq_refl (fun r v H1 H2 => sub256_ok st r v H1 H2) fuel _ Ww), Wv. apply K1. exact Hf.
  - assert (W256 : w <= 256) by lia. apply (wnafZ_spaced (2 ^ 256) w (proj1 Hw) (ex_intro _ 256 (conj eq_refl W256)) 257%nat (le_val r) K); [apply K1; lia|exact B].
Qed.
Theorem wnaf448_ok st r w : bytes 57 r -> 2 <= w <= 8 ->
  exists K, (forall fuel, (457 <= fuel)%nat -> wnaf_448bits st fuel r w = Some K) /\ (length K <= 457)%nat /\
  (le_val r < 2 ^ 448 -> (length K <= 449)%nat) /\
  Forall (wnaf_digit w) K /\ spaced (Z.to_nat w) K /\ value2 K = le_val r.
Proof.
  intros Hr Hw.
  assert (H64 : bytes (8 * 8) (firstn 57 r ++ repeat 0 7)).
  { destruct Hr as [L F]. rewrite firstn_all2 by lia. split; [rewrite app_length, repeat_length; lia|]. apply Forall_app. split; [exact F|]. apply Forall_forall. intros x Hx. apply repeat_spec in Hx. subst. unfold byte. lia. }
  destruct (words_of_ok 8 _ H64) as [Ww Wv].
  assert (EV : le_val (firstn 57 r ++ repeat 0 7) = le_val r).
  { rewrite firstn_all2 by (destruct Hr; lia). rewrite le_val_app. replace (le_val (repeat 0 7)) with 0 by reflexivity. lia. }
  rewrite EV in Wv.
  assert (B : 0 <= le_val r < 2 ^ 456). { pose proof (le_val_bound _ (proj2 Hr)) as X. rewrite (proj1 Hr) in X. exact X. }
  destruct (wnafZ_ok w (proj1 Hw) 456 (2 ^ 512) (le_val r)) as (K & K1 & K2 & K3 & K4); [right; reflexivity|change (Z.of_nat 456) with 456; lia|].
  exists K. split; [|split; [exact K2|split; [|split; [exact K4|split; [|exact K3]]]]].
  - intros fuel Hf. unfold wnaf_448bits. rewrite (wnaf_loop_ok 8 (sub512 st) (2 ^ 512) w Hw ltac:(lia) eq_refl (fun r v H1 H2 => sub512_ok st r v H1 H2) fuel _ Ww), Wv. apply K1. exact Hf.
  - intro S. destruct (wnafZ_ok w (proj1 Hw) 448 (2 ^ 512) (le_val r)) as (K' & K1' & K2' & _); [right; reflexivity|change (Z.of_nat 448) with 448; lia|].
    specialize (K1 457%nat ltac:(lia)). specialize (K1' 457%nat ltac:(lia)). rewrite K1 in K1'. injection K1' as ->. exact K2'.
  - assert (W512 : w <= 512) by lia. apply (wnafZ_spaced (2 ^ 512) w (proj1 Hw) (ex_intro _ 512 (conj eq_refl W512)) 457%nat (le_val r) K); [apply K1; lia|].
    split; [lia|]. apply (Z.lt_trans _ (2 ^ 456)); [lia|reflexivity].
Qed.
(** 257 digits do occur: a buffer of 256 digits is too small *)
Theorem wnaf256_full st : wnaf_256bits st 256 (254 :: repeat 255 31) 7 = None.
Proof.
  unfold wnaf_256bits.
  assert (H : bytes (8 * 4) (254 :: repeat 255 31)).
  { split; [reflexivity|]. constructor; [unfold byte; lia|]. apply Forall_forall. intros x Hx. apply repeat_spec in Hx. subst. unfold byte. lia. }
  destruct (words_of_ok 4 _ H) as [Ww Wv].
  rewrite (wnaf_loop_ok 4 (sub256 st) (2 ^ 256) 7 ltac:(lia) ltac:(lia) eq_refl (fun r v H1 H2 => sub256_ok st r v H1 H2) 256%nat _ Ww), Wv.
  vm_compute. reflexivity.
Qed.
