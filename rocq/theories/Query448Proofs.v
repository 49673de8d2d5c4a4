(** The queries of the edwards448 table. *)
From Coq Require Import ZArith List Bool Lia.
From Verif Require Import Uop X86 Sym Engine Bytes Check FullTac Lanes RedTac Simd Simd448 Fp448Full Fp448FullProofs FullMore
  Fp25519Red Fp25519RedProofs Fp448Red Fp448RedProofs Fp448RedMore Fp448RedRoot Spec Scalar Ladder LadderProofs LadderVec LadderVec448 SpecEd SpecIso CurveInst EdInst448
  Edwards255 EdVec Edwards255Proofs Verify255 Verify255Proofs Recode RecodeProofs SpecRecode Fixed255 Fixed255Proofs Edwards448 EdVec448 Edwards448Proofs Prod448 Limb448 Mix448
  Verify448Proofs Mix448Way Table448 EdCert EdCert448 TableProofs448.
Import ListNotations.
Open Scope Z_scope.
Notation B := B_ed448.
Notation "k ** P" := (mul448 k P) (at level 40).

(** ** One lane: 16 limbs of a number given by its seven words *)
Definition str1q (w0 w1 w2 w3 w4 w5 w6 : Z) : list Z := map (fun x => Z.land x (2 ^ 28 - 1)) [
  w0; w3 / 2 ^ (4 + 28); w0 / 2 ^ 28; Z.lxor (w3 / 2 ^ (4 + 2 * 28)) ((w4 * 2 ^ 4) mod W);
  Z.lxor (w0 / 2 ^ (2 * 28)) ((w1 * 2 ^ 8) mod W); w4 / 2 ^ 24; w1 / 2 ^ 20; Z.lxor (w4 / 2 ^ (24 + 28)) ((w5 * 2 ^ 12) mod W);
  Z.lxor (w1 / 2 ^ (20 + 28)) ((w2 * 2 ^ 16) mod W); w5 / 2 ^ 16; w2 / 2 ^ 12; Z.lxor (w5 / 2 ^ (16 + 28)) ((w6 * 2 ^ 20) mod W);
  Z.lxor (w2 / 2 ^ (12 + 28)) ((w3 * 2 ^ 24) mod W); w6 / 2 ^ 8; w3 / 2 ^ 4; w6 / 2 ^ (8 + 28)].
Lemma land28 x : Z.land x (2 ^ 28 - 1) = x mod 2 ^ 28. Proof. exact (Z.land_ones x 28 ltac:(lia)). Qed.
Lemma lxor_sum n a b : 0 <= n <= 64 -> 0 <= a < 2 ^ n -> Z.lxor a ((b * 2 ^ n) mod W) = a + (b * 2 ^ n) mod W.
Proof.
  intros N A. change W with (2 ^ 64). symmetry. apply Z.add_nocarry_lxor. apply Z.bits_inj'. intros i Hi. rewrite Z.land_spec, Z.bits_0.
  destruct (Z.ltb_spec i n) as [L|L].
  - rewrite <- Z.land_ones, Z.land_spec, (Z.mul_pow2_bits_low b n i) by lia. apply andb_false_r.
  - destruct (Z.eq_dec a 0) as [->|Na]; [rewrite Z.bits_0; reflexivity|]. rewrite (Z.bits_above_log2 a i); [reflexivity|lia|]. apply Z.log2_lt_pow2; [lia|].
    apply Z.lt_le_trans with (2 ^ n); [lia|]. apply Z.pow_le_mono_r; lia.
Qed.
Fixpoint numl (l : list Z) : Z := match l with [] => 0 | w :: l => w + 2 ^ 64 * numl l end.
Lemma mod_drop a b c m : m <> 0 -> b = c * m -> (a + b) mod m = a mod m.
Proof. intros Hm ->. apply Z_mod_plus_full. Qed.
Lemma mod_mod36 x : (x mod (2 ^ 36 * 2 ^ 28)) mod 2 ^ 28 = x mod 2 ^ 28.
Proof. symmetry. apply Znumtheory.Zmod_div_mod; [reflexivity..|]. exists (2 ^ 36). reflexivity. Qed.
Lemma digit_at s k : forall l, 0 <= s < 64 -> Forall word l -> (numl l / 2 ^ (64 * Z.of_nat k + s)) mod 2 ^ 28 = (nth k l 0 / 2 ^ s + nth (Datatypes.S k) l 0 * 2 ^ (64 - s)) mod 2 ^ 28.
Proof.
  induction k as [|k IH]; intros l Hs F.
  - change (64 * Z.of_nat 0 + s) with s. destruct l as [|w l]; [reflexivity|]. cbn [numl nth].
    replace (2 ^ 64) with (2 ^ (64 - s) * 2 ^ s) by (rewrite <- Z.pow_add_r by lia; f_equal; lia).
    assert (P : 2 ^ s <> 0) by (apply Z.pow_nonzero; lia).
    replace (w + 2 ^ (64 - s) * 2 ^ s * numl l) with (w + 2 ^ (64 - s) * numl l * 2 ^ s) by ring. rewrite Z.div_add by exact P.
    destruct l as [|v l]; [cbn [numl nth]; f_equal; ring|]. cbn [numl nth].
    replace (w / 2 ^ s + 2 ^ (64 - s) * (v + 2 ^ 64 * numl l)) with (w / 2 ^ s + v * 2 ^ (64 - s) + 2 ^ (64 - s) * 2 ^ 64 * numl l) by ring.
    apply (mod_drop _ _ (2 ^ (64 - s) * 2 ^ 36 * numl l)); [discriminate|]. change (2 ^ 64) with (2 ^ 36 * 2 ^ 28). ring.
  - destruct l as [|w l]; [cbn [numl nth]; rewrite !Z.div_0_l by (apply Z.pow_nonzero; lia); reflexivity|].
    inversion F as [|? ? Hw F']; subst. cbn [nth]. rewrite <- (IH l Hs F'). f_equal. cbn [numl].
    replace (64 * Z.of_nat (Datatypes.S k) + s) with (64 + (64 * Z.of_nat k + s)) by lia. rewrite Z.pow_add_r by lia.
    rewrite <- Z.div_div by (try apply Z.pow_nonzero; try apply Z.pow_pos_nonneg; lia). f_equal.
    rewrite Z.mul_comm, Z.div_add by discriminate. rewrite Z.div_small; [reflexivity|exact Hw].
Qed.
Lemma digit_lo l k s : 0 <= s <= 36 -> Forall word l -> (nth k l 0 / 2 ^ s) mod 2 ^ 28 = (numl l / 2 ^ (64 * Z.of_nat k + s)) mod 2 ^ 28.
Proof.
  intros Hs F. rewrite digit_at by (lia || exact F). symmetry. apply (mod_drop _ _ (nth (Datatypes.S k) l 0 * 2 ^ (36 - s))); [discriminate|].
  rewrite <- Z.mul_assoc, <- Z.pow_add_r by lia. do 2 f_equal. lia.
Qed.
Lemma digit_hi l k n : 0 < n <= 64 -> Forall word l -> Z.lxor (nth k l 0 / 2 ^ (64 - n)) ((nth (Datatypes.S k) l 0 * 2 ^ n) mod W) mod 2 ^ 28 = (numl l / 2 ^ (64 * Z.of_nat k + (64 - n))) mod 2 ^ 28.
Proof.
  intros Hn F. assert (Wk : 0 <= nth k l 0 < W).
  { destruct (Nat.ltb_spec k (length l)) as [L|L]; [|rewrite nth_overflow by exact L; unfold W; lia]. exact (proj1 (Forall_forall _ _) F _ (nth_In _ _ L)). }
  rewrite lxor_sum; [|lia|split; [apply Z.div_pos; [lia|apply Z.pow_pos_nonneg; lia]|]].
  - rewrite digit_at by (lia || exact F). replace (64 - (64 - n)) with n by lia.
    rewrite <- Zplus_mod_idemp_r. change W with (2 ^ 36 * 2 ^ 28). rewrite mod_mod36. apply Zplus_mod_idemp_r.
  - apply Z.div_lt_upper_bound; [apply Z.pow_pos_nonneg; lia|]. rewrite <- Z.pow_add_r by lia. replace (64 - n + n) with 64 by lia. exact (proj2 Wk).
Qed.

(** Base 2^28 *)
Definition limb (N : Z) (l : nat) : Z := (N / 2 ^ (28 * Z.of_nat l)) mod 2 ^ 28.
Fixpoint dig (N : Z) (n l : nat) : Z := match n with O => 0 | Datatypes.S n => limb N l + 2 ^ 28 * dig N n (Datatypes.S l) end.
Lemma dig_ok N n : forall l, 0 <= N < 2 ^ (28 * Z.of_nat (l + n)) -> dig N n l = N / 2 ^ (28 * Z.of_nat l).
Proof.
  induction n as [|n IH]; intros l H.
  - cbn [dig]. rewrite Nat.add_0_r in H. symmetry. apply Z.div_small. exact H.
  - cbn [dig]. rewrite IH by (replace (Datatypes.S l + n)%nat with (l + Datatypes.S n)%nat by lia; exact H).
    replace (28 * Z.of_nat (Datatypes.S l)) with (28 * Z.of_nat l + 28) by lia. rewrite Z.pow_add_r by lia.
    rewrite <- Z.div_div by (try apply Z.pow_nonzero; lia). unfold limb. set (M := N / 2 ^ (28 * Z.of_nat l)).
    pose proof (Z.div_mod M (2 ^ 28) ltac:(discriminate)). lia.
Qed.
Definition limbs28 (N : Z) : list Z := map (fun k => limb N (limb448 k)) (seq 0 16).
Lemma limbs28_ok N : 0 <= N < 2 ^ 448 -> fe448 (limbs28 N) = N /\ arr_ok canon448 (limbs28 N).
Proof.
  intro H. split.
  - transitivity (N / 2 ^ (28 * Z.of_nat 0)); [|apply Z.div_1_r]. rewrite <- (dig_ok N 16 0 H).
    unfold limbs28. set (f := limb N). change (dig N 16 0) with ((fix d n l := match n with O => 0 | Datatypes.S n => f l + 2 ^ 28 * d n (Datatypes.S l) end) 16%nat 0%nat).
    clearbody f. clear H. cbv -[Z.add Z.mul Z.pow]. change (2 ^ 28) with 268435456. ring.
  - assert (G : forall l, inI (0, 2 ^ 28 - 1) (limb N l)) by (intro l; pose proof (Z.mod_pos_bound (N / 2 ^ (28 * Z.of_nat l)) (2 ^ 28) ltac:(reflexivity)); unfold limb, inI; cbn [fst snd]; lia).
    clear H. unfold limbs28, arr_ok. cbn [map seq]. unfold canon448, bnd448. cbn [map seq].
    repeat (apply Forall2_cons; [apply G|]). apply Forall2_nil.
Qed.
Definition num7 (w : nat -> Z) : Z := numl (map w (seq 0 7)).
Lemma str1q_limbs (w : nat -> Z) : (forall i, 0 <= w i < W) -> str1q (w 0%nat) (w 1%nat) (w 2%nat) (w 3%nat) (w 4%nat) (w 5%nat) (w 6%nat) = limbs28 (num7 w).
Proof.
  intro H. assert (F : Forall word (map w (seq 0 7))) by (apply Forall_forall; intros x I; apply in_map_iff in I; destruct I as (i & <- & _); exact (H i)).
  unfold num7. set (l := map w (seq 0 7)) in *.
  change (w 0%nat) with (nth 0 l 0). change (w 1%nat) with (nth 1 l 0). change (w 2%nat) with (nth 2 l 0). change (w 3%nat) with (nth 3 l 0).
  change (w 4%nat) with (nth 4 l 0). change (w 5%nat) with (nth 5 l 0). change (w 6%nat) with (nth 6 l 0). clearbody l.
  unfold str1q. cbn [map]. rewrite !land28. unfold limbs28. cbn [map seq].
  pose proof (fun k s Hs => digit_lo l k s Hs F) as L. pose proof (fun k n Hn => digit_hi l k n Hn F) as G.
  apply f_equal2; [exact (eq_trans (f_equal (fun z => z mod 2 ^ 28) (eq_sym (Z.div_1_r _))) (L 0%nat 0 ltac:(lia)))|].
  apply f_equal2; [exact (L 3%nat 32 ltac:(lia))|].
  apply f_equal2; [exact (L 0%nat 28 ltac:(lia))|].
  apply f_equal2; [exact (G 3%nat 4 ltac:(lia))|].
  apply f_equal2; [exact (G 0%nat 8 ltac:(lia))|].
  apply f_equal2; [exact (L 4%nat 24 ltac:(lia))|].
  apply f_equal2; [exact (L 1%nat 20 ltac:(lia))|].
  apply f_equal2; [exact (G 4%nat 12 ltac:(lia))|].
  apply f_equal2; [exact (G 1%nat 16 ltac:(lia))|].
  apply f_equal2; [exact (L 5%nat 16 ltac:(lia))|].
  apply f_equal2; [exact (L 2%nat 12 ltac:(lia))|].
  apply f_equal2; [exact (G 5%nat 20 ltac:(lia))|].
  apply f_equal2; [exact (G 2%nat 24 ltac:(lia))|].
  apply f_equal2; [exact (L 6%nat 8 ltac:(lia))|].
  apply f_equal2; [exact (L 3%nat 4 ltac:(lia))|].
  apply f_equal2; [exact (L 6%nat 36 ltac:(lia))|].
  reflexivity.
Qed.
Lemma num7_small (w : nat -> Z) : (forall i, 0 <= w i < W) -> 0 <= num7 w < 2 ^ 448.
Proof.
  intro H. unfold num7. assert (G : forall n k, 0 <= numl (map w (seq k n)) < 2 ^ (64 * Z.of_nat n)).
  { induction n as [|n IH]; intro k; [change (2 ^ (64 * Z.of_nat 0)) with 1; cbn; lia|]. cbn [seq map numl]. specialize (IH (Datatypes.S k)). pose proof (H k) as Hk. unfold W in Hk.
    replace (64 * Z.of_nat (Datatypes.S n)) with (64 + 64 * Z.of_nat n) by lia. rewrite Z.pow_add_r by lia. set (m := 2 ^ (64 * Z.of_nat n)) in *. clearbody m. lia. }
  exact (G 7%nat 0%nat).
Qed.
Lemma num7_of w : num7 w = num_of w.
Proof. unfold num7, num_of. cbn [map seq numl]. rewrite Z.mul_0_r, Z.add_0_r. reflexivity. Qed.
Lemma str1q_ok (w : nat -> Z) : (forall i, 0 <= w i < W) ->
  let v := str1q (w 0%nat) (w 1%nat) (w 2%nat) (w 3%nat) (w 4%nat) (w 5%nat) (w 6%nat) in
  v = limbs28 (num_of w) /\ fe448 v = num_of w /\ arr_ok canon448 v.
Proof.
  intro H. cbv zeta. rewrite (str1q_limbs w H), num7_of. split; [reflexivity|]. apply limbs28_ok. rewrite <- num7_of. apply num7_small, H.
Qed.

(** ** Signs *)
Ltac lits b := unfold arr_ok; let v := eval vm_compute in b in change b with v.
Lemma neg_limbs448 s v : s = 0 \/ s = ones64 -> arr_ok canon448 v -> nth 1 v 0 <= 0xffffffe ->
  fe448 (zip2 (neg1 s) v limbs_P448) = Q + signed (fe448 v) s /\ arr_ok mid448 (zip2 (neg1 s) v limbs_P448).
Proof.
  intros Hs H H0. unfold arr_ok in H. let v := eval vm_compute in canon448 in change canon448 with v in H.
  do 16 (let x := fresh "x" in let y := fresh "r" in let Hx := fresh "Hx" in inversion H as [|? x ? y Hx H']; subst; clear H; rename H' into H; unfold inI in Hx; cbn [fst snd] in Hx).
  inversion H; subst; clear H. cbn [nth] in H0. unfold limbs_P448. cbn [zip2]. unfold signed. destruct Hs as [->| ->].
  - rewrite !neg1_0 by lia. split.
    + change (0 =? 0) with true. cbv iota. unfold wt448. cbn [wsum]. change Q with (2 ^ 448 - 2 ^ 224 - 1). lia.
    + lits mid448. repeat (apply Forall2_cons; [unfold inI; cbn [fst snd]; lia|]). apply Forall2_nil.
  - rewrite !neg1_1 by lia. split.
    + change (ones64 =? 0) with false. cbv iota. unfold wt448. cbn [wsum]. change Q with (2 ^ 448 - 2 ^ 224 - 1). lia.
    + lits mid448. repeat (apply Forall2_cons; [unfold inI; cbn [fst snd]; lia|]). apply Forall2_nil.
Qed.

(** ** The selected words; every lane reads the same sub-table *)
Section Query.
Variable dd : nat -> nat.
Hypothesis Hdd : forall j, (dd j <= 8)%nat.
Variable ss : nat -> Z.
Hypothesis Hss : forall j, ss j = 0 \/ ss j = ones64.
Let digits := vec (fun j => Z.of_nat (dd j)).
Let signs := vec ss.
Variable s : list Z.
Hypothesis Hs : Forall word s.
Notation sword := (s_word s Hs).
Definition selq (c w j : nat) : Z := if (dd j =? 0)%nat then 0 else nth (24 * w + 3 * (dd j - 1) + c) s 0.
Lemma qsel_vecq c w : qsel448 s digits c w = vec (selq c w).
Proof.
  transitivity (vec (fun j => sel1 (j mod 2) (Z.of_nat (dd j)) (fun i => nth (24 * w + 3 * i + c) s 0))).
  - unfold qsel448. change [0; 0; 0; 0] with (vec (fun _ => 0)).
    assert (E : forall l a, fold_left (fun acc i => VXOR acc (VANDNOT (qmask digits (i + 1)) (bcast (nth (24 * w + 3 * i + c) s 0)))) l a =
      fold_left (fun acc i => VXOR acc (vec (fun j => Z.land (Z.lxor (mlane (j mod 2) (Z.of_nat (dd j)) (Z.of_nat (i + 1))) ones64) (nth (24 * w + 3 * i + c) s 0)))) l a).
    { induction l as [|i l IH]; intro a; [reflexivity|]. cbn [fold_left]. rewrite IH. apply (f_equal (fun v => fold_left _ l (VXOR a v))). reflexivity. }
    rewrite E, fold_vec. reflexivity.
  - apply vec_ext. intro j. rewrite sel1_ok; [reflexivity|apply Hdd|intros; apply sword].
Qed.
(** The sum and difference words, with the case of digit zero: the numbers 1 *)
Definition awq (c w j : nat) : Z := if (dd j =? 0)%nat then (if (w =? 0)%nat then 1 else 0) else selq c w j.
Lemma awq_word c w j : 0 <= awq c w j < W.
Proof. unfold awq, selq. destruct (dd j =? 0)%nat; [destruct (w =? 0)%nat; unfold W; lia|apply sword]. Qed.
Lemma selq_word c w j : 0 <= selq c w j < W.
Proof. unfold selq. destruct (dd j =? 0)%nat; [unfold W; lia|apply sword]. Qed.
Lemma qone_vecq c : qone digits (qsel448 s digits c 0) = vec (awq c 0).
Proof.
  rewrite qsel_vecq. unfold qone.
  transitivity (vec (fun j => Z.lxor (selq c 0 j) (Z.land (Z.lxor (mlane (j mod 2) (Z.of_nat (dd j)) (Z.of_nat 0)) ones64) (Z.lxor (selq c 0 j) 1)))); [reflexivity|].
  apply vec_ext. intro j. rewrite mlane_ok by (try apply Hdd; lia). unfold awq. destruct (Nat.eqb_spec (dd j) 0) as [E|E].
  - unfold selq. rewrite E. reflexivity.
  - rewrite Z.lxor_nilpotent, Z.land_0_l, Z.lxor_0_r. reflexivity.
Qed.
Lemma aw_selq c w : w <> 0%nat -> qsel448 s digits c w = vec (awq c w).
Proof. intro H. rewrite qsel_vecq. apply vec_ext. intro j. unfold awq, selq. destruct (dd j =? 0)%nat; [|reflexivity]. destruct w; [congruence|reflexivity]. Qed.
Lemma swap_vecq w : VXOR (vec (awq 0 w)) (VAND (VXOR (vec (awq 0 w)) (vec (awq 1 w))) signs) = vec (fun j => sw ss j (awq 0 w j) (awq 1 w j)) /\
  VXOR (vec (awq 1 w)) (VAND (VXOR (vec (awq 0 w)) (vec (awq 1 w))) signs) = vec (fun j => sw ss j (awq 1 w j) (awq 0 w j)).
Proof.
  split.
  - transitivity (vec (fun j => Z.lxor (awq 0 w j) (Z.land (Z.lxor (awq 0 w j) (awq 1 w j)) (ss j)))); [reflexivity|].
    apply vec_ext. intro j. apply (swap1 ss Hss); apply awq_word.
  - transitivity (vec (fun j => Z.lxor (awq 1 w j) (Z.land (Z.lxor (awq 0 w j) (awq 1 w j)) (ss j)))); [reflexivity|].
    apply vec_ext. intro j. rewrite (Z.lxor_comm (awq 0 w j)). apply (swap1 ss Hss); apply awq_word.
Qed.
Definition strl (f : nat -> nat -> Z) (j : nat) : list Z := str1q (f 0%nat j) (f 1%nat j) (f 2%nat j) (f 3%nat j) (f 4%nat j) (f 5%nat j) (f 6%nat j).
Definition strv (f : nat -> nat -> Z) : list Z := str448_4w (vec (f 0%nat)) (vec (f 1%nat)) (vec (f 2%nat)) (vec (f 3%nat)) (vec (f 4%nat)) (vec (f 5%nat)) (vec (f 6%nat)).
Lemma strv_lane f j : (j < 4)%nat -> el4q j (strv f) = strl f j.
Proof. intro H. do 4 (destruct j as [|j]; [reflexivity|]). lia. Qed.
Lemma strv_neg f j : (j < 4)%nat -> el4q j (vmap2 (qneg signs) (strv f) (concat (map bcast limbs_P448))) = zip2 (neg1 (ss j)) (strl f j) limbs_P448.
Proof. intro H. do 4 (destruct j as [|j]; [reflexivity|]). lia. Qed.
End Query.

(** ** The table *)
Lemma table_words448 : Forall word TableSign_w4_3675k.
Proof.
  assert (H : forallb (fun w => (0 <=? w) && (w <? W)) TableSign_w4_3675k = true) by (vm_compute; reflexivity).
  rewrite forallb_forall in H. apply Forall_forall. intros x I. apply H in I. apply andb_prop in I as [A B]. apply Z.leb_le in A. apply Z.ltb_lt in B. split; assumption.
Qed.
Lemma sub_words448 i : Forall word (sub_words i).
Proof.
  apply Forall_forall. intros x I. refine (proj1 (Forall_forall _ _) table_words448 x _).
  unfold sub_words in I. rewrite <- (firstn_skipn (168 * i) TableSign_w4_3675k). apply in_or_app. right. rewrite <- (firstn_skipn 168 (skipn _ _)). apply in_or_app. left. exact I.
Qed.
Definition limb8 (N : Z) : Z := Z.land (Z.shiftr N 224) (2 ^ 28 - 1).
Lemma limb8_ok N : limb8 N = limb N 8.
Proof. unfold limb8, limb. rewrite land28, Z.shiftr_div_pow2 by lia. reflexivity. Qed.
Lemma limbs8 : forallb (forallb (fun t : triple => limb8 (snd t) <=? 0xffffffe)) all_bases_lit = true.
Proof. vm_compute. reflexivity. Qed.
Lemma limb8_in i m : (i < 28)%nat -> (m < 8)%nat -> limb (num_in (sub_words i) m 2) 8 <= 0xffffffe.
Proof.
  intros I M. pose proof limbs8 as L. rewrite forallb_forall in L.
  specialize (L (nth i all_bases_lit [])). rewrite forallb_forall in L.
  specialize (L ltac:(apply nth_In; change (length all_bases_lit) with 28%nat; lia) (triple_in (sub_words i) m)). rewrite <- limb8_ok. apply Z.leb_le. apply L.
  rewrite <- all_bases_eq, all_bases_nth by assumption. unfold bases. apply in_map, in_seq. lia.
Qed.

(** ** The query *)
Section QueryOk.
Variable dd : nat -> nat.
Hypothesis Hdd : forall j, (dd j <= 8)%nat.
Variable ss : nat -> Z.
Hypothesis Hss : forall j, ss j = 0 \/ ss j = ones64.
Variable i : nat.
Hypothesis Hi : (i < 28)%nat.
Notation s := (sub_words i).
Notation aw := (awq dd s).
Notation selw := (selq dd s).
Definition baseq (j : nat) : Z * Z := (Z.of_nat (dd j) * 16 ^ (4 * Z.of_nat i)) ** B.
Lemma baseq_on j : on448 (baseq j). Proof. apply mul448_on, onB. Qed.
Lemma iso_zero : iso448 ed_zero = (0, 1).
Proof. symmetry. apply iso44_ok; [exact zero448_on|vm_compute; reflexivity]. Qed.
Lemma baseq_triple j : (num_of (fun w => aw 0 w j), num_of (fun w => aw 1 w j), num_of (fun w => selw 2 w j)) = triple_of (iso448 (baseq j)).
Proof.
  unfold baseq, awq, selq. destruct (Nat.eqb_spec (dd j) 0) as [E|E].
  - rewrite E. change (Z.of_nat 0) with 0. rewrite Z.mul_0_l, mul448_0, iso_zero. vm_compute. reflexivity.
  - pose proof (sign_table448_ok i (dd j - 1) Hi ltac:(specialize (Hdd j); lia)) as T.
    replace (1 + Z.of_nat (dd j - 1)) with (Z.of_nat (dd j)) in T by lia. rewrite <- T. reflexivity.
Qed.
Lemma selq_low j : limb (num_of (fun w => selw 2 w j)) 8 <= 0xffffffe.
Proof.
  unfold selq. destruct (Nat.eqb_spec (dd j) 0) as [E|E]; [vm_compute; discriminate|].
  exact (limb8_in i (dd j - 1) Hi ltac:(specialize (Hdd j); lia)).
Qed.
Lemma query_shape448 : query_table448 (vec ss) (vec (fun j => Z.of_nat (dd j))) i =
  mkpre (strv (fun w j => sw ss j (aw 0 w j) (aw 1 w j))) (strv (fun w j => sw ss j (aw 1 w j) (aw 0 w j)))
        (vmap2 (qneg (vec ss)) (strv (fun w j => selw 2 w j)) (concat (map bcast limbs_P448))).
Proof.
  unfold query_table448. change (subtable448 i) with s. cbv zeta. cbn [Nat.eqb].
  rewrite !(qone_vecq dd Hdd s (sub_words448 i)). rewrite !(aw_selq dd Hdd s (sub_words448 i)) with (c := 0%nat) by discriminate.
  rewrite !(aw_selq dd Hdd s (sub_words448 i)) with (c := 1%nat) by discriminate.
  rewrite !(qsel_vecq dd Hdd s (sub_words448 i)).
  pose proof (swap_vecq dd ss Hss s (sub_words448 i)) as S.
  rewrite !(fun w => proj1 (S w)), !(fun w => proj2 (S w)). reflexivity.
Qed.
Lemma sw_fun {A} (f : nat -> A) j (a b : nat -> A) : (forall w, f w = sw ss j (a w) (b w)) -> forall w, f w = (sw ss j a b) w.
Proof. intros H w. rewrite H. unfold sw. destruct (ss j =? 0); reflexivity. Qed.
(** The limbs the query delivers in lane j *)
Lemma query_lanes j : (j < 4)%nat ->
  let q := query_table448 (vec ss) (vec (fun j => Z.of_nat (dd j))) i in
  let '(a, m, e) := triple_of (iso448 (baseq j)) in
  all3q q /\ el4q j (addYX q) = limbs28 (sw ss j a m) /\ el4q j (subYX q) = limbs28 (sw ss j m a) /\ el4q j (dYX q) = zip2 (neg1 (ss j)) (limbs28 e) limbs_P448.
Proof.
  intro Hj. cbv zeta. rewrite query_shape448. rewrite <- baseq_triple. split; [split; [reflexivity|split; reflexivity]|].
  cbn [addYX subYX dYX]. rewrite !strv_lane, strv_neg by exact Hj.
  assert (W0 : forall w, 0 <= aw 0 w j < W) by (intro; apply awq_word, sub_words448).
  assert (W1 : forall w, 0 <= aw 1 w j < W) by (intro; apply awq_word, sub_words448).
  assert (W2 : forall w, 0 <= selw 2 w j < W) by (intro; apply selq_word, sub_words448).
  unfold strl. rewrite (proj1 (str1q_ok (fun w => selw 2 w j) W2)).
  unfold sw. destruct (ss j =? 0); rewrite (proj1 (str1q_ok (fun w => aw 0 w j) W0)), (proj1 (str1q_ok (fun w => aw 1 w j) W1)); split; [reflexivity|split; reflexivity|reflexivity|split; reflexivity].
Qed.
Theorem query_ok448 j : (j < 4)%nat ->
  all3q (query_table448 (vec ss) (vec (fun j => Z.of_nat (dd j))) i) /\
  pre448_4way (query_table448 (vec ss) (vec (fun j => Z.of_nat (dd j))) i) j ((signed (Z.of_nat (dd j)) (ss j) * 16 ^ (4 * Z.of_nat i)) ** B).
Proof.
  intro Hj. pose proof (query_lanes j Hj) as L. cbv zeta in L.
  set (q := query_table448 (vec ss) (vec (fun j => Z.of_nat (dd j))) i) in *. clearbody q.
  assert (E : (signed (Z.of_nat (dd j)) (ss j) * 16 ^ (4 * Z.of_nat i)) ** B = sw ss j (baseq j) (neg448 (baseq j))).
  { unfold signed, sw, baseq. destruct (ss j =? 0); [reflexivity|]. rewrite neg448_mul by exact onB. rewrite Z.mul_opp_l. reflexivity. }
  rewrite E. clear E. pose proof (baseq_on j) as On. pose proof (iso448_neg _ On) as EN. pose proof (selq_low j) as K. pose proof (f_equal snd (baseq_triple j)) as ET. cbn [snd] in ET.
  pose proof (neg448_on _ On) as On'.
  set (P := baseq j) in *. clearbody P.
  assert (EI : iso448 (sw ss j P (neg448 P)) = sw ss j (iso448 P) (neg448 (iso448 P))) by (unfold sw; destruct (ss j =? 0); [reflexivity|exact EN]).
  unfold pre448_4way. rewrite EI. clear EI EN. destruct (iso448 P) as [x y]. unfold triple_of in *. cbn [snd] in ET. rewrite ET in K. clear ET.
  destruct L as (A3 & LA & LS & LD). split; [exact A3|]. split; [unfold sw; destruct (ss j =? 0); assumption|].
  rewrite LA, LS, LD. clear LA LS LD A3.
  assert (G : forall z, 0 <= z mod p_ed448 < 2 ^ 448) by (intro z; pose proof (Z.mod_pos_bound z p_ed448 ltac:(reflexivity)) as H; destruct H as [H H']; split; [exact H|apply (Z.lt_trans _ _ _ H'); reflexivity]).
  destruct (limbs28_ok _ (G (y + x))) as [V0 B0]. destruct (limbs28_ok _ (G (y - x))) as [V1 B1]. destruct (limbs28_ok _ (G (2 * (d_ed448 - 1) * x * y))) as [V2 B2].
  assert (C0 : cq (fe448 (limbs28 ((y + x) mod p_ed448))) (y + x)) by (rewrite V0; apply cq_of; apply Zmod_mod).
  assert (C1 : cq (fe448 (limbs28 ((y - x) mod p_ed448))) (y - x)) by (rewrite V1; apply cq_of; apply Zmod_mod).
  destruct (neg_limbs448 (ss j) _ (Hss j) B2 K) as [V3 B3].
  assert (C2 : cq (fe448 (limbs28 ((2 * (d_ed448 - 1) * x * y) mod p_ed448))) (2 * (d_ed448 - 1) * x * y)) by (rewrite V2; apply cq_of; apply Zmod_mod).
  clear V0 V1 V2 B2 K G. set (e := limbs28 ((2 * (d_ed448 - 1) * x * y) mod p_ed448)) in *. clearbody e.
  set (D := 2 * (d_ed448 - 1)) in *. clearbody D.
  assert (Cn : cq ((- x) mod p_ed448) (- x)) by (apply cq_of, Zmod_mod).
  unfold sw. destruct (ss j =? 0) eqn:Z0; set (a := limbs28 ((y + x) mod p_ed448)) in *; set (m := limbs28 ((y - x) mod p_ed448)) in *; clearbody a m.
  - cbn [fst snd]. split; [split; [exact B0|exact C0]|]. split; [split; [exact B1|exact C1]|]. split; [exact B3|].
    rewrite V3. unfold signed. rewrite Z0. apply cq_trans with (fe448 e); [|exact C2]. apply cq_of. change Q with (1 * p44). rewrite Z.add_comm. apply Z_mod_plus_full.
  - unfold neg448, ed_neg. cbn [fst snd]. set (nx := (- x) mod p_ed448) in *. clearbody nx. split; [|split].
    + split; [exact B1|]. apply (cq_trans _ _ _ C1). replace (y - x) with (y + - x) by ring. apply cq_add; [apply cq_refl|apply cq_sym; exact Cn].
    + split; [exact B0|]. apply (cq_trans _ _ _ C0). replace (y + x) with (y - - x) by ring. apply cq_sub; [apply cq_refl|apply cq_sym; exact Cn].
    + split; [exact B3|]. rewrite V3. unfold signed. rewrite Z0. apply cq_trans with (0 - fe448 e).
      * apply cq_of. change Q with (1 * p44). rewrite Z.add_comm. rewrite Z_mod_plus_full. f_equal.
      * apply cq_trans with (D * (- x) * y); [|apply cq_mul; [apply cq_mul; [apply cq_refl|apply cq_sym; exact Cn]|apply cq_refl]].
        replace (D * - x * y) with (0 - D * x * y) by ring. apply cq_sub; [apply cq_refl|exact C2].
Qed.
End QueryOk.
