(** Reduced-radix GF(2^255-19), continued: rearrangements, encodings,
    conditional moves, inversion and square roots. *)
From Coq Require Import ZArith Znumtheory List Bool Lia.
From Verif Require Import Uop Poly Sym Engine Check Bytes FullTac Simd Simd255 Lanes RedTac Moves
  X86 Asm25519 Primality Primes Fp25519Full Fp25519Red Fp25519FullProofs Fp25519RedProofs FullMore.
Import ListNotations.
Open Scope Z_scope.

Section Rearrange.
Variable st : store.
Notation l1 a := (length a = 10%nat).
Notation l2 a := (length a = 20%nat).
Notation l4 a := (length a = 40%nat).
Ltac mv := vm_compute; reflexivity.
Lemma copy_2w_ok a : l2 a -> copy_2w st a = a.
Proof.
  intro H. pose proof (moves_ok (vcode v255_2w_copy) [(q2, 20%nat)] q1 20 (fun i => i) 0 (fun i => i) 20 [a] st) as E.
  rewrite !pick_id in E; [| exact H | apply call_length]. apply E; [mv|]. cbn [map snd]. now rewrite H.
Qed.
Lemma copy_4w_ok a : l4 a -> copy_4w st a = a.
Proof.
  intro H. pose proof (moves_ok (vcode v255_4w_copy) [(q2, 40%nat)] q1 40 (fun i => i) 0 (fun i => i) 40 [a] st) as E.
  rewrite !pick_id in E; [| exact H | apply call_length]. apply E; [mv|]. cbn [map snd]. now rewrite H.
Qed.
Lemma zero_2w_ok : zero_2w st = repeat 0 20.
Proof. apply (consts_ok (vcode v255_2w_zero) [] q1 (repeat 0 20) st). mv. Qed.
Lemma zero_4w_ok : zero_4w st = repeat 0 40.
Proof. apply (consts_ok (vcode v255_4w_zero) [] q1 (repeat 0 40) st). mv. Qed.
Lemma inter_2w_ok h a b : l1 a -> l1 b -> el2 h (inter_2w st a b) = if h then b else a.
Proof.
  intros Ha Hb.
  pose proof (moves_ok (vcode v255_2w_inter) [(q2, 10%nat); (q3, 10%nat)] q1 20 (ixh h) (if h then 1 else 0) (fun i => i) 10 [a; b] st) as E.
  destruct h; (rewrite (pick_id 10) in E; [|assumption]); apply E; try mv; cbn [map snd]; now rewrite Ha, Hb.
Qed.
Lemma deinter_2w_ok a : l2 a -> deinter_2w st a = (el2 false a, el2 true a).
Proof.
  intro H. unfold deinter_2w. f_equal.
  - pose proof (moves_ok (vcode v255_2w_deinter) [(q3, 20%nat)] q1 10 (fun i => i) 0 (ixh false) 10 [a] st) as E.
    rewrite (pick_id 10) in E; [|apply call_length]. apply E; [mv|]. cbn [map snd]. now rewrite H.
  - pose proof (moves_ok (vcode v255_2w_deinter) [(q3, 20%nat)] q2 10 (fun i => i) 0 (ixh true) 10 [a] st) as E.
    rewrite (pick_id 10) in E; [|apply call_length]. apply E; [mv|]. cbn [map snd]. now rewrite H.
Qed.
Lemma zip_4w_ok j a b c d : (j < 4)%nat -> l1 a -> l1 b -> l1 c -> l1 d -> el4 j (zip_4w st a b c d) = nth j [a; b; c; d] [].
Proof.
  intros Hj Ha Hb Hc Hd.
  pose proof (moves_ok (vcode v255_4w_zip) [(q2, 10%nat); (q3, 10%nat); (q4, 10%nat); (q5, 10%nat)] q1 40 (ix4 j) j
    (fun i => i) 10 [a; b; c; d] st) as E.
  destruct j as [|[|[|[|j]]]]; [| | | |lia]; (rewrite (pick_id 10) in E; [|assumption]); apply E; try mv; cbn [map snd];
    now rewrite Ha, Hb, Hc, Hd.
Qed.
Lemma unzip_4w_ok j a : (j < 4)%nat -> l4 a -> unzip_4w st a j = el4 j a.
Proof.
  intros Hj H.
  pose proof (moves_ok (vcode v255_4w_unzip) [(q5, 40%nat)] (nth j [q1; q2; q3; q4] q1) 10 (fun i => i) 0 (ix4 j) 10 [a] st) as E.
  rewrite (pick_id 10) in E; [|apply call_length].
  destruct j as [|[|[|[|j]]]]; [| | | |lia]; (apply E; [mv|]); cbn [map snd]; now rewrite H.
Qed.
End Rearrange.

(** ** Encodings of several elements *)
Section Encodings.
Variable st : store.
Lemma len1 b a : arr_ok b a -> length b = 10%nat -> length a = 10%nat.
Proof. intros H <-. now apply arr_len. Qed.
Lemma bytes_firstn n m bs : bytes (n + m) bs -> bytes n (firstn n bs).
Proof. intros [L F]. split; [rewrite firstn_length; lia|]. rewrite <- (firstn_skipn n bs) in F. now apply Forall_app in F. Qed.
Lemma bytes_skipn n m bs : bytes (n + m) bs -> bytes m (skipn n bs).
Proof. intros [L F]. split; [rewrite skipn_length; lia|]. rewrite <- (firstn_skipn n bs) in F. now apply Forall_app in F. Qed.
Lemma unser_2w_el buf h : bytes 64 buf ->
  el2 h (unser_2w st buf) = unser_1w st (if h : bool then skipn 32 buf else firstn 32 buf).
Proof.
  intro H. unfold unser_2w.
  destruct (unser_1w_ok st _ (bytes_firstn 32 32 _ H)) as [_ B0].
  destruct (unser_1w_ok st _ (bytes_skipn 32 32 _ H)) as [_ B1].
  rewrite (inter_2w_ok st h _ _ (len1 _ _ B0 eq_refl) (len1 _ _ B1 eq_refl)). destruct h; reflexivity.
Qed.
Lemma ser_2w_el a : length a = 20%nat -> ser_2w st a = ser_1w st (el2 false a) ++ ser_1w st (el2 true a).
Proof. intro H. unfold ser_2w. now rewrite deinter_2w_ok. Qed.
Lemma bytes_part n i m bs : bytes (n * i + (n + m)) bs -> bytes n (firstn n (skipn (n * i) bs)).
Proof. intro H. apply bytes_skipn in H. now apply bytes_firstn in H. Qed.
Lemma unser_4w_el buf j : (j < 4)%nat -> bytes 128 buf ->
  el4 j (unser_4w st buf) = unser_1w st (firstn 32 (skipn (32 * j) buf)).
Proof.
  intros Hj H. unfold unser_4w.
  assert (B : forall i, (i < 4)%nat -> length (unser_1w st (firstn 32 (skipn (32 * i) buf))) = 10%nat).
  { intros i Hi. destruct (unser_1w_ok st (firstn 32 (skipn (32 * i) buf))) as [_ B].
    - apply (bytes_part 32 i (96 - 32 * i)). now replace (32 * i + (32 + (96 - 32 * i)))%nat with 128%nat by lia.
    - exact (len1 _ _ B eq_refl). }
  rewrite (zip_4w_ok st j _ _ _ _ Hj (B 0%nat ltac:(lia)) (B 1%nat ltac:(lia)) (B 2%nat ltac:(lia)) (B 3%nat ltac:(lia))).
  destruct j as [|[|[|[|j]]]]; [reflexivity..|lia].
Qed.
Lemma ser_4w_el a : length a = 40%nat -> ser_4w st a = flat_map (fun j => ser_1w st (el4 j a)) (seq 0 4).
Proof. intro H. unfold ser_4w. cbn [seq flat_map]. now rewrite !unzip_4w_ok by (auto; lia). Qed.
End Encodings.

(** ** Serialisation of unreduced elements: the carry out of the low half,
    after folding the bits above 2^256, is lost *)
Definition lo128 (v : Z) : Z := v mod 2 ^ 128.
Definition mid128 (v : Z) : Z := (v / 2 ^ 128) mod 2 ^ 128.
Definition fold256 (v : Z) : Z := lo128 v + 38 * (v / 2 ^ 256).
Lemma gather_vc : vcq [] (slice (code (env_of [bC; bA]) asm_ser_1w_redradix) (larr bC 4)) [IA bA wide255 wt255] bC 4
  (fun ins res => exists lo mid hi c, fe255 (nth 0 ins []) = lo + 2 ^ 128 * mid + 2 ^ 256 * hi /\
     0 <= lo < 2 ^ 128 /\ 0 <= mid < 2 ^ 128 /\ 0 <= lo + 38 * hi - 2 ^ 128 * c < 2 ^ 128 /\
     wsum (wts 4 1) res = lo + 38 * hi - 2 ^ 128 * c + 2 ^ 128 * mid).
Proof.
  vc_start. intros r R C _. vc_facts.
  cbv [bA wide255 wsum wt255 wts W peval term_eval mono_eval fold_right fst snd sp map nth larr ib ibnd length Pos.succ].
  match goal with |- exists lo mid hi c, ?v = _ /\ _ /\ _ /\ _ /\ ?w = _ =>
    set (hi := r 144%positive + r 145%positive); set (c := r 147%positive);
    set (V := v); set (Wd := w)
  end.
  exists (r 128%positive + 67108864 * r 130%positive + 2251799813685248 * r 132%positive
    - 18446744073709551616 * (r 138%positive + r 139%positive)
    + 18446744073709551616 * (8192 * r 134%positive + 274877906944 * r 136%positive + r 138%positive + r 139%positive
        - 18446744073709551616 * (r 140%positive + r 141%positive))),
   (r 129%positive + 33554432 * r 131%positive + 2251799813685248 * r 133%positive + r 140%positive + r 141%positive
     - 18446744073709551616 * (r 142%positive + r 143%positive)
     + 18446744073709551616 * (4096 * r 135%positive + 274877906944 * r 137%positive + r 142%positive + r 143%positive
        - 18446744073709551616 * (r 144%positive + r 145%positive))), hi, c.
  unfold V, Wd, hi, c. clear V Wd hi c.
  change (2 ^ 128) with 340282366920938463463374607431768211456.
  change (2 ^ 256) with 115792089237316195423570985008687907853269984665640564039457584007913129639936.
  repeat split; lia.
Qed.
Lemma gather_1w_wide st a : is_wide a -> words 4 (gather_1w st a) /\
  val (gather_1w st a) = fold256 (fe255 a) mod 2 ^ 128 + 2 ^ 128 * mid128 (fe255 a).
Proof.
  intro H. split.
  { apply arr_words. unfold gather_1w, asm1. rewrite call_slice.
    apply (cong_check_sound [] (slice (code (env_of [bC; bA]) asm_ser_1w_redradix) (larr bC 4)) [IA bA wide255 wt255] bC (wts 4 1) (wbnd 4) 1 (VK 0) [a] st).
    - vm_compute. reflexivity.
    - now repeat constructor. }
  pose proof (vcq_sound _ _ _ _ _ _ [a] st gather_vc eq_refl) as E.
  cbv beta in E. cbn [nth] in E. destruct E as (lo & mid & hi & c & E & Hl & Hm & Hf & Ew); [now repeat constructor|].
  unfold gather_1w, asm1. rewrite call_slice. cbn [iplace ib] in Ew.
  rewrite <- (Z.mul_1_l (val _)), <- (wsum_wts 4 1) by apply call_length. rewrite Ew.
  assert (E1 : fe255 a / 2 ^ 128 = mid + 2 ^ 128 * hi) by (symmetry; apply Z.div_unique with lo; [left; exact Hl|rewrite E; ring]).
  assert (E2 : fe255 a / 2 ^ 256 = hi).
  { change (2 ^ 256) with (2 ^ 128 * 2 ^ 128). rewrite <- Z.div_div, E1 by (reflexivity || discriminate).
    symmetry. apply Z.div_unique with mid; [left; exact Hm|ring]. }
  unfold fold256, lo128, mid128. rewrite E1, E2.
  assert (E3 : fe255 a mod 2 ^ 128 = lo) by (symmetry; apply Z.mod_unique with (mid + 2 ^ 128 * hi); [left; exact Hl|rewrite E; ring]).
  assert (E4 : (mid + 2 ^ 128 * hi) mod 2 ^ 128 = mid) by (symmetry; apply Z.mod_unique with hi; [left; exact Hm|ring]).
  assert (E5 : (lo + 38 * hi) mod 2 ^ 128 = lo + 38 * hi - 2 ^ 128 * c) by (symmetry; apply Z.mod_unique with c; [left; exact Hf|ring]).
  now rewrite E3, E4, E5.
Qed.
(** ser of any unreduced element: exact description, and when it is right. *)
Lemma ser_1w_wide st a : is_wide a -> bytes 32 (ser_1w st a) /\
  le_val (ser_1w st a) = (fold256 (fe255 a) mod 2 ^ 128 + 2 ^ 128 * mid128 (fe255 a)) mod P.
Proof.
  intro H. destruct (gather_1w_wide st a H) as [Hw E]. unfold ser_1w.
  destruct (ser_ok st _ Hw) as [B V]. split; auto. now rewrite V, E.
Qed.
Lemma wide_range a : is_wide a -> 0 <= fe255 a < 2 ^ 257.
Proof. apply wsum_max. vm_compute. reflexivity. Qed.
Lemma ser_1w_iff st a : is_wide a ->
  (le_val (ser_1w st a) = fe255 a mod P <-> fold256 (fe255 a) < 2 ^ 128).
Proof.
  intro H. destruct (ser_1w_wide st a H) as [_ ->]. pose proof (wide_range a H) as R.
  revert R. generalize (fe255 a). intros v R.
  assert (Hh : 0 <= v / 2 ^ 256 < 2).
  { split; [apply Z.div_pos; lia|]. apply Z.div_lt_upper_bound; [reflexivity|]. exact (proj2 R). }
  assert (Hl : 0 <= v mod 2 ^ 128 < 2 ^ 128) by (apply Z.mod_pos_bound; reflexivity).
  assert (Ev : v = v mod 2 ^ 128 + 2 ^ 128 * mid128 v + 2 ^ 256 * (v / 2 ^ 256)).
  { unfold mid128. rewrite (Z.div_mod v (2 ^ 128)) at 1 by discriminate.
    rewrite (Z.div_mod (v / 2 ^ 128) (2 ^ 128)) at 1 by discriminate.
    change (2 ^ 256) with (2 ^ 128 * 2 ^ 128). rewrite Z.div_div by (reflexivity || discriminate). ring. }
  assert (Hf : 0 <= fold256 v < 2 ^ 129) by (unfold fold256, lo128; change (2 ^ 129) with (2 * 2 ^ 128); lia).
  assert (Em : (fold256 v + 2 ^ 128 * mid128 v) mod P = v mod P).
  { rewrite Ev at 3. unfold fold256, lo128.
    replace (v mod 2 ^ 128 + 2 ^ 128 * mid128 v + 2 ^ 256 * (v / 2 ^ 256)) with
      (v mod 2 ^ 128 + 38 * (v / 2 ^ 256) + 2 ^ 128 * mid128 v + (2 * (v / 2 ^ 256)) * P).
    - now rewrite Z.mod_add by discriminate.
    - change P with (2 ^ 255 - 19). change (2 ^ 256) with (2 * 2 ^ 255). ring. }
  split.
  - intro E. destruct (Z_lt_le_dec (fold256 v) (2 ^ 128)) as [L|L]; auto. exfalso.
    assert (Ef : fold256 v mod 2 ^ 128 = fold256 v - 2 ^ 128).
    { symmetry. apply Z.mod_unique with 1; [|ring]. left. change (2 ^ 129) with (2 * 2 ^ 128) in Hf. lia. }
    rewrite Ef, <- Em in E.
    assert (D : ((fold256 v + 2 ^ 128 * mid128 v) - (fold256 v - 2 ^ 128 + 2 ^ 128 * mid128 v)) mod P = 0).
    { rewrite Zminus_mod, E, Z.sub_diag. reflexivity. }
    replace (fold256 v + 2 ^ 128 * mid128 v - (fold256 v - 2 ^ 128 + 2 ^ 128 * mid128 v)) with (2 ^ 128) in D by ring.
    vm_compute in D. discriminate D.
  - intro L. rewrite (Z.mod_small (fold256 v)) by (split; [apply Hf|exact L]). exact Em.
Qed.
(** Exact value of a difference. *)
Lemma sub_1w_exact st a b : is_red a -> is_red b -> fe255 (sub_1w st a b) = fe255 a + 2 * P - fe255 b.
Proof.
  intros Ha Hb. enough (E : fe255 (sub_1w st a b) = vden [fe255 a; fe255 b] (VSub (VAdd (VIn 0) (VK (2 * P))) (VIn 1)) /\ is_wide (sub_1w st a b)).
  { destruct E as [E _]. exact E. }
  unfold sub_1w, vop3.
  apply (one_exact [] (vcode v255_1w_sub) [IA q2 red255 wt255; IA q3 red255 wt255] q1 wt255 wide255 (2 ^ 257)
    (VSub (VAdd (VIn 0) (VK (2 * P))) (VIn 1)) [a; b] st); [vm_cast_no_check (eq_refl true)|vm_cast_no_check (eq_refl true)|].
  now repeat constructor.
Qed.
(* keeps unification from running programs on symbolic stores *)
Local Opaque call ser_1w unser_1w.
Lemma ser_1w_256 st a : is_wide a -> fe255 a < 2 ^ 256 -> bytes 32 (ser_1w st a) /\ le_val (ser_1w st a) = fe255 a mod P.
Proof.
  intros H L. split; [apply ser_1w_wide; auto|]. apply ser_1w_iff; auto.
  pose proof (wide_range a H). unfold fold256, lo128. rewrite (Z.div_small (fe255 a)) by lia.
  rewrite Z.mul_0_r, Z.add_0_r. apply Z.mod_pos_bound. reflexivity.
Qed.
Lemma neg_1w_exact st a : is_red a -> fe255 (neg_1w st a) = 2 * P - fe255 a /\ is_wide (neg_1w st a).
Proof.
  intros Ha.
  apply (one_exact [] (vcode v255_1w_neg) [IA q1 red255 wt255] q1 wt255 wide255 (2 ^ 257)
    (VSub (VK (2 * P)) (VIn 0)) [a] st); [vm_cast_no_check (eq_refl true)|vm_cast_no_check (eq_refl true)|].
  now repeat constructor.
Qed.

(** ** Conditional moves *)
Lemma blend_bytes_const m xs : forall ys, length xs = length ys ->
  blend_bytes (repeat m (length xs)) xs ys = if 128 <=? m then ys else xs.
Proof.
  induction xs as [|x xs IH]; intros [|y ys] L; try discriminate; cbn [length repeat blend_bytes].
  - now destruct (128 <=? m).
  - rewrite IH by now injection L. unfold blend_byte. now destruct (128 <=? m).
Qed.
Lemma word_of_bytes_word w : word w -> word_of_bytes (bytes_of_word w) = w.
Proof. intro H. rewrite word_of_bytes_le. now apply bytes_of_word_ok. Qed.
Lemma blendv_bit bit a b : bit = 0 \/ bit = 1 -> word a -> word b ->
  blendv ((- bit) mod W) a b = if bit =? 0 then a else b.
Proof.
  intros H Ha Hb. unfold blendv.
  destruct H as [-> | ->].
  - change (bytes_of_word (- 0 mod W)) with (repeat 0 (length (bytes_of_word a))).
    rewrite blend_bytes_const by reflexivity. now apply word_of_bytes_word.
  - change (bytes_of_word (- (1) mod W)) with (repeat 255 (length (bytes_of_word a))).
    rewrite blend_bytes_const by reflexivity. now apply word_of_bytes_word.
Qed.
Lemma blendvs_bits bits : forall a b, length a = length bits -> length b = length bits ->
  Forall (fun x => x = 0 \/ x = 1) bits -> Forall word a -> Forall word b ->
  blendvs (map (fun x => (- x) mod W) bits) a b = map (fun t => if fst t =? 0 then fst (snd t) else snd (snd t)) (combine bits (combine a b)).
Proof.
  induction bits as [|x bits IH]; intros [|u a] [|v b] La Lb Hb Fa Fb; try discriminate; auto.
  inversion Hb; inversion Fa; inversion Fb; subst. injection La as La. injection Lb as Lb.
  cbn [map combine blendvs fst snd]. rewrite blendv_bit, (IH a b) by assumption. reflexivity.
Qed.
Lemma select_all (c : bool) n : forall a b : list Z, length a = n -> length b = n ->
  map (fun t => if fst t =? 0 then fst (snd t) else snd (snd t)) (combine (repeat (if c then 1 else 0) n) (combine a b))
  = if c then b else a.
Proof.
  induction n as [|n IH]; intros [|u a] [|v b] La Lb; try discriminate; cbn [repeat combine map fst snd].
  - now destruct c.
  - injection La as La. injection Lb as Lb. rewrite (IH a b La Lb). now destruct c.
Qed.
Lemma map_repeat {A B} (f : A -> B) x n : map f (repeat x n) = repeat (f x) n.
Proof. induction n; cbn [repeat map]; congruence. Qed.
Lemma cmv_1w_ok (c : bool) a b : words 10 a -> words 10 b ->
  cmv_1w (if c then 1 else 0) a b = if c then b else a.
Proof.
  intros [La Fa] [Lb Fb]. unfold cmv_1w.
  rewrite <- (map_repeat (fun x => (- x) mod W)).
  rewrite blendvs_bits; auto; try now rewrite repeat_length.
  - apply select_all; auto.
  - apply Forall_forall. intros x Hx. apply repeat_spec in Hx. subst. destruct c; auto.
Qed.
(** Each half follows its own bit. *)
Lemma cmv_2w_ok (c0 c1 : bool) x1 x3 a b h : words 20 a -> words 20 b ->
  el2 h (cmv_2w [if c0 then 1 else 0; x1; if c1 then 1 else 0; x3] a b) = el2 h (if (if h : bool then c1 else c0) then b else a).
Proof.
  intros [La Fa] [Lb Fb]. unfold cmv_2w. cbv beta zeta. cbn [nth Nat.mul Nat.add].
  assert (E : forall c : bool, (0 - Z.land (if c then 1 else 0) 1) mod W = (- (if c then 1 else 0)) mod W) by (intros []; reflexivity).
  rewrite !E. clear E.
  replace (concat (repeat [(- (if c0 then 1 else 0)) mod W; (- (if c0 then 1 else 0)) mod W; (- (if c1 then 1 else 0)) mod W; (- (if c1 then 1 else 0)) mod W] 5))
    with (map (fun x => (- x) mod W) (concat (repeat [if c0 then 1 else 0; if c0 then 1 else 0; if c1 then 1 else 0; if c1 then 1 else 0] 5)))
    by reflexivity.
  rewrite blendvs_bits; auto.
  - do 20 (destruct a as [|? a]; [discriminate La|]); destruct a; [|discriminate La].
    do 20 (destruct b as [|? b]; [discriminate Lb|]); destruct b; [|discriminate Lb].
    destruct c0, c1, h; reflexivity.
  - destruct c0, c1; repeat (apply Forall_cons; [auto|]); apply Forall_nil.
Qed.

(** ** Comparison looks at the lowest bit of every byte only *)
Definition low_bits (bs : list Z) : list bool := map Z.odd bs.
Lemma cmp_low a : forall b, length a = length b -> Forall byte a -> Forall byte b ->
  (Z.land (cmp_bytes a b) 1 = 0 <-> low_bits a = low_bits b).
Proof.
  induction a as [|x a IH]; intros [|y b] L Ha Hb; try discriminate; cbn [cmp_bytes low_bits map].
  - cbn. tauto.
  - inversion Ha; inversion Hb; subst. injection L as L. specialize (IH b L H2 H6).
    rewrite Z.land_lor_distr_l, Z.lor_eq_0_iff, IH.
    assert (O : Z.land (Z.lxor x y) 1 = 0 <-> Z.odd x = Z.odd y).
    { change 1 with (Z.ones 1). rewrite Z.land_ones by lia. change (2 ^ 1) with 2. rewrite <- !Z.bit0_odd.
      rewrite <- (Z.bit0_mod (Z.lxor x y)), Z.lxor_spec.
      destruct (Z.testbit x 0), (Z.testbit y 0); cbn; intuition congruence. }
    rewrite O. unfold low_bits. split; [intros [-> ->]; auto|]. intro E. now injection E.
Qed.
Lemma cmp_1w_ok st a b : is_wide a -> is_wide b -> (cmp_1w st a b = 0 <-> low_bits (ser_1w st a) = low_bits (ser_1w st b)).
Proof.
  intros Ha Hb. destruct (ser_1w_wide st a Ha) as [[La Fa] _]. destruct (ser_1w_wide st b Hb) as [[Lb Fb] _].
  unfold cmp_1w. exact (cmp_low _ _ (eq_trans La (eq_sym Lb)) Fa Fb).
Qed.
Lemma cmp_1w_eq st a b : is_wide a -> is_wide b -> fe255 a < 2 ^ 256 -> fe255 b < 2 ^ 256 ->
  fe255 a mod P = fe255 b mod P -> cmp_1w st a b = 0.
Proof.
  intros Ha Hb La Lb E. apply (proj2 (cmp_1w_ok st a b Ha Hb)).
  destruct (ser_1w_256 st a Ha La) as [[A1 A2] A3]. destruct (ser_1w_256 st b Hb Lb) as [[B1 B2] B3].
  apply (f_equal low_bits). exact (le_val_inj _ _ (eq_trans A1 (eq_sym B1)) A2 B2 (eq_trans A3 (eq_trans E (eq_sym B3)))).
Qed.
Lemma odd_le_val bs : bs <> [] -> Z.odd (le_val bs) = hd false (low_bits bs).
Proof.
  destruct bs as [|b bs]; [easy|]. intros _. cbn [le_val low_bits map hd].
  rewrite Z.odd_add, Z.odd_mul. change (Z.odd 256) with false. now rewrite xorb_false_r.
Qed.
Lemma cmp_1w_parity st a b : is_wide a -> is_wide b -> fe255 a < 2 ^ 256 -> fe255 b < 2 ^ 256 ->
  Z.odd (fe255 a mod P) <> Z.odd (fe255 b mod P) -> cmp_1w st a b <> 0.
Proof.
  intros Ha Hb La Lb N E. apply (proj1 (cmp_1w_ok st a b Ha Hb)) in E.
  destruct (ser_1w_256 st a Ha La) as [[A1 A2] A3]. destruct (ser_1w_256 st b Hb Lb) as [[B1 B2] B3].
  apply N. rewrite <- A3, <- B3, !odd_le_val, E; [reflexivity| |].
  - intro X. rewrite X in B1. discriminate B1.
  - intro X. rewrite X in A1. discriminate A1.
Qed.
Lemma red_256 a : is_red a -> fe255 a < 2 ^ 256.
Proof.
  intro H. pose proof (wsum_max wt255 red255 (2 ^ 256)) as M.
  specialize (M ltac:(vm_compute; reflexivity) a H). apply M.
Qed.
Lemma bytes_lit n bs : Nat.eqb (length bs) n && forallb (fun b => (0 <=? b) && (b <? 256)) bs = true -> bytes n bs.
Proof.
  intro H. apply andb_prop in H as [L F]. apply Nat.eqb_eq in L. split; auto.
  rewrite forallb_forall in F. apply Forall_forall. intros x Hx. specialize (F x Hx).
  apply andb_prop in F as [F1 F2]. apply Z.leb_le in F1. apply Z.ltb_lt in F2. unfold byte. lia.
Qed.
(** Two reduced elements of different value that compare equal. *)
Lemma cmp_1w_counterexample st : exists x y, bytes 32 x /\ bytes 32 y /\ le_val x mod P <> le_val y mod P /\
  cmp_1w st (unser_1w st x) (unser_1w st y) = 0.
Proof.
  exists (2 :: repeat 0 31), (repeat 0 32).
  assert (Bx : bytes 32 (2 :: repeat 0 31)) by (apply bytes_lit; reflexivity).
  assert (By : bytes 32 (repeat 0 32)) by (apply bytes_lit; reflexivity).
  split; [exact Bx|]. split; [exact By|]. split; [vm_compute; discriminate|].
  destruct (unser_1w_ok st _ Bx) as [Ex Rx]. destruct (unser_1w_ok st _ By) as [Ey Ry].
  apply canon_red in Rx, Ry.
  apply (proj2 (cmp_1w_ok st _ _ (red_wide _ Rx) (red_wide _ Ry))).
  destruct (ser_1w_ok st _ Rx) as [[Lx Fx] Vx]. destruct (ser_1w_ok st _ Ry) as [[Ly Fy] Vy].
  assert (E1 : ser_1w st (unser_1w st (2 :: repeat 0 31)) = 2 :: repeat 0 31).
  { apply (le_val_inj _ (2 :: repeat 0 31) Lx Fx (proj2 Bx)). rewrite Vx, Ex. vm_compute. reflexivity. }
  assert (E2 : ser_1w st (unser_1w st (repeat 0 32)) = repeat 0 32).
  { apply (le_val_inj _ (repeat 0 32) Ly Fy (proj2 By)). rewrite Vy, Ey. vm_compute. reflexivity. }
  rewrite E1, E2. reflexivity.
Qed.
