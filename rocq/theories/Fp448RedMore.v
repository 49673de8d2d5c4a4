(** Reduced-radix GF(2^448-2^224-1), continued: operations mixing the elements of
    a vector, rearrangements and encodings. *)
From Coq Require Import ZArith List Bool Lia.
From Verif Require Import Uop Poly Sym Engine Check Bytes FullTac Simd Simd448 Lanes RedTac Moves
  X86 Asm448 Fp25519Full Fp448Full Fp25519Red Fp448Red Fp25519RedProofs Fp25519RedMore Fp448FullProofs Fp448RedProofs.
Import ListNotations.
Open Scope Z_scope.

(** ** Operations mixing the elements *)
Definition mix2q (b0 b1 : list (Z * Z)) : list (Z * Z) :=
  flat_map (fun i => [nth (2 * i) b0 (0, 0); nth (2 * i + 1) b0 (0, 0); nth (2 * i) b1 (0, 0); nth (2 * i + 1) b1 (0, 0)]) (seq 0 8).
Definition owt2q (h : bool) : list Z :=
  flat_map (fun i => if h then [0; 0; nth (2 * i) wt448 0; nth (2 * i + 1) wt448 0]
                     else [nth (2 * i) wt448 0; nth (2 * i + 1) wt448 0; 0; 0]) (seq 0 8).
Definition ix2q (k : nat) (h : bool) : list nat := map (fun i => (32 * k + ixh h i)%nat) (seq 0 16).
Definition e2q (k : nat) (h : bool) : vexp := elin wt448 (ix2q k h).
Ltac list32 a H := do 32 (destruct a as [|? a]; [discriminate H|]); destruct a; [|discriminate H].
Lemma owt2q_ok h a : length a = 32%nat -> wsum (owt2q h) a = fe448 (el2q h a).
Proof. intro H. list32 a H. destruct h; cbv [owt2q pick ixh wsum map flat_map app seq nth Nat.div Nat.modulo Nat.divmod fst snd Nat.mul Nat.add Nat.sub wt448]; ring. Qed.
Lemma e2q_ok0 h a b : length a = 32%nat -> vden (a ++ b) (e2q 0 h) = fe448 (el2q h a).
Proof.
  intro H. unfold e2q. rewrite elin_ok. f_equal. unfold ix2q, pick. rewrite map_map. apply map_ext_in. intros i Hi.
  rewrite app_nth1; auto. apply in_seq in Hi. rewrite H. unfold ixh.
  pose proof (Nat.mod_upper_bound i 2 ltac:(lia)). assert (i / 2 < 8)%nat by (apply Nat.div_lt_upper_bound; lia).
  destruct h; lia.
Qed.
Lemma mix2q_ok b0 b1 a : length b0 = 16%nat -> length b1 = 16%nat -> length a = 32%nat ->
  arr_ok (mix2q b0 b1) a <-> arr_ok b0 (el2q false a) /\ arr_ok b1 (el2q true a).
Proof.
  intros H0 H1 H. list32 a H.
  do 16 (destruct b0 as [|? b0]; [discriminate H0|]); destruct b0; [|discriminate H0].
  do 16 (destruct b1 as [|? b1]; [discriminate H1|]); destruct b1; [|discriminate H1].
  cbv [mix2q pick ixh map flat_map app seq nth Nat.div Nat.modulo Nat.divmod fst snd Nat.mul Nat.add Nat.sub].
  unfold arr_ok. split.
  - intro F. repeat (apply f2_inv in F as [? F]).
    split; repeat (apply Forall2_cons; [assumption|]); apply Forall2_nil.
  - intros [F G]. repeat (apply f2_inv in F as [? F]). repeat (apply f2_inv in G as [? G]).
    repeat (apply Forall2_cons; [assumption|]); apply Forall2_nil.
Qed.

Section Mix2.
Variable st : store.
Notation l2 a := (length a = 32%nat).
(** From the checker on both halves to the statement on one half. *)
Lemma mix2q_one prog b0 b1 hs obnd0 obnd1 e h a : length b0 = 16%nat -> length b1 = 16%nat ->
  length obnd0 = 16%nat -> length obnd1 = 16%nat ->
  cong_check hs (slice (vcode prog) (larr q1 32)) (flat_ins [(q2, mix2q b0 b1)]) q1 (owt2q h) (mix2q obnd0 obnd1) Q e = true ->
  l2 a -> arr_ok b0 (el2q false a) -> arr_ok b1 (el2q true a) ->
  cq (fe448 (el2q h (vop2 st 32 prog a))) (vden (a ++ []) e) /\
  arr_ok obnd0 (el2q false (vop2 st 32 prog a)) /\ arr_ok obnd1 (el2q true (vop2 st 32 prog a)).
Proof.
  intros L0 L1 L2 L3 C La H0 H1.
  assert (W : length (owt2q h) = 32%nat) by (destruct h; reflexivity).
  pose proof (mixed_cong hs prog [(q2, mix2q b0 b1)] q1 (owt2q h) (mix2q obnd0 obnd1) Q e [a] st) as M.
  cbv zeta in M. rewrite W in M. specialize (M C).
  assert (F : Forall2 (fun x ws => arr_ok (snd x) ws) [(q2, mix2q b0 b1)] [a]).
  { apply Forall2_cons; [|apply Forall2_nil]. cbn [snd]. apply (proj2 (mix2q_ok b0 b1 a L0 L1 La)). split; assumption. }
  specialize (M F). destruct M as [M1 M2]. cbn [map fst combine] in M1, M2.
  fold (vop2 st 32 prog a) in M1, M2. 
  assert (L : l2 (vop2 st 32 prog a)) by apply call_length.
  apply mix2q_ok in M2; auto. rewrite owt2q_ok in M1 by auto. split; auto. 
Qed.
Ltac mix prog b0 b1 o0 o1 e h a :=
  let hs := eval vm_compute in (hs_of true (slice (vcode prog) (larr q1 32)) (flat_ins [(q2, mix2q b0 b1)])) in
  refine (mix2q_one prog b0 b1 hs o0 o1 e h a eq_refl eq_refl eq_refl eq_refl _ _ _ _);
  [vm_cast_no_check (eq_refl true)|assumption|assumption|assumption].
(** subadd: differences in the low half (X - Y, or Y - X when permuted), sums in the high half *)
Lemma subadd448_2w_ok perm a : l2 a -> is_red448 (el2q false a) -> is_red448 (el2q true a) ->
  let r := subadd448_2w st perm a in
  cq (fe448 (el2q false r)) (if perm then fe448 (el2q true a) - fe448 (el2q false a) else fe448 (el2q false a) - fe448 (el2q true a)) /\
  cq (fe448 (el2q true r)) (fe448 (el2q false a) + fe448 (el2q true a)) /\
  is_wide448 (el2q false r) /\ is_wide448 (el2q true r).
Proof.
  intros La H0 H1 r. unfold r, subadd448_2w. destruct perm.
  - assert (A : cq (fe448 (el2q false (vop2 st 32 v448_2w_subadd1 a))) (vden (a ++ []) (VSub (e2q 0 true) (e2q 0 false))) /\
      is_wide448 (el2q false (vop2 st 32 v448_2w_subadd1 a)) /\ is_wide448 (el2q true (vop2 st 32 v448_2w_subadd1 a)))
      by mix v448_2w_subadd1 red448 red448 wide448 wide448 (VSub (e2q 0 true) (e2q 0 false)) false a.
    assert (B : cq (fe448 (el2q true (vop2 st 32 v448_2w_subadd1 a))) (vden (a ++ []) (VAdd (e2q 0 false) (e2q 0 true))) /\
      is_wide448 (el2q false (vop2 st 32 v448_2w_subadd1 a)) /\ is_wide448 (el2q true (vop2 st 32 v448_2w_subadd1 a)))
      by mix v448_2w_subadd1 red448 red448 wide448 wide448 (VAdd (e2q 0 false) (e2q 0 true)) true a.
    cbn [vden] in A, B. rewrite !e2q_ok0 in A, B by auto. tauto.
  - assert (A : cq (fe448 (el2q false (vop2 st 32 v448_2w_subadd0 a))) (vden (a ++ []) (VSub (e2q 0 false) (e2q 0 true))) /\
      is_wide448 (el2q false (vop2 st 32 v448_2w_subadd0 a)) /\ is_wide448 (el2q true (vop2 st 32 v448_2w_subadd0 a)))
      by mix v448_2w_subadd0 red448 red448 wide448 wide448 (VSub (e2q 0 false) (e2q 0 true)) false a.
    assert (B : cq (fe448 (el2q true (vop2 st 32 v448_2w_subadd0 a))) (vden (a ++ []) (VAdd (e2q 0 false) (e2q 0 true))) /\
      is_wide448 (el2q false (vop2 st 32 v448_2w_subadd0 a)) /\ is_wide448 (el2q true (vop2 st 32 v448_2w_subadd0 a)))
      by mix v448_2w_subadd0 red448 red448 wide448 wide448 (VAdd (e2q 0 false) (e2q 0 true)) true a.
    cbn [vden] in A, B. rewrite !e2q_ok0 in A, B by auto. tauto.
Qed.
(** ngz: negates the low half, keeps the high half *)
Lemma ngz448_2w_ok a : l2 a -> is_red448 (el2q false a) -> is_red448 (el2q true a) ->
  let r := ngz448_2w st a in
  cq (fe448 (el2q false r)) (0 - fe448 (el2q false a)) /\ cq (fe448 (el2q true r)) (fe448 (el2q true a)) /\
  is_wide448 (el2q false r) /\ is_red448 (el2q true r).
Proof.
  intros La H0 H1 r. unfold r, ngz448_2w.
  assert (A : cq (fe448 (el2q false (vop2 st 32 v448_2w_ngz a))) (vden (a ++ []) (VSub (VK 0) (e2q 0 false))) /\
      is_wide448 (el2q false (vop2 st 32 v448_2w_ngz a)) /\ is_red448 (el2q true (vop2 st 32 v448_2w_ngz a)))
      by mix v448_2w_ngz red448 red448 wide448 red448 (VSub (VK 0) (e2q 0 false)) false a.
  assert (B : cq (fe448 (el2q true (vop2 st 32 v448_2w_ngz a))) (vden (a ++ []) (e2q 0 true)) /\
      is_wide448 (el2q false (vop2 st 32 v448_2w_ngz a)) /\ is_red448 (el2q true (vop2 st 32 v448_2w_ngz a)))
      by mix v448_2w_ngz red448 red448 wide448 red448 (e2q 0 true) true a.
  cbn [vden] in A. rewrite !e2q_ok0 in A, B by auto. tauto.
Qed.
End Mix2.

(** 4-way ngz: lanes 0 and 1 are exchanged, lane 2 is negated, lane 3 kept. *)
Definition mix4q (bs : list (list (Z * Z))) : list (Z * Z) :=
  flat_map (fun i => map (fun b => nth i b (0, 0)) bs) (seq 0 16).
Definition owt4q (j : nat) : list Z :=
  flat_map (fun i => map (fun k => if Nat.eqb k j then nth i wt448 0 else 0) (seq 0 4)) (seq 0 16).
Definition e4q (j : nat) : vexp := elin wt448 (map (ix4 j) (seq 0 16)).
Lemma owt4q_ok j a : (j < 4)%nat -> length a = 64%nat -> wsum (owt4q j) a = fe448 (el4q j a).
Proof.
  intros Hj H. do 64 (destruct a as [|? a]; [discriminate H|]); destruct a; [|discriminate H].
  do 4 (destruct j as [|j];
    [cbv [owt4q pick ix4 wsum map flat_map app seq nth Nat.eqb Nat.mul Nat.add wt448]; ring|]). lia.
Qed.
Lemma e4q_ok j a b : (j < 4)%nat -> length a = 64%nat -> vden (a ++ b) (e4q j) = fe448 (el4q j a).
Proof.
  intros Hj H. unfold e4q. rewrite elin_ok. f_equal. unfold pick. rewrite map_map. apply map_ext_in. intros i Hi.
  rewrite app_nth1; auto. apply in_seq in Hi. rewrite H. unfold ix4. lia.
Qed.
Lemma mix4q_ok b0 b1 b2 b3 a : length b0 = 16%nat -> length b1 = 16%nat -> length b2 = 16%nat -> length b3 = 16%nat ->
  length a = 64%nat ->
  arr_ok (mix4q [b0; b1; b2; b3]) a <->
  arr_ok b0 (el4q 0 a) /\ arr_ok b1 (el4q 1 a) /\ arr_ok b2 (el4q 2 a) /\ arr_ok b3 (el4q 3 a).
Proof.
  intros H0 H1 H2 H3 H. do 64 (destruct a as [|? a]; [discriminate H|]); destruct a; [|discriminate H].
  do 16 (destruct b0 as [|? b0]; [discriminate H0|]); destruct b0; [|discriminate H0].
  do 16 (destruct b1 as [|? b1]; [discriminate H1|]); destruct b1; [|discriminate H1].
  do 16 (destruct b2 as [|? b2]; [discriminate H2|]); destruct b2; [|discriminate H2].
  do 16 (destruct b3 as [|? b3]; [discriminate H3|]); destruct b3; [|discriminate H3].
  cbv [mix4q pick ix4 map flat_map app seq nth Nat.mul Nat.add]. unfold arr_ok. clear. split.
  - intro F. repeat (apply f2_inv in F as [? F]).
    repeat split; repeat (apply Forall2_cons; [assumption|]); apply Forall2_nil.
  - intros (F0 & F1 & F2 & F3).
    repeat (apply f2_inv in F0 as [? F0]); repeat (apply f2_inv in F1 as [? F1]);
    repeat (apply f2_inv in F2 as [? F2]); repeat (apply f2_inv in F3 as [? F3]).
    repeat (apply Forall2_cons; [assumption|]); apply Forall2_nil.
Qed.
Section Mix4.
Variable st : store.
Lemma ngz448_4w_ok a : length a = 64%nat -> (forall j, (j < 4)%nat -> is_red448 (el4q j a)) ->
  let r := ngz448_4w st a in
  cq (fe448 (el4q 0 r)) (fe448 (el4q 1 a)) /\ cq (fe448 (el4q 1 r)) (fe448 (el4q 0 a)) /\
  cq (fe448 (el4q 2 r)) (0 - fe448 (el4q 2 a)) /\ cq (fe448 (el4q 3 r)) (fe448 (el4q 3 a)) /\
  is_red448 (el4q 0 r) /\ is_red448 (el4q 1 r) /\ is_wide448 (el4q 2 r) /\ is_red448 (el4q 3 r).
Proof.
  intros La H r.
  assert (F : Forall2 (fun x ws => arr_ok (snd x) ws) [(q2, mix4q [red448; red448; red448; red448])] [a]).
  { apply Forall2_cons; [|apply Forall2_nil]. cbn [snd]. apply mix4q_ok; auto. repeat split; apply H; lia. }
  assert (L : length r = 64%nat) by apply call_length.
  let go j e := 
    let hs := eval vm_compute in (hs_of true (slice (vcode v448_4w_ngz) (larr q1 64)) (flat_ins [(q2, mix4q [red448; red448; red448; red448])])) in
    assert (cq (wsum (owt4q j) r) (vden (a ++ []) e) /\ arr_ok (mix4q [red448; red448; wide448; red448]) r)
      by (apply (mixed_cong hs v448_4w_ngz [(q2, mix4q [red448; red448; red448; red448])] q1 (owt4q j)
            (mix4q [red448; red448; wide448; red448]) Q e [a] st); [vm_cast_no_check (eq_refl true)|exact F]) in
  go 0%nat (e4q 1); go 1%nat (e4q 0); go 2%nat (VSub (VK 0) (e4q 2)); go 3%nat (e4q 3).
  destruct H0 as [A0 B], H1 as [A1 _], H2 as [A2 _], H3 as [A3 _].
  cbn [vden] in A2. rewrite owt4q_ok, e4q_ok in A0, A1, A2, A3 by (assumption || lia).
  apply mix4q_ok in B as (B0 & B1 & B2 & B3); try reflexivity; auto 10.
Qed.
End Mix4.

Section Rearrange.
Variable st : store.
Notation l1 a := (length a = 16%nat).
Notation l2 a := (length a = 32%nat).
Notation l4 a := (length a = 64%nat).
Ltac mv := vm_compute; reflexivity.
Lemma copy448_2w_ok a : l2 a -> copy448_2w st a = a.
Proof.
  intro H. pose proof (moves_ok (vcode v448_2w_copy) [(q2, 32%nat)] q1 32 (fun i => i) 0 (fun i => i) 32 [a] st) as E.
  rewrite !pick_id in E; [| exact H | apply call_length]. apply E; [mv|]. cbn [map snd]. now rewrite H.
Qed.
Lemma copy448_4w_ok a : l4 a -> copy448_4w st a = a.
Proof.
  intro H. pose proof (moves_ok (vcode v448_4w_copy) [(q2, 64%nat)] q1 64 (fun i => i) 0 (fun i => i) 64 [a] st) as E.
  rewrite !pick_id in E; [| exact H | apply call_length]. apply E; [mv|]. cbn [map snd]. now rewrite H.
Qed.
Lemma zero448_2w_ok : zero448_2w st = repeat 0 32.
Proof. apply (consts_ok (vcode v448_2w_zero) [] q1 (repeat 0 32) st). mv. Qed.
Lemma zero448_4w_ok : zero448_4w st = repeat 0 64.
Proof. apply (consts_ok (vcode v448_4w_zero) [] q1 (repeat 0 64) st). mv. Qed.
Lemma inter448_2w_ok h a b : l1 a -> l1 b -> el2q h (inter448_2w st a b) = if h then b else a.
Proof.
  intros Ha Hb.
  pose proof (moves_ok (vcode v448_2w_inter) [(q2, 16%nat); (q3, 16%nat)] q1 32 (ixh h) (if h then 1 else 0) (fun i => i) 16 [a; b] st) as E.
  destruct h; (rewrite (pick_id 16) in E; [|assumption]); apply E; try mv; cbn [map snd]; now rewrite Ha, Hb.
Qed.
Lemma deinter448_2w_ok a : l2 a -> deinter448_2w st a = (el2q false a, el2q true a).
Proof.
  intro H. unfold deinter448_2w. f_equal.
  - pose proof (moves_ok (vcode v448_2w_deinter) [(q3, 32%nat)] q1 16 (fun i => i) 0 (ixh false) 16 [a] st) as E.
    rewrite (pick_id 16) in E; [|apply call_length]. apply E; [mv|]. cbn [map snd]. now rewrite H.
  - pose proof (moves_ok (vcode v448_2w_deinter) [(q3, 32%nat)] q2 16 (fun i => i) 0 (ixh true) 16 [a] st) as E.
    rewrite (pick_id 16) in E; [|apply call_length]. apply E; [mv|]. cbn [map snd]. now rewrite H.
Qed.
Lemma zip448_4w_ok j a b c d : (j < 4)%nat -> l1 a -> l1 b -> l1 c -> l1 d -> el4q j (zip448_4w st a b c d) = nth j [a; b; c; d] [].
Proof.
  intros Hj Ha Hb Hc Hd.
  pose proof (moves_ok (vcode v448_4w_zip) [(q2, 16%nat); (q3, 16%nat); (q4, 16%nat); (q5, 16%nat)] q1 64 (ix4 j) j
    (fun i => i) 16 [a; b; c; d] st) as E.
  destruct j as [|[|[|[|j]]]]; [| | | |lia]; (rewrite (pick_id 16) in E; [|assumption]); apply E; try mv; cbn [map snd];
    now rewrite Ha, Hb, Hc, Hd.
Qed.
Lemma unzip448_4w_ok j a : (j < 4)%nat -> l4 a -> unzip448_4w st a j = el4q j a.
Proof.
  intros Hj H.
  pose proof (moves_ok (vcode v448_4w_unzip) [(q5, 64%nat)] (nth j [q1; q2; q3; q4] q1) 16 (fun i => i) 0 (ix4 j) 16 [a] st) as E.
  rewrite (pick_id 16) in E; [|apply call_length].
  destruct j as [|[|[|[|j]]]]; [| | | |lia]; (apply E; [mv|]); cbn [map snd]; now rewrite H.
Qed.
End Rearrange.


(** unser: the 28-bit limbs of the buffer, not reduced modulo p. *)
Lemma split448_vc : vcq [] (slice (vcode v448_1w_unser) (larr q1 16)) [IA q2 (wbnd 7) (wts 7 1)] q1 16
  (fun ins out => fe448 out = wsum (wts 7 1) (nth 0 ins [])).
Proof.
  vc_start. intros r R C _. vc_facts.
  cbv [q1 q2 wbnd repeat wsum wt448 wts W peval term_eval mono_eval fold_right fst snd sp map nth larr ib ibnd length Pos.succ].
  assert (E1 : r 2059%positive = 68719476736 * r 2058%positive + r 2078%positive) by lia.
  assert (E2 : r 2062%positive = 2 ^ 36 * r 2061%positive + r 2080%positive) by lia.
  assert (E3 : r 2065%positive = 2 ^ 36 * r 2064%positive + r 2082%positive) by lia.
  assert (E4 : r 2069%positive = 2 ^ 36 * r 2068%positive + r 2077%positive) by lia.
  assert (E5 : r 2072%positive = 2 ^ 36 * r 2071%positive + r 2079%positive) by lia.
  assert (E6 : r 2075%positive = 2 ^ 36 * r 2074%positive + r 2081%positive) by lia.
  lia.
Qed.
Lemma unser448_1w_ok st buf : bytes 56 buf ->
  fe448 (unser448_1w st buf) = le_val buf /\ arr_ok canon448 (unser448_1w st buf).
Proof.
  intro H. destruct (words_of_ok 7 buf H) as [Hw Ew]. unfold unser448_1w.
  set (w := words_of 7 buf) in *. pose proof (proj2 (arr_words _ _) Hw) as Aw. unfold vop2. split.
  - rewrite call_slice. transitivity (wsum (wts 7 1) w).
    + refine (vcq_sound _ _ _ _ _ _ [w] st split448_vc eq_refl _). apply Forall2_cons; [exact Aw|apply Forall2_nil].
    + now rewrite wsum_wa, Ew.
  - apply (red_cong [] v448_1w_unser [IA q2 (wbnd 7) (wts 7 1)] q1 (repeat 0 16) canon448 1 (VK 0) [w] st).
    + vm_compute. reflexivity.
    + apply Forall2_cons; [exact Aw|apply Forall2_nil].
Qed.
(** ** Encodings of several elements *)
Section Encodings.
Variable st : store.
Lemma len1q b a : arr_ok b a -> length b = 16%nat -> length a = 16%nat.
Proof. intros H <-. now apply arr_len. Qed.
Lemma unser448_2w_el buf h : bytes 112 buf ->
  el2q h (unser448_2w st buf) = unser448_1w st (if h : bool then skipn 56 buf else firstn 56 buf).
Proof.
  intro H. unfold unser448_2w.
  destruct (unser448_1w_ok st _ (bytes_firstn 56 56 _ H)) as [_ B0].
  destruct (unser448_1w_ok st _ (bytes_skipn 56 56 _ H)) as [_ B1].
  rewrite (inter448_2w_ok st h _ _ (len1q _ _ B0 eq_refl) (len1q _ _ B1 eq_refl)). destruct h; reflexivity.
Qed.
Lemma ser448_2w_el a : length a = 32%nat -> ser448_2w st a = ser448_1w st (el2q false a) ++ ser448_1w st (el2q true a).
Proof. intro H. unfold ser448_2w. now rewrite deinter448_2w_ok. Qed.
Lemma unser448_4w_el buf j : (j < 4)%nat -> bytes 224 buf ->
  el4q j (unser448_4w st buf) = unser448_1w st (firstn 56 (skipn (56 * j) buf)).
Proof.
  intros Hj H. unfold unser448_4w.
  assert (B : forall i, (i < 4)%nat -> length (unser448_1w st (firstn 56 (skipn (56 * i) buf))) = 16%nat).
  { intros i Hi. destruct (unser448_1w_ok st (firstn 56 (skipn (56 * i) buf))) as [_ B].
    - apply (bytes_part 56 i (168 - 56 * i)). now replace (56 * i + (56 + (168 - 56 * i)))%nat with 224%nat by lia.
    - exact (len1q _ _ B eq_refl). }
  rewrite (zip448_4w_ok st j _ _ _ _ Hj (B 0%nat ltac:(lia)) (B 1%nat ltac:(lia)) (B 2%nat ltac:(lia)) (B 3%nat ltac:(lia))).
  destruct j as [|[|[|[|j]]]]; [reflexivity..|lia].
Qed.
Lemma ser448_4w_el a : length a = 64%nat -> ser448_4w st a = flat_map (fun j => ser448_1w st (el4q j a)) (seq 0 4).
Proof. intro H. unfold ser448_4w. cbn [seq flat_map]. now rewrite !unzip448_4w_ok by (auto; lia). Qed.
End Encodings.

