(** Verification tools for the reduced-radix vector code: checks on the sliced
    program, and on one lane for all lanes at once. *)
From Coq Require Import ZArith List Bool Lia.
From Verif Require Import Uop Poly Sym Engine Check FullTac Simd Lanes.
Import ListNotations.
Open Scope Z_scope.

Lemma red_cong hs prog xs out owt obnd p e ins st :
  cong_check hs (slice (vcode prog) (larr out (length owt))) xs out owt obnd p e = true -> Forall2 iok xs ins ->
  let res := call (vcode prog) (iplace xs ins) out (length owt) st in
  (wsum owt res - vden (ivals xs ins) e) mod p = 0 /\ arr_ok obnd res.
Proof. intros H Hi. cbv zeta. rewrite call_slice. now apply (cong_check_sound hs). Qed.

(** Arrays of n limbs with the same weights. *)
Definition larrs (wt : list Z) (xs : list (loc * list (Z * Z))) : list iarr := map (fun x => IA (fst x) (snd x) wt) xs.
Lemma larrs_iok wt xs ins : Forall2 (fun x ws => arr_ok (snd x) ws) xs ins -> Forall2 iok (larrs wt xs) ins.
Proof. induction 1; cbn [larrs map]; constructor; auto. Qed.
Lemma larrs_place wt xs ins : length xs = length ins -> iplace (larrs wt xs) ins = combine (map fst xs) ins.
Proof.
  revert ins; induction xs as [|x xs IH]; intros [|i ins] H; try discriminate; auto.
  cbn [larrs map iplace combine ib]. fold (larrs wt xs). rewrite IH; auto.
Qed.
Lemma larrs_vals wt xs ins : length xs = length ins -> ivals (larrs wt xs) ins = map (wsum wt) ins.
Proof.
  revert ins; induction xs as [|x xs IH]; intros [|i ins] H; try discriminate; auto.
  cbn [larrs map ivals iwt]. fold (larrs wt xs). rewrite IH; auto.
Qed.
Lemma Forall2_len {A B} (R : A -> B -> Prop) l l' : Forall2 R l l' -> length l = length l'.
Proof. induction 1; cbn; auto. Qed.

Theorem one_cong hs prog wt xs out obnd p e ins st :
  cong_check hs (slice (vcode prog) (larr out (length wt))) (larrs wt xs) out wt obnd p e = true ->
  Forall2 (fun x ws => arr_ok (snd x) ws) xs ins ->
  let res := call (vcode prog) (combine (map fst xs) ins) out (length wt) st in
  (wsum wt res - vden (map (wsum wt) ins) e) mod p = 0 /\ arr_ok obnd res.
Proof.
  intros H F. pose proof (Forall2_len _ _ _ F) as Len.
  pose proof (red_cong hs prog (larrs wt xs) out wt obnd p e ins st H (larrs_iok _ _ _ F)) as R.
  now rewrite larrs_place, larrs_vals in R by auto.
Qed.

Section Lane.
  Context (f : loc -> loc) (ix : nat -> nat) (un : loc -> loc) (m : nat).
  Hypothesis Hf : forall x y, f x = f y -> x = y.
  Definition vi (n : nat) (Bs : list loc) : list ((loc * nat) * (loc * nat)) :=
    map (fun B => ((B, (m * n)%nat), (un B, n))) Bs.
  Lemma vi_picks n Bs : forall ins, length Bs = length ins ->
    map (fun x => (fst (snd (fst x)), pick ix (snd (snd (fst x))) (snd x))) (combine (vi n Bs) ins)
    = combine (map un Bs) (map (pick ix n) ins).
  Proof.
    induction Bs as [|B Bs IH]; intros [|i ins] H; try discriminate; auto.
    cbn [vi map combine fst snd]. fold (vi n Bs). rewrite IH; auto.
  Qed.
  Lemma vi_bases n Bs : map (fun x => fst (fst x)) (vi n Bs) = Bs.
  Proof. unfold vi. rewrite map_map. apply map_id. Qed.

  Lemma lane_pick prog q Bs out n ins st st' :
    lane_check f ix (vcode prog) q (vi n Bs) out (m * n) (un out) n = true ->
    Forall2 (fun B x => length x = (m * n)%nat) Bs ins ->
    pick ix n (call (vcode prog) (combine Bs ins) out (m * n) st)
    = call q (combine (map un Bs) (map (pick ix n) ins)) (un out) n st'.
  Proof.
    intros H F. pose proof (Forall2_len _ _ _ F) as Len.
    assert (HL : map (@length Z) ins = map (fun x => snd (fst x)) (vi n Bs)).
    { clear - F. induction F as [|B x Bs ins H F IH]; cbn [map vi]; auto. fold (vi n Bs). rewrite IH. f_equal. auto. }
    pose proof (lane_call f ix (vcode prog) q (vi n Bs) out (m * n) (un out) n Hf H ins st st' HL) as R.
    rewrite vi_picks, vi_bases in R by auto. exact R.
  Qed.

  Theorem lane_cong hs prog q wt xs out obnd p e ins st n :
    lane_check f ix (vcode prog) q (vi n (map fst xs)) out (m * n) (un out) n = true ->
    cong_check hs q (larrs wt (map (fun x => (un (fst x), snd x)) xs)) (un out) wt obnd p e = true ->
    length wt = n ->
    Forall2 (fun x ws => length ws = (m * n)%nat /\ arr_ok (snd x) (pick ix n ws)) xs ins ->
    let res := call (vcode prog) (combine (map fst xs) ins) out (m * n) st in
    (wsum wt (pick ix n res) - vden (map (fun x => wsum wt (pick ix n x)) ins) e) mod p = 0
    /\ arr_ok obnd (pick ix n res).
  Proof.
    intros H C Hn F res. pose proof (Forall2_len _ _ _ F) as Len.
    assert (F1 : Forall2 (fun B x => length x = (m * n)%nat) (map fst xs) ins).
    { clear - F. induction F as [|B x Bs ins [H _] F IH]; cbn [map]; constructor; auto. }
    unfold res. rewrite (lane_pick prog q (map fst xs) out n ins st st H F1).
    pose proof (cong_check_sound hs q _ _ _ _ _ _ (map (pick ix n) ins) st C) as R.
    rewrite larrs_place, larrs_vals, !map_map, Hn in R by now rewrite !map_length.
    rewrite map_map. apply R. apply larrs_iok.
    clear - F. induction F as [|x y xs ins [_ H] F IH]; cbn [map]; constructor; auto.
  Qed.
End Lane.

Lemma pick_length ix n x : length (pick ix n x) = n.
Proof. unfold pick. now rewrite map_length, seq_length. Qed.
Lemma rd_length b n st : length (rd b n st) = n.
Proof. revert b; induction n; intro b; cbn [rd length]; auto. Qed.
Lemma call_length p ins out n st : length (call p ins out n st) = n.
Proof. apply rd_length. Qed.

(** Four lanes. *)
Definition quad_check (prog : list vinstr) (Bs : list loc) (out : loc) (n : nat) : bool :=
  forallb (fun j => lane_check (lane4 j) (ix4 j) (vcode prog) (lane_prog (vcode prog) out n) (vi unlane4 4 n Bs) out
     (4 * n) (unlane4 out) n) (seq 0 4).
Theorem quad_cong hs prog wt xs out obnd p e ins st n :
  quad_check prog (map fst xs) out n = true ->
  cong_check hs (lane_prog (vcode prog) out n) (larrs wt (map (fun x => (unlane4 (fst x), snd x)) xs)) (unlane4 out) wt obnd p e = true ->
  length wt = n -> forall j, (j < 4)%nat ->
  Forall2 (fun x ws => length ws = (4 * n)%nat /\ arr_ok (snd x) (pick (ix4 j) n ws)) xs ins ->
  let res := call (vcode prog) (combine (map fst xs) ins) out (4 * n) st in
  (wsum wt (pick (ix4 j) n res) - vden (map (fun x => wsum wt (pick (ix4 j) n x)) ins) e) mod p = 0
  /\ arr_ok obnd (pick (ix4 j) n res).
Proof.
  intros H C Hn j Hj F. unfold quad_check in H. rewrite forallb_forall in H.
  apply (lane_cong (lane4 j) (ix4 j) unlane4 4 (lane4_inj j) hs prog (lane_prog (vcode prog) out n)); auto.
  apply H. apply in_seq. lia.
Qed.
(** Lane j of the result is the same function, for every j, of the lanes j of the operands. *)
Theorem quad_lanes prog Bs out n ins ins' st st' j j' :
  quad_check prog Bs out n = true -> (j < 4)%nat -> (j' < 4)%nat ->
  Forall2 (fun B x => length x = (4 * n)%nat) Bs ins -> Forall2 (fun B x => length x = (4 * n)%nat) Bs ins' ->
  map (pick (ix4 j) n) ins = map (pick (ix4 j') n) ins' ->
  pick (ix4 j) n (call (vcode prog) (combine Bs ins) out (4 * n) st)
  = pick (ix4 j') n (call (vcode prog) (combine Bs ins') out (4 * n) st').
Proof.
  intros H Hj Hj' F F' E. unfold quad_check in H. rewrite forallb_forall in H.
  rewrite (lane_pick (lane4 j) (ix4 j) unlane4 4 (lane4_inj j) prog _ Bs out n ins st st' (H j ltac:(apply in_seq; lia)) F).
  rewrite (lane_pick (lane4 j') (ix4 j') unlane4 4 (lane4_inj j') prog _ Bs out n ins' st' st' (H j' ltac:(apply in_seq; lia)) F').
  now rewrite E.
Qed.

(** Two halves. *)
Definition duo_check (prog : list vinstr) (Bs : list loc) (out : loc) (n : nat) : bool :=
  forallb (fun h => lane_check (half h) (ixh h) (vcode prog) (half_prog (vcode prog) out n) (vi unhalf 2 n Bs) out
     (2 * n) (unhalf out) n) [false; true].
Theorem duo_cong hs prog wt xs out obnd p e ins st n :
  duo_check prog (map fst xs) out n = true ->
  cong_check hs (half_prog (vcode prog) out n) (larrs wt (map (fun x => (unhalf (fst x), snd x)) xs)) (unhalf out) wt obnd p e = true ->
  length wt = n -> forall h,
  Forall2 (fun x ws => length ws = (2 * n)%nat /\ arr_ok (snd x) (pick (ixh h) n ws)) xs ins ->
  let res := call (vcode prog) (combine (map fst xs) ins) out (2 * n) st in
  (wsum wt (pick (ixh h) n res) - vden (map (fun x => wsum wt (pick (ixh h) n x)) ins) e) mod p = 0
  /\ arr_ok obnd (pick (ixh h) n res).
Proof.
  intros H C Hn h F. unfold duo_check in H. rewrite forallb_forall in H.
  apply (lane_cong (half h) (ixh h) unhalf 2 (half_inj h) hs prog (half_prog (vcode prog) out n)); auto.
  apply H. destruct h; cbn [In]; auto.
Qed.
Theorem duo_lanes prog Bs out n ins ins' st st' h h' :
  duo_check prog Bs out n = true ->
  Forall2 (fun B x => length x = (2 * n)%nat) Bs ins -> Forall2 (fun B x => length x = (2 * n)%nat) Bs ins' ->
  map (pick (ixh h) n) ins = map (pick (ixh h') n) ins' ->
  pick (ixh h) n (call (vcode prog) (combine Bs ins) out (2 * n) st)
  = pick (ixh h') n (call (vcode prog) (combine Bs ins') out (2 * n) st').
Proof.
  intros H F F' E. unfold duo_check in H. rewrite forallb_forall in H.
  rewrite (lane_pick (half h) (ixh h) unhalf 2 (half_inj h) prog _ Bs out n ins st st' (H h ltac:(destruct h; cbn [In]; auto)) F).
  rewrite (lane_pick (half h') (ixh h') unhalf 2 (half_inj h') prog _ Bs out n ins' st' st' (H h' ltac:(destruct h'; cbn [In]; auto)) F').
  now rewrite E.
Qed.

(** Tactics: [xs] lists (base, bounds); the goal is the conclusion of the
    corresponding theorem. *)
Ltac f2 := repeat (apply Forall2_cons; [first [assumption | split; [first [assumption | apply call_length]|assumption]]|]); apply Forall2_nil.
Ltac do_one prog wt xs out obnd p e ins st :=
  let hs := eval vm_compute in (hs_of true (slice (vcode prog) (larr out (length wt))) (larrs wt xs)) in
  apply (one_cong hs prog wt xs out obnd p e ins st); [vm_cast_no_check (eq_refl true) | f2].
Ltac do_quad chk prog wt xs out obnd p e ins st n j :=
  let hs := eval vm_compute in (hs_of true (lane_prog (vcode prog) out n) (larrs wt (map (fun x => (unlane4 (fst x), snd x)) xs))) in
  apply (quad_cong hs prog wt xs out obnd p e ins st n chk); [vm_cast_no_check (eq_refl true) | reflexivity | assumption | f2].
Ltac do_duo chk prog wt xs out obnd p e ins st n h :=
  let hs := eval vm_compute in (hs_of true (half_prog (vcode prog) out n) (larrs wt (map (fun x => (unhalf (fst x), snd x)) xs))) in
  apply (duo_cong hs prog wt xs out obnd p e ins st n chk); [vm_cast_no_check (eq_refl true) | reflexivity | f2].

(** Range of a weighted sum. *)
Lemma wsum_range wt : forall bnd ws, arr_ok bnd ws -> Forall (fun w => 0 <= w) wt -> length wt = length bnd ->
  wsum wt (map fst bnd) <= wsum wt ws <= wsum wt (map snd bnd).
Proof.
  induction wt as [|w wt IH]; intros bnd ws H N L; destruct bnd as [|b bnd]; try discriminate.
  - inversion H; subst. cbn [wsum]. lia.
  - inversion H as [|? x ? ws' Hx H']; subst. inversion N; subst. cbn [map wsum].
    specialize (IH bnd ws' H' H3 ltac:(now injection L)). unfold inI in Hx. nia.
Qed.
Lemma wsum_max wt bnd M : forallb (fun w => 0 <=? w) wt && (Nat.eqb (length wt) (length bnd))
    && (0 <=? wsum wt (map fst bnd)) && (wsum wt (map snd bnd) <? M) = true ->
  forall ws, arr_ok bnd ws -> 0 <= wsum wt ws < M.
Proof.
  intros H ws A. repeat match goal with H : _ && _ = true |- _ => apply andb_prop in H as [H ?] end.
  apply Z.leb_le in H1. apply Z.ltb_lt in H0. apply Nat.eqb_eq in H2.
  pose proof (wsum_range wt bnd ws A) as R. rewrite forallb_forall in H.
  specialize (R ltac:(apply Forall_forall; intros x Hx; specialize (H x Hx); now apply Z.leb_le) H2). lia.
Qed.
Fixpoint arr_okb (bnd : list (Z * Z)) (ws : list Z) : bool :=
  match bnd, ws with
  | [], [] => true
  | b :: bnd, w :: ws => (fst b <=? w) && (w <=? snd b) && arr_okb bnd ws
  | _, _ => false
  end.
Lemma arr_lit bnd : forall ws, arr_okb bnd ws = true -> arr_ok bnd ws.
Proof.
  induction bnd as [|b bnd IH]; intros [|w ws] H; try discriminate; [apply Forall2_nil|].
  cbn [arr_okb] in H. apply andb_prop in H as [H H2]. apply andb_prop in H as [H0 H1].
  apply Z.leb_le in H0, H1. apply Forall2_cons; [split; assumption|exact (IH ws H2)].
Qed.
(** Exact value of the sliced program. *)
Theorem one_exact hs prog xs out owt obnd M e ins st :
  exact_check hs (slice prog (larr out (length owt))) xs out owt obnd M e = true -> 
  forallb (fun w => 0 <=? w) owt && (Nat.eqb (length owt) (length obnd))
    && (0 <=? wsum owt (map fst obnd)) && (wsum owt (map snd obnd) <? M) = true ->
  Forall2 iok xs ins ->
  let res := call prog (iplace xs ins) out (length owt) st in
  wsum owt res = vden (ivals xs ins) e /\ arr_ok obnd res.
Proof.
  intros H B F. cbv zeta. rewrite call_slice.
  apply (exact_check_sound hs _ _ _ _ _ _ _ _ _ H F). now apply wsum_max.
Qed.
Ltac do_exact1 prog xs out owt obnd M e ins st :=
  let hs := eval vm_compute in (hs_of false (slice prog (larr out (length owt))) xs) in
  apply (one_exact hs prog xs out owt obnd M e ins st);
    [vm_cast_no_check (eq_refl true) | vm_cast_no_check (eq_refl true) | f2].

(** ** Operations mixing the lanes: every word is an input of its own *)
Fixpoint singles (b : loc) (bs : list (Z * Z)) : list iarr :=
  match bs with [] => [] | x :: bs => IA b [x] [1] :: singles (Pos.succ b) bs end.
Definition flat_ins (xs : list (loc * list (Z * Z))) : list iarr := flat_map (fun x => singles (fst x) (snd x)) xs.
Definition sing (ws : list Z) : list (list Z) := map (fun w => [w]) ws.
Lemma singles_iok b bs ws : arr_ok bs ws -> Forall2 iok (singles b bs) (sing ws).
Proof.
  intro H. revert b. induction H as [|x w bs ws Hx H IH]; intro b; cbn [singles sing map]; constructor.
  - repeat constructor; apply Hx.
  - apply IH.
Qed.
Lemma iplace_app xs ys : forall us vs, length xs = length us -> iplace (xs ++ ys) (us ++ vs) = iplace xs us ++ iplace ys vs.
Proof.
  induction xs as [|x xs IH]; intros [|u us] vs H; try discriminate; auto.
  cbn [app iplace]. rewrite IH by now injection H. reflexivity.
Qed.
Lemma ivals_app xs ys : forall us vs, length xs = length us -> ivals (xs ++ ys) (us ++ vs) = ivals xs us ++ ivals ys vs.
Proof.
  induction xs as [|x xs IH]; intros [|u us] vs H; try discriminate; auto.
  cbn [app ivals]. rewrite IH by now injection H. reflexivity.
Qed.
Lemma wrs_app xs ys st : wrs (xs ++ ys) st = wrs xs (wrs ys st).
Proof. induction xs as [|[b x] xs IH]; cbn [app wrs]; auto. now rewrite IH. Qed.
Definition same (s s' : store) : Prop := forall l, get s l = get s' l.
Lemma same_set l v s s' : same s s' -> same (set l v s) (set l v s').
Proof.
  intros H k. destruct (Pos.eq_dec k l) as [->|N]; [now rewrite !get_set_same|]. now rewrite !get_set_other by auto.
Qed.
Lemma same_ev s s' o : same s s' -> ev s o = ev s' o.
Proof. intro H. destruct o; cbn [ev]; auto. Qed.
Lemma same_step u s s' : same s s' -> same (step u s) (step u s').
Proof.
  intro H. pose proof (fun o => same_ev s s' o H) as E.
  destruct u; cbn [step]; rewrite ?E; repeat apply same_set; exact H.
Qed.
Lemma same_run p : forall s s', same s s' -> same (run p s) (run p s').
Proof. induction p as [|u p IH]; intros s s' H; cbn [run]; auto. apply IH. now apply same_step. Qed.
Lemma same_rd b n s s' : same s s' -> rd b n s = rd b n s'.
Proof. intro H. rewrite !rd_map. apply map_ext. intro; apply H. Qed.
Lemma same_wr b ws s s' : same s s' -> same (wr b ws s) (wr b ws s').
Proof. revert b s s'; induction ws as [|w ws IH]; intros b s s' H; cbn [wr]; auto. apply IH. now apply same_set. Qed.
Lemma same_wrs ins s s' : same s s' -> same (wrs ins s) (wrs ins s').
Proof. induction ins as [|[b x] ins IH]; intro H; cbn [wrs]; auto. now apply same_wr, IH. Qed.
Lemma wrs_singles b bs ws st : arr_ok bs ws -> same (wrs (iplace (singles b bs) (sing ws)) st) (wr b ws st).
Proof.
  intro H. revert b st. induction H as [|x w bs ws Hx H IH]; intros b st; cbn [singles sing map iplace wrs wr ib].
  - intro; reflexivity.
  - fold (sing ws). intro l. destruct (Pos.eq_dec l b) as [->|N].
    + rewrite get_set_same, get_wr_other, get_set_same by lia. reflexivity.
    + rewrite get_set_other by auto. rewrite (IH (Pos.succ b) st l).
      destruct (Z_lt_le_dec (Zpos l) (Zpos (Pos.succ b))) as [L|L].
      { rewrite !get_wr_other, get_set_other by (auto; lia). reflexivity. }
      destruct (Z_lt_le_dec (Zpos l) (Zpos (Pos.succ b) + Z.of_nat (length ws))) as [U|U].
      2:{ rewrite !get_wr_other, get_set_other by (auto; lia). reflexivity. }
      assert (E : exists i, (i < length ws)%nat /\ l = la (Pos.succ b) i).
      { exists (Z.to_nat (Zpos l - Zpos (Pos.succ b))). split; [lia|].
        enough (Zpos l = Zpos (la (Pos.succ b) (Z.to_nat (Zpos l - Zpos (Pos.succ b))))) by congruence.
        rewrite la_Z. lia. }
      destruct E as (i & Hi & ->).
      rewrite <- !(rd_nth _ (length ws)) by auto. now rewrite !rd_wr.
Qed.
Lemma flat_iok xs ins : Forall2 (fun x ws => arr_ok (snd x) ws) xs ins -> Forall2 iok (flat_ins xs) (flat_map sing ins).
Proof.
  induction 1 as [|x ws xs ins H _ IH]; cbn [flat_ins flat_map]; [constructor|].
  apply Forall2_app; auto. now apply singles_iok.
Qed.
Lemma flat_place xs ins st : Forall2 (fun x ws => arr_ok (snd x) ws) xs ins ->
  same (wrs (iplace (flat_ins xs) (flat_map sing ins)) st) (wrs (combine (map fst xs) ins) st).
Proof.
  induction 1 as [|x ws xs ins H _ IH]; cbn [flat_ins flat_map combine map wrs]; [intro; reflexivity|].
  rewrite iplace_app by (eapply Forall2_len; apply (singles_iok (fst x)); exact H).
  rewrite wrs_app. intro l. rewrite (wrs_singles _ _ _ _ H l). now apply same_wr.
Qed.
Lemma flat_vals xs ins : Forall2 (fun x ws => arr_ok (snd x) ws) xs ins -> ivals (flat_ins xs) (flat_map sing ins) = concat ins.
Proof.
  induction 1 as [|x ws xs ins H _ IH]; cbn [flat_ins flat_map concat]; auto.
  rewrite ivals_app by (eapply Forall2_len; apply (singles_iok (fst x)); exact H).
  f_equal; [|exact IH]. generalize (fst x). clear IH. induction H as [|b w bs ws Hb H IH]; intro l; auto.
  cbn [singles sing map ivals iwt wsum]. fold (sing ws). rewrite IH. f_equal. ring.
Qed.
(** Word [i] of the concatenated inputs with weight [w], summed. *)
Fixpoint elin (wt : list Z) (ix : list nat) : vexp :=
  match wt, ix with
  | w :: wt, i :: ix => VAdd (VMul (VK w) (VIn i)) (elin wt ix)
  | _, _ => VK 0
  end.
Lemma elin_ok vs wt : forall ix, vden vs (elin wt ix) = wsum wt (map (fun i => nth i vs 0) ix).
Proof. induction wt as [|w wt IH]; intros [|i ix]; cbn [elin vden wsum map]; auto. now rewrite IH. Qed.
Theorem mixed_cong hs prog xs out owt obnd p e ins st :
  cong_check hs (slice (vcode prog) (larr out (length owt))) (flat_ins xs) out owt obnd p e = true ->
  Forall2 (fun x ws => arr_ok (snd x) ws) xs ins ->
  let res := call (vcode prog) (combine (map fst xs) ins) out (length owt) st in
  (wsum owt res - vden (concat ins) e) mod p = 0 /\ arr_ok obnd res.
Proof.
  intros H F. pose proof (red_cong hs prog (flat_ins xs) out owt obnd p e _ st H (flat_iok _ _ F)) as R.
  cbv zeta in R. rewrite flat_vals in R by auto. cbv zeta.
  replace (call (vcode prog) (combine (map fst xs) ins) out (length owt) st)
    with (call (vcode prog) (iplace (flat_ins xs) (flat_map sing ins)) out (length owt) st); auto.
  unfold call. apply same_rd, same_run. now apply flat_place.
Qed.
Lemma arr_ok_pick bs ws ix n : arr_ok bs ws -> forallb (fun i => Nat.ltb (ix i) (length bs)) (seq 0 n) = true ->
  arr_ok (map (fun i => nth (ix i) bs (0, 0)) (seq 0 n)) (pick ix n ws).
Proof.
  intros H Hx. unfold pick. rewrite forallb_forall in Hx. revert Hx. generalize (seq 0 n). intros l Hx.
  induction l as [|i l IH]; cbn [map]; [constructor|].
  constructor; [|apply IH; intros; apply Hx; now right].
  specialize (Hx i (or_introl eq_refl)). apply Nat.ltb_lt in Hx. revert Hx. generalize (ix i). clear - H.
  induction H as [|b w bs ws Hb H IH]; intros [|k] Hk; cbn [length nth] in *; try lia; auto.
  apply IH. lia.
Qed.
