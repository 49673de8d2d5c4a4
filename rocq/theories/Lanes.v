(** Program slicing and renaming of locations: a lane of a vector program is an
    ordinary scalar program. *)
From Coq Require Import ZArith List Bool Lia.
From Verif Require Import Uop Engine Simd.
Import ListNotations.
Open Scope Z_scope.

(** ** Slicing: the micro-operations that contribute to given locations *)
Definition lrem (l : loc) (s : lset) : lset := PositiveMap.remove l s.
Definition oadd (o : opd) (s : lset) : lset := match o with L l => ladd l s | I _ => s end.
Fixpoint dce (p : list uop) (live : lset) : list uop * lset :=
  match p with
  | [] => ([], live)
  | u :: p =>
      let '(q, s) := dce p live in
      if existsb (fun l => lmem l s) (writes u)
      then (u :: q, fold_right oadd (fold_right lrem s (writes u)) (reads u))
      else (q, s)
  end.

Lemma lmem_ladd l k s : lmem l (ladd k s) = true <-> l = k \/ lmem l s = true.
Proof.
  unfold lmem, ladd. destruct (Pos.eq_dec l k) as [->|N].
  - rewrite PositiveMap.gss. tauto.
  - rewrite PositiveMap.gso by auto. split; [tauto|]. intros [E|H]; [congruence|auto].
Qed.
Lemma lmem_lrem l k s : lmem l (lrem k s) = true <-> l <> k /\ lmem l s = true.
Proof.
  unfold lmem, lrem. destruct (Pos.eq_dec l k) as [->|N].
  - rewrite PositiveMap.grs. split; [discriminate|]. intros [H _]. congruence.
  - rewrite PositiveMap.gro by auto. tauto.
Qed.
Lemma lmem_oadds l os s : lmem l s = true -> lmem l (fold_right oadd s os) = true.
Proof.
  intro H. induction os as [|o os IH]; cbn [fold_right]; auto.
  destruct o; cbn [oadd]; auto. apply lmem_ladd. auto.
Qed.
Lemma omem_oadds os s : forallb (fun o => omem o (fold_right oadd s os)) os = true.
Proof.
  apply forallb_forall. intros o H. induction os as [|x os IH]; [destruct H|].
  cbn [fold_right]. destruct H as [->|H].
  - destruct o; cbn [omem oadd]; auto. apply lmem_ladd. auto.
  - specialize (IH H). destruct o, x; cbn [omem oadd] in *; auto. apply lmem_ladd. auto.
Qed.
Lemma lmem_lrems l ks s : lmem l (fold_right lrem s ks) = true <-> ~ In l ks /\ lmem l s = true.
Proof.
  induction ks as [|k ks IH]; cbn [fold_right In]; [tauto|]. rewrite lmem_lrem, IH. intuition congruence.
Qed.
Lemma lmem_ladds l ks s : lmem l (fold_right ladd s ks) = true <-> In l ks \/ lmem l s = true.
Proof.
  induction ks as [|k ks IH]; cbn [fold_right In]; [tauto|]. rewrite lmem_ladd, IH. intuition congruence.
Qed.
Lemma step_frame u s l : ~ In l (writes u) -> get (step u s) l = get s l.
Proof.
  intro H. destruct u; cbn [writes In step] in *; rewrite ?get_set_other by tauto; reflexivity.
Qed.
Lemma dce_sound p : forall live q s st st', dce p live = (q, s) -> agree s st st' ->
  agree live (run p st) (run q st').
Proof.
  induction p as [|u p IH]; intros live q s st st' E A; cbn [dce run] in *.
  - injection E as <- <-. exact A.
  - destruct (dce p live) as [q0 s0] eqn:E0. destruct (existsb _ _) eqn:X.
    + injection E as <- <-. cbn [run]. eapply IH; eauto.
      pose proof (step_agree u _ st st' A (omem_oadds _ _)) as B.
      intros l Hl. apply B. apply lmem_ladds. destruct (in_dec Pos.eq_dec l (writes u)); auto.
      right. apply lmem_oadds, lmem_lrems. auto.
    + injection E as <- <-. eapply IH; eauto. intros l Hl. rewrite step_frame; auto.
      intro H. enough (existsb (fun l => lmem l s0) (writes u) = true) by congruence.
      apply existsb_exists. eauto.
Qed.

Definition lset_of (ls : list loc) : lset := fold_right ladd (PositiveMap.empty _) ls.
Definition slice (p : list uop) (outs : list loc) : list uop := fst (dce p (lset_of outs)).
Lemma slice_sound p outs st l : In l outs -> get (run p st) l = get (run (slice p outs) st) l.
Proof.
  intro H. unfold slice. destruct (dce p (lset_of outs)) as [q s] eqn:E. cbn [fst].
  apply (dce_sound _ _ _ _ st st E).
  - intros k _. reflexivity.
  - unfold lset_of. apply lmem_ladds. auto.
Qed.
Theorem call_slice p ins out n st : call p ins out n st = call (slice p (larr out n)) ins out n st.
Proof. unfold call. apply agree_rd. intros l H. now apply slice_sound. Qed.

(** ** Renaming locations *)
Definition oren (f : loc -> loc) (o : opd) : opd := match o with L l => L (f l) | I z => I z end.
Definition ren (f : loc -> loc) (u : uop) : uop :=
  match u with
  | UMov d a => UMov (f d) (oren f a)
  | UAdd d c a b i => UAdd (f d) (f c) (oren f a) (oren f b) (oren f i)
  | USub d c a b i => USub (f d) (f c) (oren f a) (oren f b) (oren f i)
  | UAddW d a b => UAddW (f d) (oren f a) (oren f b)
  | USubW d a b => USubW (f d) (oren f a) (oren f b)
  | UMul c d a b => UMul (f c) (f d) (oren f a) (oren f b)
  | UIMul d c a b => UIMul (f d) (f c) (oren f a) (oren f b)
  | UMul32 d a b => UMul32 (f d) (oren f a) (oren f b)
  | UShr d a k => UShr (f d) (oren f a) k
  | UShl d a k => UShl (f d) (oren f a) k
  | UAnd d a b => UAnd (f d) (oren f a) (oren f b)
  | UOr d a b => UOr (f d) (oren f a) (oren f b)
  | UXor d a b => UXor (f d) (oren f a) (oren f b)
  | UAndn d a b => UAndn (f d) (oren f a) (oren f b)
  | USel d c a b => USel (f d) (oren f c) (oren f a) (oren f b)
  | UEqz d a => UEqz (f d) (oren f a)
  end.

Section Ren.
  Context (f : loc -> loc).
  Hypothesis Hf : forall x y, f x = f y -> x = y.
  (** [t] holds the values that [st] holds at the renamed locations. *)
  Definition follows (s : lset) (t st : store) : Prop := forall l, lmem l s = true -> get t l = get st (f l).
  Lemma ev_follows s t st o : follows s t st -> omem o s = true -> ev t o = ev st (oren f o).
  Proof. intros H. destruct o; cbn [omem ev oren]; auto. Qed.
  Lemma follows_set s t st d v : follows s t st -> follows (ladd d s) (set d v t) (set (f d) v st).
  Proof.
    intros H l Hl. destruct (Pos.eq_dec l d) as [->|N]; [now rewrite !get_set_same|].
    rewrite !get_set_other; auto. apply H. apply lmem_ladd in Hl. tauto.
  Qed.
  Lemma step_follows u s t st : follows s t st -> forallb (fun o => omem o s) (reads u) = true ->
    follows (fold_right ladd s (writes u)) (step u t) (step (ren f u) st).
  Proof.
    intros H R.
    destruct u; cbn [reads forallb] in R; cbn [writes fold_right step ren];
    repeat match goal with H : _ && _ = true |- _ => apply andb_prop in H as [? H] end;
    repeat match goal with H' : omem ?o s = true |- _ =>
       let E := fresh in pose proof (ev_follows s t st o H H') as E; rewrite E; clear E H' end;
    repeat apply follows_set; auto.
  Qed.
  Lemma run_follows p : forall s s' t st, defined p s = Some s' -> follows s t st ->
    follows s' (run p t) (run (map (ren f) p) st).
  Proof.
    induction p as [|u p IH]; cbn [defined run map]; intros s s' t st H A.
    - injection H as <-. auto.
    - destruct (forallb _ _) eqn:E; try discriminate. eapply IH; eauto. now apply step_follows.
  Qed.
End Ren.

(** ** Decidable equality of programs *)
Definition opd_eqb (a b : opd) : bool :=
  match a, b with L x, L y => Pos.eqb x y | I x, I y => Z.eqb x y | _, _ => false end.
Definition uop_eqb (u v : uop) : bool :=
  match u, v with
  | UMov d a, UMov d' a' => Pos.eqb d d' && opd_eqb a a'
  | UAddW d a b, UAddW d' a' b' | USubW d a b, USubW d' a' b' | UMul32 d a b, UMul32 d' a' b'
  | UAnd d a b, UAnd d' a' b' | UOr d a b, UOr d' a' b' | UXor d a b, UXor d' a' b'
  | UAndn d a b, UAndn d' a' b' => Pos.eqb d d' && opd_eqb a a' && opd_eqb b b'
  | UShr d a k, UShr d' a' k' | UShl d a k, UShl d' a' k' => Pos.eqb d d' && opd_eqb a a' && (k =? k')
  | _, _ => false
  end.
Fixpoint prog_eqb (p q : list uop) : bool :=
  match p, q with
  | [], [] => true
  | u :: p, v :: q => uop_eqb u v && prog_eqb p q
  | _, _ => false
  end.
Lemma opd_eqb_eq a b : opd_eqb a b = true -> a = b.
Proof. destruct a, b; cbn; try discriminate; intro H; [apply Pos.eqb_eq in H | apply Z.eqb_eq in H]; congruence. Qed.
Lemma uop_eqb_eq u v : uop_eqb u v = true -> u = v.
Proof.
  destruct u, v; cbn [uop_eqb]; try discriminate;
  repeat (intro H || (apply andb_prop in H as [H ?])); 
  repeat match goal with
  | H : Pos.eqb _ _ = true |- _ => apply Pos.eqb_eq in H
  | H : Z.eqb _ _ = true |- _ => apply Z.eqb_eq in H
  | H : opd_eqb _ _ = true |- _ => apply opd_eqb_eq in H
  end; congruence.
Qed.
Lemma prog_eqb_eq p : forall q, prog_eqb p q = true -> p = q.
Proof.
  induction p as [|u p IH]; intros [|v q]; cbn [prog_eqb]; try discriminate; auto.
  intro H. apply andb_prop in H as [H1 H2]. apply uop_eqb_eq in H1. apply IH in H2. congruence.
Qed.

(** ** Calls on one lane *)
(** Words of an array selected by an index map. *)
Definition pick (ix : nat -> nat) (n : nat) (xs : list Z) : list Z := map (fun i => nth (ix i) xs 0) (seq 0 n).

(** [q] is the lane of [p]: vector arrays at the bases [fst x], scalar arrays
    of length [snd (snd x)] at [fst (snd x)]. *)
Definition lane_check (f : loc -> loc) (ix : nat -> nat) (p q : list uop)
  (ins : list ((loc * nat) * (loc * nat))) (out : loc) (nout : nat) (out' : loc) (n : nat) : bool :=
  prog_eqb (slice p (map (fun i => la out (ix i)) (seq 0 n))) (map (ren f) q)
  && disjoint (map fst ins) && disjoint (map snd ins)
  && forallb (fun x => forallb (fun i => Pos.eqb (f (la (fst (snd x)) i)) (la (fst (fst x)) (ix i))
                                && Nat.ltb (ix i) (snd (fst x)))
                         (seq 0 (snd (snd x)))) ins
  && forallb (fun i => Pos.eqb (f (la out' i)) (la out (ix i)) && Nat.ltb (ix i) nout) (seq 0 n)
  && indep q (map snd ins) out' n.

Lemma la_Z l i : Zpos (la l i) = Zpos l + Z.of_nat i.
Proof. revert l; induction i; intro l; cbn [la]; [lia|]. rewrite IHi. lia. Qed.
Lemma rd_nth b n st : forall i, (i < n)%nat -> nth i (rd b n st) 0 = get st (la b i).
Proof.
  revert b; induction n; intros b i H; [lia|]. cbn [rd]. destruct i; cbn [nth la]; auto. apply IHn. lia.
Qed.
Lemma rd_map b n st : rd b n st = map (fun i => get st (la b i)) (seq 0 n).
Proof.
  revert b; induction n; intro b; cbn [rd seq map]; auto. f_equal. rewrite IHn.
  rewrite <- seq_shift, map_map. reflexivity.
Qed.
Lemma larr_la b n : larr b n = map (la b) (seq 0 n).
Proof.
  revert b; induction n; intro b; cbn [larr seq map]; auto. f_equal. rewrite IHn.
  rewrite <- seq_shift, map_map. reflexivity.
Qed.

Theorem lane_call f ix p q ins out nout out' n : (forall x y, f x = f y -> x = y) ->
  lane_check f ix p q ins out nout out' n = true ->
  forall xs st st', map (@length Z) xs = map (fun x => snd (fst x)) ins ->
  pick ix n (call p (combine (map (fun x => fst (fst x)) ins) xs) out nout st)
  = call q (map (fun x => (fst (snd (fst x)), pick ix (snd (snd (fst x))) (snd x))) (combine ins xs)) out' n st'.
Proof.
  intros Hf H xs st st' Hl. unfold lane_check in H.
  repeat match goal with H : _ && _ = true |- _ => apply andb_prop in H as [H ?] end.
  rename H into E, H4 into D1, H3 into D2, H2 into I, H1 into O, H0 into Q.
  apply prog_eqb_eq in E.
  set (S1 := wrs (combine (map (fun x => fst (fst x)) ins) xs) st).
  set (S2 := wrs (map (fun x => (fst (snd (fst x)), pick ix (snd (snd (fst x))) (snd x))) (combine ins xs)) st').
  unfold call. fold S1 S2. unfold pick. rewrite (rd_map out').
  unfold indep in Q. destruct (defined q (lins (map snd ins))) as [fin|] eqn:Df; [|discriminate].
  assert (F : follows f (lins (map snd ins)) S2 S1).
  { intros l Hm. unfold lins in Hm. apply lmem_fold in Hm. apply in_flat_map in Hm as ([b k] & Hb & Hk).
    cbn [fst snd] in Hk. rewrite larr_la in Hk. apply in_map_iff in Hk as (i & <- & Hi).
    apply in_map_iff in Hb as (x & Hx & Hin).
    assert (R1 := rd_wrs (combine (map (fun x => fst (fst x)) ins) xs) st).
    assert (R2 := rd_wrs (map (fun x => (fst (snd (fst x)), pick ix (snd (snd (fst x))) (snd x))) (combine ins xs)) st').
    fold S1 in R1. fold S2 in R2.
    assert (C1 : map (fun x => (fst x, length (snd x))) (combine (map (fun x => fst (fst x)) ins) xs) = map fst ins).
    { clear - Hl. revert xs Hl; induction ins as [|[[a b] c] ins IH]; intros [|y xs] Hl; try discriminate; auto.
      cbn [map combine fst snd] in *. injection Hl as Hy Hl. rewrite IH by auto. now rewrite Hy. }
    assert (C2 : map (fun x => (fst x, length (snd x)))
       (map (fun x => (fst (snd (fst x)), pick ix (snd (snd (fst x))) (snd x))) (combine ins xs)) = map snd ins).
    { clear - Hl. revert xs Hl; induction ins as [|[a [b c]] ins IH]; intros [|y xs] Hl; try discriminate; auto.
      cbn [map combine fst snd] in *. injection Hl as Hy Hl. rewrite IH by auto. unfold pick.
      now rewrite map_length, seq_length. }
    rewrite C1 in R1. rewrite C2 in R2. specialize (R1 D1). specialize (R2 D2).
    assert (exists ws, In (x, ws) (combine ins xs) /\ In (fst (fst x), ws) (combine (map (fun x => fst (fst x)) ins) xs)
       /\ length ws = snd (fst x)) as (ws & W1 & W2 & W3).
    { clear - Hl Hin. revert xs Hl; induction ins as [|y ins IH]; intros xs Hl; [destruct Hin|].
      destruct xs as [|z xs]; [discriminate|]. cbn [map combine] in *. injection Hl as Hy Hl.
      destruct Hin as [->|Hin].
      - exists z. repeat split; auto; now left.
      - destruct (IH Hin xs Hl) as (ws & A & B & C). exists ws. repeat split; auto; now right. }
    rewrite Forall_forall in R1, R2. specialize (R1 _ W2). cbn [fst snd] in R1.
    specialize (R2 _ (in_map (fun x => (fst (snd (fst x)), pick ix (snd (snd (fst x))) (snd x))) _ _ W1)).
    cbn [fst snd] in R2. rewrite forallb_forall in I. specialize (I x Hin). rewrite forallb_forall in I.
    rewrite Hx in R2, I. cbn [fst snd] in R2, I. specialize (I i Hi).
    apply andb_prop in I as [I1 I2]. apply Pos.eqb_eq in I1. apply Nat.ltb_lt in I2.
    apply in_seq in Hi. 
    rewrite I1. rewrite <- (rd_nth _ (length ws) S1) by lia. rewrite R1.
    unfold pick in R2 at 1. rewrite map_length, seq_length in R2.
    rewrite <- (rd_nth _ k S2) by lia. rewrite R2. unfold pick.
    rewrite nth_indep with (d' := (fun i => nth (ix i) ws 0) 0%nat) by (rewrite map_length, seq_length; lia).
    rewrite (map_nth (fun i => nth (ix i) ws 0)), seq_nth by lia. reflexivity. }
  apply map_ext_in. intros i Hi.
  rewrite forallb_forall in O. specialize (O i Hi). apply andb_prop in O as [O1 O2].
  apply Pos.eqb_eq in O1. apply Nat.ltb_lt in O2.
  rewrite rd_nth by auto.
  rewrite (slice_sound p (map (fun i => la out (ix i)) (seq 0 n))) by now apply (in_map (fun i => la out (ix i))).
  rewrite E, <- O1. symmetry. apply (run_follows f Hf _ _ _ _ _ Df F).
  rewrite forallb_forall in Q. apply Q. rewrite larr_la. now apply in_map.
Qed.

(** Lane j of a 4-lane vector at 4l is the scalar location l. *)
Definition lane4 (j : nat) (l : loc) : loc := la (l~0~0)%positive j.
Definition ix4 (j : nat) (i : nat) : nat := (4 * i + j)%nat.
Lemma lane4_inj j x y : lane4 j x = lane4 j y -> x = y.
Proof. unfold lane4. intro H. apply (f_equal Zpos) in H. rewrite !la_Z in H. lia. Qed.
Definition unlane4 (l : loc) : loc := match l with xO (xO l) | xI (xO l) | xO (xI l) | xI (xI l) => l | _ => l end.
(** The 128-bit half h of a 4-lane vector: lanes 2h and 2h+1. *)
Definition half (h : bool) (l : loc) : loc :=
  match l with
  | xH => if h then 3 else 1
  | xO v => if h then v~1~0 else v~0~0
  | xI v => if h then v~1~1 else v~0~1
  end%positive.
Definition ixh (h : bool) (i : nat) : nat := (4 * (i / 2) + i mod 2 + (if h then 2 else 0))%nat.
Lemma half_inj h x y : half h x = half h y -> x = y.
Proof. destruct h, x, y; cbn; congruence. Qed.
Definition unhalf (l : loc) : loc :=
  match l with xO (xO v) | xO (xI v) => xO v | xI (xO v) | xI (xI v) => xI v | _ => l end.
(** The scalar program of lane 0 and the program of the low half. *)
Definition lane_prog (p : list uop) (out : loc) (n : nat) : list uop :=
  map (ren unlane4) (slice p (map (fun i => la out (ix4 0 i)) (seq 0 n))).
Definition half_prog (p : list uop) (out : loc) (n : nat) : list uop :=
  map (ren unhalf) (slice p (map (fun i => la out (ixh false i)) (seq 0 n))).
