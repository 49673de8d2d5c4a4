(** Interface between the symbolic executor and theorems about code: calling
    conventions, independence from uninitialised memory, extraction of linear
    facts. *)
From Coq Require Import ZArith List Bool Lia.
From Verif Require Import Uop Poly Sym.
Import ListNotations.
Open Scope Z_scope.

(** ** Specification side: little-endian words *)
Fixpoint val (ws : list Z) : Z :=
  match ws with [] => 0 | w :: ws => w + W * val ws end.
Definition word (x : Z) : Prop := 0 <= x < W.
Definition words (n : nat) (ws : list Z) : Prop := length ws = n /\ Forall word ws.

Lemma val_bound n ws : words n ws -> 0 <= val ws < W ^ Z.of_nat n.
Proof.
  revert ws; induction n; intros ws [H1 H2].
  - destruct ws; [|discriminate]. cbn. lia.
  - destruct ws as [|w ws]; [discriminate|]. inversion H2 as [|? ? Hw Hws]; subst. cbn [val].
    rewrite Nat2Z.inj_succ, Z.pow_succ_r by lia.
    specialize (IHn ws). assert (words n ws) by (split; auto; now injection H1).
    specialize (IHn H). unfold word in Hw. nia.
Qed.

(** ** Calling a program on arrays placed in an arbitrary store *)
Fixpoint wrs (ins : list (loc * list Z)) (st : store) : store :=
  match ins with [] => st | (b, ws) :: ins => wr b ws (wrs ins st) end.
Definition call (prog : list uop) (ins : list (loc * list Z)) (out : loc) (n : nat) (st0 : store) : list Z :=
  rd out n (run prog (wrs ins st0)).

Lemma get_wr_other b ws l st : Zpos l < Zpos b \/ Zpos b + Z.of_nat (length ws) <= Zpos l ->
  get (wr b ws st) l = get st l.
Proof.
  revert b st; induction ws as [|w ws IH]; intros b st H; cbn [wr]; auto.
  cbn [length] in H. rewrite IH by lia. apply get_set_other. lia.
Qed.

Lemma rd_S b n st : rd b (S n) st = get st b :: rd (Pos.succ b) n st.
Proof. reflexivity. Qed.

(** ** Preconditions for arrays *)
Fixpoint pre_arr (b : loc) (bs : list (Z * Z)) : pre :=
  match bs with [] => [] | x :: bs => (b, x) :: pre_arr (Pos.succ b) bs end.
Definition pre_words (b : loc) (n : nat) : pre := pre_arr b (repeat (0, W - 1) n).

Definition arr_ok (bs : list (Z * Z)) (ws : list Z) : Prop := Forall2 inI bs ws.

Lemma pre_arr_wr b bs ws st : arr_ok bs ws -> pre_ok (pre_arr b bs) (wr b ws st).
Proof.
  intro H; revert b st; induction H as [|x w bs ws Hx _ IH]; intros b st; cbn [pre_arr wr].
  - constructor.
  - constructor; cbn [fst snd].
    + rewrite get_wr_other by lia. now rewrite get_set_same.
    + apply IH.
Qed.
Lemma pre_arr_frame b bs b' ws st :
  Zpos b' + Z.of_nat (length ws) <= Zpos b \/ Zpos b + Z.of_nat (length bs) <= Zpos b' ->
  pre_ok (pre_arr b bs) st -> pre_ok (pre_arr b bs) (wr b' ws st).
Proof.
  revert b; induction bs as [|x bs IH]; intros b D H; cbn [pre_arr] in *; [constructor|].
  inversion H; subst. constructor; cbn [fst snd] in *.
  - rewrite get_wr_other; auto. cbn [length] in *. lia.
  - apply IH; auto. cbn [length] in D. lia.
Qed.

Lemma words_arr n ws : words n ws -> arr_ok (repeat (0, W - 1) n) ws.
Proof.
  revert ws; induction n; intros ws [H1 H2]; destruct ws; try discriminate; cbn [repeat]; constructor.
  - inversion H2; subst. unfold inI, word in *; cbn [fst snd]. lia.
  - apply IHn. inversion H2; subst. split; auto.
Qed.

Definition pre_ins (ins : list (loc * list (Z * Z))) : pre := flat_map (fun x => pre_arr (fst x) (snd x)) ins.
(** Pairwise disjoint arrays. *)
Fixpoint disjoint (ins : list (loc * nat)) : bool :=
  match ins with
  | [] => true
  | (b, n) :: ins =>
      forallb (fun x => (Zpos (fst x) + Z.of_nat (snd x) <=? Zpos b) || (Zpos b + Z.of_nat n <=? Zpos (fst x))) ins
      && disjoint ins
  end.
Definition ins_ok (sp : list (loc * list (Z * Z))) (ins : list (loc * list Z)) : Prop :=
  Forall2 (fun s i => fst s = fst i /\ arr_ok (snd s) (snd i)) sp ins.

Lemma arr_ok_length bs ws : arr_ok bs ws -> length bs = length ws.
Proof. induction 1; cbn; auto. Qed.

Lemma pre_ins_wrs sp ins st : ins_ok sp ins -> disjoint (map (fun x => (fst x, length (snd x))) sp) = true ->
  pre_ok (pre_ins sp) (wrs ins st).
Proof.
  intro H; induction H as [|[b bs] [b' ws] sp ins [Hb Ha] H IH]; cbn [map disjoint pre_ins flat_map wrs fst snd]; intro D.
  - constructor.
  - cbn [fst snd] in Hb, Ha. subst b'.
    apply andb_prop in D as [D1 D2]. specialize (IH D2).
    apply Forall_app. split; [now apply pre_arr_wr|].
    rewrite forallb_forall in D1.
    clear - IH D1 Ha. unfold pre_ins in IH.
    assert (L := arr_ok_length _ _ Ha).
    induction sp as [|[c cs] sp IHs]; cbn [flat_map]; [constructor|].
    cbn [flat_map fst snd] in IH. apply Forall_app in IH as [I1 I2].
    apply Forall_app. split.
    + apply pre_arr_frame; auto. specialize (D1 (c, length cs) (or_introl eq_refl)). cbn [fst snd] in D1.
      rewrite <- L. apply orb_prop in D1 as [D|D]; apply Z.leb_le in D; auto.
    + apply IHs; auto. intros x Hx. apply D1. now right.
Qed.

(** ** Outputs *)
Fixpoint outp (b : loc) (n : nat) (s : sst) : option (list sval) :=
  match n with
  | O => Some []
  | S n => match PositiveMap.find b (smap s), outp (Pos.succ b) n s with
           | Some x, Some l => Some (x :: l)
           | _, _ => None
           end
  end.
Fixpoint valp (ps : list sval) : poly :=
  match ps with [] => [] | x :: ps => padd (sp x) (pscale W (valp ps)) end.
(** Weighted sums, for representations in other radices. *)
Fixpoint wsum (ws : list Z) (xs : list Z) : Z :=
  match ws, xs with w :: ws, x :: xs => w * x + wsum ws xs | _, _ => 0 end.
Fixpoint wsump (ws : list Z) (ps : list sval) : poly :=
  match ws, ps with w :: ws, p :: ps => padd (pscale w (sp p)) (wsump ws ps) | _, _ => [] end.

Definition summary (hs : list nat) (prog : list uop) (P : pre) (out : loc) (n : nat) :
  option (list sval * list (poly * Z * atom) * list (atom * (Z * Z))) :=
  match exec hs prog (init P) with
  | Some s => match outp out n s with
              | Some l => Some (l, rev (scon s), PositiveMap.elements (srng s))
              | None => None
              end
  | None => None
  end.

Definition outs_ok (r : atom -> Z) (l : list sval) (ws : list Z) : Prop :=
  Forall2 (fun x w => w = peval r (sp x) /\ slo x <= w <= shi x) l ws.

Lemma outp_sound r s st : (forall l x, PositiveMap.find l (smap s) = Some x ->
       get st l = peval r (sp x) /\ slo x <= get st l <= shi x) ->
  forall n b l, outp b n s = Some l -> outs_ok r l (rd b n st).
Proof.
  intro H. induction n; intros b l; cbn [outp rd].
  - intro E; injection E as <-. constructor.
  - destruct (PositiveMap.find b (smap s)) eqn:F; try discriminate.
    destruct (outp (Pos.succ b) n s) eqn:O; try discriminate.
    intro E; injection E as <-. constructor; auto. now apply IHn.
Qed.

Theorem summary_sound hs prog P out n l cs rs st :
  summary hs prog P out n = Some (l, cs, rs) -> pre_ok P st ->
  exists r,
    (forall x, (x <= maxloc P)%positive -> r x = get st x) /\
    Forall (fun x => inI (snd x) (r (fst x))) rs /\ cons_hold r cs /\
    outs_ok r l (rd out n (run prog st)).
Proof.
  unfold summary. intros H HP. destruct (exec hs prog (init P)) as [s|] eqn:E; try discriminate.
  destruct (outp out n s) as [l'|] eqn:O; try discriminate. injection H as <- <- <-.
  destruct (exec_sound _ _ _ _ _ E HP) as (r & H1 & H2 & H3 & H4).
  exists r. split; auto. split; [|split].
  - apply Forall_forall. intros [a x] Hx. cbn [fst snd].
    apply H2. apply PositiveMap.elements_complete. exact Hx.
  - unfold cons_hold in *. apply Forall_rev. exact H3.
  - eapply outp_sound; eauto.
Qed.

Lemma outs_val r l ws : outs_ok r l ws -> val ws = peval r (valp l).
Proof.
  induction 1 as [|x w l ws [H _] _ IH]; cbn [val valp]; auto.
  rewrite peval_padd, peval_pscale, <- IH, H. reflexivity.
Qed.
Lemma outs_wsum r l ws : outs_ok r l ws -> forall ks, wsum ks ws = peval r (wsump ks l).
Proof.
  induction 1 as [|x w l ws [H _] _ IH]; intros [|k ks]; cbn [wsum wsump]; auto.
  rewrite peval_padd, peval_pscale, <- IH, H. reflexivity.
Qed.
Lemma outs_length r l ws : outs_ok r l ws -> length ws = length l.
Proof. induction 1; cbn; auto. Qed.
Lemma outs_bound r l ws : outs_ok r l ws -> arr_ok (map (fun x => (slo x, shi x)) l) ws.
Proof. induction 1 as [|x w l ws [_ H] _ IH]; cbn [map]; constructor; auto. Qed.

(** Input values as polynomials over the initial contents. *)
Fixpoint inp (b : loc) (n : nat) : poly :=
  match n with O => [] | S n => padd (patom b) (pscale W (inp (Pos.succ b) n)) end.
Lemma inp_val b n st : peval (get st) (inp b n) = val (rd b n st).
Proof.
  revert b; induction n; intro b; cbn [inp rd val]; auto.
  now rewrite peval_padd, peval_pscale, peval_patom, IHn.
Qed.
Fixpoint winp (ks : list Z) (b : loc) : poly :=
  match ks with [] => [] | k :: ks => padd (pscale k (patom b)) (winp ks (Pos.succ b)) end.
Lemma winp_wsum ks : forall b st, peval (get st) (winp ks b) = wsum ks (rd b (length ks) st).
Proof.
  induction ks as [|k ks IH]; intros b st; cbn [winp rd wsum length]; auto.
  now rewrite peval_padd, peval_pscale, peval_patom, IH.
Qed.
Lemma rd_wr b ws st : rd b (length ws) (wr b ws st) = ws.
Proof.
  revert b st; induction ws as [|w ws IH]; intros b st; cbn [length rd wr]; auto.
  rewrite IH. f_equal. rewrite get_wr_other by lia. apply get_set_same.
Qed.
Lemma rd_wr_other b ws c n st :
  Zpos b + Z.of_nat (length ws) <= Zpos c \/ Zpos c + Z.of_nat n <= Zpos b -> rd c n (wr b ws st) = rd c n st.
Proof.
  revert c; induction n; intros c H; cbn [rd]; auto.
  f_equal.
  - apply get_wr_other. lia.
  - apply IHn. lia.
Qed.

Lemma rd_wrs_notin c n ins st :
  forallb (fun x => (Zpos (fst x) + Z.of_nat (snd x) <=? Zpos c) || (Zpos c + Z.of_nat n <=? Zpos (fst x)))
    (map (fun x : loc * list Z => (fst x, length (snd x))) ins) = true ->
  rd c n (wrs ins st) = rd c n st.
Proof.
  induction ins as [|[b ws] ins IH]; cbn [map forallb wrs fst snd]; auto.
  intro H; apply andb_prop in H as [H1 H2]. rewrite rd_wr_other; auto.
  apply orb_prop in H1 as [H|H]; apply Z.leb_le in H; auto.
Qed.
Lemma rd_wrs ins st : disjoint (map (fun x => (fst x, length (snd x))) ins) = true ->
  Forall (fun x => rd (fst x) (length (snd x)) (wrs ins st) = snd x) ins.
Proof.
  induction ins as [|[b ws] ins IH]; cbn [map disjoint wrs fst snd]; intro D; [constructor|].
  apply andb_prop in D as [D1 D2]. constructor; cbn [fst snd]; [apply rd_wr|].
  specialize (IH D2). rewrite Forall_forall in *. intros [c cs] Hc. cbn [fst snd].
  rewrite rd_wr_other.
  - apply (IH (c, cs) Hc).
  - rewrite forallb_forall in D1.
    specialize (D1 (c, length cs) (in_map (fun x => (fst x, length (snd x))) _ _ Hc)).
    cbn [fst snd] in D1. apply orb_prop in D1 as [D|D]; apply Z.leb_le in D; auto.
Qed.

(** ** Independence from uninitialised memory and registers *)
Definition lset := PositiveMap.t unit.
Definition lmem (l : loc) (s : lset) : bool := match PositiveMap.find l s with Some _ => true | None => false end.
Definition ladd (l : loc) (s : lset) : lset := PositiveMap.add l tt s.
Definition omem (o : opd) (s : lset) : bool := match o with L l => lmem l s | I _ => true end.
Definition reads (u : uop) : list opd :=
  match u with
  | UMov _ a | UShr _ a _ | UShl _ a _ | UEqz _ a => [a]
  | UAdd _ _ a b c | USub _ _ a b c | USel _ a b c => [a; b; c]
  | UAddW _ a b | USubW _ a b | UMul _ _ a b | UIMul _ _ a b | UMul32 _ a b
  | UAnd _ a b | UOr _ a b | UXor _ a b | UAndn _ a b => [a; b]
  end.
Definition writes (u : uop) : list loc :=
  match u with
  | UMov d _ | UShr d _ _ | UShl d _ _ | UEqz d _ | USel d _ _ _
  | UAddW d _ _ | USubW d _ _ | UMul32 d _ _ | UAnd d _ _ | UOr d _ _ | UXor d _ _ | UAndn d _ _ => [d]
  | UAdd d c _ _ _ | USub d c _ _ _ | UMul d c _ _ | UIMul d c _ _ => [d; c]
  end.
Fixpoint defined (p : list uop) (s : lset) : option lset :=
  match p with
  | [] => Some s
  | u :: p => if forallb (fun o => omem o s) (reads u) then defined p (fold_right ladd s (writes u)) else None
  end.
Definition agree (s : lset) (st st' : store) : Prop := forall l, lmem l s = true -> get st l = get st' l.

Lemma ev_agree s st st' o : agree s st st' -> omem o s = true -> ev st o = ev st' o.
Proof. intros H. destruct o; cbn [omem ev]; auto. Qed.
Lemma agree_set s st st' d v : agree s st st' -> agree (ladd d s) (set d v st) (set d v st').
Proof.
  intros H l Hl. destruct (Pos.eq_dec l d) as [->|N]; [now rewrite !get_set_same|].
  rewrite !get_set_other by auto. apply H. unfold lmem, ladd in *. now rewrite PositiveMap.gso in Hl.
Qed.
Lemma step_agree u s st st' : agree s st st' -> forallb (fun o => omem o s) (reads u) = true ->
  agree (fold_right ladd s (writes u)) (step u st) (step u st').
Proof.
  intros H R.
  destruct u; cbn [reads forallb] in R; cbn [writes fold_right step];
  repeat match goal with H : _ && _ = true |- _ => apply andb_prop in H as [? H] end;
  repeat match goal with H' : omem ?o s = true |- _ =>
     let E := fresh in pose proof (ev_agree s st st' o H H') as E; rewrite E; clear E H' end;
  repeat apply agree_set; auto.
Qed.
Lemma defined_sound p : forall s s' st st', defined p s = Some s' -> agree s st st' ->
  agree s' (run p st) (run p st').
Proof.
  induction p as [|u p IH]; cbn [defined run]; intros s s' st st' H A.
  - injection H as <-. auto.
  - destruct (forallb _ _) eqn:E; try discriminate. eapply IH; eauto. now apply step_agree.
Qed.
Fixpoint larr (b : loc) (n : nat) : list loc := match n with O => [] | S n => b :: larr (Pos.succ b) n end.
Definition lins (ins : list (loc * nat)) : lset :=
  fold_right ladd (PositiveMap.empty _) (flat_map (fun x => larr (fst x) (snd x)) ins).
Definition indep (prog : list uop) (ins : list (loc * nat)) (out : loc) (n : nat) : bool :=
  match defined prog (lins ins) with
  | Some s => forallb (fun l => lmem l s) (larr out n)
  | None => false
  end.

Lemma lmem_fold l ls : lmem l (fold_right ladd (PositiveMap.empty _) ls) = true -> In l ls.
Proof.
  induction ls as [|x ls IH]; cbn [fold_right].
  - unfold lmem. rewrite PositiveMap.gempty. discriminate.
  - unfold lmem, ladd at 1. destruct (Pos.eq_dec l x) as [->|N]; [now left|].
    rewrite PositiveMap.gso by auto. intro H. right. now apply IH.
Qed.
Lemma rd_agree b n st st' : rd b n st = rd b n st' -> forall l, In l (larr b n) -> get st l = get st' l.
Proof.
  revert b; induction n; intros b H l; cbn [larr rd In] in *; [tauto|].
  injection H as H1 H2. intros [->|Hl]; eauto.
Qed.
Lemma agree_rd b n st st' : (forall l, In l (larr b n) -> get st l = get st' l) -> rd b n st = rd b n st'.
Proof.
  revert b; induction n; intros b H; cbn [rd larr In] in *; auto.
  f_equal; [apply H; now left|]. apply IHn. intros. apply H. now right.
Qed.

Theorem call_indep prog ins out n st st' :
  disjoint (map (fun x => (fst x, length (snd x))) ins) = true ->
  indep prog (map (fun x => (fst x, length (snd x))) ins) out n = true ->
  call prog ins out n st = call prog ins out n st'.
Proof.
  intros D H. unfold indep in H.
  destruct (defined prog _) as [s|] eqn:E; try discriminate.
  unfold call. apply agree_rd. intros l Hl.
  rewrite forallb_forall in H. apply (defined_sound _ _ _ (wrs ins st) (wrs ins st') E); auto.
  intros k Hk. unfold lins in Hk. apply lmem_fold in Hk.
  apply in_flat_map in Hk as (x & Hx & Hk). apply in_map_iff in Hx as (y & <- & Hy).
  cbn [fst snd] in Hk. eapply rd_agree; [|exact Hk].
  pose proof (rd_wrs ins st D) as R1. pose proof (rd_wrs ins st' D) as R2.
  rewrite Forall_forall in R1, R2. rewrite (R1 y Hy), (R2 y Hy). reflexivity.
Qed.

(** Reduction of the symbolic data without touching integer arithmetic. *)
Ltac eng_cbv H :=
  cbv [cons_hold outs_ok peval term_eval mono_eval fold_right fst snd inI sp slo shi] in H.
