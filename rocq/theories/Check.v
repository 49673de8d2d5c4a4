(** Verified checkers: a program computes a given polynomial expression of its
    input arrays, exactly or modulo a constant. *)
From Coq Require Import ZArith List Bool Lia.
From Verif Require Import Uop Poly Sym Engine.
Import ListNotations.
Open Scope Z_scope.

Inductive vexp := VIn (k : nat) | VK (z : Z) | VAdd (a b : vexp) | VSub (a b : vexp) | VMul (a b : vexp).
Fixpoint vden (vs : list Z) (e : vexp) : Z :=
  match e with
  | VIn k => nth k vs 0
  | VK z => z
  | VAdd a b => vden vs a + vden vs b
  | VSub a b => vden vs a - vden vs b
  | VMul a b => vden vs a * vden vs b
  end.
Fixpoint vpoly (ps : list poly) (e : vexp) : poly :=
  match e with
  | VIn k => nth k ps []
  | VK z => pconst z
  | VAdd a b => padd (vpoly ps a) (vpoly ps b)
  | VSub a b => psub (vpoly ps a) (vpoly ps b)
  | VMul a b => pmul (vpoly ps a) (vpoly ps b)
  end.
Lemma vpoly_den r ps e : peval r (vpoly ps e) = vden (map (peval r) ps) e.
Proof.
  induction e; cbn [vpoly vden].
  - change 0 with (peval r []). now rewrite map_nth.
  - apply peval_pconst.
  - now rewrite peval_padd, IHe1, IHe2.
  - now rewrite peval_psub, IHe1, IHe2.
  - now rewrite peval_pmul, IHe1, IHe2.
Qed.

(** An input array: base, interval of each word, weight of each word. *)
Record iarr := IA { ib : loc; ibnd : list (Z * Z); iwt : list Z }.
Definition iok (x : iarr) (ws : list Z) : Prop := arr_ok (ibnd x) ws.
Definition ipre (xs : list iarr) : list (loc * list (Z * Z)) := map (fun x => (ib x, ibnd x)) xs.
Definition ipoly (x : iarr) : poly := winp (iwt x) (ib x).
Fixpoint ivals (xs : list iarr) (ins : list (list Z)) : list Z :=
  match xs, ins with
  | x :: xs, ws :: ins => wsum (iwt x) ws :: ivals xs ins
  | _, _ => []
  end.
Fixpoint iplace (xs : list iarr) (ins : list (list Z)) : list (loc * list Z) :=
  match xs, ins with
  | x :: xs, ws :: ins => (ib x, ws) :: iplace xs ins
  | _, _ => []
  end.
(** Interval, weight and array shapes agree; arrays are disjoint. *)
Definition iwf (xs : list iarr) : bool :=
  forallb (fun x => Nat.eqb (length (ibnd x)) (length (iwt x))) xs
  && disjoint (map (fun x => (ib x, length (ibnd x))) xs).

Lemma iplace_disj xs ins : Forall2 iok xs ins ->
  map (fun x => (fst x, length (snd x))) (iplace xs ins) = map (fun x => (ib x, length (ibnd x))) xs.
Proof.
  induction 1 as [|x ws xs ins H _ IH]; cbn [iplace map]; auto.
  rewrite IH. cbn [fst snd]. f_equal. f_equal. symmetry. now apply arr_ok_length.
Qed.
Lemma iplace_ok xs ins : Forall2 iok xs ins -> ins_ok (ipre xs) (iplace xs ins).
Proof. induction 1; cbn [ipre map iplace]; constructor; auto. Qed.

Lemma ivals_eval xs ins st : Forall2 iok xs ins -> iwf xs = true ->
  map (peval (get (wrs (iplace xs ins) st))) (map ipoly xs) = ivals xs ins.
Proof.
  intros H Wf. apply andb_prop in Wf as [W1 W2].
  pose proof (rd_wrs (iplace xs ins) st) as R. rewrite iplace_disj in R by auto. specialize (R W2).
  revert R. generalize (wrs (iplace xs ins) st). clear W2. intros s R.
  induction H as [|x ws xs ins Hx H IH]; cbn [map ivals]; auto.
  cbn [iplace forallb] in *. inversion R as [|? ? R1 R2]; subst. cbn [fst snd] in R1.
  apply andb_prop in W1 as [W0 W1]. f_equal; auto.
  unfold ipoly. rewrite winp_wsum. apply Nat.eqb_eq in W0.
  rewrite <- W0, (arr_ok_length _ _ Hx), R1. reflexivity.
Qed.

Definition bound_le (b b' : Z * Z) : bool := (fst b' <=? fst b) && (snd b <=? snd b').
Fixpoint bounds_le (bs bs' : list (Z * Z)) : bool :=
  match bs, bs' with
  | [], [] => true
  | b :: bs, b' :: bs' => bound_le b b' && bounds_le bs bs'
  | _, _ => false
  end.
Lemma bounds_le_ok bs bs' ws : bounds_le bs bs' = true -> arr_ok bs ws -> arr_ok bs' ws.
Proof.
  intros H A; revert bs' H; induction A as [|b w bs ws Hb A IH]; intros [|b' bs'] H; try discriminate.
  - constructor.
  - cbn [bounds_le] in H. apply andb_prop in H as [H1 H2].
    constructor; [|now apply IH]. unfold bound_le in H1. apply andb_prop in H1 as [H0 H1]. apply Z.leb_le in H0, H1.
    unfold inI in *. lia.
Qed.

(** All polynomials of the expression use only input atoms. *)
Definition inputs_below (n : atom) (p : poly) : bool :=
  forallb (fun t => forallb (fun a => Pos.leb a n) (fst t)) p.
Lemma peval_below n r r' p : inputs_below n p = true -> (forall a, (a <= n)%positive -> r a = r' a) ->
  peval r p = peval r' p.
Proof.
  intros H E. induction p as [|[m c] p IH]; auto.
  cbn [inputs_below forallb fst] in H. apply andb_prop in H as [H1 H2].
  rewrite !peval_cons, IH by auto. f_equal. unfold term_eval; cbn [fst snd]. f_equal.
  induction m as [|a m IHm]; auto. cbn [forallb] in H1. apply andb_prop in H1 as [H0 H1].
  change (r a * mono_eval r m = r' a * mono_eval r' m). rewrite IHm by auto.
  f_equal. apply E. now apply Pos.leb_le.
Qed.

(** Congruence modulo [p] of the weighted output, with output intervals. *)
Definition cong_check (hs : list nat) (prog : list uop) (xs : list iarr) (out : loc) (owt : list Z)
  (obnd : list (Z * Z)) (p : Z) (e : vexp) : bool :=
  let P := pre_ins (ipre xs) in
  iwf xs && (0 <? p) && inputs_below (maxloc P) (vpoly (map ipoly xs) e) &&
  match summary hs prog P out (length owt) with
  | Some (l, _, _) =>
      pdvd p (psub (wsump owt l) (vpoly (map ipoly xs) e))
      && bounds_le (map (fun x => (slo x, shi x)) l) obnd
  | None => false
  end.

Theorem cong_check_sound hs prog xs out owt obnd p e ins st :
  cong_check hs prog xs out owt obnd p e = true -> Forall2 iok xs ins ->
  let res := call prog (iplace xs ins) out (length owt) st in
  (wsum owt res - vden (ivals xs ins) e) mod p = 0 /\ arr_ok obnd res.
Proof.
  intros H Hin res. unfold cong_check in H. cbv zeta in H.
  apply andb_prop in H as [H H4]. apply andb_prop in H as [H H3].
  apply andb_prop in H as [H1 H2]. apply Z.ltb_lt in H2.
  destruct (summary _ _ _ _ _) as [[[l cs] rs]|] eqn:S; try discriminate.
  apply andb_prop in H4 as [H4 H5].
  assert (HP : pre_ok (pre_ins (ipre xs)) (wrs (iplace xs ins) st)).
  { apply pre_ins_wrs; [now apply iplace_ok|].
    unfold iwf in H1. apply andb_prop in H1 as [_ H1].
    unfold ipre. rewrite map_map. exact H1. }
  destruct (summary_sound _ _ _ _ _ _ _ _ _ S HP) as (r & R1 & R2 & R3 & R4).
  fold (call prog (iplace xs ins) out (length owt) st) in R4. fold res in R4.
  split.
  - rewrite (outs_wsum _ _ _ R4 owt), <- (ivals_eval xs ins st) by auto.
    rewrite <- vpoly_den.
    rewrite <- (peval_below _ r (get (wrs (iplace xs ins) st)) _ H3 R1).
    rewrite <- peval_psub. apply pdvd_sound; auto. lia.
  - eapply bounds_le_ok; [exact H5|]. now apply outs_bound in R4.
Qed.

(** Exact value: congruence modulo [M] when both sides lie in [0, M). *)
Definition exact_check (hs : list nat) (prog : list uop) (xs : list iarr) (out : loc) (owt : list Z)
  (obnd : list (Z * Z)) (M : Z) (e : vexp) : bool :=
  cong_check hs prog xs out owt obnd M e
  && match pint (srng (init (pre_ins (ipre xs)))) (vpoly (map ipoly xs) e) with
     | Some (l, h) => (0 <=? l) && (h <? M)
     | None => false
     end.

Theorem exact_check_sound hs prog xs out owt obnd M e ins st :
  exact_check hs prog xs out owt obnd M e = true -> Forall2 iok xs ins ->
  let res := call prog (iplace xs ins) out (length owt) st in
  (forall ws, arr_ok obnd ws -> 0 <= wsum owt ws < M) ->
  wsum owt res = vden (ivals xs ins) e /\ arr_ok obnd res.
Proof.
  intros H Hin res HM. unfold exact_check in H. apply andb_prop in H as [H H'].
  destruct (cong_check_sound _ _ _ _ _ _ _ _ _ st H Hin) as [C B]. fold res in C, B.
  split; auto.
  destruct (pint _ _) as [[lo hi]|] eqn:E; try discriminate.
  apply andb_prop in H' as [L U]. apply Z.leb_le in L. apply Z.ltb_lt in U.
  unfold cong_check in H. cbv zeta in H. apply andb_prop in H as [H _]. apply andb_prop in H as [H _].
  apply andb_prop in H as [Wf _].
  assert (HP : pre_ok (pre_ins (ipre xs)) (wrs (iplace xs ins) st)).
  { apply pre_ins_wrs; [now apply iplace_ok|].
    unfold iwf in Wf. apply andb_prop in Wf as [_ H1].
    unfold ipre. rewrite map_map. exact H1. }
  destruct (init_inv_aux (Pos.succ (maxloc (pre_ins (ipre xs)))) _ _ HP) as [HI _].
  { intros x Hx. apply Pos.lt_succ_r. now apply maxloc_in. }
  cbv zeta in HI. fold (init (pre_ins (ipre xs))) in HI.
  apply (pint_sound _ _ _ _ (inv_rng _ _ _ HI)) in E.
  rewrite vpoly_den, ivals_eval in E by auto. unfold inI in E; cbn [fst snd] in E.
  specialize (HM _ B).
  apply Z.mod_divide in C as [k Ck]; [|lia].
  revert Ck HM E. generalize (wsum owt res) (vden (ivals xs ins) e). intros u v Ck HM E.
  assert (k = 0); [|subst k; lia].
  destruct (Z.lt_trichotomy k 0) as [K|[K|K]]; auto; nia.
Qed.

(** Weights and bounds of [n] 64-bit words. *)
Fixpoint wts (n : nat) (k : Z) : list Z := match n with O => [] | S n => k :: wts n (k * W) end.
Definition wbnd (n : nat) : list (Z * Z) := repeat (0, W - 1) n.

Lemma wsum_wts n : forall k ws, length ws = n -> wsum (wts n k) ws = k * val ws.
Proof.
  induction n; intros k [|w ws] H; try discriminate; cbn [wts wsum val].
  - lia.
  - rewrite IHn by now injection H. lia.
Qed.
Lemma wts_length n k : length (wts n k) = n.
Proof. revert k; induction n; intro k; cbn [wts length]; auto. Qed.
Lemma arr_words n ws : arr_ok (wbnd n) ws <-> words n ws.
Proof.
  split; [|apply words_arr].
  revert ws; induction n; intros ws H; inversion H as [|? w ? ws' Hw Hws]; subst.
  - split; [reflexivity|constructor].
  - destruct (IHn ws' Hws) as [L F]. split; cbn [length]; auto.
    constructor; auto. unfold inI, word, W in *; cbn [fst snd] in *. lia.
Qed.

(** ** Verification conditions left to the user *)

(** Arbitrary relation between inputs and outputs, to be proved for every
    valuation meeting the recorded ranges and quotient constraints. *)
Definition vcq (hs : list nat) (prog : list uop) (xs : list iarr) (out : loc) (n : nat)
  (Q : list (list Z) -> list Z -> Prop) : Prop :=
  match summary hs prog (pre_ins (ipre xs)) out n with
  | Some (l, cs, rs) =>
      forall r, Forall (fun x => inI (snd x) (r (fst x))) rs -> cons_hold r cs ->
      Forall (fun x => slo x <= peval r (sp x) <= shi x) l ->
      Q (map (fun x => map r (larr (ib x) (length (ibnd x)))) xs)
        (map (fun x => peval r (sp x)) l)
  | None => False
  end.

Lemma map_larr_rd st b n : map (get st) (larr b n) = rd b n st.
Proof. revert b; induction n; intro b; cbn [larr map rd]; auto. now rewrite IHn. Qed.
Lemma larr_bound b n l : In l (larr b n) -> (b <= l)%positive /\ Zpos l < Zpos b + Z.of_nat n.
Proof.
  revert b; induction n; intros b; cbn [larr In]; [tauto|].
  intros [->|H]; [lia|]. apply IHn in H. lia.
Qed.
Lemma maxloc_pre_arr b bs : forall l, In l (larr b (length bs)) -> (l <= maxloc (pre_arr b bs))%positive.
Proof.
  revert b; induction bs as [|x bs IH]; intros b l; cbn [length larr pre_arr In]; [tauto|].
  unfold maxloc; cbn [fold_right]. fold (maxloc (pre_arr (Pos.succ b) bs)). cbn [fst].
  intros [->|H]; [lia|]. apply IH in H. lia.
Qed.
Lemma maxloc_app p q : maxloc (p ++ q) = Pos.max (maxloc p) (maxloc q).
Proof.
  induction p as [|x p IH]; cbn [app]; unfold maxloc in *; cbn [fold_right]; [lia|].
  rewrite IH. lia.
Qed.

Theorem vcq_sound hs prog xs out n Q ins st :
  vcq hs prog xs out n Q -> iwf xs = true -> Forall2 iok xs ins ->
  Q ins (call prog (iplace xs ins) out n st).
Proof.
  unfold vcq. intros H Wf Hin.
  destruct (summary _ _ _ _ _) as [[[l cs] rs]|] eqn:S; [|contradiction].
  assert (HP : pre_ok (pre_ins (ipre xs)) (wrs (iplace xs ins) st)).
  { apply pre_ins_wrs; [now apply iplace_ok|].
    unfold iwf in Wf. apply andb_prop in Wf as [_ H1].
    unfold ipre. rewrite map_map. exact H1. }
  destruct (summary_sound _ _ _ _ _ _ _ _ _ S HP) as (r & R1 & R2 & R3 & R4).
  fold (call prog (iplace xs ins) out n st) in R4.
  specialize (H r R2 R3).
  assert (E2 : map (fun x => peval r (sp x)) l = call prog (iplace xs ins) out n st).
  { clear - R4. induction R4 as [|x w l ws [E _] _ IH]; cbn [map]; auto. now rewrite IH, E. }
  assert (E3 : Forall (fun x => slo x <= peval r (sp x) <= shi x) l).
  { clear - R4. induction R4 as [|x w l ws [E B] _ IH]; constructor; auto. now rewrite <- E. }
  assert (E1 : map (fun x => map r (larr (ib x) (length (ibnd x)))) xs = ins).
  { pose proof (rd_wrs (iplace xs ins) st) as R.
    rewrite iplace_disj in R by auto. apply andb_prop in Wf as [_ Wf]. specialize (R Wf).
    revert R R1. generalize (wrs (iplace xs ins) st). clear - Hin. intros s R R1.
    assert (B : forall x, In x xs -> forall a, In a (larr (ib x) (length (ibnd x))) ->
              (a <= maxloc (pre_ins (ipre xs)))%positive).
    { clear. intros x Hx a Ha. induction xs as [|y xs IH]; [destruct Hx|].
      cbn [ipre map pre_ins flat_map fst snd]. rewrite maxloc_app. destruct Hx as [->|Hx].
      - apply maxloc_pre_arr in Ha. lia.
      - specialize (IH Hx). unfold pre_ins, ipre in IH. lia. }
    induction Hin as [|x ws xs ins Hx Hin IH]; cbn [map iplace]; auto.
    cbn [iplace] in R. inversion R as [|? ? Ra Rb]; subst. cbn [fst snd] in Ra.
    f_equal.
    - rewrite <- Ra, <- map_larr_rd. rewrite <- (arr_ok_length _ _ Hx).
      apply map_ext_in. intros a Ha. apply R1. apply (B x); auto. now left.
    - clear - IH Rb R1 B.
      assert (G : forall a, (exists x, In x xs /\ In a (larr (ib x) (length (ibnd x)))) -> r a = get s a).
      { intros a (y & Hy & Ha). apply R1. apply (B y); auto. now right. }
      apply IH; auto.
      + intros a Ha. apply R1. cbn [ipre map pre_ins flat_map fst snd]. rewrite maxloc_app.
        unfold pre_ins, ipre in Ha. lia.
      + intros y Hy a Ha. clear - Hy Ha. induction xs as [|z xs IH]; [destruct Hy|].
        cbn [ipre map pre_ins flat_map fst snd]. rewrite maxloc_app. destruct Hy as [->|Hx].
        * apply maxloc_pre_arr in Ha. lia.
        * specialize (IH Hx). unfold pre_ins, ipre in IH. lia. }
  specialize (H E3). rewrite E2 in H. exact (eq_ind _ (fun z => Q z _) H _ E1).
Qed.

(** Congruence, given that certain quotients vanish. *)
Definition pzero (zs : list atom) (p : poly) : poly :=
  filter (fun t => negb (existsb (fun a => existsb (Pos.eqb a) zs) (fst t))) p.
Lemma pzero_sound r zs p : Forall (fun a => r a = 0) zs -> peval r (pzero zs p) = peval r p.
Proof.
  intro H. induction p as [|[m c] p IH]; auto. cbn [pzero filter fst].
  fold (pzero zs p). destruct (existsb (fun a => existsb (Pos.eqb a) zs) m) eqn:E; cbn [negb].
  - rewrite peval_cons, IH. apply existsb_exists in E as (a & Ha & E).
    apply existsb_exists in E as (b & Hb & E). apply Pos.eqb_eq in E; subst b.
    rewrite Forall_forall in H. specialize (H a Hb).
    assert (M : mono_eval r m = 0).
    { clear - Ha H. induction m as [|x m IH]; [destruct Ha|].
      change (r x * mono_eval r m = 0). destruct Ha as [->|Ha]; [rewrite H; lia|]. rewrite IH; auto. lia. }
    unfold term_eval; cbn [fst snd]. rewrite M. lia.
  - now rewrite !peval_cons, IH.
Qed.

Definition zvc (hs : list nat) (prog : list uop) (xs : list iarr) (out : loc) (n : nat) (zs : list atom) : Prop :=
  match summary hs prog (pre_ins (ipre xs)) out n with
  | Some (l, cs, rs) =>
      forall r, Forall (fun x => inI (snd x) (r (fst x))) rs -> cons_hold r cs -> Forall (fun a => r a = 0) zs
  | None => False
  end.
Definition congz_check (hs : list nat) (prog : list uop) (xs : list iarr) (out : loc) (owt : list Z)
  (obnd : list (Z * Z)) (p : Z) (e : vexp) (zs : list atom) : bool :=
  let P := pre_ins (ipre xs) in
  iwf xs && (0 <? p) && inputs_below (maxloc P) (vpoly (map ipoly xs) e) &&
  match summary hs prog P out (length owt) with
  | Some (l, _, _) =>
      pdvd p (pzero zs (psub (wsump owt l) (vpoly (map ipoly xs) e)))
      && bounds_le (map (fun x => (slo x, shi x)) l) obnd
  | None => false
  end.

Theorem congz_check_sound hs prog xs out owt obnd p e zs ins st :
  congz_check hs prog xs out owt obnd p e zs = true -> zvc hs prog xs out (length owt) zs ->
  Forall2 iok xs ins ->
  let res := call prog (iplace xs ins) out (length owt) st in
  (wsum owt res - vden (ivals xs ins) e) mod p = 0 /\ arr_ok obnd res.
Proof.
  intros H Hz Hin res. unfold congz_check in H. cbv zeta in H. unfold zvc in Hz.
  apply andb_prop in H as [H H4]. apply andb_prop in H as [H H3].
  apply andb_prop in H as [H1 H2]. apply Z.ltb_lt in H2.
  destruct (summary _ _ _ _ _) as [[[l cs] rs]|] eqn:S; try discriminate.
  apply andb_prop in H4 as [H4 H5].
  assert (HP : pre_ok (pre_ins (ipre xs)) (wrs (iplace xs ins) st)).
  { apply pre_ins_wrs; [now apply iplace_ok|].
    unfold iwf in H1. apply andb_prop in H1 as [_ H1].
    unfold ipre. rewrite map_map. exact H1. }
  destruct (summary_sound _ _ _ _ _ _ _ _ _ S HP) as (r & R1 & R2 & R3 & R4).
  fold (call prog (iplace xs ins) out (length owt) st) in R4. fold res in R4.
  split.
  - rewrite (outs_wsum _ _ _ R4 owt), <- (ivals_eval xs ins st) by auto.
    rewrite <- vpoly_den.
    rewrite <- (peval_below _ r (get (wrs (iplace xs ins) st)) _ H3 R1).
    rewrite <- peval_psub, <- (pzero_sound r zs) by auto. apply pdvd_sound; auto. lia.
  - eapply bounds_le_ok; [exact H5|]. now apply outs_bound in R4.
Qed.

(** Turn a verification condition into linear arithmetic hypotheses. *)
Ltac vc_start :=
  match goal with
  | |- zvc ?h ?p ?x ?o ?n ?z =>
      unfold zvc; let s := constr:(summary h p (pre_ins (ipre x)) o n) in
      let v := eval vm_compute in s in
      replace s with v by (symmetry; vm_cast_no_check (eq_refl v))
  | |- vcq ?h ?p ?x ?o ?n ?q =>
      unfold vcq; let s := constr:(summary h p (pre_ins (ipre x)) o n) in
      let v := eval vm_compute in s in
      replace s with v by (symmetry; vm_cast_no_check (eq_refl v))
  end; cbv beta iota zeta.
Ltac vc_facts :=
  repeat match goal with
  | H : cons_hold _ _ |- _ => unfold cons_hold in H
  | H : Forall _ [] |- _ => clear H
  | H : Forall _ (_ :: _) |- _ =>
      let H1 := fresh "F" in let H2 := fresh in
      pose proof (Forall_inv H) as H1; pose proof (Forall_inv_tail H) as H2; clear H;
      cbv [peval term_eval mono_eval fold_right fst snd inI sp slo shi] in H1
  end;
  rewrite ?Z.mul_1_r in *.
Ltac vc_goal := cbv [peval term_eval mono_eval fold_right fst snd sp map nth val larr ib ibnd length
  repeat wbnd Pos.succ].
