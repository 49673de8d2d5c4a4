(** Two runs of programs that differ only in the placement of their operands.
    Used to show that results do not depend on uninitialised memory, nor on
    whether an output array shares its storage with an input. *)
From Coq Require Import ZArith List Bool Lia.
From Verif Require Import Uop Engine.
Import ListNotations.
Open Scope Z_scope.

Definition rel := list (loc * loc).
Definition inrel (R : rel) (x y : loc) : bool := existsb (fun p => Pos.eqb (fst p) x && Pos.eqb (snd p) y) R.
Definition orel (R : rel) (a b : opd) : bool :=
  match a, b with
  | L x, L y => inrel R x y
  | I u, I v => u =? v
  | _, _ => false
  end.
(** After writing [x] on the left and [y] on the right. *)
Definition upd (x y : loc) (R : rel) : rel :=
  (x, y) :: filter (fun p => negb (Pos.eqb (fst p) x) && negb (Pos.eqb (snd p) y)) R.

Definition lstep (u v : uop) (R : rel) : option rel :=
  match u, v with
  | UMov d a, UMov d' a' => if orel R a a' then Some (upd d d' R) else None
  | UAdd d c a b i, UAdd d' c' a' b' i' | USub d c a b i, USub d' c' a' b' i' =>
      if orel R a a' && orel R b b' && orel R i i' then Some (upd d d' (upd c c' R)) else None
  | UMul c d a b, UMul c' d' a' b' =>
      if orel R a a' && orel R b b' then Some (upd c c' (upd d d' R)) else None
  | UIMul d c a b, UIMul d' c' a' b' =>
      if orel R a a' && orel R b b' then Some (upd d d' (upd c c' R)) else None
  | UAddW d a b, UAddW d' a' b' | USubW d a b, USubW d' a' b' | UMul32 d a b, UMul32 d' a' b'
  | UAnd d a b, UAnd d' a' b' | UOr d a b, UOr d' a' b' | UXor d a b, UXor d' a' b'
  | UAndn d a b, UAndn d' a' b' =>
      if orel R a a' && orel R b b' then Some (upd d d' R) else None
  | UShr d a k, UShr d' a' k' | UShl d a k, UShl d' a' k' =>
      if orel R a a' && (k =? k') then Some (upd d d' R) else None
  | USel d c a b, USel d' c' a' b' =>
      if orel R a a' && orel R b b' && orel R c c' then Some (upd d d' R) else None
  | UEqz d a, UEqz d' a' => if orel R a a' then Some (upd d d' R) else None
  | _, _ => None
  end.
Fixpoint lock (p q : list uop) (R : rel) : option rel :=
  match p, q with
  | [], [] => Some R
  | u :: p, v :: q => match lstep u v R with Some R => lock p q R | None => None end
  | _, _ => None
  end.

Definition related (R : rel) (s t : store) : Prop := forall x y, inrel R x y = true -> get s x = get t y.

Lemma orel_ev R s t a b : related R s t -> orel R a b = true -> ev s a = ev t b.
Proof.
  intros H. destruct a, b; cbn [orel ev]; try discriminate; [apply H|now intros ->%Z.eqb_eq].
Qed.
Lemma upd_related R s t x y v : related R s t -> related (upd x y R) (set x v s) (set y v t).
Proof.
  intros H a b E. unfold inrel, upd in E. cbn [existsb fst snd] in E.
  apply orb_prop in E as [E|E].
  - apply andb_prop in E as [E1 E2]. apply Pos.eqb_eq in E1, E2. subst. now rewrite !get_set_same.
  - apply existsb_exists in E as ([p q] & E & F). cbn [fst snd] in F.
    apply filter_In in E as [E G]. cbn [fst snd] in G.
    apply andb_prop in F as [F1 F2]. apply Pos.eqb_eq in F1, F2. subst p q.
    apply andb_prop in G as [G1 G2]. apply negb_true_iff in G1, G2. apply Pos.eqb_neq in G1, G2.
    rewrite !get_set_other by congruence. apply H. apply existsb_exists. exists (a, b).
    cbn [fst snd]. now rewrite !Pos.eqb_refl.
Qed.
Lemma lstep_sound u v R R' s t : lstep u v R = Some R' -> related R s t -> related R' (step u s) (step v t).
Proof.
  intros E H.
  destruct u, v; cbn [lstep] in E; try discriminate;
  match type of E with (if ?c then _ else _) = _ => destruct c eqn:C; [|discriminate] end;
  injection E as <-;
  repeat match goal with C : _ && _ = true |- _ => apply andb_prop in C as [C ?] end;
  repeat match goal with C : (_ =? _) = true |- _ => apply Z.eqb_eq in C; subst end;
  cbn [step];
  repeat match goal with C : orel R _ _ = true |- _ => rewrite (orel_ev _ _ _ _ _ H C); clear C end;
  repeat apply upd_related; exact H.
Qed.
Theorem lock_sound p : forall q R R' s t, lock p q R = Some R' -> related R s t ->
  related R' (run p s) (run q t).
Proof.
  induction p as [|u p IH]; intros [|v q] R R' s t E H; cbn [lock run] in *; try discriminate.
  - now injection E as <-.
  - destruct (lstep u v R) eqn:S; try discriminate. eapply IH; eauto. eapply lstep_sound; eauto.
Qed.

(** Pairs of corresponding words of two placements of the same arrays. *)
Fixpoint arel (b b' : loc) (n : nat) : rel :=
  match n with O => [] | S n => (b, b') :: arel (Pos.succ b) (Pos.succ b') n end.
Lemma arel_rd b b' n s t : (forall x y, In (x, y) (arel b b' n) -> get s x = get t y) <->
  rd b n s = rd b' n t.
Proof.
  revert b b'; induction n; intros b b'; cbn [arel rd In]; [split; auto; tauto|].
  split.
  - intro H. f_equal; [apply H; now left|]. apply IHn. intros x y Hx. apply H. now right.
  - intros E x y [E'|Hx].
    + injection E' as <- <-. now injection E.
    + injection E as _ E. revert x y Hx. now apply IHn.
Qed.

Definition same_res (p q : list uop) (ins : list (loc * loc * nat)) (out out' : loc) (n : nat) : bool :=
  match lock p q (flat_map (fun x => arel (fst (fst x)) (snd (fst x)) (snd x)) ins) with
  | Some R => forallb (fun p => inrel R (fst p) (snd p)) (arel out out' n)
  | None => false
  end.
Theorem same_res_sound p q ins out out' n s t :
  same_res p q ins out out' n = true ->
  Forall (fun x => rd (fst (fst x)) (snd x) s = rd (snd (fst x)) (snd x) t) ins ->
  rd out n (run p s) = rd out' n (run q t).
Proof.
  unfold same_res. intros E H. destruct (lock _ _ _) as [R|] eqn:Lk; try discriminate.
  apply arel_rd. intros x y Hx. rewrite forallb_forall in E. specialize (E _ Hx). cbn [fst snd] in E.
  eapply lock_sound; eauto.
  intros a b Hab. apply existsb_exists in Hab as ([a' b'] & Hin & Hab). cbn [fst snd] in Hab.
  apply andb_prop in Hab as [H1 H2]. apply Pos.eqb_eq in H1, H2. subst a' b'.
  apply in_flat_map in Hin as ([[c c'] m] & Hc & Hin). cbn [fst snd] in Hin.
  rewrite Forall_forall in H. specialize (H _ Hc). cbn [fst snd] in H.
  rewrite <- arel_rd in H. now apply H.
Qed.
