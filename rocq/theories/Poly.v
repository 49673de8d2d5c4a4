(** Multivariate integer polynomials as (not necessarily sorted) term lists.
    Only the evaluation lemmas matter for soundness; sortedness merely makes
    the normal forms useful. *)
From Coq Require Import ZArith List Bool Lia PArith.
Import ListNotations.
Open Scope Z_scope.

Definition atom := positive.
Definition mono := list atom.
Definition poly := list (mono * Z).

Definition mono_eval (r : atom -> Z) (m : mono) : Z :=
  fold_right (fun a acc => r a * acc) 1 m.
Definition term_eval (r : atom -> Z) (t : mono * Z) : Z := snd t * mono_eval r (fst t).
Definition peval (r : atom -> Z) (p : poly) : Z :=
  fold_right (fun t acc => term_eval r t + acc) 0 p.

Fixpoint mono_cmp (a b : mono) : comparison :=
  match a, b with
  | [], [] => Eq
  | [], _ => Lt
  | _, [] => Gt
  | x :: a, y :: b => match Pos.compare x y with Eq => mono_cmp a b | c => c end
  end.

Lemma mono_cmp_eq a b : mono_cmp a b = Eq -> a = b.
Proof.
  revert b; induction a as [|x a IH]; destruct b as [|y b]; simpl; try discriminate; auto.
  destruct (Pos.compare x y) eqn:E; try discriminate.
  apply Pos.compare_eq in E; subst. intro H; f_equal; auto.
Qed.

(** Addition by merging; the fuel-free formulation recurses on both lists. *)
Fixpoint padd (p : poly) : poly -> poly :=
  fix inner (q : poly) : poly :=
    match p, q with
    | [], _ => q
    | _, [] => p
    | (m, c) :: p', (n, d) :: q' =>
        match mono_cmp m n with
        | Eq => let e := c + d in
                if e =? 0 then padd p' q' else (m, e) :: padd p' q'
        | Lt => (m, c) :: padd p' q
        | Gt => (n, d) :: inner q'
        end
    end.

Lemma peval_cons r t p : peval r (t :: p) = term_eval r t + peval r p.
Proof. reflexivity. Qed.

Lemma padd_cons m c p n d q :
  padd ((m, c) :: p) ((n, d) :: q) =
  match mono_cmp m n with
  | Eq => let e := c + d in if e =? 0 then padd p q else (m, e) :: padd p q
  | Lt => (m, c) :: padd p ((n, d) :: q)
  | Gt => (n, d) :: padd ((m, c) :: p) q
  end.
Proof. reflexivity. Qed.

Lemma peval_padd r p q : peval r (padd p q) = peval r p + peval r q.
Proof.
  revert q; induction p as [|[m c] p IHp].
  - destruct q; reflexivity.
  - induction q as [|[n d] q IHq].
    + simpl. lia.
    + rewrite padd_cons. destruct (mono_cmp m n) eqn:E.
      * apply mono_cmp_eq in E; subst n. cbv zeta.
        destruct (c + d =? 0) eqn:Z0.
        -- apply Z.eqb_eq in Z0. rewrite IHp, !peval_cons. unfold term_eval; simpl.
           assert (d = - c) by lia. subst d. lia.
        -- rewrite !peval_cons, IHp. unfold term_eval; simpl. lia.
      * rewrite (peval_cons r (m, c)), IHp, (peval_cons r (m, c)). lia.
      * rewrite (peval_cons r (n, d)), IHq, (peval_cons r (n, d)). lia.
Qed.

Definition pscale (k : Z) (p : poly) : poly :=
  if k =? 0 then [] else map (fun t => (fst t, k * snd t)) p.

Lemma peval_pscale r k p : peval r (pscale k p) = k * peval r p.
Proof.
  unfold pscale. destruct (k =? 0) eqn:E.
  - apply Z.eqb_eq in E; subst. simpl. lia.
  - clear E. induction p as [|[m c] p IH]; [cbn; lia|].
    cbn [map]. rewrite !peval_cons, IH. unfold term_eval; cbn [fst snd]. ring.
Qed.

Definition psub p q := padd p (pscale (-1) q).
Lemma peval_psub r p q : peval r (psub p q) = peval r p - peval r q.
Proof. unfold psub. rewrite peval_padd, peval_pscale. lia. Qed.

Definition pconst (k : Z) : poly := if k =? 0 then [] else [([], k)].
Lemma peval_pconst r k : peval r (pconst k) = k.
Proof.
  unfold pconst. destruct (k =? 0) eqn:E.
  - apply Z.eqb_eq in E; subst; reflexivity.
  - unfold peval, term_eval, mono_eval. cbn [fold_right fst snd]. ring.
Qed.

Definition patom (a : atom) : poly := [([a], 1)].
Lemma peval_patom r a : peval r (patom a) = r a.
Proof. unfold patom. unfold peval, term_eval, mono_eval. cbn [fold_right fst snd]. ring. Qed.

Fixpoint mono_mul (a : mono) : mono -> mono :=
  fix inner (b : mono) : mono :=
    match a, b with
    | [], _ => b
    | _, [] => a
    | x :: a', y :: b' =>
        if Pos.leb x y then x :: mono_mul a' b else y :: inner b'
    end.

Lemma mono_eval_mul r a b : mono_eval r (mono_mul a b) = mono_eval r a * mono_eval r b.
Proof.
  revert b; induction a as [|x a IHa].
  - destruct b; unfold mono_eval; cbn [mono_mul fold_right]; lia.
  - induction b as [|y b IHb].
    + unfold mono_eval; cbn [mono_mul fold_right]; lia.
    + cbn [mono_mul]. destruct (Pos.leb x y).
      * change (r x * mono_eval r (mono_mul a (y :: b)) = r x * mono_eval r a * mono_eval r (y :: b)).
        rewrite IHa. lia.
      * change (r y * mono_eval r (mono_mul (x :: a) b) = mono_eval r (x :: a) * (r y * mono_eval r b)).
        rewrite IHb. lia.
Qed.

Definition pmul_term (t : mono * Z) (q : poly) : poly :=
  fold_right (fun u acc => padd [(mono_mul (fst t) (fst u), snd t * snd u)] acc) [] q.
Definition pmul (p q : poly) : poly :=
  fold_right (fun t acc => padd (pmul_term t q) acc) [] p.

Lemma peval_pmul_term r t q : peval r (pmul_term t q) = term_eval r t * peval r q.
Proof.
  induction q as [|u q IH]; [cbn; lia|].
  unfold pmul_term in *. cbn [fold_right]. rewrite peval_padd, IH, !peval_cons.
  unfold term_eval at 1; cbn [fst snd]. rewrite mono_eval_mul.
  change (peval r []) with 0. unfold term_eval. lia.
Qed.
Lemma peval_pmul r p q : peval r (pmul p q) = peval r p * peval r q.
Proof.
  induction p as [|t p IH]; [cbn; lia|].
  unfold pmul in *. cbn [fold_right]. rewrite peval_padd, IH, peval_pmul_term, peval_cons. lia.
Qed.

Fixpoint mono_eqb (a b : mono) : bool :=
  match a, b with
  | [], [] => true
  | x :: a, y :: b => Pos.eqb x y && mono_eqb a b
  | _, _ => false
  end.
Fixpoint peqb (p q : poly) : bool :=
  match p, q with
  | [], [] => true
  | (m, c) :: p, (n, d) :: q => (c =? d) && mono_eqb m n && peqb p q
  | _, _ => false
  end.
Lemma mono_eqb_eq a b : mono_eqb a b = true -> a = b.
Proof.
  revert b; induction a; destruct b; simpl; try discriminate; auto.
  intro H; apply andb_prop in H as [H1 H2]. apply Pos.eqb_eq in H1. f_equal; auto.
Qed.
Lemma peqb_eq p q : peqb p q = true -> p = q.
Proof.
  revert q; induction p as [|[m c] p IH]; destruct q as [|[n d] q]; simpl; try discriminate; auto.
  intro H; apply andb_prop in H as [H1 H2]. apply andb_prop in H1 as [H0 H1].
  apply Z.eqb_eq in H0. apply mono_eqb_eq in H1. subst. f_equal; auto.
Qed.

(** All coefficients divisible by [m]. *)
Definition pdvd (m : Z) (p : poly) : bool := forallb (fun t => snd t mod m =? 0) p.
Lemma pdvd_sound r m p : m <> 0 -> pdvd m p = true -> peval r p mod m = 0.
Proof.
  intros Hm. induction p as [|t p IH]; cbn [pdvd forallb].
  - intros _. cbn [peval fold_right]. apply Z.mod_0_l; auto.
  - intro H; apply andb_prop in H as [H1 H2]. apply Z.eqb_eq in H1.
    rewrite peval_cons. apply IH in H2.
    apply Z.mod_divide in H1; auto. apply Z.mod_divide in H2; auto.
    apply Z.mod_divide; auto. apply Z.divide_add_r; auto.
    unfold term_eval. now apply Z.divide_mul_l.
Qed.

(** Exact quotient by a common factor of the coefficients. *)
Definition pdiv (m : Z) (p : poly) : poly := map (fun t => (fst t, snd t / m)) p.
Lemma pdiv_sound r m p : m <> 0 -> pdvd m p = true -> peval r p = m * peval r (pdiv m p).
Proof.
  intro Hm. induction p as [|[n c] p IH]; cbn [pdvd forallb].
  - intros _; cbn; lia.
  - intro H; apply andb_prop in H as [H1 H2]. cbn [snd] in H1. apply Z.eqb_eq in H1.
    cbn [pdiv map fst snd]. rewrite !peval_cons, IH by auto.
    unfold term_eval; cbn [fst snd]. unfold pdiv.
    rewrite (Z.div_mod c m) at 1 by auto. rewrite H1. lia.
Qed.

(** Atoms bounded by a counter. *)
Definition mono_lt (n : atom) (m : mono) : Prop := Forall (fun a => (a < n)%positive) m.
Definition poly_lt (n : atom) (p : poly) : Prop := Forall (fun t => mono_lt n (fst t)) p.

Lemma mono_lt_mul n a b : mono_lt n a -> mono_lt n b -> mono_lt n (mono_mul a b).
Proof.
  intro Ha; revert b; induction Ha as [|x a Hx Ha IHa].
  - destruct b; auto.
  - induction b as [|y b IHb]; intro Hb.
    + cbn [mono_mul]. constructor; auto.
    + cbn [mono_mul]. destruct (Pos.leb x y).
      * constructor; auto. now apply IHa.
      * inversion Hb; subst. constructor; auto. now apply IHb.
Qed.

Lemma poly_lt_padd n p q : poly_lt n p -> poly_lt n q -> poly_lt n (padd p q).
Proof.
  intro Hp; revert q; induction Hp as [|[m c] p Hm Hp IHp].
  - destruct q; auto.
  - induction q as [|[k d] q IHq]; intro Hq.
    + cbn [padd]. constructor; auto.
    + inversion Hq; subst. rewrite padd_cons. destruct (mono_cmp m k).
      * cbv zeta. destruct (c + d =? 0); [now apply IHp|]. constructor; auto. now apply IHp.
      * constructor; auto. now apply IHp.
      * constructor; auto. now apply IHq.
Qed.
Lemma poly_lt_pscale n k p : poly_lt n p -> poly_lt n (pscale k p).
Proof.
  intro H. unfold pscale. destruct (k =? 0); [constructor|].
  induction H; constructor; auto.
Qed.
Lemma poly_lt_psub n p q : poly_lt n p -> poly_lt n q -> poly_lt n (psub p q).
Proof. intros. apply poly_lt_padd; auto. now apply poly_lt_pscale. Qed.
Lemma poly_lt_pconst n k : poly_lt n (pconst k).
Proof. unfold pconst. destruct (k =? 0); repeat constructor. Qed.
Lemma poly_lt_patom n a : (a < n)%positive -> poly_lt n (patom a).
Proof. intro. repeat constructor; auto. Qed.
Lemma poly_lt_pmul_term n t q : mono_lt n (fst t) -> poly_lt n q -> poly_lt n (pmul_term t q).
Proof.
  intros Ht Hq. induction Hq; cbn [pmul_term fold_right]; [constructor|].
  apply poly_lt_padd; auto. constructor; [|constructor]. cbn [fst]. now apply mono_lt_mul.
Qed.
Lemma poly_lt_pmul n p q : poly_lt n p -> poly_lt n q -> poly_lt n (pmul p q).
Proof.
  intros Hp Hq. induction Hp; cbn [pmul fold_right]; [constructor|].
  apply poly_lt_padd; auto. now apply poly_lt_pmul_term.
Qed.
Lemma poly_lt_weaken n n' p : (n <= n')%positive -> poly_lt n p -> poly_lt n' p.
Proof.
  intros Hn H. eapply Forall_impl; [|exact H]. intros t Ht.
  eapply Forall_impl; [|exact Ht]. intros a Ha. simpl in *. lia.
Qed.

Lemma mono_eval_ext n r r' m : (forall a, (a < n)%positive -> r a = r' a) ->
  mono_lt n m -> mono_eval r m = mono_eval r' m.
Proof.
  intros E H. induction H; cbn [mono_eval fold_right]; auto.
  unfold mono_eval in IHForall. rewrite IHForall, E; auto.
Qed.
Lemma peval_ext n r r' p : (forall a, (a < n)%positive -> r a = r' a) ->
  poly_lt n p -> peval r p = peval r' p.
Proof.
  intros E H. induction H; auto. rewrite !peval_cons, IHForall. f_equal.
  unfold term_eval. f_equal. eapply mono_eval_ext; eauto.
Qed.
