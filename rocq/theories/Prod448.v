(** The limbs of a product of edwards448 as explicit sums of products of limbs. *)
From Coq Require Import ZArith List Bool Lia.
From Verif Require Import Uop Poly Sym Engine Check Bytes FullTac Lanes RedTac Simd Simd448 Fp448Full Fp448FullProofs FullMore
  Fp25519Red Fp448Red Fp448RedProofs.
Import ListNotations.
Open Scope Z_scope.
(** Sums of products of entries of two lists *)
Definition row : Type := list (nat * nat * Z).
Fixpoint bil (c : row) (a b : list Z) : Z :=
  match c with [] => 0 | (k, l, z) :: c => z * (nth k a 0 * nth l b 0) + bil c a b end.
(** Where limb k is stored, and the multiplicity of limb i in 2^(28 m) modulo 2^448 - 2^224 - 1 *)
Definition at_word (k : nat) : nat := if (k <? 8)%nat then 2 * k else 2 * (k - 8) + 1.
Definition fold_at (m i : nat) : Z :=
  if (m <? 16)%nat then (if (m =? i)%nat then 1 else 0)
  else if (m <? 24)%nat then (if (m =? i + 16)%nat || (m =? i + 8)%nat then 1 else 0)
  else if (m =? i + 16)%nat then 2 else if (m =? i + 24)%nat then 1 else 0.
Definition row_of (i : nat) : row :=
  filter (fun t => negb (snd t =? 0)) (flat_map (fun k => map (fun l => (at_word k, at_word l, fold_at (k + l) i)) (seq 0 16)) (seq 0 16)).
Definition limb_of (w : nat) : nat := if Nat.even w then Nat.div2 w else Nat.div2 w + 8.
Definition rows : list row := Eval vm_compute in map (fun w => row_of (limb_of w)) (seq 0 16).
Definition mp16 (a b : list Z) : list Z := map (fun c => bil c a b) rows.

Definition rowp (la lb : list loc) (c : row) : poly :=
  fold_right (fun t acc => padd (pscale (snd t) (pmul (patom (nth (fst (fst t)) la 1%positive)) (patom (nth (snd (fst t)) lb 1%positive)))) acc) [] c.
Lemma rowp_ok r la lb c : forallb (fun t : nat * nat * Z => (fst (fst t) <? length la)%nat && (snd (fst t) <? length lb)%nat) c = true ->
  peval r (rowp la lb c) = bil c (map r la) (map r lb).
Proof.
  induction c as [|[[k l] z] c IH]; intro H; [reflexivity|].
  cbn [forallb fst snd] in H. apply andb_prop in H. destruct H as [H0 H]. apply andb_prop in H0. destruct H0 as [Hk Hl].
  apply Nat.ltb_lt in Hk, Hl.
  cbn [rowp fold_right bil fst snd]. rewrite peval_padd, peval_pscale, peval_pmul, !peval_patom. fold (rowp la lb c). rewrite IH by exact H.
  rewrite (nth_indep (map r la) 0 (r 1%positive)), (nth_indep (map r lb) 0 (r 1%positive)), !map_nth by (rewrite map_length; assumption). reflexivity.
Qed.
Definition pnull (p : poly) : bool := forallb (fun t => snd t =? 0) p.
Lemma pnull_ok r p : pnull p = true -> peval r p = 0.
Proof.
  induction p as [|[m c] p IH]; intro H; [reflexivity|]. cbn [pnull forallb snd] in H. apply andb_prop in H. destruct H as [H0 H].
  rewrite peval_cons, IH by exact H. apply Z.eqb_eq in H0. unfold term_eval. cbn [snd]. rewrite H0. reflexivity.
Qed.
Fixpoint all2 {A B} (f : A -> B -> bool) (a : list A) (b : list B) : bool :=
  match a, b with [], [] => true | x :: a, y :: b => f x y && all2 f a b | _, _ => false end.
Definition limbs_check (hs : list nat) (prog : list uop) (xs : list iarr) (out : loc) (n : nat) (ps : list poly) : bool :=
  match summary hs prog (pre_ins (ipre xs)) out n with
  | Some (l, _, _) => all2 (fun x p => pnull (psub (sp x) p)) l ps
  | None => false
  end.
Lemma limbs_vcq hs prog xs out n ps f : limbs_check hs prog xs out n ps = true ->
  (forall r, map (peval r) ps = f (map (fun x => map r (larr (ib x) (length (ibnd x)))) xs)) -> vcq hs prog xs out n (fun ins res => res = f ins).
Proof.
  unfold limbs_check, vcq. destruct (summary hs prog (pre_ins (ipre xs)) out n) as [[[l cs] rs]|]; [|discriminate].
  intros H E r _ _ _. rewrite <- E. clear E. revert ps H. induction l as [|x l IH]; intros [|p ps] H; try discriminate H; [reflexivity|].
  cbn [all2] in H. apply andb_prop in H. destruct H as [H0 H]. cbn [map]. rewrite (IH _ H). f_equal.
  apply (pnull_ok r) in H0. rewrite peval_psub in H0. lia.
Qed.
Section Quad.
Variables (st : store) (j : nat).
Hypothesis Hj : (j < 4)%nat.
Notation xs4 := (larrs wt448 [(unlane4 q2, wide448); (unlane4 q3, red448)]).
Definition hs4 : list nat := Eval vm_compute in hs_of true (lane_prog (vcode v448_4w_intmul_karat) q1 16) xs4.
Definition ps4 : list poly := Eval vm_compute in map (rowp (larr (unlane4 q2) 16) (larr (unlane4 q3) 16)) rows.
Lemma check4 : limbs_check hs4 (lane_prog (vcode v448_4w_intmul_karat) q1 16) xs4 (unlane4 q1) 16 ps4 = true.
Proof. vm_cast_no_check (eq_refl true). Qed.
Lemma rows_small : forallb (fun c => forallb (fun t : nat * nat * Z => (fst (fst t) <? 16)%nat && (snd (fst t) <? 16)%nat) c) rows = true.
Proof. vm_compute. reflexivity. Qed.
Lemma ps4_eq : ps4 = map (rowp (larr (unlane4 q2) 16) (larr (unlane4 q3) 16)) rows.
Proof. vm_compute. reflexivity. Qed.
Lemma ps4_val r : map (peval r) ps4 = mp16 (map r (larr (unlane4 q2) 16)) (map r (larr (unlane4 q3) 16)).
Proof.
  rewrite ps4_eq, map_map. apply map_ext_in. intros c Hc. apply rowp_ok. pose proof rows_small as R. rewrite forallb_forall in R. exact (R c Hc).
Qed.
Theorem intmul448_4w_limbs a b : length a = 64%nat -> length b = 64%nat -> is_wide448 (el4q j a) -> is_red448 (el4q j b) ->
  el4q j (intmul448_4w st a b) = mp16 (el4q j a) (el4q j b).
Proof.
  intros La Lb Ha Hb. pose proof chkq4_intmul as H. unfold quad_check in H. rewrite forallb_forall in H.
  specialize (H j ltac:(apply in_seq; lia)).
  pose proof (lane_pick (lane4 j) (ix4 j) unlane4 4 (lane4_inj j) v448_4w_intmul_karat _ [q2; q3] q1 16 [a; b] st st H) as E.
  assert (F : Forall2 (fun (_ : loc) (x : list Z) => length x = (4 * 16)%nat) [q2; q3] [a; b]) by (repeat constructor; assumption).
  specialize (E F). unfold intmul448_4w. change (4 * 16)%nat with 64%nat in E. refine (eq_trans E _).
  change (combine (map unlane4 [q2; q3]) (map (pick (ix4 j) 16) [a; b])) with (iplace xs4 [el4q j a; el4q j b]).
  refine (vcq_sound hs4 _ xs4 (unlane4 q1) 16 (fun ins res => res = mp16 (nth 0 ins []) (nth 1 ins [])) [el4q j a; el4q j b] st _ eq_refl _).
  - apply (limbs_vcq _ _ _ _ _ ps4 (fun ins => mp16 (nth 0 ins []) (nth 1 ins []))); [exact check4|]. intro r. rewrite ps4_val. reflexivity.
  - apply Forall2_cons; [exact Ha|]. apply Forall2_cons; [exact Hb|]. apply Forall2_nil.
Qed.
End Quad.

(** ** Bilinearity and monotonicity *)
Definition rpos (c : row) : bool := forallb (fun t => 0 <=? snd t) c.
Lemma rows_pos : forallb rpos rows = true. Proof. vm_compute. reflexivity. Qed.
Definition below (a b : list Z) : Prop := forall k, 0 <= nth k a 0 <= nth k b 0.
Lemma bil_mono c a a' b b' : rpos c = true -> below a a' -> below b b' -> 0 <= bil c a b <= bil c a' b'.
Proof.
  intros P A B. induction c as [|[[k l] z] c IH]; [cbn [bil]; lia|]. cbn [rpos forallb snd] in P. apply andb_prop in P. destruct P as [P0 P]. apply Z.leb_le in P0.
  specialize (IH P). cbn [bil]. specialize (A k). specialize (B l).
  assert (0 <= nth k a 0 * nth l b 0 <= nth k a' 0 * nth l b' 0) by nia. nia.
Qed.
Lemma bil_le c a a' b b' : rpos c = true -> (forall k l, nth k a 0 * nth l b 0 <= nth k a' 0 * nth l b' 0) -> bil c a b <= bil c a' b'.
Proof.
  intros P A. induction c as [|[[k l] z] c IH]; [cbn [bil]; lia|]. cbn [rpos forallb snd] in P. apply andb_prop in P. destruct P as [P0 P]. apply Z.leb_le in P0.
  specialize (IH P). cbn [bil]. specialize (A k l). nia.
Qed.
(** A bound for the sum of two products that follows from a bound for each pair of terms *)
Lemma bil_sum_le c a b a' b' x y x' y' : rpos c = true ->
  (forall k l, nth k a 0 * nth l b 0 + nth k a' 0 * nth l b' 0 <= nth k x 0 * nth l y 0 + nth k x' 0 * nth l y' 0) ->
  bil c a b + bil c a' b' <= bil c x y + bil c x' y'.
Proof.
  intros P A. induction c as [|[[k l] z] c IH]; [cbn [bil]; lia|]. cbn [rpos forallb snd] in P. apply andb_prop in P. destruct P as [P0 P]. apply Z.leb_le in P0.
  specialize (IH P). cbn [bil]. specialize (A k l). nia.
Qed.
