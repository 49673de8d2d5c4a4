(** Limb-wise wrapped combinations x - y - z + c, and tight bounds of the products used
    by the point formulas of edwards25519. *)
From Coq Require Import ZArith List Bool Lia.
From Verif Require Import Uop X86 Sym Engine Bytes Check FullTac Lanes RedTac Simd Simd255 Fp25519Full Fp25519FullProofs FullMore
  Fp25519Red Fp25519RedProofs Fp25519RedMore Spec Ladder LadderProofs LadderVec Edwards255.
Import ListNotations.
Open Scope Z_scope.

Definition comb (x y z c : Z) : Z := (x - y - z + c) mod W.
Fixpoint combs (xs ys zs cs : list Z) : list Z :=
  match xs, ys, zs, cs with x :: xs, y :: ys, z :: zs, c :: cs => comb x y z c :: combs xs ys zs cs | _, _, _, _ => [] end.
Lemma comb_sub2 x y z c : wadd (wsub (wsub x y) z) c = comb x y z c.
Proof. unfold wadd, wsub, comb. rewrite Zminus_mod_idemp_l, Zplus_mod_idemp_l. reflexivity. Qed.
Lemma comb_sub1 x y c : wadd (wsub x y) c = comb x y 0 c.
Proof. unfold wadd, wsub, comb. rewrite Zplus_mod_idemp_l. f_equal. ring. Qed.
Lemma comb_add x c : wadd x c = comb x 0 0 c.
Proof. unfold wadd, comb. f_equal. ring. Qed.
(** Bounds under which nothing wraps *)
Fixpoint fits (bx by' bz : list (Z * Z)) (cs : list (Z * Z)) : bool :=
  match bx, by', bz, cs with
  | (_, x) :: bx, (_, y) :: by', (_, z) :: bz, (l, c) :: cs => (y + z <=? l) && (x + c <? W) && fits bx by' bz cs
  | [], [], [], [] => true
  | _, _, _, _ => false
  end.
Definition outb (bx cs : list (Z * Z)) : list (Z * Z) := zip2 (fun b c => (0, snd b + snd c)) bx cs.
Definition pos_lo (bs : list (Z * Z)) : bool := forallb (fun b => 0 <=? fst b) bs.
Lemma combs_ok : forall w bx by' bz bc x y z c, arr_ok bx x -> arr_ok by' y -> arr_ok bz z -> arr_ok bc c ->
  pos_lo bx = true -> pos_lo by' = true -> pos_lo bz = true -> fits bx by' bz bc = true ->
  wsum w (combs x y z c) = wsum w x - wsum w y - wsum w z + wsum w c /\ arr_ok (outb bx bc) (combs x y z c).
Proof.
  intros w bx by' bz bc x y z c Hx. revert w by' bz bc y z c.
  induction Hx as [|b x0 bx x Hb Hx IH]; intros w by' bz bc y z c Hy Hz Hc Px Py Pz Hf.
  - destruct by', bz, bc; try discriminate Hf. inversion Hy; inversion Hz; inversion Hc; subst. split; [destruct w; reflexivity|constructor].
  - destruct b as [bl bh]. destruct by' as [|[yl yh] by']; [discriminate Hf|]. destruct bz as [|[zl zh] bz]; [discriminate Hf|].
    destruct bc as [|[cl ch] bc]; [discriminate Hf|]. cbn [fits] in Hf. apply andb_prop in Hf as [Hf Hr]. apply andb_prop in Hf as [H1 H2].
    apply Z.leb_le in H1. apply Z.ltb_lt in H2.
    inversion Hy as [|? y0 ? y' Iy Hy' E1 E2]; subst. inversion Hz as [|? z0 ? z' Iz Hz' E1 E2]; subst. inversion Hc as [|? c0 ? c' Ic Hc' E1 E2]; subst.
    apply andb_prop in Px as [Px0 Px], Py as [Py0 Py], Pz as [Pz0 Pz]. cbn [fst snd] in *.
    apply Z.leb_le in Px0, Py0, Pz0.
    destruct (IH (tl w) by' bz bc y' z' c' Hy' Hz' Hc' Px Py Pz Hr) as [E A]. unfold inI in *. cbn [fst snd] in *.
    assert (Ec : comb x0 y0 z0 c0 = x0 - y0 - z0 + c0) by (unfold comb; apply Z.mod_small; lia).
    split.
    + cbn [combs]. destruct w as [|w0 w]; [reflexivity|]. cbn [wsum tl] in *. rewrite E, Ec. ring.
    + cbn [outb zip2 combs]. constructor; [|exact A]. unfold inI. cbn [fst snd]. rewrite Ec. lia.
Qed.
Lemma repeat0_ok w n : wsum w (repeat 0 n) = 0.
Proof. revert w. induction n as [|n IH]; intros [|w0 w]; try reflexivity. cbn [repeat wsum]. rewrite IH. ring. Qed.
Definition zb10 : list (Z * Z) := repeat (0, 0) 10.
Lemma zeros10 : arr_ok zb10 (repeat 0 10). Proof. repeat constructor; cbn; lia. Qed.

(** ** Tight bounds *)
Definition mid255 : list (Z * Z) := Eval vm_compute in bnd255 (3 * 2 ^ 26 + 2 ^ 13) (3 * 2 ^ 25 + 2 ^ 18).
Definition sq255 : list (Z * Z) := Eval vm_compute in bnd255 (126 * 2 ^ 52) (156 * 2 ^ 51).
Definition sq2_255 : list (Z * Z) := Eval vm_compute in bnd255 (252 * 2 ^ 52) (312 * 2 ^ 51).
Definition b43 : list (Z * Z) := Eval vm_compute in bnd255 (2 ^ 43) (2 ^ 43).
Definition twoc255 : list (Z * Z) := Eval vm_compute in bnd255 (2 ^ 27 - 1) (2 ^ 26 - 1).
Definition midred255 : list (Z * Z) := Eval vm_compute in bnd255 (3 * 126 * 2 ^ 52 + 2 ^ 45) (3 * 156 * 2 ^ 51 + 2 ^ 45).
Definition c35 : list Z := Eval vm_compute in pick (ixh false) 10 CONST_2_to_35P_2w.
Definition c35b : list (Z * Z) := Eval vm_compute in map (fun x => (x, x)) c35.
Lemma c35_halves h : pick (ixh h) 10 CONST_2_to_35P_2w = c35. Proof. destruct h; reflexivity. Qed.
Lemma c35_ok : arr_ok c35b c35. Proof. repeat constructor; cbn; lia. Qed.
Lemma c35_cg : cg (fe255 c35) 0. Proof. vm_compute. reflexivity. Qed.
Section Tight.
Variable st : store.
Notation l2 a := (length a = 20%nat). Notation l4 a := (length a = 40%nat).
Ltac duo chk prog xs out ob e ins h := do_duo chk prog wt255 xs out ob P e ins st 10%nat h.
Ltac quad chk prog xs out ob e ins j := do_quad chk prog wt255 xs out ob P e ins st 10%nat j.
Lemma intsqr_2w_tight a h : l2 a -> is_red (el2 h a) ->
  cg (fe255 (el2 h (intsqr_2w st a))) (fe255 (el2 h a) * fe255 (el2 h a)) /\ arr_ok sq255 (el2 h (intsqr_2w st a)).
Proof. intros. duo chk2_intsqr v255_2w_intsqr [(q1, red255)] q1 sq255 eSqr [a] h. Qed.
Lemma intmul_2w_tight a b h : l2 a -> l2 b -> is_red (el2 h a) -> is_red (el2 h b) ->
  cg (fe255 (el2 h (intmul_2w st a b))) (fe255 (el2 h a) * fe255 (el2 h b)) /\ arr_ok sq255 (el2 h (intmul_2w st a b)).
Proof. intros. duo chk2_intmul v255_2w_intmul [(q2, red255); (q3, red255)] q1 sq255 eMul [a; b] h. Qed.
Lemma add_2w_sq a b h : l2 a -> l2 b -> arr_ok sq255 (el2 h a) -> arr_ok sq255 (el2 h b) ->
  cg (fe255 (el2 h (add_2w st a b))) (fe255 (el2 h a) + fe255 (el2 h b)) /\ arr_ok sq2_255 (el2 h (add_2w st a b)).
Proof. intros. duo chk2_add v255_2w_add [(q2, sq255); (q3, sq255)] q1 sq2_255 eAdd [a; b] h. Qed.
Lemma compressfast_2w_big a h : l2 a -> is_big (el2 h a) ->
  cg (fe255 (el2 h (compressfast_2w st a))) (fe255 (el2 h a)) /\ arr_ok b43 (el2 h (compressfast_2w st a)).
Proof. intros. duo chk2_compressfast v255_2w_compressfast [(q1, big255)] q1 b43 eIn [a] h. Qed.
Ltac mix prog b0 b1 o0 o1 e h a :=
  let hs := eval vm_compute in (hs_of true (slice (vcode prog) (larr q1 20)) (flat_ins [(q2, mix2 b0 b1)])) in
  refine (mix2_one st prog b0 b1 hs o0 o1 e h a eq_refl eq_refl eq_refl eq_refl _ _ _ _);
  [vm_cast_no_check (eq_refl true)|assumption|assumption|assumption].
Lemma subadd0_2w_mid a : l2 a -> is_red (el2 false a) -> is_red (el2 true a) ->
  let r := subadd_2w st false a in
  cg (fe255 (el2 false r)) (fe255 (el2 false a) - fe255 (el2 true a)) /\ cg (fe255 (el2 true r)) (fe255 (el2 false a) + fe255 (el2 true a)) /\
  arr_ok mid255 (el2 false r) /\ arr_ok mid255 (el2 true r).
Proof.
  intros La H0 H1 r. unfold r, subadd_2w.
  assert (A : cg (fe255 (el2 false (vop2 st 20 v255_2w_subadd0 a))) (vden (a ++ []) (VSub (e2 0 false) (e2 0 true))) /\
      arr_ok mid255 (el2 false (vop2 st 20 v255_2w_subadd0 a)) /\ arr_ok mid255 (el2 true (vop2 st 20 v255_2w_subadd0 a)))
      by mix v255_2w_subadd0 red255 red255 mid255 mid255 (VSub (e2 0 false) (e2 0 true)) false a.
  assert (B : cg (fe255 (el2 true (vop2 st 20 v255_2w_subadd0 a))) (vden (a ++ []) (VAdd (e2 0 false) (e2 0 true))) /\
      arr_ok mid255 (el2 false (vop2 st 20 v255_2w_subadd0 a)) /\ arr_ok mid255 (el2 true (vop2 st 20 v255_2w_subadd0 a)))
      by mix v255_2w_subadd0 red255 red255 mid255 mid255 (VAdd (e2 0 false) (e2 0 true)) true a.
  cbn [vden] in A, B. rewrite !e2_ok0 in A, B by exact La. tauto.
Qed.
Lemma intmul_2w_mid a b h : l2 a -> l2 b -> arr_ok mid255 (el2 h a) -> is_red (el2 h b) ->
  cg (fe255 (el2 h (intmul_2w st a b))) (fe255 (el2 h a) * fe255 (el2 h b)) /\ arr_ok midred255 (el2 h (intmul_2w st a b)).
Proof. intros. duo chk2_intmul v255_2w_intmul [(q2, mid255); (q3, red255)] q1 midred255 eMul [a; b] h. Qed.
Variable j : nat.
Hypothesis Hj : (j < 4)%nat.
Lemma addsub_4w_mid1 a b : l4 a -> l4 b -> is_red (el4 j a) -> is_red (el4 j b) ->
  cg (fe255 (el4 j (fst (addsub_4w st a b)))) (fe255 (el4 j a) + fe255 (el4 j b)) /\ arr_ok mid255 (el4 j (fst (addsub_4w st a b))).
Proof. intros. quad chk4_addsub1 v255_4w_addsub [(q3, red255); (q4, red255)] q1 mid255 eAdd [a; b] j. Qed.
Lemma addsub_4w_mid2 a b : l4 a -> l4 b -> is_red (el4 j a) -> is_red (el4 j b) ->
  cg (fe255 (el4 j (snd (addsub_4w st a b)))) (fe255 (el4 j a) - fe255 (el4 j b)) /\ arr_ok mid255 (el4 j (snd (addsub_4w st a b))).
Proof. intros. quad chk4_addsub2 v255_4w_addsub [(q3, red255); (q4, red255)] q2 mid255 eSub [a; b] j. Qed.
Lemma intmul_4w_lar a b : l4 a -> l4 b -> arr_ok mid255 (el4 j a) -> arr_ok canon255 (el4 j b) ->
  cg (fe255 (el4 j (intmul_4w st a b))) (fe255 (el4 j a) * fe255 (el4 j b)) /\ arr_ok lar255 (el4 j (intmul_4w st a b)).
Proof. intros. quad chk4_intmul v255_4w_intmul_sb [(q2, mid255); (q3, canon255)] q1 lar255 eMul [a; b] j. Qed.
Lemma intmul_4w_tight a b : l4 a -> l4 b -> is_red (el4 j a) -> is_red (el4 j b) ->
  cg (fe255 (el4 j (intmul_4w st a b))) (fe255 (el4 j a) * fe255 (el4 j b)) /\ arr_ok sq255 (el4 j (intmul_4w st a b)).
Proof. intros. quad chk4_intmul v255_4w_intmul_sb [(q2, red255); (q3, red255)] q1 sq255 eMul [a; b] j. Qed.
Lemma intmul_4w_mid a b : l4 a -> l4 b -> arr_ok mid255 (el4 j a) -> is_red (el4 j b) ->
  cg (fe255 (el4 j (intmul_4w st a b))) (fe255 (el4 j a) * fe255 (el4 j b)) /\ arr_ok midred255 (el4 j (intmul_4w st a b)).
Proof. intros. quad chk4_intmul v255_4w_intmul_sb [(q2, mid255); (q3, red255)] q1 midred255 eMul [a; b] j. Qed.
End Tight.
