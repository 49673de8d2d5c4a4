(** The operations used by the two-lane map, one lane at a time, with values in the field. *)
From Coq Require Import ZArith Znumtheory List Bool Lia.
From Verif Require Import Uop Poly Sym Engine Check Bytes FullTac Simd Simd255 Lanes RedTac X86 FpType Fp25519Full Fp25519FullProofs Fp25519Red Fp25519RedProofs Fp25519RedMore Fp25519RedRoot
  FullMore CurveInst EdInst SpecEd SpecH2c Elligator Edwards255 Hash255 Hash255Proofs Map255x2.
Import ListNotations.
Open Scope Z_scope.
Local Open Scope Z_scope.

(** The sum of two reduced elements *)
Definition sum255 : list (Z * Z) := Eval vm_compute in bnd255 (2 * (2 ^ 26 + 2 ^ 13)) (2 * (2 ^ 25 + 2 ^ 18)).
(** Lane h of a is x in the field; the limbs of both lanes are within the bounds *)
Definition gl (bnd : list (Z * Z)) (h : bool) (a : list Z) (x : F) : Prop :=
  length a = 20%nat /\ (forall h', arr_ok bnd (el2 h' a)) /\ I (fe255 (el2 h a)) = x.
Notation fr := (gl red255). Notation fv := (gl wide255).

Lemma cg_I x y : cg x y -> I x = I y.
Proof. intro H. apply I_mod. apply eqp_cg in H. exact H. Qed.
Lemma weak b b' : forallb (fun t => (fst (snd t) <=? fst (fst t)) && (snd (fst t) <=? snd (snd t))) (combine b b') = true -> length b = length b' ->
  forall a, arr_ok b a -> arr_ok b' a.
Proof.
  revert b'. induction b as [|x b IH]; intros [|y b'] H L a A; try discriminate; inversion A; subst; [constructor|].
  cbn [combine forallb fst snd] in H. apply andb_prop in H as [H H']. apply andb_prop in H as [G1 G2]. apply Z.leb_le in G1, G2.
  constructor; [unfold inI in *; lia|]. apply (IH b'); [exact H'|now injection L|assumption].
Qed.
Lemma red_sum a : is_red a -> arr_ok sum255 a. Proof. apply weak; vm_compute; reflexivity. Qed.
Lemma sum_wide a : arr_ok sum255 a -> is_wide a. Proof. apply weak; vm_compute; reflexivity. Qed.
Lemma fr_fv h a x : fr h a x -> fv h a x.
Proof. intros (L & B & E). split; [exact L|]. split; [|exact E]. intro h'. apply red_wide, B. Qed.
Lemma fs_fv h a x : gl sum255 h a x -> fv h a x.
Proof. intros (L & B & E). split; [exact L|]. split; [|exact E]. intro h'. apply sum_wide, B. Qed.
Lemma lit bnd h a x : length a = 20%nat -> (arr_okb bnd (el2 false a) && arr_okb bnd (el2 true a) = true) -> fe255 (el2 false a) mod p25519 = x mod p25519 -> fe255 (el2 true a) mod p25519 = x mod p25519 -> gl bnd h a (I x).
Proof.
  intros L B E0 E1. apply andb_prop in B as [B0 B1]. split; [exact L|]. split.
  - intros []; apply arr_lit; assumption.
  - apply I_mod. destruct h; assumption.
Qed.
Lemma wide_words a : length a = 20%nat -> (forall h, is_wide (el2 h a)) -> words 20 a.
Proof.
  intros L B. split; [exact L|]. pose proof (B false) as B0. pose proof (B true) as B1. clear B.
  do 20 (destruct a as [|? a]; [discriminate L|]); destruct a; [|discriminate L].
  unfold arr_ok in *. cbv [pick ixh map seq Nat.div Nat.modulo Nat.divmod fst snd Nat.mul Nat.add Nat.sub nth] in B0, B1.
  repeat match goal with H : Forall2 _ _ _ |- _ => inversion H; subst; clear H end.
  unfold inI in *. cbn [fst snd] in *.
  repeat (apply Forall_cons; [unfold word, W; lia|]). apply Forall_nil.
Qed.

Section Ops.
Variable st : store. Variable h : bool.
Notation l2 a := (length a = 20%nat).
Lemma vlen n p a b : length (vop3 st n p a b) = n. Proof. apply call_length. Qed.
Lemma fr_mul a b x y : fv h a x -> fv h b y -> fr h (mul_2w st a b) (x * y)%F.
Proof.
  intros (La & A & X) (Lb & B & Y). split; [apply call_length|]. split; [intro h'; exact (proj2 (mul_2w_ok st a b h' La Lb (A h') (B h')))|].
  rewrite <- X, <- Y, <- inF_mul. apply cg_I. exact (proj1 (mul_2w_ok st a b h La Lb (A h) (B h))).
Qed.
Lemma fr_sqr a x : fv h a x -> fr h (sqr_2w st a) (x * x)%F.
Proof.
  intros (La & A & X). split; [apply call_length|]. split; [intro h'; exact (proj2 (sqr_2w_ok st a h' La (A h')))|].
  rewrite <- X, <- inF_mul. apply cg_I. exact (proj1 (sqr_2w_ok st a h La (A h))).
Qed.
Lemma add_2w_sum a b h' : l2 a -> l2 b -> is_red (el2 h' a) -> is_red (el2 h' b) ->
  cg (fe255 (el2 h' (add_2w st a b))) (fe255 (el2 h' a) + fe255 (el2 h' b)) /\ arr_ok sum255 (el2 h' (add_2w st a b)).
Proof. intros. do_duo chk2_add v255_2w_add wt255 [(q2, red255); (q3, red255)] q1 sum255 p25519 eAdd [a; b] st 10%nat h'. Qed.
Lemma add_2w_sum3 a b h' : l2 a -> l2 b -> arr_ok sum255 (el2 h' a) -> is_red (el2 h' b) ->
  cg (fe255 (el2 h' (add_2w st a b))) (fe255 (el2 h' a) + fe255 (el2 h' b)) /\ is_wide (el2 h' (add_2w st a b)).
Proof. intros. do_duo chk2_add v255_2w_add wt255 [(q2, sum255); (q3, red255)] q1 wide255 p25519 eAdd [a; b] st 10%nat h'. Qed.
Lemma fr_add a b x y : fr h a x -> fr h b y -> gl sum255 h (add_2w st a b) (x + y)%F.
Proof.
  intros (La & A & X) (Lb & B & Y). split; [apply call_length|]. split; [intro h'; exact (proj2 (add_2w_sum a b h' La Lb (A h') (B h')))|].
  rewrite <- X, <- Y, <- inF_add. apply cg_I. exact (proj1 (add_2w_sum a b h La Lb (A h) (B h))).
Qed.
Lemma fr_add3 a b x y : gl sum255 h a x -> fr h b y -> fv h (add_2w st a b) (x + y)%F.
Proof.
  intros (La & A & X) (Lb & B & Y). split; [apply call_length|]. split; [intro h'; exact (proj2 (add_2w_sum3 a b h' La Lb (A h') (B h')))|].
  rewrite <- X, <- Y, <- inF_add. apply cg_I. exact (proj1 (add_2w_sum3 a b h La Lb (A h) (B h))).
Qed.
Lemma fr_sub a b x y : fr h a x -> fr h b y -> fv h (sub_2w st a b) (x - y)%F.
Proof.
  intros (La & A & X) (Lb & B & Y). split; [apply call_length|]. split; [intro h'; exact (proj2 (sub_2w_ok st a b h' La Lb (A h') (B h')))|].
  rewrite <- X, <- Y, <- inF_sub. apply cg_I. exact (proj1 (sub_2w_ok st a b h La Lb (A h) (B h))).
Qed.
Lemma fr_neg a x : fr h a x -> fv h (neg_2w st a) (- x)%F.
Proof.
  intros (La & A & X). split; [apply call_length|]. split; [intro h'; exact (proj2 (neg_2w_ok st a h' La (A h')))|].
  rewrite <- X, <- inF_opp. apply cg_I. exact (proj1 (neg_2w_ok st a h La (A h))).
Qed.
Lemma fr_compress a x : fv h a x -> fr h (compress_2w st a) x.
Proof.
  intros (La & A & X). split; [apply call_length|].
  split; [intro h'; exact (proj2 (compress_2w_ok st a h' La (wide_big _ (A h'))))|].
  rewrite <- X. apply cg_I. exact (proj1 (compress_2w_ok st a h La (wide_big _ (A h)))).
Qed.
(** ** Masks *)
Definition mk (b : bool) : Z := if b then 2 ^ 64 - 1 else 0.
Definition is_mask (e : list Z) (d : bool -> bool) : Prop := exists x1 x3, e = [mk (d false); x1; mk (d true); x3].
Lemma sel2 bnd e d a b x y : (forall v, arr_ok bnd v -> is_wide v) -> is_mask e d -> gl bnd h a x -> gl bnd h b y -> gl bnd h (cmv_2w e a b) (if d h then y else x).
Proof.
  intros Wd (x1 & x3 & ->) (La & A & X) (Lb & B & Y).
  assert (Wa : words 20 a) by (apply wide_words; [exact La|intro h'; apply Wd, A]).
  assert (Wb : words 20 b) by (apply wide_words; [exact Lb|intro h'; apply Wd, B]).
  assert (C : cmv_2w [mk (d false); x1; mk (d true); x3] a b = cmv_2w [if d false then 1 else 0; x1; if d true then 1 else 0; x3] a b).
  { unfold cmv_2w. cbv beta zeta. cbn [nth Nat.mul Nat.add]. destruct (d false), (d true); reflexivity. }
  assert (S : forall h', el2 h' (cmv_2w [mk (d false); x1; mk (d true); x3] a b) = el2 h' (if d h' then b else a)).
  { intro h'. rewrite C, (cmv_2w_ok (d false) (d true) x1 x3 a b h' Wa Wb). destruct h'; reflexivity. }
  split; [|split].
  - rewrite C. unfold cmv_2w. cbv beta zeta. clear - La Lb.
    do 20 (destruct a as [|? a]; [discriminate La|]); destruct a; [|discriminate La].
    do 20 (destruct b as [|? b]; [discriminate Lb|]); destruct b; [|discriminate Lb]. reflexivity.
  - intro h'. rewrite S. destruct (d h'); [apply B|apply A].
  - rewrite S. destruct (d h); assumption.
Qed.
End Ops.

(** ** Comparisons: the parities of the bytes *)
Definition fbits (x : F) : list bool := map (fun j => Z.odd (toZ p25 x / 2 ^ (8 * Z.of_nat j))) (seq 0 32).
Definition feq (x y : F) : bool := if list_eq_dec bool_dec (fbits x) (fbits y) then true else false.
Lemma low_bits_val bs : Forall byte bs -> low_bits bs = map (fun j => Z.odd (le_val bs / 2 ^ (8 * Z.of_nat j))) (seq 0 (length bs)).
Proof.
  induction bs as [|b bs IH]; intro H; [reflexivity|]. inversion H as [|? ? Hb Hbs]; subst. unfold low_bits in *. cbn [map length seq le_val].
  f_equal.
  - change (2 ^ (8 * Z.of_nat 0)) with 1. rewrite Z.div_1_r, Z.odd_add, Z.odd_mul. change (Z.odd 256) with false. destruct (Z.odd b); reflexivity.
  - rewrite (IH Hbs), <- seq_shift, map_map. apply map_ext. intro j. f_equal.
    replace (2 ^ (8 * Z.of_nat (S j))) with (256 * 2 ^ (8 * Z.of_nat j)) by (rewrite Nat2Z.inj_succ; replace (8 * Z.succ (Z.of_nat j)) with (8 + 8 * Z.of_nat j) by lia; rewrite Z.pow_add_r by lia; reflexivity).
    rewrite <- Z.div_div by (try apply Z.pow_pos_nonneg; lia). f_equal. unfold byte in Hb.
    rewrite (Z.mul_comm 256), Z.div_add, Z.div_small by lia. reflexivity.
Qed.
Lemma ser_bits st a x : is_red a -> I (fe255 a) = x -> low_bits (ser_1w st a) = fbits x.
Proof.
  intros A X. destruct (ser_1w_ok st a A) as [[L B] E]. rewrite (low_bits_val _ B), L, E, <- X.
  unfold fbits. rewrite (toZ_inF p25 p25_2). reflexivity.
Qed.
Lemma cmp_feq st a b x y : is_red a -> is_red b -> I (fe255 a) = x -> I (fe255 b) = y -> (cmp_1w st a b =? 0) = feq x y.
Proof.
  intros A B X Y. pose proof (cmp_1w_ok st a b (red_wide _ A) (red_wide _ B)) as C.
  rewrite (ser_bits st a x A X), (ser_bits st b y B Y) in C. unfold feq.
  destruct (list_eq_dec bool_dec (fbits x) (fbits y)) as [E|E].
  - apply Z.eqb_eq, C, E.
  - apply Z.eqb_neq. intro K. apply E, C, K.
Qed.
Lemma mask_0 (f : bool -> Z) : is_mask (v_eq [f false; 0; f true; 0] v_ZERO) (fun h => f h =? 0).
Proof. exists (2 ^ 64 - 1), (2 ^ 64 - 1). reflexivity. Qed.
Lemma mask_1 (f : bool -> Z) : is_mask (v_eq [f false; 0; f true; 0] v_ONE) (fun h => f h =? 1).
Proof. exists (2 ^ 64 - 1), (2 ^ 64 - 1). reflexivity. Qed.
Lemma mask_cmp st h a b x y : fr h a x -> fr h b y -> exists d, is_mask (v_eq (cmp_2w st a b) v_ZERO) d /\ d h = feq x y.
Proof.
  intros (La & A & X) (Lb & B & Y). pose proof (cmp_feq st _ _ x y (A h) (B h) X Y) as H.
  pose proof (mask_0 (fun h' => cmp_1w st (el2 h' a) (el2 h' b))) as M. rewrite (cmp_2w_el st a b La Lb).
  exists (fun h' => cmp_1w st (el2 h' a) (el2 h' b) =? 0). split; [exact M|exact H].
Qed.
Lemma sgn_par st a x : is_red a -> I (fe255 a) = x -> (sgn_1w st a =? 1) = (parity x =? 1).
Proof.
  intros A X. rewrite (sgn_1w_ok st _ (red_wide _ A) (red_256 _ A)). unfold parity. rewrite <- X, (toZ_inF p25 p25_2). reflexivity.
Qed.
Lemma mask_sgn st h a x : fr h a x -> exists d, is_mask (v_eq (sgn_2w st a) v_ONE) d /\ d h = (parity x =? 1).
Proof.
  intros (La & A & X). pose proof (sgn_par st _ x (A h) X) as H.
  pose proof (mask_1 (fun h' => sgn_1w st (el2 h' a))) as M. rewrite (sgn_2w_el st a La).
  exists (fun h' => sgn_1w st (el2 h' a) =? 1). split; [exact M|exact H].
Qed.
Lemma mask_xor e d e' d' : is_mask e d -> is_mask e' d' -> is_mask (v_xor e e') (fun h => xorb (d h) (d' h)).
Proof.
  intros (x1 & x3 & ->) (y1 & y3 & ->). exists (Z.lxor x1 y1), (Z.lxor x3 y3). unfold v_xor. cbn [combine map fst snd].
  destruct (d false), (d true), (d' false), (d' true); reflexivity.
Qed.
Lemma feq_refl x : feq x x = true. Proof. unfold feq. destruct (list_eq_dec bool_dec (fbits x) (fbits x)) as [E|E]; [reflexivity|destruct (E eq_refl)]. Qed.
Lemma fbits_parity x y : fbits x = fbits y -> parity x = parity y.
Proof.
  intro H. unfold fbits in H. cbn [seq map] in H. injection H as H _. change (2 ^ (8 * Z.of_nat 0)) with 1 in H. rewrite !Z.div_1_r in H.
  unfold parity. rewrite !Zmod_odd, H. reflexivity.
Qed.
Lemma feq_opp x : feq (- x)%F x = if Fp_dec p25 (- x)%F x then true else false.
Proof.
  destruct (Fp_dec p25 (- x)%F x) as [E|E]; [rewrite E; apply feq_refl|]. unfold feq.
  destruct (list_eq_dec bool_dec (fbits (- x)%F) (fbits x)) as [K|K]; [|reflexivity]. exfalso. apply fbits_parity in K.
  assert (N : x <> I 0) by (intro Z0; apply E; rewrite Z0; ring). rewrite (neg_parity x N) in K. destruct (parity_01 x) as [P|P]; rewrite P in K; discriminate K.
Qed.
Lemma one_fr h : fr h w_one (I 1). Proof. apply lit; vm_compute; reflexivity. Qed.
Lemma zero_fr h : fr h w_zero (I 0). Proof. apply lit; vm_compute; reflexivity. Qed.
Lemma A_fr h : fr h w_A (I J25519). Proof. apply lit; vm_compute; reflexivity. Qed.
Lemma c1_fr h : fr h w_c1 (I sqrt_mJ2). Proof. apply lit; vm_compute; reflexivity. Qed.
Lemma c2_fr h : fr h w_c2 (I (1 + i25)). Proof. apply lit; vm_compute; reflexivity. Qed.
Lemma c3_fr h : fr h w_c3 (I i25). Proof. apply lit; vm_compute; reflexivity. Qed.
