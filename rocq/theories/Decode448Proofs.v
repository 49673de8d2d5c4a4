(** point_decoding_ed448: decompression of a public key. *)
From Coq Require Import ZArith List Bool Lia Znumtheory.
From Verif Require Import Uop X86 Sym Engine Bytes Check FullTac Lanes RedTac Simd Simd448 Fp448Full Fp448FullProofs FullMore
  Fp25519Red Fp25519RedProofs Fp448Red Fp448RedProofs Fp448RedMore Fp448RedRoot Spec Ladder LadderProofs LadderVec LadderVec448 LadderX448 SpecEd SpecIso SpecSign448 SpecDecode448 CurveInst EdInst448
  Edwards255 EdVec Edwards448 EdVec448 Edwards448Proofs Encode448Proofs Verify448Proofs.
Import ListNotations.
From Verif Require Decode255Proofs.
From Verif Require Import Primality Primes.
From Verif Require Fp25519RedMore.
Open Scope Z_scope.
(** ** Limbs that are a canonical number *)
Ltac d16 a L := destruct a as [|a0 [|a1 [|a2 [|a3 [|a4 [|a5 [|a6 [|a7 [|a8 [|a9 [|a10 [|a11 [|a12 [|a13 [|a14 [|a15 [|]]]]]]]]]]]]]]]]]; try discriminate L.
Lemma low_limb a : length a = 16%nat -> nth 0 a 0 mod 2 ^ 28 = fe448 a mod 2 ^ 28.
Proof.
  intro L. d16 a L. cbn [nth].
  set (k := wsum (map (fun w => w / 2 ^ 28) (tl wt448)) [a1; a2; a3; a4; a5; a6; a7; a8; a9; a10; a11; a12; a13; a14; a15]).
  replace (fe448 _) with (a0 + k * 2 ^ 28); [symmetry; apply Z_mod_plus_full|]. subst k.
  let t := eval vm_compute in (map (fun w => w / 2 ^ 28) (tl wt448)) in change (map (fun w => w / 2 ^ 28) (tl wt448)) with t.
  cbv [wsum wt448]. change (2 ^ 28) with 268435456. lia.
Qed.
Lemma tight_low a : arr_ok tight448 a -> nth 0 a 0 = fe448 a mod 2 ^ 28.
Proof.
  intro H. rewrite <- low_limb by exact (arr_len _ _ H). pose proof (arr_len _ _ H) as L. destruct a as [|a0 a]; [discriminate L|].
  unfold arr_ok, tight448 in H. apply f2_inv in H as [H0 _]. unfold inI in H0. cbn [fst snd nth] in *. symmetry. apply Z.mod_small. change (2 ^ 28) with 268435456. lia.
Qed.
(** A number known modulo p, whose low 28 bits are neither 0, 1 nor 2 *)
Lemma low_nonzero f w : cq f w -> 0 <= w < p448 -> 0 <= f < 2 ^ 449 + 2 ^ 430 -> 2 < w mod 2 ^ 28 -> f mod 2 ^ 28 <> 0.
Proof.
  intros C B F N. apply cq_div in C as [k C]. change Q with (2 ^ 448 - 2 ^ 224 - 1) in C. unfold p448 in B.
  assert (K : 0 <= k <= 2) by lia.
  replace f with ((w - k) + (k * (2 ^ 420 - 2 ^ 196)) * 2 ^ 28) by lia. rewrite Z_mod_plus_full.
  pose proof (Z.div_mod w (2 ^ 28) ltac:(discriminate)) as D. set (m := w / 2 ^ 28) in *. set (r := w mod 2 ^ 28) in *.
  pose proof (Z.mod_pos_bound w (2 ^ 28) ltac:(reflexivity)) as R. fold r in R. clearbody m r. clear - K D R N.
  replace (w - k) with ((r - k) + m * 2 ^ 28) by lia. rewrite Z_mod_plus_full. rewrite Z.mod_small by lia. lia.
Qed.
Lemma tight_of w a : arr_ok tight448 a -> cq (fe448 a) w -> 2 ^ 263 <= w < p448 -> fe448 a = w.
Proof.
  intros H C B. destruct (tight_fe a H) as [_ R]. apply cq_div in C as [k C]. change Q with (2 ^ 448 - 2 ^ 224 - 1) in C.
  set (f := fe448 a) in *. clearbody f. clear H a. unfold T8, p448 in *. lia.
Qed.
Lemma minus_one_ok h bs a : h < 2 ^ 64 -> length bs = 15%nat -> arr_ok ((0, h) :: bs) a -> fe448 a mod 2 ^ 28 <> 0 ->
  arr_ok ((0, h) :: bs) (minus_one a) /\ fe448 (minus_one a) = fe448 a - 1.
Proof.
  intros Hh Lb H N. pose proof (arr_len _ _ H) as L. cbn [length] in L. rewrite Lb in L. rewrite <- (low_limb a L) in N.
  destruct a as [|a0 a]; [discriminate L|]. cbn [nth] in N. unfold minus_one.
  unfold arr_ok in H. apply f2_inv in H as [H0 H]. unfold inI in H0. cbn [fst snd] in H0.
  assert (N0 : a0 <> 0) by (intro E; apply N; rewrite E; reflexivity).
  assert (E : wsub a0 1 = a0 - 1) by (unfold wsub; apply Z.mod_small; unfold W; change (2 ^ 64) with 18446744073709551616 in *; lia).
  rewrite E. split.
  - unfold arr_ok. constructor; [unfold inI; cbn [fst snd]; lia|exact H].
  - assert (U : forall x, fe448 (x :: a) = 1 * x + wsum (tl wt448) a) by reflexivity. rewrite !U. lia.
Qed.
(** ** The formulas, modulo any q *)
Section Alg.
Variable q : Z.
Hypothesis Hq : 0 < q.
Notation eqq x y := ((q | (x) - (y))).
Lemma eqq_mod x y : eqq x y <-> x mod q = y mod q.
Proof.
  split; intro H.
  - destruct H as [k H]. replace x with (y + k * q) by lia. apply Z_mod_plus_full.
  - apply Z.mod_divide; [lia|]. rewrite Zminus_mod, H, Z.sub_diag. apply Z.mod_0_l. lia.
Qed.
Lemma a_root d x y u v : (1 * x * x + y * y) mod q = (1 + d * x * x * y * y) mod q -> eqq u (y * y - 1) -> eqq v (d * (y * y) - 1) -> eqq (v * (x * x)) u.
Proof. intros C [k A] [l B]. apply eqq_mod in C. destruct C as [m C]. exists (l * (x * x) - k - m). nia. Qed.
Lemma a_square u v x a : eqq (v * (x * x)) u -> eqq a (u * u * u * u * u * (v * v * v)) -> eqq ((x * (u * u * (v * v))) * (x * (u * u * (v * v)))) a.
Proof. intros [k A] [l B]. exists (k * (u * u * u * u * (v * v * v)) - l). nia. Qed.
Lemma a_back u v a r X e : eqq a (u * u * u * u * u * (v * v * v)) -> eqq X (u * u * u * v * r) -> eqq (a * (r * r)) e -> eqq (X * X * v) (u * e).
Proof.
  intros [k A] [l B] [m C]. set (g := u * u * u * v * r) in *.
  exists (l * (X + g) * v - k * (r * r) * u + m * u).
  assert (X * X * v - g * g * v = l * (X + g) * v * q) by (assert (X = g + l * q) by lia; nia).
  assert (g * g * v = u * (u * u * u * u * u * (v * v * v)) * (r * r)) by (subst g; ring).
  assert (u * (u * u * u * u * u * (v * v * v)) * (r * r) = u * (a * (r * r)) - k * (r * r) * u * q) by (replace (u * u * u * u * u * (v * v * v)) with (a - k * q) by lia; ring).
  replace (a * (r * r)) with (e + m * q) in * by lia. nia.
Qed.
End Alg.
(** ** Bounds of a square *)
Definition sqo448 : list (Z * Z) := Eval vm_compute in bnd448 (2 ^ 29 + 2 ^ 8) (2 ^ 29 + 2 ^ 28 + 2 ^ 10).
Definition add2_448 : list (Z * Z) := Eval vm_compute in bnd448 (2 ^ 30 + 2 ^ 9) (2 ^ 31).
(** A square that can be subtracted: no limb above that of 2p *)
Definition nar448 : list (Z * Z) := Eval vm_compute in map (fun k => (0, if Nat.eqb k 1 then 2 ^ 30 - 4 else if Nat.eqb k 3 then 2 ^ 29 - 4 else 2 ^ 29 - 2)) (seq 0 16).
Definition ng448 : list (Z * Z) := Eval vm_compute in bnd448 (2 ^ 29) (2 ^ 30).
Lemma sqo_range a : arr_ok sqo448 a -> 0 <= fe448 a < 2 ^ 449 + 2 ^ 430 /\ 0 <= nth 15 a 0 /\ fe448 a - nth 15 a 0 * 2 ^ 420 < 2 ^ 422 - 2 ^ 421 + 2 ^ 420.
Proof.
  intro H. pose proof (arr_len _ _ H) as L. d16 a L.
  unfold arr_ok, sqo448 in H. repeat (apply f2_inv in H as [? H]). clear H L. unfold inI in *. cbn [fst snd nth] in *. cbv [wsum wt448]. lia.
Qed.
Lemma sqo_small a : arr_ok sqo448 a -> 2 ^ 422 <= fe448 a mod Q -> u448 a < 2 ^ 448.
Proof.
  intros H M. destruct (sqo_range a H) as (R & P & T). unfold u448. set (f := fe448 a) in *. set (n := nth 15 a 0) in *. clearbody f n. clear H a.
  pose proof (Z.div_mod n (2 ^ 28) ltac:(discriminate)) as D. pose proof (Z.mod_pos_bound n (2 ^ 28) ltac:(reflexivity)) as B.
  set (k := n / 2 ^ 28) in *. set (r := n mod 2 ^ 28) in *. assert (K : 0 <= k) by (subst k; apply Z.div_pos; [exact P|reflexivity]). clearbody k r.
  change Q with (2 ^ 448 - 2 ^ 224 - 1) in *.
  replace (f mod _) with ((f - k * (2 ^ 448 - 2 ^ 224 - 1)) mod (2 ^ 448 - 2 ^ 224 - 1)) in M by (rewrite <- (Z_mod_plus_full _ k); f_equal; lia).
  destruct (Z.lt_ge_cases (f - k * (2 ^ 448 - 2 ^ 224 - 1)) (2 ^ 448)) as [S|S]; [exact S|exfalso].
  assert (K2 : k <= 2) by lia.
  assert (E : (f - k * (2 ^ 448 - 2 ^ 224 - 1)) mod (2 ^ 448 - 2 ^ 224 - 1) = f - k * (2 ^ 448 - 2 ^ 224 - 1) - (2 ^ 448 - 2 ^ 224 - 1)).
  { symmetry. apply (Z.mod_unique _ _ 1); lia. }
  rewrite E in M. lia.
Qed.
Lemma tight_small a : arr_ok tight448 a -> 2 ^ 263 <= fe448 a mod Q -> u448 a < 2 ^ 448.
Proof.
  intros H M. destruct (tight_fe a H) as [-> R]. set (f := fe448 a) in *. clearbody f. clear H a. unfold T8 in R. change Q with (2 ^ 448 - 2 ^ 224 - 1) in *.
  destruct (Z.lt_ge_cases f (2 ^ 448)) as [S|S]; [exact S|exfalso].
  assert (E : f mod (2 ^ 448 - 2 ^ 224 - 1) = f - (2 ^ 448 - 2 ^ 224 - 1)) by (symmetry; apply (Z.mod_unique _ _ 1); lia). lia.
Qed.
Section S.
Context (st : store).
Ltac one prog xs out ob e ins := do_one prog wt448 xs out ob Q e ins st.
Lemma sqr448_sqo a : is_mid448 a -> cq (fe448 (sqr448_1w st a)) (fe448 a * fe448 a) /\ arr_ok sqo448 (sqr448_1w st a).
Proof. intros. one v448_1w_sqrn1 [(q1, mid448)] q1 sqo448 eSqr [a]. Qed.
Lemma add_sqo a b : arr_ok sqo448 a -> arr_ok sqo448 b -> cq (fe448 (add448_1w st a b)) (fe448 a + fe448 b) /\ arr_ok add2_448 (add448_1w st a b).
Proof. intros. one v448_1w_add [(q2, sqo448); (q3, sqo448)] q1 add2_448 eAdd [a; b]. Qed.
Lemma sub_sqo a b : arr_ok sqo448 a -> arr_ok nar448 b -> cq (fe448 (sub448_1w st a b)) (fe448 a - fe448 b) /\ arr_ok add2_448 (sub448_1w st a b).
Proof. intros. one v448_1w_sub [(q2, sqo448); (q3, nar448)] q1 add2_448 eSub [a; b]. Qed.
Lemma ncf_add2 a : arr_ok add2_448 a -> cq (fe448 (new_compressfast448_1w st a)) (fe448 a) /\ is_red448 (new_compressfast448_1w st a).
Proof. intros. one v448_1w_new_compressfast [(q1, add2_448)] q1 red448 eIn [a]. Qed.
Lemma neg_ng a : is_red448 a -> cq (fe448 (neg448_1w st a)) (0 - fe448 a) /\ arr_ok ng448 (neg448_1w st a).
Proof. intros. one v448_1w_neg [(q1, red448)] q1 ng448 eNeg [a]. Qed.
End S.
(** x times the square of x^((p-3)/4) is 1 or -1 *)
Lemma sign_gen p e x : Znumtheory.prime p -> 0 <= e -> p = 4 * e + 3 -> x mod p <> 0 ->
  eqp p ((x * (x ^ e * x ^ e)) * (x * (x ^ e * x ^ e))) 1.
Proof.
  intros Pp He Pe Nx. assert (Ns : ~ (p | x)) by (intro D; apply Nx; apply Z.mod_divide; [lia|exact D]).
  replace ((x * (x ^ e * x ^ e)) * (x * (x ^ e * x ^ e))) with (x ^ (p - 1)).
  - unfold eqp. rewrite (fermat p x Pp Ns). symmetry. apply Z.mod_small. destruct Pp. lia.
  - replace (p - 1) with (1 + (e + e) + (1 + (e + e))) by lia. rewrite !Z.pow_add_r by lia. rewrite Z.pow_1_r. ring.
Qed.
Definition dec_root st (u v : list Z) : list Z :=
  let uv := mul448_1w st u v in let u2 := sqr448_1w st u in let v2 := sqr448_1w st v in
  let u3v := mul448_1w st uv u2 in let u5v3 := mul448_1w st (mul448_1w st u3v u2) v2 in mul448_1w st u3v (srt448_1w st u5v3).
Definition dec_end st (b : Z) (u v X Y : list Z) : Z * list Z * list Z :=
  if negb (cmp448_1w st (mul448_1w st (sqr448_1w st X) v) u =? 0) then (-1, X, Y)
  else if b =? Z.land (nth 0 X 0) 1 then (0, X, Y)
  else (0, compressfast448_1w st (neg448_1w st X), Y).
Definition dec_u st Y := minus_one (sqr448_1w st Y).
Definition dec_v st Y := minus_one (mul448_1w st (sqr448_1w st Y) param_curve_d448).
Lemma decode_xy448_eq st A : decode_xy448 st A =
  let Y := unser448_1w st (firstn 56 A) in
  dec_end st (nth 56 A 0 / 2 ^ 7) (dec_u st Y) (dec_v st Y) (dec_root st (dec_u st Y) (dec_v st Y)) Y.
Proof. cbv beta zeta delta [decode_xy448 dec_end dec_root dec_u dec_v]. reflexivity. Qed.
Lemma cq_eqp x y : cq x y -> eqp Q x y. Proof. apply eqp_cq. Qed.
Lemma nz_mul x y : x mod Q <> 0 -> y mod Q <> 0 -> (x * y) mod Q <> 0.
Proof.
  intros A B E. apply Z.mod_divide in E; [|discriminate]. apply Znumtheory.prime_mult in E; [|exact p448_prime].
  destruct E as [E|E]; [apply A|apply B]; (apply Z.mod_divide; [discriminate|exact E]).
Qed.
Lemma nz_cq x y : cq x y -> y mod Q <> 0 -> x mod Q <> 0.
Proof. intros C N E. apply N. rewrite <- (cq_eqp _ _ C). exact E. Qed.
Lemma root_alg U V aa rr X gg b : cq aa (U * V * (U * U) * (U * U) * (V * V)) -> cq gg (U * V * (U * U)) -> cq X (gg * rr) -> cq rr b -> cq ((aa * (b * b)) * (aa * (b * b))) 1 ->
  (forall s, cq (s * s) aa -> cq (aa * (rr * rr)) 1) ->
  exists e, cq (X * X * V) (U * e) /\ cq (e * e) 1 /\ (forall x, cq (V * (x * x)) U -> cq e 1).
Proof.
  intros Ca Cg CX Cr Sg Rt. exists (aa * (rr * rr)).
  assert (Ca' : cq aa (U * U * U * U * U * (V * V * V))) by (replace (U * U * U * U * U * (V * V * V)) with (U * V * (U * U) * (U * U) * (V * V)) by ring; exact Ca).
  assert (CX' : cq X (U * U * U * V * rr)).
  { apply (cq_trans _ _ _ CX). replace (U * U * U * V * rr) with (U * V * (U * U) * rr) by ring. apply cq_mul; [exact Cg|apply cq_refl]. }
  clear Ca CX Cg. split; [|split].
  - apply cq_div. apply (a_back Q U V aa rr X _); [apply cq_div; exact Ca'|apply cq_div; exact CX'|]. apply cq_div. apply cq_refl.
  - refine (cq_trans _ _ _ _ Sg). apply cq_mul; (apply cq_mul; [apply cq_refl|apply cq_mul; exact Cr]).
  - intros x Hx. apply (Rt (x * (U * U * (V * V)))). apply cq_div. apply (a_square Q U V x aa); [apply cq_div; exact Hx|apply cq_div; exact Ca'].
Qed.
Section D.
Context (st : store).
Definition dec_uv u v := mul448_1w st (mul448_1w st u v) (sqr448_1w st u).
Definition dec_a u v := mul448_1w st (mul448_1w st (dec_uv u v) (sqr448_1w st u)) (sqr448_1w st v).
Lemma dec_a_ok u v : is_mid448 u -> is_mid448 v ->
  rep1q (dec_uv u v) (fe448 u * fe448 v * (fe448 u * fe448 u)) /\
  rep1q (dec_a u v) (fe448 u * fe448 v * (fe448 u * fe448 u) * (fe448 u * fe448 u) * (fe448 v * fe448 v)).
Proof.
  intros Mu Mv.
  assert (Ru : rep1q u (fe448 u)) by (split; [exact Mu|apply cq_refl]). assert (Rv : rep1q v (fe448 v)) by (split; [exact Mv|apply cq_refl]).
  pose proof (rep1q_mul st _ _ _ _ (rep1q_mul st _ _ _ _ Ru Rv) (rep1q_sqr st _ _ Ru)) as R3.
  exact (conj R3 (rep1q_mul st _ _ _ _ (rep1q_mul st _ _ _ _ R3 (rep1q_sqr st _ _ Ru)) (rep1q_sqr st _ _ Rv))).
Qed.
Lemma srt_facts a : is_mid448 a -> fe448 a mod Q <> 0 -> let r := srt448_1w st a in is_mid448 r /\ exists b, cq (fe448 r) b /\ cq ((fe448 a * (b * b)) * (fe448 a * (b * b))) 1 /\
  (forall s, cq (s * s) (fe448 a) -> cq (fe448 a * (fe448 r * fe448 r)) 1).
Proof.
  intros Ma Na. cbv zeta.
  assert (R : rep1q (srt448_1w st a) (fe448 a ^ (2 ^ 446 - 2 ^ 222 - 1))).
  { apply (invsqrt448_chain_ok rep1q (mul448_1w st) (sqr448_1w st) (rep1q_mul st) (rep1q_sqr st)). split; [exact Ma|apply cq_refl]. }
  pose proof (sign_gen Q (2 ^ 446 - 2 ^ 222 - 1) (fe448 a) p448_prime ltac:(discriminate) eq_refl Na) as Sg.
  assert (Rt : forall s, cq (s * s) (fe448 a) -> cq (fe448 a * (fe448 (srt448_1w st a) * fe448 (srt448_1w st a))) 1).
  { intros s Hs. apply eqp_cq. apply eqp_cq in Hs. exact (proj2 (srt448_1w_root st a s Ma Na Hs)). }
  destruct R as [Mr Cr]. set (b := fe448 a ^ (2 ^ 446 - 2 ^ 222 - 1)) in *. clearbody b. apply eqp_cq in Sg.
  split; [exact Mr|]. exists b. split; [exact Cr|]. split; [exact Sg|exact Rt].
Qed.
Lemma dec_root_ok u v : is_mid448 u -> is_mid448 v -> fe448 u mod Q <> 0 -> fe448 v mod Q <> 0 ->
  let X := dec_root st u v in arr_ok tight448 X /\ is_red448 X /\
  exists e, cq (fe448 X * fe448 X * fe448 v) (fe448 u * e) /\ cq (e * e) 1 /\ (forall x, cq (fe448 v * (x * x)) (fe448 u) -> cq e 1).
Proof.
  intros Mu Mv Nu Nv. change (dec_root st u v) with (mul448_1w st (dec_uv u v) (srt448_1w st (dec_a u v))). cbv zeta.
  destruct (dec_a_ok u v Mu Mv) as [[Mg Cg] [Ma Ca]]. set (g := dec_uv u v) in *. set (a := dec_a u v) in *. clearbody g a.
  assert (Na : fe448 a mod Q <> 0). { apply (nz_cq _ _ Ca). clear - Nu Nv. repeat (apply nz_mul; try assumption). }
  destruct (srt_facts a Ma Na) as (Mr & b & Cr & Sg & Rt). set (r := srt448_1w st a) in *. clearbody r.
  destruct (mul448_1w_ok st g r Mg Mr) as [CX RX].
  split; [apply mul448_tight; assumption|]. split; [exact RX|].
  exact (root_alg _ _ _ _ _ _ b Ca Cg CX Cr Sg Rt).
Qed.
End D.
Lemma d448_ok : arr_ok canon448 param_curve_d448 /\ cq (fe448 param_curve_d448) d_ed448.
Proof. split; [|vm_compute; reflexivity]. unfold arr_ok, canon448, param_curve_d448. repeat (constructor; [unfold inI; cbn [fst snd]; lia|]). constructor. Qed.
Lemma sqo_mid a : arr_ok sqo448 a -> is_mid448 a. Proof. apply bounds_le_ok. vm_compute. reflexivity. Qed.
Lemma sqo_wide a : arr_ok sqo448 a -> is_wide448 a. Proof. apply bounds_le_ok. vm_compute. reflexivity. Qed.
Lemma tight_mid a : arr_ok tight448 a -> is_mid448 a. Proof. apply bounds_le_ok. vm_compute. reflexivity. Qed.
Lemma tight_wide a : arr_ok tight448 a -> is_wide448 a. Proof. apply bounds_le_ok. vm_compute. reflexivity. Qed.
Lemma tight_bound f a : arr_ok tight448 a -> f = fe448 a -> 0 <= f < 2 ^ 449 + 2 ^ 430.
Proof. intros H ->. destruct (tight_fe a H) as [_ B]. unfold T8 in B. lia. Qed.
(** What regular448 gives for a number f congruent to z, as limbs store it *)
Lemma regular_low f z : cq f z -> regular448 (z mod p_ed448) -> 0 <= f < 2 ^ 449 + 2 ^ 430 -> f mod 2 ^ 28 <> 0.
Proof.
  intros C [B N] F. apply (low_nonzero f (z mod p_ed448)); [|unfold p448; unfold p_ed448 in *; lia|exact F|exact N].
  apply eqp_cq. unfold eqp. change p_ed448 with Q. rewrite Zmod_mod. exact (cq_eqp _ _ C).
Qed.
Lemma regular_less g z : cq g (z - 1) -> regular448 (z mod p_ed448) -> g mod Q = z mod p_ed448 - 1 /\ 2 ^ 422 <= g mod Q < p_ed448 - 2 ^ 422.
Proof.
  intros C [B _]. assert (E : g mod Q = z mod p_ed448 - 1); [|rewrite E; lia].
  rewrite (cq_eqp _ _ C). change Q with p_ed448. rewrite <- Zminus_mod_idemp_l. apply Z.mod_small. unfold p_ed448 in *. lia.
Qed.
Section U.
Context (st : store).
Lemma uv_ok Y y : arr_ok canon448 Y -> cq (fe448 Y) y -> regular_y y ->
  let u := dec_u st Y in let v := dec_v st Y in
  arr_ok sqo448 u /\ cq (fe448 u) (y * y - 1) /\ 2 ^ 422 <= fe448 u mod Q < p_ed448 - 2 ^ 422 /\
  arr_ok tight448 v /\ cq (fe448 v) (d_ed448 * (y * y) - 1) /\ fe448 v mod Q <> 0.
Proof.
  intros HY CY [Ry Rd]. cbv zeta. unfold dec_u, dec_v.
  destruct (sqr448_sqo st Y (red_mid448 _ (canon_red448 _ HY))) as [C1 B1]. pose proof (cq_trans _ _ _ C1 (cq_mul _ _ _ _ CY CY)) as C. clear C1.
  destruct d448_ok as [Bd Cd]. set (s := sqr448_1w st Y) in *. clearbody s.
  destruct (mul448_1w_ok st s _ (sqo_mid _ B1) (red_mid448 _ (canon_red448 _ Bd))) as [C2 _].
  pose proof (mul448_tight st s _ (sqo_mid _ B1) (red_mid448 _ (canon_red448 _ Bd))) as B2. set (t := mul448_1w st s param_curve_d448) in *. clearbody t.
  pose proof (cq_trans _ _ _ C2 (cq_mul _ _ _ _ C Cd)) as C3. rewrite (Z.mul_comm (y * y)) in C3. clear C2.
  destruct (minus_one_ok (2 ^ 29 + 2 ^ 8) (tl sqo448) s ltac:(reflexivity) eq_refl B1 (regular_low _ _ C Ry (proj1 (sqo_range s B1)))) as [B1' E1].
  destruct (minus_one_ok (2 ^ 28 - 1) (tl tight448) t ltac:(reflexivity) eq_refl B2 (regular_low _ _ C3 Rd (tight_bound _ t B2 eq_refl))) as [B2' E2].
  assert (C1 : cq (fe448 (minus_one s)) (y * y - 1)) by (rewrite E1; apply cq_sub; [exact C|apply cq_refl]).
  assert (C2 : cq (fe448 (minus_one t)) (d_ed448 * (y * y) - 1)) by (rewrite E2; apply cq_sub; [exact C3|apply cq_refl]).
  split; [exact B1'|]. split; [exact C1|]. split; [exact (proj2 (regular_less _ _ C1 Ry))|]. split; [exact B2'|]. split; [exact C2|].
  destruct (proj2 (regular_less _ _ C2 Rd)) as [G _]. intro E. rewrite E in G. clear - G. apply G. reflexivity.
Qed.
End U.
Lemma land1 n : Z.land n 1 = n mod 2. Proof. change 1 with (Z.ones 1). rewrite Z.land_ones by lia. reflexivity. Qed.
Lemma mod28_2 n : (n mod 2 ^ 28) mod 2 = n mod 2.
Proof. symmetry. apply Znumtheory.Zmod_div_mod; [reflexivity|reflexivity|]. exists (2 ^ 27). reflexivity. Qed.
Lemma plus_minus_one e : cq (e * e) 1 -> cq e 1 \/ cq e (-1).
Proof.
  intro H. apply cq_div in H. replace (e * e - 1) with ((e - 1) * (e - -1)) in H by ring. apply Znumtheory.prime_mult in H; [|exact p448_prime].
  destruct H as [H|H]; [left|right]; apply cq_div; exact H.
Qed.
Lemma neg_mod a q : 0 < q -> a mod q <> 0 -> (- a) mod q = q - a mod q.
Proof. intros Q0 N. rewrite Z.mod_opp_l_nz by lia. reflexivity. Qed.
Lemma twice_zero a q : q mod 2 = 1 -> Znumtheory.prime q -> a mod q = (- a) mod q -> a mod q = 0.
Proof.
  intros O P E. pose proof (Znumtheory.prime_ge_2 q P). destruct (Z.eq_dec (a mod q) 0) as [Z0|N]; [exact Z0|].
  rewrite (neg_mod a q) in E by lia. exfalso. pose proof (Z.div_mod q 2 ltac:(lia)). lia.
Qed.
Lemma on_gen q d x y : 0 < q -> (x * x * (d * (y * y) - 1)) mod q = (y * y - 1) mod q -> on_curve q 1 d (x mod q, y mod q).
Proof.
  intros Hq C. split; [apply Z.mod_pos_bound; exact Hq|]. split; [apply Z.mod_pos_bound; exact Hq|].
  apply (eqq_mod q Hq) in C. destruct C as [k C]. apply (eqq_mod q Hq).
  assert (Ex : x = x mod q + q * (x / q)) by (pose proof (Z.div_mod x q ltac:(lia)); lia). assert (Ey : y = y mod q + q * (y / q)) by (pose proof (Z.div_mod y q ltac:(lia)); lia).
  set (a := x mod q) in *. set (b := y mod q) in *. set (m := x / q) in *. set (n := y / q) in *. clearbody a b m n. subst x y.
  exists (- k + (m * (2 * a + q * m)) * (d * ((b + q * n) * (b + q * n)) - 1) + (a * a * d - 1) * (n * (2 * b + q * n))). lia.
Qed.
Section F.
Context (st : store).
Lemma check_ok X u v e : is_red448 X -> arr_ok sqo448 u -> 2 ^ 422 <= fe448 u mod Q < p_ed448 - 2 ^ 422 -> arr_ok tight448 v ->
  cq (fe448 X * fe448 X * fe448 v) (fe448 u * e) -> cq (e * e) 1 ->
  (cmp448_1w st (mul448_1w st (sqr448_1w st X) v) u = 0 <-> cq e 1).
Proof.
  intros RX Bu Gu Bv C S. destruct (sqr448_1w_ok st X (red_mid448 _ RX)) as [Cs Ms].
  pose proof (mul448_tight st _ _ Ms (tight_mid _ Bv)) as Bt. destruct (mul448_1w_ok st _ _ Ms (tight_mid _ Bv)) as [Ct _].
  pose proof (cq_trans _ _ _ (cq_trans _ _ _ Ct (cq_mul _ _ _ _ Cs (cq_refl (fe448 v)))) C) as Ce. clear Ct Cs C.
  set (t := mul448_1w st (sqr448_1w st X) v) in *. clearbody t. clear Ms Bv v RX X.
  assert (Nu : fe448 u mod Q <> 0) by (intro E; rewrite E in Gu; destruct Gu as [G _]; apply G; reflexivity).
  pose proof (sqo_small u Bu (proj1 Gu)) as Su.
  assert (St : u448 t < 2 ^ 448 /\ (fe448 t mod Q = fe448 u mod Q <-> cq e 1)).
  { destruct (plus_minus_one e S) as [E|E].
    - assert (Et : fe448 t mod Q = fe448 u mod Q).
      { apply cq_eqp. apply (cq_trans _ _ _ Ce). rewrite <- (Z.mul_1_r (fe448 u)) at 2. apply cq_mul; [apply cq_refl|exact E]. }
      split; [apply tight_small; [exact Bt|]; rewrite Et; clear - Gu; lia|]. split; intro; assumption.
    - assert (Et : fe448 t mod Q = (- fe448 u) mod Q).
      { apply cq_eqp. apply (cq_trans _ _ _ Ce). replace (- fe448 u) with (fe448 u * -1) by ring. apply cq_mul; [apply cq_refl|exact E]. }
      split.
      + apply tight_small; [exact Bt|]. rewrite Et. rewrite neg_mod by (exact Nu || reflexivity). change Q with p_ed448 in *. clear - Gu. lia.
      + split; intro K.
        * exfalso. apply Nu. apply (twice_zero _ Q); [reflexivity|exact p448_prime|]. rewrite <- Et. symmetry. exact K.
        * exfalso. pose proof (cq_eqp _ _ (cq_trans _ _ _ (cq_sym _ _ K) E)) as L. vm_compute in L. discriminate L. }
  destruct St as [St Eq]. rewrite (cmp448_1w_ok st t u (tight_wide _ Bt) (sqo_wide _ Bu) St Su). exact Eq.
Qed.
(** The two outcomes *)
Lemma dec_accept Y x y b : arr_ok canon448 Y -> cq (fe448 Y) y -> regular_y y -> regular_x x -> on448 (x, y mod p_ed448) -> b = x mod 2 ->
  exists X, dec_end st b (dec_u st Y) (dec_v st Y) (dec_root st (dec_u st Y) (dec_v st Y)) Y = (0, X, Y) /\ is_red448 X /\ cq (fe448 X) x.
Proof.
  intros HY CY Ry Rx On Eb. destruct (uv_ok st Y y HY CY Ry) as (Bu & Cu & Gu & Bv & Cv & Nv).
  assert (Nu : fe448 (dec_u st Y) mod Q <> 0) by (intro E; rewrite E in Gu; destruct Gu as [G _]; apply G; reflexivity).
  destruct (dec_root_ok st _ _ (sqo_mid _ Bu) (tight_mid _ Bv) Nu Nv) as (TX & RX & e & Ce & Se & He).
  set (X := dec_root st (dec_u st Y) (dec_v st Y)) in *. clearbody X. set (u := dec_u st Y) in *. set (v := dec_v st Y) in *. clearbody u v.
  assert (Cx : cq (fe448 v * (x * x)) (fe448 u)).
  { destruct On as (_ & _ & On). apply cq_div. apply (a_root Q ltac:(reflexivity) d_ed448 x y); [|apply cq_div; exact Cu|apply cq_div; exact Cv].
    clear - On. change Q with p_ed448. rewrite <- Zplus_mod_idemp_r, <- (Zmult_mod_idemp_r y), <- (Zmult_mod_idemp_l y), Zplus_mod_idemp_r, On.
    rewrite <- (Zplus_mod_idemp_r (_ * _)), Zmult_mod_idemp_r, <- Zmult_mod_idemp_l, Zmult_mod_idemp_r, Zmult_mod_idemp_l, Zplus_mod_idemp_r. reflexivity. }
  pose proof (He x Cx) as E1. pose proof (proj2 (check_ok X u v e RX Bu Gu Bv Ce Se) E1) as Ck. unfold dec_end. rewrite Ck, Z.eqb_refl. cbn [negb].
  assert (Two : fe448 X = x \/ fe448 X = p_ed448 - x).
  { assert (M : (fe448 v * (fe448 X * fe448 X)) mod Q = (fe448 v * (x * x)) mod Q).
    { apply cq_eqp. rewrite Z.mul_comm. apply (cq_trans _ _ _ Ce). apply (cq_trans _ (fe448 u * 1)); [apply cq_mul; [apply cq_refl|exact E1]|]. rewrite Z.mul_1_r. apply cq_sym. exact Cx. }
    destruct (Decode255Proofs.two_roots Q (fe448 v) x (fe448 X) p448_prime Nv M) as [K|K]; apply eqp_cq in K.
    - left. apply tight_of; [exact TX|exact K|]. clear - Rx. unfold regular_x, p_ed448, p448 in *. lia.
    - right. apply tight_of; [exact TX| |clear - Rx; unfold regular_x, p_ed448, p448 in *; lia].
      apply (cq_trans _ _ _ K). apply cq_div. exists (-1). change Q with p_ed448. ring. }
  rewrite land1, (tight_low X TX), mod28_2.
  assert (Par : b = fe448 X mod 2 <-> fe448 X = x).
  { subst b. destruct Two as [T|T]; rewrite T.
    - split; reflexivity.
    - clear - Rx. unfold regular_x, p_ed448 in *. split; intro K; [|lia]. exfalso.
      pose proof (Z.div_mod x 2 ltac:(lia)). pose proof (Z.div_mod (2 ^ 448 - 2 ^ 224 - 1 - x) 2 ltac:(lia)). lia. }
  destruct (Z.eqb_spec b (fe448 X mod 2)) as [P|P].
  - exists X. split; [reflexivity|]. split; [exact RX|]. rewrite (proj1 Par P). apply cq_refl.
  - exists (compressfast448_1w st (neg448_1w st X)). split; [reflexivity|].
    destruct (neg448_1w_ok st X RX) as [Cn Wn]. destruct (compressfast448_1w_red st _ Wn) as [Cc Rc]. split; [exact Rc|].
    apply (cq_trans _ _ _ Cc). apply (cq_trans _ _ _ Cn). destruct Two as [T|T]; [exfalso; apply P; apply Par; exact T|]. rewrite T.
    apply cq_div. exists (-1). change Q with p_ed448. ring.
Qed.
Lemma dec_refuse Y y b : arr_ok canon448 Y -> cq (fe448 Y) y -> regular_y y -> (forall x, ~ on448 (x, y mod p_ed448)) ->
  fst (fst (dec_end st b (dec_u st Y) (dec_v st Y) (dec_root st (dec_u st Y) (dec_v st Y)) Y)) = -1.
Proof.
  intros HY CY Ry No. destruct (uv_ok st Y y HY CY Ry) as (Bu & Cu & Gu & Bv & Cv & Nv).
  assert (Nu : fe448 (dec_u st Y) mod Q <> 0) by (intro E; rewrite E in Gu; destruct Gu as [G _]; apply G; reflexivity).
  destruct (dec_root_ok st _ _ (sqo_mid _ Bu) (tight_mid _ Bv) Nu Nv) as (TX & RX & e & Ce & Se & He).
  set (X := dec_root st (dec_u st Y) (dec_v st Y)) in *. clearbody X. set (u := dec_u st Y) in *. set (v := dec_v st Y) in *. clearbody u v.
  pose proof (check_ok X u v e RX Bu Gu Bv Ce Se) as Ck. unfold dec_end.
  destruct (Z.eqb_spec (cmp448_1w st (mul448_1w st (sqr448_1w st X) v) u) 0) as [K|K]; [|reflexivity]. exfalso. apply Ck in K.
  apply (No (fe448 X mod p_ed448)).
  assert (C : cq (fe448 X * fe448 X * (d_ed448 * (y * y) - 1)) (y * y - 1)).
  { apply (cq_trans _ (fe448 X * fe448 X * fe448 v)); [apply cq_mul; [apply cq_refl|apply cq_sym; exact Cv]|]. apply (cq_trans _ _ _ Ce).
    apply (cq_trans _ (fe448 u * 1)); [apply cq_mul; [apply cq_refl|exact K]|]. rewrite Z.mul_1_r. exact Cu. }
  exact (on_gen p_ed448 d_ed448 (fe448 X) y eq_refl (cq_eqp _ _ C)).
Qed.
End F.
Lemma plus_two a : arr_ok ng448 a -> let d := match a with x :: d => wadd x 2 :: d | [] => [] end in is_wide448 d /\ fe448 d = fe448 a + 2.
Proof.
  intro H. pose proof (arr_len _ _ H) as L. destruct a as [|a0 a]; [discriminate L|]. cbv zeta iota beta.
  unfold arr_ok, ng448 in H. apply f2_inv in H as [H0 H]. unfold inI in H0. cbn [fst snd] in H0.
  assert (E : wadd a0 2 = a0 + 2) by (unfold wadd; apply Z.mod_small; unfold W; change (2 ^ 64) with 18446744073709551616 in *; lia).
  rewrite E. split.
  - assert (H' : arr_ok (tl ng448) a) by exact H. apply (bounds_le_ok (tl ng448) (tl wide448)) in H'; [|vm_compute; reflexivity].
    unfold arr_ok. change wide448 with (hd (0, 0) wide448 :: tl wide448). constructor; [unfold inI; cbn [hd wide448 fst snd]; lia|exact H'].
  - assert (U : forall x, fe448 (x :: a) = 1 * x + wsum (tl wt448) a) by reflexivity. rewrite !U. lia.
Qed.
Lemma iso_neg_gen q x y a b c d fX fY : 0 < q -> (q | fX - x) -> (q | fY - y) -> (q | a - (0 - (fX + fX) * fY)) -> (q | b - (fY * fY + fX * fX)) -> (q | c - (fY * fY - fX * fX)) -> (q | d - (0 - b + 2)) ->
  let n := (- x) mod q in
  (a * d) mod q = (2 * n * y * (2 - (n * n + y * y))) mod q /\ (b * c) mod q = ((n * n + y * y) * (y * y - n * n)) mod q /\
  (c * d) mod q = ((y * y - n * n) * (2 - (n * n + y * y))) mod q /\ (a * b) mod q = (2 * n * y * (n * n + y * y)) mod q.
Proof.
  intros Hq HX HY Ha Hb Hc Hd n.
  assert (Hn : (q | n - - x)) by (apply eqq_mod; [exact Hq|]; apply Zmod_mod).
  set (e := fun u v => (q | u - v)).
  assert (Rf : forall u, e u u) by (intro u; unfold e; rewrite Z.sub_diag; apply Z.divide_0_r).
  assert (Tr : forall u v w, e u v -> e v w -> e u w) by (intros u v w A B; unfold e; replace (u - w) with ((u - v) + (v - w)) by ring; apply Z.divide_add_r; assumption).
  assert (Sy : forall u v, e u v -> e v u) by (intros u v A; unfold e; replace (v - u) with (- (u - v)) by ring; apply Z.divide_opp_r; exact A).
  assert (Ml : forall u v u' v', e u u' -> e v v' -> e (u * v) (u' * v')).
  { intros u v u' v' A B. unfold e. replace (u * v - u' * v') with ((u - u') * v + u' * (v - v')) by ring. apply Z.divide_add_r; [apply Z.divide_mul_l, A|apply Z.divide_mul_r, B]. }
  assert (Ad : forall u v u' v', e u u' -> e v v' -> e (u + v) (u' + v')).
  { intros u v u' v' A B. unfold e. replace (u + v - (u' + v')) with ((u - u') + (v - v')) by ring. apply Z.divide_add_r; assumption. }
  assert (Sb : forall u v u' v', e u u' -> e v v' -> e (u - v) (u' - v')).
  { intros u v u' v' A B. unfold e. replace (u - v - (u' - v')) with ((u - u') - (v - v')) by ring. apply Z.divide_sub_r; assumption. }
  assert (Xn : e fX (- n)). { apply (Tr _ x); [exact HX|]. unfold e. replace (x - - n) with (n - - x) by ring. exact Hn. }
  assert (Ea : e a (2 * n * y)).
  { apply (Tr _ _ _ Ha). replace (2 * n * y) with (0 - (- n + - n) * y) by ring. apply Sb; [apply Rf|]. apply Ml; [apply Ad; exact Xn|exact HY]. }
  assert (Eb : e b (n * n + y * y)).
  { apply (Tr _ _ _ Hb). replace (n * n + y * y) with (y * y + (- n) * (- n)) by ring. apply Ad; apply Ml; assumption. }
  assert (Ec : e c (y * y - n * n)).
  { apply (Tr _ _ _ Hc). replace (y * y - n * n) with (y * y - (- n) * (- n)) by ring. apply Sb; apply Ml; assumption. }
  assert (Ed : e d (2 - (n * n + y * y))).
  { apply (Tr _ _ _ Hd). replace (2 - (n * n + y * y)) with (0 - (n * n + y * y) + 2) by ring. apply Ad; [apply Sb; [apply Rf|exact Eb]|apply Rf]. }
  split; [|split; [|split]]; (apply eqq_mod; [exact Hq|]); apply Ml; assumption.
Qed.
Section P.
Context (st : store).
Notation l1q a := (length a = 16%nat).
Lemma to_isogenous_ok X Y x y : is_red448 X -> arr_ok canon448 Y -> cq (fe448 X) x -> cq (fe448 Y) y -> on448 (x, y) -> arr_ok nar448 (sqr448_1w st X) ->
  let P := to_isogenous st X Y in ptv448 (cX P) (cY P) (cZ P) (cT P) (neg448 (x, y)).
Proof.
  intros RX HY CX CY On Nar. pose proof (canon_red448 _ HY) as RY. unfold to_isogenous. cbv zeta. cbn [cX cY cZ cT].
  destruct (add448_1w_ok st X X RX RX) as [C1 B1]. destruct (mul448_1w_ok st _ _ B1 (red_mid448 _ RY)) as [C2 B2]. destruct (neg448_1w_ok st _ B2) as [C3 B3]. destruct (compressfast448_1w_red st _ B3) as [C4 B4].
  destruct (sqr448_sqo st X (red_mid448 _ RX)) as [C5 B5]. destruct (sqr448_sqo st Y (red_mid448 _ RY)) as [C6 B6].
  destruct (add_sqo st _ _ B6 B5) as [C7 B7]. destruct (ncf_add2 st _ B7) as [C8 B8].
  destruct (sub_sqo st _ _ B6 Nar) as [C9 B9]. destruct (ncf_add2 st _ B9) as [C10 B10].
  destruct (neg_ng st _ B8) as [C11 B11].
  set (a := compressfast448_1w st (neg448_1w st (mul448_1w st (add448_1w st X X) Y))) in *.
  set (b := new_compressfast448_1w st (add448_1w st (sqr448_1w st Y) (sqr448_1w st X))) in *.
  set (c := new_compressfast448_1w st (sub448_1w st (sqr448_1w st Y) (sqr448_1w st X))) in *.
  destruct (plus_two _ B11) as [B12 E12]. cbv zeta in B12, E12. set (d0 := match neg448_1w st b with [] => [] | x0 :: d => wadd x0 2 :: d end) in *.
  destruct (compressfast448_1w_red st _ B12) as [C13 B13]. set (d := compressfast448_1w st d0) in *.
  assert (Da : cq (fe448 a) (0 - (fe448 X + fe448 X) * fe448 Y)).
  { apply (cq_trans _ _ _ C4). apply (cq_trans _ _ _ C3). apply cq_sub; [apply cq_refl|]. apply (cq_trans _ _ _ C2). apply cq_mul; [exact C1|apply cq_refl]. }
  assert (Db : cq (fe448 b) (fe448 Y * fe448 Y + fe448 X * fe448 X)) by (apply (cq_trans _ _ _ C8); apply (cq_trans _ _ _ C7); apply cq_add; assumption).
  assert (Dc : cq (fe448 c) (fe448 Y * fe448 Y - fe448 X * fe448 X)) by (apply (cq_trans _ _ _ C10); apply (cq_trans _ _ _ C9); apply cq_sub; assumption).
  assert (Dd : cq (fe448 d) (0 - fe448 b + 2)) by (apply (cq_trans _ _ _ C13); rewrite E12; apply cq_add; [exact C11|apply cq_refl]).
  clear C1 C2 C3 C4 C5 C6 C7 C8 C9 C10 C11 C13 E12 B1 B2 B3 B5 B6 B7 B9 B11 B12 Nar. clearbody a b c d. clear d0.
  destruct (mul448_1w_ok st a d (red_mid448 _ B4) (red_mid448 _ B13)) as [E1 R1]. destruct (mul448_1w_ok st b c (red_mid448 _ B8) (red_mid448 _ B10)) as [E2 R2].
  destruct (mul448_1w_ok st c d (red_mid448 _ B10) (red_mid448 _ B13)) as [E3 R3]. destruct (mul448_1w_ok st a b (red_mid448 _ B4) (red_mid448 _ B8)) as [E4 R4].
  pose proof (proj1 (cq_div _ _) CX) as FX. pose proof (proj1 (cq_div _ _) CY) as FY.
  destruct (iso_neg_gen Q x y _ _ _ _ _ _ eq_refl FX FY (proj1 (cq_div _ _) Da) (proj1 (cq_div _ _) Db) (proj1 (cq_div _ _) Dc) (proj1 (cq_div _ _) Dd)) as (I1 & I2 & I3 & I4).
  split; [apply neg448_on; exact On|]. split; [exact R1|]. split; [exact R2|]. split; [exact R3|]. split; [exact R4|].
  apply iso448_affine; [exact (neg448_on _ On)| | | |].
  - exact (eq_trans (cqm _ _ E1) I1).
  - exact (eq_trans (cqm _ _ E2) I2).
  - exact (eq_trans (cqm _ _ E3) I3).
  - exact (eq_trans (cqm _ _ E4) I4).
Qed.
End P.
Lemma split57 A : bytes 57 A -> bytes 56 (firstn 56 A) /\ le_val (firstn 56 A) = coded_y A /\ nth 56 A 0 / 2 ^ 7 = coded_sign A.
Proof.
  intros H. assert (B : bytes 56 (firstn 56 A)) by exact (Fp25519RedMore.bytes_firstn 56 1 A H). destruct H as [L Fb]. split; [exact B|].
  assert (E : A = firstn 56 A ++ [nth 56 A 0]).
  { rewrite <- (firstn_skipn 56 A) at 1. f_equal. do 57 (destruct A as [|? A]; [discriminate L|]). destruct A; [reflexivity|discriminate L]. }
  unfold coded_y, coded_sign. destruct B as [Lf Ff].
  assert (V : le_val A = le_val (firstn 56 A) + 2 ^ 448 * nth 56 A 0).
  { rewrite E at 1. rewrite le_val_app, Lf. cbn [le_val]. rewrite Z.mul_0_r, Z.add_0_r. reflexivity. }
  pose proof (le_val_bound _ Ff) as Bd. rewrite Lf in Bd. change (256 ^ Z.of_nat 56) with (2 ^ 448) in Bd. rewrite V.
  set (f := le_val (firstn 56 A)) in *. set (n := nth 56 A 0) in *. clearbody f n. clear - Bd. split.
  - rewrite Z.mul_comm, Z_mod_plus_full. symmetry. apply Z.mod_small. exact Bd.
  - change (2 ^ 455) with (2 ^ 448 * 2 ^ 7). rewrite <- Z.div_div by lia. f_equal. rewrite Z.mul_comm, Z.div_add by lia. rewrite Z.div_small by exact Bd. reflexivity.
Qed.
Section Q.
Context (st : store).
Lemma cq_modp f y : f = y -> cq f (y mod p_ed448).
Proof. intros ->. apply eqp_cq. unfold eqp. symmetry. change p_ed448 with Q. apply Zmod_mod. Qed.
Definition pd_of (D : Z * list Z * list Z) : Z * list Z :=
  let '(ret, X, Y) := D in let P := to_isogenous st X Y in (ret, zip448_4w st (cX P) (cY P) (cT P) (cZ P)).
Lemma pd_eq A : point_decoding448 st A = pd_of (decode_xy448 st A).
Proof. cbv beta delta [point_decoding448 pd_of]. reflexivity. Qed.
Lemma pd_ok X Y x y : is_red448 X -> arr_ok canon448 Y -> cq (fe448 X) x -> cq (fe448 Y) y -> on448 (x, y) -> arr_ok nar448 (sqr448_1w st X) ->
  fst (pd_of (0, X, Y)) = 0 /\ pt448_4w (snd (pd_of (0, X, Y))) (neg448 (x, y)).
Proof.
  intros RX HY CX C On Nar. unfold pd_of.
  pose proof (to_isogenous_ok st X Y x _ RX HY CX C On Nar) as Pv. cbv zeta in Pv. cbv zeta. set (P := to_isogenous st X Y) in *. clearbody P. cbn [fst snd]. split; [reflexivity|].
  destruct Pv as (OnN & R1 & R2 & R3 & R4 & Rp).
  assert (L : forall a, is_red448 a -> length a = 16%nat) by (intros a Ha; exact (arr_len _ _ Ha)).
  split; [apply call_length|]. rewrite !zip448_4w_ok by (lia || (apply L; assumption)). cbn [nth].
  split; [exact OnN|]. split; [exact R1|]. split; [exact R2|]. split; [exact R3|]. split; [exact R4|exact Rp].
Qed.
(** The x-coordinate found, before the change of curve *)
Definition found_x A : list Z := snd (fst (decode_xy448 st A)).
Lemma found_eq A r X Y : decode_xy448 st A = (r, X, Y) -> found_x A = X.
Proof. intro E. unfold found_x. rewrite E. reflexivity. Qed.
Lemma pd_at A D : decode_xy448 st A = D -> point_decoding448 st A = pd_of D.
Proof. intros <-. apply pd_eq. Qed.
Lemma decode_xy448_ok A x : bytes 57 A -> on448 (x, coded_y A mod p_ed448) -> coded_sign A = x mod 2 -> regular_y (coded_y A) -> regular_x x ->
  exists X Y, decode_xy448 st A = (0, X, Y) /\ is_red448 X /\ cq (fe448 X) x /\ arr_ok canon448 Y /\ fe448 Y = coded_y A.
Proof.
  intros HA On Sg Ry Rx. destruct (split57 A HA) as (B & V & S). destruct (unser448_1w_ok st _ B) as [VY CY]. rewrite V in VY.
  rewrite decode_xy448_eq, S. cbv zeta. set (Y := unser448_1w st (firstn 56 A)) in *. clearbody Y.
  assert (C : cq (fe448 Y) (coded_y A)) by (rewrite VY; apply cq_refl).
  destruct (dec_accept st Y x (coded_y A) (coded_sign A) CY C Ry Rx On Sg) as (X & E & RX & CX).
  exists X, Y. split; [exact E|]. split; [exact RX|]. split; [exact CX|]. split; [exact CY|exact VY].
Qed.
Theorem point_decoding448_ok A x : bytes 57 A -> on448 (x, coded_y A mod p_ed448) -> coded_sign A = x mod 2 -> regular_y (coded_y A) -> regular_x x ->
  arr_ok nar448 (sqr448_1w st (found_x A)) ->
  fst (point_decoding448 st A) = 0 /\ pt448_4w (snd (point_decoding448 st A)) (neg448 (x, coded_y A mod p_ed448)).
Proof.
  intros HA On Sg Ry Rx Nar. destruct (decode_xy448_ok A x HA On Sg Ry Rx) as (X & Y & E & RX & CX & HY & VY).
  rewrite (found_eq A _ _ _ E) in Nar. pose proof (pd_at A _ E) as P.
  pose proof (pd_ok X Y x _ RX HY CX (cq_modp _ _ VY) On Nar) as K. rewrite <- P in K. exact K.
Qed.
Theorem point_decoding448_refuses A : bytes 57 A -> regular_y (coded_y A) -> (forall x, ~ on448 (x, coded_y A mod p_ed448)) -> fst (point_decoding448 st A) = -1.
Proof.
  intros HA Ry No. destruct (split57 A HA) as (B & V & S). destruct (unser448_1w_ok st _ B) as [VY CY]. rewrite V in VY.
  rewrite pd_eq, decode_xy448_eq, S. cbv zeta. set (Y := unser448_1w st (firstn 56 A)) in *. clearbody Y.
  assert (C : cq (fe448 Y) (coded_y A)) by (rewrite VY; apply cq_refl).
  pose proof (dec_refuse st Y (coded_y A) (coded_sign A) CY C Ry No) as E.
  destruct (dec_end st _ _ _ _ _) as [[ret X] Y']. exact E.
Qed.
End Q.
