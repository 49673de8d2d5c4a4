(** The bytes written by X448. *)
From Coq Require Import ZArith List Bool Lia.
From Verif Require Import Uop Poly Sym Engine Check Bytes Spec SpecX Simd RedTac Simd448 Fp25519Red Fp25519RedProofs Fp448Red Fp448RedProofs Fp448RedRoot FullMore ScalarProps Scalar Ladder LadderProofs LadderVec LadderVec448 LadderSmall.
Import ListNotations.
Open Scope Z_scope.

(** Outputs of compress: every limb has 28 bits except the second of each half. *)
Definition tight448 : list (Z * Z) := Eval vm_compute in map (fun k => (0, if Nat.eqb k 2 || Nat.eqb k 3 then 2 ^ 28 + 2 ^ 10 else 2 ^ 28 - 1)) (seq 0 16).
Section S.
Context (st : store).
Lemma compress448_1w_tight a : arr_ok big448 a -> arr_ok tight448 (compress448_1w st a).
Proof.
  intro H. apply (fun h : (fe448 (compress448_1w st a) - fe448 a) mod Q = 0 /\ _ => proj2 h).
  do_one v448_1w_compress wt448 [(q1, big448)] q1 tight448 Q eIn [a] st.
Qed.
Lemma affine_tight sk pk : bytes 56 sk -> bytes 56 pk -> arr_ok tight448 (x448_affine st pk sk).
Proof.
  intros Hs Hp. destruct (X448_parts st sk pk Hs Hp) as (X & iz & x2 & z2 & x3 & z3 & sw & -> & _ & Hx & Wi & _).
  unfold mul448_1w. apply compress448_1w_tight. exact (proj2 (intmul448_1w_ok st X iz (red_mid448 _ (proj1 Hx)) Wi)).
Qed.
Definition T8 : Z := 2 ^ 252 * (2 ^ 10 + 2).
Lemma tight_fe a : arr_ok tight448 a -> u448 a = fe448 a /\ 0 <= fe448 a < 2 ^ 448 + T8.
Proof.
  intro H. pose proof (arr_len _ _ H) as L.
  destruct a as [|a0 [|a1 [|a2 [|a3 [|a4 [|a5 [|a6 [|a7 [|a8 [|a9 [|a10 [|a11 [|a12 [|a13 [|a14 [|a15 [|]]]]]]]]]]]]]]]]]; try discriminate L.
  unfold arr_ok, tight448 in H. repeat (apply f2_inv in H as [? H]). clear H L. unfold inI in *. cbn [fst snd] in *.
  unfold u448. cbn [nth]. rewrite (Z.div_small a15) by (change (2 ^ 28) with 268435456; lia). rewrite Z.mul_0_l, Z.sub_0_r. split; [reflexivity|].
  cbv [wsum wt448]. unfold T8. lia.
Qed.
(** Where the carries of ser can be lost, in terms of the number to be written. *)
Definition carry_lost (v : Z) : Prop :=
  2 ^ 224 + 1 <= v < 2 ^ 263 /\ (v mod 2 ^ 64 = 0 \/ ((v - 1) / 2 ^ 224) mod 2 ^ 32 = 0).
Lemma tight_lost a : arr_ok tight448 a ->
  (~ (w448 0 a + top448 a < 2 ^ 64 /\ w448 3 a + 2 ^ 32 * top448 a < 2 ^ 64) <->
   2 ^ 448 <= fe448 a /\ carry_lost (fe448 a mod Q)).
Proof.
  intro H. destruct (tight_fe a H) as [E B]. unfold w448, top448. rewrite E. set (f := fe448 a) in *. clearbody f. clear E H a.
  change (2 ^ (64 * 0)) with 1. change (64 * 3) with 192. rewrite Z.div_1_r. unfold T8 in B.
  destruct (Z.ltb_spec f (2 ^ 448)) as [L|L].
  - rewrite (Z.div_small f (2 ^ 448)) by lia. rewrite Z.mul_0_r, !Z.add_0_r.
    split; [|lia]. intro C. exfalso. apply C. split; apply Z.mod_pos_bound; reflexivity.
  - replace (f / 2 ^ 448) with 1 by (apply (Z.div_unique _ _ _ (f - 2 ^ 448)); lia). rewrite Z.mul_1_r.
    assert (M : f mod Q = f - Q). { symmetry. apply (Z.mod_unique _ _ 1); change Q with (2 ^ 448 - 2 ^ 224 - 1); lia. }
    rewrite M. set (v := f - Q) in *. assert (Ef : f = v + 2 ^ 448 - 2 ^ 224 - 1) by (unfold v; change Q with (2 ^ 448 - 2 ^ 224 - 1); lia).
    clearbody v. subst f. clear M.
    assert (C0 : (v + 2 ^ 448 - 2 ^ 224 - 1) mod 2 ^ 64 = (v - 1) mod 2 ^ 64).
    { replace (v + 2 ^ 448 - 2 ^ 224 - 1) with (v - 1 + (2 ^ 384 - 2 ^ 160) * 2 ^ 64) by lia. apply Z.mod_add. discriminate. }
    rewrite C0. set (d := (v - 1) / 2 ^ 224). pose proof (Z.div_mod (v - 1) (2 ^ 224) ltac:(discriminate)) as D. fold d in D.
    pose proof (Z.mod_pos_bound (v - 1) (2 ^ 224) eq_refl) as Bd. set (e := (v - 1) mod 2 ^ 224) in *. clearbody d e.
    assert (C3 : ((v + 2 ^ 448 - 2 ^ 224 - 1) / 2 ^ 192) mod 2 ^ 64 = e / 2 ^ 192 + 2 ^ 32 * ((d - 1) mod 2 ^ 32)).
    { pose proof (Z.div_mod e (2 ^ 192) ltac:(discriminate)) as De. pose proof (Z.mod_pos_bound e (2 ^ 192) eq_refl) as Be.
      set (g := e / 2 ^ 192) in *. set (h := e mod 2 ^ 192) in *. clearbody g h.
      pose proof (Z.div_mod (d - 1) (2 ^ 32) ltac:(discriminate)) as Dd. pose proof (Z.mod_pos_bound (d - 1) (2 ^ 32) eq_refl) as Bdd.
      set (i := (d - 1) / 2 ^ 32) in *. set (j := (d - 1) mod 2 ^ 32) in *. clearbody i j.
      replace ((v + 2 ^ 448 - 2 ^ 224 - 1) / 2 ^ 192) with (g + 2 ^ 32 * j + (i + 2 ^ 192) * 2 ^ 64).
      2:{ apply (Z.div_unique _ _ _ h); lia. }
      rewrite Z.mod_add by discriminate. apply Z.mod_small. lia. }
    rewrite C3. assert (Hg : 0 <= e / 2 ^ 192 < 2 ^ 32) by (split; [apply Z.div_pos; lia|apply Z.div_lt_upper_bound; lia]).
    set (g := e / 2 ^ 192) in *. clearbody g.
    assert (F0 : (v - 1) mod 2 ^ 64 + 1 < 2 ^ 64 <-> v mod 2 ^ 64 <> 0).
    { pose proof (Z.div_mod (v - 1) (2 ^ 64) ltac:(discriminate)) as D1. pose proof (Z.mod_pos_bound (v - 1) (2 ^ 64) eq_refl) as B1.
      set (m := (v - 1) mod 2 ^ 64) in *. set (q := (v - 1) / 2 ^ 64) in *. clearbody m q.
      destruct (Z.ltb_spec (m + 1) (2 ^ 64)).
      - split; [|lia]. intros _. rewrite <- (Z.mod_unique v (2 ^ 64) q (m + 1)); lia.
      - split; [lia|]. intro N. exfalso. apply N. rewrite <- (Z.mod_unique v (2 ^ 64) (q + 1) 0); lia. }
    assert (F3 : g + 2 ^ 32 * ((d - 1) mod 2 ^ 32) + 2 ^ 32 < 2 ^ 64 <-> d mod 2 ^ 32 <> 0).
    { pose proof (Z.div_mod (d - 1) (2 ^ 32) ltac:(discriminate)) as D1. pose proof (Z.mod_pos_bound (d - 1) (2 ^ 32) eq_refl) as B1.
      set (m := (d - 1) mod 2 ^ 32) in *. set (q := (d - 1) / 2 ^ 32) in *. clearbody m q.
      destruct (Z.ltb_spec (m + 1) (2 ^ 32)).
      - split; [|lia]. intros _. rewrite <- (Z.mod_unique d (2 ^ 32) q (m + 1)); lia.
      - split; [lia|]. intro N. exfalso. apply N. rewrite <- (Z.mod_unique d (2 ^ 32) (q + 1) 0); lia. }
    rewrite F0, F3. unfold carry_lost. replace ((v - 1) / 2 ^ 224) with d by (apply (Z.div_unique _ _ _ e); lia).
    set (X := v mod 2 ^ 64) in *. set (Y := d mod 2 ^ 32) in *. clearbody X Y. clear - B L. lia.
Qed.
End S.

Theorem X448_shared_ok st sk pk : bytes 56 sk -> bytes 56 pk -> let v := X448_spec (le_val sk) (le_val pk) in
  bytes 56 (x448_shared_avx2 st pk sk) /\
  (le_val (x448_shared_avx2 st pk sk) = v <-> ~ (2 ^ 448 <= fe448 (x448_affine st pk sk) /\ carry_lost v)).
Proof.
  intros Hs Hp v. destruct (X448_affine_ok st sk pk Hs Hp) as [Rr Ev]. pose proof (affine_tight st sk pk Hs Hp) as Ht.
  unfold x448_shared_avx2. set (a := x448_affine st pk sk) in *. clearbody a. fold v in Ev. clearbody v. subst v.
  assert (Wa : is_wide448 a) by (revert Rr; apply bounds_le_ok; vm_compute; reflexivity).
  split; [apply ser448_1w_wide; exact Wa|]. rewrite (ser448_1w_iff st a Wa). pose proof (tight_lost a Ht) as I.
  destruct (Z.ltb_spec (w448 0 a + top448 a) (2 ^ 64)), (Z.ltb_spec (w448 3 a + 2 ^ 32 * top448 a) (2 ^ 64)); intuition lia.
Qed.
