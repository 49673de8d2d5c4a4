(** Reduced-radix GF(2^448-2^224-1): serialisation, comparison, inversion and
    square roots, and the inputs on which the code goes wrong. *)
From Coq Require Import ZArith Znumtheory List Bool Lia.
From Verif Require Import Uop Poly Sym Engine Check Bytes FullTac Simd Simd448 Lanes RedTac Moves
  X86 Asm448 Primality Primes Fp25519Full Fp448Full Fp25519Red Fp448Red Fp25519RedProofs Fp25519RedMore Fp25519RedRoot
  Fp448FullProofs Fp448RedProofs Fp448RedMore FullMore InPlace.
Import ListNotations.
Open Scope Z_scope.
Local Opaque call ser448_1w unser448_1w.

(** ** ser *)
(** The excess of the top limb is folded first, exactly; the bits above 2^448
    that remain are added to words 0 and 3 without propagating the carries. *)
Definition u448 (a : list Z) : Z := fe448 a - nth 15 a 0 / 2 ^ 28 * Q.
Definition top448 (a : list Z) : Z := u448 a / 2 ^ 448.
Definition w448 (i : Z) (a : list Z) : Z := (u448 a / 2 ^ (64 * i)) mod 2 ^ 64.
Definition wrap448 (a : list Z) : Z :=
  (if w448 0 a + top448 a <? 2 ^ 64 then 0 else 2 ^ 64) +
  (if w448 3 a + 2 ^ 32 * top448 a <? 2 ^ 64 then 0 else 2 ^ 256).
Lemma sg_small w : 0 <= w < 2 ^ 63 -> sg w = w.
Proof. intro H. unfold sg. destruct (Z.ltb_spec w (2 ^ 63)); lia. Qed.
Lemma digit_chain x0 x1 x2 x3 x4 x5 x6 u c0 c1 c2 c3 c4 c5 c6 :
  c0 = x0 -> c1 = c0 / W + x1 -> c2 = c1 / W + x2 -> c3 = c2 / W + x3 -> c4 = c3 / W + x4 -> c5 = c4 / W + x5 -> c6 = c5 / W + x6 ->
  u = x0 + 2 ^ 64 * x1 + 2 ^ 128 * x2 + 2 ^ 192 * x3 + 2 ^ 256 * x4 + 2 ^ 320 * x5 + 2 ^ 384 * x6 ->
  c6 / W = u / 2 ^ 448 /\ c0 mod W = u mod 2 ^ 64 /\ c3 mod W = (u / 2 ^ 192) mod 2 ^ 64 /\
  u mod 2 ^ 448 = c0 mod W + 2 ^ 64 * (c1 mod W) + 2 ^ 128 * (c2 mod W) + 2 ^ 192 * (c3 mod W) + 2 ^ 256 * (c4 mod W)
    + 2 ^ 320 * (c5 mod W) + 2 ^ 384 * (c6 mod W).
Proof.
  intros E0 E1 E2 E3 E4 E5 E6 Eu.
  pose proof (Z.div_mod c0 W ltac:(discriminate)) as D0. pose proof (Z.mod_pos_bound c0 W eq_refl) as B0.
  pose proof (Z.div_mod c1 W ltac:(discriminate)) as D1. pose proof (Z.mod_pos_bound c1 W eq_refl) as B1.
  pose proof (Z.div_mod c2 W ltac:(discriminate)) as D2. pose proof (Z.mod_pos_bound c2 W eq_refl) as B2.
  pose proof (Z.div_mod c3 W ltac:(discriminate)) as D3. pose proof (Z.mod_pos_bound c3 W eq_refl) as B3.
  pose proof (Z.div_mod c4 W ltac:(discriminate)) as D4. pose proof (Z.mod_pos_bound c4 W eq_refl) as B4.
  pose proof (Z.div_mod c5 W ltac:(discriminate)) as D5. pose proof (Z.mod_pos_bound c5 W eq_refl) as B5.
  pose proof (Z.div_mod c6 W ltac:(discriminate)) as D6. pose proof (Z.mod_pos_bound c6 W eq_refl) as B6.
  set (m0 := c0 mod W) in *. set (m1 := c1 mod W) in *. set (m2 := c2 mod W) in *. set (m3 := c3 mod W) in *.
  set (m4 := c4 mod W) in *. set (m5 := c5 mod W) in *. set (m6 := c6 mod W) in *.
  set (d0 := c0 / W) in *. set (d1 := c1 / W) in *. set (d2 := c2 / W) in *. set (d3 := c3 / W) in *.
  set (d4 := c4 / W) in *. set (d5 := c5 / W) in *. set (d6 := c6 / W) in *.
  clearbody m0 m1 m2 m3 m4 m5 m6 d0 d1 d2 d3 d4 d5 d6. unfold W in *.
  set (lo := m0 + 2 ^ 64 * m1 + 2 ^ 128 * m2 + 2 ^ 192 * m3 + 2 ^ 256 * m4 + 2 ^ 320 * m5 + 2 ^ 384 * m6).
  assert (Elo : u = 2 ^ 448 * d6 + lo) by (unfold lo; lia).
  assert (Blo : 0 <= lo < 2 ^ 448) by (unfold lo; lia).
  split; [apply (Z.div_unique u (2 ^ 448) d6 lo); auto|].
  split; [apply (Z.mod_unique u (2 ^ 64) (m1 + 2 ^ 64 * m2 + 2 ^ 128 * m3 + 2 ^ 192 * m4 + 2 ^ 256 * m5 + 2 ^ 320 * m6 + 2 ^ 384 * d6)); [left; exact B0|unfold lo in Elo; lia]|].
  split; [|symmetry; apply (Z.mod_unique u (2 ^ 448) d6 lo); auto].
  assert (E : u / 2 ^ 192 = m3 + 2 ^ 64 * (m4 + 2 ^ 64 * m5 + 2 ^ 128 * m6 + 2 ^ 192 * d6)).
  { symmetry. apply (Z.div_unique u (2 ^ 192) _ (m0 + 2 ^ 64 * m1 + 2 ^ 128 * m2)); [left; lia|unfold lo in Elo; lia]. }
  rewrite E. apply (Z.mod_unique _ (2 ^ 64) (m4 + 2 ^ 64 * m5 + 2 ^ 128 * m6 + 2 ^ 192 * d6)); [left; exact B3|ring].
Qed.
Lemma add_wrap c t m : 0 <= t < W -> c mod W = m ->
  (c + t) mod W = m + t - (if m + t <? W then 0 else W).
Proof.
  intros Ht E. rewrite Z.add_mod, E, (Z.mod_small t) by (lia || discriminate).
  pose proof (Z.mod_pos_bound c W eq_refl) as B. rewrite E in B.
  destruct (Z.ltb_spec (m + t) W).
  - rewrite Z.mod_small by lia. lia.
  - symmetry. apply (Z.mod_unique (m + t) W 1); lia.
Qed.
Lemma gather448_eq a0 a1 a2 a3 a4 a5 a6 a7 a8 a9 a10 a11 a12 a13 a14 a15 :
  let t1 := Z.shiftr (sg a15) 28 in
  exists c0 c1 c2 c3 c4 c5 c6,
    c0 = Z.shiftl (sg a4) 56 + Z.shiftl (sg a2) 28 + (sg a0 + t1) /\
    c1 = Z.shiftr c0 64 + Z.shiftl (sg a8) 48 + Z.shiftl (sg a6) 20 /\
    c2 = Z.shiftr c1 64 + Z.shiftl (sg a12) 40 + Z.shiftl (sg a10) 12 /\
    c3 = Z.shiftr c2 64 + Z.shiftl (sg a3) 60 + Z.shiftl (sg a1 + t1) 32 + Z.shiftl (sg a14) 4 /\
    c4 = Z.shiftr c3 64 + Z.shiftl (sg a7) 52 + Z.shiftl (sg a5) 24 /\
    c5 = Z.shiftr c4 64 + Z.shiftl (sg a11) 44 + Z.shiftl (sg a9) 16 /\
    c6 = Z.shiftr c5 64 + Z.shiftl (Z.land (sg a15) (2 ^ 28 - 1)) 36 + Z.shiftl (sg a13) 8 /\
    gather448 [a0; a1; a2; a3; a4; a5; a6; a7; a8; a9; a10; a11; a12; a13; a14; a15]
    = [(c0 + Z.shiftr c6 64) mod W; c1 mod W; c2 mod W; (c3 + Z.shiftl (Z.shiftr c6 64) 32) mod W; c4 mod W; c5 mod W; c6 mod W].
Proof. do 7 eexists. repeat split; reflexivity. Qed.
Lemma gather448_ok a : is_wide448 a -> words 7 (gather448 a) /\
  0 <= top448 a <= 1 /\
  val (gather448 a) = u448 a mod 2 ^ 448 + top448 a * (1 + 2 ^ 224) - wrap448 a.
Proof.
  intro H. pose proof (arr_len _ _ H) as L.
  destruct a as [|a0 [|a1 [|a2 [|a3 [|a4 [|a5 [|a6 [|a7 [|a8 [|a9 [|a10 [|a11 [|a12 [|a13 [|a14 [|a15 [|]]]]]]]]]]]]]]]]]; try discriminate L.
  unfold arr_ok, wide448 in H. repeat (apply f2_inv in H as [? H]). clear H L.
  unfold inI in *. cbn [fst snd] in *.
  destruct (gather448_eq a0 a1 a2 a3 a4 a5 a6 a7 a8 a9 a10 a11 a12 a13 a14 a15) as (c0 & c1 & c2 & c3 & c4 & c5 & c6 & E0 & E1 & E2 & E3 & E4 & E5 & E6 & E).
  rewrite E. clear E.
  rewrite !sg_small in * by (change (2 ^ 63) with 9223372036854775808; lia).
  change (2 ^ 28 - 1) with (Z.ones 28) in E6. rewrite Z.land_ones in E6 by discriminate.
  rewrite !Z.shiftr_div_pow2, ?Z.shiftl_mul_pow2 in * by discriminate.
  change (2 ^ 64) with W in E1, E2, E3, E4, E5, E6 |- *.
  set (A := [a0; a1; a2; a3; a4; a5; a6; a7; a8; a9; a10; a11; a12; a13; a14; a15]).
  assert (Eu : u448 A = fe448 A - a15 / 2 ^ 28 * Q) by reflexivity.
  pose proof (Z.div_mod a15 (2 ^ 28) ltac:(discriminate)) as D. pose proof (Z.mod_pos_bound a15 (2 ^ 28) eq_refl) as Bm.
  set (t1 := a15 / 2 ^ 28) in *. set (m15 := a15 mod 2 ^ 28) in *. clearbody t1 m15.
  assert (Bt : 0 <= t1 <= 8) by lia.
  assert (Ev : fe448 A = a0 + 2^224*a1 + 2^28*a2 + 2^252*a3 + 2^56*a4 + 2^280*a5 + 2^84*a6 + 2^308*a7
     + 2^112*a8 + 2^336*a9 + 2^140*a10 + 2^364*a11 + 2^168*a12 + 2^392*a13 + 2^196*a14 + 2^420*a15)
    by (unfold A; cbv [wsum wt448]; lia).
  assert (Bu : 0 <= u448 A < 2 * 2 ^ 448).
  { rewrite Eu, Ev. change Q with (2 ^ 448 - 2 ^ 224 - 1). lia. }
  destruct (digit_chain (a4 * 2 ^ 56 + a2 * 2 ^ 28 + (a0 + t1)) (a8 * 2 ^ 48 + a6 * 2 ^ 20) (a12 * 2 ^ 40 + a10 * 2 ^ 12)
    (a3 * 2 ^ 60 + (a1 + t1) * 2 ^ 32 + a14 * 2 ^ 4) (a7 * 2 ^ 52 + a5 * 2 ^ 24) (a11 * 2 ^ 44 + a9 * 2 ^ 16)
    (m15 * 2 ^ 36 + a13 * 2 ^ 8) (u448 A) c0 c1 c2 c3 c4 c5 c6) as (T & M0 & M3 & Lo); try (rewrite ?Z.add_assoc in *; assumption).
  { rewrite Eu, Ev. change Q with (2 ^ 448 - 2 ^ 224 - 1). lia. }
  fold (top448 A) in T. rewrite T.
  assert (BT : 0 <= top448 A <= 1).
  { unfold top448. split; [apply Z.div_pos; lia|]. enough (u448 A / 2 ^ 448 < 2) by lia. apply Z.div_lt_upper_bound; lia. }
  change (u448 A mod 2 ^ 64) with ((u448 A) mod 2 ^ 64) in M0.
  assert (M0' : c0 mod W = w448 0 A) by (unfold w448; change (2 ^ (64 * 0)) with 1; now rewrite Z.div_1_r).
  assert (M3' : c3 mod W = w448 3 A) by exact M3.
  split; [|split; [exact BT|]].
  - split; [reflexivity|]. repeat (apply Forall_cons; [apply Z.mod_pos_bound; reflexivity|]). apply Forall_nil.
  - rewrite (add_wrap c0 (top448 A) _ ltac:(unfold W; lia) M0').
    rewrite (add_wrap c3 (top448 A * 2 ^ 32) _ ltac:(unfold W; lia) M3').
    unfold wrap448. rewrite (Z.mul_comm (2 ^ 32)). rewrite Lo, <- M0', <- M3'. cbn [val].
    change (2 ^ 64) with W. clear.
    generalize (c0 mod W) (c1 mod W) (c2 mod W) (c3 mod W) (c4 mod W) (c5 mod W) (c6 mod W) (top448 A). clear. intros.
    destruct (z + z6 <? W), (z2 + z6 * 2 ^ 32 <? W); unfold W; lia.
Qed.
(** ser of any unreduced element: exact description, and when it is right. *)
Lemma ser448_1w_wide st a : is_wide448 a -> bytes 56 (ser448_1w st a) /\
  le_val (ser448_1w st a) = (fe448 a - wrap448 a) mod Q.
Proof.
  Local Transparent ser448_1w.
  intro H. destruct (gather448_ok a H) as (Hw & T & V). unfold ser448_1w.
  destruct (ser448_ok st _ Hw) as [B E]. split; [exact B|]. rewrite E, V.
  assert (X : u448 a mod 2 ^ 448 + top448 a * (1 + 2 ^ 224) - wrap448 a
    = fe448 a - wrap448 a + (- (nth 15 a 0 / 2 ^ 28) - top448 a) * Q).
  { unfold top448, u448. set (k := nth 15 a 0 / 2 ^ 28). clearbody k. rewrite Z.mod_eq by discriminate.
    set (d := (fe448 a - k * Q) / 2 ^ 448). clearbody d. change Q with (2 ^ 448 - 2 ^ 224 - 1). ring. }
  rewrite X, Z.mod_add by discriminate. reflexivity.
  Local Opaque ser448_1w.
Qed.
Lemma ser448_1w_iff st a : is_wide448 a ->
  (le_val (ser448_1w st a) = fe448 a mod Q <->
   w448 0 a + top448 a < 2 ^ 64 /\ w448 3 a + 2 ^ 32 * top448 a < 2 ^ 64).
Proof.
  intro H. destruct (ser448_1w_wide st a H) as [_ ->]. unfold wrap448.
  assert (N : forall d v, d mod Q <> 0 -> (v - d) mod Q <> v mod Q).
  { intros d v Nd E. apply Nd. replace d with (v - (v - d)) by ring. rewrite Zminus_mod, E, Z.sub_diag. reflexivity. }
  destruct (Z.ltb_spec (w448 0 a + top448 a) (2 ^ 64)) as [A|A], (Z.ltb_spec (w448 3 a + 2 ^ 32 * top448 a) (2 ^ 64)) as [B|B].
  - change (0 + 0) with 0. rewrite Z.sub_0_r. tauto.
  - split; [intro E; exfalso; revert E; apply N; vm_compute; discriminate|lia].
  - split; [intro E; exfalso; revert E; apply N; vm_compute; discriminate|lia].
  - split; [intro E; exfalso; revert E; apply N; vm_compute; discriminate|lia].
Qed.
Lemma w448_range i a : 0 <= w448 i a < 2 ^ 64.
Proof. apply Z.mod_pos_bound. reflexivity. Qed.
(** Elements whose value stays below 2^448 once the top limb is folded. *)
Lemma ser448_1w_small st a : is_wide448 a -> u448 a < 2 ^ 448 ->
  bytes 56 (ser448_1w st a) /\ le_val (ser448_1w st a) = fe448 a mod Q.
Proof.
  intros H L. split; [apply ser448_1w_wide; exact H|]. apply (proj2 (ser448_1w_iff st a H)).
  destruct (gather448_ok a H) as (_ & T & _).
  assert (E : top448 a = 0).
  { unfold top448 in *. assert (u448 a / 2 ^ 448 < 1) by (apply Z.div_lt_upper_bound; lia). lia. }
  rewrite E, Z.mul_0_r, !Z.add_0_r. split; apply w448_range.
Qed.
Lemma canon_u448 a : arr_ok canon448 a -> u448 a = fe448 a /\ 0 <= fe448 a < 2 ^ 448.
Proof.
  intro H. split.
  - unfold u448. pose proof (arr_len _ _ H) as L.
    destruct a as [|a0 [|a1 [|a2 [|a3 [|a4 [|a5 [|a6 [|a7 [|a8 [|a9 [|a10 [|a11 [|a12 [|a13 [|a14 [|a15 [|]]]]]]]]]]]]]]]]]; try discriminate L.
    unfold arr_ok, canon448 in H. repeat (apply f2_inv in H as [? H]). unfold inI in *. cbn [fst snd nth] in *.
    rewrite Z.div_small by (change (2 ^ 28) with 268435456; lia). lia.
  - apply (wsum_max wt448 canon448 (2 ^ 448)); [vm_compute; reflexivity|exact H].
Qed.
Lemma ser448_1w_canon st a : arr_ok canon448 a -> bytes 56 (ser448_1w st a) /\ le_val (ser448_1w st a) = fe448 a mod Q.
Proof.
  intro H. destruct (canon_u448 a H) as [E B]. apply ser448_1w_small; [apply red_wide448, canon_red448, H|].
  rewrite E. apply B.
Qed.
Lemma roundtrip448_1w st buf : bytes 56 buf -> bytes 56 (ser448_1w st (unser448_1w st buf)) /\
  le_val (ser448_1w st (unser448_1w st buf)) = le_val buf mod Q.
Proof.
  intro H. destruct (unser448_1w_ok st buf H) as [E B]. destruct (ser448_1w_canon st _ B) as [B' V].
  split; [exact B'|]. rewrite V, E. reflexivity.
Qed.

(** ** The lost carry, on the sum of two canonical elements *)
Definition x448 : list Z := le_bytes 56 (p448 - 1).
Definition y448 : list Z := le_bytes 56 (2 ^ 224 + 1 + 2 ^ 64).
Definition st_e : store := PositiveMap.empty Z.
Local Transparent call.
Lemma add448_at st : add448_1w st (unser448_1w st x448) (unser448_1w st y448) = add448_1w st_e (unser448_1w st_e x448) (unser448_1w st_e y448).
Proof.
  Local Transparent unser448_1w.
  assert (E : forall v, unser448_1w st (le_bytes 56 v) = unser448_1w st_e (le_bytes 56 v)).
  { intro v. unfold unser448_1w, vop2. apply call_indep; vm_cast_no_check (eq_refl true). }
  unfold x448, y448. rewrite !E. unfold add448_1w, vop3.
  apply call_indep; vm_cast_no_check (eq_refl true).
  Local Opaque unser448_1w.
Qed.
Lemma add448_val : fe448 (add448_1w st_e (unser448_1w st_e x448) (unser448_1w st_e y448)) = 2 ^ 448 + 2 ^ 64 - 1 /\
  wrap448 (add448_1w st_e (unser448_1w st_e x448) (unser448_1w st_e y448)) = 2 ^ 64.
Proof. vm_compute. auto. Qed.
Local Opaque call.
Theorem ser_add_wrong448 st : let a := unser448_1w st x448 in let b := unser448_1w st y448 in
  arr_ok canon448 a /\ arr_ok canon448 b /\ fe448 a = p448 - 1 /\ fe448 b = 2 ^ 224 + 1 + 2 ^ 64 /\
  le_val (ser448_1w st (add448_1w st a b)) = 2 ^ 224.
Proof.
  cbv zeta.
  destruct (unser448_1w_ok st x448 (le_bytes_ok 56 _)) as [Ex Rx]. destruct (unser448_1w_ok st y448 (le_bytes_ok 56 _)) as [Ey Ry].
  split; [exact Rx|]. split; [exact Ry|].
  split; [rewrite Ex; vm_compute; reflexivity|]. split; [rewrite Ey; vm_compute; reflexivity|].
  destruct (add448_1w_ok st _ _ (canon_red448 _ Rx) (canon_red448 _ Ry)) as [_ Ws].
  destruct (ser448_1w_wide st _ (mid_wide448 _ Ws)) as [_ V]. rewrite V, add448_at.
  destruct add448_val as [-> ->]. vm_compute. reflexivity.
Qed.

(** ** Products of differences overflow: (x - 0)(x - 0) for x = p - 1 is not 1 *)
Local Transparent call.
Lemma mulsub448_at st : let f s := let d := sub448_1w s (unser448_1w s x448) (unser448_1w s (repeat 0 56)) in mul448_1w s d d in f st = f st_e.
Proof.
  Local Transparent unser448_1w.
  cbv zeta.
  assert (E : forall v, unser448_1w st (le_bytes 56 v) = unser448_1w st_e (le_bytes 56 v)).
  { intro v. unfold unser448_1w, vop2. apply call_indep; vm_cast_no_check (eq_refl true). }
  change (repeat 0 56) with (le_bytes 56 0).
  unfold x448. rewrite !E.
  assert (E2 : sub448_1w st (unser448_1w st_e (le_bytes 56 (p448 - 1))) (unser448_1w st_e (le_bytes 56 0))
             = sub448_1w st_e (unser448_1w st_e (le_bytes 56 (p448 - 1))) (unser448_1w st_e (le_bytes 56 0)))
    by (unfold sub448_1w, vop3; apply call_indep; vm_cast_no_check (eq_refl true)).
  rewrite E2. set (d := sub448_1w st_e _ _). unfold mul448_1w.
  assert (E3 : intmul448_1w st d d = intmul448_1w st_e d d) by (unfold intmul448_1w, vop3; apply call_indep; vm_cast_no_check (eq_refl true)).
  rewrite E3. unfold compress448_1w, vop1. apply call_indep; vm_cast_no_check (eq_refl true).
  Local Opaque unser448_1w.
Qed.
Lemma mulsub448_val : let d := sub448_1w st_e (unser448_1w st_e x448) (unser448_1w st_e (repeat 0 56)) in
  fe448 (mul448_1w st_e d d) mod Q <> 1.
Proof. vm_compute. discriminate. Qed.
Local Opaque call.
Theorem mul_sub_wrong448 st : let a := unser448_1w st x448 in let b := unser448_1w st (repeat 0 56) in let d := sub448_1w st a b in
  arr_ok canon448 a /\ arr_ok canon448 b /\ fe448 a = p448 - 1 /\ fe448 b = 0 /\ is_wide448 d /\ cq (fe448 d) (fe448 a - fe448 b) /\
  fe448 (mul448_1w st d d) mod Q <> (fe448 d * fe448 d) mod Q.
Proof.
  cbv zeta. pose proof (mulsub448_at st) as At. cbv zeta in At. rewrite At. clear At.
  assert (By : bytes 56 (repeat 0 56)) by (apply bytes_lit; reflexivity).
  destruct (unser448_1w_ok st x448 (le_bytes_ok 56 _)) as [Ex Rx]. destruct (unser448_1w_ok st _ By) as [Ey Ry].
  split; [exact Rx|]. split; [exact Ry|].
  assert (Vx : le_val x448 = p448 - 1) by (vm_compute; reflexivity).
  assert (Vy : le_val (repeat 0 56) = 0) by (vm_compute; reflexivity).
  rewrite Vx in Ex. rewrite Vy in Ey.
  split; [exact Ex|]. split; [exact Ey|].
  destruct (sub448_1w_ok st _ _ (canon_red448 _ Rx) (canon_red448 _ Ry)) as [Es Ws].
  split; [exact Ws|]. split; [exact Es|]. rewrite Ex, Ey in Es.
  intro E. apply mulsub448_val. cbv zeta. rewrite E. clear E.
  pose proof (cq_mul _ _ _ _ Es Es) as E2. apply mod_cong in E2; [|discriminate]. rewrite E2. vm_compute. reflexivity.
Qed.

(** ** cmp: zero exactly on equal elements *)
Lemma cmp448_1w_ok st a b : is_wide448 a -> is_wide448 b -> u448 a < 2 ^ 448 -> u448 b < 2 ^ 448 ->
  (cmp448_1w st a b = 0 <-> fe448 a mod Q = fe448 b mod Q).
Proof.
  intros Ha Hb La Lb. destruct (ser448_1w_small st a Ha La) as [[A1 A2] A3]. destruct (ser448_1w_small st b Hb Lb) as [[B1 B2] B3].
  unfold cmp448_1w. rewrite <- A3, <- B3. rewrite (cmp_bytes_0 _ _ (eq_trans A1 (eq_sym B1))). split.
  - intros ->. reflexivity.
  - intro E. exact (le_val_inj _ _ (eq_trans A1 (eq_sym B1)) A2 B2 E).
Qed.

(** ** inv and srt *)
(** A slightly unreduced 1-way element of value x modulo p. *)
Definition rep1q (a : list Z) (x : Z) : Prop := is_mid448 a /\ cq (fe448 a) x.
Lemma rep1q_mul st a b x y : rep1q a x -> rep1q b y -> rep1q (mul448_1w st a b) (x * y).
Proof.
  intros [Ra Ea] [Rb Eb]. destruct (mul448_1w_ok st a b Ra Rb) as [E R].
  split; [exact (red_mid448 _ R)|]. exact (cq_trans _ _ _ E (cq_mul _ _ _ _ Ea Eb)).
Qed.
Lemma rep1q_sqr st a x : rep1q a x -> rep1q (sqr448_1w st a) (x * x).
Proof.
  intros [Ra Ea]. destruct (sqr448_1w_ok st a Ra) as [E R].
  split; [exact R|]. exact (cq_trans _ _ _ E (cq_mul _ _ _ _ Ea Ea)).
Qed.
Lemma eqp_cq x y : eqp Q x y <-> cq x y.
Proof.
  unfold eqp, cq. split; intro H.
  - rewrite Zminus_mod, H, Z.sub_diag. reflexivity.
  - apply mod_cong in H; [exact H|discriminate].
Qed.
Lemma inv448_1w_ok st a : is_mid448 a -> rep1q (inv448_1w st a) (fe448 a ^ (2 ^ 448 - 2 ^ 224 - 3)).
Proof.
  intro H. apply (inv448_chain_ok rep1q (mul448_1w st) (sqr448_1w st) (rep1q_mul st) (rep1q_sqr st)).
  split; [exact H|apply cq_refl].
Qed.
Lemma inv448_1w_inverse st a : is_mid448 a -> is_mid448 (inv448_1w st a) /\
  (fe448 a mod Q <> 0 -> (fe448 a * fe448 (inv448_1w st a)) mod Q = 1) /\
  (fe448 a mod Q = 0 -> fe448 (inv448_1w st a) mod Q = 0).
Proof.
  intro H. destruct (inv448_1w_ok st a H) as [R E]. apply eqp_cq in E.
  split; [exact R|]. split; intro N.
  - unfold eqp in E. rewrite Z.mul_mod, E, <- Z.mul_mod by discriminate.
    change (2 ^ 448 - 2 ^ 224 - 3) with (Q - 2). apply fermat_inv; [exact p448_prime|reflexivity|exact N].
  - unfold eqp in E. rewrite E. apply pow_mod_0; [reflexivity|discriminate|exact N].
Qed.
(** x^((p-3)/4) is an inverse square root of a nonzero square x. *)
Lemma inv_root_gen p e x s : Znumtheory.prime p -> 0 <= e -> p = 4 * e + 3 ->
  x mod p <> 0 -> eqp p (s * s) x -> eqp p (x * (x ^ e * x ^ e)) 1.
Proof.
  intros Pp He Pe Nx Hs. assert (Hp : p <> 0) by lia.
  assert (Ns : ~ (p | s)).
  { intro D. apply Nx. rewrite <- Hs. apply Z.mod_divide; [exact Hp|]. apply Z.divide_mul_l, D. }
  apply eq_trans with ((s * s * ((s * s) ^ e * (s * s) ^ e)) mod p).
  - assert (Ee : eqp p (x ^ e) ((s * s) ^ e)) by (apply eqp_pow; [exact Hp|exact He|symmetry; exact Hs]).
    apply eqp_mul; [exact Hp|symmetry; exact Hs|]. apply eqp_mul; [exact Hp|exact Ee|exact Ee].
  - replace (s * s) with (s ^ 2) by ring. rewrite <- Z.pow_mul_r by lia.
    rewrite <- !Z.pow_add_r by lia. replace (2 + (2 * e + 2 * e)) with (p - 1) by lia.
    rewrite (fermat p s Pp Ns). symmetry. apply Z.mod_small. destruct Pp. lia.
Qed.
Theorem srt448_1w_root st a s : is_mid448 a -> fe448 a mod Q <> 0 -> eqp Q (s * s) (fe448 a) ->
  let x := srt448_1w st a in is_mid448 x /\ eqp Q (fe448 a * (fe448 x * fe448 x)) 1.
Proof.
  intros H N Hs x.
  assert (R : rep1q x (fe448 a ^ (2 ^ 446 - 2 ^ 222 - 1))).
  { apply (invsqrt448_chain_ok rep1q (mul448_1w st) (sqr448_1w st) (rep1q_mul st) (rep1q_sqr st)).
    split; [exact H|apply cq_refl]. }
  clearbody x. destruct R as [R E]. split; [exact R|]. apply eqp_cq in E.
  pose proof (inv_root_gen Q (2 ^ 446 - 2 ^ 222 - 1) (fe448 a) s p448_prime ltac:(discriminate) eq_refl N Hs) as G.
  set (b := fe448 a ^ (2 ^ 446 - 2 ^ 222 - 1)) in *. clearbody b.
  apply eq_trans with ((fe448 a * (b * b)) mod Q); [|exact G].
  apply eqp_mul; [discriminate|reflexivity|]. apply eqp_mul; [discriminate|exact E|exact E].
Qed.

(** ** Comparisons on 2 and 4 elements *)
Lemma cmp448_2w_el st a b : length a = 32%nat -> length b = 32%nat ->
  cmp448_2w st a b = [cmp448_1w st (el2q false a) (el2q false b); 0; cmp448_1w st (el2q true a) (el2q true b); 0].
Proof. intros Ha Hb. unfold cmp448_2w. rewrite (deinter448_2w_ok st a Ha), (deinter448_2w_ok st b Hb). reflexivity. Qed.
Lemma cmp448_4w_el st a b : length a = 64%nat -> length b = 64%nat ->
  cmp448_4w st a b = map (fun j => cmp448_1w st (el4q j a) (el4q j b)) (seq 0 4).
Proof.
  intros Ha Hb. unfold cmp448_4w. cbn [seq map].
  rewrite !(unzip448_4w_ok st _ a), !(unzip448_4w_ok st _ b) by (assumption || lia). reflexivity.
Qed.
