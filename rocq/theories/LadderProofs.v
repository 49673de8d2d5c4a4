(** The 64-bit X25519 ladder against RFC 7748. *)
From Coq Require Import ZArith List Bool Lia.
From Verif Require Import Uop X86 Engine Bytes Asm25519 Check FullTac Fp25519Full Fp25519FullProofs FullMore InPlace FullProps
  Spec Scalar SpecScalar ScalarProps SpecX Ladder.
Import ListNotations.
Open Scope Z_scope.

(** ** Bits of the key *)
Lemma land_bit x j : 0 <= j -> Z.land (x / 2 ^ j) 1 = Z.b2z (Z.testbit x j).
Proof. intro H. change (Z.land (x / 2 ^ j) 1) with (Z.land (x / 2 ^ j) (Z.ones 1)). rewrite Z.land_ones by lia. rewrite (Z.testbit_spec' x j) by exact H. reflexivity. Qed.
Lemma val_testbit ws : forall i j, Forall word ws -> 0 <= j < 64 -> Z.testbit (val ws) (64 * Z.of_nat i + j) = Z.testbit (nth i ws 0) j.
Proof.
  induction ws as [|w ws IH]; intros i j F Hj.
  - cbn [val]. rewrite Z.bits_0. destruct i; cbn [nth]; now rewrite Z.bits_0.
  - apply Forall_cons_iff in F as [Hw F]. cbn [val]. change W with (2 ^ 64). rewrite <- (Z.mod_small w (2 ^ 64)) by (unfold word, W in Hw; lia).
    destruct i as [|i]; cbn [nth].
    + rewrite Z.add_0_l. rewrite <- (Z.mod_pow2_bits_low _ 64 j) by lia.
      rewrite (Z.mul_comm (2 ^ 64)), Z.mod_add by lia. now rewrite Z.mod_mod by lia.
    + rewrite <- (IH i j F Hj). replace (64 * Z.of_nat (S i) + j) with (64 * Z.of_nat i + j + 64) by lia.
      rewrite <- Z.div_pow2_bits by lia. f_equal. rewrite (Z.mul_comm (2 ^ 64)), Z.div_add by lia.
      rewrite Z.div_small by (apply Z.mod_pos_bound; lia). lia.
Qed.
Definition bit_list (n top : nat) : list nat :=
  flat_map (fun i => map (fun j => (64 * i + j)%nat) (rev (seq 0 (if Nat.eqb i (n - 1) then S top else 64)))) (rev (seq 0 n)).
Lemma key_bits_ok n top key : (top < 64)%nat -> Forall word key ->
  key_bits n top key = map (fun t => Z.b2z (Z.testbit (val key) (Z.of_nat t))) (bit_list n top).
Proof.
  intros Ht F. unfold key_bits, bit_list. generalize (rev (seq 0 n)). intro is. induction is as [|i is IH]; [reflexivity|].
  cbn [flat_map]. rewrite map_app, <- IH. f_equal. rewrite map_map. apply map_ext_in. intros j Hj.
  apply in_rev, in_seq in Hj. assert (j < 64)%nat by (destruct (Nat.eqb i (n - 1)); lia).
  rewrite land_bit by lia. rewrite Nat2Z.inj_add, Nat2Z.inj_mul. change (Z.of_nat 64) with 64. rewrite val_testbit; [reflexivity|exact F|lia].
Qed.
Lemma key_bits_255 key : Forall word key -> key_bits 4 62 key = map (fun t => Z.b2z (Z.testbit (val key) (Z.of_nat t))) (rev (seq 0 255)).
Proof. intro F. rewrite key_bits_ok by (lia || exact F). f_equal. Qed.
Lemma key_bits_448 key : Forall word key -> key_bits 7 63 key = map (fun t => Z.b2z (Z.testbit (val key) (Z.of_nat t))) (rev (seq 0 448)).
Proof. intro F. rewrite key_bits_ok by (lia || exact F). f_equal. Qed.

(** ** Representation of field elements *)
Notation P := p25519.
Lemma rep4_intro a x : words 4 a -> (val a - x) mod P = 0 -> rep4 a x.
Proof. intros H E. split; [exact H|]. apply mod_cong; [discriminate|exact E]. Qed.
Lemma rep4_eq a x y : rep4 a x -> x mod P = y mod P -> rep4 a y.
Proof. intros [H E] E'. split; [exact H|]. now rewrite E. Qed.
Lemma sub_cong x y : x mod P = y mod P <-> (P | x - y).
Proof.
  split; intro H.
  - apply Z.mod_divide; [discriminate|]. rewrite Zminus_mod, H, Z.sub_diag. reflexivity.
  - destruct H as [q H]. replace x with (y + q * P) by lia. apply Z.mod_add. discriminate.
Qed.
Lemma add_cong x y u v : x mod P = u mod P -> y mod P = v mod P -> (x + y) mod P = (u + v) mod P.
Proof. intros H1 H2. now rewrite Zplus_mod, H1, H2, <- Zplus_mod. Qed.
Lemma diff_cong x y u v : x mod P = u mod P -> y mod P = v mod P -> (x - y) mod P = (u - v) mod P.
Proof. intros H1 H2. now rewrite Zminus_mod, H1, H2, <- Zminus_mod. Qed.
Lemma mul_cong x y u v : x mod P = u mod P -> y mod P = v mod P -> (x * y) mod P = (u * v) mod P.
Proof. intros H1 H2. now rewrite Zmult_mod, H1, H2, <- Zmult_mod. Qed.
Section Step.
Variable st : store.
Variable k : cpu.
Lemma rep4_add a b x y : rep4 a x -> rep4 b y -> rep4 (add st k a b) (x + y).
Proof.
  intros [Ha Ea] [Hb Eb]. destruct (add_ok st k a b Ha Hb) as [H E]. apply (rep4_eq _ (val a + val b)).
  - apply rep4_intro; assumption.
  - now apply add_cong.
Qed.
Lemma rep4_add_to a b x y : rep4 a x -> rep4 b y -> rep4 (add_to st k a b) (x + y).
Proof.
  intros Ha Hb. change (add_to st k a b) with (asm2_at st OCA (if adx k then asm_add_adx else asm_add_adc) 4 a b).
  rewrite (add_inplace st st k OCA a b); [now apply rep4_add|apply Ha|apply Hb|discriminate].
Qed.
Lemma rep4_sub a b x y : rep4 a x -> rep4 b y -> rep4 (sub st a b) (x - y).
Proof.
  intros [Ha Ea] [Hb Eb]. destruct (sub_ok st a b Ha Hb) as [H E]. apply (rep4_eq _ (val a - val b)).
  - apply rep4_intro; assumption.
  - now apply diff_cong.
Qed.
Lemma rep4_mula24 a x : rep4 a x -> rep4 (mula24 st k a) (121666 * x).
Proof.
  intros [Ha Ea]. destruct (mula24_ok st k a Ha) as [H E]. apply (rep4_eq _ (121666 * val a)).
  - apply rep4_intro; assumption.
  - now apply mul_cong.
Qed.
Lemma rep4_mul2 a b c d x y z w : rep4 a x -> rep4 b y -> rep4 c z -> rep4 d w ->
  let r := reduce2 st k (intmul2 st k (a ++ b) (c ++ d)) in rep4 (lo 4 r) (x * z) /\ rep4 (hi 4 r) (y * w).
Proof.
  intros [Ha Ea] [Hb Eb] [Hc Ec] [Hd Ed] r. unfold r. clear r.
  destruct (intmul2_spec st k a b c d Ha Hb Hc Hd) as (t1 & t2 & -> & H1 & H2 & E1 & E2).
  destruct (reduce2_spec st k t1 t2 H1 H2) as (r1 & r2 & -> & R1 & R2 & F1 & F2).
  unfold lo, hi. rewrite (app_lo 4) by apply R1. rewrite (app_hi 4) by apply R1.
  split; (split; [assumption|]).
  - unfold eqm in F1. change P25519 with P in F1. rewrite F1, E1. now apply mul_cong.
  - unfold eqm in F2. change P25519 with P in F2. rewrite F2, E2. now apply mul_cong.
Qed.
Lemma rep4_sqr2 a b x y : rep4 a x -> rep4 b y ->
  let r := reduce2 st k (intsqr2 st k (a ++ b)) in rep4 (lo 4 r) (x ^ 2) /\ rep4 (hi 4 r) (y ^ 2).
Proof.
  intros [Ha Ea] [Hb Eb] r. unfold r. clear r.
  destruct (intsqr2_spec st k a b Ha Hb) as (t1 & t2 & -> & H1 & H2 & E1 & E2).
  destruct (reduce2_spec st k t1 t2 H1 H2) as (r1 & r2 & -> & R1 & R2 & F1 & F2).
  unfold lo, hi. rewrite (app_lo 4) by apply R1. rewrite (app_hi 4) by apply R1. rewrite !Z.pow_2_r in *.
  split; (split; [assumption|]).
  - unfold eqm in F1. change P25519 with P in F1. rewrite F1, E1. now apply mul_cong.
  - unfold eqm in F2. change P25519 with P in F2. rewrite F2, E2. now apply mul_cong.
Qed.
Definition sel_code := code (env_of [bA; bB; bD]) asm_select_cmov_x64.
Definition sel_in (l h : Z) : list iarr := [wa 4 bA; wa 4 bB; IA bD [(l, h)] [1]].
Lemma sel_vc0 : vcq [] sel_code (sel_in 0 0) bA 4 (fun ins out => out = nth 0 ins []).
Proof. vc_start. intros r R C O. clear. cbv [sel_in wa bA bB bD]. vc_goal. now rewrite !Z.mul_1_l, !Z.mul_1_r, !Z.add_0_r. Qed.
Lemma sel_vc1 : vcq [] sel_code (sel_in 1 (2 ^ 64 - 1)) bA 4 (fun ins out => out = nth 1 ins []).
Proof. vc_start. intros r R C O. clear. cbv [sel_in wa bA bB bD]. vc_goal. now rewrite !Z.mul_1_l, !Z.mul_1_r, !Z.add_0_r. Qed.
Lemma sel_ok bit a b : words 4 a -> words 4 b -> 0 <= bit < 2 ^ 64 ->
  select_cmov_x64 st bit a b = if bit =? 0 then a else b.
Proof.
  intros Ha Hb Hbit. destruct (Z.eqb_spec bit 0) as [->|N].
  - refine (vcq_sound _ _ _ _ _ _ [a; b; [0]] st sel_vc0 eq_refl _).
    repeat (apply Forall2_cons; [first [now apply iok_wa|repeat constructor; cbn; lia]|]). constructor.
  - refine (vcq_sound _ _ _ _ _ _ [a; b; [bit]] st sel_vc1 eq_refl _).
    repeat (apply Forall2_cons; [first [now apply iok_wa|repeat constructor; cbn; lia]|]). constructor.
Qed.

(** ** One iteration *)
(** The four results of the loop body with the swap made late, as in the code. *)
Definition late_step (a24 x1 x2 z2 x3 z3 : Z) (swap : bool) : Z * Z * Z * Z :=
  let A := x2 + z2 in
  let B := x2 - z2 in
  let C := x3 + z3 in
  let D := x3 - z3 in
  let DA := A * D in
  let CB := B * C in
  let A' := if swap then C else A in
  let B' := if swap then D else B in
  let AA := A' ^ 2 in
  let BB := B' ^ 2 in
  let E := AA - BB in
  (BB * AA, E * ((a24 + 1) * E + BB), (DA + CB) ^ 2, (DA - CB) ^ 2 * x1).
Definition red4 (p : Z) (q : Z * Z * Z * Z) : Z * Z * Z * Z :=
  let '(a, b, c, d) := q in (a mod p, b mod p, c mod p, d mod p).
Lemma late_step_rfc p a24 kk x1 x2 z2 x3 z3 prev t :
  rfc_step p a24 kk x1 (x2, z2, x3, z3, prev) t =
  (red4 p (late_step a24 x1 x2 z2 x3 z3 (xorb prev (Z.testbit kk (Z.of_nat t)))), Z.testbit kk (Z.of_nat t)).
Proof.
  unfold rfc_step, late_step, red4, cswap. destruct (xorb prev _).
  all: apply f_equal2; [|reflexivity]; apply f_equal2; [apply f_equal2; [apply f_equal2|]|]; apply (f_equal (fun z => z mod p)); ring.
Qed.
Definition rep_state (s : list Z * list Z * list Z * list Z * Z) (q : Z * Z * Z * Z * bool) : Prop :=
  let '(X2, Z2, X3, Z3, prev) := s in
  let '(x2, z2, x3, z3, sw) := q in
  rep4 X2 x2 /\ rep4 Z2 z2 /\ rep4 X3 x3 /\ rep4 Z3 z3 /\ prev = Z.b2z sw.
Lemma rep4_mod a x : rep4 a x -> rep4 a (x mod P).
Proof. intro H. apply (rep4_eq _ x); [exact H|]. rewrite Z.mod_mod by discriminate. reflexivity. Qed.
Lemma rep4_sel sw a b x y : rep4 a x -> rep4 b y -> rep4 (select_cmov_x64 st (Z.b2z sw) a b) (if sw then y else x).
Proof.
  intros Ha Hb. rewrite sel_ok; [|apply Ha|apply Hb|destruct sw; cbn; lia]. destruct sw; assumption.
Qed.
Lemma lxor_b2z a b : Z.lxor (Z.b2z a) (Z.b2z b) = Z.b2z (xorb b a).
Proof. destruct a, b; reflexivity. Qed.
Lemma step_x64_ok kk X1 x1 s q t : rep4 X1 x1 -> rep_state s q ->
  rep_state (step_x64 st k X1 s (Z.b2z (Z.testbit kk (Z.of_nat t)))) (rfc_step P 121665 kk x1 q t).
Proof.
  intros H1 Hs. destruct s as [[[[X2 Z2] X3] Z3] pr]. destruct q as [[[[x2 z2] x3] z3] sw].
  destruct Hs as (Hx2 & Hz2 & Hx3 & Hz3 & ->). rewrite late_step_rfc.
  set (bt := Z.testbit kk (Z.of_nat t)). clearbody bt. unfold step_x64. rewrite lxor_b2z.
  set (swp := xorb sw bt). clearbody swp.
  pose proof (rep4_add _ _ _ _ Hx2 Hz2) as HA. pose proof (rep4_sub _ _ _ _ Hx2 Hz2) as HB.
  pose proof (rep4_add _ _ _ _ Hx3 Hz3) as HC. pose proof (rep4_sub _ _ _ _ Hx3 Hz3) as HD.
  set (A := add st k X2 Z2) in *. set (B := sub st X2 Z2) in *. set (C := add st k X3 Z3) in *. set (DD := sub st X3 Z3) in *.
  clearbody A B C DD.
  destruct (rep4_mul2 _ _ _ _ _ _ _ _ HA HB HD HC) as [HDA HCB].
  set (dacb := reduce2 st k (intmul2 st k (A ++ B) (DD ++ C))) in *. clearbody dacb.
  pose proof (rep4_sel swp _ _ _ _ HA HC) as HA'. pose proof (rep4_sel swp _ _ _ _ HB HD) as HB'.
  set (A' := select_cmov_x64 _ _ A C) in *. set (B' := select_cmov_x64 _ _ B DD) in *. clearbody A' B'.
  destruct (rep4_sqr2 _ _ _ _ HA' HB') as [HAA HBB].
  set (ab := reduce2 st k (intsqr2 st k (A' ++ B'))) in *. clearbody ab.
  pose proof (rep4_add _ _ _ _ HDA HCB) as HX. pose proof (rep4_sub _ _ _ _ HDA HCB) as HZ.
  destruct (rep4_sqr2 _ _ _ _ HX HZ) as [HX3 HZ3].
  set (xz := reduce2 st k (intsqr2 st k (add st k _ _ ++ _))) in *. clearbody xz. cbv zeta. unfold copy.
  pose proof (rep4_sub _ _ _ _ HAA HBB) as HE. set (E := sub st (lo 4 ab) (hi 4 ab)) in *. clearbody E.
  pose proof (rep4_add_to _ _ _ _ (rep4_mula24 _ _ HE) HBB) as HF. set (F := add_to st k _ _) in *. clearbody F.
  destruct (rep4_mul2 _ _ _ _ _ _ _ _ HBB HE HAA HF) as [HX2 HZ2].
  pose proof (rep4_mul st k _ _ _ _ HZ3 H1) as HZ3'.
  unfold late_step, red4, rep_state.
  split; [apply rep4_mod; exact HX2|]. split; [apply rep4_mod; exact HZ2|]. split; [apply rep4_mod; exact HX3|].
  split; [apply rep4_mod; exact HZ3'|]. reflexivity.
Qed.
Lemma fold_x64_ok kk X1 x1 ts : forall s q, rep4 X1 x1 -> rep_state s q ->
  rep_state (fold_left (step_x64 st k X1) (map (fun t => Z.b2z (Z.testbit kk (Z.of_nat t))) ts) s) (fold_left (rfc_step P 121665 kk x1) ts q).
Proof.
  induction ts as [|t ts IH]; intros s q H1 Hs; [exact Hs|]. cbn [map fold_left]. apply IH; [exact H1|]. now apply step_x64_ok.
Qed.
End Step.

(** ** The whole function *)
Lemma fold_rfc_swap p a24 kk x1 n q : Z.testbit kk 0 = false -> (0 < n)%nat ->
  snd (fold_left (rfc_step p a24 kk x1) (rev (seq 0 n)) q) = false.
Proof.
  intros H Hn. destruct n as [|n]; [lia|]. cbn [seq rev]. rewrite fold_left_app. cbn [fold_left].
  destruct (fold_left _ _ q) as [[[[a b] c] d] e]. unfold rfc_step. cbv zeta. destruct (cswap _ _ _). destruct (cswap _ _ _). exact H.
Qed.
Lemma pow_cong x y e : x mod P = y mod P -> x ^ e mod P = y ^ e mod P.
Proof.
  intro H. destruct (Z.leb_spec 0 e); [|now rewrite !Z.pow_neg_r by lia]. revert e H0. apply natlike_ind; [reflexivity|].
  intros e He IH. rewrite !Z.pow_succ_r by exact He. now apply mul_cong.
Qed.
Lemma mask_top_ok bs : bytes 32 bs -> bytes 32 (mask_top bs) /\ le_val (mask_top bs) = le_val bs mod 2 ^ 255.
Proof.
  intros H. destruct (bytes32_split bs H) as (b0 & m & b31 & -> & H0 & Hm & H31). destruct Hm as [Lm Fm].
  unfold mask_top. change (b0 :: m ++ [b31]) with ((b0 :: m) ++ [b31]). rewrite firstn_app, app_nth2 by (cbn [length]; rewrite Lm; lia).
  cbn [length]. rewrite Lm. change (31 - 31)%nat with 0%nat. cbn [nth].
  rewrite firstn_all2 by (cbn [length]; rewrite Lm; lia). cbn [firstn]. rewrite app_nil_r.
  change 127 with (Z.ones 7). rewrite Z.land_ones by lia. split.
  - split; [cbn [length app]; rewrite app_length, Lm; reflexivity|]. apply Forall_app. split; [constructor; assumption|].
    constructor; [|constructor]. unfold byte in *. assert (0 <= b31 mod 2 ^ 7 < 2 ^ 7) by (apply Z.mod_pos_bound; lia). lia.
  - rewrite !le_val_app. cbn [length]. rewrite Lm. cbn [le_val].
    assert (B : 0 <= le_val (b0 :: m) < 256 ^ 31).
    { assert (F : Forall byte (b0 :: m)) by (constructor; assumption). pose proof (le_val_bound _ F) as Q. cbn [length] in Q. rewrite Lm in Q. exact Q. }
    cbn [le_val] in B. change (Z.of_nat 31) with 31. change (2 ^ 255) with (256 ^ 31 * 2 ^ 7).
    rewrite (Z.rem_mul_r _ (256 ^ 31) (2 ^ 7)) by lia.
    set (l := b0 + 256 * le_val m) in *. set (q := 256 ^ 31) in *. assert (0 < q) by reflexivity. clearbody l q.
    rewrite Z.mul_0_r, !Z.add_0_r. assert (M : forall x, (l + q * x) mod q = l /\ (l + q * x) / q = x).
    { intro x. rewrite (Z.mul_comm q x), Z.mod_add, Z.div_add by lia. rewrite Z.mod_small, Z.div_small by lia. split; lia. }
    destruct (M b31) as [-> ->]. reflexivity.
Qed.
Lemma scalar_clamped x : scalar25519 x = clamped255 x.
Proof. reflexivity. Qed.
Lemma clamped_bit0 x : Z.testbit (clamped255 x) 0 = false.
Proof.
  unfold clamped255. apply Z.testbit_false; [lia|]. change (2 ^ 0) with 1. rewrite Z.div_1_r, Zplus_mod, Zmult_mod.
  change (8 mod 2) with 0. rewrite Z.mul_0_l. reflexivity.
Qed.
Lemma X25519_x64_ok st k sk pk : bytes 32 sk -> bytes 32 pk ->
  bytes 32 (x25519_shared_x64 st k pk sk) /\ le_val (x25519_shared_x64 st k pk sk) = X25519_spec (le_val sk) (le_val pk).
Proof.
  intros Hs Hp. unfold x25519_shared_x64, X25519_spec, rfc_ladder.
  destruct (clamp255_ok sk Hs) as (Bc & Ec & _). destruct (mask_top_ok pk Hp) as [Bm Em].
  destruct (words_of_ok 4 _ Bc) as [Wc Vc]. destruct (words_of_ok 4 _ Bm) as [Wm Vm].
  rewrite <- Em, <- Vm, scalar_clamped, <- Ec, <- Vc.
  rewrite key_bits_255 by apply Wc.
  assert (T : Z.testbit (val (words_of 4 (clamp_bytes255 sk))) 0 = false).
  { rewrite Vc, Ec. apply clamped_bit0. }
  set (kk := val (words_of 4 (clamp_bytes255 sk))) in *. set (X1 := words_of 4 (mask_top pk)) in *. clearbody kk X1.
  assert (R1 : rep4 X1 (val X1)) by (split; [exact Wm|reflexivity]).
  pose proof (fold_rfc_swap P 121665 kk (val X1) 255 (1, 0, val X1, 1, false) T ltac:(lia)) as Sw.
  pose proof (fold_x64_ok st k kk X1 (val X1) (rev (seq 0 255)) ([1; 0; 0; 0], zero, X1, [1; 0; 0; 0], 0) (1, 0, val X1, 1, false) R1) as Fo.
  assert (I : rep_state ([1; 0; 0; 0], zero, X1, [1; 0; 0; 0], 0) (1, 0, val X1, 1, false)).
  { unfold rep_state, rep4. split; [|split; [|split; [exact R1|split; [|reflexivity]]]].
    all: split; [split; [reflexivity|repeat constructor; unfold word, W; lia]|reflexivity]. }
  specialize (Fo I). clear I. change (2 ^ 255 - 19) with P.
  destruct (fold_left (step_x64 _ _ _) _ _) as [[[[Qx Qz] Px] Pz] pr].
  destruct (fold_left (rfc_step _ _ _ _) _ _) as [[[[x2 z2] x3] z3] sw]. cbn [snd] in Sw. subst sw. cbn [cswap].
  destruct Fo as (Hx & Hz & _). destruct (inv_ok st k Qz (proj1 Hz)) as [Wi Ei].
  assert (Hi : rep4 (inv st k Qz) (z2 ^ (P - 2))). { split; [exact Wi|]. rewrite Ei. apply pow_cong. apply Hz. }
  destruct (rep4_mul st k _ _ _ _ Hx Hi) as [Wr Er]. destruct (ser_ok st _ Wr) as [Br Vr]. split; [exact Br|]. rewrite Vr. exact Er.
Qed.
