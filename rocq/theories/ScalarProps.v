(** The statements of the scalar properties, proved from the lemmas on the model. *)
From Coq Require Import ZArith List Bool Lia.
From Verif Require Import Uop Engine Bytes FullProps Spec SpecScalar Scalar ScalarProofs Scalar448 Scalar448Proofs.
Import ListNotations.
Open Scope Z_scope.

Lemma wrap_cases v x : - 43 * c255 <= v < 2 ^ 252 -> v mod L25519 = x mod L25519 ->
  v mod 2 ^ 256 = x mod L25519 \/
  (v mod 2 ^ 256 = 2 ^ 256 - L25519 + x mod L25519 /\ 2 ^ 252 - 42 * (L25519 - 2 ^ 252) <= x mod L25519).
Proof.
  intros B E. destruct (wrap255_right v x B E) as (A1 & A2 & _). change ell255 with L25519 in *.
  destruct (Z_lt_ge_dec v 0) as [N|N]; [right|left; apply A1; lia].
  split; [|change (L25519 - 2 ^ 252) with c255; apply (A2 N)]. rewrite <- E.
  rewrite <- (Z.mod_unique v (2 ^ 256) (-1) (v + 2 ^ 256)) by (unfold c255 in B; lia).
  rewrite <- (Z.mod_unique v L25519 (-1) (v + L25519)) by (unfold c255 in B; unfold L25519; lia). lia.
Qed.
Lemma red255_spec st a : words 8 a ->
  let res := firstn 4 (modular_reduction_ed25519 st a) in
  words 4 res /\
  (val res = val a mod L25519 \/
   (val res = 2 ^ 256 - L25519 + val a mod L25519 /\ 2 ^ 252 - 42 * (L25519 - 2 ^ 252) <= val a mod L25519)).
Proof.
  intro H. destruct (modred255_ok st a H) as (Wr & Bv & V). cbv zeta in *. split; [exact Wr|]. rewrite V.
  apply wrap_cases; [exact (wrap255_range _ Bv)|].
  change L25519 with ell255. now rewrite wrap255_cong, !fold255_cong.
Qed.
Lemma red255_wrong st a : words 8 a -> 2 ^ 252 <= val a mod L25519 ->
  val (firstn 4 (modular_reduction_ed25519 st a)) = 2 ^ 256 - L25519 + val a mod L25519.
Proof.
  intros H G. destruct (modred255_ok st a H) as (_ & Bv & V). cbv zeta in *.
  pose proof (wrap255_range _ Bv) as Bw. set (w := wrap255 (fold255 (fold255 (val a)))) in *.
  assert (E : w mod ell255 = val a mod ell255) by (unfold w; now rewrite wrap255_cong, !fold255_cong).
  destruct (wrap255_right w (val a) Bw E) as (A1 & _ & A3). change ell255 with L25519 in *.
  specialize (A3 G). destruct (wrap_cases w (val a) Bw E) as [X|[X _]]; [|now rewrite V]. apply A1 in X. lia.
Qed.
Lemma words_val_lt n a : words n a -> 0 <= val a < 2 ^ (64 * Z.of_nat n).
Proof. intro H. rewrite <- W_pow. exact (val_bound _ _ H). Qed.


Lemma s255_spec st r k a : words 4 r -> words 4 k -> words 4 a ->
  let s := calculate_s_ed25519 st r k a in
  let n := val r + val k * val a - dropped (val r) k a in
  words 4 s /\ 0 <= dropped (val r) k a /\
  (val s = n mod L25519 \/ (val s = 2 ^ 256 - L25519 + n mod L25519 /\ 2 ^ 252 - 42 * (L25519 - 2 ^ 252) <= n mod L25519)).
Proof.
  intros Hr Hk Ha. cbv zeta. unfold calculate_s_ed25519.
  assert (L4 : forall l, words 4 l -> firstn 4 l = l) by (intros l [L _]; apply firstn_all2; lia).
  rewrite (L4 r Hr), (L4 k Hk), (L4 a Ha).
  assert (HC : words (length k + length a + 1 + 3) (r ++ repeat 0 8)).
  { rewrite (proj1 Hk), (proj1 Ha). exact (words_app 4 8 _ _ Hr (repeat0_words 8)). }
  destruct (multiplier_ok st _ _ _ 3 HC (proj2 Hk) (proj2 Ha)) as [Wp Vp].
  rewrite val_app, val_repeat0, Z.mul_0_r, Z.add_0_r in Vp. fold (dropped (val r) k a) in Vp.
  rewrite (proj1 Hk), (proj1 Ha) in Wp. change (4 + 4 + 1 + 3)%nat with (8 + 4)%nat in Wp.
  pose proof (mul_acc2_nonneg k a (val r) (proj2 Hk) (proj2 Ha)) as Nn. fold (dropped (val r) k a) in Nn.
  set (n := val r + val k * val a - dropped (val r) k a) in *.
  assert (Bn : 0 <= n < 2 ^ 512).
  { split; [rewrite <- Vp; apply (val_bound _ _ Wp)|]. pose proof (words_val_lt _ _ Hr) as X. pose proof (words_val_lt _ _ Hk) as Y. pose proof (words_val_lt _ _ Ha) as T.
    change (2 ^ (64 * Z.of_nat 4)) with (2 ^ 256) in *. unfold n.
    assert (val k * val a <= (2 ^ 256 - 1) * (2 ^ 256 - 1)) by (apply Z.mul_le_mono_nonneg; lia). lia. }
  destruct (words_app_inv 8 4 _ Wp) as [W8 _]. destruct (val_mod 8 4 _ Wp) as [V8 _].
  rewrite Vp in V8. change (2 ^ (64 * Z.of_nat 8)) with (2 ^ 512) in V8. rewrite (Z.mod_small _ _ Bn) in V8.
  destruct (red255_spec st _ W8) as [Ws Vs]. rewrite V8 in Vs. split; [exact Ws|split; [exact Nn|exact Vs]].
Qed.
Lemma s255_right st r k a : words 4 r -> words 4 k -> words 4 a -> dropped (val r) k a = 0 ->
  (val r + val k * val a) mod L25519 < 2 ^ 252 - 42 * (L25519 - 2 ^ 252) ->
  val (calculate_s_ed25519 st r k a) = (val r + val k * val a) mod L25519.
Proof. intros Hr Hk Ha D S. destruct (s255_spec st r k a Hr Hk Ha) as (_ & _ & V). rewrite D, Z.sub_0_r in V. destruct V as [V|[_ V]]; [exact V|]. apply Z.le_ngt in V. contradiction. Qed.

(** The clamped secret scalar *)
Lemma byte_check (P : Z -> bool) : forallb (fun n => P (Z.of_nat n)) (seq 0 256) = true -> forall b, byte b -> P b = true.
Proof. intros H b [B1 B2]. rewrite forallb_forall in H. specialize (H (Z.to_nat b)). rewrite Z2Nat.id in H by exact B1. apply H, in_seq. lia. Qed.
Lemma and248 b : byte b -> Z.land b 248 = 8 * (b / 8).
Proof. intro H. apply Z.eqb_eq. revert b H. apply (byte_check (fun b => Z.land b 248 =? 8 * (b / 8))). vm_compute. reflexivity. Qed.
Lemma or64 b : byte b -> Z.lor (Z.land b 127) 64 = 64 + b mod 64.
Proof. intro H. apply Z.eqb_eq. revert b H. apply (byte_check (fun b => Z.lor (Z.land b 127) 64 =? 64 + b mod 64)). vm_compute. reflexivity. Qed.
Lemma bytes32_split az : bytes 32 az -> exists b0 m b31, az = b0 :: m ++ [b31] /\ byte b0 /\ bytes 30 m /\ byte b31.
Proof.
  intros [L F]. destruct az as [|b0 t]; [discriminate|]. apply Forall_cons_iff in F as [F0 F]. injection L as L.
  exists b0, (firstn 30 t), (nth 30 t 0). assert (E : skipn 30 t = [nth 30 t 0]).
  { assert (LS : length (skipn 30 t) = 1%nat) by (rewrite skipn_length; lia). rewrite <- (firstn_skipn 30 t) at 2. rewrite app_nth2 by (rewrite firstn_length; lia).
    rewrite firstn_length. replace (30 - Nat.min 30 (length t))%nat with 0%nat by lia. destruct (skipn 30 t) as [|x [|? ?]]; try discriminate. reflexivity. }
  split; [rewrite <- E, firstn_skipn; reflexivity|]. split; [exact F0|].
  rewrite <- (firstn_skipn 30 t) in F. apply Forall_app in F as [F1 F2]. split; [split; [rewrite firstn_length; lia|exact F1]|].
  rewrite E in F2. now apply Forall_cons_iff in F2.
Qed.
Lemma clamp255_ok az : bytes 32 az -> bytes 32 (clamp_bytes255 az) /\ le_val (clamp_bytes255 az) = clamped255 (le_val az) /\
  nth 31 (clamp_bytes255 az) 0 = le_val (clamp_bytes255 az) / 2 ^ 248.
Proof.
  intro H. destruct (bytes32_split az H) as (b0 & m & b31 & -> & H0 & [Lm Fm] & H31). clear H.
  unfold clamp_bytes255. cbn [nth skipn]. rewrite firstn_app_le by lia. rewrite firstn_all2 by lia.
  rewrite app_nth2 by lia. rewrite Lm. change (30 - 30)%nat with 0%nat. cbn [nth].
  rewrite (and248 b0 H0), (or64 b31 H31).
  unfold byte in *. assert (Bm := le_val_bound m Fm). rewrite Lm in Bm. change (2 ^ (8 * Z.of_nat 30)) with (2 ^ 240) in Bm.
  assert (E : forall x y, le_val (x :: m ++ [y]) = x + 256 * le_val m + 2 ^ 248 * y).
  { intros x y. cbn [le_val]. rewrite le_val_app, Lm. cbn [le_val]. change (2 ^ (8 * Z.of_nat 30)) with (2 ^ 240). lia. }
  rewrite !E. pose proof (Z.mod_pos_bound b31 64 ltac:(lia)) as M. pose proof (Z.div_mod b31 64 ltac:(lia)) as D.
  pose proof (Z.mod_pos_bound b0 8 ltac:(lia)) as M0. pose proof (Z.div_mod b0 8 ltac:(lia)) as D0.
  split; [|split].
  - split; [cbn [length]; rewrite app_length, Lm; reflexivity|]. constructor; [unfold byte; lia|]. apply Forall_app. split; [exact Fm|]. constructor; [unfold byte; lia|constructor].
  - unfold clamped255. set (M1 := le_val m) in *. clearbody M1.
    replace ((b0 + 256 * M1 + 2 ^ 248 * b31) mod 2 ^ 254) with (b0 + 256 * M1 + 2 ^ 248 * (b31 mod 64)).
    2:{ apply (Z.mod_unique _ _ (b31 / 64)); lia. }
    replace ((b0 + 256 * M1 + 2 ^ 248 * (b31 mod 64)) / 8) with (b0 / 8 + 32 * M1 + 2 ^ 245 * (b31 mod 64)).
    2:{ apply (Z.div_unique _ _ _ (b0 mod 8)); lia. }
    lia.
  - cbn [nth]. rewrite app_nth2 by lia. rewrite Lm. change (30 - 30)%nat with 0%nat. cbn [nth].
    apply (Z.div_unique _ _ _ (8 * (b0 / 8) + 256 * le_val m)); lia.
Qed.
Lemma land15 b : byte b -> Z.land b 15 = b mod 16.
Proof. intro H. change 15 with (Z.ones 4). apply Z.land_ones. lia. Qed.
Lemma secret_scalar_spec st az : bytes 64 az ->
  let x := clamped255 (le_val (firstn 32 az)) in
  let res := secret_scalar st az in
  words 4 res /\ (val res = x mod L25519 \/ (val res = 2 ^ 256 - L25519 + x mod L25519 /\ 2 ^ 252 - 42 * (L25519 - 2 ^ 252) <= x mod L25519)).
Proof.
  intro H. cbv zeta.
  assert (H32 : bytes 32 (firstn 32 az)).
  { destruct H as [L F]. split; [rewrite firstn_length; lia|]. rewrite <- (firstn_skipn 32 az) in F. now apply Forall_app in F. }
  assert (EC : clamp_bytes255 az = clamp_bytes255 (firstn 32 az)).
  { do 33 (destruct az as [|? az]; [destruct H; discriminate|]). reflexivity. }
  unfold secret_scalar. rewrite EC. destruct (clamp255_ok _ H32) as (Bb & Vb & Tb).
  set (b := clamp_bytes255 (firstn 32 az)) in *. clearbody b.
  assert (Rx : 2 ^ 254 <= clamped255 (le_val (firstn 32 az)) < 2 ^ 255).
  { unfold clamped255. set (y := le_val (firstn 32 az)). pose proof (Z.mod_pos_bound y (2 ^ 254) ltac:(lia)).
    pose proof (Z.div_mod (y mod 2 ^ 254) 8 ltac:(lia)). pose proof (Z.mod_pos_bound (y mod 2 ^ 254) 8 ltac:(lia)). lia. }
  set (x := clamped255 (le_val (firstn 32 az))) in *. clearbody x. clear EC H H32 az.
  assert (T : byte (nth 31 b 0)) by (destruct Bb as [L F]; rewrite Forall_forall in F; apply F, nth_In; lia).
  assert (E31 : b = firstn 31 b ++ [nth 31 b 0]).
  { destruct Bb as [L _]. do 33 (destruct b as [|? b]; [try discriminate|]); [reflexivity|discriminate]. }
  assert (L31 : length (firstn 31 b) = 31%nat) by (destruct Bb; rewrite firstn_length; lia).
  assert (F31 : Forall byte (firstn 31 b)) by (destruct Bb as [_ F]; rewrite E31 in F; now apply Forall_app in F).
  set (t := nth 31 b 0) in *. rewrite (land15 t T).
  assert (Vs : le_val (firstn 31 b) + 2 ^ 248 * t = x).
  { rewrite <- Vb. rewrite E31 at 2. rewrite le_val_app, L31. cbn [le_val]. change (2 ^ (8 * Z.of_nat 31)) with (2 ^ 248). lia. }
  assert (B31 := le_val_bound _ F31). rewrite L31 in B31. change (2 ^ (8 * Z.of_nat 31)) with (2 ^ 248) in B31.
  assert (Mt := Z.mod_pos_bound t 16 ltac:(lia)). assert (Dt := Z.div_mod t 16 ltac:(lia)). unfold byte in T.
  assert (B' : bytes (8 * 4) (firstn 31 b ++ [t mod 16])).
  { split; [rewrite app_length, L31; reflexivity|]. apply Forall_app. split; [exact F31|]. constructor; [unfold byte; lia|constructor]. }
  destruct (words_of_ok _ _ B') as [Ww Vw].
  assert (Vl : le_val (firstn 31 b ++ [t mod 16]) = x mod 2 ^ 252).
  { rewrite le_val_app, L31. cbn [le_val]. change (2 ^ (8 * Z.of_nat 31)) with (2 ^ 248).
    apply (Z.mod_unique _ _ (t / 16)); lia. }
  assert (Vq : t / 16 = x / 2 ^ 252).
  { apply (Z.div_unique _ _ _ (le_val (firstn 31 b) + 2 ^ 248 * (t mod 16))); lia. }
  change (2 ^ 4) with 16.
  assert (W5 : words 5 (words_of 4 (firstn 31 b ++ [t mod 16]) ++ [t / 16])).
  { apply (words_app 4 1 _ _ Ww). split; [reflexivity|]. constructor; [|constructor]. unfold word, W. lia. }
  assert (Wq : word (t / 16)) by (unfold word, W; lia).
  destruct (reduce64_ok st _ _ Ww Wq) as [Wr Vr]. rewrite Vw, Vl, Vq in Vr. fold (wrap255 x) in Vr.
  rewrite Vq. rewrite Vq in Wr.
  split; [exact Wr|]. rewrite Vr. apply wrap_cases; [apply wrap255_range; lia|apply wrap255_cong].
Qed.

(** ** Ed448 *)
Lemma ellx4_limbs : limbs64 4 (4 * (2 ^ 446 - L448)) = ellx4. Proof. vm_compute. reflexivity. Qed.
Lemma ell448w_limbs : limbs64 4 (2 ^ 446 - L448) = ell448w. Proof. vm_compute. reflexivity. Qed.
Lemma e448_L : e448 = 2 ^ 446 - L448. Proof. unfold e448, L448. ring. Qed.
Lemma L448_ell : L448 = ell448. Proof. unfold ell448. rewrite e448_L. ring. Qed.
Lemma dropped_kept c A B : dropped c A B = 0 -> kept c A B. Proof. intro H. exact H. Qed.
Lemma limbs64_1 x : 0 <= x < 2 ^ 448 -> limbs64 1 (x / 2 ^ 446) = [x / 2 ^ 446].
Proof.
  intro H. unfold limbs64. cbn [seq map]. change (2 ^ (64 * Z.of_nat 0)) with 1. rewrite Z.div_1_r, Z.mod_small; [reflexivity|].
  split; [apply Z.div_pos; lia|]. apply Z.div_lt_upper_bound; lia.
Qed.
Lemma step_fold n x : 0 <= x < 2 ^ (448 + 64 * Z.of_nat n) -> no_lost_carry (x mod 2 ^ 448) 4 n (4 * (2 ^ 446 - L448)) (x / 2 ^ 448) ->
  step448_kept n x /\ step448 n x = fold448 x.
Proof.
  unfold no_lost_carry. rewrite ellx4_limbs. intros B K. split; [exact K|].
  destruct (step_kept_ok n x K B) as [E _]. rewrite E, e448_L. reflexivity.
Qed.
Lemma red448_spec st junk a : words 2 junk -> bytes 114 a ->
  let res := modular_reduction_ed448 st junk a in
  bytes 114 res /\ 0 <= le_val res < 2 ^ 448 /\
  (no_lost_carry448 (le_val a) -> eqm L448 (le_val res) (le_val a) /\ le_val res < 2 ^ 446 + 3 * (2 ^ 446 - L448)).
Proof.
  intros HJ Ha. cbv zeta. destruct (modred448_ok st junk a HJ Ha) as (B & V & R & R1 & R2 & R3). cbv zeta in *.
  split; [exact B|]. split; [rewrite V; exact R|]. intros (K1 & K2 & K3 & K4). cbv zeta in *.
  assert (Bx : 0 <= le_val a < 2 ^ 912). { pose proof (le_val_bound _ (proj2 Ha)) as X. rewrite (proj1 Ha) in X. exact X. }
  destruct (step_fold 8 (le_val a) ltac:(clear - Bx; change (448 + 64 * Z.of_nat 8) with 960; lia) K1) as [S1 E1]. rewrite <- E1 in K2, K3, K4.
  destruct (step_fold 4 (step448 8 (le_val a)) ltac:(clear - R1; change (448 + 64 * Z.of_nat 4) with 704; lia) K2) as [S2 E2]. rewrite <- E2 in K3, K4.
  destruct (step_fold 1 (step448 4 (step448 8 (le_val a))) ltac:(clear - R2; change (448 + 64 * Z.of_nat 1) with 512; lia) K3) as [S3 E3]. rewrite <- E3 in K4.
  rewrite V. unfold eqm.
  destruct (red448_kept_ok (le_val a) Bx) as [X Y]; [|exact R1|exact R2|exact R3|rewrite <- L448_ell in X; rewrite e448_L in Y; split; [exact X|apply Y]].
  unfold red448_kept. cbv zeta. split; [exact S1|]. split; [exact S2|]. split; [exact S3|]. unfold no_lost_carry in K4. rewrite ell448w_limbs in K4.
  rewrite (limbs64_1 _ R3) in K4. exact (dropped_kept _ _ _ K4).
Qed.
Lemma red448_indep st st' junk junk' a : words 2 junk -> words 2 junk' -> bytes 114 a ->
  modular_reduction_ed448 st junk a = modular_reduction_ed448 st' junk' a.
Proof.
  intros HJ HJ' Ha. destruct (modred448_ok st junk a HJ Ha) as (B & V & _), (modred448_ok st' junk' a HJ' Ha) as (B' & V' & _). cbv zeta in *.
  destruct B as [B1 B2], B' as [B1' B2']. apply le_val_inj; [now rewrite B1, B1'|exact B2|exact B2'|now rewrite V, V'].
Qed.
(** multiplication of two 56-byte numbers, accumulated on a third, then reduced *)
Lemma mulred448 st junk C A B : words 2 junk -> words 7 C -> words 7 A -> words 7 B ->
  let n := val C + val A * val B - dropped (val C) A B in
  let res := firstn 56 (modular_reduction_ed448 st junk (firstn 114 (bytes_of (word64_multiplier st (C ++ repeat 0 9) A B)))) ++ [0] in
  bytes 57 res /\ 0 <= le_val res < 2 ^ 448 /\ 0 <= dropped (val C) A B /\
  (no_lost_carry448 n -> eqm L448 (le_val res) n /\ le_val res < 2 ^ 446 + 3 * (2 ^ 446 - L448)).
Proof.
  intros HJ HC HA HB. cbv zeta.
  assert (WC : words (length A + length B + 1 + 1) (C ++ repeat 0 9)).
  { rewrite (proj1 HA), (proj1 HB). exact (words_app 7 9 _ _ HC (repeat0_words 9)). }
  destruct (multiplier_ok st _ _ _ 1 WC (proj2 HA) (proj2 HB)) as [Wp Vp].
  rewrite val_app, val_repeat0, Z.mul_0_r, Z.add_0_r in Vp. fold (dropped (val C) A B) in Vp.
  pose proof (mul_acc2_nonneg A B (val C) (proj2 HA) (proj2 HB)) as Nn. fold (dropped (val C) A B) in Nn.
  rewrite (proj1 HA), (proj1 HB) in Wp. change (7 + 7 + 1 + 1)%nat with 16%nat in Wp.
  set (p := word64_multiplier st (C ++ repeat 0 9) A B) in *. clearbody p.
  set (n := val C + val A * val B - dropped (val C) A B) in *.
  assert (Bn : 0 <= n < 2 ^ 897).
  { split; [rewrite <- Vp; apply (val_bound _ _ Wp)|]. pose proof (words_val_lt _ _ HC) as X. pose proof (words_val_lt _ _ HA) as Y. pose proof (words_val_lt _ _ HB) as T.
    change (2 ^ (64 * Z.of_nat 7)) with (2 ^ 448) in *. unfold n.
    assert (val A * val B <= (2 ^ 448 - 1) * (2 ^ 448 - 1)) by (apply Z.mul_le_mono_nonneg; lia). lia. }
  destruct (bytes_of_ok _ _ Wp) as [Bp Lp]. rewrite Vp in Lp.
  assert (Ba : bytes 114 (firstn 114 (bytes_of p)) /\ le_val (firstn 114 (bytes_of p)) = n).
  { destruct Bp as [LL FF]. assert (F := FF). rewrite <- (firstn_skipn 114 (bytes_of p)) in F. apply Forall_app in F as [F1 F2].
    assert (L1 : length (firstn 114 (bytes_of p)) = 114%nat) by (rewrite firstn_length; lia).
    split; [split; [exact L1|exact F1]|].
    assert (S : n = le_val (firstn 114 (bytes_of p)) + 2 ^ 912 * le_val (skipn 114 (bytes_of p))).
    { rewrite <- Lp. rewrite <- (firstn_skipn 114 (bytes_of p)) at 1. rewrite le_val_app, L1. reflexivity. }
    pose proof (le_val_bound _ F1) as B1. rewrite L1 in B1. change (2 ^ (8 * Z.of_nat 114)) with (2 ^ 912) in B1.
    pose proof (le_val_bound _ F2) as B2. clear - S B1 B2 Bn. set (u := le_val (firstn 114 (bytes_of p))) in *. set (v := le_val (skipn 114 (bytes_of p))) in *. clearbody u v. lia. }
  destruct Ba as [Ba Va]. destruct (red448_spec st junk _ HJ Ba) as (B2 & R2 & S2). cbv zeta in *. rewrite Va in S2.
  set (res := modular_reduction_ed448 st junk (firstn 114 (bytes_of p))) in *. clearbody res.
  assert (V56 : bytes 57 (firstn 56 res ++ [0]) /\ le_val (firstn 56 res ++ [0]) = le_val res).
  { destruct B2 as [L F]. assert (F' := F). rewrite <- (firstn_skipn 56 res) in F'. apply Forall_app in F' as [F1 F2].
    assert (L1 : length (firstn 56 res) = 56%nat) by (rewrite firstn_length; lia).
    split; [split; [rewrite app_length, L1; reflexivity|apply Forall_app; split; [exact F1|constructor; [unfold byte; lia|constructor]]]|].
    rewrite le_val_app. cbn [le_val]. assert (S : le_val res = le_val (firstn 56 res) + 2 ^ 448 * le_val (skipn 56 res)).
    { rewrite <- (firstn_skipn 56 res) at 1. rewrite le_val_app, L1. reflexivity. }
    pose proof (le_val_bound _ F1) as B1. pose proof (le_val_bound _ F2) as B3.
    assert (le_val (skipn 56 res) = 0) by lia. lia. }
  destruct V56 as [B57 V57]. split; [exact B57|]. rewrite V57. split; [exact R2|]. split; [exact Nn|exact S2].
Qed.
Lemma firstn56 r : bytes 57 r -> words 7 (words_of 7 (firstn 56 r)) /\ val (words_of 7 (firstn 56 r)) = le_val (firstn 56 r) /\ 0 <= le_val (firstn 56 r) < 2 ^ 448.
Proof.
  intros [L F]. rewrite <- (firstn_skipn 56 r) in F. apply Forall_app in F as [F _].
  assert (B : bytes (8 * 7) (firstn 56 r)) by (split; [rewrite firstn_length; lia|exact F]).
  destruct (words_of_ok _ _ B) as [X Y]. split; [exact X|]. split; [exact Y|]. pose proof (le_val_bound _ F) as Z. rewrite (proj1 B) in Z. exact Z.
Qed.
Lemma s448_spec st junk r h a : words 2 junk -> bytes 57 r -> bytes 57 h -> bytes 57 a ->
  let x := le_val (firstn 56 r) in let y := le_val (firstn 56 h) in let z := le_val (firstn 56 a) in
  let s := calculate_s_ed448 st junk r h a in
  bytes 57 s /\ 0 <= le_val s < 2 ^ 448 /\
  (no_lost_carry x 7 7 y z -> no_lost_carry448 (x + y * z) ->
   eqm L448 (le_val s) (x + y * z) /\ le_val s < 2 ^ 446 + 3 * (2 ^ 446 - L448)).
Proof.
  intros HJ Hr Hh Ha. cbv zeta. destruct (firstn56 r Hr) as (Wr & Vr & _), (firstn56 h Hh) as (Wh & Vh & Bh), (firstn56 a Ha) as (Wa & Va & Ba).
  destruct (mulred448 st junk _ _ _ HJ Wr Wh Wa) as (A1 & A2 & _ & A4). cbv zeta in *.
  split; [exact A1|]. split; [exact A2|]. intros K K'. rewrite Vr, Vh, Va in A4.
  unfold no_lost_carry in K. rewrite <- Vh in K at 1. rewrite <- Va in K at 1. rewrite <- !(words_limbs 7) in K by assumption.
  rewrite K, Z.sub_0_r in A4. exact (A4 K').
Qed.
Lemma ifour_val : val ifour = quarter448. Proof. vm_compute. reflexivity. Qed.
Lemma div4_spec st junk a : words 2 junk -> bytes 57 a ->
  let x := le_val (firstn 56 a) in let res := div4 st junk a in
  bytes 57 res /\ 0 <= le_val res < 2 ^ 448 /\
  (no_lost_carry 0 7 7 quarter448 x -> no_lost_carry448 (quarter448 * x) ->
   eqm L448 (4 * le_val res) x /\ le_val res < 2 ^ 446 + 3 * (2 ^ 446 - L448)).
Proof.
  intros HJ Ha. cbv zeta. destruct (firstn56 a Ha) as (Wa & Va & Ba).
  assert (Wi : words 7 ifour) by (split; [reflexivity|exact (proj2 (proj2 consts448))]).
  destruct (mulred448 st junk (repeat 0 7) ifour _ HJ (repeat0_words 7) Wi Wa) as (A1 & A2 & _ & A4). cbv zeta in *.
  split; [exact A1|]. split; [exact A2|]. intros K K'.
  rewrite Va, val_repeat0, Z.add_0_l in A4. unfold no_lost_carry in K. rewrite <- ifour_val, <- Va in K. rewrite <- !(words_limbs 7) in K by assumption.
  rewrite K, Z.sub_0_r, ifour_val in A4. destruct (A4 K') as [E B]. split; [|exact B].
  unfold eqm in *. change (div4 st junk a) with (firstn 56 (modular_reduction_ed448 st junk (firstn 114 (bytes_of (word64_multiplier st (repeat 0 7 ++ repeat 0 9) ifour (words_of 7 (firstn 56 a)))))) ++ [0]).
  rewrite <- Z.mul_mod_idemp_r by discriminate. rewrite E. rewrite Z.mul_mod_idemp_r by discriminate.
  rewrite Z.mul_assoc. rewrite <- Z.mul_mod_idemp_l by discriminate. replace (4 * quarter448 mod L448) with 1 by (vm_compute; reflexivity). now rewrite Z.mul_1_l.
Qed.
(** ** Shift-based evaluation of the specifications, for concrete cases *)
Definition lo (n x : Z) : Z := Z.land x (Z.ones n).
Lemma lo_ok n x : 0 <= n -> x mod 2 ^ n = lo n x. Proof. intro H. symmetry. apply Z.land_ones. exact H. Qed.
Lemma hi_ok n x : 0 <= n -> x / 2 ^ n = Z.shiftr x n. Proof. intro H. symmetry. apply Z.shiftr_div_pow2. exact H. Qed.
Lemma up_ok n x : 0 <= n -> 2 ^ n * x = Z.shiftl x n. Proof. intro H. rewrite Z.shiftl_mul_pow2 by exact H. apply Z.mul_comm. Qed.
Definition lostf (c : Z) (n : nat) (m : Z) : Z := Z.shiftr (lo 192 (Z.shiftr c (64 * Z.of_nat n)) + m) 192.
Definition acc2f (s : Z * Z) (n : nat) (m : Z) : Z * Z :=
  let (c, d) := s in
  let l := Z.shiftl (lostf c n m) (64 * Z.of_nat (n + 3)) in (c + Z.shiftl m (64 * Z.of_nat n) - l, d + l).
Lemma acc2f_ok s n m : acc2 s n m = acc2f s n m.
Proof. destruct s as [c d]. unfold acc2, acc2f, accumulate. cbv zeta. cbn [fst snd]. unfold lostf, lost. rewrite !hi_ok, !up_ok, lo_ok by lia. reflexivity. Qed.
Definition mul_acc2f (s : Z * Z) (A B : list Z) : Z * Z :=
  fold_left (fun s i => fold_left (fun s j => acc2f s (i + j) (nth i A 0 * nth j B 0)) (seq 0 (length B)) s) (seq 0 (length A)) s.
Lemma fold_ext {X I} (f g : X -> I -> X) l : (forall x i, f x i = g x i) -> forall x, fold_left f l x = fold_left g l x.
Proof. intro H. induction l as [|i l IH]; intro x; [reflexivity|]. cbn [fold_left]. rewrite H. apply IH. Qed.
Lemma mul_acc2f_ok s A B : mul_acc2 s A B = mul_acc2f s A B.
Proof. unfold mul_acc2, mul_acc2f. apply fold_ext. intros x i. apply fold_ext. intros y j. apply acc2f_ok. Qed.
Definition limbsf (n : nat) (x : Z) : list Z := map (fun i => lo 64 (Z.shiftr x (64 * Z.of_nat i))) (seq 0 n).
Lemma limbsf_ok n x : limbs64 n x = limbsf n x.
Proof. unfold limbs64, limbsf. apply map_ext. intro i. rewrite hi_ok, lo_ok by lia. reflexivity. Qed.
Definition droppedf (c : Z) (A B : list Z) : Z := snd (mul_acc2f (c, 0) A B).
Lemma droppedf_ok c A B : dropped c A B = droppedf c A B. Proof. unfold dropped, droppedf. now rewrite mul_acc2f_ok. Qed.
Definition keepf (c : Z) (n m : nat) (x y : Z) : bool := droppedf c (limbsf n x) (limbsf m y) =? 0.
Lemma keepf_ok c n m x y : keepf c n m x y = true -> no_lost_carry c n m x y.
Proof. unfold keepf, no_lost_carry. rewrite !limbsf_ok, droppedf_ok. apply Z.eqb_eq. Qed.
Definition fold448f (x : Z) : Z := lo 448 x + 4 * (2 ^ 446 - L448) * Z.shiftr x 448.
Lemma fold448f_ok x : fold448 x = fold448f x. Proof. unfold fold448, fold448f. rewrite lo_ok, hi_ok by lia. reflexivity. Qed.
Definition keep448f (x : Z) : bool :=
  let c := 2 ^ 446 - L448 in
  keepf (lo 448 x) 4 8 (4 * c) (Z.shiftr x 448) && let x1 := fold448f x in
  keepf (lo 448 x1) 4 4 (4 * c) (Z.shiftr x1 448) && let x2 := fold448f x1 in
  keepf (lo 448 x2) 4 1 (4 * c) (Z.shiftr x2 448) && let x3 := fold448f x2 in
  keepf (lo 446 x3) 4 1 c (Z.shiftr x3 446).
Lemma keep448f_ok x : keep448f x = true -> no_lost_carry448 x.
Proof.
  unfold keep448f, no_lost_carry448. cbv zeta. rewrite <- !fold448f_ok. rewrite <- !lo_ok, <- !hi_ok by lia.
  intro H. apply andb_prop in H as [H1 H]. apply andb_prop in H as [H2 H]. apply andb_prop in H as [H3 H4].
  split; [exact (keepf_ok _ _ _ _ _ H1)|]. split; [exact (keepf_ok _ _ _ _ _ H2)|]. split; [exact (keepf_ok _ _ _ _ _ H3)|exact (keepf_ok _ _ _ _ _ H4)].
Qed.
(** the number reached *)
Definition reachf (c : Z) (A B : list Z) : Z := fst (mul_acc2f (c, 0) A B).
Lemma reachf_ok c A B : mac c A B = reachf c A B.
Proof. unfold mac, reachf. rewrite <- mul_acc2f_ok. pose proof (mul_acc2_sum A B c). lia. Qed.
Definition step448f (n : nat) (x : Z) : Z := reachf (lo 448 x) ellx4 (limbsf n (Z.shiftr x 448)).
Definition red448f (x : Z) : Z := let c := step448f 1 (step448f 4 (step448f 8 x)) in reachf (lo 446 c) ell448w [Z.shiftr c 446].
Lemma step448f_ok n x : step448 n x = step448f n x.
Proof. unfold step448, step448f. rewrite reachf_ok, limbsf_ok, lo_ok, hi_ok by lia. reflexivity. Qed.
Lemma red448f_ok x : red448 x = red448f x.
Proof. unfold red448, red448f. cbv zeta. rewrite !step448f_ok. unfold last448. rewrite reachf_ok, lo_ok, hi_ok by lia. reflexivity. Qed.
Definition bytes_n (n : nat) (x : Z) : list Z := map (fun i => lo 8 (Z.shiftr x (8 * Z.of_nat i))) (seq 0 n).
Lemma bytes_n_ok n x : bytes n (bytes_n n x).
Proof. split; [unfold bytes_n; now rewrite map_length, seq_length|]. unfold bytes_n. apply Forall_map, Forall_forall. intros i _. unfold byte. rewrite <- lo_ok by lia. apply Z.mod_pos_bound. lia. Qed.

(** ** Counterexamples to the unrestricted claims *)
Definition cx_r : list Z := limbs64 4 (2 ^ 192 - 2 ^ 64).
Definition cx_k : list Z := limbs64 4 (2 ^ 32).
Definition cx_a : list Z := limbs64 4 (2 ^ 254 + 2 ^ 32).
Lemma s255_refuted : exists r k a, words 4 r /\ words 4 k /\ words 4 a /\
  val r < L25519 /\ val k < L25519 /\ 2 ^ 254 <= val a < 2 ^ 255 /\ val a mod 8 = 0 /\
  forall st, ~ eqm L25519 (val (calculate_s_ed25519 st r k a)) (val r + val k * val a).
Proof.
  exists cx_r, cx_k, cx_a. split; [apply limbs64_words|]. split; [apply limbs64_words|]. split; [apply limbs64_words|].
  split; [vm_compute; reflexivity|]. split; [vm_compute; reflexivity|]. split; [split; [vm_compute; discriminate|vm_compute; reflexivity]|]. split; [vm_compute; reflexivity|].
  intros st. destruct (s255_spec st cx_r cx_k cx_a) as (_ & _ & V); [apply limbs64_words..|]. unfold eqm.
  assert (E1 : ((val cx_r + val cx_k * val cx_a - droppedf (val cx_r) cx_k cx_a) mod L25519) mod L25519 <> (val cx_r + val cx_k * val cx_a) mod L25519) by (vm_compute; discriminate).
  assert (E2 : (2 ^ 256 - L25519 + (val cx_r + val cx_k * val cx_a - droppedf (val cx_r) cx_k cx_a) mod L25519) mod L25519 <> (val cx_r + val cx_k * val cx_a) mod L25519) by (vm_compute; discriminate).
  rewrite droppedf_ok in V. destruct V as [V|[V _]]; rewrite V; assumption.
Qed.
(** not canonical: the group order itself is returned unchanged *)
Lemma red448_not_canonical : exists a, bytes 114 a /\ no_lost_carry448 (le_val a) /\
  forall st junk, words 2 junk -> le_val (modular_reduction_ed448 st junk a) = L448 /\ le_val (modular_reduction_ed448 st junk a) <> le_val a mod L448.
Proof.
  exists (bytes_n 114 L448). split; [apply bytes_n_ok|].
  assert (EV : le_val (bytes_n 114 L448) = L448) by (vm_compute; reflexivity).
  assert (ER : red448f L448 = L448) by (vm_compute; reflexivity).
  rewrite EV. split; [apply keep448f_ok; vm_compute; reflexivity|].
  intros st junk HJ. destruct (modred448_ok st junk _ HJ (bytes_n_ok 114 L448)) as (_ & V & _). cbv zeta in V. rewrite V, EV, red448f_ok, ER.
  split; [reflexivity|]. rewrite Z.mod_same by discriminate. discriminate.
Qed.
(** a lost carry: not even congruent *)
Lemma red448_refuted : exists a, bytes 114 a /\
  forall st junk, words 2 junk -> ~ eqm L448 (le_val (modular_reduction_ed448 st junk a)) (le_val a).
Proof.
  exists (bytes_n 114 (2 ^ 448 + 2 ^ 192 - 1)). split; [apply bytes_n_ok|].
  assert (EV : le_val (bytes_n 114 (2 ^ 448 + 2 ^ 192 - 1)) = 2 ^ 448 + 2 ^ 192 - 1) by (vm_compute; reflexivity).
  assert (ER : red448f (2 ^ 448 + 2 ^ 192 - 1) mod L448 <> (2 ^ 448 + 2 ^ 192 - 1) mod L448) by (vm_compute; discriminate).
  intros st junk HJ. destruct (modred448_ok st junk _ HJ (bytes_n_ok 114 (2 ^ 448 + 2 ^ 192 - 1))) as (_ & V & _). cbv zeta in V.
  unfold eqm. rewrite V, EV, red448f_ok. exact ER.
Qed.
Lemma s448_refuted : exists r h a, bytes 57 r /\ bytes 57 h /\ bytes 57 a /\
  le_val r < L448 /\ le_val h < L448 /\ 2 ^ 447 <= le_val a < 2 ^ 448 /\ le_val a mod 4 = 0 /\
  forall st junk, words 2 junk -> ~ eqm L448 (le_val (calculate_s_ed448 st junk r h a)) (le_val r + le_val h * le_val a).
Proof.
  set (x := 2 ^ 192 - 2 ^ 64). set (y := 2 ^ 32). set (z := 2 ^ 447 + 2 ^ 32).
  set (r := bytes_n 57 x). set (h := bytes_n 57 y). set (a := bytes_n 57 z).
  assert (Er : le_val r = x) by (vm_compute; reflexivity). assert (Eh : le_val h = y) by (vm_compute; reflexivity). assert (Ea : le_val a = z) by (vm_compute; reflexivity).
  assert (Er' : le_val (firstn 56 r) = x) by (vm_compute; reflexivity). assert (Eh' : le_val (firstn 56 h) = y) by (vm_compute; reflexivity). assert (Ea' : le_val (firstn 56 a) = z) by (vm_compute; reflexivity).
  exists r, h, a. split; [apply bytes_n_ok|]. split; [apply bytes_n_ok|]. split; [apply bytes_n_ok|].
  rewrite Er, Eh, Ea. split; [vm_compute; reflexivity|]. split; [vm_compute; reflexivity|]. split; [split; [vm_compute; discriminate|vm_compute; reflexivity]|]. split; [vm_compute; reflexivity|].
  intros st junk HJ.
  destruct (firstn56 r (bytes_n_ok _ _)) as (Wr & Vr & _), (firstn56 h (bytes_n_ok _ _)) as (Wh & Vh & _), (firstn56 a (bytes_n_ok _ _)) as (Wa & Va & _).
  rewrite Er' in Vr. rewrite Eh' in Vh. rewrite Ea' in Va.
  destruct (mulred448 st junk _ _ _ HJ Wr Wh Wa) as (_ & _ & _ & A). cbv zeta in A.
  change (firstn 56 (modular_reduction_ed448 st junk (firstn 114 (bytes_of (word64_multiplier st (words_of 7 (firstn 56 r) ++ repeat 0 9) (words_of 7 (firstn 56 h)) (words_of 7 (firstn 56 a)))))) ++ [0])
    with (calculate_s_ed448 st junk r h a) in A.
  rewrite (words_limbs 7 _ Wh), (words_limbs 7 _ Wa), Vr, Vh, Va, droppedf_ok, !limbsf_ok in A.
  assert (K : keep448f (x + val (limbsf 7 y) * val (limbsf 7 z) - droppedf x (limbsf 7 y) (limbsf 7 z)) = true) by (vm_compute; reflexivity).
  assert (N : (x + val (limbsf 7 y) * val (limbsf 7 z) - droppedf x (limbsf 7 y) (limbsf 7 z)) mod L448 <> (x + y * z) mod L448) by (vm_compute; discriminate).
  destruct (A (keep448f_ok _ K)) as [E _]. clear - E N. unfold eqm in *. rewrite E. exact N.
Qed.
