(** Specification-level statements of the remaining vector code: encodings,
    conditional moves, comparison, roots, rearrangements, chains. *)
From Coq Require Import ZArith Znumtheory List Bool Lia.
From Verif Require Import Uop Poly Sym Engine Check Bytes FullTac Simd Simd255 Simd448 Lanes RedTac Moves
  X86 Asm25519 Asm448 Fp25519Full Fp448Full Fp25519Red Fp448Red Fp25519FullProofs Fp448FullProofs Fp25519RedProofs Fp25519RedMore
  Fp25519RedRoot Fp448RedProofs Fp448RedMore Fp448RedRoot FullMore Spec SpecVec RedProps RedProps2.
Import ListNotations.
Open Scope Z_scope.
Local Opaque call ser_1w unser_1w ser448_1w unser448_1w.

Lemma P255_eq : P25519 = P. Proof. reflexivity. Qed.
Lemma P448_eq : P448 = Q. Proof. reflexivity. Qed.

(** ** Encodings *)
Lemma part_app0 N a b : length a = N -> part N 0 (a ++ b) = a.
Proof. intro H. unfold part. rewrite Nat.mul_0_r. change (skipn 0 (a ++ b)) with (a ++ b). rewrite <- H, firstn_app, Nat.sub_diag, firstn_all. cbn [firstn]. apply app_nil_r. Qed.
Lemma part_appS N j a b : length a = N -> part N (S j) (a ++ b) = part N j b.
Proof.
  intro H. unfold part. rewrite skipn_app. rewrite (skipn_all2 a) by lia. replace (N * S j - length a)%nat with (N * j)%nat by lia. reflexivity.
Qed.
Lemma bytes_nil : bytes 0 []. Proof. split; [reflexivity|constructor]. Qed.
Lemma bytes_app n m a b : bytes n a -> bytes m b -> bytes (n + m) (a ++ b).
Proof. intros [L F] [L' F']. split; [rewrite app_length; lia|]. now apply Forall_app. Qed.
Lemma bytes_partw w N j bs : bytes (w * N) bs -> (j < w)%nat -> bytes N (part N j bs).
Proof.
  intros H Hj. apply (bytes_part N j (w * N - N * j - N)).
  now replace (N * j + (N + (w * N - N * j - N)))%nat with (w * N)%nat by nia.
Qed.

Section Enc.
  Variables (n : nat) (pos : nat -> Z) (p : Z) (N : nat).
  Variables (f : nat -> Z) (ser1 : list Z -> list Z).
  Hypothesis S1 : forall a, limbs_below n f a -> bytes N (ser1 a) /\ le_val (ser1 a) = value n pos a mod p.
  Lemma stores1 : stores 1 n pos p N f ser1.
  Proof.
    intros a [L H]. specialize (H 0%nat (Nat.lt_0_1)). rewrite lane1 in H by lia. destruct (S1 a H) as [B V].
    split; [now rewrite Nat.mul_1_l|]. intros j Hj. assert (j = 0%nat) as -> by lia.
    rewrite <- (app_nil_r (ser1 a)) at 1. rewrite part_app0 by exact (proj1 B). rewrite lane1 by lia. exact V.
  Qed.
  Lemma stores2 ser : (forall a, length a = (2 * n)%nat -> ser a = ser1 (lane 2 n 0 a) ++ ser1 (lane 2 n 1 a)) -> stores 2 n pos p N f ser.
  Proof.
    intros E a [L H]. rewrite (E a L).
    destruct (S1 _ (H 0%nat ltac:(lia))) as [B0 V0]. destruct (S1 _ (H 1%nat ltac:(lia))) as [B1 V1].
    split; [replace (2 * N)%nat with (N + N)%nat by lia; now apply bytes_app|].
    intros [|[|j]] Hj; [| |lia].
    - rewrite part_app0 by exact (proj1 B0). exact V0.
    - rewrite part_appS by exact (proj1 B0). rewrite <- (app_nil_r (ser1 (lane 2 n 1 a))). rewrite part_app0 by exact (proj1 B1). exact V1.
  Qed.
  Lemma stores4 ser : (forall a, length a = (4 * n)%nat -> ser a = flat_map (fun j => ser1 (lane 4 n j a)) (seq 0 4)) -> stores 4 n pos p N f ser.
  Proof.
    intros E a [L H]. rewrite (E a L). cbn [seq flat_map].
    destruct (S1 _ (H 0%nat ltac:(lia))) as [B0 V0]. destruct (S1 _ (H 1%nat ltac:(lia))) as [B1 V1].
    destruct (S1 _ (H 2%nat ltac:(lia))) as [B2 V2]. destruct (S1 _ (H 3%nat ltac:(lia))) as [B3 V3].
    split; [replace (4 * N)%nat with (N + (N + (N + (N + 0))))%nat by lia; repeat (apply bytes_app; [assumption|]); exact bytes_nil|].
    intros [|[|[|[|j]]]] Hj; [| | | |lia]; repeat rewrite part_appS by (exact (proj1 B0) || exact (proj1 B1) || exact (proj1 B2));
      rewrite part_app0 by (exact (proj1 B0) || exact (proj1 B1) || exact (proj1 B2) || exact (proj1 B3)); assumption.
  Qed.
  Variables (g : nat -> Z) (un1 : list Z -> list Z).
  Hypothesis U1 : forall b, bytes N b -> limbs_below n g (un1 b) /\ eqm p (value n pos (un1 b)) (le_val b).
  Lemma loads_gen w un : (forall b, bytes (w * N) b -> length (un b) = (w * n)%nat) ->
    (forall b j, bytes (w * N) b -> (j < w)%nat -> lane w n j (un b) = un1 (part N j b)) -> loads w n pos p N g un.
  Proof.
    intros L E b B. split.
    - split; [exact (L b B)|]. intros j Hj. rewrite (E b j B Hj). exact (proj1 (U1 _ (bytes_partw _ _ _ _ B Hj))).
    - intros j Hj. rewrite (E b j B Hj). exact (proj2 (U1 _ (bytes_partw _ _ _ _ B Hj))).
  Qed.
End Enc.
Lemma part_one N b : length b = N -> part N 0 b = b.
Proof. intro H. rewrite <- (app_nil_r b) at 1. now apply part_app0. Qed.

(** 2^255-19 *)
Lemma ser1_255 st a : limbs_below 10 reduced255 a -> bytes 32 (ser_1w st a) /\ le_val (ser_1w st a) = value 10 pos255 a mod P25519.
Proof.
  intro H. assert (L := proj1 H). apply (below_ok _ _ _ _ red255_below) in H.
  change (value 10 pos255 a) with (value255 a). rewrite (value255_ok a L). exact (ser_1w_ok st a H).
Qed.
Lemma un1_255 st b : bytes 32 b -> limbs_below 10 canonical255 (unser_1w st b) /\ eqm P25519 (value 10 pos255 (unser_1w st b)) (le_val b).
Proof.
  intro H. destruct (unser_1w_ok st b H) as [V C].
  apply (below_ok _ _ _ _ canon255_below) in C. split; [exact C|].
  change (value 10 pos255 (unser_1w st b)) with (value255 (unser_1w st b)).
  rewrite (value255_ok _ (proj1 C)), V. unfold eqm. rewrite P255_eq. apply Z.mod_mod. discriminate.
Qed.
Lemma stores_1w st : stores 1 10 pos255 P25519 32 reduced255 (ser_1w st).
Proof. exact (stores1 _ _ _ _ _ _ (ser1_255 st)). Qed.
Lemma stores_2w st : stores 2 10 pos255 P25519 32 reduced255 (ser_2w st).
Proof.
  refine (stores2 _ _ _ _ _ _ (ser1_255 st) _ _). intros a L. rewrite !lane2 by lia. exact (ser_2w_el st a L).
Qed.
Lemma stores_4w st : stores 4 10 pos255 P25519 32 reduced255 (ser_4w st).
Proof.
  refine (stores4 _ _ _ _ _ _ (ser1_255 st) _ _). intros a L. exact (ser_4w_el st a L).
Qed.
Lemma loads_1w st : loads 1 10 pos255 P25519 32 canonical255 (unser_1w st).
Proof.
  refine (loads_gen _ _ _ _ _ _ (un1_255 st) _ _ _ _).
  - intros b B. exact (proj1 (proj1 (un1_255 st b B))).
  - intros b j B Hj. assert (j = 0%nat) as -> by lia. rewrite part_one by exact (proj1 B). apply lane1. exact (proj1 (proj1 (un1_255 st b B))).
Qed.
Lemma loads_2w st : loads 2 10 pos255 P25519 32 canonical255 (unser_2w st).
Proof.
  refine (loads_gen _ _ _ _ _ _ (un1_255 st) _ _ _ _).
  - intros b B. apply call_length.
  - intros b j B Hj. rewrite lane2 by exact Hj. refine (eq_trans (unser_2w_el st b (hf j) B) _).
    destruct j as [|[|j]]; [reflexivity| |lia]. change (hf 1) with true. cbv iota. unfold part. rewrite Nat.mul_1_r, firstn_all2; [reflexivity|].
    rewrite skipn_length, (proj1 B). lia.
Qed.
Lemma loads_4w st : loads 4 10 pos255 P25519 32 canonical255 (unser_4w st).
Proof.
  refine (loads_gen _ _ _ _ _ _ (un1_255 st) _ _ _ _).
  - intros b B. apply call_length.
  - intros b j B Hj. exact (unser_4w_el st b j Hj B).
Qed.
Lemma canonical_reduced255 w a : lanes w 10 canonical255 a -> lanes w 10 reduced255 a.
Proof.
  intros [L H]. split; [exact L|]. intros j Hj. destruct (H j Hj) as [L' K]. split; [exact L'|]. intros k Hk. specialize (K k Hk).
  unfold canonical255, reduced255, by_parity in *. destruct (Nat.even _); lia.
Qed.
Lemma round_trip w n pos p N f ser un : loads w n pos p N f un -> stores w n pos p N f ser ->
  forall buf, bytes (w * N) buf -> bytes (w * N) (ser (un buf)) /\
  forall j, (j < w)%nat -> le_val (part N j (ser (un buf))) = le_val (part N j buf) mod p.
Proof.
  intros U S buf B. destruct (U buf B) as [Lf V]. destruct (S _ Lf) as [B' V']. split; [exact B'|].
  intros j Hj. rewrite (V' j Hj). exact (V j Hj).
Qed.
Lemma stores_weaken w n pos p N f f' ser : (forall a, lanes w n f a -> lanes w n f' a) -> stores w n pos p N f' ser -> stores w n pos p N f ser.
Proof. intros K H a Ha. exact (H a (K a Ha)). Qed.
Lemma round_1w st buf : bytes 32 buf -> bytes 32 (ser_1w st (unser_1w st buf)) /\ le_val (ser_1w st (unser_1w st buf)) = le_val buf mod P25519.
Proof.
  intro B. destruct (un1_255 st buf B) as [C V].
  assert (R : limbs_below 10 reduced255 (unser_1w st buf)).
  { destruct C as [L K]. split; [exact L|]. intros k Hk. specialize (K k Hk). unfold canonical255, reduced255, by_parity in *. destruct (Nat.even _); lia. }
  destruct (ser1_255 st _ R) as [B' V']. split; [exact B'|]. rewrite V'. exact V.
Qed.
Lemma round_2w st : forall buf, bytes (2 * 32) buf -> bytes (2 * 32) (ser_2w st (unser_2w st buf)) /\
  forall j, (j < 2)%nat -> le_val (part 32 j (ser_2w st (unser_2w st buf))) = le_val (part 32 j buf) mod P25519.
Proof. exact (round_trip _ _ _ _ _ _ _ _ (loads_2w st) (stores_weaken _ _ _ _ _ _ _ _ (canonical_reduced255 2) (stores_2w st))). Qed.
Lemma round_4w st : forall buf, bytes (4 * 32) buf -> bytes (4 * 32) (ser_4w st (unser_4w st buf)) /\
  forall j, (j < 4)%nat -> le_val (part 32 j (ser_4w st (unser_4w st buf))) = le_val (part 32 j buf) mod P25519.
Proof. exact (round_trip _ _ _ _ _ _ _ _ (loads_4w st) (stores_weaken _ _ _ _ _ _ _ _ (canonical_reduced255 4) (stores_4w st))). Qed.

(** 2^448-2^224-1 *)
Lemma ser1_448 st a : limbs_below 16 canonical448 a -> bytes 56 (ser448_1w st a) /\ le_val (ser448_1w st a) = value 16 pos448 a mod P448.
Proof.
  intro H. assert (L := proj1 H). apply (below_ok _ _ _ _ canon448_below) in H.
  change (value 16 pos448 a) with (value448 a). rewrite (value448_ok a L). exact (ser448_1w_canon st a H).
Qed.
Lemma un1_448 st b : bytes 56 b -> limbs_below 16 canonical448 (unser448_1w st b) /\ eqm P448 (value 16 pos448 (unser448_1w st b)) (le_val b).
Proof.
  intro H. destruct (unser448_1w_ok st b H) as [V C].
  apply (below_ok _ _ _ _ canon448_below) in C. split; [exact C|].
  change (value 16 pos448 (unser448_1w st b)) with (value448 (unser448_1w st b)).
  rewrite (value448_ok _ (proj1 C)), V. reflexivity.
Qed.
Lemma stores448_1w st : stores 1 16 pos448 P448 56 canonical448 (ser448_1w st).
Proof. exact (stores1 _ _ _ _ _ _ (ser1_448 st)). Qed.
Lemma stores448_2w st : stores 2 16 pos448 P448 56 canonical448 (ser448_2w st).
Proof. refine (stores2 _ _ _ _ _ _ (ser1_448 st) _ _). intros a L. rewrite !lane2 by lia. exact (ser448_2w_el st a L). Qed.
Lemma stores448_4w st : stores 4 16 pos448 P448 56 canonical448 (ser448_4w st).
Proof. refine (stores4 _ _ _ _ _ _ (ser1_448 st) _ _). intros a L. exact (ser448_4w_el st a L). Qed.
Lemma loads448_1w st : loads 1 16 pos448 P448 56 canonical448 (unser448_1w st).
Proof.
  refine (loads_gen _ _ _ _ _ _ (un1_448 st) _ _ _ _).
  - intros b B. exact (proj1 (proj1 (un1_448 st b B))).
  - intros b j B Hj. assert (j = 0%nat) as -> by lia. rewrite part_one by exact (proj1 B). apply lane1. exact (proj1 (proj1 (un1_448 st b B))).
Qed.
Lemma loads448_2w st : loads 2 16 pos448 P448 56 canonical448 (unser448_2w st).
Proof.
  refine (loads_gen _ _ _ _ _ _ (un1_448 st) _ _ _ _).
  - intros b B. apply call_length.
  - intros b j B Hj. rewrite lane2 by exact Hj. refine (eq_trans (unser448_2w_el st b (hf j) B) _).
    destruct j as [|[|j]]; [reflexivity| |lia]. change (hf 1) with true. cbv iota. unfold part. rewrite Nat.mul_1_r, firstn_all2; [reflexivity|].
    rewrite skipn_length, (proj1 B). lia.
Qed.
Lemma loads448_4w st : loads 4 16 pos448 P448 56 canonical448 (unser448_4w st).
Proof.
  refine (loads_gen _ _ _ _ _ _ (un1_448 st) _ _ _ _).
  - intros b B. apply call_length.
  - intros b j B Hj. exact (unser448_4w_el st b j Hj B).
Qed.
Lemma round448_1w st : forall buf, bytes (1 * 56) buf -> bytes (1 * 56) (ser448_1w st (unser448_1w st buf)) /\
  forall j, (j < 1)%nat -> le_val (part 56 j (ser448_1w st (unser448_1w st buf))) = le_val (part 56 j buf) mod P448.
Proof. exact (round_trip _ _ _ _ _ _ _ _ (loads448_1w st) (stores448_1w st)). Qed.
Lemma round448_2w st : forall buf, bytes (2 * 56) buf -> bytes (2 * 56) (ser448_2w st (unser448_2w st buf)) /\
  forall j, (j < 2)%nat -> le_val (part 56 j (ser448_2w st (unser448_2w st buf))) = le_val (part 56 j buf) mod P448.
Proof. exact (round_trip _ _ _ _ _ _ _ _ (loads448_2w st) (stores448_2w st)). Qed.
Lemma round448_4w st : forall buf, bytes (4 * 56) buf -> bytes (4 * 56) (ser448_4w st (unser448_4w st buf)) /\
  forall j, (j < 4)%nat -> le_val (part 56 j (ser448_4w st (unser448_4w st buf))) = le_val (part 56 j buf) mod P448.
Proof. exact (round_trip _ _ _ _ _ _ _ _ (loads448_4w st) (stores448_4w st)). Qed.

(** ** Serialising sums, differences and opposites of loaded elements *)
Lemma loaded_red st x : bytes 32 x -> is_red (unser_1w st x) /\ fe255 (unser_1w st x) = le_val x mod P.
Proof. intro H. destruct (unser_1w_ok st x H) as [V C]. split; [exact (canon_red _ C)|exact V]. Qed.
Lemma ser_iff st a : limbs_below 10 unreduced255 a ->
  (le_val (ser_1w st a) = value255 a mod P25519 <-> value255 a mod 2 ^ 128 + 38 * (value255 a / 2 ^ 256) < 2 ^ 128).
Proof.
  intro H. rewrite (value255_ok a (proj1 H)). apply (below_ok _ _ _ _ wide255_below) in H. exact (ser_1w_iff st a H).
Qed.
Lemma ser_sub_iff st x y : bytes 32 x -> bytes 32 y ->
  let u := le_val x mod P25519 in let v := le_val y mod P25519 in
  (le_val (ser_1w st (sub_1w st (unser_1w st x) (unser_1w st y))) = (le_val x - le_val y) mod P25519 <->
   ~ (38 <= u - v /\ (u - v) mod 2 ^ 128 < 38)).
Proof.
  intros Hx Hy u v.
  destruct (loaded_red st x Hx) as [Rx Vx]. destruct (loaded_red st y Hy) as [Ry Vy].
  pose proof (sub_1w_exact st _ _ Rx Ry) as E. destruct (sub_1w_ok st _ _ Rx Ry) as [_ Wd].
  pose proof (ser_1w_iff st _ Wd) as I. rewrite E, Vx, Vy in I.
  change (le_val x mod P) with u in I. change (le_val y mod P) with v in I.
  assert (M : (u + 2 * P - v) mod P = (le_val x - le_val y) mod P25519).
  { replace (u + 2 * P - v) with ((u - v) + 2 * P) by ring. rewrite Z.mod_add by discriminate.
    unfold u, v. rewrite <- Zminus_mod. reflexivity. }
  rewrite M in I. refine (iff_trans I _). clear I M E.
  assert (Hu : 0 <= u < P) by (apply Z.mod_pos_bound; reflexivity).
  assert (Hv : 0 <= v < P) by (apply Z.mod_pos_bound; reflexivity).
  clearbody u v. clear -Hu Hv. unfold fold256, lo128. unfold P in *.
  destruct (Z_lt_le_dec (u - v) 38) as [H|H].
  - split; [intros _ [K _]; lia|intros _].
    rewrite (Z.div_small (u + _ - v)) by lia. pose proof (Z.mod_pos_bound (u + 2 * (2 ^ 255 - 19) - v) (2 ^ 128)). lia.
  - replace (u + 2 * (2 ^ 255 - 19) - v) with ((u - v - 38) + 1 * 2 ^ 256) by lia.
    rewrite Z.div_add by discriminate. rewrite (Z.div_small (u - v - 38)) by lia.
    replace (u - v - 38 + 1 * 2 ^ 256) with (u - v - 38 + 2 ^ 128 * 2 ^ 128) by lia. rewrite Z.mod_add by discriminate.
    pose proof (Z.div_mod (u - v) (2 ^ 128) ltac:(discriminate)) as D1. pose proof (Z.mod_pos_bound (u - v) (2 ^ 128) ltac:(reflexivity)) as B1.
    pose proof (Z.div_mod (u - v - 38) (2 ^ 128) ltac:(discriminate)) as D2. pose proof (Z.mod_pos_bound (u - v - 38) (2 ^ 128) ltac:(reflexivity)) as B2.
    set (q1 := (u - v) / 2 ^ 128) in *. set (r1 := (u - v) mod 2 ^ 128) in *.
    set (q2 := (u - v - 38) / 2 ^ 128) in *. set (r2 := (u - v - 38) mod 2 ^ 128) in *. clearbody q1 r1 q2 r2. lia.
Qed.
Lemma add_1w_exact st a b : is_red a -> is_red b -> fe255 (add_1w st a b) = fe255 a + fe255 b.
Proof.
  intros Ha Hb. enough (E : fe255 (add_1w st a b) = vden [fe255 a; fe255 b] (VAdd (VIn 0) (VIn 1)) /\ is_wide (add_1w st a b)).
  { destruct E as [E _]. exact E. }
  unfold add_1w, vop3.
  apply (one_exact [] (vcode v255_1w_add) [IA q2 red255 wt255; IA q3 red255 wt255] q1 wt255 wide255 (2 ^ 257)
    (VAdd (VIn 0) (VIn 1)) [a; b] st); [vm_cast_no_check (eq_refl true)|vm_cast_no_check (eq_refl true)|].
  constructor; [exact Ha|]. constructor; [exact Hb|]. constructor.
Qed.
Lemma ser_add_ok st x y : bytes 32 x -> bytes 32 y ->
  bytes 32 (ser_1w st (add_1w st (unser_1w st x) (unser_1w st y))) /\
  le_val (ser_1w st (add_1w st (unser_1w st x) (unser_1w st y))) = (le_val x + le_val y) mod P25519.
Proof.
  intros Hx Hy. destruct (loaded_red st x Hx) as [Rx Vx]. destruct (loaded_red st y Hy) as [Ry Vy].
  destruct (add_1w_ok st _ _ Rx Ry) as [_ Wd].
  pose proof (add_1w_exact st _ _ Rx Ry) as E.
  assert (Hu : 0 <= le_val x mod P < P) by (apply Z.mod_pos_bound; reflexivity).
  assert (Hv : 0 <= le_val y mod P < P) by (apply Z.mod_pos_bound; reflexivity).
  rewrite Vx, Vy in E.
  destruct (ser_1w_256 st _ Wd) as [B V].
  { rewrite E. clear -Hu Hv. unfold P in *. set (u := le_val x mod _) in *. set (v := le_val y mod _) in *. clearbody u v. lia. }
  split; [exact B|]. rewrite V, E. symmetry. apply Zplus_mod.
Qed.
Lemma ser_neg_ok st x : bytes 32 x -> bytes 32 (ser_1w st (neg_1w st (unser_1w st x))) /\
  le_val (ser_1w st (neg_1w st (unser_1w st x))) = (- le_val x) mod P25519.
Proof.
  intros Hx. destruct (loaded_red st x Hx) as [Rx Vx]. destruct (neg_1w_exact st _ Rx) as [E Wd].
  assert (Hu : 0 <= le_val x mod P < P) by (apply Z.mod_pos_bound; reflexivity).
  rewrite Vx in E. destruct (ser_1w_256 st _ Wd) as [B V].
  { rewrite E. clear -Hu. unfold P in *. set (u := le_val x mod _) in *. clearbody u. lia. }
  split; [exact B|]. rewrite V, E. rewrite P255_eq. replace (2 * P - le_val x mod P) with (- (le_val x mod P) + 2 * P) by ring. rewrite Z.mod_add by discriminate.
  rewrite <- (Z.sub_0_l (le_val x mod P)), <- (Z.sub_0_l (le_val x)). rewrite Zminus_mod_idemp_r. reflexivity.
Qed.
Lemma ser_sub_refuted st : exists x y, bytes 32 x /\ bytes 32 y /\ le_val x = 2 ^ 128 + 37 /\ le_val y = 0 /\
  le_val (ser_1w st (sub_1w st (unser_1w st x) (unser_1w st y))) = 37.
Proof.
  exists w37, (repeat 0 32). destruct (ser_sub_wrong st) as (_ & _ & _ & _ & E). rewrite E.
  split; [exact (le_bytes_ok 32 _)|]. split; [apply bytes_lit; reflexivity|]. repeat split; vm_compute; reflexivity.
Qed.

(** ** Conditional move *)
Lemma cmv2_spec (c0 c1 : bool) x1 x3 a b : words 20 a -> words 20 b ->
  let r := cmv_2w [if c0 then 1 else 0; x1; if c1 then 1 else 0; x3] a b in
  lane 2 10 0 r = lane 2 10 0 (if c0 then b else a) /\ lane 2 10 1 r = lane 2 10 1 (if c1 then b else a).
Proof.
  intros Ha Hb r. split; rewrite !lane2 by lia.
  - exact (cmv_2w_ok c0 c1 x1 x3 a b false Ha Hb).
  - exact (cmv_2w_ok c0 c1 x1 x3 a b true Ha Hb).
Qed.

(** ** Chains of operations, of any length *)
Lemma chain255_1w st : let o := Ops (add_1w st) (sub_1w st) (neg_1w st) (mul_1w st) (sqr_1w st) (compressfast_1w st) in
  forall e, rleaves (lanes 1 10 reduced255) e -> lanes 1 10 reduced255 (rrun o e) /\
  forall j, (j < 1)%nat -> eqm P25519 (value255 (lane 1 10 j (rrun o e))) (rmeaning (fun a => value255 (lane 1 10 j a)) e).
Proof.
  intro o. refine (proj1 (chain_ok 1 10 pos255 P25519 reduced255 unreduced255 o _ _ _ _ _ _ _)).
  - intro i. unfold reduced255, unreduced255, by_parity. destruct (Nat.even i); lia.
  - exact (spec_255_C14_add_1w st).
  - exact (spec_255_C14_sub_1w st).
  - exact (spec_255_C14_neg_1w st).
  - exact (spec_255_C15_mul_1w st).
  - exact (spec_255_C16_sqr_1w st).
  - exact (spec_255_C17_compressfast_1w st).
Qed.
Lemma chain255_2w st : let o := Ops (add_2w st) (sub_2w st) (neg_2w st) (mul_2w st) (sqr_2w st) (compressfast_2w st) in
  forall e, rleaves (lanes 2 10 reduced255) e -> lanes 2 10 reduced255 (rrun o e) /\
  forall j, (j < 2)%nat -> eqm P25519 (value255 (lane 2 10 j (rrun o e))) (rmeaning (fun a => value255 (lane 2 10 j a)) e).
Proof.
  intro o. refine (proj1 (chain_ok 2 10 pos255 P25519 reduced255 unreduced255 o _ _ _ _ _ _ _)).
  - intro i. unfold reduced255, unreduced255, by_parity. destruct (Nat.even i); lia.
  - exact (spec_255_C14_add_2w st).
  - exact (spec_255_C14_sub_2w st).
  - exact (spec_255_C14_neg_2w st).
  - exact (spec_255_C15_mul_2w st).
  - exact (spec_255_C16_sqr_2w st).
  - exact (spec_255_C17_compressfast_2w st).
Qed.
Lemma chain255_4w st : let o := Ops (add_4w st) (sub_4w st) (neg_4w st) (mul_4w st) (sqr_4w st) (compressfast_4w st) in
  forall e, rleaves (lanes 4 10 reduced255) e -> lanes 4 10 reduced255 (rrun o e) /\
  forall j, (j < 4)%nat -> eqm P25519 (value255 (lane 4 10 j (rrun o e))) (rmeaning (fun a => value255 (lane 4 10 j a)) e).
Proof.
  intro o. refine (proj1 (chain_ok 4 10 pos255 P25519 reduced255 unreduced255 o _ _ _ _ _ _ _)).
  - intro i. unfold reduced255, unreduced255, by_parity. destruct (Nat.even i); lia.
  - exact (spec_255_C14_add_4w st).
  - exact (spec_255_C14_sub_4w st).
  - exact (spec_255_C14_neg_4w st).
  - exact (spec_255_C15_mul_4w st).
  - exact (spec_255_C16_sqr_4w st).
  - exact (spec_255_C17_compressfast_4w st).
Qed.

(** ** The API's 4-way negation *)
Lemma api_neg_4w_refuted st : exists a, lanes 4 10 reduced255 a /\
  forall j, (j < 4)%nat -> value255 (lane 4 10 j a) = 0 /\ ~ eqm P25519 (value255 (lane 4 10 j (api_neg_4w st a))) 0.
Proof.
  exists (repeat 0 40). split.
  - split; [reflexivity|]. intros j Hj. apply (below_ok _ _ _ _ red255_below).
    destruct j as [|[|[|[|j]]]]; [apply arr_lit; vm_compute; reflexivity..|lia].
  - intros j Hj. split; [destruct j as [|[|[|[|j]]]]; [vm_compute; reflexivity..|lia]|].
    rewrite value255_ok by apply lane_length. rewrite lane4. exact (proj2 (api_neg_4w_zero st) j Hj).
Qed.

(** ** Rearrangements *)
Lemma moves255 st : forall a b c d x y, length a = 10%nat -> length b = 10%nat -> length c = 10%nat -> length d = 10%nat ->
  length x = 20%nat -> length y = 40%nat ->
  lane 2 10 0 (inter_2w st a b) = a /\ lane 2 10 1 (inter_2w st a b) = b /\
  deinter_2w st x = (lane 2 10 0 x, lane 2 10 1 x) /\
  (lane 4 10 0 (zip_4w st a b c d) = a /\ lane 4 10 1 (zip_4w st a b c d) = b /\
   lane 4 10 2 (zip_4w st a b c d) = c /\ lane 4 10 3 (zip_4w st a b c d) = d) /\
  forall j, (j < 4)%nat -> unzip_4w st y j = lane 4 10 j y.
Proof.
  intros a b c d x y Ha Hb Hc Hd Hx Hy. rewrite !lane2 by lia.
  split; [exact (inter_2w_ok st false a b Ha Hb)|]. split; [exact (inter_2w_ok st true a b Ha Hb)|].
  split; [exact (deinter_2w_ok st x Hx)|].
  split; [repeat split; rewrite lane4; (refine (eq_trans (zip_4w_ok st _ a b c d _ Ha Hb Hc Hd) _); [lia|reflexivity])|].
  intros j Hj. exact (unzip_4w_ok st j y Hj Hy).
Qed.
Lemma moves448 st : forall a b c d x y, length a = 16%nat -> length b = 16%nat -> length c = 16%nat -> length d = 16%nat ->
  length x = 32%nat -> length y = 64%nat ->
  lane 2 16 0 (inter448_2w st a b) = a /\ lane 2 16 1 (inter448_2w st a b) = b /\
  deinter448_2w st x = (lane 2 16 0 x, lane 2 16 1 x) /\
  (lane 4 16 0 (zip448_4w st a b c d) = a /\ lane 4 16 1 (zip448_4w st a b c d) = b /\
   lane 4 16 2 (zip448_4w st a b c d) = c /\ lane 4 16 3 (zip448_4w st a b c d) = d) /\
  forall j, (j < 4)%nat -> unzip448_4w st y j = lane 4 16 j y.
Proof.
  intros a b c d x y Ha Hb Hc Hd Hx Hy. rewrite !lane2 by lia.
  split; [exact (inter448_2w_ok st false a b Ha Hb)|]. split; [exact (inter448_2w_ok st true a b Ha Hb)|].
  split; [exact (deinter448_2w_ok st x Hx)|].
  split; [repeat split; rewrite lane4; (refine (eq_trans (zip448_4w_ok st _ a b c d _ Ha Hb Hc Hd) _); [lia|reflexivity])|].
  intros j Hj. exact (unzip448_4w_ok st j y Hj Hy).
Qed.

(** ** Comparison *)
Lemma cmp_refuted st : exists x y, bytes 32 x /\ bytes 32 y /\ ~ eqm P25519 (le_val x) (le_val y) /\
  cmp_1w st (unser_1w st x) (unser_1w st y) = 0.
Proof. exact (cmp_1w_counterexample st). Qed.
Lemma cmp_decides st a b : limbs_below 10 reduced255 a -> limbs_below 10 reduced255 b ->
  (cmp_1w st a b = 0 <-> map Z.odd (ser_1w st a) = map Z.odd (ser_1w st b)) /\
  (eqm P25519 (value255 a) (value255 b) -> cmp_1w st a b = 0) /\
  (Z.odd (value255 a mod P25519) <> Z.odd (value255 b mod P25519) -> cmp_1w st a b <> 0).
Proof.
  intros Ha Hb. rewrite (value255_ok a (proj1 Ha)), (value255_ok b (proj1 Hb)).
  apply (below_ok _ _ _ _ red255_below) in Ha, Hb.
  pose proof (red_wide _ Ha) as Wa. pose proof (red_wide _ Hb) as Wb.
  split; [exact (cmp_1w_ok st a b Wa Wb)|].
  split; [exact (cmp_1w_eq st a b Wa Wb (red_256 _ Ha) (red_256 _ Hb))|exact (cmp_1w_parity st a b Wa Wb (red_256 _ Ha) (red_256 _ Hb))].
Qed.
Lemma cmp_lanes st a b c d : length a = 20%nat -> length b = 20%nat -> length c = 40%nat -> length d = 40%nat ->
  cmp_2w st a b = [cmp_1w st (lane 2 10 0 a) (lane 2 10 0 b); 0; cmp_1w st (lane 2 10 1 a) (lane 2 10 1 b); 0] /\
  cmp_4w st c d = map (fun j => cmp_1w st (lane 4 10 j c) (lane 4 10 j d)) (seq 0 4).
Proof. intros Ha Hb Hc Hd. rewrite !lane2 by lia. split; [exact (cmp_2w_el st a b Ha Hb)|exact (cmp_4w_el st c d Hc Hd)]. Qed.

(** ** Square roots and inverses *)
Lemma eqp_eqm x y : eqp P x y <-> eqm P25519 x y. Proof. reflexivity. Qed.
Lemma invsqrt_1w_spec st u v s : limbs_below 10 reduced255 u -> limbs_below 10 reduced255 v -> ~ eqm P25519 (value255 v) 0 ->
  eqm P25519 (value255 v * s ^ 2) (value255 u) ->
  let x := fst (invsqrt_1w st u v) in limbs_below 10 reduced255 x /\ eqm P25519 (value255 v * value255 x ^ 2) (value255 u).
Proof.
  intros Hu Hv Nz R x. rewrite (value255_ok u (proj1 Hu)), (value255_ok v (proj1 Hv)) in *.
  apply (below_ok _ _ _ _ red255_below) in Hu, Hv. rewrite Z.pow_2_r in R.
  destruct (invsqrt_1w_root st u v s Hu Hv Nz R) as [Hx E]. fold x in Hx, E.
  apply (below_ok _ _ _ _ red255_below) in Hx. split; [exact Hx|].
  rewrite (value255_ok x (proj1 Hx)), Z.pow_2_r. exact E.
Qed.
Lemma one_4_not x : eqm P25519 (4 * (x * x)) (-1) -> ~ eqm P25519 (4 * x ^ 2) 1 /\ ~ eqm P25519 (x ^ 2) 4.
Proof.
  intro H. rewrite Z.pow_2_r. split; intro K.
  - unfold eqm in *. rewrite H in K. discriminate.
  - unfold eqm in *. rewrite Zmult_mod, K in H. discriminate.
Qed.
Lemma srt_1w_refuted st c a : limbs_below 10 reduced255 c -> limbs_below 10 reduced255 a ->
  eqm P25519 (value255 c) 1 -> eqm P25519 (value255 a) 4 ->
  let x := srt_1w st c a in
  ~ eqm P25519 (4 * value255 x ^ 2) 1 /\ ~ eqm P25519 (value255 x ^ 2) 4.
Proof.
  intros Hc Ha Ec Ea x. rewrite (value255_ok c (proj1 Hc)), (value255_ok a (proj1 Ha)) in *.
  apply (below_ok _ _ _ _ red255_below) in Hc, Ha.
  destruct (srt_1w_wrong st c a Hc Ha Ec Ea) as [Wx E]. fold x in Wx, E.
  apply (below_ok _ _ _ _ wide255_below) in Wx. rewrite (value255_ok x (proj1 Wx)).
  exact (one_4_not _ E).
Qed.
Lemma one_i_not x s : eqm P25519 x s -> eqm P25519 (s ^ 2) (-1) -> ~ eqm P25519 (x ^ 2) 1.
Proof.
  intros H K. unfold eqm in *. rewrite Z.pow_2_r in *. rewrite Zmult_mod, H, <- Zmult_mod, K. discriminate.
Qed.
Lemma root4_refuted st u v : lanes 4 10 reduced255 u -> lanes 4 10 reduced255 v ->
  forall j, (j < 4)%nat -> value255 (lane 4 10 j u) = 1 -> value255 (lane 4 10 j v) = 1 ->
  ~ eqm P25519 (value255 (lane 4 10 j (fst (invsqrt_4w st u v))) ^ 2) 1 /\
  ~ eqm P25519 (value255 (lane 4 10 j (srt_4w st u v)) ^ 2) 1.
Proof.
  intros [Lu Hu] [Lv Hv] j Hj Eu Ev. specialize (Hu j Hj). specialize (Hv j Hj).
  rewrite value255_ok in Eu, Ev by apply lane_length.
  apply (below_ok _ _ _ _ red255_below) in Hu, Hv. rewrite lane4 in *.
  assert (Ru : rep4w j u 1) by (split; [exact Lu|split; [exact Hu|apply eqp_cg; unfold eqp; rewrite Eu; reflexivity]]).
  assert (Rv : rep4w j v 1) by (split; [exact Lv|split; [exact Hv|apply eqp_cg; unfold eqp; rewrite Ev; reflexivity]]).
  destruct (invsqrt_4w_one st j u v Hj Ru Rv) as (_ & _ & V1). destruct (srt_4w_one st j u v Hj Ru Rv) as (_ & _ & V2).
  apply eqp_cg in V1, V2. rewrite !lane4, !value255_ok by apply pick_length.
  split; [exact (one_i_not _ sqrtm1 V1 eq_refl)|exact (one_i_not _ (-1 * sqrtm1) V2 eq_refl)].
Qed.
Lemma inv_1w_spec st a : limbs_below 10 reduced255 a ->
  let x := inv_1w st a in limbs_below 10 reduced255 x /\
  (~ eqm P25519 (value255 a) 0 -> eqm P25519 (value255 a * value255 x) 1) /\
  (eqm P25519 (value255 a) 0 -> eqm P25519 (value255 x) 0).
Proof.
  intros Ha x. rewrite (value255_ok a (proj1 Ha)). apply (below_ok _ _ _ _ red255_below) in Ha.
  destruct (inv_1w_inverse st a Ha) as (Hx & I1 & I0). fold x in Hx, I1, I0.
  apply (below_ok _ _ _ _ red255_below) in Hx. split; [exact Hx|]. rewrite (value255_ok x (proj1 Hx)). split; [exact I1|exact I0].
Qed.
Lemma inv448_1w_spec st a : limbs_below 16 summed448 a ->
  let x := inv448_1w st a in limbs_below 16 summed448 x /\
  (~ eqm P448 (value448 a) 0 -> eqm P448 (value448 a * value448 x) 1) /\
  (eqm P448 (value448 a) 0 -> eqm P448 (value448 x) 0).
Proof.
  intros Ha x. rewrite (value448_ok a (proj1 Ha)). apply (below_ok _ _ _ _ mid448_below) in Ha.
  destruct (inv448_1w_inverse st a Ha) as (Hx & I1 & I0). fold x in Hx, I1, I0.
  apply (below_ok _ _ _ _ mid448_below) in Hx. split; [exact Hx|]. rewrite (value448_ok x (proj1 Hx)). split; [exact I1|exact I0].
Qed.
Lemma srt448_1w_spec st a s : limbs_below 16 summed448 a -> ~ eqm P448 (value448 a) 0 -> eqm P448 (s ^ 2) (value448 a) ->
  let x := srt448_1w st a in limbs_below 16 summed448 x /\ eqm P448 (value448 a * value448 x ^ 2) 1.
Proof.
  intros Ha Nz R x. rewrite (value448_ok a (proj1 Ha)) in *. apply (below_ok _ _ _ _ mid448_below) in Ha. rewrite Z.pow_2_r in R.
  destruct (srt448_1w_root st a s Ha Nz R) as (Hx & E). fold x in Hx, E.
  apply (below_ok _ _ _ _ mid448_below) in Hx. split; [exact Hx|]. rewrite (value448_ok x (proj1 Hx)), Z.pow_2_r. exact E.
Qed.

(** ** 2^448-2^224-1: multiplying differences, serialising sums, the modulus *)
Lemma mul448_refuted st : exists x y, bytes 56 x /\ bytes 56 y /\ le_val x = P448 - 1 /\ le_val y = 0 /\
  let d := sub448_1w st (unser448_1w st x) (unser448_1w st y) in
  limbs_below 16 differed448 d /\ eqm P448 (value448 d) (-1) /\ ~ eqm P448 (value448 (mul448_1w st d d)) 1.
Proof.
  exists x448, (repeat 0 56). destruct (mul_sub_wrong448 st) as (_ & _ & Va & Vb & Wd & E & N).
  split; [exact (le_bytes_ok 56 _)|]. split; [apply bytes_lit; reflexivity|].
  split; [vm_compute; reflexivity|]. split; [vm_compute; reflexivity|].
  intro d. fold d in Wd, E, N. rewrite Va, Vb in E. clearbody d. clear Va Vb.
  apply (below_ok _ _ _ _ wide448_below) in Wd. split; [exact Wd|]. rewrite (value448_ok d (proj1 Wd)).
  apply cq_eqm in E.
  assert (E' : eqm P448 (fe448 d) (-1)) by (unfold eqm in *; rewrite E; reflexivity).
  split; [exact E'|]. intro K. apply N.
  assert (L : length (mul448_1w st d d) = 16%nat) by apply call_length.
  rewrite (value448_ok _ L) in K. unfold eqm in K, E'. rewrite P448_eq in *. rewrite K.
  rewrite (Zmult_mod (fe448 d)). rewrite E'. reflexivity.
Qed.
Lemma ser448_iff st a : limbs_below 16 differed448 a ->
  let v := value448 a in let u := v - nth 15 a 0 / 2 ^ 28 * P448 in
  (le_val (ser448_1w st a) = v mod P448 <->
   u mod 2 ^ 64 + u / 2 ^ 448 < 2 ^ 64 /\ u / 2 ^ 192 mod 2 ^ 64 + 2 ^ 32 * (u / 2 ^ 448) < 2 ^ 64).
Proof.
  intros H v u. pose proof (value448_ok a (proj1 H)) as Ev. apply (below_ok _ _ _ _ wide448_below) in H.
  pose proof (ser448_1w_iff st a H) as I. unfold w448, top448, u448 in I. rewrite <- Ev in I.
  change (2 ^ (64 * 0)) with 1 in I. rewrite Z.div_1_r in I. exact I.
Qed.
Lemma ser448_add_refuted st : exists x y, bytes 56 x /\ bytes 56 y /\ le_val x = P448 - 1 /\ le_val y = 2 ^ 224 + 1 + 2 ^ 64 /\
  le_val (ser448_1w st (add448_1w st (unser448_1w st x) (unser448_1w st y))) = 2 ^ 224.
Proof.
  exists x448, y448. destruct (ser_add_wrong448 st) as (_ & _ & _ & _ & E).
  split; [exact (le_bytes_ok 56 _)|]. split; [exact (le_bytes_ok 56 _)|].
  split; [vm_compute; reflexivity|]. split; [vm_compute; reflexivity|]. exact E.
Qed.
Lemma prime_1w_spec st : value255 (prime_1w st) = P25519.
Proof. rewrite prime_1w_eq. vm_compute. reflexivity. Qed.
Lemma prime448_1w_refuted st : value448 (prime448_1w st) = 2 ^ 448 - 2 ^ 112 - 1 /\ ~ eqm P448 (value448 (prime448_1w st)) 0.
Proof. rewrite prime448_1w_eq. split; [vm_compute; reflexivity|]. vm_compute. discriminate. Qed.
Lemma cmp448_lanes st a b c d : length a = 32%nat -> length b = 32%nat -> length c = 64%nat -> length d = 64%nat ->
  cmp448_2w st a b = [cmp448_1w st (lane 2 16 0 a) (lane 2 16 0 b); 0; cmp448_1w st (lane 2 16 1 a) (lane 2 16 1 b); 0] /\
  cmp448_4w st c d = map (fun j => cmp448_1w st (lane 4 16 j c) (lane 4 16 j d)) (seq 0 4).
Proof. intros Ha Hb Hc Hd. rewrite !lane2 by lia. split; [exact (cmp448_2w_el st a b Ha Hb)|exact (cmp448_4w_el st c d Hc Hd)]. Qed.
Lemma cmp448_decides st x y : bytes 56 x -> bytes 56 y ->
  (cmp448_1w st (unser448_1w st x) (unser448_1w st y) = 0 <-> eqm P448 (le_val x) (le_val y)).
Proof.
  intros Hx Hy. destruct (unser448_1w_ok st x Hx) as [Vx Cx]. destruct (unser448_1w_ok st y Hy) as [Vy Cy].
  destruct (canon_u448 _ Cx) as [Ux Bx]. destruct (canon_u448 _ Cy) as [Uy By].
  rewrite <- Vx, <- Vy. apply cmp448_1w_ok.
  - exact (red_wide448 _ (canon_red448 _ Cx)).
  - exact (red_wide448 _ (canon_red448 _ Cy)).
  - rewrite Ux. exact (proj2 Bx).
  - rewrite Uy. exact (proj2 By).
Qed.

(** ** Largest operands: concrete arrays at the limb bounds *)
Definition top_lanes (w n : nat) (f : nat -> Z) : list Z :=
  match w with
  | 1 => map (fun k => f (limb_index n k)) (seq 0 n)
  | 2 => flat_map (fun i => let x := f (limb_index n (2 * i)) in let y := f (limb_index n (2 * i + 1)) in [x; y; x; y]) (seq 0 (n / 2))
  | _ => flat_map (fun k => let x := f (limb_index n k) in [x; x; x; x]) (seq 0 n)
  end%nat.
Definition lanes_b (w n : nat) (f : nat -> Z) (a : list Z) : bool :=
  (length a =? w * n)%nat && forallb (fun j => forallb (fun k => (0 <=? nth k (lane w n j a) 0) && (nth k (lane w n j a) 0 <=? f (limb_index n k))) (seq 0 n)) (seq 0 w).
Lemma lanes_b_ok w n f a : lanes_b w n f a = true -> lanes w n f a.
Proof.
  unfold lanes_b. intro H. apply andb_true_iff in H as [L H]. apply Nat.eqb_eq in L. split; [exact L|].
  intros j Hj. split; [apply lane_length|]. intros k Hk.
  rewrite forallb_forall in H. specialize (H j ltac:(apply in_seq; lia)). rewrite forallb_forall in H.
  specialize (H k ltac:(apply in_seq; lia)). apply andb_true_iff in H as [A B]. apply Z.leb_le in A, B. split; assumption.
Qed.
Lemma lanes1_below n f a : lanes 1 n f a -> limbs_below n f a.
Proof. intros [L H]. specialize (H 0%nat Nat.lt_0_1). rewrite lane1 in H by lia. exact H. Qed.
