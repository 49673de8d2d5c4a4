(** X25519 key generation computes X25519 of the secret key and 9. *)
From Coq Require Import ZArith List Bool Lia Zpow_facts.
From Verif Require Import Uop X86 Sym Engine Bytes Check FullTac Lanes RedTac Simd Simd255 Fp25519Full Fp25519FullProofs FullMore
  Fp25519Red Fp25519RedProofs Fp25519RedMore Spec Scalar SpecScalar ScalarProofs ScalarProps SpecX Ladder LadderProofs LadderVec SpecEd CurveInst EdInst Birational Edwards255 EdVec Edwards255Proofs
  SpecRecode EdCert TableProofs255 Fixed255 Fixed255Proofs Keygen255 LadderMem DHProofs.
Import ListNotations.
Open Scope Z_scope.
Notation B := B_ed255.
Notation "k ** P" := (mul255 k P) (at level 40).
Notation l2 a := (length a = 20%nat).

Lemma lor_61 x y : 0 <= x < W -> 0 <= y < W -> Z.lor (x / 2 ^ 3) ((y * 2 ^ 61) mod W) = x / 2 ^ 3 + 2 ^ 61 * (y mod 2 ^ 3).
Proof.
  intros X Y. rewrite Z.lor_comm. change W with (2 ^ 3 * 2 ^ 61) at 1. rewrite Z.mul_mod_distr_r by lia. rewrite (Z.mul_comm _ (2 ^ 61)).
  rewrite (lor_disj 61); [lia|lia| |].
  - split; [apply Z.div_pos; lia|]. apply Z.div_lt_upper_bound; [lia|]. exact (proj2 X).
  - rewrite Z.mul_comm. apply Z.mod_mul. discriminate.
Qed.
Lemma div_8_ok r : words 4 r -> words 4 (div_8_256 r) /\ val (div_8_256 r) = val r / 8.
Proof.
  intros [L F]. destruct r as [|w0 [|w1 [|w2 [|w3 [|]]]]]; try discriminate L.
  inversion F as [|? ? H0 F0]; subst. inversion F0 as [|? ? H1 F1]; subst. inversion F1 as [|? ? H2 F2]; subst. inversion F2 as [|? ? H3 F3]; subst. clear L F F0 F1 F2 F3.
  unfold div_8_256. cbn [nth]. unfold word in *. rewrite !lor_61 by assumption.
  pose proof (Z.div_mod w0 8 ltac:(lia)) as D0. pose proof (Z.mod_pos_bound w0 8 ltac:(lia)).
  pose proof (Z.div_mod w1 8 ltac:(lia)) as D1. pose proof (Z.mod_pos_bound w1 8 ltac:(lia)).
  pose proof (Z.div_mod w2 8 ltac:(lia)) as D2. pose proof (Z.mod_pos_bound w2 8 ltac:(lia)).
  pose proof (Z.div_mod w3 8 ltac:(lia)) as D3. pose proof (Z.mod_pos_bound w3 8 ltac:(lia)).
  change (2 ^ 3) with 8. change (2 ^ 61) with 2305843009213693952. unfold W in *.
  set (q0 := w0 / 8) in *. set (q1 := w1 / 8) in *. set (q2 := w2 / 8) in *. set (q3 := w3 / 8) in *.
  set (r0 := w0 mod 8) in *. set (r1 := w1 mod 8) in *. set (r2 := w2 mod 8) in *. set (r3 := w3 mod 8) in *. clearbody q0 q1 q2 q3 r0 r1 r2 r3.
  split.
  - split; [reflexivity|]. repeat (apply Forall_cons; [unfold word, W; lia|]). constructor.
  - cbn [val]. unfold W. apply (Z.div_unique _ 8 _ r0); lia.
Qed.
Lemma pow_frac q y z : Znumtheory.prime q -> 2 < q -> z mod q <> 0 ->
  ((z * (1 + y)) * (z * (1 - y)) ^ (q - 2)) mod q = ((1 + y) * inv_mod q (1 - y)) mod q.
Proof.
  intros Pq Q2 Nz. unfold inv_mod. rewrite Zpow_mod_correct by lia. rewrite Z.pow_mul_l.
  replace (z * (1 + y) * (z ^ (q - 2) * (1 - y) ^ (q - 2))) with ((z * z ^ (q - 2)) * ((1 + y) * (1 - y) ^ (q - 2))) by ring.
  rewrite Z.mul_mod by lia. rewrite fermat_inv by (try assumption; lia). rewrite Z.mul_1_l, Z.mod_mod by lia.
  rewrite <- (Z.mul_mod_idemp_r (1 + y)) by lia. reflexivity.
Qed.
Section Keygen.
Variable st : store.
Variable k : cpu.
Variable sky : bool.
Lemma frac_out A S Zw Yw y : words 4 A -> words 4 S -> val A = (Zw + Yw) mod p25519 -> val S = (Zw - Yw) mod p25519 ->
  Yw mod p25519 = (y * Zw) mod p25519 -> Zw mod p25519 <> 0 ->
  bytes 32 (ser st (mul st k A (inv st k S))) /\ le_val (ser st (mul st k A (inv st k S))) = ((1 + y) * inv_mod p25519 (1 - y)) mod p25519.
Proof.
  intros WA WS VA VS EY Nz. destruct (inv_ok st k S WS) as [Wi Vi]. destruct (mul_ok st k A _ WA Wi) as [Wm Vm].
  destruct (ser_ok st _ Wm) as [Bo Vo]. split; [exact Bo|]. rewrite Vo, Vm.
  rewrite <- (pow_frac p25519 y Zw p25519_prime ltac:(reflexivity) Nz).
  rewrite <- Z.mul_mod_idemp_r, Vi by discriminate. rewrite Z.mul_mod_idemp_r by discriminate.
  rewrite VA, VS. clear - EY. assert (P0 : p25519 <> 0) by discriminate. assert (P1 : 0 < p25519) by reflexivity. assert (E2 : 0 <= p25519 - 2) by (unfold p25519; lia).
  generalize dependent p25519. intros q EY P0 P1 E2.
  rewrite Z.mul_mod_idemp_l by exact P0. rewrite <- (Z.mul_mod_idemp_r (Zw + Yw)) by exact P0.
  assert (A1 : (Zw + Yw) mod q = (Zw * (1 + y)) mod q).
  { rewrite <- Z.add_mod_idemp_r, EY, Z.add_mod_idemp_r by exact P0. f_equal. ring. }
  assert (A2 : (Zw - Yw) mod q = (Zw * (1 - y)) mod q).
  { rewrite Zminus_mod, EY, <- Zminus_mod. f_equal. ring. }
  rewrite Z.mul_mod_idemp_r by exact P0. rewrite Z.mul_mod, A1, A2 by exact P0. rewrite (Z.mul_mod (Zw * (1 + y))) by exact P0. f_equal. f_equal.
  symmetry. apply Zpower_mod. lia.
Qed.
Lemma rr_sum2 a b h : l2 a -> l2 b -> is_red (el2 h a) -> is_red (el2 h b) ->
  rr red255 (el2 h (compress_2w st (add_2w st a b))) (fe255 (el2 h a) + fe255 (el2 h b)) /\
  rr red255 (el2 h (compress_2w st (sub_2w st a b))) (fe255 (el2 h a) - fe255 (el2 h b)).
Proof.
  intros La Lb Ra Rb. destruct (add_2w_ok st a b h La Lb Ra Rb) as [C1 W1]. destruct (sub_2w_ok st a b h La Lb Ra Rb) as [C2 W2].
  destruct (compress_2w_ok st (add_2w st a b) h (call_length _ _ _ _ _) (wide_big _ W1)) as [C3 W3].
  destruct (compress_2w_ok st (sub_2w st a b) h (call_length _ _ _ _ _) (wide_big _ W2)) as [C4 W4].
  split; (split; [assumption|]); [exact (cg_trans _ _ _ C3 C1)|exact (cg_trans _ _ _ C4 C2)].
Qed.
Lemma edwards2montgomery_ok p P : pt_2w p P -> bytes 32 (point_Edwards2Montgomery st k p) /\
  le_val (point_Edwards2Montgomery st k p) = ((1 + snd P) * inv_mod p_ed255 (1 - snd P)) mod p_ed255.
Proof.
  intros (L1 & L2 & On & Rx & Ry & Rz & Rt & Rep). unfold point_Edwards2Montgomery.
  destruct (rr_sum2 _ _ true L2 L1 Rz Ry) as [Ra Rs].
  rewrite (deinter_2w_ok st (compress_2w st (add_2w st (snd p) (fst p))) (call_length _ _ _ _ _)).
  rewrite (deinter_2w_ok st (compress_2w st (sub_2w st (snd p) (fst p))) (call_length _ _ _ _ _)).
  destruct (rr_ser st _ _ Ra) as [Wa Va]. destruct (rr_ser st _ _ Rs) as [Ws Vs].
  destruct P as [px py]. destruct (reps_parts _ _ _ _ _ _ On Rep) as (Hpx & Hpy & Nz & Ex & Ey).
  exact (frac_out _ _ _ _ _ Wa Ws Va Vs Ey Nz).
Qed.
Lemma double3 p n : pt_2w p (n ** B) -> pt_2w (doubling_2w st sky (doubling_2w st sky (doubling_2w st sky p))) ((8 * n) ** B).
Proof.
  assert (D : forall q m, pt_2w q (m ** B) -> pt_2w (doubling_2w st sky q) ((2 * m) ** B)).
  { intros q m H. apply (doubling_2w_ok st sky) in H. replace (2 * m) with (m + m) by lia. rewrite mul255_add by exact onB. exact H. }
  intro H. apply D, D, D in H. replace (8 * n) with (2 * (2 * (2 * n))) by lia. exact H.
Qed.
Lemma small_div x : clamped255 x / 8 < carry_limit 64 /\ 8 * (clamped255 x / 8) = clamped255 x /\ 0 <= clamped255 x < 2 ^ 255.
Proof.
  unfold clamped255. pose proof (Z.mod_pos_bound x (2 ^ 254) ltac:(reflexivity)) as M. set (m := x mod 2 ^ 254) in *. clearbody m.
  assert (Q : 0 <= m / 8 < 2 ^ 251). { split; [apply Z.div_pos; lia|]. apply Z.div_lt_upper_bound; [lia|]. exact (proj2 M). }
  set (q := m / 8) in *. clearbody q. change (2 ^ 254) with (8 * 2 ^ 251). rewrite <- Z.mul_add_distr_l, Z.mul_comm, Z.div_mul by discriminate.
  let v := eval vm_compute in (carry_limit 64) in change (carry_limit 64) with v. lia.
Qed.
Theorem keygen_ok K0 S0 key : length K0 = 67%nat -> length S0 = 67%nat -> bytes 32 key ->
  bytes 32 (x25519_keygen_avx2 st k sky K0 S0 key) /\ le_val (x25519_keygen_avx2 st k sky K0 S0 key) = X25519_spec (le_val key) 9.
Proof.
  intros LK LS Hk. destruct (clamp255_ok key Hk) as (Bc & Vc & _). unfold x25519_keygen_avx2.
  destruct (words_of_ok 4 _ Bc) as [Ww Vw]. destruct (div_8_ok _ Ww) as [Wd Vd]. destruct (bytes_of_ok 4 _ Wd) as [Bd Ve].
  rewrite Vd, Vw, Vc in Ve. destruct (small_div (le_val key)) as (Sm & E8 & Rg).
  pose proof (point_multiplication_ok st sky K0 S0 _ LK LS Bd) as M. rewrite Ve in M.
  rewrite (proj2 (Z.leb_gt _ _) Sm), Z.sub_0_r in M. apply double3 in M. rewrite E8 in M.
  destruct (edwards2montgomery_ok _ _ M) as [Bo Vo]. split; [exact Bo|]. rewrite Vo. symmetry. unfold X25519_spec. change (9 mod 2 ^ 255) with 9.
  exact (ladder25 (clamped255 (le_val key)) 9 B onB Rg ltac:(discriminate) ltac:(vm_compute; reflexivity)).
Qed.
End Keygen.
Theorem keygen_shared st c sky K0 S0 st1 c1 key : length K0 = 67%nat -> length S0 = 67%nat -> bytes 32 key ->
  x25519_keygen_avx2 st c sky K0 S0 key = x25519_shared_avx2 st1 c1 (9 :: repeat 0 31) key /\
  x25519_keygen_avx2 st c sky K0 S0 key = x25519_shared_x64 st1 c1 (9 :: repeat 0 31) key.
Proof.
  intros LK LS Hk. destruct (keygen_ok st c sky K0 S0 key LK LS Hk) as [B0 V0].
  assert (U : bytes 32 (9 :: repeat 0 31)) by (split; [reflexivity|repeat constructor; discriminate]).
  destruct (X25519_avx2_ok st1 c1 key _ Hk U) as [B1 V1]. destruct (X25519_x64_ok st1 c1 key _ Hk U) as [B2 V2].
  split; (eapply (bytes_eq 32); [exact B0|assumption|]).
  - exact (eq_trans V0 (eq_sym V1)).
  - exact (eq_trans V0 (eq_sym V2)).
Qed.
Theorem keygen_exchange st c sky K0 S0 st1 c1 st2 c2 sky2 K2 S2 st3 c3 a b :
  length K0 = 67%nat -> length S0 = 67%nat -> length K2 = 67%nat -> length S2 = 67%nat -> bytes 32 a -> bytes 32 b ->
  x25519_shared_avx2 st1 c1 (x25519_keygen_avx2 st c sky K0 S0 b) a = x25519_shared_x64 st3 c3 (x25519_keygen_avx2 st2 c2 sky2 K2 S2 a) b.
Proof.
  intros L0 L1 L2 L3 Ha Hb. rewrite (proj1 (keygen_shared st2 c2 sky2 K2 S2 st1 c1 a L2 L3 Ha)). rewrite (proj2 (keygen_shared st c sky K0 S0 st1 c1 b L0 L1 Hb)).
  apply X25519_dh_mixed; [exact Ha|exact Hb|]. split; [reflexivity|repeat constructor; discriminate].
Qed.
