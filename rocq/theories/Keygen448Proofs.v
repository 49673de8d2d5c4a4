(** Fixed-base multiplication by a scalar, Ed448 key generation and signing. *)
From Coq Require Import ZArith List Bool Lia.
From Verif Require Import Uop Engine Bytes Fp448RedProofs SpecScalar Scalar448 ScalarProps SpecEd SpecIso CurveInst EdInst448 Recode RecodeProofs SpecRecode Edwards448 Edwards448Proofs
  TableProofs448 Fixed448Proofs Digits448 LadderX448 Encode448Proofs SpecSign448 Sign255 Sign448 Sign448Proofs.
Import ListNotations.
Open Scope Z_scope.
Notation B := B_ed448.
Notation "k ** P" := (mul448 k P) (at level 40).
(** ** Signed digits are unique *)
Lemma weighted_ext b f g n : (forall m, (m < n)%nat -> f m = g m) -> weighted b f n = weighted b g n.
Proof. induction n as [|n IH]; intro H; [reflexivity|]. cbn [weighted]. rewrite IH by (intros; apply H; lia). rewrite (H n) by lia. reflexivity. Qed.
Lemma weighted_low b f n : 0 <= b -> weighted b f (S n) = f 0%nat + b * weighted b (fun m => f (S m)) n.
Proof.
  intro Hb. induction n as [|n IH]; [cbn [weighted]; change (b ^ Z.of_nat 0) with 1; ring|]. cbn [weighted] in *. rewrite IH. rewrite (Nat2Z.inj_succ n), Z.pow_succ_r by lia. ring.
Qed.
Lemma digits_unique n : forall f g, (forall m, (m < n)%nat -> - 8 <= f m <= 7) -> (forall m, (m < n)%nat -> - 8 <= g m <= 7) ->
  weighted 16 f n = weighted 16 g n -> forall m, (m < n)%nat -> f m = g m.
Proof.
  induction n as [|n IH]; intros f g Hf Hg E m Hm; [lia|]. rewrite !weighted_low in E by lia.
  pose proof (Hf 0%nat ltac:(lia)) as F0. pose proof (Hg 0%nat ltac:(lia)) as G0.
  set (x := weighted 16 (fun m => f (S m)) n) in *. set (y := weighted 16 (fun m => g (S m)) n) in *.
  assert (E0 : f 0%nat = g 0%nat /\ x = y) by lia. destruct E0 as [E0 E1]. destruct m as [|m]; [exact E0|].
  exact (IH (fun m => f (S m)) (fun m => g (S m)) (fun m Hm => Hf (S m) ltac:(lia)) (fun m Hm => Hg (S m) ltac:(lia)) E1 m ltac:(lia)).
Qed.
(** ** Scalars for which the additions cannot borrow *)
Definition safe_number (q : Z) : Prop := exists D, (forall m, (m < 112)%nat -> - 8 <= D m <= 7 /\ ~ In ((m / 4)%nat, D m) risky) /\ weighted 16 D 112 = q.
Definition quarter_of (x q : Z) : Prop := 0 <= q < 2 ^ 446 + 3 * (2 ^ 446 - L448) /\ eqm L448 (4 * q) x.
Definition kept (x : Z) : Prop := no_lost_carry 0 7 7 quarter448 x /\ no_lost_carry448 (quarter448 * x).
Definition good_scalar (x : Z) : Prop := kept x /\ forall q, quarter_of x q -> safe_number q.
Lemma is_risky_in i g : ~ In (i, g) risky -> is_risky i g = false.
Proof.
  intro H. unfold is_risky. apply Bool.not_true_is_false. intro E. apply existsb_exists in E. destruct E as ([i' g'] & I & E). cbn [fst snd] in E. apply andb_prop in E. destruct E as [E1 E2].
  apply Nat.eqb_eq in E1. apply Z.eqb_eq in E2. subst. exact (H I).
Qed.
Section Fixed.
Variable st : store.
Variables junk K0 S0 : list Z.
Hypothesis HJ : words 2 junk.
Hypothesis LK : length K0 = 115%nat.
Hypothesis LS : length S0 = 115%nat.
Lemma safe_recoding r : bytes 57 r -> le_val (firstn 56 r) < carry_limit 112 -> safe_number (le_val (firstn 56 r)) -> let (K, S) := recode_fold4w4_448 K0 S0 r in mul_clean st K S.
Proof.
  intros Hr Hl (D & HD & E). pose proof (recode448_ok K0 S0 r Hr LK LS) as R.
  destruct (recode_fold4w4_448 K0 S0 r) as [K S]. destruct R as (LK' & LS' & Hd & Hw). rewrite (proj2 (Z.leb_gt _ _) Hl), Z.sub_0_r, <- E in Hw.
  assert (U := digits_unique 112 _ D (fun m Hm => proj2 (proj2 (Hd m Hm))) (fun m Hm => proj1 (HD m Hm)) Hw). clear Hw E.
  apply safe_clean; [lia|lia| | |].
  - intros n Hn. destruct (Hd n Hn) as (A & C & _). split; assumption.
  - intros n Hn. exact (proj2 (proj2 (Hd n Hn))).
  - intros i j I J. rewrite U by lia. apply is_risky_in. pose proof (proj2 (HD (4 * i + j)%nat ltac:(lia))) as N.
    replace ((4 * i + j) / 4)%nat with i in N; [exact N|]. rewrite Nat.mul_comm, Nat.div_add_l by lia. rewrite (Nat.div_small j 4) by lia. lia.
Qed.
Lemma low56 r : bytes 57 r -> 0 <= le_val r < 2 ^ 448 -> le_val (firstn 56 r) = le_val r.
Proof.
  intros [L F] H. assert (F' := F). rewrite <- (firstn_skipn 56 r) in F'. apply Forall_app in F' as [F1 F2].
  assert (L1 : length (firstn 56 r) = 56%nat) by (rewrite firstn_length; lia).
  assert (S : le_val r = le_val (firstn 56 r) + 2 ^ 448 * le_val (skipn 56 r)) by (rewrite <- (firstn_skipn 56 r) at 1; rewrite le_val_app, L1; reflexivity).
  pose proof (le_val_bound _ F1) as [B1 _]. pose proof (le_val_bound _ F2) as [B2 _]. destruct (Z.eq_dec (le_val (skipn 56 r)) 0) as [Z0|N]; [lia|].
  assert (1 <= le_val (skipn 56 r)) by lia. nia.
Qed.
Lemma order_eq j k P : on448 P -> l_ed448 ** P = ed_zero -> eqm L448 j k -> j ** P = k ** P.
Proof.
  intros On O E. rewrite <- (mul448_mod l_ed448 j P On ltac:(reflexivity) O), <- (mul448_mod l_ed448 k P On ltac:(reflexivity) O).
  unfold eqm in E. change l_ed448 with L448. rewrite E. reflexivity.
Qed.
Theorem fixed448_ok r : bytes 57 r -> good_scalar (le_val (firstn 56 r)) ->
  proj448 (fixed_point_multiplication448 st junk K0 S0 r) (le_val (firstn 56 r) ** B).
Proof.
  intros Hr ((K1 & K2) & Sq). unfold fixed_point_multiplication448.
  destruct (div4_spec st junk r HJ Hr) as (Bq & Rq & Eq). specialize (Eq K1 K2). destruct Eq as [Eq Lq]. cbv zeta in *.
  specialize (Sq _ (conj (conj (proj1 Rq) Lq) Eq)).
  set (q := div4 st junk r) in *. clearbody q. set (x := le_val (firstn 56 r)) in *. clearbody x. clear K1 K2.
  pose proof (low56 q Bq Rq) as E56. rewrite <- E56 in Sq, Eq, Lq.
  assert (Hl : le_val (firstn 56 q) < carry_limit 112) by (apply (Z.lt_trans _ _ _ Lq); vm_compute; reflexivity).
  pose proof (point_multiplication448_ok st K0 S0 q LK LS Bq (safe_recoding q Bq Hl Sq)) as P.
  rewrite (proj2 (Z.leb_gt _ _) Hl), Z.sub_0_r in P. rewrite <- (order_eq _ _ B onB order_B448 Eq). exact P.
Qed.
(** The multiplication reads 56 bytes of its scalar *)
Lemma fixed448_first r r' : firstn 56 r = firstn 56 r' -> fixed_point_multiplication448 st junk K0 S0 r = fixed_point_multiplication448 st junk K0 S0 r'.
Proof. intro E. exact (f_equal (point_multiplication448 st K0 S0) (div4_first st junk r r' E)). Qed.
Lemma fixed448_long r : (57 <= length r)%nat -> Forall byte r -> good_scalar (le_val (firstn 56 r)) ->
  proj448 (fixed_point_multiplication448 st junk K0 S0 r) (le_val (firstn 56 r) ** B).
Proof.
  intros L F G. assert (E : firstn 56 (firstn 57 r) = firstn 56 r) by (rewrite firstn_firstn; reflexivity).
  assert (Bt : bytes 57 (firstn 57 r)) by (split; [rewrite firstn_length; lia|]; rewrite <- (firstn_skipn 57 r) in F; exact (proj1 (proj1 (Forall_app _ _ _) F))).
  pose proof (fixed448_ok (firstn 57 r) Bt) as P. rewrite E, (fixed448_first _ _ E) in P. exact (P G).
Qed.
Variable H : nat -> list Z -> list Z.
Hypothesis HB : forall x, bytes 114 (H 114 x).
Definition plain (P : Z * Z) : Prop := ~ carry_lost (fst P) /\ ~ carry_lost (snd P).
(** ** Key generation *)
Theorem keygen448_ok sk : good_scalar (secret448 H sk) -> plain (secret448 H sk ** B) ->
  fst (ed448_keygen st junk K0 S0 H sk) = EDDSA_KEYGEN_OK /\ public448 H sk (snd (ed448_keygen st junk K0 S0 H sk)).
Proof.
  intros G [N1 N2]. unfold ed448_keygen. cbv zeta. cbn [fst snd]. split; [reflexivity|]. unfold public448. unfold secret448 in *.
  destruct (clamp448_val (H 114 sk) (HB sk)) as [[L F] V]. rewrite <- V in *.
  apply point_encoding448_ok; [|exact N1|exact N2]. apply fixed448_long; [lia|exact F|exact G].
Qed.
(** ** Signing *)
Definition in_range (x n : Z) : Prop := 0 <= x < 2 ^ 446 + 3 * (2 ^ 446 - L448) /\ eqm L448 x n.
Definition good_residue (n : Z) : Prop := forall x, in_range x n -> good_scalar x.
Definition good_sum (n k a : Z) : Prop := forall x y, in_range x n -> in_range y k -> no_lost_carry x 7 7 y a /\ no_lost_carry448 (x + y * a).
Lemma low57 a : bytes 114 a -> le_val a < 2 ^ 448 -> bytes 57 (firstn 57 a) /\ le_val (firstn 56 a) = le_val a.
Proof.
  intros [L F] H1. assert (F' := F). rewrite <- (firstn_skipn 57 a) in F'. apply Forall_app in F' as [F1 F2].
  assert (L1 : length (firstn 57 a) = 57%nat) by (rewrite firstn_length; lia). split; [split; assumption|].
  assert (S : le_val a = le_val (firstn 57 a) + 2 ^ 456 * le_val (skipn 57 a)) by (rewrite <- (firstn_skipn 57 a) at 1; rewrite le_val_app, L1; reflexivity).
  pose proof (le_val_bound _ F1) as [B1 _]. pose proof (le_val_bound _ F2) as [B2 _].
  assert (Z0 : le_val (skipn 57 a) = 0) by (destruct (Z.eq_dec (le_val (skipn 57 a)) 0) as [Z0|N]; [exact Z0|]; assert (1 <= le_val (skipn 57 a)) by lia; nia).
  rewrite Z0, Z.mul_0_r, Z.add_0_r in S. rewrite S. replace (firstn 56 a) with (firstn 56 (firstn 57 a)) by (rewrite firstn_firstn; reflexivity).
  apply low56; [split; assumption|]. lia.
Qed.
Lemma s448_first r r' h h' a a' : firstn 56 r = firstn 56 r' -> firstn 56 h = firstn 56 h' -> firstn 56 a = firstn 56 a' ->
  calculate_s_ed448 st junk r h a = calculate_s_ed448 st junk r' h' a'.
Proof. intros E1 E2 E3. unfold calculate_s_ed448. rewrite E1, E2, E3. reflexivity. Qed.
Lemma reduced448 a : bytes 114 a -> no_lost_carry448 (le_val a) ->
  bytes 114 (modular_reduction_ed448 st junk a) /\ bytes 57 (firstn 57 (modular_reduction_ed448 st junk a)) /\
  in_range (le_val (firstn 56 (modular_reduction_ed448 st junk a))) (le_val a mod L448).
Proof.
  intros Ha Hk. destruct (red448_spec st junk a HJ Ha) as (Bt & R & E). destruct (E Hk) as [E1 E2]. destruct (low57 _ Bt (proj2 R)) as [B57 V]. split; [exact Bt|]. split; [exact B57|].
  rewrite V. split; [exact (conj (proj1 R) E2)|]. unfold eqm in *. rewrite Z.mod_mod by (vm_compute; discriminate). exact E1.
Qed.
Lemma first57 (a : list Z) : firstn 56 a = firstn 56 (firstn 57 a). Proof. rewrite firstn_firstn. reflexivity. Qed.
(** The value left by the reduction of a hash *)
Local Notation reduced_hash x := (le_val (firstn 56 (modular_reduction_ed448 st junk (H 114 x)))).
Theorem sign448_at m sig0 M pk sk : (length (context448 m) <= 255)%nat ->
  no_lost_carry448 (le_val (H 114 (nonce_input448 H m sk M))) -> good_scalar (reduced_hash (nonce_input448 H m sk M)) -> plain (nonce448 H m sk M ** B) ->
  (forall R, encodes448 R (nonce448 H m sk M ** B) -> no_lost_carry448 (le_val (H 114 (challenge_input448 H m R pk M))) /\
     no_lost_carry (reduced_hash (nonce_input448 H m sk M)) 7 7 (reduced_hash (challenge_input448 H m R pk M)) (secret448 H sk) /\
     no_lost_carry448 (reduced_hash (nonce_input448 H m sk M) + reduced_hash (challenge_input448 H m R pk M) * secret448 H sk)) ->
  let (ret, sig) := sign448_with st junk K0 S0 H m sig0 M pk sk in
  ret = EDDSA_SIGNATURE_OK /\ bytes 114 sig /\ encodes448 (firstn 57 sig) (nonce448 H m sk M ** B) /\
  in_range (le_val (skipn 57 sig)) (nonce448 H m sk M + challenge448 H m (firstn 57 sig) pk M * secret448 H sk) /\
  (le_val (skipn 57 sig) < L448 -> signature448 H m sk pk M sig).
Proof.
  intros Hc K1 G [N1 N2] Hh. rewrite (sign448_with_body st junk K0 S0 H m sig0 M pk sk Hc). split; [reflexivity|].
  unfold sign_body448. cbv zeta. rewrite (clamp448_tail _ (HB sk)). fold (nonce_input448 H m sk M).
  destruct (reduced448 _ (HB (nonce_input448 H m sk M)) K1) as (Br & Br57 & Rr). fold (nonce448 H m sk M) in Rr.
  set (r := modular_reduction_ed448 st junk (H 114 (nonce_input448 H m sk M))) in *. clearbody r. set (n := nonce448 H m sk M) in *.
  pose proof (fixed448_long r ltac:(destruct Br; lia) (proj2 Br) G) as P.
  rewrite (order_eq _ _ B onB order_B448 (proj2 Rr)) in P.
  pose proof (point_encoding448_ok st _ _ P N1 N2) as Re. clear P.
  set (R := point_encoding448 st (fixed_point_multiplication448 st junk K0 S0 r)) in *. clearbody R.
  destruct (Hh R Re) as (K2 & G1 & G2). pose proof (proj1 (proj1 Re)) as LR.
  destruct (reduced448 _ (HB (challenge_input448 H m R pk M)) K2) as (Bh & Bh57 & Rh). fold (challenge448 H m R pk M) in Rh.
  set (h := modular_reduction_ed448 st junk (H 114 (challenge_input448 H m R pk M))) in *. clearbody h.
  destruct (clamp448_val (H 114 sk) (HB sk)) as [Ba V]. fold (secret448 H sk) in V.
  set (a := clamp_bytes_ed448 (H 114 sk)) in *. clearbody a.
  rewrite (s448_first r (firstn 57 r) h (firstn 57 h) a (firstn 57 a) (first57 r) (first57 h) (first57 a)).
  assert (Ba57 : bytes 57 (firstn 57 a)).
  { destruct Ba as [La Fa]. split; [rewrite firstn_length; lia|]. rewrite <- (firstn_skipn 57 a) in Fa. exact (proj1 (proj1 (Forall_app _ _ _) Fa)). }
  pose proof (s448_spec st junk _ _ _ HJ Br57 Bh57 Ba57) as Ss. cbv zeta in Ss. rewrite <- !first57, V in Ss. destruct Ss as (Bs & Rs & Es).
  destruct (Es G1 G2) as [E1 E2]. clear Es G1 G2.
  set (s := calculate_s_ed448 st junk (firstn 57 r) (firstn 57 h) (firstn 57 a)) in *. clearbody s.
  assert (F57 : firstn 57 (R ++ s) = R) by (rewrite <- LR, firstn_app, Nat.sub_diag, firstn_O, app_nil_r; apply firstn_all).
  assert (S57 : skipn 57 (R ++ s) = s) by (rewrite <- LR, skipn_app, Nat.sub_diag, skipn_all; reflexivity).
  assert (B114 : bytes 114 (R ++ s)) by (destruct Re as [[_ FR] _], Bs as [Ls Fs]; split; [rewrite app_length; lia|apply Forall_app; split; assumption]).
  assert (E : eqm L448 (le_val s) (n + challenge448 H m R pk M * secret448 H sk)).
  { unfold eqm in *. rewrite E1. destruct Rr as [_ Er], Rh as [_ Eh]. unfold eqm in Er, Eh.
    rewrite (Zplus_mod n), (Zmult_mod (challenge448 H m R pk M)), <- Er, <- Eh, <- Zmult_mod, <- Zplus_mod. reflexivity. }
  split; [exact B114|]. split; [rewrite F57; exact Re|]. split; [rewrite F57, S57; split; [split; [exact (proj1 Rs)|exact E2]|exact E]|].
  intro Lt. unfold signature448. rewrite F57, S57 in *. fold n. split; [exact B114|]. split; [exact Re|]. unfold eqm in E. rewrite <- E. symmetry. apply Z.mod_small. split; [exact (proj1 Rs)|exact Lt].
Qed.
Theorem sign448_ok m sig0 M pk sk : (length (context448 m) <= 255)%nat ->
  no_lost_carry448 (le_val (H 114 (nonce_input448 H m sk M))) -> good_residue (nonce448 H m sk M) -> plain (nonce448 H m sk M ** B) ->
  (forall R, encodes448 R (nonce448 H m sk M ** B) -> no_lost_carry448 (le_val (H 114 (challenge_input448 H m R pk M))) /\
     good_sum (nonce448 H m sk M) (challenge448 H m R pk M) (secret448 H sk)) ->
  let (ret, sig) := sign448_with st junk K0 S0 H m sig0 M pk sk in
  ret = EDDSA_SIGNATURE_OK /\ bytes 114 sig /\ encodes448 (firstn 57 sig) (nonce448 H m sk M ** B) /\
  in_range (le_val (skipn 57 sig)) (nonce448 H m sk M + challenge448 H m (firstn 57 sig) pk M * secret448 H sk) /\
  (le_val (skipn 57 sig) < L448 -> signature448 H m sk pk M sig).
Proof.
  intros Hc K1 G Pl Hh. destruct (reduced448 _ (HB (nonce_input448 H m sk M)) K1) as (_ & _ & Rr).
  apply (sign448_at m sig0 M pk sk Hc K1 (G _ Rr) Pl). intros R Re. destruct (Hh R Re) as [K2 Gs]. split; [exact K2|].
  destruct (reduced448 _ (HB (challenge_input448 H m R pk M)) K2) as (_ & _ & Rh). exact (Gs _ _ Rr Rh).
Qed.
End Fixed.
Lemma good_scalar_iff x : good_scalar x <->
  ((no_lost_carry 0 7 7 quarter448 x /\ no_lost_carry448 (quarter448 * x)) /\
   forall q, 0 <= q < 2 ^ 446 + 3 * (2 ^ 446 - L448) -> eqm L448 (4 * q) x -> exists D,
     (forall m, (m < 112)%nat -> - 8 <= D m <= 7 /\ ~ In ((m / 4)%nat, D m) [(5%nat, 4); (16%nat, -3); (18%nat, 4); (20%nat, -3); (27%nat, -3)]) /\ weighted 16 D 112 = q).
Proof.
  split; intros [K S]; (split; [exact K|]).
  - intros q R E. exact (S q (conj R E)).
  - intros q [R E]. exact (S q R E).
Qed.
