(** The two-lane map to edwards25519 in the vocabulary of SpecH2c (C85), and a message on which it takes the wrong branch. *)
From Coq Require Import ZArith Znumtheory List Bool Lia Field.
From Verif Require Import Uop Engine Bytes FullTac Lanes RedTac FpType Spec SpecVec SpecScalar SpecSha2 Sha512 HashProps Sha512x2 Fp25519Full Fp25519FullProofs Fp25519Red Fp25519RedProofs Fp25519RedMore
  FullMore RedProps RedProps3 CurveInst EdInst SpecEd SpecEdVec SpecH2c Elligator Edwards255 Edwards255Proofs EdProps Sign255Proofs Hash255 Hash255Proofs H2cProps H2cCase Hash255x2 Hash255x2Proofs
  Map255x2 Map255x2Ops Map255x2Proofs SpecMap2w.
Import ListNotations.
Open Scope Z_scope.
Add Field Fpm : F25_field.

(** ** [feq] is the comparison of byte parities *)
Lemma feq_same x y : feq (I x) (I y) = true <-> same_parities x y.
Proof.
  unfold feq, same_parities. destruct (list_eq_dec bool_dec (fbits (I x)) (fbits (I y))) as [E|E]; (split; [|]).
  - intros _ j Hj. unfold fbits in E. pose proof (f_equal (fun l => nth (Z.to_nat j) l false) E) as G. cbv beta in G.
    set (fx := fun j : nat => Z.odd (toZ p25 (I x) / 2 ^ (8 * Z.of_nat j))) in G. set (fy := fun j : nat => Z.odd (toZ p25 (I y) / 2 ^ (8 * Z.of_nat j))) in G.
    rewrite (nth_indep (map fx _) false (fx 0%nat)), (nth_indep (map fy _) false (fy 0%nat)) in G by (rewrite map_length, seq_length; lia).
    rewrite !map_nth, !seq_nth in G by lia. unfold fx, fy in G. rewrite Nat.add_0_l, Z2Nat.id in G by lia. exact G.
  - reflexivity.
  - discriminate.
  - intro H. exfalso. apply E. unfold fbits. apply map_ext_in. intros j Hj. apply in_seq in Hj. apply (H (Z.of_nat j)). lia.
Qed.
Lemma num_F u : I (numerator u) = (gF (x1F (I u)) * ((tF (I u) + I 1) * (tF (I u) + I 1) * (tF (I u) + I 1)))%F.
Proof.
  unfold numerator. rewrite ell_x1_toZ. rewrite inF_mul, I_g, inF_toZ. rewrite !inF_mul, !inF_add, !inF_mul. change 2 with (1 + 1) at 1 2 3. rewrite inF_add. unfold tF. ring.
Qed.
Lemma lane_fr a j : lanes 2 10 reduced255 a -> (j < 2)%nat -> fr (hf j) a (I (value255 (lane 2 10 j a))).
Proof.
  intros [La H] Hj. assert (R : forall h, is_red (el2 h a)).
  { intro h. destruct (hf_h h) as (i & Hi & Ei). rewrite <- Ei, <- lane2 by exact Hi. apply red_below, H, Hi. }
  split; [exact La|]. split; [exact R|]. rewrite value255_ok by apply lane_length. rewrite lane2 by exact Hj. reflexivity.
Qed.
Theorem map_2w_right st a j : lanes 2 10 reduced255 a -> (j < 2)%nat -> let u := value255 (lane 2 10 j a) in
  (is_square p_ed255 (g25519 (ell_x1 u)) \/ forall i, (i * i) mod p_ed255 = (-1) mod p_ed255 -> ~ same_parities (i * numerator u) (numerator u)) ->
  forall s t, elligator2 u (s, t) ->
  (((s + 1) * t) mod p_ed255 = 0 \/ ~ same_parities ((1 + 2 * u * u) * (1 + 2 * u * u) * ((s + 1) * t)) 0) ->
  let r := map_to_curve_2w st a in point255 (lane 2 10 j (cX r)) (lane 2 10 j (cY r)) (lane 2 10 j (cZ r)) (lane 2 10 j (cT r)) (to_edwards (s, t)).
Proof.
  intros Ha Hj u HC s t El Hz. cbv zeta. pose proof (lane_fr a j Ha Hj) as Hu. fold u in Hu. clearbody u.
  rewrite !lane2 by exact Hj. apply point_ptv.
  assert (HC' : is_square p_ed255 (g25519 (ell_x1 u)) \/ no_false (gF (x1F (I u)) * ((tF (I u) + I 1) * (tF (I u) + I 1) * (tF (I u) + I 1)))%F).
  { destruct HC as [H|H]; [left; exact H|right]. rewrite <- num_F. split; apply not_true_is_false; intro E.
    - apply (H i25); [vm_compute; reflexivity|]. apply feq_same. rewrite inF_mul. exact E.
    - apply (H (- i25)); [vm_compute; reflexivity|]. apply feq_same. rewrite inF_mul, inF_opp. exact E. }
  destruct (map_right st (hf j) a u Hu HC') as (s' & t' & El' & Out). pose proof (elligator2_unique u _ _ El El') as E. injection E as -> ->.
  apply Out. clear Out El El' HC HC'.
  assert (Ed : (I (1 + 2 * u * u)) = (tF (I u) + I 1)%F) by (rewrite inF_add, !inF_mul; change 2 with (1 + 1); rewrite inF_add; unfold tF; ring).
  assert (Ez : I ((toZ p25 s' + 1) * toZ p25 t') = ((s' + I 1) * t')%F) by (rewrite inF_mul, inF_add, !inF_toZ; reflexivity).
  rewrite <- Ed, <- Ez, <- !inF_mul. destruct (Fp_dec p25 (I ((toZ p25 s' + 1) * toZ p25 t')) (I 0)) as [Z0|N].
  - rewrite inF_mul, Z0. replace (I ((1 + 2 * u * u) * (1 + 2 * u * u)) * I 0)%F with (I 0) by ring. apply feq_refl.
  - apply not_true_is_false. intro G. apply feq_same in G. destruct Hz as [Hz|Hz]; [|exact (Hz G)]. apply N. apply inF_0. exact Hz.
Qed.
(** ** A message on which the comparison is wrong *)
Definition l_u0 : Z := 2293931765061019676342392290388972274889736848749156949996040730416846952304.
Definition l_D0 : Z := 57851592817796246211444460804099443720450092869675699129082884714174850850421.
Definition l_x0 : Z := 24290214089960607823521687858794657069604485330001729403389005300120750974099.
Definition l_g0 : Z := 13128129086388825771818458037130299740537096077374492565092421422499741655036.
Definition l_U0 : Z := 57641300024375080526638285346774014659007720832996865039167978824251753384188.
Definition l_t0 : Z := 9876436940157231469093870813416734230410097048506893191771974932520638430033.
Definition l_k0 : Z := 31484503321172598795682170694496897302396296203420495748175765655369513892549.
Lemma lit_D : (tF (I l_u0) + I 1)%F = I l_D0.
Proof. unfold tF. rewrite <- !inF_add, <- !inF_mul, <- inF_add. apply I_mod. vm_compute. reflexivity. Qed.
Lemma lit_x : x1F (I l_u0) = I l_x0.
Proof.
  apply (ll_cancel p25 p25_prime p25_2 _ _ _ (D_nz (I l_u0))). refine (eq_trans (x1_D p25 e25 i25 p25_prime p25_2 e25_pos p25_e i25_sq (I J25519) (I l_u0)) _).
  rewrite lit_D, <- inF_mul, <- inF_opp. apply I_mod. vm_compute. reflexivity.
Qed.
Lemma lit_g : gF (I l_x0) = I l_g0.
Proof. unfold gF. rewrite <- !inF_mul, <- !inF_add. apply I_mod. vm_compute. reflexivity. Qed.
Lemma lit_U : (I l_g0 * (I l_D0 * I l_D0 * I l_D0))%F = I l_U0.
Proof. rewrite <- !inF_mul. apply I_mod. vm_compute. reflexivity. Qed.
Lemma lit_t : (- I i25 * I l_g0)%F = (I l_t0 * I l_t0)%F.
Proof. rewrite <- inF_opp, <- !inF_mul. apply I_mod. vm_compute. reflexivity. Qed.
Lemma lit_k : ((I 1 + I 1) * I l_g0 * (I l_k0 * I l_k0))%F = I 1.
Proof. rewrite <- !inF_add, <- !inF_mul. apply I_mod. vm_compute. reflexivity. Qed.
Lemma nz x : (x mod p25 =? 0) = false -> I x <> I 0.
Proof. intros H E. apply inF_0 in E. rewrite E in H. discriminate H. Qed.
Lemma lit_nonsquare r : (r * r)%F <> I l_g0.
Proof.
  intro E. apply (xd_nz p25 e25 i25 p25_prime p25_2 e25_pos p25_e i25_sq (I i25 * r * I l_k0)%F).
  transitivity ((I 1 + I 1) * (r * r) * (I l_k0 * I l_k0) * (I i25 * I i25) + I 1)%F; [ring|]. rewrite E, lit_k, i_sq. ring.
Qed.
Definition par (x : Z) : list bool := map (fun j => Z.odd (x / 2 ^ (8 * Z.of_nat j))) (seq 0 32).
Lemma feq_par x y b : (if list_eq_dec bool_dec (par (x mod p25)) (par (y mod p25)) then true else false) = b -> feq (I x) (I y) = b.
Proof. intro H. exact H. Qed.
Lemma lit_e1 : feq (I i25 * I l_U0)%F (I l_U0) = false.
Proof. rewrite <- inF_mul. apply feq_par. vm_compute. reflexivity. Qed.
Lemma lit_e2 : feq (- I i25 * I l_U0)%F (I l_U0) = true.
Proof. rewrite <- inF_opp, <- inF_mul. apply feq_par. vm_compute. reflexivity. Qed.
Lemma lit_z t : t = I l_t0 \/ t = (- I l_t0)%F -> feq (I l_D0 * t * (I l_x0 * I l_D0 + I l_D0))%F (I 0) = false.
Proof. intros [->| ->]; rewrite <- ?inF_opp, <- !inF_mul, <- inF_add, <- inF_mul; apply feq_par; vm_compute; reflexivity. Qed.
Lemma wrong_branch Y g d : (Y * Y * d)%F = (I i25 * g)%F \/ (Y * Y * d)%F = (- I i25 * g)%F -> feq (I i25 * g)%F g = false -> feq (- I i25 * g)%F g = true ->
  b3 Y g d = true /\ (F1 Y g d * F1 Y g d * d)%F = (- I i25 * g)%F.
Proof.
  intros K N1 N2. assert (A : (F1 Y g d * F1 Y g d * d)%F = (- I i25 * g)%F).
  { unfold F1. destruct K as [K|K]; rewrite K; [rewrite N1|rewrite N2; exact K].
    transitivity (Y * Y * d * (I i25 * I i25))%F; [ring|]. rewrite K, i_sq. ring. }
  split; [|exact A]. unfold b3. rewrite A. exact N2.
Qed.
Lemma wrong_cand U V Y g : Y = Yc U V -> I V <> I 0 -> I U <> I 0 -> (g * I V)%F = I U -> (forall r, (r * r)%F <> g) ->
  (Y * Y * I V)%F = (I i25 * I U)%F \/ (Y * Y * I V)%F = (- I i25 * I U)%F.
Proof.
  intros HY NV NU G2 Ns. destruct (candidate p25 e25 p25_prime p25_2 e25_pos p25_e U V) as (c & Hy & Hc). change (I ((U * V ^ 7) ^ e25 * (U * V ^ 3))) with (Yc U V) in Hy. rewrite <- HY in Hy.
  clear HY. generalize dependent (I V). generalize dependent (I U). intros gU NU d NV G2 Hy Hc.
  destruct Hc as [Hc|[Hc|Hc]]; [contradiction|contradiction|].
  apply (four_roots p25 i25 p25_prime p25_2 i25_sq) in Hc. destruct Hc as [Hc|[Hc|[Hc|Hc]]]; rewrite Hc in Hy.
  - exfalso. apply (Ns Y). apply (ll_cancel p25 p25_prime p25_2 _ _ _ NV). rewrite Hy, G2. ring.
  - exfalso. apply (Ns (Y * I i25)%F). apply (ll_cancel p25 p25_prime p25_2 _ _ _ NV). rewrite G2.
    transitivity (Y * Y * d * (I i25 * I i25))%F; [ring|]. rewrite Hy, i_sq. ring.
  - left. exact Hy.
  - right. exact Hy.
Qed.
Lemma fF_true u Y g d : b3 Y g d = true -> fF u Y g d = F1 Y g d.
Proof. intro B. unfold fF. rewrite B. reflexivity. Qed.
Lemma wrong_pick h p (b : bool) f f1 X X' E : b = true -> f = f1 -> mapped h p (if b then X else X') E (signed b f) -> mapped h p X E (signed true f1).
Proof. intros Hb Hf M. subst b f. exact M. Qed.
Section Wrong.
Variables u x D g gU t0 : F.
Hypothesis HD : (tF u + I 1)%F = D. Hypothesis Hx : x1F u = x. Hypothesis Hg : gF x = g. Hypothesis HU : (g * (D * D * D))%F = gU.
Hypothesis HJ : (- I J25519)%F = (x * D)%F. Hypothesis Ht : (- I i25 * g)%F = (t0 * t0)%F. Hypothesis Ns : forall r, (r * r)%F <> g.
Hypothesis NU : gU <> I 0. Hypothesis Nx : x <> I 0. Hypothesis ND : D <> I 0. Hypothesis Nt : (t0 * t0)%F <> I 0. Hypothesis N1 : (x + I 1)%F <> I 0.
Hypothesis E1 : feq (I i25 * gU)%F gU = false. Hypothesis E2 : feq (- I i25 * gU)%F gU = true.
Hypothesis Ez : forall t, t = t0 \/ t = (- t0)%F -> feq (D * t * (x * D + D))%F (I 0) = false.
Lemma wrong_fin h p f d : mapped h p (- I J25519)%F (tF u + I 1)%F (signed true f) -> d <> I 0 -> (g * d)%F = gU -> (f * f * d)%F = (- I i25 * gU)%F ->
  forall Q, on255 Q -> ~ reps255 (fe255 (el2 h (cX p))) (fe255 (el2 h (cY p))) (fe255 (el2 h (cZ p))) (fe255 (el2 h (cT p))) Q.
Proof.
  intros M NV G2 W. destruct (signed_ok true f) as [_ Sf]. revert M Sf. generalize (signed true f). intros t M Sf.
  assert (T : (t * t)%F = (t0 * t0)%F).
  { rewrite Sf, <- Ht. apply (ll_cancel p25 p25_prime p25_2 _ _ _ NV). rewrite W. rewrite <- G2. ring. }
  rewrite HD, HJ in M. refine (off_curve h x t D p _ Nx ND _ N1 _ M).
  - rewrite Hg. apply Ns.
  - intro E. rewrite E in T. apply Nt. rewrite <- T. ring.
  - apply Ez. exact (ll_sq p25 p25_prime p25_2 _ _ T).
Qed.
Lemma wrong_num h p U V Y : Y = Yc U V -> numU u (I U) (I V) ->
  mapped h p (if b3 Y (I U) (I V) then - I J25519 else - I J25519 * tF u)%F (tF u + I 1)%F (signed (b3 Y (I U) (I V)) (fF u Y (I U) (I V))) ->
  forall Q, on255 Q -> ~ reps255 (fe255 (el2 h (cX p))) (fe255 (el2 h (cY p))) (fe255 (el2 h (cZ p))) (fe255 (el2 h (cT p))) Q.
Proof.
  intros HY HN M.
  pose proof (num_g _ _ _ HN) as Gx. rewrite Hx, Hg, HD, HU in Gx. destruct HN as [_ HV]. rewrite HD in HV.
  assert (NV : I V <> I 0) by (rewrite HV; repeat apply (ll_nz p25 p25_prime p25_2); exact ND).
  assert (G2 : (g * I V)%F = I U) by (rewrite HV, HU; exact Gx).
  assert (NU' : I U <> I 0) by (rewrite <- Gx; exact NU).
  pose proof (wrong_cand U V Y g HY NV NU' G2 Ns) as K. clear HY NU' HV.
  revert M Gx K NV G2. generalize (I U) (I V). intros gU' d M Gx K NV G2. rewrite <- Gx in M, K, G2. clear Gx gU'.
  destruct (wrong_branch Y gU d K E1 E2) as [B W]. exact (wrong_fin h p _ d (wrong_pick h p _ _ _ _ _ _ B (fF_true _ _ _ _ B) M) NV G2 W).
Qed.
Lemma wrong_gen st h a : fr h a u -> 
  forall Q, on255 Q -> ~ reps255 (fe255 (el2 h (cX (map_to_curve_2w st a)))) (fe255 (el2 h (cY (map_to_curve_2w st a)))) (fe255 (el2 h (cZ (map_to_curve_2w st a)))) (fe255 (el2 h (cT (map_to_curve_2w st a)))) Q.
Proof.
  intro Ha. destruct (map_raw st h a u Ha) as (U & V & Y & HY & HN & M). exact (wrong_num h _ U V Y HY HN M).
Qed.
End Wrong.
Lemma lit_J : (- I J25519)%F = (I l_x0 * I l_D0)%F.
Proof. rewrite <- inF_mul, <- inF_opp. apply I_mod. vm_compute. reflexivity. Qed.
Lemma lit_NU : I l_U0 <> I 0. Proof. apply nz. vm_compute. reflexivity. Qed.
Lemma lit_Nx : I l_x0 <> I 0. Proof. apply nz. vm_compute. reflexivity. Qed.
Lemma lit_ND : I l_D0 <> I 0. Proof. apply nz. vm_compute. reflexivity. Qed.
Lemma lit_Nt : (I l_t0 * I l_t0)%F <> I 0. Proof. rewrite <- inF_mul. apply nz. vm_compute. reflexivity. Qed.
Lemma lit_N1 : (I l_x0 + I 1)%F <> I 0. Proof. rewrite <- inF_add. apply nz. vm_compute. reflexivity. Qed.
Definition wrong_lane := wrong_gen (I l_u0) (I l_x0) (I l_D0) (I l_g0) (I l_U0) (I l_t0) lit_D lit_x lit_g lit_U lit_J lit_t lit_nonsquare lit_NU lit_Nx lit_ND lit_Nt lit_N1 lit_e1 lit_e2 lit_z.
(** The message: e6 57 51 35 00 00 00 00 *)
Definition bad_msg : list Z := [230; 87; 81; 53; 0; 0; 0; 0].
Definition bad_digest : Z := 1864317711258182585786165845698892730886936095915201652909562892596662660489668991232190332955012366492455753069711740663325742178619412459926868539320295.
Lemma bad_digest_eq : le_val (SHA512_fips (0 :: bad_msg)) = bad_digest.
Proof.
  pose proof (proj1 (sha512_fips c_zero [0 :: bad_msg] c_zero_clean ltac:(repeat constructor; unfold byte; lia) ltac:(cbn; lia))) as E.
  change (concat [0 :: bad_msg]) with (0 :: bad_msg) in E. rewrite <- E. vm_compute. reflexivity.
Qed.
Lemma bad_bytes : Forall byte bad_msg. Proof. repeat constructor; unfold byte; lia. Qed.
Lemma bad_len : Z.of_nat (length bad_msg) + 1 < 2 ^ 32. Proof. reflexivity. Qed.
Lemma bad_len64 : Z.of_nat (length bad_msg) + 1 < 2 ^ 64. Proof. reflexivity. Qed.
Lemma pair_fr st u0 u1 : words 4 u0 -> words 4 u1 -> fr false (pair_2w st u0 u1) (I (val u0)).
Proof.
  intros W0 W1. unfold pair_2w. destruct (bytes_of_ok 4 u0 W0) as [B0 V0]. destruct (bytes_of_ok 4 u1 W1) as [B1 V1].
  destruct (unser_1w_ok st _ B0) as [E0 R0]. destruct (unser_1w_ok st _ B1) as [_ R1].
  pose proof (len1 _ _ R0 eq_refl) as L0. pose proof (len1 _ _ R1 eq_refl) as L1.
  split; [apply call_length|]. split.
  - intro h. rewrite (inter_2w_ok st h _ _ L0 L1). destruct h; apply canon_red; assumption.
  - rewrite (inter_2w_ok st false _ _ L0 L1). rewrite E0, V0. apply I_mod. apply Z.mod_mod. discriminate.
Qed.
Theorem map_2w_refuted : exists msg, Forall byte msg /\ length msg = 8%nat /\ forall st block, registers block ->
  let '(u0, u1) := hash_to_field_2w st block msg in let r := map_to_curve_2w st (pair_2w st u0 u1) in
  forall Q, on255 Q -> ~ reps255 (value255 (lane 2 10 0 (cX r))) (value255 (lane 2 10 0 (cY r))) (value255 (lane 2 10 0 (cZ r))) (value255 (lane 2 10 0 (cT r))) Q.
Proof.
  exists bad_msg. split; [exact bad_bytes|]. split; [reflexivity|]. intros st block R.
  rewrite (field_equal st block c_zero c_zero bad_msg R c_zero_clean c_zero_clean bad_bytes bad_len).
  destruct (field_ok st c_zero 0 bad_msg c_zero_clean byte0 bad_bytes bad_len64) as [W0 S0]. destruct (field_ok st c_zero 1 bad_msg c_zero_clean byte1 bad_bytes bad_len64) as [W1 _].
  cbv zeta in W0, S0, W1. rewrite bad_digest_eq in S0. apply scalar_small in S0; [|vm_compute; reflexivity].
  generalize dependent (hash_to_field st c_zero 0 bad_msg). intros u0 W0 S0. generalize dependent (hash_to_field st c_zero 1 bad_msg). intros u1 W1.
  cbv zeta. intros Q On. rewrite !value255_ok by apply lane_length. rewrite !lane2 by (apply le_n_S, Nat.le_0_l). change (hf 0) with false. revert Q On.
  pose proof (pair_fr st u0 u1 W0 W1) as P. rewrite S0 in P. replace (bad_digest mod L25519) with l_u0 in P by (vm_compute; reflexivity).
  exact (wrong_lane st false _ P).
Qed.
(** ** A case: the lane holds 9 *)
Definition v_x : Z := 12076475564628069461354029111335548671813433983533064961170422871990939898108.
Definition v_t : Z := 152916616611272564219333496382007066401007626956012812791221869458684253925.
Definition v_lanes : list Z := 9 :: repeat 0 19.
Lemma case_x : x1F (I 9) = I v_x.
Proof.
  apply (ll_cancel p25 p25_prime p25_2 _ _ _ (D_nz (I 9))). refine (eq_trans (x1_D p25 e25 i25 p25_prime p25_2 e25_pos p25_e i25_sq (I J25519) (I 9)) _).
  unfold tF. rewrite <- !inF_add, <- !inF_mul, <- !inF_add, <- inF_mul, <- inF_opp. apply I_mod. vm_compute. reflexivity.
Qed.
Lemma case_t : (I v_t * I v_t)%F = gF (I v_x).
Proof. unfold gF. rewrite <- !inF_mul, <- !inF_add. apply I_mod. vm_compute. reflexivity. Qed.
Lemma case_sq : exists r, (r * r)%F = gF (x1F (I 9)). Proof. exists (I v_t). rewrite case_x. exact case_t. Qed.
Lemma case_par : parity (I v_t) = 1. Proof. vm_compute. reflexivity. Qed.
Lemma case_ell : elligator2 9 (v_x, v_t).
Proof.
  pose proof (ell_spec 9 true (I v_t) case_sq) as H. cbv iota in H. rewrite case_x in H. specialize (H case_t (or_intror case_par)).
  change (toZ p25 (I v_x)) with (v_x mod p25) in H. change (toZ p25 (I v_t)) with (v_t mod p25) in H. rewrite !Z.mod_small in H by (split; vm_compute; congruence). exact H.
Qed.
Lemma case_nz : ~ same_parities ((1 + 2 * 9 * 9) * (1 + 2 * 9 * 9) * ((v_x + 1) * v_t)) 0.
Proof. intro H. apply feq_same in H. revert H. rewrite (feq_par _ _ false); [discriminate|]. vm_compute. reflexivity. Qed.
Lemma case_2w : lanes 2 10 reduced255 v_lanes /\ value255 (lane 2 10 0 v_lanes) = 9 /\ is_square p_ed255 (g25519 (ell_x1 9)) /\ elligator2 9 (v_x, v_t) /\
  ~ same_parities ((1 + 2 * 9 * 9) * (1 + 2 * 9 * 9) * ((v_x + 1) * v_t)) 0.
Proof.
  split; [apply lanes_b_ok; vm_compute; reflexivity|]. split; [vm_compute; reflexivity|]. split; [apply square_gF; exact case_sq|]. split; [exact case_ell|exact case_nz].
Qed.
(** A second case, in which g(x1) is no square: the second lane holds 5 *)
Definition w_x1 : Z := 36326929956805080917198740394882480895143524600985274992771006747580589681406.
Definition w_g1 : Z := 5987274427473232651169409851223061718084136756011101527667635935449602190920.
Definition w_x : Z := 21569114661853016794586752109461473031491467731835007026957785256375974651881.
Definition w_t : Z := 46138603278758264136930100186806411988425349820511940871061782893330319234424.
Definition w_k : Z := 39024581097151803943851676222916615145284330672864176480484333978395340543188.
Definition w_lanes : list Z := 9 :: 0 :: 5 :: repeat 0 17.
Lemma case2_x1 : x1F (I 5) = I w_x1.
Proof.
  apply (ll_cancel p25 p25_prime p25_2 _ _ _ (D_nz (I 5))). refine (eq_trans (x1_D p25 e25 i25 p25_prime p25_2 e25_pos p25_e i25_sq (I J25519) (I 5)) _).
  unfold tF. rewrite <- !inF_add, <- !inF_mul, <- !inF_add, <- inF_mul, <- inF_opp. apply I_mod. vm_compute. reflexivity.
Qed.
Lemma case2_x2 : x2F (I 5) = I w_x.
Proof. unfold x2F. rewrite case2_x1, <- inF_opp, <- inF_sub. apply I_mod. vm_compute. reflexivity. Qed.
Lemma case2_g : gF (I w_x1) = I w_g1.
Proof. unfold gF. rewrite <- !inF_mul, <- !inF_add. apply I_mod. vm_compute. reflexivity. Qed.
Lemma case2_t : (I w_t * I w_t)%F = gF (I w_x).
Proof. unfold gF. rewrite <- !inF_mul, <- !inF_add. apply I_mod. vm_compute. reflexivity. Qed.
Lemma case2_k : ((I 1 + I 1) * I w_g1 * (I w_k * I w_k))%F = I 1.
Proof. rewrite <- !inF_add, <- !inF_mul. apply I_mod. vm_compute. reflexivity. Qed.
Lemma case2_ns r : (r * r)%F <> gF (x1F (I 5)).
Proof.
  rewrite case2_x1, case2_g. intro E. apply (xd_nz p25 e25 i25 p25_prime p25_2 e25_pos p25_e i25_sq (I i25 * r * I w_k)%F).
  transitivity ((I 1 + I 1) * (r * r) * (I w_k * I w_k) * (I i25 * I i25) + I 1)%F; [ring|]. rewrite E, case2_k, i_sq. ring.
Qed.
Lemma case2_par : parity (I w_t) = 0. Proof. vm_compute. reflexivity. Qed.
Lemma case2_ell : elligator2 5 (w_x, w_t).
Proof.
  pose proof (ell_spec 5 false (I w_t) case2_ns) as H. cbv iota in H. rewrite case2_x2 in H. specialize (H case2_t (or_intror case2_par)).
  change (toZ p25 (I w_x)) with (w_x mod p25) in H. change (toZ p25 (I w_t)) with (w_t mod p25) in H. rewrite !Z.mod_small in H by (split; vm_compute; congruence). exact H.
Qed.
Definition w_num : Z := 5763049024027668538.
Lemma case2_num : I (numerator 5) = I w_num.
Proof. rewrite num_F, case2_x1, case2_g. unfold tF. rewrite <- !inF_add, <- !inF_mul, <- !inF_add, <- !inF_mul. apply I_mod. vm_compute. reflexivity. Qed.
Lemma case2_no i : (i * i) mod p_ed255 = (-1) mod p_ed255 -> ~ same_parities (i * numerator 5) (numerator 5).
Proof.
  intros Hi H. apply feq_same in H. rewrite inF_mul, case2_num in H.
  assert (E : (I i * I i)%F = (I i25 * I i25)%F) by (rewrite i_sq, <- inF_mul, <- inF_opp; apply I_mod; exact Hi).
  apply (ll_sq p25 p25_prime p25_2) in E. revert H. destruct E as [E|E]; rewrite E, <- ?inF_opp, <- inF_mul, (feq_par _ _ false); try discriminate; vm_compute; reflexivity.
Qed.
Lemma case2_nz : ~ same_parities ((1 + 2 * 5 * 5) * (1 + 2 * 5 * 5) * ((w_x + 1) * w_t)) 0.
Proof. intro H. apply feq_same in H. revert H. rewrite (feq_par _ _ false); [discriminate|]. vm_compute. reflexivity. Qed.
Lemma case2_2w : lanes 2 10 reduced255 w_lanes /\ value255 (lane 2 10 1 w_lanes) = 5 /\
  (forall i, (i * i) mod p_ed255 = (-1) mod p_ed255 -> ~ same_parities (i * numerator 5) (numerator 5)) /\ ~ is_square p_ed255 (g25519 (ell_x1 5)) /\
  elligator2 5 (w_x, w_t) /\ ~ same_parities ((1 + 2 * 5 * 5) * (1 + 2 * 5 * 5) * ((w_x + 1) * w_t)) 0.
Proof.
  split; [apply lanes_b_ok; vm_compute; reflexivity|]. split; [vm_compute; reflexivity|]. split; [exact case2_no|]. split; [|split; [exact case2_ell|exact case2_nz]].
  intro H. apply square_gF in H. destruct H as [r H]. exact (case2_ns r H).
Qed.
