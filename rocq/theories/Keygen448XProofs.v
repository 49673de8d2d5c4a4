(** X448 key generation: the value of RFC 7748 for the base point 5 under explicit conditions, and a key for which the result is
    wrong. *)
From Coq Require Import ZArith Znumtheory List Bool Lia.
From Verif Require Import Uop Sym Engine Bytes Check FullTac Lanes RedTac Simd Simd448 Fp448Full Fp448FullProofs FullMore Fp25519Red Fp25519RedProofs Fp448Red Fp448RedProofs Fp448RedMore Fp448RedRoot
  Spec SpecX SpecScalar Scalar448 ScalarProps Ladder LadderProofs LadderVec LadderVec448 LadderX448 SpecEd SpecIso CurveInst EdInst448 Edwards255 EdVec Edwards448 EdVec448
  Edwards448Proofs Recode RecodeProofs SpecRecode TableProofs448 Fixed448Proofs Digits448 Encode448Proofs Decode448Proofs Keygen448Proofs Map448 Keygen448X.
Import ListNotations.
Open Scope Z_scope.
(** ** Where the serialisation of a square can lose a carry *)
Definition sqr_carry_lost (v : Z) : Prop := 2 ^ 224 + 1 <= v < 2 ^ 422 /\ (v mod 2 ^ 64 = 0 \/ ((v - 1) / 2 ^ 224) mod 2 ^ 32 = 0).
Lemma carry_core f v : 0 <= f < 2 ^ 448 + 2 ^ 421 + 2 ^ 420 -> v = f mod (2 ^ 448 - 2 ^ 224 - 1) -> ~ sqr_carry_lost v ->
  (f / 1) mod 2 ^ 64 + f / 2 ^ 448 < 2 ^ 64 /\ (f / 2 ^ 192) mod 2 ^ 64 + 2 ^ 32 * (f / 2 ^ 448) < 2 ^ 64.
Proof.
  intros B Ev Nl. rewrite Z.div_1_r. destruct (Z.ltb_spec f (2 ^ 448)) as [L|L].
  - rewrite (Z.div_small f (2 ^ 448)) by lia. rewrite Z.mul_0_r, !Z.add_0_r. split; apply Z.mod_pos_bound; reflexivity.
  - replace (f / 2 ^ 448) with 1 by (apply (Z.div_unique _ _ _ (f - 2 ^ 448)); lia). rewrite Z.mul_1_r.
    assert (M : v = f - (2 ^ 448 - 2 ^ 224 - 1)) by (rewrite Ev; symmetry; apply (Z.mod_unique _ _ 1); lia). clear Ev.
    assert (Ef : f = v + 2 ^ 448 - 2 ^ 224 - 1) by lia. clear M. subst f.
    assert (C0 : (v + 2 ^ 448 - 2 ^ 224 - 1) mod 2 ^ 64 = (v - 1) mod 2 ^ 64).
    { replace (v + 2 ^ 448 - 2 ^ 224 - 1) with (v - 1 + (2 ^ 384 - 2 ^ 160) * 2 ^ 64) by lia. apply Z.mod_add. discriminate. }
    rewrite C0. set (d := (v - 1) / 2 ^ 224). pose proof (Z.div_mod (v - 1) (2 ^ 224) ltac:(discriminate)) as D. fold d in D.
    pose proof (Z.mod_pos_bound (v - 1) (2 ^ 224) eq_refl) as Bd. set (e := (v - 1) mod 2 ^ 224) in *.
    assert (Nl' : v mod 2 ^ 64 <> 0 /\ d mod 2 ^ 32 <> 0).
    { split; intro K; apply Nl; (split; [lia|]); [left|right]; exact K. }
    clear Nl. clearbody d e. destruct Nl' as [N0 N3].
    assert (C3 : ((v + 2 ^ 448 - 2 ^ 224 - 1) / 2 ^ 192) mod 2 ^ 64 = e / 2 ^ 192 + 2 ^ 32 * ((d - 1) mod 2 ^ 32)).
    { pose proof (Z.div_mod e (2 ^ 192) ltac:(discriminate)) as De. pose proof (Z.mod_pos_bound e (2 ^ 192) eq_refl) as Be.
      set (g := e / 2 ^ 192) in *. set (h := e mod 2 ^ 192) in *. clearbody g h.
      pose proof (Z.div_mod (d - 1) (2 ^ 32) ltac:(discriminate)) as Dd. pose proof (Z.mod_pos_bound (d - 1) (2 ^ 32) eq_refl) as Bdd.
      set (i := (d - 1) / 2 ^ 32) in *. set (j := (d - 1) mod 2 ^ 32) in *. clearbody i j.
      replace ((v + 2 ^ 448 - 2 ^ 224 - 1) / 2 ^ 192) with (g + 2 ^ 32 * j + (i + 2 ^ 192) * 2 ^ 64).
      2:{ apply (Z.div_unique _ _ _ h); lia. }
      rewrite Z.mod_add by discriminate. apply Z.mod_small. lia. }
    rewrite C3. assert (Hg : 0 <= e / 2 ^ 192 < 2 ^ 32) by (split; [apply Z.div_pos; lia|apply Z.div_lt_upper_bound; lia]).
    set (g := e / 2 ^ 192) in *. clearbody g. split.
    + pose proof (Z.div_mod (v - 1) (2 ^ 64) ltac:(discriminate)) as D1. pose proof (Z.mod_pos_bound (v - 1) (2 ^ 64) eq_refl) as B1.
      set (m := (v - 1) mod 2 ^ 64) in *. set (q := (v - 1) / 2 ^ 64) in *. clearbody m q.
      destruct (Z.ltb_spec (m + 1) (2 ^ 64)); [assumption|]. exfalso. apply N0. rewrite <- (Z.mod_unique v (2 ^ 64) (q + 1) 0); lia.
    + pose proof (Z.div_mod (d - 1) (2 ^ 32) ltac:(discriminate)) as D1. pose proof (Z.mod_pos_bound (d - 1) (2 ^ 32) eq_refl) as B1.
      set (m := (d - 1) mod 2 ^ 32) in *. set (q := (d - 1) / 2 ^ 32) in *. clearbody m q.
      destruct (Z.ltb_spec (m + 1) (2 ^ 32)); [lia|]. exfalso. apply N3. rewrite <- (Z.mod_unique d (2 ^ 32) (q + 1) 0); lia.
Qed.
Lemma sqo_u a : arr_ok sqo448 a -> 0 <= u448 a < 2 ^ 448 + 2 ^ 421 + 2 ^ 420 /\ u448 a mod Q = fe448 a mod Q.
Proof.
  intro H. destruct (sqo_range a H) as (R & P & T).
  assert (T0 : 0 <= fe448 a - nth 15 a 0 * 2 ^ 420).
  { clear R P T. pose proof (arr_len _ _ H) as L. d16 a L. unfold arr_ok, sqo448 in H. repeat (apply f2_inv in H as [? H]). clear H L. unfold inI in *. cbn [fst snd nth] in *. cbv [wsum wt448]. lia. }
  unfold u448. set (f := fe448 a) in *. set (n := nth 15 a 0) in *. clearbody f n. clear H a.
  pose proof (Z.div_mod n (2 ^ 28) ltac:(discriminate)) as D. pose proof (Z.mod_pos_bound n (2 ^ 28) ltac:(reflexivity)) as B.
  set (k := n / 2 ^ 28) in *. set (r := n mod 2 ^ 28) in *. assert (K : 0 <= k) by (subst k; apply Z.div_pos; [exact P|reflexivity]). clearbody k r.
  assert (K2 : k <= 2) by lia. split.
  - change Q with (2 ^ 448 - 2 ^ 224 - 1). lia.
  - rewrite <- (Z_mod_plus_full _ k). f_equal. change Q with (2 ^ 448 - 2 ^ 224 - 1). lia.
Qed.
Section K.
Variable st : store.
Lemma ser_square a : arr_ok sqo448 a -> ~ sqr_carry_lost (fe448 a mod Q) -> bytes 56 (ser448_1w st a) /\ le_val (ser448_1w st a) = fe448 a mod Q.
Proof.
  intros H N. assert (Wa : is_wide448 a) by (apply sqo_wide; exact H). split; [apply ser448_1w_wide; exact Wa|]. apply (ser448_1w_iff st a Wa).
  destruct (sqo_u a H) as [R E]. rewrite <- E in N. exact (carry_core (u448 a) _ R eq_refl N).
Qed.
(** ** The map, for a projective point *)
Theorem to_montgomery_ok p P : proj448 p P -> let u := (snd P * snd P * inv_mod p_ed448 (fst P * fst P)) mod p_ed448 in ~ sqr_carry_lost u ->
  bytes 56 (point_Edwards2Montgomery448 st p) /\ le_val (point_Edwards2Montgomery448 st p) = u.
Proof.
  intros (L1 & L2 & On & Rx & Ry & Rz & Nz & Ex & Ey) u N. cbv beta delta [point_Edwards2Montgomery448]. rewrite (deinter448_2w_ok st _ L1). cbv beta iota zeta.
  set (X := el2q false (fst p)) in *. set (Y := el2q true (fst p)) in *. clearbody X Y. apply red_mid448 in Rx, Ry.
  destruct (inv448_1w_inverse st X Rx) as (Mi & I1 & I0). set (i := inv448_1w st X) in *. clearbody i.
  destruct (mul448_1w_ok st Y i Ry Mi) as [Em Mm]. assert (Mm' : is_mid448 (mul448_1w st Y i)) by (apply red_mid448; exact Mm).
  destruct (sqr448_sqo st _ Mm') as [Es Bs]. set (s := sqr448_1w st (mul448_1w st Y i)) in *. set (m := mul448_1w st Y i) in *. clearbody m. clearbody s.
  assert (E : fe448 s mod p44 = u).
  { apply cqm in Em, Es. rewrite Es, Z.mul_mod, Em, <- Z.mul_mod by discriminate.
    exact (map448_alg (fst P) (snd P) _ (fe448 i) (fe448 X) (fe448 Y) Nz Ex Ey I1 I0). }
  destruct (ser_square s Bs) as [B V]; [change Q with p44; rewrite E; exact N|]. split; [exact B|]. rewrite V. exact E.
Qed.
End K.
(** ** Key generation *)
Lemma base5 : (5 * (fst B * fst B)) mod p_ed448 = (snd B * snd B) mod p_ed448. Proof. vm_compute. reflexivity. Qed.
Lemma spec_map k : 0 <= k < 2 ^ 448 -> rfc_ladder p_ed448 39081 448 k 5 = (snd (k ** B) * snd (k ** B) * inv_mod p_ed448 (fst (k ** B) * fst (k ** B))) mod p_ed448.
Proof. intro Hk. apply ladder448; [exact onB|exact Hk|vm_compute; discriminate|exact base5]. Qed.
Lemma scalar448_range x : 0 <= scalar448 x < 2 ^ 448.
Proof.
  unfold scalar448. pose proof (Z.mod_pos_bound x (2 ^ 447) ltac:(reflexivity)) as M. pose proof (Z.div_mod (x mod 2 ^ 447) 4 ltac:(discriminate)) as D.
  pose proof (Z.mod_pos_bound (x mod 2 ^ 447) 4 ltac:(reflexivity)) as R. set (a := x mod 2 ^ 447) in *. clearbody a. set (b := a / 4) in *. clearbody b. lia.
Qed.
Section G.
Variable st : store.
Variables junk K0 S0 : list Z.
Hypothesis HJ : words 2 junk.
Hypothesis LK : length K0 = 115%nat.
Hypothesis LS : length S0 = 115%nat.
Lemma fixed448_56 r : bytes 56 r -> good_scalar (le_val r) -> proj448 (fixed_point_multiplication448 st junk K0 S0 r) (le_val r ** B).
Proof.
  intros [L F] G. assert (E : firstn 56 (r ++ [0]) = r) by (rewrite firstn_app, L, Nat.sub_diag, firstn_O, app_nil_r; apply firstn_all2; lia).
  rewrite (fixed448_first st junk K0 S0 r (r ++ [0])) by (rewrite E; apply firstn_all2; lia).
  rewrite <- E at 2. apply fixed448_ok; [exact HJ|exact LK|exact LS| |rewrite E; exact G].
  split; [rewrite app_length, L; reflexivity|]. apply Forall_app. split; [exact F|]. constructor; [unfold byte; lia|constructor].
Qed.
Theorem x448_keygen_ok key : bytes 56 key -> good_scalar (scalar448 (le_val key)) -> ~ sqr_carry_lost (X448_spec (le_val key) 5) ->
  bytes 56 (x448_keygen_avx2 st junk K0 S0 key) /\ le_val (x448_keygen_avx2 st junk K0 S0 key) = X448_spec (le_val key) 5.
Proof.
  intros Hk G N. destruct (clamp448_ok key Hk) as [Bc Ec]. unfold x448_keygen_avx2. cbv zeta.
  set (c := clamp_bytes448 key) in *. clearbody c. rewrite <- Ec in G. pose proof (fixed448_56 c Bc G) as Pf. rewrite Ec in Pf. clear G.
  assert (S : X448_spec (le_val key) 5 = (snd (scalar448 (le_val key) ** B) * snd (scalar448 (le_val key) ** B) *
     inv_mod p_ed448 (fst (scalar448 (le_val key) ** B) * fst (scalar448 (le_val key) ** B))) mod p_ed448) by exact (spec_map _ (scalar448_range _)).
  rewrite S in *. exact (to_montgomery_ok st _ _ Pf N).
Qed.
End G.
