(** The point formulas of edwards255.c compute the group law of edwards25519. *)
From Coq Require Import ZArith List Bool Lia.
From Verif Require Import Uop X86 Sym Engine Bytes Check FullTac Lanes RedTac Simd Simd255 Fp25519Full Fp25519FullProofs FullMore
  Fp25519Red Fp25519RedProofs Fp25519RedMore Spec Ladder LadderProofs LadderVec SpecEd CurveInst EdInst Edwards255 EdVec.
Import ListNotations.
Open Scope Z_scope.
Notation l1 a := (length a = 10%nat).
Notation l2 a := (length a = 20%nat).
Notation l4 a := (length a = 40%nat).
Definition ptv (X Y Zc T : list Z) (Q : Z * Z) : Prop :=
  on255 Q /\ is_red X /\ is_red Y /\ is_red Zc /\ is_red T /\ reps255 (fe255 X) (fe255 Y) (fe255 Zc) (fe255 T) Q.
Definition pt_2w (p : point2) (Q : Z * Z) : Prop :=
  l2 (fst p) /\ l2 (snd p) /\ ptv (el2 false (fst p)) (el2 true (fst p)) (el2 true (snd p)) (el2 false (snd p)) Q.
Definition all4 (n : nat) (p : point4) : Prop := length (cX p) = n /\ length (cY p) = n /\ length (cZ p) = n /\ length (cT p) = n.
Definition pt_2way (p : point4) (h : bool) (Q : Z * Z) : Prop := ptv (el2 h (cX p)) (el2 h (cY p)) (el2 h (cZ p)) (el2 h (cT p)) Q.
Definition pt_4way (p : point4) (j : nat) (Q : Z * Z) : Prop := ptv (el4 j (cX p)) (el4 j (cY p)) (el4 j (cZ p)) (el4 j (cT p)) Q.

Lemma cgm x y : cg x y -> x mod p25 = y mod p25.
Proof. apply (mod_cong p25). discriminate. Qed.
Lemma cg_of x y : x mod p25 = y mod p25 -> cg x y.
Proof. intro H. unfold cg. change p25519 with p25. rewrite Zminus_mod, H, <- Zminus_mod, Z.sub_diag. reflexivity. Qed.
Lemma rr_fe0 b a : arr_ok b a -> rr b a (fe255 a). Proof. intro H. split; [exact H|apply cg_refl]. Qed.
Lemma rr_le b b' a x : bounds_le b b' = true -> rr b a x -> rr b' a x.
Proof. intros H [A E]. split; [exact (bounds_le_ok _ _ _ H A)|exact E]. Qed.
Lemma rr_cg b a x y : cg x y -> rr b a x -> rr b a y.
Proof. intros H [A E]. split; [exact A|exact (cg_trans _ _ _ E H)]. Qed.
Lemma rr_red_big a x : rr red255 a x -> rr big255 a x. Proof. apply rr_le. vm_compute. reflexivity. Qed.

Section Proofs.
Variable st : store.
Variable k : cpu.
Variable sky : bool.
Ltac cl := apply call_length.

(** ** Limb-wise combinations *)
Lemma rr_comb bx by' bz x y z vx vy vz : rr bx x vx -> rr by' y vy -> rr bz z vz ->
  pos_lo bx = true -> pos_lo by' = true -> pos_lo bz = true -> fits bx by' bz c35b = true -> bounds_le (outb bx c35b) big255 = true ->
  rr big255 (combs x y z c35) (vx - vy - vz).
Proof.
  intros [Ax Ex] [Ay Ey] [Az Ez] Px Py Pz Hf Hb.
  destruct (combs_ok wt255 _ _ _ _ _ _ _ _ Ax Ay Az c35_ok Px Py Pz Hf) as [E A]. split; [exact (bounds_le_ok _ _ _ Hb A)|].
  rewrite E. replace (vx - vy - vz) with (vx - vy - vz + 0) by ring.
  exact (cg_add _ _ _ _ (cg_sub _ _ _ _ (cg_sub _ _ _ _ Ex Ey) Ez) c35_cg).
Qed.
Lemma rr_zero : rr zb10 (repeat 0 10) 0.
Proof. split; [exact zeros10|]. reflexivity. Qed.
Ltac list20 H := do 20 (apply len_S in H as (? & ? & -> & H)); apply length_zero_iff_nil in H; subst.
Ltac el := cbv [pick seq map ixh vmap vmap2 vmap3 app dbl_EG dbl_HF add_EG add_HF VADD VSUB zip2 PERM64 PERM128 BLEND32 half128 v0000 combs repeat CONST_2_to_35P_2w c35
    nth Nat.mul Nat.add Nat.div Nat.modulo Nat.divmod fst snd Nat.pow Nat.testbit Nat.odd Nat.even negb firstn skipn Nat.sub Nat.div2];
  rewrite ?comb_sub2, ?comb_sub1.
Lemma el_dbl_EG XY TZ : l2 XY -> l2 TZ ->
  el2 false (vmap3 dbl_EG XY TZ CONST_2_to_35P_2w) = combs (el2 false TZ) (repeat 0 10) (repeat 0 10) c35 /\
  el2 true (vmap3 dbl_EG XY TZ CONST_2_to_35P_2w) = combs (el2 true XY) (el2 false XY) (repeat 0 10) c35.
Proof.
  intros H K. list20 H. list20 K. split.
  - el. rewrite !comb_add. reflexivity.
  - el. reflexivity.
Qed.
Lemma el_dbl_HF XY TZ : l2 XY -> l2 TZ ->
  el2 false (vmap3 dbl_HF XY TZ CONST_2_to_35P_2w) = combs (repeat 0 10) (el2 true XY) (el2 false XY) c35 /\
  el2 true (vmap3 dbl_HF XY TZ CONST_2_to_35P_2w) = combs (el2 true XY) (el2 false XY) (el2 true TZ) c35.
Proof. intros H K. list20 H. list20 K. split; el; reflexivity. Qed.
Lemma rr_sum bx bc x c vx vc : rr bx x vx -> rr bc c vc ->
  pos_lo bx = true -> fits bx zb10 zb10 bc = true -> bounds_le (outb bx bc) big255 = true ->
  rr big255 (combs x (repeat 0 10) (repeat 0 10) c) (vx + vc).
Proof.
  intros [Ax Ex] [Ac Ec] Px Hf Hb.
  destruct (combs_ok wt255 _ _ _ _ _ _ _ _ Ax zeros10 zeros10 Ac Px eq_refl eq_refl Hf) as [E A]. split; [exact (bounds_le_ok _ _ _ Hb A)|].
  rewrite E, !repeat0_ok, !Z.sub_0_r. exact (cg_add _ _ _ _ Ex Ec).
Qed.
Lemma el_add_EG AB CD : l2 AB -> l2 CD ->
  el2 false (vmap2 add_EG AB CD) = combs (el2 true AB) (repeat 0 10) (repeat 0 10) (el2 false AB) /\
  el2 true (vmap2 add_EG AB CD) = combs (el2 true CD) (repeat 0 10) (repeat 0 10) (el2 false CD).
Proof. intros H K. list20 H. list20 K. split; el; rewrite !comb_add; reflexivity. Qed.
Lemma el_add_HF AB CD : l2 AB -> l2 CD ->
  el2 false (vmap3 add_HF AB CD CONST_2_to_35P_2w) = combs (el2 true AB) (el2 false AB) (repeat 0 10) c35 /\
  el2 true (vmap3 add_HF AB CD CONST_2_to_35P_2w) = combs (el2 true CD) (el2 false CD) (repeat 0 10) c35.
Proof. intros H K. list20 H. list20 K. split; el; reflexivity. Qed.
Lemma el_EE h a : l2 a -> el2 h (vmap (PERM64 0xEE) a) = el2 true a.
Proof. intros H. list20 H. destruct h; reflexivity. Qed.
Lemma el_4E h a : l2 a -> el2 h (vmap (PERM64 0x4E) a) = el2 (negb h) a.
Proof. intros H. list20 H. destruct h; reflexivity. Qed.
Lemma vm3_len f a b c : l2 a -> l2 b -> l2 c -> (forall u v w, length u = 4%nat -> length v = 4%nat -> length w = 4%nat -> length (f u v w) = 4%nat) -> l2 (vmap3 f a b c).
Proof.
  intros H K L Hf. list20 H. list20 K. list20 L. cbn [vmap3]. rewrite !app_length, !Hf by reflexivity. reflexivity.
Qed.
Lemma vm2_len f a b : l2 a -> l2 b -> (forall u v, length u = 4%nat -> length v = 4%nat -> length (f u v) = 4%nat) -> l2 (vmap2 f a b).
Proof. intros H K Hf. list20 H. list20 K. cbn [vmap2]. rewrite !app_length, !Hf by reflexivity. reflexivity. Qed.
Lemma vm1_len f a : l2 a -> (forall u, length u = 4%nat -> length (f u) = 4%nat) -> l2 (vmap f a).
Proof. intros H Hf. list20 H. cbn [vmap]. rewrite !app_length, !Hf by reflexivity. reflexivity. Qed.
Ltac l4s := repeat match goal with H : length ?u = 4%nat |- _ => do 4 (apply len_S in H as (? & ? & -> & H)); apply length_zero_iff_nil in H; subst end; reflexivity.
Lemma dblEG_len u v w : length u = 4%nat -> length v = 4%nat -> length w = 4%nat -> length (dbl_EG u v w) = 4%nat. Proof. intros. l4s. Qed.
Lemma dblHF_len u v w : length u = 4%nat -> length v = 4%nat -> length w = 4%nat -> length (dbl_HF u v w) = 4%nat. Proof. intros. l4s. Qed.
Lemma addHF_len u v w : length u = 4%nat -> length v = 4%nat -> length w = 4%nat -> length (add_HF u v w) = 4%nat. Proof. intros. l4s. Qed.
Lemma addEG_len u v : length u = 4%nat -> length v = 4%nat -> length (add_EG u v) = 4%nat. Proof. intros. l4s. Qed.
Lemma perm_len' i u : length u = 4%nat -> length (PERM64 i u) = 4%nat. Proof. intros. reflexivity. Qed.

(** ** Contracts in terms of values *)
Lemma q_sqr a h x : l2 a -> rr red255 (el2 h a) x -> rr sq255 (el2 h (intsqr_2w st a)) (x * x).
Proof. intros L [A E]. destruct (intsqr_2w_tight st a h L A) as [C B]. split; [exact B|]. exact (cg_trans _ _ _ C (cg_mul _ _ _ _ E E)). Qed.
Lemma q_mul a b h x y : l2 a -> l2 b -> rr red255 (el2 h a) x -> rr red255 (el2 h b) y -> rr sq255 (el2 h (intmul_2w st a b)) (x * y).
Proof. intros L K [A E] [A' E']. destruct (intmul_2w_tight st a b h L K A A') as [C B]. split; [exact B|]. exact (cg_trans _ _ _ C (cg_mul _ _ _ _ E E')). Qed.
Lemma q_wmul a b h x y : l2 a -> l2 b -> rr wide255 (el2 h a) x -> rr wide255 (el2 h b) y -> rr big255 (el2 h (intmul_2w st a b)) (x * y).
Proof. intros L K [A E] [A' E']. destruct (intmul_2w_ok st a b h L K A A') as [C B]. split; [exact B|]. exact (cg_trans _ _ _ C (cg_mul _ _ _ _ E E')). Qed.
Lemma q_add a b h x y : l2 a -> l2 b -> rr sq255 (el2 h a) x -> rr sq255 (el2 h b) y -> rr sq2_255 (el2 h (add_2w st a b)) (x + y).
Proof. intros L K [A E] [A' E']. destruct (add_2w_sq st a b h L K A A') as [C B]. split; [exact B|]. exact (cg_trans _ _ _ C (cg_add _ _ _ _ E E')). Qed.
Lemma r_add a b h x y : l2 a -> l2 b -> rr red255 (el2 h a) x -> rr red255 (el2 h b) y -> rr wide255 (el2 h (add_2w st a b)) (x + y).
Proof. intros L K [A E] [A' E']. destruct (add_2w_ok st a b h L K A A') as [C B]. split; [exact B|]. exact (cg_trans _ _ _ C (cg_add _ _ _ _ E E')). Qed.
Lemma r_sub a b h x y : l2 a -> l2 b -> rr red255 (el2 h a) x -> rr red255 (el2 h b) y -> rr wide255 (el2 h (sub_2w st a b)) (x - y).
Proof. intros L K [A E] [A' E']. destruct (sub_2w_ok st a b h L K A A') as [C B]. split; [exact B|]. exact (cg_trans _ _ _ C (cg_sub _ _ _ _ E E')). Qed.
Lemma r_cf a h x : l2 a -> rr wide255 (el2 h a) x -> rr red255 (el2 h (compressfast_2w st a)) x.
Proof. intros L [A E]. destruct (compressfast_2w_red st a h L A) as [C B]. split; [exact B|]. exact (cg_trans _ _ _ C E). Qed.
Lemma r_cfbig a h x : l2 a -> rr big255 (el2 h a) x -> rr b43 (el2 h (compressfast_2w st a)) x.
Proof. intros L [A E]. destruct (compressfast_2w_big st a h L A) as [C B]. split; [exact B|]. exact (cg_trans _ _ _ C E). Qed.
Lemma r_c a h x : l2 a -> rr big255 (el2 h a) x -> rr red255 (el2 h (compress_2w st a)) x.
Proof. intros L [A E]. destruct (compress_2w_ok st a h L A) as [C B]. split; [exact B|]. exact (cg_trans _ _ _ C E). Qed.
Lemma r_c2 a b h x y : l2 a -> l2 b -> rr big255 (el2 h a) x -> rr big255 (el2 h b) y ->
  rr red255 (el2 h (fst (compress2_2w st a b))) x /\ rr red255 (el2 h (snd (compress2_2w st a b))) y.
Proof.
  intros L K [A E] [A' E']. destruct (compress2_2w_ok1 st a b h L K A A') as [C B]. destruct (compress2_2w_ok2 st a b h L K A A') as [C' B'].
  split; (split; [assumption|]); [exact (cg_trans _ _ _ C E)|exact (cg_trans _ _ _ C' E')].
Qed.
Lemma r_subadd perm a x y : l2 a -> rr red255 (el2 false a) x -> rr red255 (el2 true a) y ->
  rr wide255 (el2 false (subadd_2w st perm a)) (if perm then y - x else x - y) /\ rr wide255 (el2 true (subadd_2w st perm a)) (x + y).
Proof.
  intros L [A E] [A' E']. destruct (subadd_2w_ok st perm a L A A') as (C & C' & B & B').
  split; (split; [assumption|]).
  - destruct perm; [exact (cg_trans _ _ _ C (cg_sub _ _ _ _ E' E))|exact (cg_trans _ _ _ C (cg_sub _ _ _ _ E E'))].
  - exact (cg_trans _ _ _ C' (cg_add _ _ _ _ E E')).
Qed.
(** ** The two final products *)
Lemma final_ok HF EG e f g h : l2 HF -> l2 EG -> rr red255 (el2 false HF) h -> rr red255 (el2 true HF) f ->
  rr red255 (el2 false EG) e -> rr red255 (el2 true EG) g ->
  let r := final_2w st sky HF EG in
  l2 (fst r) /\ l2 (snd r) /\ rr red255 (el2 false (fst r)) (f * e) /\ rr red255 (el2 true (fst r)) (h * g) /\
  rr red255 (el2 false (snd r)) (h * e) /\ rr red255 (el2 true (snd r)) (f * g).
Proof.
  intros L K Hh Hf He Hg r. apply rr_wide in Hh, Hf, He, Hg.
  assert (exists XY TZ, r = compress2_2w st XY TZ /\ l2 XY /\ l2 TZ /\ rr big255 (el2 false XY) (f * e) /\ rr big255 (el2 true XY) (h * g) /\
    rr big255 (el2 false TZ) (h * e) /\ rr big255 (el2 true TZ) (f * g)) as (XY & TZ & E & LX & LT & HX & HY & HT & HZ).
  { unfold r, final_2w. destruct sky.
    - exists (snd (intmul2_2w st HF EG)), (fst (intmul2_2w st HF EG)). split; [reflexivity|]. split; [cl|]. split; [cl|].
      destruct Hh as [Ah Eh], Hf as [Af Ef], He as [Ae Ee], Hg as [Ag Eg].
      destruct (intmul2_2w_ok1 st HF EG false L K Ah Ae) as [C1 B1]. destruct (intmul2_2w_ok1 st HF EG true L K Af Ag) as [C2 B2].
      destruct (intmul2_2w_ok2 st HF EG false L K Ah Af Ae Ag) as (C3 & B3 & B4). destruct (intmul2_2w_ok2 st HF EG true L K Ah Af Ae Ag) as (C4 & _ & _).
      cbn [negb] in *.
      split; [split; [exact B3|exact (cg_trans _ _ _ C3 (cg_mul _ _ _ _ Ef Ee))]|].
      split; [split; [exact B4|exact (cg_trans _ _ _ C4 (cg_mul _ _ _ _ Eh Eg))]|].
      split; [split; [exact B1|exact (cg_trans _ _ _ C1 (cg_mul _ _ _ _ Eh Ee))]|].
      split; [exact B2|exact (cg_trans _ _ _ C2 (cg_mul _ _ _ _ Ef Eg))].
    - exists (intmul_2w st (vmap (PERM64 0x4E) HF) EG), (intmul_2w st HF EG). split; [reflexivity|]. split; [cl|]. split; [cl|].
      assert (Lp : l2 (vmap (PERM64 0x4E) HF)) by (apply vm1_len; [exact L|apply perm_len']).
      split; [apply q_wmul; [exact Lp|exact K|rewrite el_4E by exact L; exact Hf|exact He]|].
      split; [apply q_wmul; [exact Lp|exact K|rewrite el_4E by exact L; exact Hh|exact Hg]|].
      split; [apply q_wmul; assumption|apply q_wmul; assumption]. }
  rewrite E. split; [cl|]. split; [cl|].
  destruct (r_c2 _ _ false _ _ LX LT HX HT) as [R1 R2]. destruct (r_c2 _ _ true _ _ LX LT HY HZ) as [R3 R4]. now split.
Qed.

(** ** Doubling, one point *)
Lemma dbl_values XY TZ x y z t : l2 XY -> l2 TZ -> rr red255 (el2 false XY) x -> rr red255 (el2 true XY) y ->
  rr red255 (el2 false TZ) t -> rr red255 (el2 true TZ) z ->
  let r := doubling_2w st sky (XY, TZ) in
  let e := t * z + t * z in let g := y * y - x * x - 0 in let h := 0 - y * y - x * x in let f := y * y - x * x - (z * z + z * z) in
  l2 (fst r) /\ l2 (snd r) /\ rr red255 (el2 false (fst r)) (f * (e - 0 - 0)) /\ rr red255 (el2 true (fst r)) (h * g) /\
  rr red255 (el2 false (snd r)) (h * (e - 0 - 0)) /\ rr red255 (el2 true (snd r)) (f * g).
Proof.
  intros L K Hx Hy Ht Hz r e g h f. unfold r, doubling_2w.
  assert (LE : l2 (vmap (PERM64 0xEE) TZ)) by (apply vm1_len; [exact K|apply perm_len']).
  pose proof (el_EE false TZ K) as E0. pose proof (el_EE true TZ K) as E1. set (EE := vmap _ _) in *. clearbody EE.
  pose proof (q_sqr _ _ _ L Hx) as Ha. pose proof (q_sqr _ _ _ L Hy) as Hb.
  set (XY' := intsqr_2w st XY) in *. assert (L' : l2 XY') by cl. clearbody XY'.
  assert (Htz : rr sq255 (el2 false (intmul_2w st TZ EE)) (t * z)) by (apply q_mul; [exact K|exact LE|exact Ht|rewrite E0; exact Hz]).
  assert (Hzz : rr sq255 (el2 true (intmul_2w st TZ EE)) (z * z)) by (apply q_mul; [exact K|exact LE|exact Hz|rewrite E1; exact Hz]).
  set (TZ' := intmul_2w st TZ EE) in *. assert (K' : l2 TZ') by cl. clearbody TZ'.
  pose proof (q_add _ _ _ _ _ K' K' Htz Htz) as He. pose proof (q_add _ _ _ _ _ K' K' Hzz Hzz) as Hc.
  set (TZ2 := add_2w st TZ' TZ') in *. assert (K2 : l2 TZ2) by cl. clearbody TZ2. fold e in He.
  destruct (el_dbl_EG _ _ L' K2) as [EG0 EG1]. destruct (el_dbl_HF _ _ L' K2) as [HF0 HF1].
  assert (LEG : l2 (vmap3 dbl_EG XY' TZ2 CONST_2_to_35P_2w)) by (apply vm3_len; [exact L'|exact K2|reflexivity|apply dblEG_len]).
  assert (LHF : l2 (vmap3 dbl_HF XY' TZ2 CONST_2_to_35P_2w)) by (apply vm3_len; [exact L'|exact K2|reflexivity|apply dblHF_len]).
  set (EG := vmap3 dbl_EG _ _ _) in *. set (HF := vmap3 dbl_HF _ _ _) in *. clearbody EG HF.
  assert (RE : rr big255 (el2 false EG) (e - 0 - 0)) by (rewrite EG0; eapply rr_comb; [exact He|exact rr_zero|exact rr_zero|reflexivity..]).
  assert (RG : rr big255 (el2 true EG) g) by (rewrite EG1; eapply rr_comb; [exact Hb|exact Ha|exact rr_zero|reflexivity..]).
  assert (RH : rr big255 (el2 false HF) h) by (rewrite HF0; eapply rr_comb; [exact rr_zero|exact Hb|exact Ha|reflexivity..]).
  assert (RF : rr big255 (el2 true HF) f) by (rewrite HF1; eapply rr_comb; [exact Hb|exact Ha|exact Hc|reflexivity..]).
  destruct (r_c2 _ _ false _ _ LHF LEG RH RE) as [CH CE]. destruct (r_c2 _ _ true _ _ LHF LEG RF RG) as [CF CG].
  assert (L1 : l2 (fst (compress2_2w st HF EG))) by cl. assert (L2 : l2 (snd (compress2_2w st HF EG))) by cl.
  destruct (compress2_2w st HF EG) as [HF2 EG2]. cbn [fst snd] in *.
  exact (final_ok HF2 EG2 _ _ _ _ L1 L2 CH CF CE CG).
Qed.
Theorem doubling_2w_ok p Q : pt_2w p Q -> pt_2w (doubling_2w st sky p) (add255 Q Q).
Proof.
  intros (L & K & On & Rx & Ry & Rz & Rt & Rep). destruct p as [XY TZ]. cbn [fst snd] in *.
  destruct (dbl_values XY TZ _ _ _ _ L K (rr_fe0 _ _ Rx) (rr_fe0 _ _ Ry) (rr_fe0 _ _ Rt) (rr_fe0 _ _ Rz)) as (L' & K' & [Bx Ex] & [By Ey] & [Bt Et] & [Bz Ez]).
  set (r := doubling_2w st sky (XY, TZ)) in *. clearbody r.
  split; [exact L'|]. split; [exact K'|]. split; [apply add255_on; exact On|]. split; [exact Bx|]. split; [exact By|]. split; [exact Bz|]. split; [exact Bt|].
  apply cgm in Ex, Ey, Ez, Et.
  assert (Etz : (fe255 (el2 false TZ) * fe255 (el2 true TZ)) mod p25 = (fe255 (el2 false XY) * fe255 (el2 true XY)) mod p25).
  { destruct Q as [qx qy]. destruct Rep as (_ & R1 & R2 & R3). change p_ed255 with p25 in *. set (w := fe255 (el2 true TZ)) in *.
    rewrite (Zmult_mod (fe255 (el2 false XY))), R1, R2, <- Zmult_mod. rewrite (Zmult_mod (fe255 (el2 false TZ))), R3, <- Zmult_mod_idemp_r, <- !Zmult_mod.
    rewrite Zmult_mod_idemp_r. f_equal. ring. }
  set (x := fe255 (el2 false XY)) in *. set (y := fe255 (el2 true XY)) in *. set (z := fe255 (el2 true TZ)) in *. set (t := fe255 (el2 false TZ)) in *.
  apply (reps255_dbl 1 (-1) x y z t Q (t * z + t * z - 0 - 0) (y * y - x * x - (z * z + z * z)) (y * y - x * x - 0) (0 - y * y - x * x)); [exact On|exact Rep|..].
  - discriminate.
  - discriminate.
  - replace (t * z + t * z - 0 - 0) with (2 * (t * z)) by ring. rewrite Zmult_mod, Etz, <- Zmult_mod. f_equal. ring.
  - f_equal. ring.
  - f_equal. ring.
  - f_equal. ring.
  - rewrite Ex. f_equal. ring.
  - rewrite Ey. f_equal. ring.
  - rewrite Ez. f_equal.
  - rewrite Et. f_equal. ring.
Qed.

(** ** Addition, one point *)
Lemma const_2d_02 : rr red255 (el2 false param_curve_2d_02) (2 * d25) /\ rr red255 (el2 true param_curve_2d_02) 2 /\ l2 param_curve_2d_02.
Proof. split; [|split; [|reflexivity]]; (split; [apply arr_lit|]; vm_compute; reflexivity). Qed.
Lemma rr_sq_big a x : rr sq255 a x -> rr big255 a x. Proof. apply rr_le. vm_compute. reflexivity. Qed.
Lemma fulladd_values XY1 TZ1 XY2 TZ2 x1 y1 z1 t1 x2 y2 z2 t2 : l2 XY1 -> l2 TZ1 -> l2 XY2 -> l2 TZ2 ->
  rr red255 (el2 false XY1) x1 -> rr red255 (el2 true XY1) y1 -> rr red255 (el2 false TZ1) t1 -> rr red255 (el2 true TZ1) z1 ->
  rr red255 (el2 false XY2) x2 -> rr red255 (el2 true XY2) y2 -> rr red255 (el2 false TZ2) t2 -> rr red255 (el2 true TZ2) z2 ->
  let r := fulladd_2w st sky (XY1, TZ1) (XY2, TZ2) in
  let a := (x1 - y1) * (y2 - x2) in let b := (x1 + y1) * (x2 + y2) in let c := t1 * t2 * (2 * d25) in let d := z1 * z2 * 2 in
  let e := b + a in let g := d + c in let h := b - a - 0 in let f := d - c - 0 in
  l2 (fst r) /\ l2 (snd r) /\ rr red255 (el2 false (fst r)) (f * e) /\ rr red255 (el2 true (fst r)) (h * g) /\
  rr red255 (el2 false (snd r)) (h * e) /\ rr red255 (el2 true (snd r)) (f * g).
Proof.
  intros L1 K1 L2 K2 X1 Y1 T1 Z1 X2 Y2 T2 Z2 r a b c d e g h f. unfold r, fulladd_2w.
  destruct (r_subadd false XY1 _ _ L1 X1 Y1) as [S1 A1]. destruct (r_subadd true XY2 _ _ L2 X2 Y2) as [S2 A2].
  set (sa1 := subadd_2w st false XY1) in *. assert (M1 : l2 sa1) by cl. clearbody sa1.
  set (sa2 := subadd_2w st true XY2) in *. assert (M2 : l2 sa2) by cl. clearbody sa2.
  pose proof (q_wmul _ _ _ _ _ M1 M2 S1 S2) as RA. pose proof (q_wmul _ _ _ _ _ M1 M2 A1 A2) as RB. fold a in RA. fold b in RB.
  set (AB := intmul_2w st sa1 sa2) in *. assert (LA : l2 AB) by cl. clearbody AB.
  pose proof (rr_sq_big _ _ (q_mul _ _ _ _ _ K1 K2 T1 T2)) as RC. pose proof (rr_sq_big _ _ (q_mul _ _ _ _ _ K1 K2 Z1 Z2)) as RD.
  set (CD := intmul_2w st TZ1 TZ2) in *. assert (LC : l2 CD) by cl. clearbody CD.
  pose proof (r_c _ _ _ LC RC) as RC1. pose proof (r_c _ _ _ LC RD) as RD1.
  set (CD1 := compress_2w st CD) in *. assert (LC1 : l2 CD1) by cl. clearbody CD1.
  destruct const_2d_02 as (P1 & P2 & LP). pose proof (q_mul _ _ _ _ _ LC1 LP RC1 P1) as RC2. pose proof (q_mul _ _ _ _ _ LC1 LP RD1 P2) as RD2.
  fold c in RC2. fold d in RD2.
  set (CD2 := intmul_2w st CD1 param_curve_2d_02) in *. assert (LC2 : l2 CD2) by cl. clearbody CD2.
  pose proof (r_cfbig _ _ _ LA RA) as RA1. pose proof (r_cfbig _ _ _ LA RB) as RB1.
  set (AB1 := compressfast_2w st AB) in *. assert (LA1 : l2 AB1) by cl. clearbody AB1.
  destruct (el_add_EG _ _ LA1 LC2) as [EG0 EG1]. destruct (el_add_HF _ _ LA1 LC2) as [HF0 HF1].
  assert (LEG : l2 (vmap2 add_EG AB1 CD2)) by (apply vm2_len; [exact LA1|exact LC2|apply addEG_len]).
  assert (LHF : l2 (vmap3 add_HF AB1 CD2 CONST_2_to_35P_2w)) by (apply vm3_len; [exact LA1|exact LC2|reflexivity|apply addHF_len]).
  set (EG := vmap2 add_EG _ _) in *. set (HF := vmap3 add_HF _ _ _) in *. clearbody EG HF.
  assert (RE : rr big255 (el2 false EG) e) by (rewrite EG0; eapply rr_sum; [exact RB1|exact RA1|reflexivity..]).
  assert (RG : rr big255 (el2 true EG) g) by (rewrite EG1; eapply rr_sum; [exact RD2|exact RC2|reflexivity..]).
  assert (RH : rr big255 (el2 false HF) h) by (rewrite HF0; eapply rr_comb; [exact RB1|exact RA1|exact rr_zero|reflexivity..]).
  assert (RF : rr big255 (el2 true HF) f) by (rewrite HF1; eapply rr_comb; [exact RD2|exact RC2|exact rr_zero|reflexivity..]).
  destruct (r_c2 _ _ false _ _ LEG LHF RE RH) as [CE CH]. destruct (r_c2 _ _ true _ _ LEG LHF RG RF) as [CG CF].
  assert (F1 : l2 (fst (compress2_2w st EG HF))) by cl. assert (F2 : l2 (snd (compress2_2w st EG HF))) by cl.
  destruct (compress2_2w st EG HF) as [EG2 HF2]. cbn [fst snd] in *.
  exact (final_ok HF2 EG2 _ _ _ _ F2 F1 CH CF CE CG).
Qed.
Theorem fulladd_2w_ok p q P Q : pt_2w p P -> pt_2w q Q -> pt_2w (fulladd_2w st sky p q) (add255 P Q).
Proof.
  intros (L1 & K1 & On1 & X1 & Y1 & Z1 & T1 & Rep1) (L2 & K2 & On2 & X2 & Y2 & Z2 & T2 & Rep2).
  destruct p as [XY1 TZ1]. destruct q as [XY2 TZ2]. cbn [fst snd] in *.
  destruct (fulladd_values XY1 TZ1 XY2 TZ2 _ _ _ _ _ _ _ _ L1 K1 L2 K2 (rr_fe0 _ _ X1) (rr_fe0 _ _ Y1) (rr_fe0 _ _ T1) (rr_fe0 _ _ Z1)
    (rr_fe0 _ _ X2) (rr_fe0 _ _ Y2) (rr_fe0 _ _ T2) (rr_fe0 _ _ Z2)) as (L' & K' & [Bx Ex] & [By Ey] & [Bt Et] & [Bz Ez]).
  set (r := fulladd_2w st sky (XY1, TZ1) (XY2, TZ2)) in *. clearbody r.
  split; [exact L'|]. split; [exact K'|]. split; [apply add255_on; assumption|]. split; [exact Bx|]. split; [exact By|]. split; [exact Bz|]. split; [exact Bt|].
  apply cgm in Ex, Ey, Ez, Et.
  set (x1 := fe255 (el2 false XY1)) in *. set (y1 := fe255 (el2 true XY1)) in *. set (z1 := fe255 (el2 true TZ1)) in *. set (t1 := fe255 (el2 false TZ1)) in *.
  set (x2 := fe255 (el2 false XY2)) in *. set (y2 := fe255 (el2 true XY2)) in *. set (z2 := fe255 (el2 true TZ2)) in *. set (t2 := fe255 (el2 false TZ2)) in *.
  apply (reps255_add 2 2 x1 y1 z1 t1 P x2 y2 z2 t2 Q ((x1 + y1) * (x2 + y2) + (x1 - y1) * (y2 - x2)) (z1 * z2 * 2 - t1 * t2 * (2 * d25) - 0)
    (z1 * z2 * 2 + t1 * t2 * (2 * d25)) ((x1 + y1) * (x2 + y2) - (x1 - y1) * (y2 - x2) - 0)); try assumption.
  - discriminate.
  - discriminate.
  - f_equal. ring.
  - f_equal. ring.
  - f_equal. ring.
  - f_equal. ring.
  - rewrite Ex. f_equal. ring.
  - rewrite Ey. f_equal. ring.
  - rewrite Et. f_equal. ring.
Qed.

(** ** Addition of two pairs of points *)
Lemma const_2d h : rr red255 (el2 h param_2d_H0H5) (2 * d25) /\ l2 param_2d_H0H5.
Proof. split; [|reflexivity]. destruct h; (split; [apply arr_lit|]; vm_compute; reflexivity). Qed.
Lemma fulladd_2way_ok p q P Q h : all4 20 p -> all4 20 q -> pt_2way p h P -> pt_2way q h Q ->
  all4 20 (fulladd_2way st p q) /\ pt_2way (fulladd_2way st p q) h (add255 P Q).
Proof.
  intros (LX1 & LY1 & LZ1 & LT1) (LX2 & LY2 & LZ2 & LT2) (On1 & X1 & Y1 & Z1 & T1 & Rep1) (On2 & X2 & Y2 & Z2 & T2 & Rep2).
  apply rr_fe0 in X1, Y1, Z1, T1, X2, Y2, Z2, T2.
  set (x1 := fe255 (el2 h (cX p))) in *. set (y1 := fe255 (el2 h (cY p))) in *. set (z1 := fe255 (el2 h (cZ p))) in *. set (t1 := fe255 (el2 h (cT p))) in *.
  set (x2 := fe255 (el2 h (cX q))) in *. set (y2 := fe255 (el2 h (cY q))) in *. set (z2 := fe255 (el2 h (cZ q))) in *. set (t2 := fe255 (el2 h (cT q))) in *.
  unfold fulladd_2way.
  pose proof (r_add _ _ _ _ _ LZ1 LZ1 Z1 Z1) as RZ. set (zz := add_2w st (cZ p) (cZ p)) in *. assert (Lzz : l2 zz) by cl. clearbody zz.
  destruct (rr_addsub st _ _ _ _ _ LY1 LX1 Y1 X1) as [RA1 RS1]. assert (La1 : l2 (fst (addsub_2w st (cY p) (cX p)))) by cl. assert (Ls1 : l2 (snd (addsub_2w st (cY p) (cX p)))) by cl.
  destruct (addsub_2w st (cY p) (cX p)) as [ya1 xs1]. cbn [fst snd] in *.
  destruct (rr_addsub st _ _ _ _ _ LY2 LX2 Y2 X2) as [RA2 RS2]. assert (La2 : l2 (fst (addsub_2w st (cY q) (cX q)))) by cl. assert (Ls2 : l2 (snd (addsub_2w st (cY q) (cX q)))) by cl.
  destruct (addsub_2w st (cY q) (cX q)) as [ya2 xs2]. cbn [fst snd] in *.
  apply (r_cf _ _ _ La2) in RA2. apply (r_cf _ _ _ Ls2) in RS2.
  set (ya2' := compressfast_2w st ya2) in *. set (xs2' := compressfast_2w st xs2) in *. assert (La2' : l2 ya2') by cl. assert (Ls2' : l2 xs2') by cl. clearbody ya2' xs2'.
  apply rr_wide in RA2, RS2.
  pose proof (rr_mul st _ _ _ _ _ Ls1 Ls2' RS1 RS2) as RA. set (A := compress_2w st (intmul_2w st xs1 xs2')) in *. assert (LA : l2 A) by cl. clearbody A.
  pose proof (rr_mul st _ _ _ _ _ La1 La2' RA1 RA2) as RB. set (B := compress_2w st (intmul_2w st ya1 ya2')) in *. assert (LB : l2 B) by cl. clearbody B.
  pose proof (rr_mul st _ _ _ _ _ LT1 LT2 (rr_wide _ _ T1) (rr_wide _ _ T2)) as RC0. set (C0 := compress_2w st (intmul_2w st (cT p) (cT q))) in *. assert (LC0 : l2 C0) by cl. clearbody C0.
  destruct (const_2d h) as [Pd Lpd].
  pose proof (rr_mul st _ _ _ _ _ LC0 Lpd (rr_wide _ _ RC0) (rr_wide _ _ Pd)) as RC. set (C := compress_2w st (intmul_2w st C0 param_2d_H0H5)) in *. assert (LC : l2 C) by cl. clearbody C.
  pose proof (rr_mul st _ _ _ _ _ Lzz LZ2 RZ (rr_wide _ _ Z2)) as RD. set (D := compress_2w st (intmul_2w st zz (cZ q))) in *. assert (LD : l2 D) by cl. clearbody D.
  destruct (rr_addsub st _ _ _ _ _ LB LA RB RA) as [RH RE]. assert (Lh : l2 (fst (addsub_2w st B A))) by cl. assert (Le : l2 (snd (addsub_2w st B A))) by cl.
  destruct (addsub_2w st B A) as [hh ee]. cbn [fst snd] in *.
  destruct (rr_addsub st _ _ _ _ _ LD LC RD RC) as [RG RF]. assert (Lg : l2 (fst (addsub_2w st D C))) by cl. assert (Lf : l2 (snd (addsub_2w st D C))) by cl.
  destruct (addsub_2w st D C) as [gg ff]. cbn [fst snd] in *.
  apply (r_cf _ _ _ Lh) in RH. apply (r_cf _ _ _ Lf) in RF. apply rr_wide in RH, RF.
  set (hh' := compressfast_2w st hh) in *. set (ff' := compressfast_2w st ff) in *. assert (Lh' : l2 hh') by cl. assert (Lf' : l2 ff') by cl. clearbody hh' ff'.
  split; [split; [|split; [|split]]; cl|].
  destruct (rr_mul st _ _ _ _ _ Le Lf' RE RF) as [Bx Ex]. destruct (rr_mul st _ _ _ _ _ Le Lh' RE RH) as [Bt Et].
  destruct (rr_mul st _ _ _ _ _ Lg Lf' RG RF) as [Bz Ez]. destruct (rr_mul st _ _ _ _ _ Lg Lh' RG RH) as [By Ey].
  split; [apply add255_on; assumption|]. cbn [cX cY cZ cT]. split; [exact Bx|]. split; [exact By|]. split; [exact Bz|]. split; [exact Bt|].
  apply cgm in Ex, Ey, Ez, Et.
  eapply (reps255_add 2 2 x1 y1 z1 t1 P x2 y2 z2 t2 Q); [exact On1|exact On2|exact Rep1|exact Rep2|discriminate|discriminate| | | | |exact Ex|exact Ey| |exact Et].
  - f_equal. ring.
  - f_equal. ring.
  - f_equal. ring.
  - f_equal. ring.
  - rewrite Ez. f_equal. ring.
Qed.

(** ** Mixed addition of four points *)
Definition pre_4way (p : precmp) (j : nat) (Q : Z * Z) : Prop :=
  on255 Q /\ rr canon255 (el4 j (addYX p)) (snd Q + fst Q) /\ rr canon255 (el4 j (subYX p)) (snd Q - fst Q) /\
  rr twoc255 (el4 j (dYX p)) (2 * d25 * fst Q * snd Q).
Definition all3 (p : precmp) : Prop := l4 (addYX p) /\ l4 (subYX p) /\ l4 (dYX p).
Section Four.
Variable j : nat.
Hypothesis Hj : (j < 4)%nat.
Lemma s_c2 a b x y : l4 a -> l4 b -> rr big255 (el4 j a) x -> rr big255 (el4 j b) y ->
  rr red255 (el4 j (fst (compress2_4w st a b))) x /\ rr red255 (el4 j (snd (compress2_4w st a b))) y.
Proof.
  intros L K [A E] [A' E']. destruct (compress2_4w_ok1 st j Hj a b L K A A') as [C B]. destruct (compress2_4w_ok2 st j Hj a b L K A A') as [C' B'].
  split; (split; [assumption|]); [exact (cg_trans _ _ _ C E)|exact (cg_trans _ _ _ C' E')].
Qed.
Lemma s_mul a b x y : l4 a -> l4 b -> rr wide255 (el4 j a) x -> rr wide255 (el4 j b) y -> rr big255 (el4 j (intmul_4w st a b)) (x * y).
Proof. intros L K [A E] [A' E']. destruct (intmul_4w_ok st j Hj a b L K A A') as [C B]. split; [exact B|]. exact (cg_trans _ _ _ C (cg_mul _ _ _ _ E E')). Qed.
Lemma s_lar a b x y : l4 a -> l4 b -> rr mid255 (el4 j a) x -> rr canon255 (el4 j b) y -> rr lar255 (el4 j (intmul_4w st a b)) (x * y).
Proof. intros L K [A E] [A' E']. destruct (intmul_4w_lar st j Hj a b L K A A') as [C B]. split; [exact B|]. exact (cg_trans _ _ _ C (cg_mul _ _ _ _ E E')). Qed.
Lemma s_add a b x y : l4 a -> l4 b -> rr red255 (el4 j a) x -> rr red255 (el4 j b) y -> rr wide255 (el4 j (add_4w st a b)) (x + y).
Proof. intros L K [A E] [A' E']. destruct (add_4w_ok st j Hj a b L K A A') as [C B]. split; [exact B|]. exact (cg_trans _ _ _ C (cg_add _ _ _ _ E E')). Qed.
Lemma s_addsub a b x y : l4 a -> l4 b -> rr red255 (el4 j a) x -> rr red255 (el4 j b) y ->
  rr mid255 (el4 j (fst (addsub_4w st a b))) (x + y) /\ rr mid255 (el4 j (snd (addsub_4w st a b))) (x - y).
Proof.
  intros L K [A E] [A' E']. destruct (addsub_4w_mid1 st j Hj a b L K A A') as [C B]. destruct (addsub_4w_mid2 st j Hj a b L K A A') as [C' B'].
  split; (split; [assumption|]); [exact (cg_trans _ _ _ C (cg_add _ _ _ _ E E'))|exact (cg_trans _ _ _ C' (cg_sub _ _ _ _ E E'))].
Qed.
Lemma s_addsublar a b x y : l4 a -> l4 b -> rr lar255 (el4 j a) x -> rr lar255 (el4 j b) y ->
  rr big255 (el4 j (fst (addsublar_4w st a b))) (x + y) /\ rr big255 (el4 j (snd (addsublar_4w st a b))) (x - y).
Proof.
  intros L K [A E] [A' E']. destruct (addsublar_4w_ok1 st j Hj a b L K A A') as [C B]. destruct (addsublar_4w_ok2 st j Hj a b L K A A') as [C' B'].
  split; (split; [assumption|]); [exact (cg_trans _ _ _ C (cg_add _ _ _ _ E E'))|exact (cg_trans _ _ _ C' (cg_sub _ _ _ _ E E'))].
Qed.
Lemma mixadd_4way_ok p q P Q : all4 40 p -> all3 q -> pt_4way p j P -> pre_4way q j Q ->
  all4 40 (mixadd_4way st p q) /\ pt_4way (mixadd_4way st p q) j (add255 P Q).
Proof.
  intros (LX1 & LY1 & LZ1 & LT1) (La2 & Ls2 & Ld2) (On1 & X1 & Y1 & Z1 & T1 & Rep1) (On2 & RA2 & RS2 & RD2).
  apply rr_fe0 in X1, Y1, Z1, T1.
  set (x1 := fe255 (el4 j (cX p))) in *. set (y1 := fe255 (el4 j (cY p))) in *. set (z1 := fe255 (el4 j (cZ p))) in *. set (t1 := fe255 (el4 j (cT p))) in *.
  pose proof (reps255_intro Q) as Rep2. set (x2 := fst Q) in *. set (y2 := snd Q) in *.
  unfold mixadd_4way.
  destruct (s_addsub _ _ _ _ LY1 LX1 Y1 X1) as [RA1 RS1]. assert (La1 : l4 (fst (addsub_4w st (cY p) (cX p)))) by cl. assert (Ls1 : l4 (snd (addsub_4w st (cY p) (cX p)))) by cl.
  destruct (addsub_4w st (cY p) (cX p)) as [ya1 xs1]. cbn [fst snd] in *.
  pose proof (s_lar _ _ _ _ Ls1 Ls2 RS1 RS2) as RA. set (A := intmul_4w st xs1 (subYX q)) in *. assert (LA : l4 A) by cl. clearbody A.
  pose proof (s_lar _ _ _ _ La1 La2 RA1 RA2) as RB. set (B := intmul_4w st ya1 (addYX q)) in *. assert (LB : l4 B) by cl. clearbody B.
  assert (RD2' : rr wide255 (el4 j (dYX q)) (2 * d25 * x2 * y2)) by (refine (rr_le _ _ _ _ _ RD2); vm_compute; reflexivity).
  pose proof (s_mul _ _ _ _ Ld2 LT1 RD2' (rr_wide _ _ T1)) as RC. set (C := intmul_4w st (dYX q) (cT p)) in *. assert (LC : l4 C) by cl. clearbody C.
  pose proof (s_add _ _ _ _ LZ1 LZ1 Z1 Z1) as RD. set (D := add_4w st (cZ p) (cZ p)) in *. assert (LD : l4 D) by cl. clearbody D.
  assert (RD' : rr big255 (el4 j D) (z1 + z1)) by (refine (rr_le _ _ _ _ _ RD); vm_compute; reflexivity).
  destruct (s_c2 _ _ _ _ LC LD RC RD') as [RC1 RD1]. assert (LC1 : l4 (fst (compress2_4w st C D))) by cl. assert (LD1 : l4 (snd (compress2_4w st C D))) by cl.
  destruct (compress2_4w st C D) as [C1 D1]. cbn [fst snd] in *.
  destruct (s_addsublar _ _ _ _ LB LA RB RA) as [RH RE]. assert (Lh : l4 (fst (addsublar_4w st B A))) by cl. assert (Le : l4 (snd (addsublar_4w st B A))) by cl.
  destruct (addsublar_4w st B A) as [hh ee]. cbn [fst snd] in *.
  apply (rr_le red255 lar255) in RC1; [|vm_compute; reflexivity]. apply (rr_le red255 lar255) in RD1; [|vm_compute; reflexivity].
  destruct (s_addsublar _ _ _ _ LD1 LC1 RD1 RC1) as [RG RF]. assert (Lg : l4 (fst (addsublar_4w st D1 C1))) by cl. assert (Lf : l4 (snd (addsublar_4w st D1 C1))) by cl.
  destruct (addsublar_4w st D1 C1) as [gg ff]. cbn [fst snd] in *.
  destruct (s_c2 _ _ _ _ Lh Le RH RE) as [RH1 RE1]. assert (Lh1 : l4 (fst (compress2_4w st hh ee))) by cl. assert (Le1 : l4 (snd (compress2_4w st hh ee))) by cl.
  destruct (compress2_4w st hh ee) as [h1 e1]. cbn [fst snd] in *.
  destruct (s_c2 _ _ _ _ Lg Lf RG RF) as [RG1 RF1]. assert (Lg1 : l4 (fst (compress2_4w st gg ff))) by cl. assert (Lf1 : l4 (snd (compress2_4w st gg ff))) by cl.
  destruct (compress2_4w st gg ff) as [g1 f1]. cbn [fst snd] in *.
  apply rr_wide in RH1, RE1, RG1, RF1.
  pose proof (s_mul _ _ _ _ Le1 Lf1 RE1 RF1) as RX. pose proof (s_mul _ _ _ _ Le1 Lh1 RE1 RH1) as RT.
  pose proof (s_mul _ _ _ _ Lg1 Lf1 RG1 RF1) as RZ. pose proof (s_mul _ _ _ _ Lg1 Lh1 RG1 RH1) as RY.
  set (XX := intmul_4w st e1 f1) in *. set (TT := intmul_4w st e1 h1) in *. set (ZZ := intmul_4w st g1 f1) in *. set (YY := intmul_4w st g1 h1) in *.
  assert (LXX : l4 XX) by cl. assert (LTT : l4 TT) by cl. assert (LZZ : l4 ZZ) by cl. assert (LYY : l4 YY) by cl. clearbody XX TT ZZ YY.
  destruct (s_c2 _ _ _ _ LXX LTT RX RT) as [[Bx Ex] [Bt Et]]. assert (KX : l4 (fst (compress2_4w st XX TT))) by cl. assert (KT : l4 (snd (compress2_4w st XX TT))) by cl.
  destruct (s_c2 _ _ _ _ LYY LZZ RY RZ) as [[By Ey] [Bz Ez]]. assert (KY : l4 (fst (compress2_4w st YY ZZ))) by cl. assert (KZ : l4 (snd (compress2_4w st YY ZZ))) by cl.
  destruct (compress2_4w st XX TT) as [X3 T3]. destruct (compress2_4w st YY ZZ) as [Y3 Z3]. cbn [fst snd] in *.
  split; [split; [exact KX|split; [exact KY|split; [exact KZ|exact KT]]]|].
  split; [apply add255_on; assumption|]. cbn [cX cY cZ cT]. split; [exact Bx|]. split; [exact By|]. split; [exact Bz|]. split; [exact Bt|].
  apply cgm in Ex, Ey, Ez, Et.
  eapply (reps255_add 2 2 x1 y1 z1 t1 P x2 y2 1 (x2 * y2) Q); [exact On1|exact On2|exact Rep1|exact Rep2|discriminate|discriminate| | | | |exact Ex|exact Ey| |exact Et].
  - f_equal. ring.
  - f_equal. ring.
  - f_equal. ring.
  - f_equal. ring.
  - rewrite Ez. f_equal. ring.
Qed.
End Four.

(** ** One point, full radix *)
Definition pt_full (p : point4) (Q : Z * Z) : Prop :=
  on255 Q /\ words 4 (cX p) /\ words 4 (cY p) /\ words 4 (cZ p) /\ words 4 (cT p) /\ reps255 (val (cX p)) (val (cY p)) (val (cZ p)) (val (cT p)) Q.
Lemma rep4_val a : words 4 a -> rep4 a (val a). Proof. intro H. now split. Qed.
Lemma rep4_neg a x : rep4 a x -> rep4 (neg st a) (0 - x).
Proof.
  intros [A E]. destruct (neg_ok st a A) as [B F]. split; [exact B|]. apply (mod_cong p25519 _ _ ltac:(discriminate)) in F. rewrite F.
  rewrite <- (Z.sub_0_l (val a)), Zminus_mod, E, <- Zminus_mod. reflexivity.
Qed.
Theorem doubling_1w_full_ok p P : pt_full p P -> pt_full (doubling_1w_full st k p) (add255 P P).
Proof.
  intros (On1 & WX & WY & WZ & WT & Rep). unfold doubling_1w_full, copy.
  apply rep4_val in WX, WY, WZ, WT. set (x := val (cX p)) in *. set (y := val (cY p)) in *. set (z := val (cZ p)) in *. set (t := val (cT p)) in *.
  pose proof (rep4_sqr st k _ _ WX) as RA. set (A := sqr st k (cX p)) in *. clearbody A.
  pose proof (rep4_sqr st k _ _ WY) as RB. set (B := sqr st k (cY p)) in *. clearbody B.
  pose proof (rep4_sqr st k _ _ WZ) as RC. set (C := sqr st k (cZ p)) in *. clearbody C.
  pose proof (rep4_add st k _ _ _ _ RC RC) as RC1. set (C1 := add st k C C) in *. clearbody C1.
  pose proof (rep4_sqr st k _ _ (rep4_add st k _ _ _ _ WX WY)) as RE0. set (E0 := sqr st k (add st k (cX p) (cY p))) in *. clearbody E0.
  pose proof (rep4_sub st _ _ _ _ (rep4_sub st _ _ _ _ RE0 RA) RB) as RE. set (E := sub st (sub st E0 A) B) in *. clearbody E.
  pose proof (rep4_sub st _ _ _ _ RB RA) as RG. set (G := sub st B A) in *. clearbody G.
  pose proof (rep4_sub st _ _ _ _ RG RC1) as RF. set (F := sub st G C1) in *. clearbody F.
  pose proof (rep4_neg _ _ (rep4_add st k _ _ _ _ RA RB)) as RH. set (H := neg st (add st k A B)) in *. clearbody H.
  destruct (rep4_mul st k _ _ _ _ RE RF) as [KX EX]. destruct (rep4_mul st k _ _ _ _ RG RH) as [KY EY].
  destruct (rep4_mul st k _ _ _ _ RF RG) as [KZ EZ]. destruct (rep4_mul st k _ _ _ _ RE RH) as [KT ET].
  split; [apply add255_on; exact On1|]. cbn [cX cY cZ cT]. split; [exact KX|]. split; [exact KY|]. split; [exact KZ|]. split; [exact KT|].
  eapply (reps255_dbl 1 (-1) x y z t P); [exact On1|exact Rep|discriminate|discriminate| | | | |exact EX|exact EY|exact EZ|exact ET].
  - f_equal. ring.
  - f_equal. ring.
  - f_equal. ring.
  - f_equal. ring.
Qed.
Lemma const_2d_full : rep4 param_2d_full (2 * d25).
Proof. split; [split; [reflexivity|unfold param_2d_full; repeat apply Forall_cons; try apply Forall_nil; unfold word, W; lia]|vm_compute; reflexivity]. Qed.
Theorem fulladd_1w_full_ok p q P Q : pt_full p P -> pt_full q Q -> pt_full (fulladd_1w_full st k p q) (add255 P Q).
Proof.
  intros (On1 & WX1 & WY1 & WZ1 & WT1 & Rep1) (On2 & WX2 & WY2 & WZ2 & WT2 & Rep2). unfold fulladd_1w_full.
  apply rep4_val in WX1, WY1, WZ1, WT1, WX2, WY2, WZ2, WT2.
  set (x1 := val (cX p)) in *. set (y1 := val (cY p)) in *. set (z1 := val (cZ p)) in *. set (t1 := val (cT p)) in *.
  set (x2 := val (cX q)) in *. set (y2 := val (cY q)) in *. set (z2 := val (cZ q)) in *. set (t2 := val (cT q)) in *.
  pose proof (rep4_add st k _ _ _ _ WY1 WX1) as RA1. pose proof (rep4_sub st _ _ _ _ WY1 WX1) as RS1.
  pose proof (rep4_add st k _ _ _ _ WY2 WX2) as RA2. pose proof (rep4_sub st _ _ _ _ WY2 WX2) as RS2.
  set (a1 := add st k (cY p) (cX p)) in *. set (s1 := sub st (cY p) (cX p)) in *. set (a2 := add st k (cY q) (cX q)) in *. set (s2 := sub st (cY q) (cX q)) in *. clearbody a1 s1 a2 s2.
  pose proof (rep4_mul st k _ _ _ _ RS1 RS2) as RA. pose proof (rep4_mul st k _ _ _ _ RA1 RA2) as RB.
  set (A := mul st k s1 s2) in *. set (B := mul st k a1 a2) in *. clearbody A B.
  pose proof (rep4_mul st k _ _ _ _ (rep4_mul st k _ _ _ _ WT1 WT2) const_2d_full) as RC. set (C := mul st k (mul _ _ _ _) _) in *. clearbody C.
  pose proof (rep4_mul st k _ _ _ _ WZ1 WZ2) as RD0. set (D0 := mul st k (cZ p) (cZ q)) in *. clearbody D0.
  pose proof (rep4_add st k _ _ _ _ RD0 RD0) as RD. set (D := add st k D0 D0) in *. clearbody D.
  pose proof (rep4_sub st _ _ _ _ RB RA) as RE. pose proof (rep4_sub st _ _ _ _ RD RC) as RF.
  pose proof (rep4_add st k _ _ _ _ RD RC) as RG. pose proof (rep4_add st k _ _ _ _ RB RA) as RH.
  set (E := sub st B A) in *. set (F := sub st D C) in *. set (G := add st k D C) in *. set (H := add st k B A) in *. clearbody E F G H.
  destruct (rep4_mul st k _ _ _ _ RE RF) as [KX EX]. destruct (rep4_mul st k _ _ _ _ RG RH) as [KY EY].
  destruct (rep4_mul st k _ _ _ _ RF RG) as [KZ EZ]. destruct (rep4_mul st k _ _ _ _ RE RH) as [KT ET].
  split; [apply add255_on; assumption|]. cbn [cX cY cZ cT]. split; [exact KX|]. split; [exact KY|]. split; [exact KZ|]. split; [exact KT|].
  eapply (reps255_add 2 2 x1 y1 z1 t1 P x2 y2 z2 t2 Q); [exact On1|exact On2|exact Rep1|exact Rep2|discriminate|discriminate| | | | |exact EX|exact EY|exact EZ|exact ET].
  - f_equal. ring.
  - f_equal. ring.
  - f_equal. ring.
  - f_equal. ring.
Qed.

(** ** Mixed addition, one point: the entry holds y-x, y+x, 2dT, 2Z of a multiple w of extended coordinates *)
Definition pre_2w (e : point2) (P : Z * Z) : Prop :=
  l2 (fst e) /\ l2 (snd e) /\ on255 P /\ exists w, w mod p25 <> 0 /\
  rr red255 (el2 false (fst e)) ((snd P - fst P) * w) /\ rr red255 (el2 true (fst e)) ((snd P + fst P) * w) /\
  rr red255 (el2 false (snd e)) (2 * d25 * (fst P * snd P * w)) /\ rr red255 (el2 true (snd e)) (2 * w).
Lemma q_mid a b h x y : l2 a -> l2 b -> rr mid255 (el2 h a) x -> rr red255 (el2 h b) y -> rr midred255 (el2 h (intmul_2w st a b)) (x * y).
Proof. intros L K [A E] [A' E']. destruct (intmul_2w_mid st a b h L K A A') as [C B]. split; [exact B|]. exact (cg_trans _ _ _ C (cg_mul _ _ _ _ E E')). Qed.
Theorem mixadd_2w_ok q e Q P : pt_2w q Q -> pre_2w e P -> pt_2w (mixadd_2w st sky q e) (add255 Q P).
Proof.
  intros (L1 & K1 & On1 & X1 & Y1 & Z1 & T1 & Rep1) (L2 & K2 & On2 & w & Hw & PS & PA & PT & PZ).
  destruct q as [XY TZ]. destruct e as [sa dz]. cbn [fst snd] in *.
  apply rr_fe0 in Z1, T1. set (x := fe255 (el2 false XY)) in *. set (y := fe255 (el2 true XY)) in *. set (z := fe255 (el2 true TZ)) in *. set (t := fe255 (el2 false TZ)) in *.
  unfold mixadd_2w. destruct (subadd0_2w_mid st XY L1 X1 Y1) as (C0 & C1 & B0 & B1).
  fold x y in C0, C1. set (s := subadd_2w st false XY) in *. assert (Ls : l2 s) by cl. clearbody s.
  pose proof (q_mid _ _ _ _ _ Ls L2 (conj B0 C0) PS) as RA. pose proof (q_mid _ _ _ _ _ Ls L2 (conj B1 C1) PA) as RB.
  set (AB := intmul_2w st s sa) in *. assert (LA : l2 AB) by cl. clearbody AB.
  pose proof (q_mul _ _ _ _ _ K1 K2 T1 PT) as RC. pose proof (q_mul _ _ _ _ _ K1 K2 Z1 PZ) as RD.
  set (CD := intmul_2w st TZ dz) in *. assert (LC : l2 CD) by cl. clearbody CD.
  destruct (el_add_EG _ _ LA LC) as [EG0 EG1]. destruct (el_add_HF _ _ LA LC) as [HF0 HF1].
  assert (LEG : l2 (vmap2 add_EG AB CD)) by (apply vm2_len; [exact LA|exact LC|apply addEG_len]).
  assert (LHF : l2 (vmap3 add_HF AB CD CONST_2_to_35P_2w)) by (apply vm3_len; [exact LA|exact LC|reflexivity|apply addHF_len]).
  set (EG := vmap2 add_EG _ _) in *. set (HF := vmap3 add_HF _ _ _) in *. clearbody EG HF.
  assert (RE : rr big255 (el2 false EG) ((x + y) * ((snd P + fst P) * w) + (x - y) * ((snd P - fst P) * w))) by (rewrite EG0; eapply rr_sum; [exact RB|exact RA|reflexivity..]).
  assert (RG : rr big255 (el2 true EG) (z * (2 * w) + t * (2 * d25 * (fst P * snd P * w)))) by (rewrite EG1; eapply rr_sum; [exact RD|exact RC|reflexivity..]).
  assert (RH : rr big255 (el2 false HF) ((x + y) * ((snd P + fst P) * w) - (x - y) * ((snd P - fst P) * w) - 0)) by (rewrite HF0; eapply rr_comb; [exact RB|exact RA|exact rr_zero|reflexivity..]).
  assert (RF : rr big255 (el2 true HF) (z * (2 * w) - t * (2 * d25 * (fst P * snd P * w)) - 0)) by (rewrite HF1; eapply rr_comb; [exact RD|exact RC|exact rr_zero|reflexivity..]).
  destruct (r_c2 _ _ false _ _ LEG LHF RE RH) as [CE CH]. destruct (r_c2 _ _ true _ _ LEG LHF RG RF) as [CG CF].
  assert (F1 : l2 (fst (compress2_2w st EG HF))) by cl. assert (F2 : l2 (snd (compress2_2w st EG HF))) by cl.
  destruct (compress2_2w st EG HF) as [EG2 HF2]. cbn [fst snd] in *.
  destruct (final_ok HF2 EG2 _ _ _ _ F2 F1 CH CF CE CG) as (L' & K' & [Bx Ex] & [By Ey] & [Bt Et] & [Bz Ez]).
  set (r := final_2w st sky HF2 EG2) in *. clearbody r.
  split; [exact L'|]. split; [exact K'|]. split; [apply add255_on; assumption|]. split; [exact Bx|]. split; [exact By|]. split; [exact Bz|]. split; [exact Bt|].
  apply cgm in Ex, Ey, Ez, Et.
  assert (Rep2 : reps255 (fst P * w) (snd P * w) w (fst P * snd P * w) P).
  { destruct P as [px py]. cbn [fst snd]. split; [exact Hw|]. split; [reflexivity|]. split; reflexivity. }
  set (E := (x + y) * ((snd P + fst P) * w) + (x - y) * ((snd P - fst P) * w)) in *. set (G := z * (2 * w) + t * (2 * d25 * (fst P * snd P * w))) in *.
  set (H := (x + y) * ((snd P + fst P) * w) - (x - y) * ((snd P - fst P) * w) - 0) in *. set (F := z * (2 * w) - t * (2 * d25 * (fst P * snd P * w)) - 0) in *.
  apply (reps255_add 2 2 x y z t Q (fst P * w) (snd P * w) w (fst P * snd P * w) P E F G H); [exact On1|exact On2|exact Rep1|exact Rep2|discriminate|discriminate|..].
  - unfold E. f_equal. ring.
  - unfold G. f_equal. ring.
  - unfold F. f_equal. ring.
  - unfold H. f_equal. ring.
  - rewrite Ex. f_equal. ring.
  - rewrite Ey. f_equal. ring.
  - rewrite Ez. f_equal.
  - rewrite Et. f_equal. ring.
Qed.
End Proofs.
