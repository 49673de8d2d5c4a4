(** The point formulas of edwards448.c compute the group law of edwards448 on the images of the points under the isogeny. *)
From Coq Require Import ZArith List Bool Lia.
From Verif Require Import Uop X86 Sym Engine Bytes Check FullTac Lanes RedTac Simd Simd448 Fp448Full Fp448FullProofs FullMore
  Fp25519Red Fp448Red Fp448RedProofs Fp448RedMore Fp448RedRoot Spec Ladder LadderProofs LadderVec LadderVec448 SpecEd SpecIso CurveInst EdInst448
  Edwards255 EdVec Edwards255Proofs Edwards448 EdVec448.
Import ListNotations.
Open Scope Z_scope.
Notation l1q a := (length a = 16%nat).
Notation l2q a := (length a = 32%nat).
Notation l4q a := (length a = 64%nat).
(** Extended coordinates of the image of Q *)
Definition ptv448 (X Y Zc T : list Z) (Q : Z * Z) : Prop :=
  on448 Q /\ is_red448 X /\ is_red448 Y /\ is_red448 Zc /\ is_red448 T /\ reps448 (fe448 X) (fe448 Y) (fe448 Zc) (fe448 T) (iso448 Q).
Definition pt448_2w (p : point2) (Q : Z * Z) : Prop :=
  l2q (fst p) /\ l2q (snd p) /\ ptv448 (el2q false (fst p)) (el2q true (fst p)) (el2q true (snd p)) (el2q false (snd p)) Q.
Definition pt448_4way (p : point4) (j : nat) (Q : Z * Z) : Prop := ptv448 (el4q j (cX p)) (el4q j (cY p)) (el4q j (cZ p)) (el4q j (cT p)) Q.
Lemma cqm x y : cq x y -> x mod p44 = y mod p44.
Proof. apply (mod_cong p44). discriminate. Qed.
Lemma cq_of x y : x mod p44 = y mod p44 -> cq x y.
Proof. intro H. unfold cq. change Q with p44. rewrite Zminus_mod, H, <- Zminus_mod, Z.sub_diag. reflexivity. Qed.
Lemma rq_fe0 b a : arr_ok b a -> rq b a (fe448 a). Proof. intro H. split; [exact H|apply cq_refl]. Qed.
Lemma rq_le b b' a x : bounds_le b b' = true -> rq b a x -> rq b' a x.
Proof. intros H [A E]. split; [exact (bounds_le_ok _ _ _ H A)|exact E]. Qed.
Lemma rq_cg b a x y : cq x y -> rq b a x -> rq b a y.
Proof. intros H [A E]. split; [exact A|exact (cq_trans _ _ _ E H)]. Qed.
Section Proofs.
Variable st : store.
Ltac cl := apply call_length.
(** ** Limb-wise combinations *)
Lemma rq_comb bx by' bz x y z vx vy vz : rq bx x vx -> rq by' y vy -> rq bz z vz ->
  pos_lo bx = true -> pos_lo by' = true -> pos_lo bz = true -> fits bx by' bz c35qb = true -> bounds_le (outb bx c35qb) big448 = true ->
  rq big448 (combs x y z c35q) (vx - vy - vz).
Proof.
  intros [Ax Ex] [Ay Ey] [Az Ez] Px Py Pz Hf Hb.
  destruct (combs_ok wt448 _ _ _ _ _ _ _ _ Ax Ay Az c35q_ok Px Py Pz Hf) as [E A]. split; [exact (bounds_le_ok _ _ _ Hb A)|].
  rewrite E. replace (vx - vy - vz) with (vx - vy - vz + 0) by ring.
  exact (cq_add _ _ _ _ (cq_sub _ _ _ _ (cq_sub _ _ _ _ Ex Ey) Ez) c35q_cq).
Qed.
Lemma rq_zero : rq zb16 (repeat 0 16) 0.
Proof. split; [exact zeros16|]. reflexivity. Qed.
Ltac list32 H := do 32 (apply len_S in H as (? & ? & -> & H)); apply length_zero_iff_nil in H; subst.
Ltac el := cbv [pick seq map ixh vmap vmap2 vmap3 app dbl_EG dbl_HF add_EG add_HF VADD VSUB zip2 PERM64 PERM128 BLEND32 half128 v0000 combs repeat CONST_2_to_35P_ED448 c35q
    nth Nat.mul Nat.add Nat.div Nat.modulo Nat.divmod fst snd Nat.pow Nat.testbit Nat.odd Nat.even negb firstn skipn Nat.sub Nat.div2];
  rewrite ?comb_sub2, ?comb_sub1.
Lemma el_dbl_EG XY TZ : l2q XY -> l2q TZ ->
  el2q false (vmap3 dbl_EG XY TZ CONST_2_to_35P_ED448) = combs (el2q false TZ) (repeat 0 16) (repeat 0 16) c35q /\
  el2q true (vmap3 dbl_EG XY TZ CONST_2_to_35P_ED448) = combs (el2q true XY) (el2q false XY) (repeat 0 16) c35q.
Proof.
  intros H K. list32 H. list32 K. split.
  - el. rewrite !comb_add. reflexivity.
  - el. reflexivity.
Qed.
Lemma el_dbl_HF XY TZ : l2q XY -> l2q TZ ->
  el2q false (vmap3 dbl_HF XY TZ CONST_2_to_35P_ED448) = combs (repeat 0 16) (el2q true XY) (el2q false XY) c35q /\
  el2q true (vmap3 dbl_HF XY TZ CONST_2_to_35P_ED448) = combs (el2q true XY) (el2q false XY) (el2q true TZ) c35q.
Proof. intros H K. list32 H. list32 K. split; el; reflexivity. Qed.
Lemma rq_sum bx bc x c vx vc : rq bx x vx -> rq bc c vc ->
  pos_lo bx = true -> fits bx zb16 zb16 bc = true -> bounds_le (outb bx bc) big448 = true ->
  rq big448 (combs x (repeat 0 16) (repeat 0 16) c) (vx + vc).
Proof.
  intros [Ax Ex] [Ac Ec] Px Hf Hb.
  destruct (combs_ok wt448 _ _ _ _ _ _ _ _ Ax zeros16 zeros16 Ac Px eq_refl eq_refl Hf) as [E A]. split; [exact (bounds_le_ok _ _ _ Hb A)|].
  rewrite E, !repeat0_ok, !Z.sub_0_r. exact (cq_add _ _ _ _ Ex Ec).
Qed.
Lemma el_add_EG AB CD : l2q AB -> l2q CD ->
  el2q false (vmap2 add_EG AB CD) = combs (el2q true AB) (repeat 0 16) (repeat 0 16) (el2q false AB) /\
  el2q true (vmap2 add_EG AB CD) = combs (el2q true CD) (repeat 0 16) (repeat 0 16) (el2q false CD).
Proof. intros H K. list32 H. list32 K. split; el; rewrite !comb_add; reflexivity. Qed.
Lemma el_add_HF AB CD : l2q AB -> l2q CD ->
  el2q false (vmap3 add_HF AB CD CONST_2_to_35P_ED448) = combs (el2q true AB) (el2q false AB) (repeat 0 16) c35q /\
  el2q true (vmap3 add_HF AB CD CONST_2_to_35P_ED448) = combs (el2q true CD) (el2q false CD) (repeat 0 16) c35q.
Proof. intros H K. list32 H. list32 K. split; el; reflexivity. Qed.
Lemma el_EE h a : l2q a -> el2q h (vmap (PERM64 0xEE) a) = el2q true a.
Proof. intros H. list32 H. destruct h; reflexivity. Qed.
Lemma el_4E h a : l2q a -> el2q h (vmap (PERM64 0x4E) a) = el2q (negb h) a.
Proof. intros H. list32 H. destruct h; reflexivity. Qed.
Lemma vm3_len f a b c : l2q a -> l2q b -> l2q c -> (forall u v w, length u = 4%nat -> length v = 4%nat -> length w = 4%nat -> length (f u v w) = 4%nat) -> l2q (vmap3 f a b c).
Proof.
  intros H K L Hf. list32 H. list32 K. list32 L. cbn [vmap3]. rewrite !app_length, !Hf by reflexivity. reflexivity.
Qed.
Lemma vm2_len f a b : l2q a -> l2q b -> (forall u v, length u = 4%nat -> length v = 4%nat -> length (f u v) = 4%nat) -> l2q (vmap2 f a b).
Proof. intros H K Hf. list32 H. list32 K. cbn [vmap2]. rewrite !app_length, !Hf by reflexivity. reflexivity. Qed.
Lemma vm1_len f a : l2q a -> (forall u, length u = 4%nat -> length (f u) = 4%nat) -> l2q (vmap f a).
Proof. intros H Hf. list32 H. cbn [vmap]. rewrite !app_length, !Hf by reflexivity. reflexivity. Qed.
Ltac l4s := repeat match goal with H : length ?u = 4%nat |- _ => do 4 (apply len_S in H as (? & ? & -> & H)); apply length_zero_iff_nil in H; subst end; reflexivity.
Lemma dblEG_len u v w : length u = 4%nat -> length v = 4%nat -> length w = 4%nat -> length (dbl_EG u v w) = 4%nat. Proof. intros. l4s. Qed.
Lemma dblHF_len u v w : length u = 4%nat -> length v = 4%nat -> length w = 4%nat -> length (dbl_HF u v w) = 4%nat. Proof. intros. l4s. Qed.
Lemma addHF_len u v w : length u = 4%nat -> length v = 4%nat -> length w = 4%nat -> length (add_HF u v w) = 4%nat. Proof. intros. l4s. Qed.
Lemma addEG_len u v : length u = 4%nat -> length v = 4%nat -> length (add_EG u v) = 4%nat. Proof. intros. l4s. Qed.
Lemma perm_len' i u : length u = 4%nat -> length (PERM64 i u) = 4%nat. Proof. intros. reflexivity. Qed.

(** ** Contracts in terms of values *)
Lemma q_sqr a h x : l2q a -> rq red448 (el2q h a) x -> rq sq448 (el2q h (intsqr448_2w st a)) (x * x).
Proof. intros L [A E]. destruct (intsqr448_2w_tight st a h L A) as [C B]. split; [exact B|]. exact (cq_trans _ _ _ C (cq_mul _ _ _ _ E E)). Qed.
Lemma q_mul a b h x y : l2q a -> l2q b -> rq red448 (el2q h a) x -> rq red448 (el2q h b) y -> rq sq448 (el2q h (intmul448_2w st a b)) (x * y).
Proof. intros L K [A E] [A' E']. destruct (intmul448_2w_tight st a b h L K A A') as [C B]. split; [exact B|]. exact (cq_trans _ _ _ C (cq_mul _ _ _ _ E E')). Qed.
Lemma q_add a b h x y : l2q a -> l2q b -> rq sq448 (el2q h a) x -> rq sq448 (el2q h b) y -> rq sq2_448 (el2q h (add448_2w st a b)) (x + y).
Proof. intros L K [A E] [A' E']. destruct (add448_2w_sq st a b h L K A A') as [C B]. split; [exact B|]. exact (cq_trans _ _ _ C (cq_add _ _ _ _ E E')). Qed.
Lemma r_cf a h x : l2q a -> rq wide448 (el2q h a) x -> rq red448 (el2q h (compressfast448_2w st a)) x.
Proof. intros L [A E]. destruct (compressfast448_2w_red st a h L A) as [C B]. split; [exact B|]. exact (cq_trans _ _ _ C E). Qed.
Lemma r_c a h x : l2q a -> rq big448 (el2q h a) x -> rq red448 (el2q h (compress448_2w st a)) x.
Proof. intros L [A E]. destruct (compress448_2w_ok st a h L A) as [C B]. split; [exact B|]. exact (cq_trans _ _ _ C E). Qed.
Lemma r_c2 a b h x y : l2q a -> l2q b -> rq big448 (el2q h a) x -> rq big448 (el2q h b) y ->
  rq red448 (el2q h (fst (compress2448_2w st a b))) x /\ rq red448 (el2q h (snd (compress2448_2w st a b))) y.
Proof.
  intros L K [A E] [A' E']. destruct (compress2448_2w_ok1 st a b h L K A A') as [C B]. destruct (compress2448_2w_ok2 st a b h L K A A') as [C' B'].
  split; (split; [assumption|]); [exact (cq_trans _ _ _ C E)|exact (cq_trans _ _ _ C' E')].
Qed.
Lemma r_subadd perm a x y : l2q a -> rq red448 (el2q false a) x -> rq red448 (el2q true a) y ->
  rq wide448 (el2q false (subadd448_2w st perm a)) (if perm then y - x else x - y) /\ rq wide448 (el2q true (subadd448_2w st perm a)) (x + y).
Proof.
  intros L [A E] [A' E']. destruct (subadd448_2w_ok st perm a L A A') as (C & C' & B & B').
  split; (split; [assumption|]).
  - destruct perm; [exact (cq_trans _ _ _ C (cq_sub _ _ _ _ E' E))|exact (cq_trans _ _ _ C (cq_sub _ _ _ _ E E'))].
  - exact (cq_trans _ _ _ C' (cq_add _ _ _ _ E E')).
Qed.
(** ** The two final products *)
Lemma rq_sq_big a x : rq sq448 a x -> rq big448 a x. Proof. apply rq_le. vm_compute. reflexivity. Qed.
Lemma final_ok HF EG e f g h : l2q HF -> l2q EG -> rq red448 (el2q false HF) h -> rq red448 (el2q true HF) f ->
  rq red448 (el2q false EG) e -> rq red448 (el2q true EG) g ->
  let r := final448_2w st HF EG in
  l2q (fst r) /\ l2q (snd r) /\ rq red448 (el2q false (fst r)) (f * e) /\ rq red448 (el2q true (fst r)) (h * g) /\
  rq red448 (el2q false (snd r)) (h * e) /\ rq red448 (el2q true (snd r)) (f * g).
Proof.
  intros L K Hh Hf He Hg r. unfold r, final448_2w.
  assert (Lp : l2q (vmap (PERM64 0x4E) HF)) by (apply vm1_len; [exact L|apply perm_len']).
  pose proof (el_4E false HF L) as E0. pose proof (el_4E true HF L) as E1. cbn [negb] in E0, E1. set (FH := vmap _ _) in *. clearbody FH.
  assert (HX : rq sq448 (el2q false (intmul448_2w st FH EG)) (f * e)) by (apply q_mul; [exact Lp|exact K|rewrite E0; exact Hf|exact He]).
  assert (HY : rq sq448 (el2q true (intmul448_2w st FH EG)) (h * g)) by (apply q_mul; [exact Lp|exact K|rewrite E1; exact Hh|exact Hg]).
  pose proof (q_mul _ _ _ _ _ L K Hh He) as HT. pose proof (q_mul _ _ _ _ _ L K Hf Hg) as HZ.
  set (XY := intmul448_2w st FH EG) in *. set (TZ := intmul448_2w st HF EG) in *. assert (LX : l2q XY) by cl. assert (LT : l2q TZ) by cl. clearbody XY TZ.
  apply rq_sq_big in HX, HY, HT, HZ.
  split; [cl|]. split; [cl|].
  destruct (r_c2 _ _ false _ _ LX LT HX HT) as [R1 R2]. destruct (r_c2 _ _ true _ _ LX LT HY HZ) as [R3 R4].
  split; [exact R1|]. split; [exact R3|]. split; [exact R2|exact R4].
Qed.
(** ** Doubling, one point *)
Lemma dbl_values XY TZ x y z t : l2q XY -> l2q TZ -> rq red448 (el2q false XY) x -> rq red448 (el2q true XY) y ->
  rq red448 (el2q false TZ) t -> rq red448 (el2q true TZ) z ->
  let r := doubling448_2w st (XY, TZ) in
  let e := t * z + t * z in let g := y * y - x * x - 0 in let h := 0 - y * y - x * x in let f := y * y - x * x - (z * z + z * z) in
  l2q (fst r) /\ l2q (snd r) /\ rq red448 (el2q false (fst r)) (f * (e - 0 - 0)) /\ rq red448 (el2q true (fst r)) (h * g) /\
  rq red448 (el2q false (snd r)) (h * (e - 0 - 0)) /\ rq red448 (el2q true (snd r)) (f * g).
Proof.
  intros L K Hx Hy Ht Hz r e g h f. unfold r, doubling448_2w.
  assert (LE : l2q (vmap (PERM64 0xEE) TZ)) by (apply vm1_len; [exact K|apply perm_len']).
  pose proof (el_EE false TZ K) as E0. pose proof (el_EE true TZ K) as E1. set (EE := vmap _ _) in *. clearbody EE.
  pose proof (q_sqr _ _ _ L Hx) as Ha. pose proof (q_sqr _ _ _ L Hy) as Hb.
  set (XY' := intsqr448_2w st XY) in *. assert (L' : l2q XY') by cl. clearbody XY'.
  assert (Htz : rq sq448 (el2q false (intmul448_2w st TZ EE)) (t * z)) by (apply q_mul; [exact K|exact LE|exact Ht|rewrite E0; exact Hz]).
  assert (Hzz : rq sq448 (el2q true (intmul448_2w st TZ EE)) (z * z)) by (apply q_mul; [exact K|exact LE|exact Hz|rewrite E1; exact Hz]).
  set (TZ' := intmul448_2w st TZ EE) in *. assert (K' : l2q TZ') by cl. clearbody TZ'.
  pose proof (q_add _ _ _ _ _ K' K' Htz Htz) as He. pose proof (q_add _ _ _ _ _ K' K' Hzz Hzz) as Hc.
  set (TZ2 := add448_2w st TZ' TZ') in *. assert (K2 : l2q TZ2) by cl. clearbody TZ2. fold e in He.
  destruct (el_dbl_EG _ _ L' K2) as [EG0 EG1]. destruct (el_dbl_HF _ _ L' K2) as [HF0 HF1].
  assert (LEG : l2q (vmap3 dbl_EG XY' TZ2 CONST_2_to_35P_ED448)) by (apply vm3_len; [exact L'|exact K2|reflexivity|apply dblEG_len]).
  assert (LHF : l2q (vmap3 dbl_HF XY' TZ2 CONST_2_to_35P_ED448)) by (apply vm3_len; [exact L'|exact K2|reflexivity|apply dblHF_len]).
  set (EG := vmap3 dbl_EG _ _ _) in *. set (HF := vmap3 dbl_HF _ _ _) in *. clearbody EG HF.
  assert (RE : rq big448 (el2q false EG) (e - 0 - 0)) by (rewrite EG0; eapply rq_comb; [exact He|exact rq_zero|exact rq_zero|reflexivity..]).
  assert (RG : rq big448 (el2q true EG) g) by (rewrite EG1; eapply rq_comb; [exact Hb|exact Ha|exact rq_zero|reflexivity..]).
  assert (RH : rq big448 (el2q false HF) h) by (rewrite HF0; eapply rq_comb; [exact rq_zero|exact Hb|exact Ha|reflexivity..]).
  assert (RF : rq big448 (el2q true HF) f) by (rewrite HF1; eapply rq_comb; [exact Hb|exact Ha|exact Hc|reflexivity..]).
  destruct (r_c2 _ _ false _ _ LHF LEG RH RE) as [CH CE]. destruct (r_c2 _ _ true _ _ LHF LEG RF RG) as [CF CG].
  assert (L1 : l2q (fst (compress2448_2w st HF EG))) by cl. assert (L2 : l2q (snd (compress2448_2w st HF EG))) by cl.
  destruct (compress2448_2w st HF EG) as [HF2 EG2]. cbn [fst snd] in *.
  exact (final_ok HF2 EG2 _ _ _ _ L1 L2 CH CF CE CG).
Qed.
Theorem doubling448_2w_ok p Q : pt448_2w p Q -> pt448_2w (doubling448_2w st p) (add448 Q Q).
Proof.
  intros (L & K & On & Rx & Ry & Rz & Rt & Rep). destruct p as [XY TZ]. cbn [fst snd] in *.
  destruct (dbl_values XY TZ _ _ _ _ L K (rq_fe0 _ _ Rx) (rq_fe0 _ _ Ry) (rq_fe0 _ _ Rt) (rq_fe0 _ _ Rz)) as (L' & K' & [Bx Ex] & [By Ey] & [Bt Et] & [Bz Ez]).
  set (r := doubling448_2w st (XY, TZ)) in *. clearbody r.
  split; [exact L'|]. split; [exact K'|]. split; [apply add448_on; exact On|]. split; [exact Bx|]. split; [exact By|]. split; [exact Bz|]. split; [exact Bt|].
  apply cqm in Ex, Ey, Ez, Et.
  assert (Etz : (fe448 (el2q false TZ) * fe448 (el2q true TZ)) mod p44 = (fe448 (el2q false XY) * fe448 (el2q true XY)) mod p44).
  { destruct (iso448 Q) as [qx qy]. destruct Rep as (_ & R1 & R2 & R3). change p_ed448 with p44 in *. set (w := fe448 (el2q true TZ)) in *.
    rewrite (Zmult_mod (fe448 (el2q false XY))), R1, R2, <- Zmult_mod. rewrite (Zmult_mod (fe448 (el2q false TZ))), R3, <- Zmult_mod_idemp_r, <- !Zmult_mod.
    rewrite Zmult_mod_idemp_r. f_equal. ring. }
  set (x := fe448 (el2q false XY)) in *. set (y := fe448 (el2q true XY)) in *. set (z := fe448 (el2q true TZ)) in *. set (t := fe448 (el2q false TZ)) in *.
  apply (iso448_dbl 1 (-1) x y z t Q (t * z + t * z - 0 - 0) (y * y - x * x - (z * z + z * z)) (y * y - x * x - 0) (0 - y * y - x * x)); [exact On|exact Rep|..].
  - discriminate.
  - discriminate.
  - replace (t * z + t * z - 0 - 0) with (2 * (t * z)) by ring. rewrite Zmult_mod, Etz, <- Zmult_mod. f_equal. ring.
  - f_equal. ring.
  - f_equal. ring.
  - f_equal. ring.
  - rewrite Ex. f_equal. ring.
  - rewrite Ey. f_equal. ring.
  - rewrite Ez. f_equal.
  - rewrite Et. f_equal. ring.
Qed.

(** ** Addition, one point *)
Lemma const_2d_02 : rq red448 (el2q false CONST_param_curve_2d_02) (2 * (d_ed448 - 1)) /\ rq red448 (el2q true CONST_param_curve_2d_02) 2 /\ l2q CONST_param_curve_2d_02.
Proof. split; [|split; [|reflexivity]]; (split; [apply arr_lit|]; vm_compute; reflexivity). Qed.
Lemma fulladd_values XY1 TZ1 XY2 TZ2 x1 y1 z1 t1 x2 y2 z2 t2 : l2q XY1 -> l2q TZ1 -> l2q XY2 -> l2q TZ2 ->
  rq red448 (el2q false XY1) x1 -> rq red448 (el2q true XY1) y1 -> rq red448 (el2q false TZ1) t1 -> rq red448 (el2q true TZ1) z1 ->
  rq red448 (el2q false XY2) x2 -> rq red448 (el2q true XY2) y2 -> rq red448 (el2q false TZ2) t2 -> rq red448 (el2q true TZ2) z2 ->
  let r := fulladd448_2w st (XY1, TZ1) (XY2, TZ2) in
  let a := (x1 - y1) * (y2 - x2) in let b := (x1 + y1) * (x2 + y2) in let c := t1 * t2 * (2 * (d_ed448 - 1)) in let d := z1 * z2 * 2 in
  let e := b + a in let g := d + c in let h := b - a - 0 in let f := d - c - 0 in
  l2q (fst r) /\ l2q (snd r) /\ rq red448 (el2q false (fst r)) (f * e) /\ rq red448 (el2q true (fst r)) (h * g) /\
  rq red448 (el2q false (snd r)) (h * e) /\ rq red448 (el2q true (snd r)) (f * g).
Proof.
  intros L1 K1 L2 K2 X1 Y1 T1 Z1 X2 Y2 T2 Z2 r a b c d e g h f. unfold r, fulladd448_2w.
  destruct (r_subadd false XY1 _ _ L1 X1 Y1) as [S1 A1]. destruct (r_subadd true XY2 _ _ L2 X2 Y2) as [S2 A2].
  set (sa1 := subadd448_2w st false XY1) in *. assert (M1 : l2q sa1) by cl. clearbody sa1.
  set (sa2 := subadd448_2w st true XY2) in *. assert (M2 : l2q sa2) by cl. clearbody sa2.
  apply (r_cf _ _ _ M1) in S1, A1. apply (r_cf _ _ _ M2) in S2, A2.
  set (cs1 := compressfast448_2w st sa1) in *. assert (N1 : l2q cs1) by cl. clearbody cs1. set (cs2 := compressfast448_2w st sa2) in *. assert (N2 : l2q cs2) by cl. clearbody cs2.
  pose proof (q_mul _ _ _ _ _ N1 N2 S1 S2) as RA1. pose proof (q_mul _ _ _ _ _ N1 N2 A1 A2) as RB1. fold a in RA1. fold b in RB1.
  set (AB1 := intmul448_2w st cs1 cs2) in *. assert (LA1 : l2q AB1) by cl. clearbody AB1.
  pose proof (rq_sq_big _ _ (q_mul _ _ _ _ _ K1 K2 T1 T2)) as RC. pose proof (rq_sq_big _ _ (q_mul _ _ _ _ _ K1 K2 Z1 Z2)) as RD.
  set (CD := intmul448_2w st TZ1 TZ2) in *. assert (LC : l2q CD) by cl. clearbody CD.
  pose proof (r_c _ _ _ LC RC) as RC1. pose proof (r_c _ _ _ LC RD) as RD1.
  set (CD1 := compress448_2w st CD) in *. assert (LC1 : l2q CD1) by cl. clearbody CD1.
  destruct const_2d_02 as (P1 & P2 & LP). pose proof (q_mul _ _ _ _ _ LC1 LP RC1 P1) as RC2. pose proof (q_mul _ _ _ _ _ LC1 LP RD1 P2) as RD2.
  fold c in RC2. fold d in RD2.
  set (CD2 := intmul448_2w st CD1 CONST_param_curve_2d_02) in *. assert (LC2 : l2q CD2) by cl. clearbody CD2.
  destruct (el_add_EG _ _ LA1 LC2) as [EG0 EG1]. destruct (el_add_HF _ _ LA1 LC2) as [HF0 HF1].
  assert (LEG : l2q (vmap2 add_EG AB1 CD2)) by (apply vm2_len; [exact LA1|exact LC2|apply addEG_len]).
  assert (LHF : l2q (vmap3 add_HF AB1 CD2 CONST_2_to_35P_ED448)) by (apply vm3_len; [exact LA1|exact LC2|reflexivity|apply addHF_len]).
  set (EG := vmap2 add_EG _ _) in *. set (HF := vmap3 add_HF _ _ _) in *. clearbody EG HF.
  assert (RE : rq big448 (el2q false EG) e) by (rewrite EG0; eapply rq_sum; [exact RB1|exact RA1|reflexivity..]).
  assert (RG : rq big448 (el2q true EG) g) by (rewrite EG1; eapply rq_sum; [exact RD2|exact RC2|reflexivity..]).
  assert (RH : rq big448 (el2q false HF) h) by (rewrite HF0; eapply rq_comb; [exact RB1|exact RA1|exact rq_zero|reflexivity..]).
  assert (RF : rq big448 (el2q true HF) f) by (rewrite HF1; eapply rq_comb; [exact RD2|exact RC2|exact rq_zero|reflexivity..]).
  destruct (r_c2 _ _ false _ _ LEG LHF RE RH) as [CE CH]. destruct (r_c2 _ _ true _ _ LEG LHF RG RF) as [CG CF].
  assert (F1 : l2q (fst (compress2448_2w st EG HF))) by cl. assert (F2 : l2q (snd (compress2448_2w st EG HF))) by cl.
  destruct (compress2448_2w st EG HF) as [EG2 HF2]. cbn [fst snd] in *.
  exact (final_ok HF2 EG2 _ _ _ _ F2 F1 CH CF CE CG).
Qed.
Theorem fulladd448_2w_ok p q P Q : pt448_2w p P -> pt448_2w q Q -> pt448_2w (fulladd448_2w st p q) (add448 P Q).
Proof.
  intros (L1 & K1 & On1 & X1 & Y1 & Z1 & T1 & Rep1) (L2 & K2 & On2 & X2 & Y2 & Z2 & T2 & Rep2).
  destruct p as [XY1 TZ1]. destruct q as [XY2 TZ2]. cbn [fst snd] in *.
  destruct (fulladd_values XY1 TZ1 XY2 TZ2 _ _ _ _ _ _ _ _ L1 K1 L2 K2 (rq_fe0 _ _ X1) (rq_fe0 _ _ Y1) (rq_fe0 _ _ T1) (rq_fe0 _ _ Z1)
    (rq_fe0 _ _ X2) (rq_fe0 _ _ Y2) (rq_fe0 _ _ T2) (rq_fe0 _ _ Z2)) as (L' & K' & [Bx Ex] & [By Ey] & [Bt Et] & [Bz Ez]).
  set (r := fulladd448_2w st (XY1, TZ1) (XY2, TZ2)) in *. clearbody r.
  split; [exact L'|]. split; [exact K'|]. split; [apply add448_on; assumption|]. split; [exact Bx|]. split; [exact By|]. split; [exact Bz|]. split; [exact Bt|].
  apply cqm in Ex, Ey, Ez, Et.
  set (x1 := fe448 (el2q false XY1)) in *. set (y1 := fe448 (el2q true XY1)) in *. set (z1 := fe448 (el2q true TZ1)) in *. set (t1 := fe448 (el2q false TZ1)) in *.
  set (x2 := fe448 (el2q false XY2)) in *. set (y2 := fe448 (el2q true XY2)) in *. set (z2 := fe448 (el2q true TZ2)) in *. set (t2 := fe448 (el2q false TZ2)) in *.
  apply (iso448_add 2 2 x1 y1 z1 t1 P x2 y2 z2 t2 Q ((x1 + y1) * (x2 + y2) + (x1 - y1) * (y2 - x2)) (z1 * z2 * 2 - t1 * t2 * (2 * (d_ed448 - 1)) - 0)
    (z1 * z2 * 2 + t1 * t2 * (2 * (d_ed448 - 1))) ((x1 + y1) * (x2 + y2) - (x1 - y1) * (y2 - x2) - 0)); try assumption.
  - discriminate.
  - discriminate.
  - f_equal. ring.
  - f_equal. ring.
  - f_equal. ring.
  - f_equal. ring.
  - rewrite Ex. f_equal. ring.
  - rewrite Ey. f_equal. ring.
  - rewrite Et. f_equal. ring.
Qed.


(** ** The map back to edwards448 *)
Lemma comb_subsum x y z c : wadd (wsub x (wadd y z)) c = comb x y z c.
Proof. unfold wadd, wsub, comb. rewrite Zminus_mod_idemp_r, Zplus_mod_idemp_l. f_equal. ring. Qed.
Ltac eli := cbv [pick seq map ixh vmap3 app iso_FH iso_EG iso_FG iso_H VADD VSUB zip2 PERM64 PERM128 BLEND32 half128 combs repeat CONST_2_to_35P_ED448 c35q
    nth Nat.mul Nat.add Nat.div Nat.modulo Nat.divmod fst snd Nat.pow Nat.testbit Nat.odd Nat.even negb firstn skipn Nat.sub Nat.div2].
Lemma el_iso_FH XY EC : l2q XY -> l2q EC ->
  el2q false (vmap3 iso_FH XY EC CONST_2_to_35P_ED448) = combs (el2q true XY) (el2q true EC) (el2q false XY) c35q /\
  el2q true (vmap3 iso_FH XY EC CONST_2_to_35P_ED448) = combs (el2q true XY) (repeat 0 16) (repeat 0 16) (el2q false XY).
Proof. intros H K. list32 H. list32 K. split; eli; rewrite ?comb_subsum, ?comb_add; reflexivity. Qed.
Lemma el_iso_EG XY EC : l2q XY -> l2q EC ->
  el2q false (vmap3 iso_EG XY EC CONST_2_to_35P_ED448) = el2q false EC /\
  el2q true (vmap3 iso_EG XY EC CONST_2_to_35P_ED448) = combs (el2q false XY) (el2q true XY) (repeat 0 16) c35q.
Proof. intros H K. list32 H. list32 K. split; eli; rewrite ?comb_subsum, ?comb_sub1; reflexivity. Qed.
Lemma isoFH_len u v w : length u = 4%nat -> length v = 4%nat -> length w = 4%nat -> length (iso_FH u v w) = 4%nat. Proof. intros. l4s. Qed.
Lemma isoEG_len u v w : length u = 4%nat -> length v = 4%nat -> length w = 4%nat -> length (iso_EG u v w) = 4%nat. Proof. intros. l4s. Qed.

(** Projective coordinates of a point of edwards448 *)
Definition proj448 (p : point2) (Q : Z * Z) : Prop :=
  l2q (fst p) /\ l2q (snd p) /\ on448 Q /\ is_red448 (el2q false (fst p)) /\ is_red448 (el2q true (fst p)) /\ is_red448 (el2q true (snd p)) /\
  let w := fe448 (el2q true (snd p)) in
  w mod p44 <> 0 /\ fe448 (el2q false (fst p)) mod p44 = (fst Q * w) mod p44 /\ fe448 (el2q true (fst p)) mod p44 = (snd Q * w) mod p44.
Theorem isogeny_2w_ok p Q : pt448_2w p Q -> proj448 (isogeny_2w st p) (mul448 4 Q).
Proof.
  intros (L & K & On & Rx & Ry & Rz & Rt & Rep). destruct p as [XY TZ]. cbn [fst snd] in *.
  assert (Etz : (fe448 (el2q false TZ) * fe448 (el2q true TZ)) mod p44 = (fe448 (el2q false XY) * fe448 (el2q true XY)) mod p44).
  { destruct (iso448 Q) as [qx qy]. destruct Rep as (_ & R1 & R2 & R3). change p_ed448 with p44 in *. set (w := fe448 (el2q true TZ)) in *.
    rewrite (Zmult_mod (fe448 (el2q false XY))), R1, R2, <- Zmult_mod. rewrite (Zmult_mod (fe448 (el2q false TZ))), R3, <- Zmult_mod_idemp_r, <- !Zmult_mod.
    rewrite Zmult_mod_idemp_r. f_equal. ring. }
  apply rq_fe0 in Rx, Ry, Rz, Rt.
  set (x := fe448 (el2q false XY)) in *. set (y := fe448 (el2q true XY)) in *. set (z := fe448 (el2q true TZ)) in *. set (t := fe448 (el2q false TZ)) in *.
  unfold isogeny_2w.
  assert (LE : l2q (vmap (PERM64 0xEE) TZ)) by (apply vm1_len; [exact K|apply perm_len']).
  pose proof (el_EE false TZ K) as E0. pose proof (el_EE true TZ K) as E1. set (EE := vmap _ _) in *. clearbody EE.
  pose proof (q_sqr _ _ _ L Rx) as Ha. pose proof (q_sqr _ _ _ L Ry) as Hb.
  set (XY' := intsqr448_2w st XY) in *. assert (L' : l2q XY') by cl. clearbody XY'.
  assert (Htz : rq sq448 (el2q false (intmul448_2w st TZ EE)) (t * z)) by (apply q_mul; [exact K|exact LE|exact Rt|rewrite E0; exact Rz]).
  assert (Hzz : rq sq448 (el2q true (intmul448_2w st TZ EE)) (z * z)) by (apply q_mul; [exact K|exact LE|exact Rz|rewrite E1; exact Rz]).
  set (TZ' := intmul448_2w st TZ EE) in *. assert (K' : l2q TZ') by cl. clearbody TZ'.
  pose proof (q_add _ _ _ _ _ K' K' Htz Htz) as He. pose proof (q_add _ _ _ _ _ K' K' Hzz Hzz) as Hc.
  set (EC := add448_2w st TZ' TZ') in *. assert (K2 : l2q EC) by cl. clearbody EC.
  destruct (el_iso_EG _ _ L' K2) as [EG0 EG1]. destruct (el_iso_FH _ _ L' K2) as [FH0 FH1].
  assert (LEG : l2q (vmap3 iso_EG XY' EC CONST_2_to_35P_ED448)) by (apply vm3_len; [exact L'|exact K2|reflexivity|apply isoEG_len]).
  assert (LFH : l2q (vmap3 iso_FH XY' EC CONST_2_to_35P_ED448)) by (apply vm3_len; [exact L'|exact K2|reflexivity|apply isoFH_len]).
  set (EG := vmap3 iso_EG _ _ _) in *. set (FH := vmap3 iso_FH _ _ _) in *. clearbody EG FH.
  assert (RE : rq big448 (el2q false EG) (t * z + t * z)) by (rewrite EG0; refine (rq_le _ _ _ _ _ He); vm_compute; reflexivity).
  assert (RG : rq big448 (el2q true EG) (x * x - y * y - 0)) by (rewrite EG1; eapply rq_comb; [exact Ha|exact Hb|exact rq_zero|reflexivity..]).
  assert (RF : rq big448 (el2q false FH) (y * y - (z * z + z * z) - x * x)) by (rewrite FH0; eapply rq_comb; [exact Hb|exact Hc|exact Ha|reflexivity..]).
  assert (RH : rq big448 (el2q true FH) (y * y + x * x)) by (rewrite FH1; eapply rq_sum; [exact Hb|exact Ha|reflexivity..]).
  destruct (r_c2 _ _ false _ _ LFH LEG RF RE) as [CF CE]. destruct (r_c2 _ _ true _ _ LFH LEG RH RG) as [CH CG].
  assert (M1 : l2q (fst (compress2448_2w st FH EG))) by cl. assert (M2 : l2q (snd (compress2448_2w st FH EG))) by cl.
  destruct (compress2448_2w st FH EG) as [FH2 EG2]. cbn [fst snd] in *.
  assert (Lp : l2q (vmap (PERM64 0x4E) FH2)) by (apply vm1_len; [exact M1|apply perm_len']).
  pose proof (el_4E true FH2 M1) as E3. cbn [negb] in E3. pose proof (el_4E false FH2 M1) as E4. cbn [negb] in E4. set (HF := vmap _ _) in *. clearbody HF.
  pose proof (q_mul _ _ _ _ _ M1 M2 CF CE) as HX. pose proof (q_mul _ _ _ _ _ M1 M2 CH CG) as HY.
  assert (HW : rq sq448 (el2q true (intmul448_2w st HF FH2)) ((y * y - (z * z + z * z) - x * x) * (y * y + x * x)))
    by (apply q_mul; [exact Lp|exact M1|rewrite E3; exact CF|exact CH]).
  assert (HV : rq sq448 (el2q false (intmul448_2w st HF FH2)) ((y * y + x * x) * (y * y - (z * z + z * z) - x * x)))
    by (apply q_mul; [exact Lp|exact M1|rewrite E4; exact CH|exact CF]).
  set (XY3 := intmul448_2w st FH2 EG2) in *. set (TZ3 := intmul448_2w st HF FH2) in *. assert (LX : l2q XY3) by cl. assert (LT : l2q TZ3) by cl. clearbody XY3 TZ3.
  apply rq_sq_big in HX, HY, HW, HV.
  destruct (r_c2 _ _ false _ _ LX LT HX HV) as [[B1 V1] _]. destruct (r_c2 _ _ true _ _ LX LT HY HW) as [[B2 V2] [B3 V3]].
  assert (LR1 : l2q (fst (compress2448_2w st XY3 TZ3))) by cl. assert (LR2 : l2q (snd (compress2448_2w st XY3 TZ3))) by cl.
  set (R := compress2448_2w st XY3 TZ3) in *. clearbody R.
  split; [exact LR1|]. split; [exact LR2|]. split; [apply mul448_on; exact On|]. split; [exact B1|]. split; [exact B2|]. split; [exact B3|].
  cbv zeta. apply cqm in V1, V2, V3.
  eapply (iso448_back 1 (-1) x y z t Q (t * z + t * z) (y * y - (z * z + z * z) - x * x) (x * x - y * y - 0) (y * y + x * x)); [exact On|exact Rep|discriminate|discriminate|..].
  - replace (t * z + t * z) with (2 * (t * z)) by ring. rewrite Zmult_mod, Etz, <- Zmult_mod. f_equal. ring.
  - f_equal. ring.
  - f_equal. ring.
  - f_equal. ring.
  - rewrite V1. f_equal. ring.
  - rewrite V2. f_equal. ring.
  - rewrite V3. reflexivity.
Qed.
End Proofs.
