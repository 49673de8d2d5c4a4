(** The four-lane formulas of Ed25519 verification: the doubling is right for every point,
    the mixed addition is right unless a limb of E = B - A + 2^34 p borrows. *)
From Coq Require Import ZArith List Bool Lia.
From Verif Require Import Uop X86 Sym Engine Bytes Check FullTac Lanes RedTac Simd Simd255 Fp25519Full
  Fp25519Red Fp25519RedProofs Fp25519RedMore Spec Ladder LadderProofs LadderVec SpecEd CurveInst EdInst Edwards255 EdVec Edwards255Proofs Verify255.
Import ListNotations.
Open Scope Z_scope.
Notation l4 a := (length a = 40%nat).

Definition negw (n : Z) : Z := wsub (Z.lxor n ones64) ones64.
Lemma lxor_ones n : 0 <= n < W -> Z.lxor n ones64 = ones64 - n.
Proof.
  intro H. change ones64 with (Z.ones 64).
  assert (E : Z.ldiff n (Z.ones 64) = 0).
  { rewrite Z.ldiff_ones_r by lia. rewrite Z.shiftr_div_pow2 by lia. change (2 ^ 64) with W. rewrite Z.div_small by exact H. apply Z.shiftl_0_l. }
  rewrite (Z.sub_nocarry_ldiff _ _ E). apply Z.bits_inj'. intros i Hi. rewrite Z.lxor_spec, Z.ldiff_spec.
  apply (f_equal (fun z => Z.testbit z i)) in E. rewrite Z.ldiff_spec, Z.bits_0 in E.
  destruct (Z.testbit n i), (Z.testbit (Z.ones 64) i); try reflexivity. discriminate E.
Qed.
Lemma negw_ok n : 0 <= n < W -> negw n = (- n) mod W.
Proof. intro H. unfold negw, wsub. rewrite lxor_ones by exact H. f_equal. ring. Qed.
Lemma comb_neg y x c : 0 <= x < W -> wadd (wadd y c) (negw x) = comb y x 0 c.
Proof. intro H. unfold wadd, comb. rewrite negw_ok by exact H. rewrite <- Zplus_mod. f_equal. ring. Qed.
Lemma comb_pos x c y : wadd (wadd x c) (wsub (Z.lxor y 0) 0) = comb (comb x 0 0 c) 0 0 y.
Proof.
  unfold wadd, wsub, comb. rewrite Z.lxor_0_r, !Z.sub_0_r. rewrite Zplus_mod_idemp_r. reflexivity.
Qed.
Lemma comb_rsub c b : wsub c b = comb 0 b 0 c. Proof. unfold wsub, comb. f_equal. ring. Qed.

Fixpoint words_ok (a : list Z) : Prop := match a with [] => True | x :: a => 0 <= x < W /\ words_ok a end.
Lemma combs_neg : forall y c x, words_ok x -> zip2 wadd (zip2 wadd y c) (map negw x) = combs y x (repeat 0 (length x)) c.
Proof.
  induction y as [|y0 y IH]; intros [|c0 c] [|x0 x] H; try reflexivity.
  destruct H as [H0 H]. cbn [zip2 map combs repeat length]. rewrite IH by exact H. rewrite comb_neg by exact H0. reflexivity.
Qed.
Definition word_bounds (bs : list (Z * Z)) : bool := forallb (fun b => (0 <=? fst b) && (snd b <? W)) bs.
Lemma arr_words : forall bs a, word_bounds bs = true -> arr_ok bs a -> words_ok a.
Proof.
  induction bs as [|[l h] bs IH]; intros a Hb Ha; inversion Ha as [|? ? ? ? H1 H2]; subst; [exact Logic.I|].
  unfold word_bounds in Hb. cbn [forallb fst snd] in Hb. apply andb_true_iff in Hb as [Hb0 Hb]. apply andb_true_iff in Hb0 as [Hl Hh]. apply Z.leb_le in Hl. apply Z.ltb_lt in Hh.
  unfold inI in H1. cbn [fst snd] in H1. split; [lia|]. exact (IH _ Hb H2).
Qed.

Ltac list40 H := do 40 (apply len_S in H as (? & ? & -> & H)); apply length_zero_iff_nil in H; subst.
Ltac el4s := cbv [pick seq map ix4 vmap vmap2 vmap3 app subadd_body mix_body dbl_body SHUF32_4E VADD VSUB VXOR zip2 PERM64 BLEND32 v0000 combs repeat
    CONST_2P_000 limbs_2P_mix CONST_2_34P_4w limbs_2_34P concat bcast length
    nth Nat.mul Nat.add Nat.div Nat.modulo Nat.divmod fst snd Nat.pow Nat.testbit Nat.odd Nat.even negb Nat.sub Nat.div2].
(** *** Lanes of the loops *)
Notation z10 := (repeat 0 10).
Lemma el_subadd hi Q : l4 hi -> l4 Q ->
  el4 0 (vmap3 subadd_body hi Q CONST_2P_000) = zip2 wadd (zip2 wadd (el4 1 Q) limbs_2P_mix) (map negw (el4 0 Q)) /\
  el4 1 (vmap3 subadd_body hi Q CONST_2P_000) = combs (combs (el4 0 Q) z10 z10 z10) z10 z10 (el4 1 Q) /\
  el4 2 (vmap3 subadd_body hi Q CONST_2P_000) = el4 2 hi /\ el4 3 (vmap3 subadd_body hi Q CONST_2P_000) = el4 3 hi /\
  l4 (vmap3 subadd_body hi Q CONST_2P_000).
Proof.
  intros H K. list40 H. list40 K. split; [|split; [|split; [|split]]].
  - el4s. unfold negw. reflexivity.
  - el4s. rewrite !comb_pos. reflexivity.
  - el4s. reflexivity.
  - el4s. reflexivity.
  - reflexivity.
Qed.
Lemma el_mix v : l4 v ->
  el4 0 (vmap2 mix_body v CONST_2_34P_4w) = zip2 wadd (zip2 wadd (el4 1 v) limbs_2_34P) (map negw (el4 0 v)) /\
  el4 1 (vmap2 mix_body v CONST_2_34P_4w) = combs (combs (el4 3 v) z10 z10 limbs_2_34P) z10 z10 (el4 2 v) /\
  el4 2 (vmap2 mix_body v CONST_2_34P_4w) = combs (combs (el4 1 v) z10 z10 limbs_2_34P) z10 z10 (el4 0 v) /\
  el4 3 (vmap2 mix_body v CONST_2_34P_4w) = zip2 wadd (zip2 wadd (el4 3 v) limbs_2_34P) (map negw (el4 2 v)) /\
  l4 (vmap2 mix_body v CONST_2_34P_4w).
Proof.
  intros H. list40 H. split; [|split; [|split; [|split]]].
  - el4s. unfold negw. reflexivity.
  - el4s. rewrite !comb_pos. reflexivity.
  - el4s. rewrite !comb_pos. reflexivity.
  - el4s. unfold negw. reflexivity.
  - reflexivity.
Qed.
Lemma el_dbl v : l4 v ->
  el4 0 (vmap2 dbl_body v CONST_2_34P_4w) = combs (el4 3 v) z10 z10 (combs (el4 3 v) z10 z10 (combs (el4 0 v) z10 z10 (combs z10 (el4 1 v) z10 limbs_2_34P))) /\
  el4 1 (vmap2 dbl_body v CONST_2_34P_4w) = combs (el4 1 v) z10 z10 (combs (el4 0 v) z10 z10 (combs z10 z10 z10 (combs z10 z10 z10 limbs_2_34P))) /\
  el4 2 (vmap2 dbl_body v CONST_2_34P_4w) = combs (el4 2 v) z10 z10 (combs (el4 2 v) z10 z10 (combs z10 z10 z10 (combs z10 z10 z10 limbs_2_34P))) /\
  el4 3 (vmap2 dbl_body v CONST_2_34P_4w) = combs (el4 1 v) z10 z10 (combs z10 z10 z10 (combs z10 z10 z10 (combs z10 (el4 0 v) z10 limbs_2_34P))) /\
  l4 (vmap2 dbl_body v CONST_2_34P_4w).
Proof.
  intros H. list40 H. split; [|split; [|split; [|split]]]; [el4s; rewrite !comb_rsub, !comb_add; reflexivity..|reflexivity].
Qed.
Lemma el_perm64 i v : l4 v -> forall j, (j < 4)%nat -> el4 j (vmap (PERM64 i) v) = el4 ((i / 4 ^ j) mod 4) v /\ l4 (vmap (PERM64 i) v).
Proof.
  intros H j Hj. list40 H. split; [|reflexivity].
  assert (E : forall v, nth j (PERM64 i v) 0 = nth ((i / 4 ^ j) mod 4) v 0).
  { intro v. do 4 (destruct j as [|j]; [reflexivity|]). lia. }
  pose proof (Nat.mod_upper_bound (i / 4 ^ j) 4 ltac:(discriminate)) as B. set (n := ((i / 4 ^ j) mod 4)%nat) in *. clearbody n.
  assert (L : forall v, length (PERM64 i v) = 4%nat) by reflexivity.
  set (f := PERM64 i) in *. clearbody f.
  cbv [vmap app]. cbn [vmap].
  repeat match goal with |- context [f ?v] => let z := fresh in pose proof (E v) as ?E; pose proof (L v) as z; destruct (f v) as [|? [|? [|? [|? [|]]]]]; try discriminate z; clear z end.
  do 4 (destruct j as [|j]; [do 4 (destruct n as [|n]; [cbn in *; subst; reflexivity|]); lia|]). lia.
Qed.

Lemma rr_combs bx by' bz bc x y z c vx vy vz vc : rr bx x vx -> rr by' y vy -> rr bz z vz -> rr bc c vc ->
  pos_lo bx = true -> pos_lo by' = true -> pos_lo bz = true -> fits bx by' bz bc = true ->
  rr (outb bx bc) (combs x y z c) (vx - vy - vz + vc).
Proof.
  intros [Ax Ex] [Ay Ey] [Az Ez] [Ac Ec] Px Py Pz Hf.
  destruct (combs_ok wt255 _ _ _ _ _ _ _ _ Ax Ay Az Ac Px Py Pz Hf) as [E A]. split; [exact A|].
  rewrite E. exact (cg_add _ _ _ _ (cg_sub _ _ _ _ (cg_sub _ _ _ _ Ex Ey) Ez) Ec).
Qed.
Definition c34b : list (Z * Z) := Eval vm_compute in map (fun x => (x, x)) limbs_2_34P.
Lemma rr_c34 : rr c34b limbs_2_34P 0. Proof. split; [apply arr_lit|]; vm_compute; reflexivity. Qed.
Definition c2pb : list (Z * Z) := Eval vm_compute in map (fun x => (x, x)) limbs_2P_mix.
Lemma rr_c2p : rr c2pb limbs_2P_mix 0. Proof. split; [apply arr_lit|]; vm_compute; reflexivity. Qed.

(** A point in four lanes, a precomputed point in four lanes *)
Definition pt_4w (q : list Z) (P : Z * Z) : Prop := l4 q /\ ptv (el4 0 q) (el4 1 q) (el4 3 q) (el4 2 q) P.
Definition pre_4w (p : list Z) (P : Z * Z) : Prop :=
  l4 p /\ on255 P /\ exists w, w mod p25 <> 0 /\ rr red255 (el4 0 p) ((snd P - fst P) * w) /\ rr red255 (el4 1 p) ((snd P + fst P) * w) /\
  rr red255 (el4 2 p) (2 * d25 * (fst P * snd P * w)) /\ rr red255 (el4 3 p) (2 * w).

Section Proofs.
Variable st : store.
Ltac cl := apply call_length.
Lemma t_mul j a b x y : (j < 4)%nat -> l4 a -> l4 b -> rr red255 (el4 j a) x -> rr red255 (el4 j b) y -> rr sq255 (el4 j (intmul_4w st a b)) (x * y).
Proof. intros Hj L K [A E] [A' E']. destruct (intmul_4w_tight st j Hj a b L K A A') as [C B]. split; [exact B|]. exact (cg_trans _ _ _ C (cg_mul _ _ _ _ E E')). Qed.
Lemma t_mid j a b x y : (j < 4)%nat -> l4 a -> l4 b -> rr mid255 (el4 j a) x -> rr red255 (el4 j b) y -> rr midred255 (el4 j (intmul_4w st a b)) (x * y).
Proof. intros Hj L K [A E] [A' E']. destruct (intmul_4w_mid st j Hj a b L K A A') as [C B]. split; [exact B|]. exact (cg_trans _ _ _ C (cg_mul _ _ _ _ E E')). Qed.
Lemma t_c j a x : (j < 4)%nat -> l4 a -> rr big255 (el4 j a) x -> rr red255 (el4 j (compress_4w st a)) x.
Proof. intros Hj L [A E]. destruct (compress_4w_ok st j Hj a L A) as [C B]. split; [exact B|]. exact (cg_trans _ _ _ C E). Qed.
Lemma t_cf j a x : (j < 4)%nat -> l4 a -> rr wide255 (el4 j a) x -> rr red255 (el4 j (compressfast_4w st a)) x.
Proof. intros Hj L [A E]. destruct (compressfast_4w_red st j Hj a L A) as [C B]. split; [exact B|]. exact (cg_trans _ _ _ C E). Qed.

(** The last product: lanes E, G, H, F times F, H, E, G *)
Lemma fin_4w a b e f g h : l4 a -> l4 b -> rr red255 (el4 0 a) e -> rr red255 (el4 1 a) g -> rr red255 (el4 2 a) h -> rr red255 (el4 3 a) f ->
  rr red255 (el4 0 b) f -> rr red255 (el4 1 b) h -> rr red255 (el4 2 b) e -> rr red255 (el4 3 b) g ->
  let r := compress_4w st (intmul_4w st a b) in
  l4 r /\ rr red255 (el4 0 r) (e * f) /\ rr red255 (el4 1 r) (g * h) /\ rr red255 (el4 2 r) (h * e) /\ rr red255 (el4 3 r) (f * g).
Proof.
  intros L K A0 A1 A2 A3 B0 B1 B2 B3 r. split; [cl|]. unfold r.
  assert (M : l4 (intmul_4w st a b)) by cl.
  split; [|split; [|split]].
  - apply t_c; [lia|exact M|]. apply rr_sq_big. apply t_mul; [lia|assumption..].
  - apply t_c; [lia|exact M|]. apply rr_sq_big. apply t_mul; [lia|assumption..].
  - apply t_c; [lia|exact M|]. apply rr_sq_big. apply t_mul; [lia|assumption..].
  - apply t_c; [lia|exact M|]. apply rr_sq_big. apply t_mul; [lia|assumption..].
Qed.
Ltac perm i v L := 
  destruct (el_perm64 i v L 0 ltac:(lia)) as [?P0 ?LP]; destruct (el_perm64 i v L 1 ltac:(lia)) as [?P1 _];
  destruct (el_perm64 i v L 2 ltac:(lia)) as [?P2 _]; destruct (el_perm64 i v L 3 ltac:(lia)) as [?P3 _].

Theorem doubling_4w_ok q P : pt_4w q P -> pt_4w (doubling_4w st q) (add255 P P).
Proof.
  intros (L & On1 & RX & RY & RZ & RT & Rep). apply rr_fe0 in RX, RY, RZ, RT.
  set (x := fe255 (el4 0 q)) in *. set (y := fe255 (el4 1 q)) in *. set (t := fe255 (el4 2 q)) in *. set (z := fe255 (el4 3 q)) in *.
  unfold doubling_4w.
  pose proof (el_perm64 0xF4 q L 0 ltac:(lia)) as [P0 LP]. pose proof (el_perm64 0xF4 q L 1 ltac:(lia)) as [P1 _].
  pose proof (el_perm64 0xF4 q L 2 ltac:(lia)) as [P2 _]. pose proof (el_perm64 0xF4 q L 3 ltac:(lia)) as [P3 _].
  change ((0xF4 / 4 ^ 0) mod 4)%nat with 0%nat in P0. change ((0xF4 / 4 ^ 1) mod 4)%nat with 1%nat in P1.
  change ((0xF4 / 4 ^ 2) mod 4)%nat with 3%nat in P2. change ((0xF4 / 4 ^ 3) mod 4)%nat with 3%nat in P3.
  set (XYZZ := vmap (PERM64 0xF4) q) in *. clearbody XYZZ.
  assert (RA : rr sq255 (el4 0 (intmul_4w st q XYZZ)) (x * x)) by (apply t_mul; [lia|assumption|assumption|assumption|rewrite P0; assumption]).
  assert (RB : rr sq255 (el4 1 (intmul_4w st q XYZZ)) (y * y)) by (apply t_mul; [lia|assumption|assumption|assumption|rewrite P1; assumption]).
  assert (RE : rr sq255 (el4 2 (intmul_4w st q XYZZ)) (t * z)) by (apply t_mul; [lia|assumption|assumption|assumption|rewrite P2; assumption]).
  assert (RC : rr sq255 (el4 3 (intmul_4w st q XYZZ)) (z * z)) by (apply t_mul; [lia|assumption|assumption|assumption|rewrite P3; assumption]).
  set (v := intmul_4w st q XYZZ) in *. assert (Lv : l4 v) by cl. clearbody v.
  destruct (el_dbl v Lv) as (D0 & D1 & D2 & D3 & LD). set (w := vmap2 dbl_body v CONST_2_34P_4w) in *. clearbody w.
  assert (SF : rr big255 (el4 0 w) (z * z - 0 - 0 + (z * z - 0 - 0 + (x * x - 0 - 0 + (0 - y * y - 0 + 0))))).
  { rewrite D0. eapply rr_le; [|eapply rr_combs; [exact RC|exact rr_zero|exact rr_zero|eapply rr_combs; [exact RC|exact rr_zero|exact rr_zero|eapply rr_combs;
      [exact RA|exact rr_zero|exact rr_zero|eapply rr_combs; [exact rr_zero|exact RB|exact rr_zero|exact rr_c34|reflexivity..]|reflexivity..]|reflexivity..]|reflexivity..]]. vm_compute. reflexivity. }
  assert (SH : rr big255 (el4 1 w) (y * y - 0 - 0 + (x * x - 0 - 0 + (0 - 0 - 0 + (0 - 0 - 0 + 0))))).
  { rewrite D1. eapply rr_le; [|eapply rr_combs; [exact RB|exact rr_zero|exact rr_zero|eapply rr_combs; [exact RA|exact rr_zero|exact rr_zero|eapply rr_combs;
      [exact rr_zero|exact rr_zero|exact rr_zero|eapply rr_combs; [exact rr_zero|exact rr_zero|exact rr_zero|exact rr_c34|reflexivity..]|reflexivity..]|reflexivity..]|reflexivity..]]. vm_compute. reflexivity. }
  assert (SE : rr big255 (el4 2 w) (t * z - 0 - 0 + (t * z - 0 - 0 + (0 - 0 - 0 + (0 - 0 - 0 + 0))))).
  { rewrite D2. eapply rr_le; [|eapply rr_combs; [exact RE|exact rr_zero|exact rr_zero|eapply rr_combs; [exact RE|exact rr_zero|exact rr_zero|eapply rr_combs;
      [exact rr_zero|exact rr_zero|exact rr_zero|eapply rr_combs; [exact rr_zero|exact rr_zero|exact rr_zero|exact rr_c34|reflexivity..]|reflexivity..]|reflexivity..]|reflexivity..]]. vm_compute. reflexivity. }
  assert (SG : rr big255 (el4 3 w) (y * y - 0 - 0 + (0 - 0 - 0 + (0 - 0 - 0 + (0 - x * x - 0 + 0))))).
  { rewrite D3. eapply rr_le; [|eapply rr_combs; [exact RB|exact rr_zero|exact rr_zero|eapply rr_combs; [exact rr_zero|exact rr_zero|exact rr_zero|eapply rr_combs;
      [exact rr_zero|exact rr_zero|exact rr_zero|eapply rr_combs; [exact rr_zero|exact RA|exact rr_zero|exact rr_c34|reflexivity..]|reflexivity..]|reflexivity..]|reflexivity..]]. vm_compute. reflexivity. }
  apply (t_c 0) in SF; [|lia|exact LD]. apply (t_c 1) in SH; [|lia|exact LD]. apply (t_c 2) in SE; [|lia|exact LD]. apply (t_c 3) in SG; [|lia|exact LD].
  set (c := compress_4w st w) in *. assert (Lc : l4 c) by cl. clearbody c.
  pose proof (el_perm64 0x1E c Lc 0 ltac:(lia)) as [Q0 LQ]. pose proof (el_perm64 0x1E c Lc 1 ltac:(lia)) as [Q1 _].
  pose proof (el_perm64 0x1E c Lc 2 ltac:(lia)) as [Q2 _]. pose proof (el_perm64 0x1E c Lc 3 ltac:(lia)) as [Q3 _].
  change ((0x1E / 4 ^ 0) mod 4)%nat with 2%nat in Q0. change ((0x1E / 4 ^ 1) mod 4)%nat with 3%nat in Q1.
  change ((0x1E / 4 ^ 2) mod 4)%nat with 1%nat in Q2. change ((0x1E / 4 ^ 3) mod 4)%nat with 0%nat in Q3.
  set (pc := vmap (PERM64 0x1E) c) in *. clearbody pc. rewrite <- Q0 in SE. rewrite <- Q1 in SG. rewrite <- Q2 in SH. rewrite <- Q3 in SF.
  destruct (fin_4w pc c _ _ _ _ LQ Lc SE SG SH SF) as (Lr & [Bx Ex] & [By Ey] & [Bt Et] & [Bz Ez]); [rewrite <- Q3; exact SF|rewrite <- Q2; exact SH|rewrite <- Q0; exact SE|rewrite <- Q1; exact SG|].
  set (r := compress_4w st (intmul_4w st pc c)) in *. clearbody r.
  split; [exact Lr|]. split; [apply add255_on; assumption|]. split; [exact Bx|]. split; [exact By|]. split; [exact Bz|]. split; [exact Bt|].
  apply cgm in Ex, Ey, Ez, Et.
  assert (Etz : (t * z) mod p25 = (x * y) mod p25).
  { destruct P as [qx qy]. destruct Rep as (_ & R1 & R2 & R3). change p_ed255 with p25 in *.
    rewrite (Zmult_mod x), R1, R2, <- Zmult_mod. rewrite (Zmult_mod t), R3, <- Zmult_mod. f_equal. ring. }
  eapply (reps255_dbl 1 1 x y z t P); [exact On1|exact Rep|discriminate|discriminate| | | | |exact Ex|exact Ey|exact Ez| ].
  - replace (t * z - 0 - 0 + (t * z - 0 - 0 + (0 - 0 - 0 + (0 - 0 - 0 + 0)))) with (2 * (t * z)) by ring. rewrite Zmult_mod, Etz, <- Zmult_mod. f_equal. ring.
  - f_equal. ring.
  - f_equal. ring.
  - f_equal. ring.
  - rewrite Et. f_equal. ring.
Qed.

(** No limb of B + 2^34 p - A borrows *)
Fixpoint no_borrow (b a c : list Z) : Prop :=
  match b, a, c with b0 :: b, a0 :: a, c0 :: c => a0 <= b0 + c0 /\ no_borrow b a c | _, _, _ => True end.
Lemma combs_nb : forall w bb ba bc b a c, arr_ok bb b -> arr_ok ba a -> arr_ok bc c -> pos_lo ba = true ->
  fits bb (repeat (0, 0) (length bb)) (repeat (0, 0) (length bb)) bc = true -> pos_lo bc = true -> length ba = length bb -> no_borrow b a c ->
  wsum w (combs b a (repeat 0 (length b)) c) = wsum w b - wsum w a + wsum w c /\ arr_ok (outb bb bc) (combs b a (repeat 0 (length b)) c).
Proof.
  induction w as [|w0 w IH]; intros bb; [revert bb|].
  - induction bb as [|[lb hb] bb IH]; intros ba bc b a c Hb Ha Hc Pa Hf Pc L N.
    + inversion Hb; subst. destruct ba; [|discriminate L]. destruct bc as [|[lc hc] bc]; [|discriminate Hf]. inversion Ha; inversion Hc; subst. split; [reflexivity|constructor].
    + destruct ba as [|[la ha] ba]; [discriminate L|]. destruct bc as [|[lc hc] bc]; [discriminate Hf|].
      inversion Hb as [|? b0 ? b' B0 B]; subst. inversion Ha as [|? a0 ? a' A0 A]; subst. inversion Hc as [|? c0 ? c' C0 C]; subst.
      cbn [fits repeat length] in Hf. apply andb_true_iff in Hf as [Hf0 Hf]. apply andb_true_iff in Hf0 as [_ Hf0]. apply Z.ltb_lt in Hf0.
      cbn [pos_lo forallb fst] in Pa, Pc. apply andb_true_iff in Pa as [Pa0 Pa]. apply andb_true_iff in Pc as [Pc0 Pc]. apply Z.leb_le in Pa0, Pc0.
      destruct N as [N0 N]. cbn [length] in L. injection L as L.
      destruct (IH ba bc b' a' c' B A C Pa Hf Pc L N) as [_ O]. split; [reflexivity|].
      cbn [combs repeat length outb zip2]. constructor; [|exact O].
      unfold inI, comb in *. cbn [fst snd] in *. rewrite Z.mod_small by lia. lia.
  - intros ba bc b a c Hb Ha Hc Pa Hf Pc L N. destruct bb as [|[lb hb] bb].
    + inversion Hb; subst. destruct ba; [|discriminate L]. destruct bc as [|[lc hc] bc]; [|discriminate Hf]. inversion Ha; inversion Hc; subst. split; [reflexivity|constructor].
    + destruct ba as [|[la ha] ba]; [discriminate L|]. destruct bc as [|[lc hc] bc]; [discriminate Hf|].
      inversion Hb as [|? b0 ? b' B0 B]; subst. inversion Ha as [|? a0 ? a' A0 A]; subst. inversion Hc as [|? c0 ? c' C0 C]; subst.
      cbn [fits repeat length] in Hf. apply andb_true_iff in Hf as [Hf0 Hf]. apply andb_true_iff in Hf0 as [_ Hf0]. apply Z.ltb_lt in Hf0.
      cbn [pos_lo forallb fst] in Pa, Pc. apply andb_true_iff in Pa as [Pa0 Pa]. apply andb_true_iff in Pc as [Pc0 Pc]. apply Z.leb_le in Pa0, Pc0.
      destruct N as [N0 N]. cbn [length] in L. injection L as L.
      destruct (IH bb ba bc b' a' c' B A C Pa Hf Pc L N) as [S O].
      assert (K : comb b0 a0 0 c0 = b0 - a0 + c0).
      { unfold inI, comb in *. cbn [fst snd] in *. rewrite Z.mod_small by lia. lia. }
      cbn [combs repeat length outb zip2 wsum]. rewrite K, S. split; [ring|].
      constructor; [|exact O]. unfold inI in *. cbn [fst snd] in *. lia.
Qed.
Lemma rr_nb bb ba bc b a c vb va vc : rr bb b vb -> rr ba a va -> rr bc c vc -> pos_lo ba = true -> length b = 10%nat ->
  fits bb (repeat (0, 0) (length bb)) (repeat (0, 0) (length bb)) bc = true -> pos_lo bc = true -> length ba = length bb -> no_borrow b a c ->
  rr (outb bb bc) (combs b a z10 c) (vb - va + vc).
Proof.
  intros [B Eb] [A Ea] [C Ec] Pa Lb Hf Pc L N. destruct (combs_nb wt255 _ _ _ _ _ _ B A C Pa Hf Pc L N) as [E O]. rewrite Lb in *.
  split; [exact O|]. rewrite E. exact (cg_add _ _ _ _ (cg_sub _ _ _ _ Eb Ea) Ec).
Qed.
Lemma pick_len f n l : length (pick f n l) = n. Proof. unfold pick. now rewrite map_length, seq_length. Qed.

(** The condition on the limbs of the product [A|B|C|D] *)
Definition mix_clean (Q P : list Z) : Prop := no_borrow (el4 1 (mix_ABCD st Q P)) (el4 0 (mix_ABCD st Q P)) limbs_2_34P.
Lemma subadd_ok hi Q x y : l4 hi -> l4 Q -> rr red255 (el4 0 Q) x -> rr red255 (el4 1 Q) y ->
  let r := vmap3 subadd_body hi Q CONST_2P_000 in
  l4 r /\ rr mid255 (el4 0 r) (y - x) /\ rr mid255 (el4 1 r) (x + y) /\ el4 2 r = el4 2 hi /\ el4 3 r = el4 3 hi.
Proof.
  intros Lh LQ RX RY r. destruct (el_subadd hi Q Lh LQ) as (E0 & E1 & E2 & E3 & L). fold r in E0, E1, E2, E3, L. split; [exact L|].
  rewrite E0, E1, E2, E3. split; [|split; [|split; reflexivity]].
  - rewrite combs_neg by (eapply arr_words; [|exact (proj1 RX)]; reflexivity). rewrite pick_len.
    eapply rr_cg; [|eapply rr_le; [|eapply rr_combs; [exact RY|exact RX|exact rr_zero|exact rr_c2p|reflexivity..]]]; [apply cg_of; f_equal; ring|vm_compute; reflexivity].
  - eapply rr_cg; [|eapply rr_le; [|eapply rr_combs; [eapply rr_combs; [exact RX|exact rr_zero|exact rr_zero|exact rr_zero|reflexivity..]|exact rr_zero|exact rr_zero|exact RY|reflexivity..]]];
      [apply cg_of; f_equal; ring|vm_compute; reflexivity].
Qed.
Theorem mixadd_4w_ok q p Q P : pt_4w q Q -> pre_4w p P -> mix_clean q p -> pt_4w (mixadd_4w st q p) (add255 Q P).
Proof.
  intros (L & On1 & RX & RY & RZ & RT & Rep) (Lp & On2 & w & Hw & PS & PA & PT & PZ) Hc. apply rr_fe0 in RX, RY, RZ, RT.
  set (x := fe255 (el4 0 q)) in *. set (y := fe255 (el4 1 q)) in *. set (t := fe255 (el4 2 q)) in *. set (z := fe255 (el4 3 q)) in *.
  unfold mix_clean, mixadd_4w, mix_ABCD in *.
  destruct (subadd_ok q q x y L L RX RY) as (Ls & S0 & S1 & S2 & S3). set (s := vmap3 subadd_body q q CONST_2P_000) in *. clearbody s.
  rewrite <- S2 in RT. rewrite <- S3 in RZ.
  pose proof (t_mid 0 _ _ _ _ ltac:(lia) Ls Lp S0 PS) as VA. pose proof (t_mid 1 _ _ _ _ ltac:(lia) Ls Lp S1 PA) as VB.
  pose proof (t_mul 2 _ _ _ _ ltac:(lia) Ls Lp RT PT) as VC. pose proof (t_mul 3 _ _ _ _ ltac:(lia) Ls Lp RZ PZ) as VD.
  set (v := intmul_4w st s p) in *. assert (Lv : l4 v) by cl. clearbody v.
  destruct (el_mix v Lv) as (M0 & M1 & M2 & M3 & LM). set (m := vmap2 mix_body v CONST_2_34P_4w) in *. clearbody m.
  rewrite combs_neg in M0 by (eapply arr_words; [|exact (proj1 VA)]; reflexivity). rewrite combs_neg in M3 by (eapply arr_words; [|exact (proj1 VC)]; reflexivity).
  rewrite pick_len in M0, M3.
  assert (KE : rr big255 (el4 0 m) ((x + y) * ((snd P + fst P) * w) - (y - x) * ((snd P - fst P) * w) + 0)).
  { rewrite M0. eapply rr_le; [|eapply rr_nb; [exact VB|exact VA|exact rr_c34|reflexivity|apply pick_len|reflexivity|reflexivity|reflexivity|exact Hc]]. vm_compute. reflexivity. }
  assert (KG : rr big255 (el4 1 m) (z * (2 * w) - 0 - 0 + 0 - 0 - 0 + t * (2 * d25 * (fst P * snd P * w)))).
  { rewrite M1. eapply rr_le; [|eapply rr_combs; [eapply rr_combs; [exact VD|exact rr_zero|exact rr_zero|exact rr_c34|reflexivity..]|exact rr_zero|exact rr_zero|exact VC|reflexivity..]]. vm_compute. reflexivity. }
  assert (KH : rr big255 (el4 2 m) ((x + y) * ((snd P + fst P) * w) - 0 - 0 + 0 - 0 - 0 + (y - x) * ((snd P - fst P) * w))).
  { rewrite M2. eapply rr_le; [|eapply rr_combs; [eapply rr_combs; [exact VB|exact rr_zero|exact rr_zero|exact rr_c34|reflexivity..]|exact rr_zero|exact rr_zero|exact VA|reflexivity..]]. vm_compute. reflexivity. }
  assert (KF : rr big255 (el4 3 m) (z * (2 * w) - t * (2 * d25 * (fst P * snd P * w)) - 0 + 0)).
  { rewrite M3. eapply rr_le; [|eapply rr_combs; [exact VD|exact VC|exact rr_zero|exact rr_c34|reflexivity..]]. vm_compute. reflexivity. }
  apply (t_c 0) in KE; [|lia|exact LM]. apply (t_c 1) in KG; [|lia|exact LM]. apply (t_c 2) in KH; [|lia|exact LM]. apply (t_c 3) in KF; [|lia|exact LM].
  set (c := compress_4w st m) in *. assert (Lc : l4 c) by cl. clearbody c.
  pose proof (el_perm64 0x4B c Lc 0 ltac:(lia)) as [Q0 LQ]. pose proof (el_perm64 0x4B c Lc 1 ltac:(lia)) as [Q1 _].
  pose proof (el_perm64 0x4B c Lc 2 ltac:(lia)) as [Q2 _]. pose proof (el_perm64 0x4B c Lc 3 ltac:(lia)) as [Q3 _].
  change ((0x4B / 4 ^ 0) mod 4)%nat with 3%nat in Q0. change ((0x4B / 4 ^ 1) mod 4)%nat with 2%nat in Q1.
  change ((0x4B / 4 ^ 2) mod 4)%nat with 0%nat in Q2. change ((0x4B / 4 ^ 3) mod 4)%nat with 1%nat in Q3.
  set (pc := vmap (PERM64 0x4B) c) in *. clearbody pc.
  destruct (fin_4w c pc _ _ _ _ Lc LQ KE KG KH KF) as (Lr & [Bx Ex] & [By Ey] & [Bt Et] & [Bz Ez]); [rewrite Q0; exact KF|rewrite Q1; exact KH|rewrite Q2; exact KE|rewrite Q3; exact KG|].
  set (r := compress_4w st (intmul_4w st c pc)) in *. clearbody r.
  split; [exact Lr|]. split; [apply add255_on; assumption|]. split; [exact Bx|]. split; [exact By|]. split; [exact Bz|]. split; [exact Bt|].
  apply cgm in Ex, Ey, Ez, Et.
  assert (Rep2 : reps255 (fst P * w) (snd P * w) w (fst P * snd P * w) P).
  { destruct P as [px py]. cbn [fst snd]. split; [exact Hw|]. split; [reflexivity|]. split; reflexivity. }
  eapply (reps255_add 2 2 x y z t Q (fst P * w) (snd P * w) w (fst P * snd P * w) P); [exact On1|exact On2|exact Rep|exact Rep2|discriminate|discriminate| | | | |exact Ex|exact Ey|exact Ez| ].
  - f_equal. ring.
  - f_equal. ring.
  - f_equal. ring.
  - f_equal. ring.
  - rewrite Et. f_equal. ring.
Qed.
End Proofs.
