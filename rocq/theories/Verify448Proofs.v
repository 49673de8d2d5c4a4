(** The four-lane formulas of Ed448 verification: the doubling is right for every point,
    the mixed addition is right unless a limb of E = B - A + 2^34 p borrows. *)
From Coq Require Import ZArith List Bool Lia.
From Verif Require Import Uop X86 Sym Engine Bytes Check FullTac Lanes RedTac Simd Simd448 Fp448Full Fp448FullProofs FullMore
  Fp25519Red Fp25519RedProofs Fp448Red Fp448RedProofs Fp448RedMore Fp448RedRoot Spec Ladder LadderProofs LadderVec LadderVec448 SpecEd SpecIso CurveInst EdInst448
  Edwards255 EdVec Edwards255Proofs Verify255 Verify255Proofs Edwards448 EdVec448 Edwards448Proofs Prod448 Limb448 Mix448.
Import ListNotations.
Open Scope Z_scope.
Ltac list64 H := do 64 (apply len_S in H as (? & ? & -> & H)); apply length_zero_iff_nil in H; subst.
Ltac el4v := cbv [pick seq map ix4 vmap vmap2 vmap3 app subadd_body mix_body dbl_body SHUF32_4E VADD VSUB VXOR zip2 PERM64 BLEND32 v0000 combs repeat
    CONST_2P448_000 limbs_2P448 CONST_2_34P448_4w limbs_2_34P448 concat bcast length
    nth Nat.mul Nat.add Nat.div Nat.modulo Nat.divmod fst snd Nat.pow Nat.testbit Nat.odd Nat.even negb Nat.sub Nat.div2].
(** *** Lanes of the loops *)
Lemma el_subaddq hi Q : l4q hi -> l4q Q ->
  el4q 0 (vmap3 subadd_body hi Q CONST_2P448_000) = zip2 wadd (zip2 wadd (el4q 1 Q) limbs_2P448) (map negw (el4q 0 Q)) /\
  el4q 1 (vmap3 subadd_body hi Q CONST_2P448_000) = combs (combs (el4q 0 Q) z16 z16 z16) z16 z16 (el4q 1 Q) /\
  el4q 2 (vmap3 subadd_body hi Q CONST_2P448_000) = el4q 2 hi /\ el4q 3 (vmap3 subadd_body hi Q CONST_2P448_000) = el4q 3 hi /\
  l4q (vmap3 subadd_body hi Q CONST_2P448_000).
Proof.
  intros H K. list64 H. list64 K. split; [|split; [|split; [|split]]].
  - el4v. unfold negw. reflexivity.
  - el4v. rewrite !comb_pos. reflexivity.
  - el4v. reflexivity.
  - el4v. reflexivity.
  - reflexivity.
Qed.
Lemma el_mixq v : l4q v ->
  el4q 0 (vmap2 mix_body v CONST_2_34P448_4w) = zip2 wadd (zip2 wadd (el4q 1 v) limbs_2_34P448) (map negw (el4q 0 v)) /\
  el4q 1 (vmap2 mix_body v CONST_2_34P448_4w) = combs (combs (el4q 3 v) z16 z16 limbs_2_34P448) z16 z16 (el4q 2 v) /\
  el4q 2 (vmap2 mix_body v CONST_2_34P448_4w) = combs (combs (el4q 1 v) z16 z16 limbs_2_34P448) z16 z16 (el4q 0 v) /\
  el4q 3 (vmap2 mix_body v CONST_2_34P448_4w) = zip2 wadd (zip2 wadd (el4q 3 v) limbs_2_34P448) (map negw (el4q 2 v)) /\
  l4q (vmap2 mix_body v CONST_2_34P448_4w).
Proof.
  intros H. list64 H. split; [|split; [|split; [|split]]].
  - el4v. unfold negw. reflexivity.
  - el4v. rewrite !comb_pos. reflexivity.
  - el4v. rewrite !comb_pos. reflexivity.
  - el4v. unfold negw. reflexivity.
  - reflexivity.
Qed.
Lemma el_dblq v : l4q v ->
  el4q 0 (vmap2 dbl_body v CONST_2_34P448_4w) = combs (el4q 3 v) z16 z16 (combs (el4q 3 v) z16 z16 (combs (el4q 0 v) z16 z16 (combs z16 (el4q 1 v) z16 limbs_2_34P448))) /\
  el4q 1 (vmap2 dbl_body v CONST_2_34P448_4w) = combs (el4q 1 v) z16 z16 (combs (el4q 0 v) z16 z16 (combs z16 z16 z16 (combs z16 z16 z16 limbs_2_34P448))) /\
  el4q 2 (vmap2 dbl_body v CONST_2_34P448_4w) = combs (el4q 2 v) z16 z16 (combs (el4q 2 v) z16 z16 (combs z16 z16 z16 (combs z16 z16 z16 limbs_2_34P448))) /\
  el4q 3 (vmap2 dbl_body v CONST_2_34P448_4w) = combs (el4q 1 v) z16 z16 (combs z16 z16 z16 (combs z16 z16 z16 (combs z16 (el4q 0 v) z16 limbs_2_34P448))) /\
  l4q (vmap2 dbl_body v CONST_2_34P448_4w).
Proof.
  intros H. list64 H. split; [|split; [|split; [|split]]]; [el4v; rewrite !comb_rsub, !comb_add; reflexivity..|reflexivity].
Qed.
Lemma el_perm64q i v : l4q v -> forall j, (j < 4)%nat -> el4q j (vmap (PERM64 i) v) = el4q ((i / 4 ^ j) mod 4) v /\ l4q (vmap (PERM64 i) v).
Proof.
  intros H j Hj. list64 H. split; [|reflexivity].
  assert (E : forall v, nth j (PERM64 i v) 0 = nth ((i / 4 ^ j) mod 4) v 0).
  { intro v. do 4 (destruct j as [|j]; [reflexivity|]). lia. }
  pose proof (Nat.mod_upper_bound (i / 4 ^ j) 4 ltac:(discriminate)) as B. set (n := ((i / 4 ^ j) mod 4)%nat) in *. clearbody n.
  assert (L : forall v, length (PERM64 i v) = 4%nat) by reflexivity.
  set (f := PERM64 i) in *. clearbody f.
  cbv [vmap app]. cbn [vmap].
  repeat match goal with |- context [f ?v] => let z := fresh in pose proof (E v) as ?E; pose proof (L v) as z; destruct (f v) as [|? [|? [|? [|? [|]]]]]; try discriminate z; clear z end.
  do 4 (destruct j as [|j]; [do 4 (destruct n as [|n]; [cbn in *; subst; reflexivity|]); lia|]). lia.
Qed.

Lemma rq_combs bx by' bz bc x y z c vx vy vz vc : rq bx x vx -> rq by' y vy -> rq bz z vz -> rq bc c vc ->
  pos_lo bx = true -> pos_lo by' = true -> pos_lo bz = true -> fits bx by' bz bc = true ->
  rq (outb bx bc) (combs x y z c) (vx - vy - vz + vc).
Proof.
  intros [Ax Ex] [Ay Ey] [Az Ez] [Ac Ec] Px Py Pz Hf.
  destruct (combs_ok wt448 _ _ _ _ _ _ _ _ Ax Ay Az Ac Px Py Pz Hf) as [E A]. split; [exact A|].
  rewrite E. exact (cq_add _ _ _ _ (cq_sub _ _ _ _ (cq_sub _ _ _ _ Ex Ey) Ez) Ec).
Qed.
Lemma rq_c34 : rq b34 limbs_2_34P448 0. Proof. split; [exact b34_ok|exact c34_val]. Qed.

(** The image of a point in four lanes, a precomputed point in four lanes *)
Definition pt448_4w (q : list Z) (P : Z * Z) : Prop := l4q q /\ ptv448 (el4q 0 q) (el4q 1 q) (el4q 3 q) (el4q 2 q) P.
Definition pre448_4w (p : list Z) (P : Z * Z) : Prop :=
  l4q p /\ on448 P /\ exists w, w mod p44 <> 0 /\ rq red448 (el4q 0 p) ((snd (iso448 P) - fst (iso448 P)) * w) /\ rq red448 (el4q 1 p) ((snd (iso448 P) + fst (iso448 P)) * w) /\
  rq red448 (el4q 2 p) (2 * (d_ed448 - 1) * (fst (iso448 P) * snd (iso448 P) * w)) /\ rq red448 (el4q 3 p) (2 * w).

Section Proofs.
Variable st : store.
Ltac cl := apply call_length.
Lemma t_mulq j a b x y : (j < 4)%nat -> l4q a -> l4q b -> rq red448 (el4q j a) x -> rq red448 (el4q j b) y -> rq sq448 (el4q j (intmul448_4w st a b)) (x * y).
Proof. intros Hj L K [A E] [A' E']. destruct (intmul448_4w_tight st j Hj a b L K A A') as [C B]. split; [exact B|]. exact (cq_trans _ _ _ C (cq_mul _ _ _ _ E E')). Qed.
Lemma t_cq j a x : (j < 4)%nat -> l4q a -> rq big448 (el4q j a) x -> rq red448 (el4q j (compress448_4w st a)) x.
Proof. intros Hj L [A E]. destruct (compress448_4w_ok st j Hj a L A) as [C B]. split; [exact B|]. exact (cq_trans _ _ _ C E). Qed.
Lemma t_cfq j a x : (j < 4)%nat -> l4q a -> rq wide448 (el4q j a) x -> rq red448 (el4q j (compressfast448_4w st a)) x.
Proof. intros Hj L [A E]. destruct (compressfast448_4w_red st j Hj a L A) as [C B]. split; [exact B|]. exact (cq_trans _ _ _ C E). Qed.

(** The last product: lanes E, G, H, F times F, H, E, G *)
Lemma fin448_4w a b e f g h : l4q a -> l4q b -> rq red448 (el4q 0 a) e -> rq red448 (el4q 1 a) g -> rq red448 (el4q 2 a) h -> rq red448 (el4q 3 a) f ->
  rq red448 (el4q 0 b) f -> rq red448 (el4q 1 b) h -> rq red448 (el4q 2 b) e -> rq red448 (el4q 3 b) g ->
  let r := compress448_4w st (intmul448_4w st a b) in
  l4q r /\ rq red448 (el4q 0 r) (e * f) /\ rq red448 (el4q 1 r) (g * h) /\ rq red448 (el4q 2 r) (h * e) /\ rq red448 (el4q 3 r) (f * g).
Proof.
  intros L K A0 A1 A2 A3 B0 B1 B2 B3 r. split; [cl|]. unfold r.
  assert (M : l4q (intmul448_4w st a b)) by cl.
  split; [|split; [|split]].
  - apply t_cq; [lia|exact M|]. apply rq_sq_big. apply t_mulq; [lia|assumption..].
  - apply t_cq; [lia|exact M|]. apply rq_sq_big. apply t_mulq; [lia|assumption..].
  - apply t_cq; [lia|exact M|]. apply rq_sq_big. apply t_mulq; [lia|assumption..].
  - apply t_cq; [lia|exact M|]. apply rq_sq_big. apply t_mulq; [lia|assumption..].
Qed.
Ltac perm i v L := 
  destruct (el_perm64q i v L 0 ltac:(lia)) as [?P0 ?LP]; destruct (el_perm64q i v L 1 ltac:(lia)) as [?P1 _];
  destruct (el_perm64q i v L 2 ltac:(lia)) as [?P2 _]; destruct (el_perm64q i v L 3 ltac:(lia)) as [?P3 _].

Theorem doubling448_4w_ok q P : pt448_4w q P -> pt448_4w (doubling448_4w st q) (add448 P P).
Proof.
  intros (L & On1 & RX & RY & RZ & RT & Rep). apply rq_fe0 in RX, RY, RZ, RT.
  set (x := fe448 (el4q 0 q)) in *. set (y := fe448 (el4q 1 q)) in *. set (t := fe448 (el4q 2 q)) in *. set (z := fe448 (el4q 3 q)) in *.
  unfold doubling448_4w.
  pose proof (el_perm64q 0xF4 q L 0 ltac:(lia)) as [P0 LP]. pose proof (el_perm64q 0xF4 q L 1 ltac:(lia)) as [P1 _].
  pose proof (el_perm64q 0xF4 q L 2 ltac:(lia)) as [P2 _]. pose proof (el_perm64q 0xF4 q L 3 ltac:(lia)) as [P3 _].
  change ((0xF4 / 4 ^ 0) mod 4)%nat with 0%nat in P0. change ((0xF4 / 4 ^ 1) mod 4)%nat with 1%nat in P1.
  change ((0xF4 / 4 ^ 2) mod 4)%nat with 3%nat in P2. change ((0xF4 / 4 ^ 3) mod 4)%nat with 3%nat in P3.
  set (XYZZ := vmap (PERM64 0xF4) q) in *. clearbody XYZZ.
  assert (RA : rq sq448 (el4q 0 (intmul448_4w st q XYZZ)) (x * x)) by (apply t_mulq; [lia|assumption|assumption|assumption|rewrite P0; assumption]).
  assert (RB : rq sq448 (el4q 1 (intmul448_4w st q XYZZ)) (y * y)) by (apply t_mulq; [lia|assumption|assumption|assumption|rewrite P1; assumption]).
  assert (RE : rq sq448 (el4q 2 (intmul448_4w st q XYZZ)) (t * z)) by (apply t_mulq; [lia|assumption|assumption|assumption|rewrite P2; assumption]).
  assert (RC : rq sq448 (el4q 3 (intmul448_4w st q XYZZ)) (z * z)) by (apply t_mulq; [lia|assumption|assumption|assumption|rewrite P3; assumption]).
  set (v := intmul448_4w st q XYZZ) in *. assert (Lv : l4q v) by cl. clearbody v.
  destruct (el_dblq v Lv) as (D0 & D1 & D2 & D3 & LD). set (w := vmap2 dbl_body v CONST_2_34P448_4w) in *. clearbody w.
  assert (SF : rq big448 (el4q 0 w) (z * z - 0 - 0 + (z * z - 0 - 0 + (x * x - 0 - 0 + (0 - y * y - 0 + 0))))).
  { rewrite D0. eapply rq_le; [|eapply rq_combs; [exact RC|exact rq_zero|exact rq_zero|eapply rq_combs; [exact RC|exact rq_zero|exact rq_zero|eapply rq_combs;
      [exact RA|exact rq_zero|exact rq_zero|eapply rq_combs; [exact rq_zero|exact RB|exact rq_zero|exact rq_c34|reflexivity..]|reflexivity..]|reflexivity..]|reflexivity..]]. vm_compute. reflexivity. }
  assert (SH : rq big448 (el4q 1 w) (y * y - 0 - 0 + (x * x - 0 - 0 + (0 - 0 - 0 + (0 - 0 - 0 + 0))))).
  { rewrite D1. eapply rq_le; [|eapply rq_combs; [exact RB|exact rq_zero|exact rq_zero|eapply rq_combs; [exact RA|exact rq_zero|exact rq_zero|eapply rq_combs;
      [exact rq_zero|exact rq_zero|exact rq_zero|eapply rq_combs; [exact rq_zero|exact rq_zero|exact rq_zero|exact rq_c34|reflexivity..]|reflexivity..]|reflexivity..]|reflexivity..]]. vm_compute. reflexivity. }
  assert (SE : rq big448 (el4q 2 w) (t * z - 0 - 0 + (t * z - 0 - 0 + (0 - 0 - 0 + (0 - 0 - 0 + 0))))).
  { rewrite D2. eapply rq_le; [|eapply rq_combs; [exact RE|exact rq_zero|exact rq_zero|eapply rq_combs; [exact RE|exact rq_zero|exact rq_zero|eapply rq_combs;
      [exact rq_zero|exact rq_zero|exact rq_zero|eapply rq_combs; [exact rq_zero|exact rq_zero|exact rq_zero|exact rq_c34|reflexivity..]|reflexivity..]|reflexivity..]|reflexivity..]]. vm_compute. reflexivity. }
  assert (SG : rq big448 (el4q 3 w) (y * y - 0 - 0 + (0 - 0 - 0 + (0 - 0 - 0 + (0 - x * x - 0 + 0))))).
  { rewrite D3. eapply rq_le; [|eapply rq_combs; [exact RB|exact rq_zero|exact rq_zero|eapply rq_combs; [exact rq_zero|exact rq_zero|exact rq_zero|eapply rq_combs;
      [exact rq_zero|exact rq_zero|exact rq_zero|eapply rq_combs; [exact rq_zero|exact RA|exact rq_zero|exact rq_c34|reflexivity..]|reflexivity..]|reflexivity..]|reflexivity..]]. vm_compute. reflexivity. }
  apply (t_cq 0) in SF; [|lia|exact LD]. apply (t_cq 1) in SH; [|lia|exact LD]. apply (t_cq 2) in SE; [|lia|exact LD]. apply (t_cq 3) in SG; [|lia|exact LD].
  set (c := compress448_4w st w) in *. assert (Lc : l4q c) by cl. clearbody c.
  pose proof (el_perm64q 0x1E c Lc 0 ltac:(lia)) as [Q0 LQ]. pose proof (el_perm64q 0x1E c Lc 1 ltac:(lia)) as [Q1 _].
  pose proof (el_perm64q 0x1E c Lc 2 ltac:(lia)) as [Q2 _]. pose proof (el_perm64q 0x1E c Lc 3 ltac:(lia)) as [Q3 _].
  change ((0x1E / 4 ^ 0) mod 4)%nat with 2%nat in Q0. change ((0x1E / 4 ^ 1) mod 4)%nat with 3%nat in Q1.
  change ((0x1E / 4 ^ 2) mod 4)%nat with 1%nat in Q2. change ((0x1E / 4 ^ 3) mod 4)%nat with 0%nat in Q3.
  set (pc := vmap (PERM64 0x1E) c) in *. clearbody pc. rewrite <- Q0 in SE. rewrite <- Q1 in SG. rewrite <- Q2 in SH. rewrite <- Q3 in SF.
  destruct (fin448_4w pc c _ _ _ _ LQ Lc SE SG SH SF) as (Lr & [Bx Ex] & [By Ey] & [Bt Et] & [Bz Ez]); [rewrite <- Q3; exact SF|rewrite <- Q2; exact SH|rewrite <- Q0; exact SE|rewrite <- Q1; exact SG|].
  set (r := compress448_4w st (intmul448_4w st pc c)) in *. clearbody r.
  split; [exact Lr|]. split; [apply add448_on; assumption|]. split; [exact Bx|]. split; [exact By|]. split; [exact Bz|]. split; [exact Bt|].
  apply cqm in Ex, Ey, Ez, Et.
  assert (Etz : (t * z) mod p44 = (x * y) mod p44).
  { destruct (iso448 P) as [qx qy]. destruct Rep as (_ & R1 & R2 & R3). change p_ed448 with p44 in *.
    rewrite (Zmult_mod x), R1, R2, <- Zmult_mod. rewrite (Zmult_mod t), R3, <- Zmult_mod. f_equal. ring. }
  eapply (iso448_dbl 1 1 x y z t P); [exact On1|exact Rep|discriminate|discriminate| | | | |exact Ex|exact Ey|exact Ez| ].
  - replace (t * z - 0 - 0 + (t * z - 0 - 0 + (0 - 0 - 0 + (0 - 0 - 0 + 0)))) with (2 * (t * z)) by ring. rewrite Zmult_mod, Etz, <- Zmult_mod. f_equal. ring.
  - f_equal. ring.
  - f_equal. ring.
  - f_equal. ring.
  - rewrite Et. f_equal. ring.
Qed.

(** ** Mixed addition *)
(** The condition on the limbs of the product [A|B|C|D] *)
Definition mix_clean448 (Q P : list Z) : Prop := no_borrow (el4q 1 (mix448_ABCD st Q P)) (el4q 0 (mix448_ABCD st Q P)) limbs_2_34P448.
Lemma subaddq_ok hi Q : l4q hi -> l4q Q -> is_red448 (el4q 0 Q) -> is_red448 (el4q 1 Q) ->
  let r := vmap3 subadd_body hi Q CONST_2P448_000 in
  l4q r /\ el4q 0 r = ymx (el4q 0 Q) (el4q 1 Q) /\ el4q 1 r = ypx (el4q 0 Q) (el4q 1 Q) /\ el4q 2 r = el4q 2 hi /\ el4q 3 r = el4q 3 hi.
Proof.
  intros Lh LQ RX RY r. destruct (el_subaddq hi Q Lh LQ) as (E0 & E1 & E2 & E3 & L). fold r in E0, E1, E2, E3, L. split; [exact L|].
  rewrite E0, E1, E2, E3. split; [|split; [|split; reflexivity]].
  - rewrite combs_neg by (eapply arr_words; [|exact RX]; reflexivity). rewrite pick_length. apply ymx_eq; assumption.
  - pose proof (combs_vadd (el4q 0 Q) (el4q 1 Q) z16) as E. rewrite !pick_length in E. rewrite E by reflexivity.
    rewrite <- ypx_eq by assumption.
    pose proof (combs_vadd0 (el4q 1 Q) (el4q 0 Q)) as F. rewrite !pick_length in F. rewrite F by reflexivity.
    assert (C : forall u v w, vadd3 u v w = vadd3 v u w) by (clear; induction u as [|? u IH]; intros [|? v] [|? w]; try reflexivity; cbn [vadd3]; rewrite IH; f_equal; ring).
    rewrite C. reflexivity.
Qed.
Lemma val_ymx x y : is_red448 x -> is_red448 y -> cq (fe448 (ymx x y)) (fe448 y - fe448 x).
Proof.
  intros X Y. unfold ymx. rewrite wsum_vsub by (rewrite (arr_len _ _ X), ?(arr_len _ _ Y); reflexivity).
  match goal with |- cq ?u ?v => replace (cq u v) with (cq u (v + 0)) by (f_equal; ring) end. exact (cq_add _ _ _ _ (cq_refl _) c2_val).
Qed.
Lemma wsum_z16 w : wsum w z16 = 0. Proof. apply repeat0_ok. Qed.
Lemma val_ypx x y : is_red448 x -> is_red448 y -> fe448 (ypx x y) = fe448 y + fe448 x.
Proof.
  intros X Y. unfold ypx. rewrite wsum_vadd by (rewrite (arr_len _ _ X), ?(arr_len _ _ Y); reflexivity). rewrite wsum_z16. ring.
Qed.
Lemma mulw_q j a b : (j < 4)%nat -> l4q a -> l4q b -> is_wide448 (el4q j a) -> is_red448 (el4q j b) ->
  el4q j (intmul448_4w st a b) = mp16 (el4q j a) (el4q j b) /\ cq (fe448 (mp16 (el4q j a) (el4q j b))) (fe448 (el4q j a) * fe448 (el4q j b)).
Proof.
  intros Hj La Lb A B. pose proof (intmul448_4w_limbs st j Hj a b La Lb A B) as E. split; [exact E|]. rewrite <- E.
  exact (proj1 (intmul448_4w_wr st j Hj a b La Lb A B)).
Qed.
(** E = B - A and H = B + A of both mixed additions *)
Lemma eh_ok x y s a vs va (A B : list Z) : is_red448 x -> is_red448 y -> rq red448 s vs -> rq red448 a va ->
  A = mp16 (ymx x y) s -> B = mp16 (ypx x y) a ->
  cq (fe448 (mp16 (ymx x y) s)) (fe448 (ymx x y) * fe448 s) -> cq (fe448 (mp16 (ypx x y) a)) (fe448 (ypx x y) * fe448 a) ->
  words_ok A /\ rq big448 (combs B z16 z16 A) ((fe448 y + fe448 x) * va + (fe448 y - fe448 x) * vs) /\
  rq big448 (combs (combs B z16 z16 limbs_2_34P448) z16 z16 A) ((fe448 y + fe448 x) * va + (fe448 y - fe448 x) * vs) /\
  (no_borrow B A limbs_2_34P448 -> rq big448 (combs B A z16 limbs_2_34P448) ((fe448 y + fe448 x) * va - (fe448 y - fe448 x) * vs)).
Proof.
  intros X Y [S Es] [Aa Ea] -> -> VA VB.
  assert (VA' : cq (fe448 (mp16 (ymx x y) s)) ((fe448 y - fe448 x) * vs)) by exact (cq_trans _ _ _ VA (cq_mul _ _ _ _ (val_ymx x y X Y) Es)).
  assert (VB' : cq (fe448 (mp16 (ypx x y) a)) ((fe448 y + fe448 x) * va)) by (rewrite (val_ypx x y X Y) in VB; exact (cq_trans _ _ _ VB (cq_mul _ _ _ _ (cq_refl _) Ea))).
  split; [exact (arr_words mA _ eq_refl (A_ok x y s X Y S))|].
  rewrite (H_sum x y s a X Y S Aa), (H_sum34 x y s a X Y S Aa).
  split; [|split].
  - split; [exact (H_big x y s a X Y S Aa)|]. rewrite wsum_vadd by reflexivity. rewrite wsum_z16, Z.add_0_r. exact (cq_add _ _ _ _ VB' VA').
  - split; [exact (H_big34 x y s a X Y S Aa)|]. rewrite wsum_vadd by reflexivity.
    match goal with |- cq ?u ?v => replace (cq u v) with (cq u (v + 0)) by (f_equal; ring) end. exact (cq_add _ _ _ _ (cq_add _ _ _ _ VB' VA') c34_val).
  - intro N. rewrite (E_diff x y s a X Y S Aa N). split; [exact (E_big x y s a X Y S Aa N)|]. rewrite wsum_vsub by reflexivity.
    match goal with |- cq ?u ?v => replace (cq u v) with (cq u (v + 0)) by (f_equal; ring) end. exact (cq_add _ _ _ _ (cq_sub _ _ _ _ VB' VA') c34_val).
Qed.
Theorem mixadd448_4w_ok q p Q P : pt448_4w q Q -> pre448_4w p P -> mix_clean448 q p -> pt448_4w (mixadd448_4w st q p) (add448 Q P).
Proof.
  intros (L & On1 & RX & RY & RZ & RT & Rep) (Lp & On2 & w & Hw & PS & PA & PT & PZ) Hc.
  pose proof (rq_fe0 _ _ RZ) as QZ. pose proof (rq_fe0 _ _ RT) as QT.
  unfold mix_clean448, mixadd448_4w, mix448_ABCD in *.
  destruct (subaddq_ok q q L L RX RY) as (Ls & S0 & S1 & S2 & S3). set (s := vmap3 subadd_body q q CONST_2P448_000) in *. clearbody s.
  rewrite <- S2 in QT. rewrite <- S3 in QZ.
  pose proof (mulw_q 0 s p ltac:(lia) Ls Lp) as V0. pose proof (mulw_q 1 s p ltac:(lia) Ls Lp) as V1. rewrite S0 in V0. rewrite S1 in V1.
  destruct (V0 (ymx_wide _ _ RX RY) (proj1 PS)) as [E0 VA]. destruct (V1 (ypx_wide _ _ RX RY) (proj1 PA)) as [E1 VB]. clear V0 V1.
  destruct (eh_ok _ _ _ _ _ _ _ _ RX RY PS PA E0 E1 VA VB) as (WA & _ & KH & KE).
  pose proof (t_mulq 2 _ _ _ _ ltac:(lia) Ls Lp QT PT) as VC. pose proof (t_mulq 3 _ _ _ _ ltac:(lia) Ls Lp QZ PZ) as VD.
  specialize (KE Hc). rewrite S2 in QT, VC. rewrite S3 in QZ, VD.
  set (x := fe448 (el4q 0 q)) in *. set (y := fe448 (el4q 1 q)) in *. set (t := fe448 (el4q 2 q)) in *. set (z := fe448 (el4q 3 q)) in *.
  set (v := intmul448_4w st s p) in *. assert (Lv : l4q v) by cl. clearbody v. clear E0 E1 VA VB Hc.
  destruct (el_mixq v Lv) as (M0 & M1 & M2 & M3 & LM). set (m := vmap2 mix_body v CONST_2_34P448_4w) in *. clearbody m.
  rewrite combs_neg in M0 by exact WA. rewrite combs_neg in M3 by (eapply arr_words; [|exact (proj1 VC)]; reflexivity).
  rewrite pick_length in M0, M3. rewrite <- M0 in KE. rewrite <- M2 in KH.
  set (p1 := fst (iso448 P)) in *. set (p2 := snd (iso448 P)) in *.
  assert (KG : rq big448 (el4q 1 m) (z * (2 * w) - 0 - 0 + 0 - 0 - 0 + t * (2 * (d_ed448 - 1) * (p1 * p2 * w)))).
  { rewrite M1. eapply rq_le; [|eapply rq_combs; [eapply rq_combs; [exact VD|exact rq_zero|exact rq_zero|exact rq_c34|reflexivity..]|exact rq_zero|exact rq_zero|exact VC|reflexivity..]]. vm_compute. reflexivity. }
  assert (KF : rq big448 (el4q 3 m) (z * (2 * w) - t * (2 * (d_ed448 - 1) * (p1 * p2 * w)) - 0 + 0)).
  { rewrite M3. eapply rq_le; [|eapply rq_combs; [exact VD|exact VC|exact rq_zero|exact rq_c34|reflexivity..]]. vm_compute. reflexivity. }
  apply (t_cq 0) in KE; [|lia|exact LM]. apply (t_cq 1) in KG; [|lia|exact LM]. apply (t_cq 2) in KH; [|lia|exact LM]. apply (t_cq 3) in KF; [|lia|exact LM].
  set (c := compress448_4w st m) in *. assert (Lc : l4q c) by cl. clearbody c.
  pose proof (el_perm64q 0x4B c Lc 0 ltac:(lia)) as [Q0 LQ]. pose proof (el_perm64q 0x4B c Lc 1 ltac:(lia)) as [Q1 _].
  pose proof (el_perm64q 0x4B c Lc 2 ltac:(lia)) as [Q2 _]. pose proof (el_perm64q 0x4B c Lc 3 ltac:(lia)) as [Q3 _].
  change ((0x4B / 4 ^ 0) mod 4)%nat with 3%nat in Q0. change ((0x4B / 4 ^ 1) mod 4)%nat with 2%nat in Q1.
  change ((0x4B / 4 ^ 2) mod 4)%nat with 0%nat in Q2. change ((0x4B / 4 ^ 3) mod 4)%nat with 1%nat in Q3.
  set (pc := vmap (PERM64 0x4B) c) in *. clearbody pc.
  destruct (fin448_4w c pc _ _ _ _ Lc LQ KE KG KH KF) as (Lr & [Bx Ex] & [By Ey] & [Bt Et] & [Bz Ez]); [rewrite Q0; exact KF|rewrite Q1; exact KH|rewrite Q2; exact KE|rewrite Q3; exact KG|].
  set (r := compress448_4w st (intmul448_4w st c pc)) in *. clearbody r.
  split; [exact Lr|]. split; [apply add448_on; assumption|]. split; [exact Bx|]. split; [exact By|]. split; [exact Bz|]. split; [exact Bt|].
  apply cqm in Ex, Ey, Ez, Et.
  assert (Rep2 : reps448 (p1 * w) (p2 * w) w (p1 * p2 * w) (iso448 P)).
  { unfold p1, p2. destruct (iso448 P) as [px py]. cbn [fst snd]. split; [exact Hw|]. split; [reflexivity|]. split; reflexivity. }
  eapply (iso448_add 2 2 x y z t Q (p1 * w) (p2 * w) w (p1 * p2 * w) P); [exact On1|exact On2|exact Rep|exact Rep2|discriminate|discriminate| | | | |exact Ex|exact Ey|exact Ez| ].
  - f_equal. ring.
  - f_equal. ring.
  - f_equal. ring.
  - f_equal. ring.
  - rewrite Et. f_equal. ring.
Qed.
End Proofs.
