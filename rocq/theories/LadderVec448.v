(** The X448 ladder of the AVX2 code against RFC 7748. *)
From Coq Require Import ZArith List Bool Lia Znumtheory.
From Verif Require Import Uop X86 Engine Bytes Check FullTac Lanes RedTac Simd Simd448 Fp448Full Fp448FullProofs FullMore
  Fp25519Red Fp448Red Fp448RedProofs Fp448RedMore Fp448RedRoot Spec Scalar SpecScalar ScalarProps SpecX Ladder LadderProofs LadderVec.
Import ListNotations.
Open Scope Z_scope.

(** ** The vector ladder modulo 2^448-2^224-1 *)
Notation is_red448 := (arr_ok red448).
Notation is_wide448 := (arr_ok wide448).
Notation is_big448 := (arr_ok big448).
Notation fe448 := (wsum wt448).
Notation el2q h := (pick (ixh h) 16).
Definition fbig448 : list (Z * Z) := Eval vm_compute in bnd448 (2 ^ 46) (2 ^ 46).
Definition fred448 : list (Z * Z) := Eval vm_compute in bnd448 (2 ^ 28 + 2 ^ 19) (2 ^ 28 + 2 ^ 19).
Definition sum448 : list (Z * Z) := Eval vm_compute in bnd448 (2 ^ 29 + 2 ^ 11) (2 ^ 29 + 2 ^ 11).
Lemma chkq_fe1 : duo_check fe_prog448 [q3; q4] q1 16 = true. Proof. vmt. Qed.
Lemma chkq_fe2 : duo_check fe_prog448 [q3; q4] q2 16 = true. Proof. vmt. Qed.
Section Ladder448.
Variable st : store.
Notation l2 a := (length a = 32%nat).
Ltac duo chk prog xs out ob e ins h := do_duo chk prog wt448 xs out ob Q e ins st 16%nat h.
Lemma fe1_ok a b h : l2 a -> l2 b -> is_red448 (el2q h a) -> is_red448 (el2q h b) ->
  cq (fe448 (el2q h (vout1 st 32 fe_prog448 a b))) (fe448 (el2q h a) - fe448 (el2q h b)) /\ is_wide448 (el2q h (vout1 st 32 fe_prog448 a b)).
Proof. intros. duo chkq_fe1 fe_prog448 [(q3, red448); (q4, red448)] q1 wide448 (VSub (VIn 0) (VIn 1)) [a; b] h. Qed.
Lemma fe2_ok a b h : l2 a -> l2 b -> is_red448 (el2q h a) -> is_red448 (el2q h b) ->
  cq (fe448 (el2q h (vout2 st 32 fe_prog448 a b))) (39081 * (fe448 (el2q h a) - fe448 (el2q h b)) + fe448 (el2q h a)) /\
  arr_ok fbig448 (el2q h (vout2 st 32 fe_prog448 a b)).
Proof. intros. duo chkq_fe2 fe_prog448 [(q3, red448); (q4, red448)] q2 fbig448 (VAdd (VMul (VK 39081) (VSub (VIn 0) (VIn 1))) (VIn 0)) [a; b] h. Qed.
Lemma cf_ok a h : l2 a -> arr_ok fbig448 (el2q h a) ->
  cq (fe448 (el2q h (compressfast448_2w st a))) (fe448 (el2q h a)) /\ arr_ok fred448 (el2q h (compressfast448_2w st a)).
Proof. intros. duo chkq2_compressfast v448_2w_compressfast [(q1, fbig448)] q1 fred448 (VIn 0) [a] h. Qed.
Lemma addsub_sum a b h : l2 a -> l2 b -> is_red448 (el2q h a) -> is_red448 (el2q h b) ->
  cq (fe448 (el2q h (fst (addsub448_2w st a b)))) (fe448 (el2q h a) + fe448 (el2q h b)) /\ arr_ok sum448 (el2q h (fst (addsub448_2w st a b))).
Proof. intros. duo chkq2_addsub1 v448_2w_addsub [(q1, red448); (q2, red448)] q1 sum448 (VAdd (VIn 0) (VIn 1)) [a; b] h. Qed.
Definition mulable (b1 b2 : list (Z * Z)) : Prop := forall a b h, l2 a -> l2 b -> arr_ok b1 (el2q h a) -> arr_ok b2 (el2q h b) ->
  cq (fe448 (el2q h (intmul448_2w st a b))) (fe448 (el2q h a) * fe448 (el2q h b)) /\ is_big448 (el2q h (intmul448_2w st a b)).
Lemma mul_sw : mulable sum448 wide448.
Proof. unfold mulable. intros. duo chkq2_intmul v448_2w_intmul_karat [(q2, sum448); (q3, wide448)] q1 big448 (VMul (VIn 0) (VIn 1)) [a; b] h. Qed.
Lemma mul_rr : mulable red448 red448.
Proof. unfold mulable. intros. duo chkq2_intmul v448_2w_intmul_karat [(q2, red448); (q3, red448)] q1 big448 (VMul (VIn 0) (VIn 1)) [a; b] h. Qed.
Lemma mul_wf : mulable wide448 fred448.
Proof. unfold mulable. intros. duo chkq2_intmul v448_2w_intmul_karat [(q2, wide448); (q3, fred448)] q1 big448 (VMul (VIn 0) (VIn 1)) [a; b] h. Qed.

Definition rq (b : list (Z * Z)) (a : list Z) (x : Z) : Prop := arr_ok b a /\ cq (fe448 a) x.
Lemma rq_wide a x : rq red448 a x -> rq wide448 a x.
Proof. intros [H E]. split; [now apply red_wide448|exact E]. Qed.
Lemma rq_addsub a b h x y : l2 a -> l2 b -> rq red448 (el2q h a) x -> rq red448 (el2q h b) y ->
  rq sum448 (el2q h (fst (addsub448_2w st a b))) (x + y) /\ rq wide448 (el2q h (snd (addsub448_2w st a b))) (x - y).
Proof.
  intros La Lb [Ra Ea] [Rb Eb]. destruct (addsub_sum a b h La Lb Ra Rb) as [C1 W1]. destruct (addsub448_2w_ok2 st a b h La Lb Ra Rb) as [C2 W2].
  split; (split; [assumption|]).
  - exact (cq_trans _ _ _ C1 (cq_add _ _ _ _ Ea Eb)).
  - exact (cq_trans _ _ _ C2 (cq_sub _ _ _ _ Ea Eb)).
Qed.
Lemma rq_mul b1 b2 a b h x y : mulable b1 b2 -> l2 a -> l2 b -> rq b1 (el2q h a) x -> rq b2 (el2q h b) y ->
  rq red448 (el2q h (compress448_2w st (intmul448_2w st a b))) (x * y).
Proof.
  intros M La Lb [Ra Ea] [Rb Eb]. destruct (M a b h La Lb Ra Rb) as [C1 W1].
  destruct (compress448_2w_ok st (intmul448_2w st a b) h (call_length _ _ _ _ _) W1) as [C2 W2].
  split; [assumption|]. exact (cq_trans _ _ _ C2 (cq_trans _ _ _ C1 (cq_mul _ _ _ _ Ea Eb))).
Qed.
Lemma rq_cfr b a h x : bounds_le b wide448 = true -> l2 a -> rq b (el2q h a) x -> rq red448 (el2q h (compressfast448_2w st a)) x.
Proof.
  intros Hb La [Ra Ea]. apply (bounds_le_ok _ _ _ Hb) in Ra. destruct (compressfast448_2w_red st a h La Ra) as [C1 W1]. split; [exact W1|]. exact (cq_trans _ _ _ C1 Ea).
Qed.
Lemma rq_sqr2 a b h x y : l2 a -> l2 b -> rq red448 (el2q h a) x -> rq red448 (el2q h b) y ->
  let r := compress2448_2w st (intsqr448_2w st a) (intsqr448_2w st b) in
  rq red448 (el2q h (fst r)) (x * x) /\ rq red448 (el2q h (snd r)) (y * y).
Proof.
  intros La Lb [Ra Ea] [Rb Eb] r. destruct (intsqr448_2w_ok st a h La (red_mid448 _ Ra)) as [C1 W1]. destruct (intsqr448_2w_ok st b h Lb (red_mid448 _ Rb)) as [C2 W2].
  destruct (compress2448_2w_ok1 st (intsqr448_2w st a) (intsqr448_2w st b) h (call_length _ _ _ _ _) (call_length _ _ _ _ _) W1 W2) as [C3 W3].
  destruct (compress2448_2w_ok2 st (intsqr448_2w st a) (intsqr448_2w st b) h (call_length _ _ _ _ _) (call_length _ _ _ _ _) W1 W2) as [C4 W4].
  split; (split; [assumption|]).
  - exact (cq_trans _ _ _ C3 (cq_trans _ _ _ C1 (cq_mul _ _ _ _ Ea Ea))).
  - exact (cq_trans _ _ _ C4 (cq_trans _ _ _ C2 (cq_mul _ _ _ _ Eb Eb))).
Qed.
Lemma rq_fe a b h x y : l2 a -> l2 b -> rq red448 (el2q h a) x -> rq red448 (el2q h b) y ->
  rq wide448 (el2q h (vout1 st 32 fe_prog448 a b)) (x - y) /\ rq fbig448 (el2q h (vout2 st 32 fe_prog448 a b)) (39081 * (x - y) + x).
Proof.
  intros La Lb [Ra Ea] [Rb Eb]. destruct (fe1_ok a b h La Lb Ra Rb) as [C1 W1]. destruct (fe2_ok a b h La Lb Ra Rb) as [C2 W2].
  pose proof (cq_sub _ _ _ _ Ea Eb) as D. split; (split; [assumption|]).
  - exact (cq_trans _ _ _ C1 D).
  - exact (cq_trans _ _ _ C2 (cq_add _ _ _ _ (cq_mul _ _ _ _ (cq_refl 39081) D) Ea)).
Qed.
Lemma rq_cf a h x : l2 a -> rq fbig448 (el2q h a) x -> rq fred448 (el2q h (compressfast448_2w st a)) x.
Proof. intros La [Ra Ea]. destruct (cf_ok a h La Ra) as [C1 W1]. split; [exact W1|]. exact (cq_trans _ _ _ C1 Ea). Qed.
Lemma red_fbig a x : rq red448 a x -> rq fbig448 a x.
Proof. intros [H E]. split; [|exact E]. revert H. apply bounds_le_ok. vm_compute. reflexivity. Qed.
(** [E | t0], [F | X1], [A | C] and the like *)
Lemma el_perm h a : l2 a -> el2q h (vmap perm64_4E a) = el2q (negb h) a.
Proof. exact (pick_perm h 8 a). Qed.
Lemma el_blend h a b : l2 a -> l2 b -> el2q h (vmap2 blend_F0 a b) = if h then el2q true b else el2q false a.
Proof. exact (pick_blend h 8 a b). Qed.
Lemma l2_perm a : l2 a -> l2 (vmap perm64_4E a). Proof. intro H. exact (vmap_len perm64_4E 8 a H perm_len). Qed.
Lemma l2_blend a b : l2 a -> l2 b -> l2 (vmap2 blend_F0 a b). Proof. intros H H'. exact (vmap2_len blend_F0 8 a b H H' blend_len). Qed.
Lemma or_word2_448 a : l2 a -> el2q false (or_word2 (vmap2 blend_F0 a (repeat 0 32))) = el2q false a /\
  el2q true (or_word2 (vmap2 blend_F0 a (repeat 0 32))) = (1 :: repeat 0 15).
Proof. intro H. do 32 (apply len_S in H as (? & ? & -> & H)). apply length_zero_iff_nil in H. subst. split; reflexivity. Qed.
Definition vrepq (s : list Z * list Z * Z) (q : Z * Z * Z * Z * bool) : Prop :=
  let '(XX, ZZ, prev) := s in let '(x2, z2, x3, z3, sw) := q in
  l2 XX /\ l2 ZZ /\ rq red448 (el2q false XX) x2 /\ rq red448 (el2q false ZZ) z2 /\
  rq red448 (el2q true XX) x3 /\ rq red448 (el2q true ZZ) z3 /\ prev = Z.b2z sw.
Lemma rq_mod b a x : rq b a x -> rq b a (x mod Q).
Proof.
  intros [H E]. split; [exact H|]. apply cq_trans with (1 := E). unfold cq. rewrite Zminus_mod_idemp_r, Z.sub_diag. reflexivity.
Qed.
Lemma rq_eq b a x y : x = y -> rq b a x -> rq b a y.
Proof. now intros ->. Qed.
Lemma step_448_ok kk X1 x1 s q t : l2 X1 -> rq red448 (el2q true X1) x1 -> vrepq s q ->
  vrepq (step_ladder_x448 st X1 s (Z.b2z (Z.testbit kk (Z.of_nat t)))) (rfc_step Q 39081 kk x1 q t).
Proof.
  intros L1 H1 Hs. destruct s as [[XX ZZ] pr]. destruct q as [[[[x2 z2] x3] z3] sw].
  destruct Hs as (LX & LZ & Hx2 & Hz2 & Hx3 & Hz3 & ->). rewrite late_step_rfc.
  set (bt := Z.testbit kk (Z.of_nat t)). clearbody bt. unfold step_ladder_x448. rewrite lxor_b2z.
  set (swp := xorb sw bt). clearbody swp.
  destruct (rq_addsub _ _ _ _ _ LX LZ Hx2 Hz2) as [HA HB]. destruct (rq_addsub _ _ _ _ _ LX LZ Hx3 Hz3) as [HC HD].
  assert (LA : l2 (fst (addsub448_2w st XX ZZ))) by apply call_length. assert (LB : l2 (snd (addsub448_2w st XX ZZ))) by apply call_length.
  destruct (addsub448_2w st XX ZZ) as [AC BD]. cbn [fst snd] in *.
  pose proof (l2_perm _ LB) as LDB.
  assert (HB1 : rq wide448 (el2q true (vmap perm64_4E BD)) (x2 - z2)) by (rewrite el_perm by exact LB; exact HB).
  assert (HD1 : rq wide448 (el2q false (vmap perm64_4E BD)) (x3 - z3)) by (rewrite el_perm by exact LB; exact HD).
  clear HB HD. rename HB1 into HB, HD1 into HD.
  set (DB := vmap perm64_4E BD) in *. clearbody DB. clear BD LB.
  pose proof (rq_mul _ _ _ _ _ _ _ mul_sw LA LDB HA (HD : rq wide448 (el2q false DB) (x3 - z3))) as HDA.
  pose proof (rq_mul _ _ _ _ _ _ _ mul_sw LA LDB HC (HB : rq wide448 (el2q true DB) (x2 - z2))) as HCB.
  set (t0 := compress448_2w st (intmul448_2w st AC DB)) in *. assert (L0 : l2 t0) by apply call_length. clearbody t0.
  set (t1 := vmap perm64_4E t0). pose proof (l2_perm _ L0 : l2 t1) as Lt1.
  assert (HDA' : rq red448 (el2q true t1) ((x2 + z2) * (x3 - z3))) by (unfold t1; rewrite el_perm by exact L0; exact HDA).
  clearbody t1.
  rewrite (permv0 swp 8 AC LA), (permv1 swp 8 DB LDB).
  set (AC' := if swp then vmap perm64_4E AC else AC). set (DB' := if swp then DB else vmap perm64_4E DB).
  assert (LA' : l2 AC') by (unfold AC'; destruct swp; [now apply l2_perm|exact LA]).
  assert (LD' : l2 DB') by (unfold DB'; destruct swp; [exact LDB|now apply l2_perm]).
  assert (HA' : rq sum448 (el2q false AC') (if swp then x3 + z3 else x2 + z2)).
  { unfold AC'. destruct swp; [rewrite el_perm by exact LA; exact HC|exact HA]. }
  assert (HB' : rq wide448 (el2q false DB') (if swp then x3 - z3 else x2 - z2)).
  { unfold DB'. destruct swp; [exact HD|rewrite el_perm by exact LDB; exact HB]. }
  clearbody AC' DB'.
  destruct (rq_addsub _ _ _ _ _ Lt1 L0 HDA' HCB) as [HS HT].
  assert (LS : l2 (fst (addsub448_2w st t1 t0))) by apply call_length. assert (LT : l2 (snd (addsub448_2w st t1 t0))) by apply call_length.
  destruct (addsub448_2w st t1 t0) as [ts td]. cbn [fst snd] in *. clear t0 t1 L0 Lt1 HDA HCB HDA' HA HB HC HD LA LDB AC DB.
  set (u0 := vmap2 blend_F0 AC' td). set (u1 := vmap2 blend_F0 DB' ts).
  pose proof (l2_blend _ _ LA' LT : l2 u0) as Lu0. pose proof (l2_blend _ _ LD' LS : l2 u1) as Lu1.
  assert (U0a : rq sum448 (el2q false u0) (if swp then x3 + z3 else x2 + z2)) by (unfold u0; rewrite el_blend by assumption; exact HA').
  assert (U0b : rq wide448 (el2q true u0) ((x2 + z2) * (x3 - z3) - (x3 + z3) * (x2 - z2))) by (unfold u0; rewrite el_blend by assumption; exact HT).
  assert (U1a : rq wide448 (el2q false u1) (if swp then x3 - z3 else x2 - z2)) by (unfold u1; rewrite el_blend by assumption; exact HB').
  assert (U1b : rq sum448 (el2q true u1) ((x2 + z2) * (x3 - z3) + (x3 + z3) * (x2 - z2))) by (unfold u1; rewrite el_blend by assumption; exact HS).
  clearbody u0 u1. clear AC' DB' LA' LD' HA' HB' ts td HS HT LS LT.
  apply (rq_cfr sum448 _ _ _ eq_refl Lu0) in U0a. apply (rq_cfr wide448 _ _ _ eq_refl Lu0) in U0b.
  apply (rq_cfr wide448 _ _ _ eq_refl Lu1) in U1a. apply (rq_cfr sum448 _ _ _ eq_refl Lu1) in U1b.
  assert (Lv0 : l2 (compressfast448_2w st u0)) by apply call_length. assert (Lv1 : l2 (compressfast448_2w st u1)) by apply call_length.
  set (v0 := compressfast448_2w st u0) in *. set (v1 := compressfast448_2w st u1) in *. clearbody v0 v1. clear u0 u1 Lu0 Lu1.
  destruct (rq_sqr2 _ _ _ _ _ Lv0 Lv1 U0a U1a) as [SA SB]. destruct (rq_sqr2 _ _ _ _ _ Lv0 Lv1 U0b U1b) as [SD SS].
  set (r := compress2448_2w st (intsqr448_2w st v0) (intsqr448_2w st v1)) in *.
  assert (Lr0 : l2 (fst r)) by apply call_length. assert (Lr1 : l2 (snd r)) by apply call_length.
  clearbody r. destruct r as [t0 t1]. cbn [fst snd] in *. clear v0 v1 Lv0 Lv1 U0a U0b U1a U1b.
  set (a := if swp then x3 + z3 else x2 + z2) in *. set (b := if swp then x3 - z3 else x2 - z2) in *.
  set (t2 := or_word2 (vmap2 blend_F0 t0 (repeat 0 32))).
  assert (L2 : l2 t2). { unfold t2. rewrite or_word2_len; rewrite l2_blend; (exact Lr0 || reflexivity || lia). }
  destruct (or_word2_448 t0 Lr0) as [E0 E1]. fold t2 in E0, E1.
  assert (T2a : rq red448 (el2q false t2) (a * a)) by (rewrite E0; exact SA).
  assert (T2b : rq red448 (el2q true t2) 1).
  { rewrite E1. split; [repeat constructor; cbn; lia|reflexivity]. }
  clearbody t2. clear E0 E1.
  pose proof (rq_mul _ _ _ _ _ _ _ mul_rr L2 Lr1 T2a SB) as X2'. pose proof (rq_mul _ _ _ _ _ _ _ mul_rr L2 Lr1 T2b SS) as X3'.
  destruct (rq_fe _ _ _ _ _ Lr0 Lr1 SA SB) as [HE HF].
  set (e := vout1 st 32 fe_prog448 t0 t1) in *. set (f := vout2 st 32 fe_prog448 t0 t1) in *.
  assert (Le : l2 e) by apply call_length. assert (Lf : l2 f) by apply call_length. clearbody e f.
  assert (Ea : rq wide448 (el2q false (vmap2 blend_F0 e t0)) (a * a - b * b)) by (rewrite el_blend by assumption; exact HE).
  assert (Eb : rq wide448 (el2q true (vmap2 blend_F0 e t0)) (((x2 + z2) * (x3 - z3) - (x3 + z3) * (x2 - z2)) * ((x2 + z2) * (x3 - z3) - (x3 + z3) * (x2 - z2)))).
  { rewrite el_blend by assumption. apply rq_wide. exact SD. }
  assert (Fa : rq fbig448 (el2q false (vmap2 blend_F0 f X1)) (39081 * (a * a - b * b) + a * a)) by (rewrite el_blend by assumption; exact HF).
  assert (Fb : rq fbig448 (el2q true (vmap2 blend_F0 f X1)) x1) by (rewrite el_blend by assumption; now apply red_fbig).
  pose proof (l2_blend _ _ Le Lr0) as Let. pose proof (l2_blend _ _ Lf L1) as Lft.
  apply rq_cf in Fa; [|exact Lft]. apply rq_cf in Fb; [|exact Lft].
  set (fx := compressfast448_2w st (vmap2 blend_F0 f X1)) in *. assert (Lfx : l2 fx) by apply call_length. clearbody fx.
  pose proof (rq_mul _ _ _ _ _ _ _ mul_wf Let Lfx Ea Fa) as Z2'. pose proof (rq_mul _ _ _ _ _ _ _ mul_wf Let Lfx Eb Fb) as Z3'.
  unfold late_step, red4, vrepq.
  split; [apply call_length|]. split; [apply call_length|].
  split; [apply rq_mod; revert X2'; apply rq_eq; unfold a, b; destruct swp; ring|].
  split; [apply rq_mod; revert Z2'; apply rq_eq; unfold a, b; destruct swp; ring|].
  split; [apply rq_mod; revert X3'; apply rq_eq; ring|].
  split; [apply rq_mod; revert Z3'; apply rq_eq; ring|]. reflexivity.
Qed.
Lemma fold_448_ok kk X1 x1 ts : forall s q, l2 X1 -> rq red448 (el2q true X1) x1 -> vrepq s q ->
  vrepq (fold_left (step_ladder_x448 st X1) (map (fun t => Z.b2z (Z.testbit kk (Z.of_nat t))) ts) s) (fold_left (rfc_step Q 39081 kk x1) ts q).
Proof.
  induction ts as [|t ts IH]; intros s q L1 H1 Hs; [exact Hs|]. cbn [map fold_left]. apply IH; [exact L1|exact H1|]. now apply step_448_ok.
Qed.
Lemma and252 b : byte b -> Z.land b 252 = 4 * (b / 4).
Proof. intro H. apply Z.eqb_eq. revert b H. apply (byte_check (fun b => Z.land b 252 =? 4 * (b / 4))). vm_compute. reflexivity. Qed.
Lemma or128 b : byte b -> Z.lor b 128 = 128 + b mod 128.
Proof. intro H. apply Z.eqb_eq. revert b H. apply (byte_check (fun b => Z.lor b 128 =? 128 + b mod 128)). vm_compute. reflexivity. Qed.
Lemma bytes56_split az : bytes 56 az -> exists b0 m b55, az = b0 :: m ++ [b55] /\ byte b0 /\ bytes 54 m /\ byte b55.
Proof.
  intros [L F]. destruct az as [|b0 t]; [discriminate|]. apply Forall_cons_iff in F as [F0 F]. injection L as L.
  exists b0, (firstn 54 t), (nth 54 t 0). assert (E : skipn 54 t = [nth 54 t 0]).
  { assert (LS : length (skipn 54 t) = 1%nat) by (rewrite skipn_length; lia). rewrite <- (firstn_skipn 54 t) at 2. rewrite app_nth2 by (rewrite firstn_length; lia).
    rewrite firstn_length. replace (54 - Nat.min 54 (length t))%nat with 0%nat by lia. destruct (skipn 54 t) as [|x [|? ?]]; try discriminate. reflexivity. }
  split; [rewrite <- E, firstn_skipn; reflexivity|]. split; [exact F0|].
  rewrite <- (firstn_skipn 54 t) in F. apply Forall_app in F as [F1 F2]. split; [split; [rewrite firstn_length; lia|exact F1]|].
  rewrite E in F2. now apply Forall_cons_iff in F2.
Qed.
Lemma clamp448_ok sk : bytes 56 sk -> bytes 56 (clamp_bytes448 sk) /\ le_val (clamp_bytes448 sk) = scalar448 (le_val sk).
Proof.
  intro H. destruct (bytes56_split sk H) as (b0 & m & b55 & -> & H0 & [Lm Fm] & H55). clear H.
  unfold clamp_bytes448. cbn [nth skipn]. rewrite firstn_app. replace (54 - length m)%nat with 0%nat by lia. rewrite firstn_O, app_nil_r, firstn_all2 by lia.
  rewrite app_nth2 by lia. rewrite Lm. change (54 - 54)%nat with 0%nat. cbn [nth].
  rewrite (and252 b0 H0), (or128 b55 H55).
  unfold byte in *. assert (Bm := le_val_bound m Fm). rewrite Lm in Bm. change (256 ^ Z.of_nat 54) with (2 ^ 432) in Bm.
  assert (E : forall x y, le_val (x :: m ++ [y]) = x + 256 * le_val m + 2 ^ 440 * y).
  { intros x y. cbn [le_val]. rewrite le_val_app, Lm. cbn [le_val]. change (256 ^ Z.of_nat 54) with (2 ^ 432). lia. }
  rewrite !E. pose proof (Z.mod_pos_bound b55 128 ltac:(lia)) as M. pose proof (Z.div_mod b55 128 ltac:(lia)) as D.
  pose proof (Z.mod_pos_bound b0 4 ltac:(lia)) as M0. pose proof (Z.div_mod b0 4 ltac:(lia)) as D0.
  split.
  - split; [cbn [length]; rewrite app_length, Lm; reflexivity|]. constructor; [unfold byte; lia|]. apply Forall_app. split; [exact Fm|]. constructor; [unfold byte; lia|constructor].
  - unfold scalar448. set (M1 := le_val m) in *. clearbody M1.
    replace ((b0 + 256 * M1 + 2 ^ 440 * b55) mod 2 ^ 447) with (b0 + 256 * M1 + 2 ^ 440 * (b55 mod 128)).
    2:{ apply (Z.mod_unique _ _ (b55 / 128)); lia. }
    replace ((b0 + 256 * M1 + 2 ^ 440 * (b55 mod 128)) / 4) with (b0 / 4 + 64 * M1 + 2 ^ 438 * (b55 mod 128)).
    2:{ apply (Z.div_unique _ _ _ (b0 mod 4)); lia. }
    lia.
Qed.
Lemma scalar448_bit0 x : Z.testbit (scalar448 x) 0 = false.
Proof.
  unfold scalar448. apply Z.testbit_false; [lia|]. change (2 ^ 0) with 1. rewrite Z.div_1_r, Zplus_mod, Zmult_mod.
  change (4 mod 2) with 0. rewrite Z.mul_0_l. reflexivity.
Qed.
(** The final state of the ladder and the operands of the last multiplication. *)
Lemma X448_parts sk pk : bytes 56 sk -> bytes 56 pk -> exists X iz x2 z2 x3 z3 sw,
  x448_affine st pk sk = mul448_1w st X iz /\
  fold_left (rfc_step Q 39081 (scalar448 (le_val sk)) (le_val pk)) (rev (seq 0 448)) (le_val pk, 0, le_val pk, 1, false) = (x2, z2, x3, z3, sw) /\
  rq red448 X x2 /\ is_mid448 iz /\ cq (fe448 iz) (z2 ^ (Q - 2)) /\ exists Zw, rq red448 Zw z2 /\ iz = inv448_1w st Zw.
Proof.
  intros Hs Hp. unfold x448_affine.
  destruct (clamp448_ok sk Hs) as (Bc & Ec).
  destruct (words_of_ok 7 _ Bc) as [Wc Vc]. rewrite <- Ec, <- Vc.
  rewrite key_bits_448 by apply Wc.
  set (kk := val (words_of 7 (clamp_bytes448 sk))) in *. clearbody kk.
  destruct (unser448_1w_ok st pk Hp) as [Vu Ru]. apply canon_red448 in Ru.
  set (u := le_val pk) in *. clearbody u. set (X1 := unser448_1w st pk) in *.
  assert (LX1 : length X1 = 16%nat) by apply call_length. clearbody X1.
  assert (R1 : rq red448 X1 u). { split; [exact Ru|]. rewrite Vu. apply cq_refl. }
  pose proof (fun h => inter448_2w_ok st h X1 X1 LX1 LX1) as EI. set (QxPx := inter448_2w st X1 X1) in *.
  assert (LQ : l2 QxPx) by apply call_length. rewrite (copy448_2w_ok st QxPx LQ). clearbody QxPx.
  assert (I : vrepq (QxPx, or_word2 (repeat 0 32), 0) (u, 0, u, 1, false)).
  { unfold vrepq. split; [exact LQ|]. split; [reflexivity|]. rewrite (EI false), (EI true).
    split; [exact R1|]. split; [split; [repeat constructor; cbn; lia|reflexivity]|]. split; [exact R1|].
    split; [split; [repeat constructor; cbn; lia|reflexivity]|reflexivity]. }
  assert (H1 : rq red448 (el2q true QxPx) u) by (rewrite (EI true); exact R1).
  pose proof (fold_448_ok kk QxPx u (rev (seq 0 448)) _ _ LQ H1 I) as Fo. clear I.
  destruct (fold_left (step_ladder_x448 _ _) _ _) as [[Xf Zf] pr].
  destruct (fold_left (rfc_step _ _ _ _) _ _) as [[[[x2 z2] x3] z3] sw]. destruct Fo as (LX & LZ & Hx & Hz & _).
  rewrite (deinter448_2w_ok st Xf LX), (deinter448_2w_ok st Zf LZ). cbn [fst].
  set (X := el2q false Xf) in *. set (Zw := el2q false Zf) in *. clearbody X Zw.
  destruct (inv448_1w_ok st Zw (red_mid448 _ (proj1 Hz))) as [Wi Ei]. change (2 ^ 448 - 2 ^ 224 - 3) with (Q - 2) in Ei.
  exists X, (inv448_1w st Zw), x2, z2, x3, z3, sw. split; [reflexivity|]. split; [reflexivity|]. split; [exact Hx|]. split; [exact Wi|].
  split; [|exists Zw; split; [exact Hz|reflexivity]].
  set (iz := inv448_1w st Zw) in *. clearbody iz. apply mod_cong in Ei; [|discriminate].
  enough (G : fe448 iz mod Q = (z2 ^ (Q - 2)) mod Q) by (unfold cq; rewrite Zminus_mod, G, Z.sub_diag; reflexivity).
  rewrite Ei. apply gpow. apply mod_cong; [discriminate|apply Hz].
Qed.
Theorem X448_affine_ok sk pk : bytes 56 sk -> bytes 56 pk ->
  is_red448 (x448_affine st pk sk) /\ fe448 (x448_affine st pk sk) mod Q = X448_spec (le_val sk) (le_val pk).
Proof.
  intros Hs Hp. destruct (X448_parts sk pk Hs Hp) as (X & iz & x2 & z2 & x3 & z3 & sw & E & F & Hx & Wi & Ei & _). rewrite E. clear E.
  unfold X448_spec.
  change (2 ^ 448 - 2 ^ 224 - 1) with Q. rewrite <- (ladder_from_u Q 39081 p448_prime eq_refl _ (le_val pk) 448 (scalar448_bit0 _) ltac:(lia)).
  rewrite F. destruct (mul448_1w_ok st X iz (red_mid448 _ (proj1 Hx)) Wi) as [Cm Rm]. split; [exact Rm|].
  set (r := mul448_1w st X iz) in *. clearbody r.
  apply mod_cong in Cm; [|discriminate]. rewrite Cm. apply gmul.
  - apply mod_cong; [discriminate|apply Hx].
  - apply mod_cong; [discriminate|exact Ei].
Qed.
End Ladder448.
