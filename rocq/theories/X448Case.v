(** A pair of inputs on which X448 writes a wrong number: the key of 56 zero
    bytes (clamped to 2^447) and the public key [case_u]. *)
From Coq Require Import ZArith Znumtheory List Bool Lia.
From Verif Require Import Uop Poly Sym Engine Check Bytes Spec SpecX Simd Lanes FullTac RedTac Simd448 FullMore
  Fp25519Red Fp25519RedProofs Fp448Red Fp448RedProofs Fp448RedRoot ScalarProps Ladder LadderProofs LadderVec LadderVec448 LadderSmall LadderX448.
Import ListNotations.
Open Scope Z_scope.

(** ** The carries of compress *)
(** The program with copies of the words before the last carries, and of these carries. *)
Definition compress_seen : list vinstr :=
  firstn 32 v448_1w_compress ++
  [VMov 2 1040 (VL 8192); VMov 2 1042 (VL 8196); VMov 2 1044 (VL 8200); VMov 2 1046 (VL 8204); VMov 2 1048 (VL 8208);
   VMov 2 1050 (VL 8212); VMov 2 1052 (VL 8216); VMov 2 1054 (VL 8220); VMov 2 1056 (VL 8252)] ++ skipn 32 v448_1w_compress.
Definition odd448 : list Z := Eval vm_compute in flat_map (fun j => [0; 2 ^ (28 * Z.of_nat j)]) (seq 0 8).
Definition seen_bnd : list (Z * Z) := Eval vm_compute in tight448 ++ repeat (0, 2 ^ 28 - 1) 16 ++ repeat (0, 2 ^ 37) 2.
Definition wt_split : list Z := Eval vm_compute in repeat 0 16 ++ odd448 ++ [0; 2 ^ 224].
Definition wt_join : list Z := Eval vm_compute in odd448 ++ map Z.opp odd448 ++ [-1; -1].
Lemma seen_slice : slice (vcode compress_seen) (larr q1 16) = slice (vcode v448_1w_compress) (larr q1 16).
Proof. vm_compute. reflexivity. Qed.
Definition seen_hs : list nat := Eval vm_compute in hs_of true (slice (vcode compress_seen) (larr q1 34)) [IA q1 big448 odd448].
Lemma seen_chk1 : cong_check seen_hs (slice (vcode compress_seen) (larr q1 (length wt_split))) [IA q1 big448 odd448] q1 wt_split seen_bnd (2 ^ 600) eIn = true.
Proof. vm_compute. reflexivity. Qed.
Lemma seen_chk2 : cong_check seen_hs (slice (vcode compress_seen) (larr q1 (length wt_join))) [IA q1 big448 odd448] q1 wt_join seen_bnd (2 ^ 600) (VK 0) = true.
Proof. vm_compute. reflexivity. Qed.
Lemma rd_firstn m st : forall n b, (n <= m)%nat -> firstn n (rd b m st) = rd b n st.
Proof. induction m as [|m IH]; intros [|n] b H; try reflexivity; [lia|]. cbn [rd firstn]. now rewrite IH by lia. Qed.
Lemma call_firstn p ins out n m st : (n <= m)%nat -> firstn n (call p ins out m st) = call p ins out n st.
Proof. intro H. unfold call. now apply rd_firstn. Qed.
Lemma mod_exact x y M : (x - y) mod M = 0 -> - M < x - y < M -> x = y.
Proof.
  intros H B. assert (P : M <> 0) by lia. apply Z.mod_divide in H as [q Hq]; [|exact P]. assert (q = 0) by nia. subst q. lia.
Qed.
Section S.
Context (st : store).
Lemma compress_seen_ok a : arr_ok big448 a -> exists l cl ch,
  arr_ok (repeat (0, 2 ^ 28 - 1) 16) l /\ 0 <= cl /\ 0 <= ch /\
  wsum odd448 l + 2 ^ 224 * ch = wsum odd448 a /\
  wsum odd448 (compress448_1w st a) = wsum odd448 l + cl + ch.
Proof.
  intro H. set (res := call (vcode compress_seen) [(q1, a)] q1 34 st).
  assert (E : compress448_1w st a = firstn 16 res).
  { unfold res, compress448_1w, vop1. rewrite call_slice, <- seen_slice, <- call_slice. symmetry. apply call_firstn. lia. }
  assert (I : Forall2 iok [IA q1 big448 odd448] [a]) by (constructor; [exact H|constructor]).
  destruct (red_cong seen_hs compress_seen [IA q1 big448 odd448] q1 wt_split seen_bnd (2 ^ 600) eIn [a] st seen_chk1 I) as [R1 B].
  destruct (red_cong seen_hs compress_seen [IA q1 big448 odd448] q1 wt_join seen_bnd (2 ^ 600) (VK 0) [a] st seen_chk2 I) as [R2 _].
  change (length wt_split) with 34%nat in R1, B. change (length wt_join) with 34%nat in R2. cbn [iplace ib] in R1, R2, B. fold res in R1, R2, B.
  rewrite E. clearbody res. clear E I.
  pose proof (arr_len _ _ B) as L. do 34 (destruct res as [|? res]; [discriminate L|]). destruct res; [|discriminate L].
  unfold arr_ok, seen_bnd in B. repeat (apply f2_inv in B as [? B]). clear B L.
  unfold inI in *. cbn [fst snd] in *.
  pose proof (arr_len _ _ H) as L.
  destruct a as [|a0 [|a1 [|a2 [|a3 [|a4 [|a5 [|a6 [|a7 [|a8 [|a9 [|a10 [|a11 [|a12 [|a13 [|a14 [|a15 [|]]]]]]]]]]]]]]]]]; try discriminate L.
  unfold arr_ok, big448 in H. repeat (apply f2_inv in H as [? H]). clear H L. unfold inI in *. cbn [fst snd] in *.
  exists (firstn 16 (skipn 16 [z; z0; z1; z2; z3; z4; z5; z6; z7; z8; z9; z10; z11; z12; z13; z14; z15; z16; z17; z18; z19; z20; z21; z22; z23; z24; z25; z26; z27; z28; z29; z30; z31; z32])), z31, z32.
  cbn [firstn skipn].
  split; [repeat (constructor; [unfold inI; cbn [fst snd]; lia|]); constructor|]. split; [lia|]. split; [lia|].
  cbn [vden eIn ivals iwt nth] in R1, R2. unfold eIn in R1. cbn [vden ivals iwt nth] in R1.
  split.
  - apply (mod_exact _ _ (2 ^ 600)) in R1; [|cbv [wsum wt_split odd448]; lia]. cbv [wsum wt_split odd448] in *. lia.
  - apply (mod_exact _ _ (2 ^ 600)) in R2; [|cbv [wsum wt_join odd448]; lia]. cbv [wsum wt_join odd448] in *. lia.
Qed.
End S.

(** ** Evaluation of the doublings *)
Definition m112 : Z := Eval vm_compute in Z.ones 112.
Definition m224 : Z := Eval vm_compute in Z.ones 224.
Definition m448 : Z := Eval vm_compute in Z.ones 448.
Definition mul2 (x y : Z) : Z :=
  let x0 := Z.land x m112 in let x1 := Z.shiftr x 112 in let y0 := Z.land y m112 in let y1 := Z.shiftr y 112 in
  let l := x0 * y0 in let h := x1 * y1 in let m := (x0 + x1) * (y0 + y1) - l - h in l + Z.shiftl (m + Z.shiftl h 112) 112.
Definition mulp (x y : Z) : Z :=
  let x0 := Z.land x m224 in let x1 := Z.shiftr x 224 in let y0 := Z.land y m224 in let y1 := Z.shiftr y 224 in
  let l := mul2 x0 y0 in let h := mul2 x1 y1 in let m := mul2 (x0 + x1) (y0 + y1) in
  l + h + Z.shiftl (m - l) 224.
Definition sqrp (x : Z) : Z :=
  let x0 := Z.land x m224 in let x1 := Z.shiftr x 224 in
  let l := Z.square x0 in let h := Z.square x1 in let m := Z.square (x0 + x1) in
  l + h + Z.shiftl (m - l) 224.
Definition foldf (x : Z) : Z := let h := Z.shiftr x 448 in Z.land x m448 + (h + Z.shiftl h 224).
Definition redf (x : Z) : Z := foldf (foldf x).
Definition q4p : Z := Eval vm_compute in 4 * Q.
Definition dblf (P : Z * Z) : Z * Z :=
  let (x, z) := P in
  let A := x + z in let B := x + q4p - z in
  let AA := redf (sqrp A) in let BB := redf (sqrp B) in let E := AA + q4p - BB in
  (redf (mulp BB AA), redf (mulp E (39082 * E + BB))).
Fixpoint iter {A} (n : nat) (f : A -> A) (s : A) : A := match n with O => s | S n => iter n f (f s) end.
Lemma iter_S {A} n (f : A -> A) s : iter (S n) f s = iter n f (f s). Proof. reflexivity. Qed.
Lemma split_ok n x : 0 <= n -> Z.land x (Z.ones n) + 2 ^ n * Z.shiftr x n = x.
Proof. intro H. rewrite Z.land_ones, Z.shiftr_div_pow2 by exact H. rewrite (Z.div_mod x (2 ^ n)) at 3 by (apply Z.pow_nonzero; lia). ring. Qed.
Lemma mul2_ok x y : mul2 x y = x * y.
Proof.
  unfold mul2. cbv zeta. pose proof (split_ok 112 x ltac:(lia)) as X. pose proof (split_ok 112 y ltac:(lia)) as Y. change (Z.ones 112) with m112 in X, Y.
  rewrite !Z.shiftl_mul_pow2 by lia. set (x0 := Z.land x m112) in *. set (x1 := Z.shiftr x 112) in *. set (y0 := Z.land y m112) in *. set (y1 := Z.shiftr y 112) in *.
  clearbody x0 x1 y0 y1. subst x y. ring.
Qed.
Lemma phi_cong a b c d : (a * c + b * d + ((a + b) * (c + d) - a * c) * 2 ^ 224) mod Q = ((a + 2 ^ 224 * b) * (c + 2 ^ 224 * d)) mod Q.
Proof.
  replace ((a + 2 ^ 224 * b) * (c + 2 ^ 224 * d)) with (a * c + b * d + ((a + b) * (c + d) - a * c) * 2 ^ 224 + (b * d) * Q).
  - symmetry. apply Z.mod_add. discriminate.
  - change Q with (2 ^ 448 - 2 ^ 224 - 1). ring.
Qed.
Lemma mulp_ok x y : mulp x y mod Q = (x * y) mod Q.
Proof.
  unfold mulp. cbv zeta. rewrite !mul2_ok. pose proof (split_ok 224 x ltac:(lia)) as X. pose proof (split_ok 224 y ltac:(lia)) as Y. change (Z.ones 224) with m224 in X, Y.
  rewrite !Z.shiftl_mul_pow2 by lia. set (x0 := Z.land x m224) in *. set (x1 := Z.shiftr x 224) in *. set (y0 := Z.land y m224) in *. set (y1 := Z.shiftr y 224) in *.
  clearbody x0 x1 y0 y1. subst x y. apply phi_cong.
Qed.
Lemma sqrp_ok x : sqrp x mod Q = (x ^ 2) mod Q.
Proof.
  unfold sqrp. cbv zeta. rewrite !Z.square_spec. pose proof (split_ok 224 x ltac:(lia)) as X. change (Z.ones 224) with m224 in X.
  rewrite !Z.shiftl_mul_pow2 by lia. set (x0 := Z.land x m224) in *. set (x1 := Z.shiftr x 224) in *.
  clearbody x0 x1. subst x. rewrite Z.pow_2_r. apply phi_cong.
Qed.
Lemma foldf_ok x : foldf x mod Q = x mod Q.
Proof.
  unfold foldf. cbv zeta. pose proof (split_ok 448 x ltac:(lia)) as X. change (Z.ones 448) with m448 in X.
  rewrite !Z.shiftl_mul_pow2 by lia. set (x0 := Z.land x m448) in *. set (x1 := Z.shiftr x 448) in *. clearbody x0 x1. subst x.
  replace (x0 + 2 ^ 448 * x1) with (x0 + (x1 + x1 * 2 ^ 224) + x1 * Q) by (change Q with (2 ^ 448 - 2 ^ 224 - 1); ring).
  symmetry. apply Z.mod_add. discriminate.
Qed.
Lemma redf_ok x : redf x mod Q = x mod Q.
Proof. unfold redf. rewrite !foldf_ok. reflexivity. Qed.
Definition cong2 (v w : Z * Z) : Prop := fst v mod Q = fst w mod Q /\ snd v mod Q = snd w mod Q.
Lemma q4_ok x y : (x + q4p - y) mod Q = (x - y) mod Q.
Proof. replace (x + q4p - y) with (x - y + 4 * Q) by (change q4p with (4 * Q); ring). apply Z.mod_add. discriminate. Qed.
Lemma dblf_ok v w : cong2 v w -> cong2 (dblf v) (dbl 39081 w).
Proof.
  destruct v as [x z], w as [x' z']. intros [Hx Hz]. cbn [fst snd] in *. unfold dblf, dbl, cong2. cbv zeta. cbn [fst snd]. rewrite !redf_ok, !mulp_ok.
  assert (AA : redf (sqrp (x + z)) mod Q = ((x' + z') ^ 2) mod Q) by (rewrite redf_ok, sqrp_ok; apply gpow; apply gadd; assumption).
  assert (BB : redf (sqrp (x + q4p - z)) mod Q = ((x' - z') ^ 2) mod Q).
  { rewrite redf_ok, sqrp_ok. apply gpow. rewrite q4_ok. apply gsub; assumption. }
  set (a := redf (sqrp (x + z))) in *. set (b := redf (sqrp (x + q4p - z))) in *. clearbody a b.
  set (a' := (x' + z') ^ 2) in *. set (b' := (x' - z') ^ 2) in *. clearbody a' b'.
  assert (EE : (a + q4p - b) mod Q = (a' - b') mod Q) by (rewrite q4_ok; apply gsub; assumption).
  set (e := a + q4p - b) in *. clearbody e.
  split.
  - rewrite (Z.mul_comm b a). apply gmul; assumption.
  - apply gmul; [assumption|]. replace (a' + 39081 * (a' - b')) with (39082 * (a' - b') + b') by ring. apply gadd; [apply gmul; [reflexivity|assumption]|assumption].
Qed.
Definition case_u : Z := 266520086490989338310581535407704454585686214863885452841317934940611128088324198254258166806503567431224892024595755184697227848130468.
Definition case_x : Z := 665851696315064646256792116033590027023735829904290225555085878221776080710443780342142976691470233311880859478329181709389532279254331.
Definition case_z : Z := 724584309557869259224252360406307829968913679463148143572966004709082712158104817535581155155250974877910960937933674029653133069696396.
Definition case_iz : Z := 529711877652074789194823287793284341630811682008250392794022000781139843158193694535912738724397111571285453528544906419462229931297712.
Definition start_x : Z := 666717555535488403993986429620142688917603862989149917753922036311324807330649579832908078131579597154260082399623104978119472316051138.
Definition start_z : Z := 389051892384206600947086043350226562050868759128715965234653988168026548484630396214681018324866727080013362449781844237959286121471199.
Lemma start_ok : start_x mod Q = (4 * case_u ^ 4) mod Q /\ start_z mod Q = (4 * case_u ^ 3) mod Q.
Proof. split; vm_compute; reflexivity. Qed.
Lemma dblf_run : (let (x, z) := iter 447 dblf (start_x, start_z) in (x mod Q =? case_x) && (z mod Q =? case_z)) = true.
Proof. vm_cast_no_check (eq_refl true). Qed.
Lemma case_iz_ok : (case_z * case_iz) mod Q = 1 /\ (case_x * case_iz) mod Q = 2 ^ 224 + 6 * 2 ^ 64.
Proof. split; vm_compute; reflexivity. Qed.

(** ** The ladder for the key 2^447 *)
Local Opaque case_u case_x case_z case_iz start_x start_z.
Lemma bits_447 t : (t < 447)%nat -> Z.testbit (2 ^ 447) (Z.of_nat t) = false.
Proof. intro H. rewrite Z.pow2_bits_false by lia. reflexivity. Qed.
Lemma dbl_cong v w : cong2 v w -> cong2 (dbl 39081 v) (dbl 39081 w).
Proof.
  destruct v as [x z], w as [x' z']. intros [Hx Hz]. cbn [fst snd] in *. unfold dbl, cong2. cbv zeta. cbn [fst snd].
  split; repeat first [assumption | reflexivity | apply gsub | apply gadd | apply gmul | apply gpow].
Qed.
Lemma iter_cong n : forall v w, cong2 v w -> cong2 (iter n (dbl 39081) v) (iter n (dbl 39081) w).
Proof. induction n as [|n IH]; intros v w H; [exact H|]. cbn [iter]. apply IH. now apply dbl_cong. Qed.
Lemma iter_dblf n : forall v w, cong2 v w -> cong2 (iter n dblf v) (iter n (dbl 39081) w).
Proof. induction n as [|n IH]; intros v w H; [exact H|]. cbn [iter]. apply IH. now apply dblf_ok. Qed.
Definition left2 (s : Z * Z * Z * Z * bool) : Z * Z := let '(x, z, _, _, _) := s in (x, z).
Lemma cong2_trans a b c : cong2 a b -> cong2 b c -> cong2 a c.
Proof. unfold cong2. intuition congruence. Qed.
Lemma zero_bits n : (n <= 447)%nat -> forall u s, snd s = false ->
  cong2 (left2 (fold_left (rfc_step Q 39081 (2 ^ 447) u) (rev (seq 0 n)) s)) (iter n (dbl 39081) (left2 s)).
Proof.
  induction n as [|n IH]; intros Hn u s Hs.
  - split; reflexivity.
  - rewrite seq_S, rev_app_distr. cbn [rev app fold_left Nat.add iter]. destruct s as [[[[x z] x3] z3] sw]. cbn [snd] in Hs. subst sw.
    cbn [rfc_step]. rewrite bits_447 by lia. cbn [xorb cswap].
    match goal with |- context [fold_left _ _ ?s'] => set (s1 := s') end.
    refine (cong2_trans _ _ _ (IH ltac:(lia) u s1 eq_refl) _). apply iter_cong. unfold s1, left2, dbl, cong2. cbv zeta. cbn [fst snd].
    rewrite !Z.mod_mod by discriminate. split; reflexivity.
Qed.
Lemma mod_self x : (x mod Q) mod Q = x mod Q. Proof. apply Z.mod_mod. discriminate. Qed.
Lemma ladder_2_447 n u : n = 446%nat ->
  cong2 (left2 (fold_left (rfc_step Q 39081 (2 ^ 447) u) (rev (seq 0 (S (S n)))) (u, 0, u, 1, false)))
        (iter (S n) (dbl 39081) (4 * u ^ 4, 4 * u ^ 3)).
Proof.
  intro Hn. rewrite seq_S, rev_app_distr. cbn [rev app fold_left Nat.add].
  set (s1 := rfc_step _ _ _ _ _ _).
  assert (E1 : exists x2 z2, s1 = (x2, z2, (4 * u ^ 4) mod Q, (4 * u ^ 3) mod Q, true)).
  { unfold s1. rewrite late_step_rfc. replace (Z.testbit (2 ^ 447) (Z.of_nat (S n))) with true by (symmetry; rewrite Hn; apply Z.pow2_bits_true; lia).
    unfold late_step, red4. cbv zeta. eexists _, _.
    replace (((u + 0) * (u - 1) + (u - 0) * (u + 1)) ^ 2) with (4 * u ^ 4) by ring.
    replace (((u + 0) * (u - 1) - (u - 0) * (u + 1)) ^ 2 * u) with (4 * u ^ 3) by ring. reflexivity. }
  destruct E1 as (x2 & z2 & E1). rewrite E1. clearbody s1. clear E1 s1. rewrite seq_S, rev_app_distr. cbn [rev app fold_left Nat.add].
  set (s1 := rfc_step _ _ _ _ _ _).
  assert (E1 : snd s1 = false /\ cong2 (left2 s1) (dbl 39081 ((4 * u ^ 4) mod Q, (4 * u ^ 3) mod Q))).
  { unfold s1. cbn [rfc_step]. rewrite bits_447 by lia. cbn [xorb cswap snd]. split; [reflexivity|].
    unfold left2, dbl, cong2. cbv zeta. cbn [fst snd]. rewrite !mod_self. split; reflexivity. }
  clearbody s1. destruct E1 as [E1 E2].
  refine (cong2_trans _ _ _ (zero_bits n ltac:(lia) u s1 E1) _). rewrite iter_S. apply iter_cong.
  refine (cong2_trans _ _ _ E2 _). apply dbl_cong. split; cbn [fst snd]; apply mod_self.
Qed.
Lemma case_doublings v w : cong2 v w -> (let (x, z) := iter 447 dblf v in (x mod Q =? case_x) && (z mod Q =? case_z)) = true ->
  cong2 (iter 447 (dbl 39081) w) (case_x, case_z).
Proof.
  generalize 447%nat case_x case_z. intros n cx cz C R. pose proof (iter_dblf n v w C) as F.
  destruct (iter n dblf v) as [x z]. apply andb_true_iff in R as [R1 R2]. apply Z.eqb_eq in R1, R2.
  destruct F as [F1 F2]. cbn [fst snd] in F1, F2. split; cbn [fst snd]; [rewrite <- F1, <- R1|rewrite <- F2, <- R2]; rewrite mod_self; reflexivity.
Qed.
Lemma case_ladder : cong2 (left2 (fold_left (rfc_step Q 39081 (2 ^ 447) case_u) (rev (seq 0 448)) (case_u, 0, case_u, 1, false))) (case_x, case_z).
Proof.
  refine (cong2_trans _ _ _ (ladder_2_447 446 case_u eq_refl) _).
  exact (case_doublings (start_x, start_z) (4 * case_u ^ 4, 4 * case_u ^ 3) start_ok dblf_run).
Qed.

(** ** The last multiplication *)
Definition low_at (k : nat) (b : list (Z * Z)) : list (Z * Z) := map (fun x : nat * (Z * Z) => if Nat.eqb (fst x) k then (2 ^ 20, snd (snd x)) else snd x) (combine (seq 0 16) b).
Definition redlow : list (Z * Z) := Eval vm_compute in low_at 9 red448.
Definition midlow : list (Z * Z) := Eval vm_compute in low_at 7 mid448.
Definition biglow : list (Z * Z) := Eval vm_compute in map (fun x : nat * (Z * Z) => if Nat.eqb (fst x) 15 then (2 ^ 40, snd (snd x)) else snd x) (combine (seq 0 16) big448).
Lemma intmul_low st a b : arr_ok redlow a -> arr_ok midlow b -> arr_ok biglow (intmul448_1w st a b).
Proof.
  intros Ha Hb. apply (fun h : (fe448 (intmul448_1w st a b) - fe448 a * fe448 b) mod Q = 0 /\ _ => proj2 h).
  do_one v448_1w_intmul_sb wt448 [(q2, redlow); (q3, midlow)] q1 biglow Q eMul [a; b] st.
Qed.
Lemma biglow_big a : arr_ok biglow a -> arr_ok big448 a.
Proof. apply bounds_le_ok. vm_compute. reflexivity. Qed.
(** A product with a large last limb is reduced to a number above 2^225. *)
Lemma compress_large st a : arr_ok biglow a -> 2 ^ 225 <= fe448 (compress448_1w st a).
Proof.
  intro H. pose proof (compress448_1w_tight st a (biglow_big a H)) as T.
  destruct (compress_seen_ok st a (biglow_big a H)) as (l & cl & ch & Bl & Cl & Ch & E1 & E2).
  set (r := compress448_1w st a) in *. clearbody r.
  assert (Hr : 2 ^ 224 * wsum odd448 r <= fe448 r).
  { clear - T. pose proof (arr_len _ _ T) as L. do 16 (destruct r as [|? r]; [discriminate L|]). destruct r; [|discriminate L].
    unfold arr_ok, tight448 in T. repeat (apply f2_inv in T as [? T]). clear T L. unfold inI in *. cbn [fst snd] in *. cbv [wsum odd448 wt448]. lia. }
  assert (Hl : wsum odd448 l < 2 ^ 224 /\ 0 <= wsum odd448 l).
  { clear - Bl. pose proof (arr_len _ _ Bl) as L. do 16 (destruct l as [|? l]; [discriminate L|]). destruct l; [|discriminate L].
    unfold arr_ok in Bl. cbn [repeat] in Bl. repeat (apply f2_inv in Bl as [? Bl]). clear Bl L. unfold inI in *. cbn [fst snd] in *. cbv [wsum odd448]. lia. }
  assert (Ha : 2 ^ 236 <= wsum odd448 a).
  { clear - H. pose proof (arr_len _ _ H) as L. do 16 (destruct a as [|? a]; [discriminate L|]). destruct a; [|discriminate L].
    unfold arr_ok, biglow in H. repeat (apply f2_inv in H as [? H]). clear H L. unfold inI in *. cbn [fst snd] in *. cbv [wsum odd448]. lia. }
  set (wr := wsum odd448 r) in *. set (wl := wsum odd448 l) in *. set (wa := wsum odd448 a) in *. clearbody wr wl wa. lia.
Qed.
Lemma digit_low e lo h hi m x xr xq : 300 <= e -> 0 <= h ->
  lo + 2 ^ e * h + 2 ^ (e + 28) * hi = Q * m + x -> 0 <= lo < 2 ^ (e + 4) -> 0 <= m < 2 ^ 10 ->
  x = xr + 2 ^ (e + 28) * xq -> 2 ^ (e + 26) <= xr < 2 ^ (e + 28) -> e + 28 <= 448 -> 2 ^ 20 <= h.
Proof.
  intros He Hh E Bl Bm Ex Bx He'. destruct (Z.ltb_spec h (2 ^ 20)) as [L|L]; [exfalso|exact L].
  assert (E1 : 2 ^ 448 = 2 ^ (448 - (e + 28)) * 2 ^ (e + 28)) by (rewrite <- Z.pow_add_r by lia; f_equal; lia).
  assert (E2 : 2 ^ (e + 28) = 2 ^ 28 * 2 ^ e) by (rewrite Z.pow_add_r by lia; ring).
  assert (E3 : 2 ^ (e + 26) = 2 ^ 26 * 2 ^ e) by (rewrite Z.pow_add_r by lia; ring).
  assert (E4 : 2 ^ (e + 4) = 2 ^ 4 * 2 ^ e) by (rewrite Z.pow_add_r by lia; ring).
  assert (P : 2 ^ 300 <= 2 ^ e) by (apply Z.pow_le_mono_r; lia).
  change Q with (2 ^ 448 - 2 ^ 224 - 1) in E. rewrite E2, E3, E4 in *. set (w := 2 ^ e) in *. set (v := 2 ^ (448 - (e + 28))) in *. clearbody w v.
  assert (K : 2 ^ 28 * w * (xq + v * m - hi) = lo + w * h + m * (2 ^ 224 + 1) - xr) by (rewrite Ex in E; replace (lo + w * h + m * (2 ^ 224 + 1) - xr) with (lo + w * h + 2 ^ 28 * w * hi - 2 ^ 28 * w * hi + m * (2 ^ 224 + 1) - xr) by ring; rewrite E, E1; ring).
  assert (B1 : w * h <= w * 2 ^ 20) by nia. assert (B0 : 0 <= w * h) by nia.
  assert (B2 : 0 <= m * (2 ^ 224 + 1) < 2 ^ 240) by lia.
  set (kk := xq + v * m - hi) in *. clearbody kk. set (mm := m * (2 ^ 224 + 1)) in *. clearbody mm. set (wh := w * h) in *. clearbody wh.
  assert (kk < 0) by nia. assert (- 1 < kk) by nia. lia.
Qed.
Local Transparent case_x case_iz.
Lemma case_x_limb a : arr_ok red448 a -> fe448 a mod Q = case_x -> arr_ok redlow a.
Proof.
  intros H E. pose proof (arr_len _ _ H) as L.
  do 16 (destruct a as [|? a]; [discriminate L|]). destruct a; [|discriminate L].
  unfold arr_ok, red448 in H. repeat (apply f2_inv in H as [? H]). clear H L. unfold inI in *. cbn [fst snd] in *.
  assert (G : 2 ^ 20 <= z8).
  { pose proof (Z.div_mod (fe448 [z; z0; z1; z2; z3; z4; z5; z6; z7; z8; z9; z10; z11; z12; z13; z14]) Q ltac:(discriminate)) as D. rewrite E in D. clear E.
    set (m := _ / Q) in D. clearbody m. cbv [wsum wt448] in D.
    apply (digit_low 336 (z + 2^224*z0 + 2^28*z1 + 2^252*z2 + 2^56*z3 + 2^280*z4 + 2^84*z5 + 2^308*z6 + 2^112*z7 + 2^140*z9 + 2^168*z11 + 2^196*z13)
      z8 (z10 + 2 ^ 28 * z12 + 2 ^ 56 * z14) m case_x (case_x mod 2 ^ 364) (case_x / 2 ^ 364)).
    - lia.
    - lia.
    - change Q with (2 ^ 448 - 2 ^ 224 - 1) in D |- *. change (2 ^ (336 + 28)) with (2 ^ 364). clear - D. lia.
    - change (2 ^ (336 + 4)) with (2 ^ 340). lia.
    - change Q with (2 ^ 448 - 2 ^ 224 - 1) in D. unfold case_x in D. lia.
    - change (2 ^ (336 + 28)) with (2 ^ 364). rewrite (Z.div_mod case_x (2 ^ 364)) at 1 by discriminate. ring.
    - split; vm_compute; [discriminate|reflexivity].
    - lia. }
  unfold arr_ok, redlow. repeat (constructor; [unfold inI; cbn [fst snd]; lia|]). constructor.
Qed.
Lemma case_iz_limb a : arr_ok mid448 a -> fe448 a mod Q = case_iz -> arr_ok midlow a.
Proof.
  intros H E. pose proof (arr_len _ _ H) as L.
  do 16 (destruct a as [|? a]; [discriminate L|]). destruct a; [|discriminate L].
  unfold arr_ok, mid448 in H. repeat (apply f2_inv in H as [? H]). clear H L. unfold inI in *. cbn [fst snd] in *.
  assert (G : 2 ^ 20 <= z6).
  { pose proof (Z.div_mod (fe448 [z; z0; z1; z2; z3; z4; z5; z6; z7; z8; z9; z10; z11; z12; z13; z14]) Q ltac:(discriminate)) as D. rewrite E in D. clear E.
    set (m := _ / Q) in D. clearbody m. cbv [wsum wt448] in D.
    apply (digit_low 308 (z + 2^224*z0 + 2^28*z1 + 2^252*z2 + 2^56*z3 + 2^280*z4 + 2^84*z5 + 2^112*z7 + 2^140*z9 + 2^168*z11 + 2^196*z13)
      z6 (z8 + 2 ^ 28 * z10 + 2 ^ 56 * z12 + 2 ^ 84 * z14) m case_iz (case_iz mod 2 ^ 336) (case_iz / 2 ^ 336)).
    - lia.
    - lia.
    - change Q with (2 ^ 448 - 2 ^ 224 - 1) in D |- *. change (2 ^ (308 + 28)) with (2 ^ 336). clear - D. lia.
    - change (2 ^ (308 + 4)) with (2 ^ 312). lia.
    - change Q with (2 ^ 448 - 2 ^ 224 - 1) in D. unfold case_iz in D. lia.
    - change (2 ^ (308 + 28)) with (2 ^ 336). rewrite (Z.div_mod case_iz (2 ^ 336)) at 1 by discriminate. ring.
    - split; vm_compute; [discriminate|reflexivity].
    - lia. }
  unfold arr_ok, midlow. repeat (constructor; [unfold inI; cbn [fst snd]; lia|]). constructor.
Qed.

(** ** The wrong result *)
Definition case_pk : list Z := Eval vm_compute in map (fun i => Z.land (Z.shiftr case_u (8 * Z.of_nat i)) 255) (seq 0 56).
Lemma case_pk_ok : bytes 56 case_pk /\ le_val case_pk = case_u.
Proof.
  split; [|vm_compute; reflexivity]. split; [reflexivity|].
  apply Forall_forall. intros x H. assert (C : forallb (fun b => (0 <=? b) && (b <? 256)) case_pk = true) by (vm_compute; reflexivity).
  rewrite forallb_forall in C. specialize (C x H). unfold byte. lia.
Qed.
Lemma inv_unique p x y z : prime p -> 2 < p -> (z * y) mod p = 1 -> x mod p = (z ^ (p - 2)) mod p -> x mod p = y mod p.
Proof.
  intros Pq P2 H E. assert (Nz : z mod p <> 0). { intro C. rewrite Zmult_mod, C, Z.mul_0_l in H. rewrite Z.mod_0_l in H by lia. discriminate H. }
  pose proof (fermat_inv p z Pq P2 Nz) as F. set (pw := z ^ (p - 2)) in *. clearbody pw.
  assert (E' : (x * (z * y)) mod p = (y * (z * pw)) mod p).
  { replace (x * (z * y)) with (y * z * x) by ring. replace (y * (z * pw)) with (y * z * pw) by ring. apply gmul; [reflexivity|exact E]. }
  assert (O : 1 mod p = 1) by (apply Z.mod_small; lia).
  rewrite (gmul p x (z * y) x 1 eq_refl) in E' by (rewrite H, O; reflexivity).
  rewrite (gmul p y (z * pw) y 1 eq_refl) in E' by (rewrite F, O; reflexivity). rewrite !Z.mul_1_r in E'. exact E'.
Qed.
Lemma spec_ladder k u r : (let '(x2, z2, _, _, _) := fold_left (rfc_step Q 39081 (scalar448 k) u) (rev (seq 0 448)) (u, 0, u, 1, false) in
  (x2 * z2 ^ (Q - 2)) mod Q) = r -> X448_spec k u = r.
Proof.
  intro H. unfold X448_spec. change (2 ^ 448 - 2 ^ 224 - 1) with Q. rewrite <- (ladder_from_u Q 39081 p448_prime eq_refl _ u 448 (scalar448_bit0 _) ltac:(lia)).
  exact H.
Qed.
Definition case_v : Z := 2 ^ 224 + 6 * 2 ^ 64.
Local Opaque case_x case_z case_iz case_u.
Theorem X448_wrong st : let sk := repeat 0 56 in
  X448_spec (le_val sk) (le_val case_pk) = case_v /\ le_val (x448_shared_avx2 st case_pk sk) = case_v - 2 ^ 64.
Proof.
  intro sk. assert (Bs : bytes 56 sk) by (split; [reflexivity|apply Forall_forall; intros x Hx; apply repeat_spec in Hx; subst x; unfold byte; lia]).
  destruct case_pk_ok as [Bp Vp].
  destruct (X448_parts st sk case_pk Bs Bp) as (X & iz & x2 & z2 & x3 & z3 & sw & Ea & Fo & HX & Wi & Ei & _).
  destruct (X448_affine_ok st sk case_pk Bs Bp) as [Ra Va]. pose proof (affine_tight st sk case_pk Bs Bp) as Ta.
  assert (Es : scalar448 (le_val sk) = 2 ^ 447) by (vm_compute; reflexivity).
  pose proof case_ladder as CL.
  assert (HS : X448_spec (le_val sk) (le_val case_pk) = (x2 * z2 ^ (Q - 2)) mod Q) by (apply spec_ladder; rewrite Fo; reflexivity).
  rewrite Vp, Es in Fo. rewrite Fo in CL. unfold left2, cong2 in CL. cbn [fst snd] in CL. destruct CL as [C1 C2]. clear Fo.
  destruct case_iz_ok as [I1 I2]. change (2 ^ 224 + 6 * 2 ^ 64) with case_v in I2.
  assert (I3 : (z2 * case_iz) mod Q = 1) by (rewrite <- I1; apply gmul; [exact C2|reflexivity]).
  assert (I4 : (z2 ^ (Q - 2)) mod Q = case_iz mod Q) by (apply (inv_unique Q _ case_iz z2 p448_prime eq_refl I3); reflexivity).
  assert (HV : X448_spec (le_val sk) (le_val case_pk) = case_v).
  { rewrite HS, <- I2. apply gmul; [exact C1|exact I4]. }
  split; [exact HV|]. rewrite HV in Va.
  apply mod_cong in Ei; [|discriminate]. destruct HX as [RX EX]. apply mod_cong in EX; [|discriminate].
  assert (LX : arr_ok redlow X). { apply case_x_limb; [exact RX|]. rewrite EX, C1. vm_compute. reflexivity. }
  assert (LI : arr_ok midlow iz). { apply case_iz_limb; [exact Wi|]. rewrite Ei, I4. vm_compute. reflexivity. }
  assert (Big : 2 ^ 225 <= fe448 (x448_affine st case_pk sk)).
  { rewrite Ea. unfold mul448_1w. apply compress_large. apply intmul_low; assumption. }
  unfold x448_shared_avx2. set (a := x448_affine st case_pk sk) in *. clearbody a.
  assert (Wa : is_wide448 a) by (revert Ra; apply bounds_le_ok; vm_compute; reflexivity).
  destruct (ser448_1w_wide st a Wa) as [_ ->]. destruct (tight_fe a Ta) as [Eu Bf]. unfold wrap448, w448, top448. rewrite Eu.
  assert (Ef : fe448 a = case_v + Q).
  { pose proof (Z.div_mod (fe448 a) Q ltac:(discriminate)) as D. rewrite Va in D. set (m := fe448 a / Q) in D. set (f := fe448 a) in *. clearbody m f. clear - D Bf Big.
    unfold T8 in Bf. unfold case_v in *. change Q with (2 ^ 448 - 2 ^ 224 - 1) in *. assert (m = 1) by lia. subst m. lia. }
  rewrite Ef. vm_compute. reflexivity.
Qed.
