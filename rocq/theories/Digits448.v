(** Table entries of edwards448 for which the mixed addition cannot borrow, whatever the accumulator is. *)
From Coq Require Import ZArith List Bool Lia.
From Verif Require Import Uop X86 Sym Engine Bytes Check FullTac Lanes RedTac Simd Simd448 Fp448Full Fp448FullProofs FullMore
  Fp25519Red Fp25519RedProofs Fp448Red Fp448RedProofs Fp448RedMore Fp448RedRoot Spec Scalar Ladder LadderProofs LadderVec LadderVec448 SpecEd SpecIso CurveInst EdInst448
  Edwards255 EdVec Edwards255Proofs Verify255 Verify255Proofs Recode RecodeProofs SpecRecode Fixed255 Fixed255Proofs Edwards448 EdVec448 Edwards448Proofs Prod448 Limb448 Mix448
  Verify448Proofs Mix448Way Table448 EdCert EdCert448 TableProofs448 Query448Proofs Fixed448Proofs.
Import ListNotations.
Open Scope Z_scope.
Notation B := B_ed448.
Notation "k ** P" := (mul448 k P) (at level 40).
(** ** A bilinear form with its first argument fixed is linear *)
Fixpoint colw (c : row) (u : list Z) (l : nat) : Z :=
  match c with [] => 0 | (k, l', z) :: c => (if Nat.eqb l' l then z * nth k u 0 else 0) + colw c u l end.
Fixpoint lin (w v : list Z) : Z := match w, v with x :: w, y :: v => x * y + lin w v | _, _ => 0 end.
Lemma lin_add f g : forall n k v, lin (map (fun l => f l + g l) (seq k n)) v = lin (map f (seq k n)) v + lin (map g (seq k n)) v.
Proof. induction n as [|n IH]; intros k [|y v]; try reflexivity. cbn [seq map lin]. rewrite IH. ring. Qed.
Lemma lin_zero : forall n k v (f : nat -> Z), (forall l, (k <= l)%nat -> f l = 0) -> lin (map f (seq k n)) v = 0.
Proof. induction n as [|n IH]; intros k [|y v] f H; try reflexivity. cbn [seq map lin]. rewrite (IH (Datatypes.S k)), H by (try intros; try apply H; lia). ring. Qed.
Lemma lin_unit x l : forall n k v, (k <= l < k + n)%nat -> lin (map (fun m => if Nat.eqb l m then x else 0) (seq k n)) v = x * nth (l - k) v 0.
Proof.
  induction n as [|n IH]; intros k v H; [lia|]. cbn [seq map]. destruct v as [|y v]; [cbn [lin]; destruct (l - k)%nat; cbn [nth]; ring|]. cbn [lin].
  destruct (Nat.eqb_spec l k) as [->|N].
  - rewrite Nat.sub_diag, lin_zero; [cbn [nth]; ring|]. intros m Hm. destruct (Nat.eqb_spec k m); [lia|reflexivity].
  - rewrite IH by lia. replace (l - k)%nat with (Datatypes.S (l - Datatypes.S k)) by lia. cbn [nth]. ring.
Qed.
Lemma bil_lin u v c : forallb (fun t : nat * nat * Z => (fst (fst t) <? 16)%nat && (snd (fst t) <? 16)%nat) c = true -> bil c u v = lin (map (colw c u) (seq 0 16)) v.
Proof.
  induction c as [|[[k l] z] c IH]; intro H.
  - symmetry. apply lin_zero. reflexivity.
  - cbn [forallb] in H. apply andb_prop in H. destruct H as [H0 H]. cbn [fst snd] in H0. apply andb_prop in H0. destruct H0 as [_ H0]. apply Nat.ltb_lt in H0.
    cbn [bil]. rewrite (IH H). change (map (colw ((k, l, z) :: c) u) (seq 0 16)) with (map (fun m => (if Nat.eqb l m then z * nth k u 0 else 0) + colw c u m) (seq 0 16)).
    rewrite lin_add, (lin_unit (z * nth k u 0) l 16 0 v) by lia. rewrite Nat.sub_0_r. ring.
Qed.
Lemma colw_scale c u x l : colw c (map (Z.mul x) u) l = x * colw c u l.
Proof.
  induction c as [|[[k l'] z] c IH]; [cbn; ring|]. cbn [colw]. rewrite IH. replace (nth k (map (Z.mul x) u) 0) with (x * nth k u 0).
  - destruct (l' =? l)%nat; ring.
  - rewrite <- (map_nth (Z.mul x)). rewrite Z.mul_0_r. reflexivity.
Qed.
Lemma lin_scale x f : forall n k v, lin (map (fun l => x * f l) (seq k n)) v = x * lin (map f (seq k n)) v.
Proof. induction n as [|n IH]; intros k [|y v]; cbn [seq map lin]; try ring. rewrite IH. ring. Qed.
Lemma rows_in c : In c rows -> forallb (fun t : nat * nat * Z => (fst (fst t) <? 16)%nat && (snd (fst t) <? 16)%nat) c = true.
Proof. intro H. pose proof rows_small as R. rewrite forallb_forall in R. exact (R c H). Qed.
Lemma bil_scale x u v c : In c rows -> bil c (map (Z.mul x) u) v = x * lin (map (colw c u) (seq 0 16)) v.
Proof.
  intro H. rewrite (bil_lin _ _ _ (rows_in c H)), <- lin_scale. f_equal. apply map_ext. intro l. apply colw_scale.
Qed.

(** ** The sufficient condition: with 0 <= X, Y <= 2^28 + 2^10 in every limb and 2p <= 0x1ffffffe u,
    A - B <= (2^28 + 2^10) * (sum of the limbs of max(s - a, 0)) + 0x1ffffffe * (u, s) *)
Definition u16 : list Z := [1; 2; 1; 1; 1; 1; 1; 1; 1; 1; 1; 1; 1; 1; 1; 1].
Definition one16 : list Z := repeat 1 16.
Definition ymax : Z := 2 ^ 28 + 2 ^ 10.
Definition wU : list (list Z) := Eval vm_compute in map (fun c => map (colw c u16) (seq 0 16)) rows.
Definition w1 : list (list Z) := Eval vm_compute in map (fun c => map (colw c one16) (seq 0 16)) rows.
Fixpoint posd (s a : list Z) : list Z := match s, a with x :: s, y :: a => Z.max (x - y) 0 :: posd s a | _, _ => [] end.
Fixpoint safe_rows (ws vs : list (list Z)) (cs s d : list Z) : bool :=
  match ws, vs, cs with w :: ws, v :: vs, c :: cs => (536870910 * lin w s + ymax * lin v d <=? c) && safe_rows ws vs cs s d | _, _, _ => true end.
Definition safe (s a : list Z) : bool := safe_rows wU w1 limbs_2_34P448 s (posd s a).
Lemma posd_nth l : forall s a, length s = length a -> nth l (posd s a) 0 = Z.max (nth l s 0 - nth l a 0) 0.
Proof.
  induction l as [|l IH]; intros [|x s] [|y a] E; try discriminate E; try reflexivity. cbn [posd nth]. apply IH. injection E as E. exact E.
Qed.
Lemma nth_map1 x u k : nth k (map (Z.mul x) u) 0 = x * nth k u 0.
Proof. rewrite <- (map_nth (Z.mul x)). rewrite Z.mul_0_r. reflexivity. Qed.
Section Safe.
Variables x y s a : list Z.
Hypothesis Hx : is_red448 x.
Hypothesis Hy : is_red448 y.
Hypothesis Hs : is_red448 s.
Hypothesis Ha : is_red448 a.
Lemma vsub3_nth k : forall b c d : list Z, length b = length c -> length d = length c -> nth k (vsub3 b c d) 0 = nth k b 0 - nth k c 0 + nth k d 0.
Proof.
  clear. induction k as [|k IH]; intros [|b0 b] [|c0 c] [|d0 d] E F; try discriminate; try reflexivity; cbn [vsub3 nth].
  apply IH; [injection E as E; exact E|injection F as F; exact F].
Qed.
Lemma vadd3_nth k : forall b c d : list Z, length b = length c -> length d = length c -> nth k (vadd3 b c d) 0 = nth k b 0 + nth k c 0 + nth k d 0.
Proof.
  clear. induction k as [|k IH]; intros [|b0 b] [|c0 c] [|d0 d] E F; try discriminate; try reflexivity; cbn [vadd3 nth].
  apply IH; [injection E as E; exact E|injection F as F; exact F].
Qed.
Lemma len_red v : is_red448 v -> length v = 16%nat. Proof. clear. intro H. exact (arr_len _ _ H). Qed.
Lemma tp_le k : (k < 16)%nat -> nth k limbs_2P448 0 <= 536870910 * nth k u16 0.
Proof. clear. intro H. do 16 (destruct k as [|k]; [vm_compute; discriminate|]). lia. Qed.
Lemma red_le v k : is_red448 v -> 0 <= nth k v 0 <= ymax * nth k one16 0.
Proof.
  clear. intro H. pose proof (arr_below red448 v eq_refl H k) as K. split; [lia|]. apply (Z.le_trans _ _ _ (proj2 K)).
  do 16 (destruct k as [|k]; [vm_compute; discriminate|]). destruct k; vm_compute; discriminate.
Qed.
Lemma term_le k l : nth k (ymx x y) 0 * nth l s 0 <= nth k (ypx x y) 0 * nth l a 0 + (536870910 * nth k u16 0 * nth l s 0 + ymax * nth k one16 0 * nth l (posd s a) 0).
Proof.
  pose proof (len_red _ Hx) as Lx. pose proof (len_red _ Hy) as Ly. pose proof (len_red _ Hs) as Ls. pose proof (len_red _ Ha) as La.
  unfold ymx, ypx. rewrite vsub3_nth, vadd3_nth by (rewrite Lx; try exact Ly; reflexivity).
  rewrite posd_nth by (rewrite Ls, La; reflexivity).
  pose proof (red_le x k Hx) as X. pose proof (red_le y k Hy) as Y. pose proof (red_le s l Hs) as S. pose proof (red_le a l Ha) as A.
  replace (nth k z16 0) with 0 by (clear; do 17 (destruct k as [|k]; [reflexivity|]); reflexivity).
  destruct (Nat.ltb_spec k 16) as [Lt|Ge].
  - pose proof (tp_le k Lt) as T. set (u := 536870910 * nth k u16 0) in *. set (Y0 := ymax * nth k one16 0) in *. set (tp := nth k limbs_2P448 0) in *.
    set (xk := nth k x 0) in *. set (yk := nth k y 0) in *. set (sl := nth l s 0) in *. set (al := nth l a 0) in *.
    clearbody u Y0 tp xk yk sl al. pose proof (Z.le_max_l (sl - al) 0) as M1. pose proof (Z.le_max_r (sl - al) 0) as M2. set (m := Z.max (sl - al) 0) in *. clearbody m.
    destruct X as [X0 _], Y as [Y1 Y2], S as [S0 _], A as [A0 _]. clear - X0 Y1 Y2 S0 A0 T M1 M2.
    assert (P1 : yk * (sl - al) <= Y0 * m) by (apply Z.le_trans with (yk * m); [apply Z.mul_le_mono_nonneg_l|apply Z.mul_le_mono_nonneg_r]; assumption).
    assert (P2 : tp * sl <= u * sl) by (apply Z.mul_le_mono_nonneg_r; assumption).
    assert (P3 : 0 <= xk * (sl + al)) by (apply Z.mul_nonneg_nonneg; lia). lia.
  - rewrite !(nth_overflow _ _ (eq_ind_r (fun n => (n <= k)%nat) Ge Lx)), !(nth_overflow _ _ (eq_ind_r (fun n => (n <= k)%nat) Ge Ly)).
    rewrite !(nth_overflow limbs_2P448), !(nth_overflow u16), !(nth_overflow one16) by exact Ge. rewrite !Z.mul_0_r, !Z.mul_0_l. lia.
Qed.
Lemma bil_bound : forall c, rpos c = true ->
  bil c (ymx x y) s <= bil c (ypx x y) a + (bil c (map (Z.mul 536870910) u16) s + bil c (map (Z.mul ymax) one16) (posd s a)).
Proof.
  induction c as [|[[k l] z] c IH]; intro P; [cbn [bil]; lia|]. unfold rpos in P. cbn [forallb snd] in P. apply andb_prop in P. destruct P as [P0 P]. apply Z.leb_le in P0.
  specialize (IH P). cbn [bil]. rewrite !nth_map1. pose proof (term_le k l) as T. apply (Z.mul_le_mono_nonneg_l _ _ z P0) in T.
  rewrite !Z.mul_add_distr_l in T. lia.
Qed.
Lemma safe_rows_ok : forall rs cs, incl rs rows ->
  safe_rows (map (fun c => map (colw c u16) (seq 0 16)) rs) (map (fun c => map (colw c one16) (seq 0 16)) rs) cs s (posd s a) = true ->
  no_borrow (map (fun c => bil c (ypx x y) a) rs) (map (fun c => bil c (ymx x y) s) rs) cs.
Proof.
  induction rs as [|c rs IH]; intros cs I H; [exact Logic.I|]. destruct cs as [|z cs]; [exact Logic.I|]. cbn [map safe_rows] in H. apply andb_prop in H. destruct H as [H0 H].
  apply Z.leb_le in H0. cbn [map no_borrow]. assert (Ic : In c rows) by (apply I; left; reflexivity).
  split; [|apply IH; [intros t It; apply I; right; exact It|exact H]].
  pose proof (bil_bound c (rows_rpos c Ic)) as T. rewrite !(bil_scale _ _ _ c Ic) in T. lia.
Qed.
Theorem safe_ok : safe s a = true -> clean448 x y s a.
Proof. intro H. exact (safe_rows_ok rows limbs_2_34P448 (incl_refl _) H). Qed.
End Safe.

(** ** The entries of the table *)
Definition limbf (N : Z) (l : nat) : Z := Z.land (Z.shiftr N (28 * Z.of_nat l)) 268435455.
Definition limbsf (N : Z) : list Z := map (limbf N) [0; 8; 1; 9; 2; 10; 3; 11; 4; 12; 5; 13; 6; 14; 7; 15]%nat.
Lemma limbsf_ok N : limbsf N = limbs28 N.
Proof.
  unfold limbsf, limbs28. change [0; 8; 1; 9; 2; 10; 3; 11; 4; 12; 5; 13; 6; 14; 7; 15]%nat with (map limb448 (seq 0 16)). rewrite map_map. apply map_ext. intro k.
  unfold limbf, limb. rewrite Z.shiftr_div_pow2 by lia. change 268435455 with (2 ^ 28 - 1). apply land28.
Qed.
(** The signed digits that may borrow, with their sub-table *)
Definition risky : list (nat * Z) := [(5%nat, 4); (16%nat, -3); (18%nat, 4); (20%nat, -3); (27%nat, -3)].
Definition is_risky (i : nat) (g : Z) : bool := existsb (fun t => Nat.eqb (fst t) i && (snd t =? g)) risky.
Definition safe_entry (t : triple) (neg : bool) : bool := let '(a, m, _) := t in let A := limbsf a in let M := limbsf m in if neg then safe A M else safe M A.
Definition all_safe_of (bs : list (list triple)) (f : triple -> bool -> bool) : bool :=
  forallb (fun i => forallb (fun d => let t := nth d (nth i bs []) (0, 0, 0) in
    (is_risky i (Z.of_nat d + 1) || (8 =? Z.of_nat d + 1) || f t false) && (is_risky i (- (Z.of_nat d + 1)) || f t true)) (seq 0 8)) (seq 1 27).
Lemma all_safe_ok : all_safe_of all_bases_lit safe_entry = true. Proof. vm_compute. reflexivity. Qed.
Lemma all_safe_at bs f i d (neg : bool) : all_safe_of bs f = true -> (1 <= i < 28)%nat -> (d < 8)%nat ->
  is_risky i (if neg then - (Z.of_nat d + 1) else Z.of_nat d + 1) = false -> (neg = false -> (d < 7)%nat) ->
  f (nth d (nth i bs []) (0, 0, 0)) neg = true.
Proof.
  intros H I D R N. unfold all_safe_of in H. rewrite forallb_forall in H. specialize (H i ltac:(apply in_seq; lia)). cbv beta in H.
  rewrite forallb_forall in H. specialize (H d ltac:(apply in_seq; lia)). cbv beta zeta in H.
  apply andb_prop in H. destruct H as [H1 H2]. destruct neg.
  - rewrite R in H2. exact H2.
  - rewrite R in H1. destruct (Z.eqb_spec 8 (Z.of_nat d + 1)) as [E|_]; [specialize (N eq_refl); lia|]. exact H1.
Qed.
Lemma nth_bases s d : (d < 8)%nat -> nth d (bases s) (0, 0, 0) = triple_in s d.
Proof.
  intro D. unfold bases. rewrite (nth_indep _ (0, 0, 0) (triple_in s 0)) by (rewrite map_length, seq_length; exact D).
  rewrite (map_nth (triple_in s)), seq_nth by exact D. reflexivity.
Qed.
Lemma nth_lit i d : (i < 28)%nat -> (d < 8)%nat -> nth d (nth i all_bases_lit []) (0, 0, 0) = triple_in (sub_words i) d.
Proof.
  intros I D. transitivity (nth d (nth i all_bases []) (0, 0, 0)); [exact (f_equal (fun b => nth d (nth i b []) (0, 0, 0)) (eq_sym all_bases_eq))|].
  rewrite all_bases_nth by exact I. apply nth_bases. exact D.
Qed.
Definition lowt (t : triple) : Z := fst (fst t).
Definition midt (t : triple) : Z := snd (fst t).
Lemma safe_entry_eq t neg : safe_entry t neg = safe (limbs28 (if neg : bool then lowt t else midt t)) (limbs28 (if neg then midt t else lowt t)).
Proof. destruct t as [[a m] z]. unfold safe_entry, lowt, midt. rewrite !limbsf_ok. destruct neg; reflexivity. Qed.
Lemma safe_at i d (neg : bool) : (1 <= i < 28)%nat -> (d < 8)%nat -> is_risky i (if neg then - (Z.of_nat d + 1) else Z.of_nat d + 1) = false -> (neg = false -> (d < 7)%nat) ->
  safe_entry (triple_in (sub_words i) d) neg = true.
Proof.
  intros I D R N. rewrite <- nth_lit by lia. exact (all_safe_at all_bases_lit safe_entry i d neg all_safe_ok I D R N).
Qed.
Lemma safe_zero : safe (limbs28 1) (limbs28 1) = true. Proof. rewrite <- limbsf_ok. vm_compute. reflexivity. Qed.

Section Digits.
Variable st : store.
Variables K S : list Z.
Hypothesis LK : (112 <= length K)%nat.
Hypothesis LS : (112 <= length S)%nat.
Notation g n := (signed (nth n K 0) (nth n S 0)).
Hypothesis HK : forall n, (n < 112)%nat -> 0 <= nth n K 0 <= 8 /\ (nth n S 0 = 0 \/ nth n S 0 = 2 ^ 64 - 1).
Hypothesis Hg : forall n, (n < 112)%nat -> - 8 <= g n <= 7.
Lemma entry_safe i j : (1 <= i < 28)%nat -> (j < 4)%nat -> is_risky i (g (4 * i + j)) = false ->
  safe (el4q j (subYX (entry K S i))) (el4q j (addYX (entry K S i))) = true /\ is_red448 (el4q j (subYX (entry K S i))) /\ is_red448 (el4q j (addYX (entry K S i))).
Proof.
  intros I J R. assert (I' : (i < 28)%nat) by lia.
  destruct (entry_ok K S LK LS HK i j I' J) as (_ & _ & PA & PS & _).
  apply (rq_le canon448 red448) in PA; [|vm_compute; reflexivity]. apply (rq_le canon448 red448) in PS; [|vm_compute; reflexivity].
  split; [|split; [exact (proj1 PS)|exact (proj1 PA)]]. clear PA PS.
  rewrite (entry_vec K S LK LS HK i I').
  pose proof (query_lanes (ddq K i) (fun j => ddq_ok K S LK LS HK i j I') (ssq S i) (fun j => ssq_ok K S LK LS HK i j I') i I' j J) as L. cbv zeta in L.
  pose proof (ddq_eq K S LK LS HK i j I' J) as Ed. pose proof (ssq_eq S i j J) as Es. pose proof (Hg (4 * i + j) ltac:(lia)) as G. pose proof (ddq_ok K S LK LS HK i j I') as D8.
  rewrite <- Ed, <- Es in R, G. clear Ed Es.
  set (q := query_table448 _ _ i) in *. clearbody q.
  pose proof (sign_table448_ok i (ddq K i j - 1) I') as T. unfold baseq in L. destruct (ssq_ok K S LK LS HK i j I') as [Z0|Z1].
  - unfold signed in R, G. rewrite Z0 in *. change (0 =? 0) with true in R, G. cbv iota in R, G.
    destruct (ddq K i j) as [|d] eqn:E.
    + rewrite Nat2Z.inj_0, Z.mul_0_l, mul448_0, iso_zero in L. destruct L as (_ & LA & LM & _). rewrite LA, LM. unfold sw. rewrite Z0. exact safe_zero.
    + specialize (T ltac:(lia)). replace (1 + Z.of_nat (Datatypes.S d - 1)) with (Z.of_nat (Datatypes.S d)) in T by lia. rewrite <- T in L. clear T.
      replace (Datatypes.S d - 1)%nat with d in L by lia. replace (Z.of_nat (Datatypes.S d)) with (Z.of_nat d + 1) in R by lia.
      pose proof (safe_at i d false I ltac:(lia) R ltac:(lia)) as Sf. set (t := triple_in (sub_words i) d) in *. clearbody t. destruct t as [[a m] e]. destruct L as (_ & LA & LM & _). rewrite LA, LM. unfold sw. rewrite Z0.
      rewrite safe_entry_eq in Sf. exact Sf.
  - unfold signed in R, G. rewrite Z1 in *. change (ones64 =? 0) with false in R, G. cbv iota in R, G.
    destruct (ddq K i j) as [|d] eqn:E.
    + rewrite Nat2Z.inj_0, Z.mul_0_l, mul448_0, iso_zero in L. destruct L as (_ & LA & LM & _). rewrite LA, LM. unfold sw. rewrite Z1. exact safe_zero.
    + specialize (T ltac:(lia)). replace (1 + Z.of_nat (Datatypes.S d - 1)) with (Z.of_nat (Datatypes.S d)) in T by lia. rewrite <- T in L. clear T.
      replace (Datatypes.S d - 1)%nat with d in L by lia. replace (Z.of_nat (Datatypes.S d)) with (Z.of_nat d + 1) in R by lia.
      pose proof (safe_at i d true I ltac:(lia) R ltac:(discriminate)) as Sf. set (t := triple_in (sub_words i) d) in *. clearbody t. destruct t as [[a m] e]. destruct L as (_ & LA & LM & _). rewrite LA, LM. unfold sw. rewrite Z1.
      change (ones64 =? 0) with false. cbv iota. rewrite safe_entry_eq in Sf. exact Sf.
Qed.
Definition safe_digits : Prop := forall i j, (1 <= i < 28)%nat -> (j < 4)%nat -> is_risky i (g (4 * i + j)) = false.
Theorem safe_clean : safe_digits -> mul_clean st K S.
Proof.
  intros Sd m j Hm J. revert Hm. induction m as [m IH] using lt_wf_ind. intro Hm.
  destruct (loopq_ok st K S LK LS HK m ltac:(lia) j J (fun m' H' => IH m' H' ltac:(lia))) as [_ (_ & RX & RY & _)].
  destruct (entry_safe (Datatypes.S m) j ltac:(lia) J (Sd (Datatypes.S m) j ltac:(lia) J)) as (Sf & RS & RA).
  exact (safe_ok _ _ _ _ RX RY RS RA Sf).
Qed.
End Digits.
