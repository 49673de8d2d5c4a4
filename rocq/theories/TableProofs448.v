(** The look-up tables of edwards448 hold multiples of the base point, mapped to the isogenous curve; its order. *)
From Coq Require Import ZArith Znumtheory Lia List Bool.
From Verif Require Import SpecEd SpecIso CurveInst EdPoint EdInst448 EdCert EdCert448 Table448.
Import ListNotations.
Open Scope Z_scope.

Local Notation p := p_ed448.
Local Notation B := B_ed448.
Definition half (x : Z) : Z := if Z.even x then Z.div2 x else Z.div2 (x + p448_lit).
(** x modulo p for -p <= x < 2p *)
Definition norm (x : Z) : Z := if x <? 0 then x + p448_lit else if p448_lit <=? x then x - p448_lit else x.
Definition triple : Type := Z * Z * Z.
(** The affine point whose sum and difference of coordinates are stored *)
Definition pt_of (t : triple) : Z * Z := let '(a, s, _) := t in (half (norm (a - s)), half (norm (a + s))).
Definition inbp (x : Z) : bool := (0 <=? x) && (x <? p448_lit).
Definition entry_chk (t : triple) : bool :=
  let '(a, s, e) := t in let (x, y) := pt_of t in
  inbp a && inbp s && inbp e && zero44 (-78164 * mulk x y - e).
(** What the three numbers of a point should be *)
Definition triple_of (P : Z * Z) : triple := let (x, y) := P in ((y + x) mod p, (y - x) mod p, (2 * (d_ed448 - 1) * x * y) mod p).

Lemma half_ok x : (2 * half x) mod p = x mod p.
Proof.
  unfold half. change p448_lit with p. rewrite !Z.div2_div. destruct (Z.even x) eqn:E.
  - apply Z.even_spec in E. destruct E as [k ->]. rewrite (Z.mul_comm 2 k), Z.div_mul by lia. f_equal. ring.
  - assert (O : Z.even (x + p) = true) by (rewrite Z.even_add, E; reflexivity).
    apply Z.even_spec in O. destruct O as [k K]. rewrite K, (Z.mul_comm 2 k), Z.div_mul by lia.
    rewrite <- K, <- (Z_mod_plus_full x 1 p). f_equal.
Qed.
Lemma norm_mod x : norm x mod p = x mod p.
Proof.
  unfold norm. change p448_lit with p. destruct (x <? 0); [|destruct (p <=? x)].
  - rewrite <- (Z_mod_plus_full x 1 p). f_equal.
  - rewrite <- (Z_mod_plus_full x (-1) p). f_equal.
  - reflexivity.
Qed.
Lemma norm_small x : - p <= x < 2 * p -> 0 <= norm x < p.
Proof.
  unfold norm. change p448_lit with p. assert (0 < p) by reflexivity. destruct (Z.ltb_spec x 0); [|destruct (Z.leb_spec p x)]; lia.
Qed.
Lemma half_small x : 0 <= x < p -> 0 <= half x < p.
Proof.
  intro H. unfold half. change p448_lit with p. rewrite !Z.div2_div. destruct (Z.even x); (split; [apply Z.div_pos; lia|apply Z.div_lt_upper_bound; lia]).
Qed.
Lemma two_cancel x y : (2 * x) mod p = (2 * y) mod p -> x mod p = y mod p.
Proof. intro E. apply (cancel_mod p 2); [exact p44_prime|discriminate|]. now rewrite (Z.mul_comm x), (Z.mul_comm y). Qed.
Lemma entry_ok t : entry_chk t = true -> t = triple_of (pt_of t).
Proof.
  destruct t as [[a s] e]. unfold entry_chk, triple_of. destruct (pt_of (a, s, e)) as [x y] eqn:Ep. intro C.
  apply andb_prop in C. destruct C as [C Ce]. apply andb_prop in C. destruct C as [C Cr]. apply andb_prop in C. destruct C as [Ca Cs]. unfold inbp in *.
  apply andb_prop in Ca, Cs, Cr. rewrite Z.leb_le, Z.ltb_lt in Ca, Cs, Cr. change p448_lit with p in *. apply zero44_ok in Ce.
  apply sub_mod0 in Ce; [|discriminate].
  unfold pt_of in Ep. injection Ep as Ex Ey.
  assert (Hx : (2 * x) mod p = (a - s) mod p) by (rewrite <- Ex, half_ok; apply norm_mod).
  assert (Hy : (2 * y) mod p = (a + s) mod p) by (rewrite <- Ey, half_ok; apply norm_mod).
  clear Ex Ey. f_equal; [f_equal|].
  - rewrite <- (Z.mod_small a p) by assumption. apply two_cancel.
    replace (2 * (y + x)) with (2 * y + 2 * x) by ring. rewrite Zplus_mod, Hx, Hy, <- Zplus_mod. f_equal. ring.
  - rewrite <- (Z.mod_small s p) by assumption. apply two_cancel.
    replace (2 * (y - x)) with (2 * y - 2 * x) by ring. rewrite Zminus_mod, Hx, Hy, <- Zminus_mod. f_equal. ring.
  - rewrite (Z.mod_small e p Cr) in Ce. rewrite <- Ce, <- Z.mul_mod_idemp_r, mulk_ok, Z.mul_mod_idemp_r by discriminate.
    apply (f_equal (fun z => z mod p)). unfold d_ed448. ring.
Qed.

(** ** Certificates *)
Definition pt_eqb (P Q : Z * Z) : bool := (fst P =? fst Q) && (snd P =? snd Q).
Fixpoint mults (P cur : Z * Z) (l : list triple) : bool :=
  match l with [] => true | t :: l => let R := pt_of t in add44 P cur R && entry_chk t && mults P R l end.
Fixpoint dbls (cur : Z * Z) (l : list (Z * Z)) : bool :=
  match l with [] => true | h :: l => dbl44 cur h && dbls h l end.
Definition block : Type := list triple * list (Z * Z).
Fixpoint chain (P : Z * Z) (bs : list block) : bool :=
  match bs with
  | [] => true
  | (ts, hs) :: bs =>
    match ts with
    | [] => false
    | t :: r => pt_eqb (pt_of t) P && entry_chk t && mults P P r && dbls (pt_of (last ts t)) hs &&
      match bs with
      | (t' :: _, _) :: _ => dbl44 (last hs P) (pt_of t') && chain (pt_of t') bs
      | _ => true
      end
    end
  end.
Lemma pt_eqb_ok P Q : pt_eqb P Q = true -> P = Q.
Proof. destruct P, Q. unfold pt_eqb. cbn [fst snd]. rewrite andb_true_iff, !Z.eqb_eq. intros [-> ->]. reflexivity. Qed.
Notation "k ** P" := (mul448 k P) (at level 40).
Local Notation M := quarter448.
Lemma onM : on448 M. Proof. split; [split; [discriminate|reflexivity]|split; [split; [discriminate|reflexivity]|vm_compute; reflexivity]]. Qed.
(** The image on the isogenous curve of a multiple of the quarter of the base point *)
Definition im (c : Z) : Z * Z := iso448 (c ** M).
Lemma im_add a b R : add44 (im a) (im b) R = true -> R = im (a + b).
Proof. intro C. apply add44_ok in C; [|apply mul448_on, onM|apply mul448_on, onM]. rewrite C. unfold im. f_equal. symmetry. apply mul448_add, onM. Qed.
Lemma im_dbl a R : dbl44 (im a) R = true -> R = im (a + a).
Proof. intro C. apply dbl44_ok in C; [|apply mul448_on, onM]. rewrite C. unfold im. f_equal. symmetry. apply mul448_add, onM. Qed.
Lemma im_small a : 0 <= fst (im a) < p /\ 0 <= snd (im a) < p. Proof. apply iso_small. Qed.
Lemma mults_ok c l : forall m, mults (im c) (im (m * c)) l = true ->
  forall i, (i < length l)%nat -> nth i l (0, 0, 0) = triple_of (im ((m + 1 + Z.of_nat i) * c)).
Proof.
  induction l as [|t l IH]; intros m C i Hi; [inversion Hi|].
  cbn [mults] in C. apply andb_prop in C. destruct C as [C C3]. apply andb_prop in C. destruct C as [C1 C2].
  apply im_add in C1. replace (c + m * c) with ((m + 1) * c) in C1 by ring.
  destruct i as [|i].
  - cbn [nth]. rewrite (entry_ok t C2), C1. do 2 f_equal. lia.
  - cbn [nth]. rewrite C1 in C3. rewrite (IH (m + 1) C3 i) by (cbn [length] in Hi; lia). do 2 f_equal. lia.
Qed.
Lemma dbls_ok l : forall c, dbls (im c) l = true -> forall i, (i < length l)%nat ->
  nth i l (0, 0) = im (2 ^ (Z.of_nat i + 1) * c).
Proof.
  induction l as [|h l IH]; intros c C i Hi; [inversion Hi|].
  cbn [dbls] in C. apply andb_prop in C. destruct C as [C1 C2].
  apply im_dbl in C1.
  destruct i as [|i].
  - cbn [nth]. rewrite C1. f_equal. change (2 ^ (Z.of_nat 0 + 1)) with 2. ring.
  - cbn [nth]. rewrite C1 in C2. rewrite (IH (c + c) C2 i) by (cbn [length] in Hi; lia). f_equal.
    rewrite Nat2Z.inj_succ. replace (Z.succ (Z.of_nat i) + 1) with (1 + (Z.of_nat i + 1)) by lia. rewrite (Z.pow_add_r 2 1) by lia. ring.
Qed.
Lemma last_nth {A} (l : list A) d : last l d = nth (length l - 1) l d.
Proof.
  induction l as [|x l IH]; [reflexivity|]. destruct l as [|y l]; [reflexivity|].
  change (last (x :: y :: l) d) with (last (y :: l) d). rewrite IH. cbn [length]. rewrite !Nat.sub_succ, !Nat.sub_0_r. reflexivity.
Qed.
Definition block_shape (b : block) : Prop := length (fst b) = 8%nat /\ length (snd b) = 12%nat.
Lemma pt_of_triple P : 0 <= fst P < p /\ 0 <= snd P < p -> pt_of (triple_of P) = P.
Proof.
  destruct P as [x y]. cbn [fst snd]. intros (Hx & Hy). unfold triple_of, pt_of.
  pose proof (Z.mod_pos_bound (y + x) p eq_refl) as M1. pose proof (Z.mod_pos_bound (y - x) p eq_refl) as M2.
  assert (R1 : - p <= (y + x) mod p - (y - x) mod p < 2 * p) by lia. assert (R2 : - p <= (y + x) mod p + (y - x) mod p < 2 * p) by lia.
  f_equal.
  - rewrite <- (Z.mod_small (half _) p) by apply half_small, norm_small, R1.
    rewrite <- (Z.mod_small x p) at 3 by assumption. apply two_cancel. rewrite half_ok, norm_mod, <- Zminus_mod. f_equal. ring.
  - rewrite <- (Z.mod_small (half _) p) by apply half_small, norm_small, R2.
    rewrite <- (Z.mod_small y p) at 3 by assumption. apply two_cancel. rewrite half_ok, norm_mod, <- Zplus_mod. f_equal. ring.
Qed.
Lemma chain_ok bs : forall c, chain (im c) bs = true -> Forall block_shape bs ->
  forall k, (k < length bs)%nat ->
  (forall i, (i < 8)%nat -> nth i (fst (nth k bs ([], []))) (0, 0, 0) = triple_of (im ((1 + Z.of_nat i) * (65536 ^ Z.of_nat k * c)))) /\
  (forall i, (i < 12)%nat -> nth i (snd (nth k bs ([], []))) (0, 0) = im (2 ^ (Z.of_nat i + 4) * (65536 ^ Z.of_nat k * c))).
Proof.
  induction bs as [|[ts hs] bs IH]; intros c C S k Hk; [inversion Hk|].
  inversion S as [|? ? [S1 S2] S']; subst. cbn [fst snd] in S1, S2.
  cbn [chain] in C. destruct ts as [|t r]; [discriminate S1|].
  apply andb_prop in C. destruct C as [C C5]. apply andb_prop in C. destruct C as [C C4]. apply andb_prop in C. destruct C as [C C3].
  apply andb_prop in C. destruct C as [C1 C2]. apply pt_eqb_ok in C1. apply entry_ok in C2. rewrite C1 in C2.
  assert (T : forall i, (i < 8)%nat -> nth i (t :: r) (0, 0, 0) = triple_of (im ((1 + Z.of_nat i) * c))).
  { intros i Hi. destruct i as [|i].
    - cbn [nth]. rewrite C2. do 2 f_equal. lia.
    - cbn [nth]. replace (im c) with (im (1 * c)) in C3 at 2 by (f_equal; ring).
      rewrite (mults_ok c r 1 C3 i) by (cbn [length] in S1; lia). do 2 f_equal. lia. }
  assert (L8 : pt_of (last (t :: r) t) = im (8 * c)).
  { rewrite last_nth, S1. change (8 - 1)%nat with 7%nat. rewrite (nth_indep _ t (0, 0, 0)) by (rewrite S1; lia).
    rewrite T by lia. apply pt_of_triple, im_small. }
  rewrite L8 in C4.
  assert (H : forall i, (i < 12)%nat -> nth i hs (0, 0) = im (2 ^ (Z.of_nat i + 4) * c)).
  { intros i Hi. rewrite (dbls_ok hs _ C4 i) by lia. f_equal. replace (Z.of_nat i + 4) with (Z.of_nat i + 1 + 3) by lia.
    rewrite (Z.pow_add_r 2 _ 3) by lia. change (2 ^ 3) with 8. ring. }
  destruct k as [|k].
  - change (65536 ^ Z.of_nat 0) with 1. rewrite !Z.mul_1_l. split; [exact T|exact H].
  - cbn [nth]. destruct bs as [|[ts' hs'] bs]; [cbn [length] in Hk; lia|].
    destruct ts' as [|t' r']; [inversion S' as [|? ? [S3 _]]; discriminate S3|].
    apply andb_prop in C5. destruct C5 as [C5 C6].
    assert (LH : last hs (im c) = im (32768 * c)).
    { rewrite last_nth, S2. change (12 - 1)%nat with 11%nat. rewrite (nth_indep _ _ (0, 0)) by (rewrite S2; lia). rewrite H by lia. reflexivity. }
    rewrite LH in C5. apply im_dbl in C5. rewrite C5 in C6.
    destruct (IH (32768 * c + 32768 * c) C6 S' k ltac:(cbn [length] in *; lia)) as [A1 A2].
    assert (E : forall z, z * (65536 ^ Z.of_nat k * (32768 * c + 32768 * c)) = z * (65536 ^ Z.of_nat (Datatypes.S k) * c)).
    { intro z. rewrite Nat2Z.inj_succ, Z.pow_succ_r by lia. ring. }
    split; intros i Hi; [rewrite A1 by exact Hi|rewrite A2 by exact Hi]; now rewrite E.
Qed.


(** ** The quarter of the base point *)
Lemma im1_chk : iso44 M (nth 0 first448 (0, 0)) = true. Proof. vm_compute. reflexivity. Qed.
Lemma im_1 : nth 0 first448 (0, 0) = im 1.
Proof. unfold im. rewrite mul448_1 by exact onM. exact (iso44_ok _ _ onM im1_chk). Qed.
Lemma first_chk : dbl44 (nth 0 first448 (0, 0)) (nth 1 first448 (0, 0)) = true. Proof. vm_compute. reflexivity. Qed.
Lemma im_2 : nth 1 first448 (0, 0) = im 2.
Proof. pose proof first_chk as C. rewrite im_1 in C. exact (im_dbl 1 _ C). Qed.
Lemma back_chk : back44 (nth 0 first448 (0, 0)) B = true. Proof. vm_compute. reflexivity. Qed.
Lemma four_M : B = 4 ** M.
Proof.
  pose proof back_chk as C. rewrite im_1 in C. unfold im in C. rewrite mul448_1 in C by exact onM. exact (back44_ok _ _ onM C).
Qed.
Lemma onB : on448 B. Proof. rewrite four_M. apply mul448_on, onM. Qed.
Lemma im_B k : iso448 (k ** B) = im (k * 4).
Proof. rewrite four_M, <- mul448_mul by exact onM. reflexivity. Qed.

(** ** The fixed-base table: sub-table of 168 words per index; word j of number c of the multiple m + 1 is at 24 j + 3 m + c *)
Definition sub_words (idx : nat) : list Z := firstn 168 (skipn (168 * idx) TableSign_w4_3675k).
Definition num_of (w : nat -> Z) : Z :=
  w 0%nat + 2 ^ 64 * (w 1%nat + 2 ^ 64 * (w 2%nat + 2 ^ 64 * (w 3%nat + 2 ^ 64 * (w 4%nat + 2 ^ 64 * (w 5%nat + 2 ^ 64 * w 6%nat))))).
Definition num_in (s : list Z) (m c : nat) : Z := num_of (fun j => nth (24 * j + 3 * m + c) s 0).
Definition triple_in (s : list Z) (m : nat) : triple := (num_in s m 0, num_in s m 1, num_in s m 2).
Definition bases (s : list Z) : list triple := map (triple_in s) (seq 0 8).
Definition all_bases : list (list triple) := map (fun i => bases (sub_words i)) (seq 0 28).
Definition all_bases_lit : list (list triple) := Eval vm_compute in all_bases.
Lemma all_bases_eq : all_bases = all_bases_lit. Proof. vm_compute. reflexivity. Qed.
Definition blocks : list block := combine all_bases_lit dbl448.
Definition start448 : Z * Z := pt_of (nth 0 (nth 0 all_bases_lit []) (0, 0, 0)).
Lemma start_chk : dbl44 (nth 1 first448 (0, 0)) start448 = true. Proof. vm_compute. reflexivity. Qed.
Lemma start_ok : start448 = im 4.
Proof. pose proof start_chk as C. rewrite im_2 in C. exact (im_dbl 2 _ C). Qed.
Lemma blocks_chain0 : chain start448 blocks = true. Proof. vm_compute. reflexivity. Qed.
Lemma blocks_chain : chain (im 4) blocks = true. Proof. rewrite <- start_ok. exact blocks_chain0. Qed.
Lemma blocks_shape : Forall block_shape blocks.
Proof.
  apply Forall_forall. intros b H. assert (F : forallb (fun b : block => (length (fst b) =? 8)%nat && (length (snd b) =? 12)%nat) blocks = true) by (vm_compute; reflexivity).
  rewrite forallb_forall in F. specialize (F b H). apply andb_prop in F. rewrite !Nat.eqb_eq in F. exact F.
Qed.
Lemma blocks_nth k : (k < 28)%nat -> fst (nth k blocks ([], [])) = nth k all_bases_lit [].
Proof. intros _. exact (f_equal fst (combine_nth all_bases_lit dbl448 k [] [] eq_refl)). Qed.
Lemma all_bases_nth i : (i < 28)%nat -> nth i all_bases [] = bases (sub_words i).
Proof.
  intros Hi. unfold all_bases. rewrite (nth_indep _ [] (bases (sub_words 0))) by (rewrite map_length, seq_length; exact Hi).
  rewrite (map_nth (fun i => bases (sub_words i))), seq_nth by exact Hi. reflexivity.
Qed.
Theorem sign_table448_ok i m : (i < 28)%nat -> (m < 8)%nat ->
  triple_in (sub_words i) m = triple_of (iso448 (((1 + Z.of_nat m) * 16 ^ (4 * Z.of_nat i)) ** B)).
Proof.
  intros Hi Hm.
  destruct (chain_ok blocks 4 blocks_chain blocks_shape i) as [A _]; [change (length blocks) with 28%nat; lia|].
  specialize (A m Hm). rewrite blocks_nth in A by lia. rewrite <- all_bases_eq, all_bases_nth in A by assumption.
  unfold bases in A. rewrite (nth_indep _ _ (triple_in (sub_words i) 0)) in A by (rewrite map_length, seq_length; exact Hm).
  rewrite map_nth, seq_nth in A by exact Hm. cbn [Nat.add] in A. rewrite A, im_B. do 2 f_equal.
  rewrite Z.pow_mul_r by lia. change (16 ^ 4) with 65536. ring.
Qed.

(** ** The order of the base point *)
Definition pow2s : list (Z * Z) := concat (map (fun b : block => map (fun m => pt_of (nth m (fst b) (0, 0, 0))) [0; 1; 3; 7]%nat ++ snd b) blocks).
Definition pow2s_lit : list (Z * Z) := Eval vm_compute in pow2s.
Lemma pow2s_eq : pow2s = pow2s_lit. Proof. vm_compute. reflexivity. Qed.
Lemma concat_nth {A} (d : A) n : forall (l : list (list A)) k i, Forall (fun x => length x = n) l -> (i < n)%nat -> (k < length l)%nat ->
  nth (n * k + i) (concat l) d = nth i (nth k l []) d.
Proof.
  induction l as [|x l IH]; intros k i F Hi Hk; [inversion Hk|]. inversion F as [|? ? Lx F']; subst.
  cbn [concat]. destruct k as [|k].
  - rewrite Nat.mul_0_r. cbn [Nat.add nth]. apply app_nth1. exact Hi.
  - rewrite app_nth2 by nia. cbn [nth]. rewrite <- (IH k i F' Hi) by (cbn [length] in Hk; lia). f_equal. nia.
Qed.
Lemma pow2s_nth n : (n < 448)%nat -> nth n pow2s (0, 0) = im (2 ^ Z.of_nat n * 4).
Proof.
  intro H. pose proof (Nat.div_mod n 16 ltac:(lia)) as E. pose proof (Nat.mod_upper_bound n 16 ltac:(lia)) as U.
  assert (K : (n / 16 < 28)%nat) by (apply Nat.div_lt_upper_bound; lia).
  rewrite E. unfold pow2s.
  rewrite (concat_nth (0, 0) 16);
    [| |exact U|rewrite map_length; exact K].
  2: { apply Forall_forall. intros x Hx. apply in_map_iff in Hx. destruct Hx as [b [<- Hb]].
       pose proof (proj1 (Forall_forall _ _) blocks_shape b Hb) as [_ S2]. rewrite app_length, map_length, S2. reflexivity. }
  set (f := fun b : block => map (fun m => pt_of (nth m (fst b) (0, 0, 0))) [0; 1; 3; 7]%nat ++ snd b).
  rewrite (nth_indep _ [] (f ([], []))) by (rewrite map_length; exact K). rewrite (map_nth f).
  destruct (chain_ok blocks 4 blocks_chain blocks_shape (n / 16)%nat K) as [A1 A2]. unfold f.
  assert (X : forall j, (j < 16)%nat -> 2 ^ Z.of_nat (16 * (n / 16) + j) * 4 = 2 ^ Z.of_nat j * (65536 ^ Z.of_nat (n / 16) * 4)).
  { intros j _. rewrite Nat2Z.inj_add, Z.pow_add_r by lia. change 65536 with (2 ^ 16). rewrite <- Z.pow_mul_r by lia. rewrite Nat2Z.inj_mul. change (Z.of_nat 16) with 16. ring. }
  rewrite X by exact U. set (j := (n mod 16)%nat) in *. clearbody j. set (c := 65536 ^ Z.of_nat (n / 16) * 4) in *. clearbody c.
  assert (T : forall i, (i < 8)%nat -> pt_of (nth i (fst (nth (n / 16) blocks ([], []))) (0, 0, 0)) = im ((1 + Z.of_nat i) * c)).
  { intros i Hi. rewrite A1 by exact Hi. apply pt_of_triple, im_small. }
  destruct j as [|[|[|[|j]]]]; cbn [map app nth]; [rewrite T by lia; reflexivity|rewrite T by lia; reflexivity|rewrite T by lia; reflexivity|rewrite T by lia; reflexivity|].
  rewrite A2 by lia. do 3 f_equal. lia.
Qed.
Definition pow2m : list (Z * Z) := first448 ++ pow2s_lit.
Lemma pow2m_nth n : (n < 450)%nat -> nth n pow2m (0, 0) = im (2 ^ Z.of_nat n).
Proof.
  intro H. destruct n as [|[|n]]; [exact im_1|exact im_2|].
  change (nth (Datatypes.S (Datatypes.S n)) pow2m (0, 0)) with (nth n pow2s_lit (0, 0)). rewrite <- pow2s_eq, pow2s_nth by lia. f_equal.
  rewrite !Nat2Z.inj_succ, !Z.pow_succ_r by lia. ring.
Qed.
(** Signed sum over the positions of [idxs]; (-x, y) is the negative of (x, y) *)
Definition flip (P : Z * Z) : Z * Z := let (x, y) := P in (p448_lit - x, y).
Definition val_digits (ds : list (nat * bool)) (v : Z) : Z :=
  fold_left (fun v d => if snd d : bool then v + 2 ^ Z.of_nat (fst d) else v - 2 ^ Z.of_nat (fst d)) ds v.
Fixpoint sums (acc : Z * Z) (ds : list (nat * bool)) (hs : list (Z * Z)) : option (Z * Z) :=
  match ds, hs with
  | [], [] => Some acc
  | (i, s) :: ds, h :: hs =>
    let P := nth i pow2m (0, 0) in
    if (0 <? fst P) && add44 acc (if s : bool then P else flip P) h then sums h ds hs else None
  | _, _ => None
  end.
Lemma flip_ok c : 0 < fst (im c) -> flip (im c) = im (- c).
Proof.
  intro H. unfold im. replace (- c) with ((-1) * c) by ring. rewrite mul448_mul by exact onM.
  assert (E : (-1) ** (c ** M) = neg448 (c ** M)) by reflexivity.
  rewrite E, iso448_neg by apply mul448_on, onM. change (iso448 (c ** M)) with (im c) in *.
  pose proof (im_small c) as [R _]. destruct (im c) as [x y]. cbn [fst] in *. unfold flip, neg448, ed_neg. f_equal.
  change p448_lit with p. rewrite <- (Z_mod_plus_full (- x) 1 p). symmetry.
  replace (- x + 1 * p) with (p - x) by ring. apply Z.mod_small. split; [apply Z.lt_le_incl, Z.lt_0_sub, R|]. apply Z.lt_sub_pos. exact H.
Qed.
Lemma sums_ok ds : forall v hs R, Forall (fun d => (fst d < 450)%nat) ds -> sums (im v) ds hs = Some R -> R = im (val_digits ds v).
Proof.
  induction ds as [|[i s] ds IH]; intros v hs R F E.
  - destruct hs; [|discriminate E]. injection E as <-. reflexivity.
  - destruct hs as [|h hs]; [discriminate E|]. inversion F; subst. cbn [sums] in E. cbn [fst] in *.
    rewrite pow2m_nth in E by assumption.
    destruct ((0 <? fst (im (2 ^ Z.of_nat i))) && _) eqn:C; [|discriminate E]. apply andb_prop in C. destruct C as [C0 C]. apply Z.ltb_lt in C0.
    unfold val_digits. cbn [fold_left fst snd]. destruct s.
    + apply im_add in C. rewrite C in E. apply (IH _ hs); assumption.
    + rewrite flip_ok in C by exact C0. apply im_add in C. rewrite C in E. apply (IH _ hs); assumption.
Qed.
Lemma order_chk : sums (nth 446 pow2m (0, 0)) digits448 order448 = Some (0, 1). Proof. vm_compute. reflexivity. Qed.
Lemma digits_val : val_digits digits448 (2 ^ Z.of_nat 446) = l_ed448. Proof. vm_compute. reflexivity. Qed.
Lemma digits_small : Forall (fun d : nat * bool => (fst d < 450)%nat) digits448.
Proof.
  apply Forall_forall. intros x Hx. assert (F : forallb (fun i : nat * bool => (fst i <? 450)%nat) digits448 = true) by (vm_compute; reflexivity).
  rewrite forallb_forall in F. apply Nat.ltb_lt, F, Hx.
Qed.
Lemma order_im : im l_ed448 = (0, 1).
Proof. pose proof order_chk as C. rewrite pow2m_nth in C by lia. apply sums_ok in C; [|exact digits_small]. rewrite digits_val in C. symmetry. exact C. Qed.
Lemma kernel_four Q : on448 Q -> iso448 Q = (0, 1) -> 4 ** Q = ed_zero.
Proof.
  intros HQ E. symmetry. apply (back44_ok _ _ HQ). rewrite E. vm_compute. reflexivity.
Qed.
Lemma order_gen l Q k : on448 Q -> k = (0, 1) -> k = iso448 (l ** Q) -> l ** (4 ** Q) = ed_zero.
Proof. intros HQ -> E. symmetry in E. rewrite <- mul448_mul, Z.mul_comm, mul448_mul by exact HQ. apply kernel_four; [apply mul448_on, HQ|exact E]. Qed.
Lemma im_eq c : im c = iso448 (c ** M). Proof. reflexivity. Qed.
Theorem order_B448 : l_ed448 ** B = ed_zero.
Proof. rewrite four_M. exact (order_gen l_ed448 M (im l_ed448) onM order_im (im_eq l_ed448)). Qed.

(** ** The verification table: odd multiples *)
Definition verf_triple (j : nat) : triple :=
  let n c := num_of (fun k => nth (21 * j + 7 * c + k) TableVerif_static_w7_Ed448 0) in (n 0%nat, n 1%nat, n 2%nat).
Definition verf_triples : list triple := map verf_triple (seq 0 32).
Definition verf_lit : list triple := Eval vm_compute in verf_triples.
Lemma verf_eq : verf_triples = verf_lit. Proof. vm_compute. reflexivity. Qed.
Lemma verf_chk : (pt_eqb (pt_of (nth 0 verf_lit (0, 0, 0))) start448 && entry_chk (nth 0 verf_lit (0, 0, 0))) && mults (nth 1 pow2s_lit (0, 0)) start448 (tl verf_lit) = true.
Proof. vm_compute. reflexivity. Qed.
Lemma mults_ok2 c l : forall m, mults (im c) (im m) l = true ->
  forall i, (i < length l)%nat -> nth i l (0, 0, 0) = triple_of (im (m + (1 + Z.of_nat i) * c)).
Proof.
  induction l as [|t l IH]; intros m C i Hi; [inversion Hi|].
  cbn [mults] in C. apply andb_prop in C. destruct C as [C C3]. apply andb_prop in C. destruct C as [C1 C2].
  apply im_add in C1.
  destruct i as [|i].
  - cbn [nth]. rewrite (entry_ok t C2), C1. do 2 f_equal. lia.
  - cbn [nth]. rewrite C1 in C3. rewrite (IH (c + m) C3 i) by (cbn [length] in Hi; lia). do 2 f_equal. lia.
Qed.
Theorem verf_table448_ok j : (j < 32)%nat -> verf_triple j = triple_of (iso448 ((2 * Z.of_nat j + 1) ** B)).
Proof.
  intro H. assert (N : verf_triple j = nth j verf_lit (0, 0, 0)).
  { rewrite <- verf_eq. unfold verf_triples. rewrite (nth_indep _ _ (verf_triple 0)) by (rewrite map_length, seq_length; exact H).
    rewrite map_nth, seq_nth by exact H. reflexivity. }
  rewrite N. pose proof verf_chk as C. apply andb_prop in C. destruct C as [C C3]. apply andb_prop in C. destruct C as [C1 C2].
  apply pt_eqb_ok in C1. apply entry_ok in C2. rewrite C1 in C2. rewrite start_ok in *.
  assert (P2 : nth 1 pow2s_lit (0, 0) = im 8) by (rewrite <- pow2s_eq; apply (pow2s_nth 1); lia).
  rewrite P2 in C3. rewrite im_B.
  destruct j as [|j].
  - rewrite C2. reflexivity.
  - assert (T : nth (Datatypes.S j) verf_lit (0, 0, 0) = nth j (tl verf_lit) (0, 0, 0)) by reflexivity.
    rewrite T, (mults_ok2 8 _ 4 C3) by (change (length (tl verf_lit)) with 31%nat; lia). do 2 f_equal. lia.
Qed.
