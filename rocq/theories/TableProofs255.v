(** The look-up tables of edwards25519 hold multiples of the base point; its order. *)
From Coq Require Import ZArith Znumtheory Lia List Bool.
From Verif Require Import SpecEd CurveInst EdPoint EdInst EdCert EdProps Table255.
Import ListNotations.
Open Scope Z_scope.

Local Notation p := p_ed255.
Local Notation B := B_ed255.
Definition half (x : Z) : Z := if Z.even x then Z.div2 x else Z.div2 (x + p255_lit).
(** x modulo p for -p <= x < 2p *)
Definition norm (x : Z) : Z := if x <? 0 then x + p255_lit else if p255_lit <=? x then x - p255_lit else x.
Definition triple : Type := Z * Z * Z.
(** The affine point whose sum and difference of coordinates are stored *)
Definition pt_of (t : triple) : Z * Z := let '(a, s, _) := t in (half (norm (a - s)), half (norm (a + s))).
Definition inbp (x : Z) : bool := (0 <=? x) && (x <? p255_lit).
Definition entry_chk (t : triple) : bool :=
  let '(a, s, e) := t in let (x, y) := pt_of t in
  inbp a && inbp s && inbp e && zero25 (2 * zmul d_ed255 (red25 (zmul x y)) - e).
(** What the three numbers of a point should be *)
Definition triple_of (P : Z * Z) : triple := let (x, y) := P in ((y + x) mod p, (y - x) mod p, (2 * d_ed255 * x * y) mod p).

Lemma half_ok x : (2 * half x) mod p = x mod p.
Proof.
  unfold half. change p255_lit with p. rewrite !Z.div2_div. destruct (Z.even x) eqn:E.
  - apply Z.even_spec in E. destruct E as [k ->]. rewrite (Z.mul_comm 2 k), Z.div_mul by lia. f_equal. ring.
  - assert (O : Z.even (x + p) = true) by (rewrite Z.even_add, E; reflexivity).
    apply Z.even_spec in O. destruct O as [k K]. rewrite K, (Z.mul_comm 2 k), Z.div_mul by lia.
    rewrite <- K, <- (Z_mod_plus_full x 1 p). f_equal.
Qed.
Lemma norm_mod x : norm x mod p = x mod p.
Proof.
  unfold norm. change p255_lit with p. destruct (x <? 0); [|destruct (p <=? x)].
  - rewrite <- (Z_mod_plus_full x 1 p). f_equal.
  - rewrite <- (Z_mod_plus_full x (-1) p). f_equal.
  - reflexivity.
Qed.
Lemma norm_small x : - p <= x < 2 * p -> 0 <= norm x < p.
Proof.
  unfold norm. change p255_lit with p. assert (0 < p) by reflexivity. destruct (Z.ltb_spec x 0); [|destruct (Z.leb_spec p x)]; lia.
Qed.
Lemma half_small x : 0 <= x < p -> 0 <= half x < p.
Proof.
  intro H. unfold half. change p255_lit with p. rewrite !Z.div2_div. destruct (Z.even x); (split; [apply Z.div_pos; lia|apply Z.div_lt_upper_bound; lia]).
Qed.
Lemma two_cancel x y : (2 * x) mod p = (2 * y) mod p -> x mod p = y mod p.
Proof. intro E. apply (cancel_mod p 2); [exact p25_prime|discriminate|]. now rewrite (Z.mul_comm x), (Z.mul_comm y). Qed.
Lemma entry_ok t : entry_chk t = true -> t = triple_of (pt_of t).
Proof.
  destruct t as [[a s] e]. unfold entry_chk, triple_of. destruct (pt_of (a, s, e)) as [x y] eqn:Ep. intro C.
  apply andb_prop in C. destruct C as [C Ce]. apply andb_prop in C. destruct C as [C Cr]. apply andb_prop in C. destruct C as [Ca Cs]. unfold inbp in *.
  apply andb_prop in Ca, Cs, Cr. rewrite Z.leb_le, Z.ltb_lt in Ca, Cs, Cr. change p255_lit with p in *. rewrite !zmul_ok in Ce. apply zero25_ok in Ce.
  apply sub_mod0 in Ce; [|discriminate].
  unfold pt_of in Ep. injection Ep as Ex Ey.
  assert (Hx : (2 * x) mod p = (a - s) mod p) by (rewrite <- Ex, half_ok; apply norm_mod).
  assert (Hy : (2 * y) mod p = (a + s) mod p) by (rewrite <- Ey, half_ok; apply norm_mod).
  clear Ex Ey. f_equal; [f_equal|].
  - rewrite <- (Z.mod_small a p) by assumption. apply two_cancel.
    replace (2 * (y + x)) with (2 * y + 2 * x) by ring. rewrite Zplus_mod, Hx, Hy, <- Zplus_mod. f_equal. ring.
  - rewrite <- (Z.mod_small s p) by assumption. apply two_cancel.
    replace (2 * (y - x)) with (2 * y - 2 * x) by ring. rewrite Zminus_mod, Hx, Hy, <- Zminus_mod. f_equal. ring.
  - rewrite (Z.mod_small e p Cr) in Ce. rewrite <- Ce, Z.mul_assoc. rewrite <- Z.mul_mod_idemp_r, red25_ok, Z.mul_mod_idemp_r by discriminate. f_equal. ring.
Qed.

(** ** Certificates *)
Definition pt_eqb (P Q : Z * Z) : bool := (fst P =? fst Q) && (snd P =? snd Q).
Fixpoint mults (P cur : Z * Z) (l : list triple) : bool :=
  match l with [] => true | t :: l => let R := pt_of t in chk255 P cur R && entry_chk t && mults P R l end.
Fixpoint dbls (cur : Z * Z) (l : list (Z * Z)) : bool :=
  match l with [] => true | h :: l => chk255 cur cur h && dbls h l end.
Definition block : Type := list triple * list (Z * Z).
Fixpoint chain (P : Z * Z) (bs : list block) : bool :=
  match bs with
  | [] => true
  | (ts, hs) :: bs =>
    match ts with
    | [] => false
    | t :: r => pt_eqb (pt_of t) P && entry_chk t && mults P P r && dbls (pt_of (last ts t)) hs &&
      match bs with
      | (t' :: _, _) :: _ => chk255 (last hs P) (last hs P) (pt_of t') && chain (pt_of t') bs
      | _ => true
      end
    end
  end.
Lemma pt_eqb_ok P Q : pt_eqb P Q = true -> P = Q.
Proof. destruct P, Q. unfold pt_eqb. cbn [fst snd]. rewrite andb_true_iff, !Z.eqb_eq. intros [-> ->]. reflexivity. Qed.
Notation "k ** P" := (mul255 k P) (at level 40).

Lemma onB : on255 B. Proof. exact on_base. Qed.
Lemma mults_ok c l : forall m, mults (c ** B) ((m * c) ** B) l = true ->
  forall i, (i < length l)%nat -> nth i l (0, 0, 0) = triple_of (((m + 1 + Z.of_nat i) * c) ** B).
Proof.
  induction l as [|t l IH]; intros m C i Hi; [inversion Hi|].
  cbn [mults] in C. apply andb_prop in C. destruct C as [C C3]. apply andb_prop in C. destruct C as [C1 C2].
  apply chk255_ok in C1; [|apply mul255_on, onB|apply mul255_on, onB].
  rewrite <- mul255_add in C1 by exact onB. replace (c + m * c) with ((m + 1) * c) in C1 by ring.
  destruct i as [|i].
  - cbn [nth]. rewrite (entry_ok t C2), C1. do 2 f_equal. lia.
  - cbn [nth]. rewrite C1 in C3. rewrite (IH (m + 1) C3 i) by (cbn [length] in Hi; lia). do 2 f_equal. lia.
Qed.
Lemma dbls_ok l : forall c, dbls (c ** B) l = true -> forall i, (i < length l)%nat ->
  nth i l (0, 0) = (2 ^ (Z.of_nat i + 1) * c) ** B.
Proof.
  induction l as [|h l IH]; intros c C i Hi; [inversion Hi|].
  cbn [dbls] in C. apply andb_prop in C. destruct C as [C1 C2].
  apply chk255_ok in C1; [|apply mul255_on, onB|apply mul255_on, onB].
  rewrite <- mul255_add in C1 by exact onB.
  destruct i as [|i].
  - cbn [nth]. rewrite C1. f_equal. change (2 ^ (Z.of_nat 0 + 1)) with 2. ring.
  - cbn [nth]. rewrite C1 in C2. rewrite (IH (c + c) C2 i) by (cbn [length] in Hi; lia). f_equal.
    rewrite Nat2Z.inj_succ. replace (Z.succ (Z.of_nat i) + 1) with (1 + (Z.of_nat i + 1)) by lia. rewrite (Z.pow_add_r 2 1) by lia. ring.
Qed.
Lemma last_nth {A} (l : list A) d : last l d = nth (length l - 1) l d.
Proof.
  induction l as [|x l IH]; [reflexivity|]. destruct l as [|y l]; [reflexivity|].
  change (last (x :: y :: l) d) with (last (y :: l) d). rewrite IH. cbn [length]. rewrite !Nat.sub_succ, !Nat.sub_0_r. reflexivity.
Qed.
Definition block_shape (b : block) : Prop := length (fst b) = 8%nat /\ length (snd b) = 4%nat.
Lemma pt_of_triple P : on255 P -> pt_of (triple_of P) = P.
Proof.
  destruct P as [x y]. intros (Hx & Hy & _). unfold triple_of, pt_of.
  pose proof (Z.mod_pos_bound (y + x) p eq_refl) as M1. pose proof (Z.mod_pos_bound (y - x) p eq_refl) as M2.
  assert (R1 : - p <= (y + x) mod p - (y - x) mod p < 2 * p) by lia. assert (R2 : - p <= (y + x) mod p + (y - x) mod p < 2 * p) by lia.
  f_equal.
  - rewrite <- (Z.mod_small (half _) p) by apply half_small, norm_small, R1.
    rewrite <- (Z.mod_small x p) at 3 by assumption. apply two_cancel. rewrite half_ok, norm_mod, <- Zminus_mod. f_equal. ring.
  - rewrite <- (Z.mod_small (half _) p) by apply half_small, norm_small, R2.
    rewrite <- (Z.mod_small y p) at 3 by assumption. apply two_cancel. rewrite half_ok, norm_mod, <- Zplus_mod. f_equal. ring.
Qed.
Lemma chain_ok bs : forall c, chain (c ** B) bs = true -> Forall block_shape bs ->
  forall k, (k < length bs)%nat ->
  (forall i, (i < 8)%nat -> nth i (fst (nth k bs ([], []))) (0, 0, 0) = triple_of (((1 + Z.of_nat i) * (256 ^ Z.of_nat k * c)) ** B)) /\
  (forall i, (i < 4)%nat -> nth i (snd (nth k bs ([], []))) (0, 0) = (2 ^ (Z.of_nat i + 4) * (256 ^ Z.of_nat k * c)) ** B).
Proof.
  induction bs as [|[ts hs] bs IH]; intros c C S k Hk; [inversion Hk|].
  inversion S as [|? ? [S1 S2] S']; subst. cbn [fst snd] in S1, S2.
  cbn [chain] in C. destruct ts as [|t r]; [discriminate S1|].
  apply andb_prop in C. destruct C as [C C5]. apply andb_prop in C. destruct C as [C C4]. apply andb_prop in C. destruct C as [C C3].
  apply andb_prop in C. destruct C as [C1 C2]. apply pt_eqb_ok in C1. apply entry_ok in C2. rewrite C1 in C2.
  assert (T : forall i, (i < 8)%nat -> nth i (t :: r) (0, 0, 0) = triple_of (((1 + Z.of_nat i) * c) ** B)).
  { intros i Hi. destruct i as [|i].
    - cbn [nth]. rewrite C2. do 2 f_equal. lia.
    - cbn [nth]. replace (c ** B) with ((1 * c) ** B) in C3 at 2 by (f_equal; ring).
      rewrite (mults_ok c r 1 C3 i) by (cbn [length] in S1; lia). do 2 f_equal. lia. }
  assert (L8 : pt_of (last (t :: r) t) = (8 * c) ** B).
  { rewrite last_nth, S1. change (8 - 1)%nat with 7%nat. rewrite (nth_indep _ t (0, 0, 0)) by (rewrite S1; lia).
    rewrite T by lia. apply pt_of_triple, mul255_on, onB. }
  rewrite L8 in C4.
  assert (H : forall i, (i < 4)%nat -> nth i hs (0, 0) = (2 ^ (Z.of_nat i + 4) * c) ** B).
  { intros i Hi. rewrite (dbls_ok hs _ C4 i) by lia. f_equal. replace (Z.of_nat i + 4) with (Z.of_nat i + 1 + 3) by lia.
    rewrite (Z.pow_add_r 2 _ 3) by lia. change (2 ^ 3) with 8. ring. }
  destruct k as [|k].
  - change (256 ^ Z.of_nat 0) with 1. rewrite !Z.mul_1_l. split; [exact T|exact H].
  - cbn [nth]. destruct bs as [|[ts' hs'] bs]; [cbn [length] in Hk; lia|].
    destruct ts' as [|t' r']; [inversion S' as [|? ? [S3 _]]; discriminate S3|].
    apply andb_prop in C5. destruct C5 as [C5 C6].
    assert (LH : last hs (c ** B) = (128 * c) ** B).
    { rewrite last_nth, S2. change (4 - 1)%nat with 3%nat. rewrite (nth_indep _ _ (0, 0)) by (rewrite S2; lia). rewrite H by lia. reflexivity. }
    rewrite LH in C5. apply chk255_ok in C5; [|apply mul255_on, onB|apply mul255_on, onB].
    rewrite <- mul255_add in C5 by exact onB. rewrite C5 in C6.
    destruct (IH (128 * c + 128 * c) C6 S' k ltac:(cbn [length] in *; lia)) as [A1 A2].
    assert (E : forall z, z * (256 ^ Z.of_nat k * (128 * c + 128 * c)) = z * (256 ^ Z.of_nat (Datatypes.S k) * c)).
    { intro z. rewrite Nat2Z.inj_succ, Z.pow_succ_r by lia. ring. }
    split; intros i Hi; [rewrite A1 by exact Hi|rewrite A2 by exact Hi]; now rewrite E.
Qed.

(** ** The fixed-base table: sub-table of 192 words per index; word j of number c of the multiple
    m + 1 of base point h is at 2 (24 j + 3 m + c) + h *)
Definition sub_words (idx : nat) : list Z := firstn 192 (skipn (192 * idx) TableSign_w4_24k).
Definition num_in (s : list Z) (h m c : nat) : Z :=
  let w j := nth (2 * (24 * j + 3 * m + c) + h) s 0 in w 0%nat + 2 ^ 64 * (w 1%nat + 2 ^ 64 * (w 2%nat + 2 ^ 64 * w 3%nat)).
Definition triple_in (s : list Z) (h m : nat) : triple := (num_in s h m 0, num_in s h m 1, num_in s h m 2).
Definition bases (s : list Z) (h : nat) : list triple := map (triple_in s h) (seq 0 8).
Definition all_bases : list (list triple) :=
  let subs := map sub_words (seq 0 16) in map (fun s => bases s 0) subs ++ map (fun s => bases s 1) subs.
Definition all_bases_lit : list (list triple) := Eval vm_compute in all_bases.
Lemma all_bases_eq : all_bases = all_bases_lit. Proof. vm_compute. reflexivity. Qed.
Definition blocks : list block := combine all_bases_lit dbl_hints.
Lemma blocks_chain : chain B blocks = true. Proof. vm_compute. reflexivity. Qed.
Lemma blocks_shape : Forall block_shape blocks.
Proof.
  apply Forall_forall. intros b H. assert (F : forallb (fun b : block => (length (fst b) =? 8)%nat && (length (snd b) =? 4)%nat) blocks = true) by (vm_compute; reflexivity).
  rewrite forallb_forall in F. specialize (F b H). apply andb_prop in F. rewrite !Nat.eqb_eq in F. exact F.
Qed.
Lemma blocks_nth k : (k < 32)%nat -> fst (nth k blocks ([], [])) = nth k all_bases_lit [].
Proof. intros _. exact (f_equal fst (combine_nth all_bases_lit dbl_hints k [] [] eq_refl)). Qed.
Lemma all_bases_nth i h : (i < 16)%nat -> (h < 2)%nat -> nth (i + 16 * h) all_bases [] = bases (sub_words i) h.
Proof.
  intros Hi Hh. unfold all_bases. set (subs := map sub_words (seq 0 16)).
  assert (L : length subs = 16%nat) by reflexivity.
  assert (N : nth i subs [] = sub_words i).
  { unfold subs. rewrite (nth_indep _ [] (sub_words 0)) by (rewrite map_length, seq_length; exact Hi). rewrite map_nth, seq_nth by exact Hi. reflexivity. }
  destruct h as [|[|h]]; [| |lia].
  - rewrite app_nth1 by (rewrite map_length; lia). replace (i + 16 * 0)%nat with i by lia.
    rewrite (nth_indep _ [] (bases [] 0)) by (rewrite map_length; lia). rewrite (map_nth (fun s => bases s 0)), N. reflexivity.
  - rewrite app_nth2 by (rewrite map_length; lia). rewrite map_length, L. replace (i + 16 * 1 - 16)%nat with i by lia.
    rewrite (nth_indep _ [] (bases [] 1)) by (rewrite map_length; lia). rewrite (map_nth (fun s => bases s 1)), N. reflexivity.
Qed.
Theorem sign_table_ok i h m : (i < 16)%nat -> (h < 2)%nat -> (m < 8)%nat ->
  triple_in (sub_words i) h m = triple_of (((1 + Z.of_nat m) * 16 ^ (2 * Z.of_nat i + 32 * Z.of_nat h)) ** B).
Proof.
  intros Hi Hh Hm.
  destruct (chain_ok blocks 1 blocks_chain blocks_shape (i + 16 * h)%nat) as [A _]; [change (length blocks) with 32%nat; lia|].
  specialize (A m Hm). rewrite blocks_nth in A by lia. rewrite <- all_bases_eq, all_bases_nth in A by assumption.
  unfold bases in A. rewrite (nth_indep _ _ (triple_in (sub_words i) h 0)) in A by (rewrite map_length, seq_length; exact Hm).
  rewrite map_nth, seq_nth in A by exact Hm. cbn [Nat.add] in A. rewrite A. do 2 f_equal.
  change 256 with (16 ^ 2). rewrite <- Z.pow_mul_r by lia. rewrite Z.mul_1_r. do 2 f_equal. lia.
Qed.

(** ** The order of the base point *)
Definition pow2s : list (Z * Z) := concat (map (fun b : block => map (fun m => pt_of (nth m (fst b) (0, 0, 0))) [0; 1; 3; 7]%nat ++ snd b) blocks).
Definition pow2s_lit : list (Z * Z) := Eval vm_compute in pow2s.
Lemma pow2s_eq : pow2s = pow2s_lit. Proof. vm_compute. reflexivity. Qed.
Lemma concat_nth {A} (d : A) n : forall (l : list (list A)) k i, Forall (fun x => length x = n) l -> (i < n)%nat -> (k < length l)%nat ->
  nth (n * k + i) (concat l) d = nth i (nth k l []) d.
Proof.
  induction l as [|x l IH]; intros k i F Hi Hk; [inversion Hk|]. inversion F as [|? ? Lx F']; subst.
  cbn [concat]. destruct k as [|k].
  - rewrite Nat.mul_0_r. cbn [Nat.add nth]. apply app_nth1. exact Hi.
  - rewrite app_nth2 by nia. cbn [nth]. rewrite <- (IH k i F' Hi) by (cbn [length] in Hk; lia). f_equal. nia.
Qed.
Lemma pow2s_nth n : (n < 256)%nat -> nth n pow2s (0, 0) = (2 ^ Z.of_nat n) ** B.
Proof.
  intro H. pose proof (Nat.div_mod n 8 ltac:(lia)) as E. pose proof (Nat.mod_upper_bound n 8 ltac:(lia)) as U.
  assert (K : (n / 8 < 32)%nat) by (apply Nat.div_lt_upper_bound; lia).
  rewrite E. unfold pow2s.
  rewrite (concat_nth (0, 0) 8);
    [| |exact U|rewrite map_length; exact K].
  2: { apply Forall_forall. intros x Hx. apply in_map_iff in Hx. destruct Hx as [b [<- Hb]].
       pose proof (proj1 (Forall_forall _ _) blocks_shape b Hb) as [_ S2]. rewrite app_length, map_length, S2. reflexivity. }
  set (f := fun b : block => map (fun m => pt_of (nth m (fst b) (0, 0, 0))) [0; 1; 3; 7]%nat ++ snd b).
  rewrite (nth_indep _ [] (f ([], []))) by (rewrite map_length; exact K). rewrite (map_nth f).
  destruct (chain_ok blocks 1 blocks_chain blocks_shape (n / 8)%nat K) as [A1 A2]. unfold f.
  assert (X : forall j, (j < 8)%nat -> 2 ^ Z.of_nat (8 * (n / 8) + j) = 2 ^ Z.of_nat j * (256 ^ Z.of_nat (n / 8) * 1)).
  { intros j _. rewrite Nat2Z.inj_add, Z.pow_add_r by lia. change 256 with (2 ^ 8). rewrite <- Z.pow_mul_r by lia. rewrite Nat2Z.inj_mul. change (Z.of_nat 8) with 8. ring. }
  rewrite X by exact U. set (j := (n mod 8)%nat) in *. clearbody j. set (c := 256 ^ Z.of_nat (n / 8) * 1) in *. clearbody c.
  assert (T : forall i, (i < 8)%nat -> pt_of (nth i (fst (nth (n / 8) blocks ([], []))) (0, 0, 0)) = ((1 + Z.of_nat i) * c) ** B).
  { intros i Hi. rewrite A1 by exact Hi. apply pt_of_triple, mul255_on, onB. }
  destruct j as [|[|[|[|j]]]]; cbn [map app nth]; [rewrite T by lia; reflexivity|rewrite T by lia; reflexivity|rewrite T by lia; reflexivity|rewrite T by lia; reflexivity|].
  rewrite A2 by lia. do 3 f_equal. lia.
Qed.
(** Sum over the positions of [idxs] *)
Fixpoint sums (acc : Z * Z) (idxs : list nat) (hs : list (Z * Z)) : option (Z * Z) :=
  match idxs, hs with
  | [], [] => Some acc
  | i :: idxs, h :: hs => if chk255 acc (nth i pow2s_lit (0, 0)) h then sums h idxs hs else None
  | _, _ => None
  end.
Lemma sums_ok idxs : forall v hs R, Forall (fun i => (i < 256)%nat) idxs -> sums (v ** B) idxs hs = Some R ->
  R = (fold_left (fun v i => v + 2 ^ Z.of_nat i) idxs v) ** B.
Proof.
  induction idxs as [|i idxs IH]; intros v hs R F E.
  - destruct hs; [|discriminate E]. injection E as <-. reflexivity.
  - destruct hs as [|h hs]; [discriminate E|]. inversion F; subst. cbn [sums] in E. rewrite <- pow2s_eq in E.
    rewrite pow2s_nth in E by assumption.
    destruct (chk255 (v ** B) ((2 ^ Z.of_nat i) ** B) h) eqn:C; [|discriminate E].
    apply chk255_ok in C; [|apply mul255_on, onB|apply mul255_on, onB]. rewrite <- mul255_add in C by exact onB. subst h.
    cbn [fold_left]. apply (IH _ hs); assumption.
Qed.
Definition order_bits : list nat := filter (fun i => Z.testbit l_ed255 (Z.of_nat i)) (seq 1 252).
Definition order_bits_lit : list nat := Eval vm_compute in order_bits.
Theorem order_B : l_ed255 ** B = ed_zero.
Proof.
  assert (E : sums (1 ** B) order_bits_lit order_hints = Some ed_zero) by (vm_compute; reflexivity).
  apply sums_ok in E.
  - rewrite E. apply (f_equal (fun k => k ** B)). vm_compute. reflexivity.
  - apply Forall_forall. intros x Hx. assert (F : forallb (fun i => (i <? 256)%nat) order_bits_lit = true) by (vm_compute; reflexivity).
    rewrite forallb_forall in F. apply Nat.ltb_lt, F, Hx.
Qed.

(** ** The verification table: odd multiples *)
Definition verf_triple (j : nat) : triple :=
  let w c k := nth (12 * j + 4 * c + k) TableVerif_static_w7_Ed25519 0 in
  let n c := w c 0%nat + 2 ^ 64 * (w c 1%nat + 2 ^ 64 * (w c 2%nat + 2 ^ 64 * w c 3%nat)) in (n 0%nat, n 1%nat, n 2%nat).
Definition verf_triples : list triple := map verf_triple (seq 0 32).
Definition verf_lit : list triple := Eval vm_compute in verf_triples.
Lemma verf_eq : verf_triples = verf_lit. Proof. vm_compute. reflexivity. Qed.
Lemma verf_chk : (pt_eqb (pt_of (nth 0 verf_lit (0, 0, 0))) B && entry_chk (nth 0 verf_lit (0, 0, 0))) && mults (nth 1 pow2s_lit (0, 0)) B (tl verf_lit) = true.
Proof. vm_compute. reflexivity. Qed.
Lemma mults_ok2 c l : forall m, mults (c ** B) (m ** B) l = true ->
  forall i, (i < length l)%nat -> nth i l (0, 0, 0) = triple_of ((m + (1 + Z.of_nat i) * c) ** B).
Proof.
  induction l as [|t l IH]; intros m C i Hi; [inversion Hi|].
  cbn [mults] in C. apply andb_prop in C. destruct C as [C C3]. apply andb_prop in C. destruct C as [C1 C2].
  apply chk255_ok in C1; [|apply mul255_on, onB|apply mul255_on, onB].
  rewrite <- mul255_add in C1 by exact onB.
  destruct i as [|i].
  - cbn [nth]. rewrite (entry_ok t C2), C1. do 2 f_equal. lia.
  - cbn [nth]. rewrite C1 in C3. rewrite (IH (c + m) C3 i) by (cbn [length] in Hi; lia). do 2 f_equal. lia.
Qed.
Theorem verf_table_ok j : (j < 32)%nat -> verf_triple j = triple_of ((2 * Z.of_nat j + 1) ** B).
Proof.
  intro H. assert (N : verf_triple j = nth j verf_lit (0, 0, 0)).
  { rewrite <- verf_eq. unfold verf_triples. rewrite (nth_indep _ _ (verf_triple 0)) by (rewrite map_length, seq_length; exact H).
    rewrite map_nth, seq_nth by exact H. reflexivity. }
  rewrite N. pose proof verf_chk as C. apply andb_prop in C. destruct C as [C C3]. apply andb_prop in C. destruct C as [C1 C2].
  apply pt_eqb_ok in C1. apply entry_ok in C2. rewrite C1 in C2.
  assert (P2 : nth 1 pow2s_lit (0, 0) = 2 ** B) by (rewrite <- pow2s_eq; apply (pow2s_nth 1); lia).
  rewrite P2 in C3. change (mults (2 ** B) B (tl verf_lit)) with (mults (2 ** B) (1 ** B) (tl verf_lit)) in C3.
  destruct j as [|j].
  - rewrite C2. reflexivity.
  - assert (T : nth (Datatypes.S j) verf_lit (0, 0, 0) = nth j (tl verf_lit) (0, 0, 0)) by reflexivity.
    rewrite T, (mults_ok2 2 _ 1 C3) by (change (length (tl verf_lit)) with 31%nat; lia). do 2 f_equal. lia.
Qed.
