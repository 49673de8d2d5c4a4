(** The vector ladders: vector permutations, the starting point (u : 0), and the
    X25519 ladder of the AVX2 code against RFC 7748. *)
From Coq Require Import ZArith List Bool Lia Znumtheory.
From Verif Require Import Uop X86 Engine Bytes Check FullTac Lanes RedTac Simd Simd255 Fp25519Full Fp25519FullProofs FullMore
  Fp25519Red Fp25519RedProofs Fp25519RedMore Spec Scalar SpecScalar ScalarProps SpecX Ladder LadderProofs.
Import ListNotations.
Open Scope Z_scope.

(** ** Vector permutations *)
Lemma len_S {A} (a : list A) n : length a = S n -> exists x b, a = x :: b /\ length b = n.
Proof. destruct a as [|x b]; [discriminate|]. intro H. exists x, b. split; [reflexivity|]. now injection H. Qed.
Lemma len_4 {A} (a : list A) n : length a = (4 * S n)%nat -> exists x y z w b, a = x :: y :: z :: w :: b /\ length b = (4 * n)%nat.
Proof.
  intro H. replace (4 * S n)%nat with (S (S (S (S (4 * n))))) in H by lia.
  destruct (len_S _ _ H) as (x & b & -> & H1). destruct (len_S _ _ H1) as (y & c & -> & H2).
  destruct (len_S _ _ H2) as (z & d & -> & H3). destruct (len_S _ _ H3) as (w & e & -> & H4). exists x, y, z, w, e. auto.
Qed.
Lemma vmap_nth f n : forall a i j, length a = (4 * n)%nat -> (i < n)%nat -> (j < 4)%nat -> (forall v, length v = 4%nat -> length (f v) = 4%nat) ->
  nth (4 * i + j) (vmap f a) 0 = nth j (f (map (fun j => nth (4 * i + j) a 0) (seq 0 4))) 0.
Proof.
  induction n as [|n IH]; intros a i j H Hi Hj Hf; [lia|]. destruct (len_4 _ _ H) as (x & y & z & w & b & -> & Hb). cbn [vmap].
  assert (L : length (f [x; y; z; w]) = 4%nat) by now apply Hf.
  destruct i as [|i].
  - rewrite app_nth1 by lia. reflexivity.
  - rewrite app_nth2 by lia. rewrite L. replace (4 * S i + j - 4)%nat with (4 * i + j)%nat by lia.
    rewrite IH by (assumption || lia). f_equal. f_equal. apply map_ext. intro q.
    replace (4 * S i + q)%nat with (S (S (S (S (4 * i + q))))) by lia. reflexivity.
Qed.
Lemma vmap2_nth f n : forall a b i j, length a = (4 * n)%nat -> length b = (4 * n)%nat -> (i < n)%nat -> (j < 4)%nat ->
  (forall v w, length v = 4%nat -> length w = 4%nat -> length (f v w) = 4%nat) ->
  nth (4 * i + j) (vmap2 f a b) 0 = nth j (f (map (fun j => nth (4 * i + j) a 0) (seq 0 4)) (map (fun j => nth (4 * i + j) b 0) (seq 0 4))) 0.
Proof.
  induction n as [|n IH]; intros a a' i j H H' Hi Hj Hf; [lia|].
  destruct (len_4 _ _ H) as (x & y & z & w & b & -> & Hb). destruct (len_4 _ _ H') as (x' & y' & z' & w' & b' & -> & Hb'). cbn [vmap2].
  assert (L : length (f [x; y; z; w] [x'; y'; z'; w']) = 4%nat) by now apply Hf.
  destruct i as [|i].
  - rewrite app_nth1 by lia. reflexivity.
  - rewrite app_nth2 by lia. rewrite L. replace (4 * S i + j - 4)%nat with (4 * i + j)%nat by lia.
    rewrite IH by (assumption || lia). f_equal. f_equal; apply map_ext; intro q.
    all: replace (4 * S i + q)%nat with (S (S (S (S (4 * i + q))))) by lia; reflexivity.
Qed.
Lemma vmap_len f n : forall a, length a = (4 * n)%nat -> (forall v, length v = 4%nat -> length (f v) = 4%nat) -> length (vmap f a) = (4 * n)%nat.
Proof.
  induction n as [|n IH]; intros a H Hf; [destruct a; [reflexivity|discriminate]|].
  destruct (len_4 _ _ H) as (x & y & z & w & b & -> & Hb). cbn [vmap]. rewrite app_length, Hf, IH by (assumption || reflexivity). lia.
Qed.
Lemma vmap2_len f n : forall a b, length a = (4 * n)%nat -> length b = (4 * n)%nat ->
  (forall v w, length v = 4%nat -> length w = 4%nat -> length (f v w) = 4%nat) -> length (vmap2 f a b) = (4 * n)%nat.
Proof.
  induction n as [|n IH]; intros a a' H H' Hf; [destruct a; [reflexivity|discriminate]|].
  destruct (len_4 _ _ H) as (x & y & z & w & b & -> & Hb). destruct (len_4 _ _ H') as (x' & y' & z' & w' & b' & -> & Hb').
  cbn [vmap2]. rewrite app_length, Hf, IH by (assumption || reflexivity). lia.
Qed.
Lemma vmap_ext f g : (forall x y z w, f [x; y; z; w] = g [x; y; z; w]) -> forall n a, length a = (4 * n)%nat -> vmap f a = vmap g a.
Proof.
  intros E. induction n as [|n IH]; intros a H; [destruct a; [reflexivity|discriminate]|].
  destruct (len_4 _ _ H) as (x & y & z & w & b & -> & Hb). cbn [vmap]. rewrite E, IH by assumption. reflexivity.
Qed.
Lemma vmap_vmap f g n : (forall v, length v = 4%nat -> length (f v) = 4%nat) -> forall a, length a = (4 * n)%nat ->
  vmap g (vmap f a) = vmap (fun v => g (f v)) a.
Proof.
  intros Hf. induction n as [|n IH]; intros a H; [destruct a; [reflexivity|discriminate]|].
  destruct (len_4 _ _ H) as (x & y & z & w & b & -> & Hb). cbn [vmap]. pose proof (Hf [x; y; z; w] eq_refl) as L.
  destruct (f [x; y; z; w]) as [|u0 [|u1 [|u2 [|u3 [|]]]]]; try discriminate. cbn [app vmap]. rewrite IH by assumption. reflexivity.
Qed.
Lemma vmap_id n : forall a, length a = (4 * n)%nat -> vmap (fun v => v) a = a.
Proof.
  induction n as [|n IH]; intros a H; [destruct a; [reflexivity|discriminate]|].
  destruct (len_4 _ _ H) as (x & y & z & w & b & -> & Hb). cbn [vmap]. rewrite IH by assumption. reflexivity.
Qed.
Lemma dword_join w : w mod 2 ^ 32 + 2 ^ 32 * (w / 2 ^ 32) = w.
Proof. pose proof (Z.div_mod w (2 ^ 32) ltac:(lia)). lia. Qed.
Lemma pv_nat idx ns v : map (fun i => Z.to_nat (i mod 8)) idx = ns ->
  permutevar8x32 idx v = undwords (map (fun n => nth n (dwords v) 0) ns).
Proof. intros <-. unfold permutevar8x32. now rewrite map_map. Qed.
Lemma pv_keep sw x y z w : permutevar8x32 (if sw : bool then maskbit1 (Z.b2z sw) else maskbit0 (Z.b2z sw)) [x; y; z; w] = [x; y; z; w].
Proof.
  rewrite (pv_nat _ [0; 1; 2; 3; 4; 5; 6; 7]%nat) by (destruct sw; reflexivity).
  cbn [dwords flat_map app map nth undwords]. now rewrite !dword_join.
Qed.
Lemma pv_swap sw x y z w : permutevar8x32 (if sw : bool then maskbit0 (Z.b2z sw) else maskbit1 (Z.b2z sw)) [x; y; z; w] = [z; w; x; y].
Proof.
  rewrite (pv_nat _ [4; 5; 6; 7; 0; 1; 2; 3]%nat) by (destruct sw; reflexivity).
  cbn [dwords flat_map app map nth undwords]. now rewrite !dword_join.
Qed.
Lemma permv0 sw n a : length a = (4 * n)%nat -> vmap (permutevar8x32 (maskbit0 (Z.b2z sw))) a = if sw then vmap perm64_4E a else a.
Proof.
  intro H. destruct sw.
  - apply (vmap_ext _ _ (fun x y z w => pv_swap true x y z w) n a H).
  - rewrite (vmap_ext _ (fun v => v) (fun x y z w => pv_keep false x y z w) n a H). now apply (vmap_id n).
Qed.
Lemma permv1 sw n a : length a = (4 * n)%nat -> vmap (permutevar8x32 (maskbit1 (Z.b2z sw))) a = if sw then a else vmap perm64_4E a.
Proof.
  intro H. destruct sw.
  - rewrite (vmap_ext _ (fun v => v) (fun x y z w => pv_keep true x y z w) n a H). now apply (vmap_id n).
  - apply (vmap_ext _ _ (fun x y z w => pv_swap false x y z w) n a H).
Qed.
Lemma perm_len v : length v = 4%nat -> length (perm64_4E v) = 4%nat. Proof. reflexivity. Qed.
Lemma blend_len v w : length v = 4%nat -> length w = 4%nat -> length (blend_F0 v w) = 4%nat.
Proof. intros Hv Hw. unfold blend_F0. rewrite app_length, firstn_length, skipn_length. lia. Qed.
(** Halves of arrays of n vectors. *)
Lemma ixh_split h i : ixh h i = (4 * (i / 2) + (i mod 2 + (if h then 2 else 0)))%nat.
Proof. unfold ixh. lia. Qed.
Lemma pick_perm h n a : length a = (4 * n)%nat -> pick (ixh h) (2 * n) (vmap perm64_4E a) = pick (ixh (negb h)) (2 * n) a.
Proof.
  intro H. unfold pick. apply map_ext_in. intros i Hi. apply in_seq in Hi. rewrite !ixh_split.
  assert (i / 2 < n)%nat by (apply Nat.div_lt_upper_bound; lia). pose proof (Nat.mod_upper_bound i 2 ltac:(lia)) as M.
  rewrite (vmap_nth _ n) by (assumption || (destruct h; lia) || exact perm_len).
  destruct (i mod 2)%nat as [|[|]]; [..|lia]; destruct h; reflexivity.
Qed.
Lemma pick_blend h n a b : length a = (4 * n)%nat -> length b = (4 * n)%nat ->
  pick (ixh h) (2 * n) (vmap2 blend_F0 a b) = if h then pick (ixh true) (2 * n) b else pick (ixh false) (2 * n) a.
Proof.
  intros H H'. unfold pick.
  assert (E : forall i, (i < 2 * n)%nat -> nth (ixh h i) (vmap2 blend_F0 a b) 0 = if h then nth (ixh true i) b 0 else nth (ixh false i) a 0).
  { intros i Hi. rewrite !ixh_split.
    assert (i / 2 < n)%nat by (apply Nat.div_lt_upper_bound; lia). pose proof (Nat.mod_upper_bound i 2 ltac:(lia)) as M.
    rewrite (vmap2_nth _ n) by (assumption || (destruct h; lia) || exact blend_len).
    destruct (i mod 2)%nat as [|[|]]; [..|lia]; destruct h; reflexivity. }
  destruct h; apply map_ext_in; intros i Hi; apply in_seq in Hi; apply E; lia.
Qed.

(** ** Starting at (u : 0) instead of (1 : 0) *)
Section Start.
Variables (p a24 : Z).
Hypothesis Pp : Znumtheory.prime p.
Hypothesis P2 : 2 < p.
Lemma pnz : p <> 0. Proof. lia. Qed.
Lemma gadd x y u v : x mod p = u mod p -> y mod p = v mod p -> (x + y) mod p = (u + v) mod p.
Proof. intros H1 H2. now rewrite Zplus_mod, H1, H2, <- Zplus_mod. Qed.
Lemma gsub x y u v : x mod p = u mod p -> y mod p = v mod p -> (x - y) mod p = (u - v) mod p.
Proof. intros H1 H2. now rewrite Zminus_mod, H1, H2, <- Zminus_mod. Qed.
Lemma gmul x y u v : x mod p = u mod p -> y mod p = v mod p -> (x * y) mod p = (u * v) mod p.
Proof. intros H1 H2. now rewrite Zmult_mod, H1, H2, <- Zmult_mod. Qed.
Lemma gpow x y e : x mod p = y mod p -> (x ^ e) mod p = (y ^ e) mod p.
Proof.
  intro H. destruct (Z.leb_spec 0 e); [|now rewrite !Z.pow_neg_r by lia]. revert e H0. apply natlike_ind; [reflexivity|].
  intros e He IH. rewrite !Z.pow_succ_r by exact He. now apply gmul.
Qed.
Lemma gif (b : bool) x y u v : x mod p = u mod p -> y mod p = v mod p -> (if b then x else y) mod p = (if b then u else v) mod p.
Proof. now destruct b. Qed.
Lemma red4_eq a b c d a' b' c' d' : a mod p = a' mod p -> b mod p = b' mod p -> c mod p = c' mod p -> d mod p = d' mod p ->
  red4 p (a, b, c, d) = red4 p (a', b', c', d').
Proof. intros. unfold red4. congruence. Qed.
Ltac gc := repeat first [assumption | reflexivity | apply gsub | apply gadd | apply gmul | apply gpow | apply gif].
Lemma late_step_cong u u' x2 z2 x3 z3 x2' z2' x3' z3' sw :
  u mod p = u' mod p -> x2 mod p = x2' mod p -> z2 mod p = z2' mod p -> x3 mod p = x3' mod p -> z3 mod p = z3' mod p ->
  red4 p (late_step a24 u x2 z2 x3 z3 sw) = red4 p (late_step a24 u' x2' z2' x3' z3' sw).
Proof. intros. unfold late_step. cbv zeta. apply red4_eq; gc. Qed.
Definition scaled (l m : Z) (s s' : Z * Z * Z * Z * bool) : Prop :=
  let '(x2, z2, x3, z3, sw) := s in let '(x2', z2', x3', z3', sw') := s' in
  x2' mod p = (l * x2) mod p /\ z2' mod p = (l * z2) mod p /\ x3' mod p = (m * x3) mod p /\ z3' mod p = (m * z3) mod p /\ sw' = sw.
Definition similar s s' := exists l m, l mod p <> 0 /\ m mod p <> 0 /\ scaled l m s s'.
Lemma unit_mul x y : x mod p <> 0 -> y mod p <> 0 -> (x * y) mod p <> 0.
Proof.
  intros Hx Hy H. apply Z.mod_divide in H; [|exact pnz]. destruct (Znumtheory.prime_mult p Pp x y H) as [D|D].
  - apply Hx. apply Z.mod_divide; [exact pnz|exact D].
  - apply Hy. apply Z.mod_divide; [exact pnz|exact D].
Qed.
Lemma similar_step kk u s s' t : similar s s' -> similar (rfc_step p a24 kk u s t) (rfc_step p a24 kk u s' t).
Proof.
  intros (l & m & Hl & Hm & H). destruct s as [[[[x2 z2] x3] z3] sw]. destruct s' as [[[[x2' z2'] x3'] z3'] sw'].
  destruct H as (E1 & E2 & E3 & E4 & ->). rewrite !late_step_rfc. set (b := Z.testbit kk (Z.of_nat t)). set (swp := xorb sw b).
  rewrite (late_step_cong u u x2' z2' x3' z3' (l * x2) (l * z2) (m * x3) (m * z3) swp eq_refl E1 E2 E3 E4).
  set (c := if swp then m else l). assert (Hc : c mod p <> 0) by (unfold c; now destruct swp).
  exists (c * c * (c * c)), (l * m * (l * m)).
  split; [apply unit_mul; apply unit_mul; assumption|]. split; [apply unit_mul; apply unit_mul; assumption|].
  unfold late_step, red4, scaled. unfold c. rewrite !Z.mod_mod by exact pnz.
  split; [|split; [|split; [|split; [|reflexivity]]]].
  all: rewrite ?Zmult_mod_idemp_r; destruct swp; apply (f_equal (fun z => z mod p)); ring.
Qed.
Lemma similar_fold kk u ts : forall s s', similar s s' -> similar (fold_left (rfc_step p a24 kk u) ts s) (fold_left (rfc_step p a24 kk u) ts s').
Proof. induction ts as [|t ts IH]; intros s s' H; [exact H|]. cbn [fold_left]. apply IH. now apply similar_step. Qed.
Lemma similar_quot x z l x' z' : l mod p <> 0 -> x' mod p = (l * x) mod p -> z' mod p = (l * z) mod p ->
  (x' * z' ^ (p - 2)) mod p = (x * z ^ (p - 2)) mod p.
Proof.
  intros Hl Hx Hz. rewrite (gmul x' (z' ^ (p - 2)) (l * x) ((l * z) ^ (p - 2)) Hx (gpow _ _ _ Hz)).
  rewrite Z.pow_mul_l. replace (l * x * (l ^ (p - 2) * z ^ (p - 2))) with (l * l ^ (p - 2) * (x * z ^ (p - 2))) by ring.
  rewrite Zmult_mod, (fermat_inv p l Pp P2 Hl), Z.mul_1_l. apply Z.mod_mod. exact pnz.
Qed.
(** Both z coordinates zero. *)
Definition degenerate (s : Z * Z * Z * Z * bool) : Prop := let '(x2, z2, x3, z3, sw) := s in z2 mod p = 0 /\ z3 mod p = 0.
Lemma step_degenerate kk u s t : u mod p = 0 ->
  (let '(x2, z2, x3, z3, sw) := s in (x2 * z2) mod p = 0 /\ (x3 * z3) mod p = 0) -> degenerate (rfc_step p a24 kk u s t).
Proof.
  destruct s as [[[[x2 z2] x3] z3] sw]. intros Hu [H2 H3]. rewrite late_step_rfc. unfold late_step, red4, degenerate.
  rewrite !Z.mod_mod by exact pnz. set (b := xorb sw _). clearbody b. cbv zeta. split.
  - set (F := _ + (if b then x3 - z3 else x2 - z2) ^ 2). clearbody F.
    assert (E : (if b then x3 + z3 else x2 + z2) ^ 2 - (if b then x3 - z3 else x2 - z2) ^ 2 = 4 * (if b then x3 * z3 else x2 * z2)) by (destruct b; ring).
    rewrite E. assert (Hb : (if b then x3 * z3 else x2 * z2) mod p = 0) by now destruct b.
    set (xz := if b then _ else _) in *. clearbody xz. rewrite (Z.mul_comm 4), <- Z.mul_assoc, Zmult_mod, Hb. apply Z.mod_0_l. exact pnz.
  - rewrite Zmult_mod, Hu, Z.mul_0_r. apply Z.mod_0_l. exact pnz.
Qed.
Lemma degenerate_fold kk u ts : forall s, u mod p = 0 -> degenerate s -> degenerate (fold_left (rfc_step p a24 kk u) ts s).
Proof.
  induction ts as [|t ts IH]; intros s Hu H; [exact H|]. cbn [fold_left]. apply IH; [exact Hu|]. apply step_degenerate; [exact Hu|].
  destruct s as [[[[x2 z2] x3] z3] sw]. destruct H as [H2 H3].
  split; rewrite Zmult_mod, ?H2, ?H3, Z.mul_0_r; apply Z.mod_0_l; exact pnz.
Qed.
Lemma degenerate_start kk u c ts : u mod p = 0 -> ts <> [] -> degenerate (fold_left (rfc_step p a24 kk u) ts (c, 0, u, 1, false)).
Proof.
  intros Hu Hn. destruct ts as [|t ts]; [contradiction|]. cbn [fold_left]. apply degenerate_fold; [exact Hu|].
  apply step_degenerate; [exact Hu|]. rewrite Z.mul_0_r, Z.mul_1_r. split; [apply Z.mod_0_l; exact pnz|exact Hu].
Qed.
Lemma zero_quot x z : z mod p = 0 -> (x * z ^ (p - 2)) mod p = 0.
Proof. intro H. rewrite Zmult_mod, (pow_mod_0 p (p - 2) z), Z.mul_0_r by (exact pnz || exact H || lia). apply Z.mod_0_l. exact pnz. Qed.
(** The quotient after the ladder from (u : 0), (u : 1). *)
Theorem ladder_from_u kk u bits : Z.testbit kk 0 = false -> (0 < bits)%nat ->
  (let '(x2, z2, x3, z3, sw) := fold_left (rfc_step p a24 kk u) (rev (seq 0 bits)) (u, 0, u, 1, false) in (x2 * z2 ^ (p - 2)) mod p)
  = rfc_ladder p a24 bits kk u.
Proof.
  intros T Hb. unfold rfc_ladder.
  pose proof (fold_rfc_swap p a24 kk u bits (1, 0, u, 1, false) T Hb) as Sw.
  assert (Ne : rev (seq 0 bits) <> []).
  { intro E. apply (f_equal (@length nat)) in E. rewrite rev_length, seq_length in E. cbn in E. lia. }
  destruct (Z.eq_dec (u mod p) 0) as [U|U].
  - pose proof (degenerate_start kk u u _ U Ne) as D1. pose proof (degenerate_start kk u 1 _ U Ne) as D2.
    destruct (fold_left _ _ (u, 0, u, 1, false)) as [[[[x2 z2] x3] z3] sw].
    destruct (fold_left _ _ (1, 0, u, 1, false)) as [[[[y2 w2] y3] w3] sw2]. cbn [snd] in Sw. subst sw2. cbn [cswap].
    rewrite !zero_quot; [reflexivity|apply D2|apply D1].
  - assert (S0 : similar (1, 0, u, 1, false) (u, 0, u, 1, false)).
    { exists u, 1. split; [exact U|]. split; [rewrite Z.mod_1_l; lia|]. unfold scaled. rewrite Z.mul_1_r, Z.mul_0_r, !Z.mul_1_l. auto. }
    pose proof (similar_fold kk u (rev (seq 0 bits)) _ _ S0) as (l & m & Hl & _ & F).
    destruct (fold_left _ _ (1, 0, u, 1, false)) as [[[[y2 w2] y3] w3] sw2].
    destruct (fold_left _ _ (u, 0, u, 1, false)) as [[[[x2 z2] x3] z3] sw]. cbn [snd] in Sw. subst sw2. cbn [cswap].
    destruct F as (Fx & Fz & _). exact (similar_quot y2 w2 l x2 z2 Hl Fx Fz).
Qed.
(** u = 0 gives 0. *)
Theorem ladder_zero kk u bits : u mod p = 0 -> (0 < bits)%nat -> rfc_ladder p a24 bits kk u = 0.
Proof.
  intros U Hb. unfold rfc_ladder.
  assert (Ne : rev (seq 0 bits) <> []).
  { intro E. apply (f_equal (@length nat)) in E. rewrite rev_length, seq_length in E. cbn in E. lia. }
  pose proof (degenerate_start kk u 1 _ U Ne) as D2. destruct (fold_left _ _ _) as [[[[y2 w2] y3] w3] sw]. destruct D2 as [Da Db].
  destruct sw; cbn [cswap]; now apply zero_quot.
Qed.
End Start.

(** ** The vector ladder modulo 2^255-19 *)
Notation is_red := (arr_ok red255).
Notation is_wide := (arr_ok wide255).
Notation is_big := (arr_ok big255).
Notation fe255 := (wsum wt255).
Notation el2 h := (pick (ixh h) 10).
Definition fbig255 : list (Z * Z) := Eval vm_compute in bnd255 (2 ^ 45) (2 ^ 44).
Lemma chk_fe1 : duo_check fe_prog255 [q3; q4] q1 10 = true. Proof. vmt. Qed.
Lemma chk_fe2 : duo_check fe_prog255 [q3; q4] q2 10 = true. Proof. vmt. Qed.
Section Ladder255.
Variable st : store.
Notation l2 a := (length a = 20%nat).
Ltac duo chk prog xs out ob e ins h := do_duo chk prog wt255 xs out ob P e ins st 10%nat h.
Lemma fe1_ok a b h : l2 a -> l2 b -> is_red (el2 h a) -> is_red (el2 h b) ->
  cg (fe255 (el2 h (vout1 st 20 fe_prog255 a b))) (fe255 (el2 h a) - fe255 (el2 h b)) /\ is_wide (el2 h (vout1 st 20 fe_prog255 a b)).
Proof. intros. duo chk_fe1 fe_prog255 [(q3, red255); (q4, red255)] q1 wide255 (VSub (VIn 0) (VIn 1)) [a; b] h. Qed.
Lemma fe2_ok a b h : l2 a -> l2 b -> is_red (el2 h a) -> is_red (el2 h b) ->
  cg (fe255 (el2 h (vout2 st 20 fe_prog255 a b))) (121665 * (fe255 (el2 h a) - fe255 (el2 h b)) + fe255 (el2 h a)) /\
  arr_ok fbig255 (el2 h (vout2 st 20 fe_prog255 a b)).
Proof. intros. duo chk_fe2 fe_prog255 [(q3, red255); (q4, red255)] q2 fbig255 (VAdd (VMul (VK 121665) (VSub (VIn 0) (VIn 1))) (VIn 0)) [a; b] h. Qed.
Lemma cf_ok a h : l2 a -> arr_ok fbig255 (el2 h a) ->
  cg (fe255 (el2 h (compressfast_2w st a))) (fe255 (el2 h a)) /\ is_wide (el2 h (compressfast_2w st a)).
Proof. intros. duo chk2_compressfast v255_2w_compressfast [(q1, fbig255)] q1 wide255 (VIn 0) [a] h. Qed.

Definition rr (b : list (Z * Z)) (a : list Z) (x : Z) : Prop := arr_ok b a /\ cg (fe255 a) x.
Lemma rr_wide a x : rr red255 a x -> rr wide255 a x.
Proof. intros [H E]. split; [now apply red_wide|exact E]. Qed.
Lemma rr_addsub a b h x y : l2 a -> l2 b -> rr red255 (el2 h a) x -> rr red255 (el2 h b) y ->
  rr wide255 (el2 h (fst (addsub_2w st a b))) (x + y) /\ rr wide255 (el2 h (snd (addsub_2w st a b))) (x - y).
Proof.
  intros La Lb [Ra Ea] [Rb Eb]. destruct (addsub_2w_ok1 st a b h La Lb Ra Rb) as [C1 W1]. destruct (addsub_2w_ok2 st a b h La Lb Ra Rb) as [C2 W2].
  split; (split; [assumption|]).
  - exact (cg_trans _ _ _ C1 (cg_add _ _ _ _ Ea Eb)).
  - exact (cg_trans _ _ _ C2 (cg_sub _ _ _ _ Ea Eb)).
Qed.
Lemma rr_mul a b h x y : l2 a -> l2 b -> rr wide255 (el2 h a) x -> rr wide255 (el2 h b) y ->
  rr red255 (el2 h (compress_2w st (intmul_2w st a b))) (x * y).
Proof.
  intros La Lb [Ra Ea] [Rb Eb]. destruct (intmul_2w_ok st a b h La Lb Ra Rb) as [C1 W1].
  destruct (compress_2w_ok st (intmul_2w st a b) h (call_length _ _ _ _ _) W1) as [C2 W2].
  split; [assumption|]. exact (cg_trans _ _ _ C2 (cg_trans _ _ _ C1 (cg_mul _ _ _ _ Ea Eb))).
Qed.
Lemma rr_sqr2 a b h x y : l2 a -> l2 b -> rr wide255 (el2 h a) x -> rr wide255 (el2 h b) y ->
  let r := compress2_2w st (intsqr_2w st a) (intsqr_2w st b) in
  rr red255 (el2 h (fst r)) (x * x) /\ rr red255 (el2 h (snd r)) (y * y).
Proof.
  intros La Lb [Ra Ea] [Rb Eb] r. destruct (intsqr_2w_ok st a h La Ra) as [C1 W1]. destruct (intsqr_2w_ok st b h Lb Rb) as [C2 W2].
  destruct (compress2_2w_ok1 st (intsqr_2w st a) (intsqr_2w st b) h (call_length _ _ _ _ _) (call_length _ _ _ _ _) W1 W2) as [C3 W3].
  destruct (compress2_2w_ok2 st (intsqr_2w st a) (intsqr_2w st b) h (call_length _ _ _ _ _) (call_length _ _ _ _ _) W1 W2) as [C4 W4].
  split; (split; [assumption|]).
  - exact (cg_trans _ _ _ C3 (cg_trans _ _ _ C1 (cg_mul _ _ _ _ Ea Ea))).
  - exact (cg_trans _ _ _ C4 (cg_trans _ _ _ C2 (cg_mul _ _ _ _ Eb Eb))).
Qed.
Lemma rr_fe a b h x y : l2 a -> l2 b -> rr red255 (el2 h a) x -> rr red255 (el2 h b) y ->
  rr wide255 (el2 h (vout1 st 20 fe_prog255 a b)) (x - y) /\ rr fbig255 (el2 h (vout2 st 20 fe_prog255 a b)) (121665 * (x - y) + x).
Proof.
  intros La Lb [Ra Ea] [Rb Eb]. destruct (fe1_ok a b h La Lb Ra Rb) as [C1 W1]. destruct (fe2_ok a b h La Lb Ra Rb) as [C2 W2].
  pose proof (cg_sub _ _ _ _ Ea Eb) as D. split; (split; [assumption|]).
  - exact (cg_trans _ _ _ C1 D).
  - exact (cg_trans _ _ _ C2 (cg_add _ _ _ _ (cg_mul _ _ _ _ (cg_refl 121665) D) Ea)).
Qed.
Lemma rr_cf a h x : l2 a -> rr fbig255 (el2 h a) x -> rr wide255 (el2 h (compressfast_2w st a)) x.
Proof. intros La [Ra Ea]. destruct (cf_ok a h La Ra) as [C1 W1]. split; [exact W1|]. exact (cg_trans _ _ _ C1 Ea). Qed.
Lemma red_fbig a x : rr red255 a x -> rr fbig255 a x.
Proof. intros [H E]. split; [|exact E]. revert H. apply bounds_le_ok. vm_compute. reflexivity. Qed.
(** [E | t0], [F | X1], [A | C] and the like *)
Lemma el_perm h a : l2 a -> el2 h (vmap perm64_4E a) = el2 (negb h) a.
Proof. exact (pick_perm h 5 a). Qed.
Lemma el_blend h a b : l2 a -> l2 b -> el2 h (vmap2 blend_F0 a b) = if h then el2 true b else el2 false a.
Proof. exact (pick_blend h 5 a b). Qed.
Lemma l2_perm a : l2 a -> l2 (vmap perm64_4E a). Proof. intro H. exact (vmap_len perm64_4E 5 a H perm_len). Qed.
Lemma l2_blend a b : l2 a -> l2 b -> l2 (vmap2 blend_F0 a b). Proof. intros H H'. exact (vmap2_len blend_F0 5 a b H H' blend_len). Qed.
Lemma or_word2_len a : (3 <= length a)%nat -> length (or_word2 a) = length a.
Proof. intro H. unfold or_word2. rewrite app_length, firstn_length. cbn [length]. rewrite skipn_length. lia. Qed.
Lemma or_word2_255 a : l2 a -> el2 false (or_word2 (vmap2 blend_F0 a (repeat 0 20))) = el2 false a /\
  el2 true (or_word2 (vmap2 blend_F0 a (repeat 0 20))) = [1; 0; 0; 0; 0; 0; 0; 0; 0; 0].
Proof. intro H. do 20 (apply len_S in H as (? & ? & -> & H)). apply length_zero_iff_nil in H. subst. split; reflexivity. Qed.
Definition vrep (s : list Z * list Z * Z) (q : Z * Z * Z * Z * bool) : Prop :=
  let '(XX, ZZ, prev) := s in let '(x2, z2, x3, z3, sw) := q in
  l2 XX /\ l2 ZZ /\ rr red255 (el2 false XX) x2 /\ rr red255 (el2 false ZZ) z2 /\
  rr red255 (el2 true XX) x3 /\ rr red255 (el2 true ZZ) z3 /\ prev = Z.b2z sw.
Lemma rr_mod b a x : rr b a x -> rr b a (x mod P).
Proof.
  intros [H E]. split; [exact H|]. apply cg_trans with (1 := E). unfold cg. rewrite Zminus_mod_idemp_r, Z.sub_diag. reflexivity.
Qed.
Lemma rr_eq b a x y : x = y -> rr b a x -> rr b a y.
Proof. now intros ->. Qed.
Lemma step_255_ok kk X1 x1 s q t : l2 X1 -> rr red255 (el2 true X1) x1 -> vrep s q ->
  vrep (step_ladder_x25519 st X1 s (Z.b2z (Z.testbit kk (Z.of_nat t)))) (rfc_step P 121665 kk x1 q t).
Proof.
  intros L1 H1 Hs. destruct s as [[XX ZZ] pr]. destruct q as [[[[x2 z2] x3] z3] sw].
  destruct Hs as (LX & LZ & Hx2 & Hz2 & Hx3 & Hz3 & ->). rewrite late_step_rfc.
  set (bt := Z.testbit kk (Z.of_nat t)). clearbody bt. unfold step_ladder_x25519. rewrite lxor_b2z.
  set (swp := xorb sw bt). clearbody swp.
  destruct (rr_addsub _ _ _ _ _ LX LZ Hx2 Hz2) as [HA HB]. destruct (rr_addsub _ _ _ _ _ LX LZ Hx3 Hz3) as [HC HD].
  assert (LA : l2 (fst (addsub_2w st XX ZZ))) by apply call_length. assert (LB : l2 (snd (addsub_2w st XX ZZ))) by apply call_length.
  destruct (addsub_2w st XX ZZ) as [AC BD]. cbn [fst snd] in *.
  pose proof (l2_perm _ LB) as LDB.
  assert (HB1 : rr wide255 (el2 true (vmap perm64_4E BD)) (x2 - z2)) by (rewrite el_perm by exact LB; exact HB).
  assert (HD1 : rr wide255 (el2 false (vmap perm64_4E BD)) (x3 - z3)) by (rewrite el_perm by exact LB; exact HD).
  clear HB HD. rename HB1 into HB, HD1 into HD.
  set (DB := vmap perm64_4E BD) in *. clearbody DB. clear BD LB.
  pose proof (rr_mul _ _ _ _ _ LA LDB HA (HD : rr wide255 (el2 false DB) (x3 - z3))) as HDA.
  pose proof (rr_mul _ _ _ _ _ LA LDB HC (HB : rr wide255 (el2 true DB) (x2 - z2))) as HCB.
  set (t0 := compress_2w st (intmul_2w st AC DB)) in *. assert (L0 : l2 t0) by apply call_length. clearbody t0.
  set (t1 := vmap perm64_4E t0). pose proof (l2_perm _ L0 : l2 t1) as Lt1.
  assert (HDA' : rr red255 (el2 true t1) ((x2 + z2) * (x3 - z3))) by (unfold t1; rewrite el_perm by exact L0; exact HDA).
  clearbody t1.
  rewrite (permv0 swp 5 AC LA), (permv1 swp 5 DB LDB).
  set (AC' := if swp then vmap perm64_4E AC else AC). set (DB' := if swp then DB else vmap perm64_4E DB).
  assert (LA' : l2 AC') by (unfold AC'; destruct swp; [now apply l2_perm|exact LA]).
  assert (LD' : l2 DB') by (unfold DB'; destruct swp; [exact LDB|now apply l2_perm]).
  assert (HA' : rr wide255 (el2 false AC') (if swp then x3 + z3 else x2 + z2)).
  { unfold AC'. destruct swp; [rewrite el_perm by exact LA; exact HC|exact HA]. }
  assert (HB' : rr wide255 (el2 false DB') (if swp then x3 - z3 else x2 - z2)).
  { unfold DB'. destruct swp; [exact HD|rewrite el_perm by exact LDB; exact HB]. }
  clearbody AC' DB'.
  destruct (rr_addsub _ _ _ _ _ Lt1 L0 HDA' HCB) as [HS HT].
  assert (LS : l2 (fst (addsub_2w st t1 t0))) by apply call_length. assert (LT : l2 (snd (addsub_2w st t1 t0))) by apply call_length.
  destruct (addsub_2w st t1 t0) as [ts td]. cbn [fst snd] in *. clear t0 t1 L0 Lt1 HDA HCB HDA' HA HB HC HD LA LDB AC DB.
  set (u0 := vmap2 blend_F0 AC' td). set (u1 := vmap2 blend_F0 DB' ts).
  pose proof (l2_blend _ _ LA' LT : l2 u0) as Lu0. pose proof (l2_blend _ _ LD' LS : l2 u1) as Lu1.
  assert (U0a : rr wide255 (el2 false u0) (if swp then x3 + z3 else x2 + z2)) by (unfold u0; rewrite el_blend by assumption; exact HA').
  assert (U0b : rr wide255 (el2 true u0) ((x2 + z2) * (x3 - z3) - (x3 + z3) * (x2 - z2))) by (unfold u0; rewrite el_blend by assumption; exact HT).
  assert (U1a : rr wide255 (el2 false u1) (if swp then x3 - z3 else x2 - z2)) by (unfold u1; rewrite el_blend by assumption; exact HB').
  assert (U1b : rr wide255 (el2 true u1) ((x2 + z2) * (x3 - z3) + (x3 + z3) * (x2 - z2))) by (unfold u1; rewrite el_blend by assumption; exact HS).
  clearbody u0 u1. clear AC' DB' LA' LD' HA' HB' ts td HS HT LS LT.
  destruct (rr_sqr2 _ _ _ _ _ Lu0 Lu1 U0a U1a) as [SA SB]. destruct (rr_sqr2 _ _ _ _ _ Lu0 Lu1 U0b U1b) as [SD SS].
  set (r := compress2_2w st (intsqr_2w st u0) (intsqr_2w st u1)) in *.
  assert (Lr0 : l2 (fst r)) by apply call_length. assert (Lr1 : l2 (snd r)) by apply call_length.
  clearbody r. destruct r as [t0 t1]. cbn [fst snd] in *. clear u0 u1 Lu0 Lu1 U0a U0b U1a U1b.
  set (a := if swp then x3 + z3 else x2 + z2) in *. set (b := if swp then x3 - z3 else x2 - z2) in *.
  set (t2 := or_word2 (vmap2 blend_F0 t0 (repeat 0 20))).
  assert (L2 : l2 t2). { unfold t2. rewrite or_word2_len; rewrite l2_blend; (exact Lr0 || reflexivity || lia). }
  destruct (or_word2_255 t0 Lr0) as [E0 E1]. fold t2 in E0, E1.
  assert (T2a : rr wide255 (el2 false t2) (a * a)) by (rewrite E0; now apply rr_wide).
  assert (T2b : rr wide255 (el2 true t2) 1).
  { rewrite E1. split; [repeat constructor; cbn; lia|reflexivity]. }
  clearbody t2. clear E0 E1.
  pose proof (rr_mul _ _ _ _ _ L2 Lr1 T2a (rr_wide _ _ SB)) as X2'. pose proof (rr_mul _ _ _ _ _ L2 Lr1 T2b (rr_wide _ _ SS)) as X3'.
  destruct (rr_fe _ _ _ _ _ Lr0 Lr1 SA SB) as [HE HF].
  set (e := vout1 st 20 fe_prog255 t0 t1) in *. set (f := vout2 st 20 fe_prog255 t0 t1) in *.
  assert (Le : l2 e) by apply call_length. assert (Lf : l2 f) by apply call_length. clearbody e f.
  assert (Ea : rr wide255 (el2 false (vmap2 blend_F0 e t0)) (a * a - b * b)) by (rewrite el_blend by assumption; exact HE).
  assert (Eb : rr wide255 (el2 true (vmap2 blend_F0 e t0)) (((x2 + z2) * (x3 - z3) - (x3 + z3) * (x2 - z2)) * ((x2 + z2) * (x3 - z3) - (x3 + z3) * (x2 - z2)))).
  { rewrite el_blend by assumption. apply rr_wide. exact SD. }
  assert (Fa : rr fbig255 (el2 false (vmap2 blend_F0 f X1)) (121665 * (a * a - b * b) + a * a)) by (rewrite el_blend by assumption; exact HF).
  assert (Fb : rr fbig255 (el2 true (vmap2 blend_F0 f X1)) x1) by (rewrite el_blend by assumption; now apply red_fbig).
  pose proof (l2_blend _ _ Le Lr0) as Let. pose proof (l2_blend _ _ Lf L1) as Lft.
  apply rr_cf in Fa; [|exact Lft]. apply rr_cf in Fb; [|exact Lft].
  set (fx := compressfast_2w st (vmap2 blend_F0 f X1)) in *. assert (Lfx : l2 fx) by apply call_length. clearbody fx.
  pose proof (rr_mul _ _ _ _ _ Let Lfx Ea Fa) as Z2'. pose proof (rr_mul _ _ _ _ _ Let Lfx Eb Fb) as Z3'.
  unfold late_step, red4, vrep.
  split; [apply call_length|]. split; [apply call_length|].
  split; [apply rr_mod; revert X2'; apply rr_eq; unfold a, b; destruct swp; ring|].
  split; [apply rr_mod; revert Z2'; apply rr_eq; unfold a, b; destruct swp; ring|].
  split; [apply rr_mod; revert X3'; apply rr_eq; ring|].
  split; [apply rr_mod; revert Z3'; apply rr_eq; ring|]. reflexivity.
Qed.
Lemma fold_255_ok kk X1 x1 ts : forall s q, l2 X1 -> rr red255 (el2 true X1) x1 -> vrep s q ->
  vrep (fold_left (step_ladder_x25519 st X1) (map (fun t => Z.b2z (Z.testbit kk (Z.of_nat t))) ts) s) (fold_left (rfc_step P 121665 kk x1) ts q).
Proof.
  induction ts as [|t ts IH]; intros s q L1 H1 Hs; [exact Hs|]. cbn [map fold_left]. apply IH; [exact L1|exact H1|]. now apply step_255_ok.
Qed.
Lemma rr_ser a x : rr red255 a x -> words 4 (words_of 4 (ser_1w st a)) /\ val (words_of 4 (ser_1w st a)) = x mod P.
Proof.
  intros [R E]. destruct (ser_1w_ok st a R) as [B V]. destruct (words_of_ok 4 _ B) as [Ww Vw]. split; [exact Ww|].
  rewrite Vw, V. apply mod_cong; [discriminate|exact E].
Qed.
Theorem X25519_avx2_ok k sk pk : bytes 32 sk -> bytes 32 pk ->
  bytes 32 (x25519_shared_avx2 st k pk sk) /\ le_val (x25519_shared_avx2 st k pk sk) = X25519_spec (le_val sk) (le_val pk).
Proof.
  intros Hs Hp. unfold x25519_shared_avx2, X25519_spec.
  destruct (clamp255_ok sk Hs) as (Bc & Ec & _). destruct (mask_top_ok pk Hp) as [Bm Em].
  destruct (words_of_ok 4 _ Bc) as [Wc Vc]. rewrite <- Em, scalar_clamped, <- Ec, <- Vc.
  rewrite key_bits_255 by apply Wc.
  assert (T : Z.testbit (val (words_of 4 (clamp_bytes255 sk))) 0 = false).
  { rewrite Vc, Ec. apply clamped_bit0. }
  set (kk := val (words_of 4 (clamp_bytes255 sk))) in *. clearbody kk.
  destruct (unser_1w_ok st (mask_top pk) Bm) as [Vu Ru]. apply canon_red in Ru.
  set (u := le_val (mask_top pk)) in *. clearbody u. set (X1 := unser_1w st (mask_top pk)) in *.
  assert (LX1 : length X1 = 10%nat) by apply call_length. clearbody X1.
  assert (R1 : rr red255 X1 u). { split; [exact Ru|]. rewrite Vu. unfold cg. rewrite Zminus_mod_idemp_l, Z.sub_diag. reflexivity. }
  change (2 ^ 255 - 19) with P. rewrite <- (ladder_from_u P 121665 p25519_prime eq_refl kk u 255 T ltac:(lia)).
  pose proof (fun h => inter_2w_ok st h X1 X1 LX1 LX1) as EI. set (QxPx := inter_2w st X1 X1) in *.
  assert (LQ : l2 QxPx) by apply call_length. rewrite (copy_2w_ok st QxPx LQ). clearbody QxPx.
  assert (I : vrep (QxPx, or_word2 (repeat 0 20), 0) (u, 0, u, 1, false)).
  { unfold vrep. split; [exact LQ|]. split; [reflexivity|]. rewrite (EI false), (EI true).
    split; [exact R1|]. split; [split; [repeat constructor; cbn; lia|reflexivity]|]. split; [exact R1|].
    split; [split; [repeat constructor; cbn; lia|reflexivity]|reflexivity]. }
  assert (H1 : rr red255 (el2 true QxPx) u) by (rewrite (EI true); exact R1).
  pose proof (fold_255_ok kk QxPx u (rev (seq 0 255)) _ _ LQ H1 I) as Fo. clear I.
  destruct (fold_left (step_ladder_x25519 _ _) _ _) as [[Xf Zf] pr].
  destruct (fold_left (rfc_step _ _ _ _) _ _) as [[[[x2 z2] x3] z3] sw]. destruct Fo as (LX & LZ & Hx & Hz & _).
  rewrite (deinter_2w_ok st Xf LX), (deinter_2w_ok st Zf LZ). cbn [fst].
  destruct (rr_ser _ _ Hx) as [Wx Vx]. destruct (rr_ser _ _ Hz) as [Wz Vz].
  set (X := words_of 4 (ser_1w st (el2 false Xf))) in *. set (Zw := words_of 4 (ser_1w st (el2 false Zf))) in *. clearbody X Zw.
  assert (Rx : rep4 X x2). { split; [exact Wx|]. rewrite Vx. apply Z.mod_mod. discriminate. }
  assert (Ez : val Zw mod P = z2 mod P). { rewrite Vz. apply Z.mod_mod. discriminate. }
  destruct (inv_ok st k Zw Wz) as [Wi Ei].
  assert (Hi : rep4 (inv st k Zw) (z2 ^ (P - 2))). { split; [exact Wi|]. rewrite Ei. now apply pow_cong. }
  destruct (rep4_mul st k _ _ _ _ Rx Hi) as [Wr Er]. destruct (ser_ok st _ Wr) as [Br Vr]. split; [exact Br|]. rewrite Vr. exact Er.
Qed.
End Ladder255.
