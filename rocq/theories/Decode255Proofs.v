(** Point decompression of edwards25519. *)
From Coq Require Import ZArith List Bool Lia Field.
From Verif Require Import Uop X86 Sym Engine Bytes Check FullTac Lanes RedTac Simd Simd255 Fp25519Full Fp25519FullProofs FullMore
  Fp25519Red Fp25519RedProofs Fp25519RedMore Spec Ladder LadderProofs LadderVec SpecEd FpType CurveInst EdInst Edwards255 EdVec Edwards255Proofs Verify255 Verify255Proofs
  Recode Table255 SpecEdVec Fixed255 Fixed255Proofs Decode255.
Import ListNotations.
Open Scope Z_scope.
Notation l1 a := (length a = 10%nat).

Lemma d_words : words 4 param_curve_d /\ val param_curve_d = d_ed255.
Proof. split; [|vm_compute; reflexivity]. split; [reflexivity|]. repeat (apply Forall_cons; [split; vm_compute; [discriminate|reflexivity]|]). constructor. Qed.
Lemma one_ok : words 4 one_words /\ val one_words = 1.
Proof. split; [|vm_compute; reflexivity]. split; [reflexivity|]. repeat (apply Forall_cons; [split; vm_compute; [discriminate|reflexivity]|]). constructor. Qed.

Section Root.
Notation F := (Fp p25). Notation I := (inF p25 p25_2).
Notation fM := (fp_mul p25 p25_2). Notation fA := (fp_add p25 p25_2).
Let Fth := fp_field p25 p25_prime p25_2.
Add Field Fpd : Fth.
(** 1 + d y^2 is never zero, since d is not a square and -1 is *)
Lemma den_nz y : (1 + d25 * (y * y)) mod p25 <> 0.
Proof.
  intro E. apply (inF_0 p25 p25_2) in E. rewrite inF_add, !inF_mul in E.
  assert (Is : fM (I i25) (I i25) = I (-1)). { rewrite <- inF_mul. apply (inF_eq p25 p25_2). exact EdInst.s25. }
  assert (M1 : I (-1) = fp_opp p25 p25_2 (I 1)) by exact (inF_opp p25 p25_2 1). rewrite M1 in Is.
  destruct (Fp_dec p25 (I y) (I 0)) as [Y0|Y0].
  - rewrite Y0 in E. apply (fp_two p25 p25_2). 
    assert (Z1 : I 1 = I 0). { rewrite <- E. ring. } rewrite Z1. ring.
  - apply (d25_ns (fp_div p25 p25_2 (I i25) (I y))).
    assert (D : I d25 = fp_div p25 p25_2 (fM (I i25) (I i25)) (fM (I y) (I y))).
    { rewrite Is. assert (K : fM (I d25) (fM (I y) (I y)) = fp_opp p25 p25_2 (I 1)).
      { transitivity (fp_sub p25 p25_2 (fA (I 1) (fM (I d25) (fM (I y) (I y)))) (I 1)); [ring|]. rewrite E. ring. }
      rewrite <- K. field. exact Y0. }
    rewrite D. field. exact Y0.
Qed.
End Root.
Lemma two_roots q v x X : Znumtheory.prime q -> v mod q <> 0 -> (v * (X * X)) mod q = (v * (x * x)) mod q -> X mod q = x mod q \/ X mod q = (- x) mod q.
Proof.
  intros Pq Nv E. pose proof (Znumtheory.prime_ge_2 q Pq) as Q2. assert (Dv : (q | v * ((X - x) * (X + x)))).
  { apply Z.mod_divide; [lia|]. replace (v * ((X - x) * (X + x))) with (v * (X * X) - v * (x * x)) by ring.
    rewrite Zminus_mod, E, Z.sub_diag. apply Z.mod_0_l. lia. }
  apply Znumtheory.prime_mult in Dv; [|exact Pq]. destruct Dv as [Dv|Dv].
  - exfalso. apply Nv. apply Z.mod_divide; [lia|exact Dv].
  - apply Znumtheory.prime_mult in Dv; [|exact Pq]. destruct Dv as [[m Dv]|[m Dv]]; [left|right].
    + replace X with (x + m * q) by lia. apply Z_mod_plus_full.
    + replace X with (- x + m * q) by lia. apply Z_mod_plus_full.
Qed.
(** The choice of the root whose parity differs from the sign bit *)
Lemma parity_choice q x X b : 2 < q -> q mod 2 = 1 -> 0 <= x < q -> 0 <= X < q -> (X = x \/ X mod q = (- x) mod q) -> (x <> 0 -> b = x mod 2) ->
  (if b =? X mod 2 then - X else X) mod q = (- x) mod q.
Proof.
  intros Q2 Qo Hx HX E Hb. destruct (Z.eq_dec x 0) as [->|Nx].
  - assert (X0 : X = 0). { destruct E as [E|E]; [exact E|]. rewrite Z.mod_small in E by exact HX. rewrite E. apply Z.mod_0_l. lia. }
    rewrite X0. destruct (b =? _); reflexivity.
  - specialize (Hb Nx). subst b. destruct E as [->|E].
    + rewrite Z.eqb_refl. reflexivity.
    + assert (X1 : X = q - x). { rewrite Z.mod_small in E by exact HX. rewrite E. rewrite <- (Z_mod_plus_full (- x) 1 q). rewrite Z.mod_small; lia. }
      destruct (Z.eqb_spec (x mod 2) (X mod 2)) as [Ep|_]; [|rewrite X1; rewrite <- (Z_mod_plus_full (- x) 1 q); f_equal; ring].
      exfalso. pose proof (Z.div_mod q 2 ltac:(lia)). pose proof (Z.div_mod x 2 ltac:(lia)). pose proof (Z.div_mod X 2 ltac:(lia)). lia.
Qed.
Lemma diff0 q a b : 0 < q -> (a - b) mod q = 0 -> a mod q = b mod q.
Proof. intros Q H. apply Z.mod_divide in H as [m H]; [|lia]. replace a with (b + m * q) by lia. apply Z_mod_plus_full. Qed.
Lemma num_ok q u u' Y y : 0 < q -> (u' - (u - 1)) mod q = 0 -> u mod q = (Y * Y) mod q -> Y mod q = y -> u' mod q = (y * y - 1) mod q.
Proof.
  intros Q H E <-. rewrite (diff0 q _ _ Q H). rewrite Zminus_mod, E. rewrite <- Zminus_mod.
  rewrite (Zminus_mod (Y mod q * _)), <- Zmult_mod, <- Zminus_mod. reflexivity.
Qed.
Lemma den_ok q u v v' Y y d : 0 < q -> (v' - (v + 1)) mod q = 0 -> v mod q = (u * d) mod q -> u mod q = (Y * Y) mod q -> Y mod q = y ->
  v' mod q = (1 + d * (y * y)) mod q.
Proof.
  intros Q H Ev Eu <-. rewrite (diff0 q _ _ Q H). rewrite Zplus_mod, Ev, <- Zplus_mod.
  rewrite (Zplus_mod (u * d)), (Zmult_mod u d), Eu, <- Zmult_mod, <- Zplus_mod.
  rewrite (Zplus_mod 1 (d * _)), (Zmult_mod d (_ * _)), (Zmult_mod (Y mod q) (Y mod q)), !Zmod_mod, <- (Zmult_mod Y Y), <- (Zmult_mod d (Y * Y)), <- Zplus_mod.
  f_equal. ring.
Qed.
Lemma root_ok q d x y u v : 0 < q -> ((-1) * x * x + y * y) mod q = (1 + d * x * x * y * y) mod q -> u mod q = (y * y - 1) mod q ->
  v mod q = (1 + d * (y * y)) mod q -> (v * (x * x)) mod q = u mod q.
Proof.
  intros Q Ec Eu Ev. rewrite Zmult_mod, Ev, <- Zmult_mod, Eu.
  replace ((1 + d * (y * y)) * (x * x)) with (1 + d * x * x * y * y + (x * x - 1)) by ring. rewrite Zplus_mod, <- Ec, <- Zplus_mod. f_equal. ring.
Qed.
Section Decode.
Variable st : store.
Variable k : cpu.
Lemma cut_ok A : bytes 32 A -> let u := words_of 4 A in let Y := firstn 3 u ++ [Z.land (nth 3 u 0) (2 ^ 63 - 1)] in
  words 4 Y /\ val Y = le_val A mod 2 ^ 255.
Proof.
  intros H u Y. destruct (words_of_ok 4 A H) as [[L Fw] V]. fold u in L, Fw, V. subst Y. clearbody u.
  destruct u as [|w0 [|w1 [|w2 [|w3 [|]]]]]; try discriminate L. cbn [firstn nth app] in *.
  inversion Fw as [|? ? H0 F0]; subst. inversion F0 as [|? ? H1 F1]; subst. inversion F1 as [|? ? H2 F2]; subst. inversion F2 as [|? ? H3 F3]; subst. clear L Fw F0 F1 F2 F3.
  assert (E : Z.land w3 (2 ^ 63 - 1) = w3 mod 2 ^ 63) by (apply (Z.land_ones w3 63); discriminate). rewrite E.
  pose proof (Z.div_mod w3 (2 ^ 63) ltac:(discriminate)) as D. pose proof (Z.mod_pos_bound w3 (2 ^ 63) ltac:(reflexivity)) as M.
  assert (Q : 0 <= w3 / 2 ^ 63) by (apply Z.div_pos; [exact (proj1 H3)|reflexivity]).
  set (q := w3 / 2 ^ 63) in *. set (r := w3 mod 2 ^ 63) in *. clearbody q r. unfold word in *. unfold W in *.
  split; [split; [reflexivity|repeat (apply Forall_cons; [unfold word, W; lia|]); constructor]|].
  rewrite <- V. cbn [val]. unfold W. apply (Z.mod_unique _ (2 ^ 255) q); lia.
Qed.
Lemma low_bit X : words 4 X -> Z.land (nth 0 X 0) 1 = val X mod 2.
Proof.
  intros [L _]. destruct X as [|w ws]; [discriminate L|]. cbn [nth val]. change 1 with (Z.ones 1). rewrite Z.land_ones by lia. change (2 ^ 1) with 2.
  unfold W. rewrite Z.add_comm. replace (18446744073709551616 * val ws) with ((9223372036854775808 * val ws) * 2) by ring. rewrite Z.add_comm, Z_mod_plus_full. reflexivity.
Qed.
Lemma sign_bit A : bytes 32 A -> nth 31 A 0 / 2 ^ 7 = le_val A / 2 ^ 255.
Proof.
  intros [L Fb]. assert (E : A = firstn 31 A ++ [nth 31 A 0]).
  { rewrite <- (firstn_skipn 31 A) at 1. f_equal. do 32 (destruct A as [|? A]; [discriminate L|]). destruct A; [reflexivity|discriminate L]. }
  rewrite E at 2. assert (Lf : length (firstn 31 A) = 31%nat) by (rewrite firstn_length, L; reflexivity).
  assert (Ff : Forall byte (firstn 31 A)). { rewrite <- (firstn_skipn 31 A) in Fb. apply Forall_app in Fb. exact (proj1 Fb). }
  rewrite le_val_app, Lf. cbn [le_val]. pose proof (le_val_bound _ Ff) as Bd. rewrite Lf in Bd.
  change (256 ^ Z.of_nat 31) with (2 ^ 248) in *. set (x := le_val (firstn 31 A)) in *. clearbody x. set (b := nth 31 A 0).
  rewrite Z.mul_0_r, Z.add_0_r. change (2 ^ 255) with (2 ^ 248 * 2 ^ 7). rewrite <- Z.div_div by lia. f_equal.
  rewrite Z.add_comm, Z.mul_comm, Z.div_add_l by lia. rewrite Z.div_small by exact Bd. ring.
Qed.
Lemma decode_xy_shape A x y : bytes 32 A -> on255 (x, y) -> (le_val A mod 2 ^ 255) mod p25519 = y ->
  let (X, Y) := decode_xy st k A in words 4 Y /\ val Y = le_val A mod 2 ^ 255 /\
  exists X1, words 4 X1 /\ 0 <= val X1 < p25519 /\ (val X1 = x \/ val X1 mod p25519 = (- x) mod p25519) /\ X = if le_val A / 2 ^ 255 =? val X1 mod 2 then neg st X1 else X1.
Proof.
  intros HA (Hx & Hy & Ec) Ey. unfold decode_xy. destruct (cut_ok A HA) as [WY VY]. cbv zeta in WY, VY. rewrite <- VY in Ey. rewrite (sign_bit A HA).
  set (Y := firstn 3 (words_of 4 A) ++ _) in *. clearbody Y. clear HA. split; [exact WY|]. split; [exact VY|]. clear VY. set (b := le_val A / 2 ^ 255) in *. clearbody b. clear A.
  destruct (sqr_ok st k Y WY) as [Wu Vu]. destruct d_words as [Wd Vd]. destruct (mul_ok st k _ _ Wu Wd) as [Wv Vv].
  destruct one_ok as [W1 V1]. destruct (sub_ok st _ _ Wu W1) as [Wu' Vu']. destruct (add_ok st k _ _ Wv W1) as [Wv' Vv'].
  set (u := sqr st k Y) in *. set (v := mul st k u param_curve_d) in *. set (u' := sub st u one_words) in *. set (v' := add st k v one_words) in *.
  clearbody u v u' v'. rewrite V1 in Vu', Vv'. rewrite Vd in Vv. clear V1 Vd W1 Wd.
  assert (Eu : val u' mod p25519 = (y * y - 1) mod p25519).
  { exact (num_ok p25519 _ _ _ _ ltac:(reflexivity) Vu' Vu Ey). }
  assert (Ev : val v' mod p25519 = (1 + d_ed255 * (y * y)) mod p25519).
  { exact (den_ok p25519 _ _ _ _ _ _ ltac:(reflexivity) Vv' Vv Vu Ey). }
  assert (Root : eqp p25519 (val v' * (x * x)) (val u')). { exact (root_ok p25519 d_ed255 x y _ _ ltac:(reflexivity) Ec Eu Ev). }
  assert (Nv : val v' mod p25519 <> 0). { rewrite Ev. exact (den_nz y). }
  destruct (invsqrt_root st k u' v' x Wu' Wv' Nv Root) as [WX VX]. set (X := fst (invsqrt st k u' v')) in *. clearbody X.
  destruct (modp_ok st X WX) as [WX1 VX1]. set (X1 := modp st X) in *. clearbody X1.
  assert (X1r : 0 <= val X1 < p25519) by (rewrite VX1; apply Z.mod_pos_bound; reflexivity).
  assert (Rt : val X1 = x \/ val X1 mod p25519 = (- x) mod p25519).
  { destruct (two_roots p25519 (val v') x (val X1) p25519_prime Nv) as [R|R].
    - rewrite VX1. unfold eqp in VX, Root. rewrite Root, <- VX. rewrite (Zmult_mod (val v')), (Zmult_mod (_ mod _) (_ mod _)), !Zmod_mod, <- (Zmult_mod (val X) (val X)), <- Zmult_mod. reflexivity.
    - left. rewrite Z.mod_small in R by exact X1r. rewrite Z.mod_small in R by exact Hx. exact R.
    - right. exact R. }
  rewrite (low_bit X1 WX1). exists X1. split; [exact WX1|]. split; [exact X1r|]. split; [exact Rt|]. reflexivity.
Qed.
Theorem decode_xy_ok A x y : bytes 32 A -> on255 (x, y) -> (le_val A mod 2 ^ 255) mod p25519 = y -> (x <> 0 -> le_val A / 2 ^ 255 = x mod 2) ->
  let (X, Y) := decode_xy st k A in words 4 X /\ words 4 Y /\ val X mod p25519 = (- x) mod p25519 /\ val Y mod p25519 = y.
Proof.
  intros HA On Ey Es. pose proof (decode_xy_shape A x y HA On Ey) as D. destruct (decode_xy st k A) as [X Y].
  destruct D as (WY & VY & X1 & WX1 & X1r & Rt & ->). rewrite <- VY in Ey. set (b := le_val A / 2 ^ 255) in *. clearbody b.
  pose proof (parity_choice p25519 x (val X1) b ltac:(reflexivity) ltac:(reflexivity) (proj1 On) X1r Rt Es) as Pc.
  destruct (neg_ok st X1 WX1) as [Wn Vn]. apply (diff0 p25519) in Vn; [|reflexivity].
  destruct (b =? val X1 mod 2); (split; [assumption|split; [exact WY|split; [|exact Ey]]]).
  - rewrite Vn. exact Pc.
  - exact Pc.
Qed.
Lemma words_bytes X : words 4 X -> bytes 32 (bytes_of X) /\ le_val (bytes_of X) = val X. Proof. intro H. exact (bytes_of_ok 4 X H). Qed.
Theorem point_decoding_ok A P : bytes 32 A -> on255 P -> (le_val A mod 2 ^ 255) mod p25519 = snd P -> (fst P <> 0 -> le_val A / 2 ^ 255 = fst P mod 2) ->
  let '(ret, p4, p2) := point_decoding st k A in ret = 0 /\ pt_4w p4 (neg255 P) /\ pt_2w p2 (neg255 P).
Proof.
  intros HA On Ey Es. destruct P as [x y]. cbn [fst snd] in *. pose proof (decode_xy_ok A x y HA On Ey Es) as D. unfold point_decoding.
  destruct (decode_xy st k A) as [X Y]. destruct D as (WX & WY & VX & VY). clear HA Ey Es.
  destruct (mul_ok st k X Y WX WY) as [WT VT]. set (T := mul st k X Y) in *. clearbody T.
  destruct (words_bytes X WX) as [BX LX]. destruct (words_bytes Y WY) as [BY LY]. destruct (words_bytes T WT) as [BT LT]. destruct one_ok as [W1 V1]. destruct (words_bytes _ W1) as [B1 L1].
  destruct (unser_1w_ok st _ BX) as [FX RX]. destruct (unser_1w_ok st _ BY) as [FY RY]. destruct (unser_1w_ok st _ BT) as [FT RT]. destruct (unser_1w_ok st _ B1) as [F1 R1].
  rewrite LX in FX. rewrite LY in FY. rewrite LT in FT. rewrite L1, V1 in F1.
  set (XX := unser_1w st (bytes_of X)) in *. set (YY := unser_1w st (bytes_of Y)) in *. set (TT := unser_1w st (bytes_of T)) in *. set (ONE := unser_1w st (bytes_of one_words)) in *.
  clearbody XX YY TT ONE.
  assert (Pv : ptv XX YY ONE TT (neg255 (x, y))).
  { split; [apply neg255_on; exact On|]. split; [apply canon_red; exact RX|]. split; [apply canon_red; exact RY|]. split; [apply canon_red; exact R1|]. split; [apply canon_red; exact RT|].
    rewrite FX, FY, FT, F1. eapply (reps255_eqm _ _ _ _ _ _ _ _ _ _ _ _ _ (reps255_neg _ _ _ _ _ (reps255_intro (x, y)))). Unshelve.
    - cbn [fst]. rewrite VX. symmetry. apply Zmod_mod.
    - cbn [snd]. transitivity y; [apply Z.mod_small; exact (proj1 (proj2 On))|]. symmetry. transitivity (val Y mod p25519); [apply Zmod_mod|exact VY].
    - symmetry. apply Zmod_mod.
    - cbn [fst snd]. symmetry. transitivity (val T mod p25519); [apply Zmod_mod|]. rewrite VT, Zmult_mod, VX, VY. rewrite Zmult_mod_idemp_l. change p25519 with p25. f_equal. ring. }
  assert (NX : l1 XX) by exact (len1 _ _ RX eq_refl). assert (NY : l1 YY) by exact (len1 _ _ RY eq_refl).
  assert (NT : l1 TT) by exact (len1 _ _ RT eq_refl). assert (N1 : l1 ONE) by exact (len1 _ _ R1 eq_refl).
  split; [reflexivity|]. split.
  - split; [apply call_length|]. rewrite !zip_4w_ok by (assumption || lia). exact Pv.
  - split; [apply call_length|]. split; [apply call_length|]. cbn [fst snd]. rewrite !inter_2w_ok by assumption. exact Pv.
Qed.
End Decode.
