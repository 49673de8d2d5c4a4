(** Decompression of Ed448 public keys: the representation of the x-coordinate, and the keys of the examples. *)
From Coq Require Import ZArith Znumtheory List Bool Lia.
From Verif Require Import Uop X86 Sym Engine Bytes Check FullTac Lanes RedTac Simd Simd448 Fp448Full Fp448FullProofs FullMore
  Fp25519Red Fp25519RedProofs Fp25519RedMore Fp448Red Fp448RedProofs Fp448RedMore Fp448RedRoot Spec LadderX448
  Primality FpType SpecEd SpecIso SpecSign448 CurveInst EdInst448 Edwards255 Edwards448 EdVec448 Edwards448Proofs Verify448Proofs ScalarProps Sign255 Sign448 Sign448Proofs SpecDecode448 Decode448Proofs InPlace NoPoint TableProofs448.
Import ListNotations.
Open Scope Z_scope.

(** ** The limbs of a number without small limbs are determined *)
Fixpoint hval (l : list Z) : Z := match l with [] => 0 | a :: l => a + 2 ^ 28 * hval l end.
Lemma limb_S x i : limb_of x (Datatypes.S i) = limb_of (x / 2 ^ 28) i.
Proof.
  unfold limb_of. rewrite Z.div_div by (try discriminate; apply Z.pow_pos_nonneg; lia). rewrite <- Z.pow_add_r by lia.
  do 2 f_equal. f_equal. lia.
Qed.
Lemma limbs_unique l : forall x, Forall (fun a => 0 <= a <= 2 ^ 28 + 2 ^ 10) l -> x = hval l -> (forall i, (i < length l)%nat -> 2 ^ 12 <= limb_of x i) ->
  forall i, (i < length l)%nat -> nth i l 0 = limb_of x i.
Proof.
  induction l as [|a l IH]; intros x F E S i Hi; [cbn in Hi; lia|]. pose proof (Forall_inv F) as Ha. pose proof (Forall_inv_tail F) as Fl. cbv beta in Ha. cbn [hval] in E.
  pose proof (S 0%nat ltac:(cbn; lia)) as S0. unfold limb_of in S0. change (2 ^ (28 * Z.of_nat 0)) with 1 in S0. rewrite Z.div_1_r in S0.
  assert (A : a = x mod 2 ^ 28 /\ x / 2 ^ 28 = hval l).
  { assert (M : x mod 2 ^ 28 = a mod 2 ^ 28) by (rewrite E, Z.mul_comm; apply Z.mod_add; discriminate).
    assert (L : a < 2 ^ 28).
    { destruct (Z.lt_ge_cases a (2 ^ 28)) as [L|L]; [exact L|]. exfalso. rewrite M in S0.
      replace a with (a - 2 ^ 28 + 1 * 2 ^ 28) in S0 by ring. rewrite Z.mod_add in S0 by discriminate. rewrite Z.mod_small in S0 by lia. lia. }
    split; [rewrite M; symmetry; apply Z.mod_small; lia|]. rewrite E, Z.mul_comm, Z.div_add by discriminate. rewrite Z.div_small by lia. reflexivity. }
  destruct A as [A1 A2]. destruct i as [|i]; cbn [nth].
  - unfold limb_of. change (2 ^ (28 * Z.of_nat 0)) with 1. rewrite Z.div_1_r. exact A1.
  - rewrite limb_S. apply IH; [exact Fl|exact A2| |cbn [length] in Hi; lia].
    intros j Hj. rewrite <- limb_S. apply S. cbn [length]. lia.
Qed.
(** The words of an element, in the order of eltfp448_1w_redradix.c *)
Definition words448 (x : Z) : list Z := map (fun k => limb_of x (limb448 k)) (seq 0 16).
Lemma value_unique f x : 0 <= x < Q -> 2 ^ 432 <= x -> 0 <= f < 2 ^ 448 + 2 ^ 431 -> cq f x -> f = x.
Proof.
  intros Hx Hb Hf C. apply eqp_cq in C. unfold eqp in C. rewrite (Z.mod_small x Q Hx) in C.
  pose proof (Z.div_mod f Q ltac:(discriminate)) as D. rewrite C in D. assert (K : f / Q = 0 \/ f / Q = 1 \/ 2 <= f / Q).
  { assert (0 <= f / Q) by (apply Z.div_pos; [lia|reflexivity]). lia. }
  clear C. set (k := f / Q) in *. clearbody k. change Q with (2 ^ 448 - 2 ^ 224 - 1) in *.
  set (b := 2 ^ 448 - 2 ^ 224 - 1) in *. assert (Eb : 2 ^ 448 + 2 ^ 431 < b + 2 ^ 432) by reflexivity. assert (Pb : 0 < b) by reflexivity. assert (Ec : 2 ^ 448 + 2 ^ 431 < b + b) by reflexivity.
  set (c := 2 ^ 448 + 2 ^ 431) in *. set (e := 2 ^ 432) in *. clearbody b c e. destruct K as [-> | [-> | K]]; [lia|lia|]. nia.
Qed.
Lemma spread_big x : 0 <= x -> spread_x x -> 2 ^ 432 <= x.
Proof.
  intros H0 S. specialize (S 15%nat ltac:(lia)). unfold limb_of in S. change (28 * Z.of_nat 15) with 420 in S.
  assert (M : (x / 2 ^ 420) mod 2 ^ 28 <= x / 2 ^ 420) by (apply Z.mod_le; [apply Z.div_pos; [exact H0|reflexivity]|reflexivity]).
  pose proof (Z.mul_div_le x (2 ^ 420) ltac:(reflexivity)) as L. change (2 ^ 432) with (2 ^ 420 * 2 ^ 12). nia.
Qed.
Lemma red_words a x : is_red448 a -> 0 <= x < Q -> spread_x x -> cq (fe448 a) x -> a = words448 x.
Proof.
  intros R Hx Sx C. pose proof (arr_len _ _ R) as L. d16 a L.
  unfold arr_ok, is_red448, red448 in R. repeat (apply f2_inv in R as [? R]). clear R L. unfold inI in *. cbn [fst snd] in *.
  assert (E : fe448 [a0; a1; a2; a3; a4; a5; a6; a7; a8; a9; a10; a11; a12; a13; a14; a15] = hval [a0; a2; a4; a6; a8; a10; a12; a14; a1; a3; a5; a7; a9; a11; a13; a15]).
  { cbv [wsum wt448 hval]. ring. }
  assert (U : x = hval [a0; a2; a4; a6; a8; a10; a12; a14; a1; a3; a5; a7; a9; a11; a13; a15]).
  { symmetry. rewrite E in C. apply value_unique; [exact Hx|exact (spread_big x (proj1 Hx) Sx)| |exact C]. clear C E Hx Sx x. cbv [hval]. lia. }
  assert (F : Forall (fun a => 0 <= a <= 2 ^ 28 + 2 ^ 10) [a0; a2; a4; a6; a8; a10; a12; a14; a1; a3; a5; a7; a9; a11; a13; a15]).
  { clear C E U Hx Sx x. repeat apply Forall_cons; try apply Forall_nil; lia. }
  pose proof (limbs_unique _ x F U (fun i Hi => Sx i Hi)) as N. clear C E U F Hx. unfold words448. cbn [map seq]. cbn [length] in N.
  repeat match goal with |- _ :: _ = _ :: _ => f_equal end; [> (* *)
   exact (N 0%nat ltac:(lia)) | exact (N 8%nat ltac:(lia)) | exact (N 1%nat ltac:(lia)) | exact (N 9%nat ltac:(lia)) | exact (N 2%nat ltac:(lia)) | exact (N 10%nat ltac:(lia))
   | exact (N 3%nat ltac:(lia)) | exact (N 11%nat ltac:(lia)) | exact (N 4%nat ltac:(lia)) | exact (N 12%nat ltac:(lia)) | exact (N 5%nat ltac:(lia)) | exact (N 13%nat ltac:(lia))
   | exact (N 6%nat ltac:(lia)) | exact (N 14%nat ltac:(lia)) | exact (N 7%nat ltac:(lia)) | exact (N 15%nat ltac:(lia))].
Qed.

(** ** Encodings *)
Lemma coded_gen q y b : 0 <= y < q -> q <= 2 ^ 448 -> 0 <= b < 2 -> (y + 2 ^ 455 * b) mod 2 ^ 448 = y /\ (y + 2 ^ 455 * b) / 2 ^ 455 = b.
Proof.
  intros Hy Hq Hb. assert (E : 2 ^ 455 = 2 ^ 448 * 128) by reflexivity. assert (P : 0 < 2 ^ 448) by reflexivity. split.
  - rewrite E. set (m := 2 ^ 448) in *. clearbody m. replace (y + m * 128 * b) with (y + 128 * b * m) by ring. rewrite Z.mod_add by lia. apply Z.mod_small. lia.
  - set (m := 2 ^ 448) in *. clearbody m. set (n := 2 ^ 455) in *. clearbody n. replace (y + n * b) with (y + b * n) by ring. rewrite Z.div_add by lia. rewrite Z.div_small by lia. reflexivity.
Qed.
Lemma coded_ok pk x y : on448 (x, y) -> encodes448 pk (x, y) -> coded_y pk = y /\ coded_y pk mod p_ed448 = y /\ coded_sign pk = x mod 2.
Proof.
  intros (_ & Hy & _) [_ E]. cbn [fst snd] in E. unfold coded_y, coded_sign. rewrite E.
  destruct (coded_gen p_ed448 y (x mod 2) Hy ltac:(discriminate) (Z.mod_pos_bound x 2 ltac:(lia))) as [-> ->]. split; [reflexivity|]. split; [|reflexivity]. apply Z.mod_small. exact Hy.
Qed.
Lemma nar_of a : arr_ok sqo448 a -> (forall i, (i < 16)%nat -> nth i a 0 <= nth i limbs_2P448 0) -> arr_ok nar448 a.
Proof.
  intros S N. pose proof (arr_len _ _ S) as L. d16 a L. unfold arr_ok, sqo448 in S. repeat (apply f2_inv in S as [? S]). clear S L. unfold inI in *. cbn [fst snd] in *.
  pose proof (N 0%nat ltac:(lia)). pose proof (N 1%nat ltac:(lia)). pose proof (N 2%nat ltac:(lia)). pose proof (N 3%nat ltac:(lia)).
  pose proof (N 4%nat ltac:(lia)). pose proof (N 5%nat ltac:(lia)). pose proof (N 6%nat ltac:(lia)). pose proof (N 7%nat ltac:(lia)).
  pose proof (N 8%nat ltac:(lia)). pose proof (N 9%nat ltac:(lia)). pose proof (N 10%nat ltac:(lia)). pose proof (N 11%nat ltac:(lia)).
  pose proof (N 12%nat ltac:(lia)). pose proof (N 13%nat ltac:(lia)). pose proof (N 14%nat ltac:(lia)). pose proof (N 15%nat ltac:(lia)). clear N.
  cbn [nth limbs_2P448] in *. unfold nar448, arr_ok. repeat (apply Forall2_cons; [unfold inI; cbn [fst snd]; lia|]). apply Forall2_nil.
Qed.
Lemma limb_bound x i : 0 <= limb_of x i < 2 ^ 28. Proof. apply Z.mod_pos_bound. reflexivity. Qed.
Lemma words_mid x : is_mid448 (words448 x).
Proof.
  unfold words448. cbn [map seq]. unfold is_mid448, arr_ok, mid448. 
  repeat (apply Forall2_cons; [unfold inI; cbn [fst snd]; match goal with |- _ <= limb_of ?x ?i <= _ => pose proof (limb_bound x i) end; lia|]). apply Forall2_nil.
Qed.
Section D.
Variable st : store.
(** No limb of the square of x exceeds the limb of 2p that is added before it is subtracted (edwards448.c:857). *)
Definition square_fits (x : Z) : Prop := forall i, (i < 16)%nat -> nth i (sqr448_1w st (words448 x)) 0 <= nth i limbs_2P448 0.
Theorem key_accepted pk P : on448 P -> encodes448 pk P -> regular_y (snd P) -> regular_x (fst P) -> fst (point_decoding448 st pk) = 0.
Proof.
  destruct P as [x y]. intros On En Ry Rx. cbn [fst snd] in *. destruct (coded_ok pk x y On En) as (Ey & Em & Es).
  rewrite <- Ey in Ry. rewrite <- Em in On.
  destruct (decode_xy448_ok st pk x (proj1 En) On Es Ry Rx) as (X & Y & E & _). rewrite (pd_at st pk _ E). reflexivity.
Qed.
Theorem key_decoded pk P : on448 P -> encodes448 pk P -> regular_y (snd P) -> regular_x (fst P) -> spread_x (fst P) -> square_fits (fst P) ->
  fst (point_decoding448 st pk) = 0 /\ pt448_4w (snd (point_decoding448 st pk)) (neg448 P).
Proof.
  destruct P as [x y]. intros On En Ry Rx Sx Fx. cbn [fst snd] in *. destruct (coded_ok pk x y On En) as (Ey & Em & Es).
  assert (Hx : 0 <= x < Q) by exact (proj1 On).
  rewrite <- Ey in Ry. rewrite <- Em in On.
  destruct (decode_xy448_ok st pk x (proj1 En) On Es Ry Rx) as (X & Y & E & RX & CX & _ & _).
  pose proof (red_words X x RX Hx Sx CX) as W.
  assert (N : arr_ok nar448 (sqr448_1w st (found_x st pk))).
  { rewrite (found_eq st pk _ _ _ E), W. apply nar_of; [exact (proj2 (sqr448_sqo st _ (words_mid x)))|exact Fx]. }
  pose proof (point_decoding448_ok st pk x (proj1 En) On Es Ry Rx N) as R. rewrite Em in R. exact R.
Qed.
Theorem key_refused pk : bytes 57 pk -> regular_y (coded_y pk) -> (forall x, ~ on448 (x, coded_y pk mod p_ed448)) -> fst (point_decoding448 st pk) = -1.
Proof. exact (point_decoding448_refuses st pk). Qed.
Variable junk : list Z.
Variable H : nat -> list Z -> list Z.
Lemma rest_refused sig F D : fst D = -1 -> verify_rest448 sig F D = EDDSA_ERROR_PUBLICKEY.
Proof. destruct D as [r A]. cbn [fst]. intros ->. reflexivity. Qed.
Lemma rest_accepted sig F D : fst D = 0 -> verify_rest448 sig F D <> EDDSA_ERROR_PUBLICKEY.
Proof.
  destruct D as [r A]. cbn [fst]. intros ->. unfold verify_rest448. change (negb (0 =? 0)) with false. cbv iota.
  destruct (F A) as [q|]; [destruct (same_bytes 57 sig q)|]; discriminate.
Qed.
Theorem verify_refuses m M pk sig : (length (context448 m) <= 255)%nat -> bytes 57 pk -> regular_y (coded_y pk) ->
  (forall x, ~ on448 (x, coded_y pk mod p_ed448)) -> verify448_with st junk H m M pk sig = EDDSA_ERROR_PUBLICKEY.
Proof.
  intros L Hb Ry No. rewrite (verify448_with_body st junk H m M pk sig L), verify_body448_eq. apply rest_refused. exact (key_refused pk Hb Ry No).
Qed.
Theorem verify_takes m M pk sig P : (length (context448 m) <= 255)%nat -> on448 P -> encodes448 pk P -> regular_y (snd P) -> regular_x (fst P) ->
  verify448_with st junk H m M pk sig <> EDDSA_ERROR_PUBLICKEY.
Proof.
  intros L On En Ry Rx. rewrite (verify448_with_body st junk H m M pk sig L), verify_body448_eq. apply rest_accepted. exact (key_accepted pk P On En Ry Rx).
Qed.
End D.

(** ** Examples *)
(** The base point *)
Definition base_key448 : list Z := Eval vm_compute in bytes_n 57 (snd B_ed448 + 2 ^ 455 * (fst B_ed448 mod 2)).
Lemma regular_y_dec y : (let w := (y * y) mod p_ed448 in let w' := (d_ed448 * (y * y)) mod p_ed448 in
  (2 ^ 422 <? w) && (w <? p_ed448 - 2 ^ 422) && (2 <? w mod 2 ^ 28) && ((2 ^ 422 <? w') && (w' <? p_ed448 - 2 ^ 422) && (2 <? w' mod 2 ^ 28))) = true -> regular_y y.
Proof.
  cbv zeta. intro E. unfold regular_y, regular448. repeat (apply andb_prop in E as [E ?]).
  repeat match goal with H : (_ && _)%bool = true |- _ => apply andb_prop in H as [? ?] end.
  repeat match goal with H : (_ <? _) = true |- _ => apply Z.ltb_lt in H end. split; (split; [split|]); assumption.
Qed.
Lemma spread_dec x : forallb (fun i => 2 ^ 12 <=? limb_of x i) (seq 0 16) = true -> spread_x x.
Proof. intros E i Hi. rewrite forallb_forall in E. apply Z.leb_le. apply E. apply in_seq. lia. Qed.
Lemma base_regular : regular_y (snd B_ed448) /\ regular_x (fst B_ed448) /\ spread_x (fst B_ed448).
Proof.
  split; [apply regular_y_dec; vm_compute; reflexivity|]. split; [split; discriminate|]. apply spread_dec. vm_compute. reflexivity.
Qed.
Lemma base_coded : encodes448 base_key448 B_ed448.
Proof. split; [apply bytes_lit; vm_compute; reflexivity|vm_compute; reflexivity]. Qed.
Definition base_words : list Z := Eval vm_compute in words448 (fst B_ed448).
Notation em := (FSets.FMapPositive.PositiveMap.empty Z).
Definition base_square : list Z := Eval vm_compute in sqr448_1w em base_words.
Lemma base_square_ok st : sqr448_1w st (words448 (fst B_ed448)) = base_square.
Proof.
  transitivity (sqr448_1w em base_words); [|vm_compute; reflexivity]. change (words448 (fst B_ed448)) with base_words.
  apply call_indep; vm_cast_no_check (eq_refl true).
Qed.
Lemma base_fits st : square_fits st (fst B_ed448).
Proof.
  intros i Hi. rewrite base_square_ok. assert (F : forallb (fun i => nth i base_square 0 <=? nth i limbs_2P448 0) (seq 0 16) = true) by (vm_compute; reflexivity).
  rewrite forallb_forall in F. apply Z.leb_le, F, in_seq. lia.
Qed.
Lemma base_example : on448 B_ed448 /\ encodes448 base_key448 B_ed448 /\ regular_y (snd B_ed448) /\ regular_x (fst B_ed448) /\ spread_x (fst B_ed448) /\
  (forall st, square_fits st (fst B_ed448)) /\ neg448 B_ed448 <> B_ed448.
Proof.
  destruct base_regular as (Ry & Rx & Sx). split; [exact onB|]. split; [exact base_coded|]. split; [exact Ry|]. split; [exact Rx|]. split; [exact Sx|]. split; [exact base_fits|].
  intro E. vm_compute in E. discriminate E.
Qed.
(** A y-coordinate of no point, 3^280: -(y^2 - 1)(d y^2 - 1) is the square of [wrong_root]. *)
Definition wrong_y : Z := 39260092771818149473052557510879008881531271834245376524351437833098473006934585226108508724996140473513172757995825977888878576741601.
Definition wrong_root : Z := 212009224205005142786900045609342127992918551204984960831719712128496739458432904141551126181143233123777178910223151438271208165593283.
Definition wrong_prod : Z := Eval vm_compute in ((wrong_y * wrong_y - 1) * (d_ed448 * (wrong_y * wrong_y) - 1)) mod p44.
Lemma prod_square q d x y : 0 < q -> (1 * x * x + y * y) mod q = (1 + d * x * x * y * y) mod q ->
  (x * (d * (y * y) - 1) * (x * (d * (y * y) - 1))) mod q = ((y * y - 1) * (d * (y * y) - 1)) mod q.
Proof.
  intros Hq E. destruct (to_mult q _ _ Hq E) as [m Em]. apply (of_mult q _ _ (- m * (d * (y * y) - 1)) Hq).
  replace (q * (- m * (d * (y * y) - 1))) with (- (q * m) * (d * (y * y) - 1)) by ring. rewrite <- Em. ring.
Qed.
Lemma wrong_no_root z : (z * z) mod p44 <> wrong_prod mod p44.
Proof.
  intro E. assert (N : forall r, fp_mul p44 p44_2 r r <> inF p44 p44_2 wrong_prod).
  { apply (nonsquare_by p44 p44_prime p44_2 (-1) 1 wrong_prod wrong_root ns44_pow); [vm_compute; reflexivity|vm_compute; discriminate]. }
  apply (N (inF p44 p44_2 z)). rewrite <- inF_mul. apply inF_eq. exact E.
Qed.
Lemma wrong_eq : ((wrong_y * wrong_y - 1) * (d_ed448 * (wrong_y * wrong_y) - 1)) mod p44 = wrong_prod mod p44. Proof. vm_compute. reflexivity. Qed.
Lemma wrong_no_point x : ~ on448 (x, wrong_y).
Proof.
  intros (_ & _ & E). exact (wrong_no_root _ (eq_trans (prod_square p44 d_ed448 x wrong_y eq_refl E) wrong_eq)).
Qed.
Definition wrong_key448 : list Z := Eval vm_compute in bytes_n 57 wrong_y.
Lemma wrong_example : bytes 57 wrong_key448 /\ regular_y (coded_y wrong_key448) /\ forall x, ~ on448 (x, coded_y wrong_key448 mod p_ed448).
Proof.
  split; [apply bytes_lit; vm_compute; reflexivity|]. split; [apply regular_y_dec; vm_compute; reflexivity|]. intro x.
  replace (coded_y wrong_key448 mod p_ed448) with wrong_y by (vm_compute; reflexivity). exact (wrong_no_point x).
Qed.
(** A string that encodes no point and is taken: the base point with a bit of the last byte set. *)
Definition odd_key448 : list Z := firstn 56 base_key448 ++ [1].
Lemma odd_key_gen q n y b : 0 <= y < q -> q <= 2 ^ 448 -> 0 <= b < 2 -> 2 ^ 448 <= n < 2 ^ 455 -> n = y + 2 ^ 455 * b -> False.
Proof.
  intros Hy Hq Hb Hn E. assert (P : 0 < 2 ^ 448) by reflexivity. set (m := 2 ^ 448) in *. clearbody m. set (k := 2 ^ 455) in *. clearbody k.
  assert (C : b = 0 \/ b = 1) by lia. destruct C; subst b; lia.
Qed.
Lemma odd_key_none P : on448 P -> ~ encodes448 odd_key448 P.
Proof.
  destruct P as [x y]. intros (_ & Hy & _) [_ E]. cbn [fst snd] in E.
  apply (odd_key_gen p_ed448 (le_val odd_key448) y (x mod 2)); [exact Hy|discriminate|apply Z.mod_pos_bound; lia| |exact E].
  vm_compute. split; [discriminate|reflexivity].
Qed.
Lemma odd_key_facts : bytes 57 odd_key448 /\ coded_y odd_key448 = snd B_ed448 /\ coded_sign odd_key448 = fst B_ed448 mod 2 /\ coded_y odd_key448 mod p_ed448 = snd B_ed448.
Proof. split; [apply bytes_lit; vm_compute; reflexivity|]. split; [vm_compute; reflexivity|]. split; vm_compute; reflexivity. Qed.
Lemma odd_key_taken st : fst (point_decoding448 st odd_key448) = 0.
Proof.
  destruct odd_key_facts as (Hb & Ey & Es & Em). destruct base_regular as (Ry & Rx & _). pose proof onB as On. rewrite (surjective_pairing B_ed448) in On.
  rewrite <- Ey in Ry. rewrite <- Em in On.
  destruct (decode_xy448_ok st odd_key448 (fst B_ed448) Hb On Es Ry Rx) as (X & Y & E & _). rewrite (pd_at st odd_key448 _ E). reflexivity.
Qed.
Theorem odd_key_accepted : bytes 57 odd_key448 /\ (forall P, on448 P -> ~ encodes448 odd_key448 P) /\
  forall st junk H m M sig, (length (context448 m) <= 255)%nat -> verify448_with st junk H m M odd_key448 sig <> EDDSA_ERROR_PUBLICKEY.
Proof.
  split; [exact (proj1 odd_key_facts)|]. split; [exact odd_key_none|]. intros st junk H m M sig L.
  rewrite (verify448_with_body st junk H m M odd_key448 sig L), verify_body448_eq. apply rest_accepted. exact (odd_key_taken st).
Qed.
