(** A run of the double-base multiplication that gives a wrong point: the public key is the neutral point. *)
From Coq Require Import ZArith Lia List FMapPositive.
From Verif Require Import Uop Engine Bytes X86 Spec SpecVec SpecEd SpecEdVec SpecRecode Lanes Fp25519Full Fp25519FullProofs Fp25519Red Fp25519RedProofs Fp25519RedMore FullMore
  LadderVec Recode EdInst Edwards255 Edwards255Proofs Verify255 Verify255Proofs Table255 TableProofs255 Fixed255 Fixed255Proofs EdProps Decode255 Decode255Proofs VerifyMulProofs RedTac.
Import ListNotations.
Open Scope Z_scope.

Section Enc.
Variable st : store. Variable k : cpu.
Lemma quotient_ok q a i z : 0 < q -> (z * i) mod q = 1 -> a mod q = ((a * i) mod q * z) mod q.
Proof.
  intros Hq Hi. rewrite Zmult_mod_idemp_l. replace (a * i * z) with (a * (z * i)) by ring. rewrite <- Zmult_mod_idemp_r, Hi, Z.mul_1_r. reflexivity.
Qed.
Lemma quotient_unique q x z i xb : (z * i) mod q = 1 -> x mod q = (xb * z) mod q -> 0 <= xb < q -> (x * i) mod q = xb.
Proof.
  intros Hi E Hb. rewrite <- Zmult_mod_idemp_l, E, Zmult_mod_idemp_l. replace (xb * z * i) with (xb * (z * i)) by ring.
  rewrite <- Zmult_mod_idemp_r, Hi, Z.mul_1_r. apply Z.mod_small. exact Hb.
Qed.
Lemma top_part q c b : 0 <= c < q -> q <= 2 ^ 255 -> (c + 2 ^ 255 * (b mod 2)) / 2 ^ 255 = b mod 2.
Proof. intros H Q. rewrite (Z.mul_comm (2 ^ 255)), Z.div_add by discriminate. rewrite Z.div_small by lia. reflexivity. Qed.
Lemma low_part q y b : 0 <= y < q -> q <= 2 ^ 255 -> (y + 2 ^ 255 * b) mod 2 ^ 255 = y.
Proof. intros Hy Hq. rewrite (Z.mul_comm (2 ^ 255)), Z_mod_plus_full. apply Z.mod_small. set (n := 2 ^ 255) in *. clearbody n. lia. Qed.
(** What point_encoding writes for any reduced limbs, points or not: the y-coordinate *)
Lemma encoding_y p : length (fst p) = 20%nat -> length (snd p) = 20%nat ->
  is_red (el2 false (fst p)) -> is_red (el2 true (fst p)) -> is_red (el2 true (snd p)) -> fe255 (el2 true (snd p)) mod p25519 <> 0 ->
  bytes 32 (point_encoding st k p) /\
  exists c, 0 <= c < p25519 /\ fe255 (el2 true (fst p)) mod p25519 = (c * fe255 (el2 true (snd p))) mod p25519 /\
    le_val (point_encoding st k p) mod 2 ^ 255 = c /\
    (forall xb, 0 <= xb < p25519 -> fe255 (el2 false (fst p)) mod p25519 = (xb * fe255 (el2 true (snd p))) mod p25519 ->
       le_val (point_encoding st k p) / 2 ^ 255 = xb mod 2).
Proof.
  intros L1 L2 Rx Ry Rz Nz. unfold point_encoding. rewrite (deinter_2w_ok st _ L1), (deinter_2w_ok st _ L2).
  set (x := fe255 (el2 false (fst p))). set (y := fe255 (el2 true (fst p))). set (z := fe255 (el2 true (snd p))) in *.
  assert (Ex : rr red255 (el2 false (fst p)) x) by (split; [exact Rx|apply cg_of; reflexivity]).
  assert (Ey : rr red255 (el2 true (fst p)) y) by (split; [exact Ry|apply cg_of; reflexivity]).
  assert (Ez : rr red255 (el2 true (snd p)) z) by (split; [exact Rz|apply cg_of; reflexivity]).
  destruct (rr_ser st _ _ Ex) as [Wx Vx]. destruct (rr_ser st _ _ Ey) as [Wy Vy]. destruct (rr_ser st _ _ Ez) as [Wz Vz].
  destruct (inv_inverse st k _ Wz) as (Wi & Hi & _). rewrite Vz, Zmod_mod in Hi. specialize (Hi Nz). rewrite <- Vz in Hi.
  set (I := inv st k _) in *. assert (Hi' : (z * val I) mod p25519 = 1) by (rewrite <- Zmult_mod_idemp_l, <- Vz; exact Hi).
  assert (P0 : 0 < p25519) by reflexivity. set (c := (y * val I) mod p25519).
  pose proof (quotient_ok p25519 x _ _ P0 Hi') as Qx. pose proof (quotient_ok p25519 y _ _ P0 Hi') as Qy.
  destruct (affine_coord st k _ _ _ _ _ _ Wx Wi Vx Qx Vz Hi (Z.mod_pos_bound _ _ P0)) as [Wx' Vx'].
  destruct (affine_coord st k _ _ _ _ _ _ Wy Wi Vy Qy Vz Hi (Z.mod_pos_bound _ _ P0)) as [Wy' Vy'].
  destruct (ser_ok st _ Wx') as [Bx Sx]. destruct (ser_ok st _ Wy') as [By Sy]. rewrite Vx' in Sx. rewrite Vy' in Sy.
  assert (Hc : 0 <= c < p25519) by (apply Z.mod_pos_bound; reflexivity).
  destruct (assemble _ _ _ _ Bx By Sx Sy ltac:(clear - Hc; unfold c, p25519 in *; lia)) as [Be Ve].
  split; [exact Be|]. exists c. split; [exact Hc|]. split; [exact Qy|].
  rewrite Ve. split; [exact (low_part p25519 c _ Hc ltac:(discriminate))|].
  intros xb Hb Eb. pose proof (quotient_unique p25519 x _ _ xb Hi' Eb Hb) as Ex'. rewrite <- Ex'.
  exact (top_part p25519 c _ Hc ltac:(discriminate)).
Qed.
(** Hence limbs with the wrong Y/Z are never encoded as P *)
Lemma encoding_differs q P : length q = 40%nat -> is_red (el4 0 q) -> is_red (el4 1 q) -> is_red (el4 3 q) -> fe255 (el4 3 q) mod p25519 <> 0 ->
  0 <= snd P < p25519 -> fe255 (el4 1 q) mod p25519 <> (snd P * fe255 (el4 3 q)) mod p25519 ->
  bytes 32 (point_encoding st k (unzip_2w_4w q)) /\ ~ encodes255 (point_encoding st k (unzip_2w_4w q)) P.
Proof.
  intros L Rx Ry Rz Nz Hy D. destruct (unzip_lanes q L) as (L1 & L2 & E0 & E1 & E2 & E3).
  destruct (encoding_y (unzip_2w_4w q) L1 L2) as [Be (c & Hc & Ec & Ve & _)]; rewrite ?E0, ?E1, ?E2, ?E3; try assumption.
  split; [exact Be|]. intros [_ V]. rewrite E1, E3 in Ec. apply D. rewrite Ec. rewrite <- Ve, V.
  rewrite (low_part p25519 _ _ Hy ltac:(discriminate)). reflexivity.
Qed.
(** and neither are limbs with an X/Z of the wrong parity *)
Lemma encoding_differs_x q P xb : length q = 40%nat -> is_red (el4 0 q) -> is_red (el4 1 q) -> is_red (el4 3 q) -> fe255 (el4 3 q) mod p25519 <> 0 ->
  0 <= snd P < p25519 -> 0 <= xb < p25519 -> fe255 (el4 0 q) mod p25519 = (xb * fe255 (el4 3 q)) mod p25519 -> xb mod 2 <> fst P mod 2 ->
  bytes 32 (point_encoding st k (unzip_2w_4w q)) /\ ~ encodes255 (point_encoding st k (unzip_2w_4w q)) P.
Proof.
  intros L Rx Ry Rz Nz Hy Hb Eb D. destruct (unzip_lanes q L) as (L1 & L2 & E0 & E1 & E2 & E3).
  destruct (encoding_y (unzip_2w_4w q) L1 L2) as [Be (c & Hc & Ec & _ & Vx)]; rewrite ?E0, ?E1, ?E2, ?E3; try assumption.
  split; [exact Be|]. intros [_ V]. apply D. rewrite E0, E3 in Vx. rewrite <- (Vx xb Hb Eb), V.
  exact (top_part p25519 _ _ Hy ltac:(discriminate)).
Qed.
End Enc.

(** Limbs of the neutral point, the scalars 1 and 2 *)
Definition st0 : store := PositiveMap.empty Z.
Definition neutral_key : list Z := [0; 1; 0; 1] ++ repeat 0 36.
Definition s_one : list Z := 1 :: repeat 0 31.
Definition h_two : list Z := 2 :: repeat 0 31.
Definition wrong_Q : list Z := Eval vm_compute in double_loop st0 [table_entry st0 neutral_key] [1] [0; 1] 2 neutral_key.
Lemma wrong_loop : double_loop st0 (precompute_points_4w st0 neutral_key) [1] [0; 1] 2 (neutral_4w st0) = wrong_Q.
Proof. vm_compute. reflexivity. Qed.
Lemma wnaf_one : wnaf_256bits st0 260 s_one 7 = Some [1]. Proof. vm_compute. reflexivity. Qed.
Lemma wnaf_two : wnaf_256bits st0 260 h_two 5 = Some [0; 1]. Proof. vm_compute. reflexivity. Qed.
Lemma wrong_run k : double_point_mult_4w st0 k s_one h_two neutral_key = Some (point_encoding st0 k (unzip_2w_4w wrong_Q)).
Proof. unfold double_point_mult_4w. rewrite wnaf_one, wnaf_two. cbv zeta. cbn [length Nat.max]. rewrite wrong_loop. reflexivity. Qed.
Lemma neutral_key_point : pt_4w neutral_key (0, 1).
Proof.
  split; [reflexivity|]. split; [exact on_zero|].
  split; [apply arr_lit; vm_compute; reflexivity|]. split; [apply arr_lit; vm_compute; reflexivity|]. split; [apply arr_lit; vm_compute; reflexivity|]. split; [apply arr_lit; vm_compute; reflexivity|].
  split; [vm_compute; discriminate|]. split; [vm_compute; reflexivity|]. split; vm_compute; reflexivity.
Qed.
Theorem wrong_output k : exists out, double_point_mult_4w st0 k s_one h_two neutral_key = Some out /\ bytes 32 out /\ ~ encodes255 out B_ed255.
Proof.
  eexists. split; [apply wrong_run|]. apply encoding_differs; [reflexivity|apply arr_lit; vm_compute; reflexivity..|vm_compute; discriminate|vm_compute; split; [discriminate|reflexivity]|].
  intro E. vm_compute in E. discriminate E.
Qed.
