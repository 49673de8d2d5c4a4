(** point_encoding_ed448: the 57 bytes of RFC 8032, 5.2.2, except where the serialisation loses a carry. *)
From Coq Require Import ZArith List Bool Lia.
From Verif Require Import Uop X86 Sym Engine Bytes Check FullTac Lanes RedTac Simd Simd448 Fp448Full Fp448FullProofs FullMore
  Fp25519Red Fp448Red Fp448RedProofs Fp448RedMore Fp448RedRoot Spec Ladder LadderProofs LadderVec LadderVec448 LadderX448 SpecEd SpecIso SpecSign448 CurveInst EdInst448
  Edwards255 EdVec Edwards448 EdVec448 Edwards448Proofs.
Import ListNotations.
Open Scope Z_scope.
Section E.
Variable st : store.
Lemma ser_tight a : arr_ok tight448 a -> ~ carry_lost (fe448 a mod p44) ->
  bytes 56 (ser448_1w st a) /\ le_val (ser448_1w st a) = fe448 a mod p44.
Proof.
  intros Ht N. assert (Wa : is_wide448 a) by (revert Ht; apply bounds_le_ok; vm_compute; reflexivity).
  split; [apply ser448_1w_wide; exact Wa|]. change p44 with Q in *. apply (ser448_1w_iff st a Wa). pose proof (tight_lost a Ht) as I.
  destruct (Z.ltb_spec (w448 0 a + top448 a) (2 ^ 64)), (Z.ltb_spec (w448 3 a + 2 ^ 32 * top448 a) (2 ^ 64)); intuition lia.
Qed.
Lemma mul448_tight a b : is_mid448 a -> is_mid448 b -> arr_ok tight448 (mul448_1w st a b).
Proof. intros A B. unfold mul448_1w. apply compress448_1w_tight. exact (proj2 (intmul448_1w_ok st a b A B)). Qed.
Lemma affine448 A I c z : is_mid448 A -> is_mid448 I -> fe448 A mod p44 = (c * z) mod p44 ->
  (z * fe448 I) mod p44 = 1 -> 0 <= c < p44 -> ~ carry_lost c ->
  bytes 56 (ser448_1w st (mul448_1w st A I)) /\ le_val (ser448_1w st (mul448_1w st A I)) = c.
Proof.
  intros MA MI Ea Hi Hc N. destruct (mul448_1w_ok st A I MA MI) as [Em _]. apply cqm in Em.
  assert (E : fe448 (mul448_1w st A I) mod p44 = c).
  { rewrite Em, <- Zmult_mod_idemp_l, Ea, Zmult_mod_idemp_l, <- Z.mul_assoc, <- Zmult_mod_idemp_r, Hi, Z.mul_1_r. apply Z.mod_small. exact Hc. }
  destruct (ser_tight _ (mul448_tight A I MA MI)) as [B V]; [rewrite E; exact N|]. rewrite E in V. split; [exact B|]. exact V.
Qed.
Lemma assemble448 ex ey px py : bytes 56 ex -> bytes 56 ey -> le_val ex = px -> le_val ey = py ->
  let e := ey ++ [(Z.land (nth 0 ex 0) 1 * 2 ^ 7) mod 256] in bytes 57 e /\ le_val e = py + 2 ^ 455 * (px mod 2).
Proof.
  intros [Lx Fx] [Ly Fy] Sx Sy.
  assert (X0 : Z.land (nth 0 ex 0) 1 = px mod 2).
  { destruct ex as [|b ex]; [discriminate|]. cbn [nth]. rewrite <- Sx. cbn [le_val]. rewrite (Z.land_ones b 1 ltac:(lia) : Z.land b 1 = b mod 2).
    replace (256 * le_val ex) with (128 * le_val ex * 2) by ring. rewrite Z_mod_plus_full. reflexivity. }
  cbv zeta. rewrite X0. assert (Pm : px mod 2 = 0 \/ px mod 2 = 1) by (pose proof (Z.mod_pos_bound px 2); lia).
  split.
  - split; [rewrite app_length, Ly; reflexivity|]. apply Forall_app. split; [exact Fy|]. apply Forall_cons; [|apply Forall_nil].
    unfold byte. destruct Pm as [-> | ->]; vm_compute; intuition congruence.
  - rewrite le_val_app, Ly, Sy. cbn [le_val]. change (256 ^ Z.of_nat 56) with (2 ^ 448). destruct Pm as [-> | ->].
    + reflexivity.
    + change ((1 * 2 ^ 7) mod 256) with 128. change (2 ^ 455) with (128 * 2 ^ 448). ring.
Qed.
Theorem point_encoding448_ok p P : proj448 p P -> ~ carry_lost (fst P) -> ~ carry_lost (snd P) -> encodes448 (point_encoding448 st p) P.
Proof.
  intros (L1 & L2 & On & Rx & Ry & Rz & Nz & Ex & Ey) Nx Ny. unfold point_encoding448. rewrite (deinter448_2w_ok st _ L1), (deinter448_2w_ok st _ L2).
  destruct P as [px py]. destruct On as (Hpx & Hpy & _). cbn [fst snd] in Ex, Ey, Nx, Ny |- *.
  apply red_mid448 in Rx, Ry, Rz. destruct (inv448_1w_inverse st _ Rz) as (Mi & Hi & _). change Q with p44 in Hi. specialize (Hi Nz).
  destruct (affine448 _ _ _ _ Rx Mi Ex Hi Hpx Nx) as (Bx & Sx). destruct (affine448 _ _ _ _ Ry Mi Ey Hi Hpy Ny) as (By & Sy).
  exact (assemble448 _ _ _ _ Bx By Sx Sy).
Qed.
End E.
