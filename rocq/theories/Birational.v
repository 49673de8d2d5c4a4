(** The ladder of RFC 7748 computes the Montgomery coordinate (1+y)/(1-y) of multiples of a point of the Edwards curve.
    Mathematics only. *)
From Coq Require Import ZArith Znumtheory List Bool Lia Field.
From Verif Require Import EdwardsGroup AbGroup FpType SpecX SpecEd CurveLadder EdPoint CurveInst EdInst.
Open Scope Z_scope.

Section Map.
Variable p : Z.
Hypothesis Pp : prime p.
Hypothesis P2 : 2 < p.
Notation F := (Fp p). Notation I := (inF p P2).
Notation fA := (fp_add p P2). Notation fM := (fp_mul p P2). Notation fS := (fp_sub p P2). Notation fI := (fp_inv p P2).
Let Fth := fp_field p Pp P2.
Add Field Fpb : Fth.
Variables (a d s a24 : Z).
Hypothesis Hs : s * s mod p = a mod p.
Hypothesis snz : I s <> I 0.
Hypothesis dns : forall r, fM r r <> I d.
Hypothesis Hc : fM (I a24) (fS (fM (I s) (I s)) (I d)) = I d.
Lemma ladder_edwards bits k u P : on_curve p a d P -> 0 <= k < 2 ^ Z.of_nat bits -> u mod p <> 0 -> (u * (1 - snd P)) mod p = (1 + snd P) mod p ->
  rfc_ladder p a24 bits k u = ((1 + snd (ed_mul p a d k P)) * inv_mod p (1 - snd (ed_mul p a d k P))) mod p.
Proof.
  intros On Hk Hu E. destruct (cds_ex p P2 a d s Hs P On) as [Q HQ].
  assert (U : CurveLadder.R p P2 (I s) (I d) (I 1) (I u, I 1) Q).
  { unfold CurveLadder.R. cbn [fst snd]. replace (fM (I 1) (I u)) with (I u) by ring.
    apply (inF_eq p P2) in E. rewrite inF_mul, inF_sub, inF_add in E. rewrite <- HQ in E. unfold cds in E. cbn [snd] in E.
    rewrite (inF_toZ p P2) in E. eapply (urep_base _ _ _ _ _ _ _ _ _ Fth); [exact (fp_two p P2)|exact E]. }
  pose proof (ladder_mul p Pp P2 (I s) (I d) dns (I 1) a24 (one_one p Pp P2) (dbl1 p Pp P2 (I s) (I d) a24 snz dns Hc) bits k u Q Hk
    (fun K => Hu (proj1 (inF_0 p P2 u) K)) U) as L.
  assert (M : 0 <= rfc_ladder p a24 bits k u < p).
  { unfold rfc_ladder. destruct (fold_left _ _ _) as [[[[x2 z2] x3] z3] sw]. destruct (cswap sw x2 x3). destruct (cswap sw z2 z3). apply Z.mod_pos_bound. lia. }
  rewrite <- (Z.mod_small _ _ M). apply (inF_eq p P2). rewrite L. unfold uval.
  rewrite <- HQ, <- (cds_mul p Pp P2 a d s Hs dns). unfold cds. cbn [snd]. rewrite inF_mul, (I_inv p P2), inF_add, inF_sub, (inF_toZ p P2). ring.
Qed.
End Map.
Lemma ladder25 k u P : on255 P -> 0 <= k < 2 ^ 255 -> u mod p_ed255 <> 0 -> (u * (1 - snd P)) mod p_ed255 = (1 + snd P) mod p_ed255 ->
  rfc_ladder p_ed255 121665 255 k u = ((1 + snd (mul255 k P)) * inv_mod p_ed255 (1 - snd (mul255 k P))) mod p_ed255.
Proof.
  exact (ladder_edwards p25 p25_prime p25_2 (-1) d25 i25 121665 EdInst.s25 i25_nz d25_ns c25_ok 255 k u P).
Qed.
