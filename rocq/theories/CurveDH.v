(** Diffie-Hellman agreement of the RFC 7748 functions. *)
From Coq Require Import ZArith Znumtheory Zpow_facts List Bool Lia Field.
From Verif Require Import Primality FullMore EdwardsGroup AbGroup FpType SpecX CurveLadder LadderSmall Spec CurveInst.
Import ListNotations.
Open Scope Z_scope.

(** ** Agreement *)
Lemma ladder_umod p (Pp : prime p) (P2 : 2 < p) a24 bits k u v : u mod p = v mod p -> rfc_ladder p a24 bits k u = rfc_ladder p a24 bits k v.
Proof.
  intro E. apply (inF_eq p P2) in E.
  assert (Z0 : toZ p (inF p P2 (rfc_ladder p a24 bits k u)) = toZ p (inF p P2 (rfc_ladder p a24 bits k v))).
  { f_equal. rewrite !ladder_pr, !(pr_fold p Pp P2). cbn [pr]. now rewrite E. }
  now rewrite !I_ladder in Z0.
Qed.
Lemma mod2_of m k : (2 | m) -> 0 < m -> k mod m = 0 -> k mod 2 = 0.
Proof. intros D Hm E. apply Z.mod_divide; [lia|]. apply Z.mod_divide in E; [|lia]. now apply Z.divide_trans with m. Qed.
Theorem X25519_spec_agree a b u : X25519_spec a (X25519_spec b u) = X25519_spec b (X25519_spec a u).
Proof.
  unfold X25519_spec. fold p25. destruct (scalar25519_range a) as [Ra Ma], (scalar25519_range b) as [Rb Mb].
  assert (R : forall k v, (rfc_ladder p25 121665 255 k v) mod 2 ^ 255 = rfc_ladder p25 121665 255 k v).
  { intros k v. apply Z.mod_small. pose proof (rfc_range p25 p25_2 121665 255 k v) as H. unfold p25 in *. lia. }
  rewrite !R.
  assert (Z0 : forall k v, v mod p25 = 0 -> rfc_ladder p25 121665 255 (scalar25519 k) v = 0).
  { intros k v Hv. rewrite (ladder_umod p25 p25_prime p25_2 _ _ _ v 0) by (rewrite Hv; reflexivity).
    exact (X25519_small k 0 (or_introl eq_refl)). }
  apply (ladder_agree p25 p25_prime p25_2 root25 (inF p25 p25_2 i25) (inF p25 p25_2 d25) 121665 i25_nz d25_ns c25_ok); auto.
  - now apply (mod2_of 8); [exists 4| |].
  - now apply (mod2_of 8); [exists 4| |].
Qed.
Theorem X448_spec_agree a b u : X448_spec a (X448_spec b u) = X448_spec b (X448_spec a u).
Proof.
  unfold X448_spec. fold p44. destruct (scalar448_range a) as [Ra Ma], (scalar448_range b) as [Rb Mb].
  assert (Z0 : forall k v, v mod p44 = 0 -> rfc_ladder p44 39081 448 (scalar448 k) v = 0).
  { intros k v Hv. rewrite (ladder_umod p44 p44_prime p44_2 _ _ _ v 0) by (rewrite Hv; reflexivity).
    exact (X448_small k 0 (or_introl eq_refl)). }
  apply (ladder_agree p44 p44_prime p44_2 root44 (inF p44 p44_2 1) (inF p44 p44_2 d44) 39081 one44_nz d44_ns c44_ok); auto.
  - now apply (mod2_of 4); [exists 2| |].
  - now apply (mod2_of 4); [exists 2| |].
Qed.
