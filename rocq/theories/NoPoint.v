(** 32-byte strings that are the encoding of no point of edwards25519. *)
From Coq Require Import ZArith Znumtheory List Bool Lia.
From Verif Require Import Primality FpType CurveInst SpecEd SpecEdVec Bytes.
Import ListNotations.
Open Scope Z_scope.

(** No point has the y-coordinate 2 *)
Definition ns_two : Z := 364994 * 364998.
Definition cert_two : list (Z * Z) := Eval vm_compute in pow_cert p25 ns_two (bits_of half25) 1.
Lemma run_two : pow_chk mp25 ns_two (bits_of half25) cert_two 1 = Some (p25 - 1).
Proof. vm_compute. reflexivity. Qed.
Lemma ns_two_pow : ns_two ^ ((p25 - 1) / 2) mod p25 = p25 - 1.
Proof. rewrite half25_ok. rewrite (chk_pow p25 mp25 ns_two half25 cert_two (p25 - 1) mp25_ok); [reflexivity|discriminate|exact run_two]. Qed.
Lemma to_mult q a b : 0 < q -> a mod q = b mod q -> exists m, a - b = q * m.
Proof.
  intros Hq E. exists (a / q - b / q). rewrite (Z.div_mod a q) at 1 by lia. rewrite (Z.div_mod b q) at 1 by lia. rewrite E. ring.
Qed.
Lemma of_mult q a b m : 0 < q -> a - b = q * m -> a mod q = b mod q.
Proof. intros Hq E. replace a with (b + m * q) by lia. apply Z_mod_plus_full. Qed.
Lemma two_square q d i x : 0 < q -> (121666 * d) mod q = (-121665) mod q -> (i * i) mod q = (-1) mod q ->
  (-1 * x * x + 2 * 2) mod q = (1 + d * x * x * 2 * 2) mod q -> (i * 364994 * x * (i * 364994 * x)) mod q = ns_two mod q.
Proof.
  intros Hq D I E. destruct (to_mult q _ _ Hq D) as [k2 E2], (to_mult q _ _ Hq I) as [k3 E3], (to_mult q _ _ Hq E) as [k1 E1].
  apply (of_mult q _ _ (364994 * 364994 * x * x * k3 - 364994 * (121666 * k1 + 4 * k2 * x * x)) Hq). unfold ns_two.
  transitivity (364994 * 364994 * x * x * (q * k3) - 364994 * (121666 * (q * k1) + 4 * (q * k2) * x * x)); [|ring].
  rewrite <- E1, <- E2, <- E3. ring.
Qed.
Lemma no_two x : ~ on255 (x, 2).
Proof.
  intros (_ & _ & E). cbn [fst snd] in E.
  apply (pow_nonsquare p25 p25_prime p25_2 ns_two ns_two_pow (inF p25 p25_2 (i25 * 364994 * x))). rewrite <- inF_mul. apply inF_eq.
  apply (two_square p25 d25); [reflexivity|vm_compute; reflexivity|vm_compute; reflexivity|].
  exact E.
Qed.
(** The encoding of y = 2 *)
Definition two_key : list Z := 2 :: repeat 0 31.
Lemma two_key_bytes : bytes 32 two_key.
Proof. split; [reflexivity|]. unfold two_key. cbn [repeat]. repeat apply Forall_cons; try (split; [discriminate|reflexivity]); apply Forall_nil. Qed.
Lemma two_key_no_point P : on255 P -> ~ encodes255 two_key P.
Proof.
  intros On [_ V]. destruct P as [x y]. cbn [fst snd] in V. apply (no_two x). replace 2 with y; [exact On|].
  destruct On as (_ & Hy & _). assert (E : le_val two_key = 2) by reflexivity. rewrite E in V. clear E.
  pose proof (Z.mod_pos_bound x 2 ltac:(lia)) as Hb. set (b := x mod 2) in *. clearbody b. set (q := 2 ^ 255) in *.
  assert (2 < q) by reflexivity. clearbody q. destruct Hy as [Hy _]. assert (C : b = 0 \/ b = 1) by lia. destruct C; subst b; lia.
Qed.
