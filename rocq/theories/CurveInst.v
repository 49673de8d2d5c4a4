(** The Edwards forms of curve25519 and curve448 over their prime fields. *)
From Coq Require Import ZArith Znumtheory Zpow_facts List Bool Lia Field.
From Verif Require Import Primality FullMore EdwardsGroup AbGroup FpType SpecX CurveLadder LadderSmall Spec.
Import ListNotations.
Open Scope Z_scope.

(** ** A certified power decides squares *)
Lemma chk_pow N mN b f cert y : (forall q, 0 <= q -> mN q = N * q) -> N <> 0 ->
  pow_chk mN b (bits_of f) cert 1 = Some y -> b ^ Zpos f mod N = y mod N.
Proof.
  intros HN N0 H. destruct (powm_step N mN b 1 b f y cert HN N0 (powm_1 N b N0) H) as [_ E].
  rewrite Z.mul_1_l in E. now symmetry.
Qed.
Section NonSquare.
Variable p : Z.
Hypothesis (Pp : prime p) (P2 : 2 < p).
Let Fth := fp_field p Pp P2.
Add Field Fnsf : Fth.
Lemma nonsquare_by b c d i : b ^ ((p - 1) / 2) mod p = p - 1 ->
  (c * c * d) mod p = (i * i * b) mod p -> i mod p <> 0 -> forall r, fp_mul p P2 r r <> inF p P2 d.
Proof.
  intros Hb Hc Ni r E. apply (pow_nonsquare p Pp P2 b Hb (fp_div p P2 (fp_mul p P2 (inF p P2 c) r) (inF p P2 i))).
  assert (Ni' : inF p P2 i <> inF p P2 0) by (intro X; apply Ni, (inF_0 p P2), X).
  assert (H : fp_mul p P2 (fp_mul p P2 (inF p P2 c) (inF p P2 c)) (inF p P2 d) = fp_mul p P2 (fp_mul p P2 (inF p P2 i) (inF p P2 i)) (inF p P2 b)).
  { rewrite <- !inF_mul. now apply inF_eq. }
  transitivity (fp_div p P2 (fp_mul p P2 (fp_mul p P2 (inF p P2 c) (inF p P2 c)) (fp_mul p P2 r r)) (fp_mul p P2 (inF p P2 i) (inF p P2 i))).
  { field. exact Ni'. }
  rewrite E, H. field. exact Ni'.
Qed.
End NonSquare.

(** ** curve25519: -x^2 + y^2 = 1 + d x^2 y^2, d = -121665/121666 *)
Definition p25 : Z := 2 ^ 255 - 19.
Lemma p25_prime : prime p25. Proof. exact p25519_prime. Qed.
Lemma p25_2 : 2 < p25. Proof. reflexivity. Qed.
Definition i25 : Z := 19681161376707505956807079304988542015446066515923890162744021073123829784752.
Definition d25 : Z := 37095705934669439343138083508754565189542113879843219016388785533085940283555.
Definition mp25 (q : Z) : Z := sh 255 q - 19 * q.
Lemma mp25_ok q : 0 <= q -> mp25 q = p25 * q.
Proof. intro H. unfold mp25, p25. rewrite sh_eq by exact H. ring. Qed.
Definition half25 : positive := Eval vm_compute in Z.to_pos ((p25 - 1) / 2).
Definition ns25 : Z := 121665 * 121666.
Definition cert25 : list (Z * Z) := Eval vm_compute in pow_cert p25 ns25 (bits_of half25) 1.
Lemma run25 : pow_chk mp25 ns25 (bits_of half25) cert25 1 = Some (p25 - 1).
Proof. vm_compute. reflexivity. Qed.
Lemma half25_ok : (p25 - 1) / 2 = Zpos half25. Proof. vm_compute. reflexivity. Qed.
Lemma ns25_pow : ns25 ^ ((p25 - 1) / 2) mod p25 = p25 - 1.
Proof. rewrite half25_ok. rewrite (chk_pow p25 mp25 ns25 half25 cert25 (p25 - 1) mp25_ok); [reflexivity|discriminate|exact run25]. Qed.
Lemma d25_ns : forall r, fp_mul p25 p25_2 r r <> inF p25 p25_2 d25.
Proof. apply (nonsquare_by p25 p25_prime p25_2 ns25 121666 d25 i25 ns25_pow); [vm_compute; reflexivity|vm_compute; discriminate]. Qed.
Lemma i25_nz : inF p25 p25_2 i25 <> inF p25 p25_2 0.
Proof. intro E. apply inF_0 in E. vm_compute in E. discriminate E. Qed.
Lemma i25_sq : i25 * i25 mod p25 = p25 - 1. Proof. vm_compute. reflexivity. Qed.
Lemma root25 : forall x, x ^ ((p25 - 1) / 2) mod p25 = 1 -> exists r, r * r mod p25 = x mod p25.
Proof. apply (root_5mod8 p25 ((p25 - 5) / 8) i25 p25_prime); [vm_compute; discriminate|vm_compute; reflexivity|exact i25_sq]. Qed.
Lemma c25_ok : fp_mul p25 p25_2 (inF p25 p25_2 121665) (fp_sub p25 p25_2 (fp_mul p25 p25_2 (inF p25 p25_2 i25) (inF p25 p25_2 i25)) (inF p25 p25_2 d25)) = inF p25 p25_2 d25.
Proof. rewrite <- inF_mul, <- inF_sub, <- inF_mul. apply inF_eq. vm_compute. reflexivity. Qed.

(** ** curve448: x^2 + y^2 = 1 + d x^2 y^2, d = 39081/39082 *)
Definition p44 : Z := 2 ^ 448 - 2 ^ 224 - 1.
Lemma p44_prime : prime p44. Proof. exact p448_prime. Qed.
Lemma p44_2 : 2 < p44. Proof. reflexivity. Qed.
Definition d44 : Z := 308630280683833896644645325006433530719990747162531170625129979412575139090294692511405454876401854554777775897965691674087375252412223.
Definition mp44 (q : Z) : Z := sh 448 q - sh 224 q - q.
Lemma mp44_ok q : 0 <= q -> mp44 q = p44 * q.
Proof. intro H. unfold mp44, p44. rewrite !sh_eq by exact H. ring. Qed.
Definition half44 : positive := Eval vm_compute in Z.to_pos ((p44 - 1) / 2).
Lemma half44_ok : (p44 - 1) / 2 = Zpos half44. Proof. vm_compute. reflexivity. Qed.
(** The prime is 3 modulo 4, so -1 is not a square. *)
Lemma ns44_pow : (-1) ^ ((p44 - 1) / 2) mod p44 = p44 - 1.
Proof.
  assert (O : Z.Odd ((p44 - 1) / 2)) by (apply Z.odd_spec; vm_compute; reflexivity).
  change (-1) with (- (1)). rewrite (Z.pow_opp_odd 1 _ O), Z.pow_1_l by (apply Z.div_pos; [discriminate|reflexivity]). vm_compute. reflexivity.
Qed.
Definition r44 : Z := 283934990637394436586872693809750771915352138543466705158071906995882568214686086620619067228895197487653499862581446690575414428485832.
Lemma d44_ns : forall r, fp_mul p44 p44_2 r r <> inF p44 p44_2 d44.
Proof. apply (nonsquare_by p44 p44_prime p44_2 (-1) 1 d44 r44 ns44_pow); [vm_compute; reflexivity|vm_compute; discriminate]. Qed.
Lemma one44_nz : inF p44 p44_2 1 <> inF p44 p44_2 0.
Proof. intro E. apply inF_0 in E. vm_compute in E. discriminate E. Qed.
Lemma root44 : forall x, x ^ ((p44 - 1) / 2) mod p44 = 1 -> exists r, r * r mod p44 = x mod p44.
Proof. apply (root_3mod4 p44 ((p44 - 3) / 4)); [vm_compute; discriminate|vm_compute; reflexivity]. Qed.
Lemma c44_ok : fp_mul p44 p44_2 (inF p44 p44_2 39081) (fp_sub p44 p44_2 (fp_mul p44 p44_2 (inF p44 p44_2 1) (inF p44 p44_2 1)) (inF p44 p44_2 d44)) = inF p44 p44_2 d44.
Proof. rewrite <- inF_mul, <- inF_sub, <- inF_mul. apply inF_eq. vm_compute. reflexivity. Qed.
