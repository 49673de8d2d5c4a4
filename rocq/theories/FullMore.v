(** Inversion and square roots with the full-radix arithmetic. *)
From Coq Require Import ZArith Znumtheory List Bool Lia.
From Verif Require Import Uop Engine Alias Bytes Primality Primes Fp25519Full Fp448Full FullTac Fp25519FullProofs Fp448FullProofs InPlace.
Import ListNotations.
Open Scope Z_scope.

Lemma pow_mod_0 p e x : 0 < e -> p <> 0 -> x mod p = 0 -> x ^ e mod p = 0.
Proof.
  intros He Hp H. apply Z.mod_divide in H; auto. apply Z.mod_divide; auto.
  replace e with (Z.succ (e - 1)) by lia. rewrite Z.pow_succ_r by lia. now apply Z.divide_mul_l.
Qed.
(** The power p-2 is an inverse. *)
Lemma fermat_inv p x : Znumtheory.prime p -> 2 < p -> x mod p <> 0 -> (x * x ^ (p - 2)) mod p = 1.
Proof.
  intros Pp P2 Hx. rewrite <- Z.pow_succ_r by lia. replace (Z.succ (p - 2)) with (p - 1) by lia.
  apply fermat; auto. intro D. apply Hx. apply Z.mod_divide; auto. lia.
Qed.
Lemma p25519_prime : Znumtheory.prime p25519. Proof. exact prime_p25519. Qed.
Lemma p448_prime : Znumtheory.prime p448. Proof. exact prime_p448. Qed.
Lemma sqr_one p x : Znumtheory.prime p -> (x * x) mod p = 1 -> x mod p = 1 \/ x mod p = p - 1.
Proof.
  intros Pp H. pose proof (prime_ge_2 p Pp).
  assert (D : (p | (x - 1) * (x + 1))).
  { apply Z.mod_divide; [lia|]. replace ((x - 1) * (x + 1)) with (x * x - 1) by ring.
    rewrite Zminus_mod, H, Z.mod_1_l, Z.sub_diag by lia. apply Z.mod_0_l. lia. }
  apply prime_mult in D as [[k D]|[k D]]; auto.
  - left. replace x with (1 + k * p) by lia. rewrite Z.mod_add by lia. apply Z.mod_1_l. lia.
  - right. replace x with ((p - 1) + (k - 1) * p) by lia. rewrite Z.mod_add by lia. apply Z.mod_small. lia.
Qed.

Lemma inv_inverse st k a : words 4 a -> words 4 (inv st k a) /\
  (val a mod p25519 <> 0 -> (val a * val (inv st k a)) mod p25519 = 1) /\
  (val a mod p25519 = 0 -> val (inv st k a) mod p25519 = 0).
Proof.
  intro Ha. destruct (inv_ok st k a Ha) as [Hw E]. split; auto. split; intro H.
  - rewrite Z.mul_mod, E, <- Z.mul_mod by discriminate. apply fermat_inv; auto; [exact p25519_prime|reflexivity].
  - rewrite E. apply pow_mod_0; auto; [reflexivity|discriminate].
Qed.
Lemma inv448_inverse st k a : words 7 a -> words 7 (inv448 st k a) /\
  (val a mod p448 <> 0 -> (val a * val (inv448 st k a)) mod p448 = 1) /\
  (val a mod p448 = 0 -> val (inv448 st k a) mod p448 = 0).
Proof.
  intro Ha. destruct (inv448_ok st k a Ha) as [Hw E]. split; auto. split; intro H.
  - rewrite Z.mul_mod, E, <- Z.mul_mod by discriminate. apply fermat_inv; auto; [exact p448_prime|reflexivity].
  - rewrite E. apply pow_mod_0; auto; [reflexivity|discriminate].
Qed.

(** ** Square roots modulo 2^255-19 *)
Definition sqrtm1 : Z := 19681161376707505956807079304988542015446066515923890162744021073123829784752.
Lemma sqrtm1_ok : (sqrtm1 * sqrtm1) mod p25519 = p25519 - 1.
Proof. vm_compute. reflexivity. Qed.

Definition eqp (p x y : Z) : Prop := x mod p = y mod p.
Lemma eqp_mul p x y x' y' : p <> 0 -> eqp p x x' -> eqp p y y' -> eqp p (x * y) (x' * y').
Proof. unfold eqp. intros Hp E1 E2. now rewrite Z.mul_mod, E1, E2, <- Z.mul_mod. Qed.

(** beta = u v^3 (u v^7)^((p-5)/8) satisfies v beta^2 = u or -u when u/v is a square. *)
Lemma eqp_pow p x y e : p <> 0 -> 0 <= e -> eqp p x y -> eqp p (x ^ e) (y ^ e).
Proof.
  intros Hp He H. revert e He. apply natlike_ind; [reflexivity|].
  intros e He IH. rewrite !Z.pow_succ_r by auto. now apply eqp_mul.
Qed.
Lemma beta_square p e u v s : Znumtheory.prime p -> 0 <= e -> p = 8 * e + 5 ->
  v mod p <> 0 -> eqp p (v * (s * s)) u ->
  let x := (u * v ^ 7) ^ e * (u * v ^ 3) in
  eqp p (v * (x * x)) u \/ eqp p (v * (x * x)) (- u).
Proof.
  intros Pp He Pe Hv Hs x. assert (Hp : p <> 0) by lia.
  set (w := s * v ^ 4).
  assert (W : eqp p (u * v ^ 7) (w * w)).
  { unfold w. replace (s * v ^ 4 * (s * v ^ 4)) with (v * (s * s) * v ^ 7) by ring.
    apply eqp_mul; [auto|symmetry; exact Hs|reflexivity]. }
  assert (P2 : p - 1 < p) by lia. assert (P0 : 0 <= p - 1) by lia.
  assert (E : v * (x * x) = u * (u * v ^ 7) ^ (e + e + 1)).
  { unfold x. rewrite !Z.pow_add_r by lia. rewrite Z.pow_1_r. ring. }
  assert (P : eqp p ((u * v ^ 7) ^ (e + e + 1)) (w ^ (4 * e + 2))).
  { replace (4 * e + 2) with (2 * (e + e + 1)) by ring.
    rewrite (Z.pow_mul_r w) by lia. rewrite Z.pow_2_r. apply eqp_pow; auto. lia. }
  destruct (Z.eq_dec (w mod p) 0) as [W0|W0].
  - left. rewrite E.
    assert (U0 : u mod p = 0).
    { assert (D : (p | s * v ^ 4)) by (apply Z.mod_divide; auto).
      assert (Dv : ~ (p | v)) by (intro D'; apply Hv, Z.mod_divide; auto).
      assert (Ds : (p | s)).
      { apply prime_mult in D as [D|D]; auto. exfalso.
        replace (v ^ 4) with (v * (v * (v * v))) in D by ring.
        repeat (apply prime_mult in D as [D|D]; auto). }
      rewrite <- Hs. apply Z.mod_divide; [auto|]. apply Z.divide_mul_r, Z.divide_mul_l, Ds. }
    unfold eqp. rewrite Z.mul_mod, U0 by auto. rewrite Z.mul_0_l. apply Z.mod_0_l; auto.
  - assert (S1 : (w ^ (4 * e + 2) * w ^ (4 * e + 2)) mod p = 1).
    { clear - Pp He Pe W0 Hp. clearbody w. rewrite <- Z.pow_add_r by lia. replace (4 * e + 2 + (4 * e + 2)) with (p - 1) by lia.
      apply fermat; auto. intro D. apply W0, Z.mod_divide; auto. }
    rewrite E. destruct (sqr_one p _ Pp S1) as [S|S]; [left|right].
    + unfold eqp in *. rewrite Z.mul_mod, P, S, Z.mul_1_r, Z.mod_mod by auto. reflexivity.
    + replace (- u) with (u * (-1)) by ring. apply eqp_mul; [auto|reflexivity|].
      unfold eqp in *. rewrite P, S. replace (-1) with (p - 1 + (-1) * p) by ring.
      rewrite Z.mod_add by auto. symmetry. apply Z.mod_small. split; assumption.
Qed.

Lemma rep4_val a : words 4 a -> rep4 a (val a).
Proof. intro. split; auto. Qed.
Lemma invsqrt_beta st k u v : words 4 u -> words 4 v ->
  let uv := mul st k u v in
  let v2 := sqr st k v in
  let uv3 := mul st k uv v2 in
  let uv7 := mul st k uv3 (sqr st k v2) in
  rep4 (mul st k (pow_p58_chain (mul st k) (sqr st k) uv7) uv3)
    ((val u * val v ^ 7) ^ (2 ^ 252 - 3) * (val u * val v ^ 3)).
Proof.
  intros Hu Hv. cbv zeta. apply rep4_val in Hu, Hv.
  assert (H3 : rep4 (mul st k (mul st k u v) (sqr st k v)) (val u * val v ^ 3)).
  { replace (val u * val v ^ 3) with (val u * val v * (val v * val v)) by ring.
    apply rep4_mul; [now apply rep4_mul|now apply rep4_sqr]. }
  apply rep4_mul; auto.
  apply (pow_p58_ok rep4 (mul st k) (sqr st k)); [intros; now apply rep4_mul|intros; now apply rep4_sqr|].
  replace (val u * val v ^ 7) with (val u * val v ^ 3 * (val v * val v * (val v * val v))) by ring.
  apply rep4_mul; auto. apply rep4_sqr. now apply rep4_sqr.
Qed.
Lemma sqrt_m1_rep : rep4 sqrt_minus_one sqrtm1.
Proof. split; [|reflexivity]. split; [reflexivity|]. repeat constructor; unfold word, W; lia. Qed.

(** invsqrt (distinct arrays): a root of u/v whenever there is one. *)
Theorem invsqrt_root st k u v s : words 4 u -> words 4 v -> val v mod p25519 <> 0 ->
  eqp p25519 (val v * (s * s)) (val u) ->
  let x := fst (invsqrt st k u v) in
  words 4 x /\ eqp p25519 (val v * (val x * val x)) (val u).
Proof.
  intros Hu Hv Nv Hs. unfold invsqrt. cbv zeta.
  pose proof (invsqrt_beta st k u v Hu Hv) as B. cbv zeta in B. cbn [fst].
  set (x := mul st k (pow_p58_chain _ _ _) _) in *. clearbody x.
  pose proof (beta_square p25519 (2 ^ 252 - 3) (val u) (val v) s p25519_prime ltac:(discriminate) eq_refl Nv Hs) as Sq. cbv zeta in Sq.
  set (b := (val u * val v ^ 7) ^ (2 ^ 252 - 3) * (val u * val v ^ 3)) in *. clearbody b.
  destruct (neg_ok st u Hu) as [Hn En].
  assert (Rv : rep4 (mul st k (sqr st k x) v) (b * b * val v)) by (apply rep4_mul; [now apply rep4_sqr|now apply rep4_val]).
  destruct Rv as [Wv Ev].
  destruct (cmp_ok st _ _ Wv Hn) as [Cm _].
  apply mod_cong in En; [|discriminate].
  rewrite Ev, En in Cm.
  destruct (Z.eqb_spec (cmp st (mul st k (sqr st k x) v) (neg st u)) 0) as [E|E].
  - pose proof (rep4_mul st k _ _ _ _ B sqrt_m1_rep) as [Wr Er]. split; auto.
    apply Cm in E. unfold eqp in *.
    assert (Q : (val (mul st k x sqrt_minus_one) * val (mul st k x sqrt_minus_one)) mod p25519 =
                (b * b * (p25519 - 1)) mod p25519).
    { rewrite Z.mul_mod, Er, <- Z.mul_mod by discriminate.
      replace (b * sqrtm1 * (b * sqrtm1)) with (b * b * (sqrtm1 * sqrtm1)) by ring.
      rewrite Z.mul_mod, sqrtm1_ok by discriminate. 
      rewrite <- (Z.mod_small (p25519 - 1) p25519) at 1 by (split; reflexivity || discriminate).
      rewrite <- Z.mul_mod by discriminate. reflexivity. }
    rewrite Z.mul_mod, Q, <- Z.mul_mod by discriminate.
    replace (val v * (b * b * (p25519 - 1))) with ((- (b * b * val v)) + (val v * b * b) * p25519) by ring.
    rewrite Z.mod_add by discriminate.
    replace (- (b * b * val v)) with (0 - b * b * val v) by ring. rewrite Zminus_mod, E, <- Zminus_mod.
    f_equal. ring.
  - destruct B as [Wx Ex]. split; auto.
    destruct Sq as [Sq|Sq].
    + unfold eqp in Sq |- *. rewrite <- Sq. apply eqp_mul; [discriminate|reflexivity|].
      apply eqp_mul; [discriminate|exact Ex|exact Ex].
    + exfalso. apply E, Cm. rewrite <- Sq. f_equal. ring.
Qed.

Lemma opp_mod_idemp p x : (- x) mod p = (- (x mod p)) mod p.
Proof. rewrite <- (Z.sub_0_l x), <- (Z.sub_0_l (x mod p)). now rewrite Zminus_mod_idemp_r. Qed.

(** The API function srt passes the output array as numerator: when
    v beta^2 = -u it returns a root of -u/v. *)
Lemma srt_neg st k c a b : words 4 c -> words 4 a ->
  b = (val c * val a ^ 7) ^ (2 ^ 252 - 3) * (val c * val a ^ 3) ->
  ~ eqp p25519 (val a * (b * b)) (- b) ->
  words 4 (srt st k c a) /\ eqp p25519 (val (srt st k c a)) (- b).
Proof.
  intros Hc Ha Eb N. unfold srt. cbv zeta.
  pose proof (invsqrt_beta st k c a Hc Ha) as B. cbv zeta in B. rewrite <- Eb in B.
  set (x := mul st k (pow_p58_chain _ _ _) _) in *. clearbody x. clear Eb.
  pose proof B as [Wx Ex]. destruct (neg_ok st x Wx) as [Hn En]. apply mod_cong in En; [|discriminate].
  assert (Rv : rep4 (mul st k (sqr st k x) a) (b * b * val a)) by (apply rep4_mul; [now apply rep4_sqr|now apply rep4_val]).
  destruct Rv as [Wv Ev].
  destruct (cmp_ok st _ _ Wv Hn) as [Cm _].
  assert (En' : eqp p25519 (val (neg st x)) (- b)).
  { unfold eqp. rewrite En. replace (- val x) with (val x * -1) by ring. replace (- b) with (b * -1) by ring.
    apply eqp_mul; [discriminate|exact Ex|reflexivity]. }
  rewrite Ev, En' in Cm.
  destruct (modp_ok st _ Hn) as [Wm Em].
  destruct (Z.eqb_spec (cmp st (mul st k (sqr st k x) a) (neg st x)) 0) as [E|E].
  - exfalso. apply N. unfold eqp. rewrite (Z.mul_comm (val a)). now apply Cm.
  - split; auto. unfold eqp. rewrite Em, Z.mod_mod by discriminate. exact En'.
Qed.
(** 2 is not a square modulo p = 8 e + 5. *)
Lemma two_nonresidue p e i : Znumtheory.prime p -> 0 <= e -> p = 8 * e + 5 ->
  eqp p (i * i) (-1) -> eqp p (2 ^ (4 * e + 2)) (-1).
Proof.
  intros Pp He Pe Hi. assert (Hp : p <> 0) by lia. assert (P1 : p - 1 = 2 * (4 * e + 2)) by lia.
  assert (Nn : 0 <= 4 * e + 2) by lia.
  assert (E2 : 0 <= 2 * e + 1) by lia. assert (E4 : 4 * e + 2 = 2 * (2 * e + 1)) by lia.
  assert (P5 : 5 <= p) by lia.
  assert (I : eqp p (i ^ (4 * e + 2)) (-1)).
  { rewrite E4, Z.pow_mul_r, Z.pow_2_r by (auto; discriminate).
    replace (-1) with ((-1) ^ (2 * e + 1)).
    - now apply eqp_pow.
    - rewrite Z.pow_add_r, Z.pow_mul_r by lia. change ((-1) ^ 2) with 1. rewrite Z.pow_1_l by auto. reflexivity. }
  assert (Q : eqp p (2 * i) ((1 + i) ^ 2)).
  { unfold eqp. replace ((1 + i) ^ 2) with (2 * i + (i * i + 1)) by ring.
    rewrite <- (Zplus_mod_idemp_r (i * i + 1)).
    replace ((i * i + 1) mod p) with 0; [f_equal; ring|].
    rewrite <- Zplus_mod_idemp_l, Hi, Zplus_mod_idemp_l. symmetry. apply Z.mod_0_l; auto. }
  assert (N1 : ~ (p | 1 + i)).
  { intro D. assert (D2 : (p | 2 * i)).
    { apply Z.mod_divide; auto. rewrite Q. apply Z.mod_divide; auto.
      replace ((1 + i) ^ 2) with ((1 + i) * (1 + i)) by ring. now apply Z.divide_mul_l. }
    assert (L2 : ~ (p | 2)) by (intro L; apply Z.divide_pos_le in L; lia).
    apply prime_mult in D2 as [D2|D2]; auto.
    assert (D1 : (p | 1)).
    { replace 1 with (1 + i - i) by ring. now apply Z.divide_sub_r. }
    apply Z.divide_pos_le in D1; lia. }
  apply (eqp_pow p _ _ (4 * e + 2) Hp Nn) in Q.
  rewrite Z.pow_mul_l, <- Z.pow_mul_r, <- P1 in Q by (auto; discriminate).
  unfold eqp in Q. rewrite (fermat p (1 + i) Pp N1) in Q.
  set (t := 2 ^ (4 * e + 2)) in *. clearbody t.
  unfold eqp. replace t with (- (t * -1)) by ring. rewrite opp_mod_idemp.
  assert (Q' : (t * -1) mod p = 1).
  { rewrite <- Q. apply eqp_mul; [auto|reflexivity|symmetry; exact I]. }
  rewrite Q'. reflexivity.
Qed.
Lemma beta_4 p e b : Znumtheory.prime p -> 0 <= e -> p = 8 * e + 5 -> eqp p (2 ^ (4 * e + 2)) (-1) ->
  b = (1 * 4 ^ 7) ^ e * (1 * 4 ^ 3) -> eqp p (4 * (b * b)) (-1).
Proof.
  intros Pp He Pe T Eb. assert (Hp : p <> 0) by lia.
  assert (E : 4 * (b * b) = (2 ^ (4 * e + 2)) ^ 7).
  { rewrite <- Z.pow_mul_r by lia. replace ((4 * e + 2) * 7) with (14 * (e + e + 1)) by ring.
    rewrite Z.pow_mul_r, !Z.pow_add_r, Z.pow_1_r by lia. subst b.
    change (1 * 4 ^ 7) with (2 ^ 14). change (1 * 4 ^ 3) with 64.
    set (y := (2 ^ 14) ^ e). clearbody y. change (2 ^ 14) with 16384. ring. }
  rewrite E. change (-1) with ((-1) ^ 7). apply eqp_pow; auto. discriminate.
Qed.
Theorem srt_counterexample st k : exists c a s, words 4 c /\ words 4 a /\ val c = 1 /\ val a = 4 /\
  eqp p25519 (val a * (s * s)) (val c) /\
  let x := srt st k c a in
  ~ eqp p25519 (val a * (val x * val x)) (val c) /\ ~ eqp p25519 (val x * val x) (val a).
Proof.
  exists [1; 0; 0; 0], [4; 0; 0; 0],
    28948022309329048855892746252171976963317496166410141009864396001978282409975.
  assert (W1 : words 4 [1; 0; 0; 0]) by (split; [reflexivity|repeat constructor; unfold word, W; lia]).
  assert (W4 : words 4 [4; 0; 0; 0]) by (split; [reflexivity|repeat constructor; unfold word, W; lia]).
  split; [exact W1|]. split; [exact W4|].
  split; [reflexivity|]. split; [reflexivity|]. split; [vm_compute; reflexivity|].
  pose proof (fun b => srt_neg st k [1; 0; 0; 0] [4; 0; 0; 0] b W1 W4) as S.
  change (val [1; 0; 0; 0]) with 1 in *. change (val [4; 0; 0; 0]) with 4 in *.
  pose proof (fun b => beta_4 p25519 (2 ^ 252 - 3) b p25519_prime ltac:(discriminate) eq_refl
    (two_nonresidue p25519 (2 ^ 252 - 3) sqrtm1 p25519_prime ltac:(discriminate) eq_refl ltac:(exact sqrtm1_ok))) as B.
  destruct (ex_intro (fun b => b = (1 * 4 ^ 7) ^ (2 ^ 252 - 3) * (1 * 4 ^ 3)) _ eq_refl) as [b Eb].
  specialize (S b Eb). specialize (B b Eb). clear Eb.
  assert (B16 : eqp p25519 (16 * (b * b)) (-4)).
  { replace (16 * (b * b)) with (4 * (4 * (b * b))) by ring. change (-4) with (4 * -1). 
    apply eqp_mul; [discriminate|reflexivity|exact B]. }
  destruct S as [Wx Ex].
  { intro H. unfold eqp in H, B. rewrite B in H.
    assert (H1 : eqp p25519 b 1).
    { unfold eqp. rewrite <- (Z.opp_involutive b), opp_mod_idemp, <- H. reflexivity. }
    assert (F : eqp p25519 (4 * (b * b)) (4 * (1 * 1))).
    { apply eqp_mul; [discriminate|reflexivity|]. apply eqp_mul; [discriminate|exact H1|exact H1]. }
    unfold eqp in F. rewrite B in F. vm_compute in F. discriminate F. }
  cbv zeta. set (x := val (srt _ _ _ _)) in *. clearbody x.
  assert (X2 : eqp p25519 (x * x) (b * b)).
  { replace (b * b) with (- b * - b) by ring. apply eqp_mul; [discriminate|exact Ex|exact Ex]. }
  split; intro H.
  - assert (F : eqp p25519 (4 * (x * x)) (4 * (b * b))) by (apply eqp_mul; [discriminate|reflexivity|exact X2]).
    unfold eqp in F, B, H. rewrite F, B in H. vm_compute in H. discriminate H.
  - assert (F : eqp p25519 (4 * (b * b)) (4 * 4)).
    { apply eqp_mul; [discriminate|reflexivity|]. unfold eqp in *. now rewrite <- X2. }
    unfold eqp in F, B. rewrite B in F. vm_compute in F. discriminate F.
Qed.
