(** Reduced-radix GF(2^255-19): sign, inversion and square roots. *)
From Coq Require Import ZArith Znumtheory List Bool Lia.
From Verif Require Import Uop Poly Sym Engine Check Bytes FullTac Simd Simd255 Lanes RedTac Moves
  X86 Asm25519 Primality Primes Fp25519Full Fp25519Red Fp25519FullProofs Fp25519RedProofs FullMore InPlace Fp25519RedMore.
Import ListNotations.
Open Scope Z_scope.
Local Opaque call ser_1w unser_1w.

Lemma eqp_cg x y : eqp P x y <-> cg x y.
Proof.
  unfold eqp, cg. split; intro H.
  - rewrite Zminus_mod, H, Z.sub_diag. reflexivity.
  - apply mod_cong in H; [exact H|discriminate].
Qed.

(** ** Any representation with a multiplication and a squaring *)
Section Gen.
  Context {E : Type} (rep : E -> Z -> Prop) (mulE : E -> E -> E) (sqrE : E -> E).
  Hypothesis Hmul : forall a b x y, rep a x -> rep b y -> rep (mulE a b) (x * y).
  Hypothesis Hsqr : forall a x, rep a x -> rep (sqrE a) (x * x).
  Lemma beta_rep u v x y : rep u x -> rep v y ->
    let uv := mulE u v in
    let v2 := sqrE v in
    let uv3 := mulE uv v2 in
    let uv7 := mulE uv3 (sqrE v2) in
    rep (mulE (pow_p58_chain mulE sqrE uv7) uv3) ((x * y ^ 7) ^ (2 ^ 252 - 3) * (x * y ^ 3)).
  Proof.
    intros Hu Hv. cbv zeta.
    assert (H3 : rep (mulE (mulE u v) (sqrE v)) (x * y ^ 3)).
    { replace (x * y ^ 3) with (x * y * (y * y)) by ring.
      apply Hmul; [exact (Hmul _ _ _ _ Hu Hv)|exact (Hsqr _ _ Hv)]. }
    apply Hmul; [|exact H3].
    apply (pow_p58_ok rep mulE sqrE); [exact Hmul|exact Hsqr|].
    replace (x * y ^ 7) with (x * y ^ 3 * (y * y * (y * y))) by ring.
    apply Hmul; [exact H3|]. exact (Hsqr _ _ (Hsqr _ _ Hv)).
  Qed.
End Gen.

(** A 1-way element of value x modulo p. *)
Definition rep1 (a : list Z) (x : Z) : Prop := is_red a /\ cg (fe255 a) x.
Definition rep2 (h : bool) (a : list Z) (x : Z) : Prop := length a = 20%nat /\ rep1 (el2 h a) x.
Definition rep4w (j : nat) (a : list Z) (x : Z) : Prop := length a = 40%nat /\ rep1 (el4 j a) x.
Lemma rep1_mul st a b x y : rep1 a x -> rep1 b y -> rep1 (mul_1w st a b) (x * y).
Proof.
  intros [Ra Ea] [Rb Eb]. destruct (mul_1w_ok st a b (red_wide _ Ra) (red_wide _ Rb)) as [E R].
  split; [exact R|]. exact (cg_trans _ _ _ E (cg_mul _ _ _ _ Ea Eb)).
Qed.
Lemma rep1_sqr st a x : rep1 a x -> rep1 (sqr_1w st a) (x * x).
Proof.
  intros [Ra Ea]. destruct (sqr_1w_ok st a (red_wide _ Ra)) as [E R].
  split; [exact R|]. exact (cg_trans _ _ _ E (cg_mul _ _ _ _ Ea Ea)).
Qed.
Lemma rep4w_mul st j a b x y : (j < 4)%nat -> rep4w j a x -> rep4w j b y -> rep4w j (mul_4w st a b) (x * y).
Proof.
  intros Hj [La [Ra Ea]] [Lb [Rb Eb]].
  destruct (mul_4w_ok st j Hj a b La Lb (red_wide _ Ra) (red_wide _ Rb)) as [E R].
  split; [apply call_length|]. split; [exact R|]. exact (cg_trans _ _ _ E (cg_mul _ _ _ _ Ea Eb)).
Qed.
Lemma rep4w_sqr st j a x : (j < 4)%nat -> rep4w j a x -> rep4w j (sqr_4w st a) (x * x).
Proof.
  intros Hj [La [Ra Ea]]. destruct (sqr_4w_ok st j Hj a La (red_wide _ Ra)) as [E R].
  split; [apply call_length|]. split; [exact R|]. exact (cg_trans _ _ _ E (cg_mul _ _ _ _ Ea Ea)).
Qed.

(** ** sgn *)
Lemma sgn_1w_ok st a : is_wide a -> fe255 a < 2 ^ 256 -> sgn_1w st a = (fe255 a mod P) mod 2.
Proof.
  intros H L. destruct (ser_1w_256 st a H L) as [[B F] V]. unfold sgn_1w. rewrite <- V.
  destruct (ser_1w st a) as [|b bs]; [discriminate B|]. cbn [hd le_val].
  replace (b + 256 * le_val bs) with (b + 128 * le_val bs * 2) by ring.
  rewrite Z.mod_add by discriminate. change 1 with (Z.ones 1). now rewrite Z.land_ones.
Qed.

(** ** inv *)
Lemma inv_1w_ok st a : is_red a -> rep1 (inv_1w st a) (fe255 a ^ (2 ^ 255 - 21)).
Proof.
  intro H. apply (inv_chain_ok rep1 (mul_1w st) (sqr_1w st) (rep1_mul st) (rep1_sqr st)).
  split; [exact H|apply cg_refl].
Qed.
Lemma inv_1w_inverse st a : is_red a -> is_red (inv_1w st a) /\
  (fe255 a mod P <> 0 -> (fe255 a * fe255 (inv_1w st a)) mod P = 1) /\
  (fe255 a mod P = 0 -> fe255 (inv_1w st a) mod P = 0).
Proof.
  intro H. destruct (inv_1w_ok st a H) as [R E]. apply eqp_cg in E.
  split; [exact R|]. split; intro N.
  - unfold eqp in E. rewrite Z.mul_mod, E, <- Z.mul_mod by discriminate.
    change (2 ^ 255 - 21) with (P - 2). apply fermat_inv; [exact p25519_prime|reflexivity|exact N].
  - unfold eqp in E. rewrite E. apply pow_mod_0; [reflexivity|discriminate|exact N].
Qed.

(** ** Square roots *)
Lemma sqrtm1_1w_rep : rep1 sqrt_minus_one_1w sqrtm1.
Proof.
  split; [|vm_compute; reflexivity].
  apply arr_lit. reflexivity.
Qed.
Lemma odd_neg v : v mod P <> 0 -> Z.odd (v mod P) <> Z.odd ((- v) mod P).
Proof.
  intros N. rewrite Z.mod_opp_l_nz by (discriminate || exact N).
  rewrite Z.odd_sub. change (Z.odd P) with true. destruct (Z.odd (v mod P)); discriminate.
Qed.
Theorem invsqrt_1w_root st u v s : is_red u -> is_red v -> fe255 v mod P <> 0 ->
  eqp P (fe255 v * (s * s)) (fe255 u) ->
  let x := fst (invsqrt_1w st u v) in
  is_red x /\ eqp P (fe255 v * (fe255 x * fe255 x)) (fe255 u).
Proof.
  intros Hu Hv Nv Hs. unfold invsqrt_1w. cbv zeta.
  pose proof (beta_rep rep1 (mul_1w st) (sqr_1w st) (rep1_mul st) (rep1_sqr st) u v _ _
     (conj Hu (cg_refl _)) (conj Hv (cg_refl _))) as B. cbv zeta in B. cbn [fst].
  set (x := mul_1w st (pow_p58_chain _ _ _) _) in *. clearbody x.
  pose proof (beta_square P (2 ^ 252 - 3) (fe255 u) (fe255 v) s p25519_prime ltac:(discriminate) eq_refl Nv Hs) as Sq. cbv zeta in Sq.
  set (b := (fe255 u * fe255 v ^ 7) ^ (2 ^ 252 - 3) * (fe255 u * fe255 v ^ 3)) in *. clearbody b.
  destruct (neg_1w_exact st u Hu) as [En Hn].
  pose proof (rep1_mul st _ _ _ _ (rep1_sqr st _ _ B) (conj Hv (cg_refl (fe255 v)))) as [Wv Ev].
  set (vx2 := mul_1w st (sqr_1w st x) v) in *. clearbody vx2. set (nu := neg_1w st u) in *. clearbody nu.
  apply eqp_cg in Ev.
  assert (En' : eqp P (fe255 nu) (- fe255 u)).
  { unfold eqp. rewrite En. replace (2 * P - fe255 u) with (- fe255 u + 2 * P) by ring. now rewrite Z.mod_add by discriminate. }
  assert (Ln : fe255 nu < 2 ^ 256).
  { rewrite En. pose proof (wsum_max wt255 red255 (2 ^ 256) ltac:(vm_compute; reflexivity) u Hu) as M.
    change (2 ^ 256) with (2 * P + 38) in M |- *. lia. }
  pose proof (red_256 _ Wv) as Lv.
  pose proof (cmp_1w_eq st vx2 nu (red_wide _ Wv) Hn Lv Ln) as C0.
  pose proof (cmp_1w_parity st vx2 nu (red_wide _ Wv) Hn Lv Ln) as C1.
  unfold eqp in Ev, En'. rewrite Ev, En' in C0, C1.
  assert (Comm : b * b * fe255 v = fe255 v * (b * b)) by ring. rewrite Comm in *.
  assert (Neg : eqp P (fe255 v * (b * b)) (- fe255 u) ->
     is_red (mul_1w st x sqrt_minus_one_1w) /\
     eqp P (fe255 v * (fe255 (mul_1w st x sqrt_minus_one_1w) * fe255 (mul_1w st x sqrt_minus_one_1w))) (fe255 u)).
  { intro E. pose proof (rep1_mul st _ _ _ _ B sqrtm1_1w_rep) as [Wr Er]. split; [exact Wr|].
    apply eqp_cg in Er.
    assert (Q : eqp P (fe255 (mul_1w st x sqrt_minus_one_1w) * fe255 (mul_1w st x sqrt_minus_one_1w)) (b * b * -1)).
    { apply eq_trans with ((b * sqrtm1 * (b * sqrtm1)) mod P); [apply eqp_mul; [discriminate|exact Er|exact Er]|].
      replace (b * sqrtm1 * (b * sqrtm1)) with (b * b * (sqrtm1 * sqrtm1)) by ring.
      apply eqp_mul; [discriminate|reflexivity|]. exact sqrtm1_ok. }
    apply eq_trans with ((fe255 v * (b * b * -1)) mod P); [apply eqp_mul; [discriminate|reflexivity|exact Q]|].
    replace (fe255 v * (b * b * -1)) with (fe255 v * (b * b) * -1) by ring.
    replace (fe255 u) with (- fe255 u * -1) by ring. apply eqp_mul; [discriminate|exact E|reflexivity]. }
  destruct (Z.eqb_spec (cmp_1w st vx2 nu) 0) as [E|E].
  - apply Neg. destruct Sq as [Sq|Sq]; [|exact Sq].
    destruct (Z.eq_dec (fe255 u mod P) 0) as [U0|U0].
    + unfold eqp in *. rewrite Sq, U0, opp_mod_idemp, U0. reflexivity.
    + exfalso. apply C1; [|exact E]. unfold eqp in Sq. rewrite Sq. exact (odd_neg _ U0).
  - destruct B as [Wx Ex]. apply eqp_cg in Ex. split; [exact Wx|].
    destruct Sq as [Sq|Sq].
    + apply eq_trans with ((fe255 v * (b * b)) mod P); [|exact Sq].
      apply eqp_mul; [discriminate|reflexivity|]. apply eqp_mul; [discriminate|exact Ex|exact Ex].
    + exfalso. apply E, C0. exact Sq.
Qed.

(** The 4-way function multiplies by the square root of -1 whether or not it
    should: from u = v = 1 it returns a square root of -1. *)
Lemma sqrtm1_4w_rep j : (j < 4)%nat -> rep4w j sqrt_minus_one_4w sqrtm1.
Proof.
  intro Hj. split; [reflexivity|]. replace (el4 j sqrt_minus_one_4w) with sqrt_minus_one_1w; [exact sqrtm1_1w_rep|].
  destruct j as [|[|[|[|j]]]]; [reflexivity..|lia].
Qed.
Lemma invsqrt_4w_beta st j u v x y b : (j < 4)%nat -> rep4w j u x -> rep4w j v y ->
  b = (x * y ^ 7) ^ (2 ^ 252 - 3) * (x * y ^ 3) ->
  rep4w j (fst (invsqrt_4w st u v)) (b * sqrtm1).
Proof.
  intros Hj Hu Hv Eb. unfold invsqrt_4w. cbv zeta. cbn [fst].
  pose proof (beta_rep (rep4w j) (mul_4w st) (sqr_4w st) (fun a b x y => rep4w_mul st j a b x y Hj)
    (fun a x => rep4w_sqr st j a x Hj) u v x y Hu Hv) as B. cbv zeta in B. rewrite <- Eb in B.
  exact (rep4w_mul st j _ _ _ _ Hj B (sqrtm1_4w_rep j Hj)).
Qed.
Lemma srt_4w_beta st j c a x y b : (j < 4)%nat -> rep4w j c x -> rep4w j a y ->
  b = (x * y ^ 7) ^ (2 ^ 252 - 3) * (x * y ^ 3) ->
  rep4w j (srt_4w st c a) (- b * sqrtm1).
Proof.
  intros Hj Hu Hv Eb. unfold srt_4w. cbv zeta.
  pose proof (beta_rep (rep4w j) (mul_4w st) (sqr_4w st) (fun a b x y => rep4w_mul st j a b x y Hj)
    (fun a x => rep4w_sqr st j a x Hj) c a x y Hu Hv) as B. cbv zeta in B. rewrite <- Eb in B.
  set (m := mul_4w st (pow_p58_chain _ _ _) _) in *. clearbody m. destruct B as [Lm [Rm Em]].
  destruct (neg_4w_ok st j Hj m Lm Rm) as [En Wn].
  destruct (sqrtm1_4w_rep j Hj) as [Li [Ri Ei]].
  destruct (mul_4w_ok st j Hj (neg_4w st m) sqrt_minus_one_4w ltac:(apply call_length) Li Wn (red_wide _ Ri)) as [E R].
  split; [apply call_length|]. split; [exact R|].
  apply (cg_trans _ _ _ E). apply cg_mul; [|exact Ei]. apply (cg_trans _ _ _ En).
  rewrite <- (Z.sub_0_l b). apply cg_sub; [apply cg_refl|exact Em].
Qed.
Lemma pow_ones e : 0 <= e -> (1 * 1 ^ 7) ^ e * (1 * 1 ^ 3) = 1.
Proof. intro He. change (1 * 1 ^ 7) with 1. change (1 * 1 ^ 3) with 1. rewrite Z.pow_1_l by exact He. reflexivity. Qed.
Lemma invsqrt_4w_one st j u v : (j < 4)%nat -> rep4w j u 1 -> rep4w j v 1 ->
  rep4w j (fst (invsqrt_4w st u v)) sqrtm1.
Proof.
  intros Hj Hu Hv. rewrite <- (Z.mul_1_l sqrtm1).
  apply (invsqrt_4w_beta st j u v 1 1 1 Hj Hu Hv). symmetry. exact (pow_ones (2 ^ 252 - 3) ltac:(discriminate)).
Qed.
Lemma srt_4w_one st j u v : (j < 4)%nat -> rep4w j u 1 -> rep4w j v 1 ->
  rep4w j (srt_4w st u v) (-1 * sqrtm1).
Proof.
  intros Hj Hu Hv.
  apply (srt_4w_beta st j u v 1 1 1 Hj Hu Hv). symmetry. exact (pow_ones (2 ^ 252 - 3) ltac:(discriminate)).
Qed.
Lemma rep_sq (a : list Z) x z : rep1 a x -> eqp P (x * x) z -> eqp P (fe255 a * fe255 a) z.
Proof. intros [_ E] H. apply eqp_cg in E. apply eq_trans with ((x * x) mod P); [|exact H]. apply eqp_mul; [discriminate|exact E|exact E]. Qed.

(** ** srt on the 1-way elements 1 and 4: the result is a square root of -1/4 *)
Definition half_i : Z := 9840580688353752978403539652494271007723033257961945081372010536561914892376.
Lemma half_i_cases b : eqp P (4 * (b * b)) (-1) -> eqp P b half_i \/ eqp P b (- half_i).
Proof.
  intro H. apply eqp_cg in H. apply cg_div in H.
  assert (D : (P | (b - half_i) * (b + half_i))).
  { assert (D4 : (P | 4 * ((b - half_i) * (b + half_i)))).
    { replace (4 * ((b - half_i) * (b + half_i))) with ((4 * (b * b) - -1) - (4 * (half_i * half_i) + 1)) by ring.
      apply Z.divide_sub_r; [exact H|]. apply Z.mod_divide; [discriminate|]. vm_compute. reflexivity. }
    apply prime_mult in D4 as [D4|D4]; [|exact D4|exact p25519_prime].
    exfalso. apply Z.mod_divide in D4; [|discriminate]. vm_compute in D4. discriminate D4. }
  apply prime_mult in D as [D|D]; [| |exact p25519_prime]; [left|right]; apply eqp_cg, cg_div; [exact D|].
  replace (b - - half_i) with (b + half_i) by ring. exact D.
Qed.
Fixpoint le_bytes (n : nat) (v : Z) : list Z :=
  match n with O => [] | S n => v mod 256 :: le_bytes n (v / 256) end.
Lemma le_bytes_ok n : forall v, bytes n (le_bytes n v).
Proof.
  induction n as [|n IH]; intro v; [split; [reflexivity|apply Forall_nil]|].
  destruct (IH (v / 256)) as [L F]. split; [cbn [le_bytes length]; now rewrite L|].
  cbn [le_bytes]. apply Forall_cons; [apply Z.mod_pos_bound; reflexivity|exact F].
Qed.
Lemma ser_1w_is st a v : is_wide a -> fe255 a < 2 ^ 256 -> eqp P (fe255 a) v ->
  le_val (le_bytes 32 (v mod P)) = v mod P -> ser_1w st a = le_bytes 32 (v mod P).
Proof.
  intros H L E V. destruct (ser_1w_256 st a H L) as [[Ln F] Vs]. destruct (le_bytes_ok 32 (v mod P)) as [Ln' F'].
  apply (le_val_inj _ _ (eq_trans Ln (eq_sym Ln')) F F'). exact (eq_trans Vs (eq_trans E (eq_sym V))).
Qed.
Theorem srt_1w_wrong st c a : is_red c -> is_red a -> eqp P (fe255 c) 1 -> eqp P (fe255 a) 4 ->
  let x := srt_1w st c a in is_wide x /\ eqp P (4 * (fe255 x * fe255 x)) (-1).
Proof.
  intros Hc Ha Ec Ea. unfold srt_1w. cbv zeta.
  apply eqp_cg in Ec, Ea.
  destruct (ex_intro (fun b => b = (1 * 4 ^ 7) ^ (2 ^ 252 - 3) * (1 * 4 ^ 3)) _ eq_refl) as [b Eb].
  pose proof (beta_rep rep1 (mul_1w st) (sqr_1w st) (rep1_mul st) (rep1_sqr st) c a 1 4
     (conj Hc Ec) (conj Ha Ea)) as B. cbv zeta in B. rewrite <- Eb in B.
  set (x := mul_1w st (pow_p58_chain _ _ _) _) in *. clearbody x.
  pose proof (beta_4 P (2 ^ 252 - 3) b p25519_prime ltac:(discriminate) eq_refl
    (two_nonresidue P (2 ^ 252 - 3) sqrtm1 p25519_prime ltac:(discriminate) eq_refl ltac:(exact sqrtm1_ok)) Eb) as B4.
  clear Eb. destruct B as [Rx Ex].
  destruct (neg_1w_exact st x Rx) as [En Hn].
  pose proof (rep1_mul st _ _ _ _ (rep1_sqr st _ _ (conj Rx Ex)) (conj Ha Ea)) as [Wv Ev].
  set (vx2 := mul_1w st (sqr_1w st x) a) in *. clearbody vx2. set (nx := neg_1w st x) in *. clearbody nx.
  apply eqp_cg in Ev, Ex.
  assert (En' : eqp P (fe255 nx) (- b)).
  { unfold eqp in *. rewrite En. replace (2 * P - fe255 x) with (- fe255 x + 2 * P) by ring.
    rewrite Z.mod_add by discriminate. rewrite opp_mod_idemp, Ex, <- opp_mod_idemp. reflexivity. }
  assert (Ln : fe255 nx < 2 ^ 256).
  { rewrite En. pose proof (wsum_max wt255 red255 (2 ^ 256) ltac:(vm_compute; reflexivity) x Rx) as M.
    change (2 ^ 256) with (2 * P + 38) in M |- *. lia. }
  assert (Ev' : eqp P (fe255 vx2) (-1)).
  { apply eq_trans with ((b * b * 4) mod P); [exact Ev|]. rewrite (Z.mul_comm (b * b)). exact B4. }
  pose proof (ser_1w_is st vx2 (-1) (red_wide _ Wv) (red_256 _ Wv) Ev' ltac:(vm_compute; reflexivity)) as S1.
  assert (C : cmp_1w st vx2 nx <> 0).
  { intro C. apply (proj1 (cmp_1w_ok st vx2 nx (red_wide _ Wv) Hn)) in C. rewrite S1 in C.
    destruct (half_i_cases b B4) as [Eb|Eb].
    - assert (E : eqp P (fe255 nx) (- half_i)).
      { unfold eqp in *. rewrite En', opp_mod_idemp, Eb, <- opp_mod_idemp. reflexivity. }
      rewrite (ser_1w_is st nx (- half_i) Hn Ln E ltac:(vm_compute; reflexivity)) in C. vm_compute in C. discriminate C.
    - assert (E : eqp P (fe255 nx) half_i).
      { unfold eqp in *. rewrite En', opp_mod_idemp, Eb, <- opp_mod_idemp, Z.opp_involutive. reflexivity. }
      rewrite (ser_1w_is st nx half_i Hn Ln E ltac:(vm_compute; reflexivity)) in C. vm_compute in C. discriminate C. }
  destruct (Z.eqb_spec (cmp_1w st vx2 nx) 0) as [E|_]; [exfalso; exact (C E)|].
  split; [exact Hn|]. apply eq_trans with ((4 * (- b * - b)) mod P).
  - apply eqp_mul; [discriminate|reflexivity|]. apply eqp_mul; [discriminate|exact En'|exact En'].
  - replace (- b * - b) with (b * b) by ring. exact B4.
Qed.

(** ** ser after a subtraction: the lost carry *)
Definition w37 : list Z := le_bytes 32 (2 ^ 128 + 37).
Theorem ser_sub_wrong st : let a := unser_1w st w37 in let b := unser_1w st (repeat 0 32) in
  is_red a /\ is_red b /\ fe255 a = 2 ^ 128 + 37 /\ fe255 b = 0 /\
  ser_1w st (sub_1w st a b) = le_bytes 32 37.
Proof.
  cbv zeta.
  assert (Bx : bytes 32 w37) by apply le_bytes_ok.
  assert (By : bytes 32 (repeat 0 32)) by (apply bytes_lit; reflexivity).
  destruct (unser_1w_ok st _ Bx) as [Ex Rx]. destruct (unser_1w_ok st _ By) as [Ey Ry].
  apply canon_red in Rx, Ry. change (le_val w37 mod P) with (2 ^ 128 + 37) in Ex. change (le_val (repeat 0 32) mod P) with 0 in Ey.
  split; [exact Rx|]. split; [exact Ry|]. split; [exact Ex|]. split; [exact Ey|].
  pose proof (sub_1w_exact st _ _ Rx Ry) as Es. destruct (sub_1w_ok st _ _ Rx Ry) as [_ Ws].
  rewrite Ex, Ey in Es. destruct (ser_1w_wide st _ Ws) as [[L F] V].
  rewrite Es in V. destruct (le_bytes_ok 32 37) as [L' F'].
  apply (le_val_inj _ _ (eq_trans L (eq_sym L')) F F'). rewrite V. vm_compute. reflexivity.
Qed.

(** ** Comparisons on 2 and 4 elements *)
Lemma cmp_2w_el st a b : length a = 20%nat -> length b = 20%nat ->
  cmp_2w st a b = [cmp_1w st (el2 false a) (el2 false b); 0; cmp_1w st (el2 true a) (el2 true b); 0].
Proof. intros Ha Hb. unfold cmp_2w. rewrite (deinter_2w_ok st a Ha), (deinter_2w_ok st b Hb). reflexivity. Qed.
Lemma sgn_2w_el st a : length a = 20%nat -> sgn_2w st a = [sgn_1w st (el2 false a); 0; sgn_1w st (el2 true a); 0].
Proof. intros Ha. unfold sgn_2w. rewrite (deinter_2w_ok st a Ha). reflexivity. Qed.
Lemma cmp_4w_el st a b : length a = 40%nat -> length b = 40%nat ->
  cmp_4w st a b = map (fun j => cmp_1w st (el4 j a) (el4 j b)) (seq 0 4).
Proof.
  intros Ha Hb. unfold cmp_4w. cbn [seq map].
  rewrite !(unzip_4w_ok st _ a), !(unzip_4w_ok st _ b) by (assumption || lia). reflexivity.
Qed.

(** ** The member _4w_red.arith.neg of the API *)
Lemma neg_2w_zero st : neg_2w st (repeat 0 20) = neg_2w (PositiveMap.empty Z) (repeat 0 20).
Proof. unfold neg_2w, vop1. apply call_indep; vm_cast_no_check (eq_refl true). Qed.
(** It "negates" 0 into something else. *)
Lemma api_neg_4w_zero st : length (api_neg_4w st (repeat 0 40)) = 40%nat /\
  forall j, (j < 4)%nat -> fe255 (el4 j (api_neg_4w st (repeat 0 40))) mod P <> 0.
Proof.
  unfold api_neg_4w. change (firstn 20 (repeat 0 40)) with (repeat 0 20). rewrite neg_2w_zero. split; [vm_compute; reflexivity|].
  intros j Hj. destruct j as [|[|[|[|j]]]]; [vm_compute; discriminate..|lia].
Qed.
