(** A valid Ed448 public key that decompression refuses: y = 2^16.  Its square 2^32 has limb 0 equal to 0, and subtracting 1 from that limb wraps to 2^64 - 1. *)
From Coq Require Import ZArith List Bool Lia.
From Verif Require Import Uop X86 Engine InPlace Bytes Lanes Fp448Full Fp448FullProofs Fp25519Red Fp25519RedProofs Fp25519RedMore Fp448Red Fp448RedProofs Fp448RedMore Fp448RedRoot
  Spec SpecScalar ScalarProps SpecEd SpecSign448 Edwards255 Edwards448 LadderX448 Sign255 Sign448 Sign448Proofs RedTac Encode448Proofs SpecDecode448 Decode448Proofs Decode448Case.
Import ListNotations.
Open Scope Z_scope.
Definition key_2_16 : list Z := [0; 0; 1] ++ repeat 0 54.
Definition x_2_16 : Z := 0x42a46dc72653cd40cdb18157674dceaeb44246dca7ccd6911a196afcbbee4883b7835d951d0de943ada41e04bbe729b2f62547a42f72e794.
Lemma key_valid : on448 (x_2_16, 2 ^ 16) /\ encodes448 key_2_16 (x_2_16, 2 ^ 16).
Proof.
  split; [split; [split; [discriminate|reflexivity]|split; [split; [discriminate|reflexivity]|vm_compute; reflexivity]]|].
  split; [apply bytes_lit; vm_compute; reflexivity|vm_compute; reflexivity].
Qed.
(** ** The literal steps *)
Definition Y16 : list Z := Eval vm_compute in unser448_1w em (firstn 56 key_2_16).
Definition W16 : list Z := Eval vm_compute in sqr448_1w em Y16.
Definition D16 : list Z := Eval vm_compute in mul448_1w em W16 param_curve_d448.
Definition U16 : list Z := Eval vm_compute in minus_one W16.
Definition V16 : list Z := Eval vm_compute in minus_one D16.
Definition U2 : list Z := Eval vm_compute in sqr448_1w em U16.
Definition UV16 : list Z := Eval vm_compute in mul448_1w em U16 V16.
Definition S16 : list Z := Eval vm_compute in ser448_1w em U16.
Lemma sqr_lit st a b : length a = 16%nat -> sqr448_1w em a = b -> sqr448_1w st a = b.
Proof.
  intros L <-. do 16 (destruct a as [|? a]; [discriminate L|]). destruct a; [|discriminate L]. apply call_indep; vm_cast_no_check (eq_refl true).
Qed.
Lemma intmul_indep st a b : length a = 16%nat -> length b = 16%nat -> intmul448_1w st a b = intmul448_1w em a b.
Proof.
  intros L L'. do 16 (destruct a as [|? a]; [discriminate L|]). destruct a; [|discriminate L]. do 16 (destruct b as [|? b]; [discriminate L'|]). destruct b; [|discriminate L'].
  apply call_indep; vm_cast_no_check (eq_refl true).
Qed.
Lemma compress_indep st a : length a = 16%nat -> compress448_1w st a = compress448_1w em a.
Proof. intros L. do 16 (destruct a as [|? a]; [discriminate L|]). destruct a; [|discriminate L]. apply call_indep; vm_cast_no_check (eq_refl true). Qed.
Lemma mul_lit st a b c : length a = 16%nat -> length b = 16%nat -> length (intmul448_1w em a b) = 16%nat -> mul448_1w em a b = c -> mul448_1w st a b = c.
Proof. intros L L' L2 <-. unfold mul448_1w. rewrite (intmul_indep st a b L L'). apply compress_indep. exact L2. Qed.
Lemma W16_ok st : sqr448_1w st Y16 = W16. Proof. apply sqr_lit; [reflexivity|]. vm_compute. reflexivity. Qed.
Lemma D16_ok st : mul448_1w st W16 param_curve_d448 = D16. Proof. apply mul_lit; [reflexivity|reflexivity|vm_compute; reflexivity|vm_compute; reflexivity]. Qed.
Lemma U2_ok st : sqr448_1w st U16 = U2. Proof. apply sqr_lit; [reflexivity|]. vm_compute. reflexivity. Qed.
Lemma UV16_ok st : mul448_1w st U16 V16 = UV16. Proof. apply mul_lit; [reflexivity|reflexivity|vm_compute; reflexivity|vm_compute; reflexivity]. Qed.
Lemma Y16_ok st : unser448_1w st (firstn 56 key_2_16) = Y16.
Proof. transitivity (unser448_1w em (firstn 56 key_2_16)); [|vm_compute; reflexivity]. apply call_indep; vm_cast_no_check (eq_refl true). Qed.
Lemma S16_ok st : ser448_1w st U16 = S16.
Proof.
  transitivity (ser448_1w em U16); [|vm_compute; reflexivity]. unfold ser448_1w, ser448. f_equal. apply call_indep; vm_cast_no_check (eq_refl true).
Qed.
(** ** What is compared with S16 is 2^33 - 1 or its opposite *)
Lemma alg c u2 v uv aa gg rr b X : cq uv (c * v) -> cq gg (uv * u2) -> cq aa (gg * u2 * (v * v)) -> cq X (gg * rr) -> cq rr b ->
  cq ((aa * (b * b)) * (aa * (b * b))) 1 -> exists e, cq (X * X * v) (c * e) /\ cq (e * e) 1.
Proof.
  intros Cuv Cg Ca Cx Cr S. exists (aa * (b * b)). split; [|exact S].
  assert (E1 : cq (X * X * v) (gg * b * (gg * b) * v)) by (apply cq_mul; [apply cq_mul; apply (cq_trans _ _ _ Cx); apply cq_mul; [apply cq_refl|exact Cr|apply cq_refl|exact Cr]|apply cq_refl]).
  apply (cq_trans _ _ _ E1).
  assert (E2 : cq (gg * b * (gg * b) * v) (gg * b * (uv * u2 * b) * v)) by (apply cq_mul; [apply cq_mul; [apply cq_refl|apply cq_mul; [exact Cg|apply cq_refl]]|apply cq_refl]).
  apply (cq_trans _ _ _ E2). clear E1 E2.
  assert (E3 : cq (gg * b * (uv * u2 * b) * v) (gg * b * (c * v * u2 * b) * v)) by (apply cq_mul; [apply cq_mul; [apply cq_refl|apply cq_mul; [apply cq_mul; [exact Cuv|apply cq_refl]|apply cq_refl]]|apply cq_refl]).
  apply (cq_trans _ _ _ E3). replace (gg * b * (c * v * u2 * b) * v) with (c * (gg * u2 * (v * v) * (b * b))) by ring.
  apply cq_mul; [apply cq_refl|]. apply cq_mul; [apply cq_sym; exact Ca|apply cq_refl].
Qed.
Definition c16 : Z := 2 ^ 33 - 1.
Lemma uv_c : cq (fe448 UV16) (c16 * fe448 V16). Proof. vm_compute. reflexivity. Qed.
Lemma U2_mid : is_mid448 U2. Proof. apply arr_lit. vm_compute. reflexivity. Qed.
Lemma V16_mid : is_mid448 V16. Proof. apply arr_lit. vm_compute. reflexivity. Qed.
Lemma UV16_mid : is_mid448 UV16. Proof. apply arr_lit. vm_compute. reflexivity. Qed.
Lemma parts_nz : fe448 U2 mod Q <> 0 /\ fe448 V16 mod Q <> 0 /\ fe448 UV16 mod Q <> 0.
Proof. repeat split; vm_compute; discriminate. Qed.
Lemma dec_root_eq st u v uv u2 : mul448_1w st u v = uv -> sqr448_1w st u = u2 ->
  dec_root st u v = mul448_1w st (mul448_1w st uv u2) (srt448_1w st (mul448_1w st (mul448_1w st (mul448_1w st uv u2) u2) (sqr448_1w st v))).
Proof. intros <- <-. reflexivity. Qed.
Lemma root_facts st v uv u2 c : is_mid448 u2 -> is_mid448 v -> is_mid448 uv -> fe448 u2 mod Q <> 0 -> fe448 v mod Q <> 0 -> fe448 uv mod Q <> 0 -> cq (fe448 uv) (c * fe448 v) ->
  let g := mul448_1w st uv u2 in let X := mul448_1w st g (srt448_1w st (mul448_1w st (mul448_1w st g u2) (sqr448_1w st v))) in
  is_red448 X /\ exists e, cq (fe448 X * fe448 X * fe448 v) (c * e) /\ cq (e * e) 1.
Proof.
  intros Mu Mv Muv Nu Nv Nuv C. cbv zeta.
  assert (Ru : rep1q u2 (fe448 u2)) by (split; [exact Mu|apply cq_refl]). assert (Rv : rep1q v (fe448 v)) by (split; [exact Mv|apply cq_refl]).
  assert (Ruv : rep1q uv (fe448 uv)) by (split; [exact Muv|apply cq_refl]).
  pose proof (rep1q_mul st _ _ _ _ Ruv Ru) as Rg. set (g := mul448_1w st uv u2) in *. clearbody g.
  assert (Rg' : rep1q g (fe448 g)) by (split; [exact (proj1 Rg)|apply cq_refl]).
  pose proof (rep1q_mul st _ _ _ _ (rep1q_mul st _ _ _ _ Rg' Ru) (rep1q_sqr st _ _ Rv)) as [Ma Ca].
  set (a := mul448_1w st (mul448_1w st g u2) (sqr448_1w st v)) in *. clearbody a.
  assert (Ng : fe448 g mod Q <> 0) by (apply (nz_cq _ _ (proj2 Rg)); apply nz_mul; assumption).
  assert (Na : fe448 a mod Q <> 0) by (apply (nz_cq _ _ Ca); repeat (apply nz_mul; try assumption)).
  destruct (srt_facts st a Ma Na) as (Mr & b & Cr & Sg & _). set (r := srt448_1w st a) in *. clearbody r.
  destruct (mul448_1w_ok st g r (proj1 Rg) Mr) as [CX RX]. split; [exact RX|].
  exact (alg _ _ _ _ _ _ _ _ _ C (proj2 Rg) Ca CX Cr Sg).
Qed.
Lemma tight_edge a : arr_ok tight448 a -> fe448 a mod Q <= 2 ^ 224 \/ 2 ^ 263 <= fe448 a mod Q -> u448 a < 2 ^ 448.
Proof.
  intros H M. destruct (tight_fe a H) as [-> R]. set (f := fe448 a) in *. clearbody f. clear H a. unfold T8 in R. change Q with (2 ^ 448 - 2 ^ 224 - 1) in *.
  destruct (Z.lt_ge_cases f (2 ^ 448)) as [S|S]; [exact S|exfalso].
  assert (E : f mod (2 ^ 448 - 2 ^ 224 - 1) = f - (2 ^ 448 - 2 ^ 224 - 1)) by (symmetry; apply (Z.mod_unique _ _ 1); lia). lia.
Qed.
Lemma compared st X v u s c : is_red448 X -> is_mid448 v -> ser448_1w st u = s -> length s = 56%nat -> 0 < c < 2 ^ 200 -> le_val s <> c -> le_val s <> Q - c ->
  (exists e, cq (fe448 X * fe448 X * fe448 v) (c * e) /\ cq (e * e) 1) -> cmp448_1w st (mul448_1w st (sqr448_1w st X) v) u <> 0.
Proof.
  intros RX Mv Es Ls Hc N1 N2 (e & C & S). destruct (sqr448_1w_ok st X (red_mid448 _ RX)) as [Cs Ms].
  pose proof (mul448_tight st _ _ Ms Mv) as Bt. destruct (mul448_1w_ok st _ _ Ms Mv) as [Ct _].
  pose proof (cq_trans _ _ _ (cq_trans _ _ _ Ct (cq_mul _ _ _ _ Cs (cq_refl (fe448 v)))) C) as Ce. clear Ct Cs C.
  set (t := mul448_1w st (sqr448_1w st X) v) in *. clearbody t. clear Ms Mv v RX X.
  assert (V : fe448 t mod Q = c \/ fe448 t mod Q = Q - c).
  { assert (Sc : c mod Q = c) by (apply Z.mod_small; change Q with (2 ^ 448 - 2 ^ 224 - 1); lia).
    destruct (plus_minus_one e S) as [E|E]; [left|right].
    - transitivity (c mod Q); [|exact Sc]. apply cq_eqp. apply (cq_trans _ _ _ Ce). rewrite <- (Z.mul_1_r c) at 2. apply cq_mul; [apply cq_refl|exact E].
    - transitivity ((- c) mod Q); [|rewrite neg_mod, Sc; [reflexivity|reflexivity|rewrite Sc; lia]]. apply cq_eqp. apply (cq_trans _ _ _ Ce). replace (- c) with (c * -1) by ring. apply cq_mul; [apply cq_refl|exact E]. }
  assert (Su : u448 t < 2 ^ 448).
  { apply tight_edge; [exact Bt|]. change Q with (2 ^ 448 - 2 ^ 224 - 1) in *. destruct V as [-> | ->]; [left|right]; lia. }
  destruct (ser448_1w_small st t (tight_wide _ Bt) Su) as [[L _] Vs].
  unfold cmp448_1w. rewrite Es. intro K. apply (proj1 (cmp_bytes_0 _ _ (eq_trans L (eq_sym Ls)))) in K. rewrite K in Vs. destruct V as [V|V]; rewrite V in Vs; contradiction.
Qed.
Lemma end_refused st b u v X Y : cmp448_1w st (mul448_1w st (sqr448_1w st X) v) u <> 0 -> fst (fst (dec_end st b u v X Y)) = -1.
Proof. intro N. unfold dec_end. apply Z.eqb_neq in N. rewrite N. reflexivity. Qed.
Theorem refused_2_16 st : fst (point_decoding448 st key_2_16) = -1.
Proof.
  rewrite pd_eq, decode_xy448_eq. cbv zeta. rewrite Y16_ok. unfold dec_u, dec_v. rewrite W16_ok, D16_ok. change (minus_one W16) with U16. change (minus_one D16) with V16.
  rewrite (dec_root_eq st U16 V16 UV16 U2 (UV16_ok st) (U2_ok st)).
  destruct parts_nz as (N1 & N2 & N3).
  destruct (root_facts st V16 UV16 U2 c16 U2_mid V16_mid UV16_mid N1 N2 N3 uv_c) as [RX E]. cbv zeta in RX, E.
  set (X := mul448_1w st _ (srt448_1w st _)) in *. clearbody X.
  pose proof (compared st X V16 U16 S16 c16 RX V16_mid (S16_ok st) eq_refl ltac:(vm_compute; split; reflexivity) ltac:(vm_compute; discriminate) ltac:(vm_compute; discriminate) E) as N.
  pose proof (end_refused st (nth 56 key_2_16 0 / 2 ^ 7) U16 V16 X Y16 N) as F. destruct (dec_end _ _ _ _ _ _) as [[r X'] Y']. cbn [fst] in F. rewrite F. reflexivity.
Qed.
Theorem valid_refused : on448 (x_2_16, 2 ^ 16) /\ encodes448 key_2_16 (x_2_16, 2 ^ 16) /\
  forall st junk H m M sig, (length (context448 m) <= 255)%nat -> verify448_with st junk H m M key_2_16 sig = EDDSA_ERROR_PUBLICKEY.
Proof.
  split; [exact (proj1 key_valid)|]. split; [exact (proj2 key_valid)|]. intros st junk H m M sig L.
  rewrite (verify448_with_body st junk H m M key_2_16 sig L), verify_body448_eq. apply rest_refused. exact (refused_2_16 st).
Qed.
