(** A key, a signature and a hash function that meet the hypotheses of verification and of the round trip: the secret scalar is 3 l - 1, so the public key is -B;
    nonce and challenge are 0, so R is the neutral element and S is 0. *)
From Coq Require Import ZArith List Bool Lia.
From Verif Require Import Uop X86 Engine InPlace InPlace InPlace InPlace Bytes Lanes Fp448Full Fp448FullProofs Fp25519Red Fp25519RedProofs Fp25519RedMore Fp448Red Fp448RedProofs SpecVec SpecScalar Scalar Scalar Scalar448 ScalarProps SpecEd SpecIso CurveInst EdInst448
  Edwards255 EdVec Edwards448 Edwards448Proofs Verify448Proofs EdCert448 TableProofs448 SpecSign448 Sign255 Sign448 Sign448Proofs LadderX448 Digits448 SpecRecode Scalar448Proofs Keygen448Case Digits448 SpecRecode Scalar448Proofs Keygen448Case Digits448 SpecRecode Scalar448Proofs Keygen448Case Digits448 SpecRecode Scalar448Proofs Keygen448Case Keygen448Proofs SpecDecode448 Decode448Proofs Decode448Case
  Ops448 VerifyMul448 Verify448Right Neutral448.
Import ListNotations.
Open Scope Z_scope.
Notation em := (FSets.FMapPositive.PositiveMap.empty Z).
Notation "k ** P" := (mul448 k P) (at level 40).
(** ** The key *)
Definition minus_B : Z * Z := Eval vm_compute in neg448 B_ed448.
Definition minus_key : list Z := Eval vm_compute in bytes_n 57 (snd minus_B + 2 ^ 455 * (fst minus_B mod 2)).
Definition minus_words : list Z := Eval vm_compute in words448 (fst minus_B).
Definition minus_y_words : list Z := Eval vm_compute in words448 (snd minus_B).
Definition minus_decoded : list Z := Eval vm_compute in snd (pd_of em (0, minus_words, minus_y_words)).
Lemma minus_decoded_ok : snd (pd_of em (0, minus_words, minus_y_words)) = minus_decoded. Proof. vm_compute. reflexivity. Qed.
Lemma minus_B_eq : neg448 B_ed448 = minus_B. Proof. vm_compute. reflexivity. Qed.
Lemma minus_on : on448 minus_B. Proof. rewrite <- minus_B_eq. exact (neg448_on _ onB). Qed.
Lemma minus_coded : encodes448 minus_key minus_B.
Proof. split; [apply bytes_lit; vm_compute; reflexivity|vm_compute; reflexivity]. Qed.
Lemma minus_y : regular_y (snd minus_B). Proof. apply regular_y_dec. vm_compute. reflexivity. Qed.
Lemma minus_x : regular_x (fst minus_B). Proof. split; discriminate. Qed.
Lemma minus_spread : spread_x (fst minus_B). Proof. apply spread_dec. vm_compute. reflexivity. Qed.
Lemma minus_y_spread : spread_x (snd minus_B). Proof. apply spread_dec. vm_compute. reflexivity. Qed.
Definition minus_square : list Z := Eval vm_compute in sqr448_1w em minus_words.
Lemma minus_words_ok : words448 (fst minus_B) = minus_words. Proof. vm_compute. reflexivity. Qed.
Lemma minus_y_words_ok : words448 (snd minus_B) = minus_y_words. Proof. vm_compute. reflexivity. Qed.
Lemma minus_square_ok : sqr448_1w em (words448 (fst minus_B)) = minus_square.
Proof. rewrite minus_words_ok. vm_compute. reflexivity. Qed.
Lemma minus_fits : square_fits em (fst minus_B).
Proof.
  intros i Hi. rewrite minus_square_ok. assert (F : forallb (fun i => nth i minus_square 0 <=? nth i limbs_2P448 0) (seq 0 16) = true) by (vm_compute; reflexivity).
  rewrite forallb_forall in F. apply Z.leb_le, F, in_seq. lia.
Qed.
Lemma minus_order : mul448 l_ed448 minus_B = ed_zero.
Proof. rewrite <- minus_B_eq, (mul448_neg _ _ onB), order_B448. vm_compute. reflexivity. Qed.
Lemma minus_regular : regular_key em minus_key minus_B.
Proof. exact (conj minus_on (conj minus_coded (conj minus_y (conj minus_x (conj minus_spread (conj minus_fits minus_order)))))). Qed.
Lemma decoded_words st pk P : on448 P -> encodes448 pk P -> regular_y (snd P) -> regular_x (fst P) -> spread_x (fst P) -> spread_x (snd P) ->
  point_decoding448 st pk = pd_of st (0, words448 (fst P), words448 (snd P)).
Proof.
  destruct P as [x y]. intros On En Ry Rx Sx Sy. cbn [fst snd] in *. destruct (coded_ok pk x y On En) as (Ey & Em & Es).
  assert (Hx : 0 <= x < Q) by exact (proj1 On). assert (Hy : 0 <= y < Q) by exact (proj1 (proj2 On)).
  rewrite <- Ey in Ry. rewrite <- Em in On.
  destruct (decode_xy448_ok st pk x (proj1 En) On Es Ry Rx) as (X & Y & E & RX & CX & RY & CY). rewrite Ey in CY.
  pose proof (red_words X x RX Hx Sx CX) as WX. pose proof (red_words Y y (canon_red448 _ RY) Hy Sy ltac:(rewrite CY; apply cq_refl)) as WY.
  rewrite (pd_at st pk _ E), WX, WY. reflexivity.
Qed.
Lemma minus_decoding : snd (point_decoding448 em minus_key) = minus_decoded.
Proof.
  rewrite (decoded_words em minus_key minus_B minus_on minus_coded minus_y minus_x minus_spread minus_y_spread), minus_words_ok, minus_y_words_ok. exact minus_decoded_ok.
Qed.
(** ** The mixed additions: only those that build the table *)
Definition le16 (c m : list Z) : bool := forallb (fun i => nth i (lane 4 16 0 m) 0 <=? nth i (lane 4 16 1 m) 0 + nth i c 0) (seq 0 16).
Lemma le16_ok c m : le16 c m = true -> forall i, (i < 16)%nat -> nth i (lane 4 16 0 m) 0 <= nth i (lane 4 16 1 m) 0 + nth i c 0.
Proof. intros E i Hi. apply Z.leb_le. apply (proj1 (forallb_forall _ _) E). apply in_seq. lia. Qed.
Definition bf448 (f : list Z -> list Z -> list Z) (c : list Z) (qe : list Z * list Z) : bool := le16 c (f (fst qe) (snd qe)).
Lemma bf448_gen f c l : forallb (bf448 f c) l = true -> forall q e, In (q, e) l -> forall i, (i < 16)%nat -> nth i (lane 4 16 0 (f q e)) 0 <= nth i (lane 4 16 1 (f q e)) 0 + nth i c 0.
Proof. intros F q e Hin. apply (proj1 (forallb_forall _ l) F) in Hin. exact (le16_ok c _ Hin). Qed.
Lemma entries_free : forallb (bf448 (mix448_ABCD em) limbs_2_34P448) (entries_ops448 em 7 minus_decoded (table_entry448 em (doubling448_4w em minus_decoded))) = true.
Proof. vm_compute. reflexivity. Qed.
Lemma no_additions junk A : words 2 junk -> mixed_additions448 em junk (repeat 0 57) (repeat 0 114) A = entries_ops448 em 7 A (table_entry448 em (doubling448_4w em A)).
Proof.
  intro J. unfold mixed_additions448.
  rewrite (div4_first em junk (repeat 0 57) (repeat 0 56) eq_refl), (div4_first em junk (repeat 0 114) (repeat 0 56) eq_refl), (div4_zero em junk J), !(wnaf_zero em 460).
  change (Nat.max (length (@nil Z)) (length (@nil Z))) with 0%nat. cbn [loop_ops448]. apply app_nil_r.
Qed.
(** ** The hash function: 3 l - 1 at private keys, 0 at longer strings *)
Definition key_digest : list Z := Eval vm_compute in bytes_n 114 (3 * L448 - 1).
Definition key_hash (n : nat) (x : list Z) : list Z := if (length x =? 57)%nat then firstn n (key_digest ++ repeat 0 n) else repeat 0 n.
Definition one_signature : list Z := key_one ++ repeat 0 57.
Lemma key_digest_ok : bytes 114 key_digest. Proof. apply bytes_lit. vm_compute. reflexivity. Qed.
Lemma zeros_ok n : bytes n (repeat 0 n).
Proof. split; [apply repeat_length|]. apply Forall_forall. intros x Hx. apply repeat_spec in Hx. subst x. split; [discriminate|reflexivity]. Qed.
Lemma key_hash_114 x : key_hash 114 x = if (length x =? 57)%nat then key_digest else repeat 0 114.
Proof. unfold key_hash. destruct (length x =? 57)%nat; [|reflexivity]. vm_compute. reflexivity. Qed.
Lemma key_hash_ok x : bytes 114 (key_hash 114 x).
Proof. rewrite key_hash_114. destruct (length x =? 57)%nat; [exact key_digest_ok|exact (zeros_ok 114)]. Qed.
Lemma dom448_long m : (10 <= length (dom448 m))%nat.
Proof. destruct m; unfold dom448, dom4; rewrite !app_length; cbn; lia. Qed.
Lemma nonce_hash m sk M : length sk = 57%nat -> key_hash 114 (nonce_input448 key_hash m sk M) = repeat 0 114.
Proof.
  intro L. rewrite key_hash_114. replace (_ =? 57)%nat with false; [reflexivity|]. symmetry. apply Nat.eqb_neq. unfold nonce_input448. rewrite !app_length.
  rewrite key_hash_114, L. change (length (skipn 57 _)) with 57%nat. pose proof (dom448_long m). lia.
Qed.
Lemma challenge_hash m R pk M : length R = 57%nat -> key_hash 114 (challenge_input448 key_hash m R pk M) = repeat 0 114.
Proof.
  intro L. rewrite key_hash_114. replace (_ =? 57)%nat with false; [reflexivity|]. symmetry. apply Nat.eqb_neq. unfold challenge_input448. rewrite !app_length, L.
  pose proof (dom448_long m). lia.
Qed.
Lemma key_secret sk : length sk = 57%nat -> secret448 key_hash sk = 3 * L448 - 1.
Proof. intro L. unfold secret448. rewrite key_hash_114, L. vm_compute. reflexivity. Qed.
Lemma key_point_B sk : length sk = 57%nat -> secret448 key_hash sk ** B_ed448 = minus_B.
Proof.
  intro L. rewrite (key_secret sk L), <- minus_B_eq. rewrite (order_eq (3 * L448 - 1) (- (1)) B_ed448 onB order_B448) by (vm_compute; reflexivity).
  symmetry. exact (neg448_mul 1 B_ed448 onB).
Qed.
Lemma zero_val n : le_val (repeat 0 n) = 0.
Proof. induction n as [|n IH]; [reflexivity|]. cbn [repeat le_val]. rewrite IH. reflexivity. Qed.
Lemma kept_zero : kept 0.
Proof. split; [apply keepf_ok|apply keep448f_ok]; vm_compute; reflexivity. Qed.
Lemma zero_residue L x c : 0 < L -> c < L -> 0 <= x < L + c -> x mod L = 0 mod L -> x = 0 \/ x = L.
Proof.
  intros HL Hc Hx E. rewrite Z.mod_0_l in E by lia. pose proof (Z.div_mod x L ltac:(lia)) as D. rewrite E in D. assert (x / L = 0 \/ x / L = 1).
  { assert (0 <= x / L) by (apply Z.div_pos; lia). assert (x / L < 2) by (apply Z.div_lt_upper_bound; lia). lia. }
  destruct H as [Q|Q]; rewrite Q in D; lia.
Qed.
Fixpoint digits_of (n : nat) (x : Z) : list Z := match n with O => [] | Datatypes.S n => let d := (x + 8) mod 16 - 8 in d :: digits_of n ((x - d) / 16) end.
Definition L_digits : list Z := Eval vm_compute in digits_of 112 L448.
Definition zero_digits : list Z := Eval vm_compute in repeat 0 112.
Lemma safe_case x : x = 0 \/ x = L448 -> safe_number x.
Proof.
  intros [-> | ->].
  - assert (E : 0 = weighted 16 (fun m => nth m zero_digits 0) 112) by (vm_compute; reflexivity). rewrite E. apply digits_safe. vm_compute. reflexivity.
  - assert (E : L448 = weighted 16 (fun m => nth m L_digits 0) 112) by (vm_compute; reflexivity). rewrite E. apply digits_safe. vm_compute. reflexivity.
Qed.
Lemma good_zero : good_scalar 0.
Proof.
  split; [exact kept_zero|]. intros q [R E]. apply safe_case. rewrite range_eq in R.
  apply (zero_residue L448 q (4 * (2 ^ 446 - L448))); [vm_compute; reflexivity|vm_compute; reflexivity|exact R|].
  apply (quarter_inv L448 0 q); [vm_compute; reflexivity|]. rewrite Z.mul_0_r. exact E.
Qed.
Lemma plain_zero : plain ed_zero.
Proof. split; intros [H _]; apply H; reflexivity. Qed.
Lemma zero_keep : no_lost_carry448 0. Proof. apply keep448f_ok. vm_compute. reflexivity. Qed.
Lemma zero_sum P : on448 P -> add448 (0 ** B_ed448) (neg448 (0 ** P)) = ed_zero.
Proof. intros _. rewrite !mul448_0. vm_compute. reflexivity. Qed.
Lemma one_bytes : bytes 57 key_one. Proof. apply bytes_lit. vm_compute. reflexivity. Qed.
Lemma one_key_encodes : encodes448 key_one ed_zero.
Proof. split; [exact one_bytes|vm_compute; reflexivity]. Qed.
Lemma first_one : firstn 57 one_signature = key_one. Proof. vm_compute. reflexivity. Qed.
Lemma last_one : skipn 57 one_signature = repeat 0 57. Proof. vm_compute. reflexivity. Qed.
Lemma one_bytes114 : bytes 114 one_signature. Proof. apply bytes_lit. vm_compute. reflexivity. Qed.
Section Case.
Variables (m : scheme448) (M junk : list Z).
Hypothesis J : words 2 junk.
Lemma case_additions sig : length sig = 114%nat -> skipn 57 sig = repeat 0 57 -> additions448 em junk key_hash m M minus_key sig =
  entries_ops448 em 7 minus_decoded (table_entry448 em (doubling448_4w em minus_decoded)).
Proof.
  intros L E. rewrite additions448_eq, E, challenge_hash by (rewrite firstn_length, L; reflexivity).
  rewrite (red_zero em junk J), (no_additions junk _ J), minus_decoding. exact eq_refl.
Qed.
Lemma case_free sig : length sig = 114%nat -> skipn 57 sig = repeat 0 57 -> forall q e, In (q, e) (additions448 em junk key_hash m M minus_key sig) -> borrow_free448 em q e.
Proof.
  intros L E q e Hin. rewrite (case_additions sig L E) in Hin. exact (bf448_gen (mix448_ABCD em) limbs_2_34P448 _ entries_free q e Hin).
Qed.
Lemma zero_reduced : le_val (firstn 56 (modular_reduction_ed448 em junk (repeat 0 114))) = 0.
Proof. rewrite (red_zero em junk J). vm_compute. reflexivity. Qed.
Lemma challenge_zero R : length R = 57%nat -> challenge448 key_hash m R minus_key M = 0.
Proof. intro L. unfold challenge448. rewrite (challenge_hash m R _ M L). vm_compute. reflexivity. Qed.
Lemma nonce_zero sk : length sk = 57%nat -> nonce448 key_hash m sk M = 0.
Proof. intro L. unfold nonce448. rewrite (nonce_hash m sk M L). vm_compute. reflexivity. Qed.
Theorem verify_case : regular_key em minus_key minus_B /\ bytes 114 one_signature /\
  le_val (skipn 57 one_signature) < 2 ^ 448 /\ kept (le_val (skipn 57 one_signature)) /\
  no_lost_carry448 (le_val (key_hash 114 (challenge_input448 key_hash m (firstn 57 one_signature) minus_key M))) /\
  kept (le_val (firstn 56 (modular_reduction_ed448 em junk (key_hash 114 (challenge_input448 key_hash m (firstn 57 one_signature) minus_key M))))) /\
  plain (add448 (le_val (skipn 57 one_signature) ** B_ed448) (neg448 (challenge448 key_hash m (firstn 57 one_signature) minus_key M ** minus_B))) /\
  (forall q e, In (q, e) (additions448 em junk key_hash m M minus_key one_signature) -> borrow_free448 em q e) /\
  equation448 key_hash m minus_B minus_key M one_signature.
Proof.
  pose proof (case_free one_signature eq_refl last_one) as Fr.
  rewrite first_one, (challenge_zero key_one eq_refl), (challenge_hash m key_one _ M eq_refl), zero_reduced.
  rewrite (equation448_eq key_hash m minus_B M minus_key one_signature ed_zero); rewrite last_one, zero_val; [|rewrite first_one, (challenge_zero key_one eq_refl); exact (zero_sum _ minus_on)].
  rewrite (zero_sum _ minus_on), first_one, zero_val.
  split; [exact minus_regular|]. split; [exact one_bytes114|]. split; [reflexivity|]. split; [exact kept_zero|]. split; [exact zero_keep|].
  split; [exact kept_zero|]. split; [exact plain_zero|]. split; [exact Fr|exact one_key_encodes].
Qed.
(** ** The signature made by the library *)
Lemma s_zero a : bytes 56 (firstn 56 a) -> mac 0 (repeat 0 7) (words_of 7 (firstn 56 a)) = 0 -> calculate_s_ed448 em junk (repeat 0 114) (repeat 0 114) a = repeat 0 57.
Proof.
  intros Ba E0. unfold calculate_s_ed448.
  assert (E : word64_multiplier em (words_of 7 (firstn 56 (repeat 0 114)) ++ repeat 0 9) (words_of 7 (firstn 56 (repeat 0 114))) (words_of 7 (firstn 56 a)) = repeat 0 16).
  { change (words_of 7 (firstn 56 (repeat 0 114))) with (repeat 0 7). change (repeat 0 7 ++ repeat 0 9) with (repeat 0 16).
    destruct (words_of_ok 7 _ Ba) as [W _]. destruct (mul_ok448 em (repeat 0 16) (repeat 0 7) (words_of 7 (firstn 56 a)) 1) as [X Y].
    - rewrite (proj1 W). exact (repeat0_words 16).
    - exact (proj2 (repeat0_words 7)).
    - exact (proj2 W).
    - rewrite (proj1 W) in X. apply words_zero; [exact X|]. rewrite Y. exact E0. }
  rewrite E. change (firstn 114 (bytes_of (repeat 0 16))) with (repeat 0 114). rewrite (red_zero em junk J). reflexivity.
Qed.
Lemma key_s : calculate_s_ed448 em junk (repeat 0 114) (repeat 0 114) (clamp_bytes_ed448 key_digest) = repeat 0 57.
Proof. apply s_zero; [apply bytes_lit|]; vm_compute; reflexivity. Qed.
Section Sign.
Variables K0 S0 sk sig0 : list Z.
Hypothesis LK : length K0 = 115%nat.
Hypothesis LS : length S0 = 115%nat.
Hypothesis Lsk : length sk = 57%nat.
Hypothesis Lc : (length (context448 m) <= 255)%nat.
Local Notation reduced x := (le_val (firstn 56 (modular_reduction_ed448 em junk (key_hash 114 x)))).
Lemma sign_facts : no_lost_carry448 (le_val (key_hash 114 (nonce_input448 key_hash m sk M))) /\ good_scalar (reduced (nonce_input448 key_hash m sk M)) /\
  plain (nonce448 key_hash m sk M ** B_ed448) /\
  forall R, encodes448 R (nonce448 key_hash m sk M ** B_ed448) -> no_lost_carry448 (le_val (key_hash 114 (challenge_input448 key_hash m R minus_key M))) /\
     no_lost_carry (reduced (nonce_input448 key_hash m sk M)) 7 7 (reduced (challenge_input448 key_hash m R minus_key M)) (secret448 key_hash sk) /\
     no_lost_carry448 (reduced (nonce_input448 key_hash m sk M) + reduced (challenge_input448 key_hash m R minus_key M) * secret448 key_hash sk) /\
     kept (reduced (challenge_input448 key_hash m R minus_key M)).
Proof using J Lsk. clear LK LS Lc.
  rewrite (nonce_hash m sk M Lsk), zero_reduced, zero_val, (nonce_zero sk Lsk), mul448_0, (key_secret sk Lsk).
  split; [exact zero_keep|]. split; [exact good_zero|]. split; [exact plain_zero|].
  intros R [[LR _] _]. rewrite (challenge_hash m R _ M LR), zero_reduced, zero_val. split; [exact zero_keep|].
  split; [apply keepf_ok; vm_compute; reflexivity|]. split; [exact zero_keep|exact kept_zero].
Qed.
Lemma sign_last : length (snd (sign448_with em junk K0 S0 key_hash m sig0 M minus_key sk)) = 114%nat /\
  skipn 57 (snd (sign448_with em junk K0 S0 key_hash m sig0 M minus_key sk)) = repeat 0 57.
Proof using J LK LS Lsk Lc.
  destruct sign_facts as (F1 & F2 & F3 & F4).
  pose proof (sign448_at em junk K0 S0 J LK LS key_hash key_hash_ok m sig0 M minus_key sk Lc F1 F2 F3
    (fun R E => conj (proj1 (F4 R E)) (conj (proj1 (proj2 (F4 R E))) (proj1 (proj2 (proj2 (F4 R E))))))) as Sg.
  rewrite (sign448_with_body em junk K0 S0 key_hash m sig0 M minus_key sk Lc) in *. cbn [snd]. destruct Sg as (_ & [L _] & [[L57 _] _] & _).
  split; [exact L|]. revert L L57. cbv beta zeta delta [sign_body448]. rewrite (clamp448_tail _ (key_hash_ok sk)). fold (nonce_input448 key_hash m sk M).
  rewrite (nonce_hash m sk M Lsk), (red_zero em junk J).
  assert (LR := encoding448_length em (fixed_point_multiplication448 em junk K0 S0 (repeat 0 114))).
  set (R := point_encoding448 _ _) in *. clearbody R. intros _ _.
  rewrite (challenge_hash m R _ M LR), (red_zero em junk J), key_hash_114, Lsk. cbn [Nat.eqb]. rewrite key_s. rewrite <- LR, skipn_app, Nat.sub_diag, skipn_all. reflexivity.
Qed.
Theorem roundtrip_case : let sig := snd (sign448_with em junk K0 S0 key_hash m sig0 M minus_key sk) in
  regular_key em minus_key (secret448 key_hash sk ** B_ed448) /\ kept (le_val (skipn 57 sig)) /\
  (forall q e, In (q, e) (additions448 em junk key_hash m M minus_key sig) -> borrow_free448 em q e).
Proof using J LK LS Lsk Lc.
  cbv zeta. rewrite (key_point_B sk Lsk). destruct sign_last as [L S]. split; [exact minus_regular|].
  split; [rewrite S, zero_val; exact kept_zero|]. exact (case_free _ L S).
Qed.
End Sign.
End Case.
