(** A signature that ed448_verify accepts: the neutral element as public key and as R, S = 0, and a hash whose output is zero. *)
From Coq Require Import ZArith List Bool Lia.
From Verif Require Import Uop X86 Sym Engine Bytes Check FullTac Lanes RedTac Simd Simd448 Fp448Full Fp448FullProofs FullMore
  Fp25519Red Fp25519RedProofs Fp25519RedMore Fp448Red Fp448RedProofs Fp448RedMore Fp448RedRoot Spec SpecScalar Scalar Scalar448 ScalarProofs Scalar448Proofs ScalarProps Recode Ladder LadderProofs LadderVec LadderVec448 LadderX448
  SpecEd SpecIso SpecSign448 CurveInst EdInst448 Edwards255 EdVec Edwards255Proofs Sign255 Edwards448 EdVec448 Edwards448Proofs Encode448Proofs Sign448 Sign448Proofs.
Import ListNotations.
Open Scope Z_scope.
Definition one16 : list Z := 1 :: repeat 0 15.
Definition exactly (l : list Z) : list (Z * Z) := map (fun x => (x, x)) l.
Lemma exactly_eq l : forall a, arr_ok (exactly l) a -> a = l.
Proof.
  induction l as [|x l IH]; intros a H; inversion H as [|? y ? a' Iy Ha E1 E2]; subst; [reflexivity|]. f_equal; [|exact (IH _ Ha)].
  unfold inI in Iy. cbn [fst snd] in Iy. lia.
Qed.
Lemma exactly_ok l : arr_ok (exactly l) l.
Proof. induction l as [|x l IH]; constructor; [|exact IH]. unfold inI. cbn [fst snd]. lia. Qed.
Definition dm16 : list Z := minus_one param_curve_d448.
Section N.
Variable st : store.
Ltac one prog xs out ob e ins := do_one prog wt448 xs out ob Q e ins st.
Lemma sqr_one : sqr448_1w st one16 = one16.
Proof.
  assert (H : cq (fe448 (sqr448_1w st one16)) (fe448 one16 * fe448 one16) /\ arr_ok (exactly one16) (sqr448_1w st one16)).
  { pose proof (exactly_ok one16). one v448_1w_sqrn1 [(q1, exactly one16)] q1 (exactly one16) (VMul (VIn 0) (VIn 0)) [one16]. }
  exact (exactly_eq _ _ (proj2 H)).
Qed.
Lemma mul_one_d : mul448_1w st one16 param_curve_d448 = param_curve_d448.
Proof.
  assert (H : cq (fe448 (intmul448_1w st one16 param_curve_d448)) (fe448 one16 * fe448 param_curve_d448) /\ arr_ok (exactly param_curve_d448) (intmul448_1w st one16 param_curve_d448)).
  { pose proof (exactly_ok one16). pose proof (exactly_ok param_curve_d448).
    one v448_1w_intmul_sb [(q2, exactly one16); (q3, exactly param_curve_d448)] q1 (exactly param_curve_d448) (VMul (VIn 0) (VIn 1)) [one16; param_curve_d448]. }
  unfold mul448_1w. rewrite (exactly_eq _ _ (proj2 H)).
  assert (K : cq (fe448 (compress448_1w st param_curve_d448)) (fe448 param_curve_d448) /\ arr_ok (exactly param_curve_d448) (compress448_1w st param_curve_d448)).
  { pose proof (exactly_ok param_curve_d448). one v448_1w_compress [(q1, exactly param_curve_d448)] q1 (exactly param_curve_d448) (VIn 0) [param_curve_d448]. }
  exact (exactly_eq _ _ (proj2 K)).
Qed.
Notation zero16 := (repeat 0 16).
Lemma compress_zero : compress448_1w st zero16 = zero16.
Proof.
  assert (K : cq (fe448 (compress448_1w st zero16)) (fe448 zero16) /\ arr_ok (exactly zero16) (compress448_1w st zero16)).
  { pose proof (exactly_ok zero16). one v448_1w_compress [(q1, exactly zero16)] q1 (exactly zero16) (VIn 0) [zero16]. }
  exact (exactly_eq _ _ (proj2 K)).
Qed.
Lemma mul_zero b : is_mid448 b -> mul448_1w st zero16 b = zero16.
Proof.
  intro Hb.
  assert (H : cq (fe448 (intmul448_1w st zero16 b)) (fe448 zero16 * fe448 b) /\ arr_ok (exactly zero16) (intmul448_1w st zero16 b)).
  { pose proof (exactly_ok zero16). one v448_1w_intmul_sb [(q2, exactly zero16); (q3, mid448)] q1 (exactly zero16) (VMul (VIn 0) (VIn 1)) [zero16; b]. }
  unfold mul448_1w. rewrite (exactly_eq _ _ (proj2 H)). exact compress_zero.
Qed.
Lemma sqr_zero : sqr448_1w st zero16 = zero16.
Proof.
  assert (H : cq (fe448 (sqr448_1w st zero16)) (fe448 zero16 * fe448 zero16) /\ arr_ok (exactly zero16) (sqr448_1w st zero16)).
  { pose proof (exactly_ok zero16). one v448_1w_sqrn1 [(q1, exactly zero16)] q1 (exactly zero16) (VMul (VIn 0) (VIn 0)) [zero16]. }
  exact (exactly_eq _ _ (proj2 H)).
Qed.

Definition key_one : list Z := 1 :: repeat 0 56.
Lemma unser_one : unser448_1w st (firstn 56 key_one) = one16.
Proof.
  destruct (unser448_1w_ok st (firstn 56 key_one) ltac:(apply bytes_lit; vm_compute; reflexivity)) as [E C].
  set (a := unser448_1w st _) in *. clearbody a.
  assert (H : fe448 a = 1) by (rewrite E; reflexivity). clear E. pose proof (arr_len _ _ C) as L.
  destruct a as [|a0 [|a1 [|a2 [|a3 [|a4 [|a5 [|a6 [|a7 [|a8 [|a9 [|a10 [|a11 [|a12 [|a13 [|a14 [|a15 [|]]]]]]]]]]]]]]]]]; try discriminate L.
  unfold arr_ok, canon448 in C. repeat (apply f2_inv in C as [? C]). clear C L. unfold inI in *. cbn [fst snd] in *.
  cbv [wsum wt448] in H. unfold one16. cbn [repeat].
  repeat match goal with |- ?x :: _ = _ :: _ => f_equal; [lia|] end. f_equal. lia.
Qed.
Lemma zero_mid : is_mid448 (repeat 0 16). Proof. apply arr_lit. vm_compute. reflexivity. Qed.
Lemma d_mid : is_mid448 dm16. Proof. apply arr_lit. vm_compute. reflexivity. Qed.
Lemma decode_one : decode_xy448 st key_one = (0, repeat 0 16, one16).
Proof.
  unfold decode_xy448. rewrite unser_one, sqr_one, mul_one_d.
  change (minus_one one16) with (repeat 0 16). change (minus_one param_curve_d448) with dm16.
  pose proof d_mid as D. set (v := dm16) in *. clearbody v.
  rewrite (mul_zero v D), sqr_zero, (mul_zero _ zero_mid), (mul_zero _ zero_mid).
  destruct (sqr448_1w_ok st v D) as [_ D2]. rewrite (mul_zero _ D2).
  assert (S : is_mid448 (srt448_1w st (repeat 0 16))).
  { destruct (invsqrt448_chain_ok rep1q (mul448_1w st) (sqr448_1w st) (rep1q_mul st) (rep1q_sqr st) (repeat 0 16) 0) as [R _]; [|exact R].
    split; [exact zero_mid|reflexivity]. }
  set (s := srt448_1w st _) in *. clearbody s. rewrite (mul_zero _ S), sqr_zero, (mul_zero _ D).
  assert (C : cmp448_1w st (repeat 0 16) (repeat 0 16) = 0).
  { apply cmp448_1w_ok; [apply mid_wide448; exact zero_mid..|reflexivity|reflexivity|reflexivity]. }
  rewrite C. reflexivity.
Qed.
Variable junk : list Z.
Hypothesis J : words 2 junk.
Lemma zero_bytes n : bytes n (repeat 0 n).
Proof. split; [apply repeat_length|]. apply Forall_forall. intros x Hx. apply repeat_spec in Hx. subst x. split; [discriminate|reflexivity]. Qed.
Lemma red_zero : modular_reduction_ed448 st junk (repeat 0 114) = repeat 0 114.
Proof.
  destruct (modred448_ok st junk (repeat 0 114) J (zero_bytes 114)) as (B & E & _).
  apply le_val_inj; [rewrite repeat_length; exact (proj1 B)|exact (proj2 B)|exact (proj2 (zero_bytes 114))|].
  rewrite E, red448f_ok. vm_compute. reflexivity.
Qed.
Lemma div4_zero : div4 st junk (repeat 0 56) = repeat 0 57.
Proof.
  unfold div4.
  assert (E : word64_multiplier st (repeat 0 16) ifour (words_of 7 (firstn 56 (repeat 0 56))) = repeat 0 16).
  { change (words_of 7 (firstn 56 (repeat 0 56))) with (repeat 0 7).
    destruct (mul_ok448 st (repeat 0 16) ifour (repeat 0 7) 1 (repeat0_words 16) (proj2 (proj2 consts448)) (proj2 (repeat0_words 7))) as [A B].
    apply words_zero; [exact A|]. rewrite B. vm_compute. reflexivity. }
  rewrite E. change (firstn 114 (bytes_of (repeat 0 16))) with (repeat 0 114). rewrite red_zero. reflexivity.
Qed.
Lemma wnaf_zero n w : wnaf_448bits st n (repeat 0 57) w = Some [].
Proof.
  unfold wnaf_448bits. change (words_of 8 _) with (repeat 0 8). destruct n; reflexivity.
Qed.
Lemma double_zero A : double_point_mult448_4w st junk (repeat 0 56) (repeat 0 114) A = Some (point_encoding448 st (isogeny_2w st (unzip448_2w_4w (neutral448_4w st)))).
Proof.
  unfold double_point_mult448_4w. rewrite (div4_first st junk (repeat 0 114) (repeat 0 56) eq_refl), div4_zero, !wnaf_zero. reflexivity.
Qed.
Lemma neutral_value : unzip448_2w_4w (neutral448_4w st) = ([0; 0; 1; 0] ++ repeat 0 28, [0; 0; 1; 0] ++ repeat 0 28).
Proof. unfold neutral448_4w. rewrite zero448_4w_ok. vm_compute. reflexivity. Qed.
Lemma mul4_zero : mul448 4 ed_zero = ed_zero.
Proof.
  pose proof zero448_on as Z. replace 4 with (2 * 2) by reflexivity. rewrite (mul448_mul 2 2 _ Z), !mul448_2, !(add448_zero _ Z). reflexivity.
Qed.
Lemma neutral_pt : pt448_2w (unzip448_2w_4w (neutral448_4w st)) ed_zero.
Proof.
  rewrite neutral_value. split; [reflexivity|]. split; [reflexivity|].
  change (ptv448 (repeat 0 16) (1 :: repeat 0 15) (1 :: repeat 0 15) (repeat 0 16) ed_zero).
  split; [exact zero448_on|]. do 4 (split; [apply arr_lit; vm_compute; reflexivity|]).
  apply iso448_affine; [exact zero448_on|reflexivity..].
Qed.
Lemma neutral_encoding : point_encoding448 st (isogeny_2w st (unzip448_2w_4w (neutral448_4w st))) = key_one.
Proof.
  pose proof (isogeny_2w_ok st _ _ neutral_pt) as P. rewrite mul4_zero in P.
  destruct (point_encoding448_ok st _ _ P) as [[L B] E].
  - intros [H _]. apply H. reflexivity.
  - intros [H _]. apply H. reflexivity.
  - apply le_val_inj; [rewrite L; reflexivity|exact B| |rewrite E; reflexivity].
    apply (bytes_lit 57). reflexivity.
Qed.
Lemma key_point : fst (point_decoding448 st key_one) = 0.
Proof. unfold point_decoding448. rewrite decode_one. reflexivity. Qed.
(** The signature (R, S) = (encoding of the neutral element, 0 with any last byte) *)
Theorem neutral_accepted H m M b : (length (context448 m) <= 255)%nat ->
  H 114%nat (challenge_input448 H m key_one key_one M) = repeat 0 114 ->
  verify448_with st junk H m M key_one (key_one ++ repeat 0 56 ++ [b]) = EDDSA_VERIFICATION_OK.
Proof.
  intros L E. rewrite app_assoc, (verify448_last_byte st junk H m M key_one (key_one ++ repeat 0 56) b 0 eq_refl).
  rewrite verify448_with_body by exact L. rewrite verify_body448_eq.
  change (firstn 57 ((key_one ++ repeat 0 56) ++ [0])) with key_one. rewrite E, red_zero.
  change (skipn 57 ((key_one ++ repeat 0 56) ++ [0])) with (repeat 0 57).
  rewrite (surjective_pairing (point_decoding448 st key_one)), key_point.
  set (A := snd _). clearbody A. unfold verify_rest448. cbn [negb Z.eqb].
  rewrite (double448_first st junk (repeat 0 57) (repeat 0 56) _ A eq_refl), double_zero, neutral_encoding. reflexivity.
Qed.
End N.
Lemma last_byte_free : exists H pk sig, bytes 57 pk /\ length sig = 113%nat /\ forall st junk m M b, words 2 junk -> (length (context448 m) <= 255)%nat ->
  verify448_with st junk H m M pk (sig ++ [b]) = EDDSA_VERIFICATION_OK.
Proof.
  exists (fun n _ => repeat 0 n), key_one, (key_one ++ repeat 0 56). split; [apply bytes_lit; reflexivity|]. split; [reflexivity|].
  intros st junk m M b J L. rewrite <- app_assoc. apply neutral_accepted; [exact J|exact L|reflexivity].
Qed.
Lemma large_S_accepted : exists H pk sig, (forall x, bytes 114 (H 114%nat x)) /\ bytes 57 pk /\ bytes 114 sig /\ L448 <= le_val (skipn 57 sig) /\
  forall st junk m M, words 2 junk -> (length (context448 m) <= 255)%nat -> verify448_with st junk H m M pk sig = EDDSA_VERIFICATION_OK.
Proof.
  exists (fun n _ => repeat 0 n), key_one, (key_one ++ repeat 0 56 ++ [1]). split; [intros _; apply zero_bytes|]. split; [apply bytes_lit; reflexivity|].
  split; [apply bytes_lit; reflexivity|]. split; [vm_compute; discriminate|].
  intros st junk m M J L. apply neutral_accepted; [exact J|exact L|reflexivity].
Qed.
