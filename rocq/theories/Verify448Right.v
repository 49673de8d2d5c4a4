(** Ed448 verification decides the verification equation, and signatures made by the library verify, under explicit conditions. *)
From Coq Require Import ZArith List Bool Lia.
From Verif Require Import Uop Engine Bytes Lanes Fp448Full Fp448RedProofs Edwards255 EdVec SpecVec SpecScalar Scalar448 ScalarProps SpecEd SpecIso CurveInst EdInst448 Edwards448 Edwards448Proofs Verify448Proofs
  TableProofs448 SpecSign448 Sign255 Sign448 Sign448Proofs LadderX448 Keygen448Proofs SpecDecode448 Decode448Case Ops448 VerifyMul448.
From Verif Require Sign255Proofs EdProps448 RedProps RedTac.
Import ListNotations.
Open Scope Z_scope.
Notation B := B_ed448.
Notation "k ** P" := (mul448 k P) (at level 40).

(** The mixed additions of a verification *)
Definition additions448 (st : store) (junk : list Z) (H : nat -> list Z -> list Z) (m : scheme448) (M pk sig : list Z) : list (list Z * list Z) :=
  mixed_additions448 st junk (skipn 57 sig) (modular_reduction_ed448 st junk (H 114%nat (challenge_input448 H m (firstn 57 sig) pk M))) (snd (point_decoding448 st pk)).
(** No limb of (y1-x1)(y2-x2) exceeds that of (y1+x1)(y2+x2) + 2^34 p; the products are those formed by the code *)
Definition borrow_free448 (st : store) (q e : list Z) : Prop :=
  forall i, (i < 16)%nat -> nth i (lane 4 16 0 (mix448_ABCD st q e)) 0 <= nth i (lane 4 16 1 (mix448_ABCD st q e)) 0 + nth i limbs_2_34P448 0.
(** A key that decompression handles (C76) and whose point is in the prime-order subgroup *)
Definition regular_key (st : store) (pk : list Z) (P : Z * Z) : Prop :=
  on448 P /\ encodes448 pk P /\ regular_y (snd P) /\ regular_x (fst P) /\ spread_x (fst P) /\ square_fits st (fst P) /\ l_ed448 ** P = ed_zero.
Lemma same448 a b P : encodes448 b P -> encodes448 a P <-> a = b.
Proof.
  intros [Bb Vb]. split; [|intros ->; split; assumption]. intros [Ba Va]. apply le_val_inj; [rewrite (proj1 Ba), (proj1 Bb); reflexivity|exact (proj2 Ba)|exact (proj2 Bb)|].
  rewrite Va, Vb. reflexivity.
Qed.
Lemma rest448 sig F D out : fst D = 0 -> F (snd D) = Some out -> verify_rest448 sig F D = if same_bytes 57 sig out then EDDSA_VERIFICATION_OK else EDDSA_INVALID_SIGNATURE.
Proof. destruct D as [r A]. cbn [fst snd]. intros -> E. unfold verify_rest448. rewrite E. reflexivity. Qed.
Section Right.
Variable st : store.
Variable junk : list Z.
Hypothesis HJ : words 2 junk.
Variable H : nat -> list Z -> list Z.
Hypothesis HB : forall x, bytes 114 (H 114%nat x).
Lemma free_clean448 q e : borrow_free448 st q e -> mix_clean448 st q e.
Proof using.
  clear HJ HB. intro C. unfold borrow_free448 in C. rewrite !RedProps.lane4 in C. unfold mix_clean448.
  apply EdProps448.no_borrow_nth; [rewrite !RedTac.pick_length; reflexivity|rewrite RedTac.pick_length; reflexivity|]. rewrite RedTac.pick_length. exact C.
Qed.
Lemma quarter_eq s h : bytes 57 s -> firstn 56 h = firstn 56 s -> kept (le_val (firstn 56 h)) -> eqm L448 (4 * le_val (div4 st junk h)) (le_val (firstn 56 h)).
Proof using HJ. clear HB.
  intros Hs E [K1 K2]. rewrite (div4_first st junk h s E), E in *. destruct (div4_spec st junk s HJ Hs) as (_ & _ & Q). exact (proj1 (Q K1 K2)).
Qed.
Lemma mults_first s s' h h' p : firstn 56 s = firstn 56 s' -> firstn 56 h = firstn 56 h' ->
  double_point_mult448_4w st junk s h p = double_point_mult448_4w st junk s' h' p /\ mixed_additions448 st junk s h p = mixed_additions448 st junk s' h' p.
Proof using. clear HJ HB.
  intros E1 E2. unfold double_point_mult448_4w, mixed_additions448. rewrite (div4_first st junk s s' E1), (div4_first st junk h h' E2). split; reflexivity.
Qed.
Theorem equation_right s h p A k R : bytes 57 s -> bytes 114 h -> pt448_4w p (neg448 A) -> on448 A -> l_ed448 ** A = ed_zero ->
  le_val s < 2 ^ 448 -> kept (le_val s) -> kept (le_val (firstn 56 h)) -> eqm L448 (le_val (firstn 56 h)) k ->
  (forall q e, In (q, e) (mixed_additions448 st junk s h p) -> borrow_free448 st q e) ->
  add448 (le_val s ** B) (neg448 (k ** A)) = R -> plain R -> exists out, double_point_mult448_4w st junk s h p = Some out /\ encodes448 out R.
Proof using HJ. clear HB.
  intros Hs Hh Hp On Or Ls K1 K2 Ek Hc ER [N1 N2].
  assert (H57 : bytes 57 (firstn 57 h)).
  { destruct Hh as [Lh Fh]. split; [rewrite firstn_length; lia|]. rewrite <- (firstn_skipn 57 h) in Fh. exact (proj1 (proj1 (Forall_app _ _ _) Fh)). }
  destruct (mults_first s s h (firstn 57 h) p eq_refl (first57 h)) as [D1 D2]. rewrite D1. rewrite D2 in Hc. clear D1 D2.
  assert (E56 : le_val (firstn 56 s) = le_val s) by (apply (low56 (repeat 0 115) (repeat 0 115) eq_refl eq_refl); [exact Hs|split; [exact (proj1 (le_val_bound _ (proj2 Hs)))|exact Ls]]).
  pose proof (quarter_eq s s Hs eq_refl ltac:(rewrite E56; exact K1)) as Q1. rewrite E56 in Q1.
  pose proof (quarter_eq (firstn 57 h) (firstn 57 h) H57 eq_refl ltac:(rewrite <- first57; exact K2)) as Q2. rewrite <- first57 in Q2.
  apply (double_mult448_ok st junk s (firstn 57 h) p (neg448 A) (le_val (div4 st junk s)) (le_val (div4 st junk (firstn 57 h))) R HJ Hs H57 Hp
    (fun q e Hq => free_clean448 q e (Hc q e Hq)) eq_refl eq_refl); [|exact N1|exact N2].
  rewrite <- ER. rewrite (order_eq _ _ B onB order_B448 Q1). rewrite (mul448_neg _ A On).
  rewrite (order_eq _ k A On Or); [reflexivity|]. unfold eqm in *. rewrite Q2. exact Ek.
Qed.
Lemma rest_right sig h D A k R : bytes 114 sig -> bytes 114 h -> fst D = 0 -> pt448_4w (snd D) (neg448 A) -> on448 A -> l_ed448 ** A = ed_zero ->
  le_val (skipn 57 sig) < 2 ^ 448 -> kept (le_val (skipn 57 sig)) -> kept (le_val (firstn 56 h)) -> eqm L448 (le_val (firstn 56 h)) k ->
  (forall q e, In (q, e) (mixed_additions448 st junk (skipn 57 sig) h (snd D)) -> borrow_free448 st q e) ->
  add448 (le_val (skipn 57 sig) ** B) (neg448 (k ** A)) = R -> plain R ->
  (verify_rest448 sig (double_point_mult448_4w st junk (skipn 57 sig) h) D = EDDSA_VERIFICATION_OK /\ encodes448 (firstn 57 sig) R) \/
  (verify_rest448 sig (double_point_mult448_4w st junk (skipn 57 sig) h) D = EDDSA_INVALID_SIGNATURE /\ ~ encodes448 (firstn 57 sig) R).
Proof using HJ. clear HB.
  intros Bs Bh D0 Dp On Or Ls K1 K2 Ek Hb ER Pl.
  assert (B57 : bytes 57 (skipn 57 sig)).
  { destruct Bs as [L0 F0]. split; [rewrite skipn_length; lia|]. rewrite <- (firstn_skipn 57 sig) in F0. exact (proj2 (proj1 (Forall_app _ _ _) F0)). }
  destruct (equation_right (skipn 57 sig) h (snd D) A k R B57 Bh Dp On Or Ls K1 K2 Ek Hb ER Pl) as (out & Eo & En).
  rewrite (rest448 sig _ D out D0 Eo).
  pose proof (same448 (firstn 57 sig) out R En) as Eq. pose proof (Sign255Proofs.same_bytes_ok 57 sig out ltac:(rewrite (proj1 Bs); lia) (proj1 (proj1 En))) as Sb.
  clear - Eq Sb. destruct (same_bytes 57 sig out) eqn:E; [left|right]; (split; [reflexivity|]).
  - apply Eq, Sb. reflexivity.
  - intro X. apply Eq in X. apply Sb in X. discriminate X.
Qed.
Lemma additions448_eq m M pk sig : additions448 st junk H m M pk sig =
  mixed_additions448 st junk (skipn 57 sig) (modular_reduction_ed448 st junk (H 114%nat (challenge_input448 H m (firstn 57 sig) pk M))) (snd (point_decoding448 st pk)).
Proof using. exact (eq_refl (mixed_additions448 st junk (skipn 57 sig) (modular_reduction_ed448 st junk (H 114%nat (challenge_input448 H m (firstn 57 sig) pk M))) (snd (point_decoding448 st pk)))). Qed.
Lemma equation448_eq m A M pk sig R : add448 (le_val (skipn 57 sig) ** B) (neg448 (challenge448 H m (firstn 57 sig) pk M ** A)) = R ->
  equation448 H m A pk M sig = encodes448 (firstn 57 sig) R.
Proof using. clear HJ HB. intros <-. reflexivity. Qed.
Lemma reduced_challenge m M pk R : no_lost_carry448 (le_val (H 114%nat (challenge_input448 H m R pk M))) ->
  let h := modular_reduction_ed448 st junk (H 114%nat (challenge_input448 H m R pk M)) in bytes 114 h /\ in_range (le_val (firstn 56 h)) (challenge448 H m R pk M).
Proof using HJ HB.
  intro Kc. destruct (reduced448 st junk (repeat 0 115) (repeat 0 115) HJ eq_refl eq_refl _ (HB (challenge_input448 H m R pk M)) Kc) as (Bh & _ & Rh). exact (conj Bh Rh).
Qed.
Theorem verify_right448 m A M pk sig : (length (context448 m) <= 255)%nat -> regular_key st pk A -> bytes 114 sig ->
  le_val (skipn 57 sig) < 2 ^ 448 -> kept (le_val (skipn 57 sig)) ->
  no_lost_carry448 (le_val (H 114%nat (challenge_input448 H m (firstn 57 sig) pk M))) ->
  kept (le_val (firstn 56 (modular_reduction_ed448 st junk (H 114%nat (challenge_input448 H m (firstn 57 sig) pk M))))) ->
  plain (add448 (le_val (skipn 57 sig) ** B) (neg448 (challenge448 H m (firstn 57 sig) pk M ** A))) ->
  (forall q e, In (q, e) (additions448 st junk H m M pk sig) -> borrow_free448 st q e) ->
  (verify448_with st junk H m M pk sig = EDDSA_VERIFICATION_OK /\ equation448 H m A pk M sig) \/
  (verify448_with st junk H m M pk sig = EDDSA_INVALID_SIGNATURE /\ ~ equation448 H m A pk M sig).
Proof using HJ HB.
  intros L (On & Ep & Ry & Rx & Sx & Sf & Or) Bs Ls K1 Kc K2 Pl Hb.
  destruct (reduced_challenge m M pk (firstn 57 sig) Kc) as [Bh Rh].
  destruct (key_decoded st pk A On Ep Ry Rx Sx Sf) as [D0 Dp].
  rewrite (verify448_with_body st junk H m M pk sig L), verify_body448_eq. rewrite (equation448_eq m A M pk sig _ eq_refl).
  rewrite (additions448_eq m M pk sig) in Hb. destruct Rh as [_ Rh2].
  exact (rest_right sig (modular_reduction_ed448 st junk (H 114%nat (challenge_input448 H m (firstn 57 sig) pk M))) (point_decoding448 st pk) A
    (challenge448 H m (firstn 57 sig) pk M) (add448 (le_val (skipn 57 sig) ** B) (neg448 (challenge448 H m (firstn 57 sig) pk M ** A))) Bs Bh D0 Dp On Or Ls K1 K2 Rh2 Hb eq_refl Pl).
Qed.
Lemma signed_point S n k a : eqm L448 S (n + k * a) -> add448 (S ** B) (neg448 (k ** (a ** B))) = n ** B.
Proof using. clear HJ HB.
  intro E. rewrite (order_eq _ _ B onB order_B448 E), mul448_add by exact onB. rewrite (mul448_mul k a B onB).
  rewrite add448_assoc by (try apply neg448_on; apply mul448_on; try apply mul448_on; exact onB).
  rewrite add448_neg by (apply mul448_on, mul448_on; exact onB). rewrite add448_zero by (apply mul448_on; exact onB). reflexivity.
Qed.
Variables K0 S0 : list Z.
Hypothesis LK : length K0 = 115%nat.
Hypothesis LS : length S0 = 115%nat.
(** The value left by the reduction of a hash *)
Local Notation reduced x := (le_val (firstn 56 (modular_reduction_ed448 st junk (H 114%nat x)))).
Theorem roundtrip448 m sig0 M pk sk : (length (context448 m) <= 255)%nat -> regular_key st pk (secret448 H sk ** B) ->
  no_lost_carry448 (le_val (H 114%nat (nonce_input448 H m sk M))) -> good_scalar (reduced (nonce_input448 H m sk M)) -> plain (nonce448 H m sk M ** B) ->
  (forall R, encodes448 R (nonce448 H m sk M ** B) -> no_lost_carry448 (le_val (H 114%nat (challenge_input448 H m R pk M))) /\
     no_lost_carry (reduced (nonce_input448 H m sk M)) 7 7 (reduced (challenge_input448 H m R pk M)) (secret448 H sk) /\
     no_lost_carry448 (reduced (nonce_input448 H m sk M) + reduced (challenge_input448 H m R pk M) * secret448 H sk) /\
     kept (reduced (challenge_input448 H m R pk M))) ->
  let sig := snd (sign448_with st junk K0 S0 H m sig0 M pk sk) in
  kept (le_val (skipn 57 sig)) ->
  (forall q e, In (q, e) (additions448 st junk H m M pk sig) -> borrow_free448 st q e) ->
  fst (sign448_with st junk K0 S0 H m sig0 M pk sk) = EDDSA_SIGNATURE_OK /\ verify448_with st junk H m M pk sig = EDDSA_VERIFICATION_OK.
Proof.
  intros L Rk Kn Gn Pn Hr. cbv zeta.
  pose proof (sign448_at st junk K0 S0 HJ LK LS H HB m sig0 M pk sk L Kn Gn Pn
    (fun R E => conj (proj1 (Hr R E)) (conj (proj1 (proj2 (Hr R E))) (proj1 (proj2 (proj2 (Hr R E))))))) as Sg.
  destruct (sign448_with st junk K0 S0 H m sig0 M pk sk) as [ret sig]. cbn [fst snd]. destruct Sg as (-> & Bs & ER & [Rs Es] & _). intros Ks Hb. split; [reflexivity|].
  destruct (Hr _ ER) as (Kc & _ & _ & K2).
  pose proof (signed_point _ _ _ _ Es) as Eq.
  destruct (verify_right448 m (secret448 H sk ** B) M pk sig L Rk Bs) as [[E _]|[_ E]].
  - apply (Z.lt_trans _ _ _ (proj2 Rs)). vm_compute. reflexivity.
  - exact Ks.
  - exact Kc.
  - exact K2.
  - rewrite Eq. exact Pn.
  - exact Hb.
  - exact E.
  - exfalso. apply E. unfold equation448. rewrite Eq. exact ER.
Qed.
End Right.
