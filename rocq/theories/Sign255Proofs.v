(** Ed25519 key generation, signing and verification. *)
From Coq Require Import ZArith List Bool Lia.
From Verif Require Import Uop X86 Engine Bytes Fp25519Full Fp25519Red Spec SpecVec Lanes RedProps SpecScalar Scalar448Proofs Scalar ScalarProps SpecEd EdInst Edwards255 Edwards255Proofs Verify255 Verify255Proofs
  SpecRecode Recode Table255 TableProofs255 SpecEdVec Fixed255 Fixed255Proofs FixedProps EdProps Decode255 Decode255Proofs VerifyMulProofs Sign255 SpecSign.
Import ListNotations.
Open Scope Z_scope.
Notation B := B_ed255.
Notation "k ** P" := (mul255 k P) (at level 40).

Lemma same_bytes_ok n : forall a b, (n <= length a)%nat -> length b = n -> same_bytes n a b = true <-> firstn n a = b.
Proof.
  induction n as [|n IH]; intros a b La Lb.
  - destruct b; [|discriminate Lb]. split; intros _; reflexivity.
  - destruct a as [|x a]; [inversion La|]. destruct b as [|y b]; [discriminate Lb|]. cbn [length] in *. cbn [same_bytes hd tl firstn].
    rewrite andb_true_iff, Z.eqb_eq, IH by lia. split; [intros [-> ->]; reflexivity|intro E; injection E as -> ->; split; reflexivity].
Qed.
Lemma domain_ok pure ph m : match m with Pure => pure <> 0 | Ctx _ => pure = 0 /\ ph = 0 | Ph _ => pure = 0 /\ ph = 1 end ->
  (length (context_of m) <= 255)%nat -> domain pure ph (context_of m) = dom m.
Proof.
  intros Hm L. unfold domain. destruct m as [|c|c]; cbn [context_of dom] in *.
  - destruct (Z.eqb_spec pure 0) as [E|_]; [contradiction|reflexivity].
  - destruct Hm as [-> ->]. change (0 =? 0) with true. cbv iota. unfold dom2. rewrite Z.mod_small by lia. reflexivity.
  - destruct Hm as [-> ->]. change (0 =? 0) with true. cbv iota. unfold dom2. rewrite Z.mod_small by lia. reflexivity.
Qed.

(** Scalars come out as the residue or as the residue less the order, modulo 2^256 *)
Definition top_residue : Z := 2 ^ 252 - 42 * (L25519 - 2 ^ 252).
Definition scalar_for (x v : Z) : Prop := v = x mod L25519 \/ (v = 2 ^ 256 - L25519 + x mod L25519 /\ top_residue <= x mod L25519).
Lemma l_same : l_ed255 = L25519. Proof. reflexivity. Qed.
Lemma scalar_mult x v : scalar_for x v -> (v - (if carry_limit 64 <=? v then 2 ^ 256 else 0)) ** B = x ** B.
Proof.
  intro Hv. unfold scalar_for in Hv. pose proof (Z.mod_pos_bound x L25519 ltac:(reflexivity)) as Bx.
  
  assert (E : v - (if carry_limit 64 <=? v then 2 ^ 256 else 0) = x mod L25519 \/ v - (if carry_limit 64 <=? v then 2 ^ 256 else 0) = x mod L25519 - L25519).
  { assert (L1 : L25519 < carry_limit 64) by reflexivity. assert (L2 : carry_limit 64 <= 2 ^ 256 - L25519) by (vm_compute; discriminate).
    set (c := carry_limit 64) in *. clearbody c. set (w := 2 ^ 256) in *. clearbody w. set (n := L25519) in *. clearbody n.
    destruct Hv as [->|[-> _]]; [left; destruct (Z.leb_spec c (x mod n)); lia|right; destruct (Z.leb_spec c (w - n + x mod n)); lia]. }
  assert (M : (x mod L25519) ** B = x ** B) by (apply mul255_mod; [exact on_base|reflexivity|exact order_B]).
  destruct E as [->| ->]; [exact M|]. replace (x mod L25519 - L25519) with (x mod L25519 + (-1) * L25519) by ring.
  rewrite mul255_add by exact on_base. rewrite M. rewrite mul255_mul by exact on_base. rewrite (order_B : L25519 ** B = ed_zero).
  assert (Z0 : (-1) ** ed_zero = ed_zero) by (vm_compute; reflexivity). rewrite Z0. apply add255_zero. apply mul255_on, on_base.
Qed.

(** No borrow in the four-lane mixed addition of q and e (hypothesis of C43_mixadd_4w_partial) *)
Definition borrow_free (st : store) (q e : list Z) : Prop :=
  forall i, (i < 10)%nat -> nth i (lane 4 10 0 (mix_ABCD st q e)) 0 <= nth i (lane 4 10 1 (mix_ABCD st q e)) 0 + nth i limbs_2_34P 0.
Lemma no_borrow_nth n : forall a b c, length a = n -> length b = n -> length c = n -> (forall i, (i < n)%nat -> nth i a 0 <= nth i b 0 + nth i c 0) -> no_borrow b a c.
Proof.
  induction n as [|n IH]; intros [|a0 a] [|b0 b] [|c0 c] La Lb Lc H; try discriminate; cbn [no_borrow]; [exact Logic.I|].
  split; [exact (H 0%nat ltac:(lia))|]. apply IH; [now injection La|now injection Lb|now injection Lc|]. intros i Hi. exact (H (Datatypes.S i) ltac:(lia)).
Qed.
Lemma borrow_free_clean st q e : borrow_free st q e -> mix_clean st q e.
Proof. intro N. unfold borrow_free in N. rewrite !lane4 in N. exact (no_borrow_nth 10 _ _ limbs_2_34P (pick_len _ _ _) (pick_len _ _ _) eq_refl N). Qed.
Lemma encodes_same a b P : encodes255 b P -> encodes255 a P <-> a = b.
Proof.
  intros [Bb Vb]. split; [|intros ->; split; assumption]. intros [Ba Va].
  destruct Ba as [La Fa], Bb as [Lb Fb]. apply le_val_inj; [rewrite La, Lb; reflexivity|exact Fa|exact Fb|]. rewrite Va, Vb. reflexivity.
Qed.
Lemma bytes_parts n m a : bytes (n + m) a -> bytes n (firstn n a) /\ bytes m (skipn n a).
Proof.
  intros [L F]. rewrite <- (firstn_skipn n a) in F. apply Forall_app in F.
  split; (split; [rewrite ?firstn_length, ?skipn_length; lia|tauto]).
Qed.
Lemma clamp64 az : bytes 64 az -> bytes 32 (clamp_bytes255 az) /\ le_val (clamp_bytes255 az) = clamped255 (le_val (firstn 32 az)).
Proof.
  intro Hz. destruct (bytes_parts 32 32 az Hz) as [H32 _].
  assert (EC : clamp_bytes255 az = clamp_bytes255 (firstn 32 az)).
  { do 33 (destruct az as [|? az]; [destruct Hz; discriminate|]). reflexivity. }
  rewrite EC. destruct (clamp255_ok _ H32) as (Bb & Vb & _). split; [exact Bb|exact Vb].
Qed.
Lemma scalar_small x v : scalar_for x v -> x mod L25519 < top_residue -> v = x mod L25519.
Proof. intros [E|[_ E]] Hx; [exact E|lia]. Qed.
(** The entry points by scheme *)
Definition sign_with st k sky K0 S0 H (m : scheme) (sig M pk sk : list Z) : Z * list Z :=
  match m with
  | Pure => ed25519_sign st k sky K0 S0 H sig M pk sk
  | Ctx c => ed25519_signctx st k sky K0 S0 H sig M c pk sk
  | Ph c => ed25519ph_signctx st k sky K0 S0 H sig M c pk sk
  end.
Definition verify_with st k H (m : scheme) (M pk sig : list Z) : Z :=
  match m with
  | Pure => ed25519_verify st k H M pk sig
  | Ctx c => ed25519_verifyctx st k H M c pk sig
  | Ph c => ed25519ph_verifyctx st k H M c pk sig
  end.
Definition additions_with st k H (m : scheme) (M pk sig : list Z) : list (list Z * list Z) :=
  match m with
  | Pure => verification_additions st k H M [] pk sig 1 0
  | Ctx c => verification_additions st k H M c pk sig 0 0
  | Ph c => verification_additions st k H M c pk sig 0 1
  end.
Section Sign.
Variable st : store. Variable k : cpu. Variable sky : bool. Variable K0 S0 : list Z.
Hypothesis LK : length K0 = 67%nat. Hypothesis LS : length S0 = 67%nat.
Variable H : list Z -> list Z.
Hypothesis H64 : forall x, bytes 64 (H x).
Lemma reduced_digest_ok d : bytes 64 d -> bytes 32 (reduced_digest st d) /\ scalar_for (le_val d) (le_val (reduced_digest st d)).
Proof.
  intro Hd. destruct (words_of_ok 8 d Hd) as [Ww Vw]. destruct (red255_spec st _ Ww) as [Wr Vr]. destruct (bytes_of_ok 4 _ Wr) as [Bb Vb].
  split; [exact Bb|]. unfold reduced_digest. rewrite Vb. rewrite Vw in Vr. exact Vr.
Qed.
Lemma encoded_multiple x r : bytes 32 r -> scalar_for x (le_val r) -> encodes255 (point_encoding st k (point_multiplication st sky K0 S0 r)) (x ** B).
Proof.
  intros Hr Hx. pose proof (point_multiplication_ok st sky K0 S0 r LK LS Hr) as M. rewrite (scalar_mult x _ Hx) in M. exact (point_encoding_ok st k _ _ M).
Qed.
(** Key generation *)
Theorem keygen_ok sk : ed25519_keygen st k sky K0 S0 H sk = (EDDSA_KEYGEN_OK, snd (ed25519_keygen st k sky K0 S0 H sk)) /\ public H sk (snd (ed25519_keygen st k sky K0 S0 H sk)).
Proof.
  split; [reflexivity|]. unfold ed25519_keygen. cbv zeta. cbn [snd]. destruct (secret_scalar_spec st (H sk) (H64 sk)) as [Wr Vr].
  destruct (bytes_of_ok 4 _ Wr) as [Bb Vb]. apply encoded_multiple; [exact Bb|]. rewrite Vb. exact Vr.
Qed.
(** Signing: the body after the checks *)
Definition sign_body (m : scheme) (M pk sk : list Z) : list Z :=
  let r := reduced_digest st (H (nonce_input H m sk M)) in
  let R := point_encoding st k (point_multiplication st sky K0 S0 r) in
  let h := reduced_digest st (H (challenge_input H m R pk M)) in
  R ++ bytes_of (calculate_s_ed25519 st (words_of 4 r) (words_of 4 h) (words_of 4 (clamp_bytes255 (H sk)))).
Lemma sign_with_body m sig M pk sk : (length (context_of m) <= 255)%nat ->
  sign_with st k sky K0 S0 H m sig M pk sk = (EDDSA_SIGNATURE_OK, sign_body m M pk sk).
Proof using. clear LK LS H64.
  intro L. assert (E : (255 <? Z.of_nat (length (context_of m))) = false) by (apply Z.ltb_ge; lia).
  destruct m as [|c|c]; unfold sign_with, ed25519_sign, ed25519_signctx, ed25519ph_signctx, ed25519_sign_all, sign_body, nonce_input, challenge_input.
  - change ((1 =? 0) && (255 <? Z.of_nat (length []))) with false. cbv iota zeta. change (hashed_message H 0 M) with (Some M). cbv iota zeta.
    change (domain 1 0 []) with (dom Pure). reflexivity.
  - change (0 =? 0) with true. rewrite andb_true_l. cbn [context_of] in E. rewrite E. cbv iota zeta. change (hashed_message H 0 M) with (Some M). cbv iota zeta.
    rewrite (domain_ok 0 0 (Ctx c) (conj eq_refl eq_refl) L : domain 0 0 c = dom (Ctx c)). reflexivity.
  - change (0 =? 0) with true. rewrite andb_true_l. cbn [context_of] in E. rewrite E. cbv iota zeta. change (hashed_message H 1 M) with (Some (H M)). cbv iota zeta.
    rewrite (domain_ok 0 1 (Ph c) (conj eq_refl eq_refl) L : domain 0 1 c = dom (Ph c)). reflexivity.
Qed.
(** Contexts longer than 255 bytes: no signature, the buffer keeps its contents *)
Lemma sign_with_refused m sig M pk sk : (255 < length (context_of m))%nat -> sign_with st k sky K0 S0 H m sig M pk sk = (EDDSA_ERROR_CONTEXT, sig).
Proof using. clear LK LS H64.
  intro L. assert (E : (255 <? Z.of_nat (length (context_of m))) = true) by (apply Z.ltb_lt; lia).
  destruct m as [|c|c]; cbn [context_of length] in *; [lia|..]; unfold sign_with, ed25519_signctx, ed25519ph_signctx, ed25519_sign_all;
    change (0 =? 0) with true; rewrite andb_true_l, E; reflexivity.
Qed.
Lemma R_ok m M sk : let r := reduced_digest st (H (nonce_input H m sk M)) in
  bytes 32 r /\ scalar_for (le_val (H (nonce_input H m sk M))) (le_val r) /\ encodes255 (point_encoding st k (point_multiplication st sky K0 S0 r)) (nonce H m sk M ** B).
Proof.
  cbv zeta. destruct (reduced_digest_ok _ (H64 (nonce_input H m sk M))) as [Br Vr]. split; [exact Br|]. split; [exact Vr|].
  unfold nonce. rewrite (mul255_mod l_ed255 _ B on_base ltac:(reflexivity) order_B : (_ mod L25519) ** B = _). exact (encoded_multiple _ _ Br Vr).
Qed.
Lemma firstn_app32 (a b : list Z) : length a = 32%nat -> firstn 32 (a ++ b) = a /\ skipn 32 (a ++ b) = b.
Proof. intro L. rewrite firstn_app, skipn_app, L, Nat.sub_diag. change (firstn 0 b) with (@nil Z). change (skipn 0 b) with b. rewrite app_nil_r, firstn_all2, skipn_all2 by lia. split; reflexivity. Qed.
Lemma sign_body_parts m M pk sk : let sig := sign_body m M pk sk in
  bytes 64 sig /\ encodes255 (firstn 32 sig) (nonce H m sk M ** B) /\
  exists rw hw, words 4 rw /\ words 4 hw /\ scalar_for (le_val (H (nonce_input H m sk M))) (val rw) /\
    scalar_for (le_val (H (challenge_input H m (firstn 32 sig) pk M))) (val hw) /\
    let aw := words_of 4 (clamp_bytes255 (H sk)) in words 4 aw /\ val aw = secret H sk /\
    words 4 (calculate_s_ed25519 st rw hw aw) /\ le_val (skipn 32 sig) = val (calculate_s_ed25519 st rw hw aw).
Proof.
  cbv zeta. destruct (R_ok m M sk) as (Br & Vr & ER). unfold sign_body. cbv zeta.
  set (r := reduced_digest st (H (nonce_input H m sk M))) in *. set (R := point_encoding st k (point_multiplication st sky K0 S0 r)) in *.
  destruct (reduced_digest_ok _ (H64 (challenge_input H m R pk M))) as [Bh Vh]. set (h := reduced_digest st (H (challenge_input H m R pk M))) in *.
  destruct (clamp64 _ (H64 sk)) as [Bc Vc]. destruct (words_of_ok 4 _ Br) as [Wr Er]. destruct (words_of_ok 4 _ Bh) as [Wh Eh]. destruct (words_of_ok 4 _ Bc) as [Wc Ec].
  destruct (s255_spec st _ _ _ Wr Wh Wc) as (Ws & _ & _). destruct (bytes_of_ok 4 _ Ws) as [Bs Es].
  destruct (firstn_app32 R (bytes_of (calculate_s_ed25519 st (words_of 4 r) (words_of 4 h) (words_of 4 (clamp_bytes255 (H sk))))) (proj1 (proj1 ER))) as [F1 F2].
  rewrite F1, F2. split.
  { destruct ER as [[LR FR] _], Bs as [LB FB]. split; [rewrite app_length, LR, LB; reflexivity|]. apply Forall_app. split; [exact FR|exact FB]. }
  split; [exact ER|]. exists (words_of 4 r), (words_of 4 h). split; [exact Wr|]. split; [exact Wh|]. split; [rewrite Er; exact Vr|]. split; [rewrite Eh; exact Vh|].
  split; [exact Wc|]. split; [rewrite Ec; exact Vc|]. split; [exact Ws|exact Es].
Qed.
(** Signatures are those of RFC 8032, when no carry is lost and no residue is among the largest *)
Theorem sign_right m M pk sk : let sig := sign_body m M pk sk in
  nonce H m sk M < top_residue -> challenge H m (firstn 32 sig) pk M < top_residue ->
  no_lost_carry (nonce H m sk M) 4 4 (challenge H m (firstn 32 sig) pk M) (secret H sk) ->
  (nonce H m sk M + challenge H m (firstn 32 sig) pk M * secret H sk) mod L25519 < top_residue ->
  signature H m sk pk M sig.
Proof.
  cbv zeta. intros Hn Hc Hl Hs. destruct (sign_body_parts m M pk sk) as (B64 & ER & rw & hw & Wr & Wh & Vr & Vh & Wa & Va & Ws & Es).
  set (sig := sign_body m M pk sk) in *. apply scalar_small in Vr; [|exact Hn]. apply scalar_small in Vh; [|exact Hc].
  split; [exact B64|]. split; [exact ER|]. rewrite Es.
  rewrite (s255_right st rw hw _ Wr Wh Wa).
  - rewrite Vr, Vh, Va. reflexivity.
  - unfold no_lost_carry in Hl. rewrite (words_limbs 4 hw Wh), (words_limbs 4 _ Wa), Vr, Vh, Va. exact Hl.
  - rewrite Vr, Vh, Va. exact Hs.
Qed.
(** Verification *)
Definition verify_body (m : scheme) (M pk sig : list Z) : Z :=
  match double_point_mult_4w st k (skipn 32 sig) (reduced_digest st (H (challenge_input H m (firstn 32 sig) pk M))) (snd (fst (point_decoding st k pk))) with
  | Some Q => if same_bytes 32 sig Q then EDDSA_VERIFICATION_OK else EDDSA_INVALID_SIGNATURE
  | None => -1
  end.
Lemma decoding_zero pk : point_decoding st k pk = (0, snd (fst (point_decoding st k pk)), snd (point_decoding st k pk)).
Proof using. clear LK LS H64. unfold point_decoding. destruct (decode_xy st k pk) as [X Y]. reflexivity. Qed.
Lemma verify_with_body m M pk sig : (length (context_of m) <= 255)%nat -> verify_with st k H m M pk sig = verify_body m M pk sig.
Proof using. clear LK LS H64.
  intro L. assert (E : (255 <? Z.of_nat (length (context_of m))) = false) by (apply Z.ltb_ge; lia).
  destruct m as [|c|c]; unfold verify_with, ed25519_verify, ed25519_verifyctx, ed25519ph_verifyctx, ed25519_verify_all, verify_body, challenge_input.
  - change ((1 =? 0) && (255 <? Z.of_nat (length []))) with false. cbv iota. rewrite decoding_zero. cbn [snd fst]. change (negb (0 =? 0)) with false. cbv iota.
    change (hashed_message H 0 M) with (Some M). cbv iota zeta. change (domain 1 0 []) with (dom Pure). reflexivity.
  - change (0 =? 0) with true at 1. rewrite andb_true_l. cbn [context_of] in E. rewrite E. cbv iota. rewrite decoding_zero. cbn [snd fst]. change (negb (0 =? 0)) with false. cbv iota.
    change (hashed_message H 0 M) with (Some M). cbv iota zeta. rewrite (domain_ok 0 0 (Ctx c) (conj eq_refl eq_refl) L : domain 0 0 c = dom (Ctx c)). reflexivity.
  - change (0 =? 0) with true at 1. rewrite andb_true_l. cbn [context_of] in E. rewrite E. cbv iota. rewrite decoding_zero. cbn [snd fst]. change (negb (0 =? 0)) with false. cbv iota.
    change (hashed_message H 1 M) with (Some (H M)). cbv iota zeta. rewrite (domain_ok 0 1 (Ph c) (conj eq_refl eq_refl) L : domain 0 1 c = dom (Ph c)). reflexivity.
Qed.
Lemma additions_with_body m M pk sig : (length (context_of m) <= 255)%nat -> additions_with st k H m M pk sig =
  mixed_additions st (skipn 32 sig) (reduced_digest st (H (challenge_input H m (firstn 32 sig) pk M))) (snd (fst (point_decoding st k pk))).
Proof using. clear LK LS H64.
  intro L. destruct m as [|c|c]; unfold additions_with, verification_additions, challenge_input.
  - reflexivity.
  - change (hashed_message H 0 M) with (Some M). cbv iota. rewrite (domain_ok 0 0 (Ctx c) (conj eq_refl eq_refl) L : domain 0 0 c = dom (Ctx c)). reflexivity.
  - change (hashed_message H 1 M) with (Some (H M)). cbv iota. rewrite (domain_ok 0 1 (Ph c) (conj eq_refl eq_refl) L : domain 0 1 c = dom (Ph c)). reflexivity.
Qed.
Lemma verify_with_refused m M pk sig : (255 < length (context_of m))%nat -> verify_with st k H m M pk sig = EDDSA_ERROR_CONTEXT.
Proof using. clear LK LS H64.
  intro L. assert (E : (255 <? Z.of_nat (length (context_of m))) = true) by (apply Z.ltb_lt; lia).
  destruct m as [|c|c]; cbn [context_of length] in *; [lia|..]; unfold verify_with, ed25519_verifyctx, ed25519ph_verifyctx, ed25519_verify_all;
    change (0 =? 0) with true at 1; rewrite andb_true_l, E; reflexivity.
Qed.
Lemma low_part q y b : 0 <= y < q -> q <= 2 ^ 255 -> 0 <= b < 2 -> (y + 2 ^ 255 * b) mod 2 ^ 255 = y /\ (y + 2 ^ 255 * b) / 2 ^ 255 = b.
Proof using. clear LK LS H64.
  intros Hy Hq Hb. rewrite (Z.mul_comm (2 ^ 255)), Z_mod_plus_full, Z.div_add by discriminate. set (n := 2 ^ 255) in *. clearbody n.
  rewrite Z.mod_small, Z.div_small by lia. split; [reflexivity|lia].
Qed.
Lemma decode_encoded pk A : on255 A -> encodes255 pk A -> pt_4w (snd (fst (point_decoding st k pk))) (neg255 A).
Proof using. clear LK LS H64.
  intros On [Bp Vp]. destruct A as [x y]. cbn [fst snd] in *. destruct On as (Hx & Hy & Hc).
  destruct (low_part p_ed255 y (x mod 2) Hy ltac:(discriminate) (Z.mod_pos_bound x 2 ltac:(lia))) as [M D]. rewrite <- Vp in M, D.
  pose proof (point_decoding_ok st k pk (x, y) Bp (conj Hx (conj Hy Hc))) as P. cbn [fst snd] in P. rewrite M, D in P.
  specialize (P (Z.mod_small _ _ Hy) (fun _ => eq_refl)). rewrite decoding_zero in P. exact (proj1 (proj2 P)).
Qed.
Lemma not_wraps w r : 0 <= w <= 8 -> r < 2 ^ 256 - 256 -> wraps w r = false.
Proof using. clear LK LS H64.
  intros Hw Hr. unfold wraps. destruct (Z.ltb_spec (2 ^ 256 - 2 ^ (w - 1)) r) as [G|_]; [|apply andb_false_r].
  exfalso. assert (2 ^ (w - 1) <= 2 ^ 7) by (destruct (Z.eq_dec w 0) as [->|]; [vm_compute; discriminate|apply Z.pow_le_mono_r; lia]). change (2 ^ 7) with 128 in *.
  set (n := 2 ^ 256) in *. clearbody n. lia.
Qed.
Theorem verify_right m A M pk sig : (length (context_of m) <= 255)%nat -> on255 A -> encodes255 pk A -> bytes 64 sig ->
  le_val (skipn 32 sig) < 2 ^ 256 - 256 -> challenge H m (firstn 32 sig) pk M < top_residue ->
  (forall q e, In (q, e) (additions_with st k H m M pk sig) -> borrow_free st q e) ->
  (verify_with st k H m M pk sig = EDDSA_VERIFICATION_OK /\ equation H m A pk M sig) \/
  (verify_with st k H m M pk sig = EDDSA_INVALID_SIGNATURE /\ ~ equation H m A pk M sig).
Proof using H64. clear LK LS.
  intros L On Ep Bs HS Hc Hb. rewrite (additions_with_body m M pk sig L) in Hb. rewrite (verify_with_body m M pk sig L). unfold verify_body, equation.
  destruct (bytes_parts 32 32 sig Bs) as [Bf Bk]. destruct (reduced_digest_ok _ (H64 (challenge_input H m (firstn 32 sig) pk M))) as [Bh Vh].
  apply scalar_small in Vh; [|exact Hc]. change (le_val (H (challenge_input H m (firstn 32 sig) pk M)) mod L25519) with (challenge H m (firstn 32 sig) pk M) in Vh.
  set (h := reduced_digest st _) in *. pose proof (decode_encoded pk A On Ep) as Dp. set (PA := snd (fst (point_decoding st k pk))) in *.
  destruct (double_mult_ok st k (skipn 32 sig) h PA (neg255 A) Bk Bh Dp (fun q e Hq => borrow_free_clean st q e (Hb q e Hq))) as (out & Eo & En).
  rewrite Eo. rewrite (not_wraps 7 _ ltac:(lia) HS), Z.sub_0_r in En.
  rewrite (not_wraps 5) in En; [|lia|rewrite Vh; apply (Z.lt_trans _ _ _ Hc); reflexivity].
  rewrite Z.sub_0_r, Vh, (mul255_neg _ A On) in En.
  set (P := add255 _ _) in *. pose proof (encodes_same (firstn 32 sig) out P En) as Eq. pose proof (same_bytes_ok 32 sig out ltac:(rewrite (proj1 Bs); lia) (proj1 (proj1 En))) as Sb.
  destruct (same_bytes 32 sig out) eqn:E; [left|right]; (split; [reflexivity|]).
  - apply Eq, Sb. reflexivity.
  - intro X. apply Eq in X. apply Sb in X. discriminate X.
Qed.
Lemma equation_of_signature m M pk sk sig : signature H m sk pk M sig -> public H sk pk -> equation H m (secret H sk ** B) pk M sig.
Proof using. clear LK LS H64.
  intros (Bs & ER & ES) _. unfold equation. set (n := nonce H m sk M) in *. set (c := challenge H m (firstn 32 sig) pk M) in *. set (a := secret H sk) in *.
  rewrite ES. rewrite (mul255_mod l_ed255 _ B on_base ltac:(reflexivity) order_B : (_ mod L25519) ** B = _).
  rewrite mul255_add by exact on_base. rewrite (mul255_mul c a B on_base).
  rewrite add255_assoc by (try apply neg255_on; apply mul255_on; try apply mul255_on; exact on_base).
  rewrite add255_neg by (apply mul255_on, mul255_on; exact on_base). rewrite add255_zero by (apply mul255_on; exact on_base). exact ER.
Qed.
Theorem roundtrip m sig0 M pk sk : (length (context_of m) <= 255)%nat -> public H sk pk ->
  let sig := snd (sign_with st k sky K0 S0 H m sig0 M pk sk) in
  nonce H m sk M < top_residue -> challenge H m (firstn 32 sig) pk M < top_residue ->
  no_lost_carry (nonce H m sk M) 4 4 (challenge H m (firstn 32 sig) pk M) (secret H sk) ->
  (nonce H m sk M + challenge H m (firstn 32 sig) pk M * secret H sk) mod L25519 < top_residue ->
  (forall q e, In (q, e) (additions_with st k H m M pk sig) -> borrow_free st q e) ->
  fst (sign_with st k sky K0 S0 H m sig0 M pk sk) = EDDSA_SIGNATURE_OK /\ verify_with st k H m M pk sig = EDDSA_VERIFICATION_OK.
Proof.
  intros L Pk. rewrite (sign_with_body m sig0 M pk sk L). cbn [fst snd]. cbv zeta. set (sig := sign_body m M pk sk). intros Hn Hc Hl Hs Hb. split; [reflexivity|].
  pose proof (sign_right m M pk sk Hn Hc Hl Hs) as Sg. fold sig in Sg.
  destruct (verify_right m (secret H sk ** B) M pk sig L (mul255_on _ _ on_base) Pk (proj1 Sg)) as [[E _]|[_ E]].
  - rewrite (proj2 (proj2 Sg)). pose proof (Z.mod_pos_bound (nonce H m sk M + challenge H m (firstn 32 sig) pk M * secret H sk) L25519 ltac:(reflexivity)) as Bd.
    apply (Z.lt_trans _ _ _ (proj2 Bd)). reflexivity.
  - exact Hc.
  - exact Hb.
  - exact E.
  - exfalso. apply E. exact (equation_of_signature m M pk sk sig Sg Pk).
Qed.
(** Adding the order to S *)
Lemma equation_shift m A M pk sig sig' : firstn 32 sig' = firstn 32 sig -> le_val (skipn 32 sig') = le_val (skipn 32 sig) + L25519 -> equation H m A pk M sig -> equation H m A pk M sig'.
Proof using. clear LK LS H64.
  intros E1 E2. unfold equation. rewrite E1, E2. rewrite mul255_add by exact on_base. rewrite (order_B : L25519 ** B = ed_zero).
  rewrite add255_zero by (apply mul255_on, on_base). exact (fun x => x).
Qed.
Theorem malleable m A M pk sig sig' : (length (context_of m) <= 255)%nat -> on255 A -> encodes255 pk A -> bytes 64 sig -> bytes 64 sig' ->
  firstn 32 sig' = firstn 32 sig -> le_val (skipn 32 sig') = le_val (skipn 32 sig) + L25519 -> le_val (skipn 32 sig') < 2 ^ 256 - 256 ->
  challenge H m (firstn 32 sig) pk M < top_residue ->
  (forall q e, In (q, e) (additions_with st k H m M pk sig ++ additions_with st k H m M pk sig') -> borrow_free st q e) ->
  verify_with st k H m M pk sig = EDDSA_VERIFICATION_OK -> verify_with st k H m M pk sig' = EDDSA_VERIFICATION_OK.
Proof using H64. clear LK LS.
  intros L On Ep B1 B2 E1 E2 Hs Hc Hb V.
  destruct (verify_right m A M pk sig L On Ep B1) as [[_ Eq]|[Bad _]].
  - apply (Z.lt_trans _ (le_val (skipn 32 sig'))); [|exact Hs]. rewrite E2. assert (0 < L25519) by reflexivity. lia.
  - exact Hc.
  - intros q e Hq. apply Hb, in_or_app. left. exact Hq.
  - destruct (verify_right m A M pk sig' L On Ep B2 Hs) as [[G _]|[_ G]].
    + rewrite E1. exact Hc.
    + intros q e Hq. apply Hb, in_or_app. right. exact Hq.
    + exact G.
    + exfalso. apply G. exact (equation_shift m A M pk sig sig' E1 E2 Eq).
  - rewrite V in Bad. discriminate Bad.
Qed.
End Sign.
