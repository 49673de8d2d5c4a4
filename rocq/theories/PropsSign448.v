(** Theorems about Ed448 signatures.  Specification: SpecSign448.v (RFC 8032), SpecEd.v. *)
From Coq Require Import ZArith List Lia.
From Verif Require Import Uop Engine Bytes SpecScalar SpecEd SpecSign448 Edwards448 Sign255 Sign448 Sign448Proofs Neutral448 SpecDecode448 SpecEd448Vec EdProps448 Decode448Case Wrap448 Keygen448Proofs Scalar448 Verify448Right VerifyCase448.
Import ListNotations.
Open Scope Z_scope.

(** ** C50: contexts (Ed448) *)
Theorem C50_sign448 : forall st junk K0 S0 H m sig0 M pk sk,
  ((255 < length (context448 m))%nat -> sign448_with st junk K0 S0 H m sig0 M pk sk = (EDDSA_ERROR_CONTEXT, sig0)) /\
  ((length (context448 m) <= 255)%nat -> fst (sign448_with st junk K0 S0 H m sig0 M pk sk) = EDDSA_SIGNATURE_OK).
Proof. exact context_sign448. Qed.
Theorem C50_verify448 : forall st junk H m M pk sig, (255 < length (context448 m))%nat <-> verify448_with st junk H m M pk sig = EDDSA_ERROR_CONTEXT.
Proof. exact context_verify448. Qed.
Example C50_case448 : let c := repeat 7%Z in (255 < length (context448 (Ed448 (c 256%nat))))%nat /\ (length (context448 (Ed448ph (c 255%nat))) <= 255)%nat.
Proof. cbv zeta. cbn [context448]. rewrite !repeat_length. lia. Qed.

(** ** C51: the strings that are hashed (Ed448) *)
Theorem C51_sign448 : forall st junk K0 S0 H H' m sig0 M pk sk, (forall x, bytes 114 (H 114%nat x)) -> (length (context448 m) <= 255)%nat ->
  let sig := snd (sign448_with st junk K0 S0 H m sig0 M pk sk) in
  H 114%nat sk = H' 114%nat sk -> PH448 H m M = PH448 H' m M -> H 114%nat (nonce_input448 H m sk M) = H' 114%nat (nonce_input448 H m sk M) ->
  H 114%nat (challenge_input448 H m (firstn 57 sig) pk M) = H' 114%nat (challenge_input448 H m (firstn 57 sig) pk M) ->
  sign448_with st junk K0 S0 H m sig0 M pk sk = sign448_with st junk K0 S0 H' m sig0 M pk sk.
Proof. exact sign_inputs448. Qed.
Theorem C51_verify448 : forall st junk H H' m M pk sig, (length (context448 m) <= 255)%nat -> PH448 H m M = PH448 H' m M ->
  H 114%nat (challenge_input448 H m (firstn 57 sig) pk M) = H' 114%nat (challenge_input448 H m (firstn 57 sig) pk M) ->
  verify448_with st junk H m M pk sig = verify448_with st junk H' m M pk sig.
Proof. exact verify_inputs448. Qed.
Theorem C51_separated448 : forall m m' X X', (length (context448 m) <= 255)%nat -> (length (context448 m') <= 255)%nat ->
  dom448 m ++ X = dom448 m' ++ X' -> m = m' /\ X = X'.
Proof. exact dom448_injective. Qed.
Example C51_case448 : (forall x : list Z, bytes 114 (repeat (Z.of_nat (length x) mod 256) 114)) /\ dom448 (Ed448 [1; 2]) ++ [3] <> dom448 (Ed448 [1]) ++ [2; 3] /\
  dom448 (Ed448 [1]) ++ [2; 3] <> dom448 (Ed448ph [1]) ++ [2; 3].
Proof.
  split; [|split; intro E; vm_compute in E; discriminate E].
  intro x. split; [apply repeat_length|]. apply Forall_forall. intros y Hy. apply repeat_spec in Hy. subst y. apply Z.mod_pos_bound. lia.
Qed.

(** ** C53: the last byte of a signature *)
(** Verification does not read the last byte of the signature, whatever the signature. *)
Theorem C53_last_byte_ignored : forall st junk H m M pk sig b b', length sig = 113%nat ->
  verify448_with st junk H m M pk (sig ++ [b]) = verify448_with st junk H m M pk (sig ++ [b']).
Proof. exact verify448_last_byte. Qed.
(** So the last byte of an accepted signature can be changed.  The accepted signature here is R = the encoding of the neutral element (which is also the
    public key) and S = 0, for a hash function that is zero at the challenge; S + 2^448 b is accepted for every b. *)
Theorem C53_refuted : exists H pk sig, bytes 57 pk /\ length sig = 113%nat /\ forall st junk m M b, words 2 junk -> (length (context448 m) <= 255)%nat ->
  verify448_with st junk H m M pk (sig ++ [b]) = EDDSA_VERIFICATION_OK.
Proof. exact last_byte_free. Qed.
Example C53_case : words 2 [0; 0] /\ (length (context448 (Ed448 [1%Z; 2%Z])) <= 255)%nat /\ EDDSA_VERIFICATION_OK <> EDDSA_INVALID_SIGNATURE.
Proof. split; [split; [reflexivity|repeat constructor; discriminate]|]. split; [cbn; lia|discriminate]. Qed.

(** ** C76: decompression of a public key *)
(** Full claim: without the hypotheses [regular_y], [regular_x], [spread_x], [square_fits].  They exclude y^2 and d y^2 near a multiple of p or with low 28 bits 0, 1 or 2,
    x near a multiple of p or with a limb below 2^12, and squares of x with a limb above that of 2p. *)
Theorem C76_accepted_partial : forall st junk H m M pk sig P, (length (context448 m) <= 255)%nat -> on448 P -> encodes448 pk P -> regular_y (snd P) -> regular_x (fst P) ->
  verify448_with st junk H m M pk sig <> EDDSA_ERROR_PUBLICKEY.
Proof. exact verify_takes. Qed.
Theorem C76_decompression_partial : forall st pk P, on448 P -> encodes448 pk P -> regular_y (snd P) -> regular_x (fst P) -> spread_x (fst P) -> square_fits st (fst P) ->
  fst (point_decoding448 st pk) = 0 /\ point_4w448 (snd (point_decoding448 st pk)) (neg448 P).
Proof. intros st pk P O E Y X S F. destruct (key_decoded st pk P O E Y X S F) as [R D]. exact (conj R (proj2 (pt4q_iff _ _) D)). Qed.
Example C76_case : on448 B_ed448 /\ encodes448 base_key448 B_ed448 /\ regular_y (snd B_ed448) /\ regular_x (fst B_ed448) /\ spread_x (fst B_ed448) /\
  (forall st, square_fits st (fst B_ed448)) /\ neg448 B_ed448 <> B_ed448.
Proof. exact base_example. Qed.

(** The full claim is false: the point with y = 2^16 is refused, because 1 is subtracted from a zero limb of y^2 without borrow. *)
Theorem C76_refuted : on448 (x_2_16, 2 ^ 16) /\ encodes448 key_2_16 (x_2_16, 2 ^ 16) /\
  forall st junk H m M sig, (length (context448 m) <= 255)%nat -> verify448_with st junk H m M key_2_16 sig = EDDSA_ERROR_PUBLICKEY.
Proof. exact valid_refused. Qed.

(** ** C77: strings that encode no point *)
(** Full claim: every string of 57 bytes that encodes no point is refused.  Proved for the strings whose y-coordinate is that of no point, if y is regular. *)
Theorem C77_refused_partial : forall st junk H m M pk sig, (length (context448 m) <= 255)%nat -> bytes 57 pk -> regular_y (coded_y pk) ->
  (forall x, ~ on448 (x, coded_y pk mod p_ed448)) -> verify448_with st junk H m M pk sig = EDDSA_ERROR_PUBLICKEY.
Proof. exact verify_refuses. Qed.
Example C77_case : bytes 57 wrong_key448 /\ regular_y (coded_y wrong_key448) /\ forall x, ~ on448 (x, coded_y wrong_key448 mod p_ed448).
Proof. exact wrong_example. Qed.
(** Seven bits of the last byte are not read, so a string that is the encoding of no point is taken. *)
Theorem C77_refuted : bytes 57 odd_key448 /\ (forall P, on448 P -> ~ encodes448 odd_key448 P) /\
  forall st junk H m M sig, (length (context448 m) <= 255)%nat -> verify448_with st junk H m M odd_key448 sig <> EDDSA_ERROR_PUBLICKEY.
Proof. exact odd_key_accepted. Qed.

(** ** C78: verification decides the equation *)
(** Full claim: without the conditions on the key, on lost carries and on borrows.  [regular_key] is C76 together with membership in the prime-order subgroup, [kept] the absence of a lost carry
    in the division by four (C54), [plain] that encoding the right hand side loses no carry (C73), [borrow_free448] that no limb of a mixed addition wraps (C71). *)
Theorem C78_verify_partial : forall st junk, words 2 junk -> forall H, (forall x, bytes 114 (H 114%nat x)) -> forall m A M pk sig,
  (length (context448 m) <= 255)%nat -> regular_key st pk A -> bytes 114 sig -> le_val (skipn 57 sig) < 2 ^ 448 -> kept (le_val (skipn 57 sig)) ->
  no_lost_carry448 (le_val (H 114%nat (challenge_input448 H m (firstn 57 sig) pk M))) ->
  kept (le_val (firstn 56 (modular_reduction_ed448 st junk (H 114%nat (challenge_input448 H m (firstn 57 sig) pk M))))) ->
  plain (add448 (mul448 (le_val (skipn 57 sig)) B_ed448) (neg448 (mul448 (challenge448 H m (firstn 57 sig) pk M) A))) ->
  (forall q e, In (q, e) (additions448 st junk H m M pk sig) -> borrow_free448 st q e) ->
  (verify448_with st junk H m M pk sig = EDDSA_VERIFICATION_OK /\ equation448 H m A pk M sig) \/
  (verify448_with st junk H m M pk sig = EDDSA_INVALID_SIGNATURE /\ ~ equation448 H m A pk M sig).
Proof. exact verify_right448. Qed.
(** The secret scalar is 3 l - 1, the key -B, nonce and challenge are 0; the table of multiples of B is still built with seven mixed additions. *)
Example C78_case : forall m M junk, words 2 junk -> regular_key em minus_key minus_B /\ bytes 114 one_signature /\
  le_val (skipn 57 one_signature) < 2 ^ 448 /\ kept (le_val (skipn 57 one_signature)) /\
  no_lost_carry448 (le_val (key_hash 114 (challenge_input448 key_hash m (firstn 57 one_signature) minus_key M))) /\
  kept (le_val (firstn 56 (modular_reduction_ed448 em junk (key_hash 114 (challenge_input448 key_hash m (firstn 57 one_signature) minus_key M))))) /\
  plain (add448 (mul448 (le_val (skipn 57 one_signature)) B_ed448) (neg448 (mul448 (challenge448 key_hash m (firstn 57 one_signature) minus_key M) minus_B))) /\
  (forall q e, In (q, e) (additions448 em junk key_hash m M minus_key one_signature) -> borrow_free448 em q e) /\
  equation448 key_hash m minus_B minus_key M one_signature.
Proof. exact verify_case. Qed.

(** ** C79: signatures made by the library verify *)
(** Full claim: without the conditions, which are those of C75 for signing and of C78 for verifying. *)
Theorem C79_roundtrip_partial : forall st junk, words 2 junk -> forall H, (forall x, bytes 114 (H 114%nat x)) -> forall K0 S0, length K0 = 115%nat -> length S0 = 115%nat ->
  forall m sig0 M pk sk, let reduced x := le_val (firstn 56 (modular_reduction_ed448 st junk (H 114%nat x))) in
  (length (context448 m) <= 255)%nat -> regular_key st pk (mul448 (secret448 H sk) B_ed448) ->
  no_lost_carry448 (le_val (H 114%nat (nonce_input448 H m sk M))) -> good_scalar (reduced (nonce_input448 H m sk M)) -> plain (mul448 (nonce448 H m sk M) B_ed448) ->
  (forall R, encodes448 R (mul448 (nonce448 H m sk M) B_ed448) -> no_lost_carry448 (le_val (H 114%nat (challenge_input448 H m R pk M))) /\
     no_lost_carry (reduced (nonce_input448 H m sk M)) 7 7 (reduced (challenge_input448 H m R pk M)) (secret448 H sk) /\
     no_lost_carry448 (reduced (nonce_input448 H m sk M) + reduced (challenge_input448 H m R pk M) * secret448 H sk) /\
     kept (reduced (challenge_input448 H m R pk M))) ->
  let sig := snd (sign448_with st junk K0 S0 H m sig0 M pk sk) in
  kept (le_val (skipn 57 sig)) ->
  (forall q e, In (q, e) (additions448 st junk H m M pk sig) -> borrow_free448 st q e) ->
  fst (sign448_with st junk K0 S0 H m sig0 M pk sk) = EDDSA_SIGNATURE_OK /\ verify448_with st junk H m M pk sig = EDDSA_VERIFICATION_OK.
Proof. exact roundtrip448. Qed.
Example C79_case : forall m M junk, words 2 junk -> forall K0 S0 sk sig0, length K0 = 115%nat -> length S0 = 115%nat -> length sk = 57%nat -> (length (context448 m) <= 255)%nat ->
  let H := key_hash in let pk := minus_key in let sig := snd (sign448_with em junk K0 S0 H m sig0 M pk sk) in
  (regular_key em pk (mul448 (secret448 H sk) B_ed448) /\ kept (le_val (skipn 57 sig)) /\ (forall q e, In (q, e) (additions448 em junk H m M pk sig) -> borrow_free448 em q e)) /\
  let reduced x := le_val (firstn 56 (modular_reduction_ed448 em junk (H 114%nat x))) in
  no_lost_carry448 (le_val (H 114%nat (nonce_input448 H m sk M))) /\ good_scalar (reduced (nonce_input448 H m sk M)) /\ plain (mul448 (nonce448 H m sk M) B_ed448) /\
  forall R, encodes448 R (mul448 (nonce448 H m sk M) B_ed448) -> no_lost_carry448 (le_val (H 114%nat (challenge_input448 H m R pk M))) /\
     no_lost_carry (reduced (nonce_input448 H m sk M)) 7 7 (reduced (challenge_input448 H m R pk M)) (secret448 H sk) /\
     no_lost_carry448 (reduced (nonce_input448 H m sk M) + reduced (challenge_input448 H m R pk M) * secret448 H sk) /\
     kept (reduced (challenge_input448 H m R pk M)).
Proof. intros m M junk J K0 S0 sk sig0 LK LS Lsk Lc. exact (conj (roundtrip_case m M junk J K0 S0 sk sig0 LK LS Lsk Lc) (sign_facts m M junk J sk Lsk)). Qed.

(** ** C80: the scalar of a signature is canonical *)
(** The claim is false: a signature with S at or above the group order is accepted. *)
Theorem C80_refuted : exists H pk sig, (forall x, bytes 114 (H 114%nat x)) /\ bytes 57 pk /\ bytes 114 sig /\ L448 <= le_val (skipn 57 sig) /\
  forall st junk m M, words 2 junk -> (length (context448 m) <= 255)%nat -> verify448_with st junk H m M pk sig = EDDSA_VERIFICATION_OK.
Proof. exact large_S_accepted. Qed.

Definition signatures448 := (C50_sign448, C50_verify448, C51_sign448, C51_verify448, C51_separated448, C53_last_byte_ignored, C53_refuted,
  C76_accepted_partial, C76_decompression_partial, C76_refuted, C77_refused_partial, C77_refuted, C78_verify_partial, C79_roundtrip_partial, C80_refuted).
Print Assumptions signatures448.
