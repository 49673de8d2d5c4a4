(** Property theorems about Ed25519 key generation, signing and verification (C47-C52, C64-C66). *)
From Coq Require Import ZArith List Lia.
From Verif Require Import Uop Engine Bytes Fp25519Full SpecScalar ScalarProps SpecEd SpecEdVec SpecSign Decode255 Sign255 Sign255Proofs SignProps NoPoint VerifyCase SignCase SignCase2 SignCase3.
Import ListNotations.
Open Scope Z_scope.

(** [sign_with], [verify_with] choose the entry point of a scheme (Pure, Ctx c, Ph c); H is the hash, K0 and S0 are the
    contents of the stack arrays of the recoding before the call. *)

(** ** C47: decompression of a public key *)
Theorem C47_decompression : forall st k pk A, on255 A -> encodes255 pk A ->
  let '(ret, xytz, two) := point_decoding st k pk in ret = 0 /\ point_4w255 xytz (neg255 A) /\ point_2w255 (fst two) (snd two) (neg255 A).
Proof. exact decompression. Qed.
Example C47_case : on255 B_ed255 /\ encodes255 base_bytes B_ed255 /\ neg255 B_ed255 <> B_ed255.
Proof. exact base_encoded. Qed.

(** ** C48: strings that encode no point are not refused *)
Theorem C48_refuted : (forall P, on255 P -> ~ encodes255 two_key P) /\ bytes 32 two_key /\
  (forall st k H m M sig, (length (context_of m) <= 255)%nat -> verify_with st k H m M two_key sig <> EDDSA_ERROR_PUBLICKEY) /\
  (forall x, bytes 64 (H0 x)) /\
  (forall k m M, (length (context_of m) <= 255)%nat -> exists sig, bytes 64 sig /\ verify_with st0 k H0 m M two_key sig = EDDSA_VERIFICATION_OK).
Proof. exact bad_key_accepted. Qed.
Theorem C48_never : forall st k H m M pk sig, (length (context_of m) <= 255)%nat -> verify_with st k H m M pk sig <> EDDSA_ERROR_PUBLICKEY.
Proof. exact no_key_refused. Qed.

(** ** C49: signatures verify.  Full claim: without the hypotheses on the residues, the dropped carry and the borrows. *)
Theorem C49_roundtrip_partial : forall st k sky K0 S0, length K0 = 67%nat -> length S0 = 67%nat -> forall H, (forall x, bytes 64 (H x)) ->
  forall m sig0 M pk sk, (length (context_of m) <= 255)%nat -> public H sk pk ->
  let sig := snd (sign_with st k sky K0 S0 H m sig0 M pk sk) in
  nonce H m sk M < top_residue -> challenge H m (firstn 32 sig) pk M < top_residue ->
  no_lost_carry (nonce H m sk M) 4 4 (challenge H m (firstn 32 sig) pk M) (secret H sk) ->
  (nonce H m sk M + challenge H m (firstn 32 sig) pk M * secret H sk) mod L25519 < top_residue ->
  (forall q e, In (q, e) (additions_with st k H m M pk sig) -> borrow_free st q e) ->
  fst (sign_with st k sky K0 S0 H m sig0 M pk sk) = EDDSA_SIGNATURE_OK /\ verify_with st k H m M pk sig = EDDSA_VERIFICATION_OK.
Proof. exact roundtrip. Qed.
Example C49_case : forall k sky K0 S0 pk, length K0 = 67%nat -> length S0 = 67%nat -> public Hg sk0 pk ->
  let sig := sign_body st0 k sky K0 S0 Hg Pure M0 pk sk0 in
  nonce Hg Pure sk0 M0 < top_residue /\ challenge Hg Pure (firstn 32 sig) pk M0 < top_residue /\
  no_lost_carry (nonce Hg Pure sk0 M0) 4 4 (challenge Hg Pure (firstn 32 sig) pk M0) (secret Hg sk0) /\
  (nonce Hg Pure sk0 M0 + challenge Hg Pure (firstn 32 sig) pk M0 * secret Hg sk0) mod L25519 < top_residue /\
  (forall q e, In (q, e) (additions_with st0 k Hg Pure M0 pk sig) -> borrow_free st0 q e) /\
  challenge Hg Pure (firstn 32 sig) pk M0 = 1 /\ le_val (skipn 32 sig) = 3.
Proof. exact good_case. Qed.
(** The full claim is false: a correct signature under a generated key, with all hypotheses but the last met, is rejected. *)
Theorem C49_refuted : (forall x, bytes 64 (Hx x)) /\ forall k sky K0 S0 sig0, length K0 = 67%nat -> length S0 = 67%nat ->
  let pk := snd (ed25519_keygen st0 k sky K0 S0 Hx sk0) in
  let sig := snd (ed25519_sign st0 k sky K0 S0 Hx sig0 M0 pk sk0) in
  public Hx sk0 pk /\ signature Hx Pure sk0 pk M0 sig /\ ed25519_verify st0 k Hx M0 pk sig = EDDSA_INVALID_SIGNATURE.
Proof. exact (conj Hx64 honest_rejected). Qed.

(** ** C50: contexts (Ed25519) *)
Theorem C50_sign255 : forall st k sky K0 S0 H m sig0 M pk sk,
  ((255 < length (context_of m))%nat -> sign_with st k sky K0 S0 H m sig0 M pk sk = (EDDSA_ERROR_CONTEXT, sig0)) /\
  ((length (context_of m) <= 255)%nat -> fst (sign_with st k sky K0 S0 H m sig0 M pk sk) = EDDSA_SIGNATURE_OK).
Proof. exact context_sign. Qed.
Theorem C50_verify255 : forall st k H m M pk sig, (255 < length (context_of m))%nat <-> verify_with st k H m M pk sig = EDDSA_ERROR_CONTEXT.
Proof. exact context_verify. Qed.
(** for all message lengths; contexts on both sides of the limit *)
Example C50_case : let c := repeat 7%Z in (255 < length (context_of (Ctx (c 256%nat))))%nat /\ (length (context_of (Ph (c 255%nat))) <= 255)%nat.
Proof. cbv zeta. cbn [context_of]. rewrite !repeat_length. lia. Qed.

(** ** C51: the strings that are hashed (Ed25519) *)
Theorem C51_sign255 : forall st k sky K0 S0 H H' m sig0 M pk sk, length K0 = 67%nat -> length S0 = 67%nat -> (forall x, bytes 64 (H x)) -> (length (context_of m) <= 255)%nat ->
  let sig := snd (sign_with st k sky K0 S0 H m sig0 M pk sk) in
  H sk = H' sk -> PH H m M = PH H' m M -> H (nonce_input H m sk M) = H' (nonce_input H m sk M) ->
  H (challenge_input H m (firstn 32 sig) pk M) = H' (challenge_input H m (firstn 32 sig) pk M) ->
  sign_with st k sky K0 S0 H m sig0 M pk sk = sign_with st k sky K0 S0 H' m sig0 M pk sk.
Proof. exact sign_inputs. Qed.
Theorem C51_verify255 : forall st k H H' m M pk sig, (length (context_of m) <= 255)%nat -> PH H m M = PH H' m M ->
  H (challenge_input H m (firstn 32 sig) pk M) = H' (challenge_input H m (firstn 32 sig) pk M) ->
  verify_with st k H m M pk sig = verify_with st k H' m M pk sig.
Proof. exact verify_inputs. Qed.
Theorem C51_separated255 : forall m m' X X', m <> Pure -> m' <> Pure -> (length (context_of m) <= 255)%nat -> (length (context_of m') <= 255)%nat ->
  dom m ++ X = dom m' ++ X' -> m = m' /\ X = X'.
Proof. exact dom_injective. Qed.
Example C51_case : Ctx [1; 2] <> Pure /\ Ph [1] <> Pure /\ dom (Ctx [1; 2]) ++ [3] <> dom (Ctx [1]) ++ [2; 3] /\ dom (Ctx [1]) ++ [2; 3] <> dom (Ph [1]) ++ [2; 3].
Proof. split; [discriminate|]. split; [discriminate|]. split; intro E; vm_compute in E; discriminate E. Qed.

(** ** C52: S is not checked to be below the order *)
Theorem C52_refuted : (forall x, bytes 64 (H0 x)) /\ L25519 < 2 ^ 253 /\ forall k m M pk, (length (context_of m) <= 255)%nat ->
  exists sig, bytes 64 sig /\ le_val (skipn 32 sig) = 2 ^ 253 /\ verify_with st0 k H0 m M pk sig = EDDSA_VERIFICATION_OK.
Proof. exact high_s_accepted. Qed.
(** Any accepted signature stays accepted when the order is added to S (if no addition borrows). *)
Theorem C52_malleable : forall st k H, (forall x, bytes 64 (H x)) -> forall m A M pk sig sig', (length (context_of m) <= 255)%nat -> on255 A -> encodes255 pk A ->
  bytes 64 sig -> bytes 64 sig' -> firstn 32 sig' = firstn 32 sig -> le_val (skipn 32 sig') = le_val (skipn 32 sig) + L25519 ->
  le_val (skipn 32 sig') < 2 ^ 256 - 256 -> challenge H m (firstn 32 sig) pk M < top_residue ->
  (forall q e, In (q, e) (additions_with st k H m M pk sig ++ additions_with st k H m M pk sig') -> borrow_free st q e) ->
  verify_with st k H m M pk sig = EDDSA_VERIFICATION_OK -> verify_with st k H m M pk sig' = EDDSA_VERIFICATION_OK.
Proof. exact malleable. Qed.

(** ** C64: verification accepts exactly when S B = R + k A.  Full claim: without the last three hypotheses. *)
Theorem C64_verify_partial : forall st k H, (forall x, bytes 64 (H x)) -> forall m A M pk sig, (length (context_of m) <= 255)%nat -> on255 A -> encodes255 pk A -> bytes 64 sig ->
  le_val (skipn 32 sig) < 2 ^ 256 - 256 -> challenge H m (firstn 32 sig) pk M < top_residue ->
  (forall q e, In (q, e) (additions_with st k H m M pk sig) -> borrow_free st q e) ->
  (verify_with st k H m M pk sig = EDDSA_VERIFICATION_OK /\ equation H m A pk M sig) \/
  (verify_with st k H m M pk sig = EDDSA_INVALID_SIGNATURE /\ ~ equation H m A pk M sig).
Proof. exact verify_right. Qed.
(** The full claim is false in both directions: C49_refuted rejects a signature that satisfies the equation, and one that does not is accepted. *)
Theorem C64_refuted : (forall x, bytes 64 (H2 x)) /\ on255 ed_zero /\ encodes255 one_key ed_zero /\ forall k m M, (length (context_of m) <= 255)%nat ->
  exists sig, bytes 64 sig /\ ~ equation H2 m ed_zero one_key M sig /\ verify_with st0 k H2 m M one_key sig = EDDSA_VERIFICATION_OK.
Proof. exact unequal_accepted. Qed.

(** ** C65: the public key is the one of RFC 8032 *)
Theorem C65_keygen : forall st k sky K0 S0, length K0 = 67%nat -> length S0 = 67%nat -> forall H, (forall x, bytes 64 (H x)) -> forall sk,
  fst (ed25519_keygen st k sky K0 S0 H sk) = EDDSA_KEYGEN_OK /\ public H sk (snd (ed25519_keygen st k sky K0 S0 H sk)).
Proof. exact keygen_rfc. Qed.

(** ** C66: the signature is the one of RFC 8032.  Full claim: without the hypotheses on the residues and the dropped carry. *)
Theorem C66_signature_partial : forall st k sky K0 S0, length K0 = 67%nat -> length S0 = 67%nat -> forall H, (forall x, bytes 64 (H x)) ->
  forall m sig0 M pk sk, (length (context_of m) <= 255)%nat ->
  let sig := snd (sign_with st k sky K0 S0 H m sig0 M pk sk) in
  nonce H m sk M < top_residue -> challenge H m (firstn 32 sig) pk M < top_residue ->
  no_lost_carry (nonce H m sk M) 4 4 (challenge H m (firstn 32 sig) pk M) (secret H sk) ->
  (nonce H m sk M + challenge H m (firstn 32 sig) pk M * secret H sk) mod L25519 < top_residue ->
  signature H m sk pk M sig.
Proof. exact sign_rfc. Qed.
(** The first half of the signature is always right. *)
Theorem C66_first_half : forall st k sky K0 S0, length K0 = 67%nat -> length S0 = 67%nat -> forall H, (forall x, bytes 64 (H x)) ->
  forall m sig0 M pk sk, (length (context_of m) <= 255)%nat ->
  let sig := snd (sign_with st k sky K0 S0 H m sig0 M pk sk) in bytes 64 sig /\ encodes255 (firstn 32 sig) (mul255 (nonce H m sk M) B_ed255).
Proof. exact sign_R. Qed.
Theorem C66_refuted : (forall x, bytes 64 (Hn x)) /\ forall k sky K0 S0 sig0 pk, length K0 = 67%nat -> length S0 = 67%nat -> public Hn sk0 pk ->
  ~ signature Hn Pure sk0 pk M0 (snd (ed25519_sign st0 k sky K0 S0 Hn sig0 M0 pk sk0)).
Proof. exact (conj Hn64 wrong_signature). Qed.

Definition signatures := (C47_decompression, C48_refuted, C48_never, C49_roundtrip_partial, C49_refuted, C50_sign255, C50_verify255, C51_sign255, C51_verify255, C51_separated255,
  C52_refuted, C52_malleable, C64_verify_partial, C64_refuted, C65_keygen, C66_signature_partial, C66_first_half, C66_refuted).
Print Assumptions signatures.
