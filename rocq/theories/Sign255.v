(** Ed25519 key generation, signing and verification, /repo/src/sign255.c:267-574.
    SHA-512 is an argument H: a sequence of sph_sha512_init, sph_sha512 calls and
    sph_sha512_close is one application of H to the concatenated inputs.  The message and the
    context are byte lists; message_length and context_length are their lengths.  The output
    buffer of signing is an argument and a result; it does not overlap the other arguments. *)
From Coq Require Import ZArith List Bool.
From Verif Require Import Uop Engine Bytes X86 Fp25519Full Simd Fp25519Red Scalar Edwards255 Verify255 Table255 Fixed255 Decode255.
Import ListNotations.
Open Scope Z_scope.

(** EDDSA_FLAGS, /repo/include/faz_eddsa_avx2.h *)
Definition EDDSA_KEYGEN_OK : Z := 0.
Definition EDDSA_SIGNATURE_OK : Z := 1.
Definition EDDSA_VERIFICATION_OK : Z := 2.
Definition EDDSA_INVALID_SIGNATURE : Z := 3.
Definition EDDSA_ERROR_PUBLICKEY : Z := 4.
Definition EDDSA_ERROR_CONTEXT : Z := 5.
Definition EDDSA_ERROR_PHFLAG : Z := 6.
(** The string constant "SigEd25519 no Ed25519 collisions" of prefix, :322 and :476 *)
Definition prefix255 : list Z := [
  83; 105; 103; 69; 100; 50; 53; 53; 49; 57; 32; 110; 111; 32; 69; 100; 50; 53; 53; 49; 57; 32; 99; 111; 108; 108; 105; 115; 105; 111; 110; 115].
(** memcmp(a, b, n) == 0 *)
Fixpoint same_bytes (n : nat) (a b : list Z) : bool :=
  match n with O => true | S n => (hd 0 a =? hd 0 b) && same_bytes n (tl a) (tl b) end.

Section Sign.
Variable st0 : store.
Variable k : cpu.
Variable sky : bool.
Variable K0 S0 : list Z.
Variable H : list Z -> list Z.
(** What is hashed before R and the message when pureEdDSA is 0, :331-337, :368-371 and :487-490 *)
Definition domain (pureEdDSA phflag : Z) (context : list Z) : list Z :=
  if pureEdDSA =? 0 then prefix255 ++ [phflag; Z.of_nat (length context) mod 256] ++ context else [].
(** modular_reduction_ed25519 on the 64 bytes of a digest: the 32 bytes used afterwards *)
Definition reduced_digest (d : list Z) : list Z := bytes_of (firstn 4 (modular_reduction_ed25519 st0 (words_of 8 d))).
(** ed25519_keygen, :267-290 *)
Definition ed25519_keygen (private_key : list Z) : Z * list Z :=
  let az := H private_key in
  let azB := point_multiplication st0 sky K0 S0 (bytes_of (secret_scalar st0 az)) in
  (EDDSA_KEYGEN_OK, point_encoding st0 k azB).
(** The message as hashed: itself or its digest; None for another phflag, :344-355 and :374-380 *)
Definition hashed_message (phflag : Z) (message : list Z) : option (list Z) :=
  if phflag =? 1 then Some (H message) else if phflag =? 0 then Some message else None.
(** ed25519_sign_all, :305-385; signature is the old contents of the 64-byte buffer *)
Definition ed25519_sign_all (signature message context public_key private_key : list Z) (pureEdDSA phflag : Z) : Z * list Z :=
  if (pureEdDSA =? 0) && (255 <? Z.of_nat (length context)) then (EDDSA_ERROR_CONTEXT, signature) else
  let ah := H private_key in
  let a := clamp_bytes255 ah in
  match hashed_message phflag message with
  | None => (EDDSA_ERROR_PHFLAG, signature)
  | Some msg =>
    let r := reduced_digest (H (domain pureEdDSA phflag context ++ skipn 32 ah ++ msg)) in
    let rB := point_multiplication st0 sky K0 S0 r in
    let R := point_encoding st0 k rB in
    let H_RAM := reduced_digest (H (domain pureEdDSA phflag context ++ R ++ public_key ++ msg)) in
    let s := calculate_s_ed25519 st0 (words_of 4 r) (words_of 4 H_RAM) (words_of 4 a) in
    (EDDSA_SIGNATURE_OK, R ++ bytes_of s)
  end.
(** ed25519_verify_all, :462-514; the buffers of the recodings are never overrun (double_point_mult_4w does not return None for 32-byte scalars),
    so the error value of that case is immaterial *)
Definition ed25519_verify_all (message context public_key signature : list Z) (pureEdDSA phflag : Z) : Z :=
  if (pureEdDSA =? 0) && (255 <? Z.of_nat (length context)) then EDDSA_ERROR_CONTEXT else
  let '(ret, PA, _) := point_decoding st0 k public_key in
  if negb (ret =? 0) then EDDSA_ERROR_PUBLICKEY else
  match hashed_message phflag message with
  | None => EDDSA_ERROR_PHFLAG
  | Some msg =>
    let H_RAM := reduced_digest (H (domain pureEdDSA phflag context ++ firstn 32 signature ++ public_key ++ msg)) in
    match double_point_mult_4w st0 k (skipn 32 signature) H_RAM PA with
    | Some Q => if same_bytes 32 signature Q then EDDSA_VERIFICATION_OK else EDDSA_INVALID_SIGNATURE
    | None => -1
    end
  end.
(** The six entry points, :391-459 and :524-574 *)
Definition ed25519_sign (signature message public_key private_key : list Z) := ed25519_sign_all signature message [] public_key private_key 1 0.
Definition ed25519_signctx (signature message context public_key private_key : list Z) := ed25519_sign_all signature message context public_key private_key 0 0.
Definition ed25519ph_signctx (signature message context public_key private_key : list Z) := ed25519_sign_all signature message context public_key private_key 0 1.
Definition ed25519_verify (message public_key signature : list Z) := ed25519_verify_all message [] public_key signature 1 0.
Definition ed25519_verifyctx (message context public_key signature : list Z) := ed25519_verify_all message context public_key signature 0 0.
Definition ed25519ph_verifyctx (message context public_key signature : list Z) := ed25519_verify_all message context public_key signature 0 1.
(** Not part of the code: the operands of all mixed additions of the call ed25519_verify_all. *)
Definition verification_additions (message context public_key signature : list Z) (pureEdDSA phflag : Z) : list (list Z * list Z) :=
  match hashed_message phflag message with
  | None => []
  | Some msg => mixed_additions st0 (skipn 32 signature) (reduced_digest (H (domain pureEdDSA phflag context ++ firstn 32 signature ++ public_key ++ msg)))
      (snd (fst (point_decoding st0 k public_key)))
  end.
End Sign.
