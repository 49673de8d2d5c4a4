(** The Ed25519 and Ed448 functions with the library's own hash code: the calls of sph_sha512_init, sph_sha512 and sph_sha512_close of
    /repo/src/sign255.c, and of SHAKE256, Init, Update and Final2 of /repo/src/sign448.c, in their order and with their arguments.
    Sign255.v and Sign448.v have one application of a function H instead. *)
From Coq Require Import ZArith List Bool.
From Verif Require Import Uop Engine Bytes X86 Fp25519Full Sha512 Sha3 Scalar Scalar448 Edwards255 Fixed255 Decode255 Edwards448 Sign255 Sign448.
Import ListNotations.
Open Scope Z_scope.

(** Init of a context with any contents, updates and close: the digest and the context afterwards *)
Definition hash512 (c : ctx) (pieces : list (list Z)) : list Z * ctx := sph_sha512_close (sph_sha512_all (sph_sha512_init c) pieces).
(** The updates with prefix and context, sign255.c:338-341, :362-365 and :491-494 *)
Definition domain_pieces (pureEdDSA phflag : Z) (context : list Z) : list (list Z) :=
  if pureEdDSA =? 0 then [prefix255 ++ [phflag; Z.of_nat (length context) mod 256]; context] else [].
Section Ed25519.
Variable st0 : store. Variable k : cpu. Variable sky : bool. Variables K0 S0 : list Z.
(** hash_context and prehash_context, uninitialised *)
Variables c0 c1 : ctx.
(** ed25519_keygen, sign255.c:267-290 *)
Definition ed25519_keygen_sha (private_key : list Z) : Z * list Z :=
  let az := fst (hash512 c0 [private_key]) in
  let azB := point_multiplication st0 sky K0 S0 (bytes_of (secret_scalar st0 az)) in
  (EDDSA_KEYGEN_OK, point_encoding st0 k azB).
(** :343-354 and :497-507: what is hashed for the message *)
Definition message_sha (phflag : Z) (message : list Z) : option (list Z) :=
  if phflag =? 1 then Some (fst (hash512 c1 [message])) else if phflag =? 0 then Some message else None.
(** ed25519_sign_all, :305-385; hash_context is used three times.  The updates of hash_context that precede the return for another phflag
    have no effect and are left out. *)
Definition ed25519_sign_all_sha (signature message context public_key private_key : list Z) (pureEdDSA phflag : Z) : Z * list Z :=
  if (pureEdDSA =? 0) && (255 <? Z.of_nat (length context)) then (EDDSA_ERROR_CONTEXT, signature) else
  let (ah, c) := hash512 c0 [private_key] in
  let a := clamp_bytes255 ah in
  match message_sha phflag message with
  | None => (EDDSA_ERROR_PHFLAG, signature)
  | Some msg =>
    let (r, c) := hash512 c (domain_pieces pureEdDSA phflag context ++ [skipn 32 ah; msg]) in
    let r := reduced_digest st0 r in
    let rB := point_multiplication st0 sky K0 S0 r in
    let R := point_encoding st0 k rB in
    let (h, c) := hash512 c (domain_pieces pureEdDSA phflag context ++ [R; public_key; msg]) in
    let H_RAM := reduced_digest st0 h in
    let s := calculate_s_ed25519 st0 (words_of 4 r) (words_of 4 H_RAM) (words_of 4 a) in
    (EDDSA_SIGNATURE_OK, R ++ bytes_of s)
  end.
(** ed25519_verify_all, :462-514 *)
Definition ed25519_verify_all_sha (message context public_key signature : list Z) (pureEdDSA phflag : Z) : Z :=
  if (pureEdDSA =? 0) && (255 <? Z.of_nat (length context)) then EDDSA_ERROR_CONTEXT else
  let '(ret, PA, _) := point_decoding st0 k public_key in
  if negb (ret =? 0) then EDDSA_ERROR_PUBLICKEY else
  match message_sha phflag message with
  | None => EDDSA_ERROR_PHFLAG
  | Some msg =>
    let (h, c) := hash512 c0 (domain_pieces pureEdDSA phflag context ++ [firstn 32 signature; public_key; msg]) in
    let H_RAM := reduced_digest st0 h in
    match double_point_mult_4w st0 k (skipn 32 signature) H_RAM PA with
    | Some Q => if same_bytes 32 signature Q then EDDSA_VERIFICATION_OK else EDDSA_INVALID_SIGNATURE
    | None => -1
    end
  end.
End Ed25519.

(** Init(&hash, 256), Update calls and Final2, as in sign448.c *)
Definition shake_run (pieces : list (list Z)) (n : nat) : list Z := Final2 (Update_all (Init 256) pieces) n.
(** The updates with prefix and context, sign448.c:163-164, :181-182 and :281-282 *)
Definition domain448_pieces (phflag : Z) (context : list Z) : list (list Z) := [prefix448 ++ [phflag; Z.of_nat (length context) mod 256]; context].
Section Ed448.
Variable st0 : store. Variables junk K0 S0 : list Z.
(** ed448_keygen, sign448.c:103-118 *)
Definition ed448_keygen_shake (private_key : list Z) : Z * list Z :=
  let h := clamp_bytes_ed448 (SHAKE256 private_key 114) in
  let hB := fixed_point_multiplication448 st0 junk K0 S0 h in
  (EDDSA_KEYGEN_OK, point_encoding448 st0 hB).
(** :166-173, :285-292 *)
Definition message_shake (phflag : Z) (message : list Z) : option (list Z) :=
  if phflag =? 1 then Some (SHAKE256 message 64) else if phflag =? 0 then Some message else None.
(** ed448_sign_all, :132-198 *)
Definition ed448_sign_all_shake (signature message context public_key private_key : list Z) (phflag : Z) : Z * list Z :=
  if 255 <? Z.of_nat (length context) then (EDDSA_ERROR_CONTEXT, signature) else
  let ah := clamp_bytes_ed448 (SHAKE256 private_key 114) in
  match message_shake phflag message with
  | None => (EDDSA_ERROR_PHFLAG, signature)
  | Some msg =>
    let r := modular_reduction_ed448 st0 junk (shake_run (domain448_pieces phflag context ++ [firstn 57 (skipn 57 ah); msg]) 114) in
    let rB := fixed_point_multiplication448 st0 junk K0 S0 r in
    let R := point_encoding448 st0 rB in
    let H_RAM := modular_reduction_ed448 st0 junk (shake_run (domain448_pieces phflag context ++ [R; public_key; msg]) 114) in
    (EDDSA_SIGNATURE_OK, R ++ calculate_s_ed448 st0 junk r H_RAM ah)
  end.
(** ed448_verify_all, :255-302 *)
Definition ed448_verify_all_shake (message context public_key signature : list Z) (phflag : Z) : Z :=
  if 255 <? Z.of_nat (length context) then EDDSA_ERROR_CONTEXT else
  match message_shake phflag message with
  | None => EDDSA_ERROR_PHFLAG
  | Some msg =>
    let H_RAM := modular_reduction_ed448 st0 junk (shake_run (domain448_pieces phflag context ++ [firstn 57 signature; public_key; msg]) 114) in
    let (ret, A) := point_decoding448 st0 public_key in
    if negb (ret =? 0) then EDDSA_ERROR_PUBLICKEY else
    match double_point_mult448_4w st0 junk (skipn 57 signature) H_RAM A with
    | Some Q => if same_bytes 57 signature Q then EDDSA_VERIFICATION_OK else EDDSA_INVALID_SIGNATURE
    | None => -1
    end
  end.
End Ed448.
