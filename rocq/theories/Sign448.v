(** Ed448 key generation, signing and verification, /repo/src/sign448.c:72-344.
    SHAKE256 is an argument: [H n x] is the n-byte output for the input x; a sequence of Init, Update calls and
    Final2 is one application to the concatenated inputs (C57 is about that).  The message and the context are byte lists;
    message_length and context_length are their lengths.  The output buffer of signing is an argument and a result; it does
    not overlap the other arguments.  Each call of modular_reduction_ed448 has its own uninitialised words; the model gives them
    all the same value junk. *)
From Coq Require Import ZArith List Bool.
From Verif Require Import Uop Engine Bytes Scalar448 Edwards448 Sign255.
Import ListNotations.
Open Scope Z_scope.

(** The string constant "SigEd448" of prefix, :146 and :269 *)
Definition prefix448 : list Z := [83; 105; 103; 69; 100; 52; 52; 56].
(** The clamping of :111-113 and :158-160 *)
Definition clamp_bytes_ed448 (h : list Z) : list Z :=
  Z.land (nth 0 h 0) 0xFC :: firstn 54 (skipn 1 h) ++ [Z.lor (nth 55 h 0) 0x80; 0] ++ skipn 57 h.

Section Sign.
Variable st0 : store.
Variables junk K0 S0 : list Z.
Variable H : nat -> list Z -> list Z.
(** prefix and context, :153-155, :163-164, :181-182 and :276-282 *)
Definition domain448 (phflag : Z) (context : list Z) : list Z := prefix448 ++ [phflag; Z.of_nat (length context) mod 256] ++ context.
(** ed448_keygen, :103-118 *)
Definition ed448_keygen (private_key : list Z) : Z * list Z :=
  let h := clamp_bytes_ed448 (H 114 private_key) in
  let hB := fixed_point_multiplication448 st0 junk K0 S0 h in
  (EDDSA_KEYGEN_OK, point_encoding448 st0 hB).
(** The message as hashed: itself or its 64-byte digest; None for another phflag, :166-173 and :285-292 *)
Definition hashed_message448 (phflag : Z) (message : list Z) : option (list Z) :=
  if phflag =? 1 then Some (H 64 message) else if phflag =? 0 then Some message else None.
(** ed448_sign_all, :132-198; signature is the old contents of the 114-byte buffer *)
Definition ed448_sign_all (signature message context public_key private_key : list Z) (phflag : Z) : Z * list Z :=
  if 255 <? Z.of_nat (length context) then (EDDSA_ERROR_CONTEXT, signature) else
  let ah := clamp_bytes_ed448 (H 114 private_key) in
  match hashed_message448 phflag message with
  | None => (EDDSA_ERROR_PHFLAG, signature)
  | Some msg =>
    let r := modular_reduction_ed448 st0 junk (H 114 (domain448 phflag context ++ firstn 57 (skipn 57 ah) ++ msg)) in
    let rB := fixed_point_multiplication448 st0 junk K0 S0 r in
    let R := point_encoding448 st0 rB in
    let H_RAM := modular_reduction_ed448 st0 junk (H 114 (domain448 phflag context ++ R ++ public_key ++ msg)) in
    (EDDSA_SIGNATURE_OK, R ++ calculate_s_ed448 st0 junk r H_RAM ah)
  end.
(** ed448_verify_all, :255-302; the buffers of the recodings are not overrun (double_point_mult448_4w does not return None on
    bytes), so the error value of that case is immaterial *)
Definition ed448_verify_all (message context public_key signature : list Z) (phflag : Z) : Z :=
  if 255 <? Z.of_nat (length context) then EDDSA_ERROR_CONTEXT else
  match hashed_message448 phflag message with
  | None => EDDSA_ERROR_PHFLAG
  | Some msg =>
    let H_RAM := modular_reduction_ed448 st0 junk (H 114 (domain448 phflag context ++ firstn 57 signature ++ public_key ++ msg)) in
    let (ret, A) := point_decoding448 st0 public_key in
    if negb (ret =? 0) then EDDSA_ERROR_PUBLICKEY else
    match double_point_mult448_4w st0 junk (skipn 57 signature) H_RAM A with
    | Some Q => if same_bytes 57 signature Q then EDDSA_VERIFICATION_OK else EDDSA_INVALID_SIGNATURE
    | None => -1
    end
  end.
(** The four entry points, :209-244 and :314-344 *)
Definition ed448_signctx (signature message context public_key private_key : list Z) := ed448_sign_all signature message context public_key private_key 0.
Definition ed448ph_signctx (signature message context public_key private_key : list Z) := ed448_sign_all signature message context public_key private_key 1.
Definition ed448_verifyctx (message context public_key signature : list Z) := ed448_verify_all message context public_key signature 0.
Definition ed448ph_verifyctx (message context public_key signature : list Z) := ed448_verify_all message context public_key signature 1.
End Sign.
