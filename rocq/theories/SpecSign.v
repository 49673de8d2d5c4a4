(** RFC 8032, 5.1: Ed25519, Ed25519ctx and Ed25519ph, with SHA-512 as a function H on byte strings.
    Plain integers and lists; nothing here refers to the model of the code. *)
From Coq Require Import ZArith List Ascii String.
From Verif Require Import Bytes SpecScalar SpecEd SpecEdVec.
Import ListNotations.
Open Scope Z_scope.

Definition ascii_bytes (s : string) : list Z := map (fun c => Z.of_nat (nat_of_ascii c)) (list_ascii_of_string s).
(** dom2(x, y), RFC 8032, 2 *)
Definition dom2 (x : Z) (y : list Z) : list Z := ascii_bytes "SigEd25519 no Ed25519 collisions" ++ [x; Z.of_nat (List.length y)] ++ y.
(** The three instances, and the domain prefix and prehash of each *)
Inductive scheme := Pure | Ctx (c : list Z) | Ph (c : list Z).
Definition dom (m : scheme) : list Z := match m with Pure => [] | Ctx c => dom2 0 c | Ph c => dom2 1 c end.
Definition context_of (m : scheme) : list Z := match m with Pure => [] | Ctx c => c | Ph c => c end.
Section Rfc.
Variable H : list Z -> list Z.
Definition PH (m : scheme) (M : list Z) : list Z := match m with Ph _ => H M | _ => M end.
(** The secret scalar and the prefix, 5.1.5 *)
Definition secret (sk : list Z) : Z := clamped255 (le_val (firstn 32 (H sk))).
Definition public (sk : list Z) (pk : list Z) : Prop := encodes255 pk (mul255 (secret sk) B_ed255).
(** 5.1.6: the inputs of the two hashes, r, k and the signature *)
Definition nonce_input (m : scheme) (sk M : list Z) : list Z := dom m ++ skipn 32 (H sk) ++ PH m M.
Definition challenge_input (m : scheme) (R pk M : list Z) : list Z := dom m ++ R ++ pk ++ PH m M.
Definition nonce (m : scheme) (sk M : list Z) : Z := le_val (H (nonce_input m sk M)) mod L25519.
Definition challenge (m : scheme) (R pk M : list Z) : Z := le_val (H (challenge_input m R pk M)) mod L25519.
Definition signature (m : scheme) (sk pk M sig : list Z) : Prop :=
  bytes 64 sig /\ encodes255 (firstn 32 sig) (mul255 (nonce m sk M) B_ed255) /\
  le_val (skipn 32 sig) = (nonce m sk M + challenge m (firstn 32 sig) pk M * secret sk) mod L25519.
(** 5.1.7, without the factor 8: S B = R + k A, with R compared in encoded form.  A is the point encoded by the public key. *)
Definition equation (m : scheme) (A : Z * Z) (pk M sig : list Z) : Prop :=
  encodes255 (firstn 32 sig) (add255 (mul255 (le_val (skipn 32 sig)) B_ed255) (neg255 (mul255 (challenge m (firstn 32 sig) pk M) A))).
End Rfc.
