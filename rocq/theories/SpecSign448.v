(** RFC 8032, 5.2: Ed448 and Ed448ph, with SHAKE256 as a function: [H n x] is the n-byte output for the byte string x.
    Plain integers and lists; nothing here refers to the model of the code. *)
From Coq Require Import ZArith List Ascii String.
From Verif Require Import Bytes SpecScalar SpecEd SpecSign.
Import ListNotations.
Open Scope Z_scope.

(** dom4(x, y), RFC 8032, 2 *)
Definition dom4 (x : Z) (y : list Z) : list Z := ascii_bytes "SigEd448" ++ [x; Z.of_nat (List.length y)] ++ y.
(** The two instances, and the domain prefix and prehash of each *)
Inductive scheme448 := Ed448 (c : list Z) | Ed448ph (c : list Z).
Definition dom448 (m : scheme448) : list Z := match m with Ed448 c => dom4 0 c | Ed448ph c => dom4 1 c end.
Definition context448 (m : scheme448) : list Z := match m with Ed448 c => c | Ed448ph c => c end.
(** The 57-byte encoding of a point: y in 56 bytes and the parity of x in the last bit *)
Definition encodes448 (bs : list Z) (P : Z * Z) : Prop := bytes 57 bs /\ le_val bs = snd P + 2 ^ 455 * (fst P mod 2).
Definition clamped448 (x : Z) : Z := 2 ^ 447 + 4 * (x mod 2 ^ 447 / 4).
Section Rfc.
Variable H : nat -> list Z -> list Z.
Definition PH448 (m : scheme448) (M : list Z) : list Z := match m with Ed448ph _ => H 64 M | Ed448 _ => M end.
(** The secret scalar and the public key, 5.2.5 *)
Definition secret448 (sk : list Z) : Z := clamped448 (le_val (firstn 57 (H 114 sk))).
Definition public448 (sk pk : list Z) : Prop := encodes448 pk (mul448 (secret448 sk) B_ed448).
(** 5.2.6: the inputs of the two hashes, r, k and the signature *)
Definition nonce_input448 (m : scheme448) (sk M : list Z) : list Z := dom448 m ++ skipn 57 (H 114 sk) ++ PH448 m M.
Definition challenge_input448 (m : scheme448) (R pk M : list Z) : list Z := dom448 m ++ R ++ pk ++ PH448 m M.
Definition nonce448 (m : scheme448) (sk M : list Z) : Z := le_val (H 114 (nonce_input448 m sk M)) mod L448.
Definition challenge448 (m : scheme448) (R pk M : list Z) : Z := le_val (H 114 (challenge_input448 m R pk M)) mod L448.
Definition signature448 (m : scheme448) (sk pk M sig : list Z) : Prop :=
  bytes 114 sig /\ encodes448 (firstn 57 sig) (mul448 (nonce448 m sk M) B_ed448) /\
  le_val (skipn 57 sig) = (nonce448 m sk M + challenge448 m (firstn 57 sig) pk M * secret448 sk) mod L448.
(** 5.2.7, without the factor 4: S B = R + k A, with R compared in encoded form.  A is the point encoded by the public key. *)
Definition equation448 (m : scheme448) (A : Z * Z) (pk M sig : list Z) : Prop :=
  encodes448 (firstn 57 sig) (add448 (mul448 (le_val (skipn 57 sig)) B_ed448) (neg448 (mul448 (challenge448 m (firstn 57 sig) pk M) A))).
End Rfc.
