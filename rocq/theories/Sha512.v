(** SHA-512 as computed by /repo/third_party/sha512.c (sphlib), for the preprocessor configuration of
    x86-64 with gcc: SPH_64, SPH_LITTLE_ENDIAN, SPH_UNALIGNED = 1 and SPH_UPTR = sph_u64 (sha512.h:1016-1020).
    sph_sha512 is the macro sph_sha384 (sha512.h); BE64 is defined, PW01, PLW1 and PLW4 are not.
    Bytes and words are integers; the 64-bit truncation of each operation is written out.
    The misaligned read of *(const sph_u64* )src by sph_dec64be_aligned is modelled as the read of 8 bytes. *)
From Coq Require Import ZArith List Bool.
Import ListNotations.
Open Scope Z_scope.

(** SPH_T64, SPH_ROTL64, SPH_ROTR64, sha512.h:938-940; a shift to the left of a sph_u64 drops the high bits *)
Definition T64 (x : Z) : Z := Z.land x 0xFFFFFFFFFFFFFFFF.
Definition shl64 (x n : Z) : Z := Z.shiftl x n mod 2 ^ 64.
Definition ROTL64 (x n : Z) : Z := T64 (Z.lor (shl64 x n) (Z.shiftr x (64 - n))).
Definition ROTR64 (x n : Z) : Z := ROTL64 x (64 - n).
(** Addition of two sph_u64 *)
Definition add64 (x y : Z) : Z := (x + y) mod 2 ^ 64.
(** CH, MAJ, BSG5_0, BSG5_1, SSG5_0, SSG5_1, :41-49 *)
Definition CH (X Y V : Z) : Z := Z.lxor (Z.land (Z.lxor Y V) X) V.
Definition MAJ (X Y V : Z) : Z := Z.lor (Z.land X Y) (Z.land (Z.lor X Y) V).
Definition BSG5_0 (x : Z) : Z := Z.lxor (Z.lxor (ROTR64 x 28) (ROTR64 x 34)) (ROTR64 x 39).
Definition BSG5_1 (x : Z) : Z := Z.lxor (Z.lxor (ROTR64 x 14) (ROTR64 x 18)) (ROTR64 x 41).
Definition SSG5_0 (x : Z) : Z := Z.lxor (Z.lxor (ROTR64 x 1) (ROTR64 x 8)) (T64 (Z.shiftr x 7)).
Definition SSG5_1 (x : Z) : Z := Z.lxor (Z.lxor (ROTR64 x 19) (ROTR64 x 61)) (T64 (Z.shiftr x 6)).
(** K512, :51-92 *)
Definition K512 : list Z := [
  0x428A2F98D728AE22; 0x7137449123EF65CD; 0xB5C0FBCFEC4D3B2F; 0xE9B5DBA58189DBBC;
  0x3956C25BF348B538; 0x59F111F1B605D019; 0x923F82A4AF194F9B; 0xAB1C5ED5DA6D8118;
  0xD807AA98A3030242; 0x12835B0145706FBE; 0x243185BE4EE4B28C; 0x550C7DC3D5FFB4E2;
  0x72BE5D74F27B896F; 0x80DEB1FE3B1696B1; 0x9BDC06A725C71235; 0xC19BF174CF692694;
  0xE49B69C19EF14AD2; 0xEFBE4786384F25E3; 0x0FC19DC68B8CD5B5; 0x240CA1CC77AC9C65;
  0x2DE92C6F592B0275; 0x4A7484AA6EA6E483; 0x5CB0A9DCBD41FBD4; 0x76F988DA831153B5;
  0x983E5152EE66DFAB; 0xA831C66D2DB43210; 0xB00327C898FB213F; 0xBF597FC7BEEF0EE4;
  0xC6E00BF33DA88FC2; 0xD5A79147930AA725; 0x06CA6351E003826F; 0x142929670A0E6E70;
  0x27B70A8546D22FFC; 0x2E1B21385C26C926; 0x4D2C6DFC5AC42AED; 0x53380D139D95B3DF;
  0x650A73548BAF63DE; 0x766A0ABB3C77B2A8; 0x81C2C92E47EDAEE6; 0x92722C851482353B;
  0xA2BFE8A14CF10364; 0xA81A664BBC423001; 0xC24B8B70D0F89791; 0xC76C51A30654BE30;
  0xD192E819D6EF5218; 0xD69906245565A910; 0xF40E35855771202A; 0x106AA07032BBD1B8;
  0x19A4C116B8D2D0C8; 0x1E376C085141AB53; 0x2748774CDF8EEB99; 0x34B0BCB5E19B48A8;
  0x391C0CB3C5C95A63; 0x4ED8AA4AE3418ACB; 0x5B9CCA4F7763E373; 0x682E6FF3D6B2B8A3;
  0x748F82EE5DEFB2FC; 0x78A5636F43172F60; 0x84C87814A1F0AB72; 0x8CC702081A6439EC;
  0x90BEFFFA23631E28; 0xA4506CEBDE82BDE9; 0xBEF9A3F7B2C67915; 0xC67178F2E372532B;
  0xCA273ECEEA26619C; 0xD186B8C721C0C207; 0xEADA7DD6CDE0EB1E; 0xF57D4F7FEE6ED178;
  0x06F067AA72176FBA; 0x0A637DC5A2C898A6; 0x113F9804BEF90DAE; 0x1B710B35131C471B;
  0x28DB77F523047D84; 0x32CAAB7B40C72493; 0x3C9EBE0A15C9BEBC; 0x431D67C49C100D4C;
  0x4CC5D4BECB3E42B6; 0x597F299CFC657E2A; 0x5FCB6FAB3AD6FAEC; 0x6C44198C4A475817].
(** H512, :101-106 *)
Definition H512 : list Z := [
  0x6A09E667F3BCC908; 0xBB67AE8584CAA73B; 0x3C6EF372FE94F82B; 0xA54FF53A5F1D36F1;
  0x510E527FADE682D1; 0x9B05688C2B3E6C1F; 0x1F83D9ABFB41BD6B; 0x5BE0CD19137E2179].
(** sph_bswap64 of a little-endian load, sph_dec64be_aligned *)
Definition dec64be (b : list Z) : Z :=
  match b with
  | b0 :: b1 :: b2 :: b3 :: b4 :: b5 :: b6 :: b7 :: _ =>
      b7 + 2 ^ 8 * (b6 + 2 ^ 8 * (b5 + 2 ^ 8 * (b4 + 2 ^ 8 * (b3 + 2 ^ 8 * (b2 + 2 ^ 8 * (b1 + 2 ^ 8 * b0))))))
  | _ => 0
  end.
(** sph_enc64be, sph_enc64be_aligned: the store of the swapped word, byte by byte *)
Definition enc64be (v : Z) : list Z := map (fun i => Z.shiftr v (56 - 8 * Z.of_nat i) mod 256) (seq 0 8).
(** SHA3_STEP, :124-130: the new values of the arguments D and H *)
Definition SHA3_STEP (W : list Z) (A B C D E F G H : Z) (i : nat) : Z * Z :=
  let T1 := T64 (add64 (add64 (add64 (add64 H (BSG5_1 E)) (CH E F G)) (nth i K512 0)) (nth i W 0)) in
  let T2 := T64 (add64 (BSG5_0 A) (MAJ A B C)) in
  (T64 (add64 D T1), T64 (add64 T1 T2)).
(** W[16] to W[79], :140-142: n more words *)
Fixpoint schedule (n : nat) (W : list Z) : list Z :=
  match n with
  | O => W
  | S n =>
    let i := length W in
    schedule n (W ++ [T64 (add64 (add64 (add64 (SSG5_1 (nth (i - 2) W 0)) (nth (i - 7) W 0)) (SSG5_0 (nth (i - 15) W 0))) (nth (i - 16) W 0))])
  end.
(** The eight steps of an iteration, :151-160, on A to H *)
Definition eight_steps (W : list Z) (i : nat) (r : list Z) : list Z :=
  match r with
  | [A; B; C; D; E; F; G; H] =>
    let '(D, H) := SHA3_STEP W A B C D E F G H (i + 0) in
    let '(C, G) := SHA3_STEP W H A B C D E F G (i + 1) in
    let '(B, F) := SHA3_STEP W G H A B C D E F (i + 2) in
    let '(A, E) := SHA3_STEP W F G H A B C D E (i + 3) in
    let '(H, D) := SHA3_STEP W E F G H A B C D (i + 4) in
    let '(G, C) := SHA3_STEP W D E F G H A B C (i + 5) in
    let '(F, B) := SHA3_STEP W C D E F G H A B (i + 6) in
    let '(E, A) := SHA3_STEP W B C D E F G H A (i + 7) in
    [A; B; C; D; E; F; G; H]
  | _ => r
  end.
(** The loop for (i = 0; i < 80; i += 8): n iterations from i *)
Fixpoint step_loop (n i : nat) (W r : list Z) : list Z :=
  match n with O => r | S n => step_loop n (i + 8) W (eight_steps W i r) end.
(** sha3_round, SHA3_ROUND_BODY, :132-183; data is read at 128 bytes *)
Definition sha3_round (data r : list Z) : list Z :=
  let W := schedule 64 (map (fun i => dec64be (skipn (8 * i) data)) (seq 0 16)) in
  let v := step_loop 10 0 W r in
  map (fun i => T64 (add64 (nth i r 0) (nth i v 0))) (seq 0 8).

(** sph_sha512_context, sha512.h: buf (128 bytes), val (8 words), count *)
Record ctx := Ctx { buf : list Z; vals : list Z; count : Z }.
(** sph_sha512_init, :192-200; buf keeps its contents *)
Definition sph_sha512_init (c : ctx) : ctx := Ctx (buf c) H512 0.
(** memcpy(buf + at, src, |src|) *)
Definition store_at (b : list Z) (at_ : nat) (src : list Z) : list Z :=
  firstn at_ b ++ src ++ skipn (at_ + length src) b.
(** (unsigned)count & (SPH_BLEN - 1U) *)
Definition current_of (c : ctx) : nat := Z.to_nat (Z.land (count c) 127).
(** The while loop of sha384_short, :342-370; an iteration consumes at least one byte, so that
    |data| iterations suffice *)
Fixpoint short_loop (fuel : nat) (c : ctx) (current : nat) (data : list Z) : ctx :=
  match fuel with
  | O => c
  | S f =>
    if (length data =? 0)%nat then c else
    let clen := if (length data <? 128 - current)%nat then length data else (128 - current)%nat in
    let b := store_at (buf c) current (firstn clen data) in
    let data' := skipn clen data in
    let current' := (current + clen)%nat in
    let cnt := add64 (count c) (Z.of_nat clen) in
    if (current' =? 128)%nat then short_loop f (Ctx b (sha3_round b (vals c)) cnt) 0 data'
    else short_loop f (Ctx b (vals c) cnt) current' data'
  end.
(** sha384_short, :329-371 *)
Definition sha384_short (c : ctx) (data : list Z) : ctx := short_loop (length data) c (current_of c) data.
(** while (len >= SPH_BLEN), :413-417: the new value and the remaining data *)
Fixpoint full_blocks (fuel : nat) (v data : list Z) : list Z * list Z :=
  match fuel with
  | O => (v, data)
  | S f => if (128 <=? length data)%nat then full_blocks f (sha3_round data v) (skipn 128 data) else (v, data)
  end.
(** sph_sha384 alias sph_sha512, :375-436 *)
Definition sph_sha512 (c : ctx) (data : list Z) : ctx :=
  if (length data <? 256)%nat then sha384_short c data else
  let current := current_of c in
  let t := (128 - current)%nat in
  let '(c, data) := if (0 <? current)%nat then (sha384_short c (firstn t data), skipn t data) else (c, data) in
  let orig_len := length data in
  let '(v, rest) := full_blocks (length data) (vals c) data in
  let b := if (0 <? length rest)%nat then store_at (buf c) 0 rest else buf c in
  Ctx b v (add64 (count c) (Z.of_nat orig_len)).
(** sha384_addbits_and_close with ub = n = 0 and rnum = 8, :444-545: the digest; :549-553, :572-577 *)
Definition sph_sha512_close (c : ctx) : list Z * ctx :=
  let current := current_of c in
  let b := store_at (buf c) current [128] in
  let current := (current + 1)%nat in
  let '(b, v) :=
    if (112 <? current)%nat then
      let b := store_at b current (repeat 0 (128 - current)) in
      (store_at b 0 (repeat 0 112), sha3_round b (vals c))
    else (store_at b current (repeat 0 (112 - current)), vals c) in
  let b := store_at b 112 (enc64be (Z.shiftr (count c) 61)) in
  let b := store_at b 120 (enc64be (T64 (shl64 (count c) 3))) in
  let v := sha3_round b v in
  (flat_map enc64be v, sph_sha512_init (Ctx b v (count c))).
(** A sequence of sph_sha512 calls *)
Definition sph_sha512_all (c : ctx) (chunks : list (list Z)) : ctx := fold_left sph_sha512 chunks c.
