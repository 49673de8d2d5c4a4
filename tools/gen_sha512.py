import re
s=open('/repo/third_party/sha512.c').read()
def tab(name):
    i=s.index('static const sph_u64 %s['%name); j=s.index('};',i)
    return re.findall(r'SPH_C64\((0x[0-9A-Fa-f]+)\)',s[i:j])
def fmt(xs):
    return ";\n  ".join("; ".join(xs[i:i+4]) for i in range(0,len(xs),4))
k=tab('K512'); h=tab('H512'); assert len(k)==80 and len(h)==8
out='''(** SHA-512 as computed by /repo/third_party/sha512.c (sphlib), for the preprocessor configuration of
    x86-64 with gcc: SPH_64, SPH_LITTLE_ENDIAN, SPH_UNALIGNED = 1 and SPH_UPTR = sph_u64 (sha512.h:1016-1020).
    sph_sha512 is the macro sph_sha384 (sha512.h); BE64 is defined, PW01, PLW1 and PLW4 are not.
    Bytes and words are integers; the 64-bit truncation of each operation is written out.
    The misaligned read of *(const sph_u64* )src by sph_dec64be_aligned is modelled as the read of 8 bytes. *)
From Coq Require Import ZArith List Bool.
Import ListNotations.
Open Scope Z_scope.

(** SPH_T64, SPH_ROTL64, SPH_ROTR64, sha512.h:938-940; a shift to the left of a sph_u64 drops the high bits *)
Definition T64 (x : Z) : Z := Z.land x 0xFFFFFFFFFFFFFFFF.
Definition shl64 (x n : Z) : Z := Z.shiftl x n mod 2 ^ 64.
Definition ROTL64 (x n : Z) : Z := T64 (Z.lor (shl64 x n) (Z.shiftr x (64 - n))).
Definition ROTR64 (x n : Z) : Z := ROTL64 x (64 - n).
(** Addition of two sph_u64 *)
Definition add64 (x y : Z) : Z := (x + y) mod 2 ^ 64.
(** CH, MAJ, BSG5_0, BSG5_1, SSG5_0, SSG5_1, @L1@ *)
Definition CH (X Y V : Z) : Z := Z.lxor (Z.land (Z.lxor Y V) X) V.
Definition MAJ (X Y V : Z) : Z := Z.lor (Z.land X Y) (Z.land (Z.lor X Y) V).
Definition BSG5_0 (x : Z) : Z := Z.lxor (Z.lxor (ROTR64 x 28) (ROTR64 x 34)) (ROTR64 x 39).
Definition BSG5_1 (x : Z) : Z := Z.lxor (Z.lxor (ROTR64 x 14) (ROTR64 x 18)) (ROTR64 x 41).
Definition SSG5_0 (x : Z) : Z := Z.lxor (Z.lxor (ROTR64 x 1) (ROTR64 x 8)) (T64 (Z.shiftr x 7)).
Definition SSG5_1 (x : Z) : Z := Z.lxor (Z.lxor (ROTR64 x 19) (ROTR64 x 61)) (T64 (Z.shiftr x 6)).
(** K512, :51-92 *)
Definition K512 : list Z := [
  %s].
(** H512, :101-106 *)
Definition H512 : list Z := [
  %s].
(** sph_bswap64 of a little-endian load, sph_dec64be_aligned *)
Definition dec64be (b : list Z) : Z :=
  match b with
  | b0 :: b1 :: b2 :: b3 :: b4 :: b5 :: b6 :: b7 :: _ =>
      b7 + 2 ^ 8 * (b6 + 2 ^ 8 * (b5 + 2 ^ 8 * (b4 + 2 ^ 8 * (b3 + 2 ^ 8 * (b2 + 2 ^ 8 * (b1 + 2 ^ 8 * b0))))))
  | _ => 0
  end.
(** sph_enc64be, sph_enc64be_aligned: the store of the swapped word, byte by byte *)
Definition enc64be (v : Z) : list Z := map (fun i => Z.shiftr v (56 - 8 * Z.of_nat i) mod 256) (seq 0 8).
(** SHA3_STEP, :124-130: the new values of the arguments D and H *)
Definition SHA3_STEP (W : list Z) (A B C D E F G H : Z) (i : nat) : Z * Z :=
  let T1 := T64 (add64 (add64 (add64 (add64 H (BSG5_1 E)) (CH E F G)) (nth i K512 0)) (nth i W 0)) in
  let T2 := T64 (add64 (BSG5_0 A) (MAJ A B C)) in
  (T64 (add64 D T1), T64 (add64 T1 T2)).
(** W[16] to W[79], :140-142: n more words *)
Fixpoint schedule (n : nat) (W : list Z) : list Z :=
  match n with
  | O => W
  | S n =>
    let i := length W in
    schedule n (W ++ [T64 (add64 (add64 (add64 (SSG5_1 (nth (i - 2) W 0)) (nth (i - 7) W 0)) (SSG5_0 (nth (i - 15) W 0))) (nth (i - 16) W 0))])
  end.
(** The eight steps of an iteration, :151-160, on A to H *)
Definition eight_steps (W : list Z) (i : nat) (r : list Z) : list Z :=
  match r with
  | [A; B; C; D; E; F; G; H] =>
    let '(D, H) := SHA3_STEP W A B C D E F G H (i + 0) in
    let '(C, G) := SHA3_STEP W H A B C D E F G (i + 1) in
    let '(B, F) := SHA3_STEP W G H A B C D E F (i + 2) in
    let '(A, E) := SHA3_STEP W F G H A B C D E (i + 3) in
    let '(H, D) := SHA3_STEP W E F G H A B C D (i + 4) in
    let '(G, C) := SHA3_STEP W D E F G H A B C (i + 5) in
    let '(F, B) := SHA3_STEP W C D E F G H A B (i + 6) in
    let '(E, A) := SHA3_STEP W B C D E F G H A (i + 7) in
    [A; B; C; D; E; F; G; H]
  | _ => r
  end.
(** The loop for (i = 0; i < 80; i += 8): n iterations from i *)
Fixpoint step_loop (n i : nat) (W r : list Z) : list Z :=
  match n with O => r | S n => step_loop n (i + 8) W (eight_steps W i r) end.
(** sha3_round, SHA3_ROUND_BODY, :132-183; data is read at 128 bytes *)
Definition sha3_round (data r : list Z) : list Z :=
  let W := schedule 64 (map (fun i => dec64be (skipn (8 * i) data)) (seq 0 16)) in
  let v := step_loop 10 0 W r in
  map (fun i => T64 (add64 (nth i r 0) (nth i v 0))) (seq 0 8).

(** sph_sha512_context, sha512.h: buf (128 bytes), val (8 words), count *)
Record ctx := Ctx { buf : list Z; vals : list Z; count : Z }.
(** sph_sha512_init, :192-200; buf keeps its contents *)
Definition sph_sha512_init (c : ctx) : ctx := Ctx (buf c) H512 0.
(** memcpy(buf + at, src, |src|) *)
Definition store_at (b : list Z) (at_ : nat) (src : list Z) : list Z :=
  firstn at_ b ++ src ++ skipn (at_ + length src) b.
(** (unsigned)count & (SPH_BLEN - 1U) *)
Definition current_of (c : ctx) : nat := Z.to_nat (Z.land (count c) 127).
(** The while loop of sha384_short, :342-370; an iteration consumes at least one byte, so that
    |data| iterations suffice *)
Fixpoint short_loop (fuel : nat) (c : ctx) (current : nat) (data : list Z) : ctx :=
  match fuel with
  | O => c
  | S f =>
    if (length data =? 0)%%nat then c else
    let clen := if (length data <? 128 - current)%%nat then length data else (128 - current)%%nat in
    let b := store_at (buf c) current (firstn clen data) in
    let data' := skipn clen data in
    let current' := (current + clen)%%nat in
    let cnt := add64 (count c) (Z.of_nat clen) in
    if (current' =? 128)%%nat then short_loop f (Ctx b (sha3_round b (vals c)) cnt) 0 data'
    else short_loop f (Ctx b (vals c) cnt) current' data'
  end.
(** sha384_short, :329-371 *)
Definition sha384_short (c : ctx) (data : list Z) : ctx := short_loop (length data) c (current_of c) data.
(** while (len >= SPH_BLEN), :413-417: the new value and the remaining data *)
Fixpoint full_blocks (fuel : nat) (v data : list Z) : list Z * list Z :=
  match fuel with
  | O => (v, data)
  | S f => if (128 <=? length data)%%nat then full_blocks f (sha3_round data v) (skipn 128 data) else (v, data)
  end.
(** sph_sha384 alias sph_sha512, :375-436 *)
Definition sph_sha512 (c : ctx) (data : list Z) : ctx :=
  if (length data <? 256)%%nat then sha384_short c data else
  let current := current_of c in
  let t := (128 - current)%%nat in
  let '(c, data) := if (0 <? current)%%nat then (sha384_short c (firstn t data), skipn t data) else (c, data) in
  let orig_len := length data in
  let '(v, rest) := full_blocks (length data) (vals c) data in
  let b := if (0 <? length rest)%%nat then store_at (buf c) 0 rest else buf c in
  Ctx b v (add64 (count c) (Z.of_nat orig_len)).
(** sha384_addbits_and_close with ub = n = 0 and rnum = 8, :444-545: the digest; :549-553, :572-577 *)
Definition sph_sha512_close (c : ctx) : list Z * ctx :=
  let current := current_of c in
  let b := store_at (buf c) current [128] in
  let current := (current + 1)%%nat in
  let '(b, v) :=
    if (112 <? current)%%nat then
      let b := store_at b current (repeat 0 (128 - current)) in
      (store_at b 0 (repeat 0 112), sha3_round b (vals c))
    else (store_at b current (repeat 0 (112 - current)), vals c) in
  let b := store_at b 112 (enc64be (Z.shiftr (count c) 61)) in
  let b := store_at b 120 (enc64be (T64 (shl64 (count c) 3))) in
  let v := sha3_round b v in
  (flat_map enc64be v, sph_sha512_init (Ctx b v (count c))).
(** A sequence of sph_sha512 calls *)
Definition sph_sha512_all (c : ctx) (chunks : list (list Z)) : ctx := fold_left sph_sha512 chunks c.
''' % (fmt(k),fmt(h))
ls=s.split('\n')
l1=[i+1 for i,l in enumerate(ls) if l.startswith('#define CH(')][0]
l2=[i+1 for i,l in enumerate(ls) if l.startswith('#define SSG5_1(')][0]
out=out.replace('@L1@',':%d-%d'%(l1,l2))
open('/verif/rocq/theories/Sha512.v','w').write(out)
