(** The two-way SHA-512 of /repo/third_party/sha512_2way.c with the macros of multi_hash.h.
    A 128-bit register is the pair of its 64-bit lanes, low lane first.  Line numbers are those of sha512_2way.c.
    A buffer is the list of its bytes; a load takes the 16 bytes at its address. *)
From Coq Require Import ZArith List Bool.
From Verif Require Import Bytes Sha512.
Import ListNotations.
Open Scope Z_scope.
Definition vec : Type := (Z * Z)%type.
Definition both (f : Z -> Z) (x : vec) : vec := (f (fst x), f (snd x)).
Definition both2 (f : Z -> Z -> Z) (x y : vec) : vec := (f (fst x) (fst y), f (snd x) (snd y)).
(** _mm_add_epi64, _mm_or_si128, _mm_xor_si128, _mm_and_si128, _mm_slli_epi64, _mm_srli_epi64, _mm_set1_epi64x and _mm_setzero_si128, multi_hash.h:16-29 *)
Definition ADD : vec -> vec -> vec := both2 add64.
Definition OR : vec -> vec -> vec := both2 Z.lor.
Definition XOR : vec -> vec -> vec := both2 Z.lxor.
Definition AND : vec -> vec -> vec := both2 Z.land.
Definition SHL (x : vec) (n : Z) : vec := both (fun x => shl64 x n) x.
Definition SHR (x : vec) (n : Z) : vec := both (fun x => Z.shiftr x n) x.
Definition SET1_64 (x : Z) : vec := (x, x).
Definition ZERO : vec := SET1_64 0.
(** The 16 bytes of a register, and back *)
Definition bytes8 (x : Z) : list Z := map (fun i => Z.shiftr x (8 * Z.of_nat i) mod 256) (seq 0 8).
Definition bytes_of_vec (x : vec) : list Z := bytes8 (fst x) ++ bytes8 (snd x).
Definition vec_of_bytes (b : list Z) : vec := (le_val (firstn 8 b), le_val (firstn 8 (skipn 8 b))).
(** _mm_loadu_si128 at the address (__m128i* ) p + i *)
Definition LOAD (p : list Z) (i : nat) : vec := vec_of_bytes (firstn 16 (skipn (16 * i) p)).
(** _mm_shuffle_epi8 *)
Definition SHUF8 (x m : vec) : vec :=
  vec_of_bytes (map (fun c => if c <? 128 then nth (Z.to_nat (c mod 16)) (bytes_of_vec x) 0 else 0) (bytes_of_vec m)).
(** _mm_set_epi64x(0x08090a0b0c0d0e0f,0x0001020304050607), :235 and :270 *)
Definition big_endian : vec := (0x0001020304050607, 0x08090a0b0c0d0e0f).
(** KSHA512, multi_hash.h:81-99 *)
Definition KSHA512 : list Z := [
  0x428a2f98d728ae22; 0x7137449123ef65cd; 0xb5c0fbcfec4d3b2f; 0xe9b5dba58189dbbc;
  0x3956c25bf348b538; 0x59f111f1b605d019; 0x923f82a4af194f9b; 0xab1c5ed5da6d8118;
  0xd807aa98a3030242; 0x12835b0145706fbe; 0x243185be4ee4b28c; 0x550c7dc3d5ffb4e2;
  0x72be5d74f27b896f; 0x80deb1fe3b1696b1; 0x9bdc06a725c71235; 0xc19bf174cf692694;
  0xe49b69c19ef14ad2; 0xefbe4786384f25e3; 0x0fc19dc68b8cd5b5; 0x240ca1cc77ac9c65;
  0x2de92c6f592b0275; 0x4a7484aa6ea6e483; 0x5cb0a9dcbd41fbd4; 0x76f988da831153b5;
  0x983e5152ee66dfab; 0xa831c66d2db43210; 0xb00327c898fb213f; 0xbf597fc7beef0ee4;
  0xc6e00bf33da88fc2; 0xd5a79147930aa725; 0x06ca6351e003826f; 0x142929670a0e6e70;
  0x27b70a8546d22ffc; 0x2e1b21385c26c926; 0x4d2c6dfc5ac42aed; 0x53380d139d95b3df;
  0x650a73548baf63de; 0x766a0abb3c77b2a8; 0x81c2c92e47edaee6; 0x92722c851482353b;
  0xa2bfe8a14cf10364; 0xa81a664bbc423001; 0xc24b8b70d0f89791; 0xc76c51a30654be30;
  0xd192e819d6ef5218; 0xd69906245565a910; 0xf40e35855771202a; 0x106aa07032bbd1b8;
  0x19a4c116b8d2d0c8; 0x1e376c085141ab53; 0x2748774cdf8eeb99; 0x34b0bcb5e19b48a8;
  0x391c0cb3c5c95a63; 0x4ed8aa4ae3418acb; 0x5b9cca4f7763e373; 0x682e6ff3d6b2b8a3;
  0x748f82ee5defb2fc; 0x78a5636f43172f60; 0x84c87814a1f0ab72; 0x8cc702081a6439ec;
  0x90befffa23631e28; 0xa4506cebde82bde9; 0xbef9a3f7b2c67915; 0xc67178f2e372532b;
  0xca273eceea26619c; 0xd186b8c721c0c207; 0xeada7dd6cde0eb1e; 0xf57d4f7fee6ed178;
  0x06f067aa72176fba; 0x0a637dc5a2c898a6; 0x113f9804bef90dae; 0x1b710b35131c471b;
  0x28db77f523047d84; 0x32caab7b40c72493; 0x3c9ebe0a15c9bebc; 0x431d67c49c100d4c;
  0x4cc5d4becb3e42b6; 0x597f299cfc657e2a; 0x5fcb6fab3ad6faec; 0x6c44198c4a475817].
(** w[i] = v *)
Definition put {A} (i : nat) (v : A) (w : list A) : list A := firstn i w ++ v :: skipn (S i) w.
(** TRANSPOSE_2WAY on n pairs, :64-90: _mm_unpacklo_epi64 and _mm_unpackhi_epi64 *)
Fixpoint transpose (n : nat) (w : list vec) : list vec :=
  match n, w with
  | S n, W0 :: W1 :: w => (fst W0, fst W1) :: (snd W0, snd W1) :: transpose n w
  | _, _ => w
  end.
Definition transpose_state_2way (w : list vec) : list vec := transpose 4 w.
Definition transpose_msg_2way (w : list vec) : list vec := transpose 8 w.
(** initialize, :92-102 *)
Definition initialize : list vec :=
  [SET1_64 0x6a09e667f3bcc908; SET1_64 0xbb67ae8584caa73b; SET1_64 0x3c6ef372fe94f82b; SET1_64 0xa54ff53a5f1d36f1;
   SET1_64 0x510e527fade682d1; SET1_64 0x9b05688c2b3e6c1f; SET1_64 0x1f83d9abfb41bd6b; SET1_64 0x5be0cd19137e2179].
(** computeT1, :119-140 *)
Definition computeT1 (e f g h : vec) : vec :=
  let t0 := SHL e (64 - 14) in
  let t1 := SHL e (64 - 18) in
  let t2 := SHL e (64 - 41) in
  let t3 := SHR e 14 in
  let t4 := SHR e 18 in
  let t5 := SHR e 41 in
  let t3 := OR t3 t0 in
  let t0 := XOR f g in
  let t4 := OR t4 t1 in
  let t5 := OR t5 t2 in
  let t4 := XOR t3 t4 in
  let t0 := AND t0 e in
  let t4 := XOR t4 t5 in
  let T1 := ADD h t4 in
  let t0 := XOR t0 g in
  ADD T1 t0.
(** computeT2, :142-162 *)
Definition computeT2 (a b c : vec) : vec :=
  let s0 := OR b c in
  let T2 := AND b c in
  let s0 := AND a s0 in
  let s1 := SHL a (64 - 28) in
  let s2 := SHL a (64 - 34) in
  let s3 := SHL a (64 - 39) in
  let s4 := SHR a 28 in
  let s5 := SHR a 34 in
  let s4 := OR s4 s1 in
  let s5 := OR s5 s2 in
  let s1 := SHR a 39 in
  let s0 := OR T2 s0 in
  let s1 := OR s1 s3 in
  let s4 := XOR s4 s5 in
  let T2 := XOR s4 s1 in
  ADD T2 s0.
(** msg_schedule, :164-190 *)
Definition msg_schedule (W : list vec) (i : nat) : vec :=
  let W2 := nth (i - 2) W ZERO in
  let W15 := nth (i - 15) W ZERO in
  let t1 := SHL W2 (64 - 19) in
  let t2 := SHL W2 (64 - 61) in
  let t3 := SHR W2 19 in
  let t4 := SHR W2 61 in
  let t7 := OR t1 t3 in
  let t4 := OR t2 t4 in
  let t5 := SHR W2 6 in
  let t7 := XOR t7 t4 in
  let t1 := SHR W15 1 in
  let t2 := SHR W15 8 in
  let t3 := SHL W15 (64 - 1) in
  let t4 := SHL W15 (64 - 8) in
  let t7 := XOR t7 t5 in
  let t6 := OR t1 t3 in
  let t4 := OR t2 t4 in
  let t5 := SHR W15 7 in
  let t6 := XOR t6 t4 in
  let t7 := ADD t7 (nth (i - 7) W ZERO) in
  let t6 := XOR t6 t5 in
  let t6 := ADD t6 (nth (i - 16) W ZERO) in
  ADD t7 t6.
(** The body of the loops, :205-210 and :215-220, on the variables a to h; BROAD is vpbroadcastq *)
Definition round2 (block : list vec) (i : nat) (r : list vec) : list vec :=
  match r with
  | [a; b; c; d; e; f; g; h] =>
    let T1 := computeT1 e f g h in
    let T2 := computeT2 a b c in
    let Ki := SET1_64 (nth i KSHA512 0) in
    let T1 := ADD T1 (ADD Ki (nth i block ZERO)) in
    [ADD T1 T2; a; b; c; ADD d T1; e; f; g]
  | _ => r
  end.
(** for(i=0;i<16;i++), :203-211: n iterations from i *)
Fixpoint rounds_first (n i : nat) (block r : list vec) : list vec :=
  match n with O => r | S n => rounds_first n (S i) block (round2 block i r) end.
(** for(i=16;i<80;i++), :212-221: n iterations from i; message_block is written *)
Fixpoint rounds_rest (n i : nat) (block r : list vec) : list vec * list vec :=
  match n with
  | O => (r, block)
  | S n => let block := put i (msg_schedule block i) block in rounds_rest n (S i) block (round2 block i r)
  end.
(** sha512_permutation, :192-231: the new state and the new message_block *)
Definition sha512_permutation (state block : list vec) : list vec * list vec :=
  let r := rounds_first 16 0 block state in
  let '(r, block) := rounds_rest 64 16 block r in
  (map (fun i => ADD (nth i state ZERO) (nth i r ZERO)) (seq 0 8), block).
(** block[NUM_MSG*i+msg] = SHUF8(LOAD(p_msg + i), big_endian) for the two messages, :284-290, :309-315, :330-336, :350-356 *)
Definition load_block (p0 p1 : list Z) (block : list vec) : list vec :=
  let from p msg block := fold_left (fun block i => put (2 * i + msg) (SHUF8 (LOAD p i) big_endian) block) (seq 0 8) block in
  from p1 1%nat (from p0 0%nat block).
(** A block of the two messages: load, transpose, permutation *)
Definition absorb (p0 p1 : list Z) (sb : list vec * list vec) : list vec * list vec :=
  sha512_permutation (fst sb) (transpose_msg_2way (load_block p0 p1 (snd sb))).
(** for(b=0;b<num_blocks;b++), :281-293 *)
Definition block_loop (n : nat) (m0 m1 : list Z) (sb : list vec * list vec) : list vec * list vec :=
  fold_left (fun sb b => absorb (skipn (128 * b) m0) (skipn (128 * b) m1) sb) (seq 0 n) sb.
(** The bytes written by buffer[BLOCK_SIZE_BYTES*(msg+1)-b-1] = (uint8_t)((mlen_bits>>(8*b))&0xFF), 0 <= b < 16, in the order of addresses, :304-307 and :345-348 *)
Definition length_field (mlen_bits : Z) : list Z := map (fun j => Z.land (Z.shiftr mlen_bits (8 * (15 - Z.of_nat j))) 255) (seq 0 16).
(** The stores of :361-367 *)
Definition store_digest (state : list vec) (msg : nat) : list Z :=
  flat_map (fun i => bytes_of_vec (SHUF8 (nth (2 * i + msg) state ZERO) big_endian)) (seq 0 4).
(** sha512_2w_avx, :268-368.  [block] is the uninitialised array of 80 registers, [len] the unsigned int message_length_bytes;
    the byte-by-byte copies into buffer are written as one store each. *)
Definition sha512_2w_avx (block : list vec) (m0 m1 : list Z) (len : Z) : list Z * list Z :=
  let num_blocks := Z.shiftr len 7 in
  let rem := Z.to_nat (len - Z.shiftl num_blocks 7) in
  let mlen_bits := len * 8 in
  let nb := Z.to_nat num_blocks in
  let sb := block_loop nb m0 m1 (initialize, block) in
  let tail m := firstn rem (skipn (128 * nb) m) in
  let fill msg m buffer := store_at (store_at buffer (128 * msg) (tail m)) (128 * msg + rem) [0x80] in
  let put_len msg buffer := store_at buffer (128 * (msg + 1) - 16) (length_field mlen_bits) in
  let buffer := repeat 0 256 in
  let sb :=
    if (rem <? 112)%nat then
      let buffer := put_len 0%nat (fill 0%nat m0 buffer) in
      let buffer := put_len 1%nat (fill 1%nat m1 buffer) in
      absorb buffer (skipn 128 buffer) sb
    else if (rem <? 128)%nat then
      let buffer := fill 1%nat m1 (fill 0%nat m0 buffer) in
      let sb := absorb buffer (skipn 128 buffer) sb in
      let clear msg buffer := put_len msg (store_at buffer (128 * msg) (repeat 0 112)) in
      let buffer := clear 1%nat (clear 0%nat buffer) in
      absorb buffer (skipn 128 buffer) sb
    else sb in
  let state := transpose_state_2way (fst sb) in
  (store_digest state 0, store_digest state 1).
