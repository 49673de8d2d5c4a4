(** Model of the reduced-radix vector representations of GF(2^255-19):
    /repo/src/eltfp25519_{1w,2w,4w}_redradix.c.

    A 1-way element is the list of its ten limbs in memory order
    h0,h5,h1,h6,h2,h7,h3,h8,h4,h9 (the two padding words of the C array belong to
    the arbitrary store [st0] the code runs in, and nothing depends on them); a
    2-way element is 5 vectors of 4 words, a 4-way element 10 vectors of 4 words.
    The bodies are the transcriptions of Simd255.v; functions which only call
    others are written out here.  Output arrays are distinct from the inputs
    unless the C function works in place. *)
From Coq Require Import ZArith List Bool.
From Verif Require Import Uop X86 Engine Bytes Asm25519 Fp25519Full Simd Simd255.
Import ListNotations.
Open Scope Z_scope.

(** Placement of the pointer arguments, in parameter order. *)
Definition q1 : loc := 1024%positive.
Definition q2 : loc := 2048%positive.
Definition q3 : loc := 3072%positive.
Definition q4 : loc := 4096%positive.
Definition q5 : loc := 5120%positive.

Section WithStore.
Variable st0 : store.
(** f(c, a, b), f(c) in place, f(c, a) *)
Definition vop3 (n : nat) (p : list vinstr) (a b : list Z) : list Z := call (vcode p) [(q2, a); (q3, b)] q1 n st0.
Definition vop1 (n : nat) (p : list vinstr) (a : list Z) : list Z := call (vcode p) [(q1, a)] q1 n st0.
Definition vop2 (n : nat) (p : list vinstr) (a : list Z) : list Z := call (vcode p) [(q2, a)] q1 n st0.
(** f(a, b), both in place: new a, new b *)
Definition vip1 (n : nat) (p : list vinstr) (a b : list Z) : list Z := call (vcode p) [(q1, a); (q2, b)] q1 n st0.
Definition vip2 (n : nat) (p : list vinstr) (a b : list Z) : list Z := call (vcode p) [(q1, a); (q2, b)] q2 n st0.
(** f(c, d, a, b): c, d *)
Definition vout1 (n : nat) (p : list vinstr) (a b : list Z) : list Z := call (vcode p) [(q3, a); (q4, b)] q1 n st0.
Definition vout2 (n : nat) (p : list vinstr) (a b : list Z) : list Z := call (vcode p) [(q3, a); (q4, b)] q2 n st0.

(** ** eltfp25519_1w_redradix.c *)
(** add, :459-475; sub, :477-501; addsub, :503-518; neg, :520-536; naddsub, :842-860 *)
Definition add_1w := vop3 10 v255_1w_add.
Definition sub_1w := vop3 10 v255_1w_sub.
Definition addsub_1w (a b : list Z) := (vip1 10 v255_1w_addsub a b, vip2 10 v255_1w_addsub a b).
Definition neg_1w := vop1 10 v255_1w_neg.
Definition naddsub_1w (a b : list Z) := (vout1 10 v255_1w_naddsub a b, vout2 10 v255_1w_naddsub a b).
(** intmul, :538-649; compress, :30-80; compressfast, :82-125 *)
Definition intmul_1w := vop3 10 v255_1w_intmul_sb.
Definition compress_1w := vop1 10 v255_1w_compress.
Definition compressfast_1w := vop1 10 v255_1w_compressfast.
(** mul, :651-654; sqr, :656-658; sqrn, :127-277 (the limbs stay in registers
    between iterations; here every iteration loads and stores them) *)
Definition mul_1w (a b : list Z) : list Z := compress_1w (intmul_1w a b).
Definition sqr_1w := vop1 10 v255_1w_sqrn1.
(** prime, :823-834; zero, :836-840; copy, :660-664 *)
Definition prime_1w : list Z := call (vcode v255_1w_prime) [] q1 10 st0.
Definition zero_1w : list Z := call (vcode v255_1w_zero) [] q1 10 st0.
Definition copy_1w := vop2 10 v255_1w_copy.
(** unser, :281-325: modp of the words of the buffer, then splitting *)
Definition unser_1w (buf : list Z) : list Z := vop2 10 v255_1w_unser_limbs (modp st0 (words_of 4 buf)).
(** ser, :327-424: the assembly gathers the limbs into four words *)
Definition gather_1w (a : list Z) : list Z := asm1 st0 asm_ser_1w_redradix 4 a.
Definition ser_1w (a : list Z) : list Z := ser st0 (gather_1w a).
(** sgn, :426-430; cmp, :432-438 *)
Definition sgn_1w (a : list Z) : Z := Z.land (hd 0 (ser_1w a)) 1.
Definition cmp_1w (a b : list Z) : Z := Z.land (cmp_bytes (ser_1w a) (ser_1w b)) 1.
(** blendv_epi8: each byte of the result comes from b when the top bit of the
    mask byte is set (Intel manual, VPBLENDVB). *)
Definition blend_byte (m a b : Z) : Z := if 128 <=? m then b else a.
Fixpoint blend_bytes (ms xs ys : list Z) : list Z :=
  match ms, xs, ys with
  | m :: ms, x :: xs, y :: ys => blend_byte m x y :: blend_bytes ms xs ys
  | _, _, _ => []
  end.
Definition blendv (mask a b : Z) : Z :=
  word_of_bytes (blend_bytes (bytes_of_word mask) (bytes_of_word a) (bytes_of_word b)).
Fixpoint blendvs (ms a b : list Z) : list Z :=
  match ms, a, b with
  | m :: ms, x :: a, y :: b => blendv m x y :: blendvs ms a b
  | _, _, _ => []
  end.
(** cmv, :440-457: mask = SET164(-(int64_t)bit) *)
Definition cmv_1w (bit : Z) (a b : list Z) : list Z := blendvs (repeat ((- bit) mod W) 10) a b.
(** inv, :666-717 *)
Definition inv_1w (a : list Z) : list Z := inv_chain mul_1w sqr_1w a.
(** invsqrt, :719-801, on three distinct arrays: uv_p38 and the new value of u *)
Definition sqrt_minus_one_1w : list Z :=
  [0x20ea0b0; 0x1fbd7a7; 0x186c9d2; 0x2804c9e; 0x08f189d; 0x1e16569; 0x035697f; 0x004fc1d; 0x0bd0c60; 0x0ae0c92].
Definition invsqrt_1w (u v : list Z) : list Z * list Z :=
  let uv := mul_1w u v in
  let v2 := sqr_1w v in
  let uv3 := mul_1w uv v2 in
  let uv7 := mul_1w uv3 (sqr_1w v2) in
  let x := mul_1w (pow_p58_chain mul_1w sqr_1w uv7) uv3 in
  let vx2 := mul_1w (sqr_1w x) v in
  let nu := neg_1w u in
  (if cmp_1w vx2 nu =? 0 then mul_1w x sqrt_minus_one_1w else x, nu).
(** srt, :803-805: invsqrt (c, c, a), the numerator being overwritten *)
Definition srt_1w (c a : list Z) : list Z :=
  let uv := mul_1w c a in
  let v2 := sqr_1w a in
  let uv3 := mul_1w uv v2 in
  let uv7 := mul_1w uv3 (sqr_1w v2) in
  let x := mul_1w (pow_p58_chain mul_1w sqr_1w uv7) uv3 in
  let vx2 := mul_1w (sqr_1w x) a in
  let nx := neg_1w x in
  if cmp_1w vx2 nx =? 0 then mul_1w nx sqrt_minus_one_1w else nx.

(** ** eltfp25519_2w_redradix.c *)
(** copy, :24-29; zero, :31-36; inter, :44-58; deinter, :65-72 *)
Definition copy_2w := vop2 20 v255_2w_copy.
Definition zero_2w : list Z := call (vcode v255_2w_zero) [] q1 20 st0.
Definition inter_2w := vop3 20 v255_2w_inter.
Definition deinter_2w (a : list Z) : list Z * list Z :=
  (call (vcode v255_2w_deinter) [(q3, a)] q1 10 st0, call (vcode v255_2w_deinter) [(q3, a)] q2 10 st0).
(** add, :89-94; sub, :118-124; subadd, :142-160; ngz, :168-175; addsub, :177-188 *)
Definition add_2w := vop3 20 v255_2w_add.
Definition sub_2w := vop3 20 v255_2w_sub.
Definition subadd_2w (permutation : bool) := vop2 20 (if permutation then v255_2w_subadd1 else v255_2w_subadd0).
Definition ngz_2w := vop2 20 v255_2w_ngz.
Definition addsub_2w (a b : list Z) := (vip1 20 v255_2w_addsub a b, vip2 20 v255_2w_addsub a b).
Definition naddsub_2w (a b : list Z) := (vout1 20 v255_2w_naddsub a b, vout2 20 v255_2w_naddsub a b).
(** intmul, :304-375; intsqr, :377-470; compress, :472-518; compress2, :520-596; compressfast, :598-625 *)
Definition intmul_2w := vop3 20 v255_2w_intmul.
Definition intsqr_2w := vop1 20 v255_2w_intsqr.
Definition compress_2w := vop1 20 v255_2w_compress.
Definition compress2_2w (c d : list Z) := (vip1 20 v255_2w_compress2 c d, vip2 20 v255_2w_compress2 c d).
Definition compressfast_2w := vop1 20 v255_2w_compressfast.
(** neg, :629-636 *)
Definition neg_2w := vop1 20 v255_2w_neg.
(** mul, :638-641; sqr, :643-646; sqrn, :648-654 *)
Definition mul_2w (a b : list Z) : list Z := compress_2w (intmul_2w a b).
Definition sqr_2w (a : list Z) : list Z := compress_2w (intsqr_2w a).
(** intmul2, :194-302: d = a[low]..., see [Fp25519RedProofs] *)
Definition intmul2_2w (a b : list Z) := (vout1 20 v255_2w_intmul2 a b, vout2 20 v255_2w_intmul2 a b).
(** cmv, :74-82: mask = SHUF32(SUB(ZERO, AND(bit, ONE)), 0x44), ONE = SET64(0,1,0,1);
    both words of a 128-bit half get the mask of its low word *)
Definition cmv_2w (bit a b : list Z) : list Z :=
  let m h := (0 - Z.land (nth (2 * h) bit 0) 1) mod W in
  blendvs (concat (repeat [m 0%nat; m 0%nat; m 1%nat; m 1%nat] 5)) a b.
(** unser, :693-698; ser, :700-705; cmp, :679-687; sgn, :670-677 *)
Definition unser_2w (buf : list Z) : list Z :=
  inter_2w (unser_1w (firstn 32 buf)) (unser_1w (skipn 32 buf)).
Definition ser_2w (a : list Z) : list Z :=
  let '(a0, a1) := deinter_2w a in ser_1w a0 ++ ser_1w a1.
Definition cmp_2w (a b : list Z) : list Z :=
  let '(a0, a1) := deinter_2w a in let '(b0, b1) := deinter_2w b in [cmp_1w a0 b0; 0; cmp_1w a1 b1; 0].
Definition sgn_2w (a : list Z) : list Z :=
  let '(a0, a1) := deinter_2w a in [sgn_1w a0; 0; sgn_1w a1; 0].

(** ** eltfp25519_4w_redradix.c *)
(** copy, :44-49; zero, :51-56; zip, :58-106; unzip, :108-147 *)
Definition copy_4w := vop2 40 v255_4w_copy.
Definition zero_4w : list Z := call (vcode v255_4w_zero) [] q1 40 st0.
Definition zip_4w (a b c d : list Z) : list Z :=
  call (vcode v255_4w_zip) [(q2, a); (q3, b); (q4, c); (q5, d)] q1 40 st0.
Definition unzip_4w (x : list Z) (j : nat) : list Z :=
  call (vcode v255_4w_unzip) [(q5, x)] (nth j [q1; q2; q3; q4] q1) 10 st0.
(** add, :149-155; sub, :157-170; neg, :172-184; addsub, :186-200; addsublar, :202-218; ngz, :220-242 *)
Definition add_4w := vop3 40 v255_4w_add.
Definition sub_4w := vop3 40 v255_4w_sub.
Definition neg_4w := vop1 40 v255_4w_neg.
Definition addsub_4w (a b : list Z) := (vout1 40 v255_4w_addsub a b, vout2 40 v255_4w_addsub a b).
Definition addsublar_4w (a b : list Z) := (vip1 40 v255_4w_addsublar a b, vip2 40 v255_4w_addsublar a b).
Definition ngz_4w := vop2 40 v255_4w_ngz.
(** intmul, :244-350; intsqr, :352-468; compress, :470-533; compress2, :535-598;
    compressfast, :600-680; new_compressfast2, :682-736 *)
Definition intmul_4w := vop3 40 v255_4w_intmul_sb.
Definition intsqr_4w := vop1 40 v255_4w_intsqr.
Definition compress_4w := vop1 40 v255_4w_compress.
Definition compress2_4w (c d : list Z) := (vip1 40 v255_4w_compress2 c d, vip2 40 v255_4w_compress2 c d).
Definition compressfast_4w := vop1 40 v255_4w_compressfast.
Definition new_compressfast2_4w (c d : list Z) :=
  (vip1 40 v255_4w_new_compressfast2 c d, vip2 40 v255_4w_new_compressfast2 c d).
(** mul, :740-743; sqr, :745-748; sqrn, :750-756 *)
Definition mul_4w (a b : list Z) : list Z := compress_4w (intmul_4w a b).
Definition sqr_4w (a : list Z) : list Z := compress_4w (intsqr_4w a).
(** fp255.c:141 binds the member _4w_red.arith.neg to the 2-way function: it
    rewrites the first five of the ten vectors. *)
Definition api_neg_4w (a : list Z) : list Z := neg_2w (firstn 20 a) ++ skipn 20 a.
(** unser, :789-796; ser, :798-805; cmp, :776-787 *)
Definition unser_4w (buf : list Z) : list Z :=
  let part i := unser_1w (firstn 32 (skipn (32 * i) buf)) in zip_4w (part 0%nat) (part 1%nat) (part 2%nat) (part 3%nat).
Definition ser_4w (a : list Z) : list Z := flat_map (fun j => ser_1w (unzip_4w a j)) (seq 0 4).
Definition cmp_4w (a b : list Z) : list Z := map (fun j => cmp_1w (unzip_4w a j) (unzip_4w b j)) (seq 0 4).
(** invsqrt, :807-889, on three distinct arrays; the test is commented out and
    the multiplication by the square root of -1 unconditional *)
Definition sqrt_minus_one_4w : list Z := flat_map (fun w => [w; w; w; w]) sqrt_minus_one_1w.
Definition invsqrt_4w (u v : list Z) : list Z * list Z :=
  let uv := mul_4w u v in
  let v2 := sqr_4w v in
  let uv3 := mul_4w uv v2 in
  let uv7 := mul_4w uv3 (sqr_4w v2) in
  let x := mul_4w (pow_p58_chain mul_4w sqr_4w uv7) uv3 in
  (mul_4w x sqrt_minus_one_4w, neg_4w u).
(** srt, :891-893: invsqrt (c, c, a): the negation of u negates the result x *)
Definition srt_4w (c a : list Z) : list Z :=
  let uv := mul_4w c a in
  let v2 := sqr_4w a in
  let uv3 := mul_4w uv v2 in
  let uv7 := mul_4w uv3 (sqr_4w v2) in
  let x := mul_4w (pow_p58_chain mul_4w sqr_4w uv7) uv3 in
  mul_4w (neg_4w x) sqrt_minus_one_4w.
End WithStore.
