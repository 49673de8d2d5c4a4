(** Model of the reduced-radix vector representations of GF(2^448-2^224-1):
    /repo/src/eltfp448_{1w,2w,4w}_redradix.c.

    A 1-way element is the list of its sixteen 28-bit limbs in memory order
    h0,h8,h1,h9,...,h7,h15; a 2-way element is 8 vectors of 4 words, a 4-way
    element 16 vectors of 4 words.  The bodies are the transcriptions of
    Simd448.v; functions which only call others are written out here.  Output
    arrays are distinct from the inputs unless the C function works in place. *)
From Coq Require Import ZArith List Bool.
From Verif Require Import Uop X86 Engine Bytes Fp25519Full Fp448Full Simd Simd448 Fp25519Red.
Import ListNotations.
Open Scope Z_scope.

(** A 64-bit word read as int64_t. *)
Definition sg (w : Z) : Z := if w <? 2 ^ 63 then w else w - W.
(** ser, eltfp448_1w_redradix.c:399-438, up to the call of the full-radix ser.
    The variables a[i], c[i], tmp are __int128_t: integers here, every operation
    staying in range (and left shifts of negative numbers being undefined in C). *)
Definition gather448 (puA : list Z) : list Z :=
  let a i := sg (nth i puA 0) in
  let tmp := Z.shiftr (a 15%nat) 28 in
  let a15 := Z.land (a 15%nat) (2 ^ 28 - 1) in
  let a0 := a 0%nat + tmp in
  let a1 := a 1%nat + tmp in
  let c0 := Z.shiftl (a 4%nat) 56 + Z.shiftl (a 2%nat) 28 + a0 in
  let c1 := Z.shiftr c0 64 + Z.shiftl (a 8%nat) 48 + Z.shiftl (a 6%nat) 20 in
  let c2 := Z.shiftr c1 64 + Z.shiftl (a 12%nat) 40 + Z.shiftl (a 10%nat) 12 in
  let c3 := Z.shiftr c2 64 + Z.shiftl (a 3%nat) 60 + Z.shiftl a1 32 + Z.shiftl (a 14%nat) 4 in
  let c4 := Z.shiftr c3 64 + Z.shiftl (a 7%nat) 52 + Z.shiftl (a 5%nat) 24 in
  let c5 := Z.shiftr c4 64 + Z.shiftl (a 11%nat) 44 + Z.shiftl (a 9%nat) 16 in
  let c6 := Z.shiftr c5 64 + Z.shiftl a15 36 + Z.shiftl (a 13%nat) 8 in
  let tmp := Z.shiftr c6 64 in
  let c0 := c0 + tmp in
  let c3 := c3 + Z.shiftl tmp 32 in
  map (fun c => c mod W) [c0; c1; c2; c3; c4; c5; c6].

Section WithStore.
Variable st0 : store.
Local Notation vop3 := (vop3 st0).
Local Notation vop1 := (vop1 st0).
Local Notation vop2 := (vop2 st0).
Local Notation vip1 := (vip1 st0).
Local Notation vip2 := (vip2 st0).
Local Notation vout1 := (vout1 st0).
Local Notation vout2 := (vout2 st0).

(** ** eltfp448_1w_redradix.c *)
(** add, :448-468; sub, :481-501; addsub, :503-533; neg, :535-550; naddsub, :783-812 *)
Definition add448_1w := vop3 16 v448_1w_add.
Definition sub448_1w := vop3 16 v448_1w_sub.
Definition addsub448_1w (a b : list Z) := (vip1 16 v448_1w_addsub a b, vip2 16 v448_1w_addsub a b).
Definition neg448_1w := vop1 16 v448_1w_neg.
Definition naddsub448_1w (a b : list Z) := (vout1 16 v448_1w_naddsub a b, vout2 16 v448_1w_naddsub a b).
(** intmul, :552-655; compress, :24-94; compressfast, :96-154; new_compressfast, :156-197 *)
Definition intmul448_1w := vop3 16 v448_1w_intmul_sb.
Definition compress448_1w := vop1 16 v448_1w_compress.
Definition compressfast448_1w := vop1 16 v448_1w_compressfast.
Definition new_compressfast448_1w := vop1 16 v448_1w_new_compressfast.
(** mul, :657-660; sqr, :662-664, being sqrn 1, :199-363 (the limbs stay in
    registers between iterations; here every iteration loads and stores them) *)
Definition mul448_1w (a b : list Z) : list Z := compress448_1w (intmul448_1w a b).
Definition sqr448_1w := vop1 16 v448_1w_sqrn1.
(** prime, :757-774; zero, :776-781; copy, :666-671 *)
Definition prime448_1w : list Z := call (vcode v448_1w_prime) [] q1 16 st0.
Definition zero448_1w : list Z := call (vcode v448_1w_zero) [] q1 16 st0.
Definition copy448_1w := vop2 16 v448_1w_copy.
(** unser, :365-397; ser, :399-438; cmp, :440-446 *)
Definition unser448_1w (buf : list Z) : list Z := vop2 16 v448_1w_unser (words_of 7 buf).
Definition ser448_1w (a : list Z) : list Z := ser448 st0 (gather448 a).
Definition cmp448_1w (a b : list Z) : Z := cmp_bytes (ser448_1w a) (ser448_1w b).
(** inv, :733-735; srt, :737-739 (invsqrt, :673-731; c and a distinct) *)
Definition inv448_1w (a : list Z) : list Z := inv448_chain mul448_1w sqr448_1w a.
Definition srt448_1w (a : list Z) : list Z := invsqrt448_chain mul448_1w sqr448_1w a.

(** ** eltfp448_2w_redradix.c *)
(** copy, :24-29; zero, :31-36; inter, :44-64; deinter, :71-80 *)
Definition copy448_2w := vop2 32 v448_2w_copy.
Definition zero448_2w : list Z := call (vcode v448_2w_zero) [] q1 32 st0.
Definition inter448_2w := vop3 32 v448_2w_inter.
Definition deinter448_2w (a : list Z) : list Z * list Z :=
  (call (vcode v448_2w_deinter) [(q3, a)] q1 16 st0, call (vcode v448_2w_deinter) [(q3, a)] q2 16 st0).
(** add, :88-93; sub, :145-152; subadd, :169-185; ngz, :195-202; addsub, :204-214; naddsub, :695-706 *)
Definition add448_2w := vop3 32 v448_2w_add.
Definition sub448_2w := vop3 32 v448_2w_sub.
Definition subadd448_2w (permutation : bool) := vop2 32 (if permutation then v448_2w_subadd1 else v448_2w_subadd0).
Definition ngz448_2w := vop2 32 v448_2w_ngz.
Definition addsub448_2w (a b : list Z) := (vip1 32 v448_2w_addsub a b, vip2 32 v448_2w_addsub a b).
Definition naddsub448_2w (a b : list Z) := (vout1 32 v448_2w_naddsub a b, vout2 32 v448_2w_naddsub a b).
(** intmul, :373-417; intsqr, :419-464; compress, :466-533; compress2, :535-604; compressfast, :606-641 *)
Definition intmul448_2w := vop3 32 v448_2w_intmul_karat.
Definition intsqr448_2w := vop1 32 v448_2w_intsqr_karat.
Definition compress448_2w := vop1 32 v448_2w_compress.
Definition compress2448_2w (c d : list Z) := (vip1 32 v448_2w_compress2 c d, vip2 32 v448_2w_compress2 c d).
Definition compressfast448_2w := vop1 32 v448_2w_compressfast.
(** mul, :643-646; sqr, :648-651 *)
Definition mul448_2w (a b : list Z) : list Z := compress448_2w (intmul448_2w a b).
Definition sqr448_2w (a : list Z) : list Z := compress448_2w (intsqr448_2w a).
(** unser, :681-686; ser, :688-693; cmp, :667-675 *)
Definition unser448_2w (buf : list Z) : list Z :=
  inter448_2w (unser448_1w (firstn 56 buf)) (unser448_1w (skipn 56 buf)).
Definition ser448_2w (a : list Z) : list Z :=
  let '(a0, a1) := deinter448_2w a in ser448_1w a0 ++ ser448_1w a1.
Definition cmp448_2w (a b : list Z) : list Z :=
  let '(a0, a1) := deinter448_2w a in let '(b0, b1) := deinter448_2w b in [cmp448_1w a0 b0; 0; cmp448_1w a1 b1; 0].

(** ** eltfp448_4w_redradix.c *)
(** copy, :63-68; zero, :70-75; zip, :77-133; unzip, :135-191 *)
Definition copy448_4w := vop2 64 v448_4w_copy.
Definition zero448_4w : list Z := call (vcode v448_4w_zero) [] q1 64 st0.
Definition zip448_4w (a b c d : list Z) : list Z :=
  call (vcode v448_4w_zip) [(q2, a); (q3, b); (q4, c); (q5, d)] q1 64 st0.
Definition unzip448_4w (x : list Z) (j : nat) : list Z :=
  call (vcode v448_4w_unzip) [(q5, x)] (nth j [q1; q2; q3; q4] q1) 16 st0.
(** add, :193-199; sub, :201-217; addsub, :219-236; addsublar, :238-257; ngz, :259-290 *)
Definition add448_4w := vop3 64 v448_4w_add.
Definition sub448_4w := vop3 64 v448_4w_sub.
Definition addsub448_4w (a b : list Z) := (vout1 64 v448_4w_addsub a b, vout2 64 v448_4w_addsub a b).
Definition addsublar448_4w (a b : list Z) := (vip1 64 v448_4w_addsublar a b, vip2 64 v448_4w_addsublar a b).
Definition ngz448_4w := vop2 64 v448_4w_ngz.
(** intmul, :343-394; intsqr, :442-493; compress, :495-525; compress2, :527-557;
    compressfast, :559-594; new_compressfast2, :596-629 *)
Definition intmul448_4w := vop3 64 v448_4w_intmul_karat.
Definition intsqr448_4w := vop1 64 v448_4w_intsqr_karat.
Definition compress448_4w := vop1 64 v448_4w_compress.
Definition compress2448_4w (c d : list Z) := (vip1 64 v448_4w_compress2 c d, vip2 64 v448_4w_compress2 c d).
Definition compressfast448_4w := vop1 64 v448_4w_compressfast.
Definition new_compressfast2448_4w (c d : list Z) :=
  (vip1 64 v448_4w_new_compressfast2 c d, vip2 64 v448_4w_new_compressfast2 c d).
(** mul, :631-634; sqr, :636-639 *)
Definition mul448_4w (a b : list Z) : list Z := compress448_4w (intmul448_4w a b).
Definition sqr448_4w (a : list Z) : list Z := compress448_4w (intsqr448_4w a).
(** unser, :672-679; ser, :681-688; cmp, :659-670 *)
Definition unser448_4w (buf : list Z) : list Z :=
  let part i := unser448_1w (firstn 56 (skipn (56 * i) buf)) in
  zip448_4w (part 0%nat) (part 1%nat) (part 2%nat) (part 3%nat).
Definition ser448_4w (a : list Z) : list Z := flat_map (fun j => ser448_1w (unzip448_4w a j)) (seq 0 4).
Definition cmp448_4w (a b : list Z) : list Z := map (fun j => cmp448_1w (unzip448_4w a j) (unzip448_4w b j)) (seq 0 4).
End WithStore.
