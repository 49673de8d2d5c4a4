(** Model of the 4x64-bit representation of GF(2^255-19):
    /repo/src/eltfp25519_1w_fullradix.c.  An element is the list of its four
    words, least significant first.  Each function places its arguments in an
    arbitrary store [st0] (uninitialised registers and memory), runs the
    transcribed assembly, and reads the result. *)
From Coq Require Import ZArith List Bool.
From Verif Require Import Uop X86 Engine Bytes Asm25519.
Import ListNotations.
Open Scope Z_scope.

(** Compile-time feature macros __BMI2__ and __ADX__. *)
Record cpu := CPU { bmi2 : bool; adx : bool }.

(** Placement of the arrays: output, first and second argument.  The C
    functions receive arbitrary pointers; only the identity or distinctness of
    the arrays matters (see Alias.v). *)
Definition bC : loc := 64%positive.
Definition bA : loc := 128%positive.
Definition bB : loc := 192%positive.
Definition bD : loc := 256%positive.

(** Repeated squaring: the loop macro sqrn_Fp255_1w_fullradix, :1374-1378, and
    the same macro or function of the other representations. *)
Definition sqrn {E} (sqr : E -> E) (n : nat) (a : E) : E := Nat.iter n sqr a.
(** The inversion chain, eltfp25519_1w_fullradix.c:1391-1420 and
    eltfp25519_1w_redradix.c:666-717, over any representation; [t4] is the value
    read from T[4] once T[1] has been squared. *)
Definition inv_chain_gen {E} (mul : E -> E -> E) (sqr : E -> E) (a : E) (t4 : E -> E) : E :=
  let s := sqrn sqr in
  let t1 := s 1%nat a in
  let t2 := s 2%nat t1 in
  let t0 := mul (t4 t1) t2 in
  let t1 := mul t1 t0 in
  let t2 := s 1%nat t1 in
  let t0 := mul t0 t2 in
  let t2 := s 5%nat t0 in
  let t0 := mul t0 t2 in
  let t2 := s 10%nat t0 in
  let t2 := mul t2 t0 in
  let t3 := s 20%nat t2 in
  let t3 := mul t3 t2 in
  let t3 := s 10%nat t3 in
  let t3 := mul t3 t0 in
  let t0 := s 50%nat t3 in
  let t0 := mul t0 t3 in
  let t2 := s 100%nat t0 in
  let t2 := mul t2 t0 in
  let t2 := s 50%nat t2 in
  let t2 := mul t2 t3 in
  let t2 := s 5%nat t2 in
  mul t1 t2.
Definition inv_chain {E} (mul : E -> E -> E) (sqr : E -> E) (a : E) : E :=
  inv_chain_gen mul sqr a (fun _ => a).
(** Steps 0-10 of invsqrt, :1454-1494: raises to the power (p-5)/8. *)
Definition pow_p58_chain {E} (mul : E -> E -> E) (sqr : E -> E) (x : E) : E :=
  let s := sqrn sqr in
  let t0 := sqr x in
  let t1 := mul (s 2%nat t0) x in
  let t0 := mul t0 t1 in
  let t0 := mul (s 1%nat t0) t1 in
  let t1 := mul (s 5%nat t0) t0 in
  let t2 := mul (s 5%nat t1) t0 in
  let t1 := mul (s 15%nat t2) t2 in
  let t2 := mul (s 30%nat t1) t1 in
  let t1 := mul (s 60%nat t2) t2 in
  let t1 := mul (s 5%nat t1) t0 in
  let t2 := mul (s 125%nat t1) t1 in
  mul (s 2%nat t2) x.

Section WithStore.
Variable st0 : store.

Definition asm2 (p : list instr) (n : nat) (a b : list Z) : list Z :=
  call (code (env_of [bC; bA; bB]) p) [(bA, a); (bB, b)] bC n st0.
Definition asm1 (p : list instr) (n : nat) (a : list Z) : list Z :=
  call (code (env_of [bC; bA]) p) [(bA, a)] bC n st0.

(** intmul, :999-1006 *)
Definition intmul (k : cpu) (a b : list Z) : list Z :=
  if bmi2 k then if adx k then asm2 asm_intmul_mulxadx 8 a b else asm2 asm_intmul_mulx 8 a b
  else asm2 asm_intmul_mulq 8 a b.
(** intsqr, :1155-1164 *)
Definition intsqr (k : cpu) (a : list Z) : list Z :=
  if bmi2 k then if adx k then asm1 asm_intsqr_mulxadx 8 a else asm1 asm_intsqr_mulx 8 a
  else asm1 asm_intsqr_mulq 8 a.
(** reduce, :1247-1256 *)
Definition reduce (k : cpu) (a : list Z) : list Z :=
  if bmi2 k then if adx k then asm1 asm_reduce_mulxadx 4 a else asm1 asm_reduce_mulx 4 a
  else asm1 asm_reduce_mulq 4 a.
(** Two elements side by side: words 0..3 and words 4..7 of an 8-word array. *)
Definition asm2x2 (p : list instr) (n : nat) (a b : list Z) : list Z :=
  call (code (env_of [bC; bA; bB]) p)
    [(bA, firstn 4 a); (Pos.add bA 4, skipn 4 a); (bB, firstn 4 b); (Pos.add bB 4, skipn 4 b)] bC n st0.
Definition asm1x2 (h : nat) (p : list instr) (n : nat) (a : list Z) : list Z :=
  call (code (env_of [bC; bA]) p)
    [(bA, firstn h a); (Pos.add bA (Pos.of_nat h), skipn h a)] bC n st0.
(** intmul2, :323-332 *)
Definition intmul2 (k : cpu) (a b : list Z) : list Z :=
  if bmi2 k then if adx k then asm2x2 asm_intmul2_mulxadx 16 a b else asm2x2 asm_intmul2_mulx 16 a b
  else asm2x2 asm_intmul2_mulq 16 a b.
(** intsqr2, :604-613 *)
Definition intsqr2 (k : cpu) (a : list Z) : list Z :=
  if bmi2 k then if adx k then asm1x2 4 asm_intsqr2_mulxadx 16 a else asm1x2 4 asm_intsqr2_mulx 16 a
  else asm1x2 4 asm_intsqr2_mulq 16 a.
(** reduce2, :752-761 *)
Definition reduce2 (k : cpu) (a : list Z) : list Z :=
  if bmi2 k then if adx k then asm1x2 8 asm_reduce2_mulxadx 8 a else asm1x2 8 asm_reduce2_mulx 8 a
  else asm1x2 8 asm_reduce2_mulq 8 a.
(** add, :1303-1309 *)
Definition add (k : cpu) (a b : list Z) : list Z :=
  if adx k then asm2 asm_add_adx 4 a b else asm2 asm_add_adc 4 a b.
(** sub, :1311-1331 *)
Definition sub (a b : list Z) : list Z := asm2 asm_sub 4 a b.
(** neg, :1357-1360: sub (c, 0, c) *)
Definition neg (a : list Z) : list Z := sub [0; 0; 0; 0] a.
(** modp, :792-822: the words of c are the register operands %0..%3 *)
Definition modp (a : list Z) : list Z :=
  call (code (env_of [bA; Pos.add bA 1; Pos.add bA 2; Pos.add bA 3; bC; bD]%positive) asm_modp)
    [(bA, a)] bA 4 st0.
(** mul, :1362-1366 and sqr, :1368-1372 *)
Definition mul (k : cpu) (a b : list Z) : list Z := reduce k (intmul k a b).
Definition sqr (k : cpu) (a : list Z) : list Z := reduce k (intsqr k a).
(** mula24, :1522-1578; the register operand %2 holds the constant a24 *)
Definition mula24 (k : cpu) (a : list Z) : list Z :=
  call (code (env_of [bC; bA; bB])
         (MOV (Im 121666) (D 2) :: (if bmi2 k then asm_mula24_mulx else asm_mula24_mulq)))
    [(bA, a)] bC 4 st0.
(** cmv, :1333-1355; the int [bit] is register operand %3 *)
Definition cmv (bit : Z) (a b : list Z) : list Z :=
  call (code (env_of [bC; bA; bB; bD]) asm_cmv) [(bA, a); (bB, b); (bD, [bit])] bC 4 st0.
(** copy, prime, zero, :766-790 *)
Definition copy (a : list Z) : list Z := a.
Definition prime : list Z :=
  [18446744073709551597; 18446744073709551615; 18446744073709551615; 9223372036854775807].
Definition zero : list Z := [0; 0; 0; 0].

(** ser, :824-827 and unser, :829-832: copy through a cast, then modp *)
Definition ser (a : list Z) : list Z := bytes_of (modp a).
Definition unser (buf : list Z) : list Z := modp (words_of 4 buf).
(** sgn, :834-837; the argument is left reduced *)
Definition sgn (a : list Z) : Z := Z.land (hd 0 (modp a)) 1.
(** cmp, :839-843: reduces both arguments in place, then compares bytes *)
Definition cmp (a b : list Z) : Z := cmp_bytes (bytes_of (modp a)) (bytes_of (modp b)).

(** inv, :1380-1421.  The steps are those of the addition chain
    [inv_chain]; the output array c (T[1]) must not be the input array a (T[4]). *)
Definition inv (k : cpu) (a : list Z) : list Z := inv_chain (mul k) (sqr k) a.
(** The same call with c and a the same array: T[4] changes together with T[1]. *)
Definition inv_inplace (k : cpu) (a : list Z) : list Z := inv_chain_gen (mul k) (sqr k) a (fun t1 => t1).

Definition sqrt_minus_one : list Z :=
  [0xc4ee1b274a0ea0b0; 0x2f431806ad2fe478; 0x2b4d00993dfbd7a7; 0x2b8324804fc1df0b].
(** invsqrt, :1423-1514, on three distinct arrays: returns uv_p38 and the new
    value of u, which the function negates (and [cmp] reduces). *)
Definition invsqrt (k : cpu) (u v : list Z) : list Z * list Z :=
  let uv := mul k u v in
  let v2 := sqr k v in
  let uv3 := mul k uv v2 in
  let uv7 := mul k uv3 (sqr k v2) in
  let x := mul k (pow_p58_chain (mul k) (sqr k) uv7) uv3 in
  let vx2 := mul k (sqr k x) v in
  let nu := neg u in
  (if cmp vx2 nu =? 0 then mul k x sqrt_minus_one else x, modp nu).
(** srt, :1518-1520: invsqrt (c, c, a); the output array is also the numerator
    u, so that u is overwritten before the final test. *)
Definition srt (k : cpu) (c a : list Z) : list Z :=
  let uv := mul k c a in
  let v2 := sqr k a in
  let uv3 := mul k uv v2 in
  let uv7 := mul k uv3 (sqr k v2) in
  let x := mul k (pow_p58_chain (mul k) (sqr k) uv7) uv3 in
  let vx2 := mul k (sqr k x) a in
  let nx := neg x in                      (* u = uv_p38 *)
  let nx' := modp nx in                   (* cmp reduces its arguments *)
  if cmp vx2 nx =? 0 then mul k nx' sqrt_minus_one else nx'.
End WithStore.
