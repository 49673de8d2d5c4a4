(** Model of the 7x64-bit representation of GF(2^448-2^224-1):
    /repo/src/eltfp448_1w_fullradix.c.  An element is the list of its seven
    words, least significant first. *)
From Coq Require Import ZArith List Bool.
From Verif Require Import Uop X86 Engine Bytes Asm448 Fp25519Full.
Import ListNotations.
Open Scope Z_scope.

(** The chain of invsqrt, :1080-1136 (and eltfp448_1w_redradix.c:673-750):
    raises to (p-3)/4. *)
Definition invsqrt448_chain {E} (mul : E -> E -> E) (sqr : E -> E) (a : E) : E :=
  let s := sqrn sqr in
  let t1 := mul (s 1%nat a) a in
  let t0 := mul (s 1%nat t1) a in
  let t1 := mul (s 3%nat t0) t0 in
  let t2 := mul (s 6%nat t1) t1 in
  let t1 := mul (s 12%nat t2) t2 in
  let t1 := mul (s 3%nat t1) t0 in
  let t2 := mul (s 27%nat t1) t1 in
  let t1 := mul (s 54%nat t2) t2 in
  let t1 := mul (s 3%nat t1) t0 in
  let t2 := mul (s 111%nat t1) t1 in
  let t1 := mul (s 1%nat t2) a in
  mul (s 223%nat t1) t2.
(** The same followed by the steps under only_inverse: raises to p-2. *)
Definition inv448_chain {E} (mul : E -> E -> E) (sqr : E -> E) (a : E) : E :=
  let t1 := invsqrt448_chain mul sqr a in
  mul (sqrn sqr 2 t1) a.

Section WithStore.
Variable st0 : store.

Definition intmul448 (k : cpu) (a b : list Z) : list Z :=          (* intmul, :324-334 *)
  if bmi2 k then if adx k then asm2 st0 asm448_intmul_mulxadx 14 a b else asm2 st0 asm448_intmul_mulx 14 a b
  else asm2 st0 asm448_intmul_mulq 14 a b.
Definition intsqr448 (k : cpu) (a : list Z) : list Z :=            (* intsqr, :684-694 *)
  if bmi2 k then if adx k then asm1 st0 asm448_intsqr_mulxadx 14 a else asm1 st0 asm448_intsqr_mulx 14 a
  else asm1 st0 asm448_intsqr_mulq 14 a.
Definition reduce448 (k : cpu) (a : list Z) : list Z :=            (* reduce, :856-862 *)
  if adx k then asm1 st0 asm448_reduce_adx 7 a else asm1 st0 asm448_reduce_leg 7 a.
Definition add448 (k : cpu) (a b : list Z) : list Z :=             (* add, :1046-1052 *)
  if adx k then asm2 st0 asm448_add_adx 7 a b else asm2 st0 asm448_add_adc 7 a b.
Definition sub448 (a b : list Z) : list Z := asm2 st0 asm448_sub 7 a b.   (* sub, :62-115 *)
Definition prime448 : list Z :=                                    (* prime, :37-45 *)
  [0xffffffffffffffff; 0xffffffffffffffff; 0xffffffffffffffff; 0xfffffffeffffffff;
   0xffffffffffffffff; 0xffffffffffffffff; 0xffffffffffffffff].
Definition zero448 : list Z := [0; 0; 0; 0; 0; 0; 0].              (* zero, :51-59 *)
Definition neg448 (a : list Z) : list Z := sub448 zero448 a.       (* neg, :1054-1057 *)
Definition modp448 (a : list Z) : list Z := sub448 a prime448.     (* modp, :153-157 *)
Definition mul448 (k : cpu) (a b : list Z) : list Z := reduce448 k (intmul448 k a b).   (* mul, :1059-1063 *)
Definition sqr448 (k : cpu) (a : list Z) : list Z := reduce448 k (intsqr448 k a).       (* sqr, :1065-1069 *)
(** mula24, :1144-1238; register operand %2 holds the constant a24 = 39082 *)
Definition mula24_448 (k : cpu) (a : list Z) : list Z :=
  call (code (env_of [bC; bA; bB])
         (MOV (Im 39082) (D 2) :: (if bmi2 k then asm448_mula24_mulx else asm448_mula24_mulq)))
    [(bA, a)] bC 7 st0.
(** cmv, :117-151 *)
Definition cmv448 (bit : Z) (a b : list Z) : list Z :=
  call (code (env_of [bC; bA; bB; bD]) asm448_cmv) [(bA, a); (bB, b); (bD, [bit])] bC 7 st0.
Definition ser448 (a : list Z) : list Z := bytes_of (modp448 a).                 (* :164-167 *)
Definition unser448 (buf : list Z) : list Z := modp448 (words_of 7 buf).         (* :169-172 *)
Definition sgn448 (a : list Z) : Z := Z.land (hd 0 (modp448 a)) 1.               (* :159-162 *)
Definition cmp448 (a b : list Z) : Z := cmp_bytes (bytes_of (modp448 a)) (bytes_of (modp448 b)).  (* :174-178 *)
(** inv = invsqrt (c, a, 1), :1138; srt = invsqrt (c, a, 0), :1140; c and a distinct *)
Definition inv448 (k : cpu) (a : list Z) : list Z := inv448_chain (mul448 k) (sqr448 k) a.
Definition srt448 (k : cpu) (a : list Z) : list Z := invsqrt448_chain (mul448 k) (sqr448 k) a.
End WithStore.
