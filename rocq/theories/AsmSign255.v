(** Inline assembly of /repo/src transcribed by tools/asm2coq.py (one
    constructor per instruction, gas macros expanded).  Generated file. *)
From Coq Require Import ZArith List.
From Verif Require Import Uop X86.
Import ListNotations.
Open Scope Z_scope.

(** reduce256bits, /repo/src/sign255.c:76-179. *)
Definition asm_reduce256bits : list instr := [
  MOV (A 0 0) (R RBX);
  MOV (A 0 8) (R RCX);
  MOV (A 0 16) (R R8);
  MOV (A 0 24) (R R9);
  ZERO (R R10);
  ZERO (R R11);
  ZERO (R R12);
  ZERO (R R13);
  MOV (A 1 0) (R RAX);
  MULQ (A 0 32);
  SUB (R RAX) (R RBX);
  SBB (R RDX) (R RCX);
  SBB (Im (0)) (R R8);
  SBB (Im (0)) (R R9);
  SBB (Im (0)) (R R10);
  SBB (Im (0)) (R R11);
  SBB (Im (0)) (R R12);
  SBB (Im (0)) (R R13);
  MOV (A 1 0) (R RAX);
  MULQ (A 0 40);
  SUB (R RAX) (R RCX);
  SBB (R RDX) (R R8);
  SBB (Im (0)) (R R9);
  SBB (Im (0)) (R R10);
  SBB (Im (0)) (R R11);
  SBB (Im (0)) (R R12);
  SBB (Im (0)) (R R13);
  MOV (A 1 0) (R RAX);
  MULQ (A 0 48);
  SUB (R RAX) (R R8);
  SBB (R RDX) (R R9);
  SBB (Im (0)) (R R10);
  SBB (Im (0)) (R R11);
  SBB (Im (0)) (R R12);
  SBB (Im (0)) (R R13);
  MOV (A 1 0) (R RAX);
  MULQ (A 0 56);
  SUB (R RAX) (R R9);
  SBB (R RDX) (R R10);
  SBB (Im (0)) (R R11);
  SBB (Im (0)) (R R12);
  SBB (Im (0)) (R R13);
  MOV (A 1 8) (R RAX);
  MULQ (A 0 32);
  SUB (R RAX) (R RCX);
  SBB (R RDX) (R R8);
  SBB (Im (0)) (R R9);
  SBB (Im (0)) (R R10);
  SBB (Im (0)) (R R11);
  SBB (Im (0)) (R R12);
  SBB (Im (0)) (R R13);
  MOV (A 1 8) (R RAX);
  MULQ (A 0 40);
  SUB (R RAX) (R R8);
  SBB (R RDX) (R R9);
  SBB (Im (0)) (R R10);
  SBB (Im (0)) (R R11);
  SBB (Im (0)) (R R12);
  SBB (Im (0)) (R R13);
  MOV (A 1 8) (R RAX);
  MULQ (A 0 48);
  SUB (R RAX) (R R9);
  SBB (R RDX) (R R10);
  SBB (Im (0)) (R R11);
  SBB (Im (0)) (R R12);
  SBB (Im (0)) (R R13);
  MOV (A 1 8) (R RAX);
  MULQ (A 0 56);
  SUB (R RAX) (R R10);
  SBB (R RDX) (R R11);
  SBB (Im (0)) (R R12);
  SBB (Im (0)) (R R13);
  SUB (A 0 32) (R R8);
  SBB (A 0 40) (R R9);
  SBB (A 0 48) (R R10);
  SBB (A 0 56) (R R11);
  SBB (Im (0)) (R R12);
  SBB (Im (0)) (R R13);
  MOV (R RBX) (A 0 0);
  MOV (R RCX) (A 0 8);
  MOV (R R8) (A 0 16);
  MOV (R R9) (A 0 24);
  MOV (R R10) (A 0 32);
  MOV (R R11) (A 0 40);
  MOV (R R12) (A 0 48);
  MOV (R R13) (A 0 56)
].

(** reduce64bits, /repo/src/sign255.c:191-217. *)
Definition asm_reduce64bits : list instr := [
  MOV (A 0 0) (R RBX);
  MOV (A 0 8) (R RCX);
  MOV (A 0 16) (R R8);
  MOV (A 0 24) (R R9);
  MOV (A 1 0) (R RAX);
  MULQ (A 0 32);
  SUB (R RAX) (R RBX);
  SBB (R RDX) (R RCX);
  SBB (Im (0)) (R R8);
  SBB (Im (0)) (R R9);
  MOV (A 1 8) (R RAX);
  MULQ (A 0 32);
  SUB (R RAX) (R RCX);
  SBB (R RDX) (R R8);
  SBB (Im (0)) (R R9);
  MOV (R RBX) (A 0 0);
  MOV (R RCX) (A 0 8);
  MOV (R R8) (A 0 16);
  MOV (R R9) (A 0 24)
].

(** mul64x64: operands %0..%2 are Z[0..2], %3 %4 point to X, Y, /repo/src/bytestring.c:80-88. *)
Definition asm_mul64x64 : list instr := [
  MOV (A 3 0) (R RAX);
  MULQ (A 4 0);
  ADD (R RAX) (D 0);
  ADC (R RDX) (D 1);
  ADC (Im (0)) (D 2)
].

(** SUB512, /repo/src/edwards448.c:914-925. *)
Definition asm_SUB512 : list instr := [
  MOV (A 0 0) (R RAX);
  SUB (D 2) (R RAX);
  MOV (R RAX) (A 0 0);
  MOV (A 0 8) (R RCX);
  SBB (D 1) (R RCX);
  MOV (R RCX) (A 0 8);
  MOV (A 0 16) (R RDX);
  SBB (D 1) (R RDX);
  MOV (R RDX) (A 0 16);
  MOV (A 0 24) (R R8);
  SBB (D 1) (R R8);
  MOV (R R8) (A 0 24);
  MOV (A 0 32) (R R9);
  SBB (D 1) (R R9);
  MOV (R R9) (A 0 32);
  MOV (A 0 40) (R RAX);
  SBB (D 1) (R RAX);
  MOV (R RAX) (A 0 40);
  MOV (A 0 48) (R RCX);
  SBB (D 1) (R RCX);
  MOV (R RCX) (A 0 48);
  MOV (A 0 56) (R RDX);
  SBB (D 1) (R RDX);
  MOV (R RDX) (A 0 56)
].

(** SUB256: operands %0..%3 are r3..r0, %4..%7 are b3..b0, /repo/src/edwards255.c:1154-1161. *)
Definition asm_SUB256 : list instr := [
  SUB (D 7) (D 3);
  SBB (D 6) (D 2);
  SBB (D 5) (D 1);
  SBB (D 4) (D 0)
].
