(** Inline assembly of /repo/src transcribed by tools/asm2coq.py (one
    constructor per instruction, gas macros expanded).  Generated file. *)
From Coq Require Import ZArith List.
From Verif Require Import Uop X86.
Import ListNotations.
Open Scope Z_scope.

(** intmul2_Fp255 (BMI2+ADX), /repo/src/eltfp25519_1w_fullradix.c:25-86. *)
Definition asm_intmul2_mulxadx : list instr := [
  ZERO (R R14);
  MOV (A 1 0) (R RDX);
  MULX (A 2 0) (R R8) (R R12);
  ZERO (R R10);
  MOV (R R8) (A 0 0);
  MULX (A 2 8) (R R10) (R RAX);
  ADOX (R R10) (R R12);
  MULX (A 2 16) (R R8) (R RBX);
  ADOX (R R8) (R RAX);
  MULX (A 2 24) (R R10) (R RCX);
  ADOX (R R10) (R RBX);
  ADOX (R R14) (R RCX);
  MOV (A 1 8) (R RDX);
  MULX (A 2 0) (R R8) (R R9);
  ADOX (R R12) (R R8);
  MOV (R R8) (A 0 8);
  MULX (A 2 8) (R R10) (R R11);
  ADOX (R R10) (R R9);
  ADCX (R R9) (R RAX);
  MULX (A 2 16) (R R8) (R R13);
  ADOX (R R8) (R R11);
  ADCX (R R11) (R RBX);
  MULX (A 2 24) (R R10) (R R12);
  ADOX (R R10) (R R13);
  ADCX (R R13) (R RCX);
  ADOX (R R14) (R R12);
  ADCX (R R14) (R R12);
  MOV (A 1 16) (R RDX);
  ZERO (R R10);
  MULX (A 2 0) (R R8) (R R9);
  ADOX (R RAX) (R R8);
  MOV (R R8) (A 0 16);
  MULX (A 2 8) (R R10) (R R11);
  ADOX (R R10) (R R9);
  ADCX (R R9) (R RBX);
  MULX (A 2 16) (R R8) (R R13);
  ADOX (R R8) (R R11);
  ADCX (R R11) (R RCX);
  MULX (A 2 24) (R R10) (R RAX);
  ADOX (R R10) (R R13);
  ADCX (R R13) (R R12);
  ADOX (R R14) (R RAX);
  ADCX (R R14) (R RAX);
  MOV (A 1 24) (R RDX);
  ZERO (R R10);
  MULX (A 2 0) (R R8) (R R9);
  ADOX (R RBX) (R R8);
  MOV (R R8) (A 0 24);
  MULX (A 2 8) (R R10) (R R11);
  ADOX (R R10) (R R9);
  ADCX (R R9) (R RCX);
  MOV (R RCX) (A 0 32);
  MULX (A 2 16) (R R8) (R R13);
  ADOX (R R8) (R R11);
  ADCX (R R11) (R R12);
  MOV (R R12) (A 0 40);
  MULX (A 2 24) (R R10) (R RBX);
  ADOX (R R10) (R R13);
  ADCX (R R13) (R RAX);
  MOV (R RAX) (A 0 48);
  ADOX (R R14) (R RBX);
  ADCX (R R14) (R RBX);
  MOV (R RBX) (A 0 56);
  MOV (A 1 32) (R RDX);
  MULX (A 2 32) (R R8) (R R12);
  ZERO (R R10);
  MOV (R R8) (A 0 64);
  MULX (A 2 40) (R R10) (R RAX);
  ADOX (R R10) (R R12);
  MULX (A 2 48) (R R8) (R RBX);
  ADOX (R R8) (R RAX);
  MULX (A 2 56) (R R10) (R RCX);
  ADOX (R R10) (R RBX);
  ADOX (R R14) (R RCX);
  MOV (A 1 40) (R RDX);
  ZERO (R R10);
  MULX (A 2 32) (R R8) (R R9);
  ADOX (R R12) (R R8);
  MOV (R R8) (A 0 72);
  MULX (A 2 40) (R R10) (R R11);
  ADOX (R R10) (R R9);
  ADCX (R R9) (R RAX);
  MULX (A 2 48) (R R8) (R R13);
  ADOX (R R8) (R R11);
  ADCX (R R11) (R RBX);
  MULX (A 2 56) (R R10) (R R12);
  ADOX (R R10) (R R13);
  ADCX (R R13) (R RCX);
  ADOX (R R14) (R R12);
  ADCX (R R14) (R R12);
  MOV (A 1 48) (R RDX);
  ZERO (R R10);
  MULX (A 2 32) (R R8) (R R9);
  ADOX (R RAX) (R R8);
  MOV (R R8) (A 0 80);
  MULX (A 2 40) (R R10) (R R11);
  ADOX (R R10) (R R9);
  ADCX (R R9) (R RBX);
  MULX (A 2 48) (R R8) (R R13);
  ADOX (R R8) (R R11);
  ADCX (R R11) (R RCX);
  MULX (A 2 56) (R R10) (R RAX);
  ADOX (R R10) (R R13);
  ADCX (R R13) (R R12);
  ADOX (R R14) (R RAX);
  ADCX (R R14) (R RAX);
  MOV (A 1 56) (R RDX);
  ZERO (R R10);
  MULX (A 2 32) (R R8) (R R9);
  ADOX (R RBX) (R R8);
  MOV (R R8) (A 0 88);
  MULX (A 2 40) (R R10) (R R11);
  ADOX (R R10) (R R9);
  ADCX (R R9) (R RCX);
  MOV (R RCX) (A 0 96);
  MULX (A 2 48) (R R8) (R R13);
  ADOX (R R8) (R R11);
  ADCX (R R11) (R R12);
  MOV (R R12) (A 0 104);
  MULX (A 2 56) (R R10) (R RBX);
  ADOX (R R10) (R R13);
  ADCX (R R13) (R RAX);
  MOV (R RAX) (A 0 112);
  ADOX (R R14) (R RBX);
  ADCX (R R14) (R RBX);
  MOV (R RBX) (A 0 120)
].

(** intmul2_Fp255 (BMI2), /repo/src/eltfp25519_1w_fullradix.c:90-180. *)
Definition asm_intmul2_mulx : list instr := [
  MOV (A 1 0) (R RDX);
  MULX (A 2 0) (R R8) (R R12);
  MOV (R R8) (A 0 0);
  MULX (A 2 8) (R R10) (R RAX);
  ADD (R R10) (R R12);
  MULX (A 2 16) (R R8) (R RBX);
  ADC (R R8) (R RAX);
  MULX (A 2 24) (R R10) (R RCX);
  ADC (R R10) (R RBX);
  ADC (Im (0)) (R RCX);
  MOV (A 1 8) (R RDX);
  MULX (A 2 0) (R R8) (R R9);
  ADD (R R12) (R R8);
  MOV (R R8) (A 0 8);
  MULX (A 2 8) (R R10) (R R11);
  ADC (R R10) (R R9);
  MULX (A 2 16) (R R8) (R R13);
  ADC (R R8) (R R11);
  MULX (A 2 24) (R R10) (R R12);
  ADC (R R10) (R R13);
  ADC (Im (0)) (R R12);
  ADD (R R9) (R RAX);
  ADC (R R11) (R RBX);
  ADC (R R13) (R RCX);
  ADC (Im (0)) (R R12);
  MOV (A 1 16) (R RDX);
  MULX (A 2 0) (R R8) (R R9);
  ADD (R RAX) (R R8);
  MOV (R R8) (A 0 16);
  MULX (A 2 8) (R R10) (R R11);
  ADC (R R10) (R R9);
  MULX (A 2 16) (R R8) (R R13);
  ADC (R R8) (R R11);
  MULX (A 2 24) (R R10) (R RAX);
  ADC (R R10) (R R13);
  ADC (Im (0)) (R RAX);
  ADD (R R9) (R RBX);
  ADC (R R11) (R RCX);
  ADC (R R13) (R R12);
  ADC (Im (0)) (R RAX);
  MOV (A 1 24) (R RDX);
  MULX (A 2 0) (R R8) (R R9);
  ADD (R RBX) (R R8);
  MOV (R R8) (A 0 24);
  MULX (A 2 8) (R R10) (R R11);
  ADC (R R10) (R R9);
  MULX (A 2 16) (R R8) (R R13);
  ADC (R R8) (R R11);
  MULX (A 2 24) (R R10) (R RBX);
  ADC (R R10) (R R13);
  ADC (Im (0)) (R RBX);
  ADD (R R9) (R RCX);
  MOV (R RCX) (A 0 32);
  ADC (R R11) (R R12);
  MOV (R R12) (A 0 40);
  ADC (R R13) (R RAX);
  MOV (R RAX) (A 0 48);
  ADC (Im (0)) (R RBX);
  MOV (R RBX) (A 0 56);
  MOV (A 1 32) (R RDX);
  MULX (A 2 32) (R R8) (R R12);
  MOV (R R8) (A 0 64);
  MULX (A 2 40) (R R10) (R RAX);
  ADD (R R10) (R R12);
  MULX (A 2 48) (R R8) (R RBX);
  ADC (R R8) (R RAX);
  MULX (A 2 56) (R R10) (R RCX);
  ADC (R R10) (R RBX);
  ADC (Im (0)) (R RCX);
  MOV (A 1 40) (R RDX);
  MULX (A 2 32) (R R8) (R R9);
  ADD (R R12) (R R8);
  MOV (R R8) (A 0 72);
  MULX (A 2 40) (R R10) (R R11);
  ADC (R R10) (R R9);
  MULX (A 2 48) (R R8) (R R13);
  ADC (R R8) (R R11);
  MULX (A 2 56) (R R10) (R R12);
  ADC (R R10) (R R13);
  ADC (Im (0)) (R R12);
  ADD (R R9) (R RAX);
  ADC (R R11) (R RBX);
  ADC (R R13) (R RCX);
  ADC (Im (0)) (R R12);
  MOV (A 1 48) (R RDX);
  MULX (A 2 32) (R R8) (R R9);
  ADD (R RAX) (R R8);
  MOV (R R8) (A 0 80);
  MULX (A 2 40) (R R10) (R R11);
  ADC (R R10) (R R9);
  MULX (A 2 48) (R R8) (R R13);
  ADC (R R8) (R R11);
  MULX (A 2 56) (R R10) (R RAX);
  ADC (R R10) (R R13);
  ADC (Im (0)) (R RAX);
  ADD (R R9) (R RBX);
  ADC (R R11) (R RCX);
  ADC (R R13) (R R12);
  ADC (Im (0)) (R RAX);
  MOV (A 1 56) (R RDX);
  MULX (A 2 32) (R R8) (R R9);
  ADD (R RBX) (R R8);
  MOV (R R8) (A 0 88);
  MULX (A 2 40) (R R10) (R R11);
  ADC (R R10) (R R9);
  MULX (A 2 48) (R R8) (R R13);
  ADC (R R8) (R R11);
  MULX (A 2 56) (R R10) (R RBX);
  ADC (R R10) (R R13);
  ADC (Im (0)) (R RBX);
  ADD (R R9) (R RCX);
  MOV (R RCX) (A 0 96);
  ADC (R R11) (R R12);
  MOV (R R12) (A 0 104);
  ADC (R R13) (R RAX);
  MOV (R RAX) (A 0 112);
  ADC (Im (0)) (R RBX);
  MOV (R RBX) (A 0 120)
].

(** intmul2_Fp255 (base), /repo/src/eltfp25519_1w_fullradix.c:184-319. *)
Definition asm_intmul2_mulq : list instr := [
  MOV (A 1 0) (R R15);
  MOV (A 2 0) (R RAX);
  MULQ (R R15);
  MOV (R RAX) (A 0 0);
  MOV (R RDX) (R R9);
  MOV (A 2 8) (R RAX);
  MULQ (R R15);
  MOV (R RAX) (R R10);
  MOV (R RDX) (R R11);
  MOV (A 2 16) (R RAX);
  MULQ (R R15);
  MOV (R RAX) (R R12);
  MOV (R RDX) (R R13);
  MOV (A 2 24) (R RAX);
  MULQ (R R15);
  ADD (R R10) (R R9);
  ADC (R R12) (R R11);
  ADC (R RAX) (R R13);
  ADC (Im (0)) (R RDX);
  MOV (R RDX) (R R15);
  MOV (A 1 8) (R R14);
  MOV (A 2 0) (R RAX);
  MULQ (R R14);
  MOV (R RAX) (R RCX);
  MOV (R RDX) (R R8);
  MOV (A 2 8) (R RAX);
  MULQ (R R14);
  MOV (R RDX) (R R10);
  ADD (R R9) (R RCX);
  MOV (R RCX) (A 0 8);
  ADC (R RAX) (R R8);
  ADC (Im (0)) (R R10);
  MOV (A 2 16) (R RAX);
  MULQ (R R14);
  MOV (R RAX) (R RCX);
  MOV (R RDX) (R R12);
  MOV (A 2 24) (R RAX);
  MULQ (R R14);
  ADD (R RCX) (R R10);
  ADC (R RAX) (R R12);
  ADC (Im (0)) (R RDX);
  ADD (R R11) (R R8);
  ADC (R R13) (R R10);
  ADC (R R15) (R R12);
  ADC (Im (0)) (R RDX);
  MOV (R RDX) (R R14);
  MOV (A 1 16) (R R15);
  MOV (A 2 0) (R RAX);
  MULQ (R R15);
  MOV (R RAX) (R RCX);
  MOV (R RDX) (R R9);
  MOV (A 2 8) (R RAX);
  MULQ (R R15);
  MOV (R RDX) (R R11);
  ADD (R R8) (R RCX);
  MOV (R RCX) (A 0 16);
  ADC (R RAX) (R R9);
  ADC (Im (0)) (R R11);
  MOV (A 2 16) (R RAX);
  MULQ (R R15);
  MOV (R RAX) (R RCX);
  MOV (R RDX) (R R13);
  MOV (A 2 24) (R RAX);
  MULQ (R R15);
  ADD (R RCX) (R R11);
  ADC (R RAX) (R R13);
  ADC (Im (0)) (R RDX);
  ADD (R R10) (R R9);
  ADC (R R12) (R R11);
  ADC (R R14) (R R13);
  ADC (Im (0)) (R RDX);
  MOV (R RDX) (R R15);
  MOV (A 1 24) (R R14);
  MOV (A 2 0) (R RAX);
  MULQ (R R14);
  MOV (R RAX) (R RCX);
  MOV (R RDX) (R R8);
  MOV (A 2 8) (R RAX);
  MULQ (R R14);
  MOV (R RDX) (R R10);
  ADD (R R9) (R RCX);
  MOV (R RCX) (A 0 24);
  ADC (R RAX) (R R8);
  ADC (Im (0)) (R R10);
  MOV (A 2 16) (R RAX);
  MULQ (R R14);
  MOV (R RAX) (R RCX);
  MOV (R RDX) (R R12);
  MOV (A 2 24) (R RAX);
  MULQ (R R14);
  ADD (R RCX) (R R10);
  ADC (R RAX) (R R12);
  ADC (Im (0)) (R RDX);
  ADD (R R11) (R R8);
  MOV (R R8) (A 0 32);
  ADC (R R13) (R R10);
  MOV (R R10) (A 0 40);
  ADC (R R15) (R R12);
  MOV (R R12) (A 0 48);
  ADC (Im (0)) (R RDX);
  MOV (R RDX) (A 0 56);
  MOV (A 1 32) (R R15);
  MOV (A 2 32) (R RAX);
  MULQ (R R15);
  MOV (R RAX) (A 0 64);
  MOV (R RDX) (R R9);
  MOV (A 2 40) (R RAX);
  MULQ (R R15);
  MOV (R RAX) (R R10);
  MOV (R RDX) (R R11);
  MOV (A 2 48) (R RAX);
  MULQ (R R15);
  MOV (R RAX) (R R12);
  MOV (R RDX) (R R13);
  MOV (A 2 56) (R RAX);
  MULQ (R R15);
  ADD (R R10) (R R9);
  ADC (R R12) (R R11);
  ADC (R RAX) (R R13);
  ADC (Im (0)) (R RDX);
  MOV (R RDX) (R R15);
  MOV (A 1 40) (R R14);
  MOV (A 2 32) (R RAX);
  MULQ (R R14);
  MOV (R RAX) (R RCX);
  MOV (R RDX) (R R8);
  MOV (A 2 40) (R RAX);
  MULQ (R R14);
  MOV (R RDX) (R R10);
  ADD (R R9) (R RCX);
  MOV (R RCX) (A 0 72);
  ADC (R RAX) (R R8);
  ADC (Im (0)) (R R10);
  MOV (A 2 48) (R RAX);
  MULQ (R R14);
  MOV (R RAX) (R RCX);
  MOV (R RDX) (R R12);
  MOV (A 2 56) (R RAX);
  MULQ (R R14);
  ADD (R RCX) (R R10);
  ADC (R RAX) (R R12);
  ADC (Im (0)) (R RDX);
  ADD (R R11) (R R8);
  ADC (R R13) (R R10);
  ADC (R R15) (R R12);
  ADC (Im (0)) (R RDX);
  MOV (R RDX) (R R14);
  MOV (A 1 48) (R R15);
  MOV (A 2 32) (R RAX);
  MULQ (R R15);
  MOV (R RAX) (R RCX);
  MOV (R RDX) (R R9);
  MOV (A 2 40) (R RAX);
  MULQ (R R15);
  MOV (R RDX) (R R11);
  ADD (R R8) (R RCX);
  MOV (R RCX) (A 0 80);
  ADC (R RAX) (R R9);
  ADC (Im (0)) (R R11);
  MOV (A 2 48) (R RAX);
  MULQ (R R15);
  MOV (R RAX) (R RCX);
  MOV (R RDX) (R R13);
  MOV (A 2 56) (R RAX);
  MULQ (R R15);
  ADD (R RCX) (R R11);
  ADC (R RAX) (R R13);
  ADC (Im (0)) (R RDX);
  ADD (R R10) (R R9);
  ADC (R R12) (R R11);
  ADC (R R14) (R R13);
  ADC (Im (0)) (R RDX);
  MOV (R RDX) (R R15);
  MOV (A 1 56) (R R14);
  MOV (A 2 32) (R RAX);
  MULQ (R R14);
  MOV (R RAX) (R RCX);
  MOV (R RDX) (R R8);
  MOV (A 2 40) (R RAX);
  MULQ (R R14);
  MOV (R RDX) (R R10);
  ADD (R R9) (R RCX);
  MOV (R RCX) (A 0 88);
  ADC (R RAX) (R R8);
  ADC (Im (0)) (R R10);
  MOV (A 2 48) (R RAX);
  MULQ (R R14);
  MOV (R RAX) (R RCX);
  MOV (R RDX) (R R12);
  MOV (A 2 56) (R RAX);
  MULQ (R R14);
  ADD (R RCX) (R R10);
  ADC (R RAX) (R R12);
  ADC (Im (0)) (R RDX);
  ADD (R R11) (R R8);
  MOV (R R8) (A 0 96);
  ADC (R R13) (R R10);
  MOV (R R10) (A 0 104);
  ADC (R R15) (R R12);
  MOV (R R12) (A 0 112);
  ADC (Im (0)) (R RDX);
  MOV (R RDX) (A 0 120)
].

(** intsqr2_Fp255 (BMI2+ADX), /repo/src/eltfp25519_1w_fullradix.c:335-406. *)
Definition asm_intsqr2_mulxadx : list instr := [
  MOV (A 1 0) (R RDX);
  MULX (A 1 8) (R R8) (R R14);
  ZERO (R R15);
  MULX (A 1 16) (R R9) (R R10);
  ADCX (R R14) (R R9);
  MULX (A 1 24) (R RAX) (R RCX);
  ADCX (R RAX) (R R10);
  MOV (A 1 24) (R RDX);
  MULX (A 1 8) (R R11) (R R12);
  ADCX (R RCX) (R R11);
  MULX (A 1 16) (R RAX) (R R13);
  ADCX (R RAX) (R R12);
  MOV (A 1 8) (R RDX);
  ADCX (R R15) (R R13);
  MULX (A 1 16) (R RAX) (R RCX);
  MOV (Im (0)) (R R14);
  ADCX (R R15) (R R14);
  ZERO (R R15);
  ADOX (R RAX) (R R10);
  ADCX (R R8) (R R8);
  ADOX (R RCX) (R R11);
  ADCX (R R9) (R R9);
  ADOX (R R15) (R R12);
  ADCX (R R10) (R R10);
  ADOX (R R15) (R R13);
  ADCX (R R11) (R R11);
  ADOX (R R15) (R R14);
  ADCX (R R12) (R R12);
  ADCX (R R13) (R R13);
  ADCX (R R14) (R R14);
  MOV (A 1 0) (R RDX);
  MULX (R RDX) (R RAX) (R RCX);
  MOV (R RAX) (A 0 0);
  ADD (R RCX) (R R8);
  MOV (R R8) (A 0 8);
  MOV (A 1 8) (R RDX);
  MULX (R RDX) (R RAX) (R RCX);
  ADC (R RAX) (R R9);
  MOV (R R9) (A 0 16);
  ADC (R RCX) (R R10);
  MOV (R R10) (A 0 24);
  MOV (A 1 16) (R RDX);
  MULX (R RDX) (R RAX) (R RCX);
  ADC (R RAX) (R R11);
  MOV (R R11) (A 0 32);
  ADC (R RCX) (R R12);
  MOV (R R12) (A 0 40);
  MOV (A 1 24) (R RDX);
  MULX (R RDX) (R RAX) (R RCX);
  ADC (R RAX) (R R13);
  MOV (R R13) (A 0 48);
  ADC (R RCX) (R R14);
  MOV (R R14) (A 0 56);
  MOV (A 1 32) (R RDX);
  MULX (A 1 40) (R R8) (R R14);
  ZERO (R R15);
  MULX (A 1 48) (R R9) (R R10);
  ADCX (R R14) (R R9);
  MULX (A 1 56) (R RAX) (R RCX);
  ADCX (R RAX) (R R10);
  MOV (A 1 56) (R RDX);
  MULX (A 1 40) (R R11) (R R12);
  ADCX (R RCX) (R R11);
  MULX (A 1 48) (R RAX) (R R13);
  ADCX (R RAX) (R R12);
  MOV (A 1 40) (R RDX);
  ADCX (R R15) (R R13);
  MULX (A 1 48) (R RAX) (R RCX);
  MOV (Im (0)) (R R14);
  ADCX (R R15) (R R14);
  ZERO (R R15);
  ADOX (R RAX) (R R10);
  ADCX (R R8) (R R8);
  ADOX (R RCX) (R R11);
  ADCX (R R9) (R R9);
  ADOX (R R15) (R R12);
  ADCX (R R10) (R R10);
  ADOX (R R15) (R R13);
  ADCX (R R11) (R R11);
  ADOX (R R15) (R R14);
  ADCX (R R12) (R R12);
  ADCX (R R13) (R R13);
  ADCX (R R14) (R R14);
  MOV (A 1 32) (R RDX);
  MULX (R RDX) (R RAX) (R RCX);
  MOV (R RAX) (A 0 64);
  ADD (R RCX) (R R8);
  MOV (R R8) (A 0 72);
  MOV (A 1 40) (R RDX);
  MULX (R RDX) (R RAX) (R RCX);
  ADC (R RAX) (R R9);
  MOV (R R9) (A 0 80);
  ADC (R RCX) (R R10);
  MOV (R R10) (A 0 88);
  MOV (A 1 48) (R RDX);
  MULX (R RDX) (R RAX) (R RCX);
  ADC (R RAX) (R R11);
  MOV (R R11) (A 0 96);
  ADC (R RCX) (R R12);
  MOV (R R12) (A 0 104);
  MOV (A 1 56) (R RDX);
  MULX (R RDX) (R RAX) (R RCX);
  ADC (R RAX) (R R13);
  MOV (R R13) (A 0 112);
  ADC (R RCX) (R R14);
  MOV (R R14) (A 0 120)
].

(** intsqr2_Fp255 (BMI2), /repo/src/eltfp25519_1w_fullradix.c:410-508. *)
Definition asm_intsqr2_mulx : list instr := [
  MOV (A 1 8) (R RDX);
  MULX (A 1 0) (R R8) (R R9);
  MULX (A 1 16) (R R10) (R R11);
  MULX (A 1 24) (R RCX) (R R14);
  MOV (A 1 16) (R RDX);
  MULX (A 1 24) (R R12) (R R13);
  MULX (A 1 0) (R RAX) (R RDX);
  ADD (R RAX) (R R9);
  ADC (R RDX) (R R10);
  ADC (R RCX) (R R11);
  ADC (R R14) (R R12);
  ADC (Im (0)) (R R13);
  MOV (Im (0)) (R R14);
  ADC (Im (0)) (R R14);
  MOV (A 1 0) (R RDX);
  MULX (A 1 24) (R RAX) (R RCX);
  ADD (R RAX) (R R10);
  ADC (R RCX) (R R11);
  ADC (Im (0)) (R R12);
  ADC (Im (0)) (R R13);
  ADC (Im (0)) (R R14);
  SHLD (1) (R R13) (R R14);
  SHLD (1) (R R12) (R R13);
  SHLD (1) (R R11) (R R12);
  SHLD (1) (R R10) (R R11);
  SHLD (1) (R R9) (R R10);
  SHLD (1) (R R8) (R R9);
  SHL ((1)) (R R8);
  MULX (R RDX) (R RAX) (R RCX);
  MOV (R RAX) (A 0 0);
  ADD (R RCX) (R R8);
  MOV (R R8) (A 0 8);
  MOV (A 1 8) (R RDX);
  MULX (R RDX) (R RAX) (R RCX);
  ADC (R RAX) (R R9);
  MOV (R R9) (A 0 16);
  ADC (R RCX) (R R10);
  MOV (R R10) (A 0 24);
  MOV (A 1 16) (R RDX);
  MULX (R RDX) (R RAX) (R RCX);
  ADC (R RAX) (R R11);
  MOV (R R11) (A 0 32);
  ADC (R RCX) (R R12);
  MOV (R R12) (A 0 40);
  MOV (A 1 24) (R RDX);
  MULX (R RDX) (R RAX) (R RCX);
  ADC (R RAX) (R R13);
  MOV (R R13) (A 0 48);
  ADC (R RCX) (R R14);
  MOV (R R14) (A 0 56);
  MOV (A 1 40) (R RDX);
  MULX (A 1 32) (R R8) (R R9);
  MULX (A 1 48) (R R10) (R R11);
  MULX (A 1 56) (R RCX) (R R14);
  MOV (A 1 48) (R RDX);
  MULX (A 1 56) (R R12) (R R13);
  MULX (A 1 32) (R RAX) (R RDX);
  ADD (R RAX) (R R9);
  ADC (R RDX) (R R10);
  ADC (R RCX) (R R11);
  ADC (R R14) (R R12);
  ADC (Im (0)) (R R13);
  MOV (Im (0)) (R R14);
  ADC (Im (0)) (R R14);
  MOV (A 1 32) (R RDX);
  MULX (A 1 56) (R RAX) (R RCX);
  ADD (R RAX) (R R10);
  ADC (R RCX) (R R11);
  ADC (Im (0)) (R R12);
  ADC (Im (0)) (R R13);
  ADC (Im (0)) (R R14);
  SHLD (1) (R R13) (R R14);
  SHLD (1) (R R12) (R R13);
  SHLD (1) (R R11) (R R12);
  SHLD (1) (R R10) (R R11);
  SHLD (1) (R R9) (R R10);
  SHLD (1) (R R8) (R R9);
  SHL ((1)) (R R8);
  MULX (R RDX) (R RAX) (R RCX);
  MOV (R RAX) (A 0 64);
  ADD (R RCX) (R R8);
  MOV (R R8) (A 0 72);
  MOV (A 1 40) (R RDX);
  MULX (R RDX) (R RAX) (R RCX);
  ADC (R RAX) (R R9);
  MOV (R R9) (A 0 80);
  ADC (R RCX) (R R10);
  MOV (R R10) (A 0 88);
  MOV (A 1 48) (R RDX);
  MULX (R RDX) (R RAX) (R RCX);
  ADC (R RAX) (R R11);
  MOV (R R11) (A 0 96);
  ADC (R RCX) (R R12);
  MOV (R R12) (A 0 104);
  MOV (A 1 56) (R RDX);
  MULX (R RDX) (R RAX) (R RCX);
  ADC (R RAX) (R R13);
  MOV (R R13) (A 0 112);
  ADC (R RCX) (R R14);
  MOV (R R14) (A 0 120)
].

(** intsqr2_Fp255 (base), /repo/src/eltfp25519_1w_fullradix.c:512-600. *)
Definition asm_intsqr2_mulq : list instr := [
  MOV (A 1 0) (R R8);
  MOV (A 1 8) (R RAX);
  MULQ (R R8);
  MOV (R RAX) (R R9);
  MOV (R RDX) (R R10);
  MOV (A 1 16) (R RAX);
  MULQ (R R8);
  MOV (R RAX) (R R14);
  MOV (R RDX) (R R11);
  MOV (A 1 24) (R RAX);
  MULQ (R R8);
  MOV (R RAX) (R R15);
  MOV (R RDX) (R R12);
  MOV (A 1 24) (R R8);
  MOV (A 1 8) (R RAX);
  MULQ (R R8);
  MOV (R RAX) (R RCX);
  MOV (R RDX) (R R13);
  MOV (A 1 16) (R RAX);
  MULQ (R R8);
  ADD (R R14) (R R10);
  ADC (R R15) (R R11);
  MOV (Im (0)) (R R15);
  ADC (R RCX) (R R12);
  ADC (R RAX) (R R13);
  ADC (Im (0)) (R RDX);
  MOV (R RDX) (R R14);
  MOV (A 1 8) (R RAX);
  MULQ (A 1 16);
  ADD (R RAX) (R R11);
  ADC (R RDX) (R R12);
  ADC (Im (0)) (R R13);
  ADC (Im (0)) (R R14);
  ADC (Im (0)) (R R15);
  SHLD (1) (R R14) (R R15);
  MOV (R R15) (A 0 56);
  SHLD (1) (R R13) (R R14);
  MOV (R R14) (A 0 48);
  SHLD (1) (R R12) (R R13);
  MOV (R R13) (A 0 40);
  SHLD (1) (R R11) (R R12);
  MOV (R R12) (A 0 32);
  SHLD (1) (R R10) (R R11);
  MOV (R R11) (A 0 24);
  SHLD (1) (R R9) (R R10);
  MOV (R R10) (A 0 16);
  SHL ((1)) (R R9);
  MOV (R R9) (A 0 8);
  MOV (A 1 0) (R RAX);
  MULQ (R RAX);
  MOV (R RAX) (A 0 0);
  MOV (R RDX) (R R9);
  MOV (A 1 8) (R RAX);
  MULQ (R RAX);
  MOV (R RAX) (R R10);
  MOV (R RDX) (R R11);
  MOV (A 1 16) (R RAX);
  MULQ (R RAX);
  MOV (R RAX) (R R12);
  MOV (R RDX) (R R13);
  MOV (A 1 24) (R RAX);
  MULQ (R RAX);
  MOV (R RAX) (R R14);
  MOV (R RDX) (R R15);
  ADD (A 0 8) (R R9);
  MOV (R R9) (A 0 8);
  ADC (A 0 16) (R R10);
  MOV (R R10) (A 0 16);
  ADC (A 0 24) (R R11);
  MOV (R R11) (A 0 24);
  ADC (A 0 32) (R R12);
  MOV (R R12) (A 0 32);
  ADC (A 0 40) (R R13);
  MOV (R R13) (A 0 40);
  ADC (A 0 48) (R R14);
  MOV (R R14) (A 0 48);
  ADC (A 0 56) (R R15);
  MOV (R R15) (A 0 56);
  MOV (A 1 32) (R R8);
  MOV (A 1 40) (R RAX);
  MULQ (R R8);
  MOV (R RAX) (R R9);
  MOV (R RDX) (R R10);
  MOV (A 1 48) (R RAX);
  MULQ (R R8);
  MOV (R RAX) (R R14);
  MOV (R RDX) (R R11);
  MOV (A 1 56) (R RAX);
  MULQ (R R8);
  MOV (R RAX) (R R15);
  MOV (R RDX) (R R12);
  MOV (A 1 56) (R R8);
  MOV (A 1 40) (R RAX);
  MULQ (R R8);
  MOV (R RAX) (R RCX);
  MOV (R RDX) (R R13);
  MOV (A 1 48) (R RAX);
  MULQ (R R8);
  ADD (R R14) (R R10);
  ADC (R R15) (R R11);
  MOV (Im (0)) (R R15);
  ADC (R RCX) (R R12);
  ADC (R RAX) (R R13);
  ADC (Im (0)) (R RDX);
  MOV (R RDX) (R R14);
  MOV (A 1 40) (R RAX);
  MULQ (A 1 48);
  ADD (R RAX) (R R11);
  ADC (R RDX) (R R12);
  ADC (Im (0)) (R R13);
  ADC (Im (0)) (R R14);
  ADC (Im (0)) (R R15);
  SHLD (1) (R R14) (R R15);
  MOV (R R15) (A 0 120);
  SHLD (1) (R R13) (R R14);
  MOV (R R14) (A 0 112);
  SHLD (1) (R R12) (R R13);
  MOV (R R13) (A 0 104);
  SHLD (1) (R R11) (R R12);
  MOV (R R12) (A 0 96);
  SHLD (1) (R R10) (R R11);
  MOV (R R11) (A 0 88);
  SHLD (1) (R R9) (R R10);
  MOV (R R10) (A 0 80);
  SHL ((1)) (R R9);
  MOV (R R9) (A 0 72);
  MOV (A 1 32) (R RAX);
  MULQ (R RAX);
  MOV (R RAX) (A 0 64);
  MOV (R RDX) (R R9);
  MOV (A 1 40) (R RAX);
  MULQ (R RAX);
  MOV (R RAX) (R R10);
  MOV (R RDX) (R R11);
  MOV (A 1 48) (R RAX);
  MULQ (R RAX);
  MOV (R RAX) (R R12);
  MOV (R RDX) (R R13);
  MOV (A 1 56) (R RAX);
  MULQ (R RAX);
  MOV (R RAX) (R R14);
  MOV (R RDX) (R R15);
  ADD (A 0 72) (R R9);
  MOV (R R9) (A 0 72);
  ADC (A 0 80) (R R10);
  MOV (R R10) (A 0 80);
  ADC (A 0 88) (R R11);
  MOV (R R11) (A 0 88);
  ADC (A 0 96) (R R12);
  MOV (R R12) (A 0 96);
  ADC (A 0 104) (R R13);
  MOV (R R13) (A 0 104);
  ADC (A 0 112) (R R14);
  MOV (R R14) (A 0 112);
  ADC (A 0 120) (R R15);
  MOV (R R15) (A 0 120)
].

(** reduce2_Fp255 (BMI2+ADX), /repo/src/eltfp25519_1w_fullradix.c:616-648. *)
Definition asm_reduce2_mulxadx : list instr := [
  MOV (Im (38)) (R RDX);
  MULX (A 1 32) (R R8) (R R10);
  ZERO (R RBX);
  ADOX (A 1 0) (R R8);
  MULX (A 1 40) (R R9) (R R11);
  ADCX (R R10) (R R9);
  ADOX (A 1 8) (R R9);
  MULX (A 1 48) (R R10) (R RAX);
  ADCX (R R11) (R R10);
  ADOX (A 1 16) (R R10);
  MULX (A 1 56) (R R11) (R RCX);
  ADCX (R RAX) (R R11);
  ADOX (A 1 24) (R R11);
  ADCX (R RBX) (R RCX);
  ADOX (R RBX) (R RCX);
  IMUL (R RDX) (R RCX);
  ADCX (R RCX) (R R8);
  ADCX (R RBX) (R R9);
  MOV (R R9) (A 0 8);
  ADCX (R RBX) (R R10);
  MOV (R R10) (A 0 16);
  ADCX (R RBX) (R R11);
  MOV (R R11) (A 0 24);
  MOV (Im (0)) (R RCX);
  CMOVC32 (R RDX) (R RCX);
  ADD (R RCX) (R R8);
  MOV (R R8) (A 0 0);
  MULX (A 1 96) (R R8) (R R10);
  ZERO (R RBX);
  ADOX (A 1 64) (R R8);
  MULX (A 1 104) (R R9) (R R11);
  ADCX (R R10) (R R9);
  ADOX (A 1 72) (R R9);
  MULX (A 1 112) (R R10) (R RAX);
  ADCX (R R11) (R R10);
  ADOX (A 1 80) (R R10);
  MULX (A 1 120) (R R11) (R RCX);
  ADCX (R RAX) (R R11);
  ADOX (A 1 88) (R R11);
  ADCX (R RBX) (R RCX);
  ADOX (R RBX) (R RCX);
  IMUL (R RDX) (R RCX);
  ADCX (R RCX) (R R8);
  ADCX (R RBX) (R R9);
  MOV (R R9) (A 0 40);
  ADCX (R RBX) (R R10);
  MOV (R R10) (A 0 48);
  ADCX (R RBX) (R R11);
  MOV (R R11) (A 0 56);
  MOV (Im (0)) (R RCX);
  CMOVC32 (R RDX) (R RCX);
  ADD (R RCX) (R R8);
  MOV (R R8) (A 0 32)
].

(** reduce2_Fp255 (BMI2), /repo/src/eltfp25519_1w_fullradix.c:652-694. *)
Definition asm_reduce2_mulx : list instr := [
  MOV (Im (38)) (R RDX);
  MULX (A 1 32) (R R8) (R R10);
  MULX (A 1 40) (R R9) (R R11);
  ADD (R R10) (R R9);
  MULX (A 1 48) (R R10) (R RAX);
  ADC (R R11) (R R10);
  MULX (A 1 56) (R R11) (R RCX);
  ADC (R RAX) (R R11);
  ADC (Im (0)) (R RCX);
  ADD (A 1 0) (R R8);
  ADC (A 1 8) (R R9);
  ADC (A 1 16) (R R10);
  ADC (A 1 24) (R R11);
  ADC (Im (0)) (R RCX);
  IMUL (R RDX) (R RCX);
  ADD (R RCX) (R R8);
  ADC (Im (0)) (R R9);
  MOV (R R9) (A 0 8);
  ADC (Im (0)) (R R10);
  MOV (R R10) (A 0 16);
  ADC (Im (0)) (R R11);
  MOV (R R11) (A 0 24);
  MOV (Im (0)) (R RCX);
  CMOVC32 (R RDX) (R RCX);
  ADD (R RCX) (R R8);
  MOV (R R8) (A 0 0);
  MULX (A 1 96) (R R8) (R R10);
  MULX (A 1 104) (R R9) (R R11);
  ADD (R R10) (R R9);
  MULX (A 1 112) (R R10) (R RAX);
  ADC (R R11) (R R10);
  MULX (A 1 120) (R R11) (R RCX);
  ADC (R RAX) (R R11);
  ADC (Im (0)) (R RCX);
  ADD (A 1 64) (R R8);
  ADC (A 1 72) (R R9);
  ADC (A 1 80) (R R10);
  ADC (A 1 88) (R R11);
  ADC (Im (0)) (R RCX);
  IMUL (R RDX) (R RCX);
  ADD (R RCX) (R R8);
  ADC (Im (0)) (R R9);
  MOV (R R9) (A 0 40);
  ADC (Im (0)) (R R10);
  MOV (R R10) (A 0 48);
  ADC (Im (0)) (R R11);
  MOV (R R11) (A 0 56);
  MOV (Im (0)) (R RCX);
  CMOVC32 (R RDX) (R RCX);
  ADD (R RCX) (R R8);
  MOV (R R8) (A 0 32)
].

(** reduce2_Fp255 (base), /repo/src/eltfp25519_1w_fullradix.c:698-748. *)
Definition asm_reduce2_mulq : list instr := [
  MOV (Im (38)) (R RAX);
  MULQ (A 1 32);
  MOV (R RAX) (R R8);
  MOV (R RDX) (R R9);
  MOV (Im (38)) (R RAX);
  MULQ (A 1 40);
  MOV (R RAX) (R R12);
  MOV (R RDX) (R R10);
  MOV (Im (38)) (R RAX);
  MULQ (A 1 48);
  MOV (R RAX) (R R13);
  MOV (R RDX) (R R11);
  MOV (Im (38)) (R RAX);
  MULQ (A 1 56);
  ADD (R R12) (R R9);
  ADC (R R13) (R R10);
  ADC (R RAX) (R R11);
  ADC (Im (0)) (R RDX);
  ADD (A 1 0) (R R8);
  ADC (A 1 8) (R R9);
  ADC (A 1 16) (R R10);
  ADC (A 1 24) (R R11);
  ADC (Im (0)) (R RDX);
  MOV (Im (38)) (R RAX);
  IMUL (R RAX) (R RDX);
  ADD (R RDX) (R R8);
  ADC (Im (0)) (R R9);
  MOV (R R9) (A 0 8);
  ADC (Im (0)) (R R10);
  MOV (R R10) (A 0 16);
  ADC (Im (0)) (R R11);
  MOV (R R11) (A 0 24);
  MOV (Im (0)) (R RDX);
  CMOVC (R RAX) (R RDX);
  ADD (R RDX) (R R8);
  MOV (R R8) (A 0 0);
  MOV (Im (38)) (R RAX);
  MULQ (A 1 96);
  MOV (R RAX) (R R8);
  MOV (R RDX) (R R9);
  MOV (Im (38)) (R RAX);
  MULQ (A 1 104);
  MOV (R RAX) (R R12);
  MOV (R RDX) (R R10);
  MOV (Im (38)) (R RAX);
  MULQ (A 1 112);
  MOV (R RAX) (R R13);
  MOV (R RDX) (R R11);
  MOV (Im (38)) (R RAX);
  MULQ (A 1 120);
  ADD (R R12) (R R9);
  ADC (R R13) (R R10);
  ADC (R RAX) (R R11);
  ADC (Im (0)) (R RDX);
  ADD (A 1 64) (R R8);
  ADC (A 1 72) (R R9);
  ADC (A 1 80) (R R10);
  ADC (A 1 88) (R R11);
  ADC (Im (0)) (R RDX);
  MOV (Im (38)) (R RAX);
  IMUL (R RAX) (R RDX);
  ADD (R RDX) (R R8);
  ADC (Im (0)) (R R9);
  MOV (R R9) (A 0 40);
  ADC (Im (0)) (R R10);
  MOV (R R10) (A 0 48);
  ADC (Im (0)) (R R11);
  MOV (R R11) (A 0 56);
  MOV (Im (0)) (R RDX);
  CMOVC (R RAX) (R RDX);
  ADD (R RDX) (R R8);
  MOV (R R8) (A 0 32)
].

(** modp_Fp255: operands %0..%3 are the words of c, %4 %5 scratch, /repo/src/eltfp25519_1w_fullradix.c:794-821. *)
Definition asm_modp : list instr := [
  MOV (Im (19)) (D 5);
  MOV (Im (38)) (D 4);
  BTR ((63)) (D 3);
  CMOVNC32 (D 5) (D 4);
  ADD (D 4) (D 0);
  ADC (Im (0)) (D 1);
  ADC (Im (0)) (D 2);
  ADC (Im (0)) (D 3);
  MOV (Im (0)) (D 4);
  CMOVNS32 (D 5) (D 4);
  BTR ((63)) (D 3);
  SUB (D 4) (D 0);
  SBB (Im (0)) (D 1);
  SBB (Im (0)) (D 2);
  SBB (Im (0)) (D 3)
].

(** intmul_Fp255 (BMI2+ADX), /repo/src/eltfp25519_1w_fullradix.c:850-882. *)
Definition asm_intmul_mulxadx : list instr := [
  MOV (A 1 0) (R RDX);
  MULX (A 2 0) (R R8) (R R9);
  ZERO (R R10);
  MOV (R R8) (A 0 0);
  MULX (A 2 8) (R R10) (R R11);
  ADOX (R R9) (R R10);
  MOV (R R10) (A 0 8);
  MULX (A 2 16) (R R12) (R R13);
  ADOX (R R11) (R R12);
  MULX (A 2 24) (R R14) (R RDX);
  ADOX (R R13) (R R14);
  MOV (Im (0)) (R RAX);
  ADOX (R RDX) (R RAX);
  MOV (A 1 8) (R RDX);
  MULX (A 2 0) (R R8) (R R9);
  ZERO (R R10);
  ADCX (A 0 8) (R R8);
  MOV (R R8) (A 0 8);
  MULX (A 2 8) (R R10) (R R11);
  ADOX (R R9) (R R10);
  ADCX (R R12) (R R10);
  MOV (R R10) (A 0 16);
  MULX (A 2 16) (R R12) (R R13);
  ADOX (R R11) (R R12);
  ADCX (R R14) (R R12);
  MOV (Im (0)) (R R8);
  MULX (A 2 24) (R R14) (R RDX);
  ADOX (R R13) (R R14);
  ADCX (R RAX) (R R14);
  MOV (Im (0)) (R RAX);
  ADOX (R RDX) (R RAX);
  ADCX (R R8) (R RAX);
  MOV (A 1 16) (R RDX);
  MULX (A 2 0) (R R8) (R R9);
  ZERO (R R10);
  ADCX (A 0 16) (R R8);
  MOV (R R8) (A 0 16);
  MULX (A 2 8) (R R10) (R R11);
  ADOX (R R9) (R R10);
  ADCX (R R12) (R R10);
  MOV (R R10) (A 0 24);
  MULX (A 2 16) (R R12) (R R13);
  ADOX (R R11) (R R12);
  ADCX (R R14) (R R12);
  MOV (Im (0)) (R R8);
  MULX (A 2 24) (R R14) (R RDX);
  ADOX (R R13) (R R14);
  ADCX (R RAX) (R R14);
  MOV (Im (0)) (R RAX);
  ADOX (R RDX) (R RAX);
  ADCX (R R8) (R RAX);
  MOV (A 1 24) (R RDX);
  MULX (A 2 0) (R R8) (R R9);
  ZERO (R R10);
  ADCX (A 0 24) (R R8);
  MOV (R R8) (A 0 24);
  MULX (A 2 8) (R R10) (R R11);
  ADOX (R R9) (R R10);
  ADCX (R R12) (R R10);
  MOV (R R10) (A 0 32);
  MULX (A 2 16) (R R12) (R R13);
  ADOX (R R11) (R R12);
  ADCX (R R14) (R R12);
  MOV (R R12) (A 0 40);
  MOV (Im (0)) (R R8);
  MULX (A 2 24) (R R14) (R RDX);
  ADOX (R R13) (R R14);
  ADCX (R RAX) (R R14);
  MOV (R R14) (A 0 48);
  MOV (Im (0)) (R RAX);
  ADOX (R RDX) (R RAX);
  ADCX (R R8) (R RAX);
  MOV (R RAX) (A 0 56)
].

(** intmul_Fp255 (BMI2), /repo/src/eltfp25519_1w_fullradix.c:886-933. *)
Definition asm_intmul_mulx : list instr := [
  MOV (A 1 0) (R RDX);
  MULX (A 2 0) (R R8) (R R12);
  MOV (R R8) (A 0 0);
  MULX (A 2 8) (R R10) (R RAX);
  ADD (R R10) (R R12);
  MULX (A 2 16) (R R8) (R RBX);
  ADC (R R8) (R RAX);
  MULX (A 2 24) (R R10) (R RCX);
  ADC (R R10) (R RBX);
  ADC (Im (0)) (R RCX);
  MOV (A 1 8) (R RDX);
  MULX (A 2 0) (R R8) (R R9);
  ADD (R R12) (R R8);
  MOV (R R8) (A 0 8);
  MULX (A 2 8) (R R10) (R R11);
  ADC (R R10) (R R9);
  MULX (A 2 16) (R R8) (R R13);
  ADC (R R8) (R R11);
  MULX (A 2 24) (R R10) (R R12);
  ADC (R R10) (R R13);
  ADC (Im (0)) (R R12);
  ADD (R R9) (R RAX);
  ADC (R R11) (R RBX);
  ADC (R R13) (R RCX);
  ADC (Im (0)) (R R12);
  MOV (A 1 16) (R RDX);
  MULX (A 2 0) (R R8) (R R9);
  ADD (R RAX) (R R8);
  MOV (R R8) (A 0 16);
  MULX (A 2 8) (R R10) (R R11);
  ADC (R R10) (R R9);
  MULX (A 2 16) (R R8) (R R13);
  ADC (R R8) (R R11);
  MULX (A 2 24) (R R10) (R RAX);
  ADC (R R10) (R R13);
  ADC (Im (0)) (R RAX);
  ADD (R R9) (R RBX);
  ADC (R R11) (R RCX);
  ADC (R R13) (R R12);
  ADC (Im (0)) (R RAX);
  MOV (A 1 24) (R RDX);
  MULX (A 2 0) (R R8) (R R9);
  ADD (R RBX) (R R8);
  MOV (R R8) (A 0 24);
  MULX (A 2 8) (R R10) (R R11);
  ADC (R R10) (R R9);
  MULX (A 2 16) (R R8) (R R13);
  ADC (R R8) (R R11);
  MULX (A 2 24) (R R10) (R RBX);
  ADC (R R10) (R R13);
  ADC (Im (0)) (R RBX);
  ADD (R R9) (R RCX);
  MOV (R RCX) (A 0 32);
  ADC (R R11) (R R12);
  MOV (R R12) (A 0 40);
  ADC (R R13) (R RAX);
  MOV (R RAX) (A 0 48);
  ADC (Im (0)) (R RBX);
  MOV (R RBX) (A 0 56)
].

(** intmul_Fp255 (base), /repo/src/eltfp25519_1w_fullradix.c:937-993. *)
Definition asm_intmul_mulq : list instr := [
  MOV (A 2 0) (R R8);
  MOV (A 1 0) (R RAX);
  MULQ (R R8);
  MOV (R RAX) (A 0 0);
  MOV (R RDX) (R R15);
  MOV (A 1 8) (R RAX);
  MULQ (R R8);
  MOV (R RAX) (R R13);
  MOV (R RDX) (R R10);
  MOV (A 1 16) (R RAX);
  MULQ (R R8);
  MOV (R RAX) (R R14);
  MOV (R RDX) (R R11);
  MOV (A 1 24) (R RAX);
  MULQ (R R8);
  ADD (R R13) (R R15);
  ADC (R R14) (R R10);
  MOV (R R10) (A 0 16);
  ADC (R RAX) (R R11);
  MOV (R R11) (A 0 24);
  ADC (Im (0)) (R RDX);
  MOV (R RDX) (A 0 32);
  MOV (A 2 8) (R R8);
  MOV (A 1 0) (R RAX);
  MULQ (R R8);
  MOV (R RAX) (R R12);
  MOV (R RDX) (R R9);
  MOV (A 1 8) (R RAX);
  MULQ (R R8);
  MOV (R RAX) (R R13);
  MOV (R RDX) (R R10);
  MOV (A 1 16) (R RAX);
  MULQ (R R8);
  MOV (R RAX) (R R14);
  MOV (R RDX) (R R11);
  MOV (A 1 24) (R RAX);
  MULQ (R R8);
  ADD (R R12) (R R15);
  MOV (R R15) (A 0 8);
  ADC (R R13) (R R9);
  ADC (R R14) (R R10);
  ADC (R RAX) (R R11);
  ADC (Im (0)) (R RDX);
  ADC (A 0 16) (R R9);
  MOV (R R9) (R R15);
  ADC (A 0 24) (R R10);
  MOV (R R10) (A 0 24);
  ADC (A 0 32) (R R11);
  MOV (R R11) (A 0 32);
  ADC (Im (0)) (R RDX);
  MOV (R RDX) (A 0 40);
  MOV (A 2 16) (R R8);
  MOV (A 1 0) (R RAX);
  MULQ (R R8);
  MOV (R RAX) (R R12);
  MOV (R RDX) (R R9);
  MOV (A 1 8) (R RAX);
  MULQ (R R8);
  MOV (R RAX) (R R13);
  MOV (R RDX) (R R10);
  MOV (A 1 16) (R RAX);
  MULQ (R R8);
  MOV (R RAX) (R R14);
  MOV (R RDX) (R R11);
  MOV (A 1 24) (R RAX);
  MULQ (R R8);
  ADD (R R12) (R R15);
  MOV (R R15) (A 0 16);
  ADC (R R13) (R R9);
  ADC (R R14) (R R10);
  ADC (R RAX) (R R11);
  ADC (Im (0)) (R RDX);
  ADC (A 0 24) (R R9);
  MOV (R R9) (R R15);
  ADC (A 0 32) (R R10);
  MOV (R R10) (A 0 32);
  ADC (A 0 40) (R R11);
  MOV (R R11) (A 0 40);
  ADC (Im (0)) (R RDX);
  MOV (R RDX) (A 0 48);
  MOV (A 2 24) (R R8);
  MOV (A 1 0) (R RAX);
  MULQ (R R8);
  MOV (R RAX) (R R12);
  MOV (R RDX) (R R9);
  MOV (A 1 8) (R RAX);
  MULQ (R R8);
  MOV (R RAX) (R R13);
  MOV (R RDX) (R R10);
  MOV (A 1 16) (R RAX);
  MULQ (R R8);
  MOV (R RAX) (R R14);
  MOV (R RDX) (R R11);
  MOV (A 1 24) (R RAX);
  MULQ (R R8);
  ADD (R R12) (R R15);
  MOV (R R15) (A 0 24);
  ADC (R R13) (R R9);
  ADC (R R14) (R R10);
  ADC (R RAX) (R R11);
  ADC (Im (0)) (R RDX);
  ADC (A 0 32) (R R9);
  MOV (R R9) (A 0 32);
  ADC (A 0 40) (R R10);
  MOV (R R10) (A 0 40);
  ADC (A 0 48) (R R11);
  MOV (R R11) (A 0 48);
  ADC (Im (0)) (R RDX);
  MOV (R RDX) (A 0 56)
].

(** intsqr_Fp255 (BMI2+ADX), /repo/src/eltfp25519_1w_fullradix.c:1009-1046. *)
Definition asm_intsqr_mulxadx : list instr := [
  MOV (A 1 0) (R RDX);
  MULX (A 1 8) (R R8) (R R14);
  ZERO (R R15);
  MULX (A 1 16) (R R9) (R R10);
  ADCX (R R14) (R R9);
  MULX (A 1 24) (R RAX) (R RCX);
  ADCX (R RAX) (R R10);
  MOV (A 1 24) (R RDX);
  MULX (A 1 8) (R R11) (R R12);
  ADCX (R RCX) (R R11);
  MULX (A 1 16) (R RAX) (R R13);
  ADCX (R RAX) (R R12);
  MOV (A 1 8) (R RDX);
  ADCX (R R15) (R R13);
  MULX (A 1 16) (R RAX) (R RCX);
  MOV (Im (0)) (R R14);
  ADCX (R R15) (R R14);
  ZERO (R R15);
  ADOX (R RAX) (R R10);
  ADCX (R R8) (R R8);
  ADOX (R RCX) (R R11);
  ADCX (R R9) (R R9);
  ADOX (R R15) (R R12);
  ADCX (R R10) (R R10);
  ADOX (R R15) (R R13);
  ADCX (R R11) (R R11);
  ADOX (R R15) (R R14);
  ADCX (R R12) (R R12);
  ADCX (R R13) (R R13);
  ADCX (R R14) (R R14);
  MOV (A 1 0) (R RDX);
  MULX (R RDX) (R RAX) (R RCX);
  MOV (R RAX) (A 0 0);
  ADD (R RCX) (R R8);
  MOV (R R8) (A 0 8);
  MOV (A 1 8) (R RDX);
  MULX (R RDX) (R RAX) (R RCX);
  ADC (R RAX) (R R9);
  MOV (R R9) (A 0 16);
  ADC (R RCX) (R R10);
  MOV (R R10) (A 0 24);
  MOV (A 1 16) (R RDX);
  MULX (R RDX) (R RAX) (R RCX);
  ADC (R RAX) (R R11);
  MOV (R R11) (A 0 32);
  ADC (R RCX) (R R12);
  MOV (R R12) (A 0 40);
  MOV (A 1 24) (R RDX);
  MULX (R RDX) (R RAX) (R RCX);
  ADC (R RAX) (R R13);
  MOV (R R13) (A 0 48);
  ADC (R RCX) (R R14);
  MOV (R R14) (A 0 56)
].

(** intsqr_Fp255 (BMI2), /repo/src/eltfp25519_1w_fullradix.c:1050-1101. *)
Definition asm_intsqr_mulx : list instr := [
  MOV (A 1 8) (R RDX);
  MULX (A 1 0) (R R8) (R R9);
  MULX (A 1 16) (R R10) (R R11);
  MULX (A 1 24) (R RCX) (R R14);
  MOV (A 1 16) (R RDX);
  MULX (A 1 24) (R R12) (R R13);
  MULX (A 1 0) (R RAX) (R RDX);
  ADD (R RAX) (R R9);
  ADC (R RDX) (R R10);
  ADC (R RCX) (R R11);
  ADC (R R14) (R R12);
  ADC (Im (0)) (R R13);
  MOV (Im (0)) (R R14);
  ADC (Im (0)) (R R14);
  MOV (A 1 0) (R RDX);
  MULX (A 1 24) (R RAX) (R RCX);
  ADD (R RAX) (R R10);
  ADC (R RCX) (R R11);
  ADC (Im (0)) (R R12);
  ADC (Im (0)) (R R13);
  ADC (Im (0)) (R R14);
  SHLD (1) (R R13) (R R14);
  SHLD (1) (R R12) (R R13);
  SHLD (1) (R R11) (R R12);
  SHLD (1) (R R10) (R R11);
  SHLD (1) (R R9) (R R10);
  SHLD (1) (R R8) (R R9);
  SHL ((1)) (R R8);
  MULX (R RDX) (R RAX) (R RCX);
  MOV (R RAX) (A 0 0);
  ADD (R RCX) (R R8);
  MOV (R R8) (A 0 8);
  MOV (A 1 8) (R RDX);
  MULX (R RDX) (R RAX) (R RCX);
  ADC (R RAX) (R R9);
  MOV (R R9) (A 0 16);
  ADC (R RCX) (R R10);
  MOV (R R10) (A 0 24);
  MOV (A 1 16) (R RDX);
  MULX (R RDX) (R RAX) (R RCX);
  ADC (R RAX) (R R11);
  MOV (R R11) (A 0 32);
  ADC (R RCX) (R R12);
  MOV (R R12) (A 0 40);
  MOV (A 1 24) (R RDX);
  MULX (R RDX) (R RAX) (R RCX);
  ADC (R RAX) (R R13);
  MOV (R R13) (A 0 48);
  ADC (R RCX) (R R14);
  MOV (R R14) (A 0 56)
].

(** intsqr_Fp255 (base), /repo/src/eltfp25519_1w_fullradix.c:1105-1151. *)
Definition asm_intsqr_mulq : list instr := [
  MOV (A 1 0) (R R8);
  MOV (A 1 8) (R RAX);
  MULQ (R R8);
  MOV (R RAX) (R R9);
  MOV (R RDX) (R R10);
  MOV (A 1 16) (R RAX);
  MULQ (R R8);
  MOV (R RAX) (R R14);
  MOV (R RDX) (R R11);
  MOV (A 1 24) (R RAX);
  MULQ (R R8);
  MOV (R RAX) (R R15);
  MOV (R RDX) (R R12);
  MOV (A 1 24) (R R8);
  MOV (A 1 8) (R RAX);
  MULQ (R R8);
  MOV (R RAX) (R RCX);
  MOV (R RDX) (R R13);
  MOV (A 1 16) (R RAX);
  MULQ (R R8);
  ADD (R R14) (R R10);
  ADC (R R15) (R R11);
  MOV (Im (0)) (R R15);
  ADC (R RCX) (R R12);
  ADC (R RAX) (R R13);
  ADC (Im (0)) (R RDX);
  MOV (R RDX) (R R14);
  MOV (A 1 8) (R RAX);
  MULQ (A 1 16);
  ADD (R RAX) (R R11);
  ADC (R RDX) (R R12);
  ADC (Im (0)) (R R13);
  ADC (Im (0)) (R R14);
  ADC (Im (0)) (R R15);
  SHLD (1) (R R14) (R R15);
  MOV (R R15) (A 0 56);
  SHLD (1) (R R13) (R R14);
  MOV (R R14) (A 0 48);
  SHLD (1) (R R12) (R R13);
  MOV (R R13) (A 0 40);
  SHLD (1) (R R11) (R R12);
  MOV (R R12) (A 0 32);
  SHLD (1) (R R10) (R R11);
  MOV (R R11) (A 0 24);
  SHLD (1) (R R9) (R R10);
  MOV (R R10) (A 0 16);
  SHL ((1)) (R R9);
  MOV (R R9) (A 0 8);
  MOV (A 1 0) (R RAX);
  MULQ (R RAX);
  MOV (R RAX) (A 0 0);
  MOV (R RDX) (R R9);
  MOV (A 1 8) (R RAX);
  MULQ (R RAX);
  MOV (R RAX) (R R10);
  MOV (R RDX) (R R11);
  MOV (A 1 16) (R RAX);
  MULQ (R RAX);
  MOV (R RAX) (R R12);
  MOV (R RDX) (R R13);
  MOV (A 1 24) (R RAX);
  MULQ (R RAX);
  MOV (R RAX) (R R14);
  MOV (R RDX) (R R15);
  ADD (A 0 8) (R R9);
  MOV (R R9) (A 0 8);
  ADC (A 0 16) (R R10);
  MOV (R R10) (A 0 16);
  ADC (A 0 24) (R R11);
  MOV (R R11) (A 0 24);
  ADC (A 0 32) (R R12);
  MOV (R R12) (A 0 32);
  ADC (A 0 40) (R R13);
  MOV (R R13) (A 0 40);
  ADC (A 0 48) (R R14);
  MOV (R R14) (A 0 48);
  ADC (A 0 56) (R R15);
  MOV (R R15) (A 0 56)
].

(** reduce_Fp255 (BMI2+ADX), /repo/src/eltfp25519_1w_fullradix.c:1167-1185. *)
Definition asm_reduce_mulxadx : list instr := [
  MOV (Im (38)) (R RDX);
  MULX (A 1 32) (R R8) (R R10);
  ZERO (R RBX);
  ADOX (A 1 0) (R R8);
  MULX (A 1 40) (R R9) (R R11);
  ADCX (R R10) (R R9);
  ADOX (A 1 8) (R R9);
  MULX (A 1 48) (R R10) (R RAX);
  ADCX (R R11) (R R10);
  ADOX (A 1 16) (R R10);
  MULX (A 1 56) (R R11) (R RCX);
  ADCX (R RAX) (R R11);
  ADOX (A 1 24) (R R11);
  ADCX (R RBX) (R RCX);
  ADOX (R RBX) (R RCX);
  IMUL (R RDX) (R RCX);
  ADCX (R RCX) (R R8);
  ADCX (R RBX) (R R9);
  MOV (R R9) (A 0 8);
  ADCX (R RBX) (R R10);
  MOV (R R10) (A 0 16);
  ADCX (R RBX) (R R11);
  MOV (R R11) (A 0 24);
  MOV (Im (0)) (R RCX);
  CMOVC32 (R RDX) (R RCX);
  ADD (R RCX) (R R8);
  MOV (R R8) (A 0 0)
].

(** reduce_Fp255 (BMI2), /repo/src/eltfp25519_1w_fullradix.c:1189-1212. *)
Definition asm_reduce_mulx : list instr := [
  MOV (Im (38)) (R RDX);
  MULX (A 1 32) (R R8) (R R10);
  MULX (A 1 40) (R R9) (R R11);
  ADD (R R10) (R R9);
  MULX (A 1 48) (R R10) (R RAX);
  ADC (R R11) (R R10);
  MULX (A 1 56) (R R11) (R RCX);
  ADC (R RAX) (R R11);
  ADC (Im (0)) (R RCX);
  ADD (A 1 0) (R R8);
  ADC (A 1 8) (R R9);
  ADC (A 1 16) (R R10);
  ADC (A 1 24) (R R11);
  ADC (Im (0)) (R RCX);
  IMUL (R RDX) (R RCX);
  ADD (R RCX) (R R8);
  ADC (Im (0)) (R R9);
  MOV (R R9) (A 0 8);
  ADC (Im (0)) (R R10);
  MOV (R R10) (A 0 16);
  ADC (Im (0)) (R R11);
  MOV (R R11) (A 0 24);
  MOV (Im (0)) (R RCX);
  CMOVC32 (R RDX) (R RCX);
  ADD (R RCX) (R R8);
  MOV (R R8) (A 0 0)
].

(** reduce_Fp255 (base), /repo/src/eltfp25519_1w_fullradix.c:1216-1243. *)
Definition asm_reduce_mulq : list instr := [
  MOV (Im (38)) (R RAX);
  MULQ (A 1 32);
  MOV (R RAX) (R R8);
  MOV (R RDX) (R R9);
  MOV (Im (38)) (R RAX);
  MULQ (A 1 40);
  MOV (R RAX) (R R12);
  MOV (R RDX) (R R10);
  MOV (Im (38)) (R RAX);
  MULQ (A 1 48);
  MOV (R RAX) (R R13);
  MOV (R RDX) (R R11);
  MOV (Im (38)) (R RAX);
  MULQ (A 1 56);
  ADD (R R12) (R R9);
  ADC (R R13) (R R10);
  ADC (R RAX) (R R11);
  ADC (Im (0)) (R RDX);
  ADD (A 1 0) (R R8);
  ADC (A 1 8) (R R9);
  ADC (A 1 16) (R R10);
  ADC (A 1 24) (R R11);
  ADC (Im (0)) (R RDX);
  MOV (Im (38)) (R RAX);
  IMUL (R RAX) (R RDX);
  ADD (R RDX) (R R8);
  ADC (Im (0)) (R R9);
  MOV (R R9) (A 0 8);
  ADC (Im (0)) (R R10);
  MOV (R R10) (A 0 16);
  ADC (Im (0)) (R R11);
  MOV (R R11) (A 0 24);
  MOV (Im (0)) (R RDX);
  CMOVC (R RAX) (R RDX);
  ADD (R RDX) (R R8);
  MOV (R R8) (A 0 0)
].

(** add_Fp255 (ADX), /repo/src/eltfp25519_1w_fullradix.c:1259-1278. *)
Definition asm_add_adx : list instr := [
  MOV (Im (38)) (R RAX);
  ZERO (R RCX);
  MOV (A 2 0) (R R8);
  ADCX (A 1 0) (R R8);
  MOV (A 2 8) (R R9);
  ADCX (A 1 8) (R R9);
  MOV (A 2 16) (R R10);
  ADCX (A 1 16) (R R10);
  MOV (A 2 24) (R R11);
  ADCX (A 1 24) (R R11);
  CMOVC32 (R RAX) (R RCX);
  ZERO (R RAX);
  ADCX (R RCX) (R R8);
  ADCX (R RAX) (R R9);
  MOV (R R9) (A 0 8);
  ADCX (R RAX) (R R10);
  MOV (R R10) (A 0 16);
  ADCX (R RAX) (R R11);
  MOV (R R11) (A 0 24);
  MOV (Im (38)) (R RCX);
  CMOVC32 (R RCX) (R RAX);
  ADD (R RAX) (R R8);
  MOV (R R8) (A 0 0)
].

(** add_Fp255 (base), /repo/src/eltfp25519_1w_fullradix.c:1282-1300. *)
Definition asm_add_adc : list instr := [
  MOV (Im (38)) (R RAX);
  MOV (A 2 0) (R R8);
  ADD (A 1 0) (R R8);
  MOV (A 2 8) (R R9);
  ADC (A 1 8) (R R9);
  MOV (A 2 16) (R R10);
  ADC (A 1 16) (R R10);
  MOV (A 2 24) (R R11);
  ADC (A 1 24) (R R11);
  MOV (Im (0)) (R RCX);
  CMOVC32 (R RAX) (R RCX);
  ADD (R RCX) (R R8);
  ADC (Im (0)) (R R9);
  MOV (R R9) (A 0 8);
  ADC (Im (0)) (R R10);
  MOV (R R10) (A 0 16);
  ADC (Im (0)) (R R11);
  MOV (R R11) (A 0 24);
  MOV (Im (0)) (R RCX);
  CMOVC32 (R RAX) (R RCX);
  ADD (R RCX) (R R8);
  MOV (R R8) (A 0 0)
].

(** sub_Fp255, /repo/src/eltfp25519_1w_fullradix.c:1312-1330. *)
Definition asm_sub : list instr := [
  MOV (Im (38)) (R RAX);
  MOV (A 1 0) (R R8);
  SUB (A 2 0) (R R8);
  MOV (A 1 8) (R R9);
  SBB (A 2 8) (R R9);
  MOV (A 1 16) (R R10);
  SBB (A 2 16) (R R10);
  MOV (A 1 24) (R R11);
  SBB (A 2 24) (R R11);
  MOV (Im (0)) (R RCX);
  CMOVC32 (R RAX) (R RCX);
  SUB (R RCX) (R R8);
  SBB (Im (0)) (R R9);
  MOV (R R9) (A 0 8);
  SBB (Im (0)) (R R10);
  MOV (R R10) (A 0 16);
  SBB (Im (0)) (R R11);
  MOV (R R11) (A 0 24);
  MOV (Im (0)) (R RCX);
  CMOVC32 (R RAX) (R RCX);
  SUB (R RCX) (R R8);
  MOV (R R8) (A 0 0)
].

(** cmv_Fp255; operand %3 is an int, /repo/src/eltfp25519_1w_fullradix.c:1334-1354. *)
Definition asm_cmv : list instr := [
  TEST32 (D 3);
  MOV (A 1 0) (R RAX);
  CMOVNZ (A 2 0) (R RAX);
  MOV (R RAX) (A 0 0);
  MOV (A 1 8) (R RAX);
  CMOVNZ (A 2 8) (R RAX);
  MOV (R RAX) (A 0 8);
  MOV (A 1 16) (R RAX);
  CMOVNZ (A 2 16) (R RAX);
  MOV (R RAX) (A 0 16);
  MOV (A 1 24) (R RAX);
  CMOVNZ (A 2 24) (R RAX);
  MOV (R RAX) (A 0 24)
].

(** mula24_Fp255 (BMI2), /repo/src/eltfp25519_1w_fullradix.c:1524-1543. *)
Definition asm_mula24_mulx : list instr := [
  MOV (D 2) (R RDX);
  MULX (A 1 0) (R R8) (R R10);
  MULX (A 1 8) (R R9) (R R11);
  ADD (R R10) (R R9);
  MULX (A 1 16) (R R10) (R RAX);
  ADC (R R11) (R R10);
  MULX (A 1 24) (R R11) (R RCX);
  ADC (R RAX) (R R11);
  ADC (Im (0)) (R RCX);
  MOV (Im (38)) (R RDX);
  IMUL (R RDX) (R RCX);
  ADD (R RCX) (R R8);
  ADC (Im (0)) (R R9);
  MOV (R R9) (A 0 8);
  ADC (Im (0)) (R R10);
  MOV (R R10) (A 0 16);
  ADC (Im (0)) (R R11);
  MOV (R R11) (A 0 24);
  MOV (Im (0)) (R RCX);
  CMOVC32 (R RDX) (R RCX);
  ADD (R RCX) (R R8);
  MOV (R R8) (A 0 0)
].

(** mula24_Fp255 (base), /repo/src/eltfp25519_1w_fullradix.c:1548-1569. *)
Definition asm_mula24_mulq : list instr := [
  MOV (D 2) (R RAX);
  MULQ (A 1 0);
  MOV (R RAX) (R R8);
  MOV (R RDX) (R R9);
  MOV (D 2) (R RAX);
  MULQ (A 1 8);
  MOV (R RAX) (R R12);
  MOV (R RDX) (R R10);
  MOV (D 2) (R RAX);
  MULQ (A 1 16);
  MOV (R RAX) (R R13);
  MOV (R RDX) (R R11);
  MOV (D 2) (R RAX);
  MULQ (A 1 24);
  ADD (R R12) (R R9);
  ADC (R R13) (R R10);
  ADC (R RAX) (R R11);
  ADC (Im (0)) (R RDX);
  MOV (Im (38)) (R RAX);
  IMUL (R RAX) (R RDX);
  ADD (R RDX) (R R8);
  ADC (Im (0)) (R R9);
  MOV (R R9) (A 0 8);
  ADC (Im (0)) (R R10);
  MOV (R R10) (A 0 16);
  ADC (Im (0)) (R R11);
  MOV (R R11) (A 0 24);
  MOV (Im (0)) (R RDX);
  CMOVC (R RAX) (R RDX);
  ADD (R RDX) (R R8);
  MOV (R R8) (A 0 0)
].

(** carry part of ser_Fp255_1w_redradix, /repo/src/eltfp25519_1w_redradix.c:329-422. *)
Definition asm_ser_1w_redradix : list instr := [
  ZERO (R R8);
  ZERO (R R9);
  ZERO (R R10);
  ZERO (R R11);
  ZERO (R R12);
  MOV (A 1 0) (R RAX);
  ZERO (R RCX);
  ADD (R RAX) (R R8);
  ADC (R RCX) (R R9);
  ADC (Im (0)) (R R10);
  MOV (A 1 16) (R RAX);
  ZERO (R RCX);
  SHLD (26) (R RAX) (R RCX);
  SHL ((26)) (R RAX);
  ADD (R RAX) (R R8);
  ADC (R RCX) (R R9);
  ADC (Im (0)) (R R10);
  MOV (A 1 32) (R RAX);
  ZERO (R RCX);
  SHLD (51) (R RAX) (R RCX);
  SHL ((51)) (R RAX);
  ADD (R RAX) (R R8);
  ADC (R RCX) (R R9);
  ADC (Im (0)) (R R10);
  MOV (A 1 48) (R RAX);
  ZERO (R RCX);
  SHLD (13) (R RAX) (R RCX);
  SHL ((13)) (R RAX);
  ADD (R RAX) (R R9);
  ADC (R RCX) (R R10);
  ADC (Im (0)) (R R11);
  MOV (A 1 64) (R RAX);
  ZERO (R RCX);
  SHLD (38) (R RAX) (R RCX);
  SHL ((38)) (R RAX);
  ADD (R RAX) (R R9);
  ADC (R RCX) (R R10);
  ADC (Im (0)) (R R11);
  MOV (A 1 8) (R RAX);
  ZERO (R RCX);
  ADD (R RAX) (R R10);
  ADC (R RCX) (R R11);
  ADC (Im (0)) (R R12);
  MOV (A 1 24) (R RAX);
  ZERO (R RCX);
  SHLD (25) (R RAX) (R RCX);
  SHL ((25)) (R RAX);
  ADD (R RAX) (R R10);
  ADC (R RCX) (R R11);
  ADC (Im (0)) (R R12);
  MOV (A 1 40) (R RAX);
  ZERO (R RCX);
  SHLD (51) (R RAX) (R RCX);
  SHL ((51)) (R RAX);
  ADD (R RAX) (R R10);
  ADC (R RCX) (R R11);
  ADC (Im (0)) (R R12);
  MOV (A 1 56) (R RAX);
  ZERO (R RCX);
  SHLD (12) (R RAX) (R RCX);
  SHL ((12)) (R RAX);
  ADD (R RAX) (R R11);
  ADC (R RCX) (R R12);
  MOV (A 1 72) (R RAX);
  ZERO (R RCX);
  SHLD (38) (R RAX) (R RCX);
  SHL ((38)) (R RAX);
  ADD (R RAX) (R R11);
  ADC (R RCX) (R R12);
  IMUL3 (Im (38)) (R R12) (R RAX);
  ZERO (R RCX);
  ADD (R RAX) (R R8);
  ADC (R RCX) (R R9);
  MOV (R R8) (A 0 0);
  MOV (R R9) (A 0 8);
  MOV (R R10) (A 0 16);
  MOV (R R11) (A 0 24)
].

(** select_cmov_x64, /repo/src/ladder255.c:96-116. *)
Definition asm_select_cmov_x64 : list instr := [
  TEST (D 2);
  MOV (A 0 0) (R RAX);
  CMOVNZ (A 1 0) (R RAX);
  MOV (R RAX) (A 0 0);
  MOV (A 0 8) (R RAX);
  CMOVNZ (A 1 8) (R RAX);
  MOV (R RAX) (A 0 8);
  MOV (A 0 16) (R RAX);
  CMOVNZ (A 1 16) (R RAX);
  MOV (R RAX) (A 0 16);
  MOV (A 0 24) (R RAX);
  CMOVNZ (A 1 24) (R RAX);
  MOV (R RAX) (A 0 24)
].
