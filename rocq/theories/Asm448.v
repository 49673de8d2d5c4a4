(** Inline assembly of /repo/src transcribed by tools/asm2coq.py (one
    constructor per instruction, gas macros expanded).  Generated file. *)
From Coq Require Import ZArith List.
From Verif Require Import Uop X86.
Import ListNotations.
Open Scope Z_scope.

(** sub_Fp448, /repo/src/eltfp448_1w_fullradix.c:63-114. *)
Definition asm448_sub : list instr := [
  ZERO (R RAX);
  MOV (Im (4294967296)) (R RDX);
  MOV (A 1 0) (R R8);
  MOV (A 1 8) (R R9);
  MOV (A 1 16) (R R10);
  MOV (A 1 24) (R R11);
  MOV (A 1 32) (R R12);
  MOV (A 1 40) (R R13);
  MOV (A 1 48) (R R14);
  SUB (A 2 0) (R R8);
  SBB (A 2 8) (R R9);
  SBB (A 2 16) (R R10);
  SBB (A 2 24) (R R11);
  SBB (A 2 32) (R R12);
  SBB (A 2 40) (R R13);
  SBB (A 2 48) (R R14);
  MOV (Im (0)) (R RCX);
  CMOVC (R RDX) (R RCX);
  SBB (R RAX) (R R8);
  SBB (R RAX) (R R9);
  SBB (R RAX) (R R10);
  SBB (R RCX) (R R11);
  SBB (R RAX) (R R12);
  SBB (R RAX) (R R13);
  SBB (R RAX) (R R14);
  MOV (Im (0)) (R RCX);
  CMOVC (R RDX) (R RCX);
  SBB (R RAX) (R R8);
  SBB (R RAX) (R R9);
  SBB (R RAX) (R R10);
  SBB (R RCX) (R R11);
  SBB (R RAX) (R R12);
  SBB (R RAX) (R R13);
  SBB (R RAX) (R R14);
  MOV (R R8) (A 0 0);
  MOV (R R9) (A 0 8);
  MOV (R R10) (A 0 16);
  MOV (R R11) (A 0 24);
  MOV (R R12) (A 0 32);
  MOV (R R13) (A 0 40);
  MOV (R R14) (A 0 48)
].

(** cmv_Fp448; operand %3 is an int, /repo/src/eltfp448_1w_fullradix.c:118-150. *)
Definition asm448_cmv : list instr := [
  TEST32 (D 3);
  MOV (A 1 0) (R RAX);
  CMOVNZ (A 2 0) (R RAX);
  MOV (R RAX) (A 0 0);
  MOV (A 1 8) (R RAX);
  CMOVNZ (A 2 8) (R RAX);
  MOV (R RAX) (A 0 8);
  MOV (A 1 16) (R RAX);
  CMOVNZ (A 2 16) (R RAX);
  MOV (R RAX) (A 0 16);
  MOV (A 1 24) (R RAX);
  CMOVNZ (A 2 24) (R RAX);
  MOV (R RAX) (A 0 24);
  MOV (A 1 32) (R RAX);
  CMOVNZ (A 2 32) (R RAX);
  MOV (R RAX) (A 0 32);
  MOV (A 1 40) (R RAX);
  CMOVNZ (A 2 40) (R RAX);
  MOV (R RAX) (A 0 40);
  MOV (A 1 48) (R RAX);
  CMOVNZ (A 2 48) (R RAX);
  MOV (R RAX) (A 0 48)
].

(** intmul_Fp448 (BMI2+ADX), /repo/src/eltfp448_1w_fullradix.c:185-232. *)
Definition asm448_intmul_mulxadx : list instr := [
  MOV (A 1 0) (R RDX);
  ZERO (R RAX);
  MOV (Im (0)) (R R8);
  MULX (A 2 0) (R RAX) (R R9);
  MOV (R RAX) (A 0 0);
  MULX (A 2 8) (R RAX) (R R10);
  ADCX (R RAX) (R R9);
  MULX (A 2 16) (R RAX) (R R11);
  ADCX (R RAX) (R R10);
  MULX (A 2 24) (R RAX) (R R12);
  ADCX (R RAX) (R R11);
  MULX (A 2 32) (R RAX) (R R13);
  ADCX (R RAX) (R R12);
  MULX (A 2 40) (R RAX) (R R14);
  ADCX (R RAX) (R R13);
  MULX (A 2 48) (R RAX) (R R15);
  ADCX (R RAX) (R R14);
  ADCX (R R8) (R R15);
  MOV (A 1 8) (R RDX);
  ZERO (R RAX);
  MULX (A 2 0) (R RAX) (R R8);
  ADOX (R RAX) (R R9);
  ADCX (R R8) (R R10);
  MOV (R R9) (A 0 8);
  MULX (A 2 8) (R RAX) (R R8);
  ADOX (R RAX) (R R10);
  ADCX (R R8) (R R11);
  MOV (Im (0)) (R R9);
  MULX (A 2 16) (R RAX) (R R8);
  ADOX (R RAX) (R R11);
  ADCX (R R8) (R R12);
  MULX (A 2 24) (R RAX) (R R8);
  ADOX (R RAX) (R R12);
  ADCX (R R8) (R R13);
  MULX (A 2 32) (R RAX) (R R8);
  ADOX (R RAX) (R R13);
  ADCX (R R8) (R R14);
  MULX (A 2 40) (R RAX) (R R8);
  ADOX (R RAX) (R R14);
  ADCX (R R8) (R R15);
  MULX (A 2 48) (R RAX) (R R8);
  ADOX (R RAX) (R R15);
  ADCX (R R8) (R R9);
  MOV (Im (0)) (R RDX);
  ADOX (R RDX) (R R9);
  MOV (A 1 16) (R RDX);
  ZERO (R RAX);
  MULX (A 2 0) (R RAX) (R R8);
  ADOX (R RAX) (R R10);
  ADCX (R R8) (R R11);
  MOV (R R10) (A 0 16);
  MULX (A 2 8) (R RAX) (R R8);
  ADOX (R RAX) (R R11);
  ADCX (R R8) (R R12);
  MOV (Im (0)) (R R10);
  MULX (A 2 16) (R RAX) (R R8);
  ADOX (R RAX) (R R12);
  ADCX (R R8) (R R13);
  MULX (A 2 24) (R RAX) (R R8);
  ADOX (R RAX) (R R13);
  ADCX (R R8) (R R14);
  MULX (A 2 32) (R RAX) (R R8);
  ADOX (R RAX) (R R14);
  ADCX (R R8) (R R15);
  MULX (A 2 40) (R RAX) (R R8);
  ADOX (R RAX) (R R15);
  ADCX (R R8) (R R9);
  MULX (A 2 48) (R RAX) (R R8);
  ADOX (R RAX) (R R9);
  ADCX (R R8) (R R10);
  MOV (Im (0)) (R RDX);
  ADOX (R RDX) (R R10);
  MOV (A 1 24) (R RDX);
  ZERO (R RAX);
  MULX (A 2 0) (R RAX) (R R8);
  ADOX (R RAX) (R R11);
  ADCX (R R8) (R R12);
  MOV (R R11) (A 0 24);
  MULX (A 2 8) (R RAX) (R R8);
  ADOX (R RAX) (R R12);
  ADCX (R R8) (R R13);
  MOV (Im (0)) (R R11);
  MULX (A 2 16) (R RAX) (R R8);
  ADOX (R RAX) (R R13);
  ADCX (R R8) (R R14);
  MULX (A 2 24) (R RAX) (R R8);
  ADOX (R RAX) (R R14);
  ADCX (R R8) (R R15);
  MULX (A 2 32) (R RAX) (R R8);
  ADOX (R RAX) (R R15);
  ADCX (R R8) (R R9);
  MULX (A 2 40) (R RAX) (R R8);
  ADOX (R RAX) (R R9);
  ADCX (R R8) (R R10);
  MULX (A 2 48) (R RAX) (R R8);
  ADOX (R RAX) (R R10);
  ADCX (R R8) (R R11);
  MOV (Im (0)) (R RDX);
  ADOX (R RDX) (R R11);
  MOV (A 1 32) (R RDX);
  ZERO (R RAX);
  MULX (A 2 0) (R RAX) (R R8);
  ADOX (R RAX) (R R12);
  ADCX (R R8) (R R13);
  MOV (R R12) (A 0 32);
  MULX (A 2 8) (R RAX) (R R8);
  ADOX (R RAX) (R R13);
  ADCX (R R8) (R R14);
  MOV (Im (0)) (R R12);
  MULX (A 2 16) (R RAX) (R R8);
  ADOX (R RAX) (R R14);
  ADCX (R R8) (R R15);
  MULX (A 2 24) (R RAX) (R R8);
  ADOX (R RAX) (R R15);
  ADCX (R R8) (R R9);
  MULX (A 2 32) (R RAX) (R R8);
  ADOX (R RAX) (R R9);
  ADCX (R R8) (R R10);
  MULX (A 2 40) (R RAX) (R R8);
  ADOX (R RAX) (R R10);
  ADCX (R R8) (R R11);
  MULX (A 2 48) (R RAX) (R R8);
  ADOX (R RAX) (R R11);
  ADCX (R R8) (R R12);
  MOV (Im (0)) (R RDX);
  ADOX (R RDX) (R R12);
  MOV (A 1 40) (R RDX);
  ZERO (R RAX);
  MULX (A 2 0) (R RAX) (R R8);
  ADOX (R RAX) (R R13);
  ADCX (R R8) (R R14);
  MOV (R R13) (A 0 40);
  MULX (A 2 8) (R RAX) (R R8);
  ADOX (R RAX) (R R14);
  ADCX (R R8) (R R15);
  MOV (Im (0)) (R R13);
  MULX (A 2 16) (R RAX) (R R8);
  ADOX (R RAX) (R R15);
  ADCX (R R8) (R R9);
  MULX (A 2 24) (R RAX) (R R8);
  ADOX (R RAX) (R R9);
  ADCX (R R8) (R R10);
  MULX (A 2 32) (R RAX) (R R8);
  ADOX (R RAX) (R R10);
  ADCX (R R8) (R R11);
  MULX (A 2 40) (R RAX) (R R8);
  ADOX (R RAX) (R R11);
  ADCX (R R8) (R R12);
  MULX (A 2 48) (R RAX) (R R8);
  ADOX (R RAX) (R R12);
  ADCX (R R8) (R R13);
  MOV (Im (0)) (R RDX);
  ADOX (R RDX) (R R13);
  MOV (A 1 48) (R RDX);
  ZERO (R RAX);
  MULX (A 2 0) (R RAX) (R R8);
  ADOX (R RAX) (R R14);
  ADCX (R R8) (R R15);
  MOV (R R14) (A 0 48);
  MULX (A 2 8) (R RAX) (R R8);
  ADOX (R RAX) (R R15);
  ADCX (R R8) (R R9);
  MOV (Im (0)) (R R14);
  MULX (A 2 16) (R RAX) (R R8);
  ADOX (R RAX) (R R9);
  ADCX (R R8) (R R10);
  MULX (A 2 24) (R RAX) (R R8);
  ADOX (R RAX) (R R10);
  ADCX (R R8) (R R11);
  MULX (A 2 32) (R RAX) (R R8);
  ADOX (R RAX) (R R11);
  ADCX (R R8) (R R12);
  MULX (A 2 40) (R RAX) (R R8);
  ADOX (R RAX) (R R12);
  ADCX (R R8) (R R13);
  MULX (A 2 48) (R RAX) (R R8);
  ADOX (R RAX) (R R13);
  ADCX (R R8) (R R14);
  MOV (Im (0)) (R RDX);
  ADOX (R RDX) (R R14);
  MOV (R R15) (A 0 56);
  MOV (R R9) (A 0 64);
  MOV (R R10) (A 0 72);
  MOV (R R11) (A 0 80);
  MOV (R R12) (A 0 88);
  MOV (R R13) (A 0 96);
  MOV (R R14) (A 0 104)
].

(** intmul_Fp448 (BMI2), /repo/src/eltfp448_1w_fullradix.c:236-277. *)
Definition asm448_intmul_mulx : list instr := [
  MOV (A 1 0) (R RDX);
  MULX (A 2 0) (R RAX) (R R8);
  MOV (R RAX) (A 0 0);
  MULX (A 2 8) (R RAX) (R R9);
  ADD (R RAX) (R R8);
  MULX (A 2 16) (R RAX) (R R10);
  ADC (R RAX) (R R9);
  MULX (A 2 24) (R RAX) (R R11);
  ADC (R RAX) (R R10);
  MULX (A 2 32) (R RAX) (R R12);
  ADC (R RAX) (R R11);
  MULX (A 2 40) (R RAX) (R R13);
  ADC (R RAX) (R R12);
  MULX (A 2 48) (R RAX) (R R14);
  ADC (R RAX) (R R13);
  ADC (Im (0)) (R R14);
  MOV (A 1 8) (R RDX);
  MULX (A 2 0) (R RAX) (R RCX);
  ADD (R RAX) (R R8);
  MOV (R R8) (A 0 8);
  MULX (A 2 8) (R RAX) (R RBX);
  ADC (R RAX) (R R9);
  ADC (Im (0)) (R RBX);
  ADD (R RCX) (R R9);
  MULX (A 2 16) (R RAX) (R RCX);
  ADC (R RAX) (R R10);
  ADC (Im (0)) (R RCX);
  ADD (R RBX) (R R10);
  MULX (A 2 24) (R RAX) (R RBX);
  ADC (R RAX) (R R11);
  ADC (Im (0)) (R RBX);
  ADD (R RCX) (R R11);
  MULX (A 2 32) (R RAX) (R RCX);
  ADC (R RAX) (R R12);
  ADC (Im (0)) (R RCX);
  ADD (R RBX) (R R12);
  MULX (A 2 40) (R RAX) (R RBX);
  ADC (R RAX) (R R13);
  ADC (Im (0)) (R RBX);
  ADD (R RCX) (R R13);
  MULX (A 2 48) (R RAX) (R R8);
  ADC (R RAX) (R R14);
  ADC (Im (0)) (R R8);
  ADD (R RBX) (R R14);
  ADC (Im (0)) (R R8);
  MOV (A 1 16) (R RDX);
  MULX (A 2 0) (R RAX) (R RCX);
  ADD (R RAX) (R R9);
  MOV (R R9) (A 0 16);
  MULX (A 2 8) (R RAX) (R RBX);
  ADC (R RAX) (R R10);
  ADC (Im (0)) (R RBX);
  ADD (R RCX) (R R10);
  MULX (A 2 16) (R RAX) (R RCX);
  ADC (R RAX) (R R11);
  ADC (Im (0)) (R RCX);
  ADD (R RBX) (R R11);
  MULX (A 2 24) (R RAX) (R RBX);
  ADC (R RAX) (R R12);
  ADC (Im (0)) (R RBX);
  ADD (R RCX) (R R12);
  MULX (A 2 32) (R RAX) (R RCX);
  ADC (R RAX) (R R13);
  ADC (Im (0)) (R RCX);
  ADD (R RBX) (R R13);
  MULX (A 2 40) (R RAX) (R RBX);
  ADC (R RAX) (R R14);
  ADC (Im (0)) (R RBX);
  ADD (R RCX) (R R14);
  MULX (A 2 48) (R RAX) (R R9);
  ADC (R RAX) (R R8);
  ADC (Im (0)) (R R9);
  ADD (R RBX) (R R8);
  ADC (Im (0)) (R R9);
  MOV (A 1 24) (R RDX);
  MULX (A 2 0) (R RAX) (R RCX);
  ADD (R RAX) (R R10);
  MOV (R R10) (A 0 24);
  MULX (A 2 8) (R RAX) (R RBX);
  ADC (R RAX) (R R11);
  ADC (Im (0)) (R RBX);
  ADD (R RCX) (R R11);
  MULX (A 2 16) (R RAX) (R RCX);
  ADC (R RAX) (R R12);
  ADC (Im (0)) (R RCX);
  ADD (R RBX) (R R12);
  MULX (A 2 24) (R RAX) (R RBX);
  ADC (R RAX) (R R13);
  ADC (Im (0)) (R RBX);
  ADD (R RCX) (R R13);
  MULX (A 2 32) (R RAX) (R RCX);
  ADC (R RAX) (R R14);
  ADC (Im (0)) (R RCX);
  ADD (R RBX) (R R14);
  MULX (A 2 40) (R RAX) (R RBX);
  ADC (R RAX) (R R8);
  ADC (Im (0)) (R RBX);
  ADD (R RCX) (R R8);
  MULX (A 2 48) (R RAX) (R R10);
  ADC (R RAX) (R R9);
  ADC (Im (0)) (R R10);
  ADD (R RBX) (R R9);
  ADC (Im (0)) (R R10);
  MOV (A 1 32) (R RDX);
  MULX (A 2 0) (R RAX) (R RCX);
  ADD (R RAX) (R R11);
  MOV (R R11) (A 0 32);
  MULX (A 2 8) (R RAX) (R RBX);
  ADC (R RAX) (R R12);
  ADC (Im (0)) (R RBX);
  ADD (R RCX) (R R12);
  MULX (A 2 16) (R RAX) (R RCX);
  ADC (R RAX) (R R13);
  ADC (Im (0)) (R RCX);
  ADD (R RBX) (R R13);
  MULX (A 2 24) (R RAX) (R RBX);
  ADC (R RAX) (R R14);
  ADC (Im (0)) (R RBX);
  ADD (R RCX) (R R14);
  MULX (A 2 32) (R RAX) (R RCX);
  ADC (R RAX) (R R8);
  ADC (Im (0)) (R RCX);
  ADD (R RBX) (R R8);
  MULX (A 2 40) (R RAX) (R RBX);
  ADC (R RAX) (R R9);
  ADC (Im (0)) (R RBX);
  ADD (R RCX) (R R9);
  MULX (A 2 48) (R RAX) (R R11);
  ADC (R RAX) (R R10);
  ADC (Im (0)) (R R11);
  ADD (R RBX) (R R10);
  ADC (Im (0)) (R R11);
  MOV (A 1 40) (R RDX);
  MULX (A 2 0) (R RAX) (R RCX);
  ADD (R RAX) (R R12);
  MOV (R R12) (A 0 40);
  MULX (A 2 8) (R RAX) (R RBX);
  ADC (R RAX) (R R13);
  ADC (Im (0)) (R RBX);
  ADD (R RCX) (R R13);
  MULX (A 2 16) (R RAX) (R RCX);
  ADC (R RAX) (R R14);
  ADC (Im (0)) (R RCX);
  ADD (R RBX) (R R14);
  MULX (A 2 24) (R RAX) (R RBX);
  ADC (R RAX) (R R8);
  ADC (Im (0)) (R RBX);
  ADD (R RCX) (R R8);
  MULX (A 2 32) (R RAX) (R RCX);
  ADC (R RAX) (R R9);
  ADC (Im (0)) (R RCX);
  ADD (R RBX) (R R9);
  MULX (A 2 40) (R RAX) (R RBX);
  ADC (R RAX) (R R10);
  ADC (Im (0)) (R RBX);
  ADD (R RCX) (R R10);
  MULX (A 2 48) (R RAX) (R R12);
  ADC (R RAX) (R R11);
  ADC (Im (0)) (R R12);
  ADD (R RBX) (R R11);
  ADC (Im (0)) (R R12);
  MOV (A 1 48) (R RDX);
  MULX (A 2 0) (R RAX) (R RCX);
  ADD (R RAX) (R R13);
  MOV (R R13) (A 0 48);
  MULX (A 2 8) (R RAX) (R RBX);
  ADC (R RAX) (R R14);
  ADC (Im (0)) (R RBX);
  ADD (R RCX) (R R14);
  MULX (A 2 16) (R RAX) (R RCX);
  ADC (R RAX) (R R8);
  ADC (Im (0)) (R RCX);
  ADD (R RBX) (R R8);
  MULX (A 2 24) (R RAX) (R RBX);
  ADC (R RAX) (R R9);
  ADC (Im (0)) (R RBX);
  ADD (R RCX) (R R9);
  MULX (A 2 32) (R RAX) (R RCX);
  ADC (R RAX) (R R10);
  ADC (Im (0)) (R RCX);
  ADD (R RBX) (R R10);
  MULX (A 2 40) (R RAX) (R RBX);
  ADC (R RAX) (R R11);
  ADC (Im (0)) (R RBX);
  ADD (R RCX) (R R11);
  MULX (A 2 48) (R RAX) (R R13);
  ADC (R RAX) (R R12);
  ADC (Im (0)) (R R13);
  ADD (R RBX) (R R12);
  ADC (Im (0)) (R R13);
  MOV (R R14) (A 0 56);
  MOV (R R8) (A 0 64);
  MOV (R R9) (A 0 72);
  MOV (R R10) (A 0 80);
  MOV (R R11) (A 0 88);
  MOV (R R12) (A 0 96);
  MOV (R R13) (A 0 104)
].

(** intmul_Fp448 (base), /repo/src/eltfp448_1w_fullradix.c:281-321. *)
Definition asm448_intmul_mulq : list instr := [
  MOV (A 1 0) (R RCX);
  MOV (A 2 0) (R RAX);
  MULQ (R RCX);
  MOV (R RAX) (A 0 0);
  MOV (R RDX) (R R8);
  MOV (A 2 8) (R RAX);
  MULQ (R RCX);
  ADD (R RAX) (R R8);
  ADC (Im (0)) (R RDX);
  MOV (R RDX) (R R9);
  MOV (A 2 16) (R RAX);
  MULQ (R RCX);
  ADD (R RAX) (R R9);
  ADC (Im (0)) (R RDX);
  MOV (R RDX) (R R10);
  MOV (A 2 24) (R RAX);
  MULQ (R RCX);
  ADD (R RAX) (R R10);
  ADC (Im (0)) (R RDX);
  MOV (R RDX) (R R11);
  MOV (A 2 32) (R RAX);
  MULQ (R RCX);
  ADD (R RAX) (R R11);
  ADC (Im (0)) (R RDX);
  MOV (R RDX) (R R12);
  MOV (A 2 40) (R RAX);
  MULQ (R RCX);
  ADD (R RAX) (R R12);
  ADC (Im (0)) (R RDX);
  MOV (R RDX) (R R13);
  MOV (A 2 48) (R RAX);
  MULQ (R RCX);
  ADD (R RAX) (R R13);
  ADC (Im (0)) (R RDX);
  MOV (R RDX) (R R14);
  MOV (A 1 8) (R RCX);
  MOV (A 2 0) (R RAX);
  MULQ (R RCX);
  ADD (R RAX) (R R8);
  MOV (R R8) (A 0 8);
  MOV (R RDX) (R R8);
  ADC (Im (0)) (R R8);
  MOV (A 2 8) (R RAX);
  MULQ (R RCX);
  ADD (R RAX) (R R9);
  ADC (Im (0)) (R RDX);
  ADD (R R9) (R R8);
  MOV (R RDX) (R R9);
  ADC (Im (0)) (R R9);
  MOV (A 2 16) (R RAX);
  MULQ (R RCX);
  ADD (R RAX) (R R10);
  ADC (Im (0)) (R RDX);
  ADD (R R10) (R R9);
  MOV (R RDX) (R R10);
  ADC (Im (0)) (R R10);
  MOV (A 2 24) (R RAX);
  MULQ (R RCX);
  ADD (R RAX) (R R11);
  ADC (Im (0)) (R RDX);
  ADD (R R11) (R R10);
  MOV (R RDX) (R R11);
  ADC (Im (0)) (R R11);
  MOV (A 2 32) (R RAX);
  MULQ (R RCX);
  ADD (R RAX) (R R12);
  ADC (Im (0)) (R RDX);
  ADD (R R12) (R R11);
  MOV (R RDX) (R R12);
  ADC (Im (0)) (R R12);
  MOV (A 2 40) (R RAX);
  MULQ (R RCX);
  ADD (R RAX) (R R13);
  ADC (Im (0)) (R RDX);
  ADD (R R13) (R R12);
  MOV (R RDX) (R R13);
  ADC (Im (0)) (R R13);
  MOV (A 2 48) (R RAX);
  MULQ (R RCX);
  ADD (R RAX) (R R14);
  ADC (Im (0)) (R RDX);
  ADD (R R14) (R R13);
  MOV (R RDX) (R R14);
  ADC (Im (0)) (R R14);
  MOV (A 1 16) (R RCX);
  MOV (A 2 0) (R RAX);
  MULQ (R RCX);
  ADD (R RAX) (R R8);
  MOV (R R8) (A 0 16);
  MOV (R RDX) (R R8);
  ADC (Im (0)) (R R8);
  MOV (A 2 8) (R RAX);
  MULQ (R RCX);
  ADD (R RAX) (R R9);
  ADC (Im (0)) (R RDX);
  ADD (R R9) (R R8);
  MOV (R RDX) (R R9);
  ADC (Im (0)) (R R9);
  MOV (A 2 16) (R RAX);
  MULQ (R RCX);
  ADD (R RAX) (R R10);
  ADC (Im (0)) (R RDX);
  ADD (R R10) (R R9);
  MOV (R RDX) (R R10);
  ADC (Im (0)) (R R10);
  MOV (A 2 24) (R RAX);
  MULQ (R RCX);
  ADD (R RAX) (R R11);
  ADC (Im (0)) (R RDX);
  ADD (R R11) (R R10);
  MOV (R RDX) (R R11);
  ADC (Im (0)) (R R11);
  MOV (A 2 32) (R RAX);
  MULQ (R RCX);
  ADD (R RAX) (R R12);
  ADC (Im (0)) (R RDX);
  ADD (R R12) (R R11);
  MOV (R RDX) (R R12);
  ADC (Im (0)) (R R12);
  MOV (A 2 40) (R RAX);
  MULQ (R RCX);
  ADD (R RAX) (R R13);
  ADC (Im (0)) (R RDX);
  ADD (R R13) (R R12);
  MOV (R RDX) (R R13);
  ADC (Im (0)) (R R13);
  MOV (A 2 48) (R RAX);
  MULQ (R RCX);
  ADD (R RAX) (R R14);
  ADC (Im (0)) (R RDX);
  ADD (R R14) (R R13);
  MOV (R RDX) (R R14);
  ADC (Im (0)) (R R14);
  MOV (A 1 24) (R RCX);
  MOV (A 2 0) (R RAX);
  MULQ (R RCX);
  ADD (R RAX) (R R8);
  MOV (R R8) (A 0 24);
  MOV (R RDX) (R R8);
  ADC (Im (0)) (R R8);
  MOV (A 2 8) (R RAX);
  MULQ (R RCX);
  ADD (R RAX) (R R9);
  ADC (Im (0)) (R RDX);
  ADD (R R9) (R R8);
  MOV (R RDX) (R R9);
  ADC (Im (0)) (R R9);
  MOV (A 2 16) (R RAX);
  MULQ (R RCX);
  ADD (R RAX) (R R10);
  ADC (Im (0)) (R RDX);
  ADD (R R10) (R R9);
  MOV (R RDX) (R R10);
  ADC (Im (0)) (R R10);
  MOV (A 2 24) (R RAX);
  MULQ (R RCX);
  ADD (R RAX) (R R11);
  ADC (Im (0)) (R RDX);
  ADD (R R11) (R R10);
  MOV (R RDX) (R R11);
  ADC (Im (0)) (R R11);
  MOV (A 2 32) (R RAX);
  MULQ (R RCX);
  ADD (R RAX) (R R12);
  ADC (Im (0)) (R RDX);
  ADD (R R12) (R R11);
  MOV (R RDX) (R R12);
  ADC (Im (0)) (R R12);
  MOV (A 2 40) (R RAX);
  MULQ (R RCX);
  ADD (R RAX) (R R13);
  ADC (Im (0)) (R RDX);
  ADD (R R13) (R R12);
  MOV (R RDX) (R R13);
  ADC (Im (0)) (R R13);
  MOV (A 2 48) (R RAX);
  MULQ (R RCX);
  ADD (R RAX) (R R14);
  ADC (Im (0)) (R RDX);
  ADD (R R14) (R R13);
  MOV (R RDX) (R R14);
  ADC (Im (0)) (R R14);
  MOV (A 1 32) (R RCX);
  MOV (A 2 0) (R RAX);
  MULQ (R RCX);
  ADD (R RAX) (R R8);
  MOV (R R8) (A 0 32);
  MOV (R RDX) (R R8);
  ADC (Im (0)) (R R8);
  MOV (A 2 8) (R RAX);
  MULQ (R RCX);
  ADD (R RAX) (R R9);
  ADC (Im (0)) (R RDX);
  ADD (R R9) (R R8);
  MOV (R RDX) (R R9);
  ADC (Im (0)) (R R9);
  MOV (A 2 16) (R RAX);
  MULQ (R RCX);
  ADD (R RAX) (R R10);
  ADC (Im (0)) (R RDX);
  ADD (R R10) (R R9);
  MOV (R RDX) (R R10);
  ADC (Im (0)) (R R10);
  MOV (A 2 24) (R RAX);
  MULQ (R RCX);
  ADD (R RAX) (R R11);
  ADC (Im (0)) (R RDX);
  ADD (R R11) (R R10);
  MOV (R RDX) (R R11);
  ADC (Im (0)) (R R11);
  MOV (A 2 32) (R RAX);
  MULQ (R RCX);
  ADD (R RAX) (R R12);
  ADC (Im (0)) (R RDX);
  ADD (R R12) (R R11);
  MOV (R RDX) (R R12);
  ADC (Im (0)) (R R12);
  MOV (A 2 40) (R RAX);
  MULQ (R RCX);
  ADD (R RAX) (R R13);
  ADC (Im (0)) (R RDX);
  ADD (R R13) (R R12);
  MOV (R RDX) (R R13);
  ADC (Im (0)) (R R13);
  MOV (A 2 48) (R RAX);
  MULQ (R RCX);
  ADD (R RAX) (R R14);
  ADC (Im (0)) (R RDX);
  ADD (R R14) (R R13);
  MOV (R RDX) (R R14);
  ADC (Im (0)) (R R14);
  MOV (A 1 40) (R RCX);
  MOV (A 2 0) (R RAX);
  MULQ (R RCX);
  ADD (R RAX) (R R8);
  MOV (R R8) (A 0 40);
  MOV (R RDX) (R R8);
  ADC (Im (0)) (R R8);
  MOV (A 2 8) (R RAX);
  MULQ (R RCX);
  ADD (R RAX) (R R9);
  ADC (Im (0)) (R RDX);
  ADD (R R9) (R R8);
  MOV (R RDX) (R R9);
  ADC (Im (0)) (R R9);
  MOV (A 2 16) (R RAX);
  MULQ (R RCX);
  ADD (R RAX) (R R10);
  ADC (Im (0)) (R RDX);
  ADD (R R10) (R R9);
  MOV (R RDX) (R R10);
  ADC (Im (0)) (R R10);
  MOV (A 2 24) (R RAX);
  MULQ (R RCX);
  ADD (R RAX) (R R11);
  ADC (Im (0)) (R RDX);
  ADD (R R11) (R R10);
  MOV (R RDX) (R R11);
  ADC (Im (0)) (R R11);
  MOV (A 2 32) (R RAX);
  MULQ (R RCX);
  ADD (R RAX) (R R12);
  ADC (Im (0)) (R RDX);
  ADD (R R12) (R R11);
  MOV (R RDX) (R R12);
  ADC (Im (0)) (R R12);
  MOV (A 2 40) (R RAX);
  MULQ (R RCX);
  ADD (R RAX) (R R13);
  ADC (Im (0)) (R RDX);
  ADD (R R13) (R R12);
  MOV (R RDX) (R R13);
  ADC (Im (0)) (R R13);
  MOV (A 2 48) (R RAX);
  MULQ (R RCX);
  ADD (R RAX) (R R14);
  ADC (Im (0)) (R RDX);
  ADD (R R14) (R R13);
  MOV (R RDX) (R R14);
  ADC (Im (0)) (R R14);
  MOV (A 1 48) (R RCX);
  MOV (A 2 0) (R RAX);
  MULQ (R RCX);
  ADD (R RAX) (R R8);
  MOV (R R8) (A 0 48);
  MOV (R RDX) (R R8);
  ADC (Im (0)) (R R8);
  MOV (A 2 8) (R RAX);
  MULQ (R RCX);
  ADD (R RAX) (R R9);
  ADC (Im (0)) (R RDX);
  ADD (R R9) (R R8);
  MOV (R RDX) (R R9);
  ADC (Im (0)) (R R9);
  MOV (A 2 16) (R RAX);
  MULQ (R RCX);
  ADD (R RAX) (R R10);
  ADC (Im (0)) (R RDX);
  ADD (R R10) (R R9);
  MOV (R RDX) (R R10);
  ADC (Im (0)) (R R10);
  MOV (A 2 24) (R RAX);
  MULQ (R RCX);
  ADD (R RAX) (R R11);
  ADC (Im (0)) (R RDX);
  ADD (R R11) (R R10);
  MOV (R RDX) (R R11);
  ADC (Im (0)) (R R11);
  MOV (A 2 32) (R RAX);
  MULQ (R RCX);
  ADD (R RAX) (R R12);
  ADC (Im (0)) (R RDX);
  ADD (R R12) (R R11);
  MOV (R RDX) (R R12);
  ADC (Im (0)) (R R12);
  MOV (A 2 40) (R RAX);
  MULQ (R RCX);
  ADD (R RAX) (R R13);
  ADC (Im (0)) (R RDX);
  ADD (R R13) (R R12);
  MOV (R RDX) (R R13);
  ADC (Im (0)) (R R13);
  MOV (A 2 48) (R RAX);
  MULQ (R RCX);
  ADD (R RAX) (R R14);
  ADC (Im (0)) (R RDX);
  ADD (R R14) (R R13);
  MOV (R RDX) (R R14);
  ADC (Im (0)) (R R14);
  MOV (R R8) (A 0 56);
  MOV (R R9) (A 0 64);
  MOV (R R10) (A 0 72);
  MOV (R R11) (A 0 80);
  MOV (R R12) (A 0 88);
  MOV (R R13) (A 0 96);
  MOV (R R14) (A 0 104)
].

(** intsqr_Fp448 (BMI2+ADX), /repo/src/eltfp448_1w_fullradix.c:337-438. *)
Definition asm448_intsqr_mulxadx : list instr := [
  MOV (A 1 0) (R RDX);
  MULX (R RDX) (R RAX) (R RBX);
  MOV (A 1 8) (R RDX);
  MULX (R RDX) (R R8) (R R9);
  MOV (R RAX) (A 0 0);
  MOV (R RBX) (A 0 8);
  MOV (R R8) (A 0 16);
  MOV (R R9) (A 0 24);
  MOV (A 1 16) (R RDX);
  MULX (R RDX) (R R10) (R R11);
  MOV (A 1 24) (R RDX);
  MULX (R RDX) (R R12) (R R13);
  MOV (R R10) (A 0 32);
  MOV (R R11) (A 0 40);
  MOV (R R12) (A 0 48);
  MOV (R R13) (A 0 56);
  MOV (A 1 32) (R RDX);
  MULX (R RDX) (R RAX) (R RBX);
  MOV (A 1 40) (R RDX);
  MULX (R RDX) (R R8) (R R9);
  MOV (R RAX) (A 0 64);
  MOV (R RBX) (A 0 72);
  MOV (R R8) (A 0 80);
  MOV (R R9) (A 0 88);
  MOV (A 1 48) (R RDX);
  MULX (R RDX) (R R10) (R R11);
  MOV (R R10) (A 0 96);
  MOV (R R11) (A 0 104);
  MOV (A 1 0) (R RDX);
  MULX (A 1 8) (R R8) (R R9);
  ZERO (R R10);
  ADOX (R R8) (R R8);
  MULX (A 1 16) (R R10) (R R11);
  ADCX (R R10) (R R9);
  ADOX (R R9) (R R9);
  MULX (A 1 24) (R R12) (R R13);
  ADCX (R R12) (R R11);
  ADOX (R R11) (R R11);
  MULX (A 1 32) (R R14) (R RAX);
  ADCX (R R14) (R R13);
  ADOX (R R13) (R R13);
  MULX (A 1 40) (R R10) (R RBX);
  ADCX (R R10) (R RAX);
  ADOX (R RAX) (R RAX);
  MULX (A 1 48) (R R12) (R RCX);
  ADCX (R R12) (R RBX);
  ADOX (R RBX) (R RBX);
  MOV (A 1 24) (R RDX);
  MOV (Im (0)) (R R12);
  MOV (Im (0)) (R R10);
  MULX (A 1 32) (R R14) (R RDX);
  ADCX (R R14) (R RCX);
  ADOX (R RCX) (R RCX);
  ADCX (R R12) (R RDX);
  ADOX (R RDX) (R RDX);
  ADOX (R R12) (R R10);
  ADD (A 0 8) (R R8);
  MOV (R R8) (A 0 8);
  ADC (A 0 16) (R R9);
  MOV (R R9) (A 0 16);
  ADC (A 0 24) (R R11);
  MOV (R R11) (A 0 24);
  ADC (A 0 32) (R R13);
  MOV (R R13) (A 0 32);
  ADC (A 0 40) (R RAX);
  MOV (R RAX) (A 0 40);
  ADC (A 0 48) (R RBX);
  MOV (R RBX) (A 0 48);
  ADC (A 0 56) (R RCX);
  MOV (R RCX) (A 0 56);
  ADC (A 0 64) (R RDX);
  MOV (R RDX) (A 0 64);
  ADC (A 0 72) (R R10);
  MOV (R R10) (A 0 72);
  MOV (A 1 8) (R RDX);
  MULX (A 1 16) (R R8) (R R9);
  ZERO (R R10);
  ADOX (R R8) (R R8);
  MULX (A 1 24) (R R10) (R R11);
  ADCX (R R10) (R R9);
  ADOX (R R9) (R R9);
  MULX (A 1 32) (R R12) (R R13);
  ADCX (R R12) (R R11);
  ADOX (R R11) (R R11);
  MULX (A 1 40) (R R14) (R RAX);
  ADCX (R R14) (R R13);
  ADOX (R R13) (R R13);
  MULX (A 1 48) (R R10) (R RBX);
  ADCX (R R10) (R RAX);
  ADOX (R RAX) (R RAX);
  MOV (A 1 40) (R RDX);
  MULX (A 1 24) (R R12) (R RCX);
  ADCX (R R12) (R RBX);
  ADOX (R RBX) (R RBX);
  MULX (A 1 32) (R R14) (R RDX);
  ADCX (R R14) (R RCX);
  ADOX (R RCX) (R RCX);
  MOV (Im (0)) (R R12);
  MOV (Im (0)) (R R10);
  ADCX (R R12) (R RDX);
  ADOX (R RDX) (R RDX);
  ADOX (R R12) (R R10);
  ADD (A 0 24) (R R8);
  MOV (R R8) (A 0 24);
  ADC (A 0 32) (R R9);
  MOV (R R9) (A 0 32);
  ADC (A 0 40) (R R11);
  MOV (R R11) (A 0 40);
  ADC (A 0 48) (R R13);
  MOV (R R13) (A 0 48);
  ADC (A 0 56) (R RAX);
  MOV (R RAX) (A 0 56);
  ADC (A 0 64) (R RBX);
  MOV (R RBX) (A 0 64);
  ADC (A 0 72) (R RCX);
  MOV (R RCX) (A 0 72);
  ADC (A 0 80) (R RDX);
  MOV (R RDX) (A 0 80);
  ADC (A 0 88) (R R10);
  MOV (R R10) (A 0 88);
  MOV (A 1 16) (R RDX);
  MULX (A 1 24) (R R8) (R R9);
  ZERO (R R10);
  ADOX (R R8) (R R8);
  MULX (A 1 32) (R R10) (R R11);
  ADCX (R R10) (R R9);
  ADOX (R R9) (R R9);
  MULX (A 1 40) (R R12) (R R13);
  ADCX (R R12) (R R11);
  ADOX (R R11) (R R11);
  MULX (A 1 48) (R R14) (R RAX);
  ADCX (R R14) (R R13);
  ADOX (R R13) (R R13);
  MOV (A 1 48) (R RDX);
  MULX (A 1 24) (R R10) (R RBX);
  ADCX (R R10) (R RAX);
  ADOX (R RAX) (R RAX);
  MULX (A 1 32) (R R12) (R RCX);
  ADCX (R R12) (R RBX);
  ADOX (R RBX) (R RBX);
  MULX (A 1 40) (R R14) (R RDX);
  ADCX (R R14) (R RCX);
  ADOX (R RCX) (R RCX);
  MOV (Im (0)) (R R12);
  MOV (Im (0)) (R R10);
  ADCX (R R12) (R RDX);
  ADOX (R RDX) (R RDX);
  ADOX (R R12) (R R10);
  ADD (A 0 40) (R R8);
  MOV (R R8) (A 0 40);
  ADC (A 0 48) (R R9);
  MOV (R R9) (A 0 48);
  ADC (A 0 56) (R R11);
  MOV (R R11) (A 0 56);
  ADC (A 0 64) (R R13);
  MOV (R R13) (A 0 64);
  ADC (A 0 72) (R RAX);
  MOV (R RAX) (A 0 72);
  ADC (A 0 80) (R RBX);
  MOV (R RBX) (A 0 80);
  ADC (A 0 88) (R RCX);
  MOV (R RCX) (A 0 88);
  ADC (A 0 96) (R RDX);
  MOV (R RDX) (A 0 96);
  ADC (A 0 104) (R R10);
  MOV (R R10) (A 0 104)
].

(** intsqr_Fp448 (BMI2), /repo/src/eltfp448_1w_fullradix.c:442-569. *)
Definition asm448_intsqr_mulx : list instr := [
  MOV (A 1 0) (R RDX);
  MULX (R RDX) (R RAX) (R RBX);
  MOV (A 1 8) (R RDX);
  MULX (R RDX) (R R8) (R R9);
  MOV (R RAX) (A 0 0);
  MOV (R RBX) (A 0 8);
  MOV (R R8) (A 0 16);
  MOV (R R9) (A 0 24);
  MOV (A 1 16) (R RDX);
  MULX (R RDX) (R R10) (R R11);
  MOV (A 1 24) (R RDX);
  MULX (R RDX) (R R12) (R R13);
  MOV (R R10) (A 0 32);
  MOV (R R11) (A 0 40);
  MOV (R R12) (A 0 48);
  MOV (R R13) (A 0 56);
  MOV (A 1 32) (R RDX);
  MULX (R RDX) (R RAX) (R RBX);
  MOV (A 1 40) (R RDX);
  MULX (R RDX) (R R8) (R R9);
  MOV (R RAX) (A 0 64);
  MOV (R RBX) (A 0 72);
  MOV (R R8) (A 0 80);
  MOV (R R9) (A 0 88);
  MOV (A 1 48) (R RDX);
  MULX (R RDX) (R R10) (R R11);
  MOV (R R10) (A 0 96);
  MOV (R R11) (A 0 104);
  MOV (A 1 0) (R RDX);
  MULX (A 1 8) (R R8) (R R9);
  MULX (A 1 16) (R R10) (R R11);
  ADD (R R10) (R R9);
  MULX (A 1 24) (R R12) (R R13);
  ADC (R R12) (R R11);
  MULX (A 1 32) (R R14) (R RAX);
  ADC (R R14) (R R13);
  MULX (A 1 40) (R R10) (R RBX);
  ADC (R R10) (R RAX);
  MULX (A 1 48) (R R12) (R RCX);
  ADC (R R12) (R RBX);
  MOV (A 1 24) (R RDX);
  MULX (A 1 32) (R R14) (R RDX);
  ADC (R R14) (R RCX);
  ADC (Im (0)) (R RDX);
  ZERO (R R10);
  SHLD (1) (R RDX) (R R10);
  SHLD (1) (R RCX) (R RDX);
  SHLD (1) (R RBX) (R RCX);
  SHLD (1) (R RAX) (R RBX);
  SHLD (1) (R R13) (R RAX);
  SHLD (1) (R R11) (R R13);
  SHLD (1) (R R9) (R R11);
  SHLD (1) (R R8) (R R9);
  SHL ((1)) (R R8);
  ADD (A 0 8) (R R8);
  MOV (R R8) (A 0 8);
  ADC (A 0 16) (R R9);
  MOV (R R9) (A 0 16);
  ADC (A 0 24) (R R11);
  MOV (R R11) (A 0 24);
  ADC (A 0 32) (R R13);
  MOV (R R13) (A 0 32);
  ADC (A 0 40) (R RAX);
  MOV (R RAX) (A 0 40);
  ADC (A 0 48) (R RBX);
  MOV (R RBX) (A 0 48);
  ADC (A 0 56) (R RCX);
  MOV (R RCX) (A 0 56);
  ADC (A 0 64) (R RDX);
  MOV (R RDX) (A 0 64);
  ADC (A 0 72) (R R10);
  MOV (R R10) (A 0 72);
  MOV (A 1 8) (R RDX);
  MULX (A 1 16) (R R8) (R R9);
  MULX (A 1 24) (R R10) (R R11);
  ADD (R R10) (R R9);
  MULX (A 1 32) (R R12) (R R13);
  ADC (R R12) (R R11);
  MULX (A 1 40) (R R14) (R RAX);
  ADC (R R14) (R R13);
  MULX (A 1 48) (R R10) (R RBX);
  ADC (R R10) (R RAX);
  MOV (A 1 40) (R RDX);
  MULX (A 1 24) (R R12) (R RCX);
  ADC (R R12) (R RBX);
  MULX (A 1 32) (R R14) (R RDX);
  ADC (R R14) (R RCX);
  ADC (Im (0)) (R RDX);
  ZERO (R R10);
  SHLD (1) (R RDX) (R R10);
  SHLD (1) (R RCX) (R RDX);
  SHLD (1) (R RBX) (R RCX);
  SHLD (1) (R RAX) (R RBX);
  SHLD (1) (R R13) (R RAX);
  SHLD (1) (R R11) (R R13);
  SHLD (1) (R R9) (R R11);
  SHLD (1) (R R8) (R R9);
  SHL ((1)) (R R8);
  ADD (A 0 24) (R R8);
  MOV (R R8) (A 0 24);
  ADC (A 0 32) (R R9);
  MOV (R R9) (A 0 32);
  ADC (A 0 40) (R R11);
  MOV (R R11) (A 0 40);
  ADC (A 0 48) (R R13);
  MOV (R R13) (A 0 48);
  ADC (A 0 56) (R RAX);
  MOV (R RAX) (A 0 56);
  ADC (A 0 64) (R RBX);
  MOV (R RBX) (A 0 64);
  ADC (A 0 72) (R RCX);
  MOV (R RCX) (A 0 72);
  ADC (A 0 80) (R RDX);
  MOV (R RDX) (A 0 80);
  ADC (A 0 88) (R R10);
  MOV (R R10) (A 0 88);
  MOV (A 1 16) (R RDX);
  MULX (A 1 24) (R R8) (R R9);
  MULX (A 1 32) (R R10) (R R11);
  ADD (R R10) (R R9);
  MULX (A 1 40) (R R12) (R R13);
  ADC (R R12) (R R11);
  MULX (A 1 48) (R R14) (R RAX);
  ADC (R R14) (R R13);
  MOV (A 1 48) (R RDX);
  MULX (A 1 24) (R R10) (R RBX);
  ADC (R R10) (R RAX);
  MULX (A 1 32) (R R12) (R RCX);
  ADC (R R12) (R RBX);
  MULX (A 1 40) (R R14) (R RDX);
  ADC (R R14) (R RCX);
  ADC (Im (0)) (R RDX);
  ZERO (R R10);
  SHLD (1) (R RDX) (R R10);
  SHLD (1) (R RCX) (R RDX);
  SHLD (1) (R RBX) (R RCX);
  SHLD (1) (R RAX) (R RBX);
  SHLD (1) (R R13) (R RAX);
  SHLD (1) (R R11) (R R13);
  SHLD (1) (R R9) (R R11);
  SHLD (1) (R R8) (R R9);
  SHL ((1)) (R R8);
  ADD (A 0 40) (R R8);
  MOV (R R8) (A 0 40);
  ADC (A 0 48) (R R9);
  MOV (R R9) (A 0 48);
  ADC (A 0 56) (R R11);
  MOV (R R11) (A 0 56);
  ADC (A 0 64) (R R13);
  MOV (R R13) (A 0 64);
  ADC (A 0 72) (R RAX);
  MOV (R RAX) (A 0 72);
  ADC (A 0 80) (R RBX);
  MOV (R RBX) (A 0 80);
  ADC (A 0 88) (R RCX);
  MOV (R RCX) (A 0 88);
  ADC (A 0 96) (R RDX);
  MOV (R RDX) (A 0 96);
  ADC (A 0 104) (R R10);
  MOV (R R10) (A 0 104)
].

(** intsqr_Fp448 (base), /repo/src/eltfp448_1w_fullradix.c:573-681. *)
Definition asm448_intsqr_mulq : list instr := [
  MOV (A 1 0) (R RCX);
  MOV (A 1 8) (R RAX);
  MULQ (R RCX);
  MOV (R RAX) (R R8);
  MOV (R RDX) (R R9);
  MOV (A 1 16) (R RAX);
  MULQ (R RCX);
  ADD (R RAX) (R R9);
  ADC (Im (0)) (R RDX);
  MOV (R RDX) (R R10);
  MOV (A 1 24) (R RAX);
  MULQ (R RCX);
  ADD (R RAX) (R R10);
  ADC (Im (0)) (R RDX);
  MOV (R RDX) (R R11);
  MOV (A 1 32) (R RAX);
  MULQ (R RCX);
  ADD (R RAX) (R R11);
  ADC (Im (0)) (R RDX);
  MOV (R RDX) (R R12);
  MOV (A 1 40) (R RAX);
  MULQ (R RCX);
  ADD (R RAX) (R R12);
  ADC (Im (0)) (R RDX);
  MOV (R RDX) (R R13);
  MOV (A 1 48) (R RAX);
  MULQ (R RCX);
  ADD (R RAX) (R R13);
  ADC (Im (0)) (R RDX);
  MOV (R RDX) (R R14);
  MOV (A 1 24) (R RAX);
  MULQ (A 1 32);
  ADD (R RAX) (R R14);
  ADC (Im (0)) (R RDX);
  MOV (R RDX) (R R15);
  ZERO (R RCX);
  SHLD (1) (R R15) (R RCX);
  SHLD (1) (R R14) (R R15);
  SHLD (1) (R R13) (R R14);
  SHLD (1) (R R12) (R R13);
  SHLD (1) (R R11) (R R12);
  SHLD (1) (R R10) (R R11);
  SHLD (1) (R R9) (R R10);
  SHLD (1) (R R8) (R R9);
  SHL ((1)) (R R8);
  MOV (R RCX) (A 0 72);
  MOV (R R15) (A 0 64);
  MOV (R R14) (A 0 56);
  MOV (R R13) (A 0 48);
  MOV (R R12) (A 0 40);
  MOV (R R11) (A 0 32);
  MOV (R R10) (A 0 24);
  MOV (R R9) (A 0 16);
  MOV (R R8) (A 0 8);
  MOV (A 1 8) (R RCX);
  MOV (A 1 16) (R RAX);
  MULQ (R RCX);
  MOV (R RAX) (R R8);
  MOV (R RDX) (R R9);
  MOV (A 1 24) (R RAX);
  MULQ (R RCX);
  ADD (R RAX) (R R9);
  ADC (Im (0)) (R RDX);
  MOV (R RDX) (R R10);
  MOV (A 1 32) (R RAX);
  MULQ (R RCX);
  ADD (R RAX) (R R10);
  ADC (Im (0)) (R RDX);
  MOV (R RDX) (R R11);
  MOV (A 1 40) (R RAX);
  MULQ (R RCX);
  ADD (R RAX) (R R11);
  ADC (Im (0)) (R RDX);
  MOV (R RDX) (R R12);
  MOV (A 1 48) (R RAX);
  MULQ (R RCX);
  ADD (R RAX) (R R12);
  ADC (Im (0)) (R RDX);
  MOV (R RDX) (R R13);
  MOV (A 1 40) (R RCX);
  MOV (A 1 24) (R RAX);
  MULQ (R RCX);
  ADD (R RAX) (R R13);
  ADC (Im (0)) (R RDX);
  MOV (R RDX) (R R14);
  MOV (A 1 32) (R RAX);
  MULQ (R RCX);
  ADD (R RAX) (R R14);
  ADC (Im (0)) (R RDX);
  MOV (R RDX) (R R15);
  ZERO (R RCX);
  SHLD (1) (R R15) (R RCX);
  SHLD (1) (R R14) (R R15);
  SHLD (1) (R R13) (R R14);
  SHLD (1) (R R12) (R R13);
  SHLD (1) (R R11) (R R12);
  SHLD (1) (R R10) (R R11);
  SHLD (1) (R R9) (R R10);
  SHLD (1) (R R8) (R R9);
  SHL ((1)) (R R8);
  ADD (A 0 24) (R R8);
  MOV (R R8) (A 0 24);
  ADC (A 0 32) (R R9);
  MOV (R R9) (A 0 32);
  ADC (A 0 40) (R R10);
  MOV (R R10) (A 0 40);
  ADC (A 0 48) (R R11);
  MOV (R R11) (A 0 48);
  ADC (A 0 56) (R R12);
  MOV (R R12) (A 0 56);
  ADC (A 0 64) (R R13);
  MOV (R R13) (A 0 64);
  ADC (A 0 72) (R R14);
  MOV (R R14) (A 0 72);
  ADC (Im (0)) (R R15);
  MOV (R R15) (A 0 80);
  ADC (Im (0)) (R RCX);
  MOV (R RCX) (A 0 88);
  MOV (A 1 16) (R RCX);
  MOV (A 1 24) (R RAX);
  MULQ (R RCX);
  MOV (R RAX) (R R8);
  MOV (R RDX) (R R9);
  MOV (A 1 32) (R RAX);
  MULQ (R RCX);
  ADD (R RAX) (R R9);
  ADC (Im (0)) (R RDX);
  MOV (R RDX) (R R10);
  MOV (A 1 40) (R RAX);
  MULQ (R RCX);
  ADD (R RAX) (R R10);
  ADC (Im (0)) (R RDX);
  MOV (R RDX) (R R11);
  MOV (A 1 48) (R RAX);
  MULQ (R RCX);
  ADD (R RAX) (R R11);
  ADC (Im (0)) (R RDX);
  MOV (R RDX) (R R12);
  MOV (A 1 48) (R RCX);
  MOV (A 1 24) (R RAX);
  MULQ (R RCX);
  ADD (R RAX) (R R12);
  ADC (Im (0)) (R RDX);
  MOV (R RDX) (R R13);
  MOV (A 1 32) (R RAX);
  MULQ (R RCX);
  ADD (R RAX) (R R13);
  ADC (Im (0)) (R RDX);
  MOV (R RDX) (R R14);
  MOV (A 1 40) (R RAX);
  MULQ (R RCX);
  ADD (R RAX) (R R14);
  ADC (Im (0)) (R RDX);
  MOV (R RDX) (R R15);
  ZERO (R RCX);
  SHLD (1) (R R15) (R RCX);
  SHLD (1) (R R14) (R R15);
  SHLD (1) (R R13) (R R14);
  SHLD (1) (R R12) (R R13);
  SHLD (1) (R R11) (R R12);
  SHLD (1) (R R10) (R R11);
  SHLD (1) (R R9) (R R10);
  SHLD (1) (R R8) (R R9);
  SHL ((1)) (R R8);
  ADD (A 0 40) (R R8);
  MOV (R R8) (A 0 40);
  ADC (A 0 48) (R R9);
  MOV (R R9) (A 0 48);
  ADC (A 0 56) (R R10);
  MOV (R R10) (A 0 56);
  ADC (A 0 64) (R R11);
  MOV (R R11) (A 0 64);
  ADC (A 0 72) (R R12);
  MOV (R R12) (A 0 72);
  ADC (A 0 80) (R R13);
  MOV (R R13) (A 0 80);
  ADC (A 0 88) (R R14);
  MOV (R R14) (A 0 88);
  ADC (Im (0)) (R R15);
  MOV (R R15) (A 0 96);
  ADC (Im (0)) (R RCX);
  MOV (R RCX) (A 0 104);
  MOV (A 1 0) (R RAX);
  MULQ (R RAX);
  MOV (R RAX) (R R8);
  MOV (R RDX) (R R9);
  MOV (A 1 8) (R RAX);
  MULQ (R RAX);
  MOV (R RAX) (R R10);
  MOV (R RDX) (R R11);
  MOV (A 1 16) (R RAX);
  MULQ (R RAX);
  MOV (R RAX) (R R12);
  MOV (R RDX) (R R13);
  MOV (A 1 24) (R RAX);
  MULQ (R RAX);
  MOV (R RAX) (R R14);
  MOV (R RDX) (R R15);
  ZERO (R RCX);
  MOV (R R8) (A 0 0);
  ADD (A 0 8) (R R9);
  MOV (R R9) (A 0 8);
  ADC (A 0 16) (R R10);
  MOV (R R10) (A 0 16);
  ADC (A 0 24) (R R11);
  MOV (R R11) (A 0 24);
  ADC (A 0 32) (R R12);
  MOV (R R12) (A 0 32);
  ADC (A 0 40) (R R13);
  MOV (R R13) (A 0 40);
  ADC (A 0 48) (R R14);
  MOV (R R14) (A 0 48);
  ADC (A 0 56) (R R15);
  MOV (R R15) (A 0 56);
  SETC (R RCX);
  MOV (A 1 32) (R RAX);
  MULQ (R RAX);
  MOV (R RAX) (R R8);
  MOV (R RDX) (R R9);
  MOV (A 1 40) (R RAX);
  MULQ (R RAX);
  MOV (R RAX) (R R10);
  MOV (R RDX) (R R11);
  MOV (A 1 48) (R RAX);
  MULQ (R RAX);
  MOV (R RAX) (R R12);
  MOV (R RDX) (R R13);
  BT0 (R RCX);
  ADC (A 0 64) (R R8);
  MOV (R R8) (A 0 64);
  ADC (A 0 72) (R R9);
  MOV (R R9) (A 0 72);
  ADC (A 0 80) (R R10);
  MOV (R R10) (A 0 80);
  ADC (A 0 88) (R R11);
  MOV (R R11) (A 0 88);
  ADC (A 0 96) (R R12);
  MOV (R R12) (A 0 96);
  ADC (A 0 104) (R R13);
  MOV (R R13) (A 0 104)
].

(** reduce_Fp448 (ADX), /repo/src/eltfp448_1w_fullradix.c:697-775. *)
Definition asm448_reduce_adx : list instr := [
  MOV (A 1 80) (R RAX);
  MOV (R RAX) (R R10);
  MOV (Im (18446744069414584320)) (R R8);
  AND (R R8) (R R10);
  MOV (Im (0)) (R R14);
  MOV (A 1 104) (R R13);
  SHLD (1) (R R13) (R R14);
  MOV (A 1 96) (R R12);
  SHLD (1) (R R12) (R R13);
  MOV (A 1 88) (R R11);
  SHLD (1) (R R11) (R R12);
  MOV (A 1 72) (R R9);
  SHLD (1) (R R10) (R R11);
  MOV (A 1 64) (R R8);
  SHL ((1)) (R R10);
  MOV (Im (4294967295)) (R R15);
  AND (R R15) (R RAX);
  OR (R RAX) (R R10);
  MOV (A 1 56) (R R15);
  ZERO (R RAX);
  ADCX (A 1 0) (R R15);
  MOV (R R15) (A 0 0);
  MOV (A 1 56) (R R15);
  ADCX (A 1 8) (R R8);
  MOV (R R8) (A 0 8);
  MOV (A 1 64) (R R8);
  ADCX (A 1 16) (R R9);
  MOV (R R9) (A 0 16);
  MOV (A 1 72) (R R9);
  ADCX (A 1 24) (R R10);
  MOV (R R10) (A 0 24);
  MOV (A 1 80) (R R10);
  ADCX (A 1 32) (R R11);
  MOV (R R11) (A 0 32);
  MOV (A 1 88) (R R11);
  ADCX (A 1 40) (R R12);
  MOV (R R12) (A 0 40);
  MOV (A 1 96) (R R12);
  ADCX (A 1 48) (R R13);
  MOV (R R13) (A 0 48);
  MOV (A 1 104) (R R13);
  ADCX (R RAX) (R R14);
  MOV (R R10) (R RAX);
  SHRD (32) (R R11) (R R10);
  SHRD (32) (R R12) (R R11);
  SHRD (32) (R R13) (R R12);
  SHRD (32) (R R15) (R R13);
  SHRD (32) (R R8) (R R15);
  SHRD (32) (R R9) (R R8);
  SHRD (32) (R RAX) (R R9);
  ZERO (R RAX);
  ADCX (A 0 0) (R R10);
  ADCX (A 0 8) (R R11);
  ADCX (A 0 16) (R R12);
  ADCX (A 0 24) (R R13);
  ADCX (A 0 32) (R R15);
  ADCX (A 0 40) (R R8);
  ADCX (A 0 48) (R R9);
  ADCX (R RAX) (R R14);
  MOV (R R14) (R RAX);
  SHL ((32)) (R RAX);
  CLC;
  ADCX (R R14) (R R10);
  MOV (Im (0)) (R R14);
  ADCX (R R14) (R R11);
  ADCX (R R14) (R R12);
  ADCX (R RAX) (R R13);
  ADCX (R R14) (R R15);
  ADCX (R R14) (R R8);
  ADCX (R R14) (R R9);
  ADCX (R R14) (R R14);
  MOV (R R14) (R RAX);
  SHL ((32)) (R RAX);
  CLC;
  ADCX (R R14) (R R10);
  MOV (R R10) (A 0 0);
  MOV (Im (0)) (R R14);
  ADCX (R R14) (R R11);
  MOV (R R11) (A 0 8);
  ADCX (R R14) (R R12);
  MOV (R R12) (A 0 16);
  ADCX (R RAX) (R R13);
  MOV (R R13) (A 0 24);
  ADCX (R R14) (R R15);
  MOV (R R15) (A 0 32);
  ADCX (R R14) (R R8);
  MOV (R R8) (A 0 40);
  ADCX (R R14) (R R9);
  MOV (R R9) (A 0 48)
].

(** reduce_Fp448 (base), /repo/src/eltfp448_1w_fullradix.c:779-853. *)
Definition asm448_reduce_leg : list instr := [
  MOV (A 1 80) (R RAX);
  MOV (R RAX) (R R10);
  MOV (Im (18446744069414584320)) (R R8);
  AND (R R8) (R R10);
  MOV (Im (0)) (R R14);
  MOV (A 1 104) (R R13);
  SHLD (1) (R R13) (R R14);
  MOV (A 1 96) (R R12);
  SHLD (1) (R R12) (R R13);
  MOV (A 1 88) (R R11);
  SHLD (1) (R R11) (R R12);
  MOV (A 1 72) (R R9);
  SHLD (1) (R R10) (R R11);
  MOV (A 1 64) (R R8);
  SHL ((1)) (R R10);
  MOV (Im (4294967295)) (R R15);
  AND (R R15) (R RAX);
  OR (R RAX) (R R10);
  MOV (A 1 56) (R R15);
  ADD (A 1 0) (R R15);
  MOV (R R15) (A 0 0);
  MOV (A 1 56) (R R15);
  ADC (A 1 8) (R R8);
  MOV (R R8) (A 0 8);
  MOV (A 1 64) (R R8);
  ADC (A 1 16) (R R9);
  MOV (R R9) (A 0 16);
  MOV (A 1 72) (R R9);
  ADC (A 1 24) (R R10);
  MOV (R R10) (A 0 24);
  MOV (A 1 80) (R R10);
  ADC (A 1 32) (R R11);
  MOV (R R11) (A 0 32);
  MOV (A 1 88) (R R11);
  ADC (A 1 40) (R R12);
  MOV (R R12) (A 0 40);
  MOV (A 1 96) (R R12);
  ADC (A 1 48) (R R13);
  MOV (R R13) (A 0 48);
  MOV (A 1 104) (R R13);
  ADC (Im (0)) (R R14);
  MOV (R R10) (R RAX);
  SHRD (32) (R R11) (R R10);
  SHRD (32) (R R12) (R R11);
  SHRD (32) (R R13) (R R12);
  SHRD (32) (R R15) (R R13);
  SHRD (32) (R R8) (R R15);
  SHRD (32) (R R9) (R R8);
  SHRD (32) (R RAX) (R R9);
  ADD (A 0 0) (R R10);
  ADC (A 0 8) (R R11);
  ADC (A 0 16) (R R12);
  ADC (A 0 24) (R R13);
  ADC (A 0 32) (R R15);
  ADC (A 0 40) (R R8);
  ADC (A 0 48) (R R9);
  ADC (Im (0)) (R R14);
  MOV (R R14) (R RAX);
  SHL ((32)) (R RAX);
  ADD (R R14) (R R10);
  MOV (Im (0)) (R R14);
  ADC (Im (0)) (R R11);
  ADC (Im (0)) (R R12);
  ADC (R RAX) (R R13);
  ADC (Im (0)) (R R15);
  ADC (Im (0)) (R R8);
  ADC (Im (0)) (R R9);
  ADC (Im (0)) (R R14);
  MOV (R R14) (R RAX);
  SHL ((32)) (R RAX);
  ADD (R R14) (R R10);
  MOV (R R10) (A 0 0);
  ADC (Im (0)) (R R11);
  MOV (R R11) (A 0 8);
  ADC (Im (0)) (R R12);
  MOV (R R12) (A 0 16);
  ADC (R RAX) (R R13);
  MOV (R R13) (A 0 24);
  ADC (Im (0)) (R R15);
  MOV (R R15) (A 0 32);
  ADC (Im (0)) (R R8);
  MOV (R R8) (A 0 40);
  ADC (Im (0)) (R R9);
  MOV (R R9) (A 0 48)
].

(** add_Fp448 (ADX), /repo/src/eltfp448_1w_fullradix.c:937-988. *)
Definition asm448_add_adx : list instr := [
  ZERO (R RAX);
  MOV (Im (4294967296)) (R RDX);
  MOV (A 2 0) (R R8);
  MOV (A 2 8) (R R9);
  MOV (A 2 16) (R R10);
  MOV (A 2 24) (R R11);
  MOV (A 2 32) (R R12);
  MOV (A 2 40) (R R13);
  MOV (A 2 48) (R R14);
  ADCX (A 1 0) (R R8);
  ADCX (A 1 8) (R R9);
  ADCX (A 1 16) (R R10);
  ADCX (A 1 24) (R R11);
  ADCX (A 1 32) (R R12);
  ADCX (A 1 40) (R R13);
  ADCX (A 1 48) (R R14);
  MOV (Im (0)) (R RCX);
  CMOVC (R RDX) (R RCX);
  ADCX (R RAX) (R R8);
  ADCX (R RAX) (R R9);
  ADCX (R RAX) (R R10);
  ADCX (R RCX) (R R11);
  ADCX (R RAX) (R R12);
  ADCX (R RAX) (R R13);
  ADCX (R RAX) (R R14);
  MOV (Im (0)) (R RCX);
  CMOVC (R RDX) (R RCX);
  ADCX (R RAX) (R R8);
  ADCX (R RAX) (R R9);
  ADCX (R RAX) (R R10);
  ADCX (R RCX) (R R11);
  ADCX (R RAX) (R R12);
  ADCX (R RAX) (R R13);
  ADCX (R RAX) (R R14);
  MOV (R R8) (A 0 0);
  MOV (R R9) (A 0 8);
  MOV (R R10) (A 0 16);
  MOV (R R11) (A 0 24);
  MOV (R R12) (A 0 32);
  MOV (R R13) (A 0 40);
  MOV (R R14) (A 0 48)
].

(** add_Fp448 (base), /repo/src/eltfp448_1w_fullradix.c:992-1043. *)
Definition asm448_add_adc : list instr := [
  ZERO (R RAX);
  MOV (Im (4294967296)) (R RDX);
  MOV (A 2 0) (R R8);
  MOV (A 2 8) (R R9);
  MOV (A 2 16) (R R10);
  MOV (A 2 24) (R R11);
  MOV (A 2 32) (R R12);
  MOV (A 2 40) (R R13);
  MOV (A 2 48) (R R14);
  ADD (A 1 0) (R R8);
  ADC (A 1 8) (R R9);
  ADC (A 1 16) (R R10);
  ADC (A 1 24) (R R11);
  ADC (A 1 32) (R R12);
  ADC (A 1 40) (R R13);
  ADC (A 1 48) (R R14);
  MOV (Im (0)) (R RCX);
  CMOVC (R RDX) (R RCX);
  ADC (R RAX) (R R8);
  ADC (R RAX) (R R9);
  ADC (R RAX) (R R10);
  ADC (R RCX) (R R11);
  ADC (R RAX) (R R12);
  ADC (R RAX) (R R13);
  ADC (R RAX) (R R14);
  MOV (Im (0)) (R RCX);
  CMOVC (R RDX) (R RCX);
  ADC (R RAX) (R R8);
  ADC (R RAX) (R R9);
  ADC (R RAX) (R R10);
  ADC (R RCX) (R R11);
  ADC (R RAX) (R R12);
  ADC (R RAX) (R R13);
  ADC (R RAX) (R R14);
  MOV (R R8) (A 0 0);
  MOV (R R9) (A 0 8);
  MOV (R R10) (A 0 16);
  MOV (R R11) (A 0 24);
  MOV (R R12) (A 0 32);
  MOV (R R13) (A 0 40);
  MOV (R R14) (A 0 48)
].

(** mula24_Fp448 (BMI2), /repo/src/eltfp448_1w_fullradix.c:1146-1182. *)
Definition asm448_mula24_mulx : list instr := [
  MOV (D 2) (R RDX);
  MULX (A 1 0) (R RCX) (R R8);
  MULX (A 1 8) (R RAX) (R R9);
  ADD (R RAX) (R R8);
  MULX (A 1 16) (R RAX) (R R10);
  ADC (R RAX) (R R9);
  MULX (A 1 24) (R RAX) (R R11);
  ADC (R RAX) (R R10);
  MULX (A 1 32) (R RAX) (R R12);
  ADC (R RAX) (R R11);
  MULX (A 1 40) (R RAX) (R R13);
  ADC (R RAX) (R R12);
  MULX (A 1 48) (R RAX) (R RDX);
  ADC (R RAX) (R R13);
  ADC (Im (0)) (R RDX);
  MOV (R RDX) (R RAX);
  SHL ((32)) (R RAX);
  ADD (R RDX) (R RCX);
  MOV (Im (0)) (R RDX);
  ADC (Im (0)) (R R8);
  ADC (Im (0)) (R R9);
  ADC (R RAX) (R R10);
  ADC (Im (0)) (R R11);
  ADC (Im (0)) (R R12);
  ADC (Im (0)) (R R13);
  ADC (Im (0)) (R RDX);
  MOV (R RDX) (R RAX);
  SHL ((32)) (R RAX);
  ADD (R RDX) (R RCX);
  MOV (R RCX) (A 0 0);
  ADC (Im (0)) (R R8);
  MOV (R R8) (A 0 8);
  ADC (Im (0)) (R R9);
  MOV (R R9) (A 0 16);
  ADC (R RAX) (R R10);
  MOV (R R10) (A 0 24);
  ADC (Im (0)) (R R11);
  MOV (R R11) (A 0 32);
  ADC (Im (0)) (R R12);
  MOV (R R12) (A 0 40);
  ADC (Im (0)) (R R13);
  MOV (R R13) (A 0 48)
].

(** mula24_Fp448 (base), /repo/src/eltfp448_1w_fullradix.c:1187-1229. *)
Definition asm448_mula24_mulq : list instr := [
  MOV (D 2) (R R15);
  MOV (A 1 0) (R RAX);
  MULQ (R R15);
  MOV (R RAX) (R RCX);
  MOV (R RDX) (R R8);
  MOV (A 1 8) (R RAX);
  MULQ (R R15);
  ADD (R RAX) (R R8);
  ADC (Im (0)) (R RDX);
  MOV (R RDX) (R R9);
  MOV (A 1 16) (R RAX);
  MULQ (R R15);
  ADD (R RAX) (R R9);
  ADC (Im (0)) (R RDX);
  MOV (R RDX) (R R10);
  MOV (A 1 24) (R RAX);
  MULQ (R R15);
  ADD (R RAX) (R R10);
  ADC (Im (0)) (R RDX);
  MOV (R RDX) (R R11);
  MOV (A 1 32) (R RAX);
  MULQ (R R15);
  ADD (R RAX) (R R11);
  ADC (Im (0)) (R RDX);
  MOV (R RDX) (R R12);
  MOV (A 1 40) (R RAX);
  MULQ (R R15);
  ADD (R RAX) (R R12);
  ADC (Im (0)) (R RDX);
  MOV (R RDX) (R R13);
  MOV (A 1 48) (R RAX);
  MULQ (R R15);
  ADD (R RAX) (R R13);
  ADC (Im (0)) (R RDX);
  MOV (R RDX) (R RAX);
  SHL ((32)) (R RAX);
  ADD (R RDX) (R RCX);
  MOV (Im (0)) (R RDX);
  ADC (Im (0)) (R R8);
  ADC (Im (0)) (R R9);
  ADC (R RAX) (R R10);
  ADC (Im (0)) (R R11);
  ADC (Im (0)) (R R12);
  ADC (Im (0)) (R R13);
  ADC (Im (0)) (R RDX);
  MOV (R RDX) (R RAX);
  SHL ((32)) (R RAX);
  ADD (R RDX) (R RCX);
  MOV (R RCX) (A 0 0);
  ADC (Im (0)) (R R8);
  MOV (R R8) (A 0 8);
  ADC (Im (0)) (R R9);
  MOV (R R9) (A 0 16);
  ADC (R RAX) (R R10);
  MOV (R R10) (A 0 24);
  ADC (Im (0)) (R R11);
  MOV (R R11) (A 0 32);
  ADC (Im (0)) (R R12);
  MOV (R R12) (A 0 40);
  ADC (Im (0)) (R R13);
  MOV (R R13) (A 0 48)
].
