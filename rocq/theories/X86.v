(** x86-64 instructions used by the inline assembly blocks of /repo/src
    (eltfp25519_1w_fullradix.c, eltfp448_1w_fullradix.c,
    eltfp25519_1w_redradix.c:329-421, sign255.c:76-218), given meaning by
    micro-operations.

    Simplifications: memory is addressed in aligned 64-bit words relative to an
    asm operand; the carry and overflow flags are modelled, the sign and zero
    flags are derived from the last flag-setting result ([RES]); a flag the
    manual leaves undefined, or whose value depends on something not tracked
    here (overflow after an addition, carry after a shift or a widening
    multiplication), is given the value 2, which no flag can hold, so that a
    program reading it could not be proved correct. *)
From Coq Require Import ZArith List Bool.
From Verif Require Import Uop.
Import ListNotations.
Open Scope Z_scope.

Definition RAX : loc := 1%positive.   Definition RBX : loc := 2%positive.
Definition RCX : loc := 3%positive.   Definition RDX : loc := 4%positive.
Definition RSI : loc := 5%positive.   Definition RDI : loc := 6%positive.
Definition RBP : loc := 7%positive.
Definition R8  : loc := 9%positive.   Definition R9  : loc := 10%positive.
Definition R10 : loc := 11%positive.  Definition R11 : loc := 12%positive.
Definition R12 : loc := 13%positive.  Definition R13 : loc := 14%positive.
Definition R14 : loc := 15%positive.  Definition R15 : loc := 16%positive.
Definition CF  : loc := 17%positive.  Definition OF  : loc := 18%positive.
Definition RES : loc := 19%positive.
Definition T0  : loc := 20%positive.  Definition T1  : loc := 21%positive.
Definition T2  : loc := 22%positive.

(** Instruction arguments: a register, the 64-bit word at a byte offset from
    pointer operand [%k], the register operand [%k] itself, an immediate. *)
Inductive arg := R (r : loc) | A (k : nat) (off : Z) | D (k : nat) | Im (z : Z).

Inductive instr :=
| MOV (s d : arg) | MOV32 (s d : arg)
| ADD (s d : arg) | ADC (s d : arg) | SUB (s d : arg) | SBB (s d : arg)
| ADCX (s d : arg) | ADOX (s d : arg)
| MULX (s lo hi : arg) | MULQ (s : arg)
| IMUL (s d : arg) | IMUL3 (i s d : arg)
| SHL (k : Z) (d : arg) | SHLD (k : Z) (s d : arg) | SHRD (k : Z) (s d : arg)
| ZERO (d : arg)                 (* xor of a register with itself *)
| AND (s d : arg) | OR (s d : arg)
| CMOVC (s d : arg) | CMOVC32 (s d : arg) | CMOVNC32 (s d : arg) | CMOVNS32 (s d : arg)
| CMOVNZ (s d : arg)
| TEST32 (d : arg) | TEST (d : arg) | CLC
| BTR (k : Z) (d : arg)
| SETC (d : arg)                 (* low byte of the register *)
| BT0 (d : arg).                 (* btl $0 *)

(** Location of an argument, given the base location of each asm operand. *)
Definition aloc (env : nat -> loc) (a : arg) : opd :=
  match a with
  | R r => L r
  | A k off => L (Pos.add (env k) (Z.to_pos (off / 8 + 1)) - 1)%positive
  | D k => L (env k)
  | Im z => I (z mod W)
  end.
Definition dloc (env : nat -> loc) (a : arg) : loc :=
  match aloc env a with L l => l | I _ => T0 end.

Definition low32 (d : loc) : list uop := [UAnd d (L d) (I 4294967295)].
Definition noOF : list uop := [UMov OF (I 2)].
Definition noflags : list uop := [UMov CF (I 2); UMov OF (I 2)].
Definition clrflags : list uop := [UMov CF (I 0); UMov OF (I 0)].

Definition uops (env : nat -> loc) (i : instr) : list uop :=
  let a := aloc env in
  let d := dloc env in
  match i with
  | MOV s t => [UMov (d t) (a s)]
  | MOV32 s t => UMov (d t) (a s) :: low32 (d t)
  | ADD s t => [UAdd (d t) CF (a t) (a s) (I 0); UMov RES (a t)] ++ noOF
  | ADC s t => [UAdd (d t) CF (a t) (a s) (L CF); UMov RES (a t)] ++ noOF
  | SUB s t => [USub (d t) CF (a t) (a s) (I 0); UMov RES (a t)] ++ noOF
  | SBB s t => [USub (d t) CF (a t) (a s) (L CF); UMov RES (a t)] ++ noOF
  | ADCX s t => [UAdd (d t) CF (a t) (a s) (L CF)]
  | ADOX s t => [UAdd (d t) OF (a t) (a s) (L OF)]
  | MULX s lo hi => [UMul (d hi) (d lo) (L RDX) (a s)]
  | MULQ s => [UMul RDX RAX (L RAX) (a s)] ++ noflags
  | IMUL s t => [UIMul (d t) CF (a t) (a s); UMov OF (L CF)]
  | IMUL3 i s t => [UIMul (d t) CF (a s) (a i); UMov OF (L CF)]
  | SHL k t => [UShl (d t) (a t) k; UMov RES (a t)] ++ noflags
  | SHLD k s t => [UShl T0 (a t) k; UShr T1 (a s) (64 - k); UOr (d t) (L T0) (L T1); UMov RES (a t)] ++ noflags
  | SHRD k s t => [UShr T0 (a t) k; UShl T1 (a s) (64 - k); UOr (d t) (L T0) (L T1); UMov RES (a t)] ++ noflags
  | ZERO t => [UMov (d t) (I 0); UMov RES (I 0)] ++ clrflags
  | AND s t => [UAnd (d t) (a t) (a s); UMov RES (a t)] ++ clrflags
  | OR s t => [UOr (d t) (a t) (a s); UMov RES (a t)] ++ clrflags
  | CMOVC s t => [USel (d t) (L CF) (a t) (a s)]
  | CMOVC32 s t => USel (d t) (L CF) (a t) (a s) :: low32 (d t)
  | CMOVNC32 s t => USel (d t) (L CF) (a s) (a t) :: low32 (d t)
  | CMOVNS32 s t => [UShr T0 (L RES) 63; USel (d t) (L T0) (a s) (a t)] ++ low32 (d t)
  | CMOVNZ s t => [USel (d t) (L RES) (a t) (a s)]
  | TEST32 t => [UAnd RES (a t) (I 4294967295)] ++ clrflags
  | TEST t => [UMov RES (a t)] ++ clrflags
  | CLC => [UMov CF (I 0)]
  | BTR k t => [UShr T0 (a t) k; UAnd CF (L T0) (I 1); UShl T1 (L CF) k; USubW (d t) (a t) (L T1); UMov OF (I 2)]
  | SETC t => [UAnd T0 (a t) (I 18446744073709551360); UAddW (d t) (L T0) (L CF)]
  | BT0 t => [UAnd CF (a t) (I 1); UMov OF (I 2)]
  end.

Definition code (env : nat -> loc) (p : list instr) : list uop := flat_map (uops env) p.

(** Operand environments: the k-th operand of an asm block is placed at the
    k-th element of a list of bases. *)
Definition env_of (bs : list loc) (k : nat) : loc := nth k bs 1%positive.
