(** * AsmSM2: the functions of /repo/sm2/p256_asm_amd64.s as lists of instructions

    Written by tools/asm2coq.py from the file; macros (#define, lines 33-44, 1713-1727, 2147-2213,
    2474-2496, 2659-2667) are expanded, DATA words (lines 49-80) appear as constants. *)
From Coq Require Import ZArith List.
From Verif Require Import AsmX86.
Import ListNotations.
Open Scope Z_scope.

(** sm2/p256_asm_amd64.s:97-116 *)
Definition sm2BigToLittle : list instr := [
  LDA 0 DI; LDA 24 SI; LD SI 0 R8; LD SI 8 R9; LD SI 16 R10; LD SI 24 R11; BSWAP R8; BSWAP R9; BSWAP R10;
  BSWAP R11; STO R11 DI 0; STO R10 DI 8; STO R9 DI 16; STO R8 DI 24
].

(** sm2/p256_asm_amd64.s:120-171 *)
Definition sm2MovCond : list instr := [
  LDA 0 DI; LDA 24 SI; LDA 48 CX; XLDA 72 12; PXOR 13 13; PSHUFD0 12 12; PCMPEQL 13 12; XMOV 12 0;
  PANDNM SI 0 0; XMOV 12 1; PANDNM SI 16 1; XMOV 12 2; PANDNM SI 32 2; XMOV 12 3; PANDNM SI 48 3; XMOV 12 4;
  PANDNM SI 64 4; XMOV 12 5; PANDNM SI 80 5; XLD CX 0 6; XLD CX 16 7; XLD CX 32 8; XLD CX 48 9; XLD CX 64 10;
  XLD CX 80 11; PAND 12 6; PAND 12 7; PAND 12 8; PAND 12 9; PAND 12 10; PAND 12 11; PXOR 6 0; PXOR 7 1;
  PXOR 8 2; PXOR 9 3; PXOR 10 4; PXOR 11 5; XST 0 DI 0; XST 1 DI 16; XST 2 DI 32; XST 3 DI 48; XST 4 DI 64;
  XST 5 DI 80
].

(** sm2/p256_asm_amd64.s:174-205 *)
Definition sm2NegCond : list instr := [
  LDA 0 DI; LDA 24 R14; MOV (K 18446744073709551615) R8; MOV (K 18446744069414584320) R9;
  MOV (K 18446744073709551615) R10; MOV (K 18446744069414584319) R11; LD DI 0 R13; LD DI 8 SI; LD DI 16 CX;
  LD DI 24 R15; SUB (R R13) R8; SBB (R SI) R9; SBB (R CX) R10; SBB (R R15) R11; TEST (R R14) R14;
  CMOVEQ R13 R8; CMOVEQ SI R9; CMOVEQ CX R10; CMOVEQ R15 R11; STO R8 DI 0; STO R9 DI 8; STO R10 DI 16;
  STO R11 DI 24
].

(** sm2/p256_asm_amd64.s:208-395 *)
Definition sm2Sqr : list instr := [
  LDA 0 DI; LDA 24 SI; LD SI 0 R14; LD SI 8 AX; MUL (R R14); MOV (R AX) R9; MOV (R DX) R10; LD SI 16 AX;
  MUL (R R14); ADD (R AX) R10; ADC (K 0) DX; MOV (R DX) R11; LD SI 24 AX; MUL (R R14); ADD (R AX) R11;
  ADC (K 0) DX; MOV (R DX) R12; LD SI 8 R14; LD SI 16 AX; MUL (R R14); ADD (R AX) R11; ADC (K 0) DX;
  MOV (R DX) R15; LD SI 24 AX; MUL (R R14); ADD (R R15) R12; ADC (K 0) DX; ADD (R AX) R12; ADC (K 0) DX;
  MOV (R DX) R13; LD SI 16 R14; LD SI 24 AX; MUL (R R14); ADD (R AX) R13; ADC (K 0) DX; MOV (R DX) CX;
  XOR (R R15) R15; ADD (R R9) R9; ADC (R R10) R10; ADC (R R11) R11; ADC (R R12) R12; ADC (R R13) R13;
  ADC (R CX) CX; ADC (K 0) R15; LD SI 0 AX; MUL (R AX); MOV (R AX) R8; MOV (R DX) R14; LD SI 8 AX; MUL (R AX);
  ADD (R R14) R9; ADC (R AX) R10; ADC (K 0) DX; MOV (R DX) R14; LD SI 16 AX; MUL (R AX); ADD (R R14) R11;
  ADC (R AX) R12; ADC (K 0) DX; MOV (R DX) R14; LD SI 24 AX; MUL (R AX); ADD (R R14) R13; ADC (R AX) CX;
  ADC (R DX) R15; MOV (R R15) SI; MOV (R R8) AX; MOV (R R8) R15; MUL (K 18446744069414584319); ADD (R R8) R9;
  ADC (K 0) R10; ADC (R R8) R11; ADC (K 0) DX; ADD (R AX) R11; ADC (K 0) DX; MOV (R R8) AX; MOV (R DX) R8;
  SHL 32 AX; SHR 32 R15; SUB (R AX) R9; SBB (R R15) R10; SBB (K 0) R11; SBB (K 0) R8; MOV (R R9) AX;
  MOV (R R9) R15; MUL (K 18446744069414584319); ADD (R R9) R10; ADC (K 0) R11; ADC (R R9) R8; ADC (K 0) DX;
  ADD (R AX) R8; ADC (K 0) DX; MOV (R R9) AX; MOV (R DX) R9; SHL 32 AX; SHR 32 R15; SUB (R AX) R10;
  SBB (R R15) R11; SBB (K 0) R8; SBB (K 0) R9; MOV (R R10) AX; MOV (R R10) R15; MUL (K 18446744069414584319);
  ADD (R R10) R11; ADC (K 0) R8; ADC (R R10) R9; ADC (K 0) DX; ADD (R AX) R9; ADC (K 0) DX; MOV (R R10) AX;
  MOV (R DX) R10; SHL 32 AX; SHR 32 R15; SUB (R AX) R11; SBB (R R15) R8; SBB (K 0) R9; SBB (K 0) R10;
  XOR (R R14) R14; MOV (R R11) AX; MOV (R R11) R15; MUL (K 18446744069414584319); ADD (R R11) R8;
  ADC (K 0) R9; ADC (R R11) R10; ADC (K 0) DX; ADD (R AX) R10; ADC (K 0) DX; MOV (R R11) AX; MOV (R DX) R11;
  SHL 32 AX; SHR 32 R15; SUB (R AX) R8; SBB (R R15) R9; SBB (K 0) R10; SBB (K 0) R11; ADC (R R12) R8;
  ADC (R R13) R9; ADC (R CX) R10; ADC (R SI) R11; ADC (K 0) R14; MOV (R R8) R12; MOV (R R9) R13;
  MOV (R R10) CX; MOV (R R11) R15; SUB (K 18446744073709551615) R8; SBB (K 18446744069414584320) R9;
  SBB (K 18446744073709551615) R10; SBB (K 18446744069414584319) R11; SBB (K 0) R14; CMOVCS R12 R8;
  CMOVCS R13 R9; CMOVCS CX R10; CMOVCS R15 R11; STO R8 DI 0; STO R9 DI 8; STO R10 DI 16; STO R11 DI 24
].

(** sm2/p256_asm_amd64.s:398-635 *)
Definition sm2Mul : list instr := [
  LDA 0 DI; LDA 24 SI; LDA 48 CX; LD CX 0 R14; LD SI 0 AX; MUL (R R14); MOV (R AX) R8; MOV (R DX) R9;
  LD SI 8 AX; MUL (R R14); ADD (R AX) R9; ADC (K 0) DX; MOV (R DX) R10; LD SI 16 AX; MUL (R R14);
  ADD (R AX) R10; ADC (K 0) DX; MOV (R DX) R11; LD SI 24 AX; MUL (R R14); ADD (R AX) R11; ADC (K 0) DX;
  MOV (R DX) R12; XOR (R R13) R13; MOV (R R8) AX; MOV (R R8) R15; MUL (K 18446744069414584319); ADD (R R8) R9;
  ADC (K 0) R10; ADC (R R8) R11; ADC (K 0) DX; ADD (R AX) R11; ADC (K 0) DX; MOV (R R8) AX; ADC (R DX) R12;
  ADC (K 0) R13; SHL 32 AX; SHR 32 R15; SUB (R AX) R9; SBB (R R15) R10; SBB (K 0) R11; SBB (K 0) R12;
  SBB (K 0) R13; XOR (R R8) R8; LD CX 8 R14; LD SI 0 AX; MUL (R R14); ADD (R AX) R9; ADC (K 0) DX;
  MOV (R DX) R15; LD SI 8 AX; MUL (R R14); ADD (R R15) R10; ADC (K 0) DX; ADD (R AX) R10; ADC (K 0) DX;
  MOV (R DX) R15; LD SI 16 AX; MUL (R R14); ADD (R R15) R11; ADC (K 0) DX; ADD (R AX) R11; ADC (K 0) DX;
  MOV (R DX) R15; LD SI 24 AX; MUL (R R14); ADD (R R15) R12; ADC (K 0) DX; ADD (R AX) R12; ADC (R DX) R13;
  ADC (K 0) R8; MOV (R R9) AX; MOV (R R9) R15; MUL (K 18446744069414584319); ADD (R R9) R10; ADC (K 0) R11;
  ADC (R R9) R12; ADC (K 0) DX; ADD (R AX) R12; ADC (K 0) DX; MOV (R R9) AX; ADC (R DX) R13; ADC (K 0) R8;
  SHL 32 AX; SHR 32 R15; SUB (R AX) R10; SBB (R R15) R11; SBB (K 0) R12; SBB (K 0) R13; SBB (K 0) R8;
  XOR (R R9) R9; LD CX 16 R14; LD SI 0 AX; MUL (R R14); ADD (R AX) R10; ADC (K 0) DX; MOV (R DX) R15;
  LD SI 8 AX; MUL (R R14); ADD (R R15) R11; ADC (K 0) DX; ADD (R AX) R11; ADC (K 0) DX; MOV (R DX) R15;
  LD SI 16 AX; MUL (R R14); ADD (R R15) R12; ADC (K 0) DX; ADD (R AX) R12; ADC (K 0) DX; MOV (R DX) R15;
  LD SI 24 AX; MUL (R R14); ADD (R R15) R13; ADC (K 0) DX; ADD (R AX) R13; ADC (R DX) R8; ADC (K 0) R9;
  MOV (R R10) AX; MOV (R R10) R15; MUL (K 18446744069414584319); ADD (R R10) R11; ADC (K 0) R12;
  ADC (R R10) R13; ADC (K 0) DX; ADD (R AX) R13; ADC (K 0) DX; MOV (R R10) AX; ADC (R DX) R8; ADC (K 0) R9;
  SHL 32 AX; SHR 32 R15; SUB (R AX) R11; SBB (R R15) R12; SBB (K 0) R13; SBB (K 0) R8; SBB (K 0) R9;
  XOR (R R10) R10; LD CX 24 R14; LD SI 0 AX; MUL (R R14); ADD (R AX) R11; ADC (K 0) DX; MOV (R DX) R15;
  LD SI 8 AX; MUL (R R14); ADD (R R15) R12; ADC (K 0) DX; ADD (R AX) R12; ADC (K 0) DX; MOV (R DX) R15;
  LD SI 16 AX; MUL (R R14); ADD (R R15) R13; ADC (K 0) DX; ADD (R AX) R13; ADC (K 0) DX; MOV (R DX) R15;
  LD SI 24 AX; MUL (R R14); ADD (R R15) R8; ADC (K 0) DX; ADD (R AX) R8; ADC (R DX) R9; ADC (K 0) R10;
  XOR (R R14) R14; MOV (R R11) AX; MOV (R R11) R15; MUL (K 18446744069414584319); ADD (R R11) R12;
  ADC (K 0) R13; ADC (R R11) R8; ADC (K 0) DX; ADD (R AX) R8; ADC (K 0) DX; MOV (R R11) AX; ADC (R DX) R9;
  ADC (K 0) R10; SHL 32 AX; SHR 32 R15; SUB (R AX) R12; SBB (R R15) R13; SBB (K 0) R8; SBB (K 0) R9;
  SBB (K 0) R10; MOV (R R12) SI; MOV (R R13) R11; MOV (R R8) R14; MOV (R R9) R15;
  SUB (K 18446744073709551615) R12; SBB (K 18446744069414584320) R13; SBB (K 18446744073709551615) R8;
  SBB (K 18446744069414584319) R9; SBB (K 0) R10; CMOVCS SI R12; CMOVCS R11 R13; CMOVCS R14 R8; CMOVCS R15 R9;
  STO R12 DI 0; STO R13 DI 8; STO R8 DI 16; STO R9 DI 24
].

(** sm2/p256_asm_amd64.s:929-1034 *)
Definition sm2FromMont : list instr := [
  LDA 0 DI; LDA 24 SI; LD SI 0 R8; LD SI 8 R9; LD SI 16 R10; LD SI 24 R11; XOR (R R12) R12; MOV (R R8) AX;
  MOV (R R8) R15; MUL (K 18446744069414584319); ADD (R R8) R9; ADC (K 0) R10; ADC (R R8) R11; ADC (K 0) DX;
  ADC (R AX) R11; ADC (K 0) DX; SHL 32 R8; SHR 32 R15; SUB (R R8) R9; SBB (R R15) R10; SBB (K 0) R11;
  SBB (K 0) DX; MOV (R DX) R12; XOR (R R13) R13; MOV (R R9) AX; MOV (R R9) R15; MUL (K 18446744069414584319);
  ADD (R R9) R10; ADC (K 0) R11; ADC (R R9) R12; ADC (K 0) DX; ADC (R AX) R12; ADC (K 0) DX; SHL 32 R9;
  SHR 32 R15; SUB (R R9) R10; SBB (R R15) R11; SBB (K 0) R12; SBB (K 0) DX; MOV (R DX) R13; XOR (R R8) R8;
  MOV (R R10) AX; MOV (R R10) R15; MUL (K 18446744069414584319); ADD (R R10) R11; ADC (K 0) R12;
  ADC (R R10) R13; ADC (K 0) DX; ADC (R AX) R13; ADC (K 0) DX; SHL 32 R10; SHR 32 R15; SUB (R R10) R11;
  SBB (R R15) R12; SBB (K 0) R13; SBB (K 0) DX; MOV (R DX) R8; XOR (R R9) R9; XOR (R R14) R14; MOV (R R11) AX;
  MOV (R R11) R15; MUL (K 18446744069414584319); ADD (R R11) R12; ADC (K 0) R13; ADC (R R11) R8; ADC (K 0) DX;
  ADC (R AX) R8; ADC (K 0) DX; SHL 32 R11; SHR 32 R15; SUB (R R11) R12; SBB (R R15) R13; SBB (K 0) R8;
  SBB (K 0) DX; MOV (R DX) R9; MOV (R R12) SI; MOV (R R13) R11; MOV (R R8) R14; MOV (R R9) R15;
  SUB (K 18446744073709551615) R12; SBB (K 18446744069414584320) R13; SBB (K 18446744073709551615) R8;
  SBB (K 18446744069414584319) R9; CMOVCS SI R12; CMOVCS R11 R13; CMOVCS R14 R8; CMOVCS R15 R9; STO R12 DI 0;
  STO R13 DI 8; STO R8 DI 16; STO R9 DI 24
].

(** sm2/p256_asm_amd64.s:1041-1100, the loop *)
Definition sm2Select_body : list instr := [
  XMOV 13 12; PADDL 15 13; PCMPEQL 14 12; XLD DI 0 6; XLD DI 16 7; XLD DI 32 8; XLD DI 48 9; XLD DI 64 10;
  XLD DI 80 11; ADD (K 96) DI; PAND 12 6; PAND 12 7; PAND 12 8; PAND 12 9; PAND 12 10; PAND 12 11; PXOR 6 0;
  PXOR 7 1; PXOR 8 2; PXOR 9 3; PXOR 10 4; PXOR 11 5; DEC AX
].

(** sm2/p256_asm_amd64.s:1041-1100 *)
Definition sm2Select : list item := [
  Do (LDA 48 AX); Do (LDA 24 DI); Do (LDA 0 DX); Do (PXOR 15 15); Do (PCMPEQL 14 14); Do (PSUBL 14 15);
  Do (XMOVL AX 14); Do (PSHUFD0 14 14); Do (PXOR 0 0); Do (PXOR 1 1); Do (PXOR 2 2); Do (PXOR 3 3);
  Do (PXOR 4 4); Do (PXOR 5 5); Do (MOV (K 16) AX); Do (XMOV 15 13); Loop sm2Select_body; Do (XST 0 DX 0);
  Do (XST 1 DX 16); Do (XST 2 DX 32); Do (XST 3 DX 48); Do (XST 4 DX 64); Do (XST 5 DX 80)
].

(** sm2/p256_asm_amd64.s:1104-1173, the loop *)
Definition sm2SelectBase_body : list instr := [
  XMOV 13 12; PADDL 15 13; PCMPEQL 14 12; XLD DI 0 4; XLD DI 16 5; XLD DI 32 6; XLD DI 48 7; XLD DI 64 8;
  XLD DI 80 9; XLD DI 96 10; XLD DI 112 11; ADD (K 128) DI; PAND 12 4; PAND 12 5; PAND 12 6; PAND 12 7;
  XMOV 13 12; PADDL 15 13; PCMPEQL 14 12; PAND 12 8; PAND 12 9; PAND 12 10; PAND 12 11; PXOR 4 0; PXOR 5 1;
  PXOR 6 2; PXOR 7 3; PXOR 8 0; PXOR 9 1; PXOR 10 2; PXOR 11 3; DEC AX
].

(** sm2/p256_asm_amd64.s:1104-1173 *)
Definition sm2SelectBase : list item := [
  Do (LDA 48 AX); Do (LDA 24 DI); Do (LDA 0 DX); Do (PXOR 15 15); Do (PCMPEQL 14 14); Do (PSUBL 14 15);
  Do (XMOVL AX 14); Do (PSHUFD0 14 14); Do (PXOR 0 0); Do (PXOR 1 1); Do (PXOR 2 2); Do (PXOR 3 3);
  Do (MOV (K 32) AX); Do (XMOV 15 13); Loop sm2SelectBase_body; Do (XST 0 DX 0); Do (XST 1 DX 16);
  Do (XST 2 DX 32); Do (XST 3 DX 48)
].

(** sm2/p256_asm_amd64.s:1176-1460 *)
Definition sm2OrdMul : list instr := [
  LDA 0 DI; LDA 24 SI; LDA 48 CX; LD CX 0 R14; LD SI 0 AX; MUL (R R14); MOV (R AX) R8; MOV (R DX) R9;
  LD SI 8 AX; MUL (R R14); ADD (R AX) R9; ADC (K 0) DX; MOV (R DX) R10; LD SI 16 AX; MUL (R R14);
  ADD (R AX) R10; ADC (K 0) DX; MOV (R DX) R11; LD SI 24 AX; MUL (R R14); ADD (R AX) R11; ADC (K 0) DX;
  MOV (R DX) R12; XOR (R R13) R13; MOV (R R8) AX; MUL (K 3638801332807469429); MOV (R AX) R14;
  MOV (K 6033684446255071523) AX; MUL (R R14); ADD (R AX) R8; ADC (K 0) DX; MOV (R DX) R15;
  MOV (K 8215655796475036971) AX; MUL (R R14); ADD (R R15) R9; ADC (K 0) DX; ADD (R AX) R9; ADC (K 0) DX;
  MOV (R DX) R15; MOV (K 18446744073709551615) AX; MUL (R R14); ADD (R R15) R10; ADC (K 0) DX; ADD (R AX) R10;
  ADC (K 0) DX; MOV (R DX) R15; MOV (K 18446744069414584319) AX; MUL (R R14); ADD (R R15) R11; ADC (K 0) DX;
  ADD (R AX) R11; ADC (R DX) R12; ADC (K 0) R13; LD CX 8 R14; LD SI 0 AX; MUL (R R14); ADD (R AX) R9;
  ADC (K 0) DX; MOV (R DX) R15; LD SI 8 AX; MUL (R R14); ADD (R R15) R10; ADC (K 0) DX; ADD (R AX) R10;
  ADC (K 0) DX; MOV (R DX) R15; LD SI 16 AX; MUL (R R14); ADD (R R15) R11; ADC (K 0) DX; ADD (R AX) R11;
  ADC (K 0) DX; MOV (R DX) R15; LD SI 24 AX; MUL (R R14); ADD (R R15) R12; ADC (K 0) DX; ADD (R AX) R12;
  ADC (R DX) R13; ADC (K 0) R8; MOV (R R9) AX; MUL (K 3638801332807469429); MOV (R AX) R14;
  MOV (K 6033684446255071523) AX; MUL (R R14); ADD (R AX) R9; ADC (K 0) DX; MOV (R DX) R15;
  MOV (K 8215655796475036971) AX; MUL (R R14); ADD (R R15) R10; ADC (K 0) DX; ADD (R AX) R10; ADC (K 0) DX;
  MOV (R DX) R15; MOV (K 18446744073709551615) AX; MUL (R R14); ADD (R R15) R11; ADC (K 0) DX; ADD (R AX) R11;
  ADC (K 0) DX; MOV (R DX) R15; MOV (K 18446744069414584319) AX; MUL (R R14); ADD (R R15) R12; ADC (K 0) DX;
  ADD (R AX) R12; ADC (R DX) R13; ADC (K 0) R8; LD CX 16 R14; LD SI 0 AX; MUL (R R14); ADD (R AX) R10;
  ADC (K 0) DX; MOV (R DX) R15; LD SI 8 AX; MUL (R R14); ADD (R R15) R11; ADC (K 0) DX; ADD (R AX) R11;
  ADC (K 0) DX; MOV (R DX) R15; LD SI 16 AX; MUL (R R14); ADD (R R15) R12; ADC (K 0) DX; ADD (R AX) R12;
  ADC (K 0) DX; MOV (R DX) R15; LD SI 24 AX; MUL (R R14); ADD (R R15) R13; ADC (K 0) DX; ADD (R AX) R13;
  ADC (R DX) R8; ADC (K 0) R9; MOV (R R10) AX; MUL (K 3638801332807469429); MOV (R AX) R14;
  MOV (K 6033684446255071523) AX; MUL (R R14); ADD (R AX) R10; ADC (K 0) DX; MOV (R DX) R15;
  MOV (K 8215655796475036971) AX; MUL (R R14); ADD (R R15) R11; ADC (K 0) DX; ADD (R AX) R11; ADC (K 0) DX;
  MOV (R DX) R15; MOV (K 18446744073709551615) AX; MUL (R R14); ADD (R R15) R12; ADC (K 0) DX; ADD (R AX) R12;
  ADC (K 0) DX; MOV (R DX) R15; MOV (K 18446744069414584319) AX; MUL (R R14); ADD (R R15) R13; ADC (K 0) DX;
  ADD (R AX) R13; ADC (R DX) R8; ADC (K 0) R9; LD CX 24 R14; LD SI 0 AX; MUL (R R14); ADD (R AX) R11;
  ADC (K 0) DX; MOV (R DX) R15; LD SI 8 AX; MUL (R R14); ADD (R R15) R12; ADC (K 0) DX; ADD (R AX) R12;
  ADC (K 0) DX; MOV (R DX) R15; LD SI 16 AX; MUL (R R14); ADD (R R15) R13; ADC (K 0) DX; ADD (R AX) R13;
  ADC (K 0) DX; MOV (R DX) R15; LD SI 24 AX; MUL (R R14); ADD (R R15) R8; ADC (K 0) DX; ADD (R AX) R8;
  ADC (R DX) R9; ADC (K 0) R10; MOV (R R11) AX; MUL (K 3638801332807469429); MOV (R AX) R14;
  MOV (K 6033684446255071523) AX; MUL (R R14); ADD (R AX) R11; ADC (K 0) DX; MOV (R DX) R15;
  MOV (K 8215655796475036971) AX; MUL (R R14); ADD (R R15) R12; ADC (K 0) DX; ADD (R AX) R12; ADC (K 0) DX;
  MOV (R DX) R15; MOV (K 18446744073709551615) AX; MUL (R R14); ADD (R R15) R13; ADC (K 0) DX; ADD (R AX) R13;
  ADC (K 0) DX; MOV (R DX) R15; MOV (K 18446744069414584319) AX; MUL (R R14); ADD (R R15) R8; ADC (K 0) DX;
  ADD (R AX) R8; ADC (R DX) R9; ADC (K 0) R10; MOV (R R12) SI; MOV (R R13) R11; MOV (R R8) R14;
  MOV (R R9) R15; SUB (K 6033684446255071523) R12; SBB (K 8215655796475036971) R13;
  SBB (K 18446744073709551615) R8; SBB (K 18446744069414584319) R9; SBB (K 0) R10; CMOVCS SI R12;
  CMOVCS R11 R13; CMOVCS R14 R8; CMOVCS R15 R9; STO R12 DI 0; STO R13 DI 8; STO R8 DI 16; STO R9 DI 24
].

(** sm2/p256_asm_amd64.s:1463-1698, the loop *)
Definition sm2OrdSqr_body : list instr := [
  LD SI 0 R14; LD SI 8 AX; MUL (R R14); MOV (R AX) R9; MOV (R DX) R10; LD SI 16 AX; MUL (R R14);
  ADD (R AX) R10; ADC (K 0) DX; MOV (R DX) R11; LD SI 24 AX; MUL (R R14); ADD (R AX) R11; ADC (K 0) DX;
  MOV (R DX) R12; LD SI 8 R14; LD SI 16 AX; MUL (R R14); ADD (R AX) R11; ADC (K 0) DX; MOV (R DX) R15;
  LD SI 24 AX; MUL (R R14); ADD (R R15) R12; ADC (K 0) DX; ADD (R AX) R12; ADC (K 0) DX; MOV (R DX) R13;
  LD SI 16 R14; LD SI 24 AX; MUL (R R14); ADD (R AX) R13; ADC (K 0) DX; MOV (R DX) CX; XOR (R R15) R15;
  ADD (R R9) R9; ADC (R R10) R10; ADC (R R11) R11; ADC (R R12) R12; ADC (R R13) R13; ADC (R CX) CX;
  ADC (K 0) R15; LD SI 0 AX; MUL (R AX); MOV (R AX) R8; MOV (R DX) R14; LD SI 8 AX; MUL (R AX);
  ADD (R R14) R9; ADC (R AX) R10; ADC (K 0) DX; MOV (R DX) R14; LD SI 16 AX; MUL (R AX); ADD (R R14) R11;
  ADC (R AX) R12; ADC (K 0) DX; MOV (R DX) R14; LD SI 24 AX; MUL (R AX); ADD (R R14) R13; ADC (R AX) CX;
  ADC (R DX) R15; MOV (R R15) SI; MOV (R R8) AX; MUL (K 3638801332807469429); MOV (R AX) R14;
  MOV (K 6033684446255071523) AX; MUL (R R14); ADD (R AX) R8; ADC (K 0) DX; MOV (R DX) R15;
  MOV (K 8215655796475036971) AX; MUL (R R14); ADD (R R15) R9; ADC (K 0) DX; ADD (R AX) R9; MOV (R R14) R15;
  ADC (R DX) R10; ADC (K 0) R15; SUB (R R14) R10; SBB (K 0) R15; MOV (K 18446744069414584319) AX;
  ADD (R R15) R11; ADC (K 0) DX; ADD (R AX) R11; ADC (K 0) DX; MOV (R DX) R8; MOV (R R9) AX;
  MUL (K 3638801332807469429); MOV (R AX) R14; MOV (K 6033684446255071523) AX; MUL (R R14); ADD (R AX) R9;
  ADC (K 0) DX; MOV (R DX) R15; MOV (K 8215655796475036971) AX; MUL (R R14); ADD (R R15) R10; ADC (K 0) DX;
  ADD (R AX) R10; MOV (R R14) R15; ADC (R DX) R11; ADC (K 0) R15; SUB (R R14) R11; SBB (K 0) R15;
  MOV (K 18446744069414584319) AX; ADD (R R15) R8; ADC (K 0) DX; ADD (R AX) R8; ADC (K 0) DX; MOV (R DX) R9;
  MOV (R R10) AX; MUL (K 3638801332807469429); MOV (R AX) R14; MOV (K 6033684446255071523) AX; MUL (R R14);
  ADD (R AX) R10; ADC (K 0) DX; MOV (R DX) R15; MOV (K 8215655796475036971) AX; MUL (R R14); ADD (R R15) R11;
  ADC (K 0) DX; ADD (R AX) R11; MOV (R R14) R15; ADC (R DX) R8; ADC (K 0) R15; SUB (R R14) R8; SBB (K 0) R15;
  MOV (K 18446744069414584319) AX; ADD (R R15) R9; ADC (K 0) DX; ADD (R AX) R9; ADC (K 0) DX; MOV (R DX) R10;
  MOV (R R11) AX; MUL (K 3638801332807469429); MOV (R AX) R14; MOV (K 6033684446255071523) AX; MUL (R R14);
  ADD (R AX) R11; ADC (K 0) DX; MOV (R DX) R15; MOV (K 8215655796475036971) AX; MUL (R R14); ADD (R R15) R8;
  ADC (K 0) DX; ADD (R AX) R8; ADC (K 0) DX; MOV (R DX) R15; MOV (R R14) R15; ADC (R DX) R9; ADC (K 0) R15;
  SUB (R R14) R9; SBB (K 0) R15; MOV (K 18446744069414584319) AX; ADD (R R15) R10; ADC (K 0) DX;
  ADD (R AX) R10; ADC (K 0) DX; MOV (R DX) R11; XOR (R R14) R14; ADC (R R12) R8; ADC (R R13) R9;
  ADC (R CX) R10; ADC (R SI) R11; ADC (K 0) R14; MOV (R R8) R12; MOV (R R9) R13; MOV (R R10) CX;
  MOV (R R11) R15; SUB (K 6033684446255071523) R8; SBB (K 8215655796475036971) R9;
  SBB (K 18446744073709551615) R10; SBB (K 18446744069414584319) R11; SBB (K 0) R14; CMOVCS R12 R8;
  CMOVCS R13 R9; CMOVCS CX R10; CMOVCS R15 R11; STO R8 DI 0; STO R9 DI 8; STO R10 DI 16; STO R11 DI 24;
  MOV (R DI) SI; DEC BX
].

(** sm2/p256_asm_amd64.s:1463-1698 *)
Definition sm2OrdSqr : list item := [
  Do (LDA 0 DI); Do (LDA 24 SI); Do (LDA 48 BX); Loop sm2OrdSqr_body
].

(** sm2/p256_asm_amd64.s:1729-1753 *)
Definition sm2SubInternal : list instr := [
  XOR (R AX) AX; SUB (R R14) R10; SBB (R R15) R11; SBB (R DI) R12; SBB (R SI) R13; SBB (K 0) AX;
  MOV (R R10) BX; MOV (R R11) CX; MOV (R R12) R8; MOV (R R13) R9; ADD (K 18446744073709551615) R10;
  ADC (K 18446744069414584320) R11; ADC (K 18446744073709551615) R12; ADC (K 18446744069414584319) R13;
  ADC (K 0) AX; CMOVNE BX R10; CMOVNE CX R11; CMOVNE R8 R12; CMOVNE R9 R13
].

(** sm2/p256_asm_amd64.s:1755-1969 *)
Definition sm2MulInternal : list instr := [
  MOV (R R10) AX; MUL (R R14); MOV (R AX) BX; MOV (R DX) CX; MOV (R R10) AX; MUL (R R15); ADD (R AX) CX;
  ADC (K 0) DX; MOV (R DX) R8; MOV (R R10) AX; MUL (R DI); ADD (R AX) R8; ADC (K 0) DX; MOV (R DX) R9;
  MOV (R R10) AX; MUL (R SI); ADD (R AX) R9; ADC (K 0) DX; MOV (R DX) R10; MOV (R R11) AX; MUL (R R14);
  ADD (R AX) CX; ADC (K 0) DX; MOV (R DX) BP; MOV (R R11) AX; MUL (R R15); ADD (R BP) R8; ADC (K 0) DX;
  ADD (R AX) R8; ADC (K 0) DX; MOV (R DX) BP; MOV (R R11) AX; MUL (R DI); ADD (R BP) R9; ADC (K 0) DX;
  ADD (R AX) R9; ADC (K 0) DX; MOV (R DX) BP; MOV (R R11) AX; MUL (R SI); ADD (R BP) R10; ADC (K 0) DX;
  ADD (R AX) R10; ADC (K 0) DX; MOV (R DX) R11; MOV (R R12) AX; MUL (R R14); ADD (R AX) R8; ADC (K 0) DX;
  MOV (R DX) BP; MOV (R R12) AX; MUL (R R15); ADD (R BP) R9; ADC (K 0) DX; ADD (R AX) R9; ADC (K 0) DX;
  MOV (R DX) BP; MOV (R R12) AX; MUL (R DI); ADD (R BP) R10; ADC (K 0) DX; ADD (R AX) R10; ADC (K 0) DX;
  MOV (R DX) BP; MOV (R R12) AX; MUL (R SI); ADD (R BP) R11; ADC (K 0) DX; ADD (R AX) R11; ADC (K 0) DX;
  MOV (R DX) R12; MOV (R R13) AX; MUL (R R14); ADD (R AX) R9; ADC (K 0) DX; MOV (R DX) BP; MOV (R R13) AX;
  MUL (R R15); ADD (R BP) R10; ADC (K 0) DX; ADD (R AX) R10; ADC (K 0) DX; MOV (R DX) BP; MOV (R R13) AX;
  MUL (R DI); ADD (R BP) R11; ADC (K 0) DX; ADD (R AX) R11; ADC (K 0) DX; MOV (R DX) BP; MOV (R R13) AX;
  MUL (R SI); ADD (R BP) R12; ADC (K 0) DX; ADD (R AX) R12; ADC (K 0) DX; MOV (R DX) R13; MOV (R BX) AX;
  MOV (R BX) BP; MUL (K 18446744069414584319); ADD (R BX) CX; ADC (K 0) R8; ADC (R BX) R9; ADC (K 0) DX;
  ADD (R AX) R9; ADC (K 0) DX; MOV (R BX) AX; MOV (R DX) BX; SHL 32 AX; SHR 32 BP; SUB (R AX) CX;
  SBB (R BP) R8; SBB (K 0) R9; SBB (K 0) BX; MOV (R CX) AX; MOV (R CX) BP; MUL (K 18446744069414584319);
  ADD (R CX) R8; ADC (K 0) R9; ADC (R CX) BX; ADC (K 0) DX; ADD (R AX) BX; ADC (K 0) DX; MOV (R CX) AX;
  MOV (R DX) CX; SHL 32 AX; SHR 32 BP; SUB (R AX) R8; SBB (R BP) R9; SBB (K 0) BX; SBB (K 0) CX;
  MOV (R R8) AX; MOV (R R8) BP; MUL (K 18446744069414584319); ADD (R R8) R9; ADC (K 0) BX; ADC (R R8) CX;
  ADC (K 0) DX; ADD (R AX) CX; ADC (K 0) DX; MOV (R R8) AX; MOV (R DX) R8; SHL 32 AX; SHR 32 BP;
  SUB (R AX) R9; SBB (R BP) BX; SBB (K 0) CX; SBB (K 0) R8; MOV (R R9) AX; MOV (R R9) BP;
  MUL (K 18446744069414584319); ADD (R R9) BX; ADC (K 0) CX; ADC (R R9) R8; ADC (K 0) DX; ADD (R AX) R8;
  ADC (K 0) DX; MOV (R R9) AX; MOV (R DX) R9; SHL 32 AX; SHR 32 BP; SUB (R AX) BX; SBB (R BP) CX;
  SBB (K 0) R8; SBB (K 0) R9; MOV (K 0) BP; ADC (R BX) R10; ADC (R CX) R11; ADC (R R8) R12; ADC (R R9) R13;
  ADC (K 0) BP; MOV (R R10) BX; MOV (R R11) CX; MOV (R R12) R8; MOV (R R13) R9;
  SUB (K 18446744073709551615) R10; SBB (K 18446744069414584320) R11; SBB (K 18446744073709551615) R12;
  SBB (K 18446744069414584319) R13; SBB (K 0) BP; CMOVCS BX R10; CMOVCS CX R11; CMOVCS R8 R12; CMOVCS R9 R13
].

(** sm2/p256_asm_amd64.s:1972-2145 *)
Definition sm2SqrInternal : list instr := [
  MOV (R R10) AX; MUL (R R11); MOV (R AX) CX; MOV (R DX) R8; MOV (R R10) AX; MUL (R R12); ADD (R AX) R8;
  ADC (K 0) DX; MOV (R DX) R9; MOV (R R10) AX; MUL (R R13); ADD (R AX) R9; ADC (K 0) DX; MOV (R DX) R14;
  MOV (R R11) AX; MUL (R R12); ADD (R AX) R9; ADC (K 0) DX; MOV (R DX) BP; MOV (R R11) AX; MUL (R R13);
  ADD (R BP) R14; ADC (K 0) DX; ADD (R AX) R14; ADC (K 0) DX; MOV (R DX) R15; MOV (R R12) AX; MUL (R R13);
  ADD (R AX) R15; ADC (K 0) DX; MOV (R DX) DI; XOR (R SI) SI; ADD (R CX) CX; ADC (R R8) R8; ADC (R R9) R9;
  ADC (R R14) R14; ADC (R R15) R15; ADC (R DI) DI; ADC (K 0) SI; MOV (R R10) AX; MUL (R AX); MOV (R AX) BX;
  MOV (R DX) R10; MOV (R R11) AX; MUL (R AX); ADD (R R10) CX; ADC (R AX) R8; ADC (K 0) DX; MOV (R DX) R10;
  MOV (R R12) AX; MUL (R AX); ADD (R R10) R9; ADC (R AX) R14; ADC (K 0) DX; MOV (R DX) R10; MOV (R R13) AX;
  MUL (R AX); ADD (R R10) R15; ADC (R AX) DI; ADC (R DX) SI; MOV (R BX) AX; MOV (R BX) BP;
  MUL (K 18446744069414584319); ADD (R BX) CX; ADC (K 0) R8; ADC (R BX) R9; ADC (K 0) DX; ADD (R AX) R9;
  ADC (K 0) DX; MOV (R BX) AX; MOV (R DX) BX; SHL 32 AX; SHR 32 BP; SUB (R AX) CX; SBB (R BP) R8;
  SBB (K 0) R9; SBB (K 0) BX; MOV (R CX) AX; MOV (R CX) BP; MUL (K 18446744069414584319); ADD (R CX) R8;
  ADC (K 0) R9; ADC (R CX) BX; ADC (K 0) DX; ADD (R AX) BX; ADC (K 0) DX; MOV (R CX) AX; MOV (R DX) CX;
  SHL 32 AX; SHR 32 BP; SUB (R AX) R8; SBB (R BP) R9; SBB (K 0) BX; SBB (K 0) CX; MOV (R R8) AX;
  MOV (R R8) BP; MUL (K 18446744069414584319); ADD (R R8) R9; ADC (K 0) BX; ADC (R R8) CX; ADC (K 0) DX;
  ADD (R AX) CX; ADC (K 0) DX; MOV (R R8) AX; MOV (R DX) R8; SHL 32 AX; SHR 32 BP; SUB (R AX) R9;
  SBB (R BP) BX; SBB (K 0) CX; SBB (K 0) R8; MOV (R R9) AX; MOV (R R9) BP; MUL (K 18446744069414584319);
  ADD (R R9) BX; ADC (K 0) CX; ADC (R R9) R8; ADC (K 0) DX; ADD (R AX) R8; ADC (K 0) DX; MOV (R R9) AX;
  MOV (R DX) R9; SHL 32 AX; SHR 32 BP; SUB (R AX) BX; SBB (R BP) CX; SBB (K 0) R8; SBB (K 0) R9; MOV (K 0) BP;
  ADC (R BX) R14; ADC (R CX) R15; ADC (R R8) DI; ADC (R R9) SI; ADC (K 0) BP; MOV (R R14) R10;
  MOV (R R15) R11; MOV (R DI) R12; MOV (R SI) R13; SUB (K 18446744073709551615) R10;
  SBB (K 18446744069414584320) R11; SBB (K 18446744073709551615) R12; SBB (K 18446744069414584319) R13;
  SBB (K 0) BP; CMOVCS R14 R10; CMOVCS R15 R11; CMOVCS DI R12; CMOVCS SI R13
].

(** sm2/p256_asm_amd64.s:2216-2454 *)
Definition sm2PointAddAffineAsm : list item := [
  Do (LDA 0 AX); Do (LDA 24 BX); Do (LDA 48 CX); Do (LDA 72 DX); Do (LDA 80 R15); Do (LDA 88 DI);
  Do (XLD BX 0 0); Do (XLD BX 16 1); Do (XLD BX 32 2); Do (XLD BX 48 3); Do (XLD BX 64 4); Do (XLD BX 80 5);
  Do (XSTF 0 0); Do (XSTF 1 16); Do (XSTF 2 32); Do (XSTF 3 48); Do (XSTF 4 64); Do (XSTF 5 80);
  Do (XLD CX 0 0); Do (XLD CX 16 1); Do (XSTF 0 96); Do (XSTF 1 112); Do (STF (R AX) 480); Do (STF32 R15 488);
  Do (STF32 DI 492); Do (LD CX 32 R10); Do (LD CX 40 R11); Do (LD CX 48 R12); Do (LD CX 56 R13);
  Do (MOV (K 18446744073709551615) BX); Do (MOV (K 18446744069414584320) CX);
  Do (MOV (K 18446744073709551615) R8); Do (MOV (K 18446744069414584319) R9); Do (XOR (R AX) AX);
  Do (SUB (R R10) BX); Do (SBB (R R11) CX); Do (SBB (R R12) R8); Do (SBB (R R13) R9); Do (SBB (K 0) AX);
  Do (MOV (R BX) R14); Do (MOV (R CX) R15); Do (MOV (R R8) DI); Do (MOV (R R9) SI);
  Do (ADD (K 18446744073709551615) BX); Do (ADC (K 18446744069414584320) CX);
  Do (ADC (K 18446744073709551615) R8); Do (ADC (K 18446744069414584319) R9); Do (ADC (K 0) AX);
  Do (CMOVNE R14 BX); Do (CMOVNE R15 CX); Do (CMOVNE DI R8); Do (CMOVNE SI R9); Do (TEST (R DX) DX);
  Do (CMOVEQ R10 BX); Do (CMOVEQ R11 CX); Do (CMOVEQ R12 R8); Do (CMOVEQ R13 R9); Do (STF (R BX) 128);
  Do (STF (R CX) 136); Do (STF (R R8) 144); Do (STF (R R9) 152); Do (LDF 64 R10); Do (LDF 72 R11);
  Do (LDF 80 R12); Do (LDF 88 R13); Call sm2SqrInternal; Do (STF (R R10) 288); Do (STF (R R11) 296);
  Do (STF (R R12) 304); Do (STF (R R13) 312); Do (LDF 96 R14); Do (LDF 104 R15); Do (LDF 112 DI);
  Do (LDF 120 SI); Call sm2MulInternal; Do (LDF 0 R14); Do (LDF 8 R15); Do (LDF 16 DI); Do (LDF 24 SI);
  Call sm2SubInternal; Do (STF (R R10) 320); Do (STF (R R11) 328); Do (STF (R R12) 336); Do (STF (R R13) 344);
  Do (LDF 64 R14); Do (LDF 72 R15); Do (LDF 80 DI); Do (LDF 88 SI); Call sm2MulInternal; Do (STF (R R10) 224);
  Do (STF (R R11) 232); Do (STF (R R12) 240); Do (STF (R R13) 248); Do (LDF 288 R10); Do (LDF 296 R11);
  Do (LDF 304 R12); Do (LDF 312 R13); Call sm2MulInternal; Do (LDF 128 R14); Do (LDF 136 R15);
  Do (LDF 144 DI); Do (LDF 152 SI); Call sm2MulInternal; Do (STF (R R10) 256); Do (STF (R R11) 264);
  Do (STF (R R12) 272); Do (STF (R R13) 280); Do (LDF 32 R14); Do (LDF 40 R15); Do (LDF 48 DI);
  Do (LDF 56 SI); Call sm2SubInternal; Do (STF (R R10) 352); Do (STF (R R11) 360); Do (STF (R R12) 368);
  Do (STF (R R13) 376); Call sm2SqrInternal; Do (STF (R R10) 416); Do (STF (R R11) 424); Do (STF (R R12) 432);
  Do (STF (R R13) 440); Do (LDF 320 R10); Do (LDF 328 R11); Do (LDF 336 R12); Do (LDF 344 R13);
  Call sm2SqrInternal; Do (STF (R R10) 384); Do (STF (R R11) 392); Do (STF (R R12) 400); Do (STF (R R13) 408);
  Do (LDF 320 R14); Do (LDF 328 R15); Do (LDF 336 DI); Do (LDF 344 SI); Call sm2MulInternal;
  Do (STF (R R10) 448); Do (STF (R R11) 456); Do (STF (R R12) 464); Do (STF (R R13) 472); Do (LDF 32 R14);
  Do (LDF 40 R15); Do (LDF 48 DI); Do (LDF 56 SI); Call sm2MulInternal; Do (STF (R R10) 256);
  Do (STF (R R11) 264); Do (STF (R R12) 272); Do (STF (R R13) 280); Do (LDF 0 R10); Do (LDF 8 R11);
  Do (LDF 16 R12); Do (LDF 24 R13); Do (LDF 384 R14); Do (LDF 392 R15); Do (LDF 400 DI); Do (LDF 408 SI);
  Call sm2MulInternal; Do (STF (R R10) 320); Do (STF (R R11) 328); Do (STF (R R12) 336); Do (STF (R R13) 344);
  Do (XOR (R AX) AX); Do (ADD (R R10) R10); Do (ADC (R R11) R11); Do (ADC (R R12) R12); Do (ADC (R R13) R13);
  Do (ADC (K 0) AX); Do (MOV (R R10) R14); Do (MOV (R R11) R15); Do (MOV (R R12) DI); Do (MOV (R R13) SI);
  Do (SUB (K 18446744073709551615) R14); Do (SBB (K 18446744069414584320) R15);
  Do (SBB (K 18446744073709551615) DI); Do (SBB (K 18446744069414584319) SI); Do (SBB (K 0) AX);
  Do (CMOVCS R10 R14); Do (CMOVCS R11 R15); Do (CMOVCS R12 DI); Do (CMOVCS R13 SI); Do (LDF 416 R10);
  Do (LDF 424 R11); Do (LDF 432 R12); Do (LDF 440 R13); Call sm2SubInternal; Do (LDF 448 R14);
  Do (LDF 456 R15); Do (LDF 464 DI); Do (LDF 472 SI); Call sm2SubInternal; Do (STF (R R10) 160);
  Do (STF (R R11) 168); Do (STF (R R12) 176); Do (STF (R R13) 184); Do (MOV (R R10) R14);
  Do (MOV (R R11) R15); Do (MOV (R R12) DI); Do (MOV (R R13) SI); Do (LDF 320 R10); Do (LDF 328 R11);
  Do (LDF 336 R12); Do (LDF 344 R13); Call sm2SubInternal; Do (LDF 352 R14); Do (LDF 360 R15);
  Do (LDF 368 DI); Do (LDF 376 SI); Call sm2MulInternal; Do (LDF 256 R14); Do (LDF 264 R15); Do (LDF 272 DI);
  Do (LDF 280 SI); Call sm2SubInternal; Do (STF (R R10) 192); Do (STF (R R11) 200); Do (STF (R R12) 208);
  Do (STF (R R13) 216); Do (LDF 480 AX); Do (LDF32 488 BX); Do (LDF32 492 CX); Do (XLDF 160 0);
  Do (XLDF 176 1); Do (XLDF 192 2); Do (XLDF 208 3); Do (XLDF 224 4); Do (XLDF 240 5); Do (XMOVL BX 6);
  Do (XMOVL CX 7); Do (PXOR 8 8); Do (PCMPEQL 9 9); Do (PSHUFD0 6 6); Do (PSHUFD0 7 7); Do (PCMPEQL 8 6);
  Do (PCMPEQL 8 7); Do (XMOV 6 15); Do (PANDN 9 15); Do (XLDF 0 9); Do (XLDF 16 10); Do (XLDF 32 11);
  Do (XLDF 48 12); Do (XLDF 64 13); Do (XLDF 80 14); Do (PAND 15 0); Do (PAND 15 1); Do (PAND 15 2);
  Do (PAND 15 3); Do (PAND 15 4); Do (PAND 15 5); Do (PAND 6 9); Do (PAND 6 10); Do (PAND 6 11);
  Do (PAND 6 12); Do (PAND 6 13); Do (PAND 6 14); Do (PXOR 9 0); Do (PXOR 10 1); Do (PXOR 11 2);
  Do (PXOR 12 3); Do (PXOR 13 4); Do (PXOR 14 5); Do (PCMPEQL 9 9); Do (XMOV 7 15); Do (PANDN 9 15);
  Do (XLDF 96 9); Do (XLDF 112 10); Do (XLDF 128 11); Do (XLDF 144 12); Do (XLDK 1 4294967295 13);
  Do (XLDK 0 4294967296 14); Do (PAND 15 0); Do (PAND 15 1); Do (PAND 15 2); Do (PAND 15 3); Do (PAND 15 4);
  Do (PAND 15 5); Do (PAND 7 9); Do (PAND 7 10); Do (PAND 7 11); Do (PAND 7 12); Do (PAND 7 13);
  Do (PAND 7 14); Do (PXOR 9 0); Do (PXOR 10 1); Do (PXOR 11 2); Do (PXOR 12 3); Do (PXOR 13 4);
  Do (PXOR 14 5); Do (XST 0 AX 0); Do (XST 1 AX 16); Do (XST 2 AX 32); Do (XST 3 AX 48); Do (XST 4 AX 64);
  Do (XST 5 AX 80); Do (STF (K 0) 480)
].

(** sm2/p256_asm_amd64.s:2216: the frame of 512 bytes, in words *)
Definition sm2PointAddAffineAsm_frame : nat := 64%nat.

(** sm2/p256_asm_amd64.s:2499-2636 *)
Definition sm2PointAddAsm : list item := [
  Do (LDA 0 AX); Do (LDA 24 BX); Do (LDA 48 CX); Do (XLD BX 0 0); Do (XLD BX 16 1); Do (XLD BX 32 2);
  Do (XLD BX 48 3); Do (XLD BX 64 4); Do (XLD BX 80 5); Do (XSTF 0 0); Do (XSTF 1 16); Do (XSTF 2 32);
  Do (XSTF 3 48); Do (XSTF 4 64); Do (XSTF 5 80); Do (XLD CX 0 0); Do (XLD CX 16 1); Do (XLD CX 32 2);
  Do (XLD CX 48 3); Do (XLD CX 64 4); Do (XLD CX 80 5); Do (XSTF 0 96); Do (XSTF 1 112); Do (XSTF 2 128);
  Do (XSTF 3 144); Do (XSTF 4 160); Do (XSTF 5 176); Do (STF (R AX) 640); Do (LDF 160 R10); Do (LDF 168 R11);
  Do (LDF 176 R12); Do (LDF 184 R13); Call sm2SqrInternal; Do (STF (R R10) 448); Do (STF (R R11) 456);
  Do (STF (R R12) 464); Do (STF (R R13) 472); Do (LDF 160 R14); Do (LDF 168 R15); Do (LDF 176 DI);
  Do (LDF 184 SI); Call sm2MulInternal; Do (LDF 32 R14); Do (LDF 40 R15); Do (LDF 48 DI); Do (LDF 56 SI);
  Call sm2MulInternal; Do (STF (R R10) 352); Do (STF (R R11) 360); Do (STF (R R12) 368); Do (STF (R R13) 376);
  Do (LDF 64 R10); Do (LDF 72 R11); Do (LDF 80 R12); Do (LDF 88 R13); Call sm2SqrInternal;
  Do (STF (R R10) 416); Do (STF (R R11) 424); Do (STF (R R12) 432); Do (STF (R R13) 440); Do (LDF 64 R14);
  Do (LDF 72 R15); Do (LDF 80 DI); Do (LDF 88 SI); Call sm2MulInternal; Do (LDF 128 R14); Do (LDF 136 R15);
  Do (LDF 144 DI); Do (LDF 152 SI); Call sm2MulInternal; Do (STF (R R10) 384); Do (STF (R R11) 392);
  Do (STF (R R12) 400); Do (STF (R R13) 408); Do (LDF 352 R14); Do (LDF 360 R15); Do (LDF 368 DI);
  Do (LDF 376 SI); Call sm2SubInternal; Do (STF (R R10) 512); Do (STF (R R11) 520); Do (STF (R R12) 528);
  Do (STF (R R13) 536); Do (LDF 448 R10); Do (LDF 456 R11); Do (LDF 464 R12); Do (LDF 472 R13);
  Do (LDF 0 R14); Do (LDF 8 R15); Do (LDF 16 DI); Do (LDF 24 SI); Call sm2MulInternal; Do (STF (R R10) 288);
  Do (STF (R R11) 296); Do (STF (R R12) 304); Do (STF (R R13) 312); Do (LDF 416 R10); Do (LDF 424 R11);
  Do (LDF 432 R12); Do (LDF 440 R13); Do (LDF 96 R14); Do (LDF 104 R15); Do (LDF 112 DI); Do (LDF 120 SI);
  Call sm2MulInternal; Do (STF (R R10) 320); Do (STF (R R11) 328); Do (STF (R R12) 336); Do (STF (R R13) 344);
  Do (LDF 288 R14); Do (LDF 296 R15); Do (LDF 304 DI); Do (LDF 312 SI); Call sm2SubInternal;
  Do (STF (R R10) 480); Do (STF (R R11) 488); Do (STF (R R12) 496); Do (STF (R R13) 504); Do (LDF 512 R10);
  Do (LDF 520 R11); Do (LDF 528 R12); Do (LDF 536 R13); Call sm2SqrInternal; Do (STF (R R10) 576);
  Do (STF (R R11) 584); Do (STF (R R12) 592); Do (STF (R R13) 600); Do (LDF 480 R10); Do (LDF 488 R11);
  Do (LDF 496 R12); Do (LDF 504 R13); Call sm2SqrInternal; Do (STF (R R10) 544); Do (STF (R R11) 552);
  Do (STF (R R12) 560); Do (STF (R R13) 568); Do (LDF 480 R14); Do (LDF 488 R15); Do (LDF 496 DI);
  Do (LDF 504 SI); Call sm2MulInternal; Do (STF (R R10) 608); Do (STF (R R11) 616); Do (STF (R R12) 624);
  Do (STF (R R13) 632); Do (LDF 352 R14); Do (LDF 360 R15); Do (LDF 368 DI); Do (LDF 376 SI);
  Call sm2MulInternal; Do (STF (R R10) 384); Do (STF (R R11) 392); Do (STF (R R12) 400); Do (STF (R R13) 408);
  Do (LDF 64 R10); Do (LDF 72 R11); Do (LDF 80 R12); Do (LDF 88 R13); Do (LDF 160 R14); Do (LDF 168 R15);
  Do (LDF 176 DI); Do (LDF 184 SI); Call sm2MulInternal; Do (LDF 480 R14); Do (LDF 488 R15); Do (LDF 496 DI);
  Do (LDF 504 SI); Call sm2MulInternal; Do (STF (R R10) 256); Do (STF (R R11) 264); Do (STF (R R12) 272);
  Do (STF (R R13) 280); Do (LDF 544 R10); Do (LDF 552 R11); Do (LDF 560 R12); Do (LDF 568 R13);
  Do (LDF 288 R14); Do (LDF 296 R15); Do (LDF 304 DI); Do (LDF 312 SI); Call sm2MulInternal;
  Do (STF (R R10) 320); Do (STF (R R11) 328); Do (STF (R R12) 336); Do (STF (R R13) 344); Do (XOR (R AX) AX);
  Do (ADD (R R10) R10); Do (ADC (R R11) R11); Do (ADC (R R12) R12); Do (ADC (R R13) R13); Do (ADC (K 0) AX);
  Do (MOV (R R10) R14); Do (MOV (R R11) R15); Do (MOV (R R12) DI); Do (MOV (R R13) SI);
  Do (SUB (K 18446744073709551615) R14); Do (SBB (K 18446744069414584320) R15);
  Do (SBB (K 18446744073709551615) DI); Do (SBB (K 18446744069414584319) SI); Do (SBB (K 0) AX);
  Do (CMOVCS R10 R14); Do (CMOVCS R11 R15); Do (CMOVCS R12 DI); Do (CMOVCS R13 SI); Do (LDF 576 R10);
  Do (LDF 584 R11); Do (LDF 592 R12); Do (LDF 600 R13); Call sm2SubInternal; Do (LDF 608 R14);
  Do (LDF 616 R15); Do (LDF 624 DI); Do (LDF 632 SI); Call sm2SubInternal; Do (STF (R R10) 192);
  Do (STF (R R11) 200); Do (STF (R R12) 208); Do (STF (R R13) 216); Do (MOV (R R10) R14);
  Do (MOV (R R11) R15); Do (MOV (R R12) DI); Do (MOV (R R13) SI); Do (LDF 320 R10); Do (LDF 328 R11);
  Do (LDF 336 R12); Do (LDF 344 R13); Call sm2SubInternal; Do (LDF 512 R14); Do (LDF 520 R15);
  Do (LDF 528 DI); Do (LDF 536 SI); Call sm2MulInternal; Do (LDF 384 R14); Do (LDF 392 R15); Do (LDF 400 DI);
  Do (LDF 408 SI); Call sm2SubInternal; Do (STF (R R10) 224); Do (STF (R R11) 232); Do (STF (R R12) 240);
  Do (STF (R R13) 248); Do (XLDF 192 0); Do (XLDF 208 1); Do (XLDF 224 2); Do (XLDF 240 3); Do (XLDF 256 4);
  Do (XLDF 272 5); Do (LDF 640 AX); Do (STF (K 0) 640); Do (XST 0 AX 0); Do (XST 1 AX 16); Do (XST 2 AX 32);
  Do (XST 3 AX 48); Do (XST 4 AX 64); Do (XST 5 AX 80)
].

(** sm2/p256_asm_amd64.s:2499: the frame of 672 bytes, in words *)
Definition sm2PointAddAsm_frame : nat := 84%nat.

(** sm2/p256_asm_amd64.s:2670-2792 *)
Definition sm2PointDoubleAsm : list item := [
  Do (LDA 0 AX); Do (LDA 24 BX); Do (XLD BX 0 0); Do (XLD BX 16 1); Do (XLD BX 32 2); Do (XLD BX 48 3);
  Do (XLD BX 64 4); Do (XLD BX 80 5); Do (XSTF 0 0); Do (XSTF 1 16); Do (XSTF 2 32); Do (XSTF 3 48);
  Do (XSTF 4 64); Do (XSTF 5 80); Do (STF (R AX) 224); Do (LDF 64 R10); Do (LDF 72 R11); Do (LDF 80 R12);
  Do (LDF 88 R13); Call sm2SqrInternal; Do (STF (R R10) 160); Do (STF (R R11) 168); Do (STF (R R12) 176);
  Do (STF (R R13) 184); Do (LDF 0 R14); Do (LDF 8 R15); Do (LDF 16 DI); Do (LDF 24 SI); Do (XOR (R AX) AX);
  Do (ADD (R R14) R10); Do (ADC (R R15) R11); Do (ADC (R DI) R12); Do (ADC (R SI) R13); Do (ADC (K 0) AX);
  Do (MOV (R R10) R14); Do (MOV (R R11) R15); Do (MOV (R R12) DI); Do (MOV (R R13) SI);
  Do (SUB (K 18446744073709551615) R14); Do (SBB (K 18446744069414584320) R15);
  Do (SBB (K 18446744073709551615) DI); Do (SBB (K 18446744069414584319) SI); Do (SBB (K 0) AX);
  Do (CMOVCS R10 R14); Do (CMOVCS R11 R15); Do (CMOVCS R12 DI); Do (CMOVCS R13 SI); Do (STF (R R14) 128);
  Do (STF (R R15) 136); Do (STF (R DI) 144); Do (STF (R SI) 152); Do (LDF 64 R10); Do (LDF 72 R11);
  Do (LDF 80 R12); Do (LDF 88 R13); Do (LDF 32 R14); Do (LDF 40 R15); Do (LDF 48 DI); Do (LDF 56 SI);
  Call sm2MulInternal; Do (XOR (R AX) AX); Do (ADD (R R10) R10); Do (ADC (R R11) R11); Do (ADC (R R12) R12);
  Do (ADC (R R13) R13); Do (ADC (K 0) AX); Do (MOV (R R10) R14); Do (MOV (R R11) R15); Do (MOV (R R12) DI);
  Do (MOV (R R13) SI); Do (SUB (K 18446744073709551615) R14); Do (SBB (K 18446744069414584320) R15);
  Do (SBB (K 18446744073709551615) DI); Do (SBB (K 18446744069414584319) SI); Do (SBB (K 0) AX);
  Do (CMOVCS R10 R14); Do (CMOVCS R11 R15); Do (CMOVCS R12 DI); Do (CMOVCS R13 SI); Do (LDF 224 AX);
  Do (STO R14 AX 64); Do (STO R15 AX 72); Do (STO DI AX 80); Do (STO SI AX 88); Do (LDF 0 R10);
  Do (LDF 8 R11); Do (LDF 16 R12); Do (LDF 24 R13); Do (LDF 160 R14); Do (LDF 168 R15); Do (LDF 176 DI);
  Do (LDF 184 SI); Call sm2SubInternal; Do (LDF 128 R14); Do (LDF 136 R15); Do (LDF 144 DI); Do (LDF 152 SI);
  Call sm2MulInternal; Do (STF (R R10) 128); Do (STF (R R11) 136); Do (STF (R R12) 144); Do (STF (R R13) 152);
  Do (XOR (R AX) AX); Do (ADD (R R10) R10); Do (ADC (R R11) R11); Do (ADC (R R12) R12); Do (ADC (R R13) R13);
  Do (ADC (K 0) AX); Do (MOV (R R10) R14); Do (MOV (R R11) R15); Do (MOV (R R12) DI); Do (MOV (R R13) SI);
  Do (SUB (K 18446744073709551615) R14); Do (SBB (K 18446744069414584320) R15);
  Do (SBB (K 18446744073709551615) DI); Do (SBB (K 18446744069414584319) SI); Do (SBB (K 0) AX);
  Do (CMOVCS R10 R14); Do (CMOVCS R11 R15); Do (CMOVCS R12 DI); Do (CMOVCS R13 SI); Do (LDF 128 R10);
  Do (LDF 136 R11); Do (LDF 144 R12); Do (LDF 152 R13); Do (XOR (R AX) AX); Do (ADD (R R14) R10);
  Do (ADC (R R15) R11); Do (ADC (R DI) R12); Do (ADC (R SI) R13); Do (ADC (K 0) AX); Do (MOV (R R10) R14);
  Do (MOV (R R11) R15); Do (MOV (R R12) DI); Do (MOV (R R13) SI); Do (SUB (K 18446744073709551615) R14);
  Do (SBB (K 18446744069414584320) R15); Do (SBB (K 18446744073709551615) DI);
  Do (SBB (K 18446744069414584319) SI); Do (SBB (K 0) AX); Do (CMOVCS R10 R14); Do (CMOVCS R11 R15);
  Do (CMOVCS R12 DI); Do (CMOVCS R13 SI); Do (STF (R R14) 128); Do (STF (R R15) 136); Do (STF (R DI) 144);
  Do (STF (R SI) 152); Do (LDF 32 R10); Do (LDF 40 R11); Do (LDF 48 R12); Do (LDF 56 R13); Do (XOR (R AX) AX);
  Do (ADD (R R10) R10); Do (ADC (R R11) R11); Do (ADC (R R12) R12); Do (ADC (R R13) R13); Do (ADC (K 0) AX);
  Do (MOV (R R10) R14); Do (MOV (R R11) R15); Do (MOV (R R12) DI); Do (MOV (R R13) SI);
  Do (SUB (K 18446744073709551615) R14); Do (SBB (K 18446744069414584320) R15);
  Do (SBB (K 18446744073709551615) DI); Do (SBB (K 18446744069414584319) SI); Do (SBB (K 0) AX);
  Do (CMOVCS R10 R14); Do (CMOVCS R11 R15); Do (CMOVCS R12 DI); Do (CMOVCS R13 SI); Do (MOV (R R14) R10);
  Do (MOV (R R15) R11); Do (MOV (R DI) R12); Do (MOV (R SI) R13); Call sm2SqrInternal; Do (STF (R R10) 96);
  Do (STF (R R11) 104); Do (STF (R R12) 112); Do (STF (R R13) 120); Call sm2SqrInternal; Do (XOR (R AX) AX);
  Do (MOV (R R10) R14); Do (MOV (R R11) R15); Do (MOV (R R12) DI); Do (MOV (R R13) SI);
  Do (ADD (K 18446744073709551615) R10); Do (ADC (K 18446744069414584320) R11);
  Do (ADC (K 18446744073709551615) R12); Do (ADC (K 18446744069414584319) R13); Do (ADC (K 0) AX);
  Do (TEST (K 1) R14); Do (CMOVEQ R14 R10); Do (CMOVEQ R15 R11); Do (CMOVEQ DI R12); Do (CMOVEQ SI R13);
  Do (AND (R R14) AX); Do (SHRD 1 R10 R11); Do (SHRD 1 R11 R12); Do (SHRD 1 R12 R13); Do (SHRD 1 R13 AX);
  Do (STF (R R10) 32); Do (STF (R R11) 40); Do (STF (R R12) 48); Do (STF (R R13) 56); Do (LDF 0 R10);
  Do (LDF 8 R11); Do (LDF 16 R12); Do (LDF 24 R13); Do (LDF 96 R14); Do (LDF 104 R15); Do (LDF 112 DI);
  Do (LDF 120 SI); Call sm2MulInternal; Do (STF (R R10) 96); Do (STF (R R11) 104); Do (STF (R R12) 112);
  Do (STF (R R13) 120); Do (XOR (R AX) AX); Do (ADD (R R10) R10); Do (ADC (R R11) R11); Do (ADC (R R12) R12);
  Do (ADC (R R13) R13); Do (ADC (K 0) AX); Do (MOV (R R10) R14); Do (MOV (R R11) R15); Do (MOV (R R12) DI);
  Do (MOV (R R13) SI); Do (SUB (K 18446744073709551615) R14); Do (SBB (K 18446744069414584320) R15);
  Do (SBB (K 18446744073709551615) DI); Do (SBB (K 18446744069414584319) SI); Do (SBB (K 0) AX);
  Do (CMOVCS R10 R14); Do (CMOVCS R11 R15); Do (CMOVCS R12 DI); Do (CMOVCS R13 SI); Do (STF (R R14) 192);
  Do (STF (R R15) 200); Do (STF (R DI) 208); Do (STF (R SI) 216); Do (LDF 128 R10); Do (LDF 136 R11);
  Do (LDF 144 R12); Do (LDF 152 R13); Call sm2SqrInternal; Do (LDF 192 R14); Do (LDF 200 R15);
  Do (LDF 208 DI); Do (LDF 216 SI); Call sm2SubInternal; Do (LDF 224 AX); Do (STO R10 AX 0);
  Do (STO R11 AX 8); Do (STO R12 AX 16); Do (STO R13 AX 24); Do (MOV (R R10) R14); Do (MOV (R R11) R15);
  Do (MOV (R R12) DI); Do (MOV (R R13) SI); Do (LDF 96 R10); Do (LDF 104 R11); Do (LDF 112 R12);
  Do (LDF 120 R13); Call sm2SubInternal; Do (LDF 128 R14); Do (LDF 136 R15); Do (LDF 144 DI); Do (LDF 152 SI);
  Call sm2MulInternal; Do (LDF 32 R14); Do (LDF 40 R15); Do (LDF 48 DI); Do (LDF 56 SI); Call sm2SubInternal;
  Do (LDF 224 AX); Do (STO R10 AX 32); Do (STO R11 AX 40); Do (STO R12 AX 48); Do (STO R13 AX 56);
  Do (STF (K 0) 224)
].

(** sm2/p256_asm_amd64.s:2670: the frame of 256 bytes, in words *)
Definition sm2PointDoubleAsm_frame : nat := 32%nat.

(** sm2/p256_asm_amd64.s:93-94: a jump to the other function *)
Definition sm2LittleToBig : list instr := sm2BigToLittle.
